"""Regenerates MANIFEST.json from the property files: every `Theorem Cnn_...` is listed under Cnn."""
import glob, json, os, re
root = os.path.dirname(os.path.dirname(os.path.abspath(__file__)))
notes = json.load(open(os.path.join(root, "tools", "notes.json")))
found = {}
for path in sorted(glob.glob(os.path.join(root, "rocq", "theories", "Props*.v"))):
    for name in re.findall(r"^Theorem (C\d\d_\w+)", open(path).read(), re.M):
        found.setdefault(name[:3], []).append(name)
claims = []
for prop, names in sorted(found.items()):
    partial = any(n.endswith("_partial") for n in names) or notes.get(prop, {}).get("status") == "partial"
    claims.append({"property": prop, "status": "partial" if partial else "proved",
                   "theorems": names, "note": notes.get(prop, {}).get("note", "")})
json.dump({"claims": claims}, open(os.path.join(root, "MANIFEST.json"), "w"), indent=1)
