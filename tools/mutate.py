"""Runs seeded faults against the theorems.

usage: mutate.py FAULTS.json [first [last]]

Each fault is {"file", "definition", "old", "new", "claim"}, or has "edits", a list of [old, new], instead of
"old" and "new".  Only the first occurrence of each old text is replaced.  The theories are copied to a scratch directory
together with their compiled files, the fault is applied and everything that depends on the file is rebuilt.
The lemma whose proof fails first is reported, and a line is appended to seeded/LOG.jsonl."""
import json, os, re, shutil, subprocess, sys
root = os.path.dirname(os.path.dirname(os.path.abspath(__file__)))
source = os.environ.get("SRC", os.path.join(root, "rocq"))   # SRC: a built snapshot of rocq
scratch = os.environ.get("SCRATCH", "/tmp/mut/rocq")
faults = json.load(open(sys.argv[1]))
first = int(sys.argv[2]) if len(sys.argv) > 2 else 0
last = int(sys.argv[3]) if len(sys.argv) > 3 else len(faults)

def enclosing(path, line):
    text = open(path).read().split("\n")
    for k in range(line - 1, -1, -1):
        m = re.match(r"\s*(?:Local |Global )?(?:Lemma|Theorem|Corollary|Example|Definition|Fixpoint|Fact)\s+(\w+)", text[k])
        if m:
            return m.group(1)
    return "?"

deps = {}
for f in os.listdir(os.path.join(source, "theories")):
    if f.endswith(".v"):
        t = open(os.path.join(source, "theories", f)).read()
        used = set()
        for m in re.findall(r"From Verif Require Import ([^.]*)\.", t):
            used |= set(m.split())
        deps[f[:-2]] = used
def downstream(x):
    out = set(); todo = [x]
    while todo:
        y = todo.pop()
        for f, u in deps.items():
            if y in u and f not in out:
                out.add(f); todo.append(f)
    return out

for n, fault in list(enumerate(faults))[first:last]:
    shutil.rmtree(scratch, ignore_errors=True)
    subprocess.run(["cp", "-a", source, scratch], check=True)
    path = os.path.join(scratch, "theories", fault["file"])
    text = open(path).read()
    edits = fault.get("edits") or [[fault["old"], fault["new"]]]
    if any(text.count(old) < 1 for old, _ in edits):
        print(n, "NOT APPLICABLE", fault["definition"]); continue
    for old, new in edits:
        text = text.replace(old, new, 1)
    open(path, "w").write(text)
    subprocess.run("coq_makefile -f _CoqProject -o Makefile >/dev/null", shell=True, cwd=scratch)
    r = subprocess.run("ulimit -v 12000000; timeout 1500 make -k -j%s 2>&1" % os.environ.get("J", "2"), shell=True, cwd=scratch,
                       capture_output=True, text=True)
    errs = []
    for m in re.finditer(r'File "\./theories/(\w+)\.v", line (\d+), characters[^\n]*\n(?!Warning)(?=[^\n]*Error|Error)', r.stdout):
        errs.append("%s.%s" % (m.group(1), enclosing(os.path.join(scratch, "theories", m.group(1) + ".v"), int(m.group(2)))))
    errs = list(dict.fromkeys(errs))
    if r.returncode == 124: errs.append("timeout")
    bad = set(e.split(".")[0] for e in errs)
    lost = set()
    for b in bad: lost |= downstream(b)
    props = sorted(f for f in (lost | bad) if f.startswith("Props"))
    out = {"definition": fault["file"][:-2] + "." + fault["definition"], "edit": " ;; ".join(old + "  ==>  " + new for old, new in edits),
           "claim": fault["claim"], "failed": errs, "property_files_not_rebuilt": props,
           "tightened": fault.get("tightened", [])}
    print(n, json.dumps(out), flush=True)
    with open(os.path.join(root, "seeded", "LOG.jsonl"), "a") as f:
        f.write(json.dumps(out) + "\n")
