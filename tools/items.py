"""Transcribes the declarations in /repo that the derive macro SsbhWrite is applied to, and the types they
mention, into Coq.

Run: python3 tools/items.py > rocq/theories/Items.v
     python3 tools/items.py serde > rocq/theories/SerdeItems.v

The second form gives the declarations deriving Serialize that are not in Items.v.
Attributes kept: ssbhwrite, br, repr and serde.  Names are written file::Name; a name is looked up in its own
file, then in ssbh_lib, then in ssbh_data."""
import os, re, sys, textwrap
serde = sys.argv[1:] == ['serde']
base = '/repo/'
files = ['ssbh_lib/src/lib.rs', 'ssbh_lib/src/strings.rs', 'ssbh_lib/src/vectors.rs'] + \
        ['ssbh_lib/src/formats/%s.rs' % x for x in 'modl nlst hlpb skel shdr nufx mesh anim matl nrpd meshex adj'.split()] + \
        ['ssbh_data/src/anim_data.rs', 'ssbh_data/src/anim_data/compression.rs']
both = list(files)
if serde:
    files += ['ssbh_data/src/%s_data.rs' % x for x in 'modl hlpb meshex adj skel matl mesh'.split()] + \
             ['ssbh_data/src/mesh_data/vector_data.rs']
LIB = set('RelPtr64 Ptr SsbhArray Vec SsbhEnum64 SsbhByteBuffer CString u8 u16 u32 u64 u128 i8 i16 i32 i64 i128 f32 f64'.split())
if serde: LIB |= set('String bool usize Option'.split())

def strip(s):
    s = re.sub(r'/\*.*?\*/', lambda m: '\n' * m.group(0).count('\n'), s, flags=re.S)
    return re.sub(r'//[^\n]*', '', s)
def close(s, i):
    pairs = {'(': ')', '[': ']', '{': '}'}
    o, c, d = s[i], pairs[s[i]], 0
    while True:
        if s[i] == o: d += 1
        elif s[i] == c:
            d -= 1
            if d == 0: return i
        i += 1
def take_attrs(s, i):
    out = []
    while True:
        i = re.compile(r'\s*').match(s, i).end()
        if s.startswith('#[', i):
            j = close(s, i + 1); out.append(s[i + 2:j]); i = j + 1
        else:
            return out, i
def split_top(s):
    out, d, cur = [], 0, ''
    s = s.replace('->', '  ').replace('=>', '  ')
    for ch in s:
        if ch in '<([{': d += 1
        if ch in '>)]}': d -= 1
        if ch == ',' and d == 0: out.append(cur); cur = ''
        else: cur += ch
    out.append(cur)
    return [x for x in out if x.strip()]

added = set()               # not in Items.v
decls, order = {}, []        # (file, name) -> (kind, ...)
def lit(s):
    s = s.strip()
    if re.fullmatch(r'(0x)?[0-9a-fA-F_]+(u\w+)?', s): return 'LInt %d' % int(re.sub(r'u\w+$', '', s), 0)
    m = re.fullmatch(r'b"(.*)"', s) or serde and re.fullmatch(r'"(.*)"', s)
    if m: return 'LByteStr [%s]' % '; '.join(str(x) for x in m.group(1).encode())
    return 'LOther'
def attr(a):
    c = re.fullmatch(r'\s*cfg_attr\(feature = "serde",\s*(serde\(.*\))\)\s*', a, re.S)
    if c and serde: a = c.group(1)
    m = re.fullmatch(r'\s*(\w+)\s*(?:\((.*)\))?\s*', a, re.S)
    if not m or m.group(1) not in ('ssbhwrite', 'br', 'repr', 'serde'): return None
    metas = []
    args = m.group(2) or ''
    v = re.fullmatch(r'\s*pre_assert\(major_version == (\d+) &&\s*minor_version == (\d+)\)\s*', args)
    if v: metas = ['MVersion %s %s' % v.groups()]
    else:
        for x in split_top(args):
            x = x.strip()
            r = re.fullmatch(r'repr\((\w+)\)', x)
            n = re.fullmatch(r'([\w:]+)\s*=\s*(.*)', x, re.S)
            if r: metas.append('MRepr "%s"' % r.group(1))
            elif n and lit(n.group(2)) != 'LOther':
                metas.append('MNameValue [%s] (%s)' % ('; '.join('"%s"' % y for y in n.group(1).split('::')), lit(n.group(2))))
            elif re.fullmatch(r'\w+', x): metas.append('MPath "%s"' % x)
            else: metas.append('MOther')
    return 'Attr "%s" (Some [%s])' % (m.group(1), '; '.join(metas))
def attrs(l):
    return '[%s]' % '; '.join(x for x in map(attr, l) if x)
def fields(body, tuple_):
    out, i = [], 0
    for n, f in enumerate(split_keep(body)):
        a, q = take_attrs(f, 0)
        f = re.sub(r'^pub(\([^)]*\))?\s+', '', f[q:].strip())
        if tuple_: out.append((str(n), a, f.strip()))
        else:
            m = re.match(r'(\w+)\s*:\s*(.*)$', f, re.S)
            out.append((m.group(1), a, m.group(2).strip()))
    return out
def split_keep(s):
    out, d, cur, k = [], 0, '', 0
    while k < len(s):
        ch = s[k]
        if s.startswith('#[', k):
            j = close(s, k + 1); cur += s[k:j + 1]; k = j + 1; continue
        if ch in '<([{': d += 1
        if ch in ')]}' or (ch == '>' and s[k - 1] not in '-='): d -= 1
        if ch == ',' and d == 0: out.append(cur); cur = ''
        else: cur += ch
        k += 1
    out.append(cur)
    return [x for x in out if x.strip()]
def generics(src, i):
    if i < len(src) and src[i] == '<':
        j, d = i, 0
        while True:
            if src[j] == '<': d += 1
            if src[j] == '>' and src[j - 1] not in '-=': d -= 1
            if d == 0: break
            j += 1
        ps = [re.sub(r'^const\s+', '', g.strip()).split(':')[0].strip() for g in split_keep(src[i + 1:j])]
        return ps, j + 1
    return [], i

for f in files:
    src = strip(open(base + f).read()).split('#[cfg(test)]')[0]
    short = os.path.basename(f)[:-3]
    def line(i): return src[:i].count('\n') + 1
    for m in re.finditer(r'pub (struct|enum) (\w+)|pub type (\w+)|^ssbh_enum!\(|ssbh_write_modular_bitfield_impl!\((\w+),\s*(\d+)\)', src, re.M):
        if m.group(4):
            decls[(short, m.group(4))] = ('bits', f, line(m.start()), line(m.end()), int(m.group(5)))
            order.append((short, m.group(4))); continue
        if m.group(3):
            ps, i = generics(src, m.end())
            j = src.index(';', i)
            decls[(short, m.group(3))] = ('alias', f, line(m.start()), line(j), ps, src[src.index('=', i) + 1:j].strip())
            order.append((short, m.group(3))); continue
        if not m.group(1):
            i = m.end() - 1; j = close(src, i); body = re.sub(r'#\[[^\n]*\]', '', src[i + 1:j])
            name = re.match(r'\s*(\w+)', body).group(1)
            vs = [(int(t.replace('u64', ''), 0), v, b.strip()) for t, v, b in
                  re.findall(r'(\w+)\s*=>\s*(\w+)\(((?:[^()]|\(\))*)\)', body)]
            decls[(short, name)] = ('case', f, line(m.start()), line(j), vs)
            order.append((short, name)); continue
        # the attributes before the item
        pre = src[:m.start()]
        k = max(pre.rfind('}'), pre.rfind(';'))
        first = pre.find('#[', k + 1)
        a, _ = take_attrs(src, first) if first >= 0 else ([], 0)
        name = m.group(2)
        if not any(re.match(r'\s*derive\(', x) and 'SsbhWrite' in x for x in a):
            if not serde or name in LIB or not any('Serialize' in x for x in a) or any(x.startswith('bitfield') for x in a): continue
            added.add((short, name))
        ps, i = generics(src, m.end())
        i = re.compile(r'\s*').match(src, i).end()
        if m.group(1) == 'struct':
            j = close(src, i)
            d = ('struct', src[i] == '(', fields(src[i + 1:j], src[i] == '('))
        else:
            j = close(src, i); vs = []
            for v in split_keep(src[i + 1:j]):
                va, q = take_attrs(v, 0); v = v[q:].strip()
                mm = re.match(r'(\w+)\s*', v); vn, rest = mm.group(1), v[mm.end():]
                if rest.startswith('='): vs.append((vn, va, int(re.sub(r'u\d+$', '', rest[1:].strip()), 0), None))
                elif not rest: vs.append((vn, va, None, None))
                else: vs.append((vn, va, None, (rest[0] == '(', fields(rest[1:close(rest, 0)], rest[0] == '('))))
            d = ('enum', vs)
        assoc = sorted(set(re.findall(r'\b(?:%s)::\w+' % '|'.join(ps), src[i:j]))) if ps else []
        decls[(short, name)] = ('item', f, line(m.start()), line(j), ps + assoc, a, d)
        order.append((short, name))

def find(short, n):
    if (short, n) in decls: return (short, n)
    c = [k for k in decls if k[1] == n and decls[k][1].startswith('ssbh_lib')]
    if not c: c = [k for k in decls if k[1] == n]
    assert len(c) == 1, (short, n, c)
    return c[0]
def ty(short, t, ps):
    t = t.strip()
    if t == '()': return 'RUnit'
    if t in ps: return '(RPath "%s" [])' % t
    if re.fullmatch(r'\d+', t): return '(RConst %s)' % t
    m = re.fullmatch(r'\[(.*);\s*(\d+)\s*\]', t, re.S)
    if m: return '(RFix %s %s)' % (ty(short, m.group(1), ps), m.group(2))
    m = re.fullmatch(r'([\w:]+)\s*<(.*)>', t, re.S)
    h, args = (m.group(1), split_keep(m.group(2))) if m else (t, [])
    h = h.split('::')[-1]
    if h not in LIB: h = '%s::%s' % find(short, h)
    return '(RPath "%s" [%s])' % (h, '; '.join(ty(short, x, ps) for x in args))
def flds(short, l, ps):
    return '[%s]' % '; '.join('Fld "%s" %s %s' % (n, attrs(a), ty(short, t, ps)) for n, a, t in l)
out = []
if serde: order = [k for k in order if k in added or decls[k][1] not in both]
for k in order:
    d = decls[k]; short = k[0]; name = '%s::%s' % k
    ident = 'i_%s_%s' % k
    cit = '(** %s:%d-%d *)\n' % (d[1], d[2], d[3])
    if d[0] == 'bits': txt = 'DeclBits "%s" %d' % (name, d[4])
    elif d[0] == 'alias':
        txt = 'DeclAlias "%s" [%s] %s' % (name, '; '.join('"%s"' % p for p in d[4]), ty(short, d[5], d[4]))
    elif d[0] == 'case':
        txt = 'DeclCase "%s" [%s]' % (name, '; '.join('(%d, ("%s", %s))' % (t, v, ty(short, b, [])) for t, v, b in d[4]))
    else:
        ps, a, x = d[4], d[5], d[6]
        if x[0] == 'struct':
            body = 'DStruct (%s %s)' % ('FUnnamed' if x[1] else 'FNamed', flds(short, x[2], ps))
        else:
            vs = []
            for vn, va, disc, fs in x[1]:
                b = 'FUnit' if fs is None else '(%s %s)' % ('FUnnamed' if fs[0] else 'FNamed', flds(short, fs[1], ps))
                vs.append('Variant "%s" %s %s %s' % (vn, attrs(va), 'None' if disc is None else '(Some %d)' % disc, b))
            body = 'DEnum [%s]' % '; '.join(vs)
        txt = 'DeclItem (Item "%s" [%s] %s (%s))' % (name, '; '.join('"%s"' % p for p in ps), attrs(a), body)
    txt = 'Definition %s : decl := %s.' % (ident, txt)
    out.append(cit + '\n'.join(textwrap.wrap(txt, 110, subsequent_indent='  ', break_long_words=False, break_on_hyphens=False)))
if serde: print('''(** The items of ssbh_lib and ssbh_data that derive Serialize and are not in Items.v, with the type
    aliases they use.  Paths are relative to /repo.  Transcribed by tools/items.py.
    A string given to an attribute is transcribed as its bytes. *)
From Verif Require Import Bytes Ssbh Derive Elab.
Open Scope string_scope.
Open Scope Z_scope.
''')
else: print('''(** The items of ssbh_lib and of ssbh_data's animation modules that derive SsbhWrite, with the type
    aliases, bit fields and ssbh_enum! declarations they use.  Paths are relative to /repo.
    Transcribed by tools/items.py.  The associated type T::Compression is a parameter. *)
From Verif Require Import Bytes Ssbh Derive Elab.
Open Scope string_scope.
Open Scope Z_scope.
''')
print('\n'.join(out))
print('\nDefinition %s : list decl :=\n' % ('serde_items' if serde else 'items') + '\n'.join(textwrap.wrap('  [%s].' % '; '.join('i_%s_%s' % k for k in order), 108, subsequent_indent='   ')))
