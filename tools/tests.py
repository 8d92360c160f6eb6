#!/usr/bin/env python3
"""Transcribe the tests of ssbh_data/src/anim_data/buffers.rs as examples about the model.

Usage: python3 tools/tests.py > rocq/theories/TestsBuf.v
Only read_track_values, TrackValues::write and read_compressed are transcribed; a test of
another shape is reported on stderr and left out."""
import re, sys

SRC = '/repo/ssbh_data/src/anim_data/buffers.rs'
TYPES = {'Transform': 1, 'UvTransform': 2, 'Float': 3, 'PatternIndex': 5, 'Boolean': 8, 'Vector4': 9}
CTORS = {'Transform': 'TvTransform', 'UvTransform': 'TvUv', 'Float': 'TvFloat',
         'PatternIndex': 'TvPattern', 'Boolean': 'TvBool', 'Vector4': 'TvVec4'}
STRUCTS = {'UvTransform': ('Uv', ['scale_u', 'scale_v', 'rotation', 'translate_u', 'translate_v']),
           'Transform': ('Tr', ['scale', 'rotation', 'translation']),
           'Vector3': ('V3', list('xyz')), 'Vector4': ('V4', list('xyzw'))}

def tokens(s):
    s = re.sub(r'//[^\n]*', '', s)
    return re.findall(r'hex!\([^)]*\)|-?\d[\d_]*\.\d*(?:e-?\d+)?|0x[0-9a-fA-F]+|-?\d+|[A-Za-z_]\w*(?:::\w+)*!?|[^\s]', s)

class P:
    def __init__(self, s): self.t, self.i = tokens(s), 0
    def peek(self): return self.t[self.i] if self.i < len(self.t) else None
    def next(self): self.i += 1; return self.t[self.i - 1]
    def eat(self, x):
        y = self.next()
        assert x == y, (x, y, self.t[self.i - 3:self.i + 3])
    def args(self, close):
        out = []
        while self.peek() != close:
            out.append(self.expr())
            if self.peek() == ';':
                self.next(); n = self.expr(); self.eat(close)
                return [out[0]] * int(n)
            if self.peek() == ',': self.next()
        self.eat(close)
        return out
    def expr(self):
        t = self.next()
        if t == '&': return self.expr()
        if t.startswith('hex!'): return 'hex "%s"' % wrap(re.sub(r'0x', '', t[5:-1]).replace('"', '').split())
        if re.match(r'-?\d[\d_]*\.', t): return '(f "%s")' % t
        if re.match(r'0x', t): return str(int(t, 16))
        if re.match(r'-?\d', t): return t
        if t in ('true', 'false'): return t
        if t == 'vec!':
            self.eat('[')
            l = self.args(']')
            return '[' + '; '.join(strip(x) for x in l) + ']'
        name = t.split('::')
        if name[0] in ('Vector3', 'Vector4') and name[-1] == 'new':
            self.eat('('); a = self.args(')')
            return '(V%s %s)' % (name[0][-1], ' '.join(a))
        if name[0] == 'Boolean':
            self.eat('('); a = self.args(')'); return a[0]
        if name[0] in STRUCTS and len(name) == 1:
            c, fields = STRUCTS[name[0]]
            self.eat('{')
            d = {}
            while self.peek() != '}':
                n = self.next(); self.eat(':'); d[n] = self.expr()
                if self.peek() == ',': self.next()
            self.eat('}')
            assert set(d) == set(fields)
            return '(%s %s)' % (c, ' '.join(d[x] for x in fields))
        raise ValueError('expr ' + t)

def wrap(words):
    rows = [words[i:i + 9] for i in range(0, len(words), 9)]
    return '\n        '.join(' '.join(r) for r in rows)

def strip(x):
    return x[1:-1] if x.startswith('(') else x

def closing(s, i):
    """index after the bracket closing the one at s[i]"""
    d = 0
    while True:
        if s[i] in '([{': d += 1
        if s[i] in ')]}':
            d -= 1
            if d == 0: return i + 1
        i += 1

def fold(x):
    """at most about 100 characters in a line"""
    out, line = [], ''
    for w in re.split(r'(?<=;) ', x):
        if line and len(line) + len(w) > 94: out.append(line); line = w
        else: line = (line + ' ' + w) if line else w
    out.append(line)
    return '\n      '.join(out)

def main():
    src = open(SRC).read()
    line0 = src[:src.index('mod tests')].count('\n')
    text = re.sub(r'//[^\n]*', '', src)
    out = ['''(** The tests of ssbh_data/src/anim_data/buffers.rs as examples about the model, written by
    tools/tests.py from the source.  [unwrap] succeeds and the values are the recorded ones.
    Tests, not proofs: no theorem depends on this file. *)
From Verif Require Import Bytes Ssbh Formats Float32 AnimComp AnimBuf TestTools.

(** [read_compressed(...).unwrap()], seen as the values of a track *)
Definition reads (b : list Z) (v : track_values) (count : Z) : Prop :=
  returns (read_track_values b (track_type v) Compressed count) (fun r => fst r = v).
''']
    for m in re.finditer(r'#\[test\]\s*fn (\w+)\(\) \{', text):
        name = m.group(1)
        body = text[m.end():closing(text, m.end() - 1) - 1]
        line = src[:src.index('fn %s()' % name)].count('\n') + 1
        try:
            ex = test(body)
        except (ValueError, AssertionError, AttributeError) as e:
            print('left out:', name, e, file=sys.stderr)
            continue
        out.append('(** buffers.rs:%d *)' % line)
        out.append('Example %s :\n  %s.\nProof. vm_compute. repeat split. Qed.' % (name, ' /\\\n  '.join(ex)))
    print('\n'.join(out))

def test(body):
    ex = []
    env = {}
    m = re.search(r'let values = ', body)
    if m: env['values'] = P(body[m.end():]).expr()
    m = re.search(r'let data = ', body)
    if m: env['data'] = P(body[m.end():]).expr()
    m = re.search(r'read_track_values\(\s*&data,\s*TrackFlags \{\s*track_type: TrackTypeV2::(\w+),\s*'
                  r'compression_type: CompressionType::(\w+),\s*\},\s*(\w+),\s*\)', body)
    if m:
        tt, ct, n = m.groups()
        call = 'returns (read_track_values (%s)\n             %d %s %s)' % (env['data'], TYPES[tt], ct, int(n, 0))
        conds = []
        rest = body[m.end():]
        if re.search(r'Err\(Error::MalformedCompressionHeader\)', rest):
            return ['read_track_values (%s)\n             %d %s %s = Err (EData DMalformed)' % (env['data'], TYPES[tt], ct, n)]
        if 'assert!(!compensate_scale)' in rest: conds.append('snd r = false')
        if 'assert!(compensate_scale)' in rest: conds.append('snd r = true')
        m = re.search(r'TrackValues::(\w+)\(values\)\s*if values\s*==\s*', rest)
        if m:
            v = P(rest[m.end():]).expr()
            conds.append('fst r = %s\n      %s' % (CTORS[m.group(1)], fold(v)))
        if not conds:
            conds = ['True']
        return [call + '\n    (fun r => %s)' % (' /\\ '.join(conds))]
    m = re.search(r'TrackValues::write\(\s*&TrackValues::(\w+)\(', body)
    assert m, 'shape'
    tt = m.group(1)
    arg = body[m.end():closing(body, m.end() - 1) - 1]
    v = env['values'] if arg.startswith('values') else P(arg).expr()
    m = re.search(r'&mut writer,\s*CompressionType::(\w+),\s*(\w+),?\s*\)\s*\.unwrap', body)
    ct, cs = m.groups()
    h = P(re.search(r'hex!\([^)]*\)', body[m.end():]).group(0)).expr()
    tv = '%s\n      %s' % (CTORS[tt], fold(v))
    ex.append('tv_write (%s)\n    %s %s =\n  Ok (%s)' % (tv, ct, cs, h))
    m = re.search(r'read_compressed\(&mut Cursor::new\(writer.get_ref\(\)\), (\d+)\)', body)
    if m:
        ex.append('reads (%s)\n    (%s)\n    %s' % (h, tv, m.group(1)))
    return ex

main()
