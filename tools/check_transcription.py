#!/usr/bin/env python3
"""Compares the mechanical parts of the model with the Rust text (no part of the proofs; a check of the transcription).

1. M_FeProg.v, M_ScProg.v: every straight-line program, statement by statement, with the width of every operation
   inferred from the Rust types (i64::from makes a value 64 bits wide; `as i32` truncates).
2. M_EdConst.v: all numbers of const_curve25519.rs.
3. M_Sha2.v: round constants and initial states of sha2.rs.
4. The loads and stores of limbs.
5. The sequences of field operations of inversion, square root, the ladder step and the point formulas.
6. Every citation file.rs:a-b [name] in M_*.v: the lines exist and the name occurs in them.

Usage: check_transcription.py [/repo] [/verif/rocq/theories]
"""
import re, sys, glob, os
REPO = sys.argv[1] if len(sys.argv) > 1 else '/repo'
TH = sys.argv[2] if len(sys.argv) > 2 else os.path.join(os.path.dirname(os.path.abspath(__file__)), '../rocq/theories')
bad = 0
def report(ok, what):
    global bad
    if not ok: bad += 1
    print(('ok   ' if ok else 'FAIL ') + what)
def rust(f): return open(f'{REPO}/src/{f}').read()
def coq(f): return open(f'{TH}/{f}').read()

# ---------- Rust expressions
def tok_rust(s):
    return re.findall(r'i64::from|i32::from|[A-Za-z_$]\w*|0x[0-9a-fA-F_]+|\d[\d_]*|<<|>>|[-+*()\[\].,]', s)
class RP:
    def __init__(s, t, ty): s.t, s.i, s.ty = t, 0, ty
    def peek(s): return s.t[s.i] if s.i < len(s.t) else None
    def next(s): s.i += 1; return s.t[s.i - 1]
    # returns (ast, width or None for untyped literal)
    def shift(s):
        e = s.add()
        while s.peek() in ('<<', '>>'):
            op = s.next(); k = s.add()
            assert k[0][0] == 'C'
            w = e[1] or 64
            e = (('Shr', e[0], k[0][1]) if op == '>>' else ('Shl', w, e[0], k[0][1]), w)
        return e
    def bin(s, op, a, b):
        w = a[1] or b[1]
        if w is None:                      # literals: fold
            v = {'Add': lambda x, y: x + y, 'Sub': lambda x, y: x - y, 'Mul': lambda x, y: x * y}[op](a[0][1], b[0][1])
            return (('C', v), None)
        assert a[1] in (w, None) and b[1] in (w, None), (op, a, b)
        return ((op, w, a[0], b[0]), w)
    def add(s):
        e = s.mul()
        while s.peek() in ('+', '-'):
            op = 'Add' if s.next() == '+' else 'Sub'
            e = s.bin(op, e, s.mul())
        return e
    def mul(s):
        e = s.cast()
        while s.peek() == '*':
            s.next(); e = s.bin('Mul', e, s.cast())
        return e
    def cast(s):
        e = s.atom()
        while s.peek() == 'as':
            s.next(); w = int(s.next()[1:]); e = (('As', w, e[0]), w)
        return e
    def atom(s):
        t = s.next()
        if t == '(':
            e = s.shift(); assert s.next() == ')'; return e
        if t == '-':
            e = s.atom(); assert e[0][0] == 'C'; return (('C', -e[0][1]), None)
        if t in ('i64::from', 'i32::from'):
            assert s.next() == '('; e = s.shift(); assert s.next() == ')'; return (e[0], int(t[1:3]))
        if re.match(r'\d', t):
            m = re.match(r'(0x[0-9a-fA-F_]+|[\d_]+)$', t)
            return (('C', int(m.group(1).replace('_', ''), 0)), None)
        return (('V', t), s.ty[t])
def fold(e):          # 1 << 24 with literal operands
    if e[0] == 'Shl' and e[2][0] == 'C': return ('C', e[2][1] << e[3])
    return tuple(fold(x) if isinstance(x, tuple) else x for x in e)

# ---------- Coq expressions
def tok_coq(s): return re.findall(r'[A-Za-z_]\w*|-?\d+|[()\[\];]', s)
class CP:
    def __init__(s, t): s.t, s.i = t, 0
    def peek(s): return s.t[s.i] if s.i < len(s.t) else None
    def next(s): s.i += 1; return s.t[s.i - 1]
    def arg(s):
        t = s.peek()
        if t == '(':
            s.next(); e = s.expr(); assert s.next() == ')', s.t[s.i-5:s.i+5]; return e
        return ('V', s.next())
    def expr(s):
        t = s.peek()
        if t in ('Add', 'Sub', 'Mul'):
            s.next(); w = int(s.next()); a = s.arg(); return (t, w, a, s.arg())
        if t == 'Shr': s.next(); a = s.arg(); return ('Shr', a, int(s.next()))
        if t == 'Shl': s.next(); w = int(s.next()); a = s.arg(); return ('Shl', w, a, int(s.next()))
        if t == 'As': s.next(); w = int(s.next()); return ('As', w, s.arg())
        if t == 'C': 
            s.next()
            if s.peek() == '(': s.next(); v = int(s.next()); s.next(); return ('C', v)
            return ('C', int(s.next()))
        if t == 'V': s.next(); return ('V', s.next())
        if t == 'sum':
            s.next(); w = int(s.next()); e = s.arg(); assert s.next() == '['
            while True:
                e = ('Add', w, e, s.expr())
                if s.next() == ']': return e
        return s.arg()

def coq_prog(text, name):
    m = re.search(r'Definition %s : prog := \{\|\s*params := \[(.*?)\];\s*body := \[(.*?)\];\s*outs := \[(.*?)\] \|\}\.' % name, text, re.S)
    params = [x.strip() for x in m.group(1).split(';')]
    body = []
    p = CP(tok_coq(m.group(2)))
    while p.peek() is not None:
        assert p.next() == 'Let'; x = p.next(); body.append((x, p.arg()))
        if p.peek() == ';': p.next()
    outs = []
    p = CP(tok_coq(m.group(3)))
    while p.peek() is not None:
        outs.append(p.expr())
        if p.peek() == ';': p.next()
    return params, body, outs

def cited(text, name):
    i = text.index('Definition %s ' % name)
    c = re.findall(r'(\w+\.rs):(\d+)-(\d+)', text[:i])[-1]
    return c[0], int(c[1]), int(c[2])

PARAM_WIDTH = {'fe_mul_prog': 32, 'fe_sq_prog': 32, 'mul121666_prog': 32, 'from_bytes_prog': 64, 'write_bytes_prog': 32,
               'twice_sq_prog': 32, 'sc_muladd_prog': 64, 'sc_reduce_prog': 64}
for f in ('M_FeProg.v', 'M_ScProg.v'):
    text = coq(f)
    for name in re.findall(r'Definition (\w+_prog) ', text):
        file, a, b = cited(text, name)
        src = '\n'.join(rust(file).split('\n')[a - 1:b])
        src = re.sub(r'//.*', '', src)
        params, body, outs = coq_prog(text, name)
        ty = {p: PARAM_WIDTH[name] for p in params}
        got, skipped, arr = [], [], {}
        for st in src.split(';'):
            st = ' '.join(st.split())
            st = re.sub(r'^.*[{}] ?', '', st)
            m = re.match(r'(let (?:mut )?)?([a-z]\w*)(?:: i(?:32|64))? ([-+]?)= (.*)$', st)
            if m and not re.search(r'\$|\[|load_|&|\bself\b|\bs\.', m.group(4)) and '!' not in m.group(4):
                x, op, rhs = m.group(2), m.group(3), m.group(4)
                try:
                    if x in ('q', 's'): raise KeyError(x)
                    p = RP(tok_rust(rhs), ty); e, w = p.shift(); assert p.peek() is None, rhs
                    if op:
                        e, w = p.bin('Add' if op == '+' else 'Sub', (('V', x), ty[x]), (e, w))
                    ty[x] = w; got.append((x, fold(e)))
                    continue
                except KeyError: pass
            # h[k] = e;  stores the results
            m = re.match(r'[$\w.]*\[(\d+)\] = (.*)$', st)
            if m:
                try:
                    p = RP(tok_rust(m.group(2)), ty); e, w = p.shift()
                    if p.peek() is None: arr[int(m.group(1))] = fold(e); continue
                except (KeyError, AssertionError): pass
            if st: skipped.append(st)
        ok = got == body
        if not ok:
            for k, (g, c) in enumerate(zip(got + [None] * 999, body)):
                if g != c: print('   first difference at', k, g, c); break
            print('   lengths', len(got), len(body))
        report(ok, f'{name}: {len(body)} statements of {file}:{a}-{b}' + (f' (+{len(skipped)} loads, stores and calls modelled elsewhere)' if skipped else ''))
        if arr and len(arr) == len(outs):
            report([arr[k] for k in range(len(outs))] == outs, f'{name}: the {len(outs)} results')

# ---------- numbers
def nums(s): return [int(x.replace('_', ''), 0) for x in re.findall(r'-?\b(?:0x[0-9a-fA-F_]+|\d[\d_]*)\b', s)]
rc = re.sub(r'//.*', '', rust('const_curve25519.rs')); cc = coq('M_EdConst.v')
for name in ('D', 'D2', 'SQRTM1', 'BI', 'BASE'):
    r = re.search(r'const %s: [^=]*= (\[.*?\n\]);' % name, rc, re.S)
    c = re.search(r'Definition %s : [^:]*:=(.*?)\.\n' % name, cc, re.S)
    rn, cn = nums(r.group(1)), nums(c.group(1))
    report(rn == cn, f'{name}: {len(cn)} numbers of const_curve25519.rs')
rs = rust('sha2.rs'); cs = coq('M_Sha2.v')
cn = nums(re.sub(r'\(\*.*?\*\)', '', cs, flags=re.S))
def hexes(s): return [int(x.replace('_', ''), 16) for x in re.findall(r'0x[0-9a-fA-F_]{8,}', s)]
main = rs.split('#[cfg(test)]')[0]
rh = hexes(main)
ch = [x for x in cn if x > 2 ** 20]
from collections import Counter
report(sorted(rh) == sorted(ch) , f'sha2.rs: {len(rh)} constants (as a multiset)')
blocks_r = [hexes(x) for x in re.findall(r'= \[(.*?)\]|initial_state: \[(.*?)\]', main, re.S) for x in x if x]
blocks_r = [x for x in blocks_r if len(x) >= 8]
flat = ch
report(all(any(flat[i:i + len(bk)] == bk for i in range(len(flat))) for bk in blocks_r) and sum(map(len, blocks_r)) == len(rh),
       f'sha2.rs: the {len(blocks_r)} tables in order')

# ---------- bytes of scalars and field elements, loads of limbs
def pieces_rust(src):
    out = []
    for k, e in re.findall(r'^\s*s\[(\d+)\] = (.*) as u8;', src, re.M):
        assert int(k) == len(out) % 32, (k, len(out))
        out.append(tuple((v, op or '>>', int(n or 0)) for v, op, n in re.findall(r'([a-z]\d+)(?: (<<|>>) (\d+))?', e)))
    return out
def pieces_coq(text, name):
    body = re.search(r'Definition %s .*?:=(.*?)\.\n' % name, text, re.S).group(1)
    lst = body[body.rindex('\n  ['):]
    out = []
    for e in re.split(r'as_u8', lst)[1:]:
        out.append(tuple((a or c or d, '<<' if sh else '>>', int(b or n or 0)) for a, b, sh, c, n, d in
            re.findall(r'Z\.shiftr ([a-z]\d+) (\d+)|(shl\d\d) ([a-z]\d+) (\d+)|\b([a-z]\d+)\b', e)))
    return out
ce, ed = coq('M_Ed25519.v'), rust('ed25519.rs')
main_ed = ed.split('#[cfg(test)]')[0]
pr = pieces_rust(main_ed); pc = pieces_coq(ce, 'sc_bytes')
report(len(pr) == 64 and pr[:32] == pc and pr[32:] == pc, 'sc_bytes: both lists of 32 stores of ed25519.rs')
report(pieces_rust(rust('curve25519.rs').split('#[cfg(test)]')[0]) == pieces_coq(coq('M_Curve25519.v'), 'fe_bytes'), 'fe_bytes: 32 stores of curve25519.rs')
def loads_rust(var):
    return [(int(l), int(o or 0), int(sh or 0), bool(mk)) for mk, l, o, sh in
      re.findall(r'let (?:mut )?%s\d+ = (2097151 & )?\(?load_([34])\(&?%s(?:\[(\d+)\.\.\])?\)(?: >> (\d+)\))? as i64;' % (var, var), main_ed)]
def loads_coq(name):
    body = re.search(r'Definition %s .*?:=(.*?)\.\n' % name, ce, re.S).group(1)
    return [(int(l), int(o), int(k), not top) for l, top, o, k in re.findall(r'limb([34])(_top)? s (\d+) (\d+)', body)]
l010 = loads_coq('limbs_0_10')
for var in 'abc': report(loads_rust(var) == l010 + loads_coq('limbs12'), f'limbs12: 12 loads of {var} in ed25519.rs')
report(loads_rust('s') == l010 + loads_coq('limbs24'), 'limbs24: 24 loads in ed25519.rs')

# ---------- sequences of field operations
def body_rust(src, name):
    m = re.search(r'(?:fn %s\b|macro_rules! %s\b)' % (name, name), src)
    i = src.index('{', m.end()); d = 0
    for j in range(i, len(src)):
        d += {'{': 1, '}': -1}.get(src[j], 0)
        if d == 0: return src[i + 1:j]

def arg_rust(a):
    a = a.strip().lstrip('*&').replace('$', '')
    m = re.fullmatch(r'Fe::from\((\w+)\)', a)
    return (m.group(1) if m else a).replace('self', 'z')

def ops_rust(src, name, rename):
    res = []
    V = r'(?:\*?[\w$]+(?:\.\w+)?)'
    two = {'assign_sum': 'add', 'assign_difference': 'sub', 'assign_product': 'mul'}
    one = {'assign_square': 'sq', 'assign_twice_square': 'twice_sq', 'mul121666': 'mul121666'}
    for st in re.split(r'[;{}]', body_rust(src, name)):
        st = st.strip()
        m = re.fullmatch(r'(%s)\.(\w+)\((.*)\)' % V, st)
        if m:
            x, f, a = arg_rust(m.group(1)), m.group(2), [arg_rust(y) for y in m.group(3).split(',')]
            if f in two: res.append((x, two[f], a[0], a[1]))
            elif f in one: res.append((x, one[f], a[0]))
            elif f == 'square': res.append((x, 'sq', x))
            elif f == 'pow22523': res.append((x, 'pow22523', x))
            elif f == 'subtract_from': res.append((x, 'subtract_from', x, a[0]))
            continue
        m = re.fullmatch(r'(%s) ([-+*])= (.*)' % V, st)
        if m:
            x, y = arg_rust(m.group(1)), arg_rust(m.group(3))
            res.append((x, {'+': 'add', '-': 'sub', '*': 'mul'}[m.group(2)], x, y)); continue
        m = re.fullmatch(r'square_many!\((\w+), (\d+)\)', st)
        if m: res.append((m.group(1), 'many', m.group(1), m.group(2)))
    return [tuple(rename.get(t, t) for t in o) for o in res]

def ops_coq(text, name):
    d = re.search(r'Definition %s .*?:=\n(.*?)\.\n' % name, text, re.S).group(1)
    res = []
    A = r'(\([^()]*\)|\w+)'
    for m in re.finditer(r'(?:let! (\w+) := )?\b(fe_\w+|square_many) b %s(?: %s)?' % (A, A), d):
        x, f, a, c = m.groups()
        f = 'many' if f == 'square_many' else f[3:]
        if f in ('from_bytes', 'is_nonzero', 'is_negative', 'neg', 'write_bytes', 'invert'): continue
        ar = [re.sub(r'^\((\w+) (\w+)\)$', r'\2.\1', y) for y in (a, c) if y and y != 'in']
        ar = [re.sub(r'\.(p3|p2|c1|c)(\w+)$', r'.\2', y) if '.' in y else y for y in ar]
        res.append((x, f, *ar))
    return res

R = {'r.x': 'rx', 'r.y': 'ry', 'r.z': 'rz', 'r.t': 'rt'}
S = {'r.x': 'x', 'r.y': 'y', 'r.z': 'z', 'r.t': 't'}
C = {'r.yplusx': 'yp', 'r.yminusx': 'ym', 'r.t2d': 't2'}
H = {'h.x': 'x', 'h.y': 'y', 'h.z': 'z', 'h.t': 't'}
for rf, rn, cf, cn, ren in [
    ('curve25519.rs', 'fe_invert', 'M_Curve25519.v', 'fe_invert', {'out': None}),
    ('curve25519.rs', 'pow22523', 'M_Curve25519.v', 'fe_pow22523', {}),
    ('curve25519.rs', 'scalarmult', 'M_Curve25519.v', 'ladder_step', {}),
    ('ed25519.rs', 'ge_add', 'M_Ed25519.v', 'ge_add', R),
    ('ed25519.rs', 'ge_sub', 'M_Ed25519.v', 'ge_sub', R),
    ('ed25519.rs', 'ge_madd', 'M_Ed25519.v', 'ge_madd', R),
    ('ed25519.rs', 'ge_msub', 'M_Ed25519.v', 'ge_msub', R),
    ('ed25519.rs', 'ge_p2_dbl', 'M_Ed25519.v', 'p2_dbl', R),
    ('ed25519.rs', 'ge_p1p1_to_p2', 'M_Ed25519.v', 'p1p1_to_p2', S),
    ('ed25519.rs', 'ge_p1p1_to_p3', 'M_Ed25519.v', 'p1p1_to_p3', S),
    ('ed25519.rs', 'ge_p3_to_cached', 'M_Ed25519.v', 'p3_to_cached', C),
    ('ed25519.rs', 'from_bytes_negate_vartime', 'M_Ed25519.v', 'from_bytes_negate', H)]:
    r, c = ops_rust(rust(rf), rn, ren), ops_coq(coq(cf), cn)
    if cn == 'ladder_step': r = r[:18]                       # the loop body; the final division follows it
    if cn == 'fe_pow22523': r[-1] = (None,) + r[-1][1:]      # the result is returned
    report(r == c and len(c) > 2, f'{cn}: {len(c)} field operations')
    if r != c:
        for a, b in zip(r, c):
            if a != b: print('   ', a, b)

# ---------- citations
n = 0
for f in sorted(glob.glob(TH + '/M_*.v')):
    t = open(f).read()
    cur = None
    for m in re.finditer(r'(\w+\.rs):(\d+)(?:-(\d+))?\b((?:[^*(]|\((?!\*)|\*(?!\)))*)', t):
        file, a, b = m.group(1), int(m.group(2)), int(m.group(3) or m.group(2))
        if not os.path.exists(f'{REPO}/src/{file}'): report(False, f'{f}: no {file}'); continue
        lines = rust(file).split('\n')
        n += 1
        if not (1 <= a <= b <= len(lines)): report(False, f'{os.path.basename(f)}: {file}:{a}-{b} out of range'); continue
        nm = re.match(r'[^\[\n]{0,60}?\[(?:[A-Za-z0-9]+::)?(\w+)!?\]', m.group(4))
        if not nm: continue
        fns = [(k, x) for k, l in enumerate(lines, 1) for x in re.findall(r'(?:fn|macro_rules!) (\w+)', l)]
        if nm.group(1) not in [x for _, x in fns]: continue          # a local variable, not a function
        before = [x for k, x in fns if k <= a]
        if not re.search(r'\b%s' % re.escape(nm.group(1)), '\n'.join(lines[a - 1:b])) and nm.group(1) not in before[-1:]:
            report(False, f'{os.path.basename(f)}: {file}:{a}-{b} is not in {nm.group(1)}')
report(n > 200, f'{n} citations checked')
sys.exit(1 if bad else 0)
