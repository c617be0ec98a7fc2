#!/usr/bin/env python3
"""Translates src/events/*.c into rocq/theories/EventTable.v: one record per event function, statement by statement."""
import re, glob, os, sys
REPO = '/repo/src/'
def consts():
    """#define NAME value and enumerators NAME = value of the class, type and priority headers"""
    c = {}
    for f in glob.glob(REPO + '**/*.h', recursive=True):
        s = open(f, errors='replace').read()
        for m in re.finditer(r'^#define\s+(VSCP_(?:CLASS|TYPE)_\w+)\s+\(?\s*(0x[0-9a-fA-F]+|\d+)[uU]?\s*\)?', s, re.M): c[m.group(1)] = int(m.group(2), 0)
        for m in re.finditer(r'^\s*(VSCP_(?:CLASS|TYPE|PRIORITY|DATA_CODING)_\w+)\s*=\s*(0x[0-9a-fA-F]+|\d+)', s, re.M): c[m.group(1)] = int(m.group(2), 0)
        for m in re.finditer(r'typedef enum\s*\{(.*?)\}', s, re.S):
            v = -1
            for e in re.sub(r'/\*.*?\*/', '', m.group(1), flags=re.S).split(','):
                e = e.strip()
                if not e: continue
                n, _, x = e.partition('=')
                try: v = int(x.strip().rstrip('uU'), 0) if x.strip() else v + 1
                except ValueError: break
                c[n.strip()] = v
    return c
K = consts()
def documentation(s):
    """function -> parameter -> description"""
    d = {}
    for m in re.finditer(r'/\*\*((?:(?!\*/).)*)\*/\s*extern BOOL (vscp_evt_\w+)\(', s, re.S):
        d[m.group(2)] = dict((x.group(1), re.sub(r'\s*\n \* ?', ' ', x.group(2))) for x in re.finditer(r'@param\[in\] (\w+) (.*?)(?= \* @|$| \* \n)', m.group(1), re.S))
    return d
WIDTH = {'uint8_t': 1, 'uint16_t': 2, 'uint32_t': 4}
def params(ps):
    out = []
    if ps.strip() == 'void': return out
    for p in ps.split(','):
        t = p.split(); name = t[-1]; ty = ' '.join(t[:-1])
        out.append([name, ty])
    return out
def translate(name, ps, lines, start, doc):
    """-> (class, type, prio, sig, stmts); raises on anything unknown"""
    P = params(ps); idx = {n: i for i, (n, _) in enumerate(P)}
    stack = [[]]; cls = None; pend = None; i = 0
    toks = [(start + k, l.strip()) for k, l in enumerate(lines) if l.strip() and not re.match(r'^/\*.*\*/$', l.strip())]
    def emit(x): stack[-1].append(x)
    sent = False
    while i < len(toks):
        ln, l = toks[i]
        def m(r): return re.fullmatch(r, l)
        x = None
        if m(r'vscp_TxMessage\s+txMsg;') or m(r'uint8_t\s+(size|byteIndex)\s*=\s*0;'): pass
        elif (x := m(r'vscp_core_prepareTxMessage\(&txMsg, (\w+), (\w+), (\w+)\);')): cls = x.groups()
        elif (x := m(r'txMsg\.data\[(\d+)\] = (\w+);')): emit(('Set', int(x[1]), ('Par', idx[x[2]])))
        elif (x := m(r'txMsg\.data\[(\d+)\] = \(\(uint8_t\*\)&(\w+)\)\[(\d+)\];')): emit(('Set', int(x[1]), ('Byte', idx[x[2]], int(x[3]))))
        elif (x := m(r'txMsg\.data\[(\d+)\] = \(uint8_t\)\(\((\w+) >> (\d+)\) & 0xff\);')): emit(('Set', int(x[1]), ('Shift', idx[x[2]], int(x[3]))))
        elif (x := m(r'txMsg\.data\[(\d+)\] = \(uint8_t\)\(\(\*(\w+) >> (\d+)\) & 0xff\);')): emit(('Set', int(x[1]), ('Shift', idx[x[2]], int(x[3]))))
        elif (x := m(r'txMsg\.data\[(\d+)\] = \*(\w+);')): emit(('Set', int(x[1]), ('Par', idx[x[2]])))
        elif (x := m(r'txMsg\.data\[(\d+)\] = vscp_data_coding_getFormatByte\(VSCP_DATA_CODING_REPRESENTATION_NORMALIZED_INTEGER, (\w+), (\w+)\);')): emit(('Set', int(x[1]), ('Fmt', idx[x[2]], idx[x[3]])))
        elif (x := m(r'size \+= (\d+);')): emit(('Add', int(x[1])))
        elif (x := m(r'txMsg\.dataSize = (\d+);')): emit(('SizeIs', int(x[1])))
        elif m(r'txMsg\.dataSize = size;'): emit(('SizeVar',))
        elif (x := m(r'txMsg\.dataSize \+= vscp_data_coding_int32ToNormalizedInteger\((\w+), (\w+), &txMsg\.data\[(\d+)\], VSCP_L1_DATA_SIZE - txMsg\.dataSize\);')): emit(('Norm', int(x[3]), idx[x[1]], idx[x[2]]))
        elif (x := m(r'if \(\(NULL == (\w+)\) \|\| \(0 == (\w+)\)\)')):
            assert [t[1] for t in toks[i+1:i+4]] == ['{', 'return FALSE;', '}']
            emit(('Guard', idx[x[1]], idx[x[2]])); i += 3
        elif (x := m(r'if \(NULL != (\w+)\)')):
            assert toks[i+1][1] == '{'; stack.append([]); pend = idx[x[1]]; stack[-1].append(('HDR', pend)); i += 1
        elif (x := m(r'for\(byteIndex = 0; byteIndex < (\w+); \+\+byteIndex\)')):
            b = [t[1] for t in toks[i+1:i+9]]
            y = re.fullmatch(r'txMsg\.data\[(\d+) \+ byteIndex\] = (\w+)\[byteIndex\];', b[1])
            assert b[0] == '{' and y and b[2] == 'size += 1;' and b[3] == 'if (VSCP_L1_DATA_SIZE <= size)' and b[4:8] == ['{', 'break;', '}', '}'], b
            emit(('Loop', int(y[1]), idx[y[2]], idx[x[1]])); i += 8
        elif l == '}': b = stack.pop(); emit(('IfPtr', b[0][1], b[1:]))
        elif m(r'return vscp_core_sendEvent\(&txMsg\);'): sent = True; assert i == len(toks) - 1
        else: raise Exception('%s:%d %s' % (name, ln, l))
        i += 1
    assert sent and len(stack) == 1 and cls
    # signature
    sig = []
    norm = any(s[0] == 'Norm' for s in stack[0])
    for i, (n, t) in enumerate(P):
        nxt = P[i+1] if i+1 < len(P) else None
        prev = P[i-1] if i else None
        if t == 'uint8_t const * const' and nxt and nxt[0] == n + 'Size': k = ('PBuf', 'false' if 'optional' in doc[n] else 'true')
        elif t == 'uint8_t' and prev and '*' in prev[1] and n == prev[0] + 'Size': k = ('PSize',)
        elif t.endswith(' const * const'): k = ('PRef', WIDTH[t.split()[0]])
        elif t == 'float_t': k = ('PFloat',)
        elif t == 'double_t': k = ('PDouble',)
        elif t == 'int32_t' and norm: k = ('PData',)
        elif t == 'int8_t' and norm: k = ('PExp',)
        elif t == 'int32_t': k = ('PInt', 4)
        elif t in WIDTH: k = ('PUnit',) if norm and n == 'unit' else ('PInt', WIDTH[t])
        else: raise Exception('%s: parameter type %s' % (name, t))
        sig.append((n, k))
    return cls, sig, stack[0]
def allsenders():
    out = []
    for f in sorted(glob.glob(REPO + 'events/*.c')):
        s = open(f).read(); n = 0; D = documentation(s)
        for m in re.finditer(r'^extern BOOL (vscp_evt_\w+)\(([^)]*)\)\s*\n\{\n(.*?)^\}', s, re.M | re.S):
            a = s[:m.start()].count('\n') + 1; b = s[:m.end()].count('\n') + 1
            body0 = s[:m.start(3)].count('\n') + 1
            cls, sig, st = translate(m.group(1), m.group(2), m.group(3).rstrip('\n').split('\n'), body0, D.get(m.group(1), {}))
            out.append((os.path.basename(f), a, b, m.group(1), cls, sig, st)); n += 1
        assert n == len(re.findall(r'^extern ', s, re.M)), f
        assert not re.findall(r'^static ', s, re.M), f
    return out

def N(x): return str(x)
def exp(e, sig):
    if e[0] == 'Byte': return '(Byte %d %d %d)' % (e[1], {'PFloat': 4, 'PDouble': 8, 'PInt': sig[e[1]][1][-1]}[sig[e[1]][1][0]], e[2])
    if e[0] == 'Fmt': return '(Fmt %d %d %d)' % (K['VSCP_DATA_CODING_REPRESENTATION_NORMALIZED_INTEGER'], e[1], e[2])
    return '(' + ' '.join(map(str, e)) + ')'
def basic(s, sig):
    if s[0] == 'Set': return 'Set_ %d %s' % (s[1], exp(s[2], sig))
    return ' '.join(map(str, s))
def stmt(s, sig):
    if s[0] == 'IfPtr': return 'IfPtr %d [%s]' % (s[1], '; '.join(basic(b, sig) for b in s[2]))
    if s[0] == 'Guard': return 'Guard %d %d' % (s[1], s[2])
    return 'Do (%s)' % basic(s, sig)
def kind(k): return ' '.join(map(str, k))
HEAD = """(* EventTable.v - generated by tools/events.py from src/events/*.c: every function of these files, statement by
   statement. The values of the class, type and priority constants are those of src/vscp_class_l1.h,
   src/vscp_type_*.h and src/vscp_types.h. Whether a buffer is optional is taken from the function's documentation. *)
From Coq Require Import String.
From Verif Require Export Events.
Local Open Scope string_scope.
Local Open Scope N_scope.
"""
def generate():
    S = allsenders(); out = [HEAD]; files = {}
    for f, a, b, name, cls, sig, st in S:
        short = name.replace('vscp_evt_', 'evt_'); files.setdefault(f, []).append(short)
        out.append('(* src/events/%s:%d-%d %s *)' % (f, a, b, name))
        out.append('Definition %s : Sender := mkSender "%s" %d %d %d [%s]\n  [%s].' % (short, name, K[cls[0]], K[cls[1]], K[cls[2]],
            '; '.join('("%s", %s)' % (n, kind(k)) for n, k in sig), '; '.join(stmt(s, sig) for s in st)))
    for f in files:
        g = f[:-2].replace('vscp_evt_', 'events_'); out.append('(* all functions of src/events/%s *)' % f)
        out.append('Definition %s : list Sender := [%s].' % (g, '; '.join(files[f])))
    out.append('(* all functions of src/events *)')
    out.append('Definition eventModules : list (list Sender) := [%s]%%list.' % '; '.join(f[:-2].replace('vscp_evt_', 'events_') for f in files))
    out.append('Definition eventTable : list Sender := concat eventModules.')
    return '\n'.join(out) + '\n'
if __name__ == '__main__': sys.stdout.write(generate())
