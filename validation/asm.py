#!/usr/bin/env python3
"""Compares rocq/theories/AsmCode.v with /repo/src/arithmetic.s, instruction by instruction.

The assembly is read as text (AT&T syntax) and the Coq lists are printed back in the same syntax; nothing is assembled or run.
The pieces of a long function are joined in the order in which AsmCode.v joins them.  Usage: validation/asm.py [path of arithmetic.s]"""
import os, re, sys

HERE = os.path.dirname(os.path.abspath(__file__))
SRC = sys.argv[1] if len(sys.argv) > 1 else '/repo/src/arithmetic.s'
COQ = os.path.join(HERE, '..', 'rocq', 'theories', 'AsmCode.v')

def read_asm():
    funs, cur = {}, None
    for n, line in enumerate(open(SRC), 1):
        line = line.split('#')[0].strip()
        m = re.match(r'(_ZN9bls12_381\w+):$', line)
        if m:
            cur = re.match(r'_ZN9bls12_381\d+(_\w+?)EPN', m[1])[1]
            assert cur not in funs
            funs[cur] = []
            continue
        if not line or line.startswith('.'):
            continue
        assert cur, (n, line)
        op, _, args = line.partition(' ')
        args = [norm(a) for a in re.split(r',(?![^(]*\))', args.replace(' ', '').replace('\t', ''))] if args.strip() else []
        funs[cur].append((n, op.strip(), args))
    return funs

def norm(a):
    if a.startswith('$'):
        return '$%d' % (int(a[1:], 0) % 2 ** 64)
    m = re.match(r'(-?\w*)\(%(\w+)\)$', a)
    if m:
        return '%d(%%%s)' % (int(m[1], 0) if m[1] else 0, m[2])
    assert re.match(r'%\w+$', a), a
    return a

def operand(t):
    t = t.strip()
    if t.startswith('('):
        t = t[1:-1].strip()
    m = re.match(r'R (\w+)$', t)
    if m: return '%' + m[1].lower()
    m = re.match(r'I \(?(-?\w+)\)?$', t)
    if m: return '$%d' % (int(m[1], 0) % 2 ** 64)
    m = re.match(r'M (\w+) \(?(-?\d+)\)?$', t)
    if m: return '%d(%%%s)' % (int(m[2]), m[1].lower())
    m = re.match(r'(R\w+)$', t)
    if m: return '%' + m[1].lower()
    raise ValueError(t)

def split_args(s):
    out, depth, cur = [], 0, ''
    for c in s:
        if c == '(' : depth += 1
        if c == ')' : depth -= 1
        if c == ' ' and depth == 0:
            if cur: out.append(cur)
            cur = ''
        else: cur += c
    if cur: out.append(cur)
    return out

def read_coq():
    src = re.sub(r'\(\*.*?\*\)', '', open(COQ).read(), flags=re.S)
    defs = {}
    for m in re.finditer(r'Definition (\w+) : list instr :=\s*(.*?)\.\s*(?=Definition|$)', src, re.S):
        body = m[2].strip()
        if body.startswith('['):
            items = [x.strip() for x in body[1:body.rindex(']')].split(';')]
            defs[m[1]] = [(split_args(x)) for x in items if x]
        else:
            defs[m[1]] = sum((defs[n] for n in re.findall(r'\w+', body)), [])
    return defs

def show(ins):
    op, args = ins[0].lower(), [operand(a) for a in ins[1:]]
    # the Coq constructors put destinations first; AT&T puts them last
    return op, args[::-1]

if __name__ == '__main__':
    asm, coq = read_asm(), read_coq()
    total = bad = 0
    for f, code in asm.items():
        name = 'asm_' + f.lstrip('_')
        if name not in coq:
            print('no list for', f); bad += 1; continue
        assert code[-1][1] in ('ret', 'retq'), f
        code = code[:-1]
        mine = coq[name]
        if len(code) != len(mine):
            print(f, 'lengths differ', len(code), len(mine)); bad += 1
        for (n, op, args), ins in zip(code, mine):
            total += 1
            o, a = show(ins)
            if (op, args) != (o, a) and (op.rstrip('q'), args) != (o.rstrip('q'), a):
                bad += 1
                print('%s:%d: %s %s  /  %s' % (f, n, op, ','.join(args), ins))
    print('%d functions, %d instructions compared, %d differences' % (len(asm), total, bad))
    sys.exit(bad != 0)
