#!/usr/bin/env python3
"""Certificate for the shipped network: for every entry, in order, its connected
component, its size (k, exponent of the formation volume factor) and origin.
Written to ShippedCert.v and checked there by Coq: nothing here is trusted."""
import sys, collections
sys.path.insert(0, '/verif/tools')
from sim_db import names, kids, convs, live
from fractions import Fraction as F

def saff(c):
    if c and c[0] == 'rev':
        r = saff(c[1])
        if r is None: return None
        p, e, q = r
        return (1 / (p + q), 0, F(0)) if e == 0 else (1 / p, -e, F(0))
    p, e, q = F(1), 0, F(0)
    for o in c:
        if o[0] == 'CMul': p *= o[1]; q *= o[1]
        elif o[0] == 'CDiv': p /= o[1]; q /= o[1]
        elif o[0] == 'CAdd': q += o[1]
        elif o[0] == 'CSub': q -= o[1]
        elif o[0] == 'CFvfDiv': e -= 1; assert q == 0
        elif o[0] == 'CFvfMul': e += 1; assert q == 0
        else: return None
    return p, e, q
adj = collections.defaultdict(list)
for i in live:
    for j, c in zip(kids[i], convs[i]):
        adj[i].append((j, c, 1)); adj[j].append((i, c, -1))
comp = {}; val = {}; n = 0
for r in live:
    if r in comp: continue
    st = [r]; comp[r] = n
    while st:
        x = st.pop()
        for j, c, d in adj[x]:
            if j not in comp: comp[j] = n; st.append(j)
    n += 1
def spread(r):
    val[r] = (F(1), 0, F(0)); dq = collections.deque([r])
    while dq:
        x = dq.popleft(); k, e, o = val[x]
        for j, c, d in adj[x]:
            a = saff(c)
            if a is None or j in val: continue
            p, f, q = a
            if d == 1: kj = k / p; ej = e - f; oj = o - q * kj
            else: kj = p * k; ej = e + f; oj = q * k + o
            val[j] = (kj, ej, oj); dq.append(j)
both = collections.defaultdict(list)
for i in live:
    for j in kids[i]:
        if i != j and i in kids[j]: both[i].append(j)
def tree(r):
    par = {r: None}; dep = {r: 0}; dq = collections.deque([r])
    while dq:
        x = dq.popleft()
        for j in both[x]:
            if j not in par: par[j] = x; dep[j] = dep[x] + 1; dq.append(j)
    return par, dep
par = {}; dep = {}
for k in range(n):
    members = [i for i in live if comp[i] == k]
    best = None
    for r in members:
        p, d = tree(r)
        assert len(p) == len(members), names[r]
        h = max(d.values())
        if best is None or h < best[0]: best = (h, r, p, d)
    par.update(best[2]); dep.update(best[3])
for r in live:
    if r not in val: spread(r)
bad = []
for i in live:
    for j, c in zip(kids[i], convs[i]):
        a = saff(c); ok = False
        if a:
            p, f, q = a; k, e, o = val[i]; k2, e2, o2 = val[j]
            ok = p * k2 == k and f + e2 == e and q * k2 + o2 == o
        if not ok: bad.append((names[i], names[j]))
# blocks (biconnected components) with a disagreeing conversion, and the
# vertex of the block through which every other unit of the component is attached
badset = {frozenset(b) for b in bad}
und = collections.defaultdict(set)
for i in live:
    for j in kids[i]:
        if i != j: und[i].add(j); und[j].add(i)
def blocks_of(root):
    sys.setrecursionlimit(10 ** 6)
    idx = {}; low = {}; st = []; out = []
    def dfs(v, p):
        idx[v] = low[v] = len(idx)
        for w in sorted(und[v]):
            if w == p: continue
            if w not in idx:
                st.append((v, w)); dfs(w, v); low[v] = min(low[v], low[w])
                if low[w] >= idx[v]:
                    b = set()
                    while True:
                        e = st.pop(); b |= set(e)
                        if e == (v, w): break
                    out.append(b)
            elif idx[w] < idx[v]:
                st.append((v, w)); low[v] = min(low[v], idx[w])
    dfs(root, None)
    return out
gates = [[], []]; gate = {}
for k in sorted({comp[live_i] for live_i in live if any(names[live_i] in b for b in badset)}):
    root = min(i for i in live if comp[i] == k)
    which = 0
    for b in sorted(blocks_of(root), key=sorted):
        if not any(frozenset((names[i], names[j])) in badset for i in b for j in und[i] if j in b): continue
        for v in sorted(b):
            gates[which].append(names[v]); gid = len(gates[which])
            seen = {v}; st = [v]
            while st:
                x = st.pop()
                gate.setdefault(x, [0, 0])[which] = gid
                for y in und[x]:
                    if y in seen or (x in b and y in b): continue
                    seen.add(y); st.append(y)
        which += 1
if __name__ == '__main__':
    for b in bad: print(b, file=sys.stderr)
    with open('/verif/rocq/theories/ShippedCert.v', 'w') as f:
        f.write('''(** * Certificate for the shipped network

    GENERATED by tools/gen_cert.py.  For every entry of the shipped network, in
    order: the number of its connected component; its depth in a tree of
    conversions and the position of its parent among its children; its size:
    numerator and denominator of k, exponent of the formation volume factor,
    origin; the units of [gates1] and [gates2] through which it is attached to
    the blocks of conversions that disagree (0: none).  Nothing depends on how it was found: it is checked in ShippedCheck.v. *)
From Coq Require Import String QArith.
From Verif Require Import Py SymAffine.
Local Open Scope Z_scope.
Record crow := Crow { c_comp : N; c_depth : nat; c_parent : nat; c_size : csize; c_g1 : N; c_g2 : N }.
Definition z (c : N) (d i : nat) (n : Z) (m : positive) : crow := Crow c d i (n # m, 0, 0%Q) 0 0.
Definition zz (c : N) (d i : nat) (n : Z) (m : positive) (e : Z) (o : Q) (g1 g2 : N) : crow := Crow c d i (n # m, e, o) g1 g2.
''')
        for n, l in (('gates1', gates[0]), ('gates2', gates[1])):
            f.write('Definition %s : list str := [%s].\n' % (n, '; '.join('u "%s"' % x for x in l)))
        f.write('Definition cert : list crow := [\n')
        rows = []
        for i in live:
            k, e, o = val[i]; t = kids[i].index(par[i]) if par[i] is not None else 0
            h = '%d %d %d %d %d' % (comp[i], dep[i], t, k.numerator, k.denominator)
            g1, g2 = gate.get(i, (0, 0))
            if e == 0 and o == 0 and g1 == 0 and g2 == 0: rows.append('z ' + h)
            else: rows.append('zz %s (%d) (%d # %d) %d %d' % (h, e, o.numerator, o.denominator, g1, g2))
        f.write(';\n'.join(rows)); f.write('].\n')
    print('depth', max(dep.values()))
