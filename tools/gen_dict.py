#!/usr/bin/env python3
"""Transcribe the tables of dictionaries.py and database.py into Coq (Dict.v).

The sources are only parsed (module ast), never imported or executed."""
import ast, sys
from fractions import Fraction
R = '/repo/src/unyts/'
dic = ast.parse(open(R + 'dictionaries.py', encoding='utf8').read())
db = ast.parse(open(R + 'database.py', encoding='utf8').read())
DSRC = open(R + 'dictionaries.py', encoding='utf8').read()
BSRC = open(R + 'database.py', encoding='utf8').read()

def qstr(s):
    return '(u "%s")' % s.replace('"', '""')
def coqlist(l, sep='; '):
    return '[' + sep.join(l) + ']'
def ident(k):
    return 'd_' + k
def num(src):
    f = Fraction(src.strip().replace('_', ''))
    return f
def q(f):
    f = Fraction(f)
    if f.denominator == 1: return '(%d # 1)' % f.numerator
    return '(%d # %d)' % (f.numerator, f.denominator)

# ---------- dictionaries.py ----------
class Tup(list): pass
class Lst(list): pass
data = {}      # key -> value (Tup / Lst / dict of Tup)
order = []
coq = {}       # key -> Coq expression, line range
consts = {}
consts_src = {}
def lit(node):
    if isinstance(node, ast.Constant) and isinstance(node.value, str): return node.value
    raise SystemExit('string expected at line %d' % node.lineno)
def is_dict_ref(n):
    return isinstance(n, ast.Subscript) and isinstance(n.value, ast.Name) and n.value.id == 'dictionary'
def key_of(n):
    return lit(n.slice)
def val(node):
    """(python value, Coq term of type list str or of type names)"""
    if isinstance(node, ast.Tuple):
        l = Tup(lit(e) for e in node.elts)
        return l, coqlist([qstr(s) for s in l])
    if isinstance(node, ast.List):
        l = Lst(lit(e) for e in node.elts)
        return l, coqlist([qstr(s) for s in l])
    if isinstance(node, ast.Dict):
        out, c = {}, []
        for k, v in zip(node.keys, node.values):
            x, cx = val(v)
            assert lit(k) not in out, lit(k)
            out[lit(k)] = x
            c.append('(%s, %s)' % (qstr(lit(k)), cx))
        return out, coqlist(c, ';\n   ')
    if isinstance(node, ast.BinOp) and isinstance(node.op, ast.Add):
        a, ca = val(node.left); b, cb = val(node.right)
        return Tup(a + b), '%s ++\n  %s' % (ca, cb)
    if isinstance(node, ast.Call) and isinstance(node.func, ast.Name) and node.func.id == 'tuple':
        if not node.args: return Tup(), '[]'
        a = node.args[0]
        if isinstance(a, ast.Call) and isinstance(a.func, ast.Attribute) and a.func.attr == 'keys':
            k = key_of(a.func.value)
            return Tup(data[k].keys()), 'map fst %s' % ident(k)
        if isinstance(a, ast.GeneratorExp):
            src = ast.get_source_segment(DSRC, a)
            g = a.generators
            assert ast.unparse(a.elt) == 't'
            assert ast.unparse(g[-1].ifs[0]) == 'len(t) > 1'
            if len(g) == 1:
                n = g[0].iter
                k, name = key_of(n.value), lit(n.slice)
                return Tup(t for t in data[k][name] if len(t) > 1), 'filter longer (names_of %s %s)' % (qstr(name), ident(k))
            k = key_of(g[0].iter)
            assert ast.unparse(g[1].iter) == "dictionary['%s'][key]" % k
            return Tup(t for kk in data[k] for t in data[k][kk] if len(t) > 1), 'filter longer (concat (map snd %s))' % ident(k)
    raise SystemExit('cannot transcribe line %d: %s' % (node.lineno, ast.unparse(node)))

def lam(node, src, nm='X', names={}):
    """conv of a lambda body in the variable; returns ('op', ...) list, a composition"""
    var = node.args.args[0].arg
    def const(n):
        if isinstance(n, ast.Constant): return num(ast.get_source_segment(src, n))
        if isinstance(n, ast.Name) and n.id in consts: return consts[n.id]
        if isinstance(n, ast.BinOp):
            a, b = const(n.left), const(n.right)
            if a is None or b is None: return None
            return {ast.Add: lambda: a + b, ast.Sub: lambda: a - b, ast.Mult: lambda: a * b, ast.Div: lambda: a / b, ast.Pow: lambda: a ** int(b)}[type(n.op)]()
        return None
    def go(n):
        if isinstance(n, ast.Name) and n.id == var: return []
        if isinstance(n, ast.BinOp):
            r = n.right
            if isinstance(r, ast.Call):
                assert ast.unparse(r) == 'network.get_fvf()' and isinstance(n.op, ast.Div)
                return go(n.left) + [('CFvfDiv',)]
            c = const(r)
            if c is not None:
                op = {ast.Add: 'CAdd', ast.Sub: 'CSub', ast.Mult: 'CMul', ast.Div: 'CDiv'}[type(n.op)]
                return go(n.left) + [(op, c)]
            c = const(n.left)
            assert c is not None, ast.unparse(n)
            if isinstance(n.op, ast.Div): return go(r) + [('CInto', c)]
            if isinstance(n.op, ast.Add): return go(r) + [('CAdd', c)]
        raise SystemExit('cannot transcribe lambda line %d: %s' % (node.lineno, ast.unparse(node)))
    return go(node.body)
def cconv(ops):
    t = None
    for o in ops:
        s = o[0] if len(o) == 1 else '%s %s' % (o[0], q(o[1]))
        t = s if t is None else 'CThen (%s) (%s)' % (t, s)
    return t or 'CId'

out = []
tables = {}
for st in dic.body:
    if isinstance(st, ast.Assign) and isinstance(st.targets[0], ast.Name):
        n = st.targets[0].id
        if n in ('StandardAirDensity', 'StandardEarthGravity', 'StandardWaterDensity', 'SpeedOfLight'):
            consts[n] = num(ast.get_source_segment(DSRC, st.value))
        elif n in ('SI', 'DATA', 'OGF'):
            tables[n] = []
            for k, v in zip(st.value.keys, st.value.values):
                if isinstance(v, ast.BinOp):
                    assert isinstance(v.op, ast.Mult) and v.right.value == 3
                    els = [v.left.elts[0]] * 3
                else: els = v.elts
                row = []
                for e in els:
                    if isinstance(e, ast.Constant): row.append(None)
                    else:
                        o = lam(e, DSRC)
                        assert len(o) == 1 and o[0][0] == 'CMul'
                        row.append(o[0][1])
                tables[n].append((lit(k), row))
            lines = (st.lineno, st.end_lineno)
            w = len(tables[n][0][1])
            ty = 'list (str * (%s))' % ' * '.join(['option Q'] * w)
            def cell(x): return 'None' if x is None else 'Some %s' % q(x)
            out.append('(** dictionaries.py:%d-%d [%s]: the factor of each [lambda X: X * factor]. *)\nDefinition %s : %s :=\n  %s.\n' % (
                lines[0], lines[1], n, n, ty, coqlist(['(%s, (%s))' % (qstr(k), ', '.join(cell(x) for x in r)) for k, r in tables[n]], ';\n   ')))
        elif n in ('SI_order', 'DATA_order', 'OGF_order'):
            els = st.value.elts
            tables[n] = [[lit(x) for x in e.elts] if isinstance(e, ast.Tuple) else [] for e in els]
            out.append('(** dictionaries.py:%d-%d [%s] *)\nDefinition %s : list (list str) :=\n  %s.\n' % (
                st.lineno, st.end_lineno, n, n, coqlist([coqlist([qstr(x) for x in r]) for r in tables[n]], ';\n   ')))
        elif n == 'uncertain_names':
            out.append('(** dictionaries.py:%d *)\nDefinition shipped_uncertain : list str := %s.\n' % (st.lineno, coqlist([qstr(lit(x)) for x in st.value.elts])))
    if isinstance(st, ast.FunctionDef) and st.name == '_load_dictionary':
        fn = st
for st in fn.body:
    if isinstance(st, ast.Assign) and is_dict_ref(st.targets[0]):
        k = key_of(st.targets[0])
        v, c = val(st.value)
        if k not in data: order.append(k)
        data[k] = v
        kind = 'dict' if isinstance(v, dict) else 'list' if isinstance(v, Lst) else 'tuple'
        coq[k] = (kind, c, st.lineno, st.end_lineno)
# definitions in order; reassignment: the last one
done = []
for st in fn.body:
    if isinstance(st, ast.Assign) and is_dict_ref(st.targets[0]):
        k = key_of(st.targets[0])
        kind, c, a, b = coq[k]
        if st.lineno != a: continue
        ty = 'list (str * list str)' if kind == 'dict' else 'list str'
        out.append('(** dictionaries.py:%d-%d *)\nDefinition %s : %s :=\n  %s.\n' % (a, b, ident(k), ty, c))
out.append('(** dictionaries.py:83-524 [dictionary], keys in insertion order (a key assigned twice keeps its place). *)\nDefinition raw_dictionary : list (str * names) :=\n  %s.\n' % coqlist(
    ['(%s, %s %s)' % (qstr(k), 'NDict' if coq[k][0] == 'dict' else 'NList', ident(k)) for k in order], ';\n   '))

# ---------- database.py: the explicit conversions ----------
edges = []
for st in db.body:
    if isinstance(st, ast.FunctionDef) and st.name == '_load_network':
        for s in st.body:
            if isinstance(s, ast.Expr) and isinstance(s.value, ast.Call) and ast.unparse(s.value.func) == 'network.add_edge':
                call = s.value.args[0]
                assert ast.unparse(call.func) == 'Conversion' and len(call.args) == 3 and not call.keywords
                a, b, f = call.args
                edges.append((lit(a.args[0]), lit(b.args[0]), lam(f, BSRC), s.lineno))
out.append('(** database.py:%d-%d: the conversions written one by one in [_load_network], in order. *)\nDefinition explicit_edges : list (str * str * conv V) :=\n  %s.\n' % (
    edges[0][3], edges[-1][3], coqlist(['(%s, %s, %s)' % (qstr(a), qstr(b), cconv(c)) for a, b, c, _ in edges], ';\n   ')))
body = '\n'.join(o for o in out[:-1])
HEAD = '''(** * The shipped tables: [dictionaries.py] and the explicit conversions of [database.py]

    GENERATED by tools/gen_dict.py, which parses the two source files and
    writes their literals; the computed tuples are written as the same
    computations.  Numeric literals are the exact decimal numbers written in
    the source. *)
From Coq Require Import String QArith.
From Verif Require Import Py Network Conv.
Local Open Scope Q_scope.

(** a value of [dictionary]: a list or tuple of names, or a dict name -> second names *)
Inductive names := NList (l : list str) | NDict (l : list (str * list str)).
(** [len(t) > 1] *)
Definition longer (t : str) : bool := Nat.ltb 1 (List.length t).
(** [dictionary[kind][name]] of a dict *)
Definition names_of (n : str) (d : list (str * list str)) : list str :=
  match dget n d with Some l => l | None => [] end.

'''
if __name__ == '__main__':
    with open('/verif/rocq/theories/Dict.v', 'w', encoding='utf8') as f:
        f.write(HEAD + body + '\nSection Edges.\nContext {V : Type}.\n' + out[-1] + 'End Edges.\n')
    print(len(order), 'kinds,', len(edges), 'explicit edges')
