"""Writes rocq/theories/PySource.v: the functions of /repo in the syntax of PySyntax.v.

Reads the source files with ast; runs nothing of the library.  What the syntax cannot express is an error.  Not
translated: imports, annotations, docstrings, abstract methods, dataclasses and the tables of syntax.py (see check_tables.py).
"""
import ast
import os
import sys

REPO = sys.argv[2] if len(sys.argv) > 2 else '/repo/src/mathml_to_latex'
OUT = os.path.join(os.path.dirname(os.path.abspath(__file__)), '..', 'rocq', 'theories', 'PySource.v')
FILES = ['el_to_tex/services/normalizer.py', 'el_to_tex/services/wrapper.py', 'el_to_tex/protocols.py', 'syntax.py', 'el_to_tex/usecases.py',
         'el_to_tex/adapter.py', 'xml_to_mathml/services/xml_elements_to_mathml_element.py', 'xml_to_mathml/services/error_handler.py',
         'xml_to_mathml/adapter.py', 'xml_to_mathml/factory.py', 'converter.py'] if len(sys.argv) <= 3 else sys.argv[3:]


def q(s):
    assert all(32 <= ord(c) < 127 for c in s)
    return '"' + s.replace('"', '""') + '"'


def pystr(s):
    if all(32 <= ord(c) < 127 for c in s):
        return '(lit %s)' % q(s)
    return '[' + '; '.join('%d%%N' % ord(c) for c in s) + ']'


def lst(l):
    return '[' + '; '.join(l) + ']'


class Scope:
    def __init__(self, node):
        self.names = {a.arg for a in node.args.args}
        for n in ast.walk(node):
            if isinstance(n, ast.Name) and isinstance(n.ctx, ast.Store):
                self.names.add(n.id)
            if isinstance(n, ast.ExceptHandler) and n.name:
                self.names.add(n.name)


CMP = {ast.Eq: 'OpEq', ast.NotEq: 'OpNotEq', ast.Lt: 'OpLt', ast.LtE: 'OpLtE', ast.Gt: 'OpGt', ast.GtE: 'OpGtE', ast.Is: 'OpIs', ast.IsNot: 'OpIsNot',
       ast.In: 'OpIn', ast.NotIn: 'OpNotIn'}
BIN = {ast.Add: 'OpAdd', ast.Sub: 'OpSub'}
globals_used = set()


def is_super(e):
    return isinstance(e, ast.Call) and isinstance(e.func, ast.Name) and e.func.id == 'super' and not e.args


def expr(e, sc):
    r = lambda x: expr(x, sc)
    if isinstance(e, ast.Name):
        if e.id in sc.names:
            return '(PName %s)' % q(e.id)
        globals_used.add(e.id)
        return '(PGlobal %s)' % q(e.id)
    if isinstance(e, ast.Constant):
        if e.value is None:
            return 'PNone'
        if isinstance(e.value, bool):
            return '(PBool %s)' % str(e.value).lower()
        if isinstance(e.value, int):
            return '(PInt %d%%Z)' % e.value
        assert isinstance(e.value, str)
        return '(PStr %s)' % pystr(e.value)
    if isinstance(e, ast.UnaryOp) and isinstance(e.op, ast.USub):
        assert isinstance(e.operand, ast.Constant)
        return '(PInt (-%d)%%Z)' % e.operand.value
    if isinstance(e, ast.UnaryOp) and isinstance(e.op, ast.Not):
        return '(PNot %s)' % r(e.operand)
    if is_super(e):
        return 'PSuper'
    if isinstance(e, ast.Attribute):
        return '(PAttr %s %s)' % (r(e.value), q(e.attr))
    if isinstance(e, ast.Call):
        if e.keywords:
            # the names must be those of the parameters, each given once
            init = [m for m in CLASSES[e.func.id].body if isinstance(m, ast.FunctionDef) and m.name == '__init__'][0]
            assert not e.args and sorted(k.arg for k in e.keywords) == sorted(a.arg for a in init.args.args[1:])
        return '(PCall %s %s %s)' % (r(e.func), lst([r(a) for a in e.args]), lst(['(%s, %s)' % (q(k.arg), r(k.value)) for k in e.keywords]))
    if isinstance(e, ast.Subscript):
        if isinstance(e.slice, ast.Slice):
            assert e.slice.step is None
            return '(PSlice %s %s %s)' % (r(e.value), r(e.slice.lower), r(e.slice.upper))
        return '(PIndex %s %s)' % (r(e.value), r(e.slice))
    if isinstance(e, ast.BinOp):
        return '(PBin %s %s %s)' % (BIN[type(e.op)], r(e.left), r(e.right))
    if isinstance(e, ast.Compare):
        assert len(e.ops) == 1
        return '(PCmp %s %s %s)' % (CMP[type(e.ops[0])], r(e.left), r(e.comparators[0]))
    if isinstance(e, ast.BoolOp):
        op = 'PAnd' if isinstance(e.op, ast.And) else 'POr'
        out = r(e.values[-1])
        for v in reversed(e.values[:-1]):
            out = '(%s %s %s)' % (op, r(v), out)
        return out
    if isinstance(e, ast.IfExp):
        return '(PIf %s %s %s)' % (r(e.test), r(e.body), r(e.orelse))
    if isinstance(e, ast.List):
        return '(PList %s)' % lst([r(x) for x in e.elts])
    if isinstance(e, ast.Dict):
        return '(PDict %s)' % lst(['(%s, %s)' % (r(k), r(v)) for k, v in zip(e.keys, e.values)])
    if isinstance(e, ast.JoinedStr):
        parts = []
        for v in e.values:
            if isinstance(v, ast.FormattedValue):
                assert v.conversion == -1 and v.format_spec is None
                parts.append(r(v.value))
            else:
                parts.append(r(v))
        return '(PFormat %s)' % lst(parts)
    if isinstance(e, (ast.ListComp, ast.GeneratorExp)):
        assert len(e.generators) == 1
        g = e.generators[0]
        assert not g.is_async and len(g.ifs) <= 1
        return '(PComp %s %s %s %s)' % (r(e.elt), q(g.target.id), r(g.iter), '(Some %s)' % r(g.ifs[0]) if g.ifs else 'None')
    raise SystemExit('expression not translated: ' + ast.dump(e))


def block(body, sc):
    ss = [s for s in (stmt(x, sc) for x in body) if s]
    out = '(%s)' % ss.pop() if ss else 'SPass'
    while ss:
        out = '(SSeq (%s) %s)' % (ss.pop(), out)
    return out


def assign(t, v, sc):
    if isinstance(t, ast.Name):
        return 'SAssign %s %s' % (q(t.id), v)
    if isinstance(t, ast.Attribute):
        return 'SSetAttr %s %s %s' % (expr(t.value, sc), q(t.attr), v)
    if isinstance(t, ast.Subscript):
        return 'SSetItem %s %s %s' % (expr(t.value, sc), expr(t.slice, sc), v)
    raise SystemExit('target not translated: ' + ast.dump(t))


def load(t):
    t = ast.parse(ast.unparse(t), mode='eval').body
    return t


def stmt(s, sc):
    if isinstance(s, ast.Expr):
        v = s.value
        if isinstance(v, ast.Constant):
            return None
        if isinstance(v, ast.Call) and isinstance(v.func, ast.Attribute):
            if v.func.attr == 'append' and isinstance(v.func.value, ast.Name):
                assert len(v.args) == 1 and not v.keywords
                return 'SAppend %s %s' % (q(v.func.value.id), expr(v.args[0], sc))
            if v.func.attr == '__init__' and is_super(v.func.value):
                assert not v.keywords
                return 'SSuperInit %s' % lst([expr(a, sc) for a in v.args])
        return 'SExpr %s' % expr(v, sc)
    if isinstance(s, ast.Assign):
        assert len(s.targets) == 1
        return assign(s.targets[0], expr(s.value, sc), sc)
    if isinstance(s, ast.AugAssign):
        return assign(s.target, '(PBin %s %s %s)' % (BIN[type(s.op)], expr(load(s.target), sc), expr(s.value, sc)), sc)
    if isinstance(s, ast.Return):
        return 'SReturn %s' % expr(s.value, sc)
    if isinstance(s, ast.If):
        return 'SIf %s %s %s' % (expr(s.test, sc), block(s.body, sc), block(s.orelse, sc))
    if isinstance(s, ast.For):
        assert not s.orelse
        xs = [s.target.id] if isinstance(s.target, ast.Name) else [x.id for x in s.target.elts]
        return 'SFor %s %s %s' % (lst([q(x) for x in xs]), expr(s.iter, sc), block(s.body, sc))
    if isinstance(s, ast.While):
        assert not s.orelse
        return 'SWhile %s %s' % (expr(s.test, sc), block(s.body, sc))
    if isinstance(s, ast.Raise):
        assert s.cause is None
        return 'SRaise %s' % expr(s.exc, sc)
    if isinstance(s, ast.Try):
        assert len(s.handlers) == 1 and not s.orelse and not s.finalbody and s.handlers[0].type.id == 'Exception'
        return 'STry %s %s %s' % (block(s.body, sc), q(s.handlers[0].name), block(s.handlers[0].body, sc))
    if isinstance(s, ast.Continue):
        return 'SContinue'
    if isinstance(s, ast.Pass):
        return 'SPass'
    raise SystemExit('statement not translated: ' + ast.dump(s))


def function(f):
    kind = 'Plain'
    for d in f.decorator_list:
        if d.id == 'abstractmethod':
            return None
        kind = {'staticmethod': 'Static', 'property': 'Property'}[d.id]
    a = f.args
    assert not (a.vararg or a.kwarg or a.kwonlyargs or a.posonlyargs)
    assert all(isinstance(d, ast.Constant) for d in a.defaults)
    defaults = [None] * (len(a.args) - len(a.defaults)) + a.defaults
    sc = Scope(f)
    params = ['(%s, %s)' % (q(x.arg), 'Some %s' % expr(d, sc) if d is not None else 'None') for x, d in zip(a.args, defaults)]
    return 'Func %s %s\n    %s' % (kind, lst(params), block(f.body, sc))


trees = [(f, ast.parse(open(os.path.join(REPO, f), encoding='utf-8').read())) for f in FILES]
CLASSES = {n.name: n for _, t in trees for n in t.body if isinstance(n, ast.ClassDef)}
# Attributes that are assigned outside of constructors.
changed = set()
for _, t in trees:
    for f in ast.walk(t):
        if isinstance(f, ast.FunctionDef) and f.name != '__init__':
            for n in ast.walk(f):
                if isinstance(n, ast.Attribute) and isinstance(n.ctx, ast.Store):
                    changed.add(n.attr)

out = ['(** The functions of /repo.  Made by tools/make_source.py; not to be edited. *)', 'From Coq Require Import String.',
       'From Verif Require Export PySyntax.', 'Import ListNotations.', 'Local Open Scope string_scope.', 'Local Open Scope list_scope.', '']
classes, functions, tables, renamed = [], [], [], set()
for name, t in trees:
    out.append('(** ** %s *)' % name)
    for n in t.body:
        if isinstance(n, (ast.Import, ast.ImportFrom)):
            renamed |= {a.asname for a in n.names if a.asname}
            assert all(a.name != '*' for a in n.names)
            continue
        if isinstance(n, (ast.Assign, ast.AnnAssign)):
            tables.append((n.targets[0] if isinstance(n, ast.Assign) else n.target).id)
            continue
        if isinstance(n, ast.FunctionDef):
            functions.append(n.name)
            out.append('(** line %d *)\nDefinition %s_source : func := %s.' % (n.lineno, n.name, function(n)))
            continue
        assert isinstance(n, ast.ClassDef)
        if any(isinstance(d, ast.Name) and d.id == 'dataclass' for d in n.decorator_list):
            continue
        bases = [b.id for b in n.bases]
        assert len(bases) <= 1
        methods, members, fields = [], [], set()
        for m in n.body:
            if isinstance(m, ast.FunctionDef):
                s = function(m)
                if s is None:
                    continue
                d = '%s_%s' % (n.name, m.name.strip('_') if m.name == '__init__' else m.name)
                methods.append((m.name, d))
                out.append('(** line %d *)\nDefinition %s_source : func := %s.' % (m.lineno, d, s))
                if m.name == '__init__':
                    fields |= {x.attr for x in ast.walk(m) if isinstance(x, ast.Attribute) and isinstance(x.ctx, ast.Store)}
            elif isinstance(m, ast.Assign):
                members.append(m.targets[0].id)
            else:
                assert isinstance(m, ast.Expr) and isinstance(m.value, ast.Constant)
        classes.append(n.name)
        out.append('Definition %s_class : class := Class %s %s %s\n  %s.' % (
            n.name, q(bases[0] if bases else 'object'), lst([q(x) for x in members]), str(bool(fields & changed)).lower(),
            lst(['(%s, %s_source)' % (q(m), d) for m, d in methods])))
    out.append('')
assert len(set(classes)) == len(classes) and not renamed & globals_used
out.append('Definition source_classes : list (string * class) :=\n  %s.' % lst(['(%s, %s_class)' % (q(c), c) for c in classes]))
out.append('Definition source_functions : list (string * func) :=\n  %s.' % lst(['(%s, %s_source)' % (q(f), f) for f in functions]))
out.append('(** Names that are not local: %s. *)' % ', '.join(sorted(globals_used - set(classes) - set(functions))))
open(OUT if len(sys.argv) < 2 else sys.argv[1], 'w').write('\n'.join(out) + '\n')
print('%d classes, %d functions; assigned outside constructors: %s; tables: %s' % (len(classes), len(functions), ', '.join(sorted(changed)), ', '.join(tables)))
