"""Reads rocq/theories/PySource.v back into Python and compares it with the source files of /repo.

The terms of Coq are parsed and turned into syntax trees of Python by a table of their own, not that of make_source.py, and compared with the
trees that ast makes of /repo.  Left out on the side of /repo: imports, annotations, docstrings, abstract methods, dataclasses and tables.
Taken as the same: x += e and x = x + e, a generator and a list comprehension, super().__init__(...) as a statement of its own.
Which names are local is compared with symtable.  Runs nothing of the library.
"""
import ast
import os
import re
import symtable
import sys

HERE = os.path.dirname(os.path.abspath(__file__))
SOURCE = sys.argv[1] if len(sys.argv) > 1 else os.path.join(HERE, '..', 'rocq', 'theories', 'PySource.v')
REPO = sys.argv[2] if len(sys.argv) > 2 else '/repo/src/mathml_to_latex'

# ---- terms of Coq: (head, arguments), lists, tuples, strings, numbers
TOKEN = re.compile(r'\s*(?:(\(\*.*?\*\))|("(?:[^"]|"")*")|(-?\d+)(?:%[NZ])?|(:=|[()\[\];,:.*])|([A-Za-z_]\w*))', re.S)


def tokens(text):
    pos, out = 0, []
    while text[pos:].strip():
        m = TOKEN.match(text, pos)
        if not m:
            raise SystemExit('cannot read: %r' % text[pos:pos + 60])
        pos = m.end()
        if text[pos:pos + 2] in ('%Z', '%N'):
            pos += 2
        comment, string, number, mark, word = m.groups()
        if string is not None:
            out.append(('string', string[1:-1].replace('""', '"')))
        elif number is not None:
            out.append(('number', int(number)))
        elif mark is not None:
            out.append(('mark', mark))
        elif word is not None:
            out.append(('word', word))
    return out


class Reader:
    def __init__(self, toks):
        self.toks, self.i = toks, 0

    def peek(self):
        return self.toks[self.i] if self.i < len(self.toks) else ('end', '')

    def next(self):
        t = self.peek()
        self.i += 1
        return t

    def expect(self, mark):
        t = self.next()
        assert t == ('mark', mark), (t, mark)

    def atom(self):
        kind, x = self.next()
        if kind in ('string', 'number'):
            return x
        if kind == 'word':
            return (x, [])
        if x == '(':
            items = [self.application()]
            while self.peek() == ('mark', ','):
                self.next()
                items.append(self.application())
            self.expect(')')
            return items[0] if len(items) == 1 else tuple(['pair'] + items)
        assert x == '[', (kind, x)
        items = []
        while self.peek() != ('mark', ']'):
            items.append(self.application())
            if self.peek() == ('mark', ';'):
                self.next()
        self.next()
        return items

    def application(self):
        head = self.atom()
        args = []
        while self.peek()[0] in ('string', 'number', 'word') or self.peek() in (('mark', '('), ('mark', '[')):
            args.append(self.atom())
        if args:
            assert isinstance(head, tuple) and head[0] != 'pair' and not head[1], head
            return (head[0], args)
        return head


def definitions(text):
    r = Reader(tokens(text[text.index('(** ** '):]))
    out = {}
    while r.peek()[0] != 'end':
        assert r.next() == ('word', 'Definition')
        name = r.next()[1]
        r.expect(':')
        while r.next() != ('mark', ':='):
            pass
        out[name] = r.application()
        r.expect('.')
    return out


# ---- terms to trees
OPS = {'OpAdd': ast.Add, 'OpSub': ast.Sub, 'OpEq': ast.Eq, 'OpNotEq': ast.NotEq, 'OpLt': ast.Lt, 'OpLtE': ast.LtE, 'OpGt': ast.Gt, 'OpGtE': ast.GtE,
       'OpIs': ast.Is, 'OpIsNot': ast.IsNot, 'OpIn': ast.In, 'OpNotIn': ast.NotIn}
locals_said, globals_said = set(), set()


def text(t):
    if isinstance(t, list):
        return ''.join(map(chr, t))
    assert t[0] == 'lit'
    return t[1][0]


def name(x):
    return ast.Name(x, ast.Load())


def super_call():
    return ast.Call(name('super'), [], [])


def expression(t):
    c, a = t
    if c == 'PName':
        locals_said.add(a[0])
        return name(a[0])
    if c == 'PGlobal':
        globals_said.add(a[0])
        return name(a[0])
    if c == 'PStr':
        return ast.Constant(text(a[0]))
    if c == 'PInt':
        return ast.Constant(a[0]) if a[0] >= 0 else ast.UnaryOp(ast.USub(), ast.Constant(-a[0]))
    if c == 'PBool':
        return ast.Constant({'true': True, 'false': False}[a[0][0]])
    if c == 'PNone':
        return ast.Constant(None)
    if c == 'PAttr':
        return ast.Attribute(expression(a[0]), a[1], ast.Load())
    if c == 'PCall':
        return ast.Call(expression(a[0]), [expression(x) for x in a[1]], [ast.keyword(k, expression(v)) for _, k, v in a[2]])
    if c == 'PSuper':
        return super_call()
    if c == 'PIndex':
        return ast.Subscript(expression(a[0]), expression(a[1]), ast.Load())
    if c == 'PSlice':
        return ast.Subscript(expression(a[0]), ast.Slice(expression(a[1]), expression(a[2]), None), ast.Load())
    if c == 'PBin':
        return ast.BinOp(expression(a[1]), OPS[a[0][0]](), expression(a[2]))
    if c == 'PCmp':
        return ast.Compare(expression(a[1]), [OPS[a[0][0]]()], [expression(a[2])])
    if c in ('PAnd', 'POr'):
        return ast.BoolOp(ast.And() if c == 'PAnd' else ast.Or(), [expression(a[0]), expression(a[1])])
    if c == 'PNot':
        return ast.UnaryOp(ast.Not(), expression(a[0]))
    if c == 'PIf':
        return ast.IfExp(expression(a[0]), expression(a[1]), expression(a[2]))
    if c == 'PList':
        return ast.List([expression(x) for x in a[0]], ast.Load())
    if c == 'PDict':
        return ast.Dict([expression(k) for _, k, v in a[0]], [expression(v) for _, k, v in a[0]])
    if c == 'PFormat':
        return ast.JoinedStr([expression(x) if x[0] == 'PStr' else ast.FormattedValue(expression(x), -1, None) for x in a[0]])
    if c == 'PComp':
        locals_said.add(a[1])
        return ast.ListComp(expression(a[0]), [ast.comprehension(ast.Name(a[1], ast.Store()), expression(a[2]), [expression(a[3][1][0])] if a[3][0] == 'Some' else [], 0)])
    raise SystemExit('expression: ' + c)


def statements(t):
    c, a = t
    if c == 'SSeq':
        return statements(a[0]) + statements(a[1])
    if c == 'SPass':
        return []
    if c == 'SExpr':
        return [ast.Expr(expression(a[0]))]
    if c == 'SAssign':
        locals_said.add(a[0])
        return [ast.Assign([ast.Name(a[0], ast.Store())], expression(a[1]))]
    if c == 'SSetAttr':
        return [ast.Assign([ast.Attribute(expression(a[0]), a[1], ast.Store())], expression(a[2]))]
    if c == 'SSetItem':
        return [ast.Assign([ast.Subscript(expression(a[0]), expression(a[1]), ast.Store())], expression(a[2]))]
    if c == 'SAppend':
        return [ast.Expr(ast.Call(ast.Attribute(name(a[0]), 'append', ast.Load()), [expression(a[1])], []))]
    if c == 'SSuperInit':
        return [ast.Expr(ast.Call(ast.Attribute(super_call(), '__init__', ast.Load()), [expression(x) for x in a[0]], []))]
    if c == 'SReturn':
        return [ast.Return(expression(a[0]))]
    if c == 'SIf':
        return [ast.If(expression(a[0]), statements(a[1]), statements(a[2]))]
    if c == 'SFor':
        locals_said.update(a[0])
        names = [ast.Name(x, ast.Store()) for x in a[0]]
        return [ast.For(names[0] if len(names) == 1 else ast.Tuple(names, ast.Store()), expression(a[1]), statements(a[2]), [])]
    if c == 'SWhile':
        return [ast.While(expression(a[0]), statements(a[1]), [])]
    if c == 'SRaise':
        return [ast.Raise(expression(a[0]), None)]
    if c == 'STry':
        locals_said.add(a[1])
        return [ast.Try(statements(a[0]), [ast.ExceptHandler(name('Exception'), a[1], statements(a[2]))], [], [])]
    if c == 'SContinue':
        return [ast.Continue()]
    raise SystemExit('statement: ' + c)


# ---- both sides in one form
class Normal(ast.NodeTransformer):
    def visit_AugAssign(self, n):
        self.generic_visit(n)
        load = ast.parse(ast.unparse(n.target), mode='eval').body
        return ast.Assign([n.target], ast.BinOp(load, n.op, n.value))

    def visit_GeneratorExp(self, n):
        self.generic_visit(n)
        return ast.ListComp(n.elt, n.generators)

    def visit_BoolOp(self, n):
        self.generic_visit(n)
        values = []
        for v in n.values:
            values += v.values if isinstance(v, ast.BoolOp) and type(v.op) is type(n.op) else [v]
        return ast.BoolOp(n.op, values)

    def visit_Constant(self, n):
        return ast.Constant(n.value)


def body_form(body):
    # printed and read again, so that both sides are trees made by ast.parse
    printed = ast.unparse(ast.fix_missing_locations(ast.Module(body, [])))
    return [ast.dump(Normal().visit(s)) for s in ast.parse(printed).body]


def without_docstrings(body):
    return [s for s in body if not (isinstance(s, ast.Expr) and isinstance(s.value, ast.Constant)) and not isinstance(s, ast.Pass)]


def local_names(table):
    inner = set()
    for c in table.get_children():
        inner |= local_names(c)
    return {s.get_name() for s in table.get_symbols() if s.is_local() or s.is_parameter()} | inner


def global_names(table):
    out = {s.get_name() for s in table.get_symbols() if s.is_global()}
    for c in table.get_children():
        out |= global_names(c)
    return out


class Strip(ast.NodeTransformer):
    def visit_AnnAssign(self, n):
        self.generic_visit(n)
        return ast.Assign([n.target], n.value)


def compare(where, term, node, table):
    global locals_said, globals_said
    locals_said, globals_said = set(), set()
    assert term[0] == 'Func'
    kind, params, body = term[1]
    decorators = [d.id for d in node.decorator_list]
    want = {'Plain': [], 'Static': ['staticmethod'], 'Property': ['property']}[kind[0]]
    assert decorators == want, (where, decorators)
    a = node.args
    assert not (a.vararg or a.kwarg or a.kwonlyargs or a.posonlyargs), where
    assert [p[1] for p in params] == [x.arg for x in a.args], where
    defaults = [None] * (len(a.args) - len(a.defaults)) + [ast.dump(d) for d in a.defaults]
    assert [None if p[2][0] == 'None' else ast.dump(expression(p[2][1][0])) for p in params] == defaults, where
    got = body_form(statements(body))
    expected = body_form(without_docstrings([Strip().visit(s) for s in node.body]))
    assert got == expected, '%s\n%s\n%s' % (where, got, expected)
    loc, glo = local_names(table), global_names(table)
    assert not loc & glo, (where, loc & glo)
    assert locals_said <= loc, (where, locals_said - loc)
    assert globals_said <= glo, (where, globals_said - glo)
    return 1


defs = definitions(open(SOURCE, encoding='utf-8').read())
classes = {c: d[0] for _, c, d in defs['source_classes']}
functions = {f: d[0] for _, f, d in defs['source_functions']}
seen_classes, seen_functions, count, changed = set(), set(), 0, set()
files = [os.path.join(d, f) for d, _, fs in os.walk(REPO) for f in fs if f.endswith('.py')]
trees = {f: ast.parse(open(f, encoding='utf-8').read()) for f in files}
for t in trees.values():
    for f in ast.walk(t):
        if isinstance(f, ast.FunctionDef) and f.name != '__init__':
            changed |= {n.attr for n in ast.walk(f) if isinstance(n, ast.Attribute) and isinstance(n.ctx, ast.Store)}
for f in sorted(files):
    tables = {t.get_name(): t for t in symtable.symtable(open(f, encoding='utf-8').read(), f, 'exec').get_children()}
    for n in trees[f].body:
        if isinstance(n, ast.FunctionDef):
            assert n.name not in seen_functions
            seen_functions.add(n.name)
            count += compare(n.name, defs[functions[n.name]], n, tables[n.name])
        elif isinstance(n, ast.ClassDef):
            if n.decorator_list:
                assert [ast.unparse(d) for d in n.decorator_list] == ['dataclass'], n.name
                continue
            assert n.name not in seen_classes
            seen_classes.add(n.name)
            head, (base, members, assigned, methods) = defs[classes[n.name]]
            assert head == 'Class' and [base] == ([ast.unparse(b) for b in n.bases] or ['object']) and not n.keywords, n.name
            assert members == [m.targets[0].id for m in n.body if isinstance(m, ast.Assign)], n.name
            real = [m for m in n.body if isinstance(m, ast.FunctionDef) and not any(isinstance(d, ast.Name) and d.id == 'abstractmethod' for d in m.decorator_list)]
            assert [m[1] for m in methods] == [m.name for m in real], n.name
            fields = {x.attr for m in real if m.name == '__init__' for x in ast.walk(m) if isinstance(x, ast.Attribute) and isinstance(x.ctx, ast.Store)}
            assert (assigned[0] == 'true') == bool(fields & changed), n.name
            inside = {t.get_name(): t for t in tables[n.name].get_children()}
            for (_, m, d), node in zip(methods, real):
                count += compare('%s.%s' % (n.name, m), defs[d[0]], node, inside[m])
        else:
            assert isinstance(n, (ast.Import, ast.ImportFrom, ast.Assign, ast.AnnAssign)) or isinstance(n, ast.Expr) and isinstance(n.value, ast.Constant), ast.dump(n)
assert seen_classes == set(classes) and seen_functions == set(functions)
print('%d classes, %d functions and methods: the same' % (len(classes), count))
