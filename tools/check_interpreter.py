"""Compares the interpreter PySem.v, with make_source.py before it, with CPython on the programs of snippets.py.

Translates snippets.py, runs each function on made-up arguments in CPython and, by vm_compute, in PySem.v (in a copy of the built
theories), and compares what is returned or raised.  TypeError, AttributeError, NameError must be [Stuck].  Runs nothing of the library.

python3 check_interpreter.py [arguments per function] [seed]
"""
import os
import random
import shutil
import subprocess
import sys
import tempfile

HERE = os.path.dirname(os.path.abspath(__file__))
sys.path.insert(0, HERE)
sys.dont_write_bytecode = True
import snippets  # noqa: E402


MANY = int(sys.argv[1]) if len(sys.argv) > 1 else 30
rnd = random.Random(int(sys.argv[2]) if len(sys.argv) > 2 else 1)
some = lambda l, n: ''.join(rnd.choice(l) for _ in range(rnd.randint(0, n)))
WORDS = ['', 'a', 'b', 'ab', 'r', 'abc', 'bca', 'under', 'q', 'zz', 'A', 'K', '\u0131', '\u017f', '\u212a', '7', '_', '\u00e9', 'a\n', '\n', ' ']
LINES = ['a', 'b', ' ', ' ', '\n', '\r', '\r\n', '\t', '\x0b', '\u00a0', '\u2028', '\x1c', '\x85', 'mml:', 'mml', ':', 'mmmml:l:', '\u200b']
TAGS = ['<', '>', ' ', 'a', 'a.b', 'axb', '=', '"', "'", '/', '\n', 'x=', 'x="', '<m ', ' y=1>', '_']
DOCS = ['<a>', '</a>', '<a/>', '<b>', '</b>', '<a x="1" y=\'&lt;\'>', 'text', ' ', '&amp;', '&#65;', '<!-- c -->', '<?p d?>', '<![CDATA[e]]>', '<a x=1>', '\n', '<', '&z;']


def pystr(s):
    if all(32 <= ord(c) < 127 for c in s):
        return '(lit "%s")' % s.replace('"', '""')
    return '[' + '; '.join('%d%%N' % ord(c) for c in s) + ']'


def document(depth):
    out = ''
    for _ in range(rnd.randint(0, 3)):
        k = rnd.randint(0, 7)
        if k <= 2 and depth:
            t = rnd.choice('ab')
            at = rnd.choice(['', ' x="1"', ' y=\'&lt;2\' x="&#65; "', ' z="z"'])
            out += '<%s%s>%s</%s>' % (t, at, document(depth - 1), t)
        else:
            out += rnd.choice(['text', ' ', '&amp;', '&#65;', '<!-- c -->', '<?p d?>', '<![CDATA[e]]>', '\n', '<a/>'])
    return out


def argument(kind):
    if kind == 'W':
        return rnd.choice(WORDS) if rnd.random() < 0.6 else some('abc ', 5)
    if kind == 'L':
        return some(LINES, 8)
    if kind == 'T':
        return some(TAGS, 10)
    return '<a>%s</a>' % document(3) if rnd.random() < 0.6 else some(DOCS, 5)


def value(v):
    if v is None:
        return 'VNone'
    if isinstance(v, bool):
        return '(VBool %s)' % str(v).lower()
    if isinstance(v, int):
        return '(VInt (%d)%%Z)' % v
    if isinstance(v, str):
        return '(VStr %s)' % pystr(v)
    return '(VList [%s])' % '; '.join(value(x) for x in v)


def outcome(f, x):
    try:
        return 'Gives %s' % value(f(x))
    except (TypeError, AttributeError, NameError):
        return 'Fails'
    except Exception as e:
        return 'Raises "%s"' % type(e).__name__


HEAD = '''From Coq Require Import String.
From Verif Require Import PySem ModelExpat.
Import ListNotations.
Local Open Scope string_scope.
Local Open Scope list_scope.
Inductive expected := Gives (v : value) | Raises (c : string) | Fails.
Fixpoint same (v w : value) : bool :=
  match v, w with
  | VNone, VNone => true
  | VBool a, VBool b => Bool.eqb a b
  | VInt a, VInt b => Z.eqb a b
  | VStr a, VStr b => str_eqb a b
  | VList a, VList b => (fix all (a b : list value) := match a, b with [], [] => true | x :: a', y :: b' => same x y && all a' b' | _, _ => false end) a b
  | _, _ => false
  end.
Definition word (c : N) : bool := in_range 48 57 c || in_range 65 90 c || in_range 97 122 c || N.eqb c 95 || N.eqb c 233.
Definition result (f : string) (x : str) : out value := snd (PySem.run (call word parse_text 60 (VFunction f) [VStr x] []) (Memory [] [])).
(* texts that ModelExpat.v does not cover *)
Definition outside (f : string) (x : str) : bool :=
  (String.eqb f "dom" || String.eqb f "dom_errors") && match parse_text x with Raise (EOther _) => true | _ => false end.
Definition agrees (t : nat * string * str * expected) : bool :=
  match t with
  | (_, f, x, e) =>
      if outside f x then true else
      match result f x, e with
      | Done v, Gives w => same v w
      | Raised (VObj c _), Raises d => String.eqb c d
      | Stuck, Fails => true
      | _, _ => false
      end
  end.
'''

tests = []
for kind, names in snippets.TESTS.items():
    for name in names.split():
        for x in sorted({argument(kind) for _ in range(MANY)}):
            tests.append((name, x, outcome(getattr(snippets, name), x)))
work = tempfile.mkdtemp()
try:
    theories = os.path.join(work, 'theories')
    shutil.copytree(os.path.join(HERE, '..', 'rocq', 'theories'), theories)
    subprocess.run([sys.executable, os.path.join(HERE, 'make_source.py'), os.path.join(theories, 'PySource.v'), HERE, 'snippets.py'], check=True)
    with open(os.path.join(theories, 'Check.v'), 'w') as f:
        f.write(HEAD)
        f.write('Definition tests : list (nat * string * str * expected) := [\n%s].\n' % ';\n'.join(
            '(%d, "%s", %s, %s)' % (i, n, pystr(x), o) for i, (n, x, o) in enumerate(tests)))
        f.write('Definition wrong := Eval vm_compute in map (fun t => match t with (i, f, x, _) => (i, result f x) end) (filter (fun t => negb (agrees t)) tests).\n')
        f.write('Print wrong.\nEval vm_compute in length (filter (fun t => match t with (_, f, x, _) => outside f x end) tests).\n')
    for name in ['PySource', 'PySem', 'Check']:
        r = subprocess.run(['coqc', '-q', '-Q', theories, 'Verif', os.path.join(theories, name + '.v')], stdout=subprocess.PIPE, stderr=subprocess.STDOUT, text=True)
        if r.returncode:
            sys.exit(name + ': ' + r.stdout[-2000:])
    print(r.stdout)
    for i, t in enumerate(tests):
        if '(%d,' % i in r.stdout or '(%d%%nat,' % i in r.stdout:
            print(i, t)
    print('%d runs of %d functions; %d returned, %d raised, %d failed' % (
        len(tests), len({t[0] for t in tests}), sum(t[2].startswith('Gives') for t in tests), sum(t[2].startswith('Raises') for t in tests),
        sum(t[2] == 'Fails' for t in tests)))
finally:
    shutil.rmtree(work)
