# Small programs in the part of Python that the library uses, for check_interpreter.py.  Not code of the library.
import re
from abc import ABC, abstractmethod
from enum import Enum
from xml.dom import Node
from xml.dom.minidom import parseString


# Classes ------------------------------------------------------------------------------------------------------------
class Base:
    def __init__(self, a, b="dflt"):
        self._a = a
        self._b = b

    def show(self):
        return f"{self._a}/{self._b}/{self.tail()}"

    def tail(self):
        return "base"

    @property
    def both(self):
        return self._a + self._b

    @staticmethod
    def twice(s):
        return s + s

    def _hidden(self, s):
        return self.twice(s) + Base.twice(self._b)


class Derived(Base):
    def __init__(self, a):
        super().__init__(a)
        self._c = a + "!"

    def tail(self):
        return "derived" + super().tail() + self._c


class Third(Derived):
    def tail(self):
        return "third " + super().tail()


class Swapped(Base):
    def __init__(self, a, b):
        super().__init__(b, a)


class Counter:
    def __init__(self, start):
        self._n = start
        self._log = ""

    def step(self, d):
        self._n += d
        self._log = self._log + f"({self._n})"
        return self._n

    @property
    def log(self):
        return self._log


class Holder:
    def __init__(self, counter):
        self._counter = counter

    def use(self):
        return self._counter.step(10)


class Shape(ABC):
    @abstractmethod
    def area(self):
        pass

    def describe(self):
        return "area " + self.area()


class Square(Shape):
    def area(self):
        return "square"


class Color(Enum):
    RED = "red"
    GREEN = "green"


class Problem(Exception):
    def __init__(self, what, n):
        super().__init__(f"problem {what} {n}")
        self.name = "Problem"


class Other(Problem):
    def other(self):
        return self.name


class Node2:
    def __init__(self, name, children, attributes):
        self._name = name
        self._children = children
        self._attributes = attributes

    @property
    def name(self):
        return self._name

    @property
    def children(self):
        return self._children

    @property
    def attributes(self):
        return self._attributes


def classes(s):
    d = Derived(s)
    return [Base(s).show(), Base(s, "x").show(), d.show(), d.both, d._hidden("h"), Third(s).show(), Base.twice(s), d.twice(s), Swapped(s, "z").show()]


def keywords(s):
    return [Base(a=s, b="k").show(), Base(b=s, a="k").show()]


def abstract(s):
    return Square().describe() + s


def missing_method(s):
    return Square().volume()


def missing_field(s):
    return Base(s)._c


def too_few(s):
    return Base().show()


def too_many(s):
    return Base(s, s, s).show()


def counters(s):
    c = Counter(len(s))
    h = Holder(c)
    k = Holder(c)
    a = c.step(1)
    b = h.use()
    d = k.use()
    e = Counter(0)
    e.step(5)
    return [a, b, d, c.log, e.log]


def colors(s):
    c = Color.RED if s == "r" else Color.GREEN
    return [c == Color.RED, c != Color.RED, c == Color.GREEN]


def method_value(s):
    m = Derived(s).show
    table = {"a": Base, "b": Derived}
    k = table.get(s, Third)
    return [m(), k(s).show()]


def nested(s):
    d = {}
    inner = Node2("i", [], d)
    outer = Node2("o", [inner, Node2("j", [inner], {})], {})
    outer.children[1].children[0].attributes[s] = "seen"
    return [inner.attributes.get(s), len(outer.children), outer.children[1].attributes.get(s), inner.attributes.get(s + "x", "none")]


# Values -------------------------------------------------------------------------------------------------------------
def truths(s):
    d = {}
    e = {}
    e["k"] = ""
    return [bool(s), bool(""), bool(None), bool([]), bool([""]), bool(0), bool(3), bool(d), bool(e), not s, not None]


def and_or(s):
    return [s and "right", s or "right", None or s, None and s, [] or s, s and None, s or None, (s and "") or "last", "" or None or s]


def comparisons(s):
    n = len(s)
    return [n < 2, n <= 2, n > 2, n >= 2, n == 2, n != 2, s == "ab", s != "ab", s is None, s is not None, None is None, s == None]


def conditional(s):
    return "one" if len(s) == 1 else ("none" if not s else "many")


def lists(s):
    l = [s, "b"]
    l.append(s + "c")
    m = l
    return [l[0], l[-1], l[1], len(l), m, s in l, "q" in l, "q" not in l]


def index_error(s):
    l = [s]
    return l[len(s)]


def negative_index(s):
    l = ["a", s]
    return l[-3]


def string_index(s):
    return [s[0], s[-1]]


def slices(s):
    return [s[0:1], s[1:3], s[2:1], s[0:99], s[1:len(s)]]


def dictionaries(s):
    d = {}
    d["a"] = "1"
    d[s] = "2"
    d["a"] = d["a"] + "3"
    return [d["a"], d.get(s), d.get("zz"), d.get("zz", "none"), s in d, "zz" in d, "zz" not in d]


def shared_dictionary(s):
    d = {}
    e = d
    e[s] = "x"
    f = {}
    return [d.get(s), f.get(s)]


def key_error(s):
    d = {}
    d["a"] = "1"
    return d[s]


def formats(s):
    n = len(s)
    return f"<{s}>{n}{s + s}{{}}" + f"{n + 1}" + f"" + f"{'a' if n == 1 else 'b'}"


def arithmetic(s):
    n = len(s)
    n += 3
    n -= 1
    t = s
    t += "x"
    return [n + 1, n - 7, t, -1]


# Statements ---------------------------------------------------------------------------------------------------------
def loops(s):
    out = []
    for c in s:
        if c == "b":
            continue
        out.append(c + c)
    for i, c in enumerate(s):
        if i == 1:
            return out
        out.append(f"{i}{c}")
    return out


def loop_variable(s):
    c = "before"
    for c in s:
        pass
    return c


def nested_loops(s):
    out = ""
    for a in s:
        for b in s:
            if a == b:
                continue
            out += a + b
        out += ";"
    return out


def while_loop(s):
    i = 0
    while i < len(s) and s[i] != "b":
        i += 1
    j = len(s)
    while j > i:
        j -= 1
        if s[j] == "a":
            continue
        if s[j] == "c":
            return "c found"
    return [i, j]


def ranges(s):
    return [i for i in range(len(s))]


def try_in_loop(s):
    e = None
    for i in range(3):
        try:
            l = ["x", "y"]
            return [l[i + len(s)], i]
        except Exception as error:
            e = error
    if e:
        raise e


def try_passes(s):
    out = "start"
    try:
        out = "changed " + s
    except Exception as error:
        out = "no"
    return out


def try_handler(s):
    try:
        raise Problem(s, 3)
    except Exception as error:
        return [error.name, isinstance(error, Problem), isinstance(error, Other), isinstance(error, ValueError)]


def try_subclass(s):
    try:
        raise Other(s, 3)
    except Exception as error:
        return [error.name, isinstance(error, Problem), isinstance(error, Other)]


def try_again(s):
    try:
        try:
            raise Problem(s, 1)
        except Exception as error:
            raise Other(s, 2)
    except Exception as error:
        return [isinstance(error, Other), error.name]


def raises(s):
    if len(s) == 1:
        raise Problem(s, 1)
    return helper(s)


def helper(s):
    if len(s) == 2:
        raise Other(s, 2)
    return s + "ok"


def nothing(s):
    helper(s)


def comprehensions(s):
    c = "outer"
    l = [c + c for c in s]
    m = [x for x in s if x != "b"]
    return [l, m, c, any(x == "a" for x in s), any([]), list(s), "-".join(x + "." for x in s), [y for y in [len(x) for x in s.split("a")]]]


def recursion(s):
    if not s:
        return ""
    return recursion(s[1:len(s)]) + s[0]


def unbound(s):
    if s:
        x = s
    return x


def add_types(s):
    return s + 1


def none_index(s):
    x = None
    return x[0]


def none_method(s):
    x = None
    return x.strip()


def unknown_name(s):
    return unknown_thing(s)


def join_types(s):
    return "".join([s, None])


# The library --------------------------------------------------------------------------------------------------------
def methods_of_str(s):
    return [s.strip(), s.split(), s.split(" "), s.split("\n"), " ".join(s.split()), "".join([s, s])]


def pattern_break(s):
    return re.sub(r"\n|\r\n|\r", "", s)


def pattern_prefix(s):
    return re.sub(r"mml:", "", s)


def pattern_space(s):
    return re.compile(r"\s+").sub(" ", s)


def pattern_generic(s):
    p = re.compile(r"(<.* )(\w+=(?!([\"\'])))?(.*>)", re.MULTILINE)
    return p.sub(r"\1\3", s)


def pattern_generic4(s):
    p = re.compile(r"(<.* )(\w+=(?!([\"\'])))?(.*>)", re.MULTILINE)
    return p.sub(r"\1|\2|\4", s)


def pattern_missing(s):
    w = re.escape("a.b")
    p = re.compile(f"({w}=(?!([\"\'])))|({w}(?!([\"\'])))", re.MULTILINE)
    return p.sub("", s)


def pattern_word(s):
    w = re.escape(s)
    p = re.compile(f"({w}=(?!([\"\'])))|({w}(?!([\"\'])))", re.MULTILINE)
    return [p.sub("", "a=1 a= a='2' b-c=3 b-c [x]=[x]"), w]


def pattern_alnum(s):
    return [bool(re.match(r"[a-z0-9]", s, re.IGNORECASE)), bool(re.match(r"^[a-zA-Z0-9]$", s)), bool(re.search(r"under", s)), bool(re.search(r"\s+", s))]


def pattern_greedy(s):
    return [re.sub(r"(a.*)(b)?", r"[\1|\2]", s), re.sub(r"a*", "-", s), re.sub(r"(a|ab)c?", r"<\1>", s), re.sub(r"[ab]+c", "#", s),
            re.sub(r"a?b?$", "!", s), re.sub(r"^a", "^", s)]


def dom(s):
    found = parseString(s).getElementsByTagName("a")
    return [dom_node(n) for n in found]


def dom_node(n):
    kinds = [k.nodeType for k in n.childNodes]
    texts = [k.nodeValue for k in n.childNodes]
    tags = [k.tagName for k in n.childNodes if k.nodeType == Node.ELEMENT_NODE]
    attributes = [[x.name, x.value] for x in n.attributes.values()]
    first = n.firstChild.nodeValue if n.firstChild else "none"
    return [n.tagName, kinds, texts, tags, attributes, first]


def dom_errors(s):
    try:
        parseString(s)
    except Exception as error:
        return [error.code, error.lineno, error.offset]
    return "read"


# Which function with which arguments: W words, L lines, T tags, X documents (check_interpreter.py makes them)
TESTS = {
    'W': 'classes keywords abstract missing_method missing_field too_few too_many counters colors method_value nested truths and_or comparisons conditional '
         'lists index_error negative_index string_index slices dictionaries shared_dictionary key_error formats arithmetic loops loop_variable nested_loops '
         'while_loop ranges try_in_loop try_passes try_handler try_subclass try_again raises nothing comprehensions recursion unbound add_types none_index '
         'none_method unknown_name join_types pattern_alnum pattern_greedy',
    'L': 'methods_of_str pattern_break pattern_prefix pattern_space',
    'T': 'pattern_generic pattern_generic4 pattern_missing pattern_word',
    'X': 'dom dom_errors',
}
