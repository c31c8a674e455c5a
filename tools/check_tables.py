#!/usr/bin/env python3
"""Compares rocq/theories/Tables.v with the text of /repo/src/mathml_to_latex/syntax.py, which is parsed and not run.

For each of the eight tables: the same entries in the same order with the same source lines, and the same value for each key
(a dictionary keeps the last value of a repeated key, the model's lookup takes the first entry).  Also checks that the files, and the
classes, functions and variables, named in the anchors of properties.jsonl exist.
"""
import ast
import json
import os
import re
import sys

ROOT = os.path.dirname(os.path.dirname(os.path.abspath(__file__)))
REPO = sys.argv[1] if len(sys.argv) > 1 else "/repo"
errors = []


def text(node):
    if isinstance(node, ast.Call):
        return tuple(ast.literal_eval(x.value) for x in node.keywords) or tuple(map(ast.literal_eval, node.args))
    return ast.literal_eval(node)


def python_tables():
    tables = {}
    tree = ast.parse(open(REPO + "/src/mathml_to_latex/syntax.py", encoding="utf-8").read())
    for node in tree.body:
        target = node.target if isinstance(node, ast.AnnAssign) else node.targets[0] if isinstance(node, ast.Assign) else None
        if target is not None and isinstance(node.value, ast.Dict):
            tables[target.id] = [(ast.literal_eval(k), text(v), k.lineno) for k, v in zip(node.value.keys, node.value.values)]
    return tables


TERM = r'\(?(?:lit "((?:[^"]|"")*)"|\[([0-9;]*)\])\)?'


def term(match, i):
    if match.group(i) is not None:
        return match.group(i).replace('""', '"')
    return "".join(chr(int(c)) for c in match.group(i + 1).split(";") if c)


def coq_tables():
    tables, name = {}, None
    for line in open(ROOT + "/rocq/theories/Tables.v", encoding="utf-8"):
        start = re.match(r"Definition (\w+) : dict \w+ := \[", line)
        if start:
            name = start.group(1)
            tables[name] = []
        elif name and line.startswith("  ("):
            m = re.match(r"  \(%s, (?:(AccentChar|SpecialFontChar) %s %s|%s)\);? \(\* (\d+)" % (TERM, TERM, TERM, TERM), line)
            if not m:
                errors.append("cannot read: " + line.strip())
                continue
            value = (term(m, 4), term(m, 6)) if m.group(3) else term(m, 8)
            tables[name].append((term(m, 1), value, int(m.group(10))))
        elif line.startswith("]"):
            name = None
    return tables


py, coq = python_tables(), coq_tables()
if sorted(py) != sorted(coq):
    errors.append("tables differ: %s %s" % (sorted(py), sorted(coq)))
for name in py:
    mine = coq.get(name, [])
    effective = {}
    for key, value, _ in mine:
        effective.setdefault(key, value)
    wanted = {key: value for key, value, _ in py[name]}
    if effective != wanted:
        errors.append("%s: values differ for %s" % (name, [k for k in wanted if effective.get(k) != wanted[k]][:5]))
    if [(k, v) for k, v, _ in mine] != [(k, wanted[k]) for k in dict.fromkeys(k for k, _, _ in py[name])]:
        errors.append("%s: order of entries differs" % name)
    lines = {}
    for key, value, line in py[name]:
        lines.setdefault(key, set()).add(line)
    bad = [(k, n) for k, _, n in mine if n not in lines.get(k, ())]
    if bad:
        errors.append("%s: source lines differ: %s" % (name, bad[:5]))
    print("%-32s %5d entries, %5d keys" % (name, len(py[name]), len(wanted)))

seen = 0
for line in open(ROOT + "/properties.jsonl", encoding="utf-8"):
    entry = json.loads(line)
    for anchor in entry["anchors"]:
        path, _, symbol = anchor.partition(":")
        seen += 1
        if not os.path.isfile(os.path.join(REPO, path)):
            errors.append("%s: no file %s" % (entry["id"], path))
            continue
        scope = ast.parse(open(os.path.join(REPO, path), encoding="utf-8").read()).body
        for part in filter(None, symbol.split(".")):
            found = [n for n in scope if getattr(n, "name", None) == part or
                     any(getattr(t, "id", None) == part for t in getattr(n, "targets", [getattr(n, "target", None)]))]
            if not found:
                errors.append("%s: no %s in %s" % (entry["id"], symbol, path))
                break
            scope = getattr(found[0], "body", [])
print("%d anchors" % seen)
print("\n".join(errors) or "no difference")
sys.exit(bool(errors))
