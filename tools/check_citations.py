"""Every function of /repo is cited by the model, and every cited range is code.

Reads the source files with ast and the comments of rocq/theories/*.v as text; runs nothing of the library.
A citation is a path or file name ending in .py, a colon and line ranges; a bare file name stands for the files of that
name that are long enough.  Prints the statements of function bodies that no citation covers.
"""
import ast
import glob
import os
import re

REPO = '/repo/src/mathml_to_latex'
HERE = os.path.join(os.path.dirname(os.path.abspath(__file__)), '..', 'rocq', 'theories')

files = {}
for path in glob.glob(REPO + '/**/*.py', recursive=True):
    files[os.path.relpath(path, REPO)] = open(path, encoding='utf-8').read()

cited = {f: set() for f in files}
citations = bad = 0
for path in sorted(glob.glob(HERE + '/*.v')):
    for name, ranges in re.findall(r'([\w/]+\.py):(\d+(?:-\d+)?(?:,\s+\d+(?:-\d+)?)*)', open(path, encoding='utf-8').read()):
        hits = [f for f in files if ('/' + f).endswith('/' + name)]
        for r in re.split(r',\s+', ranges):
            citations += 1
            a, b = (r.split('-') * 2)[:2]
            ok = False
            for f in hits:
                lines = files[f].split('\n')
                if int(a) <= int(b) <= len(lines) and lines[int(a) - 1].strip() and lines[int(b) - 1].strip():
                    cited[f].update(range(int(a), int(b) + 1))
                    ok = True
            if not ok:
                bad += 1
                print('no such lines:', os.path.basename(path), name, r)

functions = uncovered = 0
for f, text in sorted(files.items()):
    for node in ast.walk(ast.parse(text)):
        if isinstance(node, ast.FunctionDef):
            functions += 1
            body = node.body
            if isinstance(body[0], ast.Expr) and isinstance(body[0].value, ast.Constant):
                body = body[1:]
            left = [s for s in body if not isinstance(s, ast.Pass) and not set(range(s.lineno, s.end_lineno + 1)) <= cited[f]]
            if left:
                uncovered += 1
                print('not cited: %s:%d %s' % (f, left[0].lineno, node.name))
print('%d citations, %d functions; %d wrong, %d not covered' % (citations, functions, bad, uncovered))
