#!/usr/bin/env python3
"""List the functions of /repo/gama that no comment in the *_Model.v files cites."""
import ast, glob, re, os, sys
cited = {}
for f in glob.glob('/verif/rocq/theories/*.v'):
    t = open(f).read()
    for m in re.finditer(r'([A-Za-z_]\w*)\.py(?::|\s+)((?:\d+(?:-\d+)?(?:,\s*|\s+and\s+)?)+)', t):
        for a, b in re.findall(r'(\d+)(?:-(\d+))?', m.group(2)):
            a = int(a); b = int(b) if b else a
            cited.setdefault(m.group(1), set()).update(range(a, b + 1))
for p in sorted(glob.glob('/repo/gama/**/*.py', recursive=True)):
    name = os.path.basename(p)[:-3]
    src = open(p).read()
    tree = ast.parse(src)
    got = cited.get(name, set())
    fns = []
    def walk(n, pre):
        for c in getattr(n, 'body', []):
            if isinstance(c, (ast.FunctionDef, ast.AsyncFunctionDef)):
                lines = set()
                for s in ast.walk(c):
                    if isinstance(s, ast.stmt) and s is not c and not (isinstance(s, ast.Expr) and isinstance(s.value, ast.Constant)):
                        lines.add(s.lineno)
                fns.append((pre + c.name, c.lineno, c.end_lineno, len(lines & got), len(lines)))
            elif isinstance(c, ast.ClassDef):
                walk(c, pre + c.name + '.')
    walk(tree, '')
    if not fns: continue
    un = [f for f in fns if f[3] == 0]
    part = [f for f in fns if 0 < f[3] < f[4]]
    print(f"{p[11:]}: {len(fns)} functions, {len(fns)-len(un)} cited")
    for f in un: print(f"   -- {f[0]} {f[1]}-{f[2]}")
    if '-v' in sys.argv:
        for f in part: print(f"   ~  {f[0]} {f[1]}-{f[2]} ({f[3]}/{f[4]} statements)")
