"""Lists the command classes of /repo whose objects get an attribute op in __init__ (by its own
assignment or by that of a class whose __init__ it calls).  The list is no_op of VerDiff.v: the others."""
import ast, glob
init = {}; bases = {}
for f in glob.glob('/repo/pykickstart/commands/*.py') + ['/repo/pykickstart/base.py']:
    for k in ast.walk(ast.parse(open(f).read())):
        if isinstance(k, ast.ClassDef):
            bases[k.name] = [ast.unparse(b) for b in k.bases]
            for m in k.body:
                if isinstance(m, ast.FunctionDef) and m.name == '__init__': init[k.name] = m
def inherited(c):
    if c in init: return c
    for b in bases.get(c, []):
        r = inherited(b)
        if r: return r
def has_op(c):
    i = inherited(c)
    if not i: return False
    for s in ast.walk(init[i]):
        if isinstance(s, ast.Assign) and any(ast.unparse(t) == 'self.op' for t in s.targets): return True
        if isinstance(s, ast.Call) and isinstance(s.func, ast.Attribute) and s.func.attr == '__init__':
            b = ast.unparse(s.func.value)
            if b.startswith('super('): b = inherited_base = bases[i][0]
            if has_op(b): return True
    return False
used = set()
for f in glob.glob('/repo/pykickstart/handlers/*.py'):
    for d in ast.walk(ast.parse(open(f).read())):
        if isinstance(d, ast.Dict):
            for v in d.values:
                n = ast.unparse(v).split('.')[-1]
                if not n.endswith('Data'): used.add(n)
print(sorted(c for c in used if not has_op(c)))
