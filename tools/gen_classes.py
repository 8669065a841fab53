#!/usr/bin/env python3
"""Write theories/ClassTable.v and theories/HandlerMaps.v from the text of /repo.

Reads the source with the ast module; nothing of /repo is run."""
import ast, glob, os, sys

R = '/repo/pykickstart/'
OUT = os.path.join(os.path.dirname(os.path.abspath(__file__)), '..', 'rocq', 'theories')

def q(s): return '"%s"' % s
def lst(l): return '[' + '; '.join(l) + ']'

def delegate(m):
    """The class B if the method body is just B.m(self)."""
    body = [s for s in m.body if not (isinstance(s, ast.Expr) and isinstance(s.value, ast.Constant))]
    if len(body) == 1 and isinstance(body[0], ast.Expr):
        c = body[0].value
        if (isinstance(c, ast.Call) and isinstance(c.func, ast.Attribute) and isinstance(c.func.value, ast.Name)
                and c.func.attr == m.name and not c.keywords and len(c.args) == 1
                and isinstance(c.args[0], ast.Name) and c.args[0].id == 'self'):
            return c.func.value.id
    return None

out = ['(** * The classes of pykickstart/base.py and pykickstart/commands/*.py',
       '',
       '    Written by tools/gen_classes.py from the class statements: name, bases, and the',
       '    methods defined in the class body.  [Calls b]: the body of the method is just a',
       '    call of the same method of class b with no arguments.  Static and class',
       '    attributes are not listed. *)', '',
       'From Coq Require Export String List.',
       'Export ListNotations.',
       'Local Open Scope string_scope.', '',
       'Inductive body := Own | Calls (b : string).',
       'Record classdef := mkClassdef { k_name : string; k_bases : list string; k_methods : list (string * body) }.', '']
groups = []
for f in [R + 'base.py'] + sorted(glob.glob(R + 'commands/*.py')):
    rel = os.path.relpath(f, R)
    cs = [c for c in ast.parse(open(f).read()).body if isinstance(c, ast.ClassDef)]
    if rel == 'base.py':
        cs = [c for c in cs if c.name in ('KickstartObject', 'KickstartCommand', 'DeprecatedCommand', 'RemovedCommand', 'BaseData')]
    if not cs:
        continue
    g = 'classes_' + os.path.basename(f)[:-3]
    groups.append(g)
    out.append('(** %s *)' % rel)
    out.append('Definition %s : list classdef := [' % g)
    rows = []
    for c in cs:
        ms = []
        for m in c.body:
            if isinstance(m, ast.FunctionDef) and m.name not in [x[0] for x in ms]:
                d = delegate(m)
                ms.append((m.name, 'Own' if d is None else 'Calls %s' % q(d)))
        rows.append('  (* %s:%d-%d *) mkClassdef %s %s\n    %s' % (rel, c.lineno, c.end_lineno, q(c.name),
                    lst([q(ast.unparse(b)) for b in c.bases if ast.unparse(b) != 'object']),
                    lst(['(%s, %s)' % (q(n), b) for n, b in ms])))
    out.append(';\n'.join(rows) + '].')
    out.append('')
out.append('Definition classes : list classdef := Eval compute in concat [%s].' % '; '.join(groups))
open(os.path.join(OUT, 'ClassTable.v'), 'w').write('\n'.join(out) + '\n')

out = ['(** * The command and data maps of pykickstart/handlers/*.py',
       '',
       '    Written by tools/gen_classes.py.  [handlers] stands for the dictionaries built by',
       '    handlers/control.py:26-50, keyed by version. *)', '',
       'From Verif Require Import Version.',
       'From Coq Require Import String List ZArith.',
       'Import ListNotations.',
       'Local Open Scope string_scope.', '']
hs = []
for f in glob.glob(R + 'handlers/*.py'):
    rel = os.path.relpath(f, R)
    for c in ast.parse(open(f).read()).body:
        if not isinstance(c, ast.ClassDef):
            continue
        d = {a.targets[0].id: a for a in c.body if isinstance(a, ast.Assign)}
        v = ast.unparse(d['version'].value)
        for key, nm in (('commandMap', 'commands'), ('dataMap', 'data')):
            a = d[key]
            ks = [ast.literal_eval(k) for k in a.value.keys]
            vs = [ast.unparse(x).split('.')[-1] for x in a.value.values]
            hs.append((v, '(** %s:%d-%d (%s.%s) *)\nDefinition %s_%s : list (string * string) := [\n  %s].\n' % (
                rel, a.lineno, a.end_lineno, c.name, key, v, nm,
                ';\n  '.join('(%s, %s)' % (q(k), q(x)) for k, x in zip(ks, vs)))))
import re
vers = {}
for l in open(R + 'version.py'):
    m = re.match(r'^([A-Z]+\d+)\s*=\s*(\d+)', l)
    if m: vers[m[1]] = int(m[2])
hs.sort(key=lambda x: vers[x[0]])
out += [h[1] for h in hs]
names = []
for v, _ in hs:
    if v not in names: names.append(v)
out.append('Definition handlers : list (Z * (list (string * string) * list (string * string))) := [\n  %s].' %
           ';\n  '.join('(%s, (%s_commands, %s_data))' % (v, v, v) for v in names))
open(os.path.join(OUT, 'HandlerMaps.v'), 'w').write('\n'.join(out) + '\n')
