#!/usr/bin/env python3
"""Write theories/CmdTables.v and theories/CmdCode.v from the text of /repo.

Reads pykickstart/commands/*.py with the ast module; nothing of /repo is run.  A method
that uses something outside the forms below is reported on stderr and left out."""
import ast, glob, os, sys

R = '/repo/pykickstart/'
OUT = os.path.join(os.path.dirname(os.path.abspath(__file__)), '..', 'rocq', 'theories')
SKIP_MODULES = {'method', 'realm', 'multipath'}
METHODS = {'__init__', 'parse', '__str__', '_getArgsAsStr', '_typeAsStr', '_getDevice', 'dataClass'}

class No(Exception):
    pass

def q(s): return '"%s"' % s.replace('"', '""')
def lst(l): return '[' + '; '.join(l) + ']'
def src(n): return ast.unparse(n)

# ---------------------------------------------------------------- constants
CONST = {}
for n in ast.parse(open(R + 'constants.py').read()).body:
    if isinstance(n, ast.Assign):
        try: CONST[n.targets[0].id] = ast.literal_eval(n.value)
        except ValueError: pass
def val(v):
    if v is None: return 'VNone'
    if v is True: return '(VBool true)'
    if v is False: return '(VBool false)'
    if isinstance(v, int): return '(VInt (%d))' % v if v < 0 else '(VInt %d)' % v
    if isinstance(v, str): return '(VStr %s)' % q(v)
    if isinstance(v, (list, tuple)):
        if all(isinstance(x, str) for x in v): return '(VStrs %s)' % lst([q(x) for x in v])
        if all(isinstance(x, tuple) and len(x) == 2 for x in v):
            return '(VPairs %s)' % lst(['(%s, %s)' % (q(a), q(b)) for a, b in v])
    if isinstance(v, dict):
        if all(isinstance(x, str) for x in v.values()):
            return '(VPairs %s)' % lst(['(%s, %s)' % (q(a), q(b)) for a, b in v.items()])
        if all(isinstance(x, int) for x in v.values()):
            return '(VCodes %s)' % lst(['(%s, %s)' % (q(a), '(%d)%%Z' % b) for a, b in v.items()])
    raise No('value %r' % (v,))

class Fold(ast.NodeTransformer):
    """Names of constants.py replaced by their values."""
    def visit_Name(self, n):
        if n.id in CONST: return ast.copy_location(ast.parse(repr(CONST[n.id]), mode='eval').body, n)
        return n
def literal(n):
    return ast.literal_eval(Fold().visit(ast.parse(src(n), mode='eval').body))

# ---------------------------------------------------------------- classes
CLASSES = {}          # name -> (relative path, ClassDef)
ORDER = []
for f in sorted(glob.glob(R + 'commands/*.py')):
    for c in ast.parse(open(f).read()).body:
        if isinstance(c, ast.ClassDef):
            CLASSES[c.name] = (os.path.relpath(f, R), c)
            ORDER.append(c.name)

def mro(c):
    if c not in CLASSES: return [c] if c not in ('DeprecatedCommand', 'RemovedCommand') else [c, 'KickstartCommand']
    bases = [src(b) for b in CLASSES[c][1].bases]
    seqs = [mro(b) for b in bases] + [list(bases)]
    out = [c]
    while any(seqs):
        for s in seqs:
            if s and not any(s[0] in t[1:] for t in seqs): break
        h = s[0]
        out.append(h)
        seqs = [t[1:] if t and t[0] == h else t for t in seqs]
    return out
def methods(c): return {m.name: m for m in CLASSES[c][1].body if isinstance(m, ast.FunctionDef)} if c in CLASSES else {}
def find(c, m):
    for k in mro(c):
        if m in methods(k): return k
def class_attr(c, a):
    for k in mro(c):
        if k in CLASSES:
            for n in CLASSES[k][1].body:
                if isinstance(n, ast.Assign) and n.targets[0].id == a: return n.value
    return None
def removed(c):
    def ev(n):
        if isinstance(n, ast.BinOp): return ev(n.left) + ev(n.right)
        if isinstance(n, ast.List): return [x.value for x in n.elts]
        if isinstance(n, ast.Attribute):
            v = class_attr(n.value.id, n.attr)
            return [] if v is None else ev(v)
        raise No(src(n))
    v = class_attr(c, 'removedAttrs')
    return [] if v is None else ev(v)
CLASS_ATTRS = {n.targets[0].id for c in ORDER for n in CLASSES[c][1].body if isinstance(n, ast.Assign)} - {'removedAttrs', 'removedKeywords'}
def list_attr(c):
    """The attribute that dataList() returns, for the class or its bases."""
    k = find(c, 'dataList')
    if k is None: return None
    r = methods(k)['dataList'].body[-1].value
    return r.attr if isinstance(r, ast.Attribute) else None

# ---------------------------------------------------------------- methods
class Tr:
    def __init__(self, cls, m):
        self.cls, self.m = cls, m
        self.n = 0
        self.pre = []
        self.texts = {}
        self.datavars = set()
        self.lists = {a for a in [list_attr(k) for k in ORDER if self.cls in mro(k)] if a}

    def tmp(self):
        self.n += 1
        return '_t%d' % self.n

    def call(self, target, name, params):
        x = self.tmp()
        self.pre.append('SCall %s %s %s %s' % (q(x), target, q(name), lst(['(%s, %s)' % (q(a), b) for a, b in params])))
        return '(EVar %s)' % q(x)

    def fmt(self, n):
        s = n.left.value
        args = n.right.elts if isinstance(n.right, ast.Tuple) else [n.right]
        parts, i, lit, k = [], 0, '', 0
        while i < len(s):
            if s[i] == '%':
                if s[i + 1] == '%': lit += '%'
                else:
                    if s[i + 1] not in 'sd': raise No('format ' + s)
                    if lit: parts.append('(str %s)' % q(lit))
                    lit = ''
                    parts.append('(EUn %s %s)' % ('UStr' if s[i + 1] == 's' else 'UDec', self.ex(args[k])))
                    k += 1
                i += 2
            else:
                lit += s[i]; i += 1
        if lit: parts.append('(str %s)' % q(lit))
        if k != len(args): raise No('format arguments')
        out = parts[0]
        for p in parts[1:]: out = '(EBin BAdd %s %s)' % (out, p)
        return out

    def ex(self, n):
        if isinstance(n, ast.Constant):
            if isinstance(n.value, bytes): return '(EConst (VStr %s))' % q(n.value.decode())
            return '(str %s)' % q(n.value) if isinstance(n.value, str) else '(EConst %s)' % val(n.value)
        if isinstance(n, ast.Name):
            if n.id in CONST: return self.ex(ast.parse(repr(CONST[n.id]), mode='eval').body)
            if n.id == 'args' and self.m.name == 'parse': return 'EArgs'
            return '(EVar %s)' % q(n.id)
        if isinstance(n, ast.UnaryOp):
            if isinstance(n.op, ast.Not): return '(EUn UNot %s)' % self.ex(n.operand)
            return '(EConst %s)' % val(literal(n))
        if isinstance(n, ast.BoolOp):
            vs = [self.ex(v) for v in n.values]
            out = vs[-1]
            for v in reversed(vs[:-1]): out = '(%s %s %s)' % ('EAnd' if isinstance(n.op, ast.And) else 'EOr', v, out)
            return out
        if isinstance(n, ast.Compare):
            ops = {ast.Eq: 'BEq', ast.NotEq: 'BNe', ast.Lt: 'BLt', ast.LtE: 'BLe', ast.Gt: 'BGt', ast.GtE: 'BGe',
                   ast.Is: 'BIs', ast.IsNot: 'BIsNot', ast.In: 'BIn', ast.NotIn: 'BNotIn'}
            xs = [n.left] + n.comparators
            out = []
            for o, a, b in zip(n.ops, xs, xs[1:]):
                if isinstance(b, ast.Call) and src(b.func).endswith('.values'):
                    e = '(EBin BInValues %s %s)' % (self.ex(a), self.ex(b.func.value))
                    if isinstance(o, ast.NotIn): e = '(EUn UNot %s)' % e
                    elif not isinstance(o, ast.In): raise No(src(n))
                else:
                    e = '(EBin %s %s %s)' % (ops[type(o)], self.ex(a), self.ex(b))
                out.append(e)
            r = out[-1]
            for e in reversed(out[:-1]): r = '(EAnd %s %s)' % (e, r)
            return r
        if isinstance(n, ast.BinOp):
            if isinstance(n.op, ast.Add): return '(EBin BAdd %s %s)' % (self.ex(n.left), self.ex(n.right))
            if isinstance(n.op, ast.Mod) and isinstance(n.left, ast.Constant): return self.fmt(n)
            raise No(src(n))
        if isinstance(n, ast.Attribute):
            s = src(n)
            if s.startswith('self.handler.'):
                p = s.split('.')
                if len(p) == 4 and p[3] == 'seen': return '(ESeen %s)' % q(p[2])
                if len(p) == 3 and p[2].endswith('Data'): return '(EConst (VStr %s))' % q(p[2])
                raise No(s)
            if isinstance(n.value, ast.Name) and n.value.id == 'self' and n.attr in CLASS_ATTRS:
                return self.call('TSelf', n.attr, [])
            return '(EAttr %s %s)' % (self.ex(n.value), q(n.attr))
        if isinstance(n, (ast.List, ast.Tuple)):
            try: return '(EConst %s)' % val(literal(n))
            except ValueError: pass
            if len(n.elts) == 1: return '(EUn USingle %s)' % self.ex(n.elts[0])
            raise No(src(n))
        if isinstance(n, ast.Dict): return '(EConst %s)' % val(literal(n))
        if isinstance(n, ast.Subscript):
            if isinstance(n.slice, ast.Slice):
                lo, hi = n.slice.lower, n.slice.upper
                if hi is None and lo is not None: return '(EBin BFrom %s %s)' % (self.ex(n.value), self.ex(lo))
                if lo is None and hi is not None and src(hi) == '-1': return '(EUn UChop %s)' % self.ex(n.value)
                raise No(src(n))
            return '(EBin BIndex %s %s)' % (self.ex(n.value), self.ex(n.slice))
        if isinstance(n, ast.ListComp):
            return self.comp(n)
        if isinstance(n, ast.Call):
            return self.callex(n)
        raise No(src(n))

    def comp(self, n):
        g = n.generators[0]
        s = src(n)
        if src(g.target) == '(attr, opt)' and src(n.elt) == 'opt' and src(g.iter) == 'self.exclusive_required_options' \
           and [src(i) for i in g.ifs] == ['getattr(ns, attr, None)']:
            return '(EUsed %s %s)' % (self.ex(g.iter), self.ex(ast.Name('ns')))
        if src(g.iter) == 'self.dataList()' and not g.ifs and isinstance(n.elt, ast.Attribute) and src(n.elt.value) == src(g.target):
            return '(EDataNames %s)' % q(n.elt.attr)
        raise No(s)

    def params(self, n, skip):
        """Keyword and positional parameters of a call of __init__ or of another method."""
        ps = []
        args = n.args[skip:]
        kw = False
        name = n.func.attr
        names = {'__init__': ['writePriority'], '_getDevice': ['s']}.get(name, [])
        for a in args:
            if isinstance(a, ast.Starred): continue
            if name == 'parse' and src(a) == 'args': continue
            if name == '__init__' and src(a) in ('args', 'kwargs'): continue   # lost: bound to *args
            ps.append((names.pop(0), self.ex(a)))
        for k in n.keywords:
            if k.arg is None: kw = True
            else: ps.append((k.arg, self.ex(k.value)))
        if name == '__init__': ps.append(('kwargs', '(EVar "kwargs")' if kw else 'ENoKw'))
        return ps

    def callex(self, n):
        f, s = n.func, src(n)
        a = n.args
        if isinstance(f, ast.Name):
            if f.id == 'getattr': return '(EGet %s %s %s)' % (self.ex(a[0]), q(a[1].value), self.ex(a[2]))
            if f.id == 'hasattr':
                if src(a[0]) == 'self.handler': return '(EHandlerHas %s)' % q(a[1].value)
                return '(EHas %s %s)' % (self.ex(a[0]), q(a[1].value))
            if f.id == 'len': return '(EUn ULen %s)' % self.ex(a[0])
            if f.id == 'str':
                if src(a[0]) in self.datavars: return '(EDataStr %s)' % self.ex(a[0])
                return '(EUn UStr %s)' % self.ex(a[0])
            if f.id == 'int': return '(EUn UInt %s)' % self.ex(a[0])
            if f.id == 'bool': return '(EUn UBool %s)' % self.ex(a[0])
            if f.id == 'mountpoint': return '(EUn UMount %s)' % self.ex(a[0])
            if f.id == 'validate_network_interface_name': return '(EUn UBadName %s)' % self.ex(a[0])
            if f.id == 'isinstance' and src(a[1]) == 'six.binary_type': return '(EConst (VBool false))'
            if f.id in ('list', 'set') and not a: return '(EConst (VStrs []))'
            if f.id == 'list' and isinstance(a[0], ast.Call) and src(a[0].func) == 'set': return '(EUn UDistinct %s)' % self.ex(a[0].args[0])
            if f.id == 'any':
                if isinstance(a[0], (ast.List, ast.Tuple)):
                    vs = [self.ex(v) for v in a[0].elts]
                    out = vs[-1]
                    for v in reversed(vs[:-1]): out = '(EOr %s %s)' % (v, out)
                    return '(EUn UBool %s)' % out
                if isinstance(a[0], ast.GeneratorExp) and len(a[0].generators) == 1:
                    g = a[0].generators[0]
                    if src(a[0].elt) == src(g.target) and [src(i) for i in g.ifs] == [src(g.target) + ".startswith('-')"]:
                        return '(EUn UDashed %s)' % self.ex(g.iter)
            raise No(s)
        if not isinstance(f, ast.Attribute): raise No(s)
        if src(f) == 'kwargs.get':
            return '(EGet (EVar "kwargs") %s %s)' % (q(a[0].value), self.ex(a[1]) if len(a) > 1 else '(EConst VNone)')
        o = f.value
        if isinstance(o, ast.Name) and o.id == 'self' and f.attr in METHODS:
            return self.call('TSelf', f.attr, self.params(n, 0))
        if isinstance(o, ast.Name) and (o.id in CLASSES or o.id in ('KickstartCommand', 'DeprecatedCommand', 'RemovedCommand', 'BaseData')) \
           and f.attr in METHODS and a and src(a[0]) == 'self':
            return self.call('(TClass %s)' % q(o.id), f.attr, self.params(n, 1))
        if isinstance(o, ast.Call) and src(o.func) == 'super' and f.attr in METHODS:
            if o.args and src(o.args[0]) != self.cls: raise No(s)
            return self.call('(TSuper %s)' % q(self.cls), f.attr, self.params(n, 0))
        if f.attr == '__str__' and isinstance(o, ast.Name) and o.id in self.datavars: return '(EDataStr %s)' % self.ex(o)
        if f.attr in ('strip', 'rstrip', 'lower', 'upper') and not a:
            return '(EUn %s %s)' % ({'strip': 'UStrip', 'rstrip': 'URstrip', 'lower': 'ULower', 'upper': 'UUpper'}[f.attr], self.ex(o))
        if f.attr == 'split' and len(a) == 1: return '(EBin BSplit %s %s)' % (self.ex(a[0]), self.ex(o))
        if f.attr == 'join' and len(a) == 1: return '(EBin BJoin %s %s)' % (self.ex(o), self.ex(a[0]))
        if f.attr == 'startswith' and len(a) == 1: return '(EBin BStarts %s %s)' % (self.ex(o), self.ex(a[0]))
        if f.attr == 'replace' and len(a) == 2 and a[1].value == '\\' + a[0].value and len(a[0].value) == 1:
            return '(EBin BEscape %s %s)' % (self.ex(o), self.ex(a[0]))
        if f.attr == '_getArgsAsStr': raise No(s)
        raise No(s)

    # statements
    def block(self, body):
        out = []
        for s in body:
            self.pre = []
            t = self.st(s)
            out += self.pre + ([t] if t else [])
            self.pre = []
        return out
    def seq(self, l):
        if not l: return 'SPass'
        if len(l) == 1: return '(%s)' % l[0]
        return '(steps [' + ';\n      '.join(l) + '])'
    def sub(self, body):
        keep = self.pre
        r = self.block(body)
        self.pre = keep
        return r

    def text(self, n):
        """The literal of a message."""
        for x in ast.walk(n):
            if isinstance(x, ast.Constant) and isinstance(x.value, str): return x.value
        if isinstance(n, ast.Name): return self.texts.get(n.id, n.id)
        return src(n)

    def st(self, s):
        if isinstance(s, ast.Expr):
            v = s.value
            if isinstance(v, ast.Constant): return None
            if isinstance(v, ast.Call):
                f = src(v.func)
                if f == 'warnings.warn': return None
                if f == 'self.op.parse_args': return 'SParse "_"'
                if f == 'self.set_to_self': return 'SSetTo %s "self"' % q(src(v.args[0]))
                if f == 'self.set_to_obj': return 'SSetTo %s %s' % (q(src(v.args[0])), q(src(v.args[1])))
                if f == 'self.deleteRemovedAttrs': return 'SDelRemoved []'
                if isinstance(v.func, ast.Attribute) and v.func.attr == 'append':
                    o = v.func.value
                    if isinstance(o, ast.Name): return 'SAppend %s %s' % (q(o.id), self.ex(v.args[0]))
                    if isinstance(o, ast.Attribute) and src(o.value) == 'self':
                        x = literal(v.args[0])
                        if isinstance(x, tuple): return 'SAttr "self" %s (EBin BUnion %s (EConst %s))' % (q(o.attr), self.ex(o), val([x]))
                        return 'SAttr "self" %s (EBin BAdd %s (EConst %s))' % (q(o.attr), self.ex(o), val([x]))
                if isinstance(v.func, ast.Attribute) and v.func.attr == 'update':
                    o = v.func.value
                    return 'SAttr "self" %s (EBin BUnion %s %s)' % (q(o.attr), self.ex(o), self.ex(v.args[0]))
                self.ex(v)       # a hoisted call
                return None
            raise No(src(s))
        if isinstance(s, ast.Assign):
            if len(s.targets) != 1: raise No(src(s))
            t, v = s.targets[0], s.value
            if isinstance(v, ast.Call) and src(v.func) == 'self.op.parse_args': return 'SParse %s' % q(t.id)
            if isinstance(v, ast.Call) and src(v.func) == 'self.op.parse_known_args':
                return 'SParseKnown %s %s' % (q(t.elts[0].id), q(t.elts[1].id))
            if isinstance(v, ast.Subscript) and src(v.value).startswith('self.op.parse_known_args') and src(v.slice) == '1':
                return 'SParseKnown "_" %s' % q(t.id)
            if isinstance(v, ast.Call) and isinstance(v.func, ast.Attribute) and v.func.attr == 'partition':
                return 'SPartition %s %s' % (' '.join(q(e.id) for e in t.elts), q(v.args[0].value) + ' ' + self.ex(v.func.value))
            if isinstance(t, ast.Name):
                if t.id == 'mapping': return None
                if any(isinstance(x, ast.Call) and src(x.func) == '_' for x in ast.walk(v)):
                    self.texts[t.id] = self.text(v)
                    return None
                return 'SAssign %s %s' % (q(t.id), self.ex(v))
            if isinstance(t, ast.Attribute) and isinstance(t.value, ast.Name):
                if src(t) == 'self.op': return None
                if src(t.value) == 'self' and t.attr in self.lists and self.m.name == '__init__': return None
                return 'SAttr %s %s %s' % (q(t.value.id), q(t.attr), self.ex(v))
            if isinstance(t, ast.Subscript) and isinstance(t.value, ast.Attribute) and src(t.value.value) == 'self':
                return 'SAttr "self" %s (EBin BUnion %s (EConst %s))' % (q(t.value.attr), self.ex(t.value), val({t.slice.value: literal(v)}))
            raise No(src(s))
        if isinstance(s, ast.AugAssign) and isinstance(s.op, ast.Add) and isinstance(s.target, ast.Name):
            return 'SAssign %s (EBin BAdd (EVar %s) %s)' % (q(s.target.id), q(s.target.id), self.ex(s.value))
        if isinstance(s, ast.If):
            body, orelse = self.sub(s.body), self.sub(s.orelse)
            if not body and not orelse and 'self.dataList()' in src(s.test): return None
            if 'self.dataList()' in src(s.test) and 'for' not in src(s.test) and all('warn' in src(x) for x in s.body): return None
            return 'SIf %s\n      %s\n      %s' % (self.ex(s.test), self.seq(body), self.seq(orelse))
        if isinstance(s, ast.For):
            if s.orelse: raise No(src(s))
            it = src(s.iter)
            if it.startswith('self.') and it[5:] in self.lists:
                self.datavars.add(s.target.id)
                return 'SForData %s %s' % (q(s.target.id), self.seq(self.sub(s.body)))
            if isinstance(s.target, ast.Tuple):
                i = s.iter
                if isinstance(i, ast.Call) and src(i.func) == 'list': i = i.args[0]
                if isinstance(i, ast.Call) and i.func.attr == 'items': i = i.func.value
                return 'SForPairs %s %s %s %s' % (q(s.target.elts[0].id), q(s.target.elts[1].id), self.ex(i), self.seq(self.sub(s.body)))
            return 'SFor %s %s %s' % (q(s.target.id), self.ex(s.iter), self.seq(self.sub(s.body)))
        if isinstance(s, ast.Raise):
            c = s.exc
            if src(c.func) == 'KickstartParseError':
                ln = [k for k in c.keywords if k.arg == 'lineno']
                if ln and src(ln[0].value) != 'self.lineno': raise No(src(s))
                return 'SRaise %s %s' % ('true' if ln else 'false', q(self.text(c.args[0])))
            raise No(src(s))
        if isinstance(s, ast.Assert): return 'SAssert %s' % self.ex(s.test)
        if isinstance(s, ast.Return):
            return 'SReturn %s' % ('(EConst VNone)' if s.value is None else self.ex(s.value))
        if isinstance(s, ast.Break): return 'SBreak'
        if isinstance(s, ast.Pass): return None
        if isinstance(s, ast.Delete):
            t = s.targets[0]
            return 'SDel %s %s' % (q(t.value.id), q(t.attr))
        raise No(src(s))

    def go(self):
        ps = []
        if self.m.name == 'dataClass':
            r = self.m.body[-1].value
            s = src(r)
            if not (s.startswith('self.handler.') and s.count('.') == 2): raise No(s)
            return '[]', '(SReturn (ENew %s))' % q(s.split('.')[2])
        a = self.m.args
        names = [x.arg for x in a.args][1:]
        dfl = [None] * (len(names) - len(a.defaults)) + list(a.defaults)
        for nme, d in zip(names, dfl):
            if self.m.name == 'parse' and nme == 'args': continue
            ps.append('(%s, %s)' % (q(nme), 'None' if d is None else '(Some %s)' % val(literal(d))))
        if a.kwarg: ps.append('("kwargs", None)')
        body = self.seq(self.block(self.m.body))
        return lst(ps), body

# ---------------------------------------------------------------- option tables
NARGS = {'*': 'NStar', '?': 'NOpt', '+': 'NPlus', 1: '(NInt 1)', 0: '(NInt 0)'}
def ty(n, cls):
    s = src(n)
    simple = {'int': 'TInt', 'commaSplit': 'TComma', 'ksboolean': 'TBool', 'mountpoint': 'TMount', 'str': 'TStr',
              'firewall_port_cb': 'TPorts', 'teamslaves_cb': 'TTeam', 'device_cb': '(TDrop "md")', 'part_cb': '(TDrop "/dev/")',
              'self._type_cb': '(TCode (codes_of "typeMap" self))', 'self._when_cb': '(TCode (codes_of "whenMap" self))'}
    if s == 'level_cb':
        return '(TName %s (pairs_of "levelMap" self))' % ('true' if 'raid' in CLASSES[cls][0] else 'false')
    if s in simple: return simple[s]
    raise No('type ' + s)

def decl(call, cls):
    opts = [a.value for a in call.args]
    kw = {k.arg: k.value for k in call.keywords if k.arg not in ('help', 'version', 'metavar', 'notest')}
    positional = not opts[0].startswith('-')
    act = src(kw.pop('action')) if 'action' in kw else "'store'"
    dest = kw.pop('dest').value if 'dest' in kw else None
    if dest is None:
        if positional: dest = opts[0]
        else:
            longs = [o for o in opts if o.startswith('--')]
            dest = (longs or opts)[0].lstrip('-').replace('-', '_')
    nargs = literal(kw.pop('nargs')) if 'nargs' in kw else None
    const = val(literal(kw.pop('const'))) if 'const' in kw else 'VNone'
    hasdef = 'default' in kw
    dflt = val(literal(kw.pop('default'))) if hasdef else 'VNone'
    t = ty(kw.pop('type'), cls) if 'type' in kw else 'TStr'
    ch = 'None'
    if 'choices' in kw:
        c = kw.pop('choices')
        if isinstance(c, ast.Attribute): ch = '(Some (strings_of %s self))' % q(c.attr)
        else: ch = '(Some %s)' % lst([q(x) for x in literal(c)])
    req = literal(kw.pop('required')) if 'required' in kw else False
    dep = 'true' if 'deprecated' in kw else 'false'
    kw.pop('deprecated', None)
    if kw: raise No('add_argument ' + str(list(kw)))
    N = 'NOne' if nargs is None else NARGS[nargs]
    kind = {"'store'": 'KStore', "'store_const'": 'KStoreConst', "'append'": 'KAppend', "'append_const'": 'KAppendConst',
            "'store_true'": 'KStoreConst', "'store_false'": 'KStoreConst', 'ExtendAction': 'KExtend', 'ExtendConstAction': 'KExtendConst'}[act]
    if act == "'store_true'":
        const = '(VBool true)'
        if not hasdef: dflt = '(VBool false)'
    if act == "'store_false'":
        const = '(VBool false)'
        if not hasdef: dflt = '(VBool true)'
    if kind in ('KStoreConst', 'KAppendConst', 'KExtendConst'): N = '(NInt 0)'
    if positional:
        req = not (nargs == '?' or (nargs == '*' and hasdef))
        opts = []
    return 'OpAdd (mkDecl %s %s %s %s %s %s %s %s %s %s)' % (
        lst([q(o) for o in opts]), q(dest), kind, N, const, dflt, t, ch, 'true' if req else 'false', dep)

def table(c):
    m = methods(c)['_getParser']
    parent, ops = None, []
    def scan(v):
        nonlocal parent
        if not isinstance(v, ast.Call): return
        f = v.func
        if src(f) == 'KSOptionParser': return
        if isinstance(f, ast.Attribute) and f.attr == '_getParser':
            if isinstance(f.value, ast.Name): k = find(f.value.id, '_getParser')
            elif src(f.value.func) == 'super':
                for k in mro(c)[1:]:
                    if '_getParser' in methods(k): break
            else: raise No(src(v))
            parent = k
            return
        if src(f) == 'op.add_argument': ops.append(decl(v, c)); return
        if src(f) == 'op.remove_argument': ops.append('OpRemove %s' % q(v.args[0].value)); return
        raise No(src(v))
    for s in m.body:
        if isinstance(s, (ast.Expr, ast.Return)):
            if isinstance(s.value, ast.Call): scan(s.value)
        elif isinstance(s, ast.Assign):
            t = src(s.targets[0])
            if t in ('op.description', 'op.epilog', 'op.prog', 'op.version') or t.endswith('.help') or t == 'meta_msg': continue
            scan(s.value)
        elif isinstance(s, ast.AugAssign):
            if not (src(s.target).startswith('op.') or src(s.target).endswith('.help')): raise No(src(s))
        elif isinstance(s, ast.FunctionDef): pass
        elif isinstance(s, (ast.For, ast.If)):
            for x in ast.walk(s):
                if isinstance(x, ast.Call) and src(x.func) in ('op.add_argument', 'op.remove_argument'): raise No(src(s))
        else: raise No(src(s))
    return parent, ops, m

bad = []
tab = ['(** * The option tables of the commands', '',
       '    Written by tools/gen_commands.py from the _getParser methods of',
       '    pykickstart/commands/*.py: the add_argument and remove_argument calls, in order.',
       '    [self] are the attributes of the command after __init__. *)', '',
       'From Verif Require Export ArgDecl.', 'From Verif Require Import Value.',
       'Local Open Scope string_scope.', 'Local Open Scope list_scope.', '',
       'Definition pairs_of (a : string) (self : attrs) : list (string * string) :=',
       '  match get a self with VPairs l => l | _ => [] end.',
       'Definition codes_of (a : string) (self : attrs) : list (string * Z) :=',
       '  match get a self with VCodes l => l | _ => [] end.',
       'Definition strings_of (a : string) (self : attrs) : list string :=',
       '  match get a self with VStrs l => l | _ => [] end.', '']
done = set()
names = []
def emit_table(c):
    if c in done: return
    done.add(c)
    rel = CLASSES[c][0]
    try: parent, ops, m = table(c)
    except No as e:
        bad.append((c, '_getParser', str(e))); return
    if parent: emit_table(parent)
    tab.append('(** %s:%d-%d *)' % (rel, m.lineno, m.end_lineno))
    body = ('[' + ';\n   '.join(ops) + ']') if ops else '[]'
    if parent: body = ('t_%s self' % parent) + (' ++\n  ' + body if ops else '')
    tab.append('Definition t_%s (self : attrs) : list tableop :=\n  %s.' % (c, body))
    names.append(c)
for c in ORDER:
    if '_getParser' in methods(c) and CLASSES[c][0][9:-3] not in SKIP_MODULES: emit_table(c)
tab.append('')
tab.append('Definition tables : list (string * (attrs -> list tableop)) :=\n  ['
           + ';\n   '.join('(%s, t_%s)' % (q(c), c) for c in names) + '].')
open(os.path.join(OUT, 'CmdTables.v'), 'w').write('\n'.join(tab) + '\n')

out = ['(** * The methods of the command and data classes', '',
       '    Written by tools/gen_commands.py from pykickstart/commands/*.py: the methods',
       '    __init__, parse, __str__ and the helpers they call, in the language of MiniPy.v.',
       '    Calls of other methods are taken out of expressions and stored in _t1, _t2, ...',
       '    before the statement.  A class attribute is a method without parameters. *)', '',
       'From Verif Require Export MiniPy.', 'From Verif Require Import Value.',
       'Local Open Scope string_scope.', 'Local Open Scope list_scope.', '',
       'Record method := mkMethod { m_params : list (string * option value); m_body : stmt }.',
       'Definition str (s : string) : expr := EConst (VStr s).',
       'Fixpoint steps (l : list stmt) : stmt :=',
       '  match l with [] => SPass | [s] => s | s :: r => SSeq s (steps r) end.', '']
groups = []
for c in ORDER:
    rel, k = CLASSES[c]
    if rel[9:-3] in SKIP_MODULES: continue
    ms = []
    for n in k.body:
        if isinstance(n, ast.FunctionDef) and n.name in METHODS:
            try: ps, body = Tr(c, n).go()
            except No as e:
                bad.append((c, n.name, str(e))); continue
            ms.append('  (* %s:%d-%d *)\n  (%s, mkMethod %s\n      %s)' % (rel, n.lineno, n.end_lineno, q(n.name), ps, body))
        elif isinstance(n, ast.Assign) and n.targets[0].id in CLASS_ATTRS:
            ms.append('  (* %s:%d *)\n  (%s, mkMethod [] (SReturn (EConst %s)))' % (rel, n.lineno, q(n.targets[0].id), val(literal(n.value))))
    out.append('Definition m_%s : list (string * method) := [' % c + ('\n' + ';\n'.join(ms) if ms else '') + '].')
    groups.append(c)
out.append('')
out.append('Definition code : list (string * list (string * method)) :=\n  ['
           + ';\n   '.join('(%s, m_%s)' % (q(c), c) for c in groups) + '].')
out.append('')
out.append('(** removedAttrs, for the classes where it is not empty. *)')
out.append('Definition removed_attrs : list (string * list string) :=\n  ['
           + ';\n   '.join('(%s, %s)' % (q(c), lst([q(x) for x in removed(c)])) for c in groups if removed(c)) + '].')
out.append('')
out.append('(** The classes whose dataList() is a list. *)')
out.append('Definition list_classes : list string :=\n  ' + lst([q(c) for c in groups if list_attr(c)]) + '.')
open(os.path.join(OUT, 'CmdCode.v'), 'w').write('\n'.join(out) + '\n')
for b in bad: print(*b, file=sys.stderr)
print(len(names), 'tables', len(groups), 'classes', len(bad), 'not translated', file=sys.stderr)
