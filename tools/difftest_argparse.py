#!/usr/bin/env python3
"""Differential test of the argparse model against CPython's own argparse (standard library only).
Usage: difftest_argparse.py SEED COUNT > T.v ; coqc T.v   (prints the list of failing case numbers)"""
import argparse, random, sys
seed=int(sys.argv[1]); count=int(sys.argv[2]); R=random.Random(seed)
class E(Exception): pass
class P(argparse.ArgumentParser):
    def error(self,m): raise E(m)
    def exit(self,*a,**k): raise E("exit")
class Ext(argparse.Action):
    def __call__(self, parser, ns, values, option_string=None):
        if getattr(ns,self.dest,None) is not None: setattr(ns,self.dest,getattr(ns,self.dest)+values)
        else: setattr(ns,self.dest,values)
def comma(v): return list(filter(None,[x.strip() for x in v.split(',')]))
def q(s): return '"'+s.replace('"','""')+'"'
def val(v):
    if v is None: return "VNone"
    if v is True: return "(VBool true)"
    if v is False: return "(VBool false)"
    if isinstance(v,int): return "(VInt (%d)%%Z)"%v
    if isinstance(v,str): return "(VStr %s)"%q(v)
    if isinstance(v,list): return "(VStrs [%s])"%"; ".join(map(q,v))
    raise Exception(v)
NAMES=["--a","--ab","--abc","--b","--bc","--foo","--fo","--x-y","--x"]
WORDS=NAMES+["--","-1","-5.3","-q","-","","v","w","a b","--zz","--foo=1","--a=","--ab=v","--fo=x y","--f","--x-=2","--zz=3","--a b","1","2,3","--bc=7","--q r","-.5","--b="]
out=[]
TY={"str":"ty_str","int":"ty_int","comma":"ty_comma"}
def lst(l): return "[%s]"%"; ".join(l)
for case in range(count):
    p=P(add_help=False,conflict_handler="resolve"); p.prog="x"
    coq="empty_parser"
    for _ in range(R.randint(1,5)):
        if R.random()<0.7:
            names=R.sample(NAMES,R.choice([1,1,1,2]))
            dest=R.choice(["d1","d2","d3","d4","d5"])
            kind=R.choice(["store","store","store","true","false","const","append","appconst","extend"])
            kw=dict(dest=dest); ty="str"; nargs="NOne"; const="VNone"; default="VNone"; ch="None"; req="false"; k="KStore"
            if kind in("store",):
                r=R.random()
                if r<0.2: kw["type"]=int; ty="int"
                elif r<0.4: kw["type"]=comma; ty="comma"
                r=R.random()
                if ty=="str" and r<0.3:
                    n=R.choice(["?","*","+",1,2]); kw["nargs"]=n
                    nargs={"?":"NOpt","*":"NStar","+":"NPlus",1:"(NInt 1)",2:"(NInt 2)"}[n]
                    if n=="?" and R.random()<0.5: kw["const"]="C"; const='(VStr "C")'
                r=R.random()
                if r<0.2: kw["default"]="5"; default='(VStr "5")'
                elif r<0.3: kw["default"]=""; default='(VStr "")'
                if ty=="str" and R.random()<0.15: kw["choices"]=["v","w","1"]; ch='(Some ["v"; "w"; "1"])'
                if R.random()<0.1: kw["required"]=True; req="true"
                kw["action"]="store"
            elif kind in("true","false"):
                kw["action"]="store_"+kind; k="KStoreConst"; nargs="(NInt 0)"
                const="(VBool %s)"%kind; default="(VBool %s)"%("false" if kind=="true" else "true")
            elif kind=="const":
                kw["action"]="store_const"; kw["const"]=7; k="KStoreConst"; nargs="(NInt 0)"; const="(VInt 7)"
            elif kind=="append":
                kw["action"]="append"; k="KAppend"; kw["dest"]=dest="l1"
            elif kind=="appconst":
                kw["action"]="append_const"; kw["const"]="cc"; k="KAppendConst"; nargs="(NInt 0)"; const='(VStr "cc")'; kw["dest"]=dest="l1"
            elif kind=="extend":
                kw["action"]=Ext; kw["type"]=comma; ty="comma"; k="KExtend"; kw["dest"]=dest="l1"
            p.add_argument(*names,**kw)
            coq="(add_argument %s (fun i => mkAction i %s %s %s %s %s %s %s %s %s false))"%(coq,lst(map(q,names)),q(dest),k,nargs,const,default,TY[ty],ch,req)
        elif R.random()<0.8:
            dest=R.choice(["p1","p2","p3"])
            kw={}; nargs="NOne"; req="true"; default="VNone"
            n=R.choice([None,"?","*","+",1,2])
            if n is not None: kw["nargs"]=n; nargs={"?":"NOpt","*":"NStar","+":"NPlus",1:"(NInt 1)",2:"(NInt 2)"}[n]
            if n=="?": req="false"
            if n in("?","*") and R.random()<0.3:
                kw["default"]="dd" if n=="?" else ["z"]; default='(VStr "dd")' if n=="?" else '(VStrs ["z"])'
            if n=="*": req="true" if "default" not in kw else "false"
            p.add_argument(dest,**kw)
            coq="(add_argument %s (fun i => mkAction i [] %s KStore %s VNone %s ty_str None %s false))"%(coq,q(dest),nargs,default,req)
        else:
            n=R.choice(NAMES)
            c=None
            for a in p._actions:
                if n in a.option_strings: c=a;break
            if c:
                p._remove_action(c); p._option_string_actions.pop(n)
            coq="(remove_argument %s %s)"%(coq,q(n))
    args=[R.choice(WORDS) for _ in range(R.randint(0,7))]
    try:
        ns,ex=p.parse_known_args(args)
        exp="(Some (%s, %s))"%(lst("(%s, %s)"%(q(k),val(v)) for k,v in vars(ns).items()),lst(map(q,ex)))
    except E as e:
        exp="None"
    out.append((coq,args,exp))
print("""From Verif Require Import ArgParse Options.
Local Open Scope string_scope.
Definition ns_eq (a b : attrs) : bool := Nat.eqb (length a) (length b) && forallb (fun kv => has_key (fst kv) b && value_eqb (snd kv) (get (fst kv) b)) a.
Definition chk (p : parser) (args : list string) (e : option (attrs * list string)) : bool :=
  match parse_known_args p (Some 1%N) args, e with
  | Ok (ns, x), Some (ns', x') => ns_eq ns ns' && list_eqb String.eqb x x'
  | Err (KSParseError _ _), None => true
  | _, _ => false end.
""")
B=100
for b in range(0,len(out),B):
    print("Definition cs%d : list (nat * bool) := ["%b)
    print(";\n".join("(%d, chk %s %s %s)"%(b+i,c,lst(map(q,a)),e) for i,(c,a,e) in enumerate(out[b:b+B])))
    print("].")
    print("Eval vm_compute in (map fst (filter (fun x => negb (snd x)) cs%d))."%b)
