#!/usr/bin/env python3
"""Differential test of the string, shlex and normpath models against CPython (standard library only)."""
import random, sys, shlex, posixpath
R=random.Random(int(sys.argv[1])); N=int(sys.argv[2])
def q(s): return 'SS [%s]'%"; ".join(str(ord(c)) for c in s)
def lst(l): return "[%s]"%"; ".join(l)
AL="ab# \t\n\r'\"\\=,/.-%@1\x0b\x0c\x1c\x85\xa0\xe9Z"
def rs(): return "".join(R.choice(AL) for _ in range(R.randint(0,12)))
def rl():
    return "".join(R.choice(["ab"," ","'","\"","\\","#","\n","x"]) for _ in range(R.randint(0,12)))
def rp(): return "".join(R.choice(["/","/","..",".","a","b"]) for _ in range(R.randint(0,10)))
tests=[]
def L(l): return "(LL %s)"%lst(map(q,l))
for i in range(N):
    s=rs(); 
    tests.append("LLeq (splitlines (%s)) %s"%(q(s),L(s.splitlines(True))))
    tests.append("LLeq (split_ws (%s)) %s"%(q(s),L(s.split())))
    tests.append("LLeq (split_char \",\" (%s)) %s"%(q(s),L(s.split(','))))
    tests.append("String.eqb (strip (%s)) (%s)"%(q(s),q(s.strip())))
    tests.append("String.eqb (rstrip (%s)) (%s)"%(q(s),q(s.rstrip())))
    tests.append("Bool.eqb (isspace (%s)) %s"%(q(s),str(s.isspace()).lower()))
    for cm in (True,False):
        t=rl()
        try: r="(Some %s)"%L(shlex.split(t,comments=cm))
        except ValueError: r="None"
        tests.append("SPeq (shlex_split %s (%s)) %s"%(str(cm).lower(),q(t),r))
    tests.append("String.eqb (quote (%s)) (%s)"%(q(s),q(shlex.quote(s))))
    p=rp()
    tests.append("String.eqb (normpath (%s)) (%s)"%(q(p),q(posixpath.normpath(p))))
    z="".join(R.choice("0123_+- ") for _ in range(R.randint(0,4)))
    try: e="(Some (%d)%%Z)"%int(z)
    except ValueError: e="None"
    tests.append("match py_int (%s), %s with Some a, Some b => Z.eqb a b | None, None => true | _, _ => false end"%(q(z),e))
print("""From Verif Require Import Shlex Options.
Local Open Scope string_scope.
Definition SS (l : list N) : string := fold_right (fun n s => String (ascii_of_N n) s) "" l.
Definition LL (l : list string) := l.
Definition LLeq (a b : list string) := list_eqb String.eqb a b.
Definition SPeq (a : res (list string)) (b : option (list string)) := match a, b with Ok x, Some y => LLeq x y | Err ValueError, None => true | _, _ => false end.
Local Open Scope N_scope.
""")
B=200
for b in range(0,len(tests),B):
    print("Definition cs%d : list (N * bool) := ["%b)
    print(";\n".join("(%d, %s)"%(b+i,t) for i,t in enumerate(tests[b:b+B])))
    print("].\nEval vm_compute in (map fst (filter (fun x => negb (snd x)) cs%d))."%b)
