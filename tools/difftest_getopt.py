"""Compares Realm.getopt with Python's getopt: difftest_getopt.py SEED COUNT."""
import getopt,random,subprocess,sys
random.seed(int(sys.argv[1])); N=int(sys.argv[2])
longs=["client-software=","server-software=","membership-software=","one-time-password=","no-password","computer-ou="]
words=["--client-software","--cl","--c","--co","--computer-ou=x","--no-password","--no","--no-password=","--n=1","--one=","--server","--s=a=b","--m","-","--","-x","a","","--=q","---","--membership-software=","r","--client-softwares","--client-software==v"]
def q(s): return '"'+s.replace('"','""')+'"'
cases=[[random.choice(words) for _ in range(random.randint(0,5))] for _ in range(N)]
out=[]
for c in cases:
    try:
        o,r=getopt.getopt(list(c),"",longs)
        e="Some ([%s], [%s])"%("; ".join("(%s, %s)"%(q(a),q(b)) for a,b in o),"; ".join(map(q,r)))
    except getopt.GetoptError: e="None"
    out.append("Goal getopt realm_longs [%s] = %s. Proof. vm_compute. reflexivity. Qed."%("; ".join(map(q,c)),e))
open('/tmp/difftest_getopt.v','w').write("From Verif Require Import Realm.\nLocal Open Scope string_scope. Local Open Scope list_scope.\n"+"\n".join(out)+"\n")
r=subprocess.run(["coqc","-Q","/verif/rocq/theories","Verif","/tmp/difftest_getopt.v"],capture_output=True,text=True)
print(r.returncode,r.stderr[:500]); print(sum("None" not in o for o in out),"accepted of",N)
