(** * The methods of the command and data classes

    Written by tools/gen_commands.py from pykickstart/commands/*.py: the methods
    __init__, parse, __str__ and the helpers they call, in the language of MiniPy.v.
    Calls of other methods are taken out of expressions and stored in _t1, _t2, ...
    before the statement.  A class attribute is a method without parameters. *)

From Verif Require Export MiniPy.
From Verif Require Import Value.
Local Open Scope string_scope.
Local Open Scope list_scope.

Record method := mkMethod { m_params : list (string * option value); m_body : stmt }.
Definition str (s : string) : expr := EConst (VStr s).
Fixpoint steps (l : list stmt) : stmt :=
  match l with [] => SPass | [s] => s | s :: r => SSeq s (steps r) end.

Definition m_FC3_Authconfig : list (string * method) := [
  (* commands/authconfig.py:33-35 *)
  ("__init__", mkMethod [("writePriority", (Some (VInt 0))); ("kwargs", None)]
      (steps [SCall "_t1" (TClass "KickstartCommand") "__init__" [("writePriority", (EVar "writePriority")); ("kwargs", (EVar "kwargs"))];
      SAttr "self" "authconfig" (EGet (EVar "kwargs") "authconfig" (str ""))]));
  (* commands/authconfig.py:37-43 *)
  ("__str__", mkMethod []
      (steps [SCall "_t1" (TClass "KickstartCommand") "__str__" [];
      SAssign "retval" (EVar "_t1");
      SIf (EAttr (EVar "self") "authconfig")
      (SAssign "retval" (EBin BAdd (EVar "retval") (EBin BAdd (EBin BAdd (str "# System authorization information
auth ") (EUn UStr (EAttr (EVar "self") "authconfig"))) (str "
"))))
      SPass;
      SReturn (EVar "retval")]));
  (* commands/authconfig.py:45-47 *)
  ("parse", mkMethod []
      (steps [SAttr "self" "authconfig" (EUn UStrip (EBin BFrom (EAttr (EVar "self") "currentLine") (EUn ULen (EAttr (EVar "self") "currentCmd"))));
      SReturn (EVar "self")]))].
Definition m_F28_Authconfig : list (string * method) := [
  (* commands/authconfig.py:69-73 *)
  ("parse", mkMethod []
      (steps [SCall "_t1" (TSuper "F28_Authconfig") "parse" [];
      SReturn (EVar "_t1")]))].
Definition m_F28_Authselect : list (string * method) := [
  (* commands/authselect.py:29-31 *)
  ("__init__", mkMethod [("writePriority", (Some (VInt 0))); ("kwargs", None)]
      (steps [SCall "_t1" (TClass "KickstartCommand") "__init__" [("writePriority", (EVar "writePriority")); ("kwargs", (EVar "kwargs"))];
      SAttr "self" "authselect" (EGet (EVar "kwargs") "authselect" (str ""))]));
  (* commands/authselect.py:33-39 *)
  ("__str__", mkMethod []
      (steps [SCall "_t1" (TClass "KickstartCommand") "__str__" [];
      SAssign "retval" (EVar "_t1");
      SIf (EAttr (EVar "self") "authselect")
      (SAssign "retval" (EBin BAdd (EVar "retval") (EBin BAdd (EBin BAdd (str "# System authorization information
authselect ") (EUn UStr (EAttr (EVar "self") "authselect"))) (str "
"))))
      SPass;
      SReturn (EVar "retval")]));
  (* commands/authselect.py:41-43 *)
  ("parse", mkMethod []
      (steps [SAttr "self" "authselect" (EUn UStrip (EBin BFrom (EAttr (EVar "self") "currentLine") (EUn ULen (EAttr (EVar "self") "currentCmd"))));
      SReturn (EVar "self")]))].
Definition m_FC3_AutoPart : list (string * method) := [
  (* commands/autopart.py:33-35 *)
  ("__init__", mkMethod [("writePriority", (Some (VInt 100))); ("kwargs", None)]
      (steps [SCall "_t1" (TClass "KickstartCommand") "__init__" [("writePriority", (EVar "writePriority")); ("kwargs", (EVar "kwargs"))];
      SAttr "self" "autopart" (EGet (EVar "kwargs") "autopart" (EConst (VBool false)))]));
  (* commands/autopart.py:37-43 *)
  ("__str__", mkMethod []
      (steps [SCall "_t1" (TClass "KickstartCommand") "__str__" [];
      SAssign "retval" (EVar "_t1");
      SIf (EAttr (EVar "self") "autopart")
      (SAssign "retval" (EBin BAdd (EVar "retval") (str "autopart
")))
      SPass;
      SReturn (EVar "retval")]));
  (* commands/autopart.py:45-50 *)
  ("parse", mkMethod []
      (steps [SIf (EBin BGt (EUn ULen EArgs) (EConst (VInt 0)))
      (SRaise true "autopart")
      SPass;
      SAttr "self" "autopart" (EConst (VBool true));
      SReturn (EVar "self")]))].
Definition m_F9_AutoPart : list (string * method) := [
  (* commands/autopart.py:67-72 *)
  ("__init__", mkMethod [("writePriority", (Some (VInt 100))); ("kwargs", None)]
      (steps [SCall "_t1" (TClass "FC3_AutoPart") "__init__" [("writePriority", (EVar "writePriority")); ("kwargs", (EVar "kwargs"))];
      SAttr "self" "encrypted" (EGet (EVar "kwargs") "encrypted" (EConst (VBool false)));
      SAttr "self" "passphrase" (EGet (EVar "kwargs") "passphrase" (str ""))]));
  (* commands/autopart.py:74-89 *)
  ("__str__", mkMethod []
      (steps [SCall "_t1" (TClass "KickstartCommand") "__str__" [];
      SAssign "retval" (EVar "_t1");
      SIf (EUn UNot (EAttr (EVar "self") "autopart"))
      (SReturn (EVar "retval"))
      SPass;
      SAssign "retval" (EBin BAdd (EVar "retval") (str "autopart"));
      SIf (EAttr (EVar "self") "encrypted")
      (steps [SAssign "retval" (EBin BAdd (EVar "retval") (str " --encrypted"));
      SIf (EAttr (EVar "self") "passphrase")
      (SAssign "retval" (EBin BAdd (EVar "retval") (EBin BAdd (EBin BAdd (str " --passphrase=""") (EUn UStr (EAttr (EVar "self") "passphrase"))) (str """"))))
      SPass])
      SPass;
      SAssign "retval" (EBin BAdd (EVar "retval") (str "
"));
      SReturn (EVar "retval")]));
  (* commands/autopart.py:104-108 *)
  ("parse", mkMethod []
      (steps [SParse "ns";
      SSetTo "ns" "self";
      SAttr "self" "autopart" (EConst (VBool true));
      SReturn (EVar "self")]))].
Definition m_F12_AutoPart : list (string * method) := [
  (* commands/autopart.py:114-118 *)
  ("__init__", mkMethod [("writePriority", (Some (VInt 100))); ("kwargs", None)]
      (steps [SCall "_t1" (TClass "F9_AutoPart") "__init__" [("writePriority", (EVar "writePriority")); ("kwargs", (EVar "kwargs"))];
      SAttr "self" "escrowcert" (EGet (EVar "kwargs") "escrowcert" (str ""));
      SAttr "self" "backuppassphrase" (EGet (EVar "kwargs") "backuppassphrase" (EConst (VBool false)))]));
  (* commands/autopart.py:120-136 *)
  ("__str__", mkMethod []
      (steps [SCall "_t1" (TClass "F9_AutoPart") "__str__" [];
      SAssign "retval" (EVar "_t1");
      SIf (EUn UNot (EAttr (EVar "self") "autopart"))
      (SReturn (EVar "retval"))
      SPass;
      SIf (EAnd (EAttr (EVar "self") "encrypted") (EAttr (EVar "self") "escrowcert"))
      (steps [SAssign "retval" (EUn UStrip (EVar "retval"));
      SAssign "retval" (EBin BAdd (EVar "retval") (EBin BAdd (EBin BAdd (str " --escrowcert=""") (EUn UStr (EAttr (EVar "self") "escrowcert"))) (str """")));
      SIf (EAttr (EVar "self") "backuppassphrase")
      (SAssign "retval" (EBin BAdd (EVar "retval") (str " --backuppassphrase")))
      SPass;
      SAssign "retval" (EBin BAdd (EVar "retval") (str "
"))])
      SPass;
      SReturn (EVar "retval")]))].
Definition m_RHEL6_AutoPart : list (string * method) := [
  (* commands/autopart.py:161-163 *)
  ("__init__", mkMethod [("writePriority", (Some (VInt 100))); ("kwargs", None)]
      (steps [SCall "_t1" (TClass "F12_AutoPart") "__init__" [("writePriority", (EVar "writePriority")); ("kwargs", (EVar "kwargs"))];
      SAttr "self" "cipher" (EGet (EVar "kwargs") "cipher" (str ""))]));
  (* commands/autopart.py:165-176 *)
  ("__str__", mkMethod []
      (steps [SCall "_t1" (TClass "F12_AutoPart") "__str__" [];
      SAssign "retval" (EVar "_t1");
      SIf (EUn UNot (EAttr (EVar "self") "autopart"))
      (SReturn (EVar "retval"))
      SPass;
      SIf (EAnd (EAttr (EVar "self") "encrypted") (EAttr (EVar "self") "cipher"))
      (steps [SAssign "retval" (EUn UStrip (EVar "retval"));
      SAssign "retval" (EBin BAdd (EVar "retval") (EBin BAdd (EBin BAdd (str " --cipher=""") (EUn UStr (EAttr (EVar "self") "cipher"))) (str """")));
      SAssign "retval" (EBin BAdd (EVar "retval") (str "
"))])
      SPass;
      SReturn (EVar "retval")]));
  (* commands/autopart.py:186-214 *)
  ("parse", mkMethod []
      (steps [SCall "_t1" (TClass "F12_AutoPart") "parse" [];
      SAssign "retval" (EVar "_t1");
      SAssign "conflicting_command" (str "");
      SIf (ESeen "partition")
      (SAssign "conflicting_command" (str "part/partition"))
      (SIf (ESeen "raid")
      (SAssign "conflicting_command" (str "raid"))
      (SIf (ESeen "volgroup")
      (SAssign "conflicting_command" (str "volgroup"))
      (SIf (ESeen "logvol")
      (SAssign "conflicting_command" (str "logvol"))
      SPass)));
      SIf (EVar "conflicting_command")
      (SRaise true "The %s and autopart commands can't be used at the same time")
      SPass;
      SReturn (EVar "retval")]))].
Definition m_F16_AutoPart : list (string * method) := [
  (* commands/autopart.py:221-223 *)
  ("__init__", mkMethod [("writePriority", (Some (VInt 100))); ("kwargs", None)]
      (steps [SCall "_t1" (TClass "F12_AutoPart") "__init__" [("writePriority", (EVar "writePriority")); ("kwargs", (EVar "kwargs"))];
      SAttr "self" "lvm" (EGet (EVar "kwargs") "lvm" (EConst (VBool true)))]));
  (* commands/autopart.py:225-237 *)
  ("__str__", mkMethod []
      (steps [SCall "_t1" (TClass "F12_AutoPart") "__str__" [];
      SAssign "retval" (EVar "_t1");
      SIf (EUn UNot (EAttr (EVar "self") "autopart"))
      (SReturn (EVar "retval"))
      SPass;
      SIf (EUn UNot (EAttr (EVar "self") "lvm"))
      (steps [SAssign "retval" (EUn UStrip (EVar "retval"));
      SAssign "retval" (EBin BAdd (EVar "retval") (str " --nolvm"));
      SAssign "retval" (EBin BAdd (EVar "retval") (str "
"))])
      SPass;
      SReturn (EVar "retval")]))].
Definition m_F17_AutoPart : list (string * method) := [
  (* commands/autopart.py:247-253 *)
  ("__init__", mkMethod [("writePriority", (Some (VInt 100))); ("kwargs", None)]
      (steps [SAttr "self" "typeMap" (EConst (VCodes [("lvm", (2)%Z); ("btrfs", (1)%Z); ("plain", (0)%Z); ("partition", (0)%Z)]));
      SCall "_t1" (TClass "F16_AutoPart") "__init__" [("writePriority", (EVar "writePriority")); ("kwargs", (EVar "kwargs"))];
      SAttr "self" "type" (EGet (EVar "kwargs") "type" (EConst VNone))]));
  (* commands/autopart.py:255-266 *)
  ("_typeAsStr", mkMethod []
      (steps [SAssign "retval" (EConst VNone);
      SForPairs "key" "value" (EAttr (EVar "self") "typeMap") (SIf (EBin BEq (EVar "value") (EAttr (EVar "self") "type"))
      (steps [SAssign "retval" (EVar "key");
      SBreak])
      SPass);
      SIf (EBin BEq (EVar "retval") (str "partition"))
      (SAssign "retval" (str "plain"))
      SPass;
      SReturn (EVar "retval")]));
  (* commands/autopart.py:268-279 *)
  ("__str__", mkMethod []
      (steps [SCall "_t1" (TClass "F16_AutoPart") "__str__" [];
      SAssign "retval" (EVar "_t1");
      SIf (EUn UNot (EAttr (EVar "self") "autopart"))
      (SReturn (EVar "retval"))
      SPass;
      SCall "_t2" TSelf "_typeAsStr" [];
      SAssign "ty" (EVar "_t2");
      SIf (EVar "ty")
      (steps [SAssign "retval" (EUn UStrip (EVar "retval"));
      SAssign "retval" (EBin BAdd (EVar "retval") (EBin BAdd (EBin BAdd (str " --type=") (EUn UStr (EVar "ty"))) (str "
")))])
      SPass;
      SReturn (EVar "retval")]));
  (* commands/autopart.py:298-304 *)
  ("parse", mkMethod []
      (steps [SCall "_t1" (TClass "F16_AutoPart") "parse" [];
      SAssign "retval" (EVar "_t1");
      SAttr "self" "lvm" (EConst (VBool true));
      SReturn (EVar "retval")]))].
Definition m_F18_AutoPart : list (string * method) := [
  (* commands/autopart.py:310-312 *)
  ("__init__", mkMethod [("writePriority", (Some (VInt 100))); ("kwargs", None)]
      (steps [SCall "_t1" (TClass "F17_AutoPart") "__init__" [("writePriority", (EVar "writePriority")); ("kwargs", (EVar "kwargs"))];
      SAttr "self" "cipher" (EGet (EVar "kwargs") "cipher" (str ""))]));
  (* commands/autopart.py:314-325 *)
  ("__str__", mkMethod []
      (steps [SCall "_t1" (TClass "F17_AutoPart") "__str__" [];
      SAssign "retval" (EVar "_t1");
      SIf (EUn UNot (EAttr (EVar "self") "autopart"))
      (SReturn (EVar "retval"))
      SPass;
      SIf (EAnd (EAttr (EVar "self") "encrypted") (EAttr (EVar "self") "cipher"))
      (steps [SAssign "retval" (EUn UStrip (EVar "retval"));
      SAssign "retval" (EBin BAdd (EVar "retval") (EBin BAdd (EBin BAdd (str " --cipher=""") (EUn UStr (EAttr (EVar "self") "cipher"))) (str """")));
      SAssign "retval" (EBin BAdd (EVar "retval") (str "
"))])
      SPass;
      SReturn (EVar "retval")]))].
Definition m_F20_AutoPart : list (string * method) := [
  (* commands/autopart.py:336-338 *)
  ("__init__", mkMethod [("writePriority", (Some (VInt 100))); ("kwargs", None)]
      (steps [SCall "_t1" (TClass "F18_AutoPart") "__init__" [("writePriority", (EVar "writePriority")); ("kwargs", (EVar "kwargs"))];
      SAttr "self" "typeMap" (EBin BUnion (EAttr (EVar "self") "typeMap") (EConst (VCodes [("thinp", (3)%Z)])))]));
  (* commands/autopart.py:340-370 *)
  ("parse", mkMethod []
      (steps [SCall "_t1" (TClass "F18_AutoPart") "parse" [];
      SAssign "retval" (EVar "_t1");
      SAssign "conflicting_command" (str "");
      SIf (ESeen "partition")
      (SAssign "conflicting_command" (str "part/partition"))
      (SIf (ESeen "raid")
      (SAssign "conflicting_command" (str "raid"))
      (SIf (ESeen "volgroup")
      (SAssign "conflicting_command" (str "volgroup"))
      (SIf (ESeen "logvol")
      (SAssign "conflicting_command" (str "logvol"))
      (SIf (EAnd (EHandlerHas "mount") (ESeen "mount"))
      (SAssign "conflicting_command" (str "mount"))
      SPass))));
      SIf (EVar "conflicting_command")
      (SRaise true "The %s and autopart commands can't be used at the same time")
      SPass;
      SReturn (EVar "retval")]))].
Definition m_F21_AutoPart : list (string * method) := [
  (* commands/autopart.py:388-390 *)
  ("__init__", mkMethod [("writePriority", (Some (VInt 100))); ("kwargs", None)]
      (steps [SCall "_t1" (TClass "F20_AutoPart") "__init__" [("writePriority", (EVar "writePriority")); ("kwargs", (EVar "kwargs"))];
      SAttr "self" "fstype" (EGet (EVar "kwargs") "fstype" (str ""))]));
  (* commands/autopart.py:392-403 *)
  ("__str__", mkMethod []
      (steps [SCall "_t1" (TClass "F20_AutoPart") "__str__" [];
      SAssign "retval" (EVar "_t1");
      SIf (EUn UNot (EAttr (EVar "self") "autopart"))
      (SReturn (EVar "retval"))
      SPass;
      SIf (EAttr (EVar "self") "fstype")
      (steps [SAssign "retval" (EUn UStrip (EVar "retval"));
      SAssign "retval" (EBin BAdd (EVar "retval") (EBin BAdd (str " --fstype=") (EUn UStr (EAttr (EVar "self") "fstype"))));
      SAssign "retval" (EBin BAdd (EVar "retval") (str "
"))])
      SPass;
      SReturn (EVar "retval")]));
  (* commands/autopart.py:414-425 *)
  ("parse", mkMethod []
      (steps [SCall "_t1" (TClass "F20_AutoPart") "parse" [];
      SAssign "retval" (EVar "_t1");
      SIf (EBin BEq (EAttr (EVar "self") "fstype") (str "btrfs"))
      (SRaise true "autopart --fstype=btrfs is not valid fstype, use --type=btrfs instead")
      SPass;
      SCall "_t2" TSelf "_typeAsStr" [];
      SIf (EAnd (EBin BEq (EVar "_t2") (str "btrfs")) (EAttr (EVar "self") "fstype"))
      (SRaise true "autopart --fstype cannot be used with --type=btrfs")
      SPass;
      SReturn (EVar "retval")]))].
Definition m_F23_AutoPart : list (string * method) := [
  (* commands/autopart.py:428-441 *)
  ("parse", mkMethod []
      (steps [SCall "_t1" (TClass "F21_AutoPart") "parse" [];
      SAssign "retval" (EVar "_t1");
      SAssign "conflicting_command" (str "");
      SIf (EAnd (EHandlerHas "reqpart") (ESeen "reqpart"))
      (SAssign "conflicting_command" (str "reqpart"))
      SPass;
      SIf (EVar "conflicting_command")
      (SRaise true "The %s and autopart commands can't be used at the same time")
      SPass;
      SReturn (EVar "retval")]))].
Definition m_RHEL7_AutoPart : list (string * method) := [
  (* commands/autopart.py:445-447 *)
  ("__init__", mkMethod [("writePriority", (Some (VInt 100))); ("kwargs", None)]
      (steps [SCall "_t1" (TClass "F21_AutoPart") "__init__" [("writePriority", (EVar "writePriority")); ("kwargs", (EVar "kwargs"))];
      SAttr "self" "nohome" (EGet (EVar "kwargs") "nohome" (EConst (VBool false)))]));
  (* commands/autopart.py:449-460 *)
  ("__str__", mkMethod []
      (steps [SCall "_t1" (TClass "F21_AutoPart") "__str__" [];
      SAssign "retval" (EVar "_t1");
      SIf (EUn UNot (EAttr (EVar "self") "autopart"))
      (SReturn (EVar "retval"))
      SPass;
      SIf (EAttr (EVar "self") "nohome")
      (steps [SAssign "retval" (EUn UStrip (EVar "retval"));
      SAssign "retval" (EBin BAdd (EVar "retval") (str " --nohome"));
      SAssign "retval" (EBin BAdd (EVar "retval") (str "
"))])
      SPass;
      SReturn (EVar "retval")]));
  (* commands/autopart.py:469-482 *)
  ("parse", mkMethod []
      (steps [SCall "_t1" (TClass "F21_AutoPart") "parse" [];
      SAssign "retval" (EVar "_t1");
      SAssign "conflicting_command" (str "");
      SIf (EAnd (EHandlerHas "reqpart") (ESeen "reqpart"))
      (SAssign "conflicting_command" (str "reqpart"))
      SPass;
      SIf (EVar "conflicting_command")
      (SRaise true "The %s and autopart commands can't be used at the same time")
      SPass;
      SReturn (EVar "retval")]))].
Definition m_F26_AutoPart : list (string * method) := [
  (* commands/autopart.py:488-492 *)
  ("__init__", mkMethod [("writePriority", (Some (VInt 100))); ("kwargs", None)]
      (steps [SCall "_t1" (TClass "F23_AutoPart") "__init__" [("writePriority", (EVar "writePriority")); ("kwargs", (EVar "kwargs"))];
      SAttr "self" "nohome" (EGet (EVar "kwargs") "nohome" (EConst (VBool false)));
      SAttr "self" "noboot" (EGet (EVar "kwargs") "noboot" (EConst (VBool false)));
      SAttr "self" "noswap" (EGet (EVar "kwargs") "noswap" (EConst (VBool false)))]));
  (* commands/autopart.py:494-517 *)
  ("__str__", mkMethod []
      (steps [SCall "_t1" (TClass "F23_AutoPart") "__str__" [];
      SAssign "retval" (EVar "_t1");
      SIf (EUn UNot (EAttr (EVar "self") "autopart"))
      (SReturn (EVar "retval"))
      SPass;
      SIf (EAttr (EVar "self") "nohome")
      (steps [SAssign "retval" (EUn UStrip (EVar "retval"));
      SAssign "retval" (EBin BAdd (EVar "retval") (str " --nohome"));
      SAssign "retval" (EBin BAdd (EVar "retval") (str "
"))])
      SPass;
      SIf (EAttr (EVar "self") "noboot")
      (steps [SAssign "retval" (EUn UStrip (EVar "retval"));
      SAssign "retval" (EBin BAdd (EVar "retval") (str " --noboot"));
      SAssign "retval" (EBin BAdd (EVar "retval") (str "
"))])
      SPass;
      SIf (EAttr (EVar "self") "noswap")
      (steps [SAssign "retval" (EUn UStrip (EVar "retval"));
      SAssign "retval" (EBin BAdd (EVar "retval") (str " --noswap"));
      SAssign "retval" (EBin BAdd (EVar "retval") (str "
"))])
      SPass;
      SReturn (EVar "retval")]))].
Definition m_F29_AutoPart : list (string * method) := [
  (* commands/autopart.py:536-542 *)
  ("__init__", mkMethod [("writePriority", (Some (VInt 100))); ("kwargs", None)]
      (steps [SCall "_t1" (TClass "F26_AutoPart") "__init__" [("writePriority", (EVar "writePriority")); ("kwargs", (EVar "kwargs"))];
      SAttr "self" "luks_version" (EGet (EVar "kwargs") "luks_version" (str ""));
      SAttr "self" "pbkdf" (EGet (EVar "kwargs") "pbkdf" (str ""));
      SAttr "self" "pbkdf_memory" (EGet (EVar "kwargs") "pbkdf_memory" (EConst (VInt 0)));
      SAttr "self" "pbkdf_time" (EGet (EVar "kwargs") "pbkdf_time" (EConst (VInt 0)));
      SAttr "self" "pbkdf_iterations" (EGet (EVar "kwargs") "pbkdf_iterations" (EConst (VInt 0)))]));
  (* commands/autopart.py:544-574 *)
  ("__str__", mkMethod []
      (steps [SCall "_t1" (TClass "F26_AutoPart") "__str__" [];
      SAssign "retval" (EVar "_t1");
      SIf (EUn UNot (EAttr (EVar "self") "autopart"))
      (SReturn (EVar "retval"))
      SPass;
      SIf (EAnd (EAttr (EVar "self") "encrypted") (EAttr (EVar "self") "luks_version"))
      (steps [SAssign "retval" (EUn UStrip (EVar "retval"));
      SAssign "retval" (EBin BAdd (EVar "retval") (EBin BAdd (str " --luks-version=") (EUn UStr (EAttr (EVar "self") "luks_version"))));
      SAssign "retval" (EBin BAdd (EVar "retval") (str "
"))])
      SPass;
      SIf (EAnd (EAttr (EVar "self") "encrypted") (EAttr (EVar "self") "pbkdf"))
      (steps [SAssign "retval" (EUn UStrip (EVar "retval"));
      SAssign "retval" (EBin BAdd (EVar "retval") (EBin BAdd (str " --pbkdf=") (EUn UStr (EAttr (EVar "self") "pbkdf"))));
      SAssign "retval" (EBin BAdd (EVar "retval") (str "
"))])
      SPass;
      SIf (EAnd (EAttr (EVar "self") "encrypted") (EAttr (EVar "self") "pbkdf_memory"))
      (steps [SAssign "retval" (EUn UStrip (EVar "retval"));
      SAssign "retval" (EBin BAdd (EVar "retval") (EBin BAdd (str " --pbkdf-memory=") (EUn UStr (EAttr (EVar "self") "pbkdf_memory"))));
      SAssign "retval" (EBin BAdd (EVar "retval") (str "
"))])
      SPass;
      SIf (EAnd (EAttr (EVar "self") "encrypted") (EAttr (EVar "self") "pbkdf_time"))
      (steps [SAssign "retval" (EUn UStrip (EVar "retval"));
      SAssign "retval" (EBin BAdd (EVar "retval") (EBin BAdd (str " --pbkdf-time=") (EUn UStr (EAttr (EVar "self") "pbkdf_time"))));
      SAssign "retval" (EBin BAdd (EVar "retval") (str "
"))])
      SPass;
      SIf (EAnd (EAttr (EVar "self") "encrypted") (EAttr (EVar "self") "pbkdf_iterations"))
      (steps [SAssign "retval" (EUn UStrip (EVar "retval"));
      SAssign "retval" (EBin BAdd (EVar "retval") (EBin BAdd (str " --pbkdf-iterations=") (EUn UStr (EAttr (EVar "self") "pbkdf_iterations"))));
      SAssign "retval" (EBin BAdd (EVar "retval") (str "
"))])
      SPass;
      SReturn (EVar "retval")]));
  (* commands/autopart.py:611-618 *)
  ("parse", mkMethod []
      (steps [SCall "_t1" (TClass "F26_AutoPart") "parse" [];
      SAssign "retval" (EVar "_t1");
      SIf (EAnd (EAttr (EVar "self") "pbkdf_time") (EAttr (EVar "self") "pbkdf_iterations"))
      (SRaise true "Only one of --pbkdf-time and --pbkdf-iterations can be specified.")
      SPass;
      SReturn (EVar "retval")]))].
Definition m_RHEL8_AutoPart : list (string * method) := [
  (* commands/autopart.py:624-633 *)
  ("parse", mkMethod []
      (steps [SCall "_t1" (TClass "F29_AutoPart") "parse" [];
      SAssign "retval" (EVar "_t1");
      SCall "_t2" TSelf "_typeAsStr" [];
      SIf (EBin BEq (EVar "_t2") (str "btrfs"))
      (SRaise true "autopart --type=btrfs is not supported")
      SPass;
      SReturn (EVar "retval")]))].
Definition m_FC3_AutoStep : list (string * method) := [
  (* commands/autostep.py:28-33 *)
  ("__init__", mkMethod [("writePriority", (Some (VInt 0))); ("kwargs", None)]
      (steps [SCall "_t1" (TClass "KickstartCommand") "__init__" [("writePriority", (EVar "writePriority")); ("kwargs", (EVar "kwargs"))];
      SAttr "self" "autostep" (EGet (EVar "kwargs") "autostep" (EConst (VBool false)));
      SAttr "self" "autoscreenshot" (EGet (EVar "kwargs") "autoscreenshot" (EConst (VBool false)))]));
  (* commands/autostep.py:35-44 *)
  ("__str__", mkMethod []
      (steps [SCall "_t1" (TClass "KickstartCommand") "__str__" [];
      SAssign "retval" (EVar "_t1");
      SIf (EAttr (EVar "self") "autostep")
      (SIf (EAttr (EVar "self") "autoscreenshot")
      (SAssign "retval" (EBin BAdd (EVar "retval") (str "autostep --autoscreenshot
")))
      (SAssign "retval" (EBin BAdd (EVar "retval") (str "autostep
"))))
      SPass;
      SReturn (EVar "retval")]));
  (* commands/autostep.py:62-66 *)
  ("parse", mkMethod []
      (steps [SParse "ns";
      SSetTo "ns" "self";
      SAttr "self" "autostep" (EConst (VBool true));
      SReturn (EVar "self")]))].
Definition m_F34_AutoStep : list (string * method) := [
  (* commands/autostep.py:69-70 *)
  ("__init__", mkMethod []
      (SCall "_t1" (TClass "DeprecatedCommand") "__init__" [("kwargs", ENoKw)]))].
Definition m_FC3_Bootloader : list (string * method) := [
  (* commands/bootloader.py:32-46 *)
  ("__init__", mkMethod [("writePriority", (Some (VInt 10))); ("kwargs", None)]
      (steps [SCall "_t1" (TClass "KickstartCommand") "__init__" [("writePriority", (EVar "writePriority")); ("kwargs", (EVar "kwargs"))];
      SAttr "self" "driveorder" (EGet (EVar "kwargs") "driveorder" (EConst (VStrs [])));
      SAttr "self" "appendLine" (EGet (EVar "kwargs") "appendLine" (str ""));
      SAttr "self" "forceLBA" (EGet (EVar "kwargs") "forceLBA" (EConst (VBool false)));
      SAttr "self" "linear" (EGet (EVar "kwargs") "linear" (EConst (VBool true)));
      SAttr "self" "location" (EGet (EVar "kwargs") "location" (str "none"));
      SAttr "self" "md5pass" (EGet (EVar "kwargs") "md5pass" (str ""));
      SAttr "self" "password" (EGet (EVar "kwargs") "password" (str ""));
      SAttr "self" "upgrade" (EGet (EVar "kwargs") "upgrade" (EConst (VBool false)));
      SAttr "self" "useLilo" (EGet (EVar "kwargs") "useLilo" (EConst (VBool false)));
      SDelRemoved []]));
  (* commands/bootloader.py:48-70 *)
  ("_getArgsAsStr", mkMethod []
      (steps [SAssign "retval" (str "");
      SIf (EAttr (EVar "self") "appendLine")
      (SAssign "retval" (EBin BAdd (EVar "retval") (EBin BAdd (EBin BAdd (str " --append=""") (EUn UStr (EAttr (EVar "self") "appendLine"))) (str """"))))
      SPass;
      SIf (EAttr (EVar "self") "linear")
      (SAssign "retval" (EBin BAdd (EVar "retval") (str " --linear")))
      SPass;
      SIf (EAttr (EVar "self") "location")
      (SAssign "retval" (EBin BAdd (EVar "retval") (EBin BAdd (str " --location=") (EUn UStr (EAttr (EVar "self") "location")))))
      SPass;
      SIf (EAnd (EHas (EVar "self") "forceLBA") (EAttr (EVar "self") "forceLBA"))
      (SAssign "retval" (EBin BAdd (EVar "retval") (str " --lba32")))
      SPass;
      SIf (EAttr (EVar "self") "password")
      (SAssign "retval" (EBin BAdd (EVar "retval") (EBin BAdd (EBin BAdd (str " --password=""") (EUn UStr (EAttr (EVar "self") "password"))) (str """"))))
      SPass;
      SIf (EAttr (EVar "self") "md5pass")
      (SAssign "retval" (EBin BAdd (EVar "retval") (EBin BAdd (EBin BAdd (str " --md5pass=""") (EUn UStr (EAttr (EVar "self") "md5pass"))) (str """"))))
      SPass;
      SIf (EAttr (EVar "self") "upgrade")
      (SAssign "retval" (EBin BAdd (EVar "retval") (str " --upgrade")))
      SPass;
      SIf (EAttr (EVar "self") "useLilo")
      (SAssign "retval" (EBin BAdd (EVar "retval") (str " --useLilo")))
      SPass;
      SIf (EBin BGt (EUn ULen (EAttr (EVar "self") "driveorder")) (EConst (VInt 0)))
      (SAssign "retval" (EBin BAdd (EVar "retval") (EBin BAdd (EBin BAdd (str " --driveorder=""") (EUn UStr (EBin BJoin (str ",") (EAttr (EVar "self") "driveorder")))) (str """"))))
      SPass;
      SReturn (EVar "retval")]));
  (* commands/bootloader.py:72-79 *)
  ("__str__", mkMethod []
      (steps [SCall "_t1" (TClass "KickstartCommand") "__str__" [];
      SAssign "retval" (EVar "_t1");
      SIf (EAttr (EVar "self") "location")
      (steps [SAssign "retval" (EBin BAdd (EVar "retval") (str "# System bootloader configuration
bootloader"));
      SCall "_t2" TSelf "_getArgsAsStr" [];
      SAssign "retval" (EBin BAdd (EVar "retval") (EBin BAdd (EVar "_t2") (str "
")))])
      SPass;
      SReturn (EVar "retval")]));
  (* commands/bootloader.py:145-152 *)
  ("parse", mkMethod []
      (steps [SParse "ns";
      SSetTo "ns" "self";
      SIf (EBin BEq (EAttr (EVar "self") "currentCmd") (str "lilo"))
      (SAttr "self" "useLilo" (EConst (VBool true)))
      SPass;
      SReturn (EVar "self")]))].
Definition m_FC3_Lilo : list (string * method) := [].
Definition m_FC4_Lilo : list (string * method) := [].
Definition m_FC4_Bootloader : list (string * method) := [
  (* commands/bootloader.py:176-177 *)
  ("__init__", mkMethod [("writePriority", (Some (VInt 10))); ("kwargs", None)]
      (SCall "_t1" (TClass "FC3_Bootloader") "__init__" [("writePriority", (EVar "writePriority")); ("kwargs", (EVar "kwargs"))]));
  (* commands/bootloader.py:179-195 *)
  ("_getArgsAsStr", mkMethod []
      (steps [SAssign "retval" (str "");
      SIf (EAttr (EVar "self") "appendLine")
      (SAssign "retval" (EBin BAdd (EVar "retval") (EBin BAdd (EBin BAdd (str " --append=""") (EUn UStr (EAttr (EVar "self") "appendLine"))) (str """"))))
      SPass;
      SIf (EAttr (EVar "self") "location")
      (SAssign "retval" (EBin BAdd (EVar "retval") (EBin BAdd (str " --location=") (EUn UStr (EAttr (EVar "self") "location")))))
      SPass;
      SIf (EAnd (EHas (EVar "self") "forceLBA") (EAttr (EVar "self") "forceLBA"))
      (SAssign "retval" (EBin BAdd (EVar "retval") (str " --lba32")))
      SPass;
      SIf (EAttr (EVar "self") "password")
      (SAssign "retval" (EBin BAdd (EVar "retval") (EBin BAdd (EBin BAdd (str " --password=""") (EUn UStr (EAttr (EVar "self") "password"))) (str """"))))
      SPass;
      SIf (EAttr (EVar "self") "md5pass")
      (SAssign "retval" (EBin BAdd (EVar "retval") (EBin BAdd (EBin BAdd (str " --md5pass=""") (EUn UStr (EAttr (EVar "self") "md5pass"))) (str """"))))
      SPass;
      SIf (EAttr (EVar "self") "upgrade")
      (SAssign "retval" (EBin BAdd (EVar "retval") (str " --upgrade")))
      SPass;
      SIf (EBin BGt (EUn ULen (EAttr (EVar "self") "driveorder")) (EConst (VInt 0)))
      (SAssign "retval" (EBin BAdd (EVar "retval") (EBin BAdd (EBin BAdd (str " --driveorder=""") (EUn UStr (EBin BJoin (str ",") (EAttr (EVar "self") "driveorder")))) (str """"))))
      SPass;
      SReturn (EVar "retval")]));
  (* commands/bootloader.py:204-207 *)
  ("parse", mkMethod []
      (steps [SParse "ns";
      SSetTo "ns" "self";
      SReturn (EVar "self")]))].
Definition m_F8_Bootloader : list (string * method) := [
  (* commands/bootloader.py:213-217 *)
  ("__init__", mkMethod [("writePriority", (Some (VInt 10))); ("kwargs", None)]
      (steps [SCall "_t1" (TClass "FC4_Bootloader") "__init__" [("writePriority", (EVar "writePriority")); ("kwargs", (EVar "kwargs"))];
      SAttr "self" "timeout" (EGet (EVar "kwargs") "timeout" (EConst VNone));
      SAttr "self" "default" (EGet (EVar "kwargs") "default" (str ""))]));
  (* commands/bootloader.py:219-227 *)
  ("_getArgsAsStr", mkMethod []
      (steps [SCall "_t1" (TClass "FC4_Bootloader") "_getArgsAsStr" [];
      SAssign "ret" (EVar "_t1");
      SIf (EBin BIsNot (EAttr (EVar "self") "timeout") (EConst VNone))
      (SAssign "ret" (EBin BAdd (EVar "ret") (EBin BAdd (str " --timeout=") (EUn UDec (EAttr (EVar "self") "timeout")))))
      SPass;
      SIf (EAttr (EVar "self") "default")
      (SAssign "ret" (EBin BAdd (EVar "ret") (EBin BAdd (str " --default=") (EUn UStr (EAttr (EVar "self") "default")))))
      SPass;
      SReturn (EVar "ret")]))].
Definition m_F12_Bootloader : list (string * method) := [].
Definition m_F14_Bootloader : list (string * method) := [].
Definition m_F15_Bootloader : list (string * method) := [
  (* commands/bootloader.py:263-266 *)
  ("__init__", mkMethod [("writePriority", (Some (VInt 10))); ("kwargs", None)]
      (steps [SCall "_t1" (TClass "F14_Bootloader") "__init__" [("writePriority", (EVar "writePriority")); ("kwargs", (EVar "kwargs"))];
      SAttr "self" "isCrypted" (EGet (EVar "kwargs") "isCrypted" (EConst (VBool false)))]));
  (* commands/bootloader.py:268-274 *)
  ("_getArgsAsStr", mkMethod []
      (steps [SCall "_t1" (TClass "F14_Bootloader") "_getArgsAsStr" [];
      SAssign "ret" (EVar "_t1");
      SIf (EAttr (EVar "self") "isCrypted")
      (SAssign "ret" (EBin BAdd (EVar "ret") (str " --iscrypted")))
      SPass;
      SReturn (EVar "ret")]));
  (* commands/bootloader.py:288-299 *)
  ("parse", mkMethod []
      (steps [SParse "ns";
      SIf (EGet (EVar "ns") "_md5pass" (EConst VNone))
      (steps [SAttr "ns" "password" (EAttr (EVar "ns") "_md5pass");
      SAttr "ns" "isCrypted" (EConst (VBool true));
      SDel "ns" "_md5pass"])
      SPass;
      SSetTo "ns" "self";
      SReturn (EVar "self")]))].
Definition m_F17_Bootloader : list (string * method) := [
  (* commands/bootloader.py:305-308 *)
  ("__init__", mkMethod [("writePriority", (Some (VInt 10))); ("kwargs", None)]
      (steps [SCall "_t1" (TClass "F15_Bootloader") "__init__" [("writePriority", (EVar "writePriority")); ("kwargs", (EVar "kwargs"))];
      SAttr "self" "bootDrive" (EGet (EVar "kwargs") "bootDrive" (str ""))]));
  (* commands/bootloader.py:310-316 *)
  ("_getArgsAsStr", mkMethod []
      (steps [SCall "_t1" (TClass "F15_Bootloader") "_getArgsAsStr" [];
      SAssign "ret" (EVar "_t1");
      SIf (EAttr (EVar "self") "bootDrive")
      (SAssign "ret" (EBin BAdd (EVar "ret") (EBin BAdd (str " --boot-drive=") (EUn UStr (EAttr (EVar "self") "bootDrive")))))
      SPass;
      SReturn (EVar "ret")]));
  (* commands/bootloader.py:326-332 *)
  ("parse", mkMethod []
      (steps [SCall "_t1" (TClass "F15_Bootloader") "parse" [];
      SAssign "retval" (EVar "_t1");
      SIf (EBin BIn (str ",") (EAttr (EVar "retval") "bootDrive"))
      (SRaise true "--boot-drive accepts only one argument")
      SPass;
      SReturn (EVar "retval")]))].
Definition m_F18_Bootloader : list (string * method) := [
  (* commands/bootloader.py:338-341 *)
  ("__init__", mkMethod [("writePriority", (Some (VInt 10))); ("kwargs", None)]
      (steps [SCall "_t1" (TClass "F17_Bootloader") "__init__" [("writePriority", (EVar "writePriority")); ("kwargs", (EVar "kwargs"))];
      SAttr "self" "leavebootorder" (EGet (EVar "kwargs") "leavebootorder" (EConst (VBool false)))]));
  (* commands/bootloader.py:343-349 *)
  ("_getArgsAsStr", mkMethod []
      (steps [SCall "_t1" (TClass "F17_Bootloader") "_getArgsAsStr" [];
      SAssign "ret" (EVar "_t1");
      SIf (EAttr (EVar "self") "leavebootorder")
      (SAssign "ret" (EBin BAdd (EVar "ret") (str " --leavebootorder")))
      SPass;
      SReturn (EVar "ret")]))].
Definition m_RHEL5_Bootloader : list (string * method) := [
  (* commands/bootloader.py:364-367 *)
  ("__init__", mkMethod [("writePriority", (Some (VInt 10))); ("kwargs", None)]
      (steps [SCall "_t1" (TClass "FC4_Bootloader") "__init__" [("writePriority", (EVar "writePriority")); ("kwargs", (EVar "kwargs"))];
      SAttr "self" "hvArgs" (EGet (EVar "kwargs") "hvArgs" (str ""))]));
  (* commands/bootloader.py:369-375 *)
  ("_getArgsAsStr", mkMethod []
      (steps [SCall "_t1" (TClass "FC4_Bootloader") "_getArgsAsStr" [];
      SAssign "ret" (EVar "_t1");
      SIf (EAttr (EVar "self") "hvArgs")
      (SAssign "ret" (EBin BAdd (EVar "ret") (EBin BAdd (EBin BAdd (str " --hvargs=""") (EUn UStr (EAttr (EVar "self") "hvArgs"))) (str """"))))
      SPass;
      SReturn (EVar "ret")]))].
Definition m_RHEL6_Bootloader : list (string * method) := [
  (* commands/bootloader.py:389-392 *)
  ("__init__", mkMethod [("writePriority", (Some (VInt 10))); ("kwargs", None)]
      (steps [SCall "_t1" (TClass "F12_Bootloader") "__init__" [("writePriority", (EVar "writePriority")); ("kwargs", (EVar "kwargs"))];
      SAttr "self" "isCrypted" (EGet (EVar "kwargs") "isCrypted" (EConst (VBool false)))]));
  (* commands/bootloader.py:394-400 *)
  ("_getArgsAsStr", mkMethod []
      (steps [SCall "_t1" (TClass "F12_Bootloader") "_getArgsAsStr" [];
      SAssign "ret" (EVar "_t1");
      SIf (EAttr (EVar "self") "isCrypted")
      (SAssign "ret" (EBin BAdd (EVar "ret") (str " --iscrypted")))
      SPass;
      SReturn (EVar "ret")]));
  (* commands/bootloader.py:414-425 *)
  ("parse", mkMethod []
      (steps [SParse "ns";
      SIf (EGet (EVar "ns") "_md5pass" (EConst VNone))
      (steps [SAttr "ns" "password" (EAttr (EVar "ns") "_md5pass");
      SAttr "ns" "isCrypted" (EConst (VBool true));
      SDel "ns" "_md5pass"])
      SPass;
      SSetTo "ns" "self";
      SReturn (EVar "self")]))].
Definition m_F19_Bootloader : list (string * method) := [
  (* commands/bootloader.py:431-434 *)
  ("__init__", mkMethod [("writePriority", (Some (VInt 10))); ("kwargs", None)]
      (steps [SCall "_t1" (TClass "F18_Bootloader") "__init__" [("writePriority", (EVar "writePriority")); ("kwargs", (EVar "kwargs"))];
      SAttr "self" "extlinux" (EGet (EVar "kwargs") "extlinux" (EConst (VBool false)))]));
  (* commands/bootloader.py:436-442 *)
  ("_getArgsAsStr", mkMethod []
      (steps [SCall "_t1" (TClass "F18_Bootloader") "_getArgsAsStr" [];
      SAssign "ret" (EVar "_t1");
      SIf (EAttr (EVar "self") "extlinux")
      (SAssign "ret" (EBin BAdd (EVar "ret") (str " --extlinux")))
      SPass;
      SReturn (EVar "ret")]))].
Definition m_F21_Bootloader : list (string * method) := [
  (* commands/bootloader.py:456-460 *)
  ("__init__", mkMethod [("writePriority", (Some (VInt 10))); ("kwargs", None)]
      (steps [SCall "_t1" (TClass "F19_Bootloader") "__init__" [("writePriority", (EVar "writePriority")); ("kwargs", (EVar "kwargs"))];
      SAttr "self" "disabled" (EGet (EVar "kwargs") "disabled" (EConst (VBool false)));
      SAttr "self" "nombr" (EGet (EVar "kwargs") "nombr" (EConst (VBool false)))]));
  (* commands/bootloader.py:462-469 *)
  ("_getArgsAsStr", mkMethod []
      (steps [SIf (EAttr (EVar "self") "disabled")
      (SReturn (str " --disabled"))
      SPass;
      SCall "_t1" (TClass "F19_Bootloader") "_getArgsAsStr" [];
      SAssign "ret" (EVar "_t1");
      SIf (EAttr (EVar "self") "nombr")
      (SAssign "ret" (EBin BAdd (EVar "ret") (str " --nombr")))
      SPass;
      SReturn (EVar "ret")]))].
Definition m_RHEL7_Bootloader : list (string * method) := [].
Definition m_F29_Bootloader : list (string * method) := [].
Definition m_RHEL8_Bootloader : list (string * method) := [].
Definition m_F34_Bootloader : list (string * method) := [].
Definition m_F17_BTRFSData : list (string * method) := [
  (* commands/btrfs.py:33-46 *)
  ("__init__", mkMethod [("kwargs", None)]
      (steps [SCall "_t1" (TClass "BaseData") "__init__" [("kwargs", (EVar "kwargs"))];
      SAttr "self" "format" (EGet (EVar "kwargs") "format" (EConst (VBool true)));
      SAttr "self" "preexist" (EGet (EVar "kwargs") "preexist" (EConst (VBool false)));
      SAttr "self" "label" (EGet (EVar "kwargs") "label" (str ""));
      SAttr "self" "mountpoint" (EGet (EVar "kwargs") "mountpoint" (str ""));
      SAttr "self" "devices" (EGet (EVar "kwargs") "devices" (EConst (VStrs [])));
      SAttr "self" "dataLevel" (EOr (EGet (EVar "kwargs") "data" (EConst VNone)) (EGet (EVar "kwargs") "dataLevel" (EConst VNone)));
      SAttr "self" "metaDataLevel" (EOr (EGet (EVar "kwargs") "metadata" (EConst VNone)) (EGet (EVar "kwargs") "metaDataLevel" (EConst VNone)));
      SAttr "self" "subvol" (EGet (EVar "kwargs") "subvol" (EConst (VBool false)));
      SAttr "self" "parent" (EGet (EVar "kwargs") "parent" (str ""));
      SAttr "self" "name" (EGet (EVar "kwargs") "name" (EConst VNone))]));
  (* commands/btrfs.py:57-72 *)
  ("_getArgsAsStr", mkMethod []
      (steps [SAssign "retval" (str "");
      SIf (EUn UNot (EAttr (EVar "self") "format"))
      (SAssign "retval" (EBin BAdd (EVar "retval") (str " --noformat")))
      SPass;
      SIf (EAttr (EVar "self") "preexist")
      (SAssign "retval" (EBin BAdd (EVar "retval") (str " --useexisting")))
      SPass;
      SIf (EAttr (EVar "self") "label")
      (SAssign "retval" (EBin BAdd (EVar "retval") (EBin BAdd (str " --label=") (EUn UStr (EAttr (EVar "self") "label")))))
      SPass;
      SIf (EAttr (EVar "self") "dataLevel")
      (SAssign "retval" (EBin BAdd (EVar "retval") (EBin BAdd (str " --data=") (EUn UStr (EUn ULower (EAttr (EVar "self") "dataLevel"))))))
      SPass;
      SIf (EAttr (EVar "self") "metaDataLevel")
      (SAssign "retval" (EBin BAdd (EVar "retval") (EBin BAdd (str " --metadata=") (EUn UStr (EUn ULower (EAttr (EVar "self") "metaDataLevel"))))))
      SPass;
      SIf (EAttr (EVar "self") "subvol")
      (SAssign "retval" (EBin BAdd (EVar "retval") (EBin BAdd (str " --subvol --name=") (EUn UStr (EAttr (EVar "self") "name")))))
      SPass;
      SReturn (EVar "retval")]));
  (* commands/btrfs.py:74-78 *)
  ("__str__", mkMethod []
      (steps [SCall "_t1" (TClass "BaseData") "__str__" [];
      SAssign "retval" (EVar "_t1");
      SAssign "retval" (EBin BAdd (EVar "retval") (EBin BAdd (str "btrfs ") (EUn UStr (EAttr (EVar "self") "mountpoint"))));
      SCall "_t2" TSelf "_getArgsAsStr" [];
      SAssign "retval" (EBin BAdd (EVar "retval") (EVar "_t2"));
      SReturn (EBin BAdd (EBin BAdd (EBin BAdd (EVar "retval") (str " ")) (EBin BJoin (str " ") (EAttr (EVar "self") "devices"))) (str "
"))]))].
Definition m_F23_BTRFSData : list (string * method) := [
  (* commands/btrfs.py:84-86 *)
  ("__init__", mkMethod [("kwargs", None)]
      (steps [SCall "_t1" (TClass "F17_BTRFSData") "__init__" [("kwargs", (EVar "kwargs"))];
      SAttr "self" "mkfsopts" (EOr (EGet (EVar "kwargs") "mkfsoptions" (str "")) (EGet (EVar "kwargs") "mkfsopts" (str "")))]));
  (* commands/btrfs.py:88-94 *)
  ("_getArgsAsStr", mkMethod []
      (steps [SCall "_t1" (TClass "F17_BTRFSData") "_getArgsAsStr" [];
      SAssign "retval" (EVar "_t1");
      SIf (EAttr (EVar "self") "mkfsopts")
      (SAssign "retval" (EBin BAdd (EVar "retval") (EBin BAdd (EBin BAdd (str " --mkfsoptions=""") (EUn UStr (EAttr (EVar "self") "mkfsopts"))) (str """"))))
      SPass;
      SReturn (EVar "retval")]))].
Definition m_RHEL7_BTRFSData : list (string * method) := [].
Definition m_F17_BTRFS : list (string * method) := [
  (* commands/btrfs.py:103-115 *)
  ("__init__", mkMethod [("writePriority", (Some (VInt 132))); ("kwargs", None)]
      (steps [SCall "_t1" (TClass "KickstartCommand") "__init__" [("writePriority", (EVar "writePriority")); ("kwargs", (EVar "kwargs"))];
      SAttr "self" "levelMap" (EConst (VPairs [("raid0", "raid0"); ("0", "raid0"); ("raid1", "raid1"); ("1", "raid1"); ("raid10", "raid10"); ("10", "raid10"); ("single", "single")]))]));
  (* commands/btrfs.py:117-122 *)
  ("__str__", mkMethod []
      (steps [SAssign "retval" (str "");
      SForData "btr" (SAssign "retval" (EBin BAdd (EVar "retval") (EDataStr (EVar "btr"))));
      SReturn (EVar "retval")]));
  (* commands/btrfs.py:202-235 *)
  ("parse", mkMethod []
      (steps [SParseKnown "ns" "extra";
      SCall "_t1" TSelf "dataClass" [];
      SAssign "data" (EVar "_t1");
      SSetTo "ns" "data";
      SAttr "data" "lineno" (EAttr (EVar "self") "lineno");
      SIf (EUn UNot (EAttr (EVar "data") "format"))
      (SAttr "data" "preexist" (EConst (VBool true)))
      (SIf (EAttr (EVar "data") "preexist")
      (SAttr "data" "format" (EConst (VBool false)))
      SPass);
      SIf (EUn UNot (EVar "extra"))
      (SRaise true "btrfs must be given a mountpoint")
      (SIf (EUn UDashed (EVar "extra"))
      (SRaise true "Unexpected arguments to %(command)s command: %(options)s")
      SPass);
      SAttr "data" "mountpoint" (EUn UMount (EBin BIndex (EVar "extra") (EConst (VInt 0))));
      SAttr "data" "devices" (EBin BFrom (EVar "extra") (EConst (VInt 1)));
      SIf (EUn UNot (EUn UBool (EOr (EAttr (EVar "data") "devices") (EAttr (EVar "data") "subvol"))))
      (SRaise true "btrfs must be given a list of partitions")
      (SIf (EUn UNot (EAttr (EVar "data") "devices"))
      (SRaise true "btrfs subvol requires specification of parent volume")
      SPass);
      SIf (EAnd (EAttr (EVar "data") "subvol") (EUn UNot (EAttr (EVar "data") "name")))
      (SRaise true "btrfs subvolume requires a name")
      SPass;
      SReturn (EVar "data")]));
  (* commands/btrfs.py:241-242 *)
  ("dataClass", mkMethod []
      (SReturn (ENew "BTRFSData")))].
Definition m_F23_BTRFS : list (string * method) := [
  (* commands/btrfs.py:260-266 *)
  ("parse", mkMethod []
      (steps [SCall "_t1" (TClass "F17_BTRFS") "parse" [];
      SAssign "data" (EVar "_t1");
      SIf (EAnd (EOr (EAttr (EVar "data") "preexist") (EUn UNot (EAttr (EVar "data") "format"))) (EAttr (EVar "data") "mkfsopts"))
      (SRaise true "--mkfsoptions with --noformat or --useexisting has no effect.")
      SPass;
      SReturn (EVar "data")]))].
Definition m_RHEL7_BTRFS : list (string * method) := [].
Definition m_RHEL8_BTRFS : list (string * method) := [
  (* commands/btrfs.py:272-273 *)
  ("__init__", mkMethod []
      (SCall "_t1" (TClass "DeprecatedCommand") "__init__" [("kwargs", ENoKw)]))].
Definition m_FC3_Cdrom : list (string * method) := [
  (* commands/cdrom.py:31-37 *)
  ("__str__", mkMethod []
      (steps [SCall "_t1" (TClass "KickstartCommand") "__str__" [];
      SAssign "retval" (EVar "_t1");
      SIf (EUn UNot (EAttr (EVar "self") "seen"))
      (SReturn (EVar "retval"))
      SPass;
      SAssign "retval" (EBin BAdd (EVar "retval") (str "# Use CDROM installation media
cdrom
"));
      SReturn (EVar "retval")]));
  (* commands/cdrom.py:39-43 *)
  ("parse", mkMethod []
      (steps [SIf EArgs
      (SRaise true "Kickstart command %s does not take any arguments")
      SPass;
      SReturn (EVar "self")]))].
Definition m_FC3_ClearPart : list (string * method) := [
  (* commands/clearpart.py:29-35 *)
  ("__init__", mkMethod [("writePriority", (Some (VInt 120))); ("kwargs", None)]
      (steps [SCall "_t1" (TClass "KickstartCommand") "__init__" [("writePriority", (EVar "writePriority")); ("kwargs", (EVar "kwargs"))];
      SAttr "self" "drives" (EGet (EVar "kwargs") "drives" (EConst (VStrs [])));
      SAttr "self" "initAll" (EGet (EVar "kwargs") "initAll" (EConst (VBool false)));
      SAttr "self" "type" (EGet (EVar "kwargs") "type" (EConst VNone))]));
  (* commands/clearpart.py:37-63 *)
  ("__str__", mkMethod []
      (steps [SCall "_t1" (TClass "KickstartCommand") "__str__" [];
      SAssign "retval" (EVar "_t1");
      SIf (EBin BIs (EAttr (EVar "self") "type") (EConst VNone))
      (SReturn (EVar "retval"))
      SPass;
      SIf (EBin BEq (EAttr (EVar "self") "type") (EConst (VInt 2)))
      (SAssign "clearstr" (str " --none"))
      (SIf (EBin BEq (EAttr (EVar "self") "type") (EConst (VInt 0)))
      (SAssign "clearstr" (str " --linux"))
      (SIf (EBin BEq (EAttr (EVar "self") "type") (EConst (VInt 1)))
      (SAssign "clearstr" (str " --all"))
      (SAssign "clearstr" (str ""))));
      SIf (EAttr (EVar "self") "initAll")
      (SAssign "initstr" (str " --initlabel"))
      (SAssign "initstr" (str ""));
      SIf (EAttr (EVar "self") "drives")
      (SAssign "drivestr" (EBin BAdd (str " --drives=") (EBin BJoin (str ",") (EAttr (EVar "self") "drives"))))
      (SAssign "drivestr" (str ""));
      SAssign "retval" (EBin BAdd (EVar "retval") (EBin BAdd (EBin BAdd (EBin BAdd (EBin BAdd (str "# Partition clearing information
clearpart") (EUn UStr (EVar "clearstr"))) (EUn UStr (EVar "initstr"))) (EUn UStr (EVar "drivestr"))) (str "
")));
      SReturn (EVar "retval")]));
  (* commands/clearpart.py:98-101 *)
  ("parse", mkMethod []
      (steps [SParse "ns";
      SSetTo "ns" "self";
      SReturn (EVar "self")]))].
Definition m_F17_ClearPart : list (string * method) := [
  (* commands/clearpart.py:104-106 *)
  ("__init__", mkMethod [("kwargs", None)]
      (steps [SCall "_t1" (TSuper "F17_ClearPart") "__init__" [("kwargs", (EVar "kwargs"))];
      SAttr "self" "devices" (EGet (EVar "kwargs") "devices" (EConst (VStrs [])))]));
  (* commands/clearpart.py:108-114 *)
  ("__str__", mkMethod []
      (steps [SCall "_t1" (TSuper "F17_ClearPart") "__str__" [];
      SAssign "s" (EVar "_t1");
      SIf (EAnd (EVar "s") (EAttr (EVar "self") "devices"))
      (steps [SAssign "s" (EUn URstrip (EVar "s"));
      SAssign "s" (EBin BAdd (EVar "s") (EBin BAdd (str " --list=") (EBin BJoin (str ",") (EAttr (EVar "self") "devices"))));
      SAssign "s" (EBin BAdd (EVar "s") (str "
"))])
      SPass;
      SReturn (EVar "s")]));
  (* commands/clearpart.py:127-132 *)
  ("parse", mkMethod []
      (steps [SCall "_t1" (TClass "FC3_ClearPart") "parse" [];
      SAssign "obj" (EVar "_t1");
      SIf (EGet (EVar "obj") "devices" (EConst (VStrs [])))
      (SAttr "obj" "type" (EConst (VInt 3)))
      SPass;
      SReturn (EVar "obj")]))].
Definition m_F21_ClearPart : list (string * method) := [
  (* commands/clearpart.py:135-137 *)
  ("__init__", mkMethod [("kwargs", None)]
      (steps [SCall "_t1" (TSuper "F21_ClearPart") "__init__" [("kwargs", (EVar "kwargs"))];
      SAttr "self" "disklabel" (EGet (EVar "kwargs") "disklabel" (str ""))]));
  (* commands/clearpart.py:139-144 *)
  ("__str__", mkMethod []
      (steps [SCall "_t1" (TSuper "F21_ClearPart") "__str__" [];
      SAssign "s" (EVar "_t1");
      SIf (EAnd (EVar "s") (EAttr (EVar "self") "disklabel"))
      (steps [SAssign "s" (EUn URstrip (EVar "s"));
      SAssign "s" (EBin BAdd (EVar "s") (EBin BAdd (EBin BAdd (str " --disklabel=") (EUn UStr (EAttr (EVar "self") "disklabel"))) (str "
")))])
      SPass;
      SReturn (EVar "s")]))].
Definition m_F28_ClearPart : list (string * method) := [
  (* commands/clearpart.py:155-157 *)
  ("__init__", mkMethod [("kwargs", None)]
      (steps [SCall "_t1" (TSuper "F28_ClearPart") "__init__" [("kwargs", (EVar "kwargs"))];
      SAttr "self" "cdl" (EGet (EVar "kwargs") "cdl" (EConst (VBool false)))]));
  (* commands/clearpart.py:159-164 *)
  ("__str__", mkMethod []
      (steps [SCall "_t1" (TSuper "F28_ClearPart") "__str__" [];
      SAssign "s" (EVar "_t1");
      SIf (EAnd (EVar "s") (EAttr (EVar "self") "cdl"))
      (steps [SAssign "s" (EUn URstrip (EVar "s"));
      SAssign "s" (EBin BAdd (EVar "s") (str " --cdl
"))])
      SPass;
      SReturn (EVar "s")]))].
Definition m_RHEL7_ClearPart : list (string * method) := [].
Definition m_F8_DeviceData : list (string * method) := [
  (* commands/device.py:32-35 *)
  ("__init__", mkMethod [("kwargs", None)]
      (steps [SCall "_t1" (TClass "BaseData") "__init__" [("kwargs", (EVar "kwargs"))];
      SAttr "self" "moduleName" (EGet (EVar "kwargs") "moduleName" (str ""));
      SAttr "self" "moduleOpts" (EGet (EVar "kwargs") "moduleOpts" (str ""))]));
  (* commands/device.py:46-55 *)
  ("__str__", mkMethod []
      (steps [SCall "_t1" (TClass "BaseData") "__str__" [];
      SAssign "retval" (EVar "_t1");
      SIf (EAttr (EVar "self") "moduleName")
      (steps [SAssign "retval" (EBin BAdd (EVar "retval") (EBin BAdd (str "device ") (EUn UStr (EAttr (EVar "self") "moduleName"))));
      SIf (EAttr (EVar "self") "moduleOpts")
      (SAssign "retval" (EBin BAdd (EVar "retval") (EBin BAdd (EBin BAdd (str " --opts=""") (EUn UStr (EAttr (EVar "self") "moduleOpts"))) (str """"))))
      SPass])
      SPass;
      SReturn (EBin BAdd (EVar "retval") (str "
"))]))].
Definition m_FC3_Device : list (string * method) := [
  (* commands/device.py:61-67 *)
  ("__init__", mkMethod [("writePriority", (Some (VInt 0))); ("kwargs", None)]
      (steps [SCall "_t1" (TClass "KickstartCommand") "__init__" [("writePriority", (EVar "writePriority")); ("kwargs", (EVar "kwargs"))];
      SAttr "self" "type" (EGet (EVar "kwargs") "type" (str ""));
      SAttr "self" "moduleName" (EGet (EVar "kwargs") "moduleName" (str ""));
      SAttr "self" "moduleOpts" (EGet (EVar "kwargs") "moduleOpts" (str ""))]));
  (* commands/device.py:78-87 *)
  ("__str__", mkMethod []
      (steps [SCall "_t1" (TClass "KickstartCommand") "__str__" [];
      SAssign "retval" (EVar "_t1");
      SIf (EAttr (EVar "self") "moduleName")
      (steps [SAssign "retval" (EBin BAdd (EVar "retval") (EBin BAdd (EBin BAdd (EBin BAdd (str "device ") (EUn UStr (EAttr (EVar "self") "type"))) (str " ")) (EUn UStr (EAttr (EVar "self") "moduleName"))));
      SIf (EAttr (EVar "self") "moduleOpts")
      (SAssign "retval" (EBin BAdd (EVar "retval") (EBin BAdd (EBin BAdd (str " --opts=""") (EUn UStr (EAttr (EVar "self") "moduleOpts"))) (str """"))))
      SPass])
      SPass;
      SReturn (EBin BAdd (EVar "retval") (str "
"))]));
  (* commands/device.py:111-123 *)
  ("parse", mkMethod []
      (steps [SParseKnown "ns" "extra";
      SIf (EBin BNe (EUn ULen (EVar "extra")) (EConst (VInt 2)))
      (SRaise true "device command requires two arguments: module type and name")
      (SIf (EUn UDashed (EVar "extra"))
      (SRaise true "Unexpected arguments to %(command)s command: %(options)s")
      SPass);
      SAttr "self" "moduleOpts" (EAttr (EVar "ns") "moduleOpts");
      SAttr "self" "type" (EBin BIndex (EVar "extra") (EConst (VInt 0)));
      SAttr "self" "moduleName" (EBin BIndex (EVar "extra") (EConst (VInt 1)));
      SReturn (EVar "self")]))].
Definition m_F8_Device : list (string * method) := [
  (* commands/device.py:129-131 *)
  ("__init__", mkMethod [("writePriority", (Some (VInt 0))); ("kwargs", None)]
      (SCall "_t1" (TClass "FC3_Device") "__init__" [("writePriority", (EVar "writePriority")); ("kwargs", (EVar "kwargs"))]));
  (* commands/device.py:133-138 *)
  ("__str__", mkMethod []
      (steps [SAssign "retval" (str "");
      SForData "device" (SAssign "retval" (EBin BAdd (EVar "retval") (EDataStr (EVar "device"))));
      SReturn (EVar "retval")]));
  (* commands/device.py:140-158 *)
  ("parse", mkMethod []
      (steps [SParseKnown "ns" "extra";
      SIf (EBin BNe (EUn ULen (EVar "extra")) (EConst (VInt 1)))
      (SRaise true "%(command)s command requires a single argument: %(argument)s")
      (SIf (EUn UDashed (EVar "extra"))
      (SRaise true "Unexpected arguments to %(command)s command: %(options)s")
      SPass);
      SCall "_t1" TSelf "dataClass" [];
      SAssign "dd" (EVar "_t1");
      SSetTo "ns" "dd";
      SAttr "dd" "lineno" (EAttr (EVar "self") "lineno");
      SAttr "dd" "moduleName" (EBin BIndex (EVar "extra") (EConst (VInt 0)));
      SReturn (EVar "dd")]));
  (* commands/device.py:164-165 *)
  ("dataClass", mkMethod []
      (SReturn (ENew "DeviceData")))].
Definition m_F24_Device : list (string * method) := [
  (* commands/device.py:168-169 *)
  ("__init__", mkMethod []
      (SCall "_t1" (TClass "DeprecatedCommand") "__init__" [("kwargs", ENoKw)]))].
Definition m_F34_Device : list (string * method) := [].
Definition m_FC3_DeviceProbe : list (string * method) := [
  (* commands/deviceprobe.py:29-31 *)
  ("__init__", mkMethod [("writePriority", (Some (VInt 0))); ("kwargs", None)]
      (steps [SCall "_t1" (TClass "KickstartCommand") "__init__" [("writePriority", (EVar "writePriority")); ("kwargs", (EVar "kwargs"))];
      SAttr "self" "deviceprobe" (EGet (EVar "kwargs") "deviceprobe" (str ""))]));
  (* commands/deviceprobe.py:33-39 *)
  ("__str__", mkMethod []
      (steps [SCall "_t1" (TClass "KickstartCommand") "__str__" [];
      SAssign "retval" (EVar "_t1");
      SIf (EAttr (EVar "self") "deviceprobe")
      (SAssign "retval" (EBin BAdd (EVar "retval") (EBin BAdd (EBin BAdd (str "deviceprobe ") (EUn UStr (EAttr (EVar "self") "deviceprobe"))) (str "
"))))
      SPass;
      SReturn (EVar "retval")]));
  (* commands/deviceprobe.py:41-43 *)
  ("parse", mkMethod []
      (steps [SAttr "self" "deviceprobe" (EBin BJoin (str " ") EArgs);
      SReturn (EVar "self")]))].
Definition m_F29_DeviceProbe : list (string * method) := [
  (* commands/deviceprobe.py:51-52 *)
  ("__init__", mkMethod []
      (SCall "_t1" (TClass "DeprecatedCommand") "__init__" [("kwargs", ENoKw)]))].
Definition m_F34_DeviceProbe : list (string * method) := [].
Definition m_FC3_DisplayMode : list (string * method) := [
  (* commands/displaymode.py:33-36 *)
  ("__init__", mkMethod [("writePriority", (Some (VInt 0))); ("kwargs", None)]
      (steps [SCall "_t1" (TClass "KickstartCommand") "__init__" [("writePriority", (EVar "writePriority")); ("kwargs", (EVar "kwargs"))];
      SAttr "self" "displayMode" (EGet (EVar "kwargs") "displayMode" (EConst VNone))]));
  (* commands/displaymode.py:38-51 *)
  ("__str__", mkMethod []
      (steps [SCall "_t1" (TClass "KickstartCommand") "__str__" [];
      SAssign "retval" (EVar "_t1");
      SIf (EBin BIs (EAttr (EVar "self") "displayMode") (EConst VNone))
      (SReturn (EVar "retval"))
      SPass;
      SIf (EBin BEq (EAttr (EVar "self") "displayMode") (EConst (VInt 0)))
      (SAssign "retval" (EBin BAdd (EVar "retval") (str "cmdline
")))
      (SIf (EBin BEq (EAttr (EVar "self") "displayMode") (EConst (VInt 1)))
      (SAssign "retval" (EBin BAdd (EVar "retval") (str "# Use graphical install
graphical
")))
      (SIf (EBin BEq (EAttr (EVar "self") "displayMode") (EConst (VInt 2)))
      (SAssign "retval" (EBin BAdd (EVar "retval") (str "# Use text mode install
text
")))
      SPass));
      SReturn (EVar "retval")]));
  (* commands/displaymode.py:53-66 *)
  ("parse", mkMethod []
      (steps [SParse "ns";
      SSetTo "ns" "self";
      SIf (EBin BEq (EAttr (EVar "self") "currentCmd") (str "cmdline"))
      (SAttr "self" "displayMode" (EConst (VInt 0)))
      (SIf (EBin BEq (EAttr (EVar "self") "currentCmd") (str "graphical"))
      (SAttr "self" "displayMode" (EConst (VInt 1)))
      (SIf (EBin BEq (EAttr (EVar "self") "currentCmd") (str "text"))
      (SAttr "self" "displayMode" (EConst (VInt 2)))
      (SRaise true "Unknown command %s")));
      SReturn (EVar "self")]))].
Definition m_F26_DisplayMode : list (string * method) := [
  (* commands/displaymode.py:81-83 *)
  ("__init__", mkMethod [("writePriority", (Some (VInt 0))); ("kwargs", None)]
      (steps [SCall "_t1" (TClass "FC3_DisplayMode") "__init__" [("writePriority", (EVar "writePriority")); ("kwargs", ENoKw)];
      SAttr "self" "nonInteractive" (EGet (EVar "kwargs") "nonInteractive" (EConst (VBool false)))]));
  (* commands/displaymode.py:85-92 *)
  ("__str__", mkMethod []
      (steps [SCall "_t1" (TSuper "F26_DisplayMode") "__str__" [];
      SAssign "retval" (EVar "_t1");
      SIf (EAttr (EVar "self") "nonInteractive")
      (steps [SAssign "retval" (EUn URstrip (EVar "retval"));
      SAssign "retval" (EBin BAdd (EVar "retval") (str " --non-interactive
"))])
      SPass;
      SReturn (EVar "retval")]));
  (* commands/displaymode.py:104-111 *)
  ("parse", mkMethod []
      (steps [SCall "_t1" (TClass "FC3_DisplayMode") "parse" [];
      SIf (EAnd (EBin BEq (EAttr (EVar "self") "currentCmd") (str "cmdline")) (EAttr (EVar "self") "nonInteractive"))
      (SRaise true "Kickstart command cmdline does not support --non-interactive parameter")
      SPass;
      SReturn (EVar "self")]))].
Definition m_FC6_DmRaidData : list (string * method) := [
  (* commands/dmraid.py:33-38 *)
  ("__init__", mkMethod [("kwargs", None)]
      (steps [SCall "_t1" (TClass "BaseData") "__init__" [("kwargs", (EVar "kwargs"))];
      SAttr "self" "name" (EGet (EVar "kwargs") "name" (str ""));
      SAttr "self" "devices" (EGet (EVar "kwargs") "devices" (EConst (VStrs [])));
      SAttr "self" "dmset" (EGet (EVar "kwargs") "dmset" (EConst VNone))]));
  (* commands/dmraid.py:49-56 *)
  ("__str__", mkMethod []
      (steps [SCall "_t1" (TClass "BaseData") "__str__" [];
      SAssign "retval" (EVar "_t1");
      SAssign "retval" (EBin BAdd (EVar "retval") (EBin BAdd (str "dmraid --name=") (EUn UStr (EAttr (EVar "self") "name"))));
      SFor "dev" (EAttr (EVar "self") "devices") (SAssign "retval" (EBin BAdd (EVar "retval") (EBin BAdd (EBin BAdd (str " --dev=""") (EUn UStr (EVar "dev"))) (str """"))));
      SReturn (EBin BAdd (EVar "retval") (str "
"))]))].
Definition m_FC6_DmRaid : list (string * method) := [
  (* commands/dmraid.py:62-66 *)
  ("__init__", mkMethod [("writePriority", (Some (VInt 60))); ("kwargs", None)]
      (SCall "_t1" (TClass "KickstartCommand") "__init__" [("writePriority", (EVar "writePriority")); ("kwargs", (EVar "kwargs"))]));
  (* commands/dmraid.py:68-73 *)
  ("__str__", mkMethod []
      (steps [SAssign "retval" (str "");
      SForData "dm" (SAssign "retval" (EBin BAdd (EVar "retval") (EDataStr (EVar "dm"))));
      SReturn (EVar "retval")]));
  (* commands/dmraid.py:82-93 *)
  ("parse", mkMethod []
      (steps [SCall "_t1" TSelf "dataClass" [];
      SAssign "dm" (EVar "_t1");
      SParse "ns";
      SSetTo "ns" "dm";
      SAttr "dm" "name" (EBin BIndex (EBin BSplit (str "/") (EAttr (EVar "dm") "name")) (EConst (VInt (-1))));
      SAttr "dm" "lineno" (EAttr (EVar "self") "lineno");
      SReturn (EVar "dm")]));
  (* commands/dmraid.py:99-100 *)
  ("dataClass", mkMethod []
      (SReturn (ENew "DmRaidData")))].
Definition m_F24_DmRaid : list (string * method) := [
  (* commands/dmraid.py:103-104 *)
  ("__init__", mkMethod []
      (SCall "_t1" (TClass "DeprecatedCommand") "__init__" [("kwargs", ENoKw)]))].
Definition m_F34_DmRaid : list (string * method) := [].
Definition m_FC3_DriverDiskData : list (string * method) := [
  (* commands/driverdisk.py:31-36 *)
  ("__init__", mkMethod [("kwargs", None)]
      (steps [SCall "_t1" (TClass "BaseData") "__init__" [("kwargs", (EVar "kwargs"))];
      SAttr "self" "partition" (EGet (EVar "kwargs") "partition" (str ""));
      SAttr "self" "source" (EGet (EVar "kwargs") "source" (str ""));
      SAttr "self" "type" (EGet (EVar "kwargs") "type" (str ""))]));
  (* commands/driverdisk.py:38-48 *)
  ("_getArgsAsStr", mkMethod []
      (steps [SAssign "retval" (str "");
      SIf (EAttr (EVar "self") "partition")
      (steps [SAssign "retval" (EBin BAdd (EVar "retval") (EUn UStr (EAttr (EVar "self") "partition")));
      SIf (EAnd (EHas (EVar "self") "type") (EAttr (EVar "self") "type"))
      (SAssign "retval" (EBin BAdd (EVar "retval") (EBin BAdd (str " --type=") (EUn UStr (EAttr (EVar "self") "type")))))
      SPass])
      (SIf (EAttr (EVar "self") "source")
      (SAssign "retval" (EBin BAdd (EVar "retval") (EBin BAdd (str "--source=") (EUn UStr (EAttr (EVar "self") "source")))))
      SPass);
      SReturn (EVar "retval")]));
  (* commands/driverdisk.py:50-53 *)
  ("__str__", mkMethod []
      (steps [SCall "_t1" (TClass "BaseData") "__str__" [];
      SAssign "retval" (EVar "_t1");
      SCall "_t2" TSelf "_getArgsAsStr" [];
      SAssign "retval" (EBin BAdd (EVar "retval") (EBin BAdd (EBin BAdd (str "driverdisk ") (EUn UStr (EVar "_t2"))) (str "
")));
      SReturn (EVar "retval")]))].
Definition m_FC4_DriverDiskData : list (string * method) := [
  (* commands/driverdisk.py:59-63 *)
  ("__init__", mkMethod [("kwargs", None)]
      (steps [SCall "_t1" (TClass "FC3_DriverDiskData") "__init__" [("kwargs", (EVar "kwargs"))];
      SDelRemoved [];
      SAttr "self" "biospart" (EGet (EVar "kwargs") "biospart" (str ""))]));
  (* commands/driverdisk.py:65-78 *)
  ("_getArgsAsStr", mkMethod []
      (steps [SAssign "retval" (str "");
      SIf (EAttr (EVar "self") "partition")
      (steps [SAssign "retval" (EBin BAdd (EVar "retval") (EUn UStr (EAttr (EVar "self") "partition")));
      SIf (EAnd (EHas (EVar "self") "type") (EAttr (EVar "self") "type"))
      (SAssign "retval" (EBin BAdd (EVar "retval") (EBin BAdd (str " --type=") (EUn UStr (EAttr (EVar "self") "type")))))
      SPass])
      (SIf (EAttr (EVar "self") "source")
      (SAssign "retval" (EBin BAdd (EVar "retval") (EBin BAdd (str "--source=") (EUn UStr (EAttr (EVar "self") "source")))))
      (SIf (EAttr (EVar "self") "biospart")
      (SAssign "retval" (EBin BAdd (EVar "retval") (EBin BAdd (str "--biospart=") (EUn UStr (EAttr (EVar "self") "biospart")))))
      SPass));
      SReturn (EVar "retval")]))].
Definition m_F12_DriverDiskData : list (string * method) := [
  (* commands/driverdisk.py:84-86 *)
  ("__init__", mkMethod [("kwargs", None)]
      (steps [SCall "_t1" (TClass "FC4_DriverDiskData") "__init__" [("kwargs", (EVar "kwargs"))];
      SDelRemoved []]))].
Definition m_F14_DriverDiskData : list (string * method) := [].
Definition m_FC3_DriverDisk : list (string * method) := [
  (* commands/driverdisk.py:95-99 *)
  ("__init__", mkMethod [("writePriority", (Some (VInt 0))); ("kwargs", None)]
      (SCall "_t1" (TClass "KickstartCommand") "__init__" [("writePriority", (EVar "writePriority")); ("kwargs", (EVar "kwargs"))]));
  (* commands/driverdisk.py:101-106 *)
  ("__str__", mkMethod []
      (steps [SAssign "retval" (str "");
      SForData "dd" (SAssign "retval" (EBin BAdd (EVar "retval") (EDataStr (EVar "dd"))));
      SReturn (EVar "retval")]));
  (* commands/driverdisk.py:128-149 *)
  ("parse", mkMethod []
      (steps [SParseKnown "ns" "extra";
      SIf (EBin BGt (EUn ULen (EAttr (EVar "ns") "partition")) (EConst (VInt 1)))
      (SRaise true "Only one partition may be specified for driverdisk command.")
      (SIf (EVar "extra")
      (SRaise true "Unexpected arguments to %(command)s command: %(options)s")
      SPass);
      SIf (EAnd (EAttr (EVar "ns") "partition") (EAttr (EVar "ns") "source"))
      (SRaise true "Only one of --source and partition may be specified for driverdisk command.")
      SPass;
      SIf (EAnd (EUn UNot (EAttr (EVar "ns") "partition")) (EUn UNot (EAttr (EVar "ns") "source")))
      (SRaise true "One of --source or partition must be specified for driverdisk command.")
      SPass;
      SCall "_t1" TSelf "dataClass" [];
      SAssign "ddd" (EVar "_t1");
      SSetTo "ns" "ddd";
      SAttr "ddd" "lineno" (EAttr (EVar "self") "lineno");
      SIf (EAttr (EVar "ns") "partition")
      (SAttr "ddd" "partition" (EBin BIndex (EAttr (EVar "ns") "partition") (EConst (VInt 0))))
      SPass;
      SReturn (EVar "ddd")]));
  (* commands/driverdisk.py:155-156 *)
  ("dataClass", mkMethod []
      (SReturn (ENew "DriverDiskData")))].
Definition m_FC4_DriverDisk : list (string * method) := [
  (* commands/driverdisk.py:169-194 *)
  ("parse", mkMethod []
      (steps [SParseKnown "ns" "extra";
      SIf (EBin BGt (EUn ULen (EAttr (EVar "ns") "partition")) (EConst (VInt 1)))
      (SRaise true "Only one partition may be specified for driverdisk command.")
      (SIf (EVar "extra")
      (SRaise true "Unexpected arguments to %(command)s command: %(options)s")
      SPass);
      SIf (EAnd (EAttr (EVar "ns") "partition") (EAttr (EVar "ns") "source"))
      (SRaise true "Only one of --source and partition may be specified for driverdisk command.")
      (SIf (EAnd (EAttr (EVar "ns") "partition") (EAttr (EVar "ns") "biospart"))
      (SRaise true "Only one of --biospart and partition may be specified for driverdisk command.")
      (SIf (EAnd (EAttr (EVar "ns") "source") (EAttr (EVar "ns") "biospart"))
      (SRaise true "Only one of --biospart and --source may be specified for driverdisk command.")
      SPass));
      SIf (EAnd (EUn UNot (EAttr (EVar "ns") "partition")) (EAnd (EUn UNot (EAttr (EVar "ns") "source")) (EUn UNot (EAttr (EVar "ns") "biospart"))))
      (SRaise true "One of --source, --biospart, or partition must be specified for driverdisk command.")
      SPass;
      SCall "_t1" TSelf "dataClass" [];
      SAssign "ddd" (EVar "_t1");
      SSetTo "ns" "ddd";
      SAttr "ddd" "lineno" (EAttr (EVar "self") "lineno");
      SIf (EAttr (EVar "ns") "partition")
      (SAttr "ddd" "partition" (EBin BIndex (EAttr (EVar "ns") "partition") (EConst (VInt 0))))
      SPass;
      SReturn (EVar "ddd")]))].
Definition m_F12_DriverDisk : list (string * method) := [].
Definition m_F14_DriverDisk : list (string * method) := [].
Definition m_F20_Eula : list (string * method) := [
  (* commands/eula.py:30-33 *)
  ("__init__", mkMethod [("writePriority", (Some (VInt 0))); ("kwargs", None)]
      (steps [SCall "_t1" (TClass "KickstartCommand") "__init__" [("writePriority", (EVar "writePriority")); ("kwargs", (EVar "kwargs"))];
      SAttr "self" "agreed" (EGet (EVar "kwargs") "agreed" (EConst (VBool false)))]));
  (* commands/eula.py:35-42 *)
  ("__str__", mkMethod []
      (steps [SCall "_t1" (TClass "KickstartCommand") "__str__" [];
      SAssign "retval" (EVar "_t1");
      SIf (EAttr (EVar "self") "agreed")
      (steps [SAssign "retval" (EBin BAdd (EVar "retval") (str "# License agreement
"));
      SCall "_t2" TSelf "_getArgsAsStr" [];
      SAssign "retval" (EBin BAdd (EVar "retval") (EBin BAdd (EBin BAdd (str "eula ") (EUn UStr (EVar "_t2"))) (str "
")))])
      SPass;
      SReturn (EVar "retval")]));
  (* commands/eula.py:44-48 *)
  ("_getArgsAsStr", mkMethod []
      (SIf (EAttr (EVar "self") "agreed")
      (SReturn (str "--agreed"))
      (SReturn (str ""))));
  (* commands/eula.py:59-70 *)
  ("parse", mkMethod []
      (steps [SParseKnown "ns" "extra";
      SSetTo "ns" "self";
      SIf (EVar "extra")
      (SRaise true "eula")
      SPass;
      SIf (EUn UNot (EAttr (EVar "self") "agreed"))
      (SRaise true "Kickstart command eula expects the --agreed option")
      SPass;
      SReturn (EVar "self")]))].
Definition m_F12_FcoeData : list (string * method) := [
  (* commands/fcoe.py:32-34 *)
  ("__init__", mkMethod [("kwargs", None)]
      (steps [SCall "_t1" (TClass "BaseData") "__init__" [("kwargs", (EVar "kwargs"))];
      SAttr "self" "nic" (EGet (EVar "kwargs") "nic" (EConst VNone))]));
  (* commands/fcoe.py:45-51 *)
  ("_getArgsAsStr", mkMethod []
      (steps [SAssign "retval" (str "");
      SIf (EAttr (EVar "self") "nic")
      (SAssign "retval" (EBin BAdd (EVar "retval") (EBin BAdd (str " --nic=") (EUn UStr (EAttr (EVar "self") "nic")))))
      SPass;
      SReturn (EVar "retval")]));
  (* commands/fcoe.py:53-56 *)
  ("__str__", mkMethod []
      (steps [SCall "_t1" (TClass "BaseData") "__str__" [];
      SAssign "retval" (EVar "_t1");
      SCall "_t2" TSelf "_getArgsAsStr" [];
      SAssign "retval" (EBin BAdd (EVar "retval") (EBin BAdd (EBin BAdd (str "fcoe") (EUn UStr (EVar "_t2"))) (str "
")));
      SReturn (EVar "retval")]))].
Definition m_F13_FcoeData : list (string * method) := [
  (* commands/fcoe.py:62-64 *)
  ("__init__", mkMethod [("kwargs", None)]
      (steps [SCall "_t1" (TClass "F12_FcoeData") "__init__" [("kwargs", (EVar "kwargs"))];
      SAttr "self" "dcb" (EGet (EVar "kwargs") "dcb" (EConst (VBool false)))]));
  (* commands/fcoe.py:66-72 *)
  ("_getArgsAsStr", mkMethod []
      (steps [SCall "_t1" (TClass "F12_FcoeData") "_getArgsAsStr" [];
      SAssign "retval" (EVar "_t1");
      SIf (EAttr (EVar "self") "dcb")
      (SAssign "retval" (EBin BAdd (EVar "retval") (str " --dcb")))
      SPass;
      SReturn (EVar "retval")]))].
Definition m_RHEL7_FcoeData : list (string * method) := [
  (* commands/fcoe.py:78-80 *)
  ("__init__", mkMethod [("kwargs", None)]
      (steps [SCall "_t1" (TClass "F13_FcoeData") "__init__" [("kwargs", (EVar "kwargs"))];
      SAttr "self" "autovlan" (EGet (EVar "kwargs") "autovlan" (EConst (VBool false)))]));
  (* commands/fcoe.py:82-88 *)
  ("_getArgsAsStr", mkMethod []
      (steps [SCall "_t1" (TClass "F13_FcoeData") "_getArgsAsStr" [];
      SAssign "retval" (EVar "_t1");
      SIf (EAttr (EVar "self") "autovlan")
      (SAssign "retval" (EBin BAdd (EVar "retval") (str " --autovlan")))
      SPass;
      SReturn (EVar "retval")]))].
Definition m_F28_FcoeData : list (string * method) := [
  (* commands/fcoe.py:94-96 *)
  ("__init__", mkMethod [("kwargs", None)]
      (steps [SCall "_t1" (TClass "F13_FcoeData") "__init__" [("kwargs", (EVar "kwargs"))];
      SAttr "self" "autovlan" (EGet (EVar "kwargs") "autovlan" (EConst (VBool false)))]));
  (* commands/fcoe.py:98-104 *)
  ("_getArgsAsStr", mkMethod []
      (steps [SCall "_t1" (TClass "F13_FcoeData") "_getArgsAsStr" [];
      SAssign "retval" (EVar "_t1");
      SIf (EAttr (EVar "self") "autovlan")
      (SAssign "retval" (EBin BAdd (EVar "retval") (str " --autovlan")))
      SPass;
      SReturn (EVar "retval")]))].
Definition m_RHEL8_FcoeData : list (string * method) := [].
Definition m_F12_Fcoe : list (string * method) := [
  (* commands/fcoe.py:113-116 *)
  ("__init__", mkMethod [("writePriority", (Some (VInt 71))); ("kwargs", None)]
      (SCall "_t1" (TClass "KickstartCommand") "__init__" [("writePriority", (EVar "writePriority")); ("kwargs", (EVar "kwargs"))]));
  (* commands/fcoe.py:118-123 *)
  ("__str__", mkMethod []
      (steps [SAssign "retval" (str "");
      SForData "fcoe" (SAssign "retval" (EBin BAdd (EVar "retval") (EDataStr (EVar "fcoe"))));
      SReturn (EVar "retval")]));
  (* commands/fcoe.py:134-145 *)
  ("parse", mkMethod []
      (steps [SCall "_t1" TSelf "dataClass" [];
      SAssign "zd" (EVar "_t1");
      SParse "ns";
      SSetTo "ns" "zd";
      SAttr "zd" "lineno" (EAttr (EVar "self") "lineno");
      SReturn (EVar "zd")]));
  (* commands/fcoe.py:151-152 *)
  ("dataClass", mkMethod []
      (SReturn (ENew "FcoeData")))].
Definition m_F13_Fcoe : list (string * method) := [].
Definition m_RHEL7_Fcoe : list (string * method) := [].
Definition m_F28_Fcoe : list (string * method) := [].
Definition m_RHEL8_Fcoe : list (string * method) := [].
Definition m_FC3_Firewall : list (string * method) := [
  (* commands/firewall.py:28-34 *)
  ("__init__", mkMethod [("writePriority", (Some (VInt 0))); ("kwargs", None)]
      (steps [SCall "_t1" (TClass "KickstartCommand") "__init__" [("writePriority", (EVar "writePriority")); ("kwargs", (EVar "kwargs"))];
      SAttr "self" "enabled" (EGet (EVar "kwargs") "enabled" (EConst VNone));
      SAttr "self" "ports" (EGet (EVar "kwargs") "ports" (EConst (VStrs [])));
      SAttr "self" "trusts" (EGet (EVar "kwargs") "trusts" (EConst (VStrs [])))]));
  (* commands/firewall.py:36-81 *)
  ("__str__", mkMethod []
      (steps [SAssign "extra" (EConst (VStrs []));
      SAssign "filteredPorts" (EConst (VStrs []));
      SCall "_t1" (TClass "KickstartCommand") "__str__" [];
      SAssign "retval" (EVar "_t1");
      SIf (EBin BIs (EAttr (EVar "self") "enabled") (EConst VNone))
      (SReturn (EVar "retval"))
      SPass;
      SIf (EAttr (EVar "self") "enabled")
      (steps [SFor "port" (EAttr (EVar "self") "ports") (SIf (EBin BEq (EVar "port") (str "ssh:tcp"))
      (SAppend "extra" (str " --ssh"))
      (SIf (EBin BEq (EVar "port") (str "telnet:tcp"))
      (SAppend "extra" (str " --telnet"))
      (SIf (EBin BEq (EVar "port") (str "smtp:tcp"))
      (SAppend "extra" (str " --smtp"))
      (SIf (EBin BEq (EVar "port") (str "http:tcp"))
      (SAppend "extra" (str " --http"))
      (SIf (EBin BEq (EVar "port") (str "ftp:tcp"))
      (SAppend "extra" (str " --ftp"))
      (SAppend "filteredPorts" (EVar "port")))))));
      SAssign "portstr" (EBin BJoin (str ",") (EVar "filteredPorts"));
      SIf (EVar "portstr")
      (SAssign "portstr" (EBin BAdd (str " --port=") (EVar "portstr")))
      SPass;
      SAssign "extrastr" (EBin BJoin (str "") (EVar "extra"));
      SAssign "truststr" (EBin BJoin (str ",") (EAttr (EVar "self") "trusts"));
      SIf (EVar "truststr")
      (SAssign "truststr" (EBin BAdd (str " --trust=") (EVar "truststr")))
      SPass;
      SAssign "retval" (EBin BAdd (EVar "retval") (EBin BAdd (EBin BAdd (EBin BAdd (EBin BAdd (str "# Firewall configuration
firewall --enabled") (EUn UStr (EVar "extrastr"))) (EUn UStr (EVar "portstr"))) (EUn UStr (EVar "truststr"))) (str "
")))])
      (SAssign "retval" (EBin BAdd (EVar "retval") (str "# Firewall configuration
firewall --disabled
")));
      SReturn (EVar "retval")]));
  (* commands/firewall.py:143-146 *)
  ("parse", mkMethod []
      (steps [SParse "ns";
      SSetTo "ns" "self";
      SReturn (EVar "self")]))].
Definition m_F9_Firewall : list (string * method) := [].
Definition m_F10_Firewall : list (string * method) := [
  (* commands/firewall.py:162-164 *)
  ("__init__", mkMethod [("writePriority", (Some (VInt 0))); ("kwargs", None)]
      (steps [SCall "_t1" (TClass "F9_Firewall") "__init__" [("writePriority", (EVar "writePriority")); ("kwargs", (EVar "kwargs"))];
      SAttr "self" "services" (EGet (EVar "kwargs") "services" (EConst (VStrs [])))]));
  (* commands/firewall.py:166-180 *)
  ("__str__", mkMethod []
      (steps [SIf (EBin BIs (EAttr (EVar "self") "enabled") (EConst VNone))
      (SReturn (str ""))
      SPass;
      SCall "_t1" (TClass "F9_Firewall") "__str__" [];
      SAssign "retval" (EVar "_t1");
      SIf (EAttr (EVar "self") "enabled")
      (steps [SAssign "retval" (EUn UStrip (EVar "retval"));
      SAssign "svcstr" (EBin BJoin (str ",") (EAttr (EVar "self") "services"));
      SIf (EVar "svcstr")
      (SAssign "svcstr" (EBin BAdd (str " --service=") (EVar "svcstr")))
      SPass;
      SReturn (EBin BAdd (EVar "retval") (EBin BAdd (EUn UStr (EVar "svcstr")) (str "
")))])
      (SReturn (EVar "retval"))]))].
Definition m_F14_Firewall : list (string * method) := [].
Definition m_F20_Firewall : list (string * method) := [
  (* commands/firewall.py:222-224 *)
  ("__init__", mkMethod [("writePriority", (Some (VInt 0))); ("kwargs", None)]
      (steps [SCall "_t1" (TClass "F14_Firewall") "__init__" [("writePriority", (EVar "writePriority")); ("kwargs", (EVar "kwargs"))];
      SAttr "self" "remove_services" (EGet (EVar "kwargs") "remove_services" (EConst (VStrs [])))]));
  (* commands/firewall.py:233-247 *)
  ("__str__", mkMethod []
      (steps [SIf (EBin BIs (EAttr (EVar "self") "enabled") (EConst VNone))
      (SReturn (str ""))
      SPass;
      SCall "_t1" (TClass "F14_Firewall") "__str__" [];
      SAssign "retval" (EVar "_t1");
      SIf (EAttr (EVar "self") "enabled")
      (steps [SAssign "retval" (EUn UStrip (EVar "retval"));
      SAssign "svcstr" (EBin BJoin (str ",") (EAttr (EVar "self") "remove_services"));
      SIf (EVar "svcstr")
      (SAssign "svcstr" (EBin BAdd (str " --remove-service=") (EVar "svcstr")))
      SPass;
      SReturn (EBin BAdd (EVar "retval") (EBin BAdd (EUn UStr (EVar "svcstr")) (str "
")))])
      (SReturn (EVar "retval"))]))].
Definition m_F28_Firewall : list (string * method) := [
  (* commands/firewall.py:250-252 *)
  ("__init__", mkMethod [("writePriority", (Some (VInt 0))); ("kwargs", None)]
      (steps [SCall "_t1" (TClass "F20_Firewall") "__init__" [("writePriority", (EVar "writePriority")); ("kwargs", (EVar "kwargs"))];
      SAttr "self" "use_system_defaults" (EGet (EVar "kwargs") "use_system_defaults" (EConst VNone))]));
  (* commands/firewall.py:265-269 *)
  ("__str__", mkMethod []
      (SIf (EAttr (EVar "self") "use_system_defaults")
      (SReturn (str "# Firewall configuration
firewall --use-system-defaults
"))
      (steps [SCall "_t1" (TClass "F20_Firewall") "__str__" [];
      SReturn (EVar "_t1")])))].
Definition m_FC3_Firstboot : list (string * method) := [
  (* commands/firstboot.py:29-33 *)
  ("__init__", mkMethod [("writePriority", (Some (VInt 0))); ("kwargs", None)]
      (steps [SCall "_t1" (TClass "KickstartCommand") "__init__" [("writePriority", (EVar "writePriority")); ("kwargs", (EVar "kwargs"))];
      SAttr "self" "firstboot" (EGet (EVar "kwargs") "firstboot" (EConst VNone))]));
  (* commands/firstboot.py:35-48 *)
  ("__str__", mkMethod []
      (steps [SCall "_t1" (TClass "KickstartCommand") "__str__" [];
      SAssign "retval" (EVar "_t1");
      SIf (EBin BIs (EAttr (EVar "self") "firstboot") (EConst VNone))
      (SReturn (EVar "retval"))
      SPass;
      SIf (EBin BEq (EAttr (EVar "self") "firstboot") (EConst (VInt 1)))
      (SAssign "retval" (EBin BAdd (EVar "retval") (str "firstboot --disable
")))
      (SIf (EBin BEq (EAttr (EVar "self") "firstboot") (EConst (VInt 0)))
      (SAssign "retval" (EBin BAdd (EVar "retval") (str "# Run the Setup Agent on first boot
firstboot --enable
")))
      (SIf (EBin BEq (EAttr (EVar "self") "firstboot") (EConst (VInt 2)))
      (SAssign "retval" (EBin BAdd (EVar "retval") (str "# Run the Setup Agent on first boot
firstboot --reconfig
")))
      SPass));
      SReturn (EVar "retval")]));
  (* commands/firstboot.py:76-79 *)
  ("parse", mkMethod []
      (steps [SParse "ns";
      SAttr "self" "firstboot" (EAttr (EVar "ns") "firstboot");
      SReturn (EVar "self")]))].
Definition m_F12_GroupData : list (string * method) := [
  (* commands/group.py:32-35 *)
  ("__init__", mkMethod [("kwargs", None)]
      (steps [SCall "_t1" (TClass "BaseData") "__init__" [("kwargs", (EVar "kwargs"))];
      SAttr "self" "name" (EGet (EVar "kwargs") "name" (str ""));
      SAttr "self" "gid" (EGet (EVar "kwargs") "gid" (EConst VNone))]));
  (* commands/group.py:46-55 *)
  ("__str__", mkMethod []
      (steps [SCall "_t1" (TClass "BaseData") "__str__" [];
      SAssign "retval" (EVar "_t1");
      SAssign "retval" (EBin BAdd (EVar "retval") (str "group"));
      SIf (EAttr (EVar "self") "name")
      (SAssign "retval" (EBin BAdd (EVar "retval") (EBin BAdd (str " --name=") (EUn UStr (EAttr (EVar "self") "name")))))
      SPass;
      SIf (EAttr (EVar "self") "gid")
      (SAssign "retval" (EBin BAdd (EVar "retval") (EBin BAdd (str " --gid=") (EUn UStr (EAttr (EVar "self") "gid")))))
      SPass;
      SReturn (EBin BAdd (EVar "retval") (str "
"))]))].
Definition m_F12_Group : list (string * method) := [
  (* commands/group.py:61-65 *)
  ("__init__", mkMethod [("writePriority", (Some (VInt 0))); ("kwargs", None)]
      (SCall "_t1" (TClass "KickstartCommand") "__init__" [("writePriority", (EVar "writePriority")); ("kwargs", (EVar "kwargs"))]));
  (* commands/group.py:67-72 *)
  ("__str__", mkMethod []
      (steps [SAssign "retval" (str "");
      SForData "user" (SAssign "retval" (EBin BAdd (EVar "retval") (EDataStr (EVar "user"))));
      SReturn (EVar "retval")]));
  (* commands/group.py:87-97 *)
  ("parse", mkMethod []
      (steps [SCall "_t1" TSelf "dataClass" [];
      SAssign "gd" (EVar "_t1");
      SParse "ns";
      SSetTo "ns" "gd";
      SAttr "gd" "lineno" (EAttr (EVar "self") "lineno");
      SReturn (EVar "gd")]));
  (* commands/group.py:103-104 *)
  ("dataClass", mkMethod []
      (SReturn (ENew "GroupData")))].
Definition m_FC3_HardDrive : list (string * method) := [
  (* commands/harddrive.py:31-39 *)
  ("__init__", mkMethod [("writePriority", (Some (VInt 0))); ("kwargs", None)]
      (steps [SCall "_t1" (TClass "KickstartCommand") "__init__" [("writePriority", (EVar "writePriority")); ("kwargs", (EVar "kwargs"))];
      SAttr "self" "biospart" (EGet (EVar "kwargs") "biospart" (EConst VNone));
      SAttr "self" "partition" (EGet (EVar "kwargs") "partition" (EConst VNone));
      SAttr "self" "dir" (EGet (EVar "kwargs") "dir" (EConst VNone));
      SDelRemoved []]));
  (* commands/harddrive.py:50-62 *)
  ("__str__", mkMethod []
      (steps [SCall "_t1" (TClass "KickstartCommand") "__str__" [];
      SAssign "retval" (EVar "_t1");
      SIf (EUn UNot (EAttr (EVar "self") "seen"))
      (SReturn (EVar "retval"))
      SPass;
      SAssign "retval" (EBin BAdd (EVar "retval") (str "# Use hard drive installation media
"));
      SIf (EBin BIsNot (EAttr (EVar "self") "biospart") (EConst VNone))
      (SAssign "retval" (EBin BAdd (EVar "retval") (EBin BAdd (EBin BAdd (EBin BAdd (EBin BAdd (str "harddrive --dir=") (EUn UStr (EAttr (EVar "self") "dir"))) (str " --biospart=")) (EUn UStr (EAttr (EVar "self") "biospart"))) (str "
"))))
      (SAssign "retval" (EBin BAdd (EVar "retval") (EBin BAdd (EBin BAdd (EBin BAdd (EBin BAdd (str "harddrive --dir=") (EUn UStr (EAttr (EVar "self") "dir"))) (str " --partition=")) (EUn UStr (EAttr (EVar "self") "partition"))) (str "
"))));
      SReturn (EVar "retval")]));
  (* commands/harddrive.py:84-92 *)
  ("parse", mkMethod []
      (steps [SParse "ns";
      SSetTo "ns" "self";
      SIf (EOr (EAnd (EBin BIs (EAttr (EVar "self") "biospart") (EConst VNone)) (EBin BIs (EAttr (EVar "self") "partition") (EConst VNone))) (EAnd (EBin BIsNot (EAttr (EVar "self") "biospart") (EConst VNone)) (EBin BIsNot (EAttr (EVar "self") "partition") (EConst VNone))))
      (SRaise true "One of biospart or partition options must be specified.")
      SPass;
      SReturn (EVar "self")]))].
Definition m_F33_HardDrive : list (string * method) := [
  (* commands/harddrive.py:99-100 *)
  ("__init__", mkMethod [("writePriority", (Some (VInt 0))); ("kwargs", None)]
      (SCall "_t1" (TClass "FC3_HardDrive") "__init__" [("writePriority", (EVar "writePriority")); ("kwargs", (EVar "kwargs"))]));
  (* commands/harddrive.py:108-116 *)
  ("__str__", mkMethod []
      (steps [SCall "_t1" (TClass "KickstartCommand") "__str__" [];
      SAssign "retval" (EVar "_t1");
      SIf (EUn UNot (EAttr (EVar "self") "seen"))
      (SReturn (EVar "retval"))
      SPass;
      SAssign "retval" (EBin BAdd (EVar "retval") (str "# Use hard drive installation media
"));
      SAssign "retval" (EBin BAdd (EVar "retval") (EBin BAdd (EBin BAdd (EBin BAdd (EBin BAdd (str "harddrive --dir=") (EUn UStr (EAttr (EVar "self") "dir"))) (str " --partition=")) (EUn UStr (EAttr (EVar "self") "partition"))) (str "
")));
      SReturn (EVar "retval")]));
  (* commands/harddrive.py:125-129 *)
  ("parse", mkMethod []
      (steps [SParse "ns";
      SSetTo "ns" "self";
      SReturn (EVar "self")]))].
Definition m_RHEL7_Hmc : list (string * method) := [
  (* commands/hmc.py:31-37 *)
  ("__str__", mkMethod []
      (steps [SCall "_t1" (TClass "KickstartCommand") "__str__" [];
      SAssign "retval" (EVar "_t1");
      SIf (EUn UNot (EAttr (EVar "self") "seen"))
      (SReturn (EVar "retval"))
      SPass;
      SAssign "retval" (EBin BAdd (EVar "retval") (str "# Use installation media via SE/HMC
hmc
"));
      SReturn (EVar "retval")]));
  (* commands/hmc.py:44-49 *)
  ("parse", mkMethod []
      (steps [SIf EArgs
      (SRaise true "Kickstart command %s does not take any arguments")
      SPass;
      SReturn (EVar "self")]))].
Definition m_F28_Hmc : list (string * method) := [].
Definition m_FC3_IgnoreDisk : list (string * method) := [
  (* commands/ignoredisk.py:30-34 *)
  ("__init__", mkMethod [("writePriority", (Some (VInt 0))); ("kwargs", None)]
      (steps [SCall "_t1" (TClass "KickstartCommand") "__init__" [("writePriority", (EVar "writePriority")); ("kwargs", (EVar "kwargs"))];
      SAttr "self" "ignoredisk" (EGet (EVar "kwargs") "ignoredisk" (EConst (VStrs [])))]));
  (* commands/ignoredisk.py:36-42 *)
  ("__str__", mkMethod []
      (steps [SCall "_t1" (TClass "KickstartCommand") "__str__" [];
      SAssign "retval" (EVar "_t1");
      SIf (EAttr (EVar "self") "ignoredisk")
      (SAssign "retval" (EBin BAdd (EVar "retval") (EBin BAdd (EBin BAdd (str "ignoredisk --drives=") (EUn UStr (EBin BJoin (str ",") (EAttr (EVar "self") "ignoredisk")))) (str "
"))))
      SPass;
      SReturn (EVar "retval")]));
  (* commands/ignoredisk.py:55-58 *)
  ("parse", mkMethod []
      (steps [SParse "ns";
      SSetTo "ns" "self";
      SReturn (EVar "self")]))].
Definition m_F8_IgnoreDisk : list (string * method) := [
  (* commands/ignoredisk.py:64-67 *)
  ("__init__", mkMethod [("writePriority", (Some (VInt 0))); ("kwargs", None)]
      (steps [SCall "_t1" (TClass "FC3_IgnoreDisk") "__init__" [("writePriority", (EVar "writePriority")); ("kwargs", (EVar "kwargs"))];
      SAttr "self" "onlyuse" (EGet (EVar "kwargs") "onlyuse" (EConst (VStrs [])))]));
  (* commands/ignoredisk.py:69-77 *)
  ("__str__", mkMethod []
      (steps [SCall "_t1" (TClass "KickstartCommand") "__str__" [];
      SAssign "retval" (EVar "_t1");
      SIf (EAttr (EVar "self") "ignoredisk")
      (SAssign "retval" (EBin BAdd (EVar "retval") (EBin BAdd (EBin BAdd (str "ignoredisk --drives=") (EUn UStr (EBin BJoin (str ",") (EAttr (EVar "self") "ignoredisk")))) (str "
"))))
      (SIf (EAttr (EVar "self") "onlyuse")
      (SAssign "retval" (EBin BAdd (EVar "retval") (EBin BAdd (EBin BAdd (str "ignoredisk --only-use=") (EUn UStr (EBin BJoin (str ",") (EAttr (EVar "self") "onlyuse")))) (str "
"))))
      SPass);
      SReturn (EVar "retval")]));
  (* commands/ignoredisk.py:79-91 *)
  ("parse", mkMethod []
      (steps [SCall "_t1" (TClass "FC3_IgnoreDisk") "parse" [];
      SAssign "retval" (EVar "_t1");
      SAssign "howmany" (EConst (VInt 0));
      SIf (EAttr (EVar "self") "ignoredisk")
      (SAssign "howmany" (EBin BAdd (EVar "howmany") (EConst (VInt 1))))
      SPass;
      SIf (EAttr (EVar "self") "onlyuse")
      (SAssign "howmany" (EBin BAdd (EVar "howmany") (EConst (VInt 1))))
      SPass;
      SIf (EBin BNe (EVar "howmany") (EConst (VInt 1)))
      (SRaise true "One of --drives or --only-use must be specified for ignoredisk command.")
      SPass;
      SReturn (EVar "retval")]))].
Definition m_RHEL6_IgnoreDisk : list (string * method) := [
  (* commands/ignoredisk.py:108-110 *)
  ("__init__", mkMethod [("writePriority", (Some (VInt 0))); ("kwargs", None)]
      (steps [SCall "_t1" (TClass "F8_IgnoreDisk") "__init__" [("writePriority", (EVar "writePriority")); ("kwargs", (EVar "kwargs"))];
      SAttr "self" "interactive" (EGet (EVar "kwargs") "interactive" (EConst (VBool false)))]));
  (* commands/ignoredisk.py:112-118 *)
  ("__str__", mkMethod []
      (steps [SCall "_t1" (TClass "F8_IgnoreDisk") "__str__" [];
      SAssign "retval" (EVar "_t1");
      SIf (EAttr (EVar "self") "interactive")
      (SAssign "retval" (str "ignoredisk --interactive
"))
      SPass;
      SReturn (EVar "retval")]));
  (* commands/ignoredisk.py:120-136 *)
  ("parse", mkMethod []
      (steps [SCall "_t1" (TClass "FC3_IgnoreDisk") "parse" [];
      SAssign "retval" (EVar "_t1");
      SAssign "howmany" (EConst (VInt 0));
      SIf (EAttr (EVar "self") "ignoredisk")
      (SAssign "howmany" (EBin BAdd (EVar "howmany") (EConst (VInt 1))))
      SPass;
      SIf (EAttr (EVar "self") "onlyuse")
      (SAssign "howmany" (EBin BAdd (EVar "howmany") (EConst (VInt 1))))
      SPass;
      SIf (EAttr (EVar "self") "interactive")
      (SAssign "howmany" (EBin BAdd (EVar "howmany") (EConst (VInt 1))))
      SPass;
      SIf (EBin BNe (EVar "howmany") (EConst (VInt 1)))
      (SRaise true "One of --drives , --only-use , or --interactive must be specified for ignoredisk command.")
      SPass;
      SIf (EAttr (EVar "self") "interactive")
      (SAttr "self" "ignoredisk" (EConst (VStrs [])))
      SPass;
      SReturn (EVar "retval")]))].
Definition m_F14_IgnoreDisk : list (string * method) := [].
Definition m_F29_IgnoreDisk : list (string * method) := [
  (* commands/ignoredisk.py:153-154 *)
  ("parse", mkMethod []
      (steps [SCall "_t1" (TClass "F8_IgnoreDisk") "parse" [];
      SReturn (EVar "_t1")]))].
Definition m_F34_IgnoreDisk : list (string * method) := [].
Definition m_F20_Install : list (string * method) := [
  (* commands/install.py:51-56 *)
  ("parse", mkMethod []
      (steps [SCall "_t1" (TSuper "F20_Install") "parse" [];
      SAttr "self" "upgrade" (EConst (VBool false));
      SReturn (EVar "self")]))].
Definition m_F29_Install : list (string * method) := [
  (* commands/install.py:60-61 *)
  ("__init__", mkMethod []
      (SCall "_t1" (TClass "DeprecatedCommand") "__init__" [("kwargs", ENoKw)]))].
Definition m_F34_Install : list (string * method) := [].
Definition m_FC3_Interactive : list (string * method) := [
  (* commands/interactive.py:28-31 *)
  ("__init__", mkMethod [("writePriority", (Some (VInt 0))); ("kwargs", None)]
      (steps [SCall "_t1" (TClass "KickstartCommand") "__init__" [("writePriority", (EVar "writePriority")); ("kwargs", (EVar "kwargs"))];
      SAttr "self" "interactive" (EGet (EVar "kwargs") "interactive" (EConst (VBool false)))]));
  (* commands/interactive.py:33-39 *)
  ("__str__", mkMethod []
      (steps [SCall "_t1" (TClass "KickstartCommand") "__str__" [];
      SAssign "retval" (EVar "_t1");
      SIf (EAttr (EVar "self") "interactive")
      (SAssign "retval" (EBin BAdd (EVar "retval") (str "# Use interactive kickstart installation method
interactive
")))
      SPass;
      SReturn (EVar "retval")]));
  (* commands/interactive.py:46-49 *)
  ("parse", mkMethod []
      (steps [SParse "_";
      SAttr "self" "interactive" (EConst (VBool true));
      SReturn (EVar "self")]))].
Definition m_F14_Interactive : list (string * method) := [
  (* commands/interactive.py:52-53 *)
  ("__init__", mkMethod []
      (SCall "_t1" (TClass "DeprecatedCommand") "__init__" [("kwargs", ENoKw)]))].
Definition m_F15_Interactive : list (string * method) := [].
Definition m_FC6_IscsiData : list (string * method) := [
  (* commands/iscsi.py:29-35 *)
  ("__init__", mkMethod [("kwargs", None)]
      (steps [SCall "_t1" (TClass "BaseData") "__init__" [("kwargs", (EVar "kwargs"))];
      SAttr "self" "ipaddr" (EGet (EVar "kwargs") "ipaddr" (str ""));
      SAttr "self" "port" (EGet (EVar "kwargs") "port" (EConst (VInt 3260)));
      SAttr "self" "target" (EGet (EVar "kwargs") "target" (str ""));
      SAttr "self" "user" (EGet (EVar "kwargs") "user" (EConst VNone));
      SAttr "self" "password" (EGet (EVar "kwargs") "password" (EConst VNone))]));
  (* commands/iscsi.py:37-51 *)
  ("_getArgsAsStr", mkMethod []
      (steps [SAssign "retval" (str "");
      SIf (EAttr (EVar "self") "target")
      (SAssign "retval" (EBin BAdd (EVar "retval") (EBin BAdd (str " --target=") (EUn UStr (EAttr (EVar "self") "target")))))
      SPass;
      SIf (EAttr (EVar "self") "ipaddr")
      (SAssign "retval" (EBin BAdd (EVar "retval") (EBin BAdd (str " --ipaddr=") (EUn UStr (EAttr (EVar "self") "ipaddr")))))
      SPass;
      SIf (EBin BNe (EAttr (EVar "self") "port") (EConst (VInt 3260)))
      (SAssign "retval" (EBin BAdd (EVar "retval") (EBin BAdd (str " --port=") (EUn UStr (EAttr (EVar "self") "port")))))
      SPass;
      SIf (EAttr (EVar "self") "user")
      (SAssign "retval" (EBin BAdd (EVar "retval") (EBin BAdd (str " --user=") (EUn UStr (EAttr (EVar "self") "user")))))
      SPass;
      SIf (EAttr (EVar "self") "password")
      (SAssign "retval" (EBin BAdd (EVar "retval") (EBin BAdd (str " --password=") (EUn UStr (EAttr (EVar "self") "password")))))
      SPass;
      SReturn (EVar "retval")]));
  (* commands/iscsi.py:53-56 *)
  ("__str__", mkMethod []
      (steps [SCall "_t1" (TClass "BaseData") "__str__" [];
      SAssign "retval" (EVar "_t1");
      SCall "_t2" TSelf "_getArgsAsStr" [];
      SAssign "retval" (EBin BAdd (EVar "retval") (EBin BAdd (EBin BAdd (str "iscsi") (EUn UStr (EVar "_t2"))) (str "
")));
      SReturn (EVar "retval")]))].
Definition m_F10_IscsiData : list (string * method) := [
  (* commands/iscsi.py:62-65 *)
  ("__init__", mkMethod [("kwargs", None)]
      (steps [SCall "_t1" (TClass "FC6_IscsiData") "__init__" [("kwargs", (EVar "kwargs"))];
      SAttr "self" "user_in" (EGet (EVar "kwargs") "user_in" (EConst VNone));
      SAttr "self" "password_in" (EGet (EVar "kwargs") "password_in" (EConst VNone))]));
  (* commands/iscsi.py:67-75 *)
  ("_getArgsAsStr", mkMethod []
      (steps [SCall "_t1" (TClass "FC6_IscsiData") "_getArgsAsStr" [];
      SAssign "retval" (EVar "_t1");
      SIf (EAttr (EVar "self") "user_in")
      (SAssign "retval" (EBin BAdd (EVar "retval") (EBin BAdd (str " --reverse-user=") (EUn UStr (EAttr (EVar "self") "user_in")))))
      SPass;
      SIf (EAttr (EVar "self") "password_in")
      (SAssign "retval" (EBin BAdd (EVar "retval") (EBin BAdd (str " --reverse-password=") (EUn UStr (EAttr (EVar "self") "password_in")))))
      SPass;
      SReturn (EVar "retval")]))].
Definition m_RHEL6_IscsiData : list (string * method) := [
  (* commands/iscsi.py:81-83 *)
  ("__init__", mkMethod [("kwargs", None)]
      (steps [SCall "_t1" (TClass "F10_IscsiData") "__init__" [("kwargs", (EVar "kwargs"))];
      SAttr "self" "iface" (EGet (EVar "kwargs") "iface" (EConst VNone))]));
  (* commands/iscsi.py:85-91 *)
  ("_getArgsAsStr", mkMethod []
      (steps [SCall "_t1" (TClass "F10_IscsiData") "_getArgsAsStr" [];
      SAssign "retval" (EVar "_t1");
      SIf (EAttr (EVar "self") "iface")
      (SAssign "retval" (EBin BAdd (EVar "retval") (EBin BAdd (str " --iface=") (EUn UStr (EAttr (EVar "self") "iface")))))
      SPass;
      SReturn (EVar "retval")]))].
Definition m_F17_IscsiData : list (string * method) := [].
Definition m_FC6_Iscsi : list (string * method) := [
  (* commands/iscsi.py:100-104 *)
  ("__init__", mkMethod [("writePriority", (Some (VInt 71))); ("kwargs", None)]
      (SCall "_t1" (TClass "KickstartCommand") "__init__" [("writePriority", (EVar "writePriority")); ("kwargs", (EVar "kwargs"))]));
  (* commands/iscsi.py:106-111 *)
  ("__str__", mkMethod []
      (steps [SAssign "retval" (str "");
      SForData "iscsi" (SAssign "retval" (EBin BAdd (EVar "retval") (EDataStr (EVar "iscsi"))));
      SReturn (EVar "retval")]));
  (* commands/iscsi.py:150-155 *)
  ("parse", mkMethod []
      (steps [SParse "ns";
      SCall "_t1" TSelf "dataClass" [];
      SAssign "dd" (EVar "_t1");
      SSetTo "ns" "dd";
      SAttr "dd" "lineno" (EAttr (EVar "self") "lineno");
      SReturn (EVar "dd")]));
  (* commands/iscsi.py:161-162 *)
  ("dataClass", mkMethod []
      (SReturn (ENew "IscsiData")))].
Definition m_F10_Iscsi : list (string * method) := [].
Definition m_RHEL6_Iscsi : list (string * method) := [].
Definition m_F17_Iscsi : list (string * method) := [].
Definition m_FC6_IscsiName : list (string * method) := [
  (* commands/iscsiname.py:32-35 *)
  ("__init__", mkMethod [("writePriority", (Some (VInt 70))); ("kwargs", None)]
      (steps [SCall "_t1" (TClass "KickstartCommand") "__init__" [("writePriority", (EVar "writePriority")); ("kwargs", (EVar "kwargs"))];
      SAttr "self" "iscsiname" (EGet (EVar "kwargs") "iscsiname" (str ""))]));
  (* commands/iscsiname.py:37-43 *)
  ("__str__", mkMethod []
      (steps [SCall "_t1" (TClass "KickstartCommand") "__str__" [];
      SAssign "retval" (EVar "_t1");
      SIf (EAttr (EVar "self") "iscsiname")
      (SAssign "retval" (EBin BAdd (EVar "retval") (EBin BAdd (EBin BAdd (str "iscsiname ") (EUn UStr (EAttr (EVar "self") "iscsiname"))) (str "
"))))
      SPass;
      SReturn (EVar "retval")]));
  (* commands/iscsiname.py:55-64 *)
  ("parse", mkMethod []
      (steps [SParseKnown "_ns" "extra";
      SAssert (EBin BEq (EUn ULen (EAttr (EVar "_ns") "iqn")) (EConst (VInt 1)));
      SIf (EVar "extra")
      (SRaise true "Unexpected arguments to %(command)s command: %(options)s")
      SPass;
      SAttr "self" "iscsiname" (EBin BIndex (EAttr (EVar "_ns") "iqn") (EConst (VInt 0)));
      SReturn (EVar "self")]))].
Definition m_RHEL5_Key : list (string * method) := [
  (* commands/key.py:32-36 *)
  ("__init__", mkMethod [("writePriority", (Some (VInt 0))); ("kwargs", None)]
      (steps [SCall "_t1" (TClass "KickstartCommand") "__init__" [("writePriority", (EVar "writePriority")); ("kwargs", (EVar "kwargs"))];
      SAttr "self" "key" (EGet (EVar "kwargs") "key" (str ""));
      SAttr "self" "skip" (EGet (EVar "kwargs") "skip" (EConst (VBool false)))]));
  (* commands/key.py:38-46 *)
  ("__str__", mkMethod []
      (steps [SCall "_t1" (TClass "KickstartCommand") "__str__" [];
      SAssign "retval" (EVar "_t1");
      SIf (EBin BEq (EAttr (EVar "self") "key") (EConst (VInt (-99))))
      (SAssign "retval" (EBin BAdd (EVar "retval") (str "key --skip
")))
      (SIf (EAttr (EVar "self") "key")
      (SAssign "retval" (EBin BAdd (EVar "retval") (EBin BAdd (EBin BAdd (str "key ") (EUn UStr (EAttr (EVar "self") "key"))) (str "
"))))
      SPass);
      SReturn (EVar "retval")]));
  (* commands/key.py:54-68 *)
  ("parse", mkMethod []
      (steps [SParseKnown "ns" "extra";
      SSetTo "ns" "self";
      SIf (EAttr (EVar "self") "skip")
      (SAttr "self" "key" (EConst (VInt (-99))))
      (SIf (EBin BNe (EUn ULen (EVar "extra")) (EConst (VInt 1)))
      (SRaise true "key")
      (SIf (EUn UDashed (EVar "extra"))
      (SRaise true "Unexpected arguments to %(command)s command: %(options)s")
      (SAttr "self" "key" (EBin BIndex (EVar "extra") (EConst (VInt 0))))));
      SReturn (EVar "self")]))].
Definition m_FC3_Keyboard : list (string * method) := [
  (* commands/keyboard.py:33-36 *)
  ("__init__", mkMethod [("writePriority", (Some (VInt 0))); ("kwargs", None)]
      (steps [SCall "_t1" (TClass "KickstartCommand") "__init__" [("writePriority", (EVar "writePriority")); ("kwargs", (EVar "kwargs"))];
      SAttr "self" "keyboard" (EGet (EVar "kwargs") "keyboard" (str ""))]));
  (* commands/keyboard.py:38-44 *)
  ("__str__", mkMethod []
      (steps [SCall "_t1" (TClass "KickstartCommand") "__str__" [];
      SAssign "retval" (EVar "_t1");
      SIf (EAttr (EVar "self") "keyboard")
      (SAssign "retval" (EBin BAdd (EVar "retval") (EBin BAdd (EBin BAdd (str "# System keyboard
keyboard ") (EUn UStr (EAttr (EVar "self") "keyboard"))) (str "
"))))
      SPass;
      SReturn (EVar "retval")]));
  (* commands/keyboard.py:52-62 *)
  ("parse", mkMethod []
      (steps [SParseKnown "_ns" "extra";
      SIf (EBin BNe (EUn ULen (EAttr (EVar "_ns") "kbd")) (EConst (VInt 1)))
      (SRaise true "keyboard")
      (SIf (EVar "extra")
      (SRaise true "Unexpected arguments to %(command)s command: %(options)s")
      SPass);
      SAttr "self" "keyboard" (EBin BIndex (EAttr (EVar "_ns") "kbd") (EConst (VInt 0)));
      SReturn (EVar "self")]))].
Definition m_F18_Keyboard : list (string * method) := [
  (* commands/keyboard.py:65-71 *)
  ("__init__", mkMethod [("writePriority", (Some (VInt 0))); ("kwargs", None)]
      (steps [SCall "_t1" (TClass "KickstartCommand") "__init__" [("writePriority", (EVar "writePriority")); ("kwargs", (EVar "kwargs"))];
      SAttr "self" "_keyboard" (EGet (EVar "kwargs") "_keyboard" (str ""));
      SAttr "self" "vc_keymap" (EGet (EVar "kwargs") "vc_keymap" (str ""));
      SAttr "self" "x_layouts" (EGet (EVar "kwargs") "x_layouts" (EConst (VStrs [])));
      SAttr "self" "switch_options" (EGet (EVar "kwargs") "switch_options" (EConst (VStrs [])))]));
  (* commands/keyboard.py:73-87 *)
  ("__str__", mkMethod []
      (steps [SIf (EUn UNot (EUn UBool (EOr (EAttr (EVar "self") "_keyboard") (EOr (EAttr (EVar "self") "x_layouts") (EAttr (EVar "self") "vc_keymap")))))
      (SReturn (str ""))
      SPass;
      SAssign "retval" (str "# Keyboard layouts
");
      SIf (EAnd (EUn UNot (EAttr (EVar "self") "vc_keymap")) (EUn UNot (EAttr (EVar "self") "x_layouts")))
      (steps [SAssign "retval" (EBin BAdd (EVar "retval") (EBin BAdd (EBin BAdd (str "keyboard '") (EUn UStr (EAttr (EVar "self") "_keyboard"))) (str "'
")));
      SReturn (EVar "retval")])
      SPass;
      SIf (EAttr (EVar "self") "_keyboard")
      (steps [SAssign "retval" (EBin BAdd (EVar "retval") (EBin BAdd (EBin BAdd (str "# old format: keyboard ") (EUn UStr (EAttr (EVar "self") "_keyboard"))) (str "
")));
      SAssign "retval" (EBin BAdd (EVar "retval") (str "# new format:
"))])
      SPass;
      SCall "_t1" TSelf "_getArgsAsStr" [];
      SAssign "retval" (EBin BAdd (EVar "retval") (EBin BAdd (EBin BAdd (str "keyboard") (EVar "_t1")) (str "
")));
      SReturn (EVar "retval")]));
  (* commands/keyboard.py:89-107 *)
  ("_getArgsAsStr", mkMethod []
      (steps [SAssign "retval" (str "");
      SIf (EAttr (EVar "self") "vc_keymap")
      (SAssign "retval" (EBin BAdd (EVar "retval") (EBin BAdd (str " --vckeymap=") (EUn UStr (EAttr (EVar "self") "vc_keymap")))))
      SPass;
      SIf (EAttr (EVar "self") "x_layouts")
      (steps [SAssign "layouts_str" (EBin BAdd (EBin BAdd (str "'") (EUn UStr (EBin BIndex (EAttr (EVar "self") "x_layouts") (EConst (VInt 0))))) (str "'"));
      SFor "layout" (EBin BFrom (EAttr (EVar "self") "x_layouts") (EConst (VInt 1))) (SAssign "layouts_str" (EBin BAdd (EVar "layouts_str") (EBin BAdd (EBin BAdd (str ",'") (EUn UStr (EVar "layout"))) (str "'"))));
      SAssign "retval" (EBin BAdd (EVar "retval") (EBin BAdd (str " --xlayouts=") (EUn UStr (EVar "layouts_str"))))])
      SPass;
      SIf (EAttr (EVar "self") "switch_options")
      (steps [SAssign "switch_str" (EBin BAdd (EBin BAdd (str "'") (EUn UStr (EBin BIndex (EAttr (EVar "self") "switch_options") (EConst (VInt 0))))) (str "'"));
      SFor "opt" (EBin BFrom (EAttr (EVar "self") "switch_options") (EConst (VInt 1))) (SAssign "switch_str" (EBin BAdd (EVar "switch_str") (EBin BAdd (EBin BAdd (str ",'") (EUn UStr (EVar "opt"))) (str "'"))));
      SAssign "retval" (EBin BAdd (EVar "retval") (EBin BAdd (str " --switch=") (EUn UStr (EVar "switch_str"))))])
      SPass;
      SReturn (EVar "retval")]));
  (* commands/keyboard.py:158-176 *)
  ("parse", mkMethod []
      (steps [SParseKnown "ns" "extra";
      SSetTo "ns" "self";
      SIf (EBin BGt (EUn ULen (EAttr (EVar "ns") "kbd")) (EConst (VInt 1)))
      (SRaise true "keyboard")
      (SIf (EVar "extra")
      (SRaise true "Unexpected arguments to %(command)s command: %(options)s")
      (SIf (EUn UNot (EUn UBool (EOr (EAttr (EVar "ns") "kbd") (EOr (EAttr (EVar "self") "vc_keymap") (EAttr (EVar "self") "x_layouts")))))
      (SRaise true "One of --xlayouts, --vckeymap options with value(s) or argument is expected for the keyboard command")
      SPass));
      SIf (EAttr (EVar "ns") "kbd")
      (SAttr "self" "_keyboard" (EBin BIndex (EAttr (EVar "ns") "kbd") (EConst (VInt 0))))
      SPass;
      SReturn (EVar "self")]))].
Definition m_FC3_Lang : list (string * method) := [
  (* commands/lang.py:31-34 *)
  ("__init__", mkMethod [("writePriority", (Some (VInt 0))); ("kwargs", None)]
      (steps [SCall "_t1" (TClass "KickstartCommand") "__init__" [("writePriority", (EVar "writePriority")); ("kwargs", (EVar "kwargs"))];
      SAttr "self" "lang" (EGet (EVar "kwargs") "lang" (str ""))]));
  (* commands/lang.py:36-42 *)
  ("__str__", mkMethod []
      (steps [SCall "_t1" (TClass "KickstartCommand") "__str__" [];
      SAssign "retval" (EVar "_t1");
      SIf (EAttr (EVar "self") "lang")
      (SAssign "retval" (EBin BAdd (EVar "retval") (EBin BAdd (EBin BAdd (str "# System language
lang ") (EUn UStr (EAttr (EVar "self") "lang"))) (str "
"))))
      SPass;
      SReturn (EVar "retval")]));
  (* commands/lang.py:65-75 *)
  ("parse", mkMethod []
      (steps [SParseKnown "ns" "extra";
      SAssert (EBin BEq (EUn ULen (EAttr (EVar "ns") "lang")) (EConst (VInt 1)));
      SIf (EVar "extra")
      (SRaise true "Unexpected arguments to %(command)s command: %(options)s")
      SPass;
      SSetTo "ns" "self";
      SAttr "self" "lang" (EBin BIndex (EAttr (EVar "ns") "lang") (EConst (VInt 0)));
      SReturn (EVar "self")]))].
Definition m_F19_Lang : list (string * method) := [
  (* commands/lang.py:81-85 *)
  ("__init__", mkMethod [("writePriority", (Some (VInt 0))); ("kwargs", None)]
      (steps [SCall "_t1" (TClass "FC3_Lang") "__init__" [("writePriority", (EVar "writePriority")); ("kwargs", (EVar "kwargs"))];
      SAttr "self" "addsupport" (EGet (EVar "kwargs") "addsupport" (EConst (VStrs [])))]));
  (* commands/lang.py:87-92 *)
  ("__str__", mkMethod []
      (steps [SCall "_t1" (TClass "FC3_Lang") "__str__" [];
      SAssign "s" (EVar "_t1");
      SIf (EAnd (EVar "s") (EAttr (EVar "self") "addsupport"))
      (steps [SAssign "s" (EUn URstrip (EVar "s"));
      SAssign "s" (EBin BAdd (EVar "s") (EBin BAdd (EBin BAdd (str " --addsupport=") (EUn UStr (EBin BJoin (str ",") (EAttr (EVar "self") "addsupport")))) (str "
")))])
      SPass;
      SReturn (EVar "s")]))].
Definition m_FC3_LangSupport : list (string * method) := [
  (* commands/langsupport.py:30-35 *)
  ("__init__", mkMethod [("writePriority", (Some (VInt 0))); ("kwargs", None)]
      (steps [SCall "_t1" (TClass "KickstartCommand") "__init__" [("writePriority", (EVar "writePriority")); ("kwargs", (EVar "kwargs"))];
      SAttr "self" "deflang" (EGet (EVar "kwargs") "deflang" (str ""));
      SAttr "self" "supported" (EGet (EVar "kwargs") "supported" (EConst (VStrs [])))]));
  (* commands/langsupport.py:37-46 *)
  ("__str__", mkMethod []
      (steps [SCall "_t1" (TClass "KickstartCommand") "__str__" [];
      SAssign "retval" (EVar "_t1");
      SIf (EAttr (EVar "self") "deflang")
      (steps [SAssign "retval" (EBin BAdd (EVar "retval") (EBin BAdd (str "langsupport --default=") (EUn UStr (EAttr (EVar "self") "deflang"))));
      SIf (EAttr (EVar "self") "supported")
      (SAssign "retval" (EBin BAdd (EVar "retval") (EBin BAdd (str " ") (EUn UStr (EBin BJoin (str " ") (EAttr (EVar "self") "supported"))))))
      SPass])
      SPass;
      SReturn (EBin BAdd (EVar "retval") (str "
"))]));
  (* commands/langsupport.py:55-63 *)
  ("parse", mkMethod []
      (steps [SParseKnown "ns" "extra";
      SIf (EUn UDashed (EVar "extra"))
      (SRaise true "Unexpected arguments to %(command)s command: %(options)s")
      SPass;
      SSetTo "ns" "self";
      SAttr "self" "supported" (EVar "extra");
      SReturn (EVar "self")]))].
Definition m_FC5_LangSupport : list (string * method) := [
  (* commands/langsupport.py:66-67 *)
  ("__init__", mkMethod []
      (SCall "_t1" (TClass "DeprecatedCommand") "__init__" [("kwargs", ENoKw)]))].
Definition m_F7_LangSupport : list (string * method) := [].
Definition m_FC3_LiloCheck : list (string * method) := [
  (* commands/lilocheck.py:28-31 *)
  ("__init__", mkMethod [("writePriority", (Some (VInt 0))); ("kwargs", None)]
      (steps [SCall "_t1" (TClass "KickstartCommand") "__init__" [("writePriority", (EVar "writePriority")); ("kwargs", (EVar "kwargs"))];
      SAttr "self" "check" (EGet (EVar "kwargs") "check" (EConst (VBool false)))]));
  (* commands/lilocheck.py:33-39 *)
  ("__str__", mkMethod []
      (steps [SCall "_t1" (TClass "KickstartCommand") "__str__" [];
      SAssign "retval" (EVar "_t1");
      SIf (EAttr (EVar "self") "check")
      (SAssign "retval" (EBin BAdd (EVar "retval") (str "lilocheck
")))
      SPass;
      SReturn (EVar "retval")]));
  (* commands/lilocheck.py:45-48 *)
  ("parse", mkMethod []
      (steps [SParse "_";
      SAttr "self" "check" (EConst (VBool true));
      SReturn (EVar "self")]))].
Definition m_FC4_LiloCheck : list (string * method) := [].
Definition m_F19_Liveimg : list (string * method) := [
  (* commands/liveimg.py:28-35 *)
  ("__init__", mkMethod [("writePriority", (Some (VInt 0))); ("kwargs", None)]
      (steps [SCall "_t1" (TClass "KickstartCommand") "__init__" [("writePriority", (EVar "writePriority")); ("kwargs", (EVar "kwargs"))];
      SAttr "self" "checksum" (EGet (EVar "kwargs") "checksum" (str ""));
      SAttr "self" "noverifyssl" (EGet (EVar "kwargs") "noverifyssl" (EConst VNone));
      SAttr "self" "proxy" (EGet (EVar "kwargs") "proxy" (EConst VNone));
      SAttr "self" "url" (EGet (EVar "kwargs") "url" (EConst VNone))]));
  (* commands/liveimg.py:45-63 *)
  ("__str__", mkMethod []
      (steps [SCall "_t1" (TClass "KickstartCommand") "__str__" [];
      SAssign "retval" (EVar "_t1");
      SIf (EUn UNot (EAttr (EVar "self") "seen"))
      (SReturn (EVar "retval"))
      SPass;
      SAssign "retval" (EBin BAdd (EVar "retval") (str "# Use live disk image installation
"));
      SAssign "retval" (EBin BAdd (EVar "retval") (EBin BAdd (EBin BAdd (str "liveimg --url=""") (EUn UStr (EAttr (EVar "self") "url"))) (str """")));
      SIf (EAttr (EVar "self") "proxy")
      (SAssign "retval" (EBin BAdd (EVar "retval") (EBin BAdd (EBin BAdd (str " --proxy=""") (EUn UStr (EAttr (EVar "self") "proxy"))) (str """"))))
      SPass;
      SIf (EAttr (EVar "self") "noverifyssl")
      (SAssign "retval" (EBin BAdd (EVar "retval") (str " --noverifyssl")))
      SPass;
      SIf (EAttr (EVar "self") "checksum")
      (SAssign "retval" (EBin BAdd (EVar "retval") (EBin BAdd (EBin BAdd (str " --checksum=""") (EUn UStr (EAttr (EVar "self") "checksum"))) (str """"))))
      SPass;
      SReturn (EBin BAdd (EVar "retval") (str "
"))]));
  (* commands/liveimg.py:98-101 *)
  ("parse", mkMethod []
      (steps [SParse "ns";
      SSetTo "ns" "self";
      SReturn (EVar "self")]))].
Definition m_FC6_Logging : list (string * method) := [
  (* commands/logging.py:31-41 *)
  ("__init__", mkMethod [("writePriority", (Some (VInt 0))); ("kwargs", None)]
      (steps [SCall "_t1" (TClass "KickstartCommand") "__init__" [("writePriority", (EVar "writePriority")); ("kwargs", (EVar "kwargs"))];
      SAttr "self" "host" (EGet (EVar "kwargs") "host" (str ""));
      SAttr "self" "level" (EGet (EVar "kwargs") "level" (str ""));
      SAttr "self" "port" (EGet (EVar "kwargs") "port" (str ""));
      SAttr "self" "_level_provided" (EUn UBool (EAttr (EVar "self") "level"));
      SIf (EUn UNot (EAttr (EVar "self") "_level_provided"))
      (SAttr "self" "level" (str "info"))
      SPass]));
  (* commands/logging.py:43-55 *)
  ("__str__", mkMethod []
      (steps [SCall "_t1" (TClass "KickstartCommand") "__str__" [];
      SAssign "retval" (EVar "_t1");
      SIf (EAnd (EAttr (EVar "self") "level") (EAttr (EVar "self") "_level_provided"))
      (steps [SAssign "retval" (EBin BAdd (EVar "retval") (EBin BAdd (str "# Installation logging level
logging --level=") (EUn UStr (EAttr (EVar "self") "level"))));
      SIf (EAttr (EVar "self") "host")
      (steps [SAssign "retval" (EBin BAdd (EVar "retval") (EBin BAdd (str " --host=") (EUn UStr (EAttr (EVar "self") "host"))));
      SIf (EAttr (EVar "self") "port")
      (SAssign "retval" (EBin BAdd (EVar "retval") (EBin BAdd (str " --port=") (EUn UStr (EAttr (EVar "self") "port")))))
      SPass])
      SPass])
      SPass;
      SReturn (EBin BAdd (EVar "retval") (str "
"))]));
  (* commands/logging.py:75-83 *)
  ("parse", mkMethod []
      (steps [SParse "ns";
      SSetTo "ns" "self";
      SIf (EAnd (EAttr (EVar "self") "port") (EUn UNot (EAttr (EVar "self") "host")))
      (SRaise true "Can't specify --port without --host.")
      SPass;
      SAttr "self" "_level_provided" (EConst (VBool true));
      SReturn (EVar "self")]))].
Definition m_F34_Logging : list (string * method) := [
  (* commands/logging.py:88-99 *)
  ("__str__", mkMethod []
      (steps [SCall "_t1" (TClass "KickstartCommand") "__str__" [];
      SAssign "retval" (EVar "_t1");
      SIf (EAttr (EVar "self") "host")
      (steps [SAssign "retval" (EBin BAdd (EVar "retval") (EBin BAdd (str "# Installation logging level
logging --host=") (EUn UStr (EAttr (EVar "self") "host"))));
      SIf (EAttr (EVar "self") "port")
      (SAssign "retval" (EBin BAdd (EVar "retval") (EBin BAdd (str " --port=") (EUn UStr (EAttr (EVar "self") "port")))))
      SPass;
      SAssign "retval" (EBin BAdd (EVar "retval") (str "
"))])
      SPass;
      SReturn (EVar "retval")]))].
Definition m_FC3_LogVolData : list (string * method) := [
  (* commands/logvol.py:33-45 *)
  ("__init__", mkMethod [("kwargs", None)]
      (steps [SCall "_t1" (TClass "BaseData") "__init__" [("kwargs", (EVar "kwargs"))];
      SAttr "self" "fstype" (EGet (EVar "kwargs") "fstype" (str ""));
      SAttr "self" "grow" (EGet (EVar "kwargs") "grow" (EConst (VBool false)));
      SAttr "self" "maxSizeMB" (EGet (EVar "kwargs") "maxSizeMB" (EConst (VInt 0)));
      SAttr "self" "name" (EGet (EVar "kwargs") "name" (str ""));
      SAttr "self" "format" (EGet (EVar "kwargs") "format" (EConst (VBool true)));
      SAttr "self" "percent" (EGet (EVar "kwargs") "percent" (EConst (VInt 0)));
      SAttr "self" "recommended" (EGet (EVar "kwargs") "recommended" (EConst (VBool false)));
      SAttr "self" "size" (EGet (EVar "kwargs") "size" (EConst VNone));
      SAttr "self" "preexist" (EGet (EVar "kwargs") "preexist" (EConst (VBool false)));
      SAttr "self" "vgname" (EGet (EVar "kwargs") "vgname" (str ""));
      SAttr "self" "mountpoint" (EGet (EVar "kwargs") "mountpoint" (str ""))]));
  (* commands/logvol.py:56-76 *)
  ("_getArgsAsStr", mkMethod []
      (steps [SAssign "retval" (str "");
      SIf (EAttr (EVar "self") "fstype")
      (SAssign "retval" (EBin BAdd (EVar "retval") (EBin BAdd (EBin BAdd (str " --fstype=""") (EUn UStr (EAttr (EVar "self") "fstype"))) (str """"))))
      SPass;
      SIf (EAttr (EVar "self") "grow")
      (SAssign "retval" (EBin BAdd (EVar "retval") (str " --grow")))
      SPass;
      SIf (EAttr (EVar "self") "maxSizeMB")
      (SAssign "retval" (EBin BAdd (EVar "retval") (EBin BAdd (str " --maxsize=") (EUn UDec (EAttr (EVar "self") "maxSizeMB")))))
      SPass;
      SIf (EUn UNot (EAttr (EVar "self") "format"))
      (SAssign "retval" (EBin BAdd (EVar "retval") (str " --noformat")))
      SPass;
      SIf (EAttr (EVar "self") "percent")
      (SAssign "retval" (EBin BAdd (EVar "retval") (EBin BAdd (str " --percent=") (EUn UDec (EAttr (EVar "self") "percent")))))
      SPass;
      SIf (EAttr (EVar "self") "recommended")
      (SAssign "retval" (EBin BAdd (EVar "retval") (str " --recommended")))
      SPass;
      SIf (EAttr (EVar "self") "size")
      (SAssign "retval" (EBin BAdd (EVar "retval") (EBin BAdd (str " --size=") (EUn UDec (EAttr (EVar "self") "size")))))
      SPass;
      SIf (EAttr (EVar "self") "preexist")
      (SAssign "retval" (EBin BAdd (EVar "retval") (str " --useexisting")))
      SPass;
      SReturn (EVar "retval")]));
  (* commands/logvol.py:78-86 *)
  ("__str__", mkMethod []
      (steps [SCall "_t1" (TClass "BaseData") "__str__" [];
      SAssign "retval" (EVar "_t1");
      SCall "_t2" TSelf "_getArgsAsStr" [];
      SAssign "args" (EVar "_t2");
      SAssign "args" (EBin BAdd (EVar "args") (EBin BAdd (str " --name=") (EUn UStr (EAttr (EVar "self") "name"))));
      SAssign "args" (EBin BAdd (EVar "args") (EBin BAdd (str " --vgname=") (EUn UStr (EAttr (EVar "self") "vgname"))));
      SAssign "retval" (EBin BAdd (EVar "retval") (EBin BAdd (EBin BAdd (EBin BAdd (str "logvol ") (EUn UStr (EAttr (EVar "self") "mountpoint"))) (EUn UStr (EVar "args"))) (str "
")));
      SReturn (EVar "retval")]))].
Definition m_FC4_LogVolData : list (string * method) := [
  (* commands/logvol.py:92-95 *)
  ("__init__", mkMethod [("kwargs", None)]
      (steps [SCall "_t1" (TClass "FC3_LogVolData") "__init__" [("kwargs", (EVar "kwargs"))];
      SAttr "self" "bytesPerInode" (EGet (EVar "kwargs") "bytesPerInode" (EConst (VInt 4096)));
      SAttr "self" "fsopts" (EGet (EVar "kwargs") "fsopts" (str ""))]));
  (* commands/logvol.py:97-105 *)
  ("_getArgsAsStr", mkMethod []
      (steps [SCall "_t1" (TClass "FC3_LogVolData") "_getArgsAsStr" [];
      SAssign "retval" (EVar "_t1");
      SIf (EAnd (EHas (EVar "self") "bytesPerInode") (EAttr (EVar "self") "bytesPerInode"))
      (SAssign "retval" (EBin BAdd (EVar "retval") (EBin BAdd (str " --bytes-per-inode=") (EUn UDec (EAttr (EVar "self") "bytesPerInode")))))
      SPass;
      SIf (EAttr (EVar "self") "fsopts")
      (SAssign "retval" (EBin BAdd (EVar "retval") (EBin BAdd (EBin BAdd (str " --fsoptions=""") (EUn UStr (EAttr (EVar "self") "fsopts"))) (str """"))))
      SPass;
      SReturn (EVar "retval")]))].
Definition m_RHEL5_LogVolData : list (string * method) := [
  (* commands/logvol.py:111-114 *)
  ("__init__", mkMethod [("kwargs", None)]
      (steps [SCall "_t1" (TClass "FC4_LogVolData") "__init__" [("kwargs", (EVar "kwargs"))];
      SAttr "self" "encrypted" (EGet (EVar "kwargs") "encrypted" (EConst (VBool false)));
      SAttr "self" "passphrase" (EGet (EVar "kwargs") "passphrase" (str ""))]));
  (* commands/logvol.py:116-125 *)
  ("_getArgsAsStr", mkMethod []
      (steps [SCall "_t1" (TClass "FC4_LogVolData") "_getArgsAsStr" [];
      SAssign "retval" (EVar "_t1");
      SIf (EAttr (EVar "self") "encrypted")
      (steps [SAssign "retval" (EBin BAdd (EVar "retval") (str " --encrypted"));
      SIf (EAttr (EVar "self") "passphrase")
      (SAssign "retval" (EBin BAdd (EVar "retval") (EBin BAdd (EBin BAdd (str " --passphrase=""") (EUn UStr (EAttr (EVar "self") "passphrase"))) (str """"))))
      SPass])
      SPass;
      SReturn (EVar "retval")]))].
Definition m_F9_LogVolData : list (string * method) := [
  (* commands/logvol.py:131-138 *)
  ("__init__", mkMethod [("kwargs", None)]
      (steps [SCall "_t1" (TClass "FC4_LogVolData") "__init__" [("kwargs", (EVar "kwargs"))];
      SDelRemoved [];
      SAttr "self" "fsopts" (EGet (EVar "kwargs") "fsopts" (str ""));
      SAttr "self" "fsprofile" (EGet (EVar "kwargs") "fsprofile" (str ""));
      SAttr "self" "encrypted" (EGet (EVar "kwargs") "encrypted" (EConst (VBool false)));
      SAttr "self" "passphrase" (EGet (EVar "kwargs") "passphrase" (str ""))]));
  (* commands/logvol.py:140-151 *)
  ("_getArgsAsStr", mkMethod []
      (steps [SCall "_t1" (TClass "FC4_LogVolData") "_getArgsAsStr" [];
      SAssign "retval" (EVar "_t1");
      SIf (EAttr (EVar "self") "fsprofile")
      (SAssign "retval" (EBin BAdd (EVar "retval") (EBin BAdd (EBin BAdd (str " --fsprofile=""") (EUn UStr (EAttr (EVar "self") "fsprofile"))) (str """"))))
      SPass;
      SIf (EAttr (EVar "self") "encrypted")
      (steps [SAssign "retval" (EBin BAdd (EVar "retval") (str " --encrypted"));
      SIf (EAttr (EVar "self") "passphrase")
      (SAssign "retval" (EBin BAdd (EVar "retval") (EBin BAdd (EBin BAdd (str " --passphrase=""") (EUn UStr (EAttr (EVar "self") "passphrase"))) (str """"))))
      SPass])
      SPass;
      SReturn (EVar "retval")]))].
Definition m_F12_LogVolData : list (string * method) := [
  (* commands/logvol.py:157-162 *)
  ("__init__", mkMethod [("kwargs", None)]
      (steps [SCall "_t1" (TClass "F9_LogVolData") "__init__" [("kwargs", (EVar "kwargs"))];
      SDelRemoved [];
      SAttr "self" "escrowcert" (EGet (EVar "kwargs") "escrowcert" (str ""));
      SAttr "self" "backuppassphrase" (EGet (EVar "kwargs") "backuppassphrase" (EConst (VBool false)))]));
  (* commands/logvol.py:164-173 *)
  ("_getArgsAsStr", mkMethod []
      (steps [SCall "_t1" (TClass "F9_LogVolData") "_getArgsAsStr" [];
      SAssign "retval" (EVar "_t1");
      SIf (EAnd (EAttr (EVar "self") "encrypted") (EAttr (EVar "self") "escrowcert"))
      (steps [SAssign "retval" (EBin BAdd (EVar "retval") (EBin BAdd (EBin BAdd (str " --escrowcert=""") (EUn UStr (EAttr (EVar "self") "escrowcert"))) (str """")));
      SIf (EAttr (EVar "self") "backuppassphrase")
      (SAssign "retval" (EBin BAdd (EVar "retval") (str " --backuppassphrase")))
      SPass])
      SPass;
      SReturn (EVar "retval")]))].
Definition m_RHEL6_LogVolData : list (string * method) := [
  (* commands/logvol.py:179-190 *)
  ("__init__", mkMethod [("kwargs", None)]
      (steps [SCall "_t1" (TClass "F12_LogVolData") "__init__" [("kwargs", (EVar "kwargs"))];
      SAttr "self" "cipher" (EGet (EVar "kwargs") "cipher" (str ""));
      SAttr "self" "hibernation" (EGet (EVar "kwargs") "hibernation" (EConst (VBool false)));
      SAttr "self" "thin_pool" (EGet (EVar "kwargs") "thin_pool" (EConst (VBool false)));
      SAttr "self" "thin_volume" (EGet (EVar "kwargs") "thin_volume" (EConst (VBool false)));
      SAttr "self" "pool_name" (EGet (EVar "kwargs") "pool_name" (str ""));
      SAttr "self" "chunk_size" (EGet (EVar "kwargs") "chunk_size" (EConst VNone));
      SAttr "self" "metadata_size" (EGet (EVar "kwargs") "metadata_size" (EConst VNone));
      SAttr "self" "profile" (EGet (EVar "kwargs") "profile" (str ""))]));
  (* commands/logvol.py:192-216 *)
  ("_getArgsAsStr", mkMethod []
      (steps [SCall "_t1" (TClass "F12_LogVolData") "_getArgsAsStr" [];
      SAssign "retval" (EVar "_t1");
      SIf (EAnd (EAttr (EVar "self") "encrypted") (EAttr (EVar "self") "cipher"))
      (SAssign "retval" (EBin BAdd (EVar "retval") (EBin BAdd (EBin BAdd (str " --cipher=""") (EUn UStr (EAttr (EVar "self") "cipher"))) (str """"))))
      SPass;
      SIf (EAttr (EVar "self") "hibernation")
      (SAssign "retval" (EBin BAdd (EVar "retval") (str " --hibernation")))
      SPass;
      SIf (EAttr (EVar "self") "thin_pool")
      (steps [SAssign "retval" (EBin BAdd (EVar "retval") (str " --thinpool"));
      SIf (EAttr (EVar "self") "metadata_size")
      (SAssign "retval" (EBin BAdd (EVar "retval") (EBin BAdd (str " --metadatasize=") (EUn UDec (EAttr (EVar "self") "metadata_size")))))
      SPass;
      SIf (EAttr (EVar "self") "chunk_size")
      (SAssign "retval" (EBin BAdd (EVar "retval") (EBin BAdd (str " --chunksize=") (EUn UDec (EAttr (EVar "self") "chunk_size")))))
      SPass])
      SPass;
      SIf (EAttr (EVar "self") "thin_volume")
      (SAssign "retval" (EBin BAdd (EVar "retval") (EBin BAdd (str " --thin --poolname=") (EUn UStr (EAttr (EVar "self") "pool_name")))))
      SPass;
      SIf (EAttr (EVar "self") "profile")
      (SAssign "retval" (EBin BAdd (EVar "retval") (EBin BAdd (str " --profile=") (EUn UStr (EAttr (EVar "self") "profile")))))
      SPass;
      SReturn (EVar "retval")]))].
Definition m_F14_LogVolData : list (string * method) := [].
Definition m_F15_LogVolData : list (string * method) := [
  (* commands/logvol.py:225-227 *)
  ("__init__", mkMethod [("kwargs", None)]
      (steps [SCall "_t1" (TClass "F14_LogVolData") "__init__" [("kwargs", (EVar "kwargs"))];
      SAttr "self" "label" (EGet (EVar "kwargs") "label" (str ""))]));
  (* commands/logvol.py:229-235 *)
  ("_getArgsAsStr", mkMethod []
      (steps [SCall "_t1" (TClass "F14_LogVolData") "_getArgsAsStr" [];
      SAssign "retval" (EVar "_t1");
      SIf (EAttr (EVar "self") "label")
      (SAssign "retval" (EBin BAdd (EVar "retval") (EBin BAdd (EBin BAdd (str " --label=""") (EUn UStr (EAttr (EVar "self") "label"))) (str """"))))
      SPass;
      SReturn (EVar "retval")]))].
Definition m_F17_LogVolData : list (string * method) := [
  (* commands/logvol.py:241-243 *)
  ("__init__", mkMethod [("kwargs", None)]
      (steps [SCall "_t1" (TClass "F15_LogVolData") "__init__" [("kwargs", (EVar "kwargs"))];
      SAttr "self" "resize" (EGet (EVar "kwargs") "resize" (EConst (VBool false)))]));
  (* commands/logvol.py:245-250 *)
  ("_getArgsAsStr", mkMethod []
      (steps [SCall "_t1" (TClass "F15_LogVolData") "_getArgsAsStr" [];
      SAssign "retval" (EVar "_t1");
      SIf (EAttr (EVar "self") "resize")
      (SAssign "retval" (EBin BAdd (EVar "retval") (str " --resize")))
      SPass;
      SReturn (EVar "retval")]))].
Definition m_F18_LogVolData : list (string * method) := [
  (* commands/logvol.py:256-259 *)
  ("__init__", mkMethod [("kwargs", None)]
      (steps [SCall "_t1" (TClass "F17_LogVolData") "__init__" [("kwargs", (EVar "kwargs"))];
      SAttr "self" "hibernation" (EGet (EVar "kwargs") "hibernation" (EConst (VBool false)));
      SAttr "self" "cipher" (EGet (EVar "kwargs") "cipher" (str ""))]));
  (* commands/logvol.py:261-270 *)
  ("_getArgsAsStr", mkMethod []
      (steps [SCall "_t1" (TClass "F17_LogVolData") "_getArgsAsStr" [];
      SAssign "retval" (EVar "_t1");
      SIf (EAttr (EVar "self") "hibernation")
      (SAssign "retval" (EBin BAdd (EVar "retval") (str " --hibernation")))
      SPass;
      SIf (EAnd (EAttr (EVar "self") "encrypted") (EAttr (EVar "self") "cipher"))
      (SAssign "retval" (EBin BAdd (EVar "retval") (EBin BAdd (EBin BAdd (str " --cipher=""") (EUn UStr (EAttr (EVar "self") "cipher"))) (str """"))))
      SPass;
      SReturn (EVar "retval")]))].
Definition m_F20_LogVolData : list (string * method) := [
  (* commands/logvol.py:276-284 *)
  ("__init__", mkMethod [("kwargs", None)]
      (steps [SCall "_t1" (TClass "F18_LogVolData") "__init__" [("kwargs", (EVar "kwargs"))];
      SAttr "self" "thin_pool" (EGet (EVar "kwargs") "thin_pool" (EConst (VBool false)));
      SAttr "self" "thin_volume" (EGet (EVar "kwargs") "thin_volume" (EConst (VBool false)));
      SAttr "self" "pool_name" (EGet (EVar "kwargs") "pool_name" (str ""));
      SAttr "self" "chunk_size" (EGet (EVar "kwargs") "chunk_size" (EConst VNone));
      SAttr "self" "metadata_size" (EGet (EVar "kwargs") "metadata_size" (EConst VNone))]));
  (* commands/logvol.py:286-301 *)
  ("_getArgsAsStr", mkMethod []
      (steps [SCall "_t1" (TClass "F18_LogVolData") "_getArgsAsStr" [];
      SAssign "retval" (EVar "_t1");
      SIf (EAttr (EVar "self") "thin_pool")
      (steps [SAssign "retval" (EBin BAdd (EVar "retval") (str " --thinpool"));
      SIf (EAttr (EVar "self") "metadata_size")
      (SAssign "retval" (EBin BAdd (EVar "retval") (EBin BAdd (str " --metadatasize=") (EUn UDec (EAttr (EVar "self") "metadata_size")))))
      SPass;
      SIf (EAttr (EVar "self") "chunk_size")
      (SAssign "retval" (EBin BAdd (EVar "retval") (EBin BAdd (str " --chunksize=") (EUn UDec (EAttr (EVar "self") "chunk_size")))))
      SPass])
      SPass;
      SIf (EAttr (EVar "self") "thin_volume")
      (SAssign "retval" (EBin BAdd (EVar "retval") (EBin BAdd (str " --thin --poolname=") (EUn UStr (EAttr (EVar "self") "pool_name")))))
      SPass;
      SReturn (EVar "retval")]))].
Definition m_F21_LogVolData : list (string * method) := [
  (* commands/logvol.py:307-309 *)
  ("__init__", mkMethod [("kwargs", None)]
      (steps [SCall "_t1" (TClass "F20_LogVolData") "__init__" [("kwargs", (EVar "kwargs"))];
      SAttr "self" "profile" (EGet (EVar "kwargs") "profile" (str ""))]));
  (* commands/logvol.py:311-317 *)
  ("_getArgsAsStr", mkMethod []
      (steps [SCall "_t1" (TClass "F20_LogVolData") "_getArgsAsStr" [];
      SAssign "retval" (EVar "_t1");
      SIf (EAttr (EVar "self") "profile")
      (SAssign "retval" (EBin BAdd (EVar "retval") (EBin BAdd (str " --profile=") (EUn UStr (EAttr (EVar "self") "profile")))))
      SPass;
      SReturn (EVar "retval")]))].
Definition m_RHEL7_LogVolData : list (string * method) := [
  (* commands/logvol.py:323-325 *)
  ("__init__", mkMethod [("kwargs", None)]
      (steps [SCall "_t1" (TClass "F21_LogVolData") "__init__" [("kwargs", (EVar "kwargs"))];
      SAttr "self" "mkfsopts" (EOr (EGet (EVar "kwargs") "mkfsoptions" (str "")) (EGet (EVar "kwargs") "mkfsopts" (str "")))]));
  (* commands/logvol.py:327-333 *)
  ("_getArgsAsStr", mkMethod []
      (steps [SCall "_t1" (TClass "F21_LogVolData") "_getArgsAsStr" [];
      SAssign "retval" (EVar "_t1");
      SIf (EAttr (EVar "self") "mkfsopts")
      (SAssign "retval" (EBin BAdd (EVar "retval") (EBin BAdd (EBin BAdd (str " --mkfsoptions=""") (EUn UStr (EAttr (EVar "self") "mkfsopts"))) (str """"))))
      SPass;
      SReturn (EVar "retval")]))].
Definition m_F23_LogVolData : list (string * method) := [
  (* commands/logvol.py:336-341 *)
  ("__init__", mkMethod [("kwargs", None)]
      (steps [SCall "_t1" (TClass "F21_LogVolData") "__init__" [("kwargs", (EVar "kwargs"))];
      SAttr "self" "cache_size" (EGet (EVar "kwargs") "cache_size" (EConst (VInt 0)));
      SAttr "self" "cache_mode" (EGet (EVar "kwargs") "cache_mode" (str ""));
      SAttr "self" "cache_pvs" (EGet (EVar "kwargs") "cache_pvs" (EConst (VStrs [])));
      SAttr "self" "mkfsopts" (EOr (EGet (EVar "kwargs") "mkfsoptions" (str "")) (EGet (EVar "kwargs") "mkfsopts" (str "")))]));
  (* commands/logvol.py:343-355 *)
  ("_getArgsAsStr", mkMethod []
      (steps [SCall "_t1" (TClass "F21_LogVolData") "_getArgsAsStr" [];
      SAssign "retval" (EVar "_t1");
      SIf (EAttr (EVar "self") "cache_size")
      (SAssign "retval" (EBin BAdd (EVar "retval") (EBin BAdd (str " --cachesize=") (EUn UDec (EAttr (EVar "self") "cache_size")))))
      SPass;
      SIf (EAttr (EVar "self") "cache_pvs")
      (SAssign "retval" (EBin BAdd (EVar "retval") (EBin BAdd (str " --cachepvs=") (EUn UStr (EBin BJoin (str ",") (EAttr (EVar "self") "cache_pvs"))))))
      SPass;
      SIf (EAttr (EVar "self") "cache_mode")
      (SAssign "retval" (EBin BAdd (EVar "retval") (EBin BAdd (str " --cachemode=") (EUn UStr (EAttr (EVar "self") "cache_mode")))))
      SPass;
      SIf (EAttr (EVar "self") "mkfsopts")
      (SAssign "retval" (EBin BAdd (EVar "retval") (EBin BAdd (EBin BAdd (str " --mkfsoptions=""") (EUn UStr (EAttr (EVar "self") "mkfsopts"))) (str """"))))
      SPass;
      SReturn (EVar "retval")]))].
Definition m_F29_LogVolData : list (string * method) := [
  (* commands/logvol.py:358-364 *)
  ("__init__", mkMethod [("kwargs", None)]
      (steps [SCall "_t1" (TClass "F23_LogVolData") "__init__" [("kwargs", (EVar "kwargs"))];
      SAttr "self" "luks_version" (EGet (EVar "kwargs") "luks_version" (str ""));
      SAttr "self" "pbkdf" (EGet (EVar "kwargs") "pbkdf" (str ""));
      SAttr "self" "pbkdf_memory" (EGet (EVar "kwargs") "pbkdf_memory" (EConst (VInt 0)));
      SAttr "self" "pbkdf_time" (EGet (EVar "kwargs") "pbkdf_time" (EConst (VInt 0)));
      SAttr "self" "pbkdf_iterations" (EGet (EVar "kwargs") "pbkdf_iterations" (EConst (VInt 0)))]));
  (* commands/logvol.py:366-384 *)
  ("_getArgsAsStr", mkMethod []
      (steps [SCall "_t1" (TClass "F23_LogVolData") "_getArgsAsStr" [];
      SAssign "retval" (EVar "_t1");
      SIf (EAnd (EAttr (EVar "self") "encrypted") (EAttr (EVar "self") "luks_version"))
      (SAssign "retval" (EBin BAdd (EVar "retval") (EBin BAdd (str " --luks-version=") (EUn UStr (EAttr (EVar "self") "luks_version")))))
      SPass;
      SIf (EAnd (EAttr (EVar "self") "encrypted") (EAttr (EVar "self") "pbkdf"))
      (SAssign "retval" (EBin BAdd (EVar "retval") (EBin BAdd (str " --pbkdf=") (EUn UStr (EAttr (EVar "self") "pbkdf")))))
      SPass;
      SIf (EAnd (EAttr (EVar "self") "encrypted") (EAttr (EVar "self") "pbkdf_memory"))
      (SAssign "retval" (EBin BAdd (EVar "retval") (EBin BAdd (str " --pbkdf-memory=") (EUn UStr (EAttr (EVar "self") "pbkdf_memory")))))
      SPass;
      SIf (EAnd (EAttr (EVar "self") "encrypted") (EAttr (EVar "self") "pbkdf_time"))
      (SAssign "retval" (EBin BAdd (EVar "retval") (EBin BAdd (str " --pbkdf-time=") (EUn UStr (EAttr (EVar "self") "pbkdf_time")))))
      SPass;
      SIf (EAnd (EAttr (EVar "self") "encrypted") (EAttr (EVar "self") "pbkdf_iterations"))
      (SAssign "retval" (EBin BAdd (EVar "retval") (EBin BAdd (str " --pbkdf-iterations=") (EUn UStr (EAttr (EVar "self") "pbkdf_iterations")))))
      SPass;
      SReturn (EVar "retval")]))].
Definition m_RHEL8_LogVolData : list (string * method) := [].
Definition m_FC3_LogVol : list (string * method) := [
  (* commands/logvol.py:393-397 *)
  ("__init__", mkMethod [("writePriority", (Some (VInt 133))); ("kwargs", None)]
      (SCall "_t1" (TClass "KickstartCommand") "__init__" [("writePriority", (EVar "writePriority")); ("kwargs", (EVar "kwargs"))]));
  (* commands/logvol.py:399-405 *)
  ("__str__", mkMethod []
      (steps [SAssign "retval" (str "");
      SForData "part" (SAssign "retval" (EBin BAdd (EVar "retval") (EDataStr (EVar "part"))));
      SReturn (EVar "retval")]));
  (* commands/logvol.py:465-484 *)
  ("parse", mkMethod []
      (steps [SParseKnown "ns" "extra";
      SIf (EVar "extra")
      (SRaise true "Unexpected arguments to %(command)s command: %(options)s")
      SPass;
      SCall "_t1" TSelf "dataClass" [];
      SAssign "lvd" (EVar "_t1");
      SSetTo "ns" "lvd";
      SAttr "lvd" "lineno" (EAttr (EVar "self") "lineno");
      SAttr "lvd" "mountpoint" (EBin BIndex (EAttr (EVar "ns") "mntpoint") (EConst (VInt 0)));
      SIf (EUn UNot (EAttr (EVar "lvd") "format"))
      (SAttr "lvd" "preexist" (EConst (VBool true)))
      SPass;
      SReturn (EVar "lvd")]));
  (* commands/logvol.py:490-491 *)
  ("dataClass", mkMethod []
      (SReturn (ENew "LogVolData")))].
Definition m_FC4_LogVol : list (string * method) := [].
Definition m_RHEL5_LogVol : list (string * method) := [].
Definition m_F9_LogVol : list (string * method) := [].
Definition m_F12_LogVol : list (string * method) := [].
Definition m_RHEL6_LogVol : list (string * method) := [
  (* commands/logvol.py:619-642 *)
  ("parse", mkMethod []
      (steps [SCall "_t1" (TClass "F12_LogVol") "parse" [];
      SAssign "retval" (EVar "_t1");
      SIf (ESeen "autopart")
      (SRaise true "The logvol and autopart commands can't be used at the same time")
      SPass;
      SIf (EAnd (EAttr (EVar "retval") "thin_volume") (EAttr (EVar "retval") "thin_pool"))
      (SRaise true "--thin and --thinpool cannot both be specified for the same logvol")
      SPass;
      SIf (EAnd (EAttr (EVar "retval") "thin_volume") (EUn UNot (EAttr (EVar "retval") "pool_name")))
      (SRaise true "--thin requires --poolname to specify pool name")
      SPass;
      SIf (EAnd (EOr (EAttr (EVar "retval") "chunk_size") (EAttr (EVar "retval") "metadata_size")) (EUn UNot (EAttr (EVar "retval") "thin_pool")))
      (SRaise true "--chunksize and --metadatasize are for thin pools only")
      SPass;
      SReturn (EVar "retval")]))].
Definition m_F14_LogVol : list (string * method) := [].
Definition m_F15_LogVol : list (string * method) := [].
Definition m_F17_LogVol : list (string * method) := [
  (* commands/logvol.py:679-688 *)
  ("parse", mkMethod []
      (steps [SCall "_t1" (TClass "F15_LogVol") "parse" [];
      SAssign "retval" (EVar "_t1");
      SIf (EAnd (EAttr (EVar "retval") "resize") (EUn UNot (EAttr (EVar "retval") "preexist")))
      (SRaise true "--resize can only be used in conjunction with --useexisting")
      SPass;
      SIf (EAnd (EAttr (EVar "retval") "resize") (EUn UNot (EAttr (EVar "retval") "size")))
      (SRaise true "--resize requires --size to indicate new size")
      SPass;
      SReturn (EVar "retval")]))].
Definition m_F18_LogVol : list (string * method) := [].
Definition m_F20_LogVol : list (string * method) := [
  (* commands/logvol.py:735-769 *)
  ("parse", mkMethod []
      (steps [SCall "_t1" (TClass "F18_LogVol") "parse" [];
      SAssign "retval" (EVar "_t1");
      SIf (EAnd (EAttr (EVar "retval") "thin_volume") (EAttr (EVar "retval") "thin_pool"))
      (SRaise true "--thin and --thinpool cannot both be specified for the same logvol")
      SPass;
      SIf (EAnd (EAttr (EVar "retval") "thin_volume") (EUn UNot (EAttr (EVar "retval") "pool_name")))
      (SRaise true "--thin requires --poolname to specify pool name")
      SPass;
      SIf (EAnd (EOr (EAttr (EVar "retval") "chunk_size") (EAttr (EVar "retval") "metadata_size")) (EUn UNot (EAttr (EVar "retval") "thin_pool")))
      (SRaise true "--chunksize and --metadatasize are for thin pools only")
      SPass;
      SIf (ESeen "autopart")
      (SRaise true "The logvol and autopart commands can't be used at the same time")
      SPass;
      SIf (EAnd (EHandlerHas "mount") (ESeen "mount"))
      (SRaise true "The logvol and mount commands can't be used at the same time")
      SPass;
      SIf (EAnd (EUn UNot (EAttr (EVar "retval") "preexist")) (EAnd (EUn UNot (EAttr (EVar "retval") "percent")) (EAnd (EUn UNot (EAttr (EVar "retval") "size")) (EAnd (EUn UNot (EAttr (EVar "retval") "recommended")) (EUn UNot (EAttr (EVar "retval") "hibernation"))))))
      (SRaise true "No size given for logical volume. Use one of --useexisting, --noformat, --size, --percent, or --hibernation.")
      SPass;
      SIf (EAnd (EBin BIsNot (EAttr (EVar "retval") "percent") (EConst VNone)) (EOr (EBin BLt (EAttr (EVar "retval") "percent") (EConst (VInt 0))) (EBin BGt (EAttr (EVar "retval") "percent") (EConst (VInt 100)))))
      (SRaise true "Percentage must be between 0 and 100.")
      SPass;
      SReturn (EVar "retval")]))].
Definition m_F21_LogVol : list (string * method) := [
  (* commands/logvol.py:783-790 *)
  ("parse", mkMethod []
      (steps [SCall "_t1" (TClass "F20_LogVol") "parse" [];
      SAssign "retval" (EVar "_t1");
      SIf (EAnd (EAttr (EVar "retval") "size") (EAttr (EVar "retval") "percent"))
      (SRaise true "--size and --percent cannot both be specified for the same logvol")
      SPass;
      SReturn (EVar "retval")]))].
Definition m_RHEL7_LogVol : list (string * method) := [
  (* commands/logvol.py:808-817 *)
  ("parse", mkMethod []
      (steps [SCall "_t1" (TClass "F21_LogVol") "parse" [];
      SAssign "retval" (EVar "_t1");
      SIf (EAnd (EUn UNot (EAttr (EVar "retval") "format")) (EAttr (EVar "retval") "mkfsopts"))
      (SRaise true "--mkfsoptions with --noformat has no effect.")
      SPass;
      SIf (EAnd (EAttr (EVar "retval") "fsprofile") (EAttr (EVar "retval") "mkfsopts"))
      (SRaise true "--mkfsoptions and --fsprofile cannot be used together.")
      SPass;
      SReturn (EVar "retval")]))].
Definition m_F23_LogVol : list (string * method) := [
  (* commands/logvol.py:844-874 *)
  ("parse", mkMethod []
      (steps [SCall "_t1" (TClass "F21_LogVol") "parse" [];
      SAssign "retval" (EVar "_t1");
      SIf (EOr (EAttr (EVar "retval") "cache_size") (EOr (EAttr (EVar "retval") "cache_mode") (EAttr (EVar "retval") "cache_pvs")))
      (steps [SIf (EAttr (EVar "retval") "preexist")
      (SRaise true "Adding a cache to an existing logical volume is not supported")
      SPass;
      SIf (EAttr (EVar "retval") "thin_volume")
      (SRaise true "Thin volumes cannot be cached")
      SPass;
      SIf (EUn UNot (EAttr (EVar "retval") "cache_pvs"))
      (SRaise true "Cache needs to have a list of (fast) PVs specified")
      SPass;
      SIf (EUn UNot (EAttr (EVar "retval") "cache_size"))
      (SRaise true "Cache needs to have size specified")
      SPass;
      SIf (EAnd (EAttr (EVar "retval") "cache_mode") (EBin BNotIn (EAttr (EVar "retval") "cache_mode") (EConst (VStrs ["writeback"; "writethrough"]))))
      (SRaise true "Invalid cache mode given: %s")
      SPass])
      SPass;
      SIf (EAnd (EUn UNot (EAttr (EVar "retval") "format")) (EAttr (EVar "retval") "mkfsopts"))
      (SRaise true "--mkfsoptions with --noformat has no effect.")
      SPass;
      SIf (EAnd (EAttr (EVar "retval") "fsprofile") (EAttr (EVar "retval") "mkfsopts"))
      (SRaise true "--mkfsoptions and --fsprofile cannot be used together.")
      SPass;
      SReturn (EVar "retval")]))].
Definition m_F29_LogVol : list (string * method) := [
  (* commands/logvol.py:915-922 *)
  ("parse", mkMethod []
      (steps [SCall "_t1" (TClass "F23_LogVol") "parse" [];
      SAssign "retval" (EVar "_t1");
      SIf (EAnd (EAttr (EVar "retval") "pbkdf_time") (EAttr (EVar "retval") "pbkdf_iterations"))
      (SRaise true "Only one of --pbkdf-time and --pbkdf-iterations can be specified.")
      SPass;
      SReturn (EVar "retval")]))].
Definition m_RHEL8_LogVol : list (string * method) := [
  (* commands/logvol.py:928-932 *)
  ("parse", mkMethod []
      (steps [SCall "_t1" (TClass "F29_LogVol") "parse" [];
      SAssign "retval" (EVar "_t1");
      SIf (EBin BEq (EAttr (EVar "retval") "fstype") (str "btrfs"))
      (SRaise true "Btrfs file system is not supported")
      SPass;
      SReturn (EVar "retval")]))].
Definition m_FC4_MediaCheck : list (string * method) := [
  (* commands/mediacheck.py:28-31 *)
  ("__init__", mkMethod [("writePriority", (Some (VInt 0))); ("kwargs", None)]
      (steps [SCall "_t1" (TClass "KickstartCommand") "__init__" [("writePriority", (EVar "writePriority")); ("kwargs", (EVar "kwargs"))];
      SAttr "self" "mediacheck" (EGet (EVar "kwargs") "mediacheck" (EConst (VBool false)))]));
  (* commands/mediacheck.py:33-38 *)
  ("__str__", mkMethod []
      (steps [SCall "_t1" (TClass "KickstartCommand") "__str__" [];
      SAssign "retval" (EVar "_t1");
      SIf (EAttr (EVar "self") "mediacheck")
      (SAssign "retval" (EBin BAdd (EVar "retval") (str "mediacheck
")))
      SPass;
      SReturn (EVar "retval")]));
  (* commands/mediacheck.py:48-51 *)
  ("parse", mkMethod []
      (steps [SParse "_";
      SAttr "self" "mediacheck" (EConst (VBool true));
      SReturn (EVar "self")]))].
Definition m_F29_ModuleData : list (string * method) := [
  (* commands/module.py:33-36 *)
  ("__init__", mkMethod [("kwargs", None)]
      (steps [SCall "_t1" (TClass "BaseData") "__init__" [("kwargs", (EVar "kwargs"))];
      SAttr "self" "name" (EGet (EVar "kwargs") "name" (str ""));
      SAttr "self" "stream" (EGet (EVar "kwargs") "stream" (str ""))]));
  (* commands/module.py:47-54 *)
  ("__str__", mkMethod []
      (steps [SCall "_t1" (TClass "BaseData") "__str__" [];
      SAssign "retval" (EVar "_t1");
      SCall "_t2" TSelf "_getArgsAsStr" [];
      SAssign "args" (EVar "_t2");
      SIf (EVar "args")
      (SAssign "retval" (EBin BAdd (EVar "retval") (EBin BAdd (EBin BAdd (str "module") (EUn UStr (EVar "args"))) (str "
"))))
      SPass;
      SReturn (EVar "retval")]));
  (* commands/module.py:56-61 *)
  ("_getArgsAsStr", mkMethod []
      (steps [SAssign "retval" (EBin BAdd (str " --name=") (EUn UStr (EAttr (EVar "self") "name")));
      SIf (EAttr (EVar "self") "stream")
      (SAssign "retval" (EBin BAdd (EVar "retval") (EBin BAdd (str " --stream=") (EUn UStr (EAttr (EVar "self") "stream")))))
      SPass;
      SReturn (EVar "retval")]))].
Definition m_RHEL8_ModuleData : list (string * method) := [
  (* commands/module.py:67-69 *)
  ("__init__", mkMethod [("kwargs", None)]
      (steps [SCall "_t1" (TClass "F29_ModuleData") "__init__" [("kwargs", (EVar "kwargs"))];
      SAttr "self" "enable" (EGet (EVar "kwargs") "enable" (EConst (VBool true)))]));
  (* commands/module.py:71-78 *)
  ("_getArgsAsStr", mkMethod []
      (steps [SCall "_t1" (TClass "F29_ModuleData") "_getArgsAsStr" [];
      SAssign "retval" (EVar "_t1");
      SIf (EUn UNot (EAttr (EVar "self") "enable"))
      (SAssign "retval" (EBin BAdd (EVar "retval") (str " --disable")))
      SPass;
      SReturn (EVar "retval")]))].
Definition m_F31_ModuleData : list (string * method) := [].
Definition m_F29_Module : list (string * method) := [
  (* commands/module.py:88-92 *)
  ("__init__", mkMethod [("writePriority", (Some (VInt 0))); ("kwargs", None)]
      (SCall "_t1" (TClass "KickstartCommand") "__init__" [("writePriority", (EVar "writePriority")); ("kwargs", (EVar "kwargs"))]));
  (* commands/module.py:94-100 *)
  ("__str__", mkMethod []
      (steps [SAssign "retval" (str "");
      SForData "module" (SAssign "retval" (EBin BAdd (EVar "retval") (EDataStr (EVar "module"))));
      SReturn (EVar "retval")]));
  (* commands/module.py:133-144 *)
  ("parse", mkMethod []
      (steps [SParseKnown "ns" "extra";
      SIf (EBin BGt (EUn ULen (EVar "extra")) (EConst (VInt 0)))
      (SRaise true "The enable module command does not take position arguments!")
      SPass;
      SCall "_t1" TSelf "dataClass" [];
      SAssign "enable_module_data" (EVar "_t1");
      SSetTo "ns" "enable_module_data";
      SAttr "enable_module_data" "lineno" (EAttr (EVar "self") "lineno");
      SReturn (EVar "enable_module_data")]));
  (* commands/module.py:150-151 *)
  ("dataClass", mkMethod []
      (SReturn (ENew "ModuleData")))].
Definition m_RHEL8_Module : list (string * method) := [].
Definition m_F31_Module : list (string * method) := [].
Definition m_FC3_Monitor : list (string * method) := [
  (* commands/monitor.py:28-34 *)
  ("__init__", mkMethod [("writePriority", (Some (VInt 0))); ("kwargs", None)]
      (steps [SCall "_t1" (TClass "KickstartCommand") "__init__" [("writePriority", (EVar "writePriority")); ("kwargs", (EVar "kwargs"))];
      SAttr "self" "hsync" (EGet (EVar "kwargs") "hsync" (str ""));
      SAttr "self" "monitor" (EGet (EVar "kwargs") "monitor" (str ""));
      SAttr "self" "vsync" (EGet (EVar "kwargs") "vsync" (str ""))]));
  (* commands/monitor.py:36-49 *)
  ("__str__", mkMethod []
      (steps [SCall "_t1" (TClass "KickstartCommand") "__str__" [];
      SAssign "retval" (EVar "_t1");
      SIf (EAttr (EVar "self") "hsync")
      (SAssign "retval" (EBin BAdd (EVar "retval") (EBin BAdd (str " --hsync=") (EUn UStr (EAttr (EVar "self") "hsync")))))
      SPass;
      SIf (EAttr (EVar "self") "monitor")
      (SAssign "retval" (EBin BAdd (EVar "retval") (EBin BAdd (EBin BAdd (str " --monitor=""") (EUn UStr (EAttr (EVar "self") "monitor"))) (str """"))))
      SPass;
      SIf (EAttr (EVar "self") "vsync")
      (SAssign "retval" (EBin BAdd (EVar "retval") (EBin BAdd (str " --vsync=") (EUn UStr (EAttr (EVar "self") "vsync")))))
      SPass;
      SIf (EVar "retval")
      (SAssign "retval" (EBin BAdd (EBin BAdd (str "monitor") (EUn UStr (EVar "retval"))) (str "
")))
      SPass;
      SReturn (EVar "retval")]));
  (* commands/monitor.py:74-77 *)
  ("parse", mkMethod []
      (steps [SParse "ns";
      SSetTo "ns" "self";
      SReturn (EVar "self")]))].
Definition m_FC6_Monitor : list (string * method) := [
  (* commands/monitor.py:83-85 *)
  ("__init__", mkMethod [("writePriority", (Some (VInt 0))); ("kwargs", None)]
      (steps [SCall "_t1" (TClass "FC3_Monitor") "__init__" [("writePriority", (EVar "writePriority")); ("kwargs", (EVar "kwargs"))];
      SAttr "self" "probe" (EGet (EVar "kwargs") "probe" (EConst (VBool true)))]));
  (* commands/monitor.py:87-102 *)
  ("__str__", mkMethod []
      (steps [SCall "_t1" (TClass "KickstartCommand") "__str__" [];
      SAssign "retval" (EVar "_t1");
      SIf (EAttr (EVar "self") "hsync")
      (SAssign "retval" (EBin BAdd (EVar "retval") (EBin BAdd (str " --hsync=") (EUn UStr (EAttr (EVar "self") "hsync")))))
      SPass;
      SIf (EAttr (EVar "self") "monitor")
      (SAssign "retval" (EBin BAdd (EVar "retval") (EBin BAdd (EBin BAdd (str " --monitor=""") (EUn UStr (EAttr (EVar "self") "monitor"))) (str """"))))
      SPass;
      SIf (EUn UNot (EAttr (EVar "self") "probe"))
      (SAssign "retval" (EBin BAdd (EVar "retval") (str " --noprobe")))
      SPass;
      SIf (EAttr (EVar "self") "vsync")
      (SAssign "retval" (EBin BAdd (EVar "retval") (EBin BAdd (str " --vsync=") (EUn UStr (EAttr (EVar "self") "vsync")))))
      SPass;
      SIf (EVar "retval")
      (SAssign "retval" (EBin BAdd (EBin BAdd (str "monitor") (EUn UStr (EVar "retval"))) (str "
")))
      SPass;
      SReturn (EVar "retval")]))].
Definition m_F10_Monitor : list (string * method) := [
  (* commands/monitor.py:112-113 *)
  ("__init__", mkMethod []
      (SCall "_t1" (TClass "DeprecatedCommand") "__init__" [("kwargs", ENoKw)]))].
Definition m_F18_Monitor : list (string * method) := [].
Definition m_F27_MountData : list (string * method) := [
  (* commands/mount.py:32-39 *)
  ("__init__", mkMethod [("kwargs", None)]
      (steps [SCall "_t1" (TClass "BaseData") "__init__" [("kwargs", (EVar "kwargs"))];
      SAttr "self" "mount_point" (EGet (EVar "kwargs") "mount_point" (str ""));
      SAttr "self" "device" (EGet (EVar "kwargs") "device" (str ""));
      SAttr "self" "format" (EGet (EVar "kwargs") "format" (str ""));
      SAttr "self" "reformat" (EGet (EVar "kwargs") "reformat" (EConst (VBool false)));
      SAttr "self" "mkfs_opts" (EGet (EVar "kwargs") "mkfs_opts" (str ""));
      SAttr "self" "mount_opts" (EGet (EVar "kwargs") "mount_opts" (str ""))]));
  (* commands/mount.py:50-66 *)
  ("_getArgsAsStr", mkMethod []
      (steps [SAssign "retval" (EUn UStr (EAttr (EVar "self") "device"));
      SAssign "retval" (EBin BAdd (EVar "retval") (EOr (EBin BAdd (str " ") (EUn UStr (EAttr (EVar "self") "mount_point"))) (str "none")));
      SIf (EAttr (EVar "self") "reformat")
      (steps [SAssign "retval" (EBin BAdd (EVar "retval") (str " --reformat"));
      SIf (EAttr (EVar "self") "format")
      (SAssign "retval" (EBin BAdd (EVar "retval") (EBin BAdd (str "=") (EUn UStr (EAttr (EVar "self") "format")))))
      SPass])
      SPass;
      SIf (EAttr (EVar "self") "mkfs_opts")
      (SAssign "retval" (EBin BAdd (EVar "retval") (EBin BAdd (EBin BAdd (str " --mkfsoptions=""") (EUn UStr (EAttr (EVar "self") "mkfs_opts"))) (str """"))))
      SPass;
      SIf (EAttr (EVar "self") "mount_opts")
      (SAssign "retval" (EBin BAdd (EVar "retval") (EBin BAdd (EBin BAdd (str " --mountoptions=""") (EUn UStr (EAttr (EVar "self") "mount_opts"))) (str """"))))
      SPass;
      SReturn (EVar "retval")]));
  (* commands/mount.py:68-71 *)
  ("__str__", mkMethod []
      (steps [SCall "_t1" (TClass "BaseData") "__str__" [];
      SAssign "retval" (EVar "_t1");
      SCall "_t2" TSelf "_getArgsAsStr" [];
      SAssign "retval" (EBin BAdd (EVar "retval") (EBin BAdd (EBin BAdd (str "mount ") (EUn UStr (EVar "_t2"))) (str "
")));
      SReturn (EVar "retval")]))].
Definition m_F27_Mount : list (string * method) := [
  (* commands/mount.py:77-80 *)
  ("__init__", mkMethod [("kwargs", None)]
      (SCall "_t1" (TClass "KickstartCommand") "__init__" [("kwargs", (EVar "kwargs"))]));
  (* commands/mount.py:82-91 *)
  ("__str__", mkMethod []
      (steps [SCall "_t1" (TClass "KickstartCommand") "__str__" [];
      SAssign "retval" (EVar "_t1");
      SForData "mpoint" (SAssign "retval" (EBin BAdd (EVar "retval") (EDataStr (EVar "mpoint"))));
      SIf (EBin BNe (EVar "retval") (str ""))
      (SAssign "retval" (EBin BAdd (EBin BAdd (str "# Mount points configuration
") (EVar "retval")) (str "
")))
      SPass;
      SReturn (EVar "retval")]));
  (* commands/mount.py:145-202 *)
  ("parse", mkMethod []
      (steps [SAssign "conflicting_command" (EConst VNone);
      SIf (ESeen "autopart")
      (SAssign "conflicting_command" (str "autopart"))
      SPass;
      SIf (ESeen "partition")
      (SAssign "conflicting_command" (str "part/partition"))
      (SIf (ESeen "raid")
      (SAssign "conflicting_command" (str "raid"))
      (SIf (ESeen "volgroup")
      (SAssign "conflicting_command" (str "volgroup"))
      (SIf (ESeen "logvol")
      (SAssign "conflicting_command" (str "logvol"))
      (SIf (EAnd (EHandlerHas "reqpart") (ESeen "reqpart"))
      (SAssign "conflicting_command" (str "reqpart"))
      SPass))));
      SIf (EVar "conflicting_command")
      (SRaise true "The '%s' and 'mount' commands can't be used at the same time")
      SPass;
      SParseKnown "ns" "extra";
      SIf (EVar "extra")
      (SRaise true "Unexpected arguments to %(command)s command: %(options)s")
      SPass;
      SCall "_t1" TSelf "dataClass" [];
      SAssign "md" (EVar "_t1");
      SSetTo "ns" "md";
      SAttr "md" "lineno" (EAttr (EVar "self") "lineno");
      SAttr "md" "device" (EBin BIndex (EAttr (EVar "ns") "device") (EConst (VInt 0)));
      SAttr "md" "mount_point" (EBin BIndex (EAttr (EVar "ns") "mntpoint") (EConst (VInt 0)));
      SIf (EAnd (EBin BNe (EUn ULower (EAttr (EVar "md") "mount_point")) (str "none")) (EUn UNot (EBin BStarts (EAttr (EVar "md") "mount_point") (str "/"))))
      (SRaise true "Invalid mount point '%s' given")
      SPass;
      SIf (EAnd (EBin BIs (EAttr (EVar "md") "reformat") (EConst (VBool false))) (EAttr (EVar "md") "mkfs_opts"))
      (SRaise true "'--mkfsoptions' requires --reformat")
      SPass;
      SIf (EAnd (EAttr (EVar "md") "reformat") (EBin BIsNot (EAttr (EVar "md") "reformat") (EConst (VBool true))))
      (steps [SAttr "md" "format" (EAttr (EVar "md") "reformat");
      SAttr "md" "reformat" (EConst (VBool true))])
      SPass;
      SReturn (EVar "md")]));
  (* commands/mount.py:208-209 *)
  ("dataClass", mkMethod []
      (SReturn (ENew "MountData")))].
Definition m_RHEL3_Mouse : list (string * method) := [
  (* commands/mouse.py:31-37 *)
  ("__init__", mkMethod [("writePriority", (Some (VInt 0))); ("kwargs", None)]
      (steps [SCall "_t1" (TClass "KickstartCommand") "__init__" [("writePriority", (EVar "writePriority")); ("kwargs", (EVar "kwargs"))];
      SAttr "self" "device" (EGet (EVar "kwargs") "device" (str ""));
      SAttr "self" "emulthree" (EGet (EVar "kwargs") "emulthree" (EConst (VBool false)));
      SAttr "self" "mouse" (EGet (EVar "kwargs") "mouse" (str ""))]));
  (* commands/mouse.py:39-50 *)
  ("__str__", mkMethod []
      (steps [SCall "_t1" (TClass "KickstartCommand") "__str__" [];
      SAssign "retval" (EVar "_t1");
      SAssign "opts" (str "");
      SIf (EAttr (EVar "self") "device")
      (SAssign "opts" (EBin BAdd (EVar "opts") (EBin BAdd (EBin BAdd (str "--device=") (EUn UStr (EAttr (EVar "self") "device"))) (str " "))))
      SPass;
      SIf (EAttr (EVar "self") "emulthree")
      (SAssign "opts" (EBin BAdd (EVar "opts") (str "--emulthree ")))
      SPass;
      SIf (EAttr (EVar "self") "mouse")
      (SAssign "retval" (EBin BAdd (EVar "retval") (EBin BAdd (EBin BAdd (EBin BAdd (str "# System mouse
mouse ") (EUn UStr (EVar "opts"))) (EUn UStr (EAttr (EVar "self") "mouse"))) (str "
"))))
      SPass;
      SReturn (EVar "retval")]));
  (* commands/mouse.py:61-72 *)
  ("parse", mkMethod []
      (steps [SParseKnown "ns" "extra";
      SIf (EBin BNe (EUn ULen (EVar "extra")) (EConst (VInt 1)))
      (SRaise true "mouse")
      (SIf (EUn UDashed (EVar "extra"))
      (SRaise true "Unexpected arguments to %(command)s command: %(options)s")
      SPass);
      SSetTo "ns" "self";
      SAttr "self" "mouse" (EBin BIndex (EVar "extra") (EConst (VInt 0)));
      SReturn (EVar "self")]))].
Definition m_FC3_Mouse : list (string * method) := [
  (* commands/mouse.py:75-76 *)
  ("__init__", mkMethod []
      (SCall "_t1" (TClass "DeprecatedCommand") "__init__" [("kwargs", ENoKw)]))].
Definition m_F7_Mouse : list (string * method) := [].
Definition m_FC3_NetworkData : list (string * method) := [
  (* commands/network.py:38-53 *)
  ("__init__", mkMethod [("kwargs", None)]
      (steps [SCall "_t1" (TClass "BaseData") "__init__" [("kwargs", (EVar "kwargs"))];
      SAttr "self" "bootProto" (EGet (EVar "kwargs") "bootProto" (str "dhcp"));
      SAttr "self" "dhcpclass" (EGet (EVar "kwargs") "dhcpclass" (str ""));
      SAttr "self" "device" (EGet (EVar "kwargs") "device" (str ""));
      SAttr "self" "essid" (EGet (EVar "kwargs") "essid" (str ""));
      SAttr "self" "ethtool" (EGet (EVar "kwargs") "ethtool" (str ""));
      SAttr "self" "gateway" (EGet (EVar "kwargs") "gateway" (str ""));
      SAttr "self" "hostname" (EGet (EVar "kwargs") "hostname" (str ""));
      SAttr "self" "ip" (EGet (EVar "kwargs") "ip" (str ""));
      SAttr "self" "mtu" (EGet (EVar "kwargs") "mtu" (str ""));
      SAttr "self" "nameserver" (EGet (EVar "kwargs") "nameserver" (str ""));
      SAttr "self" "netmask" (EGet (EVar "kwargs") "netmask" (str ""));
      SAttr "self" "nodns" (EGet (EVar "kwargs") "nodns" (EConst (VBool false)));
      SAttr "self" "onboot" (EGet (EVar "kwargs") "onboot" (EConst (VBool true)));
      SAttr "self" "wepkey" (EGet (EVar "kwargs") "wepkey" (str ""))]));
  (* commands/network.py:64-96 *)
  ("_getArgsAsStr", mkMethod []
      (steps [SAssign "retval" (str "");
      SIf (EAttr (EVar "self") "bootProto")
      (SAssign "retval" (EBin BAdd (EVar "retval") (EBin BAdd (str " --bootproto=") (EUn UStr (EAttr (EVar "self") "bootProto")))))
      SPass;
      SIf (EAttr (EVar "self") "dhcpclass")
      (SAssign "retval" (EBin BAdd (EVar "retval") (EBin BAdd (str " --dhcpclass=") (EUn UStr (EAttr (EVar "self") "dhcpclass")))))
      SPass;
      SIf (EAttr (EVar "self") "device")
      (SAssign "retval" (EBin BAdd (EVar "retval") (EBin BAdd (str " --device=") (EUn UStr (EAttr (EVar "self") "device")))))
      SPass;
      SIf (EAttr (EVar "self") "essid")
      (SAssign "retval" (EBin BAdd (EVar "retval") (EBin BAdd (EBin BAdd (str " --essid=""") (EUn UStr (EAttr (EVar "self") "essid"))) (str """"))))
      SPass;
      SIf (EAttr (EVar "self") "ethtool")
      (SAssign "retval" (EBin BAdd (EVar "retval") (EBin BAdd (EBin BAdd (str " --ethtool=""") (EUn UStr (EAttr (EVar "self") "ethtool"))) (str """"))))
      SPass;
      SIf (EAttr (EVar "self") "gateway")
      (SAssign "retval" (EBin BAdd (EVar "retval") (EBin BAdd (str " --gateway=") (EUn UStr (EAttr (EVar "self") "gateway")))))
      SPass;
      SIf (EAttr (EVar "self") "hostname")
      (SAssign "retval" (EBin BAdd (EVar "retval") (EBin BAdd (str " --hostname=") (EUn UStr (EAttr (EVar "self") "hostname")))))
      SPass;
      SIf (EAttr (EVar "self") "ip")
      (SAssign "retval" (EBin BAdd (EVar "retval") (EBin BAdd (str " --ip=") (EUn UStr (EAttr (EVar "self") "ip")))))
      SPass;
      SIf (EAttr (EVar "self") "mtu")
      (SAssign "retval" (EBin BAdd (EVar "retval") (EBin BAdd (str " --mtu=") (EUn UStr (EAttr (EVar "self") "mtu")))))
      SPass;
      SIf (EAttr (EVar "self") "nameserver")
      (SAssign "retval" (EBin BAdd (EVar "retval") (EBin BAdd (str " --nameserver=") (EUn UStr (EAttr (EVar "self") "nameserver")))))
      SPass;
      SIf (EAttr (EVar "self") "netmask")
      (SAssign "retval" (EBin BAdd (EVar "retval") (EBin BAdd (str " --netmask=") (EUn UStr (EAttr (EVar "self") "netmask")))))
      SPass;
      SIf (EAttr (EVar "self") "nodns")
      (SAssign "retval" (EBin BAdd (EVar "retval") (str " --nodns")))
      SPass;
      SIf (EUn UNot (EAttr (EVar "self") "onboot"))
      (SAssign "retval" (EBin BAdd (EVar "retval") (str " --onboot=off")))
      SPass;
      SIf (EAttr (EVar "self") "wepkey")
      (SAssign "retval" (EBin BAdd (EVar "retval") (EBin BAdd (str " --wepkey=") (EUn UStr (EAttr (EVar "self") "wepkey")))))
      SPass;
      SReturn (EVar "retval")]));
  (* commands/network.py:98-101 *)
  ("__str__", mkMethod []
      (steps [SCall "_t1" (TClass "BaseData") "__str__" [];
      SAssign "retval" (EVar "_t1");
      SCall "_t2" TSelf "_getArgsAsStr" [];
      SAssign "retval" (EBin BAdd (EVar "retval") (EBin BAdd (EBin BAdd (str "network ") (EUn UStr (EVar "_t2"))) (str "
")));
      SReturn (EVar "retval")]))].
Definition m_FC4_NetworkData : list (string * method) := [
  (* commands/network.py:107-109 *)
  ("__init__", mkMethod [("kwargs", None)]
      (steps [SCall "_t1" (TClass "FC3_NetworkData") "__init__" [("kwargs", (EVar "kwargs"))];
      SAttr "self" "notksdevice" (EGet (EVar "kwargs") "notksdevice" (EConst (VBool false)))]));
  (* commands/network.py:111-117 *)
  ("_getArgsAsStr", mkMethod []
      (steps [SCall "_t1" (TClass "FC3_NetworkData") "_getArgsAsStr" [];
      SAssign "retval" (EVar "_t1");
      SIf (EAttr (EVar "self") "notksdevice")
      (SAssign "retval" (EBin BAdd (EVar "retval") (str " --notksdevice")))
      SPass;
      SReturn (EVar "retval")]))].
Definition m_FC6_NetworkData : list (string * method) := [
  (* commands/network.py:123-126 *)
  ("__init__", mkMethod [("kwargs", None)]
      (steps [SCall "_t1" (TClass "FC4_NetworkData") "__init__" [("kwargs", (EVar "kwargs"))];
      SAttr "self" "noipv4" (EGet (EVar "kwargs") "noipv4" (EConst (VBool false)));
      SAttr "self" "noipv6" (EGet (EVar "kwargs") "noipv6" (EConst (VBool false)))]));
  (* commands/network.py:128-136 *)
  ("_getArgsAsStr", mkMethod []
      (steps [SCall "_t1" (TClass "FC4_NetworkData") "_getArgsAsStr" [];
      SAssign "retval" (EVar "_t1");
      SIf (EAttr (EVar "self") "noipv4")
      (SAssign "retval" (EBin BAdd (EVar "retval") (str " --noipv4")))
      SPass;
      SIf (EAttr (EVar "self") "noipv6")
      (SAssign "retval" (EBin BAdd (EVar "retval") (str " --noipv6")))
      SPass;
      SReturn (EVar "retval")]))].
Definition m_F8_NetworkData : list (string * method) := [
  (* commands/network.py:142-144 *)
  ("__init__", mkMethod [("kwargs", None)]
      (steps [SCall "_t1" (TClass "FC6_NetworkData") "__init__" [("kwargs", (EVar "kwargs"))];
      SAttr "self" "ipv6" (EGet (EVar "kwargs") "ipv6" (str ""))]));
  (* commands/network.py:146-152 *)
  ("_getArgsAsStr", mkMethod []
      (steps [SCall "_t1" (TClass "FC6_NetworkData") "_getArgsAsStr" [];
      SAssign "retval" (EVar "_t1");
      SIf (EAttr (EVar "self") "ipv6")
      (SAssign "retval" (EBin BAdd (EVar "retval") (EBin BAdd (str " --ipv6=") (EUn UStr (EAttr (EVar "self") "ipv6")))))
      SPass;
      SReturn (EVar "retval")]))].
Definition m_F16_NetworkData : list (string * method) := [
  (* commands/network.py:158-162 *)
  ("__init__", mkMethod [("kwargs", None)]
      (steps [SCall "_t1" (TClass "F8_NetworkData") "__init__" [("kwargs", (EVar "kwargs"))];
      SAttr "self" "activate" (EGet (EVar "kwargs") "activate" (EConst VNone));
      SAttr "self" "nodefroute" (EGet (EVar "kwargs") "nodefroute" (EConst (VBool false)));
      SAttr "self" "wpakey" (EGet (EVar "kwargs") "wpakey" (str ""))]));
  (* commands/network.py:164-174 *)
  ("_getArgsAsStr", mkMethod []
      (steps [SCall "_t1" (TClass "F8_NetworkData") "_getArgsAsStr" [];
      SAssign "retval" (EVar "_t1");
      SIf (EAttr (EVar "self") "activate")
      (SAssign "retval" (EBin BAdd (EVar "retval") (str " --activate")))
      SPass;
      SIf (EAttr (EVar "self") "nodefroute")
      (SAssign "retval" (EBin BAdd (EVar "retval") (str " --nodefroute")))
      SPass;
      SIf (EAttr (EVar "self") "wpakey")
      (SAssign "retval" (EBin BAdd (EVar "retval") (EBin BAdd (str " --wpakey=") (EUn UStr (EAttr (EVar "self") "wpakey")))))
      SPass;
      SReturn (EVar "retval")]))].
Definition m_F19_NetworkData : list (string * method) := [
  (* commands/network.py:180-185 *)
  ("__init__", mkMethod [("kwargs", None)]
      (steps [SCall "_t1" (TClass "F16_NetworkData") "__init__" [("kwargs", (EVar "kwargs"))];
      SAttr "self" "bondslaves" (EGet (EVar "kwargs") "bondslaves" (str ""));
      SAttr "self" "bondopts" (EGet (EVar "kwargs") "bondopts" (str ""));
      SAttr "self" "vlanid" (EGet (EVar "kwargs") "vlanid" (str ""));
      SAttr "self" "ipv6gateway" (EGet (EVar "kwargs") "ipv6gateway" (str ""))]));
  (* commands/network.py:187-199 *)
  ("_getArgsAsStr", mkMethod []
      (steps [SCall "_t1" (TClass "F16_NetworkData") "_getArgsAsStr" [];
      SAssign "retval" (EVar "_t1");
      SIf (EAttr (EVar "self") "bondslaves")
      (SAssign "retval" (EBin BAdd (EVar "retval") (EBin BAdd (str " --bondslaves=") (EUn UStr (EAttr (EVar "self") "bondslaves")))))
      SPass;
      SIf (EAttr (EVar "self") "bondopts")
      (SAssign "retval" (EBin BAdd (EVar "retval") (EBin BAdd (str " --bondopts=") (EUn UStr (EAttr (EVar "self") "bondopts")))))
      SPass;
      SIf (EAttr (EVar "self") "vlanid")
      (SAssign "retval" (EBin BAdd (EVar "retval") (EBin BAdd (str " --vlanid=") (EUn UStr (EAttr (EVar "self") "vlanid")))))
      SPass;
      SIf (EAttr (EVar "self") "ipv6gateway")
      (SAssign "retval" (EBin BAdd (EVar "retval") (EBin BAdd (str " --ipv6gateway=") (EUn UStr (EAttr (EVar "self") "ipv6gateway")))))
      SPass;
      SReturn (EVar "retval")]))].
Definition m_F20_NetworkData : list (string * method) := [
  (* commands/network.py:205-208 *)
  ("__init__", mkMethod [("kwargs", None)]
      (steps [SCall "_t1" (TClass "F19_NetworkData") "__init__" [("kwargs", (EVar "kwargs"))];
      SAttr "self" "teamslaves" (EGet (EVar "kwargs") "teamslaves" (EConst (VStrs [])));
      SAttr "self" "teamconfig" (EGet (EVar "kwargs") "teamconfig" (str ""))]));
  (* commands/network.py:210-224 *)
  ("_getArgsAsStr", mkMethod []
      (steps [SCall "_t1" (TClass "F19_NetworkData") "_getArgsAsStr" [];
      SAssign "retval" (EVar "_t1");
      SIf (EAttr (EVar "self") "teamslaves")
      (steps [SAssign "slavecfgs" (EConst (VStrs []));
      SForPairs "slave" "config" (EAttr (EVar "self") "teamslaves") (steps [SIf (EVar "config")
      (SAssign "config" (EBin BAdd (EBin BAdd (str "'") (EVar "config")) (str "'")))
      SPass;
      SAppend "slavecfgs" (EBin BAdd (EVar "slave") (EVar "config"))]);
      SAssign "slavecfgs" (EBin BEscape (EBin BJoin (str ",") (EVar "slavecfgs")) (str """"));
      SAssign "retval" (EBin BAdd (EVar "retval") (EBin BAdd (EBin BAdd (str " --teamslaves=""") (EUn UStr (EVar "slavecfgs"))) (str """")))])
      SPass;
      SIf (EAttr (EVar "self") "teamconfig")
      (SAssign "retval" (EBin BAdd (EVar "retval") (EBin BAdd (EBin BAdd (str " --teamconfig=""") (EUn UStr (EBin BEscape (EAttr (EVar "self") "teamconfig") (str """")))) (str """"))))
      SPass;
      SReturn (EVar "retval")]))].
Definition m_F21_NetworkData : list (string * method) := [
  (* commands/network.py:230-232 *)
  ("__init__", mkMethod [("kwargs", None)]
      (steps [SCall "_t1" (TClass "F20_NetworkData") "__init__" [("kwargs", (EVar "kwargs"))];
      SAttr "self" "interfacename" (EGet (EVar "kwargs") "interfacename" (str ""))]));
  (* commands/network.py:234-239 *)
  ("_getArgsAsStr", mkMethod []
      (steps [SCall "_t1" (TClass "F20_NetworkData") "_getArgsAsStr" [];
      SAssign "retval" (EVar "_t1");
      SIf (EAttr (EVar "self") "interfacename")
      (SAssign "retval" (EBin BAdd (EVar "retval") (EBin BAdd (str " --interfacename=") (EUn UStr (EAttr (EVar "self") "interfacename")))))
      SPass;
      SReturn (EVar "retval")]))].
Definition m_F22_NetworkData : list (string * method) := [
  (* commands/network.py:245-248 *)
  ("__init__", mkMethod [("kwargs", None)]
      (steps [SCall "_t1" (TClass "F21_NetworkData") "__init__" [("kwargs", (EVar "kwargs"))];
      SAttr "self" "bridgeslaves" (EGet (EVar "kwargs") "bridgeslaves" (str ""));
      SAttr "self" "bridgeopts" (EGet (EVar "kwargs") "bridgeopts" (str ""))]));
  (* commands/network.py:250-257 *)
  ("_getArgsAsStr", mkMethod []
      (steps [SCall "_t1" (TClass "F21_NetworkData") "_getArgsAsStr" [];
      SAssign "retval" (EVar "_t1");
      SIf (EAttr (EVar "self") "bridgeslaves")
      (SAssign "retval" (EBin BAdd (EVar "retval") (EBin BAdd (str " --bridgeslaves=") (EUn UStr (EAttr (EVar "self") "bridgeslaves")))))
      SPass;
      SIf (EAttr (EVar "self") "bridgeopts")
      (SAssign "retval" (EBin BAdd (EVar "retval") (EBin BAdd (str " --bridgeopts=") (EUn UStr (EAttr (EVar "self") "bridgeopts")))))
      SPass;
      SReturn (EVar "retval")]))].
Definition m_F25_NetworkData : list (string * method) := [
  (* commands/network.py:263-267 *)
  ("_getArgsAsStr", mkMethod []
      (steps [SCall "_t1" (TClass "F22_NetworkData") "_getArgsAsStr" [];
      SAssign "retval" (EVar "_t1");
      SIf (EBin BEq (EAttr (EVar "self") "activate") (EConst (VBool false)))
      (SAssign "retval" (EBin BAdd (EVar "retval") (str " --no-activate")))
      SPass;
      SReturn (EVar "retval")]))].
Definition m_F27_NetworkData : list (string * method) := [
  (* commands/network.py:273-275 *)
  ("__init__", mkMethod [("kwargs", None)]
      (steps [SCall "_t1" (TClass "F25_NetworkData") "__init__" [("kwargs", (EVar "kwargs"))];
      SAttr "self" "bindto" (EGet (EVar "kwargs") "bindto" (EConst VNone))]));
  (* commands/network.py:277-281 *)
  ("_getArgsAsStr", mkMethod []
      (steps [SCall "_t1" (TClass "F25_NetworkData") "_getArgsAsStr" [];
      SAssign "retval" (EVar "_t1");
      SIf (EBin BEq (EAttr (EVar "self") "bindto") (str "mac"))
      (SAssign "retval" (EBin BAdd (EVar "retval") (EBin BAdd (str " --bindto=") (EUn UStr (EAttr (EVar "self") "bindto")))))
      SPass;
      SReturn (EVar "retval")]))].
Definition m_RHEL4_NetworkData : list (string * method) := [
  (* commands/network.py:287-289 *)
  ("__init__", mkMethod [("kwargs", None)]
      (steps [SCall "_t1" (TClass "FC3_NetworkData") "__init__" [("kwargs", (EVar "kwargs"))];
      SAttr "self" "notksdevice" (EGet (EVar "kwargs") "notksdevice" (EConst (VBool false)))]));
  (* commands/network.py:291-297 *)
  ("_getArgsAsStr", mkMethod []
      (steps [SCall "_t1" (TClass "FC3_NetworkData") "_getArgsAsStr" [];
      SAssign "retval" (EVar "_t1");
      SIf (EAttr (EVar "self") "notksdevice")
      (SAssign "retval" (EBin BAdd (EVar "retval") (str " --notksdevice")))
      SPass;
      SReturn (EVar "retval")]))].
Definition m_RHEL6_NetworkData : list (string * method) := [
  (* commands/network.py:303-309 *)
  ("__init__", mkMethod [("kwargs", None)]
      (steps [SCall "_t1" (TClass "F8_NetworkData") "__init__" [("kwargs", (EVar "kwargs"))];
      SAttr "self" "activate" (EGet (EVar "kwargs") "activate" (EConst VNone));
      SAttr "self" "nodefroute" (EGet (EVar "kwargs") "nodefroute" (EConst (VBool false)));
      SAttr "self" "vlanid" (EGet (EVar "kwargs") "vlanid" (str ""));
      SAttr "self" "bondslaves" (EGet (EVar "kwargs") "bondslaves" (str ""));
      SAttr "self" "bondopts" (EGet (EVar "kwargs") "bondopts" (str ""))]));
  (* commands/network.py:311-325 *)
  ("_getArgsAsStr", mkMethod []
      (steps [SCall "_t1" (TClass "F8_NetworkData") "_getArgsAsStr" [];
      SAssign "retval" (EVar "_t1");
      SIf (EAttr (EVar "self") "activate")
      (SAssign "retval" (EBin BAdd (EVar "retval") (str " --activate")))
      SPass;
      SIf (EAttr (EVar "self") "nodefroute")
      (SAssign "retval" (EBin BAdd (EVar "retval") (str " --nodefroute")))
      SPass;
      SIf (EAttr (EVar "self") "vlanid")
      (SAssign "retval" (EBin BAdd (EVar "retval") (EBin BAdd (str " --vlanid=") (EUn UStr (EAttr (EVar "self") "vlanid")))))
      SPass;
      SIf (EAttr (EVar "self") "bondslaves")
      (SAssign "retval" (EBin BAdd (EVar "retval") (EBin BAdd (str " --bondslaves=") (EUn UStr (EAttr (EVar "self") "bondslaves")))))
      SPass;
      SIf (EAttr (EVar "self") "bondopts")
      (SAssign "retval" (EBin BAdd (EVar "retval") (EBin BAdd (str " --bondopts=") (EUn UStr (EAttr (EVar "self") "bondopts")))))
      SPass;
      SReturn (EVar "retval")]))].
Definition m_RHEL7_NetworkData : list (string * method) := [
  (* commands/network.py:331-335 *)
  ("__init__", mkMethod [("kwargs", None)]
      (steps [SCall "_t1" (TClass "F21_NetworkData") "__init__" [("kwargs", (EVar "kwargs"))];
      SAttr "self" "bridgeslaves" (EGet (EVar "kwargs") "bridgeslaves" (str ""));
      SAttr "self" "bridgeopts" (EGet (EVar "kwargs") "bridgeopts" (str ""));
      SAttr "self" "bindto" (EGet (EVar "kwargs") "bindto" (EConst VNone))]));
  (* commands/network.py:337-348 *)
  ("_getArgsAsStr", mkMethod []
      (steps [SCall "_t1" (TClass "F21_NetworkData") "_getArgsAsStr" [];
      SAssign "retval" (EVar "_t1");
      SIf (EAttr (EVar "self") "bridgeslaves")
      (SAssign "retval" (EBin BAdd (EVar "retval") (EBin BAdd (str " --bridgeslaves=") (EUn UStr (EAttr (EVar "self") "bridgeslaves")))))
      SPass;
      SIf (EAttr (EVar "self") "bridgeopts")
      (SAssign "retval" (EBin BAdd (EVar "retval") (EBin BAdd (str " --bridgeopts=") (EUn UStr (EAttr (EVar "self") "bridgeopts")))))
      SPass;
      SIf (EBin BEq (EAttr (EVar "self") "activate") (EConst (VBool false)))
      (SAssign "retval" (EBin BAdd (EVar "retval") (str " --no-activate")))
      SPass;
      SIf (EBin BEq (EAttr (EVar "self") "bindto") (str "mac"))
      (SAssign "retval" (EBin BAdd (EVar "retval") (EBin BAdd (str " --bindto=") (EUn UStr (EAttr (EVar "self") "bindto")))))
      SPass;
      SReturn (EVar "retval")]))].
Definition m_FC3_Network : list (string * method) := [
  (* commands/network.py:354-361 *)
  ("__init__", mkMethod [("writePriority", (Some (VInt 0))); ("kwargs", None)]
      (steps [SCall "_t1" (TClass "KickstartCommand") "__init__" [("writePriority", (EVar "writePriority")); ("kwargs", (EVar "kwargs"))];
      SAttr "self" "bootprotoList" (EConst (VStrs ["dhcp"; "bootp"; "static"]))]));
  (* commands/network.py:363-372 *)
  ("__str__", mkMethod []
      (steps [SAssign "retval" (str "");
      SForData "nic" (SAssign "retval" (EBin BAdd (EVar "retval") (EDataStr (EVar "nic"))));
      SIf (EVar "retval")
      (SReturn (EBin BAdd (str "# Network information
") (EVar "retval")))
      (SReturn (str ""))]));
  (* commands/network.py:463-473 *)
  ("parse", mkMethod []
      (steps [SParse "ns";
      SCall "_t1" TSelf "dataClass" [];
      SAssign "nd" (EVar "_t1");
      SSetTo "ns" "nd";
      SAttr "nd" "lineno" (EAttr (EVar "self") "lineno");
      SReturn (EVar "nd")]));
  (* commands/network.py:479-480 *)
  ("dataClass", mkMethod []
      (SReturn (ENew "NetworkData")))].
Definition m_FC4_Network : list (string * method) := [].
Definition m_FC6_Network : list (string * method) := [].
Definition m_F8_Network : list (string * method) := [].
Definition m_F9_Network : list (string * method) := [
  (* commands/network.py:523-525 *)
  ("__init__", mkMethod [("writePriority", (Some (VInt 0))); ("kwargs", None)]
      (steps [SCall "_t1" (TClass "F8_Network") "__init__" [("writePriority", (EVar "writePriority")); ("kwargs", (EVar "kwargs"))];
      SAttr "self" "bootprotoList" (EBin BAdd (EAttr (EVar "self") "bootprotoList") (EConst (VStrs ["query"])))]))].
Definition m_F16_Network : list (string * method) := [
  (* commands/network.py:543-545 *)
  ("__init__", mkMethod [("writePriority", (Some (VInt 0))); ("kwargs", None)]
      (steps [SCall "_t1" (TClass "F9_Network") "__init__" [("writePriority", (EVar "writePriority")); ("kwargs", (EVar "kwargs"))];
      SAttr "self" "bootprotoList" (EBin BAdd (EAttr (EVar "self") "bootprotoList") (EConst (VStrs ["ibft"])))]))].
Definition m_F18_Network : list (string * method) := [].
Definition m_F19_Network : list (string * method) := [].
Definition m_F20_Network : list (string * method) := [].
Definition m_F21_Network : list (string * method) := [].
Definition m_F22_Network : list (string * method) := [
  (* commands/network.py:728-743 *)
  ("parse", mkMethod []
      (steps [SCall "_t1" (TClass "F21_Network") "parse" [];
      SAssign "retval" (EVar "_t1");
      SIf (EAttr (EVar "retval") "bridgeopts")
      (steps [SIf (EUn UNot (EAttr (EVar "retval") "bridgeslaves"))
      (SRaise true "Option --bridgeopts requires --bridgeslaves to be specified")
      SPass;
      SAssign "opts" (EBin BSplit (str ",") (EAttr (EVar "retval") "bridgeopts"));
      SFor "opt" (EVar "opts") (steps [SPartition "_key" "_sep" "value" "=" (EVar "opt");
      SIf (EOr (EUn UNot (EVar "value")) (EBin BIn (str "=") (EVar "value")))
      (SRaise true "Bad format of --bridgeopts, expecting key=value options separated by ','")
      SPass])])
      SPass;
      SReturn (EVar "retval")]))].
Definition m_F24_Network : list (string * method) := [
  (* commands/network.py:749-756 *)
  ("parse", mkMethod []
      (steps [SCall "_t1" (TClass "F22_Network") "parse" [];
      SAssign "retval" (EVar "_t1");
      SIf (EAttr (EVar "retval") "noipv4")
      (SAttr "retval" "bootProto" (str ""))
      SPass;
      SReturn (EVar "retval")]))].
Definition m_F25_Network : list (string * method) := [].
Definition m_F27_Network : list (string * method) := [
  (* commands/network.py:774-776 *)
  ("__init__", mkMethod [("writePriority", (Some (VInt 0))); ("kwargs", None)]
      (steps [SAttr "self" "bind_to_choices" (EConst (VStrs ["mac"]));
      SCall "_t1" (TClass "F25_Network") "__init__" [("writePriority", (EVar "writePriority")); ("kwargs", (EVar "kwargs"))]]));
  (* commands/network.py:816-825 *)
  ("parse", mkMethod []
      (steps [SCall "_t1" (TClass "F25_Network") "parse" [];
      SAssign "retval" (EVar "_t1");
      SIf (EBin BEq (EAttr (EVar "retval") "bindto") (str "mac"))
      (SIf (EAnd (EAttr (EVar "retval") "vlanid") (EUn UNot (EAttr (EVar "retval") "bondopts")))
      (SRaise true "--bindto=%s is not supported for this type of device")
      SPass)
      SPass;
      SReturn (EVar "retval")]))].
Definition m_RHEL4_Network : list (string * method) := [].
Definition m_RHEL5_Network : list (string * method) := [
  (* commands/network.py:841-843 *)
  ("__init__", mkMethod [("writePriority", (Some (VInt 0))); ("kwargs", None)]
      (steps [SCall "_t1" (TClass "FC6_Network") "__init__" [("writePriority", (EVar "writePriority")); ("kwargs", (EVar "kwargs"))];
      SAttr "self" "bootprotoList" (EBin BAdd (EAttr (EVar "self") "bootprotoList") (EConst (VStrs ["query"])))]))].
Definition m_RHEL6_Network : list (string * method) := [
  (* commands/network.py:861-863 *)
  ("__init__", mkMethod [("writePriority", (Some (VInt 0))); ("kwargs", None)]
      (steps [SCall "_t1" (TClass "F9_Network") "__init__" [("writePriority", (EVar "writePriority")); ("kwargs", (EVar "kwargs"))];
      SAttr "self" "bootprotoList" (EBin BAdd (EAttr (EVar "self") "bootprotoList") (EConst (VStrs ["ibft"])))]))].
Definition m_RHEL7_Network : list (string * method) := [
  (* commands/network.py:962-964 *)
  ("__init__", mkMethod [("writePriority", (Some (VInt 0))); ("kwargs", None)]
      (steps [SAttr "self" "bind_to_choices" (EConst (VStrs ["mac"]));
      SCall "_t1" (TClass "F21_Network") "__init__" [("writePriority", (EVar "writePriority")); ("kwargs", (EVar "kwargs"))]]));
  (* commands/network.py:1025-1051 *)
  ("parse", mkMethod []
      (steps [SCall "_t1" (TClass "F21_Network") "parse" [];
      SAssign "retval" (EVar "_t1");
      SAssign "error_message" (EUn UBadName (EAttr (EVar "retval") "interfacename"));
      SIf (EVar "error_message")
      (SRaise true "error_message")
      SPass;
      SIf (EAttr (EVar "retval") "bridgeopts")
      (steps [SIf (EUn UNot (EAttr (EVar "retval") "bridgeslaves"))
      (SRaise true "Option --bridgeopts requires --bridgeslaves to be specified")
      SPass;
      SAssign "opts" (EBin BSplit (str ",") (EAttr (EVar "retval") "bridgeopts"));
      SFor "opt" (EVar "opts") (steps [SPartition "_key" "_sep" "value" "=" (EVar "opt");
      SIf (EOr (EUn UNot (EVar "value")) (EBin BIn (str "=") (EVar "value")))
      (SRaise true "Bad format of --bridgeopts, expecting key=value options separated by ','")
      SPass])])
      SPass;
      SIf (EBin BEq (EAttr (EVar "retval") "bindto") (str "mac"))
      (SIf (EAnd (EAttr (EVar "retval") "vlanid") (EUn UNot (EAttr (EVar "retval") "bondopts")))
      (SRaise true "--bindto=%s is not supported for this type of device")
      SPass)
      SPass;
      SReturn (EVar "retval")]))].
Definition m_FC3_NFS : list (string * method) := [
  (* commands/nfs.py:28-33 *)
  ("__init__", mkMethod [("writePriority", (Some (VInt 0))); ("kwargs", None)]
      (steps [SCall "_t1" (TClass "KickstartCommand") "__init__" [("writePriority", (EVar "writePriority")); ("kwargs", (EVar "kwargs"))];
      SAttr "self" "server" (EGet (EVar "kwargs") "server" (EConst VNone));
      SAttr "self" "dir" (EGet (EVar "kwargs") "dir" (EConst VNone))]));
  (* commands/nfs.py:44-50 *)
  ("__str__", mkMethod []
      (steps [SCall "_t1" (TClass "KickstartCommand") "__str__" [];
      SAssign "retval" (EVar "_t1");
      SIf (EUn UNot (EAttr (EVar "self") "seen"))
      (SReturn (EVar "retval"))
      SPass;
      SAssign "retval" (EBin BAdd (EVar "retval") (EBin BAdd (EBin BAdd (EBin BAdd (EBin BAdd (str "# Use NFS installation media
nfs --server=") (EUn UStr (EAttr (EVar "self") "server"))) (str " --dir=")) (EUn UStr (EAttr (EVar "self") "dir"))) (str "
")));
      SReturn (EVar "retval")]));
  (* commands/nfs.py:70-73 *)
  ("parse", mkMethod []
      (steps [SParse "ns";
      SSetTo "ns" "self";
      SReturn (EVar "self")]))].
Definition m_FC6_NFS : list (string * method) := [
  (* commands/nfs.py:79-81 *)
  ("__init__", mkMethod [("writePriority", (Some (VInt 0))); ("kwargs", None)]
      (steps [SCall "_t1" (TClass "FC3_NFS") "__init__" [("writePriority", (EVar "writePriority")); ("kwargs", (EVar "kwargs"))];
      SAttr "self" "opts" (EGet (EVar "kwargs") "opts" (EConst VNone))]));
  (* commands/nfs.py:89-96 *)
  ("__str__", mkMethod []
      (steps [SCall "_t1" (TClass "FC3_NFS") "__str__" [];
      SAssign "retval" (EVar "_t1");
      SIf (EAnd (EAttr (EVar "self") "seen") (EAttr (EVar "self") "opts"))
      (steps [SAssign "retval" (EUn URstrip (EVar "retval"));
      SAssign "retval" (EBin BAdd (EVar "retval") (EBin BAdd (EBin BAdd (str " --opts=""") (EUn UStr (EAttr (EVar "self") "opts"))) (str """
")))])
      SPass;
      SReturn (EVar "retval")]))].
Definition m_F28_NvdimmData : list (string * method) := [
  (* commands/nvdimm.py:36-42 *)
  ("__init__", mkMethod [("kwargs", None)]
      (steps [SCall "_t1" (TClass "BaseData") "__init__" [("kwargs", (EVar "kwargs"))];
      SAttr "self" "action" (EGet (EVar "kwargs") "action" (EConst VNone));
      SAttr "self" "namespace" (EGet (EVar "kwargs") "namespace" (str ""));
      SAttr "self" "mode" (EGet (EVar "kwargs") "mode" (EConst VNone));
      SAttr "self" "sectorsize" (EGet (EVar "kwargs") "sectorsize" (EConst VNone));
      SAttr "self" "blockdevs" (EGet (EVar "kwargs") "blockdevs" (EConst (VStrs [])))]));
  (* commands/nvdimm.py:54-69 *)
  ("_getArgsAsStr", mkMethod []
      (steps [SAssign "retval" (EUn UStr (EAttr (EVar "self") "action"));
      SIf (EBin BEq (EAttr (EVar "self") "action") (str "reconfigure"))
      (steps [SIf (EAttr (EVar "self") "namespace")
      (SAssign "retval" (EBin BAdd (EVar "retval") (EBin BAdd (str " --namespace=") (EUn UStr (EAttr (EVar "self") "namespace")))))
      SPass;
      SIf (EBin BEq (EAttr (EVar "self") "mode") (str "sector"))
      (steps [SAssign "retval" (EBin BAdd (EVar "retval") (EBin BAdd (str " --mode=") (EUn UStr (str "sector"))));
      SIf (EAttr (EVar "self") "sectorsize")
      (SAssign "retval" (EBin BAdd (EVar "retval") (EBin BAdd (str " --sectorsize=") (EUn UDec (EAttr (EVar "self") "sectorsize")))))
      SPass])
      SPass])
      (SIf (EBin BEq (EAttr (EVar "self") "action") (str "use"))
      (steps [SIf (EAttr (EVar "self") "namespace")
      (SAssign "retval" (EBin BAdd (EVar "retval") (EBin BAdd (str " --namespace=") (EUn UStr (EAttr (EVar "self") "namespace")))))
      SPass;
      SIf (EAttr (EVar "self") "blockdevs")
      (SAssign "retval" (EBin BAdd (EVar "retval") (EBin BAdd (str " --blockdevs=") (EUn UStr (EBin BJoin (str ",") (EAttr (EVar "self") "blockdevs"))))))
      SPass])
      SPass);
      SReturn (EVar "retval")]));
  (* commands/nvdimm.py:71-74 *)
  ("__str__", mkMethod []
      (steps [SCall "_t1" (TClass "BaseData") "__str__" [];
      SAssign "retval" (EVar "_t1");
      SCall "_t2" TSelf "_getArgsAsStr" [];
      SAssign "retval" (EBin BAdd (EVar "retval") (EBin BAdd (str "nvdimm ") (EUn UStr (EVar "_t2"))));
      SReturn (EBin BAdd (EUn UStrip (EVar "retval")) (str "
"))]))].
Definition m_F28_Nvdimm : list (string * method) := [
  (* commands/nvdimm.py:81-88 *)
  ("__init__", mkMethod [("writePriority", (Some (VInt 80))); ("kwargs", None)]
      (steps [SCall "_t1" (TClass "KickstartCommand") "__init__" [("writePriority", (EVar "writePriority")); ("kwargs", (EVar "kwargs"))];
      SAttr "self" "validActions" (EConst (VStrs ["reconfigure"; "use"]));
      SAttr "self" "validModes" (EConst (VStrs ["sector"]))]));
  (* commands/nvdimm.py:90-99 *)
  ("__str__", mkMethod []
      (steps [SAssign "retval" (str "");
      SForData "action" (SAssign "retval" (EBin BAdd (EVar "retval") (EDataStr (EVar "action"))));
      SIf (EBin BNe (EVar "retval") (str ""))
      (SAssign "retval" (EBin BAdd (EBin BAdd (str "# NVDIMM devices setup
") (EVar "retval")) (str "
")))
      SPass;
      SReturn (EVar "retval")]));
  (* commands/nvdimm.py:128-165 *)
  ("parse", mkMethod []
      (steps [SParseKnown "ns" "extra";
      SIf (EVar "extra")
      (SRaise true "Unexpected arguments to nvdimm command: %(arguments)s")
      SPass;
      SCall "_t1" TSelf "dataClass" [];
      SAssign "nvdimm_data" (EVar "_t1");
      SSetTo "ns" "nvdimm_data";
      SAttr "nvdimm_data" "lineno" (EAttr (EVar "self") "lineno");
      SAssign "action" (EBin BIndex (EAttr (EVar "ns") "action") (EConst (VInt 0)));
      SAttr "nvdimm_data" "action" (EVar "action");
      SIf (EAnd (EAttr (EVar "nvdimm_data") "namespace") (EAttr (EVar "nvdimm_data") "blockdevs"))
      (SRaise false "Only one of --namespace and --blockdevs device specifications can be used")
      SPass;
      SIf (EBin BEq (EVar "action") (str "reconfigure"))
      (steps [SIf (EUn UNot (EAttr (EVar "nvdimm_data") "namespace"))
      (SRaise false "Action %(action)s requires --namespace argument to be set")
      SPass;
      SIf (EAnd (EBin BEq (EAttr (EVar "nvdimm_data") "mode") (str "sector")) (EUn UNot (EAttr (EVar "nvdimm_data") "sectorsize")))
      (SRaise false "Action %(action)s with mode %(mode)s requires --sectorsize argument to be set")
      SPass])
      (SIf (EBin BEq (EVar "action") (str "use"))
      (SIf (EAnd (EUn UNot (EAttr (EVar "nvdimm_data") "namespace")) (EUn UNot (EAttr (EVar "nvdimm_data") "blockdevs")))
      (SRaise false "Action %(action)s requires --namespace or --blockdevs argument to be set")
      SPass)
      SPass);
      SReturn (EVar "nvdimm_data")]));
  (* commands/nvdimm.py:171-172 *)
  ("dataClass", mkMethod []
      (SReturn (ENew "NvdimmData")))].
Definition m_F21_OSTreeSetup : list (string * method) := [
  (* commands/ostreesetup.py:27-34 *)
  ("__init__", mkMethod [("kwargs", None)]
      (steps [SCall "_t1" (TClass "KickstartCommand") "__init__" [("kwargs", (EVar "kwargs"))];
      SAttr "self" "osname" (EGet (EVar "kwargs") "osname" (EConst VNone));
      SAttr "self" "remote" (EGet (EVar "kwargs") "remote" (EAttr (EVar "self") "osname"));
      SAttr "self" "url" (EGet (EVar "kwargs") "url" (EConst VNone));
      SAttr "self" "ref" (EGet (EVar "kwargs") "ref" (EConst VNone));
      SAttr "self" "nogpg" (EGet (EVar "kwargs") "nogpg" (EConst (VBool false)))]));
  (* commands/ostreesetup.py:36-43 *)
  ("__str__", mkMethod []
      (steps [SCall "_t1" (TClass "KickstartCommand") "__str__" [];
      SAssign "retval" (EVar "_t1");
      SIf (EAttr (EVar "self") "osname")
      (steps [SAssign "retval" (EBin BAdd (EVar "retval") (str "# OSTree setup
"));
      SCall "_t2" TSelf "_getArgsAsStr" [];
      SAssign "retval" (EBin BAdd (EVar "retval") (EBin BAdd (EBin BAdd (str "ostreesetup ") (EUn UStr (EVar "_t2"))) (str "
")))])
      SPass;
      SReturn (EVar "retval")]));
  (* commands/ostreesetup.py:45-57 *)
  ("_getArgsAsStr", mkMethod []
      (steps [SAssign "retcmd" (EConst (VStrs []));
      SIf (EAttr (EVar "self") "osname")
      (SAppend "retcmd" (EBin BAdd (EBin BAdd (str "--osname=""") (EUn UStr (EAttr (EVar "self") "osname"))) (str """")))
      SPass;
      SIf (EAttr (EVar "self") "remote")
      (SAppend "retcmd" (EBin BAdd (EBin BAdd (str "--remote=""") (EUn UStr (EAttr (EVar "self") "remote"))) (str """")))
      SPass;
      SIf (EAttr (EVar "self") "url")
      (SAppend "retcmd" (EBin BAdd (EBin BAdd (str "--url=""") (EUn UStr (EAttr (EVar "self") "url"))) (str """")))
      SPass;
      SIf (EAttr (EVar "self") "ref")
      (SAppend "retcmd" (EBin BAdd (EBin BAdd (str "--ref=""") (EUn UStr (EAttr (EVar "self") "ref"))) (str """")))
      SPass;
      SIf (EAttr (EVar "self") "nogpg")
      (SAppend "retcmd" (str "--nogpg"))
      SPass;
      SReturn (EBin BJoin (str " ") (EVar "retcmd"))]));
  (* commands/ostreesetup.py:77-86 *)
  ("parse", mkMethod []
      (steps [SParse "ns";
      SSetTo "ns" "self";
      SIf (EUn UNot (EAttr (EVar "self") "remote"))
      (SAttr "self" "remote" (EAttr (EVar "self") "osname"))
      SPass;
      SIf (EUn UNot (EBin BStarts (EAttr (EVar "self") "url") (EConst (VStrs ["file:"; "http:"; "https:"]))))
      (SRaise true "ostree repos must use file, HTTP or HTTPS protocol.")
      SPass;
      SReturn (EVar "self")]))].
Definition m_RHEL7_OSTreeSetup : list (string * method) := [].
Definition m_RHEL8_OSTreeSetup : list (string * method) := [].
Definition m_FC3_PartData : list (string * method) := [
  (* commands/partition.py:33-48 *)
  ("__init__", mkMethod [("kwargs", None)]
      (steps [SCall "_t1" (TClass "BaseData") "__init__" [("kwargs", (EVar "kwargs"))];
      SAttr "self" "active" (EGet (EVar "kwargs") "active" (EConst (VBool false)));
      SAttr "self" "primOnly" (EGet (EVar "kwargs") "primOnly" (EConst (VBool false)));
      SAttr "self" "end" (EGet (EVar "kwargs") "end" (EConst (VInt 0)));
      SAttr "self" "fstype" (EGet (EVar "kwargs") "fstype" (str ""));
      SAttr "self" "grow" (EGet (EVar "kwargs") "grow" (EConst (VBool false)));
      SAttr "self" "maxSizeMB" (EGet (EVar "kwargs") "maxSizeMB" (EConst (VInt 0)));
      SAttr "self" "format" (EGet (EVar "kwargs") "format" (EConst (VBool true)));
      SAttr "self" "onbiosdisk" (EGet (EVar "kwargs") "onbiosdisk" (str ""));
      SAttr "self" "disk" (EGet (EVar "kwargs") "disk" (str ""));
      SAttr "self" "onPart" (EGet (EVar "kwargs") "onPart" (str ""));
      SAttr "self" "recommended" (EGet (EVar "kwargs") "recommended" (EConst (VBool false)));
      SAttr "self" "size" (EGet (EVar "kwargs") "size" (EConst VNone));
      SAttr "self" "start" (EGet (EVar "kwargs") "start" (EConst (VInt 0)));
      SAttr "self" "mountpoint" (EGet (EVar "kwargs") "mountpoint" (str ""))]));
  (* commands/partition.py:59-89 *)
  ("_getArgsAsStr", mkMethod []
      (steps [SAssign "retval" (str "");
      SIf (EAttr (EVar "self") "active")
      (SAssign "retval" (EBin BAdd (EVar "retval") (str " --active")))
      SPass;
      SIf (EAttr (EVar "self") "primOnly")
      (SAssign "retval" (EBin BAdd (EVar "retval") (str " --asprimary")))
      SPass;
      SIf (EAnd (EHas (EVar "self") "end") (EBin BNe (EAttr (EVar "self") "end") (EConst (VInt 0))))
      (SAssign "retval" (EBin BAdd (EVar "retval") (EBin BAdd (str " --end=") (EUn UStr (EAttr (EVar "self") "end")))))
      SPass;
      SIf (EAttr (EVar "self") "fstype")
      (SAssign "retval" (EBin BAdd (EVar "retval") (EBin BAdd (EBin BAdd (str " --fstype=""") (EUn UStr (EAttr (EVar "self") "fstype"))) (str """"))))
      SPass;
      SIf (EAttr (EVar "self") "grow")
      (SAssign "retval" (EBin BAdd (EVar "retval") (str " --grow")))
      SPass;
      SIf (EBin BGt (EAttr (EVar "self") "maxSizeMB") (EConst (VInt 0)))
      (SAssign "retval" (EBin BAdd (EVar "retval") (EBin BAdd (str " --maxsize=") (EUn UDec (EAttr (EVar "self") "maxSizeMB")))))
      SPass;
      SIf (EUn UNot (EAttr (EVar "self") "format"))
      (SAssign "retval" (EBin BAdd (EVar "retval") (str " --noformat")))
      SPass;
      SIf (EAttr (EVar "self") "onbiosdisk")
      (SAssign "retval" (EBin BAdd (EVar "retval") (EBin BAdd (str " --onbiosdisk=") (EUn UStr (EAttr (EVar "self") "onbiosdisk")))))
      SPass;
      SIf (EAttr (EVar "self") "disk")
      (SAssign "retval" (EBin BAdd (EVar "retval") (EBin BAdd (str " --ondisk=") (EUn UStr (EAttr (EVar "self") "disk")))))
      SPass;
      SIf (EAttr (EVar "self") "onPart")
      (SAssign "retval" (EBin BAdd (EVar "retval") (EBin BAdd (str " --onpart=") (EUn UStr (EAttr (EVar "self") "onPart")))))
      SPass;
      SIf (EAttr (EVar "self") "recommended")
      (SAssign "retval" (EBin BAdd (EVar "retval") (str " --recommended")))
      SPass;
      SIf (EAnd (EAttr (EVar "self") "size") (EBin BNe (EAttr (EVar "self") "size") (EConst (VInt 0))))
      (SAssign "retval" (EBin BAdd (EVar "retval") (EBin BAdd (str " --size=") (EUn UStr (EAttr (EVar "self") "size")))))
      SPass;
      SIf (EAnd (EHas (EVar "self") "start") (EBin BNe (EAttr (EVar "self") "start") (EConst (VInt 0))))
      (SAssign "retval" (EBin BAdd (EVar "retval") (EBin BAdd (str " --start=") (EUn UStr (EAttr (EVar "self") "start")))))
      SPass;
      SReturn (EVar "retval")]));
  (* commands/partition.py:91-94 *)
  ("__str__", mkMethod []
      (steps [SCall "_t1" (TClass "BaseData") "__str__" [];
      SAssign "retval" (EVar "_t1");
      SCall "_t2" TSelf "_getArgsAsStr" [];
      SAssign "retval" (EBin BAdd (EVar "retval") (EBin BAdd (EBin BAdd (EBin BAdd (str "part ") (EUn UStr (EAttr (EVar "self") "mountpoint"))) (EUn UStr (EVar "_t2"))) (str "
")));
      SReturn (EVar "retval")]))].
Definition m_FC4_PartData : list (string * method) := [
  (* commands/partition.py:100-104 *)
  ("__init__", mkMethod [("kwargs", None)]
      (steps [SCall "_t1" (TClass "FC3_PartData") "__init__" [("kwargs", (EVar "kwargs"))];
      SAttr "self" "bytesPerInode" (EGet (EVar "kwargs") "bytesPerInode" (EConst (VInt 4096)));
      SAttr "self" "fsopts" (EGet (EVar "kwargs") "fsopts" (str ""));
      SAttr "self" "label" (EGet (EVar "kwargs") "label" (str ""))]));
  (* commands/partition.py:106-116 *)
  ("_getArgsAsStr", mkMethod []
      (steps [SCall "_t1" (TClass "FC3_PartData") "_getArgsAsStr" [];
      SAssign "retval" (EVar "_t1");
      SIf (EAnd (EHas (EVar "self") "bytesPerInode") (EBin BNe (EAttr (EVar "self") "bytesPerInode") (EConst (VInt 0))))
      (SAssign "retval" (EBin BAdd (EVar "retval") (EBin BAdd (str " --bytes-per-inode=") (EUn UDec (EAttr (EVar "self") "bytesPerInode")))))
      SPass;
      SIf (EAttr (EVar "self") "fsopts")
      (SAssign "retval" (EBin BAdd (EVar "retval") (EBin BAdd (EBin BAdd (str " --fsoptions=""") (EUn UStr (EAttr (EVar "self") "fsopts"))) (str """"))))
      SPass;
      SIf (EAttr (EVar "self") "label")
      (SAssign "retval" (EBin BAdd (EVar "retval") (EBin BAdd (str " --label=") (EUn UStr (EAttr (EVar "self") "label")))))
      SPass;
      SReturn (EVar "retval")]))].
Definition m_RHEL5_PartData : list (string * method) := [
  (* commands/partition.py:122-125 *)
  ("__init__", mkMethod [("kwargs", None)]
      (steps [SCall "_t1" (TClass "FC4_PartData") "__init__" [("kwargs", (EVar "kwargs"))];
      SAttr "self" "encrypted" (EGet (EVar "kwargs") "encrypted" (EConst (VBool false)));
      SAttr "self" "passphrase" (EGet (EVar "kwargs") "passphrase" (str ""))]));
  (* commands/partition.py:127-136 *)
  ("_getArgsAsStr", mkMethod []
      (steps [SCall "_t1" (TClass "FC4_PartData") "_getArgsAsStr" [];
      SAssign "retval" (EVar "_t1");
      SIf (EAttr (EVar "self") "encrypted")
      (steps [SAssign "retval" (EBin BAdd (EVar "retval") (str " --encrypted"));
      SIf (EAttr (EVar "self") "passphrase")
      (SAssign "retval" (EBin BAdd (EVar "retval") (EBin BAdd (EBin BAdd (str " --passphrase=""") (EUn UStr (EAttr (EVar "self") "passphrase"))) (str """"))))
      SPass])
      SPass;
      SReturn (EVar "retval")]))].
Definition m_F9_PartData : list (string * method) := [
  (* commands/partition.py:142-150 *)
  ("__init__", mkMethod [("kwargs", None)]
      (steps [SCall "_t1" (TClass "FC4_PartData") "__init__" [("kwargs", (EVar "kwargs"))];
      SDelRemoved [];
      SAttr "self" "fsopts" (EGet (EVar "kwargs") "fsopts" (str ""));
      SAttr "self" "label" (EGet (EVar "kwargs") "label" (str ""));
      SAttr "self" "fsprofile" (EGet (EVar "kwargs") "fsprofile" (str ""));
      SAttr "self" "encrypted" (EGet (EVar "kwargs") "encrypted" (EConst (VBool false)));
      SAttr "self" "passphrase" (EGet (EVar "kwargs") "passphrase" (str ""))]));
  (* commands/partition.py:152-163 *)
  ("_getArgsAsStr", mkMethod []
      (steps [SCall "_t1" (TClass "FC4_PartData") "_getArgsAsStr" [];
      SAssign "retval" (EVar "_t1");
      SIf (EAttr (EVar "self") "fsprofile")
      (SAssign "retval" (EBin BAdd (EVar "retval") (EBin BAdd (EBin BAdd (str " --fsprofile=""") (EUn UStr (EAttr (EVar "self") "fsprofile"))) (str """"))))
      SPass;
      SIf (EAttr (EVar "self") "encrypted")
      (steps [SAssign "retval" (EBin BAdd (EVar "retval") (str " --encrypted"));
      SIf (EAttr (EVar "self") "passphrase")
      (SAssign "retval" (EBin BAdd (EVar "retval") (EBin BAdd (EBin BAdd (str " --passphrase=""") (EUn UStr (EAttr (EVar "self") "passphrase"))) (str """"))))
      SPass])
      SPass;
      SReturn (EVar "retval")]))].
Definition m_F11_PartData : list (string * method) := [].
Definition m_F12_PartData : list (string * method) := [
  (* commands/partition.py:173-177 *)
  ("__init__", mkMethod [("kwargs", None)]
      (steps [SCall "_t1" (TClass "F11_PartData") "__init__" [("kwargs", (EVar "kwargs"))];
      SAttr "self" "escrowcert" (EGet (EVar "kwargs") "escrowcert" (str ""));
      SAttr "self" "backuppassphrase" (EGet (EVar "kwargs") "backuppassphrase" (EConst (VBool false)))]));
  (* commands/partition.py:179-188 *)
  ("_getArgsAsStr", mkMethod []
      (steps [SCall "_t1" (TClass "F11_PartData") "_getArgsAsStr" [];
      SAssign "retval" (EVar "_t1");
      SIf (EAnd (EAttr (EVar "self") "encrypted") (EAttr (EVar "self") "escrowcert"))
      (steps [SAssign "retval" (EBin BAdd (EVar "retval") (EBin BAdd (EBin BAdd (str " --escrowcert=""") (EUn UStr (EAttr (EVar "self") "escrowcert"))) (str """")));
      SIf (EAttr (EVar "self") "backuppassphrase")
      (SAssign "retval" (EBin BAdd (EVar "retval") (str " --backuppassphrase")))
      SPass])
      SPass;
      SReturn (EVar "retval")]))].
Definition m_RHEL6_PartData : list (string * method) := [
  (* commands/partition.py:194-198 *)
  ("__init__", mkMethod [("kwargs", None)]
      (steps [SCall "_t1" (TClass "F12_PartData") "__init__" [("kwargs", (EVar "kwargs"))];
      SAttr "self" "cipher" (EGet (EVar "kwargs") "cipher" (str ""));
      SAttr "self" "hibernation" (EGet (EVar "kwargs") "hibernation" (EConst (VBool false)))]));
  (* commands/partition.py:200-208 *)
  ("_getArgsAsStr", mkMethod []
      (steps [SCall "_t1" (TClass "F12_PartData") "_getArgsAsStr" [];
      SAssign "retval" (EVar "_t1");
      SIf (EAnd (EAttr (EVar "self") "encrypted") (EAttr (EVar "self") "cipher"))
      (SAssign "retval" (EBin BAdd (EVar "retval") (EBin BAdd (EBin BAdd (str " --cipher=""") (EUn UStr (EAttr (EVar "self") "cipher"))) (str """"))))
      SPass;
      SIf (EAttr (EVar "self") "hibernation")
      (SAssign "retval" (EBin BAdd (EVar "retval") (str " --hibernation")))
      SPass;
      SReturn (EVar "retval")]))].
Definition m_F14_PartData : list (string * method) := [].
Definition m_F17_PartData : list (string * method) := [
  (* commands/partition.py:217-220 *)
  ("__init__", mkMethod [("kwargs", None)]
      (steps [SCall "_t1" (TClass "F14_PartData") "__init__" [("kwargs", (EVar "kwargs"))];
      SAttr "self" "resize" (EGet (EVar "kwargs") "resize" (EConst (VBool false)))]));
  (* commands/partition.py:222-228 *)
  ("_getArgsAsStr", mkMethod []
      (steps [SCall "_t1" (TClass "F14_PartData") "_getArgsAsStr" [];
      SAssign "retval" (EVar "_t1");
      SIf (EAttr (EVar "self") "resize")
      (SAssign "retval" (EBin BAdd (EVar "retval") (str " --resize")))
      SPass;
      SReturn (EVar "retval")]))].
Definition m_F18_PartData : list (string * method) := [
  (* commands/partition.py:234-238 *)
  ("__init__", mkMethod [("kwargs", None)]
      (steps [SCall "_t1" (TClass "F17_PartData") "__init__" [("kwargs", (EVar "kwargs"))];
      SAttr "self" "hibernation" (EGet (EVar "kwargs") "hibernation" (EConst (VBool false)));
      SAttr "self" "cipher" (EGet (EVar "kwargs") "cipher" (str ""))]));
  (* commands/partition.py:240-249 *)
  ("_getArgsAsStr", mkMethod []
      (steps [SCall "_t1" (TClass "F17_PartData") "_getArgsAsStr" [];
      SAssign "retval" (EVar "_t1");
      SIf (EAttr (EVar "self") "hibernation")
      (SAssign "retval" (EBin BAdd (EVar "retval") (str " --hibernation")))
      SPass;
      SIf (EAnd (EAttr (EVar "self") "encrypted") (EAttr (EVar "self") "cipher"))
      (SAssign "retval" (EBin BAdd (EVar "retval") (EBin BAdd (EBin BAdd (str " --cipher=""") (EUn UStr (EAttr (EVar "self") "cipher"))) (str """"))))
      SPass;
      SReturn (EVar "retval")]))].
Definition m_F23_PartData : list (string * method) := [
  (* commands/partition.py:252-255 *)
  ("__init__", mkMethod [("kwargs", None)]
      (steps [SCall "_t1" (TClass "F18_PartData") "__init__" [("kwargs", (EVar "kwargs"))];
      SAttr "self" "mkfsopts" (EOr (EGet (EVar "kwargs") "mkfsoptions" (str "")) (EGet (EVar "kwargs") "mkfsopts" (str "")))]));
  (* commands/partition.py:257-263 *)
  ("_getArgsAsStr", mkMethod []
      (steps [SCall "_t1" (TClass "F18_PartData") "_getArgsAsStr" [];
      SAssign "retval" (EVar "_t1");
      SIf (EAttr (EVar "self") "mkfsopts")
      (SAssign "retval" (EBin BAdd (EVar "retval") (EBin BAdd (EBin BAdd (str " --mkfsoptions=""") (EUn UStr (EAttr (EVar "self") "mkfsopts"))) (str """"))))
      SPass;
      SReturn (EVar "retval")]))].
Definition m_RHEL7_PartData : list (string * method) := [].
Definition m_F29_PartData : list (string * method) := [
  (* commands/partition.py:269-275 *)
  ("__init__", mkMethod [("kwargs", None)]
      (steps [SCall "_t1" (TClass "F23_PartData") "__init__" [("kwargs", (EVar "kwargs"))];
      SAttr "self" "luks_version" (EGet (EVar "kwargs") "luks_version" (str ""));
      SAttr "self" "pbkdf" (EGet (EVar "kwargs") "pbkdf" (str ""));
      SAttr "self" "pbkdf_memory" (EGet (EVar "kwargs") "pbkdf_memory" (EConst (VInt 0)));
      SAttr "self" "pbkdf_time" (EGet (EVar "kwargs") "pbkdf_time" (EConst (VInt 0)));
      SAttr "self" "pbkdf_iterations" (EGet (EVar "kwargs") "pbkdf_iterations" (EConst (VInt 0)))]));
  (* commands/partition.py:277-295 *)
  ("_getArgsAsStr", mkMethod []
      (steps [SCall "_t1" (TClass "F23_PartData") "_getArgsAsStr" [];
      SAssign "retval" (EVar "_t1");
      SIf (EAnd (EAttr (EVar "self") "encrypted") (EAttr (EVar "self") "luks_version"))
      (SAssign "retval" (EBin BAdd (EVar "retval") (EBin BAdd (str " --luks-version=") (EUn UStr (EAttr (EVar "self") "luks_version")))))
      SPass;
      SIf (EAnd (EAttr (EVar "self") "encrypted") (EAttr (EVar "self") "pbkdf"))
      (SAssign "retval" (EBin BAdd (EVar "retval") (EBin BAdd (str " --pbkdf=") (EUn UStr (EAttr (EVar "self") "pbkdf")))))
      SPass;
      SIf (EAnd (EAttr (EVar "self") "encrypted") (EAttr (EVar "self") "pbkdf_memory"))
      (SAssign "retval" (EBin BAdd (EVar "retval") (EBin BAdd (str " --pbkdf-memory=") (EUn UStr (EAttr (EVar "self") "pbkdf_memory")))))
      SPass;
      SIf (EAnd (EAttr (EVar "self") "encrypted") (EAttr (EVar "self") "pbkdf_time"))
      (SAssign "retval" (EBin BAdd (EVar "retval") (EBin BAdd (str " --pbkdf-time=") (EUn UStr (EAttr (EVar "self") "pbkdf_time")))))
      SPass;
      SIf (EAnd (EAttr (EVar "self") "encrypted") (EAttr (EVar "self") "pbkdf_iterations"))
      (SAssign "retval" (EBin BAdd (EVar "retval") (EBin BAdd (str " --pbkdf-iterations=") (EUn UStr (EAttr (EVar "self") "pbkdf_iterations")))))
      SPass;
      SReturn (EVar "retval")]))].
Definition m_RHEL8_PartData : list (string * method) := [].
Definition m_FC3_Partition : list (string * method) := [
  (* commands/partition.py:304-308 *)
  ("__init__", mkMethod [("writePriority", (Some (VInt 130))); ("kwargs", None)]
      (SCall "_t1" (TClass "KickstartCommand") "__init__" [("writePriority", (EVar "writePriority")); ("kwargs", (EVar "kwargs"))]));
  (* commands/partition.py:310-319 *)
  ("__str__", mkMethod []
      (steps [SAssign "retval" (str "");
      SForData "part" (SAssign "retval" (EBin BAdd (EVar "retval") (EDataStr (EVar "part"))));
      SIf (EVar "retval")
      (SReturn (EBin BAdd (str "# Disk partitioning information
") (EVar "retval")))
      (SReturn (str ""))]));
  (* commands/partition.py:433-450 *)
  ("parse", mkMethod []
      (steps [SParseKnown "ns" "extra";
      SAssert (EBin BEq (EUn ULen (EAttr (EVar "ns") "mntpoint")) (EConst (VInt 1)));
      SIf (EVar "extra")
      (SRaise true "Unexpected arguments to %(command)s command: %(options)s")
      SPass;
      SCall "_t1" TSelf "dataClass" [];
      SAssign "pd" (EVar "_t1");
      SSetTo "ns" "pd";
      SAttr "pd" "lineno" (EAttr (EVar "self") "lineno");
      SAttr "pd" "mountpoint" (EBin BIndex (EAttr (EVar "ns") "mntpoint") (EConst (VInt 0)));
      SReturn (EVar "pd")]));
  (* commands/partition.py:456-457 *)
  ("dataClass", mkMethod []
      (SReturn (ENew "PartData")))].
Definition m_FC4_Partition : list (string * method) := [].
Definition m_RHEL5_Partition : list (string * method) := [].
Definition m_F9_Partition : list (string * method) := [].
Definition m_F11_Partition : list (string * method) := [].
Definition m_F12_Partition : list (string * method) := [].
Definition m_RHEL6_Partition : list (string * method) := [
  (* commands/partition.py:573-581 *)
  ("parse", mkMethod []
      (steps [SCall "_t1" (TClass "F12_Partition") "parse" [];
      SAssign "retval" (EVar "_t1");
      SIf (ESeen "autopart")
      (SRaise true "The part/partition and autopart commands can't be used at the same time")
      SPass;
      SReturn (EVar "retval")]))].
Definition m_F14_Partition : list (string * method) := [].
Definition m_F17_Partition : list (string * method) := [
  (* commands/partition.py:607-616 *)
  ("parse", mkMethod []
      (steps [SCall "_t1" (TClass "F14_Partition") "parse" [];
      SAssign "retval" (EVar "_t1");
      SIf (EAnd (EAttr (EVar "retval") "resize") (EUn UNot (EAttr (EVar "retval") "onPart")))
      (SRaise true "--resize can only be used in conjunction with --onpart")
      SPass;
      SIf (EAnd (EAttr (EVar "retval") "resize") (EUn UNot (EAttr (EVar "retval") "size")))
      (SRaise true "--resize requires --size to specify new size")
      SPass;
      SReturn (EVar "retval")]))].
Definition m_F18_Partition : list (string * method) := [].
Definition m_F20_Partition : list (string * method) := [
  (* commands/partition.py:639-658 *)
  ("parse", mkMethod []
      (steps [SCall "_t1" (TClass "F18_Partition") "parse" [];
      SAssign "retval" (EVar "_t1");
      SIf (ESeen "autopart")
      (SRaise true "The part/partition and autopart commands can't be used at the same time")
      SPass;
      SIf (EAnd (EHandlerHas "mount") (ESeen "mount"))
      (SRaise true "The part/partition and mount commands can't be used at the same time")
      SPass;
      SIf (EBin BEq (EAttr (EVar "retval") "fstype") (str "tmpfs"))
      (SIf (EOr (EAttr (EVar "retval") "grow") (EBin BNe (EAttr (EVar "retval") "maxSizeMB") (EConst (VInt 0))))
      (SRaise true "The --fstype=tmpfs option can't be used together with --grow or --maxsize")
      SPass)
      SPass;
      SReturn (EVar "retval")]))].
Definition m_F23_Partition : list (string * method) := [
  (* commands/partition.py:678-687 *)
  ("parse", mkMethod []
      (steps [SCall "_t1" (TClass "F20_Partition") "parse" [];
      SAssign "retval" (EVar "_t1");
      SIf (EAnd (EUn UNot (EAttr (EVar "retval") "format")) (EAttr (EVar "retval") "mkfsopts"))
      (SRaise true "--mkfsoptions with --noformat has no effect.")
      SPass;
      SIf (EAnd (EAttr (EVar "retval") "fsprofile") (EAttr (EVar "retval") "mkfsopts"))
      (SRaise true "--mkfsoptions and --fsprofile cannot be used together.")
      SPass;
      SReturn (EVar "retval")]))].
Definition m_RHEL7_Partition : list (string * method) := [].
Definition m_F29_Partition : list (string * method) := [
  (* commands/partition.py:733-740 *)
  ("parse", mkMethod []
      (steps [SCall "_t1" (TClass "F23_Partition") "parse" [];
      SAssign "retval" (EVar "_t1");
      SIf (EAnd (EAttr (EVar "retval") "pbkdf_time") (EAttr (EVar "retval") "pbkdf_iterations"))
      (SRaise true "Only one of --pbkdf-time and --pbkdf-iterations can be specified.")
      SPass;
      SReturn (EVar "retval")]))].
Definition m_RHEL8_Partition : list (string * method) := [
  (* commands/partition.py:746-750 *)
  ("parse", mkMethod []
      (steps [SCall "_t1" (TClass "F29_Partition") "parse" [];
      SAssign "retval" (EVar "_t1");
      SIf (EOr (EBin BStarts (EAttr (EVar "retval") "mountpoint") (str "btrfs.")) (EBin BEq (EAttr (EVar "retval") "fstype") (str "btrfs")))
      (SRaise true "Btrfs file system is not supported")
      SPass;
      SReturn (EVar "retval")]))].
Definition m_F34_Partition : list (string * method) := [].
Definition m_FC3_RaidData : list (string * method) := [
  (* commands/raid.py:34-43 *)
  ("__init__", mkMethod [("kwargs", None)]
      (steps [SCall "_t1" (TClass "BaseData") "__init__" [("kwargs", (EVar "kwargs"))];
      SAttr "self" "device" (EGet (EVar "kwargs") "device" (EConst VNone));
      SAttr "self" "fstype" (EGet (EVar "kwargs") "fstype" (str ""));
      SAttr "self" "level" (EGet (EVar "kwargs") "level" (str ""));
      SAttr "self" "format" (EGet (EVar "kwargs") "format" (EConst (VBool true)));
      SAttr "self" "spares" (EGet (EVar "kwargs") "spares" (EConst (VInt 0)));
      SAttr "self" "preexist" (EGet (EVar "kwargs") "preexist" (EConst (VBool false)));
      SAttr "self" "mountpoint" (EGet (EVar "kwargs") "mountpoint" (str ""));
      SAttr "self" "members" (EGet (EVar "kwargs") "members" (EConst (VStrs [])))]));
  (* commands/raid.py:54-73 *)
  ("_getArgsAsStr", mkMethod []
      (steps [SAssign "retval" (str "");
      SIf (EUn UStr (EAttr (EVar "self") "device"))
      (SAssign "retval" (EBin BAdd (EVar "retval") (EBin BAdd (str " --device=") (EUn UStr (EAttr (EVar "self") "device")))))
      SPass;
      SIf (EAttr (EVar "self") "fstype")
      (SAssign "retval" (EBin BAdd (EVar "retval") (EBin BAdd (EBin BAdd (str " --fstype=""") (EUn UStr (EAttr (EVar "self") "fstype"))) (str """"))))
      SPass;
      SIf (EAttr (EVar "self") "level")
      (SAssign "retval" (EBin BAdd (EVar "retval") (EBin BAdd (str " --level=") (EUn UStr (EUn UUpper (EAttr (EVar "self") "level"))))))
      SPass;
      SIf (EUn UNot (EAttr (EVar "self") "format"))
      (SAssign "retval" (EBin BAdd (EVar "retval") (str " --noformat")))
      SPass;
      SIf (EBin BNe (EAttr (EVar "self") "spares") (EConst (VInt 0)))
      (SAssign "retval" (EBin BAdd (EVar "retval") (EBin BAdd (str " --spares=") (EUn UDec (EAttr (EVar "self") "spares")))))
      SPass;
      SIf (EAttr (EVar "self") "preexist")
      (SAssign "retval" (EBin BAdd (EVar "retval") (str " --useexisting")))
      SPass;
      SReturn (EVar "retval")]));
  (* commands/raid.py:75-84 *)
  ("__str__", mkMethod []
      (steps [SCall "_t1" (TClass "BaseData") "__str__" [];
      SAssign "retval" (EVar "_t1");
      SCall "_t2" TSelf "_getArgsAsStr" [];
      SAssign "retval" (EBin BAdd (EVar "retval") (EBin BAdd (EBin BAdd (str "raid ") (EUn UStr (EAttr (EVar "self") "mountpoint"))) (EUn UStr (EVar "_t2"))));
      SIf (EUn UNot (EAttr (EVar "self") "preexist"))
      (SAssign "retval" (EBin BAdd (EVar "retval") (EBin BAdd (str " ") (EBin BJoin (str " ") (EAttr (EVar "self") "members")))))
      SPass;
      SReturn (EBin BAdd (EUn UStrip (EVar "retval")) (str "
"))]))].
Definition m_FC4_RaidData : list (string * method) := [
  (* commands/raid.py:90-92 *)
  ("__init__", mkMethod [("kwargs", None)]
      (steps [SCall "_t1" (TClass "FC3_RaidData") "__init__" [("kwargs", (EVar "kwargs"))];
      SAttr "self" "fsopts" (EGet (EVar "kwargs") "fsopts" (str ""))]));
  (* commands/raid.py:94-100 *)
  ("_getArgsAsStr", mkMethod []
      (steps [SCall "_t1" (TClass "FC3_RaidData") "_getArgsAsStr" [];
      SAssign "retval" (EVar "_t1");
      SIf (EAttr (EVar "self") "fsopts")
      (SAssign "retval" (EBin BAdd (EVar "retval") (EBin BAdd (EBin BAdd (str " --fsoptions=""") (EUn UStr (EAttr (EVar "self") "fsopts"))) (str """"))))
      SPass;
      SReturn (EVar "retval")]))].
Definition m_FC5_RaidData : list (string * method) := [
  (* commands/raid.py:106-108 *)
  ("__init__", mkMethod [("kwargs", None)]
      (steps [SCall "_t1" (TClass "FC4_RaidData") "__init__" [("kwargs", (EVar "kwargs"))];
      SAttr "self" "bytesPerInode" (EGet (EVar "kwargs") "bytesPerInode" (EConst (VInt 4096)))]));
  (* commands/raid.py:110-116 *)
  ("_getArgsAsStr", mkMethod []
      (steps [SCall "_t1" (TClass "FC4_RaidData") "_getArgsAsStr" [];
      SAssign "retval" (EVar "_t1");
      SIf (EAnd (EHas (EVar "self") "bytesPerInode") (EBin BNe (EAttr (EVar "self") "bytesPerInode") (EConst (VInt 0))))
      (SAssign "retval" (EBin BAdd (EVar "retval") (EBin BAdd (str " --bytes-per-inode=") (EUn UDec (EAttr (EVar "self") "bytesPerInode")))))
      SPass;
      SReturn (EVar "retval")]))].
Definition m_RHEL5_RaidData : list (string * method) := [
  (* commands/raid.py:122-125 *)
  ("__init__", mkMethod [("kwargs", None)]
      (steps [SCall "_t1" (TClass "FC5_RaidData") "__init__" [("kwargs", (EVar "kwargs"))];
      SAttr "self" "encrypted" (EGet (EVar "kwargs") "encrypted" (EConst (VBool false)));
      SAttr "self" "passphrase" (EGet (EVar "kwargs") "passphrase" (str ""))]));
  (* commands/raid.py:127-136 *)
  ("_getArgsAsStr", mkMethod []
      (steps [SCall "_t1" (TClass "FC5_RaidData") "_getArgsAsStr" [];
      SAssign "retval" (EVar "_t1");
      SIf (EAttr (EVar "self") "encrypted")
      (steps [SAssign "retval" (EBin BAdd (EVar "retval") (str " --encrypted"));
      SIf (EAttr (EVar "self") "passphrase")
      (SAssign "retval" (EBin BAdd (EVar "retval") (EBin BAdd (EBin BAdd (str " --passphrase=""") (EUn UStr (EAttr (EVar "self") "passphrase"))) (str """"))))
      SPass])
      SPass;
      SReturn (EVar "retval")]))].
Definition m_F7_RaidData : list (string * method) := [].
Definition m_F9_RaidData : list (string * method) := [
  (* commands/raid.py:145-151 *)
  ("__init__", mkMethod [("kwargs", None)]
      (steps [SCall "_t1" (TClass "F7_RaidData") "__init__" [("kwargs", (EVar "kwargs"))];
      SDelRemoved [];
      SAttr "self" "fsprofile" (EGet (EVar "kwargs") "fsprofile" (str ""));
      SAttr "self" "encrypted" (EGet (EVar "kwargs") "encrypted" (EConst (VBool false)));
      SAttr "self" "passphrase" (EGet (EVar "kwargs") "passphrase" (str ""))]));
  (* commands/raid.py:153-164 *)
  ("_getArgsAsStr", mkMethod []
      (steps [SCall "_t1" (TClass "F7_RaidData") "_getArgsAsStr" [];
      SAssign "retval" (EVar "_t1");
      SIf (EAttr (EVar "self") "fsprofile")
      (SAssign "retval" (EBin BAdd (EVar "retval") (EBin BAdd (EBin BAdd (str " --fsprofile=""") (EUn UStr (EAttr (EVar "self") "fsprofile"))) (str """"))))
      SPass;
      SIf (EAttr (EVar "self") "encrypted")
      (steps [SAssign "retval" (EBin BAdd (EVar "retval") (str " --encrypted"));
      SIf (EAttr (EVar "self") "passphrase")
      (SAssign "retval" (EBin BAdd (EVar "retval") (EBin BAdd (EBin BAdd (str " --passphrase=""") (EUn UStr (EAttr (EVar "self") "passphrase"))) (str """"))))
      SPass])
      SPass;
      SReturn (EVar "retval")]))].
Definition m_F12_RaidData : list (string * method) := [
  (* commands/raid.py:170-175 *)
  ("__init__", mkMethod [("kwargs", None)]
      (steps [SCall "_t1" (TClass "F9_RaidData") "__init__" [("kwargs", (EVar "kwargs"))];
      SDelRemoved [];
      SAttr "self" "escrowcert" (EGet (EVar "kwargs") "escrowcert" (str ""));
      SAttr "self" "backuppassphrase" (EGet (EVar "kwargs") "backuppassphrase" (EConst (VBool false)))]));
  (* commands/raid.py:177-185 *)
  ("_getArgsAsStr", mkMethod []
      (steps [SCall "_t1" (TClass "F9_RaidData") "_getArgsAsStr" [];
      SAssign "retval" (EVar "_t1");
      SIf (EAnd (EAttr (EVar "self") "encrypted") (EAttr (EVar "self") "escrowcert"))
      (steps [SAssign "retval" (EBin BAdd (EVar "retval") (EBin BAdd (EBin BAdd (str " --escrowcert=""") (EUn UStr (EAttr (EVar "self") "escrowcert"))) (str """")));
      SIf (EAttr (EVar "self") "backuppassphrase")
      (SAssign "retval" (EBin BAdd (EVar "retval") (str " --backuppassphrase")))
      SPass])
      SPass;
      SReturn (EVar "retval")]))].
Definition m_F13_RaidData : list (string * method) := [].
Definition m_RHEL6_RaidData : list (string * method) := [
  (* commands/raid.py:194-197 *)
  ("__init__", mkMethod [("kwargs", None)]
      (steps [SCall "_t1" (TClass "F13_RaidData") "__init__" [("kwargs", (EVar "kwargs"))];
      SAttr "self" "cipher" (EGet (EVar "kwargs") "cipher" (str ""))]));
  (* commands/raid.py:199-205 *)
  ("_getArgsAsStr", mkMethod []
      (steps [SCall "_t1" (TClass "F13_RaidData") "_getArgsAsStr" [];
      SAssign "retval" (EVar "_t1");
      SIf (EAnd (EAttr (EVar "self") "encrypted") (EAttr (EVar "self") "cipher"))
      (SAssign "retval" (EBin BAdd (EVar "retval") (EBin BAdd (EBin BAdd (str " --cipher=""") (EUn UStr (EAttr (EVar "self") "cipher"))) (str """"))))
      SPass;
      SReturn (EVar "retval")]))].
Definition m_F14_RaidData : list (string * method) := [].
Definition m_F15_RaidData : list (string * method) := [
  (* commands/raid.py:214-218 *)
  ("__init__", mkMethod [("kwargs", None)]
      (steps [SCall "_t1" (TClass "F14_RaidData") "__init__" [("kwargs", (EVar "kwargs"))];
      SDelRemoved [];
      SAttr "self" "label" (EGet (EVar "kwargs") "label" (str ""))]));
  (* commands/raid.py:220-226 *)
  ("_getArgsAsStr", mkMethod []
      (steps [SCall "_t1" (TClass "F14_RaidData") "_getArgsAsStr" [];
      SAssign "retval" (EVar "_t1");
      SIf (EAttr (EVar "self") "label")
      (SAssign "retval" (EBin BAdd (EVar "retval") (EBin BAdd (str " --label=") (EUn UStr (EAttr (EVar "self") "label")))))
      SPass;
      SReturn (EVar "retval")]))].
Definition m_F18_RaidData : list (string * method) := [
  (* commands/raid.py:232-235 *)
  ("__init__", mkMethod [("kwargs", None)]
      (steps [SCall "_t1" (TClass "F15_RaidData") "__init__" [("kwargs", (EVar "kwargs"))];
      SAttr "self" "cipher" (EGet (EVar "kwargs") "cipher" (str ""))]));
  (* commands/raid.py:237-243 *)
  ("_getArgsAsStr", mkMethod []
      (steps [SCall "_t1" (TClass "F15_RaidData") "_getArgsAsStr" [];
      SAssign "retval" (EVar "_t1");
      SIf (EAnd (EAttr (EVar "self") "encrypted") (EAttr (EVar "self") "cipher"))
      (SAssign "retval" (EBin BAdd (EVar "retval") (EBin BAdd (EBin BAdd (str " --cipher=""") (EUn UStr (EAttr (EVar "self") "cipher"))) (str """"))))
      SPass;
      SReturn (EVar "retval")]))].
Definition m_F23_RaidData : list (string * method) := [
  (* commands/raid.py:249-251 *)
  ("__init__", mkMethod [("kwargs", None)]
      (steps [SCall "_t1" (TClass "F18_RaidData") "__init__" [("kwargs", (EVar "kwargs"))];
      SAttr "self" "mkfsopts" (EOr (EGet (EVar "kwargs") "mkfsoptions" (str "")) (EGet (EVar "kwargs") "mkfsopts" (str "")))]));
  (* commands/raid.py:253-259 *)
  ("_getArgsAsStr", mkMethod []
      (steps [SCall "_t1" (TClass "F18_RaidData") "_getArgsAsStr" [];
      SAssign "retval" (EVar "_t1");
      SIf (EAttr (EVar "self") "mkfsopts")
      (SAssign "retval" (EBin BAdd (EVar "retval") (EBin BAdd (EBin BAdd (str " --mkfsoptions=""") (EUn UStr (EAttr (EVar "self") "mkfsopts"))) (str """"))))
      SPass;
      SReturn (EVar "retval")]))].
Definition m_F25_RaidData : list (string * method) := [
  (* commands/raid.py:265-267 *)
  ("__init__", mkMethod [("kwargs", None)]
      (steps [SCall "_t1" (TClass "F23_RaidData") "__init__" [("kwargs", (EVar "kwargs"))];
      SAttr "self" "chunk_size" (EGet (EVar "kwargs") "chunk_size" (EConst VNone))]));
  (* commands/raid.py:269-275 *)
  ("_getArgsAsStr", mkMethod []
      (steps [SCall "_t1" (TClass "F23_RaidData") "_getArgsAsStr" [];
      SAssign "retval" (EVar "_t1");
      SIf (EAttr (EVar "self") "chunk_size")
      (SAssign "retval" (EBin BAdd (EVar "retval") (EBin BAdd (str " --chunksize=") (EUn UDec (EAttr (EVar "self") "chunk_size")))))
      SPass;
      SReturn (EVar "retval")]))].
Definition m_RHEL7_RaidData : list (string * method) := [].
Definition m_F29_RaidData : list (string * method) := [
  (* commands/raid.py:281-287 *)
  ("__init__", mkMethod [("kwargs", None)]
      (steps [SCall "_t1" (TClass "F25_RaidData") "__init__" [("kwargs", (EVar "kwargs"))];
      SAttr "self" "luks_version" (EGet (EVar "kwargs") "luks_version" (str ""));
      SAttr "self" "pbkdf" (EGet (EVar "kwargs") "pbkdf" (str ""));
      SAttr "self" "pbkdf_memory" (EGet (EVar "kwargs") "pbkdf_memory" (EConst (VInt 0)));
      SAttr "self" "pbkdf_time" (EGet (EVar "kwargs") "pbkdf_time" (EConst (VInt 0)));
      SAttr "self" "pbkdf_iterations" (EGet (EVar "kwargs") "pbkdf_iterations" (EConst (VInt 0)))]));
  (* commands/raid.py:289-307 *)
  ("_getArgsAsStr", mkMethod []
      (steps [SCall "_t1" (TClass "F25_RaidData") "_getArgsAsStr" [];
      SAssign "retval" (EVar "_t1");
      SIf (EAnd (EAttr (EVar "self") "encrypted") (EAttr (EVar "self") "luks_version"))
      (SAssign "retval" (EBin BAdd (EVar "retval") (EBin BAdd (str " --luks-version=") (EUn UStr (EAttr (EVar "self") "luks_version")))))
      SPass;
      SIf (EAnd (EAttr (EVar "self") "encrypted") (EAttr (EVar "self") "pbkdf"))
      (SAssign "retval" (EBin BAdd (EVar "retval") (EBin BAdd (str " --pbkdf=") (EUn UStr (EAttr (EVar "self") "pbkdf")))))
      SPass;
      SIf (EAnd (EAttr (EVar "self") "encrypted") (EAttr (EVar "self") "pbkdf_memory"))
      (SAssign "retval" (EBin BAdd (EVar "retval") (EBin BAdd (str " --pbkdf-memory=") (EUn UStr (EAttr (EVar "self") "pbkdf_memory")))))
      SPass;
      SIf (EAnd (EAttr (EVar "self") "encrypted") (EAttr (EVar "self") "pbkdf_time"))
      (SAssign "retval" (EBin BAdd (EVar "retval") (EBin BAdd (str " --pbkdf-time=") (EUn UStr (EAttr (EVar "self") "pbkdf_time")))))
      SPass;
      SIf (EAnd (EAttr (EVar "self") "encrypted") (EAttr (EVar "self") "pbkdf_iterations"))
      (SAssign "retval" (EBin BAdd (EVar "retval") (EBin BAdd (str " --pbkdf-iterations=") (EUn UStr (EAttr (EVar "self") "pbkdf_iterations")))))
      SPass;
      SReturn (EVar "retval")]))].
Definition m_RHEL8_RaidData : list (string * method) := [].
Definition m_FC3_Raid : list (string * method) := [
  (* commands/raid.py:316-327 *)
  ("__init__", mkMethod [("writePriority", (Some (VInt 131))); ("kwargs", None)]
      (steps [SCall "_t1" (TClass "KickstartCommand") "__init__" [("writePriority", (EVar "writePriority")); ("kwargs", (EVar "kwargs"))];
      SAttr "self" "levelMap" (EConst (VPairs [("RAID0", "RAID0"); ("0", "RAID0"); ("RAID1", "RAID1"); ("1", "RAID1"); ("RAID5", "RAID5"); ("5", "RAID5"); ("RAID6", "RAID6"); ("6", "RAID6")]))]));
  (* commands/raid.py:329-335 *)
  ("__str__", mkMethod []
      (steps [SAssign "retval" (str "");
      SForData "raid" (SAssign "retval" (EBin BAdd (EVar "retval") (EDataStr (EVar "raid"))));
      SReturn (EVar "retval")]));
  (* commands/raid.py:414-419 *)
  ("_getDevice", mkMethod [("s", None)]
      (SReturn (EUn UInt (EVar "s"))));
  (* commands/raid.py:421-466 *)
  ("parse", mkMethod []
      (steps [SParseKnown "ns" "extra";
      SIf (EUn UDashed (EVar "extra"))
      (SRaise true "Unexpected arguments to %(command)s command: %(options)s")
      SPass;
      SIf (EAnd (EUn UNot (EAttr (EVar "ns") "partitions")) (EVar "extra"))
      (steps [SAttr "ns" "partitions" (EVar "extra");
      SAssign "extra" (EConst (VStrs []))])
      SPass;
      SIf (EUn UNot (EAttr (EVar "ns") "format"))
      (SAttr "ns" "preexist" (EConst (VBool true)))
      SPass;
      SAssert (EBin BEq (EUn ULen (EAttr (EVar "ns") "mntpoint")) (EConst (VInt 1)));
      SIf (EAnd (EUn UNot (EAttr (EVar "ns") "partitions")) (EUn UNot (EAttr (EVar "ns") "preexist")))
      (SRaise true "raid")
      (SIf (EAnd (EAttr (EVar "ns") "partitions") (EAttr (EVar "ns") "preexist"))
      (SRaise true "Members may not be specified for preexisting RAID device")
      SPass);
      SCall "_t1" TSelf "dataClass" [];
      SAssign "rd" (EVar "_t1");
      SSetTo "ns" "rd";
      SAttr "rd" "lineno" (EAttr (EVar "self") "lineno");
      SCall "_t2" TSelf "_getDevice" [("s", (EAttr (EVar "rd") "device"))];
      SAttr "rd" "device" (EVar "_t2");
      SAttr "rd" "mountpoint" (EBin BIndex (EAttr (EVar "ns") "mntpoint") (EConst (VInt 0)));
      SIf (EBin BGt (EUn ULen (EAttr (EVar "ns") "partitions")) (EConst (VInt 0)))
      (SAttr "rd" "members" (EAttr (EVar "ns") "partitions"))
      SPass;
      SIf (EAnd (EUn UNot (EAttr (EVar "rd") "preexist")) (EUn UNot (EAttr (EVar "rd") "level")))
      (SRaise true "RAID Partition defined without RAID level")
      SPass;
      SIf (EAnd (EAttr (EVar "rd") "preexist") (EBin BEq (EAttr (EVar "rd") "device") (str "")))
      (SRaise true "Device required for preexisting RAID device")
      SPass;
      SReturn (EVar "rd")]));
  (* commands/raid.py:472-473 *)
  ("dataClass", mkMethod []
      (SReturn (ENew "RaidData")))].
Definition m_FC4_Raid : list (string * method) := [].
Definition m_FC5_Raid : list (string * method) := [].
Definition m_RHEL5_Raid : list (string * method) := [
  (* commands/raid.py:502-505 *)
  ("__init__", mkMethod [("writePriority", (Some (VInt 131))); ("kwargs", None)]
      (steps [SCall "_t1" (TClass "FC5_Raid") "__init__" [("writePriority", (EVar "writePriority")); ("kwargs", (EVar "kwargs"))];
      SAttr "self" "levelMap" (EBin BUnion (EAttr (EVar "self") "levelMap") (EConst (VPairs [("RAID10", "RAID10"); ("10", "RAID10")])))]))].
Definition m_F7_Raid : list (string * method) := [
  (* commands/raid.py:534-537 *)
  ("__init__", mkMethod [("writePriority", (Some (VInt 131))); ("kwargs", None)]
      (steps [SCall "_t1" (TClass "FC5_Raid") "__init__" [("writePriority", (EVar "writePriority")); ("kwargs", (EVar "kwargs"))];
      SAttr "self" "levelMap" (EBin BUnion (EAttr (EVar "self") "levelMap") (EConst (VPairs [("RAID10", "RAID10"); ("10", "RAID10")])))]))].
Definition m_F9_Raid : list (string * method) := [].
Definition m_F12_Raid : list (string * method) := [].
Definition m_F13_Raid : list (string * method) := [
  (* commands/raid.py:605-608 *)
  ("__init__", mkMethod [("writePriority", (Some (VInt 131))); ("kwargs", None)]
      (steps [SCall "_t1" (TClass "F12_Raid") "__init__" [("writePriority", (EVar "writePriority")); ("kwargs", (EVar "kwargs"))];
      SAttr "self" "levelMap" (EBin BUnion (EAttr (EVar "self") "levelMap") (EConst (VPairs [("RAID4", "RAID4"); ("4", "RAID4")])))]))].
Definition m_RHEL6_Raid : list (string * method) := [
  (* commands/raid.py:634-642 *)
  ("parse", mkMethod []
      (steps [SCall "_t1" (TClass "F13_Raid") "parse" [];
      SAssign "retval" (EVar "_t1");
      SIf (ESeen "autopart")
      (SRaise true "The raid and autopart commands can't be used at the same time")
      SPass;
      SReturn (EVar "retval")]))].
Definition m_F14_Raid : list (string * method) := [].
Definition m_F15_Raid : list (string * method) := [].
Definition m_F18_Raid : list (string * method) := [].
Definition m_F19_Raid : list (string * method) := [
  (* commands/raid.py:681-682 *)
  ("_getDevice", mkMethod [("s", None)]
      (SReturn (EVar "s")))].
Definition m_F20_Raid : list (string * method) := [
  (* commands/raid.py:688-700 *)
  ("parse", mkMethod []
      (steps [SCall "_t1" (TClass "F19_Raid") "parse" [];
      SAssign "retval" (EVar "_t1");
      SIf (ESeen "autopart")
      (SRaise true "The raid and autopart commands can't be used at the same time")
      SPass;
      SIf (EAnd (EHandlerHas "mount") (ESeen "mount"))
      (SRaise true "The raid and mount commands can't be used at the same time")
      SPass;
      SReturn (EVar "retval")]))].
Definition m_F23_Raid : list (string * method) := [
  (* commands/raid.py:718-727 *)
  ("parse", mkMethod []
      (steps [SCall "_t1" (TClass "F20_Raid") "parse" [];
      SAssign "retval" (EVar "_t1");
      SIf (EAnd (EUn UNot (EAttr (EVar "retval") "format")) (EAttr (EVar "retval") "mkfsopts"))
      (SRaise true "--mkfsoptions with --noformat has no effect.")
      SPass;
      SIf (EAnd (EAttr (EVar "retval") "fsprofile") (EAttr (EVar "retval") "mkfsopts"))
      (SRaise true "--mkfsoptions and --fsprofile cannot be used together.")
      SPass;
      SReturn (EVar "retval")]))].
Definition m_F25_Raid : list (string * method) := [].
Definition m_RHEL7_Raid : list (string * method) := [].
Definition m_F29_Raid : list (string * method) := [
  (* commands/raid.py:783-790 *)
  ("parse", mkMethod []
      (steps [SCall "_t1" (TClass "F25_Raid") "parse" [];
      SAssign "retval" (EVar "_t1");
      SIf (EAnd (EAttr (EVar "retval") "pbkdf_time") (EAttr (EVar "retval") "pbkdf_iterations"))
      (SRaise true "Only one of --pbkdf-time and --pbkdf-iterations can be specified.")
      SPass;
      SReturn (EVar "retval")]))].
Definition m_RHEL8_Raid : list (string * method) := [
  (* commands/raid.py:796-800 *)
  ("parse", mkMethod []
      (steps [SCall "_t1" (TClass "F29_Raid") "parse" [];
      SAssign "retval" (EVar "_t1");
      SIf (EBin BEq (EAttr (EVar "retval") "fstype") (str "btrfs"))
      (SRaise true "Btrfs file system is not supported")
      SPass;
      SReturn (EVar "retval")]))].
Definition m_FC3_Reboot : list (string * method) := [
  (* commands/reboot.py:30-32 *)
  ("__init__", mkMethod [("writePriority", (Some (VInt 0))); ("kwargs", None)]
      (steps [SCall "_t1" (TClass "KickstartCommand") "__init__" [("writePriority", (EVar "writePriority")); ("kwargs", (EVar "kwargs"))];
      SAttr "self" "action" (EGet (EVar "kwargs") "action" (EConst VNone))]));
  (* commands/reboot.py:34-35 *)
  ("_getArgsAsStr", mkMethod []
      (SReturn (str "")));
  (* commands/reboot.py:37-47 *)
  ("__str__", mkMethod []
      (steps [SCall "_t1" (TClass "KickstartCommand") "__str__" [];
      SAssign "retval" (EVar "_t1");
      SIf (EBin BEq (EAttr (EVar "self") "action") (EConst (VInt 1)))
      (steps [SAssign "retval" (EBin BAdd (EVar "retval") (str "# Reboot after installation
reboot"));
      SCall "_t2" TSelf "_getArgsAsStr" [];
      SAssign "retval" (EBin BAdd (EVar "retval") (EBin BAdd (EVar "_t2") (str "
")))])
      (SIf (EBin BEq (EAttr (EVar "self") "action") (EConst (VInt 2)))
      (steps [SAssign "retval" (EBin BAdd (EVar "retval") (str "# Shutdown after installation
shutdown"));
      SCall "_t3" TSelf "_getArgsAsStr" [];
      SAssign "retval" (EBin BAdd (EVar "retval") (EBin BAdd (EVar "_t3") (str "
")))])
      SPass);
      SReturn (EVar "retval")]));
  (* commands/reboot.py:49-55 *)
  ("parse", mkMethod []
      (steps [SIf (EBin BEq (EAttr (EVar "self") "currentCmd") (str "reboot"))
      (SAttr "self" "action" (EConst (VInt 1)))
      (SIf (EBin BIn (EAttr (EVar "self") "currentCmd") (EConst (VStrs ["shutdown"; "poweroff"])))
      (SAttr "self" "action" (EConst (VInt 2)))
      SPass);
      SReturn (EVar "self")]))].
Definition m_FC6_Reboot : list (string * method) := [
  (* commands/reboot.py:85-89 *)
  ("__init__", mkMethod [("writePriority", (Some (VInt 0))); ("kwargs", None)]
      (steps [SCall "_t1" (TClass "FC3_Reboot") "__init__" [("writePriority", (EVar "writePriority")); ("kwargs", (EVar "kwargs"))];
      SAttr "self" "eject" (EGet (EVar "kwargs") "eject" (EConst (VBool false)))]));
  (* commands/reboot.py:91-97 *)
  ("_getArgsAsStr", mkMethod []
      (steps [SCall "_t1" (TClass "FC3_Reboot") "_getArgsAsStr" [];
      SAssign "retval" (EVar "_t1");
      SIf (EAttr (EVar "self") "eject")
      (SAssign "retval" (EBin BAdd (EVar "retval") (str " --eject")))
      SPass;
      SReturn (EVar "retval")]));
  (* commands/reboot.py:107-111 *)
  ("parse", mkMethod []
      (steps [SCall "_t1" (TClass "FC3_Reboot") "parse" [];
      SParse "ns";
      SSetTo "ns" "self";
      SReturn (EVar "self")]))].
Definition m_F18_Reboot : list (string * method) := [
  (* commands/reboot.py:117-119 *)
  ("__init__", mkMethod [("writePriority", (Some (VInt 0))); ("kwargs", None)]
      (SCall "_t1" (TClass "FC6_Reboot") "__init__" [("writePriority", (EVar "writePriority")); ("kwargs", (EVar "kwargs"))]));
  (* commands/reboot.py:121-128 *)
  ("__str__", mkMethod []
      (steps [SCall "_t1" (TClass "FC6_Reboot") "__str__" [];
      SAssign "retval" (EVar "_t1");
      SIf (EBin BEq (EAttr (EVar "self") "action") (EConst (VInt 0)))
      (steps [SAssign "retval" (str "# Halt after installation
halt");
      SCall "_t2" TSelf "_getArgsAsStr" [];
      SAssign "retval" (EBin BAdd (EVar "retval") (EBin BAdd (EVar "_t2") (str "
")))])
      SPass;
      SReturn (EVar "retval")]));
  (* commands/reboot.py:130-134 *)
  ("parse", mkMethod []
      (steps [SCall "_t1" (TClass "FC6_Reboot") "parse" [];
      SIf (EBin BEq (EAttr (EVar "self") "currentCmd") (str "halt"))
      (SAttr "self" "action" (EConst (VInt 0)))
      SPass;
      SReturn (EVar "self")]))].
Definition m_F23_Reboot : list (string * method) := [
  (* commands/reboot.py:157-161 *)
  ("__init__", mkMethod [("writePriority", (Some (VInt 0))); ("kwargs", None)]
      (steps [SCall "_t1" (TClass "F18_Reboot") "__init__" [("writePriority", (EVar "writePriority")); ("kwargs", (EVar "kwargs"))];
      SAttr "self" "kexec" (EGet (EVar "kwargs") "kexec" (EConst (VBool false)))]));
  (* commands/reboot.py:163-169 *)
  ("_getArgsAsStr", mkMethod []
      (steps [SCall "_t1" (TClass "F18_Reboot") "_getArgsAsStr" [];
      SAssign "retval" (EVar "_t1");
      SIf (EAttr (EVar "self") "kexec")
      (SAssign "retval" (EBin BAdd (EVar "retval") (str " --kexec")))
      SPass;
      SReturn (EVar "retval")]))].
Definition m_FC6_RepoData : list (string * method) := [
  (* commands/repo.py:34-38 *)
  ("__init__", mkMethod [("kwargs", None)]
      (steps [SCall "_t1" (TClass "BaseData") "__init__" [("kwargs", (EVar "kwargs"))];
      SAttr "self" "baseurl" (EGet (EVar "kwargs") "baseurl" (str ""));
      SAttr "self" "mirrorlist" (EGet (EVar "kwargs") "mirrorlist" (EConst VNone));
      SAttr "self" "name" (EGet (EVar "kwargs") "name" (str ""))]));
  (* commands/repo.py:49-57 *)
  ("_getArgsAsStr", mkMethod []
      (steps [SAssign "retval" (str "");
      SIf (EAttr (EVar "self") "baseurl")
      (SAssign "retval" (EBin BAdd (EVar "retval") (EBin BAdd (str "--baseurl=") (EUn UStr (EAttr (EVar "self") "baseurl")))))
      (SIf (EAttr (EVar "self") "mirrorlist")
      (SAssign "retval" (EBin BAdd (EVar "retval") (EBin BAdd (str "--mirrorlist=") (EUn UStr (EAttr (EVar "self") "mirrorlist")))))
      SPass);
      SReturn (EVar "retval")]));
  (* commands/repo.py:59-62 *)
  ("__str__", mkMethod []
      (steps [SCall "_t1" (TClass "BaseData") "__str__" [];
      SAssign "retval" (EVar "_t1");
      SCall "_t2" TSelf "_getArgsAsStr" [];
      SAssign "retval" (EBin BAdd (EVar "retval") (EBin BAdd (EBin BAdd (EBin BAdd (EBin BAdd (str "repo --name=""") (EUn UStr (EAttr (EVar "self") "name"))) (str """ ")) (EUn UStr (EVar "_t2"))) (str "
")));
      SReturn (EVar "retval")]))].
Definition m_F8_RepoData : list (string * method) := [
  (* commands/repo.py:68-72 *)
  ("__init__", mkMethod [("kwargs", None)]
      (steps [SCall "_t1" (TClass "FC6_RepoData") "__init__" [("kwargs", (EVar "kwargs"))];
      SAttr "self" "cost" (EGet (EVar "kwargs") "cost" (EConst VNone));
      SAttr "self" "includepkgs" (EGet (EVar "kwargs") "includepkgs" (EConst (VStrs [])));
      SAttr "self" "excludepkgs" (EGet (EVar "kwargs") "excludepkgs" (EConst (VStrs [])))]));
  (* commands/repo.py:74-84 *)
  ("_getArgsAsStr", mkMethod []
      (steps [SCall "_t1" (TClass "FC6_RepoData") "_getArgsAsStr" [];
      SAssign "retval" (EVar "_t1");
      SIf (EAttr (EVar "self") "cost")
      (SAssign "retval" (EBin BAdd (EVar "retval") (EBin BAdd (str " --cost=") (EUn UStr (EAttr (EVar "self") "cost")))))
      SPass;
      SIf (EAttr (EVar "self") "includepkgs")
      (SAssign "retval" (EBin BAdd (EVar "retval") (EBin BAdd (EBin BAdd (str " --includepkgs=""") (EUn UStr (EBin BJoin (str ",") (EAttr (EVar "self") "includepkgs")))) (str """"))))
      SPass;
      SIf (EAttr (EVar "self") "excludepkgs")
      (SAssign "retval" (EBin BAdd (EVar "retval") (EBin BAdd (EBin BAdd (str " --excludepkgs=""") (EUn UStr (EBin BJoin (str ",") (EAttr (EVar "self") "excludepkgs")))) (str """"))))
      SPass;
      SReturn (EVar "retval")]))].
Definition m_F11_RepoData : list (string * method) := [
  (* commands/repo.py:90-92 *)
  ("__init__", mkMethod [("kwargs", None)]
      (steps [SCall "_t1" (TClass "F8_RepoData") "__init__" [("kwargs", (EVar "kwargs"))];
      SAttr "self" "ignoregroups" (EGet (EVar "kwargs") "ignoregroups" (EConst VNone))]));
  (* commands/repo.py:94-99 *)
  ("_getArgsAsStr", mkMethod []
      (steps [SCall "_t1" (TClass "F8_RepoData") "_getArgsAsStr" [];
      SAssign "retval" (EVar "_t1");
      SIf (EAttr (EVar "self") "ignoregroups")
      (SAssign "retval" (EBin BAdd (EVar "retval") (str " --ignoregroups=true")))
      SPass;
      SReturn (EVar "retval")]))].
Definition m_F13_RepoData : list (string * method) := [
  (* commands/repo.py:105-107 *)
  ("__init__", mkMethod [("kwargs", None)]
      (steps [SCall "_t1" (TClass "F11_RepoData") "__init__" [("kwargs", (EVar "kwargs"))];
      SAttr "self" "proxy" (EGet (EVar "kwargs") "proxy" (str ""))]));
  (* commands/repo.py:109-115 *)
  ("_getArgsAsStr", mkMethod []
      (steps [SCall "_t1" (TClass "F11_RepoData") "_getArgsAsStr" [];
      SAssign "retval" (EVar "_t1");
      SIf (EAttr (EVar "self") "proxy")
      (SAssign "retval" (EBin BAdd (EVar "retval") (EBin BAdd (EBin BAdd (str " --proxy=""") (EUn UStr (EAttr (EVar "self") "proxy"))) (str """"))))
      SPass;
      SReturn (EVar "retval")]))].
Definition m_F14_RepoData : list (string * method) := [
  (* commands/repo.py:121-123 *)
  ("__init__", mkMethod [("kwargs", None)]
      (steps [SCall "_t1" (TClass "F13_RepoData") "__init__" [("kwargs", (EVar "kwargs"))];
      SAttr "self" "noverifyssl" (EGet (EVar "kwargs") "noverifyssl" (EConst (VBool false)))]));
  (* commands/repo.py:125-131 *)
  ("_getArgsAsStr", mkMethod []
      (steps [SCall "_t1" (TClass "F13_RepoData") "_getArgsAsStr" [];
      SAssign "retval" (EVar "_t1");
      SIf (EAttr (EVar "self") "noverifyssl")
      (SAssign "retval" (EBin BAdd (EVar "retval") (str " --noverifyssl")))
      SPass;
      SReturn (EVar "retval")]))].
Definition m_RHEL6_RepoData : list (string * method) := [].
Definition m_F15_RepoData : list (string * method) := [].
Definition m_F21_RepoData : list (string * method) := [
  (* commands/repo.py:143-145 *)
  ("__init__", mkMethod [("kwargs", None)]
      (steps [SCall "_t1" (TClass "F15_RepoData") "__init__" [("kwargs", (EVar "kwargs"))];
      SAttr "self" "install" (EGet (EVar "kwargs") "install" (EConst (VBool false)))]));
  (* commands/repo.py:147-153 *)
  ("_getArgsAsStr", mkMethod []
      (steps [SCall "_t1" (TClass "F15_RepoData") "_getArgsAsStr" [];
      SAssign "retval" (EVar "_t1");
      SIf (EAttr (EVar "self") "install")
      (SAssign "retval" (EBin BAdd (EVar "retval") (str " --install")))
      SPass;
      SReturn (EVar "retval")]))].
Definition m_F27_RepoData : list (string * method) := [
  (* commands/repo.py:159-161 *)
  ("__init__", mkMethod [("kwargs", None)]
      (steps [SCall "_t1" (TClass "F21_RepoData") "__init__" [("kwargs", (EVar "kwargs"))];
      SAttr "self" "metalink" (EGet (EVar "kwargs") "metalink" (EConst (VBool false)))]));
  (* commands/repo.py:163-169 *)
  ("_getArgsAsStr", mkMethod []
      (steps [SCall "_t1" (TClass "F21_RepoData") "_getArgsAsStr" [];
      SAssign "retval" (EVar "_t1");
      SIf (EAttr (EVar "self") "metalink")
      (SAssign "retval" (EBin BAdd (EVar "retval") (EBin BAdd (str " --metalink=") (EUn UStr (EAttr (EVar "self") "metalink")))))
      SPass;
      SReturn (EVar "retval")]))].
Definition m_F30_RepoData : list (string * method) := [
  (* commands/repo.py:175-179 *)
  ("__init__", mkMethod [("kwargs", None)]
      (steps [SCall "_t1" (TClass "F27_RepoData") "__init__" [("kwargs", (EVar "kwargs"))];
      SAttr "self" "sslcacert" (EGet (EVar "kwargs") "sslcacert" (EConst VNone));
      SAttr "self" "sslclientcert" (EGet (EVar "kwargs") "sslclientcert" (EConst VNone));
      SAttr "self" "sslclientkey" (EGet (EVar "kwargs") "sslclientkey" (EConst VNone))]));
  (* commands/repo.py:181-193 *)
  ("_getArgsAsStr", mkMethod []
      (steps [SCall "_t1" (TClass "F27_RepoData") "_getArgsAsStr" [];
      SAssign "retval" (EVar "_t1");
      SIf (EAttr (EVar "self") "sslcacert")
      (SAssign "retval" (EBin BAdd (EVar "retval") (EBin BAdd (EBin BAdd (str " --sslcacert=""") (EUn UStr (EAttr (EVar "self") "sslcacert"))) (str """"))))
      SPass;
      SIf (EAttr (EVar "self") "sslclientcert")
      (SAssign "retval" (EBin BAdd (EVar "retval") (EBin BAdd (EBin BAdd (str " --sslclientcert=""") (EUn UStr (EAttr (EVar "self") "sslclientcert"))) (str """"))))
      SPass;
      SIf (EAttr (EVar "self") "sslclientkey")
      (SAssign "retval" (EBin BAdd (EVar "retval") (EBin BAdd (EBin BAdd (str " --sslclientkey=""") (EUn UStr (EAttr (EVar "self") "sslclientkey"))) (str """"))))
      SPass;
      SReturn (EVar "retval")]))].
Definition m_RHEL7_RepoData : list (string * method) := [].
Definition m_RHEL8_RepoData : list (string * method) := [].
Definition m_FC6_Repo : list (string * method) := [
  (* commands/repo.py:205 *)
  ("urlRequired", mkMethod [] (SReturn (EConst (VBool true))));
  (* commands/repo.py:207-213 *)
  ("__init__", mkMethod [("writePriority", (Some (VInt 0))); ("kwargs", None)]
      (steps [SCall "_t1" (TClass "KickstartCommand") "__init__" [("writePriority", (EVar "writePriority")); ("kwargs", (EVar "kwargs"))];
      SAttr "self" "exclusive_required_options" (EConst (VPairs [("mirrorlist", "--mirrorlist"); ("baseurl", "--baseurl")]))]));
  (* commands/repo.py:215-220 *)
  ("__str__", mkMethod []
      (steps [SAssign "retval" (str "");
      SForData "repo" (SAssign "retval" (EBin BAdd (EVar "retval") (EDataStr (EVar "repo"))));
      SReturn (EVar "retval")]));
  (* commands/repo.py:275-296 *)
  ("parse", mkMethod []
      (steps [SParse "ns";
      SAssign "used_options" (EUsed (EAttr (EVar "self") "exclusive_required_options") (EVar "ns"));
      SCall "_t1" TSelf "urlRequired" [];
      SIf (EAnd (EVar "_t1") (EUn UNot (EVar "used_options")))
      (SRaise true "One of -%(options_list)s options must be specified for repo command.")
      SPass;
      SIf (EBin BGt (EUn ULen (EVar "used_options")) (EConst (VInt 1)))
      (SRaise true "Only one of %(options_list)s options may be specified for repo command.")
      SPass;
      SCall "_t2" TSelf "dataClass" [];
      SAssign "rd" (EVar "_t2");
      SSetTo "ns" "rd";
      SAttr "rd" "lineno" (EAttr (EVar "self") "lineno");
      SReturn (EVar "rd")]));
  (* commands/repo.py:302-303 *)
  ("dataClass", mkMethod []
      (SReturn (ENew "RepoData")))].
Definition m_F8_Repo : list (string * method) := [
  (* commands/repo.py:309-314 *)
  ("__str__", mkMethod []
      (steps [SAssign "retval" (str "");
      SForData "repo" (SAssign "retval" (EBin BAdd (EVar "retval") (EDataStr (EVar "repo"))));
      SReturn (EVar "retval")]))].
Definition m_F11_Repo : list (string * method) := [].
Definition m_F13_Repo : list (string * method) := [].
Definition m_F14_Repo : list (string * method) := [].
Definition m_RHEL6_Repo : list (string * method) := [].
Definition m_F15_Repo : list (string * method) := [
  (* commands/repo.py:400 *)
  ("urlRequired", mkMethod [] (SReturn (EConst (VBool false))))].
Definition m_F21_Repo : list (string * method) := [].
Definition m_F27_Repo : list (string * method) := [
  (* commands/repo.py:431-433 *)
  ("__init__", mkMethod [("kwargs", None)]
      (steps [SCall "_t1" (TClass "F21_Repo") "__init__" [("kwargs", (EVar "kwargs"))];
      SAttr "self" "exclusive_required_options" (EBin BUnion (EAttr (EVar "self") "exclusive_required_options") (EConst (VPairs [("metalink", "--metalink")])))]))].
Definition m_F30_Repo : list (string * method) := [].
Definition m_F33_Repo : list (string * method) := [].
Definition m_RHEL7_Repo : list (string * method) := [].
Definition m_RHEL8_Repo : list (string * method) := [].
Definition m_F23_ReqPart : list (string * method) := [
  (* commands/reqpart.py:31-36 *)
  ("__init__", mkMethod [("writePriority", (Some (VInt 100))); ("kwargs", None)]
      (steps [SCall "_t1" (TClass "KickstartCommand") "__init__" [("writePriority", (EVar "writePriority")); ("kwargs", (EVar "kwargs"))];
      SAttr "self" "reqpart" (EGet (EVar "kwargs") "reqpart" (EConst (VBool false)));
      SAttr "self" "addBoot" (EGet (EVar "kwargs") "addBoot" (EConst (VBool false)))]));
  (* commands/reqpart.py:38-44 *)
  ("_getArgsAsStr", mkMethod []
      (steps [SAssign "retval" (str "");
      SIf (EAttr (EVar "self") "addBoot")
      (SAssign "retval" (EBin BAdd (EVar "retval") (str " --add-boot")))
      SPass;
      SReturn (EVar "retval")]));
  (* commands/reqpart.py:46-50 *)
  ("__str__", mkMethod []
      (steps [SCall "_t1" (TClass "KickstartCommand") "__str__" [];
      SAssign "retval" (EVar "_t1");
      SIf (EAttr (EVar "self") "reqpart")
      (steps [SCall "_t2" TSelf "_getArgsAsStr" [];
      SAssign "retval" (EBin BAdd (EVar "retval") (EBin BAdd (EBin BAdd (str "reqpart") (EUn UStr (EVar "_t2"))) (str "
")))])
      SPass;
      SReturn (EVar "retval")]));
  (* commands/reqpart.py:75-89 *)
  ("parse", mkMethod []
      (steps [SIf (ESeen "autopart")
      (SRaise true "autopart")
      SPass;
      SIf (EAnd (EHandlerHas "mount") (ESeen "mount"))
      (SRaise true "The mount and reqpart commands can't be used at the same time")
      SPass;
      SParse "ns";
      SSetTo "ns" "self";
      SAttr "self" "reqpart" (EConst (VBool true));
      SReturn (EVar "self")]))].
Definition m_RHEL7_ReqPart : list (string * method) := [].
Definition m_F10_Rescue : list (string * method) := [
  (* commands/rescue.py:31-37 *)
  ("__init__", mkMethod [("writePriority", (Some (VInt 0))); ("kwargs", None)]
      (steps [SCall "_t1" (TClass "KickstartCommand") "__init__" [("writePriority", (EVar "writePriority")); ("kwargs", (EVar "kwargs"))];
      SAttr "self" "rescue" (EConst (VBool false));
      SAttr "self" "nomount" (EGet (EVar "kwargs") "nomount" (EConst (VBool false)));
      SAttr "self" "romount" (EGet (EVar "kwargs") "romount" (EConst (VBool false)))]));
  (* commands/rescue.py:39-52 *)
  ("__str__", mkMethod []
      (steps [SCall "_t1" (TClass "KickstartCommand") "__str__" [];
      SAssign "retval" (EVar "_t1");
      SIf (EAttr (EVar "self") "rescue")
      (steps [SAssign "retval" (EBin BAdd (EVar "retval") (str "rescue"));
      SIf (EAttr (EVar "self") "nomount")
      (SAssign "retval" (EBin BAdd (EVar "retval") (str " --nomount")))
      SPass;
      SIf (EAttr (EVar "self") "romount")
      (SAssign "retval" (EBin BAdd (EVar "retval") (str " --romount")))
      SPass;
      SAssign "retval" (EBin BAdd (EBin BAdd (str "# Start rescue mode
") (EUn UStr (EVar "retval"))) (str "
"))])
      SPass;
      SReturn (EVar "retval")]));
  (* commands/rescue.py:73-81 *)
  ("parse", mkMethod []
      (steps [SParse "ns";
      SIf (EAnd (EAttr (EVar "ns") "nomount") (EAttr (EVar "ns") "romount"))
      (SRaise true "Only one of --nomount and --romount may be specified for rescue command.")
      SPass;
      SSetTo "ns" "self";
      SAttr "self" "rescue" (EConst (VBool true));
      SReturn (EVar "self")]))].
Definition m_RHEL8_RHSM : list (string * method) := [
  (* commands/rhsm.py:30-39 *)
  ("__init__", mkMethod [("writePriority", (Some (VInt 0))); ("kwargs", None)]
      (steps [SCall "_t1" (TClass "KickstartCommand") "__init__" [("writePriority", (EVar "writePriority")); ("kwargs", (EVar "kwargs"))];
      SAttr "self" "organization" (EGet (EVar "kwargs") "organization" (EConst VNone));
      SAttr "self" "activation_keys" (EGet (EVar "kwargs") "activation_keys" (EConst VNone));
      SAttr "self" "connect_to_insights" (EGet (EVar "kwargs") "connect_to_insights" (EConst VNone));
      SAttr "self" "proxy" (EGet (EVar "kwargs") "proxy" (EConst VNone));
      SAttr "self" "server_hostname" (EGet (EVar "kwargs") "server_hostname" (EConst VNone));
      SAttr "self" "rhsm_baseurl" (EGet (EVar "kwargs") "rhsm_baseurl" (EConst VNone))]));
  (* commands/rhsm.py:42-66 *)
  ("__str__", mkMethod []
      (steps [SCall "_t1" (TClass "KickstartCommand") "__str__" [];
      SAssign "retval" (EVar "_t1");
      SIf (EAnd (EUn UNot (EVar "retval")) (EUn UNot (EUn UBool (EOr (EAttr (EVar "self") "organization") (EOr (EAttr (EVar "self") "activation_keys") (EOr (EAttr (EVar "self") "proxy") (EOr (EAttr (EVar "self") "server_hostname") (EAttr (EVar "self") "rhsm_baseurl"))))))))
      (SReturn (str ""))
      SPass;
      SAssign "retval" (EBin BAdd (EVar "retval") (str "# Red Hat Subscription Manager
rhsm"));
      SIf (EAttr (EVar "self") "organization")
      (SAssign "retval" (EBin BAdd (EVar "retval") (EBin BAdd (EBin BAdd (str " --organization=""") (EUn UStr (EAttr (EVar "self") "organization"))) (str """"))))
      SPass;
      SFor "key" (EAttr (EVar "self") "activation_keys") (SAssign "retval" (EBin BAdd (EVar "retval") (EBin BAdd (EBin BAdd (str " --activation-key=""") (EUn UStr (EVar "key"))) (str """"))));
      SIf (EAttr (EVar "self") "connect_to_insights")
      (SAssign "retval" (EBin BAdd (EVar "retval") (str " --connect-to-insights")))
      SPass;
      SIf (EAttr (EVar "self") "proxy")
      (SAssign "retval" (EBin BAdd (EVar "retval") (EBin BAdd (EBin BAdd (str " --proxy=""") (EUn UStr (EAttr (EVar "self") "proxy"))) (str """"))))
      SPass;
      SIf (EAttr (EVar "self") "server_hostname")
      (SAssign "retval" (EBin BAdd (EVar "retval") (EBin BAdd (EBin BAdd (str " --server-hostname=""") (EUn UStr (EAttr (EVar "self") "server_hostname"))) (str """"))))
      SPass;
      SIf (EAttr (EVar "self") "rhsm_baseurl")
      (SAssign "retval" (EBin BAdd (EVar "retval") (EBin BAdd (EBin BAdd (str " --rhsm-baseurl=""") (EUn UStr (EAttr (EVar "self") "rhsm_baseurl"))) (str """"))))
      SPass;
      SAssign "retval" (EBin BAdd (EVar "retval") (str "
"));
      SReturn (EVar "retval")]));
  (* commands/rhsm.py:104-112 *)
  ("parse", mkMethod []
      (steps [SParse "ns";
      SFor "key" (EAttr (EVar "ns") "activation_keys") (SIf (EBin BEq (EVar "key") (str ""))
      (SRaise true "Empty string is not a valid activation key.")
      SPass);
      SSetTo "ns" "self";
      SReturn (EVar "self")]))].
Definition m_FC3_RootPw : list (string * method) := [
  (* commands/rootpw.py:33-38 *)
  ("__init__", mkMethod [("writePriority", (Some (VInt 0))); ("kwargs", None)]
      (steps [SCall "_t1" (TClass "KickstartCommand") "__init__" [("writePriority", (EVar "writePriority")); ("kwargs", (EVar "kwargs"))];
      SAttr "self" "isCrypted" (EGet (EVar "kwargs") "isCrypted" (EConst (VBool false)));
      SAttr "self" "password" (EGet (EVar "kwargs") "password" (str ""))]));
  (* commands/rootpw.py:40-46 *)
  ("_getArgsAsStr", mkMethod []
      (steps [SAssign "retval" (str "");
      SIf (EAttr (EVar "self") "isCrypted")
      (SAssign "retval" (EBin BAdd (EVar "retval") (str " --iscrypted")))
      SPass;
      SReturn (EVar "retval")]));
  (* commands/rootpw.py:48-61 *)
  ("__str__", mkMethod []
      (steps [SCall "_t1" (TClass "KickstartCommand") "__str__" [];
      SAssign "retval" (EVar "_t1");
      SIf (EAttr (EVar "self") "password")
      (steps [SIf (EAnd (EConst (VBool false)) (EBin BIn (EConst (VStr "#")) (EAttr (EVar "self") "password")))
      (SAssign "password" (EBin BAdd (EBin BAdd (str """") (EAttr (EVar "self") "password")) (str """")))
      (SIf (EAnd (EUn UNot (EConst (VBool false))) (EBin BIn (str "#") (EAttr (EVar "self") "password")))
      (SAssign "password" (EBin BAdd (EBin BAdd (str """") (EAttr (EVar "self") "password")) (str """")))
      (SAssign "password" (EAttr (EVar "self") "password")));
      SCall "_t2" TSelf "_getArgsAsStr" [];
      SAssign "retval" (EBin BAdd (EVar "retval") (EBin BAdd (EBin BAdd (EBin BAdd (EBin BAdd (str "# Root password
rootpw") (EUn UStr (EVar "_t2"))) (str " ")) (EUn UStr (EVar "password"))) (str "
")))])
      SPass;
      SReturn (EVar "retval")]));
  (* commands/rootpw.py:81-91 *)
  ("parse", mkMethod []
      (steps [SParseKnown "ns" "extra";
      SIf (EUn UNot (EAttr (EVar "ns") "password"))
      (SRaise true "rootpw")
      (SIf (EVar "extra")
      (SRaise true "Unexpected arguments to %(command)s command: %(options)s")
      SPass);
      SSetTo "ns" "self";
      SReturn (EVar "self")]))].
Definition m_F8_RootPw : list (string * method) := [
  (* commands/rootpw.py:97-99 *)
  ("__init__", mkMethod [("writePriority", (Some (VInt 0))); ("kwargs", None)]
      (steps [SCall "_t1" (TClass "FC3_RootPw") "__init__" [("writePriority", (EVar "writePriority")); ("kwargs", (EVar "kwargs"))];
      SAttr "self" "lock" (EGet (EVar "kwargs") "lock" (EConst (VBool false)))]));
  (* commands/rootpw.py:101-110 *)
  ("_getArgsAsStr", mkMethod []
      (steps [SCall "_t1" (TClass "FC3_RootPw") "_getArgsAsStr" [];
      SAssign "retval" (EVar "_t1");
      SIf (EAttr (EVar "self") "lock")
      (SAssign "retval" (EBin BAdd (EVar "retval") (str " --lock")))
      SPass;
      SIf (EUn UNot (EAttr (EVar "self") "isCrypted"))
      (SAssign "retval" (EBin BAdd (EVar "retval") (str " --plaintext")))
      SPass;
      SReturn (EVar "retval")]))].
Definition m_F18_RootPw : list (string * method) := [
  (* commands/rootpw.py:130-136 *)
  ("__str__", mkMethod []
      (steps [SCall "_t1" (TClass "F8_RootPw") "__str__" [];
      SAssign "retval" (EVar "_t1");
      SIf (EAnd (EUn UNot (EVar "retval")) (EAttr (EVar "self") "lock"))
      (SAssign "retval" (str "#Root password
rootpw --lock
"))
      SPass;
      SReturn (EVar "retval")]));
  (* commands/rootpw.py:138-148 *)
  ("parse", mkMethod []
      (steps [SParseKnown "ns" "extra";
      SIf (EUn UNot (EOr (EAttr (EVar "ns") "password") (EAttr (EVar "ns") "lock")))
      (SRaise true "rootpw")
      (SIf (EVar "extra")
      (SRaise true "Unexpected arguments to %(command)s command: %(options)s")
      SPass);
      SSetTo "ns" "self";
      SReturn (EVar "self")]))].
Definition m_FC3_SELinux : list (string * method) := [
  (* commands/selinux.py:29-33 *)
  ("__init__", mkMethod [("writePriority", (Some (VInt 0))); ("kwargs", None)]
      (steps [SCall "_t1" (TClass "KickstartCommand") "__init__" [("writePriority", (EVar "writePriority")); ("kwargs", (EVar "kwargs"))];
      SAttr "self" "selinux" (EGet (EVar "kwargs") "selinux" (EConst VNone))]));
  (* commands/selinux.py:35-50 *)
  ("__str__", mkMethod []
      (steps [SCall "_t1" (TClass "KickstartCommand") "__str__" [];
      SAssign "retval" (EVar "_t1");
      SIf (EAnd (EUn UNot (EVar "retval")) (EBin BIs (EAttr (EVar "self") "selinux") (EConst VNone)))
      (SReturn (str ""))
      SPass;
      SAssign "retval" (EBin BAdd (EVar "retval") (str "# SELinux configuration
"));
      SIf (EBin BEq (EAttr (EVar "self") "selinux") (EConst (VInt 0)))
      (SAssign "retval" (EBin BAdd (EVar "retval") (str "selinux --disabled
")))
      (SIf (EBin BEq (EAttr (EVar "self") "selinux") (EConst (VInt 1)))
      (SAssign "retval" (EBin BAdd (EVar "retval") (str "selinux --enforcing
")))
      (SIf (EBin BEq (EAttr (EVar "self") "selinux") (EConst (VInt 2)))
      (SAssign "retval" (EBin BAdd (EVar "retval") (str "selinux --permissive
")))
      SPass));
      SReturn (EVar "retval")]));
  (* commands/selinux.py:75-78 *)
  ("parse", mkMethod []
      (steps [SParse "ns";
      SSetTo "ns" "self";
      SReturn (EVar "self")]))].
Definition m_FC6_Services : list (string * method) := [
  (* commands/services.py:31-36 *)
  ("__init__", mkMethod [("writePriority", (Some (VInt 0))); ("kwargs", None)]
      (steps [SCall "_t1" (TClass "KickstartCommand") "__init__" [("writePriority", (EVar "writePriority")); ("kwargs", (EVar "kwargs"))];
      SAttr "self" "disabled" (EGet (EVar "kwargs") "disabled" (EConst (VStrs [])));
      SAttr "self" "enabled" (EGet (EVar "kwargs") "enabled" (EConst (VStrs [])))]));
  (* commands/services.py:38-50 *)
  ("__str__", mkMethod []
      (steps [SCall "_t1" (TClass "KickstartCommand") "__str__" [];
      SAssign "retval" (EVar "_t1");
      SAssign "args" (str "");
      SIf (EAttr (EVar "self") "disabled")
      (SAssign "args" (EBin BAdd (EVar "args") (EBin BAdd (EBin BAdd (str " --disabled=""") (EUn UStr (EBin BJoin (str ",") (EAttr (EVar "self") "disabled")))) (str """"))))
      SPass;
      SIf (EAttr (EVar "self") "enabled")
      (SAssign "args" (EBin BAdd (EVar "args") (EBin BAdd (EBin BAdd (str " --enabled=""") (EUn UStr (EBin BJoin (str ",") (EAttr (EVar "self") "enabled")))) (str """"))))
      SPass;
      SIf (EVar "args")
      (SAssign "retval" (EBin BAdd (EVar "retval") (EBin BAdd (EBin BAdd (str "# System services
services") (EUn UStr (EVar "args"))) (str "
"))))
      SPass;
      SReturn (EVar "retval")]));
  (* commands/services.py:71-78 *)
  ("parse", mkMethod []
      (steps [SParse "ns";
      SSetTo "ns" "self";
      SIf (EUn UNot (EOr (EAttr (EVar "self") "disabled") (EAttr (EVar "self") "enabled")))
      (SRaise true "One of --disabled or --enabled must be provided.")
      SPass;
      SReturn (EVar "self")]))].
Definition m_FC3_SkipX : list (string * method) := [
  (* commands/skipx.py:28-31 *)
  ("__init__", mkMethod [("writePriority", (Some (VInt 0))); ("kwargs", None)]
      (steps [SCall "_t1" (TClass "KickstartCommand") "__init__" [("writePriority", (EVar "writePriority")); ("kwargs", (EVar "kwargs"))];
      SAttr "self" "skipx" (EGet (EVar "kwargs") "skipx" (EConst (VBool false)))]));
  (* commands/skipx.py:33-39 *)
  ("__str__", mkMethod []
      (steps [SCall "_t1" (TClass "KickstartCommand") "__str__" [];
      SAssign "retval" (EVar "_t1");
      SIf (EAttr (EVar "self") "skipx")
      (SAssign "retval" (EBin BAdd (EVar "retval") (str "# Do not configure the X Window System
skipx
")))
      SPass;
      SReturn (EVar "retval")]));
  (* commands/skipx.py:47-50 *)
  ("parse", mkMethod []
      (steps [SParse "_";
      SAttr "self" "skipx" (EConst (VBool true));
      SReturn (EVar "self")]))].
Definition m_F26_SnapshotData : list (string * method) := [
  (* commands/snapshot.py:34-38 *)
  ("__init__", mkMethod [("kwargs", None)]
      (steps [SCall "_t1" (TClass "BaseData") "__init__" [("kwargs", (EVar "kwargs"))];
      SAttr "self" "name" (EGet (EVar "kwargs") "name" (str ""));
      SAttr "self" "origin" (EGet (EVar "kwargs") "origin" (str ""));
      SAttr "self" "when" (EGet (EVar "kwargs") "when" (EConst VNone))]));
  (* commands/snapshot.py:50-58 *)
  ("_getArgsAsStr", mkMethod []
      (steps [SAssign "retval" (str "");
      SIf (EBin BEq (EAttr (EVar "self") "when") (EConst (VInt 0)))
      (SAssign "retval" (EBin BAdd (EVar "retval") (str "--when=post-install")))
      (SIf (EBin BEq (EAttr (EVar "self") "when") (EConst (VInt 1)))
      (SAssign "retval" (EBin BAdd (EVar "retval") (str "--when=pre-install")))
      SPass);
      SReturn (EVar "retval")]));
  (* commands/snapshot.py:60-63 *)
  ("__str__", mkMethod []
      (steps [SCall "_t1" (TClass "BaseData") "__str__" [];
      SAssign "retval" (EVar "_t1");
      SCall "_t2" TSelf "_getArgsAsStr" [];
      SAssign "retval" (EBin BAdd (EVar "retval") (EBin BAdd (EBin BAdd (EBin BAdd (EBin BAdd (EBin BAdd (str "snapshot ") (EUn UStr (EAttr (EVar "self") "origin"))) (str " --name=")) (EUn UStr (EAttr (EVar "self") "name"))) (str " ")) (EUn UStr (EVar "_t2"))));
      SReturn (EBin BAdd (EUn UStrip (EVar "retval")) (str "
"))]))].
Definition m_F26_Snapshot : list (string * method) := [
  (* commands/snapshot.py:70-76 *)
  ("__init__", mkMethod [("writePriority", (Some (VInt 140))); ("kwargs", None)]
      (steps [SCall "_t1" (TClass "KickstartCommand") "__init__" [("writePriority", (EVar "writePriority")); ("kwargs", (EVar "kwargs"))];
      SAttr "self" "whenMap" (EConst (VCodes [("post-install", (0)%Z); ("pre-install", (1)%Z)]))]));
  (* commands/snapshot.py:78-84 *)
  ("__str__", mkMethod []
      (steps [SAssign "retval" (str "");
      SForData "snapshot" (SAssign "retval" (EBin BAdd (EVar "retval") (EDataStr (EVar "snapshot"))));
      SReturn (EVar "retval")]));
  (* commands/snapshot.py:113-140 *)
  ("parse", mkMethod []
      (steps [SParse "ns";
      SCall "_t1" TSelf "dataClass" [];
      SAssign "snap_data" (EVar "_t1");
      SSetTo "ns" "snap_data";
      SAttr "snap_data" "lineno" (EAttr (EVar "self") "lineno");
      SIf (EBin BIn (EAttr (EVar "snap_data") "name") (EDataNames "name"))
      (SRaise true "Snapshot with the name %s has been already defined!")
      SPass;
      SIf (EBin BIs (EAttr (EVar "snap_data") "when") (EConst VNone))
      (SRaise true "Snapshot ""when"" parameter must be specified!")
      SPass;
      SAssign "groups" (EBin BSplit (str "/") (EAttr (EVar "snap_data") "origin"));
      SIf (EOr (EBin BNe (EUn ULen (EVar "groups")) (EConst (VInt 2))) (EOr (EBin BEq (EUn ULen (EBin BIndex (EVar "groups") (EConst (VInt 0)))) (EConst (VInt 0))) (EBin BEq (EUn ULen (EBin BIndex (EVar "groups") (EConst (VInt 1)))) (EConst (VInt 0)))))
      (SRaise true "Snapshot origin %s must be specified by VG/LV!")
      SPass;
      SIf (EAnd (EBin BNe (EAttr (EVar "snap_data") "when") (str "")) (EUn UNot (EBin BInValues (EAttr (EVar "snap_data") "when") (EAttr (EVar "self") "whenMap"))))
      (SRaise true "Snapshot when param must have one of these values %s!")
      SPass;
      SReturn (EVar "snap_data")]));
  (* commands/snapshot.py:146-147 *)
  ("dataClass", mkMethod []
      (SReturn (ENew "SnapshotData")))].
Definition m_F22_SshKeyData : list (string * method) := [
  (* commands/sshkey.py:32-35 *)
  ("__init__", mkMethod [("kwargs", None)]
      (steps [SCall "_t1" (TClass "BaseData") "__init__" [("kwargs", (EVar "kwargs"))];
      SAttr "self" "username" (EGet (EVar "kwargs") "username" (EConst VNone));
      SAttr "self" "key" (EGet (EVar "kwargs") "key" (str ""))]));
  (* commands/sshkey.py:46-52 *)
  ("__str__", mkMethod []
      (steps [SCall "_t1" (TClass "BaseData") "__str__" [];
      SAssign "retval" (EVar "_t1");
      SAssign "retval" (EBin BAdd (EVar "retval") (str "sshkey"));
      SCall "_t2" TSelf "_getArgsAsStr" [];
      SAssign "retval" (EBin BAdd (EVar "retval") (EBin BAdd (EVar "_t2") (str "
")));
      SReturn (EVar "retval")]));
  (* commands/sshkey.py:54-59 *)
  ("_getArgsAsStr", mkMethod []
      (steps [SAssign "retval" (str "");
      SAssign "retval" (EBin BAdd (EVar "retval") (EBin BAdd (str " --username=") (EUn UStr (EAttr (EVar "self") "username"))));
      SAssign "retval" (EBin BAdd (EVar "retval") (EBin BAdd (EBin BAdd (str " """) (EUn UStr (EAttr (EVar "self") "key"))) (str """")));
      SReturn (EVar "retval")]))].
Definition m_F22_SshKey : list (string * method) := [
  (* commands/sshkey.py:65-69 *)
  ("__init__", mkMethod [("writePriority", (Some (VInt 0))); ("kwargs", None)]
      (SCall "_t1" (TClass "KickstartCommand") "__init__" [("writePriority", (EVar "writePriority")); ("kwargs", (EVar "kwargs"))]));
  (* commands/sshkey.py:71-76 *)
  ("__str__", mkMethod []
      (steps [SAssign "retval" (str "");
      SForData "user" (SAssign "retval" (EBin BAdd (EVar "retval") (EDataStr (EVar "user"))));
      SReturn (EVar "retval")]));
  (* commands/sshkey.py:95-111 *)
  ("parse", mkMethod []
      (steps [SCall "_t1" TSelf "dataClass" [];
      SAssign "ud" (EVar "_t1");
      SParseKnown "ns" "extra";
      SAssert (EBin BEq (EUn ULen (EAttr (EVar "ns") "sshkey")) (EConst (VInt 1)));
      SIf (EVar "extra")
      (SRaise true "Unexpected arguments to %(command)s command: %(options)s")
      SPass;
      SSetTo "ns" "ud";
      SAttr "ud" "key" (EBin BIndex (EAttr (EVar "ns") "sshkey") (EConst (VInt 0)));
      SAttr "ud" "lineno" (EAttr (EVar "self") "lineno");
      SReturn (EVar "ud")]));
  (* commands/sshkey.py:117-118 *)
  ("dataClass", mkMethod []
      (SReturn (ENew "SshKeyData")))].
Definition m_F13_SshPwData : list (string * method) := [
  (* commands/sshpw.py:32-37 *)
  ("__init__", mkMethod [("kwargs", None)]
      (steps [SCall "_t1" (TClass "BaseData") "__init__" [("kwargs", (EVar "kwargs"))];
      SAttr "self" "username" (EGet (EVar "kwargs") "username" (EConst VNone));
      SAttr "self" "isCrypted" (EGet (EVar "kwargs") "isCrypted" (EConst (VBool false)));
      SAttr "self" "password" (EGet (EVar "kwargs") "password" (str ""));
      SAttr "self" "lock" (EGet (EVar "kwargs") "lock" (EConst (VBool false)))]));
  (* commands/sshpw.py:48-54 *)
  ("__str__", mkMethod []
      (steps [SCall "_t1" (TClass "BaseData") "__str__" [];
      SAssign "retval" (EVar "_t1");
      SAssign "retval" (EBin BAdd (EVar "retval") (str "sshpw"));
      SCall "_t2" TSelf "_getArgsAsStr" [];
      SAssign "retval" (EBin BAdd (EVar "retval") (EBin BAdd (EVar "_t2") (str "
")));
      SReturn (EVar "retval")]));
  (* commands/sshpw.py:56-68 *)
  ("_getArgsAsStr", mkMethod []
      (steps [SAssign "retval" (str "");
      SAssign "retval" (EBin BAdd (EVar "retval") (EBin BAdd (str " --username=") (EUn UStr (EAttr (EVar "self") "username"))));
      SIf (EAttr (EVar "self") "lock")
      (SAssign "retval" (EBin BAdd (EVar "retval") (str " --lock")))
      SPass;
      SIf (EAttr (EVar "self") "isCrypted")
      (SAssign "retval" (EBin BAdd (EVar "retval") (str " --iscrypted")))
      (SAssign "retval" (EBin BAdd (EVar "retval") (str " --plaintext")));
      SAssign "retval" (EBin BAdd (EVar "retval") (EBin BAdd (str " ") (EUn UStr (EAttr (EVar "self") "password"))));
      SReturn (EVar "retval")]))].
Definition m_F24_SshPwData : list (string * method) := [
  (* commands/sshpw.py:74-76 *)
  ("__init__", mkMethod [("kwargs", None)]
      (steps [SCall "_t1" (TClass "F13_SshPwData") "__init__" [("kwargs", (EVar "kwargs"))];
      SAttr "self" "sshkey" (EGet (EVar "kwargs") "sshkey" (EConst (VBool false)))]));
  (* commands/sshpw.py:78-93 *)
  ("_getArgsAsStr", mkMethod []
      (steps [SAssign "retval" (str "");
      SAssign "retval" (EBin BAdd (EVar "retval") (EBin BAdd (str " --username=") (EUn UStr (EAttr (EVar "self") "username"))));
      SIf (EAttr (EVar "self") "sshkey")
      (SAssign "retval" (EBin BAdd (EVar "retval") (str " --sshkey")))
      (steps [SIf (EAttr (EVar "self") "lock")
      (SAssign "retval" (EBin BAdd (EVar "retval") (str " --lock")))
      SPass;
      SIf (EAttr (EVar "self") "isCrypted")
      (SAssign "retval" (EBin BAdd (EVar "retval") (str " --iscrypted")))
      (SAssign "retval" (EBin BAdd (EVar "retval") (str " --plaintext")))]);
      SAssign "retval" (EBin BAdd (EVar "retval") (EBin BAdd (str " ") (EUn UStr (EAttr (EVar "self") "password"))));
      SReturn (EVar "retval")]))].
Definition m_F13_SshPw : list (string * method) := [
  (* commands/sshpw.py:99-103 *)
  ("__init__", mkMethod [("writePriority", (Some (VInt 0))); ("kwargs", None)]
      (SCall "_t1" (TClass "KickstartCommand") "__init__" [("writePriority", (EVar "writePriority")); ("kwargs", (EVar "kwargs"))]));
  (* commands/sshpw.py:105-110 *)
  ("__str__", mkMethod []
      (steps [SAssign "retval" (str "");
      SForData "user" (SAssign "retval" (EBin BAdd (EVar "retval") (EDataStr (EVar "user"))));
      SReturn (EVar "retval")]));
  (* commands/sshpw.py:155-172 *)
  ("parse", mkMethod []
      (steps [SCall "_t1" TSelf "dataClass" [];
      SAssign "ud" (EVar "_t1");
      SParseKnown "ns" "extra";
      SIf (EUn UNot (EAttr (EVar "ns") "password"))
      (SRaise true "sshpw")
      SPass;
      SIf (EVar "extra")
      (SRaise true "Unexpected arguments to %(command)s command: %(options)s")
      SPass;
      SSetTo "ns" "ud";
      SAttr "ud" "password" (EBin BJoin (str " ") (EAttr (EVar "ns") "password"));
      SAttr "ud" "lineno" (EAttr (EVar "self") "lineno");
      SReturn (EVar "ud")]));
  (* commands/sshpw.py:178-179 *)
  ("dataClass", mkMethod []
      (SReturn (ENew "SshPwData")))].
Definition m_F24_SshPw : list (string * method) := [].
Definition m_RHEL8_Syspurpose : list (string * method) := [
  (* commands/syspurpose.py:32-39 *)
  ("__init__", mkMethod [("writePriority", (Some (VInt 0))); ("kwargs", None)]
      (steps [SCall "_t1" (TClass "KickstartCommand") "__init__" [("writePriority", (EVar "writePriority")); ("kwargs", (EVar "kwargs"))];
      SAttr "self" "role" (EGet (EVar "kwargs") "role" (EConst VNone));
      SAttr "self" "sla" (EGet (EVar "kwargs") "sla" (EConst VNone));
      SAttr "self" "usage" (EGet (EVar "kwargs") "usage" (EConst VNone));
      SAttr "self" "addons" (EGet (EVar "kwargs") "addons" (EConst VNone))]));
  (* commands/syspurpose.py:41-58 *)
  ("__str__", mkMethod []
      (steps [SCall "_t1" (TClass "KickstartCommand") "__str__" [];
      SAssign "retval" (EVar "_t1");
      SIf (EAnd (EUn UNot (EVar "retval")) (EUn UNot (EUn UBool (EOr (EAttr (EVar "self") "role") (EOr (EAttr (EVar "self") "sla") (EOr (EAttr (EVar "self") "usage") (EAttr (EVar "self") "addons")))))))
      (SReturn (str ""))
      SPass;
      SAssign "retval" (EBin BAdd (EVar "retval") (str "# Intended system purpose
syspurpose"));
      SIf (EAttr (EVar "self") "role")
      (SAssign "retval" (EBin BAdd (EVar "retval") (EBin BAdd (EBin BAdd (str " --role=""") (EUn UStr (EAttr (EVar "self") "role"))) (str """"))))
      SPass;
      SIf (EAttr (EVar "self") "sla")
      (SAssign "retval" (EBin BAdd (EVar "retval") (EBin BAdd (EBin BAdd (str " --sla=""") (EUn UStr (EAttr (EVar "self") "sla"))) (str """"))))
      SPass;
      SIf (EAttr (EVar "self") "usage")
      (SAssign "retval" (EBin BAdd (EVar "retval") (EBin BAdd (EBin BAdd (str " --usage=""") (EUn UStr (EAttr (EVar "self") "usage"))) (str """"))))
      SPass;
      SIf (EAttr (EVar "self") "addons")
      (SFor "addon" (EAttr (EVar "self") "addons") (SAssign "retval" (EBin BAdd (EVar "retval") (EBin BAdd (EBin BAdd (str " --addon=""") (EUn UStr (EVar "addon"))) (str """")))))
      SPass;
      SAssign "retval" (EBin BAdd (EVar "retval") (str "
"));
      SReturn (EVar "retval")]));
  (* commands/syspurpose.py:82-90 *)
  ("parse", mkMethod []
      (steps [SParseKnown "ns" "extra";
      SIf (EBin BGt (EUn ULen (EVar "extra")) (EConst (VInt 0)))
      (SRaise true "The syspurpose command does not take positional arguments!")
      SPass;
      SSetTo "ns" "self";
      SReturn (EVar "self")]))].
Definition m_F33_TimesourceData : list (string * method) := [
  (* commands/timesource.py:29-34 *)
  ("__init__", mkMethod [("kwargs", None)]
      (steps [SCall "_t1" (TClass "BaseData") "__init__" [("kwargs", (EVar "kwargs"))];
      SAttr "self" "ntp_server" (EGet (EVar "kwargs") "ntp_server" (str ""));
      SAttr "self" "ntp_pool" (EGet (EVar "kwargs") "ntp_pool" (str ""));
      SAttr "self" "ntp_disable" (EGet (EVar "kwargs") "ntp_disable" (EConst (VBool false)));
      SAttr "self" "nts" (EGet (EVar "kwargs") "nts" (EConst (VBool false)))]));
  (* commands/timesource.py:53-60 *)
  ("__str__", mkMethod []
      (steps [SCall "_t1" (TClass "BaseData") "__str__" [];
      SAssign "retval" (EVar "_t1");
      SCall "_t2" TSelf "_getArgsAsStr" [];
      SAssign "args" (EVar "_t2");
      SIf (EVar "args")
      (SAssign "retval" (EBin BAdd (EVar "retval") (EBin BAdd (EBin BAdd (str "timesource") (EUn UStr (EVar "args"))) (str "
"))))
      SPass;
      SReturn (EVar "retval")]));
  (* commands/timesource.py:62-74 *)
  ("_getArgsAsStr", mkMethod []
      (steps [SAssign "retval" (str "");
      SIf (EAttr (EVar "self") "ntp_server")
      (SAssign "retval" (EBin BAdd (EVar "retval") (EBin BAdd (str " --ntp-server=") (EUn UStr (EAttr (EVar "self") "ntp_server")))))
      SPass;
      SIf (EAttr (EVar "self") "ntp_pool")
      (SAssign "retval" (EBin BAdd (EVar "retval") (EBin BAdd (str " --ntp-pool=") (EUn UStr (EAttr (EVar "self") "ntp_pool")))))
      SPass;
      SIf (EAttr (EVar "self") "nts")
      (SAssign "retval" (EBin BAdd (EVar "retval") (str " --nts")))
      SPass;
      SIf (EAttr (EVar "self") "ntp_disable")
      (SAssign "retval" (EBin BAdd (EVar "retval") (str " --ntp-disable")))
      SPass;
      SReturn (EVar "retval")]))].
Definition m_F33_Timesource : list (string * method) := [
  (* commands/timesource.py:81-87 *)
  ("__init__", mkMethod [("writePriority", (Some (VInt 0))); ("kwargs", None)]
      (steps [SCall "_t1" (TClass "KickstartCommand") "__init__" [("writePriority", (EVar "writePriority")); ("kwargs", (EVar "kwargs"))];
      SAttr "self" "exclusive_required_options" (EConst (VPairs [("ntp_server", "--ntp-server"); ("ntp_pool", "--ntp-pool"); ("ntp_disable", "--ntp-disable")]))]));
  (* commands/timesource.py:89-94 *)
  ("__str__", mkMethod []
      (steps [SAssign "retval" (str "");
      SForData "timesource_command" (SAssign "retval" (EBin BAdd (EVar "retval") (EDataStr (EVar "timesource_command"))));
      SReturn (EVar "retval")]));
  (* commands/timesource.py:125-141 *)
  ("parse", mkMethod []
      (steps [SCall "_t1" TSelf "dataClass" [];
      SAssign "td" (EVar "_t1");
      SParse "ns";
      SSetTo "ns" "td";
      SAttr "td" "lineno" (EAttr (EVar "self") "lineno");
      SAssign "used_options" (EUsed (EAttr (EVar "self") "exclusive_required_options") (EVar "ns"));
      SIf (EBin BEq (EUn ULen (EVar "used_options")) (EConst (VInt 0)))
      (SRaise true "One of -%(options_list)s options must be specified for timesource command.")
      SPass;
      SIf (EBin BGt (EUn ULen (EVar "used_options")) (EConst (VInt 1)))
      (SRaise true "Only one of %(options_list)s options may be specified for timesource command.")
      SPass;
      SReturn (EVar "td")]));
  (* commands/timesource.py:147-148 *)
  ("dataClass", mkMethod []
      (SReturn (ENew "TimesourceData")))].
Definition m_FC3_Timezone : list (string * method) := [
  (* commands/timezone.py:32-37 *)
  ("__init__", mkMethod [("writePriority", (Some (VInt 0))); ("kwargs", None)]
      (steps [SCall "_t1" (TClass "KickstartCommand") "__init__" [("writePriority", (EVar "writePriority")); ("kwargs", (EVar "kwargs"))];
      SAttr "self" "isUtc" (EGet (EVar "kwargs") "isUtc" (EConst (VBool false)));
      SAttr "self" "timezone" (EGet (EVar "kwargs") "timezone" (str ""))]));
  (* commands/timezone.py:39-50 *)
  ("__str__", mkMethod []
      (steps [SCall "_t1" (TClass "KickstartCommand") "__str__" [];
      SAssign "retval" (EVar "_t1");
      SIf (EAttr (EVar "self") "timezone")
      (steps [SIf (EAttr (EVar "self") "isUtc")
      (SAssign "utc" (str "--utc"))
      (SAssign "utc" (str ""));
      SAssign "retval" (EBin BAdd (EVar "retval") (EBin BAdd (EBin BAdd (EBin BAdd (EBin BAdd (str "# System timezone
timezone ") (EUn UStr (EVar "utc"))) (str " ")) (EUn UStr (EAttr (EVar "self") "timezone"))) (str "
")))])
      SPass;
      SReturn (EVar "retval")]));
  (* commands/timezone.py:75-85 *)
  ("parse", mkMethod []
      (steps [SParseKnown "ns" "extra";
      SSetTo "ns" "self";
      SAssert (EBin BEq (EUn ULen (EAttr (EVar "ns") "timezone")) (EConst (VInt 1)));
      SIf (EVar "extra")
      (SRaise true "Unexpected arguments to %(command)s command: %(options)s")
      SPass;
      SAttr "self" "timezone" (EBin BIndex (EAttr (EVar "ns") "timezone") (EConst (VInt 0)));
      SReturn (EVar "self")]))].
Definition m_FC6_Timezone : list (string * method) := [
  (* commands/timezone.py:91-102 *)
  ("__str__", mkMethod []
      (steps [SCall "_t1" (TClass "KickstartCommand") "__str__" [];
      SAssign "retval" (EVar "_t1");
      SIf (EAttr (EVar "self") "timezone")
      (steps [SIf (EAttr (EVar "self") "isUtc")
      (SAssign "utc" (str "--isUtc"))
      (SAssign "utc" (str ""));
      SAssign "retval" (EBin BAdd (EVar "retval") (EBin BAdd (EBin BAdd (EBin BAdd (EBin BAdd (str "# System timezone
timezone ") (EUn UStr (EVar "utc"))) (str " ")) (EUn UStr (EAttr (EVar "self") "timezone"))) (str "
")))])
      SPass;
      SReturn (EVar "retval")]))].
Definition m_F18_Timezone : list (string * method) := [
  (* commands/timezone.py:112-116 *)
  ("__init__", mkMethod [("writePriority", (Some (VInt 0))); ("kwargs", None)]
      (steps [SCall "_t1" (TClass "FC6_Timezone") "__init__" [("writePriority", (EVar "writePriority")); ("kwargs", (EVar "kwargs"))];
      SAttr "self" "nontp" (EGet (EVar "kwargs") "nontp" (EConst (VBool false)));
      SAttr "self" "ntpservers" (EGet (EVar "kwargs") "ntpservers" (EConst (VStrs [])))]));
  (* commands/timezone.py:118-125 *)
  ("__str__", mkMethod []
      (steps [SCall "_t1" (TClass "KickstartCommand") "__str__" [];
      SAssign "retval" (EVar "_t1");
      SIf (EAttr (EVar "self") "timezone")
      (steps [SAssign "retval" (EBin BAdd (EVar "retval") (str "# System timezone
"));
      SCall "_t2" TSelf "_getArgsAsStr" [];
      SAssign "retval" (EBin BAdd (EVar "retval") (EBin BAdd (EBin BAdd (str "timezone ") (EVar "_t2")) (str "
")))])
      SPass;
      SReturn (EVar "retval")]));
  (* commands/timezone.py:127-139 *)
  ("_getArgsAsStr", mkMethod []
      (steps [SAssign "retval" (EAttr (EVar "self") "timezone");
      SIf (EAttr (EVar "self") "isUtc")
      (SAssign "retval" (EBin BAdd (EVar "retval") (str " --isUtc")))
      SPass;
      SIf (EAttr (EVar "self") "nontp")
      (SAssign "retval" (EBin BAdd (EVar "retval") (str " --nontp")))
      SPass;
      SIf (EAttr (EVar "self") "ntpservers")
      (SAssign "retval" (EBin BAdd (EVar "retval") (EBin BAdd (str " --ntpservers=") (EBin BJoin (str ",") (EAttr (EVar "self") "ntpservers")))))
      SPass;
      SReturn (EVar "retval")]));
  (* commands/timezone.py:164-174 *)
  ("parse", mkMethod []
      (steps [SCall "_t1" (TClass "FC6_Timezone") "parse" [];
      SAttr "self" "ntpservers" (EUn UDistinct (EAttr (EVar "self") "ntpservers"));
      SIf (EAnd (EAttr (EVar "self") "ntpservers") (EAttr (EVar "self") "nontp"))
      (SRaise true "Options --nontp and --ntpservers are mutually exclusive")
      SPass;
      SReturn (EVar "self")]))].
Definition m_F23_Timezone : list (string * method) := [
  (* commands/timezone.py:177-179 *)
  ("__init__", mkMethod [("kwargs", None)]
      (steps [SCall "_t1" (TClass "F18_Timezone") "__init__" [("kwargs", (EVar "kwargs"))];
      SAttr "self" "ntpservers" (EGet (EVar "kwargs") "ntpservers" (EConst (VStrs [])))]));
  (* commands/timezone.py:183-190 *)
  ("parse", mkMethod []
      (steps [SCall "_t1" (TClass "FC6_Timezone") "parse" [];
      SIf (EAnd (EAttr (EVar "self") "ntpservers") (EAttr (EVar "self") "nontp"))
      (SRaise true "Options --nontp and --ntpservers are mutually exclusive")
      SPass;
      SReturn (EVar "self")]))].
Definition m_RHEL7_Timezone : list (string * method) := [
  (* commands/timezone.py:215-217 *)
  ("__init__", mkMethod [("writePriority", (Some (VInt 0))); ("kwargs", None)]
      (SCall "_t1" (TClass "F18_Timezone") "__init__" [("writePriority", (EVar "writePriority")); ("kwargs", (EVar "kwargs"))]));
  (* commands/timezone.py:260-287 *)
  ("parse", mkMethod []
      (steps [SParse "ns";
      SSetTo "ns" "self";
      SIf (EUn UNot EArgs)
      (SRaise true "timezone")
      SPass;
      SIf (EBin BEq (EUn ULen (EAttr (EVar "ns") "timezone")) (EConst (VInt 1)))
      (SAttr "self" "timezone" (EBin BIndex (EAttr (EVar "ns") "timezone") (EConst (VInt 0))))
      (SIf (EBin BGt (EUn ULen (EAttr (EVar "ns") "timezone")) (EConst (VInt 1)))
      (SRaise true "timezone")
      SPass);
      SIf (EAnd (EAttr (EVar "self") "ntpservers") (EAttr (EVar "self") "nontp"))
      (SRaise true "Options --nontp and --ntpservers are mutually exclusive")
      SPass;
      SReturn (EVar "self")]))].
Definition m_F25_Timezone : list (string * method) := [
  (* commands/timezone.py:290-292 *)
  ("__init__", mkMethod [("writePriority", (Some (VInt 0))); ("kwargs", None)]
      (SCall "_t1" (TClass "F23_Timezone") "__init__" [("writePriority", (EVar "writePriority")); ("kwargs", (EVar "kwargs"))]));
  (* commands/timezone.py:294-301 *)
  ("__str__", mkMethod []
      (steps [SCall "_t1" (TClass "KickstartCommand") "__str__" [];
      SAssign "retval" (EVar "_t1");
      SCall "_t2" TSelf "_getArgsAsStr" [];
      SAssign "args" (EVar "_t2");
      SIf (EVar "args")
      (steps [SAssign "retval" (EBin BAdd (EVar "retval") (str "# System timezone
"));
      SAssign "retval" (EBin BAdd (EVar "retval") (EBin BAdd (EBin BAdd (str "timezone") (EVar "args")) (str "
")))])
      SPass;
      SReturn (EVar "retval")]));
  (* commands/timezone.py:303-318 *)
  ("_getArgsAsStr", mkMethod []
      (steps [SAssign "retval" (str "");
      SIf (EAttr (EVar "self") "timezone")
      (SAssign "retval" (EBin BAdd (EVar "retval") (EBin BAdd (str " ") (EAttr (EVar "self") "timezone"))))
      SPass;
      SIf (EAttr (EVar "self") "isUtc")
      (SAssign "retval" (EBin BAdd (EVar "retval") (str " --isUtc")))
      SPass;
      SIf (EAttr (EVar "self") "nontp")
      (SAssign "retval" (EBin BAdd (EVar "retval") (str " --nontp")))
      SPass;
      SIf (EAttr (EVar "self") "ntpservers")
      (SAssign "retval" (EBin BAdd (EVar "retval") (EBin BAdd (str " --ntpservers=") (EBin BJoin (str ",") (EAttr (EVar "self") "ntpservers")))))
      SPass;
      SReturn (EVar "retval")]));
  (* commands/timezone.py:361-388 *)
  ("parse", mkMethod []
      (steps [SParse "ns";
      SSetTo "ns" "self";
      SIf (EUn UNot EArgs)
      (SRaise true "timezone")
      SPass;
      SIf (EBin BEq (EUn ULen (EAttr (EVar "ns") "timezone")) (EConst (VInt 1)))
      (SAttr "self" "timezone" (EBin BIndex (EAttr (EVar "ns") "timezone") (EConst (VInt 0))))
      (SIf (EBin BGt (EUn ULen (EAttr (EVar "ns") "timezone")) (EConst (VInt 1)))
      (SRaise true "timezone")
      SPass);
      SIf (EAnd (EAttr (EVar "self") "ntpservers") (EAttr (EVar "self") "nontp"))
      (SRaise true "Options --nontp and --ntpservers are mutually exclusive")
      SPass;
      SReturn (EVar "self")]))].
Definition m_F32_Timezone : list (string * method) := [
  (* commands/timezone.py:392-394 *)
  ("__init__", mkMethod [("writePriority", (Some (VInt 0))); ("kwargs", None)]
      (SCall "_t1" (TClass "F25_Timezone") "__init__" [("writePriority", (EVar "writePriority")); ("kwargs", (EVar "kwargs"))]));
  (* commands/timezone.py:396-411 *)
  ("_getArgsAsStr", mkMethod []
      (steps [SAssign "retval" (str "");
      SIf (EAttr (EVar "self") "timezone")
      (SAssign "retval" (EBin BAdd (EVar "retval") (EBin BAdd (str " ") (EAttr (EVar "self") "timezone"))))
      SPass;
      SIf (EAttr (EVar "self") "isUtc")
      (SAssign "retval" (EBin BAdd (EVar "retval") (str " --utc")))
      SPass;
      SIf (EAttr (EVar "self") "nontp")
      (SAssign "retval" (EBin BAdd (EVar "retval") (str " --nontp")))
      SPass;
      SIf (EAttr (EVar "self") "ntpservers")
      (SAssign "retval" (EBin BAdd (EVar "retval") (EBin BAdd (str " --ntpservers=") (EBin BJoin (str ",") (EAttr (EVar "self") "ntpservers")))))
      SPass;
      SReturn (EVar "retval")]));
  (* commands/timezone.py:413-422 *)
  ("parse", mkMethod []
      (steps [SCall "_t1" (TClass "F25_Timezone") "parse" [];
      SIf (EBin BIn (str "--isUtc") EArgs)
      SPass
      SPass;
      SReturn (EVar "self")]))].
Definition m_F33_Timezone : list (string * method) := [
  (* commands/timezone.py:427-429 *)
  ("__init__", mkMethod [("writePriority", (Some (VInt 0))); ("kwargs", None)]
      (SCall "_t1" (TClass "F32_Timezone") "__init__" [("writePriority", (EVar "writePriority")); ("kwargs", (EVar "kwargs"))]));
  (* commands/timezone.py:431-445 *)
  ("parse", mkMethod []
      (steps [SCall "_t1" (TClass "F32_Timezone") "parse" [];
      SIf (EAttr (EVar "self") "ntpservers")
      SPass
      SPass;
      SIf (EAttr (EVar "self") "nontp")
      SPass
      SPass;
      SReturn (EVar "self")]))].
Definition m_RHEL6_UnsupportedHardware : list (string * method) := [
  (* commands/unsupported_hardware.py:28-31 *)
  ("__init__", mkMethod [("writePriority", (Some (VInt 0))); ("kwargs", None)]
      (steps [SCall "_t1" (TClass "KickstartCommand") "__init__" [("writePriority", (EVar "writePriority")); ("kwargs", (EVar "kwargs"))];
      SAttr "self" "unsupported_hardware" (EGet (EVar "kwargs") "unsupported_hardware" (EConst (VBool false)))]));
  (* commands/unsupported_hardware.py:33-39 *)
  ("__str__", mkMethod []
      (steps [SCall "_t1" (TClass "KickstartCommand") "__str__" [];
      SAssign "retval" (EVar "_t1");
      SIf (EAttr (EVar "self") "unsupported_hardware")
      (SAssign "retval" (EBin BAdd (EVar "retval") (str "unsupported_hardware
")))
      SPass;
      SReturn (EVar "retval")]));
  (* commands/unsupported_hardware.py:45-48 *)
  ("parse", mkMethod []
      (steps [SParse "_";
      SAttr "self" "unsupported_hardware" (EConst (VBool true));
      SReturn (EVar "self")]))].
Definition m_F7_Updates : list (string * method) := [
  (* commands/updates.py:33-36 *)
  ("__init__", mkMethod [("writePriority", (Some (VInt 0))); ("kwargs", None)]
      (steps [SCall "_t1" (TClass "KickstartCommand") "__init__" [("writePriority", (EVar "writePriority")); ("kwargs", (EVar "kwargs"))];
      SAttr "self" "url" (EGet (EVar "kwargs") "url" (str ""))]));
  (* commands/updates.py:38-46 *)
  ("__str__", mkMethod []
      (steps [SCall "_t1" (TClass "KickstartCommand") "__str__" [];
      SAssign "retval" (EVar "_t1");
      SIf (EBin BEq (EAttr (EVar "self") "url") (str "floppy"))
      (SAssign "retval" (EBin BAdd (EVar "retval") (str "updates
")))
      (SIf (EAttr (EVar "self") "url")
      (SAssign "retval" (EBin BAdd (EVar "retval") (EBin BAdd (EBin BAdd (str "updates ") (EUn UStr (EAttr (EVar "self") "url"))) (str "
"))))
      SPass);
      SReturn (EVar "retval")]));
  (* commands/updates.py:62-75 *)
  ("parse", mkMethod []
      (steps [SParseKnown "_ns" "extra";
      SIf (EBin BGt (EUn ULen (EAttr (EVar "_ns") "updates")) (EConst (VInt 1)))
      (SRaise true "updates")
      (SIf (EVar "extra")
      (SRaise true "Unexpected arguments to %(command)s command: %(options)s")
      (SIf (EUn UNot (EAttr (EVar "_ns") "updates"))
      (SAttr "self" "url" (str "floppy"))
      (SAttr "self" "url" (EBin BIndex (EAttr (EVar "_ns") "updates") (EConst (VInt 0))))));
      SReturn (EVar "self")]))].
Definition m_F34_Updates : list (string * method) := [
  (* commands/updates.py:82-88 *)
  ("__str__", mkMethod []
      (steps [SCall "_t1" (TClass "KickstartCommand") "__str__" [];
      SAssign "retval" (EVar "_t1");
      SIf (EAttr (EVar "self") "url")
      (SAssign "retval" (EBin BAdd (EVar "retval") (EBin BAdd (EBin BAdd (str "updates ") (EUn UStr (EAttr (EVar "self") "url"))) (str "
"))))
      SPass;
      SReturn (EVar "retval")]));
  (* commands/updates.py:114-117 *)
  ("parse", mkMethod []
      (steps [SParse "ns";
      SSetTo "ns" "self";
      SReturn (EVar "self")]))].
Definition m_FC3_Upgrade : list (string * method) := [
  (* commands/upgrade.py:32-35 *)
  ("__init__", mkMethod [("writePriority", (Some (VInt 0))); ("kwargs", None)]
      (steps [SCall "_t1" (TClass "KickstartCommand") "__init__" [("writePriority", (EVar "writePriority")); ("kwargs", (EVar "kwargs"))];
      SAttr "self" "upgrade" (EGet (EVar "kwargs") "upgrade" (EConst VNone))]));
  (* commands/upgrade.py:37-48 *)
  ("__str__", mkMethod []
      (steps [SCall "_t1" (TClass "KickstartCommand") "__str__" [];
      SAssign "retval" (EVar "_t1");
      SIf (EBin BIs (EAttr (EVar "self") "upgrade") (EConst VNone))
      (SReturn (EVar "retval"))
      SPass;
      SIf (EAttr (EVar "self") "upgrade")
      (SAssign "retval" (EBin BAdd (EVar "retval") (str "# Upgrade existing installation
upgrade
")))
      (SAssign "retval" (EBin BAdd (EVar "retval") (str "# Install OS instead of upgrade
install
")));
      SReturn (EVar "retval")]));
  (* commands/upgrade.py:61-69 *)
  ("parse", mkMethod []
      (steps [SParse "_";
      SIf (EBin BEq (EAttr (EVar "self") "currentCmd") (str "upgrade"))
      (SAttr "self" "upgrade" (EConst (VBool true)))
      (SAttr "self" "upgrade" (EConst (VBool false)));
      SReturn (EVar "self")]))].
Definition m_F11_Upgrade : list (string * method) := [
  (* commands/upgrade.py:75-79 *)
  ("__init__", mkMethod [("writePriority", (Some (VInt 0))); ("kwargs", None)]
      (steps [SCall "_t1" (TClass "FC3_Upgrade") "__init__" [("writePriority", (EVar "writePriority")); ("kwargs", (EVar "kwargs"))];
      SAttr "self" "root_device" (EGet (EVar "kwargs") "root_device" (EConst VNone))]));
  (* commands/upgrade.py:81-88 *)
  ("__str__", mkMethod []
      (steps [SIf (EAnd (EAttr (EVar "self") "upgrade") (EBin BIsNot (EAttr (EVar "self") "root_device") (EConst VNone)))
      (steps [SCall "_t1" (TClass "KickstartCommand") "__str__" [];
      SAssign "retval" (EVar "_t1");
      SAssign "retval" (EBin BAdd (EVar "retval") (EBin BAdd (EBin BAdd (str "# Upgrade existing installation
upgrade --root-device=") (EUn UStr (EAttr (EVar "self") "root_device"))) (str "
")))])
      (steps [SCall "_t2" (TClass "FC3_Upgrade") "__str__" [];
      SAssign "retval" (EVar "_t2")]);
      SReturn (EVar "retval")]));
  (* commands/upgrade.py:100-113 *)
  ("parse", mkMethod []
      (steps [SParse "ns";
      SIf (EBin BEq (EAttr (EVar "ns") "root_device") (str ""))
      (SRaise true "Kickstart command %(command)s does not accept empty parameter %(parameter)s")
      (SAttr "self" "root_device" (EAttr (EVar "ns") "root_device"));
      SIf (EBin BEq (EAttr (EVar "self") "currentCmd") (str "upgrade"))
      (SAttr "self" "upgrade" (EConst (VBool true)))
      (SAttr "self" "upgrade" (EConst (VBool false)));
      SReturn (EVar "self")]))].
Definition m_F20_Upgrade : list (string * method) := [
  (* commands/upgrade.py:116-117 *)
  ("__init__", mkMethod []
      (SCall "_t1" (TClass "DeprecatedCommand") "__init__" [("kwargs", ENoKw)]))].
Definition m_F29_Upgrade : list (string * method) := [].
Definition m_FC3_Url : list (string * method) := [
  (* commands/url.py:31-35 *)
  ("__init__", mkMethod [("writePriority", (Some (VInt 0))); ("kwargs", None)]
      (steps [SCall "_t1" (TClass "KickstartCommand") "__init__" [("writePriority", (EVar "writePriority")); ("kwargs", (EVar "kwargs"))];
      SAttr "self" "url" (EGet (EVar "kwargs") "url" (EConst VNone))]));
  (* commands/url.py:46-52 *)
  ("__str__", mkMethod []
      (steps [SCall "_t1" (TClass "KickstartCommand") "__str__" [];
      SAssign "retval" (EVar "_t1");
      SIf (EAttr (EVar "self") "seen")
      (SAssign "retval" (EBin BAdd (EVar "retval") (EBin BAdd (EBin BAdd (str "# Use network installation
url --url=""") (EUn UStr (EAttr (EVar "self") "url"))) (str """
"))))
      SPass;
      SReturn (EVar "retval")]));
  (* commands/url.py:63-66 *)
  ("parse", mkMethod []
      (steps [SParse "ns";
      SSetTo "ns" "self";
      SReturn (EVar "self")]))].
Definition m_F13_Url : list (string * method) := [
  (* commands/url.py:72-74 *)
  ("__init__", mkMethod [("kwargs", None)]
      (steps [SCall "_t1" (TClass "FC3_Url") "__init__" [("kwargs", (EVar "kwargs"))];
      SAttr "self" "proxy" (EGet (EVar "kwargs") "proxy" (str ""))]));
  (* commands/url.py:82-89 *)
  ("__str__", mkMethod []
      (steps [SCall "_t1" (TClass "FC3_Url") "__str__" [];
      SAssign "retval" (EVar "_t1");
      SIf (EAnd (EAttr (EVar "self") "seen") (EAttr (EVar "self") "proxy"))
      (steps [SAssign "retval" (EUn UStrip (EVar "retval"));
      SAssign "retval" (EBin BAdd (EVar "retval") (EBin BAdd (EBin BAdd (str " --proxy=""") (EUn UStr (EAttr (EVar "self") "proxy"))) (str """
")))])
      SPass;
      SReturn (EVar "retval")]))].
Definition m_F14_Url : list (string * method) := [
  (* commands/url.py:107-109 *)
  ("__init__", mkMethod [("kwargs", None)]
      (steps [SCall "_t1" (TClass "F13_Url") "__init__" [("kwargs", (EVar "kwargs"))];
      SAttr "self" "noverifyssl" (EGet (EVar "kwargs") "noverifyssl" (EConst (VBool false)))]));
  (* commands/url.py:117-124 *)
  ("__str__", mkMethod []
      (steps [SCall "_t1" (TClass "F13_Url") "__str__" [];
      SAssign "retval" (EVar "_t1");
      SIf (EAnd (EAttr (EVar "self") "seen") (EAttr (EVar "self") "noverifyssl"))
      (steps [SAssign "retval" (EUn UStrip (EVar "retval"));
      SAssign "retval" (EBin BAdd (EVar "retval") (str " --noverifyssl
"))])
      SPass;
      SReturn (EVar "retval")]))].
Definition m_RHEL6_Url : list (string * method) := [].
Definition m_F18_Url : list (string * method) := [
  (* commands/url.py:143-147 *)
  ("__init__", mkMethod [("kwargs", None)]
      (steps [SCall "_t1" (TClass "F14_Url") "__init__" [("kwargs", (EVar "kwargs"))];
      SAttr "self" "mirrorlist" (EGet (EVar "kwargs") "mirrorlist" (EConst VNone));
      SAttr "self" "exclusive_required_options" (EConst (VPairs [("mirrorlist", "--mirrorlist"); ("url", "--url")]))]));
  (* commands/url.py:155-173 *)
  ("__str__", mkMethod []
      (steps [SCall "_t1" (TClass "KickstartCommand") "__str__" [];
      SAssign "retval" (EVar "_t1");
      SIf (EUn UNot (EAttr (EVar "self") "seen"))
      (SReturn (EVar "retval"))
      SPass;
      SAssign "retval" (EBin BAdd (EVar "retval") (str "# Use network installation
"));
      SIf (EAttr (EVar "self") "url")
      (SAssign "retval" (EBin BAdd (EVar "retval") (EBin BAdd (EBin BAdd (str "url --url=""") (EUn UStr (EAttr (EVar "self") "url"))) (str """"))))
      (SIf (EAttr (EVar "self") "mirrorlist")
      (SAssign "retval" (EBin BAdd (EVar "retval") (EBin BAdd (EBin BAdd (str "url --mirrorlist=""") (EUn UStr (EAttr (EVar "self") "mirrorlist"))) (str """"))))
      SPass);
      SIf (EAttr (EVar "self") "proxy")
      (SAssign "retval" (EBin BAdd (EVar "retval") (EBin BAdd (EBin BAdd (str " --proxy=""") (EUn UStr (EAttr (EVar "self") "proxy"))) (str """"))))
      SPass;
      SIf (EAttr (EVar "self") "noverifyssl")
      (SAssign "retval" (EBin BAdd (EVar "retval") (str " --noverifyssl")))
      SPass;
      SReturn (EBin BAdd (EVar "retval") (str "
"))]));
  (* commands/url.py:184-198 *)
  ("parse", mkMethod []
      (steps [SCall "_t1" (TClass "F14_Url") "parse" [];
      SAssign "retval" (EVar "_t1");
      SParse "ns";
      SAssign "used_options" (EUsed (EAttr (EVar "self") "exclusive_required_options") (EVar "ns"));
      SIf (EBin BEq (EUn ULen (EVar "used_options")) (EConst (VInt 0)))
      (SRaise true "One of -%(options_list)s options must be specified for url command.")
      SPass;
      SIf (EBin BGt (EUn ULen (EVar "used_options")) (EConst (VInt 1)))
      (SRaise true "Only one of %(options_list)s options may be specified for url command.")
      SPass;
      SReturn (EVar "retval")]))].
Definition m_F27_Url : list (string * method) := [
  (* commands/url.py:204-207 *)
  ("__init__", mkMethod [("kwargs", None)]
      (steps [SCall "_t1" (TClass "F18_Url") "__init__" [("kwargs", (EVar "kwargs"))];
      SAttr "self" "metalink" (EGet (EVar "kwargs") "metalink" (EConst VNone));
      SAttr "self" "exclusive_required_options" (EBin BUnion (EAttr (EVar "self") "exclusive_required_options") (EConst (VPairs [("metalink", "--metalink")])))]));
  (* commands/url.py:215-235 *)
  ("__str__", mkMethod []
      (steps [SCall "_t1" (TClass "KickstartCommand") "__str__" [];
      SAssign "retval" (EVar "_t1");
      SIf (EUn UNot (EAttr (EVar "self") "seen"))
      (SReturn (EVar "retval"))
      SPass;
      SAssign "retval" (EBin BAdd (EVar "retval") (str "# Use network installation
"));
      SIf (EAttr (EVar "self") "url")
      (SAssign "retval" (EBin BAdd (EVar "retval") (EBin BAdd (EBin BAdd (str "url --url=""") (EUn UStr (EAttr (EVar "self") "url"))) (str """"))))
      (SIf (EAttr (EVar "self") "mirrorlist")
      (SAssign "retval" (EBin BAdd (EVar "retval") (EBin BAdd (EBin BAdd (str "url --mirrorlist=""") (EUn UStr (EAttr (EVar "self") "mirrorlist"))) (str """"))))
      (SIf (EAttr (EVar "self") "metalink")
      (SAssign "retval" (EBin BAdd (EVar "retval") (EBin BAdd (EBin BAdd (str "url --metalink=""") (EUn UStr (EAttr (EVar "self") "metalink"))) (str """"))))
      SPass));
      SIf (EAttr (EVar "self") "proxy")
      (SAssign "retval" (EBin BAdd (EVar "retval") (EBin BAdd (EBin BAdd (str " --proxy=""") (EUn UStr (EAttr (EVar "self") "proxy"))) (str """"))))
      SPass;
      SIf (EAttr (EVar "self") "noverifyssl")
      (SAssign "retval" (EBin BAdd (EVar "retval") (str " --noverifyssl")))
      SPass;
      SReturn (EBin BAdd (EVar "retval") (str "
"))]))].
Definition m_F30_Url : list (string * method) := [
  (* commands/url.py:251-255 *)
  ("__init__", mkMethod [("kwargs", None)]
      (steps [SCall "_t1" (TClass "F27_Url") "__init__" [("kwargs", (EVar "kwargs"))];
      SAttr "self" "sslcacert" (EGet (EVar "kwargs") "sslcacert" (EConst VNone));
      SAttr "self" "sslclientcert" (EGet (EVar "kwargs") "sslclientcert" (EConst VNone));
      SAttr "self" "sslclientkey" (EGet (EVar "kwargs") "sslclientkey" (EConst VNone))]));
  (* commands/url.py:257-273 *)
  ("__str__", mkMethod []
      (steps [SCall "_t1" (TClass "F27_Url") "__str__" [];
      SAssign "retval" (EVar "_t1");
      SIf (EUn UNot (EAttr (EVar "self") "seen"))
      (SReturn (EVar "retval"))
      SPass;
      SAssign "retval" (EUn UChop (EVar "retval"));
      SIf (EAttr (EVar "self") "sslcacert")
      (SAssign "retval" (EBin BAdd (EVar "retval") (EBin BAdd (EBin BAdd (str " --sslcacert=""") (EUn UStr (EAttr (EVar "self") "sslcacert"))) (str """"))))
      SPass;
      SIf (EAttr (EVar "self") "sslclientcert")
      (SAssign "retval" (EBin BAdd (EVar "retval") (EBin BAdd (EBin BAdd (str " --sslclientcert=""") (EUn UStr (EAttr (EVar "self") "sslclientcert"))) (str """"))))
      SPass;
      SIf (EAttr (EVar "self") "sslclientkey")
      (SAssign "retval" (EBin BAdd (EVar "retval") (EBin BAdd (EBin BAdd (str " --sslclientkey=""") (EUn UStr (EAttr (EVar "self") "sslclientkey"))) (str """"))))
      SPass;
      SReturn (EBin BAdd (EVar "retval") (str "
"))]))].
Definition m_RHEL8_Url : list (string * method) := [].
Definition m_FC6_UserData : list (string * method) := [
  (* commands/user.py:33-41 *)
  ("__init__", mkMethod [("kwargs", None)]
      (steps [SCall "_t1" (TClass "BaseData") "__init__" [("kwargs", (EVar "kwargs"))];
      SAttr "self" "groups" (EGet (EVar "kwargs") "groups" (EConst (VStrs [])));
      SAttr "self" "homedir" (EGet (EVar "kwargs") "homedir" (str ""));
      SAttr "self" "isCrypted" (EGet (EVar "kwargs") "isCrypted" (EConst (VBool false)));
      SAttr "self" "name" (EGet (EVar "kwargs") "name" (str ""));
      SAttr "self" "password" (EGet (EVar "kwargs") "password" (str ""));
      SAttr "self" "shell" (EGet (EVar "kwargs") "shell" (str ""));
      SAttr "self" "uid" (EGet (EVar "kwargs") "uid" (EConst VNone))]));
  (* commands/user.py:52-59 *)
  ("__str__", mkMethod []
      (steps [SCall "_t1" (TClass "BaseData") "__str__" [];
      SAssign "retval" (EVar "_t1");
      SCall "_t2" TSelf "_getArgsAsStr" [];
      SAssign "args" (EVar "_t2");
      SIf (EVar "args")
      (SAssign "retval" (EBin BAdd (EVar "retval") (EBin BAdd (EBin BAdd (str "user") (EUn UStr (EVar "args"))) (str "
"))))
      SPass;
      SReturn (EVar "retval")]));
  (* commands/user.py:61-84 *)
  ("_getArgsAsStr", mkMethod []
      (steps [SAssign "retval" (str "");
      SIf (EAttr (EVar "self") "groups")
      (SAssign "retval" (EBin BAdd (EVar "retval") (EBin BAdd (str " --groups=") (EUn UStr (EBin BJoin (str ",") (EAttr (EVar "self") "groups"))))))
      SPass;
      SIf (EAttr (EVar "self") "homedir")
      (SAssign "retval" (EBin BAdd (EVar "retval") (EBin BAdd (str " --homedir=") (EUn UStr (EAttr (EVar "self") "homedir")))))
      SPass;
      SIf (EAttr (EVar "self") "name")
      (SAssign "retval" (EBin BAdd (EVar "retval") (EBin BAdd (str " --name=") (EUn UStr (EAttr (EVar "self") "name")))))
      SPass;
      SIf (EAttr (EVar "self") "password")
      (SIf (EAnd (EConst (VBool false)) (EBin BIn (EConst (VStr "#")) (EAttr (EVar "self") "password")))
      (SAssign "retval" (EBin BAdd (EVar "retval") (EBin BAdd (EBin BAdd (str " --password=""") (EUn UStr (EAttr (EVar "self") "password"))) (str """"))))
      (SIf (EAnd (EUn UNot (EConst (VBool false))) (EBin BIn (str "#") (EAttr (EVar "self") "password")))
      (SAssign "retval" (EBin BAdd (EVar "retval") (EBin BAdd (EBin BAdd (str " --password=""") (EUn UStr (EAttr (EVar "self") "password"))) (str """"))))
      (SAssign "retval" (EBin BAdd (EVar "retval") (EBin BAdd (str " --password=") (EUn UStr (EAttr (EVar "self") "password")))))))
      SPass;
      SIf (EAttr (EVar "self") "isCrypted")
      (SAssign "retval" (EBin BAdd (EVar "retval") (str " --iscrypted")))
      SPass;
      SIf (EAttr (EVar "self") "shell")
      (SAssign "retval" (EBin BAdd (EVar "retval") (EBin BAdd (str " --shell=") (EUn UStr (EAttr (EVar "self") "shell")))))
      SPass;
      SIf (EAttr (EVar "self") "uid")
      (SAssign "retval" (EBin BAdd (EVar "retval") (EBin BAdd (str " --uid=") (EUn UStr (EAttr (EVar "self") "uid")))))
      SPass;
      SReturn (EVar "retval")]))].
Definition m_F8_UserData : list (string * method) := [
  (* commands/user.py:90-92 *)
  ("__init__", mkMethod [("kwargs", None)]
      (steps [SCall "_t1" (TClass "FC6_UserData") "__init__" [("kwargs", (EVar "kwargs"))];
      SAttr "self" "lock" (EGet (EVar "kwargs") "lock" (EConst (VBool false)))]));
  (* commands/user.py:94-100 *)
  ("_getArgsAsStr", mkMethod []
      (steps [SCall "_t1" (TClass "FC6_UserData") "_getArgsAsStr" [];
      SAssign "retval" (EVar "_t1");
      SIf (EAttr (EVar "self") "lock")
      (SAssign "retval" (EBin BAdd (EVar "retval") (str " --lock")))
      SPass;
      SReturn (EVar "retval")]))].
Definition m_F12_UserData : list (string * method) := [
  (* commands/user.py:106-108 *)
  ("__init__", mkMethod [("kwargs", None)]
      (steps [SCall "_t1" (TClass "F8_UserData") "__init__" [("kwargs", (EVar "kwargs"))];
      SAttr "self" "gecos" (EGet (EVar "kwargs") "gecos" (str ""))]));
  (* commands/user.py:110-116 *)
  ("_getArgsAsStr", mkMethod []
      (steps [SCall "_t1" (TClass "F8_UserData") "_getArgsAsStr" [];
      SAssign "retval" (EVar "_t1");
      SIf (EAttr (EVar "self") "gecos")
      (SAssign "retval" (EBin BAdd (EVar "retval") (EBin BAdd (EBin BAdd (str " --gecos=""") (EUn UStr (EAttr (EVar "self") "gecos"))) (str """"))))
      SPass;
      SReturn (EVar "retval")]))].
Definition m_F19_UserData : list (string * method) := [
  (* commands/user.py:122-124 *)
  ("__init__", mkMethod [("kwargs", None)]
      (steps [SCall "_t1" (TClass "F12_UserData") "__init__" [("kwargs", (EVar "kwargs"))];
      SAttr "self" "gid" (EGet (EVar "kwargs") "gid" (EConst VNone))]));
  (* commands/user.py:126-132 *)
  ("_getArgsAsStr", mkMethod []
      (steps [SCall "_t1" (TClass "F12_UserData") "_getArgsAsStr" [];
      SAssign "retval" (EVar "_t1");
      SIf (EAttr (EVar "self") "gid")
      (SAssign "retval" (EBin BAdd (EVar "retval") (EBin BAdd (str " --gid=") (EUn UDec (EAttr (EVar "self") "gid")))))
      SPass;
      SReturn (EVar "retval")]))].
Definition m_FC6_User : list (string * method) := [
  (* commands/user.py:139-143 *)
  ("__init__", mkMethod [("writePriority", (Some (VInt 0))); ("kwargs", None)]
      (SCall "_t1" (TClass "KickstartCommand") "__init__" [("writePriority", (EVar "writePriority")); ("kwargs", (EVar "kwargs"))]));
  (* commands/user.py:145-150 *)
  ("__str__", mkMethod []
      (steps [SAssign "retval" (str "");
      SForData "user" (SAssign "retval" (EBin BAdd (EVar "retval") (EDataStr (EVar "user"))));
      SReturn (EVar "retval")]));
  (* commands/user.py:194-204 *)
  ("parse", mkMethod []
      (steps [SCall "_t1" TSelf "dataClass" [];
      SAssign "ud" (EVar "_t1");
      SParse "ns";
      SSetTo "ns" "ud";
      SAttr "ud" "lineno" (EAttr (EVar "self") "lineno");
      SReturn (EVar "ud")]));
  (* commands/user.py:210-211 *)
  ("dataClass", mkMethod []
      (SReturn (ENew "UserData")))].
Definition m_F8_User : list (string * method) := [].
Definition m_F12_User : list (string * method) := [].
Definition m_F19_User : list (string * method) := [].
Definition m_F24_User : list (string * method) := [].
Definition m_FC3_Vnc : list (string * method) := [
  (* commands/vnc.py:28-34 *)
  ("__init__", mkMethod [("writePriority", (Some (VInt 0))); ("kwargs", None)]
      (steps [SCall "_t1" (TClass "KickstartCommand") "__init__" [("writePriority", (EVar "writePriority")); ("kwargs", (EVar "kwargs"))];
      SAttr "self" "enabled" (EGet (EVar "kwargs") "enabled" (EConst (VBool false)));
      SAttr "self" "password" (EGet (EVar "kwargs") "password" (str ""));
      SAttr "self" "connect" (EGet (EVar "kwargs") "connect" (str ""))]));
  (* commands/vnc.py:36-49 *)
  ("__str__", mkMethod []
      (steps [SCall "_t1" (TClass "KickstartCommand") "__str__" [];
      SAssign "retval" (EVar "_t1");
      SIf (EUn UNot (EAttr (EVar "self") "enabled"))
      (SReturn (EVar "retval"))
      SPass;
      SAssign "retval" (EBin BAdd (EVar "retval") (str "vnc"));
      SIf (EAttr (EVar "self") "connect")
      (SAssign "retval" (EBin BAdd (EVar "retval") (EBin BAdd (str " --connect=") (EUn UStr (EAttr (EVar "self") "connect")))))
      SPass;
      SIf (EAttr (EVar "self") "password")
      (SAssign "retval" (EBin BAdd (EVar "retval") (EBin BAdd (str " --password=") (EUn UStr (EAttr (EVar "self") "password")))))
      SPass;
      SReturn (EBin BAdd (EVar "retval") (str "
"))]));
  (* commands/vnc.py:69-73 *)
  ("parse", mkMethod []
      (steps [SAttr "self" "enabled" (EConst (VBool true));
      SParse "ns";
      SSetTo "ns" "self";
      SReturn (EVar "self")]))].
Definition m_FC6_Vnc : list (string * method) := [
  (* commands/vnc.py:79-84 *)
  ("__init__", mkMethod [("writePriority", (Some (VInt 0))); ("kwargs", None)]
      (steps [SCall "_t1" (TClass "FC3_Vnc") "__init__" [("writePriority", (EVar "writePriority")); ("kwargs", (EVar "kwargs"))];
      SDelRemoved [];
      SAttr "self" "host" (EGet (EVar "kwargs") "host" (str ""));
      SAttr "self" "port" (EGet (EVar "kwargs") "port" (str ""))]));
  (* commands/vnc.py:86-102 *)
  ("__str__", mkMethod []
      (steps [SCall "_t1" (TClass "KickstartCommand") "__str__" [];
      SAssign "retval" (EVar "_t1");
      SIf (EUn UNot (EAttr (EVar "self") "enabled"))
      (SReturn (EVar "retval"))
      SPass;
      SAssign "retval" (EBin BAdd (EVar "retval") (str "vnc"));
      SIf (EAttr (EVar "self") "host")
      (steps [SAssign "retval" (EBin BAdd (EVar "retval") (EBin BAdd (str " --host=") (EUn UStr (EAttr (EVar "self") "host"))));
      SIf (EAttr (EVar "self") "port")
      (SAssign "retval" (EBin BAdd (EVar "retval") (EBin BAdd (str " --port=") (EUn UStr (EAttr (EVar "self") "port")))))
      SPass])
      SPass;
      SIf (EAttr (EVar "self") "password")
      (SAssign "retval" (EBin BAdd (EVar "retval") (EBin BAdd (str " --password=") (EUn UStr (EAttr (EVar "self") "password")))))
      SPass;
      SReturn (EBin BAdd (EVar "retval") (str "
"))]));
  (* commands/vnc.py:119-133 *)
  ("parse", mkMethod []
      (steps [SCall "_t1" (TClass "FC3_Vnc") "parse" [];
      SAssign "retval" (EVar "_t1");
      SIf (EGet (EVar "retval") "_connect" (EConst VNone))
      (steps [SAssign "cargs" (EBin BSplit (str ":") (EAttr (EVar "retval") "_connect"));
      SAttr "retval" "host" (EBin BIndex (EVar "cargs") (EConst (VInt 0)));
      SIf (EBin BGt (EUn ULen (EVar "cargs")) (EConst (VInt 1)))
      (SAttr "retval" "port" (EBin BIndex (EVar "cargs") (EConst (VInt 1))))
      SPass;
      SDel "retval" "_connect"])
      SPass;
      SReturn (EVar "retval")]))].
Definition m_F9_Vnc : list (string * method) := [].
Definition m_FC3_VolGroupData : list (string * method) := [
  (* commands/volgroup.py:32-38 *)
  ("__init__", mkMethod [("kwargs", None)]
      (steps [SCall "_t1" (TClass "BaseData") "__init__" [("kwargs", (EVar "kwargs"))];
      SAttr "self" "format" (EGet (EVar "kwargs") "format" (EConst (VBool true)));
      SAttr "self" "pesize" (EGet (EVar "kwargs") "pesize" (EConst (VInt 32768)));
      SAttr "self" "preexist" (EGet (EVar "kwargs") "preexist" (EConst (VBool false)));
      SAttr "self" "vgname" (EGet (EVar "kwargs") "vgname" (str ""));
      SAttr "self" "physvols" (EGet (EVar "kwargs") "physvols" (EConst (VStrs [])))]));
  (* commands/volgroup.py:49-58 *)
  ("_getArgsAsStr", mkMethod []
      (steps [SAssign "retval" (str "");
      SIf (EUn UNot (EAttr (EVar "self") "format"))
      (SAssign "retval" (EBin BAdd (EVar "retval") (str " --noformat")))
      SPass;
      SIf (EAttr (EVar "self") "pesize")
      (SAssign "retval" (EBin BAdd (EVar "retval") (EBin BAdd (str " --pesize=") (EUn UDec (EAttr (EVar "self") "pesize")))))
      SPass;
      SIf (EAttr (EVar "self") "preexist")
      (SAssign "retval" (EBin BAdd (EVar "retval") (str " --useexisting")))
      SPass;
      SReturn (EVar "retval")]));
  (* commands/volgroup.py:60-70 *)
  ("__str__", mkMethod []
      (steps [SCall "_t1" (TClass "BaseData") "__str__" [];
      SAssign "retval" (EVar "_t1");
      SAssign "retval" (EBin BAdd (EVar "retval") (EBin BAdd (str "volgroup ") (EUn UStr (EAttr (EVar "self") "vgname"))));
      SCall "_t2" TSelf "_getArgsAsStr" [];
      SAssign "retval" (EBin BAdd (EVar "retval") (EVar "_t2"));
      SIf (EUn UNot (EAttr (EVar "self") "preexist"))
      (SAssign "retval" (EBin BAdd (EVar "retval") (EBin BAdd (str " ") (EBin BJoin (str " ") (EAttr (EVar "self") "physvols")))))
      SPass;
      SReturn (EBin BAdd (EUn UStrip (EVar "retval")) (str "
"))]))].
Definition m_F16_VolGroupData : list (string * method) := [
  (* commands/volgroup.py:73-76 *)
  ("__init__", mkMethod [("kwargs", None)]
      (steps [SCall "_t1" (TClass "FC3_VolGroupData") "__init__" [("kwargs", (EVar "kwargs"))];
      SAttr "self" "reserved_space" (EOr (EGet (EVar "kwargs") "reserved-space" (EConst VNone)) (EGet (EVar "kwargs") "reserved_space" (EConst VNone)));
      SAttr "self" "reserved_percent" (EOr (EGet (EVar "kwargs") "reserved-percent" (EConst VNone)) (EGet (EVar "kwargs") "reserved_percent" (EConst VNone)))]));
  (* commands/volgroup.py:78-85 *)
  ("_getArgsAsStr", mkMethod []
      (steps [SCall "_t1" (TClass "FC3_VolGroupData") "_getArgsAsStr" [];
      SAssign "retval" (EVar "_t1");
      SIf (EAttr (EVar "self") "reserved_space")
      (SAssign "retval" (EBin BAdd (EVar "retval") (EBin BAdd (str " --reserved-space=") (EUn UDec (EAttr (EVar "self") "reserved_space")))))
      SPass;
      SIf (EAttr (EVar "self") "reserved_percent")
      (SAssign "retval" (EBin BAdd (EVar "retval") (EBin BAdd (str " --reserved-percent=") (EUn UDec (EAttr (EVar "self") "reserved_percent")))))
      SPass;
      SReturn (EVar "retval")]))].
Definition m_F21_VolGroupData : list (string * method) := [
  (* commands/volgroup.py:88-90 *)
  ("__init__", mkMethod [("kwargs", None)]
      (steps [SCall "_t1" (TClass "F16_VolGroupData") "__init__" [("kwargs", (EVar "kwargs"))];
      SAttr "self" "pesize" (EGet (EVar "kwargs") "pesize" (EConst (VInt 0)))]))].
Definition m_RHEL7_VolGroupData : list (string * method) := [].
Definition m_RHEL8_VolGroupData : list (string * method) := [].
Definition m_FC3_VolGroup : list (string * method) := [
  (* commands/volgroup.py:102-106 *)
  ("__init__", mkMethod [("writePriority", (Some (VInt 132))); ("kwargs", None)]
      (SCall "_t1" (TClass "KickstartCommand") "__init__" [("writePriority", (EVar "writePriority")); ("kwargs", (EVar "kwargs"))]));
  (* commands/volgroup.py:108-113 *)
  ("__str__", mkMethod []
      (steps [SAssign "retval" (str "");
      SForData "vg" (SAssign "retval" (EBin BAdd (EVar "retval") (EDataStr (EVar "vg"))));
      SReturn (EVar "retval")]));
  (* commands/volgroup.py:147-182 *)
  ("parse", mkMethod []
      (steps [SParseKnown "ns" "extra";
      SIf (EUn UNot (EAttr (EVar "ns") "partitions"))
      (SIf (EVar "extra")
      (steps [SAttr "ns" "partitions" (EVar "extra");
      SAssign "extra" (EConst (VStrs []))])
      (SIf (EAttr (EVar "ns") "name")
      (steps [SAttr "ns" "partitions" (EBin BFrom (EAttr (EVar "ns") "name") (EConst (VInt 1)));
      SAttr "ns" "name" (EUn USingle (EBin BIndex (EAttr (EVar "ns") "name") (EConst (VInt 0))))])
      SPass))
      SPass;
      SIf (EUn UNot (EAttr (EVar "ns") "format"))
      (SAttr "ns" "preexist" (EConst (VBool true)))
      SPass;
      SCall "_t1" TSelf "dataClass" [];
      SAssign "vg" (EVar "_t1");
      SSetTo "ns" "vg";
      SAttr "vg" "lineno" (EAttr (EVar "self") "lineno");
      SIf (EUn UNot (EAttr (EVar "ns") "name"))
      (SRaise true "volgroup must be given a VG name")
      SPass;
      SIf (EUn UNot (EUn UBool (EOr (EAttr (EVar "ns") "partitions") (EAttr (EVar "ns") "preexist"))))
      (SRaise true "volgroup must be given a list of partitions")
      (SIf (EAnd (EAttr (EVar "ns") "partitions") (EAttr (EVar "ns") "preexist"))
      (SRaise true "Members may not be specified for preexisting volgroup")
      SPass);
      SAttr "vg" "vgname" (EBin BIndex (EAttr (EVar "ns") "name") (EConst (VInt 0)));
      SIf (EAttr (EVar "ns") "partitions")
      (SAttr "vg" "physvols" (EAttr (EVar "ns") "partitions"))
      SPass;
      SReturn (EVar "vg")]));
  (* commands/volgroup.py:188-189 *)
  ("dataClass", mkMethod []
      (SReturn (ENew "VolGroupData")))].
Definition m_F16_VolGroup : list (string * method) := [
  (* commands/volgroup.py:205-225 *)
  ("parse", mkMethod []
      (steps [SCall "_t1" (TClass "FC3_VolGroup") "parse" [];
      SAssign "retval" (EVar "_t1");
      SIf (EAnd (EBin BIsNot (EAttr (EVar "retval") "reserved_space") (EConst VNone)) (EBin BLt (EAttr (EVar "retval") "reserved_space") (EConst (VInt 0))))
      (SRaise true "Volume group reserved space must be a positive integer.")
      SPass;
      SIf (EAnd (EBin BIsNot (EAttr (EVar "retval") "reserved_percent") (EConst VNone)) (EUn UNot (EAnd (EBin BLt (EConst (VInt 0)) (EAttr (EVar "retval") "reserved_percent")) (EBin BLt (EAttr (EVar "retval") "reserved_percent") (EConst (VInt 100))))))
      (SRaise true "Volume group reserved space percentage must be between 1 and 99.")
      SPass;
      SIf (ESeen "autopart")
      (SRaise true "The volgroup and autopart commands can't be used at the same time")
      SPass;
      SIf (EAnd (EHandlerHas "mount") (ESeen "mount"))
      (SRaise true "The volgroup and mount commands can't be used at the same time")
      SPass;
      SReturn (EVar "retval")]))].
Definition m_F21_VolGroup : list (string * method) := [].
Definition m_RHEL7_VolGroup : list (string * method) := [].
Definition m_RHEL8_VolGroup : list (string * method) := [].
Definition m_FC3_XConfig : list (string * method) := [
  (* commands/xconfig.py:28-42 *)
  ("__init__", mkMethod [("writePriority", (Some (VInt 0))); ("kwargs", None)]
      (steps [SCall "_t1" (TClass "KickstartCommand") "__init__" [("writePriority", (EVar "writePriority")); ("kwargs", (EVar "kwargs"))];
      SAttr "self" "card" (EGet (EVar "kwargs") "card" (str ""));
      SAttr "self" "defaultdesktop" (EGet (EVar "kwargs") "defaultdesktop" (str ""));
      SAttr "self" "depth" (EGet (EVar "kwargs") "depth" (EConst (VInt 0)));
      SAttr "self" "hsync" (EGet (EVar "kwargs") "hsync" (str ""));
      SAttr "self" "monitor" (EGet (EVar "kwargs") "monitor" (str ""));
      SAttr "self" "noProbe" (EGet (EVar "kwargs") "noProbe" (EConst (VBool false)));
      SAttr "self" "resolution" (EGet (EVar "kwargs") "resolution" (str ""));
      SAttr "self" "server" (EGet (EVar "kwargs") "server" (str ""));
      SAttr "self" "startX" (EGet (EVar "kwargs") "startX" (EConst (VBool false)));
      SAttr "self" "videoRam" (EGet (EVar "kwargs") "videoRam" (str ""));
      SAttr "self" "vsync" (EGet (EVar "kwargs") "vsync" (str ""))]));
  (* commands/xconfig.py:44-73 *)
  ("__str__", mkMethod []
      (steps [SCall "_t1" (TClass "KickstartCommand") "__str__" [];
      SAssign "retval" (EVar "_t1");
      SIf (EAttr (EVar "self") "card")
      (SAssign "retval" (EBin BAdd (EVar "retval") (EBin BAdd (str " --card=") (EUn UStr (EAttr (EVar "self") "card")))))
      SPass;
      SIf (EAttr (EVar "self") "defaultdesktop")
      (SAssign "retval" (EBin BAdd (EVar "retval") (EBin BAdd (str " --defaultdesktop=") (EUn UStr (EAttr (EVar "self") "defaultdesktop")))))
      SPass;
      SIf (EBin BNe (EAttr (EVar "self") "depth") (EConst (VInt 0)))
      (SAssign "retval" (EBin BAdd (EVar "retval") (EBin BAdd (str " --depth=") (EUn UDec (EAttr (EVar "self") "depth")))))
      SPass;
      SIf (EAttr (EVar "self") "hsync")
      (SAssign "retval" (EBin BAdd (EVar "retval") (EBin BAdd (str " --hsync=") (EUn UStr (EAttr (EVar "self") "hsync")))))
      SPass;
      SIf (EAttr (EVar "self") "monitor")
      (SAssign "retval" (EBin BAdd (EVar "retval") (EBin BAdd (str " --monitor=") (EUn UStr (EAttr (EVar "self") "monitor")))))
      SPass;
      SIf (EAttr (EVar "self") "noProbe")
      (SAssign "retval" (EBin BAdd (EVar "retval") (str " --noprobe")))
      SPass;
      SIf (EAttr (EVar "self") "resolution")
      (SAssign "retval" (EBin BAdd (EVar "retval") (EBin BAdd (str " --resolution=") (EUn UStr (EAttr (EVar "self") "resolution")))))
      SPass;
      SIf (EAttr (EVar "self") "server")
      (SAssign "retval" (EBin BAdd (EVar "retval") (EBin BAdd (str " --server=") (EUn UStr (EAttr (EVar "self") "server")))))
      SPass;
      SIf (EAttr (EVar "self") "startX")
      (SAssign "retval" (EBin BAdd (EVar "retval") (str " --startxonboot")))
      SPass;
      SIf (EAttr (EVar "self") "videoRam")
      (SAssign "retval" (EBin BAdd (EVar "retval") (EBin BAdd (str " --videoram=") (EUn UStr (EAttr (EVar "self") "videoRam")))))
      SPass;
      SIf (EAttr (EVar "self") "vsync")
      (SAssign "retval" (EBin BAdd (EVar "retval") (EBin BAdd (str " --vsync=") (EUn UStr (EAttr (EVar "self") "vsync")))))
      SPass;
      SIf (EVar "retval")
      (SAssign "retval" (EBin BAdd (EBin BAdd (str "# X Window System configuration information
xconfig ") (EUn UStr (EVar "retval"))) (str "
")))
      SPass;
      SReturn (EVar "retval")]));
  (* commands/xconfig.py:101-104 *)
  ("parse", mkMethod []
      (steps [SParse "ns";
      SSetTo "ns" "self";
      SReturn (EVar "self")]))].
Definition m_FC6_XConfig : list (string * method) := [
  (* commands/xconfig.py:110-114 *)
  ("__init__", mkMethod [("writePriority", (Some (VInt 0))); ("kwargs", None)]
      (steps [SCall "_t1" (TClass "FC3_XConfig") "__init__" [("writePriority", (EVar "writePriority")); ("kwargs", (EVar "kwargs"))];
      SDelRemoved [];
      SAttr "self" "driver" (EGet (EVar "kwargs") "driver" (str ""))]));
  (* commands/xconfig.py:116-135 *)
  ("__str__", mkMethod []
      (steps [SCall "_t1" (TClass "KickstartCommand") "__str__" [];
      SAssign "retval" (EVar "_t1");
      SIf (EAnd (EHas (EVar "self") "driver") (EAttr (EVar "self") "driver"))
      (SAssign "retval" (EBin BAdd (EVar "retval") (EBin BAdd (str " --driver=") (EUn UStr (EAttr (EVar "self") "driver")))))
      SPass;
      SIf (EAttr (EVar "self") "defaultdesktop")
      (SAssign "retval" (EBin BAdd (EVar "retval") (EBin BAdd (str " --defaultdesktop=") (EUn UStr (EAttr (EVar "self") "defaultdesktop")))))
      SPass;
      SIf (EBin BNe (EAttr (EVar "self") "depth") (EConst (VInt 0)))
      (SAssign "retval" (EBin BAdd (EVar "retval") (EBin BAdd (str " --depth=") (EUn UDec (EAttr (EVar "self") "depth")))))
      SPass;
      SIf (EAnd (EHas (EVar "self") "resolution") (EAttr (EVar "self") "resolution"))
      (SAssign "retval" (EBin BAdd (EVar "retval") (EBin BAdd (str " --resolution=") (EUn UStr (EAttr (EVar "self") "resolution")))))
      SPass;
      SIf (EAttr (EVar "self") "startX")
      (SAssign "retval" (EBin BAdd (EVar "retval") (str " --startxonboot")))
      SPass;
      SIf (EAnd (EHas (EVar "self") "videoRam") (EAttr (EVar "self") "videoRam"))
      (SAssign "retval" (EBin BAdd (EVar "retval") (EBin BAdd (str " --videoram=") (EUn UStr (EAttr (EVar "self") "videoRam")))))
      SPass;
      SIf (EVar "retval")
      (SAssign "retval" (EBin BAdd (EBin BAdd (str "# X Window System configuration information
xconfig ") (EUn UStr (EVar "retval"))) (str "
")))
      SPass;
      SReturn (EVar "retval")]))].
Definition m_F9_XConfig : list (string * method) := [].
Definition m_F10_XConfig : list (string * method) := [
  (* commands/xconfig.py:165-167 *)
  ("__init__", mkMethod [("writePriority", (Some (VInt 0))); ("kwargs", None)]
      (steps [SCall "_t1" (TClass "F9_XConfig") "__init__" [("writePriority", (EVar "writePriority")); ("kwargs", (EVar "kwargs"))];
      SDelRemoved []]))].
Definition m_F14_XConfig : list (string * method) := [].
Definition m_FC3_ZeroMbr : list (string * method) := [
  (* commands/zerombr.py:33-36 *)
  ("__init__", mkMethod [("writePriority", (Some (VInt 110))); ("kwargs", None)]
      (steps [SCall "_t1" (TClass "KickstartCommand") "__init__" [("writePriority", (EVar "writePriority")); ("kwargs", (EVar "kwargs"))];
      SAttr "self" "zerombr" (EGet (EVar "kwargs") "zerombr" (EConst (VBool false)))]));
  (* commands/zerombr.py:38-44 *)
  ("__str__", mkMethod []
      (steps [SCall "_t1" (TClass "KickstartCommand") "__str__" [];
      SAssign "retval" (EVar "_t1");
      SIf (EAttr (EVar "self") "zerombr")
      (SAssign "retval" (EBin BAdd (EVar "retval") (str "# Clear the Master Boot Record
zerombr
")))
      SPass;
      SReturn (EVar "retval")]));
  (* commands/zerombr.py:58-65 *)
  ("parse", mkMethod []
      (steps [SParseKnown "_" "extra";
      SIf (EVar "extra")
      SPass
      SPass;
      SAttr "self" "zerombr" (EConst (VBool true));
      SReturn (EVar "self")]))].
Definition m_F9_ZeroMbr : list (string * method) := [
  (* commands/zerombr.py:71-74 *)
  ("parse", mkMethod []
      (steps [SParse "_";
      SAttr "self" "zerombr" (EConst (VBool true));
      SReturn (EVar "self")]))].
Definition m_FC3_ZFCPData : list (string * method) := [
  (* commands/zfcp.py:32-38 *)
  ("__init__", mkMethod [("kwargs", None)]
      (steps [SCall "_t1" (TClass "BaseData") "__init__" [("kwargs", (EVar "kwargs"))];
      SAttr "self" "devnum" (EGet (EVar "kwargs") "devnum" (str ""));
      SAttr "self" "wwpn" (EGet (EVar "kwargs") "wwpn" (str ""));
      SAttr "self" "fcplun" (EGet (EVar "kwargs") "fcplun" (str ""));
      SAttr "self" "scsiid" (EGet (EVar "kwargs") "scsiid" (str ""));
      SAttr "self" "scsilun" (EGet (EVar "kwargs") "scsilun" (str ""))]));
  (* commands/zfcp.py:51-66 *)
  ("__str__", mkMethod []
      (steps [SCall "_t1" (TClass "BaseData") "__str__" [];
      SAssign "retval" (EVar "_t1");
      SAssign "retval" (EBin BAdd (EVar "retval") (str "zfcp"));
      SIf (EAttr (EVar "self") "devnum")
      (SAssign "retval" (EBin BAdd (EVar "retval") (EBin BAdd (str " --devnum=") (EUn UStr (EAttr (EVar "self") "devnum")))))
      SPass;
      SIf (EAttr (EVar "self") "wwpn")
      (SAssign "retval" (EBin BAdd (EVar "retval") (EBin BAdd (str " --wwpn=") (EUn UStr (EAttr (EVar "self") "wwpn")))))
      SPass;
      SIf (EAttr (EVar "self") "fcplun")
      (SAssign "retval" (EBin BAdd (EVar "retval") (EBin BAdd (str " --fcplun=") (EUn UStr (EAttr (EVar "self") "fcplun")))))
      SPass;
      SIf (EAnd (EHas (EVar "self") "scsiid") (EAttr (EVar "self") "scsiid"))
      (SAssign "retval" (EBin BAdd (EVar "retval") (EBin BAdd (str " --scsiid=") (EUn UStr (EAttr (EVar "self") "scsiid")))))
      SPass;
      SIf (EAnd (EHas (EVar "self") "scsilun") (EAttr (EVar "self") "scsilun"))
      (SAssign "retval" (EBin BAdd (EVar "retval") (EBin BAdd (str " --scsilun=") (EUn UStr (EAttr (EVar "self") "scsilun")))))
      SPass;
      SReturn (EBin BAdd (EVar "retval") (str "
"))]))].
Definition m_F12_ZFCPData : list (string * method) := [
  (* commands/zfcp.py:72-74 *)
  ("__init__", mkMethod [("kwargs", None)]
      (steps [SCall "_t1" (TClass "FC3_ZFCPData") "__init__" [("kwargs", (EVar "kwargs"))];
      SDelRemoved []]))].
Definition m_F14_ZFCPData : list (string * method) := [].
Definition m_FC3_ZFCP : list (string * method) := [
  (* commands/zfcp.py:90-94 *)
  ("__init__", mkMethod [("writePriority", (Some (VInt 71))); ("kwargs", None)]
      (SCall "_t1" (TClass "KickstartCommand") "__init__" [("writePriority", (EVar "writePriority")); ("kwargs", (EVar "kwargs"))]));
  (* commands/zfcp.py:96-101 *)
  ("__str__", mkMethod []
      (steps [SAssign "retval" (str "");
      SForData "zfcp" (SAssign "retval" (EBin BAdd (EVar "retval") (EDataStr (EVar "zfcp"))));
      SReturn (EVar "retval")]));
  (* commands/zfcp.py:112-122 *)
  ("parse", mkMethod []
      (steps [SCall "_t1" TSelf "dataClass" [];
      SAssign "zd" (EVar "_t1");
      SParse "ns";
      SSetTo "ns" "zd";
      SAttr "zd" "lineno" (EAttr (EVar "self") "lineno");
      SReturn (EVar "zd")]));
  (* commands/zfcp.py:128-129 *)
  ("dataClass", mkMethod []
      (SReturn (ENew "ZFCPData")))].
Definition m_F12_ZFCP : list (string * method) := [
  (* commands/zfcp.py:135-137 *)
  ("__init__", mkMethod [("kwargs", None)]
      (steps [SCall "_t1" (TClass "FC3_ZFCP") "__init__" [("kwargs", (EVar "kwargs"))];
      SDelRemoved []]))].
Definition m_F14_ZFCP : list (string * method) := [].
Definition m_F32_Zipl : list (string * method) := [
  (* commands/zipl.py:29-32 *)
  ("__init__", mkMethod [("writePriority", (Some (VInt 10))); ("kwargs", None)]
      (steps [SCall "_t1" (TClass "KickstartCommand") "__init__" [("writePriority", (EVar "writePriority")); ("kwargs", (EVar "kwargs"))];
      SAttr "self" "secure_boot" (EGet (EVar "kwargs") "secure_boot" (EConst (VInt (-1))))]));
  (* commands/zipl.py:65-68 *)
  ("parse", mkMethod []
      (steps [SParse "ns";
      SSetTo "ns" "self";
      SReturn (EVar "self")]));
  (* commands/zipl.py:70-77 *)
  ("__str__", mkMethod []
      (steps [SCall "_t1" (TClass "KickstartCommand") "__str__" [];
      SAssign "retval" (EVar "_t1");
      SIf (EBin BIsNot (EAttr (EVar "self") "secure_boot") (EConst (VInt (-1))))
      (steps [SAssign "retval" (EBin BAdd (EVar "retval") (str "# ZIPL configuration
zipl"));
      SCall "_t2" TSelf "_getArgsAsStr" [];
      SAssign "retval" (EBin BAdd (EVar "retval") (EBin BAdd (EVar "_t2") (str "
")))])
      SPass;
      SReturn (EVar "retval")]));
  (* commands/zipl.py:79-89 *)
  ("_getArgsAsStr", mkMethod []
      (steps [SAssign "ret" (str "");
      SIf (EBin BEq (EAttr (EVar "self") "secure_boot") (EConst (VInt 2)))
      (SAssign "ret" (EBin BAdd (EVar "ret") (str " --secure-boot")))
      (SIf (EBin BEq (EAttr (EVar "self") "secure_boot") (EConst (VInt 1)))
      (SAssign "ret" (EBin BAdd (EVar "ret") (str " --force-secure-boot")))
      (SIf (EBin BEq (EAttr (EVar "self") "secure_boot") (EConst (VInt 0)))
      (SAssign "ret" (EBin BAdd (EVar "ret") (str " --no-secure-boot")))
      SPass));
      SReturn (EVar "ret")]))].
Definition m_RHEL8_Zipl : list (string * method) := [].

Definition code : list (string * list (string * method)) :=
  [("FC3_Authconfig", m_FC3_Authconfig);
   ("F28_Authconfig", m_F28_Authconfig);
   ("F28_Authselect", m_F28_Authselect);
   ("FC3_AutoPart", m_FC3_AutoPart);
   ("F9_AutoPart", m_F9_AutoPart);
   ("F12_AutoPart", m_F12_AutoPart);
   ("RHEL6_AutoPart", m_RHEL6_AutoPart);
   ("F16_AutoPart", m_F16_AutoPart);
   ("F17_AutoPart", m_F17_AutoPart);
   ("F18_AutoPart", m_F18_AutoPart);
   ("F20_AutoPart", m_F20_AutoPart);
   ("F21_AutoPart", m_F21_AutoPart);
   ("F23_AutoPart", m_F23_AutoPart);
   ("RHEL7_AutoPart", m_RHEL7_AutoPart);
   ("F26_AutoPart", m_F26_AutoPart);
   ("F29_AutoPart", m_F29_AutoPart);
   ("RHEL8_AutoPart", m_RHEL8_AutoPart);
   ("FC3_AutoStep", m_FC3_AutoStep);
   ("F34_AutoStep", m_F34_AutoStep);
   ("FC3_Bootloader", m_FC3_Bootloader);
   ("FC3_Lilo", m_FC3_Lilo);
   ("FC4_Lilo", m_FC4_Lilo);
   ("FC4_Bootloader", m_FC4_Bootloader);
   ("F8_Bootloader", m_F8_Bootloader);
   ("F12_Bootloader", m_F12_Bootloader);
   ("F14_Bootloader", m_F14_Bootloader);
   ("F15_Bootloader", m_F15_Bootloader);
   ("F17_Bootloader", m_F17_Bootloader);
   ("F18_Bootloader", m_F18_Bootloader);
   ("RHEL5_Bootloader", m_RHEL5_Bootloader);
   ("RHEL6_Bootloader", m_RHEL6_Bootloader);
   ("F19_Bootloader", m_F19_Bootloader);
   ("F21_Bootloader", m_F21_Bootloader);
   ("RHEL7_Bootloader", m_RHEL7_Bootloader);
   ("F29_Bootloader", m_F29_Bootloader);
   ("RHEL8_Bootloader", m_RHEL8_Bootloader);
   ("F34_Bootloader", m_F34_Bootloader);
   ("F17_BTRFSData", m_F17_BTRFSData);
   ("F23_BTRFSData", m_F23_BTRFSData);
   ("RHEL7_BTRFSData", m_RHEL7_BTRFSData);
   ("F17_BTRFS", m_F17_BTRFS);
   ("F23_BTRFS", m_F23_BTRFS);
   ("RHEL7_BTRFS", m_RHEL7_BTRFS);
   ("RHEL8_BTRFS", m_RHEL8_BTRFS);
   ("FC3_Cdrom", m_FC3_Cdrom);
   ("FC3_ClearPart", m_FC3_ClearPart);
   ("F17_ClearPart", m_F17_ClearPart);
   ("F21_ClearPart", m_F21_ClearPart);
   ("F28_ClearPart", m_F28_ClearPart);
   ("RHEL7_ClearPart", m_RHEL7_ClearPart);
   ("F8_DeviceData", m_F8_DeviceData);
   ("FC3_Device", m_FC3_Device);
   ("F8_Device", m_F8_Device);
   ("F24_Device", m_F24_Device);
   ("F34_Device", m_F34_Device);
   ("FC3_DeviceProbe", m_FC3_DeviceProbe);
   ("F29_DeviceProbe", m_F29_DeviceProbe);
   ("F34_DeviceProbe", m_F34_DeviceProbe);
   ("FC3_DisplayMode", m_FC3_DisplayMode);
   ("F26_DisplayMode", m_F26_DisplayMode);
   ("FC6_DmRaidData", m_FC6_DmRaidData);
   ("FC6_DmRaid", m_FC6_DmRaid);
   ("F24_DmRaid", m_F24_DmRaid);
   ("F34_DmRaid", m_F34_DmRaid);
   ("FC3_DriverDiskData", m_FC3_DriverDiskData);
   ("FC4_DriverDiskData", m_FC4_DriverDiskData);
   ("F12_DriverDiskData", m_F12_DriverDiskData);
   ("F14_DriverDiskData", m_F14_DriverDiskData);
   ("FC3_DriverDisk", m_FC3_DriverDisk);
   ("FC4_DriverDisk", m_FC4_DriverDisk);
   ("F12_DriverDisk", m_F12_DriverDisk);
   ("F14_DriverDisk", m_F14_DriverDisk);
   ("F20_Eula", m_F20_Eula);
   ("F12_FcoeData", m_F12_FcoeData);
   ("F13_FcoeData", m_F13_FcoeData);
   ("RHEL7_FcoeData", m_RHEL7_FcoeData);
   ("F28_FcoeData", m_F28_FcoeData);
   ("RHEL8_FcoeData", m_RHEL8_FcoeData);
   ("F12_Fcoe", m_F12_Fcoe);
   ("F13_Fcoe", m_F13_Fcoe);
   ("RHEL7_Fcoe", m_RHEL7_Fcoe);
   ("F28_Fcoe", m_F28_Fcoe);
   ("RHEL8_Fcoe", m_RHEL8_Fcoe);
   ("FC3_Firewall", m_FC3_Firewall);
   ("F9_Firewall", m_F9_Firewall);
   ("F10_Firewall", m_F10_Firewall);
   ("F14_Firewall", m_F14_Firewall);
   ("F20_Firewall", m_F20_Firewall);
   ("F28_Firewall", m_F28_Firewall);
   ("FC3_Firstboot", m_FC3_Firstboot);
   ("F12_GroupData", m_F12_GroupData);
   ("F12_Group", m_F12_Group);
   ("FC3_HardDrive", m_FC3_HardDrive);
   ("F33_HardDrive", m_F33_HardDrive);
   ("RHEL7_Hmc", m_RHEL7_Hmc);
   ("F28_Hmc", m_F28_Hmc);
   ("FC3_IgnoreDisk", m_FC3_IgnoreDisk);
   ("F8_IgnoreDisk", m_F8_IgnoreDisk);
   ("RHEL6_IgnoreDisk", m_RHEL6_IgnoreDisk);
   ("F14_IgnoreDisk", m_F14_IgnoreDisk);
   ("F29_IgnoreDisk", m_F29_IgnoreDisk);
   ("F34_IgnoreDisk", m_F34_IgnoreDisk);
   ("F20_Install", m_F20_Install);
   ("F29_Install", m_F29_Install);
   ("F34_Install", m_F34_Install);
   ("FC3_Interactive", m_FC3_Interactive);
   ("F14_Interactive", m_F14_Interactive);
   ("F15_Interactive", m_F15_Interactive);
   ("FC6_IscsiData", m_FC6_IscsiData);
   ("F10_IscsiData", m_F10_IscsiData);
   ("RHEL6_IscsiData", m_RHEL6_IscsiData);
   ("F17_IscsiData", m_F17_IscsiData);
   ("FC6_Iscsi", m_FC6_Iscsi);
   ("F10_Iscsi", m_F10_Iscsi);
   ("RHEL6_Iscsi", m_RHEL6_Iscsi);
   ("F17_Iscsi", m_F17_Iscsi);
   ("FC6_IscsiName", m_FC6_IscsiName);
   ("RHEL5_Key", m_RHEL5_Key);
   ("FC3_Keyboard", m_FC3_Keyboard);
   ("F18_Keyboard", m_F18_Keyboard);
   ("FC3_Lang", m_FC3_Lang);
   ("F19_Lang", m_F19_Lang);
   ("FC3_LangSupport", m_FC3_LangSupport);
   ("FC5_LangSupport", m_FC5_LangSupport);
   ("F7_LangSupport", m_F7_LangSupport);
   ("FC3_LiloCheck", m_FC3_LiloCheck);
   ("FC4_LiloCheck", m_FC4_LiloCheck);
   ("F19_Liveimg", m_F19_Liveimg);
   ("FC6_Logging", m_FC6_Logging);
   ("F34_Logging", m_F34_Logging);
   ("FC3_LogVolData", m_FC3_LogVolData);
   ("FC4_LogVolData", m_FC4_LogVolData);
   ("RHEL5_LogVolData", m_RHEL5_LogVolData);
   ("F9_LogVolData", m_F9_LogVolData);
   ("F12_LogVolData", m_F12_LogVolData);
   ("RHEL6_LogVolData", m_RHEL6_LogVolData);
   ("F14_LogVolData", m_F14_LogVolData);
   ("F15_LogVolData", m_F15_LogVolData);
   ("F17_LogVolData", m_F17_LogVolData);
   ("F18_LogVolData", m_F18_LogVolData);
   ("F20_LogVolData", m_F20_LogVolData);
   ("F21_LogVolData", m_F21_LogVolData);
   ("RHEL7_LogVolData", m_RHEL7_LogVolData);
   ("F23_LogVolData", m_F23_LogVolData);
   ("F29_LogVolData", m_F29_LogVolData);
   ("RHEL8_LogVolData", m_RHEL8_LogVolData);
   ("FC3_LogVol", m_FC3_LogVol);
   ("FC4_LogVol", m_FC4_LogVol);
   ("RHEL5_LogVol", m_RHEL5_LogVol);
   ("F9_LogVol", m_F9_LogVol);
   ("F12_LogVol", m_F12_LogVol);
   ("RHEL6_LogVol", m_RHEL6_LogVol);
   ("F14_LogVol", m_F14_LogVol);
   ("F15_LogVol", m_F15_LogVol);
   ("F17_LogVol", m_F17_LogVol);
   ("F18_LogVol", m_F18_LogVol);
   ("F20_LogVol", m_F20_LogVol);
   ("F21_LogVol", m_F21_LogVol);
   ("RHEL7_LogVol", m_RHEL7_LogVol);
   ("F23_LogVol", m_F23_LogVol);
   ("F29_LogVol", m_F29_LogVol);
   ("RHEL8_LogVol", m_RHEL8_LogVol);
   ("FC4_MediaCheck", m_FC4_MediaCheck);
   ("F29_ModuleData", m_F29_ModuleData);
   ("RHEL8_ModuleData", m_RHEL8_ModuleData);
   ("F31_ModuleData", m_F31_ModuleData);
   ("F29_Module", m_F29_Module);
   ("RHEL8_Module", m_RHEL8_Module);
   ("F31_Module", m_F31_Module);
   ("FC3_Monitor", m_FC3_Monitor);
   ("FC6_Monitor", m_FC6_Monitor);
   ("F10_Monitor", m_F10_Monitor);
   ("F18_Monitor", m_F18_Monitor);
   ("F27_MountData", m_F27_MountData);
   ("F27_Mount", m_F27_Mount);
   ("RHEL3_Mouse", m_RHEL3_Mouse);
   ("FC3_Mouse", m_FC3_Mouse);
   ("F7_Mouse", m_F7_Mouse);
   ("FC3_NetworkData", m_FC3_NetworkData);
   ("FC4_NetworkData", m_FC4_NetworkData);
   ("FC6_NetworkData", m_FC6_NetworkData);
   ("F8_NetworkData", m_F8_NetworkData);
   ("F16_NetworkData", m_F16_NetworkData);
   ("F19_NetworkData", m_F19_NetworkData);
   ("F20_NetworkData", m_F20_NetworkData);
   ("F21_NetworkData", m_F21_NetworkData);
   ("F22_NetworkData", m_F22_NetworkData);
   ("F25_NetworkData", m_F25_NetworkData);
   ("F27_NetworkData", m_F27_NetworkData);
   ("RHEL4_NetworkData", m_RHEL4_NetworkData);
   ("RHEL6_NetworkData", m_RHEL6_NetworkData);
   ("RHEL7_NetworkData", m_RHEL7_NetworkData);
   ("FC3_Network", m_FC3_Network);
   ("FC4_Network", m_FC4_Network);
   ("FC6_Network", m_FC6_Network);
   ("F8_Network", m_F8_Network);
   ("F9_Network", m_F9_Network);
   ("F16_Network", m_F16_Network);
   ("F18_Network", m_F18_Network);
   ("F19_Network", m_F19_Network);
   ("F20_Network", m_F20_Network);
   ("F21_Network", m_F21_Network);
   ("F22_Network", m_F22_Network);
   ("F24_Network", m_F24_Network);
   ("F25_Network", m_F25_Network);
   ("F27_Network", m_F27_Network);
   ("RHEL4_Network", m_RHEL4_Network);
   ("RHEL5_Network", m_RHEL5_Network);
   ("RHEL6_Network", m_RHEL6_Network);
   ("RHEL7_Network", m_RHEL7_Network);
   ("FC3_NFS", m_FC3_NFS);
   ("FC6_NFS", m_FC6_NFS);
   ("F28_NvdimmData", m_F28_NvdimmData);
   ("F28_Nvdimm", m_F28_Nvdimm);
   ("F21_OSTreeSetup", m_F21_OSTreeSetup);
   ("RHEL7_OSTreeSetup", m_RHEL7_OSTreeSetup);
   ("RHEL8_OSTreeSetup", m_RHEL8_OSTreeSetup);
   ("FC3_PartData", m_FC3_PartData);
   ("FC4_PartData", m_FC4_PartData);
   ("RHEL5_PartData", m_RHEL5_PartData);
   ("F9_PartData", m_F9_PartData);
   ("F11_PartData", m_F11_PartData);
   ("F12_PartData", m_F12_PartData);
   ("RHEL6_PartData", m_RHEL6_PartData);
   ("F14_PartData", m_F14_PartData);
   ("F17_PartData", m_F17_PartData);
   ("F18_PartData", m_F18_PartData);
   ("F23_PartData", m_F23_PartData);
   ("RHEL7_PartData", m_RHEL7_PartData);
   ("F29_PartData", m_F29_PartData);
   ("RHEL8_PartData", m_RHEL8_PartData);
   ("FC3_Partition", m_FC3_Partition);
   ("FC4_Partition", m_FC4_Partition);
   ("RHEL5_Partition", m_RHEL5_Partition);
   ("F9_Partition", m_F9_Partition);
   ("F11_Partition", m_F11_Partition);
   ("F12_Partition", m_F12_Partition);
   ("RHEL6_Partition", m_RHEL6_Partition);
   ("F14_Partition", m_F14_Partition);
   ("F17_Partition", m_F17_Partition);
   ("F18_Partition", m_F18_Partition);
   ("F20_Partition", m_F20_Partition);
   ("F23_Partition", m_F23_Partition);
   ("RHEL7_Partition", m_RHEL7_Partition);
   ("F29_Partition", m_F29_Partition);
   ("RHEL8_Partition", m_RHEL8_Partition);
   ("F34_Partition", m_F34_Partition);
   ("FC3_RaidData", m_FC3_RaidData);
   ("FC4_RaidData", m_FC4_RaidData);
   ("FC5_RaidData", m_FC5_RaidData);
   ("RHEL5_RaidData", m_RHEL5_RaidData);
   ("F7_RaidData", m_F7_RaidData);
   ("F9_RaidData", m_F9_RaidData);
   ("F12_RaidData", m_F12_RaidData);
   ("F13_RaidData", m_F13_RaidData);
   ("RHEL6_RaidData", m_RHEL6_RaidData);
   ("F14_RaidData", m_F14_RaidData);
   ("F15_RaidData", m_F15_RaidData);
   ("F18_RaidData", m_F18_RaidData);
   ("F23_RaidData", m_F23_RaidData);
   ("F25_RaidData", m_F25_RaidData);
   ("RHEL7_RaidData", m_RHEL7_RaidData);
   ("F29_RaidData", m_F29_RaidData);
   ("RHEL8_RaidData", m_RHEL8_RaidData);
   ("FC3_Raid", m_FC3_Raid);
   ("FC4_Raid", m_FC4_Raid);
   ("FC5_Raid", m_FC5_Raid);
   ("RHEL5_Raid", m_RHEL5_Raid);
   ("F7_Raid", m_F7_Raid);
   ("F9_Raid", m_F9_Raid);
   ("F12_Raid", m_F12_Raid);
   ("F13_Raid", m_F13_Raid);
   ("RHEL6_Raid", m_RHEL6_Raid);
   ("F14_Raid", m_F14_Raid);
   ("F15_Raid", m_F15_Raid);
   ("F18_Raid", m_F18_Raid);
   ("F19_Raid", m_F19_Raid);
   ("F20_Raid", m_F20_Raid);
   ("F23_Raid", m_F23_Raid);
   ("F25_Raid", m_F25_Raid);
   ("RHEL7_Raid", m_RHEL7_Raid);
   ("F29_Raid", m_F29_Raid);
   ("RHEL8_Raid", m_RHEL8_Raid);
   ("FC3_Reboot", m_FC3_Reboot);
   ("FC6_Reboot", m_FC6_Reboot);
   ("F18_Reboot", m_F18_Reboot);
   ("F23_Reboot", m_F23_Reboot);
   ("FC6_RepoData", m_FC6_RepoData);
   ("F8_RepoData", m_F8_RepoData);
   ("F11_RepoData", m_F11_RepoData);
   ("F13_RepoData", m_F13_RepoData);
   ("F14_RepoData", m_F14_RepoData);
   ("RHEL6_RepoData", m_RHEL6_RepoData);
   ("F15_RepoData", m_F15_RepoData);
   ("F21_RepoData", m_F21_RepoData);
   ("F27_RepoData", m_F27_RepoData);
   ("F30_RepoData", m_F30_RepoData);
   ("RHEL7_RepoData", m_RHEL7_RepoData);
   ("RHEL8_RepoData", m_RHEL8_RepoData);
   ("FC6_Repo", m_FC6_Repo);
   ("F8_Repo", m_F8_Repo);
   ("F11_Repo", m_F11_Repo);
   ("F13_Repo", m_F13_Repo);
   ("F14_Repo", m_F14_Repo);
   ("RHEL6_Repo", m_RHEL6_Repo);
   ("F15_Repo", m_F15_Repo);
   ("F21_Repo", m_F21_Repo);
   ("F27_Repo", m_F27_Repo);
   ("F30_Repo", m_F30_Repo);
   ("F33_Repo", m_F33_Repo);
   ("RHEL7_Repo", m_RHEL7_Repo);
   ("RHEL8_Repo", m_RHEL8_Repo);
   ("F23_ReqPart", m_F23_ReqPart);
   ("RHEL7_ReqPart", m_RHEL7_ReqPart);
   ("F10_Rescue", m_F10_Rescue);
   ("RHEL8_RHSM", m_RHEL8_RHSM);
   ("FC3_RootPw", m_FC3_RootPw);
   ("F8_RootPw", m_F8_RootPw);
   ("F18_RootPw", m_F18_RootPw);
   ("FC3_SELinux", m_FC3_SELinux);
   ("FC6_Services", m_FC6_Services);
   ("FC3_SkipX", m_FC3_SkipX);
   ("F26_SnapshotData", m_F26_SnapshotData);
   ("F26_Snapshot", m_F26_Snapshot);
   ("F22_SshKeyData", m_F22_SshKeyData);
   ("F22_SshKey", m_F22_SshKey);
   ("F13_SshPwData", m_F13_SshPwData);
   ("F24_SshPwData", m_F24_SshPwData);
   ("F13_SshPw", m_F13_SshPw);
   ("F24_SshPw", m_F24_SshPw);
   ("RHEL8_Syspurpose", m_RHEL8_Syspurpose);
   ("F33_TimesourceData", m_F33_TimesourceData);
   ("F33_Timesource", m_F33_Timesource);
   ("FC3_Timezone", m_FC3_Timezone);
   ("FC6_Timezone", m_FC6_Timezone);
   ("F18_Timezone", m_F18_Timezone);
   ("F23_Timezone", m_F23_Timezone);
   ("RHEL7_Timezone", m_RHEL7_Timezone);
   ("F25_Timezone", m_F25_Timezone);
   ("F32_Timezone", m_F32_Timezone);
   ("F33_Timezone", m_F33_Timezone);
   ("RHEL6_UnsupportedHardware", m_RHEL6_UnsupportedHardware);
   ("F7_Updates", m_F7_Updates);
   ("F34_Updates", m_F34_Updates);
   ("FC3_Upgrade", m_FC3_Upgrade);
   ("F11_Upgrade", m_F11_Upgrade);
   ("F20_Upgrade", m_F20_Upgrade);
   ("F29_Upgrade", m_F29_Upgrade);
   ("FC3_Url", m_FC3_Url);
   ("F13_Url", m_F13_Url);
   ("F14_Url", m_F14_Url);
   ("RHEL6_Url", m_RHEL6_Url);
   ("F18_Url", m_F18_Url);
   ("F27_Url", m_F27_Url);
   ("F30_Url", m_F30_Url);
   ("RHEL8_Url", m_RHEL8_Url);
   ("FC6_UserData", m_FC6_UserData);
   ("F8_UserData", m_F8_UserData);
   ("F12_UserData", m_F12_UserData);
   ("F19_UserData", m_F19_UserData);
   ("FC6_User", m_FC6_User);
   ("F8_User", m_F8_User);
   ("F12_User", m_F12_User);
   ("F19_User", m_F19_User);
   ("F24_User", m_F24_User);
   ("FC3_Vnc", m_FC3_Vnc);
   ("FC6_Vnc", m_FC6_Vnc);
   ("F9_Vnc", m_F9_Vnc);
   ("FC3_VolGroupData", m_FC3_VolGroupData);
   ("F16_VolGroupData", m_F16_VolGroupData);
   ("F21_VolGroupData", m_F21_VolGroupData);
   ("RHEL7_VolGroupData", m_RHEL7_VolGroupData);
   ("RHEL8_VolGroupData", m_RHEL8_VolGroupData);
   ("FC3_VolGroup", m_FC3_VolGroup);
   ("F16_VolGroup", m_F16_VolGroup);
   ("F21_VolGroup", m_F21_VolGroup);
   ("RHEL7_VolGroup", m_RHEL7_VolGroup);
   ("RHEL8_VolGroup", m_RHEL8_VolGroup);
   ("FC3_XConfig", m_FC3_XConfig);
   ("FC6_XConfig", m_FC6_XConfig);
   ("F9_XConfig", m_F9_XConfig);
   ("F10_XConfig", m_F10_XConfig);
   ("F14_XConfig", m_F14_XConfig);
   ("FC3_ZeroMbr", m_FC3_ZeroMbr);
   ("F9_ZeroMbr", m_F9_ZeroMbr);
   ("FC3_ZFCPData", m_FC3_ZFCPData);
   ("F12_ZFCPData", m_F12_ZFCPData);
   ("F14_ZFCPData", m_F14_ZFCPData);
   ("FC3_ZFCP", m_FC3_ZFCP);
   ("F12_ZFCP", m_F12_ZFCP);
   ("F14_ZFCP", m_F14_ZFCP);
   ("F32_Zipl", m_F32_Zipl);
   ("RHEL8_Zipl", m_RHEL8_Zipl)].

(** removedAttrs, for the classes where it is not empty. *)
Definition removed_attrs : list (string * list string) :=
  [("FC4_Bootloader", ["linear"; "useLilo"]);
   ("F8_Bootloader", ["linear"; "useLilo"]);
   ("F12_Bootloader", ["linear"; "useLilo"]);
   ("F14_Bootloader", ["linear"; "useLilo"; "forceLBA"]);
   ("F15_Bootloader", ["linear"; "useLilo"; "forceLBA"]);
   ("F17_Bootloader", ["linear"; "useLilo"; "forceLBA"]);
   ("F18_Bootloader", ["linear"; "useLilo"; "forceLBA"]);
   ("RHEL5_Bootloader", ["linear"; "useLilo"]);
   ("RHEL6_Bootloader", ["linear"; "useLilo"]);
   ("F19_Bootloader", ["linear"; "useLilo"; "forceLBA"]);
   ("F21_Bootloader", ["linear"; "useLilo"; "forceLBA"]);
   ("RHEL7_Bootloader", ["linear"; "useLilo"; "forceLBA"]);
   ("F29_Bootloader", ["linear"; "useLilo"; "forceLBA"]);
   ("RHEL8_Bootloader", ["linear"; "useLilo"; "forceLBA"]);
   ("F34_Bootloader", ["linear"; "useLilo"; "forceLBA"]);
   ("F12_DriverDiskData", ["type"]);
   ("F14_DriverDiskData", ["type"]);
   ("F14_Firewall", ["telnet"]);
   ("F20_Firewall", ["telnet"]);
   ("F28_Firewall", ["telnet"]);
   ("F33_HardDrive", ["biospart"]);
   ("F9_LogVolData", ["bytesPerInode"]);
   ("F12_LogVolData", ["bytesPerInode"]);
   ("RHEL6_LogVolData", ["bytesPerInode"]);
   ("F14_LogVolData", ["bytesPerInode"]);
   ("F15_LogVolData", ["bytesPerInode"]);
   ("F17_LogVolData", ["bytesPerInode"]);
   ("F18_LogVolData", ["bytesPerInode"]);
   ("F20_LogVolData", ["bytesPerInode"]);
   ("F21_LogVolData", ["bytesPerInode"]);
   ("RHEL7_LogVolData", ["bytesPerInode"]);
   ("F23_LogVolData", ["bytesPerInode"]);
   ("F29_LogVolData", ["bytesPerInode"]);
   ("RHEL8_LogVolData", ["bytesPerInode"]);
   ("F9_PartData", ["bytesPerInode"]);
   ("F11_PartData", ["bytesPerInode"; "start"; "end"]);
   ("F12_PartData", ["bytesPerInode"; "start"; "end"]);
   ("RHEL6_PartData", ["bytesPerInode"; "start"; "end"]);
   ("F14_PartData", ["bytesPerInode"; "start"; "end"]);
   ("F17_PartData", ["bytesPerInode"; "start"; "end"]);
   ("F18_PartData", ["bytesPerInode"; "start"; "end"]);
   ("F23_PartData", ["bytesPerInode"; "start"; "end"]);
   ("RHEL7_PartData", ["bytesPerInode"; "start"; "end"]);
   ("F29_PartData", ["bytesPerInode"; "start"; "end"]);
   ("RHEL8_PartData", ["bytesPerInode"; "start"; "end"]);
   ("F9_RaidData", ["bytesPerInode"]);
   ("F12_RaidData", ["bytesPerInode"]);
   ("F13_RaidData", ["bytesPerInode"]);
   ("RHEL6_RaidData", ["bytesPerInode"]);
   ("F14_RaidData", ["bytesPerInode"]);
   ("F15_RaidData", ["bytesPerInode"]);
   ("F18_RaidData", ["bytesPerInode"]);
   ("F23_RaidData", ["bytesPerInode"]);
   ("F25_RaidData", ["bytesPerInode"]);
   ("RHEL7_RaidData", ["bytesPerInode"]);
   ("F29_RaidData", ["bytesPerInode"]);
   ("RHEL8_RaidData", ["bytesPerInode"]);
   ("FC6_Vnc", ["connect"]);
   ("F9_Vnc", ["connect"]);
   ("FC6_XConfig", ["card"; "hsync"; "monitor"; "noProbe"; "server"; "vsync"]);
   ("F9_XConfig", ["card"; "hsync"; "monitor"; "noProbe"; "server"; "vsync"]);
   ("F10_XConfig", ["card"; "hsync"; "monitor"; "noProbe"; "server"; "vsync"; "driver"; "resolution"; "videoRam"]);
   ("F14_XConfig", ["card"; "hsync"; "monitor"; "noProbe"; "server"; "vsync"; "driver"; "resolution"; "videoRam"]);
   ("F12_ZFCPData", ["scsiid"; "scsilun"]);
   ("F14_ZFCPData", ["scsiid"; "scsilun"]);
   ("F12_ZFCP", ["scsiid"; "scsilun"]);
   ("F14_ZFCP", ["scsiid"; "scsilun"])].

(** The classes whose dataList() is a list. *)
Definition list_classes : list string :=
  ["F17_BTRFS"; "F23_BTRFS"; "RHEL7_BTRFS"; "RHEL8_BTRFS"; "F8_Device"; "F24_Device"; "F34_Device"; "FC6_DmRaid"; "F24_DmRaid"; "F34_DmRaid"; "FC3_DriverDisk"; "FC4_DriverDisk"; "F12_DriverDisk"; "F14_DriverDisk"; "F12_Fcoe"; "F13_Fcoe"; "RHEL7_Fcoe"; "F28_Fcoe"; "RHEL8_Fcoe"; "F12_Group"; "FC6_Iscsi"; "F10_Iscsi"; "RHEL6_Iscsi"; "F17_Iscsi"; "FC3_LogVol"; "FC4_LogVol"; "RHEL5_LogVol"; "F9_LogVol"; "F12_LogVol"; "RHEL6_LogVol"; "F14_LogVol"; "F15_LogVol"; "F17_LogVol"; "F18_LogVol"; "F20_LogVol"; "F21_LogVol"; "RHEL7_LogVol"; "F23_LogVol"; "F29_LogVol"; "RHEL8_LogVol"; "F29_Module"; "RHEL8_Module"; "F31_Module"; "F27_Mount"; "FC3_Network"; "FC4_Network"; "FC6_Network"; "F8_Network"; "F9_Network"; "F16_Network"; "F18_Network"; "F19_Network"; "F20_Network"; "F21_Network"; "F22_Network"; "F24_Network"; "F25_Network"; "F27_Network"; "RHEL4_Network"; "RHEL5_Network"; "RHEL6_Network"; "RHEL7_Network"; "F28_Nvdimm"; "FC3_Partition"; "FC4_Partition"; "RHEL5_Partition"; "F9_Partition"; "F11_Partition"; "F12_Partition"; "RHEL6_Partition"; "F14_Partition"; "F17_Partition"; "F18_Partition"; "F20_Partition"; "F23_Partition"; "RHEL7_Partition"; "F29_Partition"; "RHEL8_Partition"; "F34_Partition"; "FC3_Raid"; "FC4_Raid"; "FC5_Raid"; "RHEL5_Raid"; "F7_Raid"; "F9_Raid"; "F12_Raid"; "F13_Raid"; "RHEL6_Raid"; "F14_Raid"; "F15_Raid"; "F18_Raid"; "F19_Raid"; "F20_Raid"; "F23_Raid"; "F25_Raid"; "RHEL7_Raid"; "F29_Raid"; "RHEL8_Raid"; "FC6_Repo"; "F8_Repo"; "F11_Repo"; "F13_Repo"; "F14_Repo"; "RHEL6_Repo"; "F15_Repo"; "F21_Repo"; "F27_Repo"; "F30_Repo"; "F33_Repo"; "RHEL7_Repo"; "RHEL8_Repo"; "F26_Snapshot"; "F22_SshKey"; "F13_SshPw"; "F24_SshPw"; "F33_Timesource"; "FC6_User"; "F8_User"; "F12_User"; "F19_User"; "F24_User"; "FC3_VolGroup"; "F16_VolGroup"; "F21_VolGroup"; "RHEL7_VolGroup"; "RHEL8_VolGroup"; "FC3_ZFCP"; "F12_ZFCP"; "F14_ZFCP"].
