(** * C38: lines that are accepted and written in a way that reads back as something else *)

From Verif Require Import Shlex HandlerFacts ClassModel PropsHandler PyClass PropsNamed.
From Verif Require Import Value.
Local Open Scope string_scope.
Local Open Scope list_scope.

(** ** Specification *)

(** In version [v] the line of the words [ws], read first, is accepted and the command is then
    written as [t]; or it is refused. *)
Definition accepted_text (v : Z) (ws : list string) (t : string) : Prop :=
  match ws with n :: _ => texts_after v [ws] n = Some ([true], Some t) | [] => False end.
Definition refused (v : Z) (ws : list string) : Prop :=
  match ws with n :: _ => exists t, texts_after v [ws] n = Some ([false], t) | [] => False end.

(** ** Quotes (commands/sshkey.py, commands/mount.py, commands/keyboard.py) *)

(** An ssh key with quotes in it, as in [command="x" ssh-rsa k], is accepted and written
    inside further quotes, and what is read back is another key: the quotes are gone. *)
Theorem C38_sshkey_refuted :
  shlex_split true "sshkey --username=a 'command=""x"" ssh-rsa k'" = Ok ["sshkey"; "--username=a"; "command=""x"" ssh-rsa k"] /\
  accepted_text F34 ["sshkey"; "--username=a"; "command=""x"" ssh-rsa k"] ("sshkey --username=a ""command=""x"" ssh-rsa k""" ++ nl)%string /\
  shlex_split true "sshkey --username=a ""command=""x"" ssh-rsa k""" = Ok ["sshkey"; "--username=a"; "command=x ssh-rsa k"] /\
  accepted_text F34 ["sshkey"; "--username=a"; "command=x ssh-rsa k"] ("sshkey --username=a ""command=x ssh-rsa k""" ++ nl)%string.
Proof. repeat split; vm_compute; reflexivity. Qed.
Print Assumptions C38_sshkey_refuted.

(** A mount point with a blank is accepted in quotes and written without them; the written
    line is refused. *)
Theorem C38_mount_refuted :
  shlex_split true "mount /dev/sda '/a b'" = Ok ["mount"; "/dev/sda"; "/a b"] /\
  accepted_text F34 ["mount"; "/dev/sda"; "/a b"] ("# Mount points configuration" ++ nl ++ "mount /dev/sda /a b" ++ nl ++ nl)%string /\
  shlex_split true "mount /dev/sda /a b" = Ok ["mount"; "/dev/sda"; "/a"; "b"] /\
  refused F34 ["mount"; "/dev/sda"; "/a"; "b"].
Proof. repeat split; try (vm_compute; reflexivity). eexists. vm_compute. reflexivity. Qed.
Print Assumptions C38_mount_refuted.

(** A keyboard with a single quote is written between single quotes; the written line cannot
    be split into words. *)
Theorem C38_keyboard_refuted :
  shlex_split true "keyboard ""it's""" = Ok ["keyboard"; "it's"] /\
  accepted_text F34 ["keyboard"; "it's"] ("# Keyboard layouts" ++ nl ++ "keyboard 'it's'" ++ nl)%string /\
  (forall ws, shlex_split true "keyboard 'it's'" <> Ok ws).
Proof. split; [vm_compute; reflexivity|]. split; [vm_compute; reflexivity|]. intros ws. vm_compute. discriminate. Qed.
Print Assumptions C38_keyboard_refuted.

(** ** Zero (commands/repo.py, commands/volgroup.py, commands/partition.py) *)

(** A number that is zero is not written, and what is read back does not give it. *)
Theorem C38_zero_refuted :
  accepted_text F34 ["repo"; "--name=a"; "--baseurl=b"; "--cost=0"] ("repo --name=""a"" --baseurl=b" ++ nl)%string /\
  accepted_text F34 ["volgroup"; "v"; "pv.1"; "--reserved-space=0"] ("volgroup v pv.1" ++ nl)%string /\
  accepted_text F34 ["part"; "/"; "--size=0"] ("# Disk partitioning information" ++ nl ++ "part /" ++ nl)%string.
Proof. repeat split; vm_compute; reflexivity. Qed.
Print Assumptions C38_zero_refuted.

(** ** An option that is written though it was not given (commands/logvol.py) *)

(** --noformat is written together with --useexisting. *)
Theorem C38_noformat_refuted :
  accepted_text F34 ["logvol"; "/"; "--name=a"; "--vgname=b"; "--size=1"; "--noformat"]
    ("logvol / --noformat --size=1 --useexisting --name=a --vgname=b" ++ nl)%string.
Proof. vm_compute. reflexivity. Qed.
Print Assumptions C38_noformat_refuted.
