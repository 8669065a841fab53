(** * Specification vocabulary for %packages headers (C26) *)

From Verif Require Export ArgSpec Sections SectSpec.
From Verif Require Import Value.
Local Open Scope string_scope.
Local Open Scope list_scope.

(** The options of the header: what follows their name, the first version that has
    them and the first later version that does not. *)
Inductive hkind := HFlag | HText | HNumber.
Definition header_options : list (string * (hkind * option Z * option Z)) :=
  [("--excludedocs",       (HFlag,   None,       None));
   ("--ignoremissing",     (HFlag,   None,       None));
   ("--ignoredeps",        (HFlag,   None,       Some F9));
   ("--resolvedeps",       (HFlag,   None,       Some F9));
   ("--default",           (HFlag,   Some F7,    None));
   ("--instLangs",         (HText,   Some F9,    None));
   ("--inst-langs",        (HText,   Some F9,    None));
   ("--nobase",            (HFlag,   Some RHEL6, Some F22));
   ("--multilib",          (HFlag,   Some F18,   None));
   ("--nocore",            (HFlag,   Some F21,   None));
   ("--timeout",           (HNumber, Some RHEL7, None));
   ("--retries",           (HNumber, Some RHEL7, None));
   ("--excludeWeakdeps",   (HFlag,   Some F24,   None));
   ("--exclude-weakdeps",  (HFlag,   Some F24,   None));
   ("--ignorebroken",      (HFlag,   Some F32,   None))].

Definition within (ver : Z) (since until : option Z) : bool :=
  match since with Some v => (v <=? ver)%Z | None => true end &&
  match until with Some v => (ver <? v)%Z | None => true end.
Definition defined_in (ver : Z) (w : oword) : bool :=
  match assoc (name w) header_options with
  | Some (_, since, until) => within ver since until
  | None => false
  end.

(** A word of a header: one of the options, in full and with its value attached. *)
Definition proper_word (w : oword) : bool :=
  match assoc (name w) header_options, w with
  | Some (HFlag, _, _), OFlag _ => true
  | Some (HText, _, _), OVal _ v => negb (has_char SP v)
  | Some (HNumber, _, _), OVal _ v =>
      negb (has_char SP v) && match py_int v with Some _ => true | None => false end
  | _, _ => false
  end.

Definition contradictory (ws : list oword) : bool :=
  has_flag "--default" ws && (has_flag "--nobase" ws || has_flag "--nocore" ws).

(** The selection after an accepted header: what the version does not know stays as
    it was, and so do --default and the languages if they are not given. *)
Definition number (o : option string) : option Z := match o with Some s => py_int s | None => None end.
Definition header_effect (ver : Z) (ws : list oword) (p : packages) : packages :=
  let from v new old := if (v <=? ver)%Z then new else old : bool in
  mkPackages
    (from RHEL6 (negb (has_flag "--nobase" ws)) (pk_addBase p))
    (from F21 (has_flag "--nocore" ws) (pk_nocore p))
    (has_flag "--default" ws || pk_default p)
    (pk_environment p) (pk_excludedList p) (pk_excludedGroupList p)
    (has_flag "--excludedocs" ws)
    (pk_groupList p)
    (has_flag "--ignoremissing" ws)
    (from F32 (has_flag "--ignorebroken" ws) (pk_handleBroken p))
    (pk_packageList p)
    (match last_given ["--instLangs"; "--inst-langs"] ws with Some l => Some l | None => pk_instLangs p end)
    (from F18 (has_flag "--multilib" ws) (pk_multiLib p))
    (from F24 (has_flag "--excludeWeakdeps" ws || has_flag "--exclude-weakdeps" ws) (pk_excludeWeakdeps p))
    (if (RHEL7 <=? ver)%Z then number (last_given ["--timeout"] ws) else pk_timeout p)
    (if (RHEL7 <=? ver)%Z then number (last_given ["--retries"] ws) else pk_retries p)
    true.
