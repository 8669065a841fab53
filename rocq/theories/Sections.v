(** * Script of pykickstart/parser.py and the section classes of
    pykickstart/sections.py

    The parts of the handler that sections work on are its list of scripts, its
    package selection and the strings of ignored sections; commands do not touch
    them.  Warnings are not modelled. *)

From Verif Require Export Packages Shlex.
From Verif Require Import Value.
Local Open Scope string_scope.
Local Open Scope list_scope.

(** ** Scripts *)

(** constants.py: KS_SCRIPT_PRE, KS_SCRIPT_POST, KS_SCRIPT_TRACEBACK,
    KS_SCRIPT_PREINSTALL, KS_SCRIPT_ONERROR. *)
Inductive skind := Pre | Post | Traceback | PreInstall | OnError.

(** parser.py:199-232 (Script.__init__). *)
Record script := mkScript {
  sc_script : string; sc_interp : string; sc_inChroot : bool; sc_lineno : option N;
  sc_logfile : option string; sc_errorOnFail : bool; sc_type : skind }.

(** The section names (sections.py:223, 298, 313, 383, 414). *)
Definition kind_name (k : skind) : string :=
  match k with
  | Pre => "%pre" | Post => "%post" | Traceback => "%traceback"
  | PreInstall => "%pre-install" | OnError => "%onerror"
  end.
Definition is_post (k : skind) : bool := match k with Post => true | _ => false end.

(** parser.py:236-254: the header line of Script.__str__. *)
Definition script_header (s : script) : string :=
  (nl ++ kind_name (sc_type s)
   ++ (if negb (String.eqb (sc_interp s) "/bin/sh") && negb (String.eqb (sc_interp s) "")
       then " --interpreter=" ++ sc_interp s else "")
   ++ (if is_post (sc_type s) && negb (sc_inChroot s) then " --nochroot" else "")
   ++ (match sc_logfile s with Some f => " --logfile=" ++ f | None => "" end)
   ++ (if sc_errorOnFail s then " --erroronfail" else ""))%string.

(** parser.py:234-265 (Script.__str__); [ver] is the class attribute _ver. *)
Definition script_str (ver : Z) (s : script) : string :=
  (script_header s ++ nl ++ sc_script s
   ++ (if ends_with_char LF (sc_script s) then "" else nl)
   ++ (if (F8 <=? ver)%Z then "%end" ++ nl else ""))%string.

(** ** Script sections *)

(** The dictionary self._script without its constant type entry
    (sections.py:182-184). *)
Record scriptacc := mkSacc {
  sa_interp : string; sa_log : option string; sa_errorOnFail : bool;
  sa_lineno : option N; sa_chroot : bool; sa_body : list string }.

(** sections.py:182-184, 293-295, 308-310, 377-380, 409-411, 435-437
    (_resetScript). *)
Definition reset_script (k : skind) : scriptacc :=
  mkSacc "/bin/sh" None false None (is_post k) [].

(** sections.py:158-180 and 369-375 (_getParser). *)
Definition script_table (k : skind) : list tableop :=
  [OpAdd (flag ["--erroronfail"] "errorOnFail" (VBool false));
   OpAdd (stored ["--interpreter"] "interpreter" TStr (VStr "/bin/sh"));
   OpAdd (stored ["--log"; "--logfile"] "log" TStr VNone)]
  ++ (if is_post k then [OpAdd (flag ["--nochroot"] "nochroot" (VBool false))] else []).
Definition script_parser (k : skind) : parser := build (script_table k).

(** Attributes with a known type: the option is a string option ... *)
Definition str_attr (n : string) (ns : attrs) : string :=
  match get n ns with VStr s => s | _ => "" end.
(** ... a string option without default ... *)
Definition opt_attr (n : string) (ns : attrs) : option string :=
  match get n ns with VStr s => Some s | _ => None end.
(** ... an int option without default. *)
Definition int_attr (n : string) (ns : attrs) : option Z :=
  match get n ns with VInt z => Some z | _ => None end.

(** sections.py:205-220 (ScriptSection.handleHeader); what 439-448 adds is a
    warning. *)
Definition script_handleHeader (k : skind) (lineno : N) (args : list string) (a : scriptacc)
  : scriptacc * option exn :=
  match parse_args (script_parser k) (Some lineno) (tl args) with
  | Err e => (a, Some e)
  | Ok ns =>
      (mkSacc (str_attr "interpreter" ns) (opt_attr "log" ns) (truthy (get "errorOnFail" ns))
         (Some lineno)
         (if has_key "nochroot" ns then negb (truthy (get "nochroot" ns)) else sa_chroot a)
         (sa_body a), None)
  end.

(** sections.py:186-187 (handleLine). *)
Definition script_handleLine (line : string) (a : scriptacc) : scriptacc :=
  mkSacc (sa_interp a) (sa_log a) (sa_errorOnFail a) (sa_lineno a) (sa_chroot a)
    (sa_body a ++ [line]).

(** sections.py:189-203 (finalize): the accumulator afterwards and the script
    made, if any.  (dataObj is Script for all sections of setupSections.) *)
Definition script_finalize (k : skind) (a : scriptacc) : scriptacc * option script :=
  if String.eqb (strip (join " " (sa_body a))) "" then (a, None)
  else (reset_script k,
        Some (mkScript (concat_all (sa_body a)) (sa_interp a) (sa_chroot a) (sa_lineno a)
                (sa_log a) (sa_errorOnFail a) k)).

(** ** %packages *)

(** sections.py:454-457 (PackageSection.handleLine). *)
Definition packages_handleLine (line : string) (p : packages) : packages * option exn :=
  packages_add [rstrip (fst (fst (partition_char HASH line)))] p.

(** sections.py:594-712 (_getParser). *)
Definition packages_table (ver : Z) : list tableop :=
  [OpAdd (flag ["--excludedocs"] "excludedocs" (VBool false));
   OpAdd (flag ["--ignoremissing"] "ignoremissing" (VBool false));
   OpAdd (deprecate (flag_off ["--ignoredeps"] "resolveDeps" (VBool true)));
   OpAdd (deprecate (flag ["--resolvedeps"] "resolveDeps" (VBool false)))] ++
  if (ver <? F7)%Z then [] else
  [OpAdd (flag ["--default"] "defaultPackages" (VBool false))] ++
  if (ver <? F9)%Z then [] else
  [OpRemove "--ignoredeps"; OpRemove "--resolvedeps";
   OpAdd (stored ["--instLangs"; "--inst-langs"] "instLangs" TStr VNone)] ++
  if (ver <? RHEL6)%Z then [] else
  [OpAdd (flag ["--nobase"] "nobase" (VBool false))] ++
  if (ver <? F18)%Z then [] else
  [OpAdd (deprecate (flag ["--nobase"] "nobase" (VBool false)));
   OpAdd (flag ["--multilib"] "multiLib" (VBool false))] ++
  if (ver <? F21)%Z then [] else
  [OpAdd (flag ["--nocore"] "nocore" (VBool false))] ++
  if (ver <? RHEL7)%Z then [] else
  [OpAdd (stored ["--timeout"] "timeout" TInt VNone);
   OpAdd (stored ["--retries"] "retries" TInt VNone)] ++
  if (ver <? F22)%Z then [] else
  [OpRemove "--nobase"] ++
  if (ver <? F24)%Z then [] else
  [OpAdd (flag ["--excludeWeakdeps"; "--exclude-weakdeps"] "excludeWeakdeps" (VBool false))] ++
  if (ver <? F32)%Z then [] else
  [OpAdd (flag ["--ignorebroken"] "ignorebroken" (VBool false))].
Definition packages_parser (ver : Z) : parser := build (packages_table ver).

Definition set_seen_docs_missing (d m : bool) (p : packages) : packages :=
  mkPackages (pk_addBase p) (pk_nocore p) (pk_default p) (pk_environment p) (pk_excludedList p)
    (pk_excludedGroupList p) d (pk_groupList p) m
    (pk_handleBroken p) (pk_packageList p) (pk_instLangs p) (pk_multiLib p)
    (pk_excludeWeakdeps p) (pk_timeout p) (pk_retries p) true.
Definition set_default (b : bool) (p : packages) : packages :=
  mkPackages (pk_addBase p) (pk_nocore p) b (pk_environment p) (pk_excludedList p)
    (pk_excludedGroupList p) (pk_excludeDocs p) (pk_groupList p) (pk_handleMissing p)
    (pk_handleBroken p) (pk_packageList p) (pk_instLangs p) (pk_multiLib p)
    (pk_excludeWeakdeps p) (pk_timeout p) (pk_retries p) (pk_seen p).
Definition set_instLangs (l : option string) (p : packages) : packages :=
  mkPackages (pk_addBase p) (pk_nocore p) (pk_default p) (pk_environment p) (pk_excludedList p)
    (pk_excludedGroupList p) (pk_excludeDocs p) (pk_groupList p) (pk_handleMissing p)
    (pk_handleBroken p) (pk_packageList p) l (pk_multiLib p)
    (pk_excludeWeakdeps p) (pk_timeout p) (pk_retries p) (pk_seen p).
Definition set_addBase (b : bool) (p : packages) : packages :=
  mkPackages b (pk_nocore p) (pk_default p) (pk_environment p) (pk_excludedList p)
    (pk_excludedGroupList p) (pk_excludeDocs p) (pk_groupList p) (pk_handleMissing p)
    (pk_handleBroken p) (pk_packageList p) (pk_instLangs p) (pk_multiLib p)
    (pk_excludeWeakdeps p) (pk_timeout p) (pk_retries p) (pk_seen p).
Definition set_multiLib (b : bool) (p : packages) : packages :=
  mkPackages (pk_addBase p) (pk_nocore p) (pk_default p) (pk_environment p) (pk_excludedList p)
    (pk_excludedGroupList p) (pk_excludeDocs p) (pk_groupList p) (pk_handleMissing p)
    (pk_handleBroken p) (pk_packageList p) (pk_instLangs p) b
    (pk_excludeWeakdeps p) (pk_timeout p) (pk_retries p) (pk_seen p).
Definition set_nocore (b : bool) (p : packages) : packages :=
  mkPackages (pk_addBase p) b (pk_default p) (pk_environment p) (pk_excludedList p)
    (pk_excludedGroupList p) (pk_excludeDocs p) (pk_groupList p) (pk_handleMissing p)
    (pk_handleBroken p) (pk_packageList p) (pk_instLangs p) (pk_multiLib p)
    (pk_excludeWeakdeps p) (pk_timeout p) (pk_retries p) (pk_seen p).
Definition set_tries (t r : option Z) (p : packages) : packages :=
  mkPackages (pk_addBase p) (pk_nocore p) (pk_default p) (pk_environment p) (pk_excludedList p)
    (pk_excludedGroupList p) (pk_excludeDocs p) (pk_groupList p) (pk_handleMissing p)
    (pk_handleBroken p) (pk_packageList p) (pk_instLangs p) (pk_multiLib p)
    (pk_excludeWeakdeps p) t r (pk_seen p).
Definition set_excludeWeakdeps (b : bool) (p : packages) : packages :=
  mkPackages (pk_addBase p) (pk_nocore p) (pk_default p) (pk_environment p) (pk_excludedList p)
    (pk_excludedGroupList p) (pk_excludeDocs p) (pk_groupList p) (pk_handleMissing p)
    (pk_handleBroken p) (pk_packageList p) (pk_instLangs p) (pk_multiLib p)
    b (pk_timeout p) (pk_retries p) (pk_seen p).
Definition set_handleBroken (b : bool) (p : packages) : packages :=
  mkPackages (pk_addBase p) (pk_nocore p) (pk_default p) (pk_environment p) (pk_excludedList p)
    (pk_excludedGroupList p) (pk_excludeDocs p) (pk_groupList p) (pk_handleMissing p)
    b (pk_packageList p) (pk_instLangs p) (pk_multiLib p)
    (pk_excludeWeakdeps p) (pk_timeout p) (pk_retries p) (pk_seen p).

(** sections.py:720-789 (handleHeader after the parsing): the selection keeps what
    was set before an error. *)
Definition packages_header (ver : Z) (lineno : N) (ns : attrs) (p : packages)
  : packages * option exn :=
  let on n := truthy (get n ns) in
  let p := set_seen_docs_missing (on "excludedocs") (on "ignoremissing") p in
  if (ver <? F7)%Z then (p, None) else
  let p := if on "defaultPackages" then set_default true p else p in
  if (ver <? F9)%Z then (p, None) else
  let p := match get "instLangs" ns with VNone => p | _ => set_instLangs (opt_attr "instLangs" ns) p end in
  if (ver <? RHEL6)%Z then (p, None) else
  if on "defaultPackages" && on "nobase" then (p, Some (KSParseError (Some lineno) "default-nobase")) else
  let p := set_addBase (negb (on "nobase")) p in
  if (ver <? F18)%Z then (p, None) else
  let p := set_multiLib (on "multiLib") p in
  if (ver <? F21)%Z then (p, None) else
  if on "defaultPackages" && on "nocore" then (p, Some (KSParseError (Some lineno) "default-nocore")) else
  let p := set_nocore (on "nocore") p in
  if (ver <? RHEL7)%Z then (p, None) else
  let p := set_tries (int_attr "timeout" ns) (int_attr "retries" ns) p in
  if (ver <? F24)%Z then (p, None) else
  let p := set_excludeWeakdeps (on "excludeWeakdeps") p in
  if (ver <? F32)%Z then (p, None) else
  (set_handleBroken (on "ignorebroken") p, None).

(** sections.py:714-789 (PackageSection.handleHeader). *)
Definition packages_handleHeader (ver : Z) (lineno : N) (args : list string) (p : packages)
  : packages * option exn :=
  match parse_args (packages_parser ver) (Some lineno) (tl args) with
  | Err e => (p, Some e)
  | Ok ns => packages_header ver lineno ns p
  end.

(** ** Section objects *)

(** The section classes with their own state: script sections, %packages, and
    sections that are recognised and kept as text (sections.py:111-145). *)
Inductive secobj :=
| SScript (k : skind) (times : N) (a : scriptacc)
| SPackages (times : N)
| SNull (args body : list string).

(** What the sections change in the handler. *)
Record sechandler := mkSH { sh_scripts : list script; sh_packages : packages; sh_nulls : list string }.

(** The class attribute allLines (sections.py:57, 117, 148). *)
Definition allLines (o : secobj) : bool :=
  match o with SPackages _ => false | _ => true end.

(** handleHeader (sections.py:91-100, 129-130, 205-220, 714-789). *)
Definition sec_handleHeader (ver : Z) (lineno : N) (args : list string) (o : secobj) (h : sechandler)
  : secobj * sechandler * option exn :=
  match o with
  | SScript k t a =>
      let '(a', e) := script_handleHeader k lineno args a in (SScript k (t + 1) a', h, e)
  | SPackages t =>
      let '(p', e) := packages_handleHeader ver lineno args (sh_packages h) in
      (SPackages (t + 1), mkSH (sh_scripts h) p' (sh_nulls h), e)
  | SNull _ b => (SNull args b, h, None)
  end.

(** handleLine (sections.py:132-133, 186-187, 454-457). *)
Definition sec_handleLine (line : string) (o : secobj) (h : sechandler)
  : secobj * sechandler * option exn :=
  match o with
  | SScript k t a => (SScript k t (script_handleLine line a), h, None)
  | SPackages t =>
      let '(p', e) := packages_handleLine line (sh_packages h) in
      (o, mkSH (sh_scripts h) p' (sh_nulls h), e)
  | SNull a b => (SNull a (b ++ [line]), h, None)
  end.

(** The text NullSection.finalize keeps (sections.py:136-140). *)
Definition null_text (args body : list string) : string :=
  let b := join nl body in
  if String.eqb b "" then (join " " args ++ nl ++ "%end")%string
  else (join " " args ++ nl ++ b ++ nl ++ "%end")%string.

(** finalize (sections.py:75-78, 135-145, 189-203). *)
Definition sec_finalize (o : secobj) (h : sechandler) : secobj * sechandler :=
  match o with
  | SScript k t a =>
      let '(a', s) := script_finalize k a in
      (SScript k t a',
       mkSH (sh_scripts h ++ match s with Some s => [s] | None => [] end) (sh_packages h) (sh_nulls h))
  | SPackages _ => (o, h)
  | SNull a b => (SNull [] [], mkSH (sh_scripts h) (sh_packages h) (sh_nulls h ++ [null_text a b]))
  end.

(** parser.py:830-848 (setupSections): registered names and objects. *)
Definition setup_sections : list (string * secobj) :=
  map (fun k => (kind_name k, SScript k 0 (reset_script k))) [Pre; PreInstall; Post; OnError; Traceback]
  ++ [("%packages", SPackages 0); ("%addon", SNull [] []); ("%anaconda", SNull [] [])].
