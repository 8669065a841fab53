(** * Group and Packages of pykickstart/parser.py:265-514 *)

From Verif Require Export ArgDecl Version.
From Verif Require Import Value.
Local Open Scope string_scope.
Local Open Scope list_scope.

(** constants.py: GROUP_REQUIRED, GROUP_DEFAULT, GROUP_ALL. *)
Inductive ginclude := GRequired | GDefault | GAll.

(** parser.py:268-282 (Group.__init__). *)
Record group := mkGroup { g_name : string; g_include : ginclude }.

(** parser.py:284-291 (Group.__str__). *)
Definition group_str (g : group) : string :=
  match g_include g with
  | GRequired => "@" ++ g_name g ++ " --nodefaults"
  | GAll => "@" ++ g_name g ++ " --optional"
  | GDefault => "@" ++ g_name g
  end.

(** list.sort on groups (parser.py:293-309, comparison by name): stable. *)
Fixpoint insert_group (g : group) (l : list group) : list group :=
  match l with
  | [] => [g]
  | h :: r => if str_leb (g_name g) (g_name h) then g :: l else h :: insert_group g r
  end.
Definition sort_groups (l : list group) : list group := fold_right insert_group [] l.

(** parser.py:312-373 (Packages.__init__).  [handleMissing]/[handleBroken] are true
    for KS_MISSING_IGNORE/KS_BROKEN_IGNORE. *)
Record packages := mkPackages {
  pk_addBase : bool; pk_nocore : bool; pk_default : bool;
  pk_environment : option string;
  pk_excludedList : list string; pk_excludedGroupList : list group;
  pk_excludeDocs : bool; pk_groupList : list group;
  pk_handleMissing : bool; pk_handleBroken : bool;
  pk_packageList : list string; pk_instLangs : option string;
  pk_multiLib : bool; pk_excludeWeakdeps : bool;
  pk_timeout : option Z; pk_retries : option Z; pk_seen : bool }.

Definition new_packages : packages :=
  mkPackages true false false None [] [] false [] false false [] None false false None None false.

Definition set_environment (e : option string) (p : packages) : packages :=
  mkPackages (pk_addBase p) (pk_nocore p) (pk_default p) e (pk_excludedList p)
    (pk_excludedGroupList p) (pk_excludeDocs p) (pk_groupList p) (pk_handleMissing p)
    (pk_handleBroken p) (pk_packageList p) (pk_instLangs p) (pk_multiLib p)
    (pk_excludeWeakdeps p) (pk_timeout p) (pk_retries p) (pk_seen p).
Definition set_groups (g : list group) (p : packages) : packages :=
  mkPackages (pk_addBase p) (pk_nocore p) (pk_default p) (pk_environment p) (pk_excludedList p)
    (pk_excludedGroupList p) (pk_excludeDocs p) g (pk_handleMissing p)
    (pk_handleBroken p) (pk_packageList p) (pk_instLangs p) (pk_multiLib p)
    (pk_excludeWeakdeps p) (pk_timeout p) (pk_retries p) (pk_seen p).
Definition set_lists (pkgs excl : list string) (grps exclg : list group) (p : packages) : packages :=
  mkPackages (pk_addBase p) (pk_nocore p) (pk_default p) (pk_environment p) excl
    exclg (pk_excludeDocs p) grps (pk_handleMissing p)
    (pk_handleBroken p) pkgs (pk_instLangs p) (pk_multiLib p)
    (pk_excludeWeakdeps p) (pk_timeout p) (pk_retries p) (pk_seen p).

(** parser.py:411-438 (_processPackagesContent).  The lists are sorted in place,
    see [sorted_lists]. *)
Definition packages_content (p : packages) : string :=
  ((if pk_default p then ""
    else match pk_environment p with
         | Some (String c e) => "@^" ++ String c e ++ nl
         | _ => ""
         end)
   ++ concat_all (map (fun g => group_str g ++ nl) (sort_groups (pk_groupList p)))
   ++ concat_all (map (fun s => s ++ nl) (sort_str (pk_packageList p)))
   ++ concat_all (map (fun g => "-" ++ group_str g ++ nl) (sort_groups (pk_excludedGroupList p)))
   ++ concat_all (map (fun s => "-" ++ s ++ nl) (sort_str (pk_excludedList p))))%string.

(** The effect of _processPackagesContent on the object. *)
Definition sorted_lists (p : packages) : packages :=
  set_lists (sort_str (pk_packageList p)) (sort_str (pk_excludedList p))
    (sort_groups (pk_groupList p)) (sort_groups (pk_excludedGroupList p)) p.

(** The option part of parser.py:375-409 (Packages.__str__). *)
Definition packages_options (p : packages) : string :=
  ((if pk_default p then " --default" else "")
   ++ (if pk_excludeDocs p then " --excludedocs" else "")
   ++ (if pk_addBase p then "" else " --nobase")
   ++ (if pk_nocore p then " --nocore" else "")
   ++ (if pk_handleMissing p then " --ignoremissing" else "")
   ++ (if pk_handleBroken p then " --ignorebroken" else "")
   ++ (match pk_instLangs p with Some l => " --inst-langs=" ++ l | None => "" end)
   ++ (if pk_multiLib p then " --multilib" else "")
   ++ (if pk_excludeWeakdeps p then " --exclude-weakdeps" else "")
   ++ (match pk_timeout p with Some n => " --timeout=" ++ str_of_Z n | None => "" end)
   ++ (match pk_retries p with Some n => " --retries=" ++ str_of_Z n | None => "" end))%string.

(** parser.py:375-409 (Packages.__str__); [ver] is the class attribute _ver. *)
Definition packages_str (ver : Z) (p : packages) : string :=
  let opts := packages_options p in
  let pkgs := packages_content p in
  if String.eqb opts "" && String.eqb pkgs "" && negb (pk_seen p) then ""
  else if (F8 <=? ver)%Z then (nl ++ "%packages" ++ opts ++ nl ++ pkgs ++ nl ++ "%end" ++ nl)%string
  else (nl ++ "%packages" ++ opts ++ nl ++ pkgs ++ nl)%string.

(** The parser of parser.py:441-445. *)
Definition group_parser : parser :=
  build [OpAdd (flag ["--nodefaults"] "nodefaults" (VBool false));
         OpAdd (flag ["--optional"] "optional" (VBool false))].

(** parser.py:440-464 (_processGroup). *)
Definition process_group (line : string) (p : packages) : res packages :=
  do r <- parse_known_args group_parser None (split_ws line) ;;
  let (ns, extra) := r : attrs * list string in
  let nodefaults := truthy (get "nodefaults" ns) in
  let optional := truthy (get "optional" ns) in
  if nodefaults && optional then Err (KSParseError None "group-both")
  else
    let grp := join " " extra in
    if existsb (fun g => String.eqb grp (g_name g)) (pk_groupList p) then Ok p
    else Ok (set_groups (pk_groupList p ++
              [mkGroup grp (if nodefaults then GRequired else if optional then GAll else GDefault)]) p).

(** The loop of parser.py:481-498: the lines already seen have changed the
    environment and the groups, and are collected in the three sets.  On failure
    the object keeps those changes. *)
Record addacc := mkAcc { ac_pk : packages; ac_newEx : list string; ac_newPk : list string;
                         ac_exGrp : list group }.
Definition add_line (pkg : string) (a : addacc) : res addacc :=
  let s := strip pkg in
  let p := ac_pk a in
  if startswith s "@^" then
    Ok (mkAcc (set_environment (Some (drop 2 s)) p) (ac_newEx a) (ac_newPk a) (ac_exGrp a))
  else match s with
  | "" => Err IndexError
  | String c r =>
      if Ascii.eqb c "@" then
        do p' <- process_group r p ;; Ok (mkAcc p' (ac_newEx a) (ac_newPk a) (ac_exGrp a))
      else if Ascii.eqb c "-" then
        if startswith r "@^" && match pk_environment p with
                                | Some e => String.eqb e (drop 2 r) | None => false end then
          Ok (mkAcc (set_environment None p) (ac_newEx a) (ac_newPk a) (ac_exGrp a))
        else match r with
        | "" => Err IndexError
        | String d r' =>
            if Ascii.eqb d "@" then
              Ok (mkAcc p (ac_newEx a) (ac_newPk a) (ac_exGrp a ++ [mkGroup r' GDefault]))
            else Ok (mkAcc p (ac_newEx a ++ [r]) (ac_newPk a) (ac_exGrp a))
        end
      else Ok (mkAcc p (ac_newEx a) (ac_newPk a ++ [s]) (ac_exGrp a))
  end.
Fixpoint add_lines (pkgs : list string) (a : addacc) : addacc * option exn :=
  match pkgs with
  | [] => (a, None)
  | l :: r => match add_line l a with
              | Ok a' => add_lines r a'
              | Err e => (a, Some e)
              end
  end.

(** Sets of strings as duplicate-free lists; [sorted(set)]. *)
Definition set_minus (l m : list string) : list string := filter (fun x => negb (mem x m)) l.
Definition sorted_set (l : list string) : list string := sort_str (nodup string_dec l).

(** parser.py:466-514 (add): the object afterwards, and the exception raised, if
    any. *)
Definition packages_add (pkgList : list string) (p : packages) : packages * option exn :=
  let '(a, e) := add_lines pkgList (mkAcc p [] [] []) in
  match e with
  | Some _ => (ac_pk a, e)
  | None =>
      let p1 := ac_pk a in
      let exNames := map g_name (ac_exGrp a) in
      let pset := set_minus (pk_packageList p) (ac_newEx a) ++ ac_newPk a in
      let eset := set_minus (pk_excludedList p) pset ++ ac_newEx a in
      (set_lists (sorted_set pset) (sorted_set eset)
         (filter (fun g => negb (mem (g_name g) exNames)) (pk_groupList p1))
         (pk_excludedGroupList p1 ++ ac_exGrp a) p1, None)
  end.
