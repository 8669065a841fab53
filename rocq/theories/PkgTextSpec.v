(** * Specification vocabulary for written package selections (C25) *)

From Verif Require Export PkgSpec PkgHeadSpec.
From Verif Require Import Value.
Local Open Scope string_scope.
Local Open Scope list_scope.

(** A line of a %packages section, without its newline: no blanks at the ends, no
    number sign, one line, and not the marker of a section. *)
Definition clean (l : string) : bool :=
  negb (String.eqb l "") && String.eqb (strip l) l && negb (has_char HASH l) &&
  all_chars (fun c => negb (is_linebreak c)) l && negb (startswith l "%").

Definition package_name (x : string) : bool :=
  clean x && negb (startswith x "@") && negb (startswith x "-").
Definition excluded_name (x : string) : bool :=
  clean ("-" ++ x) && negb (String.eqb x "") && negb (startswith x "@").
(** Group names are words separated by single blanks; a caret would make it an
    environment, and words with a dash look like options. *)
Definition group_name (g : string) : bool :=
  clean ("@" ++ g) && no_caret g && String.eqb (join " " (split_ws g)) g &&
  forallb (fun w => negb (startswith w "-")) (split_ws g).
Definition excluded_group_name (g : string) : bool := clean ("-@" ++ g).
Definition environment_name (e : string) : bool := clean ("@^" ++ e) && negb (String.eqb e "").

Definition is_some {A} (o : option A) : bool := match o with Some _ => true | None => false end.

(** The settings of a selection that a version's header can express. *)
Definition fits (ver : Z) (p : packages) : Prop :=
  (pk_default p = true -> (F7 <= ver)%Z /\ pk_addBase p = true /\ pk_nocore p = false /\ pk_environment p = None) /\
  (pk_addBase p = false -> (RHEL6 <= ver < F22)%Z) /\
  (pk_nocore p = true -> (F21 <= ver)%Z) /\
  (pk_handleBroken p = true -> (F32 <= ver)%Z) /\
  (pk_multiLib p = true -> (F18 <= ver)%Z) /\
  (pk_excludeWeakdeps p = true -> (F24 <= ver)%Z) /\
  (pk_timeout p <> None \/ pk_retries p <> None -> (RHEL7 <= ver)%Z) /\
  (forall l, pk_instLangs p = Some l -> (F9 <= ver)%Z /\ plain_text l = true).

(** The lists of a selection as they come out of the parser: proper names, no
    duplicates, no package selected and excluded ... *)
Definition proper_lists (p : packages) : Prop :=
  Forall (fun x => package_name x = true) (pk_packageList p) /\ NoDup (pk_packageList p) /\
  Forall (fun x => excluded_name x = true) (pk_excludedList p) /\ NoDup (pk_excludedList p) /\
  (forall x, In x (pk_packageList p) -> ~ In x (pk_excludedList p)) /\
  Forall (fun g => group_name (g_name g) = true) (pk_groupList p) /\ NoDup (map g_name (pk_groupList p)) /\
  Forall (fun g => excluded_group_name (g_name g) = true /\ g_include g = GDefault) (pk_excludedGroupList p) /\
  (forall e, pk_environment p = Some e -> environment_name e = true).
(** ... and no group, nor the environment, both selected and excluded. *)
Definition clear_groups (p : packages) : Prop :=
  (forall g, In g (pk_groupList p) -> ~ In (g_name g) (map g_name (pk_excludedGroupList p))) /\
  (forall e, pk_environment p = Some e -> ~ In ("^" ++ e)%string (map g_name (pk_excludedGroupList p))).

(** The selection with its lists in order and marked as seen. *)
Definition as_read (p : packages) : packages :=
  mkPackages (pk_addBase p) (pk_nocore p) (pk_default p) (pk_environment p) (sort_str (pk_excludedList p))
    (sort_groups (pk_excludedGroupList p)) (pk_excludeDocs p) (sort_groups (pk_groupList p)) (pk_handleMissing p)
    (pk_handleBroken p) (sort_str (pk_packageList p)) (pk_instLangs p) (pk_multiLib p)
    (pk_excludeWeakdeps p) (pk_timeout p) (pk_retries p) true.

(** A section read line by line: blank lines and comments are skipped, and the rest
    is handed over without what follows a number sign. *)
Fixpoint read_lines (lines : list string) (p : packages) : packages * option exn :=
  match lines with
  | [] => (p, None)
  | l :: r =>
      if blank l || comment l then read_lines r p
      else match packages_handleLine l p with
           | (q, None) => read_lines r q
           | (q, Some e) => (q, Some e)
           end
  end.

(** Lines that make such lists: one entry, in which groups have their options spelled
    out and names that are not those of environments. *)
Definition entry_text (line : string) : string := strip (fst (fst (partition_char HASH line))).
Definition proper_entry (t : string) : bool :=
  clean t &&
  if startswith t "@^" then negb (String.eqb t "@^")
  else if startswith t "@" then
    group_words (drop 1 t) && no_caret (join " " (filter (fun w => negb (group_option w)) (split_ws (drop 1 t))))
  else true.
Definition proper_line (line : string) : bool :=
  blank line || comment line || proper_entry (entry_text line).

(** ** The parser *)

(** Between commands: the parser has read [A], which before F8 has no sections (they
    would still be open). *)
Definition commands_read {C} (dispatch : C -> string -> list string -> N -> C * option exn) (cf : config) (n : nat)
  (st : kstate C) (A : string) (s1 : kstate C) : Prop :=
  has_read dispatch cf n st A s1 /\ ((F8 <= cf_version cf)%Z \/ no_sections A = true).

(** [s2] differs from [s1] at most in the package selection, which is [p]. *)
Definition only_selects {C} (p : packages) (s1 s2 : kstate C) : Prop :=
  ks_cmds C s2 = ks_cmds C s1 /\ ks_platform C s2 = ks_platform C s1 /\ ks_errors C s2 = ks_errors C s1 /\
  ks_sec C s2 = mkSH (sh_scripts (ks_sec C s1)) p (sh_nulls (ks_sec C s1)) /\
  known s2 = known s1 /\ (forall n, n <> "%packages" -> assoc n (ks_sections C s2) = assoc n (ks_sections C s1)).

Definition has_packages {C} (st : kstate C) : Prop := exists t, assoc "%packages" (ks_sections C st) = Some (SPackages t).

(** The end of a section: an %end line, or before F8 the end of the text. *)
Definition section_end (ver : Z) (e : string) : Prop := closing_line e \/ ((ver < F8)%Z /\ e = "").
(** The text of a section without markers in it. *)
Definition no_markers (b : string) : Prop :=
  complete b = true /\ forallb (fun l => negb (startswith (lstrip l) "%")) (splitlines b) = true.
