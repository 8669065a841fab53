(** * C25: %packages sections round trip

    Vocabulary: PkgTextSpec.v.  Model: Packages.v, Sections.v, Parser.v. *)

From Verif Require Import Packages PkgSpec Parser ParserSpec SectSpec SectFacts PkgHeadSpec PkgHeadFacts PkgTextSpec PkgTextFacts PropsParse.
From Verif Require Import Value.
Local Open Scope string_scope.
Local Open Scope list_scope.

(** A written selection is read back, for every version: the settings, the groups with
    their options, the packages and the exclusions are the same, in order, and nothing
    else changes. *)
Theorem C25_round_trip : forall C (dispatch : C -> string -> list string -> N -> C * option exn) cf n st A s1 p,
  commands_read dispatch cf n st A s1 -> has_packages s1 -> sh_packages (ks_sec C s1) = new_packages ->
  fits (cf_version cf) p -> proper_lists p -> clear_groups p -> packages_str (cf_version cf) p <> "" ->
  exists s2, readKickstartFromString C dispatch cf n (A ++ packages_str (cf_version cf) p) st = (s2, None) /\
    ks_state C s2 = None /\ only_selects (as_read p) s1 s2 /\ has_packages s2.
Proof. exact section_round_trip. Qed.
Print Assumptions C25_round_trip.

(** What was read back is written as the same text. *)
Theorem C25_same_text : forall ver p, packages_str ver p <> "" -> packages_str ver (as_read p) = packages_str ver p.
Proof. exact as_read_str. Qed.
Print Assumptions C25_same_text.

(** An empty selection that was never mentioned is written as nothing at all. *)
Theorem C25_nothing : forall ver, packages_str ver new_packages = "".
Proof. reflexivity. Qed.
Print Assumptions C25_nothing.

(** A section that the parser accepts, with proper header options and lines, makes such
    a selection. *)
Theorem C25_parsed : forall ver ln ws lines p0 p,
  forallb proper_word ws = true ->
  packages_handleHeader ver ln ("%packages" :: map text ws) new_packages = (p0, None) ->
  read_lines lines p0 = (p, None) -> forallb proper_line lines = true ->
  (forall l, pk_instLangs p = Some l -> plain_text l = true) -> (pk_default p = true -> pk_environment p = None) ->
  fits ver p /\ proper_lists p.
Proof.
  intros ver ln ws lines p0 p Hp H0 H1 Hl Hi He.
  destruct (forallb (defined_in ver) ws) eqn:Hd.
  2:{ destruct (header_undefined ver ln ws new_packages Hp Hd) as (t & E). congruence. }
  rewrite (header_accepts ver ln ws new_packages Hp Hd) in H0. destruct (contradictory ws) eqn:Hc; [discriminate|].
  injection H0 as <-. destruct (read_well lines _ _ H1 Hl) as [[W _] S]; [apply new_well; reflexivity|].
  split; [|exact W]. eapply header_fits; eauto.
Qed.
Print Assumptions C25_parsed.

Lemma add_line_seen l a a' : add_line l a = Ok a' -> pk_seen (ac_pk a') = pk_seen (ac_pk a).
Proof.
  unfold add_line. cbv zeta. intros H. destruct (startswith (strip l) "@^"); [injection H as <-; reflexivity|].
  destruct (strip l) as [|c r]; [discriminate|]. destruct (Ascii.eqb c "@").
  - destruct (process_group r (ac_pk a)) as [p'|] eqn:E; cbn [bind] in H; [|discriminate]. injection H as <-. cbn.
    unfold process_group in E. destruct (parse_known_args group_parser None (split_ws r)) as [[ns x]|]; cbn [bind] in E; [|discriminate].
    destruct (_ && _) in E; [discriminate|]. cbv zeta in E. destruct (existsb _ _) in E; injection E as <-; reflexivity.
  - destruct (Ascii.eqb c "-").
    + destruct (_ && _) in H; [injection H as <-; reflexivity|]. destruct r as [|d r']; [discriminate|].
      destruct (Ascii.eqb d "@"); injection H as <-; reflexivity.
    + injection H as <-. reflexivity.
Qed.

Lemma read_lines_seen lines : forall q q', read_lines lines q = (q', None) -> pk_seen q' = pk_seen q.
Proof.
  induction lines as [|l lines IH]; intros q q' H; [injection H as <-; reflexivity|]. cbn [read_lines] in H.
  destruct (blank l || comment l); [apply IH, H|]. destruct (packages_handleLine l q) as [q1 [x|]] eqn:E; [discriminate|].
  rewrite (IH _ _ H). unfold packages_handleLine, packages_add in E. cbn [add_lines] in E.
  destruct (add_line _ _) as [a|] eqn:Ea in E; [|discriminate]. apply add_line_seen in Ea.
  injection E as <-. exact Ea.
Qed.

(** Parse, write, parse: a section of a file, with comments and blank lines, in any
    order and with repetitions, gives a selection [p]; reading [p] as it is written
    gives the same selection in order, and the same text. *)
Theorem C25_parse_write_parse :
  forall C (dispatch : C -> string -> list string -> N -> C * option exn) cf n st A s1 ws h b e p0 p,
  commands_read dispatch cf n st A s1 -> has_packages s1 -> sh_packages (ks_sec C s1) = new_packages ->
  section_line "%packages" (map text ws) h -> forallb proper_word ws = true ->
  no_markers b -> forallb proper_line (splitlines b) = true -> section_end (cf_version cf) e ->
  packages_handleHeader (cf_version cf) (N.of_nat (length (splitlines A)) + 1) ("%packages" :: map text ws) new_packages = (p0, None) ->
  read_lines (splitlines b) p0 = (p, None) ->
  (forall l, pk_instLangs p = Some l -> plain_text l = true) -> (pk_default p = true -> pk_environment p = None) ->
  clear_groups p ->
  exists s2 s3,
    readKickstartFromString C dispatch cf n (A ++ h ++ b ++ e) st = (s2, None) /\ sh_packages (ks_sec C s2) = p /\
    readKickstartFromString C dispatch cf n (A ++ packages_str (cf_version cf) p) st = (s3, None) /\
    sh_packages (ks_sec C s3) = as_read p /\ only_selects (as_read p) s2 s3 /\
    packages_str (cf_version cf) (sh_packages (ks_sec C s3)) = packages_str (cf_version cf) p.
Proof.
  intros C dispatch cf n st A s1 ws h b e p0 p HA Ho Hn Hh Hw Hb Hl He H0 H1 Hi Hv Hg.
  destruct (packages_section C dispatch cf n st A s1 (map text ws) h b e p0 p) as (s2 & R2 & _ & O2 & _); auto.
  { rewrite Hn. exact H0. }
  destruct (C25_parsed _ _ _ _ _ _ Hw H0 H1 Hl Hi Hv) as [Hf Hp].
  assert (Hs : pk_seen p = true -> packages_str (cf_version cf) p <> "").
  { intros E. unfold packages_str. rewrite E. cbn [negb]. rewrite andb_false_r. destruct (F8 <=? cf_version cf)%Z; discriminate. }
  assert (Seen : pk_seen p = true).
  { rewrite (read_lines_seen _ _ _ H1). destruct (forallb (defined_in (cf_version cf)) ws) eqn:Hd.
    - rewrite (header_accepts _ _ ws new_packages Hw Hd) in H0. destruct (contradictory ws); [discriminate|]. injection H0 as <-. reflexivity.
    - destruct (header_undefined (cf_version cf) (N.of_nat (length (splitlines A)) + 1) ws new_packages Hw Hd) as (t & E). congruence. }
  specialize (Hs Seen).
  destruct (C25_round_trip C dispatch cf n st A s1 p) as (s3 & R3 & _ & O3 & _); auto.
  exists s2, s3. split; [exact R2|]. destruct O2 as (A1 & A2 & A3 & A4 & A5 & A6), O3 as (B1 & B2 & B3 & B4 & B5 & B6).
  split; [rewrite A4; reflexivity|]. split; [exact R3|]. split; [rewrite B4; reflexivity|]. split.
  - unfold only_selects. rewrite A1, A2, A3, A4, A5. cbn [sh_scripts sh_nulls]. split; [exact B1|]. split; [exact B2|]. split; [exact B3|].
    split; [exact B4|]. split; [exact B5|]. intros m Hm. rewrite A6, B6; auto.
  - rewrite B4. apply C25_same_text, Hs.
Qed.
Print Assumptions C25_parse_write_parse.

(** ** The conditions are needed *)

Definition section_of (lines : list string) : string := concat_all (map (fun l => l ++ nl)%string lines).
Definition selection_of (s : string) : packages :=
  sh_packages (ks_sec _ (fst (readKickstartFromString _ demo (demo_config true) 5 s demo_start))).

(** A group excluded and then selected is still recorded as excluded, and the written
    section deselects it; likewise for an environment. *)
Theorem C25_reselected_refuted : exists s s',
  (map g_name (pk_groupList (selection_of s)) = ["core"] /\
   pk_groupList (selection_of (packages_str F34 (selection_of s))) = []) /\
  (pk_environment (selection_of s') = Some "server" /\
   pk_environment (selection_of (packages_str F34 (selection_of s'))) = None).
Proof.
  exists (section_of ["%packages"; "-@core"; "@core"; "%end"]), (section_of ["%packages"; "-@^server"; "@^server"; "%end"]).
  repeat split; vm_compute; reflexivity.
Qed.
Print Assumptions C25_reselected_refuted.

(** With --default the environment is not written. *)
Theorem C25_default_environment_refuted : exists s,
  pk_environment (selection_of s) = Some "server" /\
  pk_environment (selection_of (packages_str F34 (selection_of s))) = None.
Proof. exists (section_of ["%packages --default"; "@^server"; "%end"]). split; vm_compute; reflexivity. Qed.
Print Assumptions C25_default_environment_refuted.

(** Two sections, each accepted, can add up to a selection whose text is rejected. *)
Theorem C25_two_sections_refuted : exists s,
  snd (readKickstartFromString _ demo (demo_config true) 5 s demo_start) = None /\
  snd (readKickstartFromString _ demo (demo_config true) 5 (packages_str F34 (selection_of s)) demo_start) <> None.
Proof.
  exists (section_of ["%packages --default"; "%end"; "%packages --nocore"; "%end"]). split; vm_compute; [reflexivity|discriminate].
Qed.
Print Assumptions C25_two_sections_refuted.

(** ** The theorems apply *)

Definition C25_lines : list string :=
  ["vim  # editor"; "# comment"; "@ Core  Tools --nodefaults"; ""; "-nano"; "@^server-product"; "-@games"; "vim"; "nano"].
Definition C25_text : string := section_of C25_lines.
Definition C25_words : list oword := [OFlag "--ignoremissing"; OVal "--inst-langs" "en:cs"; OFlag "--nocore"; OVal "--retries" "-3"].
Definition C25_header : string := (join " " ("%packages" :: map text C25_words) ++ nl)%string.

Example C25_example :
  commands_read demo (demo_config true) 5 demo_start "" demo_start /\ has_packages demo_start /\
  section_line "%packages" (map text C25_words) C25_header /\ forallb proper_word C25_words = true /\
  no_markers C25_text /\ forallb proper_line (splitlines C25_text) = true /\ section_end F34 ("%end" ++ nl) /\
  let p := selection_of (C25_header ++ C25_text ++ "%end" ++ nl) in
  (exists p0, packages_handleHeader F34 1 ("%packages" :: map text C25_words) new_packages = (p0, None) /\
    read_lines (splitlines C25_text) p0 = (p, None)) /\
  clear_groups p /\ pk_default p = false /\ pk_instLangs p = Some "en:cs" /\
  packages_str F34 p = section_of [""; "%packages --nocore --ignoremissing --inst-langs=en:cs --retries=-3";
    "@^server-product"; "@Core Tools --nodefaults"; "nano"; "vim"; "-@games"; ""; "%end"].
Proof.
  split; [split; [split; [reflexivity|split; vm_compute; reflexivity]|left; discriminate]|].
  split; [eexists; reflexivity|].
  split; [repeat split; try (vm_compute; reflexivity); discriminate|].
  split; [vm_compute; reflexivity|]. split; [split; vm_compute; reflexivity|]. split; [vm_compute; reflexivity|].
  split; [left; split; vm_compute; reflexivity|]. cbv zeta.
  split; [eexists; split; vm_compute; reflexivity|].
  set (p := selection_of (C25_header ++ C25_text ++ "%end" ++ nl)). vm_compute in p. subst p.
  split; [split; cbn; [intros g [<-|[]] [H|[]]; discriminate|intros e H; injection H as <-; intros [H|[]]; discriminate]|].
  split; [reflexivity|]. split; [reflexivity|]. vm_compute. reflexivity.
Qed.
