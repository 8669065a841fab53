(** * Properties of sections: C16 - C20 *)

From Verif Require Import PyStrFacts ShlexFacts PreFacts ArgParseFacts ArgLineFacts Parser ParserFacts ParserSpec ParserRel ParserLines ParserRun SectSpec SectFacts.
From Verif Require Import PropsParse.
From Verif Require Import Value.
Local Open Scope string_scope.
Local Open Scope list_scope.

Local Arguments String.eqb : simpl never.

(** A new parser has nothing left over, in any of its script sections. *)
Lemma new_pending C c h p k : pending k "" (new_parser C c h p).
Proof. destruct k; eexists _, (reset_script _); (split; [reflexivity|]); cbn; auto. Qed.

(** ** C18 *)

(** A script section adds exactly the script that its header and its text
    describe, and changes nothing else; [s1] is the parser after the text [A] that
    precedes the section. *)
Theorem C18_script_verbatim : forall C (dispatch : C -> string -> list string -> N -> C * option exn) cf n st A s1 k ws h b e,
  (F8 <= cf_version cf)%Z -> has_read dispatch cf n st A s1 -> pending k "" s1 ->
  header_line k ws h -> script_text (known s1) b -> blank b = false -> closing_line e ->
  exists s2, readKickstartFromString C dispatch cf n (A ++ h ++ b ++ e) st = (s2, None) /\ ks_state C s2 = None /\
    only_adds k [described k ws (N.of_nat (length (splitlines A)) + 1) b] s1 s2 /\ pending k "" s2.
Proof.
  intros C dispatch cf n st A s1 k ws h b e H8 HA Hp Hh Hb Hbl He.
  destruct (script_section C dispatch cf n st A s1 k ws h b e "" H8 HA Hp Hh Hb He) as (s2 & R & S & H).
  cbn [append] in H. rewrite Hbl in H. exists s2. tauto.
Qed.
Print Assumptions C18_script_verbatim.

(** Any number of sections, one after the other. *)
Record chunk := mkChunk { ch_kind : skind; ch_words : list oword; ch_header : string; ch_body : string; ch_end : string }.
Definition chunk_ok (known : list string) (c : chunk) : Prop :=
  header_line (ch_kind c) (ch_words c) (ch_header c) /\ script_text known (ch_body c) /\ blank (ch_body c) = false /\
  closing_line (ch_end c) /\ complete (ch_end c) = true.
Definition chunk_text (c : chunk) : string := (ch_header c ++ ch_body c ++ ch_end c)%string.
Fixpoint chunk_scripts (lines : N) (l : list chunk) : list script :=
  match l with
  | [] => []
  | c :: r => described (ch_kind c) (ch_words c) (lines + 1) (ch_body c)
              :: chunk_scripts (lines + N.of_nat (length (splitlines (chunk_text c)))) r
  end.

Theorem C18_script_sequence : forall C (dispatch : C -> string -> list string -> N -> C * option exn) cf n st l A s1,
  (F8 <= cf_version cf)%Z -> has_read dispatch cf n st A s1 -> (forall k, pending k "" s1) ->
  Forall (chunk_ok (known s1)) l ->
  exists s2, readKickstartFromString C dispatch cf n (A ++ concat_all (map chunk_text l)) st = (s2, None) /\
    sh_scripts (ks_sec C s2) = sh_scripts (ks_sec C s1) ++ chunk_scripts (N.of_nat (length (splitlines A))) l /\
    ks_cmds C s2 = ks_cmds C s1.
Proof.
  intros C dispatch cf n st l. induction l as [|c l IH]; intros A s1 H8 HA Hp Hl.
  - exists s1. cbn [map concat_all chunk_scripts]. rewrite app_nil_r_s, app_nil_r. destruct HA as (_ & -> & _). auto.
  - inversion Hl as [|? ? Hc Hl']; subst. destruct Hc as (Hh & Hb & Hbl & He & Hec).
    destruct (C18_script_verbatim C dispatch cf n st A s1 _ _ _ _ _ H8 HA (Hp _) Hh Hb Hbl He) as (s2 & R & S & O & P).
    assert (Cm : complete (chunk_text c) = true).
    { destruct Hh as (_ & Hh & _). destruct Hb as [Hb _]. unfold chunk_text. auto using complete_app. }
    destruct (IH (A ++ chunk_text c)%string s2) as (s3 & R3 & S3 & C3); auto.
    + split; [apply complete_app; [apply HA|exact Cm]|]. split; [exact R|exact S].
    + intros k. destruct O as (_ & _ & _ & _ & _ & _ & _ & O).
      destruct (string_dec (kind_name k) (kind_name (ch_kind c))) as [E|E].
      * assert (k = ch_kind c) as -> by (destruct k, (ch_kind c); auto; discriminate). exact P.
      * destruct (Hp k) as (t & a & Q). exists t, a. rewrite O by exact E. exact Q.
    + destruct O as (_ & _ & _ & _ & _ & _ & -> & _). exact Hl'.
    + exists s3. cbn [map concat_all]. rewrite <- app_assoc_s. split; [exact R3|].
      destruct O as (O1 & _ & _ & O2 & _). rewrite S3, O2, C3, O1.
      cbn [chunk_scripts]. rewrite splitlines_app by (apply HA). rewrite app_length, Nat2N.inj_add, <- app_assoc. auto.
Qed.
Print Assumptions C18_script_sequence.

Definition demo_header := ("%post --interpreter=/usr/bin/python --nochroot  # x" ++ nl)%string.
Example C18_example :
  let A := ("vnc" ++ nl)%string in
  let b := ("%unknown" ++ nl ++ "  # not a comment" ++ nl ++ nl ++ "if 'x" ++ nl)%string in
  let e := ("%end # done" ++ nl)%string in
  exists s1, has_read demo (demo_config true) 5 demo_start A s1 /\ pending Post "" s1 /\
    header_line Post [OVal "--interpreter" "/usr/bin/python"; OFlag "--nochroot"] demo_header /\
    script_text (known s1) b /\ blank b = false /\ closing_line e /\
    sh_scripts (ks_sec _ (fst (readKickstartFromString _ demo (demo_config true) 5 (A ++ demo_header ++ b ++ e) demo_start)))
      = [mkScript b "/usr/bin/python" false (Some 2%N) None false Post].
Proof.
  cbv zeta. eexists. split; [split; [reflexivity|split; [vm_compute; reflexivity|reflexivity]]|].
  split. { exists 0%N, (reset_script Post). split; [vm_compute; reflexivity|]. cbn; auto. }
  repeat split; vm_compute; reflexivity.
Qed.

(** ** C20 *)

(** A script section with a blank text adds no script and changes nothing else that
    can be observed, except that the text is kept in the section object, after the blank text
    that may be kept there already ([p]). *)
Theorem C20_blank_adds_nothing : forall C (dispatch : C -> string -> list string -> N -> C * option exn) cf n st A s1 k p ws h b e,
  (F8 <= cf_version cf)%Z -> has_read dispatch cf n st A s1 -> pending k p s1 -> blank p = true ->
  header_line k ws h -> script_text (known s1) b -> blank b = true -> closing_line e ->
  exists s2, readKickstartFromString C dispatch cf n (A ++ h ++ b ++ e) st = (s2, None) /\ ks_state C s2 = None /\
    only_adds k [] s1 s2 /\ pending k (p ++ b) s2.
Proof.
  intros C dispatch cf n st A s1 k p ws h b e H8 HA Hp Hpb Hh Hb Hbl He.
  destruct (script_section C dispatch cf n st A s1 k ws h b e p H8 HA Hp Hh Hb He) as (s2 & R & S & H).
  assert (Ebl : blank (p ++ b)%string = true) by (unfold blank in *; now rewrite all_chars_app, Hpb, Hbl).
  rewrite Ebl in H. exists s2. tauto.
Qed.
Print Assumptions C20_blank_adds_nothing.

(** The next script of the same kind has the blank text in front of its own; its
    header options are its own. *)
Theorem C20_next_script : forall C (dispatch : C -> string -> list string -> N -> C * option exn) cf n st A s1 k p ws' h' b e',
  (F8 <= cf_version cf)%Z -> has_read dispatch cf n st A s1 -> pending k p s1 ->
  header_line k ws' h' -> script_text (known s1) b -> blank b = false -> closing_line e' ->
  exists s2, readKickstartFromString C dispatch cf n (A ++ h' ++ b ++ e') st = (s2, None) /\ ks_state C s2 = None /\
    only_adds k [described k ws' (N.of_nat (length (splitlines A)) + 1) (p ++ b)] s1 s2 /\ pending k "" s2.
Proof.
  intros C dispatch cf n st A s1 k p ws' h' b e' H8 HA Hp Hh' Hb Hbl' He'.
  destruct (script_section C dispatch cf n st A s1 k ws' h' b e' p H8 HA Hp Hh' Hb He') as (s2 & R & S & H).
  assert (Ebl : blank (p ++ b)%string = false).
  { unfold blank in *. rewrite all_chars_app, Hbl'. apply andb_false_r. }
  rewrite Ebl in H. exists s2. tauto.
Qed.
Print Assumptions C20_next_script.
(** The two together: a blank section and then a script. *)
Corollary C20_blank_then_script : forall C (dispatch : C -> string -> list string -> N -> C * option exn) cf n st A s1 k ws h w e ws' h' b e',
  (F8 <= cf_version cf)%Z -> has_read dispatch cf n st A s1 -> pending k "" s1 ->
  header_line k ws h -> script_text (known s1) w -> blank w = true -> closing_line e -> complete e = true ->
  header_line k ws' h' -> script_text (known s1) b -> blank b = false -> closing_line e' ->
  exists s2, readKickstartFromString C dispatch cf n (A ++ (h ++ w ++ e) ++ (h' ++ b ++ e')) st = (s2, None) /\
    only_adds k [described k ws' (N.of_nat (length (splitlines (A ++ h ++ w ++ e))) + 1) (w ++ b)] s1 s2 /\ pending k "" s2.
Proof.
  intros C dispatch cf n st A s1 k ws h w e ws' h' b e' H8 HA Hp Hh Hw Hbl He Hec Hh' Hb Hbl' He'.
  destruct (script_section C dispatch cf n st A s1 k ws h w e "" H8 HA Hp Hh Hw He) as (s2 & R & S & H).
  cbn [append] in H. rewrite Hbl in H. destruct H as [O P].
  assert (HA2 : has_read dispatch cf n st (A ++ h ++ w ++ e) s2).
  { split; [|split; assumption]. destruct HA as [HA _]. destruct Hw as [Hw _]. destruct Hh as (_ & Hh & _).
    auto using complete_app. }
  assert (K : known s2 = known s1) by apply O.
  destruct (script_section C dispatch cf n st _ s2 k ws' h' b e' w H8 HA2 P Hh') as (s3 & R3 & S3 & H3); auto.
  { rewrite K. exact Hb. }
  assert (Ebl : blank (w ++ b)%string = false).
  { unfold blank in *. rewrite all_chars_app, Hbl, Hbl'. reflexivity. }
  rewrite Ebl in H3. destruct H3 as [O3 P3]. exists s3. rewrite app_assoc_s in R3. split; [exact R3|]. split; [|exact P3].
  destruct O as (O1 & O2 & O4 & O5 & O6 & O7 & O8 & O9), O3 as (Q1 & Q2 & Q4 & Q5 & Q6 & Q7 & Q8 & Q9).
  unfold only_adds. rewrite app_nil_r in O5. repeat split; try congruence.
  intros m Hm. rewrite Q9, O9; auto.
Qed.
Print Assumptions C20_blank_then_script.

(** So it is false that a blank section has no influence at all on the scripts that follow. *)
Theorem C20_following_refuted : exists before after,
  let parse s := readKickstartFromString _ demo (demo_config true) 5 s demo_start in
  sh_scripts (ks_sec _ (fst (parse before))) = [] /\ snd (parse before) = None /\ snd (parse after) = None /\
  bodies (parse (before ++ after)%string) <> bodies (parse after).
Proof.
  exists ("%pre" ++ nl ++ "   " ++ nl ++ "%end" ++ nl)%string, ("%pre" ++ nl ++ "ls" ++ nl ++ "%end" ++ nl)%string.
  cbv zeta. repeat split; try (vm_compute; reflexivity). vm_compute. discriminate.
Qed.
Print Assumptions C20_following_refuted.

(** ** C16 *)

(** Every text with a section that is still open at its end is refused, whatever
    kind of section it is.  If nothing else is wrong with the text, the error is a
    KickstartParseError at its last line and the state is the one reached there. *)
Theorem C16_open_at_end : forall C (dispatch : C -> string -> list string -> N -> C * option exn) cf n s st name,
  (F8 <= cf_version cf)%Z -> stands_alone cf (splitlines s) -> forallb plain_marker (splitlines s) = true ->
  section_after None (splitlines s) = Some name ->
  exists s1 e, readKickstartFromString C dispatch cf n s st = (s1, Some e) /\
    forall s0, parse_lines dispatch cf n 0 (splitlines s) (reset C st) = (s0, None) ->
      s1 = s0 /\ e = KSParseError (Some (N.of_nat (length (splitlines s)))) "section does not end with %end".
Proof.
  intros C dispatch cf n s st name H8 Hal Hm Ho. unfold parse_lines.
  rewrite state_machine_run by (unfold weight; simpl; lia). rewrite read_string_run, run_lines_app.
  set (j := if cf_followIncludes cf then (fun (f : string) (st : kstate C) => (st, @None exn))
            else handle_include C cf (read_kickstart C dispatch cf n)).
  set (i := handle_include C cf (read_kickstart C dispatch cf n)).
  assert (E : run_lines C dispatch cf i None (splitlines s) 0 (reset C st) = run_lines C dispatch cf j None (splitlines s) 0 (reset C st)).
  { unfold j. destruct (cf_followIncludes cf) eqn:Ef; [|reflexivity].
    destruct Hal as [Hal|Hal]; [congruence|]. apply run_noinc; auto. }
  assert (Hc : hook_closed C j).
  { unfold j. destruct (cf_followIncludes cf) eqn:Ef; [intros f st0; auto|apply include_off_closed; auto]. }
  pose proof (run_lines_deep C dispatch cf i (include_deep C dispatch cf n) (splitlines s) None 0 (reset C st)) as Dp.
  destruct (run_lines C dispatch cf i None (splitlines s) 0 (reset C st)) as [s1 [x|e]] eqn:Er.
  - symmetry in E. apply run_lines_open in E as [-> _]; auto;
      [|apply splitlines_nonempty|intros _; reflexivity|left; apply Z.leb_le; exact H8].
    rewrite Ho, N.add_0_l.
    rewrite end_of_input; [|destruct Dp as [_ Dp]; apply Dp; reflexivity|apply Z.leb_le; exact H8].
    cbn [outcome]. eexists _, _. split; [reflexivity|]. intros s0 H. injection H as <-. auto.
  - cbn [outcome]. eexists _, _. split; [reflexivity|]. intros s0 H. discriminate.
Qed.
Print Assumptions C16_open_at_end.

(** The same where the next section begins before the open one [name] is closed:
    [x] is the line with the next section's header. *)
Theorem C16_next_section : forall C (dispatch : C -> string -> list string -> N -> C * option exn) cf n A x m more ws B st name,
  (F8 <= cf_version cf)%Z -> stands_alone cf (splitlines A) -> forallb plain_marker (splitlines A) = true ->
  complete A = true -> section_after None (splitlines A) = Some name ->
  splitlines x = [x] -> complete x = true -> blank x || comment x = false ->
  split_ws x = m :: ws -> shlex_split false x = Ok (m :: more) ->
  ~ In m ["%end"; "%include"; "%ksappend"] -> startswith m "%" = true ->
  exists s1 r, readKickstartFromString C dispatch cf n (A ++ x ++ B) st = (s1, r) /\
    (parse_lines dispatch cf n 0 (splitlines A) (reset C st) = (s1, r) /\ r <> None \/
     parse_lines dispatch cf n 0 (splitlines A) (reset C st) = (s1, None) /\ valid_state C s1 m = true /\
       r = Some (KSParseError (Some (N.of_nat (length (splitlines A)) + 1)%N) "section does not end with %end") \/
     exists s0, parse_lines dispatch cf n 0 (splitlines A) (reset C st) = (s0, None) /\ valid_state C s0 m = false).
Proof.
  intros C dispatch cf n A x m more ws B st name H8 Hal Hm HA Ho Hx1 Hx2 Hxb Hxw Hxs Hmn Hmp. unfold parse_lines.
  rewrite state_machine_run by (unfold weight; simpl; lia).
  rewrite read_string_run, (splitlines_app A), (splitlines_app x), Hx1, <- app_assoc by auto. cbn [app]. rewrite run_lines_app.
  set (j := if cf_followIncludes cf then (fun (f : string) (st : kstate C) => (st, @None exn))
            else handle_include C cf (read_kickstart C dispatch cf n)).
  set (i := handle_include C cf (read_kickstart C dispatch cf n)).
  assert (E : run_lines C dispatch cf i None (splitlines A) 0 (reset C st) = run_lines C dispatch cf j None (splitlines A) 0 (reset C st)).
  { unfold j. destruct (cf_followIncludes cf) eqn:Ef; [|reflexivity].
    destruct Hal as [Hal|Hal]; [congruence|]. apply run_noinc; auto. }
  assert (Hc : hook_closed C j).
  { unfold j. destruct (cf_followIncludes cf) eqn:Ef; [intros f st0; auto|apply include_off_closed; auto]. }
  destruct (run_lines C dispatch cf i None (splitlines A) 0 (reset C st)) as [s1 [y|e]] eqn:Er.
  - symmetry in E. apply run_lines_open in E as [-> _]; auto;
      [|apply splitlines_nonempty|intros _; reflexivity|left; apply Z.leb_le; exact H8].
    rewrite Ho, N.add_0_l. cbn [outcome].
    destruct (valid_state C s1 m) eqn:Ev.
    + exists s1, (Some (KSParseError (Some (N.of_nat (length (splitlines A)) + 1)%N) "section does not end with %end")).
      split; [|right; left; auto].
      cbn [run_lines]. rewrite steps_eq. cbn [step].
      assert (Hl : String.eqb x "" = false) by (apply String.eqb_neq; intros ->; discriminate).
      unfold rs_step. rewrite Hl, ibc_eq, Hxb. cbn [andb].
      destruct (split_ws_first _ _ _ Hxw) as (c & w & r & E1 & E2 & _). subst m. rewrite startswith_cons, startswith_nil in Hmp.
      rewrite E2, startswith_cons, startswith_nil, Hmp. rewrite Hxw. cbn [negb andb]. rewrite Hxs.
      assert (N1 : String.eqb (String c w) "%end" = false) by (apply String.eqb_neq; intros E; apply Hmn; simpl; auto).
      assert (N2 : String.eqb (String c w) "%include" = false) by (apply String.eqb_neq; intros E; apply Hmn; simpl; auto).
      assert (N3 : String.eqb (String c w) "%ksappend" = false) by (apply String.eqb_neq; intros E; apply Hmn; simpl; auto).
      rewrite N1, N2, N3. apply Z.leb_le in H8. rewrite H8, Ev. reflexivity.
    + eexists _, _. split; [apply surjective_pairing|]. right; right. exists s1. auto.
  - cbn [outcome]. exists s1, (Some e). split; auto. left. split; auto. discriminate.
Qed.
Print Assumptions C16_next_section.

(** No script is added for the section that is not closed. *)
Theorem C16_no_script : forall C (dispatch : C -> string -> list string -> N -> C * option exn) cf n st A s1 k ws h b w,
  (F8 <= cf_version cf)%Z -> has_read dispatch cf n st A s1 -> pending k w s1 ->
  header_line k ws h -> forallb (body_line (known s1)) (splitlines b) = true ->
  exists s2, readKickstartFromString C dispatch cf n (A ++ h ++ b) st =
      (s2, Some (KSParseError (Some (N.of_nat (length (splitlines (A ++ h ++ b))))) "section does not end with %end")) /\
    sh_scripts (ks_sec C s2) = sh_scripts (ks_sec C s1) /\ ks_cmds C s2 = ks_cmds C s1.
Proof.
  intros C dispatch cf n st A s1 k ws h b w H8 HA (t & a & Ho & _) Hh Hb.
  pose proof HA as HA'. apply has_read_run in HA' as (HAc & Hst & R); auto.
  rewrite read_string_run, (splitlines_app A) by auto.
  assert (Hh' := Hh). destruct Hh' as (Hh1 & Hh2 & _).
  rewrite (splitlines_app h), Hh1 by auto.
  pose proof (run_lines_deep C dispatch cf _ (include_deep C dispatch cf n) (splitlines A) None 0 (reset C st)) as Dp.
  rewrite R in Dp. destruct Dp as [_ Dp]. specialize (Dp eq_refl). cbn [fst] in Dp. change (ks_depth C (reset C st)) with 0%N in Dp.
  set (i := handle_include C cf (read_kickstart C dispatch cf n)) in *.
  rewrite <- app_assoc, run_lines_app, R. cbn [app]. cbn [run_lines]. rewrite steps_eq. cbn [step].
  rewrite (sm_header C dispatch cf _ _ _ _ _ _ _ _ Hh Hst Ho). cbv iota.
  rewrite run_lines_app, (script_body C dispatch cf i (kind_name k) k (t + 1) (splitlines b)
    (acc_after k ws (N.of_nat (length (splitlines A)) + 1) a)).
  - rewrite end_of_input; [|exact Dp|apply Z.leb_le; exact H8]. cbn [outcome].
    replace (N.of_nat (length (splitlines A ++ h :: splitlines b)))
      with (N.of_nat (length (splitlines A)) + 1 + N.of_nat (length (splitlines b)))%N; [eexists; split; [reflexivity|split; reflexivity]|].
    rewrite !app_length. cbn [length]. lia.
  - unfold set_section. cbn. rewrite assoc_put, String.eqb_refl. reflexivity.
  - unfold known, set_section. cbn [ks_sections]. rewrite map_fst_put. cbn [ks_sections set_state]. unfold has_key. rewrite Ho. exact Hb.
Qed.
Print Assumptions C16_no_script.

Example C16_example :
  let A := ("vnc" ++ nl ++ "%packages" ++ nl ++ "@core" ++ nl)%string in
  let x := ("%pre --log=/x" ++ nl)%string in
  section_after None (splitlines A) = Some "%packages" /\ complete A = true /\
  stands_alone (demo_config true) (splitlines A) /\ forallb plain_marker (splitlines A) = true /\
  splitlines x = [x] /\ split_ws x = ["%pre"; "--log=/x"] /\ shlex_split false x = Ok ["%pre"; "--log=/x"] /\
  snd (readKickstartFromString _ demo (demo_config true) 5 A demo_start)
    = Some (KSParseError (Some 3%N) "section does not end with %end") /\
  snd (readKickstartFromString _ demo (demo_config true) 5 (A ++ x ++ "%end" ++ nl) demo_start)
    = Some (KSParseError (Some 4%N) "section does not end with %end").
Proof. cbv zeta. repeat split; try (vm_compute; reflexivity). right; vm_compute; reflexivity. Qed.

(** Before F8 the next header and the end of the file close a section. *)
Example C16_old_versions :
  let s := ("%pre" ++ nl ++ "ls" ++ nl ++ "%post" ++ nl ++ "id" ++ nl)%string in
  bodies (readKickstartFromString _ demo (mkConfig F7 true true true true "/" (fun _ => false) (fun _ => None)) 5 s demo_start)
    = [("ls" ++ nl)%string; ("id" ++ nl)%string].
Proof. vm_compute. reflexivity. Qed.

(** ** C17: sections *)

(** A section name that is not registered is an error with its line number when
    unknown sections are fatal; what was read before stays as it is. *)
Theorem C17_unknown_section_fatal : forall C (dispatch : C -> string -> list string -> N -> C * option exn) cf n st A s1 name args h B,
  (F8 <= cf_version cf)%Z -> has_read dispatch cf n st A s1 -> section_line name args h -> ~ In name (known s1) ->
  cf_unknownSectionIsFatal cf = true ->
  readKickstartFromString C dispatch cf n (A ++ h ++ B) st
    = (s1, Some (KSParseError (Some (N.of_nat (length (splitlines A)) + 1)%N) "unknown section")).
Proof.
  intros C dispatch cf n st A s1 name args h B H8 HA Hh Hn Hf.
  apply has_read_run in HA as (HA & Hst & R); auto.
  destruct Hh as (Hh1 & Hh2 & Hb & Hs & Hp & N1 & N2).
  rewrite read_string_run, (splitlines_app A), (splitlines_app h), Hh1 by auto.
  rewrite <- app_assoc, run_lines_app, R. cbn [app]. cbn [run_lines]. rewrite steps_eq. cbn [step]. unfold sm_step.
  assert (Hl : String.eqb h "" = false) by (apply String.eqb_neq; intros ->; discriminate).
  apply String.eqb_neq in N1, N2.
  rewrite Hl, ibc_eq, Hb, Hs, N1, Hst, N2. destruct name as [|c r]; [discriminate|].
  rewrite startswith_cons, startswith_nil, andb_true_r in Hp. apply Ascii.eqb_eq in Hp. subst c.
  change (Ascii.eqb "%" "%") with true. cbv iota zeta.
  assert (V : valid_state C s1 (String "%" r) = false).
  { unfold valid_state. rewrite has_key_mem. destruct (mem _ _) eqn:E; [|reflexivity]. exfalso. apply Hn.
    unfold mem in E. apply existsb_exists in E as (y & Hy & E). apply String.eqb_eq in E. subst y. exact Hy. }
  rewrite V, Hf. reflexivity.
Qed.
Print Assumptions C17_unknown_section_fatal.

(** The sections that are kept as text: those registered to be ignored, and, unless
    they are fatal, those with unregistered names. *)
Theorem C17_section_kept : forall C (dispatch : C -> string -> list string -> N -> C * option exn) cf n st A s1 name args h b e,
  (F8 <= cf_version cf)%Z -> has_read dispatch cf n st A s1 ->
  (~ In name (known s1) /\ cf_unknownSectionIsFatal cf = false \/ assoc name (ks_sections C s1) = Some (SNull [] [])) ->
  section_line name args h -> script_text (name :: known s1) b -> closing_line e ->
  exists s2, readKickstartFromString C dispatch cf n (A ++ h ++ b ++ e) st = (s2, None) /\ ks_state C s2 = None /\
    sh_nulls (ks_sec C s2) = sh_nulls (ks_sec C s1) ++ [kept name args (splitlines b)] /\
    sh_scripts (ks_sec C s2) = sh_scripts (ks_sec C s1) /\ sh_packages (ks_sec C s2) = sh_packages (ks_sec C s1) /\
    ks_cmds C s2 = ks_cmds C s1 /\ ks_platform C s2 = ks_platform C s1 /\ ks_errors C s2 = ks_errors C s1 /\
    assoc name (ks_sections C s2) = Some (SNull [] []) /\
    forall m, m <> name -> assoc m (ks_sections C s2) = assoc m (ks_sections C s1).
Proof.
  intros C dispatch cf n st A s1 name args h b e H8 HA Hk Hh Hb He.
  destruct (null_section C dispatch cf n st A s1 name args h b e H8 HA) as (s2 & R & S & N1 & Q); auto.
  - destruct Hk as [[H1 H2]|H]; [right|left; exact H]. split; [|exact H2].
    destruct (assoc name (ks_sections C s1)) eqn:E; [|reflexivity]. exfalso. apply H1.
    assert (X : has_key name (ks_sections C s1) = true) by (unfold has_key; rewrite E; reflexivity).
    rewrite has_key_mem in X. unfold mem in X. apply existsb_exists in X as (y & Hy & X). apply String.eqb_eq in X.
    subst y. exact Hy.
  - exists s2. rewrite null_text_kept in N1. rewrite N1. cbn [sh_nulls sh_scripts sh_packages]. tauto.
Qed.
Print Assumptions C17_section_kept.

(** What is kept has the header's words, then each line of the section in order,
    then %end; blank lines aside nothing is added, dropped or changed. *)
Theorem C17_same_lines : forall name args b,
  all_chars (fun c => negb (is_linebreak c)) (join " " (name :: args)) = true ->
  blank (join " " (name :: args)) = false -> complete b = true ->
  all_chars (fun c => negb (is_linebreak c) || Ascii.eqb c LF) b = true ->
  let visible s := filter (fun l => negb (blank l)) (splitlines s) in
  visible (kept name args (splitlines b)) = [(join " " (name :: args) ++ nl)%string] ++ visible b ++ ["%end"].
Proof.
  intros name args b Hh Hhb Hc Hb visible. unfold visible, kept.
  rewrite <- app_assoc_s, (splitlines_app (join " " (name :: args) ++ nl)%string) by (apply complete_nl).
  rewrite single_line by exact Hh. rewrite filter_app. f_equal.
  { cbn [filter]. unfold blank in *. rewrite all_chars_app, Hhb. reflexivity. }
  pose proof (lf_lines b Hc Hb) as L. clear - L.
  destruct (splitlines b) as [|l lines]; [reflexivity|].
  rewrite visible_joined by exact L. rewrite filter_app. reflexivity.
Qed.
Print Assumptions C17_same_lines.

(** But blank lines are added: the text is not written back as it was. *)
Theorem C17_verbatim_refuted : exists h b e,
  let r := readKickstartFromString _ demo (mkConfig F34 true true true false "/" (fun _ => false) (fun _ => None)) 5 (h ++ b ++ e) demo_start in
  section_line "%mine" [] h /\ script_text ("%mine" :: known demo_start) b /\ closing_line e /\
  snd r = None /\ sh_nulls (ks_sec _ (fst r)) <> [(h ++ b ++ e)%string] /\
  (* ... and each time the text is written and read there are more. *)
  forall s, sh_nulls (ks_sec _ (fst r)) = [s] ->
  sh_nulls (ks_sec _ (fst (readKickstartFromString _ demo (mkConfig F34 true true true false "/" (fun _ => false) (fun _ => None)) 5 s demo_start))) <> [s].
Proof.
  exists ("%mine" ++ nl)%string, ("a" ++ nl)%string, "%end". cbv zeta.
  split; [repeat split; try (vm_compute; reflexivity); discriminate|].
  split; [split; vm_compute; reflexivity|]. split; [split; vm_compute; reflexivity|].
  split; [vm_compute; reflexivity|]. split; [vm_compute; discriminate|].
  intros s H. vm_compute in H. injection H as <-. vm_compute. discriminate.
Qed.
Print Assumptions C17_verbatim_refuted.

(** Two kept sections, written one directly after the other as the handler does,
    cannot be read back: the second header is part of the line of the first %end. *)
Theorem C17_two_sections_refuted : exists s,
  let parse s := readKickstartFromString _ demo (demo_config true) 5 s demo_start in
  snd (parse s) = None /\ length (sh_nulls (ks_sec _ (fst (parse s)))) = 2 /\
  length (sh_nulls (ks_sec _ (fst (parse (concat_all (sh_nulls (ks_sec _ (fst (parse s))))))))) <> 2.
Proof.
  exists ("%addon a" ++ nl ++ "x" ++ nl ++ "%end" ++ nl ++ "%addon b" ++ nl ++ "y" ++ nl ++ "%end" ++ nl)%string.
  cbv zeta. repeat split; vm_compute; (reflexivity || discriminate).
Qed.
Print Assumptions C17_two_sections_refuted.

Example C17_example :
  let A := ("vnc" ++ nl)%string in
  let h := ("%addon org_fedora_x --enable" ++ nl)%string in
  let b := ("# text" ++ nl ++ "a = 'b" ++ nl)%string in
  exists s1, has_read demo (demo_config true) 5 demo_start A s1 /\
    assoc "%addon" (ks_sections _ s1) = Some (SNull [] []) /\ section_line "%addon" ["org_fedora_x"; "--enable"] h /\
    script_text ("%addon" :: known s1) b /\ ~ In "%mine" (known s1) /\ section_line "%mine" [] ("%mine" ++ nl).
Proof.
  cbv zeta. eexists. split; [split; [reflexivity|split; [vm_compute; reflexivity|reflexivity]]|].
  repeat split; try (vm_compute; reflexivity); try discriminate.
  vm_compute. intros H. repeat (destruct H as [H|H]; [discriminate|]). exact H.
Qed.

(** ** C19 *)

Theorem C19_script_round_trip : forall C (dispatch : C -> string -> list string -> N -> C * option exn) cf n st A s1 s,
  (F8 <= cf_version cf)%Z -> has_read dispatch cf n st A s1 -> pending (sc_type s) "" s1 -> writable (known s1) s ->
  exists s2, readKickstartFromString C dispatch cf n (A ++ script_str (cf_version cf) s) st = (s2, None) /\ ks_state C s2 = None /\
    only_adds (sc_type s) [rewritten (N.of_nat (length (splitlines A)) + 2) s] s1 s2 /\ pending (sc_type s) "" s2.
Proof.
  intros C dispatch cf n st A s1 s H8 HA Hp (W1 & W2 & W3 & W4 & W5 & W6).
  unfold script_str. rewrite script_header_words by exact W2.
  pose proof H8 as H8'. apply Z.leb_le in H8'. rewrite H8'.
  set (h := (join " " (kind_name (sc_type s) :: map text (written_words s)) ++ nl)%string).
  pose proof (written_header_line s W1 W3) as Hh. fold h in Hh.
  assert (Et : (sc_script s ++ (if ends_with_char LF (sc_script s) then "" else nl))%string = terminated (sc_script s)).
  { unfold terminated. destruct (ends_with_char LF (sc_script s)); [apply app_nil_r_s|reflexivity]. }
  assert (HA2 : has_read dispatch cf n st (A ++ nl) s1).
  { apply has_read_run in HA as (HA & Hst & R); auto. apply has_read_run; auto. split; [apply complete_nl|]. split; [exact Hst|].
    rewrite splitlines_app by exact HA. rewrite run_lines_app, R. rewrite run_inert; [|reflexivity|intros l [<-|[]]; discriminate].
    rewrite app_length, Nat2N.inj_add. reflexivity. }
  destruct (C18_script_verbatim C dispatch cf n st (A ++ nl) s1 (sc_type s) (written_words s) h (terminated (sc_script s)) ("%end" ++ nl)
    H8 HA2 Hp Hh) as (s2 & R2 & S2 & O2 & P2).
  - split; [|exact W6]. unfold terminated. destruct (ends_with_char LF (sc_script s)) eqn:E; [|apply complete_nl].
    unfold complete. rewrite E, orb_true_r. reflexivity.
  - unfold terminated. destruct (ends_with_char LF (sc_script s)); auto. unfold blank in *. rewrite all_chars_app, W5. reflexivity.
  - split; vm_compute; reflexivity.
  - exists s2. rewrite <- Et in R2. unfold h in R2. rewrite !app_assoc_s in *. split; [exact R2|]. split; [exact S2|]. split; [|exact P2].
    rewrite described_written in O2 by exact W4.
    replace (N.of_nat (length (splitlines (A ++ nl))) + 1)%N with (N.of_nat (length (splitlines A)) + 2)%N in O2; [exact O2|].
    rewrite splitlines_app by (apply HA). rewrite app_length, Nat2N.inj_add.
    change (N.of_nat (length (splitlines nl))) with 1%N. lia.
Qed.
Print Assumptions C19_script_round_trip.

(** All scripts of a handler, written one after the other, come back in order. *)
Theorem C19_all_scripts : forall C (dispatch : C -> string -> list string -> N -> C * option exn) cf n st l A s1,
  (F8 <= cf_version cf)%Z -> has_read dispatch cf n st A s1 -> (forall k, pending k "" s1) -> Forall (writable (known s1)) l ->
  exists s2 new, readKickstartFromString C dispatch cf n (A ++ concat_all (map (script_str (cf_version cf)) l)) st = (s2, None) /\
    sh_scripts (ks_sec C s2) = sh_scripts (ks_sec C s1) ++ new /\ ks_cmds C s2 = ks_cmds C s1 /\
    Forall2 (fun old new => exists ln, new = rewritten ln old) l new.
Proof.
  intros C dispatch cf n st l. induction l as [|s l IH]; intros A s1 H8 HA Hp Hl.
  - exists s1, []. cbn [map concat_all]. rewrite app_nil_r_s, app_nil_r. destruct HA as (_ & -> & _). auto.
  - inversion Hl as [|? ? Hc Hl']; subst.
    destruct (C19_script_round_trip C dispatch cf n st A s1 s H8 HA (Hp _) Hc) as (s2 & R & S & O & P).
    destruct (IH (A ++ script_str (cf_version cf) s)%string s2) as (s3 & new & R3 & S3 & C3 & F3); auto.
    + split; [|split; [exact R|exact S]]. unfold script_str. apply Z.leb_le in H8. rewrite H8.
      rewrite <- !app_assoc_s. apply complete_nl.
    + intros k. destruct O as (_ & _ & _ & _ & _ & _ & _ & O).
      destruct (string_dec (kind_name k) (kind_name (sc_type s))) as [E|E].
      * assert (k = sc_type s) as -> by (destruct k, (sc_type s); auto; discriminate). exact P.
      * destruct (Hp k) as (t & a & Q). exists t, a. rewrite O by exact E. exact Q.
    + destruct O as (_ & _ & _ & _ & _ & _ & -> & _). exact Hl'.
    + exists s3. eexists. cbn [map concat_all]. rewrite <- app_assoc_s. split; [exact R3|].
      destruct O as (O1 & _ & _ & O2 & _). rewrite S3, O2, C3, O1, <- app_assoc. split; [reflexivity|]. split; [reflexivity|].
      constructor; [eauto|exact F3].
Qed.
Print Assumptions C19_all_scripts.

(** A script whose interpreter has a space, or one without an interpreter, does not
    come back. *)
Theorem C19_interpreter_refuted : exists s1 s2,
  let parse s := readKickstartFromString _ demo (demo_config true) 5 (script_str F34 s) demo_start in
  snd (parse s1) <> None /\
  snd (parse s2) = None /\ map sc_interp (sh_scripts (ks_sec _ (fst (parse s2)))) <> [sc_interp s2].
Proof.
  exists (mkScript "x" "/usr/bin/env python" false None None false Pre), (mkScript "x" "" false None None false Pre).
  cbv zeta. repeat split; vm_compute; (reflexivity || discriminate).
Qed.
Print Assumptions C19_interpreter_refuted.

Example C19_example :
  let s := mkScript "echo '%end' # x" "/usr/bin/perl" false (Some 7%N) (Some "/tmp/log") true Post in
  writable (known demo_start) s /\ pending Post "" demo_start /\ has_read demo (demo_config true) 5 demo_start "" demo_start /\
  script_str F34 s = concat_all [nl; "%post --interpreter=/usr/bin/perl --nochroot --logfile=/tmp/log --erroronfail"; nl;
                                 "echo '%end' # x"; nl; "%end"; nl].
Proof.
  cbv zeta. split; [|split; [apply new_pending|split; [split; [reflexivity|split; vm_compute; reflexivity]|vm_compute; reflexivity]]].
  repeat split; try (vm_compute; reflexivity); discriminate.
Qed.
