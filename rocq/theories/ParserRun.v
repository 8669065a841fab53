(** * Running the parser over texts (lemmas for C11 - C15) *)

From Verif Require Import ArgDeclFacts PyStrFacts ShlexFacts PreFacts ArgParseFacts Parser ParserFacts ParserSpec ParserRel ParserLines.
From Verif Require Import Value.
Local Open Scope string_scope.
Local Open Scope list_scope.
Local Arguments Ascii.eqb : simpl never.
Local Arguments String.eqb : simpl never.

Section Runs.
Variable C : Type.
Variable dispatch : C -> string -> list string -> N -> C * option exn.
Variable cf : config.
Notation kstate := (kstate C).
Notation hook := (string -> kstate -> kstate * option exn).
Notation run := (run_lines C dispatch cf).
Implicit Types st : kstate.
Implicit Types L : N -> N -> Prop.

Lemma sm_inert i line ln st : inert line = true -> line <> "" ->
  sm_step C dispatch cf i line ln st = (st, Ok (Go None (ln + 1)%N)).
Proof.
  intros H Hl. unfold inert in H. apply andb_true_iff in H as [H Hp]. unfold sm_step.
  apply String.eqb_neq in Hl. rewrite Hl, ibc_eq, H. f_equal. unfold special_comments.
  destruct (ks_state C st) eqn:E; auto. unfold platform_comment in Hp. apply negb_true_iff in Hp. rewrite Hp. reflexivity.
Qed.

Lemma run_inert i lines : forall ln st, forallb inert lines = true -> (forall l, In l lines -> l <> "") ->
  run i None lines ln st = (st, Ok (Some (None, (ln + N.of_nat (length lines))%N))).
Proof.
  induction lines as [|l lines IH]; intros ln st H Hn.
  { cbn [run_lines length]. rewrite N.add_0_r. reflexivity. }
  cbn [forallb] in H. apply andb_true_iff in H as [H1 H2].
  cbn [run_lines]. rewrite steps_eq. cbn [step]. rewrite sm_inert; auto; [|apply Hn; simpl; auto].
  rewrite IH; auto; [|intros x Hx; apply Hn; simpl; auto].
  cbn [length]. do 4 f_equal. lia.
Qed.

(** Where the text ends. *)
Lemma end_of_input i m ln st : ks_depth C st = 0%N -> (F8 <=? cf_version cf)%Z = true ->
  run i m [""] ln st =
  match m with
  | None => (st, Ok None)
  | Some n => (st, Err (KSParseError (Some ln) "section does not end with %end"))
  end.
Proof.
  intros Hd HF. cbn [run_lines]. rewrite steps_eq. destruct m; cbn [step].
  - unfold rs_step. rewrite Hd, HF. reflexivity.
  - reflexivity.
Qed.

Lemma read_string_run n s st :
  readKickstartFromString C dispatch cf n s st =
  outcome C (run (handle_include C cf (read_kickstart C dispatch cf n)) None (splitlines s ++ [""]) 0 (reset C st)).
Proof. unfold readKickstartFromString. apply run_string_run. Qed.

Lemma reset_depth st : ks_depth C (reset C st) = 0%N. Proof. reflexivity. Qed.

(** After [A] the parser is in the loop of _stateMachine. *)
Lemma command_part_mode n A st s1 m ln : command_part dispatch cf n A st ->
  run (handle_include C cf (read_kickstart C dispatch cf n)) None (splitlines A) 0 (reset C st) = (s1, Ok (Some (m, ln))) ->
  m = None.
Proof.
  intros [H|[HF H]] E.
  - eapply run_lines_top in E; [injection E as -> _; auto|apply include_deep|reflexivity|].
    unfold no_sections in H. rewrite forallb_forall in H. intros l Hl. split; [|eapply splitlines_nonempty; eauto].
    specialize (H l Hl). destruct (open_after None l); [discriminate|auto].
  - rewrite read_string_run, run_lines_app, E in H.
    assert (D : ks_depth C s1 = 0%N).
    { pose proof (run_lines_deep C dispatch cf _ (include_deep C dispatch cf n) (splitlines A) None 0 (reset C st)) as D.
      rewrite E in D. destruct D as [_ D]. rewrite <- (reset_depth st). apply D. reflexivity. }
    rewrite end_of_input in H; auto; [|apply Z.leb_le; exact HF].
    destruct m; auto. exfalso. eapply H. reflexivity.
Qed.

(** The relation is reflexive. *)
Lemma same_lineno_refl (L : N -> N -> Prop) a : (forall x, L x x) -> same_lineno L a a.
Proof. destruct a; simpl; auto. Qed.
Lemma same_exn_refl (L : N -> N -> Prop) e : (forall x, L x x) -> same_exn L e e.
Proof. intros H. destruct e; simpl; auto using same_lineno_refl. Qed.
Lemma same_outcome_refl (L : N -> N -> Prop) e : (forall x, L x x) -> same_outcome L e e.
Proof. intros H. destruct e; simpl; auto using same_exn_refl. Qed.
Lemma Forall2_refl {A} (P : A -> A -> Prop) l : (forall x, P x x) -> Forall2 P l l.
Proof. intros H; induction l; auto. Qed.
Lemma same_parser_refl L (R : C -> C -> Prop) st : (forall x, L x x) -> (forall c, R c c) -> same_parser L R st st.
Proof.
  intros HL HR. repeat split; auto.
  - apply Forall2_refl. intros s. repeat split. apply same_lineno_refl; auto.
  - apply Forall2_refl. intros [n o]. split; auto. destruct o; simpl; auto. repeat split; auto using same_lineno_refl.
Qed.
Lemma same_result_refl L (R : C -> C -> Prop) r : (forall x, L x x) -> (forall c, R c c) -> same_result L R r r.
Proof. intros HL HR. split; [apply same_parser_refl|apply same_outcome_refl]; auto. Qed.
Lemma ksim_refl L (R : C -> C -> Prop) st : (forall x, L x x) -> (forall c, R c c) -> ksim C cf L R 0 st st.
Proof. intros HL HR. split; [apply same_parser_refl; auto|]. split; [lia|auto]. Qed.
Lemma rksim_result L (R : C -> C -> Prop) k r r' : rksim C cf L R k r r' -> same_result L R r r'.
Proof. intros [[H _] H']. split; auto. Qed.

(** The lines of [B] after [A]: numbered differently. *)
Lemma shifted L (R : C -> C -> Prop) n m lines ln ln' st :
  (forall x, L x x) -> (forall a b, L a b -> L (a + 1)%N (b + 1)%N) -> (forall c, R c c) -> labels_only L R dispatch ->
  L ln ln' ->
  same_result L R
    (outcome C (run (handle_include C cf (read_kickstart C dispatch cf n)) m lines ln st))
    (outcome C (run (handle_include C cf (read_kickstart C dispatch cf n)) m lines ln' st)).
Proof.
  intros Hr HS HR HD HL. eapply rksim_result with (k := 0%N). eapply outcome_sim.
  apply run_lines_sim; auto; [|apply include_deep|apply ksim_refl; auto].
  apply include_sim; auto.
Qed.


(** ** Command lines *)

Lemma command_words_spec line ws : command_words line = Some ws ->
  blank line || comment line = false /\ shlex_split true line = Ok ws /\
  exists c w r, ws = String c w :: r /\ Ascii.eqb c "%" = false.
Proof.
  unfold command_words. destruct (blank line || comment line); [discriminate|].
  destruct (shlex_split true line) as [[|[|c w] r]|]; try discriminate.
  destruct (Ascii.eqb c "%") eqn:E; [discriminate|]. intros H; injection H as <-. split; auto. split; eauto 6.
Qed.

Lemma not_marker c w t : Ascii.eqb c "%" = false -> String.eqb (String c w) (String "%" t) = false.
Proof. intros H. apply String.eqb_neq. intros E. injection E as -> _. discriminate. Qed.

Lemma sm_command i line ws ln st : command_words line = Some ws -> ks_state C st = None ->
  sm_step C dispatch cf i line ln st =
  match dispatch (ks_cmds C st) line ws (ln + 1)%N with
  | (c, None) => (set_cmds C c st, Ok (Go None (ln + 1)%N))
  | (c, Some e) => (count_error C (set_cmds C c st), if cf_errorsAreFatal cf then Err e else Ok (Go None (ln + 1)%N))
  end.
Proof.
  intros H Hst. apply command_words_spec in H as (Hb & Hs & c & w & r & -> & Hc). unfold sm_step.
  assert (Hn : String.eqb line "" = false).
  { apply String.eqb_neq. intros ->. discriminate. }
  rewrite Hn, ibc_eq, Hb, Hs, !not_marker, Hst, Hc by exact Hc.
  destruct (dispatch (ks_cmds C st) line (String c w :: r) (ln + 1)) as [c1 [e|]]; cbn [try_func]; auto.
  destruct (cf_errorsAreFatal cf); reflexivity.
Qed.

Lemma platform_is_comment l : platform_comment l = true -> comment l = true.
Proof.
  unfold platform_comment, comment. intros H. apply startswith_spec in H as [t ->].
  unfold lstrip. cbn [append lstrip_by]. change (is_space "#") with false. cbv iota.
  rewrite startswith_cons, startswith_nil. reflexivity.
Qed.

(** A line that is a command, blank or a comment. *)
Definition simple (l : string) : bool := is_command l || blank l || comment l.

Lemma run_commands_fatal i : cf_errorsAreFatal cf = true -> forall lines ln st,
  forallb simple lines = true -> (forall l, In l lines -> l <> "") -> ks_state C st = None ->
  match execute dispatch (commands_from ln lines) (ks_cmds C st) with
  | (c, None) => run i None lines ln st =
      (set_platform C (platform_of lines (ks_platform C st)) (set_cmds C c st),
       Ok (Some (None, (ln + N.of_nat (length lines))%N)))
  | (c, Some e) => exists p, run i None lines ln st = (count_error C (set_platform C p (set_cmds C c st)), Err e)
  end.
Proof.
  intros HF. induction lines as [|l lines IH]; intros ln st H Hn Hst.
  { cbn [commands_from execute platform_of run_lines length]. rewrite N.add_0_r. destruct st; reflexivity. }
  cbn [forallb] in H. apply andb_true_iff in H as [H1 H2].
  assert (Hn' : forall x, In x lines -> x <> "") by (intros x Hx; apply Hn; simpl; auto).
  cbn [run_lines]. rewrite steps_eq. cbn [step commands_from platform_of].
  destruct (command_words l) as [ws|] eqn:Ec.
  - assert (Hp : platform_comment l = false).
    { apply command_words_spec in Ec as (Hb & _). apply orb_false_iff in Hb as [_ Hb].
      destruct (platform_comment l) eqn:Hp; auto. apply platform_is_comment in Hp. congruence. }
    rewrite Hp. cbn [execute]. rewrite (sm_command i l ws ln st Ec Hst).
    destruct (dispatch (ks_cmds C st) l ws (ln + 1)) as [c [e|]].
    + rewrite HF. exists (ks_platform C st). destruct st; reflexivity.
    + specialize (IH (ln + 1)%N (set_cmds C c st) H2 Hn' Hst). cbn [ks_cmds set_cmds] in IH.
      destruct (execute dispatch (commands_from (ln + 1) lines) c) as [c' [e'|]].
      * destruct IH as [p IH]. exists p. rewrite IH. reflexivity.
      * rewrite IH. cbn [length]. do 4 f_equal. lia.
  - assert (Hb : blank l || comment l = true).
    { unfold simple, is_command in H1. rewrite Ec in H1. exact H1. }
    unfold sm_step. assert (E : String.eqb l "" = false) by (apply String.eqb_neq, Hn; simpl; auto).
    rewrite E, ibc_eq, Hb.
    assert (Es : special_comments C l st = set_platform C (if platform_comment l then strip (drop 10 l) else ks_platform C st) st).
    { unfold special_comments. rewrite Hst. unfold platform_comment. destruct (startswith l "#platform="); destruct st; reflexivity. }
    rewrite Es. specialize (IH (ln + 1)%N (special_comments C l st) H2 Hn').
    rewrite special_comments_state, Es in IH. specialize (IH Hst). cbn [ks_cmds ks_platform set_platform] in IH.
    destruct (execute dispatch (commands_from (ln + 1) lines) (ks_cmds C st)) as [c' [e'|]].
    + destruct IH as [p IH]. exists p. rewrite IH. reflexivity.
    + rewrite IH. cbn [length]. do 4 f_equal. lia.
Qed.

Definition add_errors (k : N) st : kstate :=
  mkKs C (ks_cmds C st) (ks_sec C st) (ks_platform C st) (ks_state C st) (ks_depth C st) (ks_errors C st + k)
    (ks_dirs C st) (ks_sections C st).

Lemma run_commands_all i : cf_errorsAreFatal cf = false -> forall lines ln st,
  forallb simple lines = true -> (forall l, In l lines -> l <> "") -> ks_state C st = None ->
  let '(c, k) := execute_all dispatch (commands_from ln lines) (ks_cmds C st) in
  run i None lines ln st =
    (add_errors k (set_platform C (platform_of lines (ks_platform C st)) (set_cmds C c st)),
     Ok (Some (None, (ln + N.of_nat (length lines))%N))).
Proof.
  intros HF. induction lines as [|l lines IH]; intros ln st H Hn Hst.
  { cbn [commands_from execute_all platform_of run_lines length]. rewrite N.add_0_r. destruct st; unfold add_errors; cbn.
    rewrite N.add_0_r. reflexivity. }
  cbn [forallb] in H. apply andb_true_iff in H as [H1 H2].
  assert (Hn' : forall x, In x lines -> x <> "") by (intros x Hx; apply Hn; simpl; auto).
  cbn [run_lines]. rewrite steps_eq. cbn [step commands_from platform_of].
  destruct (command_words l) as [ws|] eqn:Ec.
  - assert (Hp : platform_comment l = false).
    { apply command_words_spec in Ec as (Hb & _). apply orb_false_iff in Hb as [_ Hb].
      destruct (platform_comment l) eqn:Hp; auto. apply platform_is_comment in Hp. congruence. }
    rewrite Hp. cbn [execute_all]. rewrite (sm_command i l ws ln st Ec Hst).
    destruct (dispatch (ks_cmds C st) l ws (ln + 1)) as [c e].
    set (st1 := match e with None => set_cmds C c st | Some _ => count_error C (set_cmds C c st) end).
    assert (S1 : ks_state C st1 = None) by (unfold st1; destruct e; exact Hst).
    assert (S2 : ks_cmds C st1 = c) by (unfold st1; destruct e; reflexivity).
    specialize (IH (ln + 1)%N st1 H2 Hn' S1). rewrite S2 in IH.
    destruct (execute_all dispatch (commands_from (ln + 1) lines) c) as [c' k'].
    assert (E : match e with None => (set_cmds C c st, Ok (Go None (ln + 1)%N))
       | Some e => (count_error C (set_cmds C c st), if cf_errorsAreFatal cf then Err e else Ok (Go None (ln + 1)%N)) end
       = (st1, Ok (Go None (ln + 1)%N))) by (unfold st1; rewrite HF; destruct e; reflexivity).
    rewrite E, IH. cbn [length]. f_equal; [|do 3 f_equal; lia].
    unfold st1. destruct e; unfold add_errors; cbn; f_equal; lia.
  - assert (Hb : blank l || comment l = true).
    { unfold simple, is_command in H1. rewrite Ec in H1. exact H1. }
    unfold sm_step. assert (E : String.eqb l "" = false) by (apply String.eqb_neq, Hn; simpl; auto).
    rewrite E, ibc_eq, Hb.
    assert (Es : special_comments C l st = set_platform C (if platform_comment l then strip (drop 10 l) else ks_platform C st) st).
    { unfold special_comments. rewrite Hst. unfold platform_comment. destruct (startswith l "#platform="); destruct st; reflexivity. }
    rewrite Es. specialize (IH (ln + 1)%N (special_comments C l st) H2 Hn').
    rewrite special_comments_state, Es in IH. specialize (IH Hst). cbn [ks_cmds ks_platform set_platform] in IH.
    destruct (execute_all dispatch (commands_from (ln + 1) lines) (ks_cmds C st)) as [c' k'].
    rewrite IH. cbn [length]. f_equal. do 3 f_equal. lia.
Qed.

(** ** Commands between sections *)

Definition hook_keeps (i : hook) : Prop := forall f st, ks_cmds C (fst (i f st)) = ks_cmds C st.

Lemma finalize_cmds n st : ks_cmds C (fst (finalize C n st)) = ks_cmds C st.
Proof.
  unfold finalize. destruct (assoc n (ks_sections C st)); auto. destruct (sec_finalize s (ks_sec C st)); reflexivity.
Qed.
Lemma call_line_cmds n l st : ks_cmds C (fst (call_line C n l st)) = ks_cmds C st.
Proof.
  unfold call_line. destruct (assoc n (ks_sections C st)); auto.
  destruct (sec_handleLine l s (ks_sec C st)) as [[? ?] ?]; reflexivity.
Qed.
Lemma call_header_cmds n ln a st : ks_cmds C (fst (call_header C cf n ln a st)) = ks_cmds C st.
Proof.
  unfold call_header. destruct (assoc n (ks_sections C st)); auto.
  destruct (sec_handleHeader _ ln a s (ks_sec C st)) as [[? ?] ?]; reflexivity.
Qed.
Lemma try_func_cmds r : ks_cmds C (fst (try_func C cf r)) = ks_cmds C (fst r).
Proof. destruct r as [st [e|]]; reflexivity. Qed.

Lemma rs_step_cmds i n line ln st : hook_keeps i \/ is_include line = false ->
  ks_cmds C (fst (rs_step C cf i n line ln st)) = ks_cmds C st.
Proof.
  intros Hi. unfold rs_step. set (eof := String.eqb line "" && N.eqb (ks_depth C st) 0).
  destruct (eof && (F8 <=? cf_version cf)%Z); auto.
  assert (F : ks_cmds C (fst (if eof then finalize C n st else (st, None))) = ks_cmds C st).
  { destruct eof; [apply finalize_cmds|auto]. }
  destruct (if eof then finalize C n st else (st, None)) as [s1 [e|]]; simpl in F; auto.
  rewrite <- F. clear F.
  assert (Hc : forall x : res next, ks_cmds C (fst (
     match call_line C n line s1 with (st, Some e) => (st, Err e) | (st, None) => (st, x) end)) = ks_cmds C s1).
  { intros x. pose proof (call_line_cmds n line s1) as F. destruct (call_line C n line s1) as [s2 [e|]]; auto. }
  destruct (is_blank_or_comment line && negb (all_lines C n s1)); auto.
  destruct (startswith (lstrip line) "%"); [|apply Hc].
  destruct (split_ws line) as [|w ws]; auto.
  destruct (negb (valid_state C s1 w) && _); [apply Hc|].
  destruct (shlex_split false line) as [[|a0 more]|e] eqn:Es; auto.
  pose proof (finalize_cmds n s1) as F. destruct (finalize C n s1) as [s2 e2]; simpl in F.
  destruct (String.eqb a0 "%end"). { destruct e2; auto. }
  destruct (String.eqb a0 "%include") eqn:Ei.
  { destruct more as [|[|c r] more]; auto.
    destruct Hi as [Hi|Hi].
    - specialize (Hi (String c r) s1). destruct (i (String c r) s1) as [s3 [e3|]]; exact Hi.
    - exfalso. unfold is_include in Hi. rewrite Es in Hi. cbn [first_word_is] in Hi. rewrite Ei, orb_true_r in Hi. discriminate. }
  destruct (String.eqb a0 "%ksappend"); auto.
  destruct (valid_state C s1 a0); auto.
  destruct (F8 <=? cf_version cf)%Z; auto.
  destruct e2; auto.
Qed.

(** What one line of the command part does to the commands. *)
Lemma sm_step_cmds i line ln st s1 x : hook_keeps i \/ is_include line = false -> ks_state C st = None ->
  sm_step C dispatch cf i line ln st = (s1, Ok x) ->
  match command_words line with
  | Some ws => exists e, dispatch (ks_cmds C st) line ws (ln + 1)%N = (ks_cmds C s1, e) /\
                         (cf_errorsAreFatal cf = true -> e = None)
  | None => ks_cmds C s1 = ks_cmds C st
  end.
Proof.
  intros Hi Hst H. destruct (command_words line) as [ws|] eqn:Ec.
  - rewrite (sm_command i line ws ln st Ec Hst) in H.
    destruct (dispatch (ks_cmds C st) line ws (ln + 1)) as [c [e|]].
    + destruct (cf_errorsAreFatal cf); [discriminate|]. injection H as <- _. exists (Some e). split; auto. discriminate.
    + injection H as <- _. exists None. auto.
  - revert H. unfold sm_step. destruct (String.eqb line ""). { intros H; injection H as <- _; auto. }
    rewrite ibc_eq. unfold command_words in Ec. destruct (blank line || comment line).
    { intros H; injection H as <- _. unfold special_comments. rewrite Hst. destruct (startswith line "#platform="); auto. }
    destruct (shlex_split true line) as [[|a0 more]|e] eqn:Es; try discriminate.
    destruct (String.eqb a0 "%include") eqn:Ei.
    { destruct more as [|[|c r] more]; try discriminate.
      destruct Hi as [Hi|Hi].
      - specialize (Hi (String c r) st). destruct (i (String c r) st) as [s3 [e3|]]; [discriminate|].
        intros H; injection H as <- _. exact Hi.
      - exfalso. unfold is_include in Hi. rewrite Es in Hi. cbn [first_word_is] in Hi. rewrite Ei in Hi. discriminate. }
    rewrite Hst. destruct (String.eqb a0 "%ksappend"). { intros H; injection H as <- _; auto. }
    destruct a0 as [|c r]; [discriminate|].
    destruct (Ascii.eqb c "%"); [|discriminate].
    destruct (negb (valid_state C st (String c r)) && cf_unknownSectionIsFatal cf); [discriminate|].
    cbv zeta. match goal with |- context [set_state C _ ?x] => set (t := x) end.
    assert (T : ks_cmds C t = ks_cmds C st) by (unfold t; destruct (valid_state C st (String c r)); reflexivity).
    pose proof (try_func_cmds (call_header C cf (String c r) (ln + 1) (String c r :: more) (set_state C (Some (String c r)) t))) as F.
    rewrite call_header_cmds in F.
    destruct (try_func C cf _) as [s2 [e|]]; [discriminate|]. intros H; injection H as <- _.
    simpl in F. congruence.
Qed.

Lemma run_outside i : hook_closed C i -> forall lines m ln st s1 x,
  hook_keeps i \/ forallb (fun l => negb (is_include l)) lines = true ->
  (forall l, In l lines -> l <> "") -> forallb plain_marker lines = true -> good C m st -> may cf m lines ->
  run i m lines ln st = (s1, Ok x) ->
  ks_cmds C s1 = fst (execute_all dispatch (commands_outside m ln lines) (ks_cmds C st)) /\
  (cf_errorsAreFatal cf = true -> execute dispatch (commands_outside m ln lines) (ks_cmds C st) = (ks_cmds C s1, None)).
Proof.
  intros Hi. induction lines as [|line lines IH]; intros m ln st s1 x Hk Hl Hm Hg Hv.
  { cbn [run_lines]. intros H; injection H as <- <-. split; auto. }
  cbn [run_lines]. cbn [forallb] in Hm. apply andb_true_iff in Hm as [Hm Hms].
  apply may_cons in Hv as [Hv Hvs].
  assert (Hl1 : line <> "") by (apply Hl; simpl; auto).
  assert (Hk1 : hook_keeps i \/ is_include line = false).
  { destruct Hk as [Hk|Hk]; auto. cbn [forallb] in Hk. apply andb_true_iff in Hk as [Hk _]. apply negb_true_iff in Hk. auto. }
  assert (Hk2 : hook_keeps i \/ forallb (fun l => negb (is_include l)) lines = true).
  { destruct Hk as [Hk|Hk]; auto. cbn [forallb] in Hk. apply andb_true_iff in Hk as [_ Hk]. auto. }
  destruct (steps C dispatch cf 3 i m line ln st) as [s2 [y|e]] eqn:E; [|discriminate].
  pose proof E as E0. apply (steps_open C dispatch cf i m line ln st s2 y 2) in E as [-> Hg2]; auto.
  intros H. apply IH in H as [A B]; auto; [|intros l Hin; apply Hl; simpl; auto].
  rewrite steps_eq in E0. cbn [commands_outside]. destruct m as [n|]; cbn [step] in E0.
  - pose proof (rs_step_cmds i n line ln st Hk1) as K.
    destruct (rs_step C cf i n line ln st) as [s3 [z|e]] eqn:Er; [|discriminate].
    destruct Hv as [Hv|[? _]]; [|discriminate].
    apply rs_step_open in Er as [-> _]; auto. injection E0 as ->. simpl in K. rewrite K in A, B. auto.
  - specialize (Hg eq_refl). destruct (sm_step C dispatch cf i line ln st) as [s3 [z|e]] eqn:Er; [|discriminate].
    pose proof (sm_step_cmds i line ln st s3 z Hk1 Hg Er) as K.
    apply sm_step_open in Er as [-> _]; auto. injection E0 as ->.
    destruct (command_words line) as [ws|].
    + destruct K as (e & K & Ke). cbn [execute_all execute]. rewrite K. 
      destruct (execute_all dispatch (commands_outside (open_after None line) (ln + 1) lines) (ks_cmds C s2)) as [c' k'] eqn:Ex.
      cbn [fst] in A |- *. split; auto. intros HF. rewrite (Ke HF). auto.
    + rewrite K in A, B. auto.
Qed.

Lemma include_keeps r : cf_followIncludes cf = false -> hook_keeps (handle_include C cf r).
Proof. intros H f st. unfold handle_include. rewrite H. reflexivity. Qed.

Lemma include_off_closed r : cf_followIncludes cf = false -> hook_closed C (handle_include C cf r).
Proof. intros H f st Hst. unfold handle_include. rewrite H. auto. Qed.


(** Without include lines the include function does not matter. *)
Lemma steps_noinc i j line : is_include line = false -> forall k m ln st,
  steps C dispatch cf k i m line ln st = steps C dispatch cf k j m line ln st.
Proof.
  intros Hi. unfold is_include in Hi. apply orb_false_iff in Hi as [Ht Hf].
  induction k as [|k IH]; intros m ln st; [reflexivity|]. rewrite !steps_eq.
  assert (S : step C dispatch cf i m line ln st = step C dispatch cf j m line ln st).
  { destruct m as [n|]; cbn [step].
    - unfold rs_step. set (eof := String.eqb line "" && N.eqb (ks_depth C st) 0).
      destruct (eof && (F8 <=? cf_version cf)%Z); auto.
      destruct (if eof then finalize C n st else (st, None)) as [s1 [e|]]; auto.
      destruct (is_blank_or_comment line && negb (all_lines C n s1)); auto.
      destruct (startswith (lstrip line) "%"); auto.
      destruct (split_ws line) as [|w ws]; auto.
      destruct (negb (valid_state C s1 w) && _); auto.
      destruct (shlex_split false line) as [[|a0 more]|e]; auto.
      destruct (String.eqb a0 "%end"); auto. cbn [first_word_is] in Hf. rewrite Hf. reflexivity.
    - unfold sm_step. destruct (String.eqb line ""); auto. destruct (is_blank_or_comment line); auto.
      destruct (shlex_split true line) as [[|a0 more]|e]; auto.
      cbn [first_word_is] in Ht. rewrite Ht. reflexivity. }
  rewrite S. destruct (step C dispatch cf j m line ln st) as [s1 [[|m1 l1|m1 l1]|e]]; auto.
Qed.

Lemma run_noinc i j lines : forallb (fun l => negb (is_include l)) lines = true -> forall m ln st,
  run i m lines ln st = run j m lines ln st.
Proof.
  induction lines as [|l lines IH]; intros H m ln st; [reflexivity|].
  cbn [forallb] in H. apply andb_true_iff in H as [H1 H2]. apply negb_true_iff in H1.
  cbn [run_lines]. rewrite (steps_noinc i j l H1).
  destruct (steps C dispatch cf 3 j m l ln st) as [s1 [[[m1 l1]|]|e]]; auto.
Qed.

End Runs.

Section Count.
Variable C : Type.
Variable dispatch : C -> string -> list string -> N -> C * option exn.
Variable cf : config.
Notation kstate := (kstate C).
Implicit Types st : kstate.

Lemma rs_step_count i n line ln st : line <> "" ->
  match rs_step C cf i n line ln st with
  | (_, Ok Stop) => False
  | (_, Ok (Go _ l)) => l = (ln + 1)%N
  | (_, Ok (Again _ l)) => l = ln
  | _ => True
  end.
Proof.
  intros Hl. unfold rs_step. apply String.eqb_neq in Hl. rewrite Hl. cbn [andb].
  destruct (is_blank_or_comment line && negb (all_lines C n st)); auto.
  destruct (startswith (lstrip line) "%"); [|destruct (call_line C n line st) as [? [?|]]; auto].
  destruct (split_ws line) as [|w ws]; auto.
  destruct (negb (valid_state C st w) && _); [destruct (call_line C n line st) as [? [?|]]; auto|].
  destruct (shlex_split false line) as [[|a0 more]|e]; auto.
  destruct (String.eqb a0 "%end"); [destruct (finalize C n st) as [? [?|]]; auto|].
  destruct (String.eqb a0 "%include").
  { destruct more as [|[|c r] more]; auto. destruct (i (String c r) st) as [? [?|]]; auto. }
  destruct (String.eqb a0 "%ksappend"); auto.
  destruct (valid_state C st a0); auto.
  destruct (F8 <=? cf_version cf)%Z; auto.
  destruct (finalize C n st) as [? [?|]]; auto. apply N.add_sub.
Qed.

Lemma sm_step_count i line ln st : line <> "" ->
  match sm_step C dispatch cf i line ln st with
  | (_, Ok Stop) => False
  | (_, Ok (Go _ l)) => l = (ln + 1)%N
  | (_, Ok (Again _ l)) => l = ln
  | _ => True
  end.
Proof.
  intros Hl. unfold sm_step. apply String.eqb_neq in Hl. rewrite Hl.
  destruct (is_blank_or_comment line); auto.
  destruct (shlex_split true line) as [[|a0 more]|e]; auto.
  destruct (String.eqb a0 "%include").
  { destruct more as [|[|c r] more]; auto. destruct (i (String c r) st) as [? [?|]]; auto. }
  destruct (ks_state C st). { destruct (0 <? ks_depth C st)%N; auto. apply N.add_sub. }
  destruct (String.eqb a0 "%ksappend"); auto.
  destruct a0 as [|c r]; auto.
  destruct (Ascii.eqb c "%").
  - destruct (negb (valid_state C st (String c r)) && cf_unknownSectionIsFatal cf); auto.
    cbv zeta. match goal with |- context [try_func C cf ?r] => destruct (try_func C cf r) as [? [?|]] end; auto.
  - match goal with |- context [try_func C cf ?r] => destruct (try_func C cf r) as [? [?|]] end; auto.
Qed.

Lemma steps_count i line : line <> "" -> forall k m ln st,
  match steps C dispatch cf k i m line ln st with
  | (_, Ok None) => False
  | (_, Ok (Some (_, l))) => l = (ln + 1)%N
  | _ => True
  end.
Proof.
  intros Hl. induction k as [|k IH]; intros m ln st; [exact I|]. rewrite steps_eq.
  assert (S : match step C dispatch cf i m line ln st with
     | (_, Ok Stop) => False | (_, Ok (Go _ l)) => l = (ln + 1)%N | (_, Ok (Again _ l)) => l = ln | _ => True end).
  { destruct m; [apply rs_step_count; auto|apply sm_step_count; auto]. }
  destruct (step C dispatch cf i m line ln st) as [s1 [[|m1 l1|m1 l1]|e]]; auto. subst l1. apply IH.
Qed.

(** Every line is counted once. *)
Lemma run_lines_both i lines : forall m ln st, (forall l, In l lines -> l <> "") ->
  match run_lines C dispatch cf i m lines ln st with
  | (_, Ok None) => False
  | (_, Ok (Some (_, l))) => l = (ln + N.of_nat (length lines))%N
  | _ => True
  end.
Proof.
  induction lines as [|line lines IH]; intros m ln st H; [cbn; lia|].
  cbn [run_lines]. pose proof (steps_count i line (H line (or_introl eq_refl)) 3 m ln st) as S.
  destruct (steps C dispatch cf 3 i m line ln st) as [s1 [[[m1 l1]|]|e]]; auto. subst l1.
  specialize (IH m1 (ln + 1)%N s1 (fun l Hl => H l (or_intror Hl))).
  destruct (run_lines C dispatch cf i m1 lines (ln + 1) s1) as [s2 [[[m2 l2]|]|e]]; auto.
  subst. cbn [length]. lia.
Qed.

Lemma run_lines_count i lines m ln st : (forall l, In l lines -> l <> "") ->
  forall m' l', snd (run_lines C dispatch cf i m lines ln st) = Ok (Some (m', l')) -> l' = (ln + N.of_nat (length lines))%N.
Proof.
  intros H m' l'. pose proof (run_lines_both i lines m ln st H) as B.
  destruct (run_lines C dispatch cf i m lines ln st) as [s2 [[[m2 l2]|]|e]]; simpl; try discriminate.
  intros E; injection E as <- <-. exact B.
Qed.

Lemma run_lines_no_stop i lines m ln st s1 : (forall l, In l lines -> l <> "") ->
  run_lines C dispatch cf i m lines ln st = (s1, Ok None) -> False.
Proof.
  intros H E. pose proof (run_lines_both i lines m ln st H) as B. rewrite E in B. exact B.
Qed.

End Count.

(** ** The number an error carries *)

Section Numbers.
Variable C : Type.
Variable dispatch : C -> string -> list string -> N -> C * option exn.
Variable cf : config.
Notation kstate := (kstate C).
Implicit Types st : kstate.
Hypothesis HD : reports_line dispatch.

(** Errors with a number carry [n]. *)
Definition numbered (n : N) (e : exn) : Prop := forall k t, e = KSParseError (Some k) t -> k = n.

Lemma unlabelled_numbered n e : unlabelled e -> numbered n e.
Proof. intros H k t ->. discriminate. Qed.

Lemma call_line_numbered n line st s1 e l : call_line C n line st = (s1, Some e) -> numbered l e.
Proof.
  unfold call_line. destruct (assoc n (ks_sections C st)) as [o|]; [|intros H; injection H as _ <-; intros ? ? ?; discriminate].
  destruct o as [k t a|t|a b]; cbn [sec_handleLine]; try discriminate.
  destruct (packages_handleLine line (sh_packages (ks_sec C st))) as [p x] eqn:E.
  intros H; injection H as _ ->. apply packages_line_exn in E. apply unlabelled_numbered, E.
Qed.

Lemma call_header_numbered n ln args st s1 e : call_header C cf n ln args st = (s1, Some e) -> numbered ln e.
Proof.
  unfold call_header. destruct (assoc n (ks_sections C st)) as [o|]; [|intros H; injection H as _ <-; intros ? ? ?; discriminate].
  destruct o as [k t a|t|a b]; cbn [sec_handleHeader]; try discriminate.
  - unfold script_handleHeader. destruct (parse_args (script_parser k) (Some ln) (tl args)) eqn:E; [discriminate|].
    intros H; injection H as _ <-. destruct (build_perr _ _ _ _ (script_table_sane k) E) as [u ->]. intros ? ? H; congruence.
  - unfold packages_handleHeader.
    destruct (parse_args (packages_parser (cf_version cf)) (Some ln) (tl args)) eqn:E.
    + unfold packages_header.
      repeat match goal with
      | |- context [if ?b then _ else _] => match b with (_ <? _)%Z => destruct b | (_ && _) => destruct b end
      end; cbv beta iota; intros H; try discriminate; injection H as _ <-; intros ? ? H; congruence.
    + intros H; injection H as _ <-. destruct (build_perr _ _ _ _ (packages_table_sane _) E) as [u ->]. intros ? ? H; congruence.
Qed.

Lemma finalize_numbered n st s1 e l : finalize C n st = (s1, Some e) -> numbered l e.
Proof.
  unfold finalize. destruct (assoc n (ks_sections C st)); [destruct (sec_finalize s (ks_sec C st)); discriminate|].
  intros H; injection H as _ <-. intros ? ? ?; discriminate.
Qed.

Definition hook_silent (i : string -> kstate -> kstate * option exn) (line : string) : Prop :=
  (forall f st, snd (i f st) = None) \/ is_include line = false.

Lemma rs_step_numbered i n line ln st s1 e : line <> "" -> hook_silent i line ->
  rs_step C cf i n line ln st = (s1, Err e) -> numbered (ln + 1) e.
Proof.
  intros Hl Hi. unfold rs_step. apply String.eqb_neq in Hl. rewrite Hl. cbn [andb].
  assert (Hp : forall t s, (s, Err (KSParseError (Some (ln + 1)%N) t)) = (s1, @Err next e) -> numbered (ln + 1) e).
  { intros t s H; injection H as _ <-. intros ? ? H; congruence. }
  assert (Hh : match call_line C n line st with (st, Some e) => (st, Err e) | (st, None) => (st, Ok (Go (Some n) (ln + 1)%N)) end
     = (s1, Err e) -> numbered (ln + 1) e).
  { destruct (call_line C n line st) as [s2 [x|]] eqn:E; [|discriminate]. intros H; injection H as <- <-.
    eapply call_line_numbered; eauto. }
  destruct (is_blank_or_comment line && negb (all_lines C n st)); [discriminate|].
  destruct (startswith (lstrip line) "%"); [|exact Hh].
  destruct (split_ws line) as [|w ws]; [intros H; injection H as _ <-; intros ? ? ?; discriminate|].
  destruct (negb (valid_state C st w) && _); [exact Hh|].
  destruct (shlex_split false line) as [[|a0 more]|x] eqn:Es; [discriminate| |].
  2: { intros H; injection H as _ <-. apply unlabelled_numbered, (shlex_split_unlabelled _ _ _ Es). }
  assert (Hf : forall m : next, match finalize C n st with (st, Some e) => (st, Err e) | (st, None) => (st, Ok m) end
     = (s1, Err e) -> numbered (ln + 1) e).
  { intros m. destruct (finalize C n st) as [s2 [x|]] eqn:E; [|discriminate]. intros H; injection H as <- <-.
    eapply finalize_numbered; eauto. }
  destruct (String.eqb a0 "%end"); [apply Hf|].
  destruct (String.eqb a0 "%include") eqn:Ei.
  { destruct more as [|[|c r] more]; try apply Hp. destruct Hi as [Hi|Hi].
    - specialize (Hi (String c r) st). destruct (i (String c r) st) as [s2 [x|]]; [discriminate|discriminate].
    - unfold is_include in Hi. apply orb_false_iff in Hi as [_ Hi]. rewrite Es in Hi. cbn [first_word_is] in Hi. congruence. }
  destruct (String.eqb a0 "%ksappend"); [discriminate|].
  destruct (valid_state C st a0); [|discriminate].
  destruct (F8 <=? cf_version cf)%Z; [apply Hp|apply Hf].
Qed.

Lemma sm_step_numbered i line ln st s1 e : line <> "" -> hook_silent i line ->
  sm_step C dispatch cf i line ln st = (s1, Err e) -> numbered (ln + 1) e.
Proof.
  intros Hl Hi. unfold sm_step. apply String.eqb_neq in Hl. rewrite Hl.
  assert (Hp : forall t s, (s, Err (KSParseError (Some (ln + 1)%N) t)) = (s1, @Err next e) -> numbered (ln + 1) e).
  { intros t s H; injection H as _ <-. intros ? ? H; congruence. }
  assert (Ht : forall r (x : next), (forall y, snd r = Some y -> numbered (ln + 1) y) ->
     match try_func C cf r with (st, Some e) => (st, Err e) | (st, None) => (st, Ok x) end = (s1, @Err next e) -> numbered (ln + 1) e).
  { intros [s2 [y|]] x Hr; cbn [try_func]; [|discriminate]. destruct (cf_errorsAreFatal cf); [|discriminate].
    intros H; injection H as _ <-. apply Hr. reflexivity. }
  destruct (is_blank_or_comment line); [discriminate|].
  destruct (shlex_split true line) as [[|a0 more]|x] eqn:Es;
    [intros H; injection H as _ <-; intros ? ? ?; discriminate| |].
  2: { intros H; injection H as _ <-. apply unlabelled_numbered, (shlex_split_unlabelled _ _ _ Es). }
  destruct (String.eqb a0 "%include") eqn:Ei.
  { destruct more as [|[|c r] more]; try apply Hp. destruct Hi as [Hi|Hi].
    - specialize (Hi (String c r) st). destruct (i (String c r) st) as [s2 [x|]]; [discriminate|discriminate].
    - unfold is_include in Hi. apply orb_false_iff in Hi as [Hi _]. rewrite Es in Hi. cbn [first_word_is] in Hi. congruence. }
  destruct (ks_state C st); [destruct (0 <? ks_depth C st)%N; discriminate|].
  destruct (String.eqb a0 "%ksappend"); [discriminate|].
  destruct a0 as [|c r]; [intros H; injection H as _ <-; intros ? ? ?; discriminate|].
  destruct (Ascii.eqb c "%").
  - destruct (negb (valid_state C st (String c r)) && cf_unknownSectionIsFatal cf); [apply Hp|].
    cbv zeta. apply Ht. intros y Hy.
    match type of Hy with snd ?r = _ => destruct r as [s2 z] eqn:E end. simpl in Hy. subst z.
    eapply call_header_numbered; eauto.
  - apply Ht. intros y Hy.
    destruct (dispatch (ks_cmds C st) line (String c r :: more) (ln + 1)%N) as [c1 z] eqn:E. simpl in Hy. subst z.
    intros k t ->. eapply HD; eauto.
Qed.

Lemma steps_numbered i line : line <> "" -> hook_silent i line -> forall j m ln st s1 e,
  steps C dispatch cf j i m line ln st = (s1, Err e) -> numbered (ln + 1) e.
Proof.
  intros Hl Hi. induction j as [|j IH]; intros m ln st s1 e.
  { cbn [steps]. intros H; injection H as _ <-. intros ? ? ?; discriminate. }
  rewrite steps_eq.
  assert (S : forall s2 x, step C dispatch cf i m line ln st = (s2, Err x) -> numbered (ln + 1) x).
  { intros s2 x. destruct m; cbn [step]; [apply rs_step_numbered; auto|apply sm_step_numbered; auto]. }
  pose proof (fun m1 => rs_step_count C cf i m1 line ln st Hl) as Cr.
  pose proof (sm_step_count C dispatch cf i line ln st Hl) as Cs.
  destruct (step C dispatch cf i m line ln st) as [s2 [[|m1 l1|m1 l1]|x]] eqn:E; try discriminate.
  - assert (l1 = ln) as ->.
    { destruct m as [m|]; cbn [step] in E; [specialize (Cr m); rewrite E in Cr|rewrite E in Cs]; auto. }
    apply IH.
  - intros H; injection H as <- <-. eapply S; eauto.
Qed.

(** The line at which a list of lines fails. *)
Lemma run_lines_failing i lines : (forall l, In l lines -> l <> "" /\ hook_silent i l) -> forall m ln st s1 e,
  run_lines C dispatch cf i m lines ln st = (s1, Err e) ->
  exists pre l post s0 m0, lines = pre ++ l :: post /\
    run_lines C dispatch cf i m pre ln st = (s0, Ok (Some (m0, (ln + N.of_nat (length pre))%N))) /\
    run_lines C dispatch cf i m (pre ++ [l]) ln st = (s1, Err e) /\
    numbered (ln + N.of_nat (length pre) + 1) e.
Proof.
  induction lines as [|l lines IH]; intros H m ln st s1 e; [discriminate|].
  cbn [run_lines]. destruct (H l (or_introl eq_refl)) as [Hl Hi].
  pose proof (steps_count C dispatch cf i l Hl 3 m ln st) as Hc.
  destruct (steps C dispatch cf 3 i m l ln st) as [s2 [[[m2 l2]|]|x]] eqn:E; [|contradiction|].
  - subst l2. intros R. apply IH in R as (pre & l' & post & s0 & m0 & -> & R1 & R2 & R3); [|intros; apply H; simpl; auto].
    exists (l :: pre), l', post, s0, m0. split; [reflexivity|]. cbn [run_lines app length]. rewrite E.
    assert (A : (ln + 1 + N.of_nat (length pre) = ln + N.of_nat (S (length pre)))%N) by lia.
    rewrite <- A. auto.
  - intros R; injection R as <- <-. exists [], l, lines, st, m. cbn [length app run_lines]. rewrite N.add_0_r, E.
    split; auto. split; auto. split; auto. eapply steps_numbered; eauto.
Qed.

End Numbers.
