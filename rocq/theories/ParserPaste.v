(** * An included file and its pasted lines (C15) *)

From Verif Require Import PyStrFacts ShlexFacts PreFacts ArgParseFacts Parser ParserFacts ParserSpec ParserRel ParserLines ParserRun.
From Verif Require Import Value.
Local Open Scope string_scope.
Local Open Scope list_scope.
Local Arguments Ascii.eqb : simpl never.
Local Arguments String.eqb : simpl never.

Section Paste.
Variable C : Type.
Variable dispatch : C -> string -> list string -> N -> C * option exn.
Variable cf : config.
Variable L : N -> N -> Prop.
Variable R : C -> C -> Prop.
Hypothesis L0 : L 0%N 0%N.
Hypothesis LS : forall n m, L n m -> L (n + 1)%N (m + 1)%N.
Hypothesis HD : labels_only L R dispatch.
Notation kstate := (kstate C).
Notation hook := (string -> kstate -> kstate * option exn).
Notation run := (run_lines C dispatch cf).
Notation ksim := (ksim C cf L R).
Notation ressim := (ressim C cf L R).
Notation psim := (psim L).
Implicit Types st : kstate.

Lemma steps_sim_top k i i' j m line ln ln' st st' : hook_sim C cf L R k i i' -> hook_closed C i ->
  line <> "" -> plain_marker line = true -> good C m st -> may cf m [line] -> L ln ln' -> ksim k st st' ->
  ressim k psim (steps C dispatch cf (S j) i m line ln st) (steps C dispatch cf (S j) i' m line ln' st').
Proof.
  intros Hi Hc Hl Hm Hg Hv HL HS. rewrite !steps_eq. destruct m as [n|]; cbn [step].
  - destruct Hv as [Hv|[? _]]; [|discriminate].
    pose proof (rs_step_sim C cf L R LS k i i' n line ln ln' st st' Hi HL HS ltac:(auto)) as S.
    destruct (rs_step C cf i n line ln st) as [s1 [x|e]] eqn:E, (rs_step C cf i' n line ln' st') as [s1' [x'|e']];
      destruct S as [S1 S2]; simpl in S1, S2; try contradiction; [|split; simpl; auto].
    apply rs_step_open in E as [-> _]; auto. destruct x'; simpl in S2; try contradiction. split; simpl; auto.
  - specialize (Hg eq_refl).
    pose proof (sm_step_sim C dispatch cf L R LS HD k i i' line ln ln' st st' Hi HL HS ltac:(auto)) as S.
    destruct (sm_step C dispatch cf i line ln st) as [s1 [x|e]] eqn:E, (sm_step C dispatch cf i' line ln' st') as [s1' [x'|e']];
      destruct S as [S1 S2]; simpl in S1, S2; try contradiction; [|split; simpl; auto].
    apply sm_step_open in E as [-> _]; auto. destruct x'; simpl in S2; try contradiction. split; simpl; auto.
Qed.

Lemma run_lines_sim_top k i i' : hook_sim C cf L R k i i' -> hook_closed C i -> forall lines m ln ln' st st',
  (forall l, In l lines -> l <> "") -> forallb plain_marker lines = true -> good C m st -> may cf m lines ->
  L ln ln' -> ksim k st st' ->
  ressim k psim (run i m lines ln st) (run i' m lines ln' st').
Proof.
  intros Hi Hc. induction lines as [|line lines IH]; intros m ln ln' st st' Hl Hm Hg Hv HL HS.
  { split; simpl; auto. }
  cbn [run_lines]. cbn [forallb] in Hm. apply andb_true_iff in Hm as [Hm Hms]. apply may_cons in Hv as [Hv Hvs].
  assert (Hl1 : line <> "") by (apply Hl; simpl; auto).
  pose proof (steps_sim_top k i i' 2 m line ln ln' st st' Hi Hc Hl1 Hm Hg Hv HL HS) as S.
  destruct (steps C dispatch cf 3 i m line ln st) as [s1 [x|e]] eqn:E,
           (steps C dispatch cf 3 i' m line ln' st') as [s1' [x'|e']];
    destruct S as [S1 S2]; simpl in S1, S2; try contradiction; [|split; simpl; auto].
  apply (steps_open C dispatch cf i m line ln st s1 x 2) in E as [-> Hg2]; auto.
  destruct x' as [[m' l']|]; simpl in S2; try contradiction. destruct S2 as [<- S2].
  apply IH; auto. intros l Hin; apply Hl; simpl; auto.
Qed.

Lemma position_free_resolve f st : position_free cf -> resolve_path C cf f st = f.
Proof.
  intros Hp. unfold resolve_path. destruct (cf_exists cf f) eqn:E; auto.
  destruct (N.eqb (ks_depth C st) 0); auto. destruct (dir_at _ _) as [d|]; auto.
  destruct (cf_exists cf (path_join d f)) eqn:E'; auto. apply Hp in E'. congruence.
Qed.

End Paste.

Section Paste2.
Variable C : Type.
Variable dispatch : C -> string -> list string -> N -> C * option exn.
Variable cf : config.
Variable R : C -> C -> Prop.
Notation kstate := (kstate C).
Notation hook := (string -> kstate -> kstate * option exn).
Notation run := (run_lines C dispatch cf).
Implicit Types st : kstate.

(** Line numbers are not compared. *)
Definition any_line (a b : N) : Prop := True.

Lemma handle_include_on rd f st : cf_followIncludes cf = true -> cf_missingIncludeIsFatal cf = true ->
  handle_include C cf rd f st =
  match rd f (set_depth C (ks_depth C st + 1) st) with
  | (st, Some e) => (st, Some e)
  | (st, None) => (set_depth C (ks_depth C st - 1) st, None)
  end.
Proof.
  intros H1 H2. unfold handle_include. rewrite H1, H2. cbn [negb].
  destruct (rd f (set_depth C (ks_depth C st + 1) st)) as [s [e|]]; auto. rewrite andb_false_r. reflexivity.
Qed.

Lemma paste (HD : labels_only any_line R dispatch) n f s l more LB ln st :
  cf_followIncludes cf = true -> cf_missingIncludeIsFatal cf = true ->
  position_free cf -> closed_files cf -> cf_load cf f = Some s -> (forall c, R c c) ->
  f <> "" -> blank l || comment l = false -> shlex_split true l = Ok ("%include" :: f :: more) ->
  ks_state C st = None -> ks_depth C st = 0%N ->
  let i := handle_include C cf (read_kickstart C dispatch cf (S n)) in
  snd (run i None (l :: LB) ln st) <> Err OutOfFuel ->
  same_result any_line R
    (outcome C (run i None (splitlines s ++ LB) ln st)) (outcome C (run i None (l :: LB) ln st)).
Proof.
  intros Hfol Hfat Hpos Hcl Hload HR Hf Hb Hs Hst Hd i.
  assert (A1 : any_line 0 0) by exact I.
  assert (A2 : forall n m : N, any_line n m -> any_line (n + 1) (m + 1)) by (intros; exact I).
  assert (Step : sm_step C dispatch cf i l ln st =
    match i f st with (st, Some e) => (st, Err e) | (st, None) => (st, Ok (Go None (ln + 1)%N)) end).
  { unfold sm_step. assert (Hl : String.eqb l "" = false) by (apply String.eqb_neq; intros ->; discriminate).
    rewrite Hl, ibc_eq, Hb, Hs. cbn [String.eqb]. change (String.eqb "%include" "%include") with true. cbv iota.
    destruct f as [|c f']; [congruence|]. reflexivity. }
  cbn [run_lines]. rewrite steps_eq. cbn [step]. rewrite Step.
  set (st2 := remember_dir C cf f (set_depth C (ks_depth C st + 1) st)).
  assert (Hi : i f st = match outcome C (run (handle_include C cf (read_kickstart C dispatch cf n)) None (splitlines s ++ [""]) 0 st2) with
       | (st, Some e) => (st, Some e)
       | (st, None) => (set_depth C (ks_depth C st - 1) st, None) end).
  { unfold i. rewrite handle_include_on by auto. cbn [read_kickstart].
    rewrite position_free_resolve by auto. rewrite Hload, run_string_run. reflexivity. }
  rewrite Hi. clear Hi Step.
  destruct (closed_may cf s (Hcl _ _ Hload)) as (H1 & H2 & H3 & H4).
  pose proof (include_le C dispatch cf n) as Hle. fold i in Hle.
  set (i0 := handle_include C cf (read_kickstart C dispatch cf n)) in *.
  assert (Hks : ksim C cf any_line R 1 st st2).
  { split; [|split; [simpl; lia|left; exact Hpos]].
    apply (same_parser_refl C any_line R st); auto. }
  assert (Hsim : hook_sim C cf any_line R 1 i i) by (apply include_sim; auto).
  assert (Hic : hook_closed C i) by (apply include_closed; auto).
  pose proof (run_lines_sim_top C dispatch cf any_line R A2 HD 1 i i Hsim Hic (splitlines s) None ln 0 st st2
      H1 H2 (fun _ => Hst) H3 I Hks) as Sim.
  pose proof (run_lines_le C dispatch cf i0 i Hle (splitlines s) None 0 st2) as Hfuel.
  rewrite !(run_lines_app C dispatch cf i0 (splitlines s)), !(run_lines_app C dispatch cf i (splitlines s)).
  pose proof (run_lines_deep C dispatch cf i (include_deep C dispatch cf (S n)) (splitlines s) None 0 st2) as Dp.
  destruct (run i0 None (splitlines s) 0 st2) as [s0 [x0|e0]] eqn:E0.
  - rewrite Hfuel in Sim, Dp by discriminate.
    destruct (run i None (splitlines s) ln st) as [s1 [x|e]] eqn:E; destruct Sim as [S1 S2]; simpl in S1, S2; [|contradiction].
    apply run_lines_open in E as [-> Hg]; auto; [|intros _; exact Hst].
    rewrite H4 in S2, Hg |- *. destruct x0 as [[m0 l0]|]; simpl in S2; [|contradiction]. destruct S2 as [<- _].
    cbn [run_lines outcome]. rewrite steps_eq. cbn [step sm_step]. change (String.eqb "" "") with true. cbv iota. cbn [outcome].
    intros _. eapply rksim_result with (k := 0%N). eapply outcome_sim.
    apply run_lines_sim; auto; try exact I; [apply include_sim; auto|apply include_deep|].
    destruct S1 as (S1 & S1d & S1i). destruct Dp as [_ Dp]. specialize (Dp eq_refl). cbn [fst] in Dp.
    split; [exact S1|]. split; [|left; exact Hpos].
    cbn [ks_depth set_depth]. change (ks_depth C st2) with (ks_depth C st + 1)%N in Dp. lia.
  - cbn [outcome snd]. intros Hne. rewrite Hfuel in Sim by (simpl; congruence).
    destruct (run i None (splitlines s) ln st) as [s1 [x|e]] eqn:E; destruct Sim as [S1 S2]; simpl in S1, S2; [contradiction|].
    split; simpl; auto. apply S1.
Qed.

End Paste2.
