(** * Two parsing runs that differ in line numbers and nesting depth *)

From Verif Require Import PyStrFacts ShlexFacts ArgParseFacts ArgErrFacts ArgLabelFacts ArgDeclFacts Parser ParserFacts ParserSpec.
From Verif Require Import Value.
Local Open Scope string_scope.
Local Open Scope list_scope.
Local Arguments Ascii.eqb : simpl never.
Local Arguments String.eqb : simpl never.

(** ** The header parsers are well declared *)

Lemma script_table_sane k : table_sane (script_table k) = true.
Proof. destruct k; vm_compute; reflexivity. Qed.

Lemma packages_table_sane v : table_sane (packages_table v) = true.
Proof.
  unfold packages_table.
  repeat match goal with |- context [(v <? ?x)%Z] => destruct (v <? x)%Z; [vm_compute; reflexivity|] end.
  vm_compute; reflexivity.
Qed.

Lemma sane_errors (L : N -> N -> Prop) ops n n' args : table_sane ops = true -> L n n' ->
  match parse_args (build ops) (Some n) args, parse_args (build ops) (Some n') args with
  | Ok a, Ok b => a = b
  | Err e, Err e' => same_exn L e e'
  | _, _ => False
  end.
Proof.
  intros Hs HL. pose proof (parse_args_sim (Some n) (Some n') (build ops) args) as H. unfold rsim in H.
  destruct (parse_args (build ops) (Some n) args) eqn:E, (parse_args (build ops) (Some n') args) eqn:E'; auto.
  destruct (build_perr _ _ _ _ Hs E) as [t ->]. destruct (build_perr _ _ _ _ Hs E') as [t' ->].
  destruct H as [H|(u & H & H')].
  - injection H as -> ->. simpl; auto.
  - injection H as ->. injection H' as ->. simpl; auto.
Qed.

(** Errors that carry no line number. *)
Definition unlabelled (e : exn) : Prop :=
  match e with KSParseError n _ | KSError n _ => n = None | _ => True end.

Lemma unlabelled_same L e : unlabelled e -> same_exn L e e.
Proof. destruct e; simpl; intros; subst; simpl; auto. Qed.

Lemma lex_error cm s : forall st tok q e, lex cm s st tok q = Err e -> e = ValueError.
Proof.
  assert (E : forall tok q r e, emit tok q r = Err e -> r = Err e).
  { intros tok q r e. unfold emit. destruct (String.eqb tok "" && negb q); auto. destruct r; simpl; congruence. }
  induction s as [|c r IH]; intros st tok q e; cbn [lex].
  - destruct st; try congruence. intros H. apply E in H. discriminate.
  - destruct st as [| | |o|]; try (destruct o);
      repeat match goal with |- (if ?b then _ else _) = _ -> _ => destruct b end;
      intros H; try apply E in H; eauto.
Qed.
Lemma shlex_split_unlabelled cm s e : shlex_split cm s = Err e -> unlabelled e.
Proof. intros H. apply lex_error in H. subst; exact I. Qed.

Lemma group_parser_sane : table_sane
  [OpAdd (flag ["--nodefaults"] "nodefaults" (VBool false)); OpAdd (flag ["--optional"] "optional" (VBool false))] = true.
Proof. vm_compute; reflexivity. Qed.

Lemma packages_line_exn line p p' e : packages_handleLine line p = (p', Some e) -> unlabelled e.
Proof.
  unfold packages_handleLine. generalize (rstrip (fst (fst (partition_char HASH line)))); intros s.
  unfold packages_add. cbn [add_lines].
  destruct (add_line s (mkAcc p [] [] [])) as [a|x] eqn:E; [discriminate|].
  intros H; injection H as _ <-. revert E. unfold add_line. cbn [ac_pk ac_newEx ac_newPk ac_exGrp].
  destruct (startswith (strip s) "@^"); [discriminate|].
  destruct (strip s) as [|c r]; [intros H; injection H as <-; exact I|].
  destruct (Ascii.eqb c "@").
  - intros H. apply bind_err in H as [H|(q & _ & H)]; [|discriminate].
    unfold process_group in H. apply bind_err in H as [H|([ns ex] & _ & H)].
    + destruct (parse_known_perr group_parser None (split_ws r) x) as [t ->]; try exact H.
      * apply (build_table_ok _ group_parser_sane).
      * apply (build_well_declared None _ group_parser_sane).
      * reflexivity.
    + destruct (truthy (get "nodefaults" ns) && truthy (get "optional" ns)).
      * injection H as <-. reflexivity.
      * destruct (existsb _ _) in H; discriminate.
  - destruct (Ascii.eqb c "-"); [|discriminate].
    destruct (startswith r "@^" && _); [discriminate|].
    destruct r as [|d r]; [intros H; injection H as <-; exact I|].
    destruct (Ascii.eqb d "@"); discriminate.
Qed.

(** ** Sections under the relation *)

Section Sec.
Variable L : N -> N -> Prop.

Notation same_obj := (same_object L).

Definition same_sections := Forall2 (same_section L).

Lemma assoc_sim S S' n : same_sections S S' ->
  match assoc n S, assoc n S' with
  | Some o, Some o' => same_obj o o'
  | None, None => True
  | _, _ => False
  end.
Proof.
  induction 1 as [|[k o] [k' o'] S S' [H1 H2] H IH]; simpl; auto. simpl in H1; subst k'.
  destruct (String.eqb n k); [exact H2|exact IH].
Qed.

Lemma has_key_sim S S' n : same_sections S S' -> has_key n S = has_key n S'.
Proof.
  intros H. pose proof (assoc_sim _ _ n H) as A. unfold has_key.
  destruct (assoc n S), (assoc n S'); tauto.
Qed.

Lemma put_sim S S' n o o' : same_sections S S' -> same_obj o o' -> same_sections (put n o S) (put n o' S').
Proof.
  intros H Ho. induction H as [|[k x] [k' x'] S S' [H1 H2] H IH]; simpl.
  - repeat constructor; auto.
  - simpl in H1; subst k'. destruct (String.eqb n k); constructor; auto; split; auto.
Qed.

Lemma same_obj_refl_null a b : same_obj (SNull a b) (SNull a b). Proof. reflexivity. Qed.

Lemma allLines_sim o o' : same_obj o o' -> allLines o = allLines o'.
Proof. destruct o, o'; simpl; try discriminate; auto. Qed.

Lemma header_sim ver n n' args o o' h h' : L n n' -> same_obj o o' -> same_sechandler L h h' ->
  let '(o1, h1, e1) := sec_handleHeader ver n args o h in
  let '(o2, h2, e2) := sec_handleHeader ver n' args o' h' in
  same_obj o1 o2 /\ same_sechandler L h1 h2 /\ same_outcome L e1 e2.
Proof.
  intros HL Ho (Hs & Hp & Hn).
  destruct o as [k t a|t|a b], o' as [k' t' a'|t'|a' b']; try discriminate; try (simpl in Ho; contradiction).
  - destruct Ho as (-> & -> & Ha). cbn [sec_handleHeader]. unfold script_handleHeader, script_parser.
    pose proof (sane_errors L (script_table k') n n' (tl args) (script_table_sane k') HL) as P.
    destruct (parse_args (build (script_table k')) (Some n) (tl args)) as [ns|e],
             (parse_args (build (script_table k')) (Some n') (tl args)) as [ns'|e']; try contradiction.
    + subst ns'. destruct Ha as (A1 & A2 & A3 & A4 & A5 & A6).
      split; [|split; [repeat split; auto|simpl; auto]].
      simpl. repeat split; auto. rewrite A5. reflexivity.
    + split; [|split; [repeat split; auto|exact P]]. simpl. repeat split; auto; apply Ha.
  - injection Ho as ->. cbn [sec_handleHeader]. rewrite Hp. unfold packages_handleHeader, packages_parser.
    pose proof (sane_errors L (packages_table ver) n n' (tl args) (packages_table_sane ver) HL) as P.
    destruct (parse_args (build (packages_table ver)) (Some n) (tl args)) as [ns|e],
             (parse_args (build (packages_table ver)) (Some n') (tl args)) as [ns'|e']; try contradiction.
    + subst ns'. unfold packages_header.
      repeat match goal with
      | |- context [(ver <? ?x)%Z] => destruct (ver <? x)%Z
      | |- context [truthy (get "defaultPackages" ns) && ?b] => destruct (truthy (get "defaultPackages" ns) && b)
      end; (split; [reflexivity|split; [repeat split; auto|simpl; auto]]).
    + split; [reflexivity|split; [repeat split; auto|exact P]].
  - injection Ho as -> ->. simpl. repeat split; auto.
Qed.

Lemma line_sim line o o' h h' : same_obj o o' -> same_sechandler L h h' ->
  let '(o1, h1, e1) := sec_handleLine line o h in
  let '(o2, h2, e2) := sec_handleLine line o' h' in
  same_obj o1 o2 /\ same_sechandler L h1 h2 /\ same_outcome L e1 e2.
Proof.
  intros Ho (Hs & Hp & Hn).
  destruct o as [k t a|t|a b], o' as [k' t' a'|t'|a' b']; try discriminate; try (simpl in Ho; contradiction).
  - destruct Ho as (-> & -> & A1 & A2 & A3 & A4 & A5 & A6). simpl. repeat split; simpl; auto; congruence.
  - injection Ho as ->. cbn [sec_handleLine]. rewrite Hp.
    destruct (packages_handleLine line (sh_packages h')) as [p e] eqn:E.
    repeat split; auto. destruct e as [e|]; simpl; auto. apply unlabelled_same.
    eapply packages_line_exn; eauto.
  - injection Ho as -> ->. simpl. repeat split; simpl; auto; congruence.
Qed.

Lemma finalize_obj_sim o o' h h' : same_obj o o' -> same_sechandler L h h' ->
  let '(o1, h1) := sec_finalize o h in
  let '(o2, h2) := sec_finalize o' h' in
  same_obj o1 o2 /\ same_sechandler L h1 h2.
Proof.
  intros Ho (Hs & Hp & Hn).
  destruct o as [k t a|t|a b], o' as [k' t' a'|t'|a' b']; try discriminate; try (simpl in Ho; contradiction).
  - destruct Ho as (-> & -> & A1 & A2 & A3 & A4 & A5 & A6). simpl. unfold script_finalize. rewrite A6.
    destruct (String.eqb (strip (join " " (sa_body a'))) "").
    + simpl. repeat split; auto. rewrite !app_nil_r. auto.
    + simpl. repeat split; auto. apply Forall2_app; auto. constructor; [|constructor].
      repeat split; simpl; auto; congruence.
  - injection Ho as ->. simpl. repeat split; auto.
  - injection Ho as -> ->. simpl. repeat split; simpl; auto. congruence.
Qed.

End Sec.

(** ** Nesting depth *)

Section Depth.
Variable C : Type.
Variable dispatch : C -> string -> list string -> N -> C * option exn.
Variable cf : config.
Notation kstate := (kstate C).
Notation hook := (string -> kstate -> kstate * option exn).
Implicit Types st : kstate.
Notation depth := (ks_depth C).

Definition deeper (ok : bool) (st st' : kstate) : Prop :=
  (depth st <= depth st')%N /\ (ok = true -> depth st' = depth st).
(** No exception, or one that _handleInclude swallows. *)
Definition no_exn (e : option exn) : bool :=
  match e with None => true | Some e => is_ks_error e && negb (cf_missingIncludeIsFatal cf) end.
Definition is_ok {A} (r : res A) : bool :=
  match r with Ok _ => true | Err e => is_ks_error e && negb (cf_missingIncludeIsFatal cf) end.
Definition hook_deep (i : hook) : Prop := forall f st, deeper (no_exn (snd (i f st))) st (fst (i f st)).

Lemma deeper_refl b st st' : depth st' = depth st -> deeper b st st'.
Proof. intros H. split; [rewrite H; lia|auto]. Qed.
Lemma deeper_trans b st st1 st2 : depth st1 = depth st -> deeper b st1 st2 -> deeper b st st2.
Proof. intros H [A B]. split; [rewrite <- H; auto|intros E; rewrite (B E); auto]. Qed.

Lemma finalize_depth n st : depth (fst (finalize C n st)) = depth st.
Proof.
  unfold finalize. destruct (assoc n (ks_sections C st)); auto. destruct (sec_finalize s (ks_sec C st)); reflexivity.
Qed.
Lemma call_line_depth n l st : depth (fst (call_line C n l st)) = depth st.
Proof.
  unfold call_line. destruct (assoc n (ks_sections C st)); auto.
  destruct (sec_handleLine l s (ks_sec C st)) as [[? ?] ?]; reflexivity.
Qed.
Lemma call_header_depth n ln a st : depth (fst (call_header C cf n ln a st)) = depth st.
Proof.
  unfold call_header. destruct (assoc n (ks_sections C st)); auto.
  destruct (sec_handleHeader _ ln a s (ks_sec C st)) as [[? ?] ?]; reflexivity.
Qed.
Lemma try_func_depth r : depth (fst (try_func C cf r)) = depth (fst r).
Proof. destruct r as [st [e|]]; reflexivity. Qed.

Lemma rs_step_deep i n line ln st : hook_deep i ->
  deeper (is_ok (snd (rs_step C cf i n line ln st))) st (fst (rs_step C cf i n line ln st)).
Proof.
  intros Hi. unfold rs_step. set (eof := String.eqb line "" && N.eqb (depth st) 0).
  destruct (eof && (F8 <=? cf_version cf)%Z). { apply deeper_refl; auto. }
  assert (F : depth (fst (if eof then finalize C n st else (st, None))) = depth st).
  { destruct eof; [apply finalize_depth|auto]. }
  destruct (if eof then finalize C n st else (st, None)) as [s1 [e|]]; simpl in F.
  { apply deeper_refl; auto. }
  apply (deeper_trans _ _ s1); auto. clear F. 
  assert (Hc : forall x : res next, deeper (is_ok (snd (
     match call_line C n line s1 with (st, Some e) => (st, Err e) | (st, None) => (st, x) end))) s1 (fst (
     match call_line C n line s1 with (st, Some e) => (st, Err e) | (st, None) => (st, x) end))).
  { intros x. pose proof (call_line_depth n line s1) as F. destruct (call_line C n line s1) as [s2 [e|]]; apply deeper_refl; auto. }
  destruct (is_blank_or_comment line && negb (all_lines C n s1)); [apply deeper_refl; auto|].
  destruct (startswith (lstrip line) "%"); [|apply Hc].
  destruct (split_ws line) as [|w ws]; [apply deeper_refl; auto|].
  destruct (negb (valid_state C s1 w) && _); [apply Hc|].
  destruct (shlex_split false line) as [[|a0 more]|e]; [apply deeper_refl; auto| |apply deeper_refl; auto].
  pose proof (finalize_depth n s1) as F. destruct (finalize C n s1) as [s2 e2]; simpl in F.
  destruct (String.eqb a0 "%end"). { destruct e2; apply deeper_refl; auto. }
  destruct (String.eqb a0 "%include").
  { destruct more as [|[|c r] more]; [apply deeper_refl; auto|apply deeper_refl; auto|].
    pose proof (Hi (String c r) s1) as G. destruct (i (String c r) s1) as [s3 [e3|]]; exact G. }
  destruct (String.eqb a0 "%ksappend"); [apply deeper_refl; auto|].
  destruct (valid_state C s1 a0); [|apply deeper_refl; auto].
  destruct (F8 <=? cf_version cf)%Z; [apply deeper_refl; auto|].
  destruct e2; apply deeper_refl; auto.
Qed.

Lemma sm_step_deep i line ln st : hook_deep i ->
  deeper (is_ok (snd (sm_step C dispatch cf i line ln st))) st (fst (sm_step C dispatch cf i line ln st)).
Proof.
  intros Hi. unfold sm_step. destruct (String.eqb line ""); [apply deeper_refl; auto|].
  destruct (is_blank_or_comment line).
  { apply deeper_refl. unfold special_comments. simpl. destruct (ks_state C st); auto. destruct (startswith line "#platform="); auto. }
  destruct (shlex_split true line) as [[|a0 more]|e]; [apply deeper_refl; auto| |apply deeper_refl; auto].
  destruct (String.eqb a0 "%include").
  { destruct more as [|[|c r] more]; [apply deeper_refl; auto|apply deeper_refl; auto|].
    pose proof (Hi (String c r) st) as G. destruct (i (String c r) st) as [s3 [e3|]]; exact G. }
  destruct (ks_state C st) as [n|] eqn:Est.
  { destruct (0 <? depth st)%N; apply deeper_refl; auto. }
  destruct (String.eqb a0 "%ksappend"); [apply deeper_refl; auto|].
  destruct a0 as [|c r]; [apply deeper_refl; auto|].
  destruct (Ascii.eqb c "%").
  - destruct (negb (valid_state C st (String c r)) && cf_unknownSectionIsFatal cf); [apply deeper_refl; auto|].
    cbv zeta. match goal with |- context [set_state C _ ?x] => set (t := x) end.
    assert (T : depth t = depth st) by (unfold t; destruct (valid_state C st (String c r)); reflexivity).
    pose proof (try_func_depth (call_header C cf (String c r) (ln + 1) (String c r :: more) (set_state C (Some (String c r)) t))) as F.
    rewrite call_header_depth in F. cbn [ks_depth set_state] in F. change (ks_depth C (set_state C (Some (String c r)) t)) with (depth t) in F.
    destruct (try_func C cf _) as [s1 [e|]]; simpl in F; apply deeper_refl; simpl; congruence.
  - destruct (dispatch (ks_cmds C st) line (String c r :: more) (ln + 1)) as [c1 e1].
    pose proof (try_func_depth (set_cmds C c1 st, e1)) as F.
    destruct (try_func C cf _) as [s1 [e|]]; simpl in F; apply deeper_refl; simpl; congruence.
Qed.

Lemma steps_deep i k : hook_deep i -> forall m line ln st,
  deeper (is_ok (snd (steps C dispatch cf k i m line ln st))) st (fst (steps C dispatch cf k i m line ln st)).
Proof.
  intros Hi. induction k as [|k IH]; intros m line ln st; [apply deeper_refl; auto|].
  rewrite steps_eq.
  assert (S : deeper (is_ok (snd (step C dispatch cf i m line ln st))) st (fst (step C dispatch cf i m line ln st))).
  { destruct m; [apply rs_step_deep; auto|apply sm_step_deep; auto]. }
  destruct (step C dispatch cf i m line ln st) as [s1 [[|m1 l1|m1 l1]|e]]; try exact S.
  apply (deeper_trans _ _ s1); [|apply IH]. apply S; reflexivity.
Qed.

Lemma run_lines_deep i : hook_deep i -> forall lines m ln st,
  deeper (is_ok (snd (run_lines C dispatch cf i m lines ln st))) st (fst (run_lines C dispatch cf i m lines ln st)).
Proof.
  intros Hi. induction lines as [|line lines IH]; intros m ln st; [apply deeper_refl; auto|].
  cbn [run_lines]. pose proof (steps_deep i 3 Hi m line ln st) as S.
  destruct (steps C dispatch cf 3 i m line ln st) as [s1 [[[m1 l1]|]|e]]; try exact S.
  apply (deeper_trans _ _ s1); [|apply IH]. apply S; reflexivity.
Qed.

Lemma outcome_deep {A} st (r : kstate * res A) : deeper (is_ok (snd r)) st (fst r) ->
  deeper (no_exn (snd (outcome C r))) st (fst (outcome C r)).
Proof. destruct r as [s [a|e]]; auto. Qed.

Lemma handle_include_deep (rd : hook) : hook_deep rd -> hook_deep (handle_include C cf rd).
Proof.
  intros HP f st. unfold handle_include. destruct (cf_followIncludes cf); [|apply deeper_refl; reflexivity]. cbn [negb].
  specialize (HP f (set_depth C (depth st + 1) st)).
  destruct (rd f (set_depth C (depth st + 1) st)) as [s1 [e|]]; destruct HP as [A B]; cbn [fst snd no_exn] in A, B;
    change (depth (set_depth C (depth st + 1) st)) with (depth st + 1)%N in A, B.
  - destruct (is_ks_error e && negb (cf_missingIncludeIsFatal cf)) eqn:E; cbn [fst snd no_exn]; try rewrite E;
      split; cbn [ks_depth set_depth]; try lia; try discriminate.
  - split; cbn [fst snd ks_depth set_depth]; lia.
Qed.

Lemma read_deep n : hook_deep (read_kickstart C dispatch cf n).
Proof.
  induction n as [|n IH]; intros f st; [apply deeper_refl; reflexivity|].
  cbn [read_kickstart]. set (f' := resolve_path C cf f st).
  apply (deeper_trans _ _ (remember_dir C cf f' st)); [reflexivity|].
  destruct (cf_load cf f'); [|apply deeper_refl; reflexivity].
  rewrite run_string_run. apply outcome_deep, run_lines_deep, handle_include_deep, IH.
Qed.

Lemma include_deep n : hook_deep (handle_include C cf (read_kickstart C dispatch cf n)).
Proof. apply handle_include_deep, read_deep. Qed.

End Depth.

(** ** The parser under the relation *)

(** The path of a file does not depend on the file that includes it. *)
Definition position_free (cf : config) : Prop :=
  forall d g, cf_exists cf (path_join d g) = true -> cf_exists cf g = true.

Section Rel.
Variable C : Type.
Variable dispatch : C -> string -> list string -> N -> C * option exn.
Variable cf : config.
Variable L : N -> N -> Prop.
Variable R : C -> C -> Prop.
Hypothesis L0 : L 0%N 0%N.
Hypothesis LS : forall n m, L n m -> L (n + 1)%N (m + 1)%N.
Hypothesis HD : labels_only L R dispatch.
Variable k : N.
Notation kstate := (kstate C).
Notation hook := (string -> kstate -> kstate * option exn).
Notation read n := (read_kickstart C dispatch cf n).
Notation include n := (handle_include C cf (read n)).
Implicit Types st : kstate.

Definition ksim (st st' : kstate) : Prop :=
  same_parser L R st st' /\ ks_depth C st' = (ks_depth C st + k)%N /\
  (position_free cf \/ (k = 0%N /\ ks_dirs C st = ks_dirs C st')).

Definition rksim (r r' : kstate * option exn) : Prop :=
  ksim (fst r) (fst r') /\ same_outcome L (snd r) (snd r').

Definition nsim (x y : next) : Prop :=
  match x, y with
  | Stop, Stop => True
  | Go m n, Go m' n' => m = m' /\ L n n'
  | Again m n, Again m' n' => m = m' /\ L n n'
  | _, _ => False
  end.
Definition psim (x y : option (mode * N)) : Prop :=
  match x, y with
  | None, None => True
  | Some (m, n), Some (m', n') => m = m' /\ L n n'
  | _, _ => False
  end.
Definition ressim {A} (P : A -> A -> Prop) (r r' : kstate * res A) : Prop :=
  ksim (fst r) (fst r') /\
  match snd r, snd r' with
  | Ok a, Ok b => P a b
  | Err e, Err e' => same_exn L e e'
  | _, _ => False
  end.

Lemma call_header_sim n ln ln' args st st' : L ln ln' -> ksim st st' ->
  rksim (call_header C cf n ln args st) (call_header C cf n ln' args st').
Proof.
  intros HL ((HR & Hh & Hp & Hs & He & Hx) & Hd & Hi). unfold call_header.
  pose proof (assoc_sim _ _ _ n Hx) as A.
  destruct (assoc n (ks_sections C st)) as [o|], (assoc n (ks_sections C st')) as [o'|]; try contradiction.
  - pose proof (header_sim L (cf_version cf) ln ln' args o o' _ _ HL A Hh) as B.
    destruct (sec_handleHeader (cf_version cf) ln args o (ks_sec C st)) as [[o1 h1] e1].
    destruct (sec_handleHeader (cf_version cf) ln' args o' (ks_sec C st')) as [[o2 h2] e2].
    destruct B as (B1 & B2 & B3). repeat split; simpl; auto; try apply B2. apply put_sim; auto.
  - repeat split; simpl; auto; apply Hh.
Qed.

Lemma call_line_sim n line st st' : ksim st st' ->
  rksim (call_line C n line st) (call_line C n line st').
Proof.
  intros ((HR & Hh & Hp & Hs & He & Hx) & Hd & Hi). unfold call_line.
  pose proof (assoc_sim _ _ _ n Hx) as A.
  destruct (assoc n (ks_sections C st)) as [o|], (assoc n (ks_sections C st')) as [o'|]; try contradiction.
  - pose proof (line_sim L line o o' _ _ A Hh) as B.
    destruct (sec_handleLine line o (ks_sec C st)) as [[o1 h1] e1].
    destruct (sec_handleLine line o' (ks_sec C st')) as [[o2 h2] e2].
    destruct B as (B1 & B2 & B3). repeat split; simpl; auto; try apply B2. apply put_sim; auto.
  - repeat split; simpl; auto; apply Hh.
Qed.

Lemma finalize_sim n st st' : ksim st st' -> rksim (finalize C n st) (finalize C n st').
Proof.
  intros ((HR & Hh & Hp & Hs & He & Hx) & Hd & Hi). unfold finalize.
  pose proof (assoc_sim _ _ _ n Hx) as A.
  destruct (assoc n (ks_sections C st)) as [o|], (assoc n (ks_sections C st')) as [o'|]; try contradiction.
  - pose proof (finalize_obj_sim L o o' _ _ A Hh) as B.
    destruct (sec_finalize o (ks_sec C st)) as [o1 h1].
    destruct (sec_finalize o' (ks_sec C st')) as [o2 h2].
    destruct B as (B1 & B2). repeat split; simpl; auto; try apply B2. apply put_sim; auto.
  - repeat split; simpl; auto; apply Hh.
Qed.

Lemma all_lines_sim n st st' : ksim st st' -> all_lines C n st = all_lines C n st'.
Proof.
  intros ((HR & Hh & Hp & Hs & He & Hx) & Hd & Hi). unfold all_lines.
  pose proof (assoc_sim _ _ _ n Hx) as A.
  destruct (assoc n (ks_sections C st)) as [o|], (assoc n (ks_sections C st')) as [o'|]; try contradiction; auto.
  eapply allLines_sim; eauto.
Qed.

Lemma valid_state_sim n st st' : ksim st st' -> valid_state C st n = valid_state C st' n.
Proof. intros ((HR & Hh & Hp & Hs & He & Hx) & Hd & Hi). eapply has_key_sim; eauto. Qed.

Lemma try_func_sim r r' : rksim r r' -> rksim (try_func C cf r) (try_func C cf r').
Proof.
  destruct r as [st e], r' as [st' e']. intros [((HR & Hh & Hp & Hs & He & Hx) & Hd & Hi) Ho]. simpl in *.
  destruct e as [e|], e' as [e'|]; simpl in Ho; try contradiction.
  - simpl. repeat split; simpl; auto; try apply Hh. { congruence. }
    destruct (cf_errorsAreFatal cf); simpl; auto.
  - repeat split; simpl; auto; apply Hh.
Qed.

Lemma special_comments_sim line st st' : ksim st st' ->
  ksim (special_comments C line st) (special_comments C line st').
Proof.
  intros H. pose proof H as ((HR & Hh & Hp & Hs & He & Hx) & Hd & Hi). unfold special_comments. rewrite <- Hs.
  destruct (ks_state C st) eqn:E; auto. destruct (startswith line "#platform="); auto.
  repeat split; simpl; auto; try apply Hh. congruence.
Qed.

Lemma set_state_sim s st st' : ksim st st' -> ksim (set_state C s st) (set_state C s st').
Proof. intros ((HR & Hh & Hp & Hs & He & Hx) & Hd & Hi). repeat split; simpl; auto; apply Hh. Qed.

Definition hook_sim (i i' : hook) : Prop :=
  forall f st st', ksim st st' -> rksim (i f st) (i' f st').

Ltac mk := unfold ressim; simpl; split; [assumption|auto].

Lemma rs_step_sim i i' n line ln ln' st st' : hook_sim i i' -> L ln ln' -> ksim st st' ->
  (k = 0%N \/ (0 < ks_depth C st)%N \/ line <> "") ->
  ressim nsim (rs_step C cf i n line ln st) (rs_step C cf i' n line ln' st').
Proof.
  intros Hi HL HS Hk. unfold rs_step.
  assert (Eeof : String.eqb line "" && N.eqb (ks_depth C st') 0 = String.eqb line "" && N.eqb (ks_depth C st) 0).
  { destruct HS as (_ & -> & _). destruct Hk as [->|[Hk|Hk]].
    - rewrite N.add_0_r. reflexivity.
    - destruct (String.eqb line ""); simpl; auto.
      destruct (N.eqb_spec (ks_depth C st) 0), (N.eqb_spec (ks_depth C st + k) 0); auto; lia.
    - apply String.eqb_neq in Hk. rewrite Hk. reflexivity. }
  rewrite Eeof. set (eof := String.eqb line "" && N.eqb (ks_depth C st) 0). clearbody eof. clear Eeof Hk.
  destruct (eof && (F8 <=? cf_version cf)%Z). { mk. }
  assert (F : rksim (if eof then finalize C n st else (st, None)) (if eof then finalize C n st' else (st', None))).
  { destruct eof; [apply finalize_sim; auto|split; simpl; auto]. }
  destruct (if eof then finalize C n st else (st, None)) as [s1 [e|]],
           (if eof then finalize C n st' else (st', None)) as [s1' [e'|]]; destruct F as [F1 F2]; simpl in F1, F2; try contradiction.
  { mk. }
  clear HS st st' F2. rename s1 into st, s1' into st', F1 into HS.
  assert (Hln : L (ln + 1)%N (ln' + 1)%N) by auto.
  assert (Hhandle : ressim nsim
     (match call_line C n line st with (st, Some e) => (st, Err e) | (st, None) => (st, Ok (Go (Some n) (ln + 1)%N)) end)
     (match call_line C n line st' with (st, Some e) => (st, Err e) | (st, None) => (st, Ok (Go (Some n) (ln' + 1)%N)) end)).
  { pose proof (call_line_sim n line st st' HS) as F.
    destruct (call_line C n line st) as [s1 [e|]], (call_line C n line st') as [s1' [e'|]];
      destruct F as [F1 F2]; simpl in F1, F2; try contradiction; mk. }
  rewrite <- (all_lines_sim n _ _ HS).
  destruct (is_blank_or_comment line && negb (all_lines C n st)); [mk|].
  destruct (startswith (lstrip line) "%"); [|exact Hhandle].
  destruct (split_ws line) as [|w ws]; [mk|].
  rewrite <- (valid_state_sim w _ _ HS).
  destruct (negb (valid_state C st w) && _); [exact Hhandle|].
  destruct (shlex_split false line) as [[|a0 more]|e] eqn:Es; [mk| |].
  2:{ mk. apply unlabelled_same. eapply shlex_split_unlabelled; eauto. }
  rewrite <- (valid_state_sim a0 _ _ HS).
  pose proof (finalize_sim n st st' HS) as F.
  destruct (finalize C n st) as [s1 e1], (finalize C n st') as [s1' e1']; destruct F as [F1 F2]; simpl in F1, F2.
  destruct (String.eqb a0 "%end").
  { destruct e1, e1'; try contradiction; mk. }
  destruct (String.eqb a0 "%include").
  { destruct more as [|[|c r] more]; [mk|mk|].
    pose proof (Hi (String c r) st st' HS) as G.
    destruct (i (String c r) st) as [s2 [e2|]], (i' (String c r) st') as [s2' [e2'|]];
      destruct G as [G1 G2]; simpl in G1, G2; try contradiction; mk. }
  destruct (String.eqb a0 "%ksappend"); [mk|].
  destruct (valid_state C st a0); [|mk].
  destruct (F8 <=? cf_version cf)%Z; [mk|].
  destruct e1, e1'; try contradiction; mk. rewrite !N.add_sub; auto.
Qed.

Lemma sm_step_sim i i' line ln ln' st st' : hook_sim i i' -> L ln ln' -> ksim st st' ->
  (k = 0%N \/ (0 < ks_depth C st)%N \/ ks_state C st = None) ->
  ressim nsim (sm_step C dispatch cf i line ln st) (sm_step C dispatch cf i' line ln' st').
Proof.
  intros Hi HL HS Hk. unfold sm_step. destruct (String.eqb line ""); [mk|].
  assert (Hln : L (ln + 1)%N (ln' + 1)%N) by auto.
  destruct (is_blank_or_comment line). { split; [|simpl; auto]. apply special_comments_sim; auto. }
  destruct (shlex_split true line) as [[|a0 more]|e] eqn:Es; [mk| |].
  2:{ mk. apply unlabelled_same. eapply shlex_split_unlabelled; eauto. }
  destruct (String.eqb a0 "%include").
  { destruct more as [|[|c r] more]; [mk|mk|].
    pose proof (Hi (String c r) st st' HS) as G.
    destruct (i (String c r) st) as [s2 [e2|]], (i' (String c r) st') as [s2' [e2'|]];
      destruct G as [G1 G2]; simpl in G1, G2; try contradiction; mk. }
  pose proof HS as ((HR & Hh & Hp & Hs & He & Hx) & Hd & Hdi).
  rewrite <- Hs. destruct (ks_state C st) as [n|] eqn:Est.
  { assert (E : (0 <? ks_depth C st')%N = (0 <? ks_depth C st)%N).
    { rewrite Hd. destruct Hk as [->|[Hk|Hk]]; [rewrite N.add_0_r; reflexivity| |discriminate].
      destruct (N.ltb_spec 0 (ks_depth C st)), (N.ltb_spec 0 (ks_depth C st + k)); auto; lia. }
    rewrite E. destruct (0 <? ks_depth C st)%N; [|mk]. mk. rewrite !N.add_sub; auto. }
  destruct (String.eqb a0 "%ksappend"); [mk|].
  destruct a0 as [|c r]; [mk|].
  rewrite <- (valid_state_sim (String c r) _ _ HS).
  destruct (Ascii.eqb c "%").
  - destruct (negb (valid_state C st (String c r)) && cf_unknownSectionIsFatal cf); [mk|].
    set (t := if valid_state C st (String c r) then st else set_section C (String c r) (SNull [] []) (ks_sec C st) st).
    set (t' := if valid_state C st (String c r) then st' else set_section C (String c r) (SNull [] []) (ks_sec C st') st').
    cbv zeta. assert (HT : ksim t t').
    { unfold t, t'. destruct (valid_state C st (String c r)); auto.
      repeat split; simpl; auto; try apply Hh; [congruence|]. apply put_sim; auto. reflexivity. }
    pose proof (try_func_sim _ _ (call_header_sim (String c r) _ _ (String c r :: more) _ _ Hln (set_state_sim (Some (String c r)) _ _ HT))) as F.
    destruct (try_func C cf (call_header C cf (String c r) (ln + 1) (String c r :: more) (set_state C (Some (String c r)) t))) as [s1 [e|]],
             (try_func C cf (call_header C cf (String c r) (ln' + 1) (String c r :: more) (set_state C (Some (String c r)) t'))) as [s1' [e'|]];
      destruct F as [F1 F2]; simpl in F1, F2; try contradiction; mk.
  - pose proof (HD (ks_cmds C st) (ks_cmds C st') line (String c r :: more) _ _ HR Hln) as [D1 D2].
    destruct (dispatch (ks_cmds C st) line (String c r :: more) (ln + 1)) as [c1 e1].
    destruct (dispatch (ks_cmds C st') line (String c r :: more) (ln' + 1)) as [c1' e1']. simpl in D1, D2.
    assert (F : rksim (try_func C cf (set_cmds C c1 st, e1)) (try_func C cf (set_cmds C c1' st', e1'))).
    { apply try_func_sim. repeat split; simpl; auto; try apply Hh; congruence. }
    destruct (try_func C cf (set_cmds C c1 st, e1)) as [s1 [e|]], (try_func C cf (set_cmds C c1' st', e1')) as [s1' [e'|]];
      destruct F as [F1 F2]; simpl in F1, F2; try contradiction; mk.
Qed.


Lemma steps_sim i i' : hook_sim i i' -> hook_deep C cf i -> forall j m line ln ln' st st', L ln ln' -> ksim st st' ->
  (k = 0%N \/ (0 < ks_depth C st)%N) ->
  ressim psim (steps C dispatch cf j i m line ln st) (steps C dispatch cf j i' m line ln' st').
Proof.
  intros Hi Hd. induction j as [|j IH]; intros m line ln ln' st st' HL HS Hk; [mk|].
  rewrite !steps_eq.
  assert (S : ressim nsim (step C dispatch cf i m line ln st) (step C dispatch cf i' m line ln' st')).
  { destruct m; [apply rs_step_sim; auto; tauto|apply sm_step_sim; auto; tauto]. }
  assert (D : deeper C (is_ok cf (snd (step C dispatch cf i m line ln st))) st (fst (step C dispatch cf i m line ln st))).
  { destruct m; [apply rs_step_deep; auto|apply sm_step_deep; auto]. }
  destruct (step C dispatch cf i m line ln st) as [s1 [x|e]], (step C dispatch cf i' m line ln' st') as [s1' [x'|e']];
    destruct S as [S1 S2]; simpl in S1, S2; try contradiction.
  - destruct x as [|m1 l1|m1 l1], x' as [|m1' l1'|m1' l1']; simpl in S2; try contradiction; try mk.
    destruct S2 as [<- S2]. apply IH; auto. destruct D as [D _]. simpl in D. lia.
  - mk.
Qed.

Lemma run_lines_sim i i' : hook_sim i i' -> hook_deep C cf i -> forall lines m ln ln' st st', L ln ln' -> ksim st st' ->
  (k = 0%N \/ (0 < ks_depth C st)%N) ->
  ressim psim (run_lines C dispatch cf i m lines ln st) (run_lines C dispatch cf i' m lines ln' st').
Proof.
  intros Hi Hd. induction lines as [|line lines IH]; intros m ln ln' st st' HL HS Hk; [mk|].
  cbn [run_lines].
  pose proof (steps_sim i i' Hi Hd 3 m line ln ln' st st' HL HS Hk) as S.
  pose proof (steps_deep C dispatch cf i 3 Hd m line ln st) as D.
  destruct (steps C dispatch cf 3 i m line ln st) as [s1 [x|e]], (steps C dispatch cf 3 i' m line ln' st') as [s1' [x'|e']];
    destruct S as [S1 S2]; simpl in S1, S2; try contradiction.
  - destruct x as [[m1 l1]|], x' as [[m1' l1']|]; simpl in S2; try contradiction; try mk.
    destruct S2 as [<- S2]. apply IH; auto. destruct D as [D _]. simpl in D. lia.
  - mk.
Qed.

Lemma outcome_sim {A} (P : A -> A -> Prop) r r' : ressim P r r' -> rksim (outcome C r) (outcome C r').
Proof. destruct r as [s [a|e]], r' as [s' [a'|e']]; intros [H1 H2]; simpl in *; try contradiction; split; simpl; auto. Qed.

Lemma is_ks_error_sim e e' : same_exn L e e' -> is_ks_error e = is_ks_error e'.
Proof. destruct e, e'; simpl; try discriminate; auto. Qed.

Lemma resolve_sim f st st' : ksim st st' -> (k = 0%N \/ (0 < ks_depth C st)%N) ->
  resolve_path C cf f st = resolve_path C cf f st'.
Proof.
  intros (_ & Hd & Hi) Hk. unfold resolve_path. destruct (cf_exists cf f) eqn:E; auto.
  destruct Hi as [Hi|[-> Hi]].
  - assert (P : forall st, match dir_at (ks_depth C st - 1) (ks_dirs C st) with
       | Some d => if cf_exists cf (path_join d f) then path_join d f else f
       | None => f
       end = f).
    { intros s. destruct (dir_at _ _) as [d|]; auto. destruct (cf_exists cf (path_join d f)) eqn:E'; auto.
      apply Hi in E'. congruence. }
    rewrite !P. destruct (N.eqb _ 0), (N.eqb _ 0); auto.
  - rewrite Hd, N.add_0_r, Hi. reflexivity.
Qed.

Lemma remember_sim f st st' : ksim st st' -> ksim (remember_dir C cf f st) (remember_dir C cf f st').
Proof.
  intros (H & Hd & Hi). split; [exact H|]. split; [exact Hd|].
  destruct Hi as [Hi|[-> Hi]]; [left; auto|right]. split; auto. simpl. rewrite Hd, N.add_0_r, Hi. reflexivity.
Qed.

Lemma set_depth_sim d d' st st' : ksim st st' -> d' = (d + k)%N -> ksim (set_depth C d st) (set_depth C d' st').
Proof. intros (H & Hd & Hi) ->. split; [exact H|]. split; [reflexivity|exact Hi]. Qed.

Lemma handle_include_sim (rd rd' : hook) : hook_deep C cf rd ->
  (forall f st st', ksim st st' -> (0 < ks_depth C st)%N -> rksim (rd f st) (rd' f st')) ->
  hook_sim (handle_include C cf rd) (handle_include C cf rd').
Proof.
  intros Hdeep H f st st' HS. unfold handle_include. destruct (cf_followIncludes cf); [|split; simpl; auto].
  cbn [negb].
  assert (HS1 : ksim (set_depth C (ks_depth C st + 1) st) (set_depth C (ks_depth C st' + 1) st')).
  { apply set_depth_sim; auto. destruct HS as (_ & -> & _). lia. }
  specialize (Hdeep f (set_depth C (ks_depth C st + 1) st)).
  specialize (H f _ _ HS1 ltac:(simpl; lia)).
  destruct (rd f (set_depth C (ks_depth C st + 1) st)) as [s1 [e|]], (rd' f (set_depth C (ks_depth C st' + 1) st')) as [s1' [e'|]];
    destruct H as [H1 H2]; simpl in H1, H2; try contradiction;
    assert (D : (ks_depth C s1' - 1 = ks_depth C s1 - 1 + k)%N) by
      (destruct Hdeep as [Hdeep _]; cbn [fst ks_depth set_depth] in Hdeep; destruct H1 as (_ & -> & _); lia).
  - rewrite <- (is_ks_error_sim _ _ H2).
    destruct (is_ks_error e && negb (cf_missingIncludeIsFatal cf)); [|split; simpl; auto].
    split; simpl; auto. apply set_depth_sim; auto.
  - split; simpl; auto. apply set_depth_sim; auto.
Qed.

Lemma read_sim n : forall f st st', ksim st st' -> (k = 0%N \/ (0 < ks_depth C st)%N) ->
  rksim (read n f st) (read n f st').
Proof.
  induction n as [|n IH]; intros f st st' HS Hk; [split; simpl; auto|].
  cbn [read_kickstart]. rewrite <- (resolve_sim f _ _ HS Hk). set (f' := resolve_path C cf f st).
  pose proof (remember_sim f' _ _ HS) as HS1.
  destruct (cf_load cf f') as [s|]; [|split; simpl; auto].
  rewrite !run_string_run. eapply outcome_sim. apply run_lines_sim; auto; [|apply include_deep].
  apply handle_include_sim; [apply read_deep|]. intros; apply IH; auto.
Qed.

Lemma include_sim n : hook_sim (include n) (include n).
Proof. apply handle_include_sim; [apply read_deep|]. intros; apply read_sim; auto. Qed.

End Rel.
