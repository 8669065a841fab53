(** * Facts for the tools: reading strictly and reading on after errors *)

From Verif Require Import Tools ParserFacts ParserSpec ParserRun.
From Coq Require Import Lia.
From Verif Require Import PyStrFacts Value.
Local Open Scope string_scope.
Local Open Scope list_scope.
Local Arguments String.eqb : simpl never.
Local Arguments Ascii.eqb : simpl never.

Definition strictly (b : bool) (cf : config) : config :=
  mkConfig (cf_version cf) (cf_followIncludes cf) b (cf_missingIncludeIsFatal cf) (cf_unknownSectionIsFatal cf) (cf_cwd cf) (cf_exists cf) (cf_load cf).

Section Strict.
Variable C : Type.
Variable dispatch : C -> string -> list string -> N -> C * option exn.
Variable cf : config.
Notation kstate := (kstate C).
Notation errs := (ks_errors C).
Notation cT := (strictly true cf).
Notation cL := (strictly false cf).

(** [rel st r r']: a reading [r] that stops at errors and one [r'] that goes on, both from [st], agree. *)
Definition rel {A} (st : kstate) (r r' : kstate * res A) : Prop :=
  (forall a, snd r = Ok a -> r' = r /\ errs (fst r) = errs st) /\
  (forall a, snd r' = Ok a -> (errs st <= errs (fst r'))%N /\ (errs (fst r') = errs st -> r = r')).
Definition as_res (r : kstate * option exn) : kstate * res unit := (fst r, match snd r with None => Ok tt | Some e => Err e end).
Definition relo (st : kstate) (r r' : kstate * option exn) : Prop := rel st (as_res r) (as_res r').
Lemma rel_same {A} st (r : kstate * res A) : (forall a, snd r = Ok a -> errs (fst r) = errs st) -> rel st r r.
Proof. intros H. split; intros a E; [split; [reflexivity|exact (H a E)]|]. split; [rewrite (H a E); apply N.le_refl|auto]. Qed.
Lemma rel_err {A} st s s' e e' : @rel A st (s, Err e) (s', Err e').
Proof. split; intros a E; discriminate. Qed.
Lemma relo_spec st r r' : relo st r r' <->
  (snd r = None -> r' = r /\ errs (fst r) = errs st) /\ (snd r' = None -> (errs st <= errs (fst r'))%N /\ (errs (fst r') = errs st -> r = r')).
Proof.
  destruct r as [s e], r' as [s' e']. unfold relo, rel, as_res. cbn [fst snd]. split; intros [H1 H2]; split.
  - intros ->. destruct (H1 tt eq_refl) as [X Y]. injection X as -> X. split; [|exact Y]. destruct e'; [discriminate|reflexivity].
  - intros ->. destruct (H2 tt eq_refl) as [X Y]. split; [exact X|]. intros Z. specialize (Y Z). injection Y as -> Y. destruct e; [discriminate|reflexivity].
  - intros a E. destruct e; [discriminate|]. destruct (H1 eq_refl) as [X Y]. injection X as -> ->. auto.
  - intros a E. destruct e'; [discriminate|]. destruct (H2 eq_refl) as [X Y]. split; [exact X|]. intros Z. specialize (Y Z). injection Y as -> ->. reflexivity.
Qed.
Lemma relo_same st r : (snd r = None -> errs (fst r) = errs st) -> relo st r r.
Proof. intros H. apply relo_spec. split; intros E; rewrite (H E); [auto|]. split; [lia|auto]. Qed.
Lemma relo_err st s s' e e' : relo st (s, Some e) (s', Some e').
Proof. apply rel_err. Qed.
(** After a step that agrees, what agrees from there on. *)
Lemma rel_then {A B} st (r r' : kstate * res A) (k k' : A -> kstate -> kstate * res B) (q q' : kstate * res B) :
  rel st r r' -> (forall a, snd r = Ok a -> q = k a (fst r)) -> (forall e, snd r = Err e -> q = (fst r, Err e)) ->
  (forall a, snd r' = Ok a -> q' = k' a (fst r')) -> (forall e, snd r' = Err e -> q' = (fst r', Err e)) ->
  (forall a s, rel s (k a s) (k' a s)) -> rel st q q'.
Proof.
  intros [H1 H2] E1 E2 E1' E2' K. split.
  - intros b Eb. destruct r as [s [a|e]]; [|rewrite (E2 e eq_refl) in Eb; discriminate]. rewrite (E1 a eq_refl) in *. cbn [fst snd] in *.
    destruct (H1 a eq_refl) as [-> X]. rewrite (E1' a eq_refl). cbn [fst snd]. destruct (K a s) as [K1 _]. destruct (K1 b Eb) as [-> Y]. split; [reflexivity|congruence].
  - intros b Eb. destruct r' as [s' [a|e]]; [|rewrite (E2' e eq_refl) in Eb; discriminate]. rewrite (E1' a eq_refl) in *. cbn [fst snd] in *.
    destruct (H2 a eq_refl) as [X Y]. destruct (K a s') as [_ K2]. destruct (K2 b Eb) as [Z W]. split; [lia|]. intros Q.
    assert (Es : errs s' = errs st) by lia. specialize (Y Es). subst r. cbn [fst snd] in *. rewrite (E1 a eq_refl). apply W. lia.
Qed.

Lemma call_line_errs n line st : errs (fst (call_line C n line st)) = errs st.
Proof. unfold call_line. destruct (assoc n (ks_sections C st)) as [o|]; [|reflexivity]. destruct (sec_handleLine line o (ks_sec C st)) as [[o' h'] e]. reflexivity. Qed.
Lemma finalize_errs n st : errs (fst (finalize C n st)) = errs st.
Proof. unfold finalize. destruct (assoc n (ks_sections C st)) as [o|]; [|reflexivity]. destruct (sec_finalize o (ks_sec C st)) as [o' h']. reflexivity. Qed.
Lemma special_errs line st : errs (special_comments C line st) = errs st.
Proof. unfold special_comments. destruct (ks_state C st); [reflexivity|]. destruct (startswith line "#platform="); reflexivity. Qed.
Lemma header_errs n ln a st : errs (fst (call_header C cT n ln a st)) = errs st.
Proof. unfold call_header. destruct (assoc n (ks_sections C st)) as [o|]; [|reflexivity]. destruct (sec_handleHeader _ ln a o (ks_sec C st)) as [[o' h'] e]. reflexivity. Qed.
Lemma try_rel st r : errs (fst r) = errs st -> relo st (try_func C cT r) (try_func C cL r).
Proof.
  destruct r as [s [e|]]; cbn [fst try_func cf_errorsAreFatal strictly]; intros E; [|now apply relo_same].
  apply relo_spec. cbn [fst snd count_error ks_errors]. split; [discriminate|]. intros _. split; [lia|]. intros X. lia.
Qed.

Definition include_rel (i i' : string -> kstate -> kstate * option exn) : Prop := forall f st, relo st (i f st) (i' f st).
(** The same step before both. *)
Lemma rel_step {A} st s (r r' : kstate * res A) : errs s = errs st -> rel s r r' -> rel st r r'.
Proof. intros E [H1 H2]. unfold rel. rewrite <- E. split; assumption. Qed.

Lemma read_rel i i' n : include_rel i i' -> forall lines ln st, rel st (read_section C cT i n lines ln st) (read_section C cL i' n lines ln st).
Proof.
  intros Hi. induction lines as [|line rest IH]; intros ln st; cbn [read_section]; [now apply rel_same|].
  change (cf_version cT) with (cf_version cf). change (cf_version cL) with (cf_version cf).
  destruct (_ && (F8 <=? cf_version cf)%Z); [apply rel_err|].
  set (q := if String.eqb line "" && N.eqb (ks_depth C st) 0 then finalize C n st else (st, None)).
  assert (Q : errs (fst q) = errs st) by (unfold q; destruct (_ && _); [apply finalize_errs|reflexivity]).
  destruct q as [s1 [e|]]; cbn [fst] in Q; [apply rel_err|]. apply (rel_step st s1 _ _ Q).
  assert (Hh : rel s1 (match call_line C n line s1 with (s, Some e) => (s, Err e) | (s, None) => read_section C cT i n rest (ln + 1) s end)
                 (match call_line C n line s1 with (s, Some e) => (s, Err e) | (s, None) => read_section C cL i' n rest (ln + 1) s end)).
  { pose proof (call_line_errs n line s1) as X. destruct (call_line C n line s1) as [s2 [e|]]; cbn [fst] in X; [apply rel_err|]. now apply (rel_step s1 s2). }
  destruct (is_blank_or_comment line && negb (all_lines C n s1)); [apply IH|].
  destruct (startswith (lstrip line) "%"); [|exact Hh].
  destruct (split_ws line) as [|possible ?]; [apply rel_err|].
  destruct (negb (valid_state C s1 possible) && negb (mem possible ["%end"; "%include"])); [exact Hh|].
  destruct (shlex_split false line) as [[|a0 more]|e]; [apply IH| |apply rel_err].
  assert (Hf : forall x, rel s1 (match finalize C n s1 with (s, Some e) => (s, Err e) | (s, None) => (s, Ok x) end)
                 (match finalize C n s1 with (s, Some e) => (s, Err e) | (s, None) => (s, @Ok (list string * N) x) end)).
  { intros x. pose proof (finalize_errs n s1) as X. destruct (finalize C n s1) as [s2 [e|]]; cbn [fst] in X; [apply rel_err|]. now apply rel_same. }
  destruct (String.eqb a0 "%end"); [apply Hf|].
  destruct (String.eqb a0 "%include").
  { destruct more as [|f more]; [apply rel_err|]. destruct f as [|c f]; [apply rel_err|].
    apply (rel_then s1 (as_res (i (String c f) s1)) (as_res (i' (String c f) s1))
             (fun _ s => read_section C cT i n rest (ln + 1) s) (fun _ s => read_section C cL i' n rest (ln + 1) s)); [apply Hi| | | | |intros _ s; apply IH];
      intros x; destruct (i (String c f) s1) as [s2 [e|]], (i' (String c f) s1) as [s3 [e'|]]; intros X; first [discriminate X|reflexivity|injection X as <-; reflexivity]. }
  destruct (String.eqb a0 "%ksappend"); [apply IH|]. destruct (valid_state C s1 a0); [|apply IH].
  destruct (F8 <=? cf_version cf)%Z; [apply rel_err|]. apply Hf.
Qed.

Lemma machine_rel i i' : include_rel i i' -> forall fuel lines ln st, relo st (state_machine C dispatch cT fuel i lines ln st) (state_machine C dispatch cL fuel i' lines ln st).
Proof.
  intros Hi. induction fuel as [|fuel IH]; intros lines ln st; cbn [state_machine]; [apply relo_err|].
  destruct lines as [|line rest]; [now apply relo_same|]. destruct line as [|ch line']; [now apply relo_same|]. remember (String ch line') as line eqn:El.
  destruct (is_blank_or_comment line). { apply (rel_step st (special_comments C line st)); [apply special_errs|]. apply IH. }
  destruct (shlex_split true line) as [[|a0 more]|e]; [apply relo_err| |apply relo_err].
  change (cf_version cT) with (cf_version cf). change (cf_version cL) with (cf_version cf).
  change (cf_unknownSectionIsFatal cT) with (cf_unknownSectionIsFatal cf). change (cf_unknownSectionIsFatal cL) with (cf_unknownSectionIsFatal cf).
  assert (Hthen : forall s1 (r r' : kstate * option exn) ls n, relo s1 r r' ->
     relo s1 (match r with (s, Some e) => (s, Some e) | (s, None) => state_machine C dispatch cT fuel i ls n s end)
             (match r' with (s, Some e) => (s, Some e) | (s, None) => state_machine C dispatch cL fuel i' ls n s end)).
  { intros s1 r r' ls n Hr. unfold relo at 1.
    apply (rel_then s1 (as_res r) (as_res r') (fun _ s => as_res (state_machine C dispatch cT fuel i ls n s)) (fun _ s => as_res (state_machine C dispatch cL fuel i' ls n s))); [exact Hr| | | | |intros _ s; apply IH];
      intros x; destruct r as [s2 [e|]], r' as [s3 [e'|]]; intros X; first [discriminate X|reflexivity|injection X as <-; reflexivity]. }
  assert (Hread : forall s1 n ls k, relo s1
     (match read_section C cT i n ls k s1 with (s, Err e) => (s, Some e) | (s, Ok (rest, lineno)) => state_machine C dispatch cT fuel i rest lineno s end)
     (match read_section C cL i' n ls k s1 with (s, Err e) => (s, Some e) | (s, Ok (rest, lineno)) => state_machine C dispatch cL fuel i' rest lineno s end)).
  { intros s1 n ls k. unfold relo. pose proof (read_rel i i' n Hi ls k s1) as R.
    apply (rel_then s1 _ _ (fun a s => as_res (state_machine C dispatch cT fuel i (fst a) (snd a) s)) (fun a s => as_res (state_machine C dispatch cL fuel i' (fst a) (snd a) s)) _ _ R); [| | | |intros a s; apply IH];
      intros x; destruct (read_section C cT i n ls k s1) as [s2 [[? ?]|e]], (read_section C cL i' n ls k s1) as [s3 [[? ?]|e']]; cbn [as_res fst snd]; intros X; try discriminate X; injection X as <-; reflexivity. }
  destruct (String.eqb a0 "%include").
  { destruct more as [|f more]; [apply relo_err|]. destruct f as [|c f]; [apply relo_err|]. apply Hthen, Hi. }
  destruct (ks_state C st) as [n|].
  - destruct (0 <? ks_depth C st)%N; [apply Hread|apply IH].
  - destruct (String.eqb a0 "%ksappend"); [apply IH|]. destruct a0 as [|c0 a0']; [apply relo_err|]. remember (String c0 a0') as a0 eqn:Ea.
    destruct (Ascii.eqb c0 "%").
    + destruct (negb (valid_state C st a0) && cf_unknownSectionIsFatal cf); [apply relo_err|].
      set (s1 := if valid_state C st a0 then st else set_section C a0 (SNull [] []) (ks_sec C st) st).
      assert (E1 : errs (set_state C (Some a0) s1) = errs st) by (unfold s1; destruct (valid_state C st a0); reflexivity).
      change (call_header C cL) with (call_header C cT).
      apply (rel_step st (set_state C (Some a0) s1) _ _ E1).
      pose proof (try_rel (set_state C (Some a0) s1) (call_header C cT a0 (ln + 1) (a0 :: more) (set_state C (Some a0) s1)) (header_errs _ _ _ _)) as T.
      apply (rel_then (set_state C (Some a0) s1) (as_res (try_func C cT (call_header C cT a0 (ln + 1) (a0 :: more) (set_state C (Some a0) s1))))
               (as_res (try_func C cL (call_header C cT a0 (ln + 1) (a0 :: more) (set_state C (Some a0) s1))))
               (fun _ s => as_res (match read_section C cT i a0 rest (ln + 1) s with (s, Err e) => (s, Some e) | (s, Ok (rest, lineno)) => state_machine C dispatch cT fuel i rest lineno s end))
               (fun _ s => as_res (match read_section C cL i' a0 rest (ln + 1) s with (s, Err e) => (s, Some e) | (s, Ok (rest, lineno)) => state_machine C dispatch cL fuel i' rest lineno s end))); [exact T| | | | |intros _ s; apply Hread];
        intros x; destruct (try_func C cT _) as [s2 [e|]], (try_func C cL _) as [s3 [e'|]]; intros X; first [discriminate X|reflexivity|injection X as <-; reflexivity].
    + apply Hthen. apply try_rel. destruct (dispatch (ks_cmds C st) line (a0 :: more) (ln + 1)) as [c' e']. reflexivity.
Qed.

Lemma include_handled r r' : cf_missingIncludeIsFatal cf = true -> include_rel r r' -> include_rel (handle_include C cT r) (handle_include C cL r').
Proof.
  intros Hm Hr f st. unfold handle_include. change (cf_followIncludes cT) with (cf_followIncludes cf). change (cf_followIncludes cL) with (cf_followIncludes cf).
  change (cf_missingIncludeIsFatal cT) with (cf_missingIncludeIsFatal cf). change (cf_missingIncludeIsFatal cL) with (cf_missingIncludeIsFatal cf). rewrite Hm.
  destruct (negb (cf_followIncludes cf)); [now apply relo_same|]. cbn [negb].
  apply (rel_step st (set_depth C (ks_depth C st + 1) st)); [reflexivity|].
  set (s1 := set_depth C (ks_depth C st + 1) st). specialize (Hr f s1).
  apply (rel_then s1 (as_res (r f s1)) (as_res (r' f s1)) (fun _ s => (set_depth C (ks_depth C s - 1) s, Ok tt)) (fun _ s => (set_depth C (ks_depth C s - 1) s, Ok tt)) _ _ Hr);
    [| | | |intros _ s; now apply rel_same]; intros x; destruct (r f s1) as [s2 [e|]], (r' f s1) as [s3 [e'|]]; rewrite ?Bool.andb_false_r; intros X; first [discriminate X|reflexivity|injection X as <-; reflexivity].
Qed.
Lemma read_file_rel : cf_missingIncludeIsFatal cf = true -> forall n, include_rel (read_kickstart C dispatch cT n) (read_kickstart C dispatch cL n).
Proof.
  intros Hm. induction n as [|n IH]; intros f st; cbn [read_kickstart]; [apply relo_err|].
  change (resolve_path C cL) with (resolve_path C cT). change (remember_dir C cL) with (remember_dir C cT). change (cf_load cL) with (cf_load cT).
  destruct (cf_load cT (resolve_path C cT f st)) as [s|]; [|apply relo_err].
  apply (rel_step st (remember_dir C cT (resolve_path C cT f st) st)); [reflexivity|]. unfold run_string. apply machine_rel. now apply include_handled.
Qed.
End Strict.

(** A reading that goes on after errors ends without one, and has counted none, just if a strict reading ends without one; then
    they leave the same parser. *)
Lemma strict_and_lenient C dispatch cf n f st st' : cf_missingIncludeIsFatal cf = true ->
  readKickstart C dispatch (strictly true cf) n f st = (st', None) <->
  readKickstart C dispatch (strictly false cf) n f st = (st', None) /\ ks_errors C st' = ks_errors C st.
Proof.
  intros Hm. unfold readKickstart. pose proof (read_file_rel C dispatch cf Hm (S n) f (reset C st)) as R. apply relo_spec in R as [R1 R2]. split.
  - intros E. rewrite E in R1. destruct (R1 eq_refl) as [-> X]. split; [reflexivity|exact X].
  - intros [E X]. rewrite E in R2. destruct (R2 eq_refl) as [_ Y]. cbn [fst] in Y. now rewrite (Y X).
Qed.

(** ** A reading that accepts what another one accepts

    The second reading has another dispatcher, which takes the lines the first one takes, and other
    remembered directories. *)
Section More.
Variable C : Type.
Variables dispatch dispatch' : C -> string -> list string -> N -> C * option exn.
Variables cf cf' : config.
Hypothesis Takes : forall c l a n c1, dispatch c l a n = (c1, None) -> dispatch' c l a n = (c1, None).
Hypothesis Fatal : cf_errorsAreFatal cf = true.
Hypothesis Ver : cf_version cf' = cf_version cf.
Hypothesis Unk : cf_unknownSectionIsFatal cf' = cf_unknownSectionIsFatal cf.
Notation kstate := (kstate C).
Notation dirs := (set_dirs C).

Definition takes {A} (r r' : kstate * res A) : Prop := forall a, snd r = Ok a -> exists d, r' = (dirs d (fst r), Ok a).
Definition takes_o (r r' : kstate * option exn) : Prop := snd r = None -> exists d, r' = (dirs d (fst r), None).
Definition takes_i (i i' : string -> kstate -> kstate * option exn) : Prop := forall f st d, takes_o (i f st) (i' f (dirs d st)).

Lemma call_line_dirs n line st d : call_line C n line (dirs d st) = (dirs d (fst (call_line C n line st)), snd (call_line C n line st)).
Proof. unfold call_line. cbn [set_dirs ks_sections ks_sec]. destruct (assoc n (ks_sections C st)) as [o|]; [|reflexivity]. destruct (sec_handleLine line o (ks_sec C st)) as [[o' h'] e]. reflexivity. Qed.
Lemma finalize_dirs n st d : finalize C n (dirs d st) = (dirs d (fst (finalize C n st)), snd (finalize C n st)).
Proof. unfold finalize. cbn [set_dirs ks_sections ks_sec]. destruct (assoc n (ks_sections C st)) as [o|]; [|reflexivity]. destruct (sec_finalize o (ks_sec C st)) as [o' h']. reflexivity. Qed.
Lemma header_dirs n ln a st d : call_header C cf' n ln a (dirs d st) = (dirs d (fst (call_header C cf n ln a st)), snd (call_header C cf n ln a st)).
Proof. unfold call_header. rewrite Ver. cbn [set_dirs ks_sections ks_sec]. destruct (assoc n (ks_sections C st)) as [o|]; [|reflexivity]. destruct (sec_handleHeader _ ln a o (ks_sec C st)) as [[o' h'] e]. reflexivity. Qed.
Lemma special_dirs line st d : special_comments C line (dirs d st) = dirs d (special_comments C line st).
Proof. unfold special_comments. cbn [set_dirs ks_state]. destruct (ks_state C st); [reflexivity|]. destruct (startswith line "#platform="); reflexivity. Qed.
Lemma try_takes r d : takes_o (try_func C cf r) (try_func C cf' (dirs d (fst r), snd r)).
Proof. destruct r as [s [e|]]; unfold takes_o; cbn [try_func fst snd]; [rewrite Fatal; discriminate|]. intros _. exists d. reflexivity. Qed.

Lemma read_takes i i' n : takes_i i i' -> forall lines ln st d, takes (read_section C cf i n lines ln st) (read_section C cf' i' n lines ln (dirs d st)).
Proof.
  intros Hi. induction lines as [|line rest IH]; intros ln st d; cbn [read_section].
  { intros a E. exists d. cbn in E. injection E as <-. reflexivity. }
  rewrite Ver. change (ks_depth C (dirs d st)) with (ks_depth C st). rewrite finalize_dirs.
  destruct (_ && (F8 <=? cf_version cf)%Z); [intros a E; discriminate|].
  assert (Q : (if String.eqb line "" && N.eqb (ks_depth C st) 0 then (dirs d (fst (finalize C n st)), snd (finalize C n st)) else (dirs d st, None)) =
    (dirs d (fst (if String.eqb line "" && N.eqb (ks_depth C st) 0 then finalize C n st else (st, None))), snd (if String.eqb line "" && N.eqb (ks_depth C st) 0 then finalize C n st else (st, None)))) by (now destruct (_ && _)).
  rewrite Q. clear Q. match goal with |- context [if ?b then finalize C n st else (st, None)] => destruct (if b then finalize C n st else (st, None)) as [s1 [e|]] end; cbn [fst snd]; [intros a E; discriminate|].
  assert (Hh : takes (match call_line C n line s1 with (s, Some e) => (s, Err e) | (s, None) => read_section C cf i n rest (ln + 1) s end)
                 (match call_line C n line (dirs d s1) with (s, Some e) => (s, Err e) | (s, None) => read_section C cf' i' n rest (ln + 1) s end)).
  { rewrite call_line_dirs. destruct (call_line C n line s1) as [s2 [e|]]; cbn [fst snd]; [intros a E; discriminate|apply IH]. }
  change (all_lines C n (dirs d s1)) with (all_lines C n s1). change (valid_state C (dirs d s1)) with (valid_state C s1).
  destruct (is_blank_or_comment line && negb (all_lines C n s1)); [apply IH|].
  destruct (startswith (lstrip line) "%"); [|exact Hh].
  destruct (split_ws line) as [|possible ?]; [intros a E; discriminate|].
  destruct (negb (valid_state C s1 possible) && negb (mem possible ["%end"; "%include"])); [exact Hh|].
  destruct (shlex_split false line) as [[|a0 more]|e]; [apply IH| |intros a E; discriminate].
  assert (Hf : forall x, takes (match finalize C n s1 with (s, Some e) => (s, Err e) | (s, None) => (s, Ok x) end)
                 (match finalize C n (dirs d s1) with (s, Some e) => (s, Err e) | (s, None) => (s, @Ok (list string * N) x) end)).
  { intros x. rewrite finalize_dirs. destruct (finalize C n s1) as [s2 [e|]]; intros a E; [discriminate|]. exists d. cbn in E |- *. now injection E as <-. }
  destruct (String.eqb a0 "%end"); [apply Hf|].
  destruct (String.eqb a0 "%include").
  { destruct more as [|f more]; [intros a E; discriminate|]. destruct f as [|c f]; [intros a E; discriminate|].
    specialize (Hi (String c f) s1 d). destruct (i (String c f) s1) as [s2 [e|]]; [intros a E; discriminate|]. destruct (Hi eq_refl) as [d2 ->]. apply IH. }
  destruct (String.eqb a0 "%ksappend"); [apply IH|]. destruct (valid_state C s1 a0); [|apply IH].
  destruct (F8 <=? cf_version cf)%Z; [intros a E; discriminate|]. apply Hf.
Qed.

Lemma machine_takes i i' : takes_i i i' -> forall fuel lines ln st d, takes_o (state_machine C dispatch cf fuel i lines ln st) (state_machine C dispatch' cf' fuel i' lines ln (dirs d st)).
Proof.
  intros Hi. induction fuel as [|fuel IH]; intros lines ln st d; cbn [state_machine]; [intros E; discriminate|].
  destruct lines as [|line rest]; [intros _; now exists d|]. destruct line as [|ch line']; [intros _; now exists d|]. remember (String ch line') as line eqn:El.
  destruct (is_blank_or_comment line). { rewrite special_dirs. apply IH. }
  destruct (shlex_split true line) as [[|a0 more]|e]; [intros E; discriminate| |intros E; discriminate].
  assert (Hread : forall s1 d1 n ls k, takes_o
     (match read_section C cf i n ls k s1 with (s, Err e) => (s, Some e) | (s, Ok (rest, lineno)) => state_machine C dispatch cf fuel i rest lineno s end)
     (match read_section C cf' i' n ls k (dirs d1 s1) with (s, Err e) => (s, Some e) | (s, Ok (rest, lineno)) => state_machine C dispatch' cf' fuel i' rest lineno s end)).
  { intros s1 d1 n ls k. pose proof (read_takes i i' n Hi ls k s1 d1) as R. destruct (read_section C cf i n ls k s1) as [s2 [[l2 k2]|e]]; [|intros E; discriminate].
    destruct (R _ eq_refl) as [d2 ->]. apply IH. }
  destruct (String.eqb a0 "%include").
  { destruct more as [|f more]; [intros E; discriminate|]. destruct f as [|c f]; [intros E; discriminate|].
    specialize (Hi (String c f) st d). destruct (i (String c f) st) as [s2 [e|]]; [intros E; discriminate|]. destruct (Hi eq_refl) as [d2 ->]. apply IH. }
  change (ks_state C (dirs d st)) with (ks_state C st). change (ks_depth C (dirs d st)) with (ks_depth C st). change (valid_state C (dirs d st)) with (valid_state C st). rewrite Unk.
  destruct (ks_state C st) as [n|].
  - destruct (0 <? ks_depth C st)%N; [apply Hread|apply IH].
  - destruct (String.eqb a0 "%ksappend"); [apply IH|]. destruct a0 as [|c0 a0']; [intros E; discriminate|]. remember (String c0 a0') as a0 eqn:Ea.
    destruct (Ascii.eqb c0 "%").
    + destruct (negb (valid_state C st a0) && cf_unknownSectionIsFatal cf); [intros E; discriminate|].
      change (ks_sec C (dirs d st)) with (ks_sec C st).
      set (s1 := if valid_state C st a0 then st else set_section C a0 (SNull [] []) (ks_sec C st) st).
      assert (E1 : (if valid_state C st a0 then dirs d st else set_section C a0 (SNull [] []) (ks_sec C st) (dirs d st)) = dirs d s1) by (unfold s1; now destruct (valid_state C st a0)).
      rewrite E1. change (set_state C (Some a0) (dirs d s1)) with (dirs d (set_state C (Some a0) s1)). rewrite header_dirs.
      pose proof (try_takes (call_header C cf a0 (ln + 1) (a0 :: more) (set_state C (Some a0) s1)) d) as T.
      destruct (try_func C cf _) as [s2 [e|]]; [intros E; discriminate|]. destruct (T eq_refl) as [d2 ->]. cbn [fst]. apply Hread.
    + change (ks_cmds C (dirs d st)) with (ks_cmds C st). pose proof (Takes (ks_cmds C st) line (a0 :: more) (ln + 1)%N) as T.
      destruct (dispatch (ks_cmds C st) line (a0 :: more) (ln + 1)) as [c1 [e|]]; cbn [try_func]; [rewrite Fatal; intros E; discriminate|].
      rewrite (T c1 eq_refl). cbn [try_func]. change (set_cmds C c1 (dirs d st)) with (dirs d (set_cmds C c1 st)). apply IH.
Qed.
End More.

(** Readings of a text without include lines, or that do not follow them. *)
Definition skip {C} (f : string) (st : kstate C) : kstate C * option exn := (st, None).
Lemma skip_takes C : takes_i C skip skip.
Proof. intros f st d _. exists d. reflexivity. Qed.
Lemma run_skip C dispatch cf i s st : forallb (fun l => negb (is_include l)) (splitlines s) = true ->
  run_string C dispatch cf i s st = run_string C dispatch cf skip s st.
Proof.
  intros H. rewrite !run_string_run. f_equal. apply run_noinc. rewrite forallb_app, H. reflexivity.
Qed.
(** A file at the outermost level is read from its own name. *)
Lemma read_top C dispatch cf n f st : readKickstart C dispatch cf n f st =
  match cf_load cf f with
  | None => (remember_dir C cf f (reset C st), Some (KSError (Some 0%N) "input-load"))
  | Some s => run_string C dispatch cf (handle_include C cf (read_kickstart C dispatch cf n)) s (remember_dir C cf f (reset C st))
  end.
Proof.
  unfold readKickstart. cbn [read_kickstart]. assert (E : resolve_path C cf f (reset C st) = f) by (unfold resolve_path; destruct (cf_exists cf f); reflexivity).
  rewrite E. destruct (cf_load cf f); reflexivity.
Qed.
(** Readings of the same text. *)
Lemma text_takes C dispatch dispatch' cf cf' n n' s st st' d :
  (forall c l a k c1, dispatch c l a k = (c1, None) -> dispatch' c l a k = (c1, None)) ->
  cf_errorsAreFatal cf = true -> cf_version cf' = cf_version cf -> cf_unknownSectionIsFatal cf' = cf_unknownSectionIsFatal cf ->
  (cf_followIncludes cf = false /\ cf_followIncludes cf' = false) \/ forallb (fun l => negb (is_include l)) (splitlines s) = true ->
  readKickstartFromString C dispatch cf n s st = (st', None) ->
  exists d', readKickstartFromString C dispatch' cf' n' s (set_dirs C d st) = (set_dirs C d' st', None).
Proof.
  intros T F V U A H. unfold readKickstartFromString in *. change (reset C (set_dirs C d st)) with (set_dirs C d (reset C st)).
  destruct A as [[A A']|A].
  - assert (I : takes_i C (handle_include C cf (read_kickstart C dispatch cf n)) (handle_include C cf' (read_kickstart C dispatch' cf' n'))).
    { intros g s0 d0 _. exists d0. unfold handle_include. rewrite A, A'. reflexivity. }
    pose proof (machine_takes C dispatch dispatch' cf cf' T F V U _ _ I (2 * List.length (splitlines s ++ [""]) + 2) (splitlines s ++ [""]) 0 (reset C st) d) as M.
    unfold run_string in *. rewrite H in M. exact (M eq_refl).
  - rewrite run_skip in H |- * by exact A.
    pose proof (machine_takes C dispatch dispatch' cf cf' T F V U _ _ (skip_takes C) (2 * List.length (splitlines s ++ [""]) + 2) (splitlines s ++ [""]) 0 (reset C st) d) as M.
    unfold run_string in *. rewrite H in M. exact (M eq_refl).
Qed.
