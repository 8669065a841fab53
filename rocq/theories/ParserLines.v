(** * Texts and lines; includes of a deeper nesting; open sections *)

From Verif Require Import PyStrFacts ShlexFacts PreFacts ArgParseFacts Parser ParserFacts ParserSpec ParserRel.
From Verif Require Import Value.
Local Open Scope string_scope.
Local Open Scope list_scope.
Local Arguments Ascii.eqb : simpl never.
Local Arguments String.eqb : simpl never.

(** ** Lines of a concatenation *)

Lemma splitlines_app_len B : forall n A, String.length A <= n -> ends_with_char LF A = true ->
  splitlines (A ++ B)%string = splitlines A ++ splitlines B.
Proof.
  induction n as [|n IH]; intros A Hn HA.
  { destruct A; [discriminate|simpl in Hn; lia]. }
  destruct A as [|c r]; [discriminate|]. simpl in Hn.
  destruct r as [|d r'].
  { cbn [ends_with_char] in HA. apply Ascii.eqb_eq in HA. subst c. destruct B; reflexivity. }
  assert (Hr : ends_with_char LF (String d r') = true) by exact HA.
  specialize (IH (String d r')) as IHd.
  change ((String c (String d r') ++ B)%string) with (String c (String d r' ++ B)%string).
  assert (E1 : forall t, splitlines (String c t) =
      if is_linebreak c then
        match t with
        | String d r' =>
            if Ascii.eqb c CR && Ascii.eqb d LF
            then String c (String d "") :: splitlines r'
            else String c "" :: splitlines t
        | "" => [String c ""]
        end
      else match splitlines t with
           | h :: t => String c h :: t
           | [] => [String c ""]
           end) by reflexivity.
  rewrite !E1. clear E1. destruct (is_linebreak c).
  - change ((String d r' ++ B)%string) with (String d (r' ++ B)%string).
    cbv iota beta. destruct (Ascii.eqb c CR && Ascii.eqb d LF) eqn:E; rewrite ?E.
    + destruct r' as [|x r'']; [reflexivity|].
      rewrite IH; [reflexivity|simpl in *; lia|exact Hr].
    + change (String d (r' ++ B)%string) with ((String d r' ++ B)%string).
      rewrite IHd; [reflexivity|simpl in *; lia|exact Hr].
  - rewrite IHd; [|simpl in *; lia|exact Hr].
    destruct (splitlines (String d r')) as [|h t] eqn:E; [|reflexivity].
    pose proof (splitlines_concat (String d r')) as X. rewrite E in X. discriminate.
Qed.

Lemma splitlines_app A B : complete A = true -> splitlines (A ++ B)%string = splitlines A ++ splitlines B.
Proof.
  intros H. apply orb_true_iff in H as [H|H].
  - apply String.eqb_eq in H. subst; reflexivity.
  - apply (splitlines_app_len B (String.length A)); auto.
Qed.

Lemma complete_app A B : complete A = true -> complete B = true -> complete (A ++ B)%string = true.
Proof.
  unfold complete. intros HA HB. apply orb_true_iff in HB as [HB|HB].
  - apply String.eqb_eq in HB. subst B. rewrite app_nil_r_s. exact HA.
  - apply orb_true_iff; right. induction A as [|c A IH]; auto.
    change ((String c A ++ B)%string) with (String c (A ++ B)%string).
    assert (X : ends_with_char LF (A ++ B)%string = true).
    { destruct A as [|d A]; [exact HB|]. apply IH. apply orb_true_iff in HA as [HA|HA]; [discriminate|].
      apply orb_true_iff; right. exact HA. }
    destruct (A ++ B)%string eqn:E; [discriminate|exact X].
Qed.

(** ** More nesting of includes does no harm *)

Section More.
Variable C : Type.
Variable dispatch : C -> string -> list string -> N -> C * option exn.
Variable cf : config.
Notation kstate := (kstate C).
Notation hook := (string -> kstate -> kstate * option exn).
Implicit Types st : kstate.

Definition hook_le (i j : hook) : Prop :=
  forall f st, snd (i f st) <> Some OutOfFuel -> j f st = i f st.

Lemma rs_step_le i j n line ln st : hook_le i j ->
  snd (rs_step C cf i n line ln st) <> Err OutOfFuel ->
  rs_step C cf j n line ln st = rs_step C cf i n line ln st.
Proof.
  intros Hi. unfold rs_step. set (eof := String.eqb line "" && N.eqb (ks_depth C st) 0).
  destruct (eof && (F8 <=? cf_version cf)%Z); auto.
  destruct (if eof then finalize C n st else (st, None)) as [s1 [e|]]; auto.
  destruct (is_blank_or_comment line && negb (all_lines C n s1)); auto.
  destruct (startswith (lstrip line) "%"); auto.
  destruct (split_ws line) as [|w ws]; auto.
  destruct (negb (valid_state C s1 w) && _); auto.
  destruct (shlex_split false line) as [[|a0 more]|e]; auto.
  destruct (String.eqb a0 "%end"); auto.
  destruct (String.eqb a0 "%include"); auto.
  destruct more as [|[|c r] more]; auto.
  specialize (Hi (String c r) s1). destruct (i (String c r) s1) as [s2 [e2|]].
  - intros H. rewrite Hi; auto. simpl in *. congruence.
  - intros _. rewrite Hi; auto. discriminate.
Qed.

Lemma sm_step_le i j line ln st : hook_le i j ->
  snd (sm_step C dispatch cf i line ln st) <> Err OutOfFuel ->
  sm_step C dispatch cf j line ln st = sm_step C dispatch cf i line ln st.
Proof.
  intros Hi. unfold sm_step.
  destruct (String.eqb line ""); auto. destruct (is_blank_or_comment line); auto.
  destruct (shlex_split true line) as [[|a0 more]|e]; auto.
  destruct (String.eqb a0 "%include"); auto.
  destruct more as [|[|c r] more]; auto.
  specialize (Hi (String c r) st). destruct (i (String c r) st) as [s2 [e2|]].
  - intros H. rewrite Hi; auto. simpl in *. congruence.
  - intros _. rewrite Hi; auto. discriminate.
Qed.

Lemma steps_le i j : hook_le i j -> forall k m line ln st,
  snd (steps C dispatch cf k i m line ln st) <> Err OutOfFuel ->
  steps C dispatch cf k j m line ln st = steps C dispatch cf k i m line ln st.
Proof.
  intros Hi. induction k as [|k IH]; intros m line ln st; [reflexivity|]. rewrite !steps_eq.
  assert (S : snd (step C dispatch cf i m line ln st) <> Err OutOfFuel ->
     step C dispatch cf j m line ln st = step C dispatch cf i m line ln st).
  { destruct m; [apply rs_step_le; auto|apply sm_step_le; auto]. }
  destruct (step C dispatch cf i m line ln st) as [s1 [[|m1 l1|m1 l1]|e]]; intros H; rewrite S; auto; simpl in *; congruence.
Qed.

Lemma run_lines_le i j : hook_le i j -> forall lines m ln st,
  snd (run_lines C dispatch cf i m lines ln st) <> Err OutOfFuel ->
  run_lines C dispatch cf j m lines ln st = run_lines C dispatch cf i m lines ln st.
Proof.
  intros Hi. induction lines as [|line lines IH]; intros m ln st; [reflexivity|]. cbn [run_lines].
  pose proof (steps_le i j Hi 3 m line ln st) as S.
  destruct (steps C dispatch cf 3 i m line ln st) as [s1 [[[m1 l1]|]|e]]; intros H; rewrite S; auto; simpl in *; congruence.
Qed.

Lemma outcome_fuel {A} (r : kstate * res A) : snd (outcome C r) <> Some OutOfFuel -> snd r <> Err OutOfFuel.
Proof. destruct r as [s [a|e]]; simpl; congruence. Qed.

Lemma handle_include_le (r r' : hook) : hook_le r r' -> hook_le (handle_include C cf r) (handle_include C cf r').
Proof.
  intros Hr f st. unfold handle_include. destruct (negb (cf_followIncludes cf)); auto.
  specialize (Hr f (set_depth C (ks_depth C st + 1) st)).
  destruct (r f (set_depth C (ks_depth C st + 1) st)) as [s1 [e|]].
  - intros H. rewrite Hr; auto. intros X. injection X as ->. apply H. reflexivity.
  - intros _. rewrite Hr; auto. discriminate.
Qed.

Lemma read_le n : hook_le (read_kickstart C dispatch cf n) (read_kickstart C dispatch cf (S n)).
Proof.
  induction n as [|n IH]; intros f st.
  { cbn. congruence. }
  change (read_kickstart C dispatch cf (S (S n)) f st) with
    (let f := resolve_path C cf f st in
     let st := remember_dir C cf f st in
      match cf_load cf f with
      | None => (st, Some (KSError (Some 0%N) "input-load"))
      | Some s => run_string C dispatch cf (handle_include C cf (read_kickstart C dispatch cf (S n))) s st
      end).
  cbn [read_kickstart]. cbv zeta.
  destruct (cf_load cf (resolve_path C cf f st)); auto.
  rewrite !run_string_run. intros H. f_equal. apply run_lines_le; [apply handle_include_le, IH|].
  apply outcome_fuel; auto.
Qed.

Lemma include_le n : hook_le (handle_include C cf (read_kickstart C dispatch cf n)) (handle_include C cf (read_kickstart C dispatch cf (S n))).
Proof. apply handle_include_le, read_le. Qed.

End More.

(** ** Markers of sections *)

Lemma ibc_eq l : is_blank_or_comment l = blank l || comment l.
Proof.
  unfold is_blank_or_comment, blank, comment, isspace. destruct l as [|c l]; [reflexivity|].
  cbn [String.eqb negb andb orb]. rewrite orb_false_r. reflexivity.
Qed.

Lemma split_ws_lstrip l : split_ws (lstrip l) = split_ws l.
Proof.
  unfold lstrip. induction l as [|c l IH]; [reflexivity|]. cbn [lstrip_by].
  destruct (is_space c) eqn:E; [|reflexivity]. rewrite IH. cbn [split_ws]. rewrite E. reflexivity.
Qed.

Lemma split_ws_head c l : is_space c = false -> exists h t, split_ws (String c l) = String c h :: t.
Proof.
  intros H. cbn [split_ws]. rewrite H. destruct l as [|d l]; [eauto|].
  destruct (is_space d); [eauto|]. destruct (split_ws (String d l)); eauto.
Qed.

Lemma lstrip_head l c r : lstrip l = String c r -> is_space c = false.
Proof.
  unfold lstrip. induction l as [|x l IH]; [discriminate|]. cbn [lstrip_by].
  destruct (is_space x) eqn:E; auto. intros H; injection H as <- _. exact E.
Qed.

(** The first word starts where the line, stripped, starts. *)
Lemma split_ws_first l w ws : split_ws l = w :: ws ->
  exists c w' r, w = String c w' /\ lstrip l = String c r /\ is_space c = false.
Proof.
  rewrite <- split_ws_lstrip. destruct (lstrip l) as [|c r] eqn:E; [discriminate|].
  pose proof (lstrip_head _ _ _ E) as Hc. destruct (split_ws_head c r Hc) as (h & t & ->).
  intros H; injection H as <- _. eauto 6.
Qed.

Lemma end_line_spec l : end_line l = true ->
  exists ws more, split_ws l = "%end" :: ws /\ shlex_split false l = Ok ("%end" :: more).
Proof.
  unfold end_line. destruct (split_ws l) as [|w ws]; [discriminate|].
  destruct (shlex_split false l) as [[|a more]|]; try discriminate.
  intros H. apply andb_true_iff in H as [H1 H2]. apply String.eqb_eq in H1, H2. subst. eauto.
Qed.

Lemma end_line_true l ws more : split_ws l = "%end" :: ws -> shlex_split false l = Ok ("%end" :: more) -> end_line l = true.
Proof. intros H1 H2. unfold end_line. rewrite H1, H2. reflexivity. Qed.

(** Reading on in a word. *)
Lemma emit_head tok q r x : emit tok q r = Ok x -> tok <> "" -> exists l, x = tok :: l.
Proof.
  unfold emit. intros H Ht. apply String.eqb_neq in Ht. rewrite Ht in H. cbn [andb] in H.
  apply bind_ok in H as (l & _ & H). injection H as <-. eauto.
Qed.

Lemma lex_prefix cm s : forall st tok q x, lex cm s st tok q = Ok x ->
  match st with LSpace | LComment => False | _ => True end -> tok <> "" ->
  exists w l, x = w :: l /\ startswith w tok = true.
Proof.
  induction s as [|c s IH]; intros st tok q x H Hst Ht.
  - destruct st; try contradiction; cbn [lex] in H; try discriminate.
    destruct (emit_head _ _ _ _ H Ht) as [l ->]. exists tok, l. split; auto.
    rewrite <- (app_nil_r_s tok) at 1. apply startswith_app.
  - assert (Happ : forall y, (tok ++ y)%string <> "") by (intros y E; destruct tok; [congruence|discriminate]).
    assert (Hs : forall w y, startswith w (tok ++ y)%string = true -> startswith w tok = true).
    { intros w y E. apply startswith_spec in E as [z E]. apply startswith_spec. exists (y ++ z)%string.
      rewrite E, app_assoc_s. reflexivity. }
    destruct st as [| |qc|[qc|]|]; try contradiction; cbn [lex] in H.
    + destruct (lex_white c); [|destruct (cm && Ascii.eqb c HASH)].
      1,2: destruct (emit_head _ _ _ _ H Ht) as [l ->]; exists tok, l; split; auto;
           rewrite <- (app_nil_r_s tok) at 1; apply startswith_app.
      destruct (lex_quote c); [eapply IH; eauto; simpl; auto|].
      destruct (Ascii.eqb c BSLASH); [eapply IH; eauto; simpl; auto|].
      destruct (IH _ _ _ _ H I (Happ _)) as (w & l & -> & E). eauto.
    + destruct (Ascii.eqb c qc); [eapply IH; eauto; simpl; auto|].
      destruct (Ascii.eqb c BSLASH && Ascii.eqb qc DQUOTE); [eapply IH; eauto; simpl; auto|].
      destruct (IH _ _ _ _ H I (Happ _)) as (w & l & -> & E). eauto.
    + destruct (negb (Ascii.eqb c BSLASH) && negb (Ascii.eqb c qc));
      destruct (IH _ _ _ _ H I (Happ _)) as (w & l & -> & E); eauto.
    + destruct (IH _ _ _ _ H I (Happ _)) as (w & l & -> & E). eauto.
Qed.

Lemma split_ws_decomp s : forall w ws, split_ws s = w :: ws ->
  (forall c r, s = String c r -> is_space c = false) ->
  exists rest, s = (w ++ rest)%string /\ all_chars (fun c => negb (is_space c)) w = true /\
    match rest with "" => True | String d _ => is_space d = true end.
Proof.
  induction s as [|c s IH]; intros w ws H Hc; [discriminate|].
  specialize (Hc c s eq_refl). cbn [split_ws] in H. rewrite Hc in H. destruct s as [|d s].
  - injection H as <- _. exists "". split; [reflexivity|]. split; [|exact I]. cbn. rewrite Hc. reflexivity.
  - destruct (is_space d) eqn:Ed.
    + injection H as <- _. exists (String d s). split; [reflexivity|]. split; [|exact Ed]. cbn. rewrite Hc. reflexivity.
    + destruct (split_ws (String d s)) as [|h t] eqn:E.
      { destruct (split_ws_head d s Ed) as (? & ? & X). congruence. }
      injection H as <- <-. destruct (IH h t eq_refl) as (rest & -> & A & B).
      { intros c' r' X. injection X as <- _. exact Ed. }
      exists rest. split; [reflexivity|]. split; auto. cbn. rewrite Hc. exact A.
Qed.

Definition plain_char (c : ascii) : bool := negb (lex_quote c) && negb (Ascii.eqb c BSLASH).

Lemma space_plain c : is_space c = true -> plain_char c = true /\ Ascii.eqb c "%" = false.
Proof.
  intros H. revert c H. 
  assert (A : forall c, negb (is_space c) || (plain_char c && negb (Ascii.eqb c "%")) = true).
  { apply forall_ascii. vm_compute. reflexivity. }
  intros c H. specialize (A c). rewrite H in A. cbn [negb orb] in A. apply andb_true_iff in A as [A B].
  split; auto. destruct (Ascii.eqb c "%"); auto.
Qed.

Lemma nonspace_not_white c : is_space c = false -> lex_white c = false.
Proof.
  intros H. assert (A : forall c, is_space c || negb (lex_white c) = true).
  { apply forall_ascii. vm_compute. reflexivity. }
  specialize (A c). rewrite H in A. cbn in A. destruct (lex_white c); auto; discriminate.
Qed.

Lemma lex_plain w : forall rest tok q, all_chars (fun c => negb (is_space c)) w = true -> all_chars plain_char w = true ->
  lex false (w ++ rest)%string LWord tok q = lex false rest LWord (tok ++ w)%string q.
Proof.
  induction w as [|c w IH]; intros rest tok q Hs Hp; [rewrite app_nil_r_s; reflexivity|].
  cbn [all_chars] in Hs, Hp. apply andb_true_iff in Hs as [Hc Hs]. apply andb_true_iff in Hp as [Hp Hw].
  apply negb_true_iff in Hc. apply andb_true_iff in Hp as [Hq Hb]. apply negb_true_iff in Hq, Hb.
  cbn [append lex]. rewrite (nonspace_not_white _ Hc), Hq, Hb. cbn [andb]. rewrite IH by auto.
  f_equal. rewrite app_assoc_s. reflexivity.
Qed.

Lemma end_marker l w ws more : split_ws l = w :: ws -> startswith (lstrip l) "%" = true -> plain_marker l = true ->
  shlex_split false l = Ok ("%end" :: more) -> w = "%end".
Proof.
  unfold shlex_split. intros Hw Hp Hm Hs.
  assert (Hww : forall x y, split_ws x = y :: ws -> plain_marker x = true -> startswith (lstrip x) "%" = true ->
     (forall c r, x = String c r -> is_space c = false) -> lex false x LSpace "" false = Ok ("%end" :: more) -> y = "%end").
  { clear. intros x y Hw Hm Hp Hc Hs.
    destruct (split_ws_decomp x y ws Hw Hc) as (rest & -> & Hns & Hrest).
    destruct y as [|c y].
    { destruct (split_ws_first _ _ _ Hw) as (? & ? & ? & ? & _). discriminate. }
    specialize (Hc c (y ++ rest)%string eq_refl).
    assert (E : c = "%"%char).
    { unfold lstrip in Hp. cbn [append lstrip_by] in Hp. rewrite Hc, startswith_cons in Hp.
      apply andb_true_iff in Hp as [Hp _]. apply Ascii.eqb_eq in Hp. congruence. }
    subst c. unfold plain_marker in Hm. rewrite Hw in Hm.
    change (startswith (String "%" y) "%") with (startswith y "") in Hm. rewrite startswith_nil in Hm. cbn [negb orb] in Hm.
    change (fun c : ascii => negb (lex_quote c) && negb (Ascii.eqb c BSLASH)) with plain_char in Hm.
    cbn [all_chars] in Hm, Hns. apply andb_true_iff in Hm as [_ Hm]. apply andb_true_iff in Hns as [_ Hns].
    cbn [append lex] in Hs. change (lex_white "%") with false in Hs.
    change (Ascii.eqb "%" BSLASH) with false in Hs. change (lex_quote "%") with false in Hs. cbn [andb] in Hs.
    rewrite lex_plain in Hs by auto.
    destruct rest as [|d rest].
    - cbn [lex] in Hs. destruct (emit_head _ _ _ _ Hs ltac:(discriminate)) as [t X]. injection X as <- _. reflexivity.
    - cbn [lex] in Hs. destruct (lex_white d).
      + destruct (emit_head _ _ _ _ Hs ltac:(discriminate)) as [t X]. injection X as <- _. reflexivity.
      + destruct (space_plain d Hrest) as [Hd _]. apply andb_true_iff in Hd as [Hq Hb]. apply negb_true_iff in Hq, Hb.
        rewrite Hq, Hb in Hs. cbn [andb] in Hs.
        destruct (lex_prefix _ _ _ _ _ _ Hs I ltac:(discriminate)) as (w & t & X & Hpre). injection X as <- _.
        apply startswith_spec in Hpre as [z Hz].
        assert (A : all_chars (fun c => negb (is_space c)) "%end" = true) by reflexivity.
        rewrite Hz in A. exfalso. revert A. clear -Hrest. 
        generalize (String "%" "" ++ y)%string; intros u. induction u as [|x u IH].
        { cbn [append all_chars]. rewrite Hrest. discriminate. }
        cbn [append all_chars] in *. intros A. apply andb_true_iff in A as [_ A]. auto. }
  induction l as [|c l IH]; [discriminate|].
  destruct (is_space c) eqn:E.
  - cbn [split_ws] in Hw. rewrite E in Hw. unfold lstrip in Hp. cbn [lstrip_by] in Hp. rewrite E in Hp.
    unfold plain_marker in Hm. cbn [split_ws] in Hm. rewrite E in Hm.
    cbn [lex] in Hs. destruct (lex_white c) eqn:W.
    { apply IH; auto. }
    destruct (space_plain c E) as [Hd Hx]. apply andb_true_iff in Hd as [Hq Hb]. apply negb_true_iff in Hq, Hb.
    rewrite Hq, Hb in Hs. cbn [andb] in Hs.
    destruct (lex_prefix _ _ _ _ _ _ Hs I ltac:(discriminate)) as (w' & t & X & Hpre). injection X as <- _.
    rewrite startswith_cons in Hpre. apply andb_true_iff in Hpre as [Hpre _]. congruence.
  - apply (Hww (String c l) w); auto. intros c' r X. injection X as <- _. exact E.
Qed.

(** ** Following the open section *)

Section Open.
Variable C : Type.
Variable dispatch : C -> string -> list string -> N -> C * option exn.
Variable cf : config.
Notation kstate := (kstate C).
Notation hook := (string -> kstate -> kstate * option exn).
Implicit Types st : kstate.

(** In the command part no section is open. *)
Definition good (m : mode) (st : kstate) : Prop := m = None -> ks_state C st = None.
(** Included files leave no section open. *)
Definition hook_closed (i : hook) : Prop :=
  forall f st, ks_state C st = None -> snd (i f st) = None -> ks_state C (fst (i f st)) = None.

Lemma finalize_state n st : snd (finalize C n st) = None -> ks_state C (fst (finalize C n st)) = None.
Proof. intros H. eapply finalize_none; [apply surjective_pairing|exact H]. Qed.

Lemma special_comments_state line st : ks_state C (special_comments C line st) = ks_state C st.
Proof. unfold special_comments. destruct (ks_state C st) eqn:E; auto. destruct (startswith line "#platform="); auto. Qed.

Lemma try_func_state r : ks_state C (fst (try_func C cf r)) = ks_state C (fst r).
Proof. destruct r as [st [e|]]; reflexivity. Qed.

Lemma call_header_state n ln a st : ks_state C (fst (call_header C cf n ln a st)) = ks_state C st.
Proof.
  unfold call_header. destruct (assoc n (ks_sections C st)); auto.
  destruct (sec_handleHeader _ ln a s (ks_sec C st)) as [[? ?] ?]; reflexivity.
Qed.

Lemma percent_word c w : Ascii.eqb c "%" = false -> mem (String c w) ["%include"; "%ksappend"] = false.
Proof.
  intros H. cbn [mem existsb].
  assert (X : forall t, String.eqb (String c w) (String "%" t) = false).
  { intros t. apply String.eqb_neq. intros E. injection E as -> _. discriminate. }
  rewrite !X. reflexivity.
Qed.

(** A line in the command part. *)
Lemma sm_step_open i line ln st s1 x : hook_closed i -> line <> "" -> ks_state C st = None ->
  sm_step C dispatch cf i line ln st = (s1, Ok x) ->
  x = Go (open_after None line) (ln + 1)%N /\ good (open_after None line) s1.
Proof.
  intros Hi Hl Hst. unfold sm_step. apply String.eqb_neq in Hl. rewrite Hl, ibc_eq. cbn [open_after].
  destruct (blank line || comment line).
  { intros H; injection H as <- <-. split; auto. intros _. rewrite special_comments_state. exact Hst. }
  destruct (shlex_split true line) as [[|a0 more]|e]; try discriminate.
  destruct (String.eqb_spec a0 "%include") as [->|Hinc].
  { destruct more as [|[|c r] more]; try discriminate.
    specialize (Hi (String c r) st Hst). destruct (i (String c r) st) as [s2 [e2|]]; [discriminate|].
    intros H; injection H as <- <-. cbn. split; auto. intros _. apply Hi. reflexivity. }
  rewrite Hst. destruct (String.eqb_spec a0 "%ksappend") as [->|Happ].
  { intros H; injection H as <- <-. cbn. split; auto. intros _. exact Hst. }
  destruct a0 as [|c r]; [discriminate|].
  destruct (Ascii.eqb c "%") eqn:Ec.
  - destruct (negb (valid_state C st (String c r)) && cf_unknownSectionIsFatal cf); [discriminate|].
    cbv zeta. match goal with |- context [try_func C cf ?r] => destruct (try_func C cf r) as [s2 [e2|]] end; [discriminate|].
    intros H; injection H as <- <-.
    assert (M : mem (String c r) ["%include"; "%ksappend"] = false).
    { cbn [mem existsb]. apply String.eqb_neq in Hinc, Happ. rewrite Hinc, Happ. reflexivity. }
    rewrite M. cbn [negb andb]. split; auto. discriminate.
  - destruct (dispatch (ks_cmds C st) line (String c r :: more) (ln + 1)) as [c1 e1].
    pose proof (try_func_state (set_cmds C c1 st, e1)) as T.
    destruct (try_func C cf (set_cmds C c1 st, e1)) as [s2 [e2|]]; [discriminate|].
    intros H; injection H as <- <-. cbn [andb]. split; auto. intros _. simpl in T. congruence.
Qed.

(** A line in a section. *)
Lemma rs_step_open i n line ln st s1 x : (F8 <=? cf_version cf)%Z = true -> line <> "" -> plain_marker line = true ->
  rs_step C cf i n line ln st = (s1, Ok x) ->
  x = Go (open_after (Some n) line) (ln + 1)%N /\ good (open_after (Some n) line) s1.
Proof.
  intros HF Hl Hm. unfold rs_step. apply String.eqb_neq in Hl. rewrite Hl. cbn [andb open_after].
  assert (Hno : end_line line = false -> forall s : kstate, forall x, (s, Ok (Go (Some n) (ln + 1)%N)) = (s1, Ok x) ->
     x = Go (if end_line line then None else Some n) (ln + 1)%N /\ good (if end_line line then None else Some n) s1).
  { intros -> s x0 H; injection H as <- <-. split; auto. discriminate. }
  assert (Hne : forall w ws, split_ws line = w :: ws -> w <> "%end" -> end_line line = false).
  { intros w ws E Hw. destruct (end_line line) eqn:X; auto. apply end_line_spec in X as (? & ? & X & _). congruence. }
  assert (Hpc : startswith (lstrip line) "%" = false -> end_line line = false).
  { intros E. destruct (end_line line) eqn:X; auto. apply end_line_spec in X as (? & ? & X & _).
    apply split_ws_first in X as (c & w & r & A & B & _). injection A as <- _. rewrite B in E. 
    rewrite startswith_cons, startswith_nil in E. discriminate. }
  assert (Hh : end_line line = false -> 
     match call_line C n line st with (st, Some e) => (st, Err e) | (st, None) => (st, Ok (Go (Some n) (ln + 1)%N)) end = (s1, Ok x) ->
     x = Go (if end_line line then None else Some n) (ln + 1)%N /\ good (if end_line line then None else Some n) s1).
  { intros E. destruct (call_line C n line st) as [s2 [e2|]]; [discriminate|]. apply Hno; auto. }
  destruct (is_blank_or_comment line && negb (all_lines C n st)) eqn:Eb.
  { apply Hno. apply andb_true_iff in Eb as [Eb _]. rewrite ibc_eq in Eb. apply Hpc.
    unfold blank, comment in Eb. apply orb_true_iff in Eb as [Eb|Eb].
    - assert (X : lstrip line = ""); [|rewrite X; reflexivity].
      unfold lstrip. clear -Eb. induction line as [|c l IH]; auto. cbn [all_chars lstrip_by] in *.
      apply andb_true_iff in Eb as [-> Eb]. auto.
    - destruct (lstrip line) as [|c r]; [discriminate|]. rewrite startswith_cons in *.
      apply andb_true_iff in Eb as [Eb _]. apply Ascii.eqb_eq in Eb. subst c. reflexivity. }
  destruct (startswith (lstrip line) "%") eqn:Ep; [|apply Hh; auto].
  destruct (split_ws line) as [|w ws] eqn:Ew; [discriminate|].
  destruct (negb (valid_state C st w) && negb (mem w ["%end"; "%include"])) eqn:Ev.
  { apply Hh. apply (Hne w ws eq_refl). intros ->. apply andb_true_iff in Ev as [_ Ev]. discriminate. }
  destruct (shlex_split false line) as [[|a0 more]|e] eqn:Es; [| |discriminate].
  { apply Hno. destruct (end_line line) eqn:X; auto. apply end_line_spec in X as (? & ? & _ & X). congruence. }
  destruct (String.eqb_spec a0 "%end") as [->|Ha].
  { pose proof (end_marker _ _ _ _ Ew Ep Hm Es) as ->.
    rewrite (end_line_true _ _ _ Ew Es).
    pose proof (finalize_state n st) as F. destruct (finalize C n st) as [s2 [e2|]]; [discriminate|].
    intros H; injection H as <- <-. split; auto. intros _. apply F. reflexivity. }
  assert (En : end_line line = false).
  { destruct (end_line line) eqn:X; auto. apply end_line_spec in X as (? & ? & _ & X). congruence. }
  destruct (String.eqb a0 "%include").
  { destruct more as [|[|c r] more]; try discriminate.
    destruct (i (String c r) st) as [s2 [e2|]]; [discriminate|]. apply Hno; auto. }
  destruct (String.eqb a0 "%ksappend"); [apply Hno; auto|].
  destruct (valid_state C st a0); [|apply Hno; auto].
  rewrite HF. discriminate.
Qed.

(** What a text may do with sections. *)
Definition may (m : mode) (lines : list string) : Prop :=
  (F8 <=? cf_version cf)%Z = true \/ (m = None /\ forall l, In l lines -> open_after None l = None).

Lemma steps_open i m line ln st s1 x j : hook_closed i -> line <> "" -> plain_marker line = true -> good m st ->
  may m [line] ->
  steps C dispatch cf (S j) i m line ln st = (s1, Ok x) ->
  x = Some (open_after m line, (ln + 1)%N) /\ good (open_after m line) s1.
Proof.
  intros Hi Hl Hm Hg Hv. rewrite steps_eq. destruct m as [n|]; cbn [step].
  - destruct Hv as [Hv|[? _]]; [|discriminate].
    destruct (rs_step C cf i n line ln st) as [s2 [y|e]] eqn:E; [|discriminate].
    apply rs_step_open in E as [-> E]; auto. intros H; injection H as <- <-. auto.
  - destruct (sm_step C dispatch cf i line ln st) as [s2 [y|e]] eqn:E; [|discriminate].
    apply sm_step_open in E as [-> E]; auto. intros H; injection H as <- <-. auto.
Qed.

Lemma may_cons m line lines : may m (line :: lines) -> may m [line] /\ may (open_after m line) lines.
Proof.
  intros [H|[-> H]]; [split; left; auto|]. split; right; split; auto.
  - intros l [<-|[]]. apply H; simpl; auto.
  - apply H; simpl; auto.
  - intros l Hl. apply H; simpl; auto.
Qed.

Lemma run_lines_open i : hook_closed i -> forall lines m ln st s1 x,
  (forall l, In l lines -> l <> "") -> forallb plain_marker lines = true -> good m st -> may m lines ->
  run_lines C dispatch cf i m lines ln st = (s1, Ok x) ->
  x = Some (section_after m lines, (ln + N.of_nat (length lines))%N) /\ good (section_after m lines) s1.
Proof.
  intros Hi. induction lines as [|line lines IH]; intros m ln st s1 x Hl Hm Hg Hv.
  { cbn [run_lines section_after fold_left length]. intros H; injection H as <- <-. rewrite N.add_0_r. auto. }
  cbn [run_lines]. cbn [forallb] in Hm. apply andb_true_iff in Hm as [Hm Hms]. apply may_cons in Hv as [Hv Hvs].
  destruct (steps C dispatch cf 3 i m line ln st) as [s2 [y|e]] eqn:E; [|discriminate].
  apply (steps_open i m line ln st s2 y 2) in E as [-> E]; auto; [|apply Hl; simpl; auto].
  intros H. apply IH in H as [-> H]; auto; [|intros l Hin; apply Hl; simpl; auto].
  cbn [section_after fold_left length]. split; [|exact H]. f_equal. f_equal. lia.
Qed.

(** Files whose sections are closed. *)
Definition closed_files : Prop := forall f s, cf_load cf f = Some s -> closed_text (cf_version cf) s = true.

Lemma closed_may s : closed_text (cf_version cf) s = true ->
  (forall l, In l (splitlines s) -> l <> "") /\ forallb plain_marker (splitlines s) = true /\
  may None (splitlines s) /\ section_after None (splitlines s) = None.
Proof.
  intros H. apply andb_true_iff in H as [H1 H2]. split; [apply splitlines_nonempty|]. split; auto.
  unfold may. destruct (F8 <=? cf_version cf)%Z.
  - split; auto. destruct (section_after None (splitlines s)); [discriminate|auto].
  - unfold no_sections in H2. rewrite forallb_forall in H2.
    assert (A : forall l, In l (splitlines s) -> open_after None l = None).
    { intros l Hl. specialize (H2 l Hl). destruct (open_after None l); [discriminate|auto]. }
    split; [right; auto|]. clear H1 H2. induction (splitlines s) as [|l ls IH]; auto.
    unfold section_after in *. cbn [fold_left]. rewrite A by (simpl; auto). apply IH. intros; apply A; simpl; auto.
Qed.

Lemma run_app_end i lines m ln st s1 l1 : run_lines C dispatch cf i m lines ln st = (s1, Ok (Some (None, l1))) ->
  run_lines C dispatch cf i m (lines ++ [""]) ln st = (s1, Ok None).
Proof. intros H. rewrite run_lines_app, H. reflexivity. Qed.

Lemma include_closed n : closed_files -> cf_missingIncludeIsFatal cf = true ->
  hook_closed (handle_include C cf (read_kickstart C dispatch cf n)).
Proof.
  intros Hf Hfatal.
  assert (G : forall n, hook_closed (read_kickstart C dispatch cf n) -> hook_closed (handle_include C cf (read_kickstart C dispatch cf n))).
  { intros k Hk f st Hst. unfold handle_include. destruct (cf_followIncludes cf); cbn [negb]; auto.
    specialize (Hk f (set_depth C (ks_depth C st + 1) st) Hst).
    destruct (read_kickstart C dispatch cf k f (set_depth C (ks_depth C st + 1) st)) as [s1 [e|]].
    - rewrite Hfatal, andb_false_r. discriminate.
    - intros _. apply Hk. reflexivity. }
  apply G. induction n as [|n IH]; intros f st Hst; [discriminate|].
  cbn [read_kickstart]. set (f' := resolve_path C cf f st).
  destruct (cf_load cf f') as [s|] eqn:El; [|discriminate].
  rewrite run_string_run. destruct (closed_may s (Hf _ _ El)) as (H1 & H2 & H3 & H4).
  rewrite run_lines_app.
  destruct (run_lines C dispatch cf _ None (splitlines s) 0 (remember_dir C cf f' st)) as [s1 [x|e]] eqn:E; [|discriminate].
  apply run_lines_open in E as [-> E]; auto; [|intros _; exact Hst].
  rewrite H4 in E |- *. intros _. cbn. apply E. reflexivity.
Qed.

(** At the top level, lines that open no section leave no section open. *)
Lemma sm_step_top i line ln st s1 x : ks_depth C st = 0%N -> open_after None line = None -> line <> "" ->
  sm_step C dispatch cf i line ln st = (s1, Ok x) -> x = Go None (ln + 1)%N.
Proof.
  intros Hd Ho Hl. unfold sm_step. apply String.eqb_neq in Hl. rewrite Hl, ibc_eq. cbn [open_after] in Ho.
  destruct (blank line || comment line); [congruence|].
  destruct (shlex_split true line) as [[|a0 more]|e]; try discriminate.
  destruct (String.eqb_spec a0 "%include") as [->|Hinc].
  { destruct more as [|[|c r] more]; try discriminate. destruct (i (String c r) st) as [s2 [e2|]]; congruence. }
  rewrite Hd. change (0 <? 0)%N with false. cbv iota. destruct (ks_state C st); [congruence|].
  destruct (String.eqb_spec a0 "%ksappend") as [->|Happ]; [congruence|].
  destruct a0 as [|c r]; [discriminate|].
  destruct (Ascii.eqb c "%").
  - exfalso. cbn [mem existsb] in Ho. apply String.eqb_neq in Hinc, Happ. rewrite Hinc, Happ in Ho. discriminate.
  - destruct (dispatch (ks_cmds C st) line (String c r :: more) (ln + 1)) as [c1 e1].
    destruct (try_func C cf (set_cmds C c1 st, e1)) as [s2 [e2|]]; congruence.
Qed.

Lemma run_lines_top i : hook_deep C cf i -> forall lines ln st s1 x, ks_depth C st = 0%N ->
  (forall l, In l lines -> open_after None l = None /\ l <> "") ->
  run_lines C dispatch cf i None lines ln st = (s1, Ok x) -> x = Some (None, (ln + N.of_nat (length lines))%N).
Proof.
  intros Hi. induction lines as [|line lines IH]; intros ln st s1 x Hd Hl.
  { cbn [run_lines length]. intros H; injection H as <- <-. rewrite N.add_0_r. auto. }
  cbn [run_lines]. rewrite steps_eq. cbn [step]. destruct (Hl line) as [Ho Hn]; [simpl; auto|].
  pose proof (sm_step_deep C dispatch cf i line ln st Hi) as D.
  destruct (sm_step C dispatch cf i line ln st) as [s2 [y|e]] eqn:E; [|discriminate].
  pose proof (sm_step_top _ _ _ _ _ _ Hd Ho Hn E) as ->.
  intros H. apply IH in H as ->.
  - cbn [length]. f_equal. f_equal. lia.
  - destruct D as [_ D]. rewrite <- Hd. apply D. reflexivity.
  - intros l Hin. apply Hl; simpl; auto.
Qed.

End Open.
