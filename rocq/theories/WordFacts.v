(** * The lexer reads a line as its words *)

From Verif Require Import PyStrFacts Shlex.
From Verif Require Export WordSpec.
From Verif Require Import Value.
Local Open Scope string_scope.
Local Open Scope list_scope.
Local Arguments Ascii.eqb : simpl never.
Local Arguments String.eqb : simpl never.

Lemma blank_spec c : lex_white c = true <-> blank c.
Proof.
  unfold lex_white, blank. rewrite !orb_true_iff, !Ascii.eqb_eq. cbn [In]. intuition congruence.
Qed.
Lemma not_blank c : ~ blank c -> lex_white c = false.
Proof. intros H. destruct (lex_white c) eqn:E; [|reflexivity]. now apply blank_spec in E. Qed.
Lemma blank_not c : blank c -> lex_quote c = false /\ Ascii.eqb c BSLASH = false /\ Ascii.eqb c HASH = false.
Proof. intros [<-|[<-|[<-|[<-|[]]]]]; repeat split; reflexivity. Qed.
Lemma quote_spec c : lex_quote c = true <-> c = SQUOTE \/ c = DQUOTE.
Proof. unfold lex_quote. rewrite orb_true_iff, !Ascii.eqb_eq. tauto. Qed.
Lemma bare_not cm c : piece_ok cm (Bare c) -> lex_white c = false /\ cm && Ascii.eqb c HASH = false /\ lex_quote c = false /\ Ascii.eqb c BSLASH = false.
Proof.
  intros (B & Q & H). split; [now apply not_blank|]. split.
  { destruct cm; [|reflexivity]. cbn. apply Ascii.eqb_neq. now apply H. }
  cbn [In] in Q. split.
  - destruct (lex_quote c) eqn:E; [|reflexivity]. apply quote_spec in E as [->| ->]; tauto.
  - apply Ascii.eqb_neq. intros ->. tauto.
Qed.
Lemma has_char_cons c x s : has_char c (String x s) = Ascii.eqb c x || has_char c s.
Proof. reflexivity. Qed.

(** ** From the grammar to the lexer *)

Section Lexer.
Variable cm : bool.

Lemma lex_single s rest tok q : has_char SQUOTE s = false ->
  lex cm (s ++ String SQUOTE rest) (LQuote SQUOTE) tok q = lex cm rest LWord (tok ++ s) true.
Proof.
  revert tok q. induction s as [|c s IH]; intros tok q H.
  - cbn [append lex]. rewrite Ascii.eqb_refl, app_nil_r_s. reflexivity.
  - rewrite has_char_cons in H. apply orb_false_iff in H as [H1 H2]. cbn [append lex].
    rewrite Ascii.eqb_sym, H1. rewrite andb_comm. cbn [andb Ascii.eqb]. change (Ascii.eqb SQUOTE DQUOTE) with false. cbn [andb].
    rewrite IH by exact H2. now rewrite app_assoc_s.
Qed.

Lemma lex_double l rest tok q : Forall inner_ok l ->
  lex cm (glue (map inner_text l) ++ String DQUOTE rest) (LQuote DQUOTE) tok q = lex cm rest LWord (tok ++ glue (map inner_means l)) true.
Proof.
  revert tok q. induction l as [|i l IH]; intros tok q H.
  - cbn [map glue fold_right append lex]. rewrite Ascii.eqb_refl, app_nil_r_s. reflexivity.
  - inversion H as [|? ? Hi Hl]; subst. destruct i as [c|c]; cbn [map glue fold_right inner_text inner_means append lex] in *.
    + destruct Hi as [H1 H2]. apply Ascii.eqb_neq in H1, H2. rewrite H1, H2. cbn [andb]. fold (glue (map inner_text l)). rewrite IH by exact Hl.
      now rewrite app_assoc_s.
    + change (Ascii.eqb BSLASH DQUOTE) with false. rewrite Ascii.eqb_refl. change (Ascii.eqb DQUOTE DQUOTE) with true. cbn [andb]. cbn [append lex].
      destruct (Ascii.eqb c BSLASH), (Ascii.eqb c DQUOTE); cbn [negb andb orb]; fold (glue (map inner_text l)); rewrite IH by exact Hl; now rewrite app_assoc_s.
Qed.

Lemma lex_piece p rest tok q : piece_ok cm p -> exists q',
  lex cm (piece_text p ++ rest) LWord tok q = lex cm rest LWord (tok ++ piece_means p) q' /\ (q = true -> q' = true) /\ (tok <> "" \/ q = true -> tok ++ piece_means p <> "" \/ q' = true)%string.
Proof.
  intros H. destruct p as [c|c|s|l]; cbn [piece_text piece_means append].
  - apply bare_not in H as (H1 & H2 & H3 & H4). exists q. cbn [lex]. rewrite H1, H2, H3, H4. split; [reflexivity|]. split; [auto|].
    intros _. left. now destruct tok.
  - exists q. cbn [lex]. change (lex_white BSLASH) with false. change (Ascii.eqb BSLASH HASH) with false. rewrite andb_false_r.
    change (lex_quote BSLASH) with false. rewrite Ascii.eqb_refl. split; [reflexivity|]. split; [auto|]. intros _. left. now destruct tok.
  - exists true. cbn [lex]. change (lex_white SQUOTE) with false. change (Ascii.eqb SQUOTE HASH) with false. rewrite andb_false_r.
    change (lex_quote SQUOTE) with true. cbn iota. rewrite app_assoc_s. cbn [append]. rewrite lex_single by exact H. auto.
  - exists true. cbn [lex]. change (lex_white DQUOTE) with false. change (Ascii.eqb DQUOTE HASH) with false. rewrite andb_false_r.
    change (lex_quote DQUOTE) with true. cbn iota. rewrite app_assoc_s. cbn [append]. rewrite lex_double by exact H. auto.
Qed.

Lemma lex_pieces w rest tok q : Forall (piece_ok cm) w -> tok <> ""%string \/ q = true -> exists q',
  lex cm (word_text w ++ rest) LWord tok q = lex cm rest LWord (tok ++ word_means w) q' /\ ((tok ++ word_means w)%string <> "" \/ q' = true).
Proof.
  revert tok q. induction w as [|p w IH]; intros tok q H T.
  - exists q. cbn. rewrite app_nil_r_s. auto.
  - inversion H as [|? ? Hp Hw]; subst. unfold word_text, word_means. cbn [map glue fold_right]. rewrite app_assoc_s.
    destruct (lex_piece p (word_text w ++ rest) tok q Hp) as (q1 & E & _ & K). fold (glue (map piece_text w)). fold (word_text w). rewrite E.
    destruct (IH (tok ++ piece_means p)%string q1 Hw (K T)) as (q' & E' & T'). exists q'. rewrite E'. fold (glue (map piece_means w)). fold (word_means w). rewrite app_assoc_s in E', T'. rewrite <- app_assoc_s.
    split; [reflexivity|]. now rewrite app_assoc_s.
Qed.

(** The first piece of a word. *)
Lemma lex_first p rest : piece_ok cm p -> exists q',
  lex cm (piece_text p ++ rest) LSpace "" false = lex cm rest LWord (piece_means p) q' /\ (piece_means p <> "" \/ q' = true).
Proof.
  intros H. destruct p as [c|c|s|l]; cbn [piece_text piece_means append].
  - apply bare_not in H as (H1 & H2 & H3 & H4). exists false. cbn [lex]. rewrite H1, H2, H3, H4. split; [reflexivity|]. left. discriminate.
  - exists false. cbn [lex]. change (lex_white BSLASH) with false. change (Ascii.eqb BSLASH HASH) with false. rewrite andb_false_r.
    rewrite Ascii.eqb_refl. split; [reflexivity|]. left. discriminate.
  - exists true. cbn [lex]. change (lex_white SQUOTE) with false. change (Ascii.eqb SQUOTE HASH) with false. rewrite andb_false_r.
    change (Ascii.eqb SQUOTE BSLASH) with false. change (lex_quote SQUOTE) with true. cbn iota. rewrite app_assoc_s. cbn [append]. rewrite lex_single by exact H. auto.
  - exists true. cbn [lex]. change (lex_white DQUOTE) with false. change (Ascii.eqb DQUOTE HASH) with false. rewrite andb_false_r.
    change (Ascii.eqb DQUOTE BSLASH) with false. change (lex_quote DQUOTE) with true. cbn iota. rewrite app_assoc_s. cbn [append]. rewrite lex_double by exact H. auto.
Qed.

Lemma emit_ok tok q r : tok <> "" \/ q = true -> emit tok q (Ok r) = Ok (tok :: r).
Proof.
  intros H. unfold emit. destruct (String.eqb_spec tok ""); destruct q; cbn [andb negb]; try reflexivity. destruct H; congruence.
Qed.

Lemma lex_comment t s : has_char LF t = false -> lex cm (t ++ String LF s) LComment "" false = lex cm s LSpace "" false.
Proof.
  induction t as [|c t IH]; intros H; cbn [append lex].
  - now rewrite Ascii.eqb_refl.
  - rewrite has_char_cons in H. apply orb_false_iff in H as [H1 H2]. rewrite Ascii.eqb_sym, H1. now apply IH.
Qed.
Lemma lex_last_comment t : lex cm t LComment "" false = lex cm t LComment "" false /\ (has_char LF t = false -> lex cm t LComment "" false = Ok []).
Proof.
  split; [reflexivity|]. induction t as [|c t IH]; intros H; cbn [append lex]; [reflexivity|].
  rewrite has_char_cons in H. apply orb_false_iff in H as [H1 H2]. rewrite Ascii.eqb_sym, H1. now apply IH.
Qed.

Lemma reads_lex s ws : reads cm s ws -> lex cm s LSpace "" false = Ok ws.
Proof.
  induction 1 as [|c s ws B _ IH|t s ws C H _ IH|t C H|w s ws W O E R IH].
  - reflexivity.
  - cbn [lex]. rewrite (proj2 (blank_spec c) B). exact IH.
  - cbn [lex]. rewrite C. change (lex_white "#") with false. change (Ascii.eqb "#" HASH) with true. cbn [andb]. now rewrite <- C, lex_comment.
  - cbn [lex]. rewrite C. change (lex_white "#") with false. change (Ascii.eqb "#" HASH) with true. cbn [andb]. rewrite <- C. now apply lex_last_comment.
  - destruct w as [|p w]; [contradiction|]. inversion O as [|? ? Hp Hw]; subst. unfold word_text, word_means. cbn [map glue fold_right].
    fold (glue (map piece_text w)). fold (word_text w). fold (glue (map piece_means w)). fold (word_means w). rewrite app_assoc_s.
    destruct (lex_first p (word_text w ++ s) Hp) as (q1 & -> & T).
    destruct (lex_pieces w s (piece_means p) q1 Hw T) as (q2 & -> & T2).
    destruct s as [|c s]; cbn [lex].
    + cbn in IH. injection IH as <-. now apply emit_ok.
    + destruct E as [B|[C ->]].
      * cbn [lex] in IH. rewrite (proj2 (blank_spec c) B) in IH |- *. rewrite IH. now apply emit_ok.
      * cbn [lex] in IH. rewrite C in IH |- *. change (lex_white "#") with false in *. change (Ascii.eqb "#" HASH) with true in *. cbn [andb] in *.
        rewrite IH. now apply emit_ok.
Qed.

(** ** From the lexer to the grammar *)

(** The rest of a word, after [tok]. *)
Definition goes_on (s tok : string) (ws : list string) : Prop :=
  exists w r ws', Forall (piece_ok cm) w /\ s = (word_text w ++ r)%string /\ word_ends cm r /\ reads cm r ws' /\ ws = (tok ++ word_means w)%string :: ws'.
Lemma goes_on_piece p s tok ws : piece_ok cm p -> goes_on s (tok ++ piece_means p) ws -> goes_on (piece_text p ++ s) tok ws.
Proof.
  intros H (w & r & ws' & O & -> & E & R & ->). exists (p :: w), r, ws'. split; [now constructor|].
  unfold word_text, word_means. cbn [map glue fold_right]. rewrite !app_assoc_s. auto.
Qed.

Definition state_ok (s : string) (st : lstate) (tok : string) (q : bool) (ws : list string) : Prop :=
  match st with
  | LSpace => tok = "" -> q = false -> reads cm s ws
  | LComment => tok = "" -> q = false -> cm = true -> reads cm (String "#" s) ws
  | LWord => tok <> "" \/ q = true -> goes_on s tok ws
  | LQuote c => c = SQUOTE -> exists b r, has_char SQUOTE b = false /\ s = (b ++ String SQUOTE r)%string /\ goes_on r (tok ++ b) ws
  | LEscape None => exists c r, s = String c r /\ goes_on r (tok ++ String c "") ws
  | LEscape (Some c) => True
  end /\
  match st with
  | LQuote c => c = DQUOTE -> exists l r, Forall inner_ok l /\ s = (glue (map inner_text l) ++ String DQUOTE r)%string /\ goes_on r (tok ++ glue (map inner_means l)) ws
  | LEscape (Some c) => c = DQUOTE -> exists l r, Forall inner_ok l /\ String BSLASH s = (glue (map inner_text l) ++ String DQUOTE r)%string /\ goes_on r (tok ++ glue (map inner_means l)) ws
  | _ => True
  end.

Lemma emit_cases tok q rest ws : tok <> "" \/ q = true -> emit tok q rest = Ok ws -> exists ws', rest = Ok ws' /\ ws = tok :: ws'.
Proof.
  intros T. unfold emit. destruct (String.eqb_spec tok ""); destruct q; cbn [andb negb].
  1, 3, 4: destruct rest as [l|]; cbn; intros E; [injection E as <-; eauto|discriminate].
  destruct T; congruence.
Qed.

Lemma app_nonempty_r a c s : (a ++ String c s)%string <> "".
Proof. now destruct a. Qed.

Lemma lex_grammar s : forall st tok q ws, lex cm s st tok q = Ok ws -> state_ok s st tok q ws.
Proof.
  induction s as [|c s IH]; intros st tok q ws E.
  - destruct st as [| |qc|[e|]|]; cbn [lex] in E; try discriminate; split; auto; cbn.
    + intros _ _. injection E as <-. constructor.
    + intros T. apply emit_cases in E as (ws' & E & ->); [|exact T]. injection E as <-. exists [], "", []. cbn. rewrite app_nil_r_s.
      repeat split; constructor.
    + intros _ _ C. injection E as <-. now constructor.
  - destruct st as [| |qc|[e|]|]; cbn [lex] in E.
    + split; [|exact I]. intros -> ->. destruct (lex_white c) eqn:B.
      { apply IH in E as [E _]. constructor; [now apply blank_spec|]. now apply E. }
      destruct (cm && Ascii.eqb c HASH) eqn:C.
      { apply andb_true_iff in C as [C1 C2]. apply Ascii.eqb_eq in C2 as ->. apply IH in E as [E _]. now apply E. }
      assert (G : goes_on (String c s) "" ws -> reads cm (String c s) ws).
      { intros (w & r & ws' & O & Es & En & R & ->). rewrite Es. apply R_word; auto. intros ->. cbn in Es. subst r.
        destruct En as [X|[X Y]]; [apply blank_spec in X; congruence|]. subst c. rewrite X in C. discriminate. }
      apply G. destruct (Ascii.eqb c BSLASH) eqn:Eb.
      { apply Ascii.eqb_eq in Eb as ->. apply IH in E as [(d & r & -> & E) _]. now apply (goes_on_piece (Escaped d)). }
      destruct (lex_quote c) eqn:Q.
      { apply quote_spec in Q as [->| ->]; apply IH in E as [E1 E2].
        - destruct (E1 eq_refl) as (b & r & H & -> & Gr). pose proof (goes_on_piece (Single b) r "" ws H Gr) as X. cbn [piece_text append] in X.
          rewrite app_assoc_s in X. exact X.
        - destruct (E2 eq_refl) as (b & r & H & -> & Gr). pose proof (goes_on_piece (Double b) r "" ws H Gr) as X. cbn [piece_text append] in X.
          rewrite app_assoc_s in X. exact X. }
      apply IH in E as [E _]. apply (goes_on_piece (Bare c)).
      * cbn [piece_ok]. split; [intros X; apply blank_spec in X; congruence|]. split.
        -- cbn [In]. intros [X|[X|[X|[]]]]; subst c; discriminate.
        -- intros Hc ->. rewrite Hc in C. discriminate.
      * apply E. left. discriminate.
    + split; [|exact I]. intros T. destruct (lex_white c) eqn:B.
      { apply emit_cases in E as (ws' & E & ->); [|exact T]. apply IH in E as [E _]. exists [], (String c s), ws'. cbn. rewrite app_nil_r_s.
        repeat split; [constructor|left; now apply blank_spec|]. constructor; [now apply blank_spec|]. now apply E. }
      destruct (cm && Ascii.eqb c HASH) eqn:C.
      { apply andb_true_iff in C as [C1 C2]. apply Ascii.eqb_eq in C2 as ->. apply emit_cases in E as (ws' & E & ->); [|exact T].
        apply IH in E as [E _]. exists [], (String HASH s), ws'. cbn. rewrite app_nil_r_s. repeat split; [constructor|right; auto|]. now apply E. }
      destruct (lex_quote c) eqn:Q.
      { apply quote_spec in Q as [->| ->]; apply IH in E as [E1 E2].
        - destruct (E1 eq_refl) as (b & r & H & -> & Gr). pose proof (goes_on_piece (Single b) r tok ws H Gr) as X. cbn [piece_text append] in X.
          rewrite app_assoc_s in X. exact X.
        - destruct (E2 eq_refl) as (b & r & H & -> & Gr). pose proof (goes_on_piece (Double b) r tok ws H Gr) as X. cbn [piece_text append] in X.
          rewrite app_assoc_s in X. exact X. }
      destruct (Ascii.eqb c BSLASH) eqn:Eb.
      { apply Ascii.eqb_eq in Eb as ->. apply IH in E as [(d & r & -> & E) _]. now apply (goes_on_piece (Escaped d)). }
      apply IH in E as [E _]. apply (goes_on_piece (Bare c)).
      * cbn [piece_ok]. split; [intros X; apply blank_spec in X; congruence|]. split.
        -- cbn [In]. intros [X|[X|[X|[]]]]; subst c; discriminate.
        -- intros Hc ->. rewrite Hc in C. discriminate.
      * apply E. left. apply app_nonempty_r.
    + split; intros ->.
      * destruct (Ascii.eqb c SQUOTE) eqn:Q.
        { apply Ascii.eqb_eq in Q as ->. apply IH in E as [E _]. exists "", s. split; [reflexivity|]. split; [reflexivity|]. rewrite app_nil_r_s.
          apply E. now right. }
        change (Ascii.eqb SQUOTE DQUOTE) with false in E. rewrite andb_false_r in E. apply IH in E as [E _]. destruct (E eq_refl) as (b & r & H & -> & G).
        exists (String c b), r. split; [rewrite has_char_cons, Ascii.eqb_sym, Q; exact H|]. split; [reflexivity|]. rewrite app_assoc_s in G. exact G.
      * destruct (Ascii.eqb c DQUOTE) eqn:Q.
        { apply Ascii.eqb_eq in Q as ->. apply IH in E as [E _]. exists [], s. split; [constructor|]. split; [reflexivity|]. cbn. rewrite app_nil_r_s.
          apply E. now right. }
        change (Ascii.eqb DQUOTE DQUOTE) with true in E. rewrite andb_true_r in E. destruct (Ascii.eqb c BSLASH) eqn:Eb.
        { apply Ascii.eqb_eq in Eb as ->. apply IH in E as [_ E]. destruct (E eq_refl) as (l & r & H & Es & G). exists l, r. auto. }
        apply IH in E as [_ E]. destruct (E eq_refl) as (l & r & H & -> & G). exists (Plain c :: l), r. split.
        { constructor; [|exact H]. split; now apply Ascii.eqb_neq. }
        split; [reflexivity|]. cbn [map glue fold_right inner_means]. rewrite app_assoc_s in G. exact G.
    + split; [exact I|]. intros ->.
      assert (G : exists l r, Forall inner_ok l /\ s = (glue (map inner_text l) ++ String DQUOTE r)%string /\
                goes_on r ((tok ++ inner_means (Slashed c)) ++ glue (map inner_means l)) ws).
      { cbn [inner_means]. destruct (Ascii.eqb c BSLASH), (Ascii.eqb c DQUOTE); cbn [negb andb orb] in *; apply IH in E as [_ E]; exact (E eq_refl). }
      destruct G as (l & r & H & -> & G). exists (Slashed c :: l), r. split; [now constructor|]. split; [reflexivity|].
      cbn [map glue fold_right]. rewrite app_assoc_s in G. exact G.
    + split; [|exact I]. apply IH in E as [E _]. exists c, s. split; [reflexivity|]. apply E. left. apply app_nonempty_r.
    + split; [|exact I]. intros -> -> C. destruct (Ascii.eqb c LF) eqn:L.
      * apply Ascii.eqb_eq in L as ->. apply IH in E as [E _]. apply (R_comment cm "" s); auto.
      * apply IH in E as [E _]. specialize (E eq_refl eq_refl C). inversion E as [|? ? ? B R|t s' ws' C' H R|t C' H|w s' ws' W O En R]; subst.
        -- cbn in B. repeat (destruct B as [B|B]; [discriminate|]). destruct B.
        -- apply (R_comment cm (String c t)); auto. rewrite has_char_cons, Ascii.eqb_sym, L. exact H.
        -- apply (R_last_comment cm (String c s)); auto. rewrite has_char_cons, Ascii.eqb_sym, L. exact H.
        -- destruct w as [|p w]; [contradiction|]. inversion O as [|? ? Hp Hw]; subst. unfold word_text in H. cbn [map glue fold_right] in H.
           destruct p as [d|d|b|l]; cbn in H; injection H as X _; subst; try discriminate.
           destruct Hp as (_ & _ & Hp). now destruct (Hp C).
Qed.
End Lexer.

Lemma lex_err cm s : forall st tok q e, lex cm s st tok q = Err e -> e = ValueError.
Proof.
  assert (M : forall tok q r e, (forall e, r = Err e -> e = ValueError) -> emit tok q r = Err e -> e = ValueError).
  { intros tok q r e H. unfold emit. destruct (_ && _); [apply H|]. destruct r as [l|e']; cbn; [discriminate|]. intros X. injection X as <-. now apply H. }
  induction s as [|c s IH]; intros st tok q e H.
  - destruct st as [| |qc|[d|]|]; cbn [lex] in H; try congruence. eapply M; [|exact H]. discriminate.
  - destruct st as [| |qc|[d|]|]; cbn [lex] in H;
      repeat match type of H with context [if ?b then _ else _] => destruct b end; try (eapply IH; exact H);
      eapply M; [|exact H| |exact H]; intros ? X; eapply IH; exact X.
Qed.
