(** * The words found by PyWords.v are the words of the line *)

From Coq Require Import Lia.
From Verif Require Import PyStrFacts WordSpec ShlexFacts WordFacts.
From Verif Require Export PyTextFacts PyWords.
From Verif Require Import Value.
Local Open Scope string_scope.
Local Open Scope list_scope.
Local Arguments Ascii.eqb : simpl never.
Local Arguments String.eqb : simpl never.

(** A text that needs no quotes. *)
Definition plain_char (c : ascii) : bool :=
  negb (is_space c) && negb (existsb (Ascii.eqb c) [SQUOTE; DQUOTE; BSLASH; HASH]).
Definition plain_text (s : string) : bool := negb (String.eqb s "") && all_chars plain_char s.

Section Words.
Variable a : attrs.

Definition asks (g : expr) : bool := match ask a g with Some b => b | None => false end.
Definition ptext (p : wpiece) : string :=
  match p with
  | PLit s => s
  | PVal m k => match bit_text a (TVal m k) with Some s => s | None => "" end
  | PJoin sep k => match bit_text a (TJoin sep k) with Some s => s | None => "" end
  end.
Definition wtext (w : list wpiece) : string := glue (map ptext w).
Fixpoint lw (i : item) : list string :=
  match i with
  | IWord w => [wtext w]
  | IIf g x y => if asks g then flat_map lw x else flat_map lw y
  end.
Notation lws := (flat_map lw).

(** The values written are plain texts. *)
Definition plain_piece (p : wpiece) : Prop := match p with PLit _ => True | _ => plain_text (ptext p) = true end.
Definition plain_pieces (w : list wpiece) : Prop := Forall plain_piece w.
Fixpoint plain_item (i : item) : Prop :=
  match i with
  | IWord w => plain_pieces w
  | IIf g x y => if asks g then fold_right (fun i r => plain_item i /\ r) True x else fold_right (fun i r => plain_item i /\ r) True y
  end.
Definition plain_items (l : list item) : Prop := Forall plain_item l.
Definition plain_state (st : wst) : Prop := match w_cur st with Some w => plain_pieces w | None => True end.
Lemma plain_item_if g x y : plain_item (IIf g x y) <-> plain_items (if asks g then x else y).
Proof.
  cbn [plain_item]. assert (E : forall l, fold_right (fun i r => plain_item i /\ r) True l <-> plain_items l).
  { induction l as [|i l IH]; cbn [fold_right]; [split; [constructor|auto]|]. rewrite IH. unfold plain_items. rewrite Forall_cons_iff. tauto. }
  destruct (asks g); apply E.
Qed.
Lemma plain_app l m : plain_items (l ++ m) <-> plain_items l /\ plain_items m.
Proof. apply Forall_app. Qed.
Lemma plain_closed st : plain_items (closed st) <-> plain_state st.
Proof.
  unfold closed, plain_state, plain_items. destruct (w_cur st) as [w|]; [|split; auto].
  rewrite Forall_cons_iff. cbn [plain_item]. unfold plain_pieces. split; [intros [H _]; apply Forall_rev in H; now rewrite rev_involutive in H|].
  intros H. split; [now apply Forall_rev|constructor].
Qed.
Lemma lws_app l m : lws (l ++ m) = lws l ++ lws m.
Proof. apply flat_map_app. Qed.

(** ** What a state of the reader means *)

Definition cur (w : list wpiece) : string := wtext (rev w).
Lemma glue_app l m : glue (l ++ m) = (glue l ++ glue m)%string.
Proof. induction l as [|x l IH]; [reflexivity|]. cbn [app glue fold_right]. fold (glue (l ++ m)) (glue l). now rewrite IH, app_assoc_s. Qed.
Lemma cur_cons p w : cur (p :: w) = (cur w ++ ptext p)%string.
Proof. unfold cur, wtext. cbn [rev]. rewrite map_app, glue_app. cbn [map glue fold_right]. now rewrite app_nil_r_s. Qed.
Lemma cur_add c w : cur (add_char c w) = (cur w ++ String c "")%string.
Proof. destruct w as [|[s| |] w]; cbn [add_char]; rewrite !cur_cons; try reflexivity. cbn [ptext]. now rewrite app_assoc_s. Qed.
Lemma plain_add c w : plain_pieces w -> plain_pieces (add_char c w).
Proof. destruct w as [|[s| |] w]; cbn [add_char]; intros H; try (constructor; [exact I|exact H]). inversion H; subst. constructor; [exact I|assumption]. Qed.
Lemma plain_add_inv c w : plain_pieces (add_char c w) -> plain_pieces w.
Proof. destruct w as [|[s| |] w]; cbn [add_char]; intros H; inversion H; subst; auto. constructor; [exact I|assumption]. Qed.

Definition Sem (st : wst) (t : string) (ws : list string) : Prop :=
  match w_cur st, w_q st with
  | None, QNo => (w_glued st = true -> word_ends true t) /\ lex true t LSpace "" false = Ok ws
  | None, _ => True
  | Some w, QNo => forall q, cur w <> "" \/ q = true -> lex true t LWord (cur w) q = Ok ws
  | Some w, QSingle => forall q, lex true t (LQuote SQUOTE) (cur w) q = Ok ws
  | Some w, QDouble => forall q, lex true t (LQuote DQUOTE) (cur w) q = Ok ws
  end.

Lemma close_sem st t ws : unquoted st = true -> Sem (mkW None (glued st) QNo) t ws -> Sem st t (lws (closed st) ++ ws).
Proof.
  destruct st as [[w|] g q]; unfold unquoted; cbn [w_q]; destruct q; try discriminate; intros _; unfold Sem, closed, glued; cbn [w_cur w_q w_glued flat_map app].
  - intros [E L] q T. specialize (E eq_refl). cbn [lw flat_map app]. fold (cur w). destruct t as [|c t]; cbn [lex] in *.
    + injection L as <-. now apply emit_ok.
    + destruct E as [B|[_ ->]].
      * apply blank_spec in B. rewrite B in *. rewrite L. now apply emit_ok.
      * change (lex_white "#") with false in *. change (Ascii.eqb "#" HASH) with true in *. cbn [andb] in *. rewrite L. now apply emit_ok.
  - auto.
Qed.

Lemma lexb_white c : lexb c = lex_white c.
Proof. unfold lexb, lex_white. cbn [existsb]. now rewrite orb_false_r, !orb_assoc. Qed.

Lemma wlit_sem s : forall st l st' t ws, wlit s st = Some (l, st') -> Sem st' t ws -> Sem st (s ++ t) (lws l ++ ws).
Proof.
  induction s as [|c s IH]; intros st l st' t ws H S.
  - injection H as <- <-. exact S.
  - cbn [wlit] in H. destruct st as [cw g q]. cbn [w_q w_cur w_glued] in H. rewrite app_cons_s. destruct q.
    + destruct (lexb c) eqn:B.
      * destruct (wlit s (mkW None false QNo)) as [[l1 st1]|] eqn:W; [|discriminate]. injection H as <- <-.
        specialize (IH _ _ _ _ _ W S). cbn [Sem w_cur w_q w_glued] in IH. destruct IH as [_ IH].
        rewrite lws_app, <- app_assoc. apply close_sem; [reflexivity|]. unfold Sem. cbn [w_cur w_q w_glued]. rewrite lexb_white in B.
        split; [intros _; cbn; left; now apply blank_spec|]. cbn [lex]. now rewrite B.
      * rewrite lexb_white in B. destruct (open_w (mkW cw g QNo)) as [w|] eqn:O; [|discriminate].
        assert (Cases : (cw = Some w) \/ (cw = None /\ w = [] /\ g = false)).
        { unfold open_w in O. cbn [w_cur w_glued] in O. destruct cw; [left; congruence|]. destruct g; [discriminate|]. right. split; [reflexivity|]. split; congruence. }
        clear O. destruct (Ascii.eqb c DQUOTE) eqn:Q1; [|destruct (Ascii.eqb c SQUOTE) eqn:Q2; [|destruct (Ascii.eqb c BSLASH || Ascii.eqb c HASH) eqn:Q3; [discriminate|]]];
          specialize (IH _ _ _ _ _ H S); unfold Sem in IH |- *; cbn [w_cur w_q w_glued] in IH |- *.
        -- apply eqb_true_a in Q1. subst c. destruct Cases as [->|(-> & -> & ->)].
           ++ intros q T. cbn [lex]. rewrite B. change (Ascii.eqb DQUOTE HASH) with false. change (lex_quote DQUOTE) with true. cbn [andb]. apply IH.
           ++ split; [discriminate|]. cbn [lex]. rewrite B. change (Ascii.eqb DQUOTE HASH) with false. change (Ascii.eqb DQUOTE BSLASH) with false. change (lex_quote DQUOTE) with true. cbn [andb]. apply IH.
        -- apply eqb_true_a in Q2. subst c. destruct Cases as [->|(-> & -> & ->)].
           ++ intros q T. cbn [lex]. rewrite B. change (Ascii.eqb SQUOTE HASH) with false. change (lex_quote SQUOTE) with true. cbn [andb]. apply IH.
           ++ split; [discriminate|]. cbn [lex]. rewrite B. change (Ascii.eqb SQUOTE HASH) with false. change (Ascii.eqb SQUOTE BSLASH) with false. change (lex_quote SQUOTE) with true. cbn [andb]. apply IH.
        -- apply orb_false_iff in Q3 as [Q3 Q4]. assert (LQ : lex_quote c = false) by (unfold lex_quote; rewrite Q1, Q2; reflexivity).
           rewrite cur_add in IH. destruct Cases as [->|(-> & -> & ->)].
           ++ intros q T. cbn [lex]. rewrite B, Q4, LQ, Q3. cbn [andb]. apply IH. left. apply app_nonempty_r.
           ++ split; [discriminate|]. cbn [lex]. rewrite B, Q4, LQ, Q3. cbn [andb]. apply (IH false). left. discriminate.
    + destruct cw as [w|]; [|discriminate]. destruct (Ascii.eqb c SQUOTE) eqn:Q; specialize (IH _ _ _ _ _ H S); unfold Sem in IH |- *; cbn [w_cur w_q w_glued] in IH |- *; intros q; cbn [lex]; rewrite Q.
      * apply IH. now right.
      * change (Ascii.eqb SQUOTE DQUOTE) with false. rewrite andb_false_r. rewrite cur_add in IH. apply IH.
    + destruct cw as [w|]; [|discriminate]. destruct (Ascii.eqb c DQUOTE) eqn:Q; [|destruct (Ascii.eqb c BSLASH) eqn:Q2; [discriminate|]];
        specialize (IH _ _ _ _ _ H S); unfold Sem in IH |- *; cbn [w_cur w_q w_glued] in IH |- *; intros q; cbn [lex]; rewrite Q.
      * apply IH. now right.
      * rewrite Q2. cbn [andb]. rewrite cur_add in IH. apply IH.
Qed.

Lemma plain_char_spec c : plain_char c = true -> lex_white c = false /\ Ascii.eqb c HASH = false /\ lex_quote c = false /\ Ascii.eqb c BSLASH = false /\ Ascii.eqb c DQUOTE = false /\ Ascii.eqb c SQUOTE = false /\ Ascii.eqb LF c = false.
Proof.
  intros H.
  assert (G : implb (plain_char c) (negb (lex_white c) && negb (Ascii.eqb c HASH) && negb (lex_quote c) && negb (Ascii.eqb c BSLASH) && negb (Ascii.eqb c DQUOTE) && negb (Ascii.eqb c SQUOTE) && negb (Ascii.eqb LF c)) = true).
  { clear H. revert c. apply forall_ascii. vm_compute. reflexivity. }
  rewrite H in G. cbn [implb] in G. repeat (apply andb_prop in G as [G ?]). rewrite !negb_true_iff in *. tauto.
Qed.
Lemma lex_plain_word v : forall t tok q, all_chars plain_char v = true -> lex true (v ++ t) LWord tok q = lex true t LWord (tok ++ v) q.
Proof.
  induction v as [|c v IH]; intros t tok q H; [cbn [append]; now rewrite app_nil_r_s|]. cbn [all_chars] in H. apply andb_prop in H as [H1 H2].
  apply plain_char_spec in H1 as (E1 & E2 & E3 & E4 & _). rewrite app_cons_s. cbn [lex]. rewrite E1, E2, E3, E4. cbn [andb].
  rewrite IH by exact H2. rewrite app_assoc_s. reflexivity.
Qed.
Lemma lex_plain_quote qc v : qc = SQUOTE \/ qc = DQUOTE -> forall t tok q, all_chars plain_char v = true ->
  exists q', lex true (v ++ t) (LQuote qc) tok q = lex true t (LQuote qc) (tok ++ v) q'.
Proof.
  intros Q. induction v as [|c v IH]; intros t tok q H; [exists q; cbn [append]; now rewrite app_nil_r_s|]. cbn [all_chars] in H. apply andb_prop in H as [H1 H2].
  apply plain_char_spec in H1 as (E1 & E2 & E3 & E4 & E5 & E6 & _). rewrite app_cons_s. cbn [lex].
  assert (E : Ascii.eqb c qc = false) by (destruct Q; subst; assumption). rewrite E, E4. cbn [andb].
  destruct (IH t (tok ++ String c "")%string true H2) as (q' & ->). exists q'. rewrite app_assoc_s. reflexivity.
Qed.

Lemma wvalue_sem p st l st' t ws : wvalue p st = Some (l, st') -> plain_text (ptext p) = true -> Sem st' t ws -> Sem st (ptext p ++ t) (lws l ++ ws).
Proof.
  unfold wvalue. intros H P S. unfold plain_text in P. apply andb_prop in P as [N P]. apply negb_true_iff, String.eqb_neq in N.
  destruct (open_w st) as [w|] eqn:O; [|discriminate]. injection H as <- <-. cbn [flat_map app].
  destruct st as [cw g q]. unfold Sem, open_w in *. cbn [w_cur w_q w_glued] in *. rewrite cur_cons in S. destruct cw as [w'|].
  - injection O as ->. destruct q.
    + intros q T. rewrite lex_plain_word by exact P. apply S. left. intros E. apply app_eq_nil_s in E. tauto.
    + intros q. destruct (lex_plain_quote SQUOTE (ptext p) (or_introl eq_refl) t (cur w) q P) as (q' & ->). apply S.
    + intros q. destruct (lex_plain_quote DQUOTE (ptext p) (or_intror eq_refl) t (cur w) q P) as (q' & ->). apply S.
  - destruct g; [discriminate|]. injection O as <-. destruct q; [|exact I|exact I]. split; [discriminate|].
    destruct (ptext p) as [|c v]; [contradiction|]. cbn [all_chars] in P. apply andb_prop in P as [P1 P2].
    apply plain_char_spec in P1 as (E1 & E2 & E3 & E4 & _). rewrite app_cons_s. cbn [lex]. rewrite E1, E2, E3, E4. cbn [andb].
    rewrite lex_plain_word by exact P2. apply S. left. discriminate.
Qed.

Lemma wbit_if g x y st : wbit (TIf g x y) st =
  if unquoted st then
    match wrope x (mkW None (glued st) QNo), wrope y (mkW None (glued st) QNo) with
    | Some (u, s1), Some (v, s2) =>
        if unquoted s1 && unquoted s2
        then Some (closed st ++ [IIf g (u ++ closed s1) (v ++ closed s2)], mkW None (glued s1 || glued s2) QNo)
        else None
    | _, _ => None
    end
  else None.
Proof. cbn [wbit]. assert (E : forall l st, (fix go (l : list bit) (st : wst) : option (list item * wst) :=
        match l with
        | [] => Some ([], st)
        | b :: r => match wbit b st with
                    | Some (x, st) => match go r st with Some (y, st) => Some (x ++ y, st) | None => None end
                    | None => None
                    end
        end) l st = wrope l st).
  { induction l as [|b l IH]; intros s; [reflexivity|]. cbn [wrope]. destruct (wbit b s) as [[u s1]|]; [|reflexivity]. now rewrite IH. }
  now rewrite !E.
Qed.

(** *** The pieces of a state are kept *)

Lemma wlit_plain s : forall st l st', wlit s st = Some (l, st') -> plain_items l -> plain_state st' -> plain_state st.
Proof.
  induction s as [|c s IH]; intros st l st' H Pl Ps; [injection H as <- <-; exact Ps|]. cbn [wlit] in H. destruct st as [cw g q]. cbn [w_q w_cur w_glued] in H.
  destruct q.
  - destruct (lexb c).
    + destruct (wlit s (mkW None false QNo)) as [[l1 st1]|] eqn:W; [|discriminate]. injection H as <- <-. apply plain_app in Pl as [Pl _]. now apply plain_closed.
    + destruct (open_w (mkW cw g QNo)) as [w|] eqn:O; [|discriminate].
      assert (G : plain_pieces w -> plain_state (mkW cw g QNo)).
      { unfold open_w in O. cbn [w_cur w_glued] in O. destruct cw; [injection O as ->; auto|intros _; exact I]. }
      destruct (Ascii.eqb c DQUOTE); [apply G; eapply (IH _ _ _ H); eauto|]. destruct (Ascii.eqb c SQUOTE); [apply G; eapply (IH _ _ _ H); eauto|].
      destruct (_ || _); [discriminate|]. apply G. eapply plain_add_inv. eapply (IH _ _ _ H); eauto.
  - destruct cw as [w|]; [|discriminate]. destruct (Ascii.eqb c SQUOTE); [eapply (IH _ _ _ H); eauto|].
    unfold plain_state. cbn [w_cur]. eapply plain_add_inv. eapply (IH _ _ _ H); eauto.
  - destruct cw as [w|]; [|discriminate]. destruct (Ascii.eqb c DQUOTE); [eapply (IH _ _ _ H); eauto|]. destruct (Ascii.eqb c BSLASH); [discriminate|].
    unfold plain_state. cbn [w_cur]. eapply plain_add_inv. eapply (IH _ _ _ H); eauto.
Qed.
Lemma wvalue_plain p st l st' : wvalue p st = Some (l, st') -> plain_state st' -> plain_state st /\ plain_piece p.
Proof.
  unfold wvalue, open_w, plain_state. destruct st as [[w|] g q]; cbn [w_cur w_glued w_q].
  - intros H. injection H as <- <-. cbn [w_cur]. intros H. inversion H; subst. auto.
  - destruct g; [discriminate|]. intros H. injection H as <- <-. cbn [w_cur]. intros H. inversion H; subst. auto.
Qed.
Lemma wbit_plain b : forall st l st', wbit b st = Some (l, st') -> plain_items l -> plain_state st' -> plain_state st.
Proof.
  destruct b as [s|m k|sep k|g x y]; intros st l st' H Pl Ps.
  - eapply wlit_plain; eauto.
  - cbn [wbit] in H. eapply wvalue_plain; eauto.
  - cbn [wbit] in H. eapply wvalue_plain; eauto.
  - rewrite wbit_if in H. destruct (unquoted st); [|discriminate]. destruct (wrope x _) as [[u s1]|]; [|discriminate].
    destruct (wrope y _) as [[v s2]|]; [|discriminate]. destruct (_ && _); [|discriminate]. injection H as <- <-.
    apply plain_app in Pl as [Pl _]. now apply plain_closed.
Qed.
Lemma wrope_plain r : forall st l st', wrope r st = Some (l, st') -> plain_items l -> plain_state st' -> plain_state st.
Proof.
  induction r as [|b r IH]; intros st l st' H Pl Ps; cbn [wrope] in H; [injection H as <- <-; exact Ps|].
  destruct (wbit b st) as [[x s1]|] eqn:B; [|discriminate]. destruct (wrope r s1) as [[y s2]|] eqn:R; [|discriminate]. injection H as <- <-.
  apply plain_app in Pl as [P1 P2]. eapply wbit_plain; eauto.
Qed.

(** *** Ropes *)

Definition reads_bit (b : bit) : Prop := forall st l st' s t ws, wbit b st = Some (l, st') -> bit_text a b = Some s ->
  plain_items l -> plain_state st' -> Sem st' t ws -> Sem st (s ++ t) (lws l ++ ws).
Lemma wrope_sem_of r : Forall reads_bit r -> forall st l st' s t ws, wrope r st = Some (l, st') -> rope_text a r = Some s ->
  plain_items l -> plain_state st' -> Sem st' t ws -> Sem st (s ++ t) (lws l ++ ws).
Proof.
  induction 1 as [|b r Hb _ IH]; intros st l st' s t ws W E Pl Ps S; cbn [wrope] in W.
  - injection W as <- <-. cbn in E. injection E as <-. exact S.
  - apply rope_cons_inv in E as (u & v & E1 & E2 & ->). destruct (wbit b st) as [[x s1]|] eqn:B; [|discriminate].
    destruct (wrope r s1) as [[y s2]|] eqn:R; [|discriminate]. injection W as <- <-. apply plain_app in Pl as [P1 P2].
    rewrite app_assoc_s, lws_app, <- app_assoc. eapply Hb; eauto. eapply wrope_plain; eauto.
Qed.
Lemma sem_weaken s1 b t ws : unquoted s1 = true -> Sem (mkW None (glued s1 || b) QNo) t ws -> Sem s1 t (lws (closed s1) ++ ws).
Proof.
  intros U [H1 H2]. apply close_sem; [exact U|]. split; [|exact H2]. cbn [w_glued] in *. intros G. apply H1. now rewrite G.
Qed.
Lemma wbit_sem b : reads_bit b.
Proof.
  induction b as [s|m k|sep k|g x y Ix Iy] using bit_ind'; intros st l st' u t ws H E Pl Ps S.
  - cbn in E. injection E as <-. eapply wlit_sem; eauto.
  - cbn [wbit] in H. assert (E' : ptext (PVal m k) = u) by (unfold ptext; now rewrite E). rewrite <- E'. eapply wvalue_sem; eauto.
    exact (proj2 (wvalue_plain _ _ _ _ H Ps)).
  - cbn [wbit] in H. assert (E' : ptext (PJoin sep k) = u) by (unfold ptext; now rewrite E). rewrite <- E'. eapply wvalue_sem; eauto.
    exact (proj2 (wvalue_plain _ _ _ _ H Ps)).
  - rewrite wbit_if in H. destruct (unquoted st) eqn:U; [|discriminate]. destruct (wrope x _) as [[p s1]|] eqn:W1; [|discriminate].
    destruct (wrope y _) as [[q s2]|] eqn:W2; [|discriminate]. destruct (unquoted s1 && unquoted s2) eqn:U2; [|discriminate]. injection H as <- <-.
    apply andb_prop in U2 as [U1 U2]. rewrite bit_text_if in E. apply plain_app in Pl as [_ Pl]. inversion Pl as [|? ? Pi _]; subst. apply plain_item_if in Pi.
    rewrite lws_app, <- app_assoc. apply close_sem; [exact U|]. cbn [flat_map lw]. rewrite app_nil_r.
    unfold asks in Pi |- *. destruct (ask a g) as [[]|]; [| |discriminate].
    + apply plain_app in Pi as [P1 P2]. rewrite lws_app, <- app_assoc. eapply (wrope_sem_of x Ix); eauto; [now apply plain_closed|].
      eapply sem_weaken; eauto.
    + apply plain_app in Pi as [P1 P2]. rewrite lws_app, <- app_assoc. eapply (wrope_sem_of y Iy); eauto; [now apply plain_closed|].
      eapply sem_weaken; eauto. rewrite orb_comm. exact S.
Qed.

(** *** No line feed *)

Lemma plain_break c : plain_char c = true -> is_linebreak c = false.
Proof.
  assert (G : implb (plain_char c) (negb (is_linebreak c)) = true).
  { destruct c as [b0 b1 b2 b3 b4 b5 b6 b7]. destruct b0, b1, b2, b3, b4, b5, b6, b7; reflexivity. }
  intros H. rewrite H in G. cbn [implb] in G. now apply negb_true_iff.
Qed.
Lemma unbroken_app s t : unbroken (s ++ t) = unbroken s && unbroken t.
Proof. unfold unbroken. induction s as [|c s IH]; [reflexivity|]. rewrite app_cons_s. cbn [all_chars]. now rewrite IH, andb_assoc. Qed.
Lemma plain_no_lf s : all_chars plain_char s = true -> unbroken s = true.
Proof.
  unfold unbroken. induction s as [|c s IH]; [reflexivity|]. cbn [all_chars]. intros H. apply andb_prop in H as [H1 H2].
  rewrite (plain_break c H1), IH; auto.
Qed.
Definition flat_bit (b : bit) : Prop := forall st l st' s, wbit b st = Some (l, st') -> bit_text a b = Some s ->
  plain_items l -> plain_state st' -> bit_nl b = false -> unbroken s = true.
Lemma wrope_flat_of r : Forall flat_bit r -> forall st l st' s, wrope r st = Some (l, st') -> rope_text a r = Some s ->
  plain_items l -> plain_state st' -> existsb bit_nl r = false -> unbroken s = true.
Proof.
  induction 1 as [|b r Hb _ IH]; intros st l st' s W E Pl Ps N; cbn [wrope] in W.
  - cbn in E. injection E as <-. reflexivity.
  - apply rope_cons_inv in E as (u & v & E1 & E2 & ->). destruct (wbit b st) as [[x s1]|] eqn:B; [|discriminate].
    destruct (wrope r s1) as [[y s2]|] eqn:R; [|discriminate]. injection W as <- <-. apply plain_app in Pl as [P1 P2].
    cbn [existsb] in N. apply orb_false_iff in N as [N1 N2]. rewrite unbroken_app.
    rewrite (Hb _ _ _ _ B E1 P1 (wrope_plain _ _ _ _ R P2 Ps) N1). eapply IH; eauto.
Qed.
Lemma plain_text_no_lf s : plain_text s = true -> unbroken s = true.
Proof. unfold plain_text. intros H. apply andb_prop in H as [_ H]. now apply plain_no_lf. Qed.
Lemma wbit_flat b : flat_bit b.
Proof.
  induction b as [s|m k|sep k|g x y Ix Iy] using bit_ind'; intros st l st' u H E Pl Ps N.
  - cbn in E. cbn [bit_nl] in N. injection E as <-. now apply negb_false_iff.
  - cbn [wbit] in H. assert (E' : ptext (PVal m k) = u) by (unfold ptext; now rewrite E). rewrite <- E'. apply plain_text_no_lf.
    exact (proj2 (wvalue_plain _ _ _ _ H Ps)).
  - cbn [wbit] in H. assert (E' : ptext (PJoin sep k) = u) by (unfold ptext; now rewrite E). rewrite <- E'. apply plain_text_no_lf.
    exact (proj2 (wvalue_plain _ _ _ _ H Ps)).
  - rewrite wbit_if in H. destruct (unquoted st) eqn:U; [|discriminate]. destruct (wrope x _) as [[p s1]|] eqn:W1; [|discriminate].
    destruct (wrope y _) as [[q s2]|] eqn:W2; [|discriminate]. destruct (unquoted s1 && unquoted s2) eqn:U2; [|discriminate]. injection H as <- <-.
    rewrite bit_text_if in E. apply plain_app in Pl as [_ Pl]. inversion Pl as [|? ? Pi _]; subst. apply plain_item_if in Pi.
    cbn [bit_nl] in N. apply orb_false_iff in N as [N1 N2].
    unfold asks in Pi. destruct (ask a g) as [[]|]; [| |discriminate].
    + apply plain_app in Pi as [P1 P2]. eapply (wrope_flat_of x Ix); eauto. now apply plain_closed.
    + apply plain_app in Pi as [P1 P2]. eapply (wrope_flat_of y Iy); eauto. now apply plain_closed.
Qed.

(** *** Comment lines *)

(** Lines that are empty or start with # and name no platform. *)
Inductive remarks : string -> Prop :=
| remarks_none : remarks ""
| remarks_blank s : remarks s -> remarks (String LF s)
| remarks_line t s : unbroken t = true -> startswith (t ++ NL) "platform=" = false -> remarks s -> remarks (String "#" (t ++ String LF s)).

Lemma line_end_split s u t : line_end s = Some (u, t) -> s = (u ++ String LF t)%string.
Proof.
  revert u. induction s as [|c s IH]; [discriminate|]. intros u. cbn [line_end]. destruct (Ascii.eqb c LF) eqn:E.
  - apply eqb_true_a in E. subst c. intros H. injection H as <- <-. reflexivity.
  - destruct (line_end s) as [[u' t']|]; [|discriminate]. intros H. injection H as <- <-. rewrite app_cons_s. f_equal. now apply IH.
Qed.
Lemma comment_ok_spec u : comment_ok u = true -> unbroken u = true /\ startswith (u ++ NL) "platform=" = false.
Proof. unfold comment_ok. intros H. apply andb_prop in H as [H1 H2]. apply negb_true_iff in H2. auto. Qed.
Lemma more_text s r : rope_text a (more s r) = rope_text a (TLit s :: r).
Proof.
  unfold more. destruct (String.eqb_spec s "") as [->|]; [|reflexivity]. cbn [rope_text bit_text append]. destruct (rope_text a r); reflexivity.
Qed.
Lemma remarks_app s t : remarks s -> remarks t -> remarks (s ++ t).
Proof.
  induction 1 as [|s _ IH|u s N N' _ IH]; intros T; [exact T| |].
  - rewrite app_cons_s. constructor. auto.
  - rewrite app_cons_s, app_assoc_s, app_cons_s. constructor; auto.
Qed.
Lemma drop_comments_text n : forall r s, rope_text a r = Some s ->
  exists c t, rope_text a (drop_comments n r) = Some t /\ s = (c ++ t)%string /\ remarks c.
Proof.
  induction n as [|n IH]; intros r s E; [exists "", s; repeat split; [exact E|constructor]|].
  assert (D : exists c t, rope_text a r = Some t /\ s = (c ++ t)%string /\ remarks c) by (exists "", s; repeat split; [exact E|constructor]).
  cbn [drop_comments]. destruct r as [|[u|m k|sep k|g x y] r]; try exact D. destruct u as [|c u]; [exact D|].
  apply rope_cons_inv in E as (x & v & E1 & E2 & ->). cbn in E1. injection E1 as <-.
  destruct (Ascii.eqb c HASH) eqn:Hc; [apply eqb_true_a in Hc; subst c|destruct (Ascii.eqb c LF) eqn:Hl; [apply eqb_true_a in Hl; subst c|exact D]].
  - destruct (line_end u) as [[w t]|] eqn:L.
    + pose proof (line_end_split _ _ _ L) as ->. destruct (comment_ok w) eqn:K; [|exact D]. apply comment_ok_spec in K as [K1 K2].
      assert (E : rope_text a (more t r) = Some (t ++ v)%string) by (rewrite more_text; cbn [rope_text bit_text]; now rewrite E2).
      destruct (IH _ _ E) as (c & z & Ez & Es & Rc). exists (String "#" (w ++ String LF c)), z. split; [exact Ez|].
      split; [|now constructor]. rewrite !app_cons_s, !app_assoc_s, !app_cons_s. now rewrite Es.
    + destruct r as [|[w|m k|sep k|g x y] r]; try exact D. destruct (String.eqb_spec w NL) as [->|]; [|exact D]. cbn [andb]. destruct (comment_ok u) eqn:K; [|exact D]. apply comment_ok_spec in K as [K1 K2].
      apply rope_cons_inv in E2 as (x & v' & E1 & E2 & ->). cbn in E1. injection E1 as <-.
      destruct (IH _ _ E2) as (c & z & Ez & Es & Rc). exists (String "#" (u ++ String LF c)), z. split; [exact Ez|].
      split; [|now constructor]. rewrite !app_cons_s, !app_assoc_s. unfold NL. rewrite !app_cons_s. cbn [append]. now rewrite Es.
  - assert (E : rope_text a (more u r) = Some (u ++ v)%string) by (rewrite more_text; cbn [rope_text bit_text]; now rewrite E2).
    destruct (IH _ _ E) as (c & z & Ez & Es & Rc). exists (String LF c), z. split; [exact Ez|]. split; [|now constructor].
    rewrite !app_cons_s. now rewrite Es.
Qed.

Theorem line_items_sound r s items : line_items r = Some items -> rope_text a r = Some s -> plain_items items ->
  exists c line, s = (c ++ line ++ NL)%string /\ remarks c /\ unbroken line = true /\ shlex_split true line = Ok (lws items).
Proof.
  unfold line_items. intros H E P. destruct (drop_comments_text 20 _ _ E) as (c & t & Et & -> & Rc).
  destruct (cut_nl (drop_comments 20 r)) as [l|] eqn:C; [|discriminate]. destruct (cut_nl_text _ _ _ _ C Et) as (line & El & ->).
  destruct (existsb bit_nl l) eqn:N; [discriminate|]. destruct (wrope l _) as [[x st]|] eqn:W; [|discriminate].
  destruct (unquoted st) eqn:U; [|discriminate]. injection H as <-. apply plain_app in P as [P1 P2]. apply plain_closed in P2.
  exists c, line. split; [reflexivity|]. split; [exact Rc|]. split.
  - eapply (wrope_flat_of l); eauto. apply Forall_forall. intros b _. apply wbit_flat.
  - assert (S : Sem (mkW None false QNo) (line ++ "") (lws x ++ lws (closed st) ++ [])).
    { eapply (wrope_sem_of l); eauto; [apply Forall_forall; intros b _; apply wbit_sem|]. apply close_sem; [exact U|]. split; [intros _; exact I|reflexivity]. }
    destruct S as [_ S]. rewrite app_nil_r_s, app_nil_r in S. unfold shlex_split. rewrite S. now rewrite lws_app.
Qed.
End Words.
