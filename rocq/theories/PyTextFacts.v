(** * The ropes of PyText.v are what __str__ writes *)

From Coq Require Import Lia.
From Verif Require Import PyStrFacts.
From Verif Require Export PyText PyCheckFacts PyClass.
From Verif Require Import Value.
Local Open Scope string_scope.
Local Open Scope list_scope.
Local Arguments Ascii.eqb : simpl never.
Local Arguments String.eqb : simpl never.

Lemma bit_ind' (P : bit -> Prop) :
  (forall s, P (TLit s)) -> (forall m k, P (TVal m k)) -> (forall s k, P (TJoin s k)) ->
  (forall g p q, Forall P p -> Forall P q -> P (TIf g p q)) -> forall b, P b.
Proof.
  intros H1 H2 H3 H4. fix IH 1. intros [s|m k|s k|g p q]; [apply H1|apply H2|apply H3|apply H4].
  - induction p as [|b p Ip]; constructor; [apply IH|exact Ip].
  - induction q as [|b q Iq]; constructor; [apply IH|exact Iq].
Qed.

(** ** The text of a rope *)

Section Text.
Variable a : attrs.

(** The truth of a condition on the object. *)
Definition ask (g : expr) : option bool :=
  match eval no_ctx a [] g with Ok p => Some (p_truthy p) | Err _ => None end.

Fixpoint bit_text (b : bit) : option string :=
  match b with
  | TLit s => Some s
  | TVal m k => match assoc k a with Some v => mode_text m v | None => None end
  | TJoin sep k => match assoc k a with Some (VStrs l) => Some (join sep l) | _ => None end
  | TIf g x y =>
      let go := fix go (l : list bit) : option string :=
        match l with
        | [] => Some ""
        | b :: r => match bit_text b, go r with Some s, Some t => Some (s ++ t)%string | _, _ => None end
        end in
      match ask g with Some c => go (if c then x else y) | None => None end
  end.
Fixpoint rope_text (l : list bit) : option string :=
  match l with
  | [] => Some ""
  | b :: r => match bit_text b, rope_text r with Some s, Some t => Some (s ++ t)%string | _, _ => None end
  end.
Lemma bit_text_if g x y : bit_text (TIf g x y) = match ask g with Some c => rope_text (if c then x else y) | None => None end.
Proof.
  cbn [bit_text]. destruct (ask g) as [c|]; [|reflexivity].
  generalize (if c then x else y). induction l as [|b l IH]; [reflexivity|]. cbn [rope_text]. rewrite <- IH. reflexivity.
Qed.
Lemma rope_text_one b : rope_text [b] = bit_text b.
Proof. cbn [rope_text]. destruct (bit_text b); [now rewrite app_nil_r_s|reflexivity]. Qed.
Lemma rope_text_app r t : rope_text (r ++ t) =
  match rope_text r, rope_text t with Some x, Some y => Some (x ++ y)%string | _, _ => None end.
Proof.
  induction r as [|b r IH]; cbn [rope_text app].
  - destruct (rope_text t); reflexivity.
  - rewrite IH. destruct (bit_text b), (rope_text r), (rope_text t); try reflexivity. now rewrite app_assoc_s.
Qed.
Lemma rope_app r t x y : rope_text r = Some x -> rope_text t = Some y -> rope_text (r ++ t) = Some (x ++ y)%string.
Proof. intros E F. rewrite rope_text_app, E, F. reflexivity. Qed.
Lemma rope_app_inv r t z : rope_text (r ++ t) = Some z ->
  exists x y, rope_text r = Some x /\ rope_text t = Some y /\ z = (x ++ y)%string.
Proof. rewrite rope_text_app. destruct (rope_text r), (rope_text t); try discriminate. intros E. injection E as <-. eauto. Qed.
Lemma rope_cons_inv b r z : rope_text (b :: r) = Some z ->
  exists x y, bit_text b = Some x /\ rope_text r = Some y /\ z = (x ++ y)%string.
Proof. cbn [rope_text]. destruct (bit_text b), (rope_text r); try discriminate. intros E. injection E as <-. eauto. Qed.

(** *** Equality of ropes *)

Lemma bit_eqb_eq : forall x y, bit_eqb x y = true -> x = y.
Proof.
  fix IH 1. intros x y. destruct x as [s|m k|s k|g p q], y as [t|n j|t j|h c d]; cbn [bit_eqb]; try discriminate.
  - intros H. apply String.eqb_eq in H. now subst.
  - destruct (mode_dec m n); [|discriminate]. cbn [andb]. intros H. apply String.eqb_eq in H. now subst.
  - intros H. apply andb_prop in H as [H1 H2]. apply String.eqb_eq in H1, H2. now subst.
  - destruct (expr_eq_dec g h); [|discriminate]. cbn [andb]. intros H. apply andb_prop in H as [H1 H2]. subst h. f_equal.
    + revert c H1. induction p as [|u p IHp]; intros [|v c]; try discriminate; [reflexivity|]. intros H. apply andb_prop in H as [E H].
      f_equal; [now apply IH|now apply IHp].
    + revert d H2. induction q as [|u q IHq]; intros [|v d]; try discriminate; [reflexivity|]. intros H. apply andb_prop in H as [E H].
      f_equal; [now apply IH|now apply IHq].
Qed.
Lemma bits_eqb_eq x : forall y, bits_eqb x y = true -> x = y.
Proof.
  induction x as [|u x IH]; intros [|v y]; cbn [bits_eqb]; try discriminate; [reflexivity|]. intros H. apply andb_prop in H as [E H].
  apply bit_eqb_eq in E. f_equal; auto.
Qed.

(** *** Literal texts *)

Lemma take_drop n : forall s, (take n s ++ drop n s)%string = s.
Proof. induction n as [|n IH]; intros [|c s]; cbn; try reflexivity. now rewrite IH. Qed.
Lemma ends_take s : ends_with_char LF s = true -> (take (String.length s - 1) s ++ NL)%string = s.
Proof.
  induction s as [|c [|d s] IH]; [discriminate| |].
  - cbn. intros H. apply eqb_true_a in H. now subst.
  - intros H. specialize (IH H). change (String.length (String c (String d s)) - 1) with (S (String.length s)).
    change (String.length (String d s) - 1) with (String.length s - 0) in IH. rewrite PeanoNat.Nat.sub_0_r in IH.
    change (take (S (String.length s)) (String c (String d s))) with (String c (take (String.length s) (String d s))).
    rewrite app_cons_s. now rewrite IH.
Qed.
Lemma take_app_last s c : take (String.length (s ++ String c "") - 1) (s ++ String c "") = s.
Proof.
  induction s as [|d s IH]; [reflexivity|]. rewrite app_cons_s. cbn [String.length]. rewrite PeanoNat.Nat.sub_1_r. cbn [pred].
  rewrite PeanoNat.Nat.sub_1_r in IH. destruct (String.length (s ++ String c "")) as [|n] eqn:E; [destruct s; discriminate|].
  cbn [take pred] in *. now rewrite IH.
Qed.
Lemma lit_text s : rope_text (lit s) = Some s.
Proof.
  unfold lit. destruct (String.eqb_spec s "") as [->|_]; [reflexivity|]. destruct (ends_with_char LF s) eqn:E.
  - apply ends_take in E. cbv zeta. destruct (String.eqb_spec (take (String.length s - 1) s) "") as [E2|_].
    + rewrite E2 in E. cbn in E. rewrite <- E. reflexivity.
    + cbn [rope_text bit_text]. rewrite app_nil_r_s. now rewrite E.
  - cbn [rope_text bit_text]. now rewrite app_nil_r_s.
Qed.
Lemma literal_text r s : literal r = Some s -> rope_text r = Some s.
Proof.
  revert s. induction r as [|b r IH]; intros s; cbn [literal rope_text]; [auto|]. destruct b; try discriminate.
  destruct (literal r) as [t|]; [|discriminate]. intros H. injection H as <-. cbn [bit_text]. now rewrite (IH t eq_refl).
Qed.
Lemma has_lit_full r s : has_lit r = true -> rope_text r = Some s -> s <> "".
Proof.
  revert s. induction r as [|b r IH]; intros s H E; [discriminate|]. apply rope_cons_inv in E as (x & y & Eb & Er & ->).
  cbn [has_lit existsb] in H. intros N. apply app_eq_nil_s in N as [-> ->]. apply orb_prop in H as [H|H].
  - destruct b; try discriminate. cbn in Eb. injection Eb as ->. discriminate.
  - now apply (IH "").
Qed.

(** *** Stripping *)

Definition solid_text (s : string) : Prop := s = "" \/ last_ok inked s = true.
Variable calm : bool -> string -> bool.
Hypothesis calm_val : forall m k v s, calm false k = true -> assoc k a = Some v -> mode_text m v = Some s -> solid_text s.
Hypothesis calm_join : forall sep k l, calm false k = true -> assoc k a = Some (VStrs l) -> solid_text (join sep l).
Hypothesis calm_full : forall k v s, calm true k = true -> assoc k a = Some v -> mode_text MAny v = Some s -> last_ok inked s = true.

Lemma solid_app x y : solid_text x -> solid_text y -> solid_text (x ++ y).
Proof.
  intros Hx [->|Hy]; [now rewrite app_nil_r_s|]. right. rewrite last_ok_app; [exact Hy|]. intros ->. discriminate.
Qed.
Lemma last_app x y : last_ok inked y = true -> last_ok inked (x ++ y) = true.
Proof. intros H. rewrite last_ok_app; [exact H|]. intros ->. discriminate. Qed.

Lemma solid_fold r : Forall (fun b => forall r x s, solid_bit calm r b = true -> (r = true -> solid_text x) -> bit_text b = Some s -> solid_text (x ++ s)) r ->
  forall b y u, fold_left (solid_bit calm) r b = true -> (b = true -> solid_text y) -> rope_text r = Some u -> solid_text (y ++ u).
Proof.
  induction 1 as [|x r Hb _ IH]; intros b y u F Hy E.
  - cbn in E, F. injection E as <-. rewrite app_nil_r_s. auto.
  - apply rope_cons_inv in E as (s1 & s2 & E1 & E2 & ->). cbn [fold_left] in F. rewrite <- app_assoc_s.
    eapply IH; [exact F| |exact E2]. intros Hr. eapply Hb; eauto.
Qed.
Lemma solid_bit_text : forall b r x s, solid_bit calm r b = true -> (r = true -> solid_text x) -> bit_text b = Some s -> solid_text (x ++ s).
Proof.
  induction b as [t|m k|sep k|g p q Ip Iq] using bit_ind'; intros r x s S Hx E.
  - cbn in S, E. injection E as <-. right. now apply last_app.
  - cbn [solid_bit] in S. cbn in E. destruct (assoc k a) as [v|] eqn:A; [|discriminate]. destruct r; [apply solid_app; eauto|].
    destruct m; try discriminate. right. apply last_app. eapply calm_full; eauto.
  - cbn in S, E. apply andb_prop in S as [S1 S2]. destruct (assoc k a) as [[| | | |l| |]|] eqn:A; try discriminate. injection E as <-.
    apply solid_app; eauto.
  - rewrite bit_text_if in E. cbn [solid_bit] in S. apply andb_prop in S as [S Sq]. apply andb_prop in S as [S Sp].
    destruct (ask g) as [c|]; [|discriminate].
    apply solid_app; [auto|]. change s with ("" ++ s)%string.
    destruct c; [apply (solid_fold p Ip true)|apply (solid_fold q Iq true)]; auto; intros _; now left.
Qed.
Lemma solid_rope r s : solid calm r = true -> rope_text r = Some s -> solid_text s.
Proof.
  unfold solid. intros S E. change s with ("" ++ s)%string. apply (solid_fold r) with (b := true); auto.
  - apply Forall_forall. intros b _. apply solid_bit_text.
  - intros _. now left.
Qed.
Lemma solid_rstrip s : solid_text s -> rstrip s = s.
Proof. intros [->|H]; [reflexivity|]. now apply rstrip_by_last. Qed.

Lemma rstrip_split s : exists b, s = (rstrip s ++ b)%string /\ all_chars is_space b = true.
Proof.
  unfold rstrip. induction s as [|c s (b & E & B)]; [exists ""; auto|]. cbn [rstrip_by].
  destruct (rstrip_by is_space s) as [|d t] eqn:R.
  - cbn in E. subst b. destruct (is_space c) eqn:C.
    + exists (String c s). cbn [append all_chars]. rewrite C, B. auto.
    + exists s. auto.
  - exists b. rewrite app_cons_s, <- E. auto.
Qed.
Lemma rev_cons {A} (x : A) l : rev (x :: l) = rev l ++ [x].
Proof. reflexivity. Qed.
Lemma rchop_rev_text r : forall s, rope_text (rev r) = Some s ->
  exists u b, rope_text (rev (rchop_rev r)) = Some u /\ s = (u ++ b)%string /\ all_chars is_space b = true.
Proof.
  induction r as [|x r IH]; intros s E; [exists s, ""; cbn in E; injection E as <-; auto|].
  destruct x as [t|m k|sep k|g p q]; try (exists s, ""; cbn [rchop_rev]; rewrite app_nil_r_s; auto; fail).
  rewrite rev_cons in E. apply rope_app_inv in E as (x & y & E1 & E2 & ->). rewrite rope_text_one in E2. cbn in E2. injection E2 as <-.
  cbn [rchop_rev]. cbv zeta. destruct (rstrip_split t) as (b & Et & B). destruct (String.eqb_spec (rstrip t) "") as [E0|_].
  - rewrite E0 in Et. cbn in Et. subst b. destruct (IH _ E1) as (u & b & Eu & -> & Bb). exists u, (b ++ t)%string.
    rewrite app_assoc_s, all_chars_app, Bb, B. auto.
  - exists (x ++ rstrip t)%string, b. rewrite rev_cons. split; [|split; [|exact B]].
    + apply rope_app; [exact E1|]. now rewrite rope_text_one.
    + rewrite app_assoc_s, <- Et. reflexivity.
Qed.
Lemma rchop_text r r' s : rchop calm r = Some r' -> rope_text r = Some s -> rope_text r' = Some (rstrip s).
Proof.
  unfold rchop. cbv zeta. destruct (solid calm (rev (rchop_rev (rev r)))) eqn:S; [|discriminate]. intros H E. injection H as <-.
  rewrite <- (rev_involutive r) in E. destruct (rchop_rev_text (rev r) s E) as (u & b & Eu & -> & B). rewrite Eu. f_equal.
  symmetry. unfold rstrip. rewrite rstrip_by_app_all by exact B. apply solid_rstrip. eapply solid_rope; eauto.
Qed.
Lemma front_lstrip r s : front r = true -> rope_text r = Some s -> lstrip s = s.
Proof.
  destruct r as [|[t|m k|sep k|g p q] r]; cbn [front]; try discriminate; intros H E.
  - cbn in E. injection E as <-. reflexivity.
  - apply rope_cons_inv in E as (x & y & E1 & E2 & ->). cbn in E1. injection E1 as <-.
    apply lstrip_by_head. rewrite head_ok_app; [exact H|]. intros ->. discriminate.
Qed.
Lemma cut_nl_eq r r' : cut_nl r = Some r' -> r = r' ++ [TLit NL].
Proof.
  unfold cut_nl. destruct (rev r) as [|[t|m k|sep k|g p q] l] eqn:R; try discriminate. destruct (String.eqb_spec t NL) as [->|]; [|discriminate].
  intros H. injection H as <-. rewrite <- (rev_involutive r), R. reflexivity.
Qed.
Lemma cut_nl_text r r' s : cut_nl r = Some r' -> rope_text r = Some s -> exists t, rope_text r' = Some t /\ s = (t ++ NL)%string.
Proof.
  intros H E. apply cut_nl_eq in H. subst r. apply rope_app_inv in E as (x & y & E1 & E2 & ->). rewrite rope_text_one in E2. injection E2 as <-. eauto.
Qed.

(** *** Joining two ropes *)

Lemma blank_at_lt s n : blank_at s = Some n -> n < String.length s.
Proof.
  revert n. induction s as [|c s IH]; intros n; [discriminate|]. cbn [blank_at String.length]. destruct (blank_at s) as [m|].
  - intros H. injection H as <-. specialize (IH m eq_refl). lia.
  - destruct (Ascii.eqb c SP); [|discriminate]. intros H. injection H as <-. lia.
Qed.
Lemma common_take n : forall s t, n <= String.length (common_text s t) -> take n s = take n t.
Proof.
  induction n as [|n IH]; intros [|c s] [|d t]; cbn; intros H; try lia; try reflexivity.
  destruct (Ascii.eqb c d) eqn:E; cbn in H; [|lia]. apply eqb_true_a in E. subst d. f_equal. apply IH. lia.
Qed.
Lemma common_text_ok x : forall y p u v, common x y = (p, u, v) ->
  rope_text x = rope_text (p ++ u) /\ rope_text y = rope_text (p ++ v).
Proof.
  induction x as [|b x IH]; intros [|c y] p u v; cbn [common]; try (intros H; injection H as <- <- <-; auto; fail).
  destruct (bit_eqb b c) eqn:E.
  - apply bit_eqb_eq in E. subst c. destruct (common x y) as [[p1 u1] v1] eqn:C. intros H. injection H as <- <- <-.
    destruct (IH _ _ _ _ C) as [H1 H2]. cbn [app rope_text]. now rewrite H1, H2.
  - destruct b as [s| | |], c as [t| | |]; try (intros H; injection H as <- <- <-; auto; fail).
    destruct (blank_at (common_text s t)) as [[|n]|] eqn:L; try (intros H; injection H as <- <- <-; auto; fail).
    remember (S n) as m eqn:Em. clear Em. intros H. injection H as <- <- <-. apply blank_at_lt in L. pose proof (common_take m s t) as T.
    assert (Et : take m s = take m t) by (apply T; lia). clear T L.
    split; cbn [app rope_text bit_text].
    + destruct (rope_text x); [|reflexivity]. now rewrite <- app_assoc_s, take_drop.
    + rewrite Et. destruct (rope_text y); [|reflexivity]. now rewrite <- app_assoc_s, take_drop.
Qed.
Lemma one_line_text g u v r c : one_line g u v = Some r -> ask g = Some c -> rope_text r = rope_text (if c then u else v).
Proof.
  unfold one_line. destruct (_ || _); [discriminate|]. intros H A. injection H as <-. rewrite rope_text_one, bit_text_if, A. reflexivity.
Qed.
Lemma merge_text g x y r c : merge_rope g x y = Some r -> ask g = Some c -> rope_text r = rope_text (if c then x else y).
Proof.
  unfold merge_rope. destruct (common x y) as [[p u] v] eqn:C. destruct (common_text_ok _ _ _ _ _ C) as [Ex Ey].
  assert (G : rope_text (if c then x else y) = rope_text (p ++ if c then u else v)) by (destruct c; assumption).
  intros H A. rewrite G. clear G Ex Ey.
  assert (N : forall r, option_map (fun z => p ++ z) (one_line g u v) = Some r -> rope_text r = rope_text (p ++ if c then u else v)).
  { intros r0 H0. destruct (one_line g u v) as [z|] eqn:O; [|discriminate]. injection H0 as <-. rewrite !rope_text_app.
    now rewrite (one_line_text _ _ _ _ _ O A). }
  assert (M : match cut_nl u, cut_nl v with
              | Some u', Some v' => option_map (fun x => p ++ x ++ [TLit NL]) (one_line g u' v')
              | _, _ => option_map (fun x => p ++ x) (one_line g u v)
              end = Some r -> rope_text r = rope_text (p ++ if c then u else v)).
  { destruct (cut_nl u) as [u'|] eqn:Cu; [|apply N]. destruct (cut_nl v) as [v'|] eqn:Cv; [|apply N].
    apply cut_nl_eq in Cu, Cv. subst u v. intros H0. destruct (one_line g u' v') as [z|] eqn:O; [|discriminate]. injection H0 as <-.
    assert (Ez : rope_text (z ++ [TLit NL]) = rope_text (if c then u' ++ [TLit NL] else v' ++ [TLit NL])).
    { rewrite rope_text_app, (one_line_text _ _ _ _ _ O A). destruct c; now rewrite rope_text_app. }
    rewrite !rope_text_app in *. now rewrite Ez. }
  destruct u; [destruct v|]; auto. injection H as <-. destruct c; rewrite ?app_nil_r; reflexivity.
Qed.
End Text.

(** ** Running a method *)

Definition eun (o : unop) (p : pval) : res pval :=
  match o with
  | UNot => Ok (PV (VBool (negb (p_truthy p))))
  | _ => do v <- to_val p ;; do w <- un o v ;; Ok (PV w)
  end.
Lemma eval_un c a e o y : eval c a e (EUn o y) = do p <- eval c a e y ;; eun o p.
Proof. destruct o; reflexivity. Qed.
Lemma eun_val o v : eun o (PV v) = do w <- un o v ;; Ok (PV w).
Proof. destruct o; reflexivity. Qed.
Lemma eval_bin2 c a e o y z : eval c a e (EBin o y z) =
  do p <- eval c a e y ;; do v <- to_val p ;; do q <- eval c a e z ;; do w <- to_val q ;; do r <- bin o v w ;; Ok (PV r).
Proof. reflexivity. Qed.
Lemma eval_self_attr c a e k : eval c a e (EAttr (EVar "self") k) = match assoc k a with Some v => Ok (PV v) | None => Err AttributeError end.
Proof. reflexivity. Qed.
Lemma eval_self_has c a e k : eval c a e (EHas (EVar "self") k) = Ok (PV (VBool (has_key k a))).
Proof. reflexivity. Qed.
Lemma bind_ok' {A B} (r : res A) (f : A -> res B) b : bind r f = Ok b -> exists x, r = Ok x /\ f x = Ok b.
Proof. destruct r; cbn; [eauto|discriminate]. Qed.

Lemma eval_selfonly c c' a x : forall e e', selfonly x = true -> eval c a e x = eval c' a e' x.
Proof.
  induction x as [v|y| |y IH k|y IH k d IHd|y IH k|o y IH|o y IHy z IHz|y IHy z IHz|y IHy z IHz|n|n|n|y IH|k|y IHy z IHz|];
    intros e e' S; cbn [selfonly] in S; try discriminate.
  - reflexivity.
  - cbn [eval]. rewrite S. reflexivity.
  - cbn [eval]. now rewrite (IH e e').
  - cbn [eval]. now rewrite (IH e e').
  - rewrite !eval_un. now rewrite (IH e e').
  - apply andb_prop in S as [S1 S2]. rewrite !eval_bin2. now rewrite (IHy e e'), (IHz e e').
  - apply andb_prop in S as [S1 S2]. cbn [eval]. now rewrite (IHy e e'), (IHz e e').
  - apply andb_prop in S as [S1 S2]. cbn [eval]. now rewrite (IHy e e'), (IHz e e').
Qed.

Definition fullb (s : string) : bool := negb (String.eqb s "").

Section Run.
Variables (c : ctx) (a : attrs).
Variable K : list (string * value).
Variable here : string -> option bool.
Variable calm : bool -> string -> bool.
Hypothesis K_ok : forall k v, assoc k K = Some v -> assoc k a = Some v.
Hypothesis here_ok : forall k b, here k = Some b -> has_key k a = b.
Hypothesis calm_val : forall m k v s, calm false k = true -> assoc k a = Some v -> mode_text m v = Some s -> solid_text s.
Hypothesis calm_join : forall sep k l, calm false k = true -> assoc k a = Some (VStrs l) -> solid_text (join sep l).
Hypothesis calm_full : forall k v s, calm true k = true -> assoc k a = Some v -> mode_text MAny v = Some s -> last_ok inked s = true.
Notation rope_text := (rope_text a).
Notation ask := (ask a).

Definition vsim (p : pval) (v : sval) : Prop :=
  match v with
  | SvRope r => exists t, p = PV (VStr t) /\ rope_text r = Some t
  | SvAttr k => exists w, assoc k a = Some w /\ p = PV w
  | SvConst v => p = PV v
  end.
Definition sim (e : env) (se : senv) : Prop := forall y v, assoc y se = Some v -> exists p, assoc y e = Some p /\ vsim p v.
Definition facts_ok (F : facts) : Prop := forall f, In f F -> ask (fst f) = Some (snd f).

Lemma sim_nil e : sim e [].
Proof. intros y v H. discriminate. Qed.
Lemma sim_put e se x p v : sim e se -> vsim p v -> sim (put x p e) (put x v se).
Proof.
  intros S V y w H. destruct (String.eqb_spec y x) as [->|N].
  - rewrite assoc_put_eq in H. injection H as <-. exists p. now rewrite assoc_put_eq.
  - rewrite assoc_put_ne in H by exact N. destruct (S _ _ H) as (q & E & Q). exists q. now rewrite assoc_put_ne by exact N.
Qed.
Lemma facts_cons g b F : ask g = Some b -> facts_ok F -> facts_ok ((g, b) :: F).
Proof. intros A H f [<-|I]; auto. Qed.
Lemma facts_hold F : facts_ok F -> all_hold no_ctx a [] F.
Proof.
  intros H f I. specialize (H f I). unfold PyTextFacts.ask in H. destruct (eval no_ctx a [] (fst f)) as [p|] eqn:E; [|discriminate].
  injection H as H. exists p. auto.
Qed.
Lemma vsim_of_value v : vsim (PV v) (of_value v).
Proof. destruct v; cbn [of_value vsim]; try reflexivity. exists s. split; [reflexivity|]. apply lit_text. Qed.

(** *** Expressions *)

Lemma is_self_eq y : is_self y = true -> y = EVar "self".
Proof. destruct y; cbn; try discriminate. intros H. apply String.eqb_eq in H. now subst. Qed.

Lemma red_sound x : forall e p, eval c a e x = Ok p -> eval c a e (red K here x) = Ok p.
Proof.
  induction x as [v|y| |y IH k|y IH k d IHd|y IH k|o y IH|o y IHy z IHz|y IHy z IHz|y IHy z IHz|n|n|n|y IH|k|y IHy z IHz|];
    intros e p E; cbn [red]; try exact E.
  - destruct (is_self y) eqn:S; [|exact E]. apply is_self_eq in S. subst y. destruct (assoc k K) as [v|] eqn:A; [|exact E].
    apply K_ok in A. rewrite eval_self_attr, A in E. exact E.
  - destruct (is_self y) eqn:S; [|exact E]. apply is_self_eq in S. subst y. destruct (here k) as [b|] eqn:A; [|exact E].
    apply here_ok in A. rewrite eval_self_has, A in E. exact E.
  - rewrite eval_un in E. apply bind_ok' in E as (q & E1 & E2). specialize (IH _ _ E1).
    assert (G : eval c a e (EUn o (red K here y)) = Ok p) by (rewrite eval_un, IH; exact E2).
    destruct (red K here y) as [v| | | | | | | | | | | | | | | |]; try exact G.
    cbn in IH. injection IH as <-. rewrite eun_val in E2. destruct (un o v) as [w|]; [|exact G]. cbn in E2. cbn. exact E2.
  - rewrite eval_bin2 in E. apply bind_ok' in E as (q & E1 & E2). apply bind_ok' in E2 as (v & E2 & E3). apply bind_ok' in E3 as (r & E3 & E4).
    apply bind_ok' in E4 as (w & E4 & E5). specialize (IHy _ _ E1). specialize (IHz _ _ E3).
    assert (G : eval c a e (EBin o (red K here y) (red K here z)) = Ok p).
    { rewrite eval_bin2, IHy. cbn [bind]. rewrite E2. cbn [bind]. rewrite IHz. cbn [bind]. rewrite E4. exact E5. }
    destruct (red K here y) as [v'| | | | | | | | | | | | | | | |]; try exact G.
    destruct (red K here z) as [w'| | | | | | | | | | | | | | | |]; try exact G.
    cbn in IHy, IHz. injection IHy as <-. injection IHz as <-. cbn in E2, E4. injection E2 as <-. injection E4 as <-.
    destruct (bin o v' w') as [u|]; [|exact G]. cbn in E5. cbn. exact E5.
  - cbn [eval] in E. apply bind_ok' in E as (q & E1 & E2). specialize (IHy _ _ E1).
    assert (G : eval c a e (EAnd (red K here y) (red K here z)) = Ok p).
    { cbn [eval]. rewrite IHy. cbn [bind]. destruct (p_truthy q); [apply IHz|]; exact E2. }
    destruct (red K here y) as [v'| | | | | | | | | | | | | | | |]; try exact G.
    cbn in IHy. injection IHy as <-. cbn [p_truthy] in E2. destruct (truthy v'); [apply IHz; exact E2|exact E2].
  - cbn [eval] in E. apply bind_ok' in E as (q & E1 & E2). specialize (IHy _ _ E1).
    assert (G : eval c a e (EOr (red K here y) (red K here z)) = Ok p).
    { cbn [eval]. rewrite IHy. cbn [bind]. destruct (p_truthy q); [|apply IHz]; exact E2. }
    destruct (red K here y) as [v'| | | | | | | | | | | | | | | |]; try exact G.
    cbn in IHy. injection IHy as <-. cbn [p_truthy] in E2. destruct (truthy v'); [exact E2|apply IHz; exact E2].
Qed.

Lemma subst_sound x : forall e se p, sim e se -> eval c a e x = Ok p -> eval c a e (subst se x) = Ok p.
Proof.
  induction x as [v|y| |y IH k|y IH k d IHd|y IH k|o y IH|o y IHy z IHz|y IHy z IHz|y IHy z IHz|n|n|n|y IH|k|y IHy z IHz|];
    intros e se p S E; cbn [subst]; try exact E.
  - destruct (String.eqb y "self") eqn:Y; [exact E|]. destruct (assoc y se) as [[r|k|v]|] eqn:A; try exact E;
      destruct (S _ _ A) as (q & Eq & V); cbn [eval] in E; rewrite Y, Eq in E; injection E as ->.
    + destruct (literal r) as [t|] eqn:L.
      * destruct V as (t' & -> & R). apply literal_text with (a := a) in L. cbn. congruence.
      * cbn [eval]. now rewrite Y, Eq.
    + destruct V as (w & Aw & ->). now rewrite eval_self_attr, Aw.
    + cbn in V. subst p. reflexivity.
  - rewrite eval_un in *. apply bind_ok' in E as (q & E1 & E2). now rewrite (IH _ _ _ S E1).
  - rewrite eval_bin2 in *. apply bind_ok' in E as (q & E1 & E2). apply bind_ok' in E2 as (v & E2 & E3). apply bind_ok' in E3 as (r & E3 & E4).
    rewrite (IHy _ _ _ S E1). cbn [bind]. rewrite E2. cbn [bind]. now rewrite (IHz _ _ _ S E3).
  - cbn [eval] in *. apply bind_ok' in E as (q & E1 & E2). rewrite (IHy _ _ _ S E1). cbn [bind]. destruct (p_truthy q); [now apply IHz|exact E2].
  - cbn [eval] in *. apply bind_ok' in E as (q & E1 & E2). rewrite (IHy _ _ _ S E1). cbn [bind]. destruct (p_truthy q); [exact E2|now apply IHz].
Qed.

(** What the answer of [cond] says of the value. *)
Definition means (se : senv) (r : gres) (p : pval) : Prop :=
  match r with
  | GKnown b => p_truthy p = b
  | GExp g => ask g = Some (p_truthy p)
  | GText pos y r => y <> "self" /\ assoc y se = Some (SvRope r) /\
      exists t, rope_text r = Some t /\ p_truthy p = (if pos then fullb t else negb (fullb t))
  end.
Lemma fullb_true t : t <> "" -> fullb t = true.
Proof. intros H. unfold fullb. destruct (String.eqb_spec t ""); [contradiction|reflexivity]. Qed.
Lemma truthy_str t : truthy (VStr t) = fullb t.
Proof. destruct t; reflexivity. Qed.

Lemma leaf_sound e se x r p : sim e se -> leaf se x = Some r -> eval c a e x = Ok p -> means se r p.
Proof.
  intros S L E.
  assert (Var : forall y b, match (if String.eqb y "self" then None else assoc y se) with
                          | Some (SvRope r) => if has_lit r then Some (GKnown true) else Some (GText true y r)
                          | _ => None
                          end = Some r -> (forall t, assoc y e = Some (PV (VStr t)) -> y <> "self" -> b = fullb t) -> means se r (PV (VBool b))).
  { intros y b L0 Hb. destruct (String.eqb_spec y "self") as [->|Ny]; [discriminate|].
    destruct (assoc y se) as [[r0|k|v]|] eqn:A; try discriminate. destruct (S _ _ A) as (q & Eq & t & -> & R). specialize (Hb _ Eq Ny).
    destruct (has_lit r0) eqn:H; injection L0 as <-; cbn [means p_truthy truthy].
    - rewrite Hb. apply fullb_true. eapply has_lit_full; eauto.
    - split; [exact Ny|]. split; [exact A|]. exists t. auto. }
  assert (Pure : (if selfonly x then Some (GExp x) else None) = Some r -> means se r p).
  { destruct (selfonly x) eqn:SO; [|discriminate]. intros H. injection H as <-. cbn [means]. unfold PyTextFacts.ask.
    rewrite (eval_selfonly no_ctx c a x [] e SO), E. reflexivity. }
  destruct x as [v|y| |y k|y k d|y k|o y|o y z|y z|y z|n|n|n|y|k|y z|]; cbn [leaf] in L; try (apply Pure, L).
  - injection L as <-. cbn in E. injection E as <-. reflexivity.
  - cbn [eval] in E. destruct (String.eqb y "self") eqn:Y; [discriminate|].
    destruct (assoc y e) as [q|] eqn:A; [|discriminate]. injection E as ->.
    specialize (Var y (p_truthy p)). rewrite Y in Var. specialize (Var L). apply Var.
    + intros t At _. rewrite A in At. injection At as ->. apply truthy_str.
  - assert (Pure' : (if selfonly (EBin o y z) then Some (GExp (EBin o y z)) else None) = Some r -> means se r p) by exact Pure.
    destruct o; try (apply Pure, L). destruct y as [|y| | | | | | | | | | | | | | |]; try (apply Pure, L).
    destruct z as [[| | |[|ch tl]| | |]| | | | | | | | | | | | | | | |]; try (apply Pure, L).
    rewrite eval_bin2 in E. apply bind_ok' in E as (q & E1 & E2). apply bind_ok' in E2 as (v & E2 & E3).
    cbn [eval bind to_val bin] in E3. injection E3 as <-. apply (Var y); [exact L|]. intros t At Ny.
    cbn [eval] in E1. apply String.eqb_neq in Ny. rewrite Ny, At in E1. injection E1 as <-. cbn in E2. injection E2 as <-.
    unfold py_eq. cbn. unfold fullb. f_equal.
Qed.

Lemma cond_sound F x : forall e se r p, facts_ok F -> sim e se -> cond F se x = Some r -> eval c a e x = Ok p -> means se r p.
Proof.
  assert (T : forall x e b p, facts_ok F -> (if selfonly x then truth F x else None) = Some b -> eval c a e x = Ok p -> p_truthy p = b).
  { intros y e b p HF H E. destruct (selfonly y) eqn:SO; [|discriminate].
    rewrite (eval_selfonly c no_ctx a y e [] SO) in E. eapply truth_sound; eauto using facts_hold. }
  induction x as [v|y| |y IH k|y IH k d IHd|y IH k|o y IH|o y IHy z IHz|y IHy z IHz|y IHy z IHz|n|n|n|y IH|k|y IHy z IHz|];
    intros e se r p HF S H E; cbn [cond] in H;
    match type of H with match ?t with _ => _ end = _ => destruct t as [b|] eqn:TT;
      [injection H as <-; cbn [means]; eapply T; eauto|] end;
    try (eapply leaf_sound; eauto; fail).
  - destruct o; try (eapply leaf_sound; eauto; fail).
    + rewrite eval_un in E. apply bind_ok' in E as (q & E1 & E2). cbn in E2. injection E2 as <-.
      destruct (cond F se y) as [[b|g|b z r']|] eqn:C; try discriminate; injection H as <-; pose proof (IH _ _ _ _ HF S C E1) as M; cbn [means p_truthy truthy] in *.
      * now rewrite M.
      * unfold PyTextFacts.ask in *. rewrite eval_un. destruct (eval no_ctx a [] g) as [q'|]; [|discriminate]. cbn. injection M as M. now rewrite M.
      * destruct M as (N & A & t & R & M). split; [exact N|]. split; [exact A|]. exists t. split; [exact R|]. rewrite M. destruct b; cbn; now rewrite ?Bool.negb_involutive.
    + rewrite eval_un in E. apply bind_ok' in E as (q & E1 & E2). cbn [eun] in E2. apply bind_ok' in E2 as (v & E2 & E3).
      cbn in E3. injection E3 as <-. destruct q; try discriminate. cbn in E2. injection E2 as ->.
      pose proof (IH _ _ _ _ HF S H E1) as M. destruct r; exact M.
  - cbn [eval] in E. apply bind_ok' in E as (q & E1 & E2).
    destruct (cond F se y) as [[[]|g|b w r']|] eqn:C; try discriminate; pose proof (IHy _ _ _ _ HF S C E1) as M; cbn [means] in M.
    + rewrite M in E2. eapply IHz; eauto.
    + rewrite M in E2. injection E2 as <-. injection H as <-. exact M.
    + destruct (cond F se z) as [[b|h|b w r']|] eqn:D; try discriminate; injection H as <-.
      * destruct (p_truthy q) eqn:Q.
        -- pose proof (IHz _ _ _ _ HF S D E2) as N. cbn [means] in N. destruct b; cbn [means]; congruence.
        -- injection E2 as <-. destruct b; cbn [means]; congruence.
      * cbn [means]. unfold PyTextFacts.ask in M |- *. cbn [eval]. destruct (eval no_ctx a [] g) as [q'|]; [|discriminate]. cbn [bind]. injection M as M. rewrite M.
        destruct (p_truthy q) eqn:Q.
        -- pose proof (IHz _ _ _ _ HF S D E2) as N. exact N.
        -- injection E2 as <-. congruence.
  - cbn [eval] in E. apply bind_ok' in E as (q & E1 & E2).
    destruct (cond F se y) as [[[]|g|b w r']|] eqn:C; try discriminate; pose proof (IHy _ _ _ _ HF S C E1) as M; cbn [means] in M.
    + rewrite M in E2. injection E2 as <-. injection H as <-. exact M.
    + rewrite M in E2. eapply IHz; eauto.
    + destruct (cond F se z) as [[b|h|b w r']|] eqn:D; try discriminate; injection H as <-.
      * destruct (p_truthy q) eqn:Q.
        -- injection E2 as <-. destruct b; cbn [means]; congruence.
        -- pose proof (IHz _ _ _ _ HF S D E2) as N. cbn [means] in N. destruct b; cbn [means]; congruence.
      * cbn [means]. unfold PyTextFacts.ask in M |- *. cbn [eval]. destruct (eval no_ctx a [] g) as [q'|]; [|discriminate]. cbn [bind]. injection M as M. rewrite M.
        destruct (p_truthy q) eqn:Q.
        -- injection E2 as <-. congruence.
        -- pose proof (IHz _ _ _ _ HF S D E2) as N. exact N.
Qed.

Lemma of_text_sound r v p : of_text r = Some v -> (do s <- r ;; Ok (VStr s)) = Ok p -> vsim (PV p) v.
Proof. destruct r as [s|]; cbn; [|discriminate]. intros H E. injection H as <-. injection E as <-. cbn [vsim]. eexists. split; [reflexivity|]. apply lit_text. Qed.

Lemma sun_sound o v w p r : sun calm o v = Some w -> vsim p v -> eun o p = Ok r -> vsim r w.
Proof.
  intros H V E. destruct v as [t|k|u]; cbn [vsim] in V.
  - destruct V as (s & -> & R). rewrite eun_val in E. destruct o; try discriminate H; cbn [sun] in H.
    + injection H as <-. cbn in E. injection E as <-. cbn [vsim]. eauto.
    + destruct (front t) eqn:Fr; [|discriminate]. destruct (rchop calm t) as [t'|] eqn:C; [|discriminate]. injection H as <-.
      cbn in E. injection E as <-. cbn [vsim]. eexists. split; [reflexivity|]. unfold strip.
      erewrite front_lstrip by eauto. eapply rchop_text; eauto.
    + destruct (rchop calm t) as [t'|] eqn:C; [|discriminate]. injection H as <-.
      cbn in E. injection E as <-. cbn [vsim]. eexists. split; [reflexivity|]. eapply rchop_text; eauto.
    + destruct (cut_nl t) as [t'|] eqn:C; [|discriminate]. injection H as <-. destruct (cut_nl_text _ _ _ _ C R) as (u & Ru & ->).
      cbn [un py_chop bind] in E. injection E as <-. unfold NL. rewrite take_app_last. cbn [vsim]. eauto.
  - destruct V as (u & A & ->). rewrite eun_val in E. destruct o; try discriminate H; cbn [sun] in H; injection H as <-;
      cbn [un] in E; apply bind_ok' in E as (u' & E & E2); injection E2 as <-; apply bind_ok' in E as (s & E1 & E); injection E as <-;
      cbn [vsim].
    + exists s. split; [reflexivity|]. rewrite rope_text_one. cbn. now rewrite A, E1.
    + exists s. split; [reflexivity|]. rewrite rope_text_one. cbn. now rewrite A, E1.
    + eexists. split; [reflexivity|]. rewrite rope_text_one. cbn. rewrite A. destruct u; try discriminate. cbn in E1. now injection E1 as ->.
    + eexists. split; [reflexivity|]. rewrite rope_text_one. cbn. rewrite A. destruct u; try discriminate. cbn in E1. now injection E1 as ->.
  - subst p. rewrite eun_val in E. destruct o; try discriminate H; cbn [sun] in H; cbn [un] in E; apply bind_ok' in E as (u' & E & E2); injection E2 as <-;
      eapply of_text_sound; eauto.
Qed.

Lemma as_rope_text v r u : as_rope v = Some r -> vsim (PV u) v -> forall s, u = VStr s -> rope_text r = Some s.
Proof.
  intros H V s ->. destruct v as [t|k|w]; cbn in H; try discriminate; injection H as <-; cbn [vsim] in V.
  - destruct V as (t' & E & R). congruence.
  - destruct V as (w & A & E). injection E as <-. rewrite rope_text_one. cbn. now rewrite A.
Qed.
Lemma sbin_sound o v w u x y r : sbin o v w = Some u -> vsim (PV x) v -> vsim (PV y) w -> bin o x y = Ok r -> vsim (PV r) u.
Proof.
  intros H V W E. destruct o; try discriminate H.
  - assert (G : forall p q, as_rope v = Some p -> as_rope w = Some q -> (exists s, x = VStr s) \/ (exists t, y = VStr t) -> vsim (PV r) (SvRope (p ++ q))).
    { intros p q Hp Hq S. cbn [bin] in E. assert (G : exists s t, x = VStr s /\ y = VStr t /\ r = VStr (s ++ t)).
      { destruct S as [[s ->]|[t ->]].
        - destruct y; cbn in E; try discriminate. injection E as <-. eauto.
        - destruct x; cbn in E; try discriminate. injection E as <-. eauto. }
      destruct G as (s & t & -> & -> & ->). cbn [vsim]. eexists. split; [reflexivity|]. apply rope_app; [eapply as_rope_text|eapply as_rope_text]; eauto. }
    destruct v as [p| |].
    + cbn [sbin] in H. destruct (as_rope w) as [q|] eqn:Q; [|discriminate]. injection H as <-. apply G; [reflexivity|reflexivity|].
      left. cbn [vsim] in V. destruct V as (t & Et & _). injection Et as ->. eauto.
    + destruct w as [q| |]; cbn [sbin] in H; try discriminate. injection H as <-. apply (G [TVal MStr k] q); [reflexivity|reflexivity|].
      right. cbn [vsim] in W. destruct W as (t & Et & _). injection Et as ->. eauto.
    + destruct w as [q| |]; cbn [sbin as_rope] in H; discriminate.
  - destruct v as [p| |]; try discriminate H. destruct w as [|k|]; try discriminate H. cbn [sbin] in H.
    destruct (literal p) as [s|] eqn:L; [|discriminate]. injection H as <-. apply literal_text with (a := a) in L. cbn [vsim] in *.
    destruct V as (t & Et & R). injection Et as ->. destruct W as (z & A & Ez). injection Ez as <-. cbn [bin as_string bind] in E.
    destruct y as [| | | |l| |]; try discriminate. cbn in E. injection E as <-. eexists. split; [reflexivity|]. rewrite rope_text_one. cbn. rewrite A. congruence.
  - destruct v as [|k|]; try discriminate H. destruct w as [p| |]; try discriminate H. cbn [sbin] in H.
    destruct (literal p) as [[|ch [|]]|] eqn:L; try discriminate. injection H as <-. apply literal_text with (a := a) in L. cbn [vsim] in *.
    destruct W as (t & Et & R). injection Et as ->. destruct V as (z & A & Ez). injection Ez as <-. rewrite L in R. injection R as <-.
    destruct x; try discriminate. cbn [bin] in E. injection E as <-. eexists. split; [reflexivity|]. rewrite rope_text_one. cbn [bit_text]. now rewrite A.
Qed.

Lemma sx_sound x : forall e se v p, sim e se -> sx K calm se x = Some v -> eval c a e x = Ok p -> vsim p v.
Proof.
  induction x as [v|y| |y IH k|y IH k d IHd|y IH k|o y IH|o y IHy z IHz|y IHy z IHz|y IHy z IHz|n|n|n|y IH|k|y IHy z IHz|];
    intros e se w p S H E; cbn [sx] in H; try discriminate.
  - injection H as <-. cbn in E. injection E as <-. apply vsim_of_value.
  - destruct (String.eqb y "self") eqn:Y; [discriminate|]. destruct (S _ _ H) as (q & A & V). cbn [eval] in E. rewrite Y, A in E. injection E as <-. exact V.
  - destruct (is_self y) eqn:Y; [|discriminate]. apply is_self_eq in Y. subst y. injection H as <-. rewrite eval_self_attr in E.
    destruct (assoc k a) as [u|] eqn:A; [|discriminate]. injection E as <-. destruct (assoc k K) as [v|] eqn:AK.
    + apply K_ok in AK. assert (u = v) by congruence. subst. apply vsim_of_value.
    + cbn [vsim]. eauto.
  - destruct (sx K calm se y) as [v|] eqn:Y; [|discriminate]. rewrite eval_un in E. apply bind_ok' in E as (q & E1 & E2).
    eapply sun_sound; eauto.
  - destruct (sx K calm se y) as [v|] eqn:Y; [|discriminate]. destruct (sx K calm se z) as [u|] eqn:Z; [|discriminate].
    rewrite eval_bin2 in E. apply bind_ok' in E as (q & E1 & E2). apply bind_ok' in E2 as (v' & E2 & E3). apply bind_ok' in E3 as (r & E3 & E4).
    apply bind_ok' in E4 as (w' & E4 & E5). apply bind_ok' in E5 as (t & E5 & E6). injection E6 as <-.
    destruct q; try discriminate. cbn in E2. injection E2 as <-. destruct r; try discriminate. cbn in E4. injection E4 as <-.
    eapply sbin_sound; eauto.
Qed.

(** *** Statements *)

Lemma sval_eqb_eq v w : sval_eqb v w = true -> v = w.
Proof.
  destruct v, w; cbn; try discriminate; intros H.
  - apply bits_eqb_eq in H. now subst.
  - apply String.eqb_eq in H. now subst.
  - destruct (value_eq_dec v v0); [now subst|discriminate].
Qed.
Lemma merge_val_sound g v w u b p : merge_val g v w = Some u -> ask g = Some b -> vsim p (if b then v else w) -> vsim p u.
Proof.
  unfold merge_val. destruct (sval_eqb v w) eqn:E.
  - apply sval_eqb_eq in E. subst w. intros H _. injection H as <-. now destruct b.
  - destruct v as [r| |]; try discriminate. destruct w as [t| |]; try discriminate. intros H A. destruct (merge_rope g r t) as [m|] eqn:M; [|discriminate].
    injection H as <-. apply merge_text with (a := a) (c := b) in M; [|exact A]. cbn [vsim]. rewrite M. destruct b; intros V; exact V.
Qed.
Lemma merge_env_find g d e : forall m, merge_env g d e = Some m -> forall y u, assoc y m = Some u ->
  exists v w, assoc y d = Some v /\ assoc y e = Some w /\ merge_val g v w = Some u.
Proof.
  induction d as [|[k v] d IH]; intros m H y u A; cbn [merge_env] in H.
  - injection H as <-. discriminate.
  - destruct (merge_env g d e) as [m'|]; [|discriminate]. specialize (IH m' eq_refl). destruct (assoc k e) as [w|] eqn:K0.
    + destruct (merge_val g v w) as [u'|] eqn:M; [|discriminate]. injection H as <-. cbn [assoc] in A |- *.
      destruct (String.eqb_spec y k) as [->|N]; [|auto]. injection A as ->. eauto.
    + injection H as <-. destruct (IH y u A) as (v' & w & A1 & A2 & A3). cbn [assoc]. destruct (String.eqb_spec y k) as [->|N]; [congruence|eauto].
Qed.
Lemma merge_env_sound g d e m b ev : merge_env g d e = Some m -> ask g = Some b -> sim ev (if b then d else e) -> sim ev m.
Proof.
  intros H A S y u U. destruct (merge_env_find _ _ _ _ H _ _ U) as (v & w & A1 & A2 & M).
  assert (X : assoc y (if b then d else e) = Some (if b then v else w)) by (destruct b; assumption).
  destruct (S _ _ X) as (p & E & V). exists p. split; [exact E|]. eapply merge_val_sound; eauto.
Qed.

Fixpoint sat (o : sout) (out : outcome) : Prop :=
  match o with
  | ONx F se => match out with ONext e s => s = a /\ sim e se /\ facts_ok F | _ => False end
  | OBk F se => match out with OBreak e s => s = a /\ sim e se /\ facts_ok F | _ => False end
  | ORt F v => match out with OReturn p s => s = a /\ vsim p v /\ facts_ok F | _ => False end
  | OIf (CExp g) x y => exists b, ask g = Some b /\ (if b then sat x out else sat y out)
  | OIf (CText r) x y => exists t, rope_text r = Some t /\ (if fullb t then sat x out else sat y out)
  end.
Definition fits (o : sout) (out : outcome) : Prop := match out with ORaise _ _ => True | _ => sat o out end.

Lemma fits_if g x y out b : ask g = Some b -> fits (if b then x else y) out -> fits (OIf (CExp g) x y) out.
Proof. intros A H. destruct out; cbn [fits] in *; auto; exists b; destruct b; auto. Qed.
Lemma fits_text r x y out t : rope_text r = Some t -> fits (if fullb t then x else y) out -> fits (OIf (CText r) x y) out.
Proof. intros A H. destruct out; cbn [fits] in *; auto; exists t; destruct (fullb t); auto. Qed.
Lemma fits_mk F g x y out b : facts_ok F -> ask g = Some b -> fits (if b then x else y) out -> fits (mk_if F g x y) out.
Proof.
  intros HF A H. pose proof (fits_if g x y out b A H) as D. unfold mk_if. destruct x as [F1 d| | |]; auto. destruct y as [F2 e| | |]; auto.
  destruct (merge_env g d e) as [m|] eqn:M; [|exact D]. clear D.
  assert (G : fits (ONx [] (if b then d else e)) out).
  { destruct out, b; cbn in *; try contradiction; try exact I; destruct H as (-> & S & _); repeat split; auto; intros f []. }
  destruct out; cbn in *; auto. destruct G as (-> & S & _). split; [reflexivity|]. split; [|exact HF]. eapply merge_env_sound; eauto.
Qed.

Definition bindo (out : outcome) (k : env -> attrs -> outcome) : outcome := match out with ONext e s => k e s | o => o end.
Lemma and_then_sound f k : forall o out o2, sat o out -> and_then o f = Some o2 ->
  (forall F e se o', facts_ok F -> sim e se -> f F se = Some o' -> fits o' (k e a)) -> fits o2 (bindo out k).
Proof.
  induction o as [F se|F se|F v|g x IHx y IHy]; intros out o2 S H Hk; cbn [and_then] in H.
  - cbn [sat] in S. destruct out as [e s| | |]; try contradiction. destruct S as (-> & Si & HF). cbn [bindo]. eapply Hk; eauto.
  - injection H as <-. cbn [sat] in S. destruct out; try contradiction. exact S.
  - injection H as <-. cbn [sat] in S. destruct out; try contradiction. exact S.
  - destruct (and_then x f) as [x2|] eqn:X; [|discriminate]. destruct (and_then y f) as [y2|] eqn:Y; [|discriminate]. injection H as <-.
    destruct g as [g|r]; cbn [sat] in S.
    + destruct S as (b & A & S). apply fits_if with (b := b); [exact A|]. destruct b; eauto.
    + destruct S as (t & A & S). apply fits_text with (t := t); [exact A|]. destruct (fullb t); eauto.
Qed.
Lemma and_then_fits f k o out o2 : fits o out -> and_then o f = Some o2 ->
  (forall F e se o', facts_ok F -> sim e se -> f F se = Some o' -> fits o' (k e a)) -> fits o2 (bindo out k).
Proof. intros S H Hk. destruct out eqn:Eo; try exact I; rewrite <- Eo in *; eapply and_then_sound; eauto; rewrite Eo in *; exact S. Qed.

Definition loopk {A} (bd : A -> env -> attrs -> outcome) (l : list A) (out : outcome) : outcome :=
  match out with ONext e s => loop bd l e s | OBreak e s => ONext e s | o => o end.
Lemma end_loop_sound A (bd : A -> env -> attrs -> outcome) o : forall out, fits o out -> fits (end_loop o) (loopk bd [] out).
Proof.
  induction o as [F se|F se|F v|g x IHx y IHy]; intros out S; try (destruct out; exact S || contradiction; fail).
  destruct out as [e s|e s|p s|z s] eqn:Eo; [| | |exact I]; rewrite <- Eo in *; assert (S' : sat (OIf g x y) out) by (rewrite Eo in *; exact S);
    clear S; (destruct g as [g|r]; cbn [end_loop sat] in *;
    [destruct S' as (b & Ab & S'); apply fits_if with (b := b); [exact Ab|]; destruct b; [apply IHx|apply IHy]
    |destruct S' as (t & Ab & S'); apply fits_text with (t := t); [exact Ab|]; destruct (fullb t); [apply IHx|apply IHy]]); rewrite Eo in *; exact S'.
Qed.

Lemma unroll_sound A (body : A -> facts -> senv -> option sout) (bd : A -> env -> attrs -> outcome) :
  (forall i F e se o', facts_ok F -> sim e se -> body i F se = Some o' -> fits o' (bd i e a)) ->
  forall l o out o2, fits o out -> unroll body l o = Some o2 -> fits o2 (loopk bd l out).
Proof.
  intros Hb. induction l as [|i l IH]; intros o out o2 S H; cbn [unroll] in H.
  - injection H as <-. now apply end_loop_sound.
  - destruct (and_then o (body i)) as [o'|] eqn:T; [|discriminate].
    assert (G : fits o' (bindo out (bd i))) by (eapply and_then_fits; eauto).
    specialize (IH _ _ _ G H). destruct out as [e s|e s|p s|z s]; try exact IH.
    cbn [loopk loop bindo] in *. destruct (bd i e s); exact IH.
Qed.

Definition blocko (x : string) (e : env) (out : outcome) : outcome :=
  match out with
  | ONext _ self' | OBreak _ self' => ONext (put x (PV VNone) e) self'
  | OReturn p self' => ONext (put x p e) self'
  | ORaise z self' => ORaise z self'
  end.
Lemma end_block_sound x e se F0 : sim e se -> facts_ok F0 -> forall o out, sat o out -> fits (end_block x se F0 o) (blocko x e out).
Proof.
  intros S HF. induction o as [F d|F d|F v|g p IHp q IHq]; intros out H; cbn [sat] in H.
  - destruct out; try contradiction. destruct H as (-> & _ & H). cbn. split; [reflexivity|]. split; [|exact H]. now apply sim_put.
  - destruct out; try contradiction. destruct H as (-> & _ & H). cbn. split; [reflexivity|]. split; [|exact H]. now apply sim_put.
  - destruct out; try contradiction. destruct H as (-> & V & H). cbn. split; [reflexivity|]. split; [|exact H]. now apply sim_put.
  - destruct g as [g|r]; cbn [end_block].
    + destruct H as (b & A & H). apply fits_mk with (b := b); [exact HF|exact A|]. destruct b; auto.
    + destruct H as (t & A & H). apply fits_text with (t := t); [exact A|]. destruct (fullb t); auto.
Qed.

Lemma exec_seq s t e self : exec c (SSeq s t) e self = bindo (exec c s e self) (exec c t).
Proof. cbn [exec]. destruct (exec c s e self); reflexivity. Qed.
Lemma exec_block x s e self : exec c (SBlock x [] s) e self = blocko x e (exec c s [] self).
Proof. cbn [exec bind_params map_res]. destruct (exec c s [] self); reflexivity. Qed.
Lemma put_blank e se y r : sim e se -> assoc y se = Some (SvRope r) -> rope_text r = Some "" -> sim e (put y (SvRope []) se).
Proof.
  intros S A R z v H. destruct (String.eqb_spec z y) as [->|N].
  - rewrite assoc_put_eq in H. injection H as <-. destruct (S _ _ A) as (p & E & t & -> & T). exists (PV (VStr t)). split; [exact E|].
    cbn [vsim]. exists t. split; [reflexivity|]. cbn. congruence.
  - rewrite assoc_put_ne in H by exact N. auto.
Qed.
Lemma fullb_false t : fullb t = false -> t = "".
Proof. unfold fullb. destruct (String.eqb_spec t ""); [auto|discriminate]. Qed.

Theorem sexec_sound s : forall F e se o, facts_ok F -> sim e se -> sexec K here calm s F se = Some o -> fits o (exec c s e a).
Proof.
  induction s as [|s IHs t IHt|x y|x k y|x k|x y|x y z sep w|ns|ns ex|ns x|y s IHs t IHt|x y s IHs|x y w s IHs|x s IHs|l tag| |y|y| |l|x t m ps|x ps s IHs];
    intros F e se o HF S H; cbn [sexec] in H; try discriminate.
  - injection H as <-. cbn. auto.
  - destruct (sexec K here calm s F se) as [o1|] eqn:E1; [|discriminate]. rewrite exec_seq. eapply and_then_fits; eauto.
  - destruct (sx K calm se y) as [v|] eqn:E1; [|discriminate]. injection H as <-. cbn [exec].
    destruct (eval c a e y) as [p|] eqn:E; [|exact I]. cbn. split; [reflexivity|]. split; [|exact HF]. apply sim_put; [exact S|]. eapply sx_sound; eauto.
  - cbn [exec]. destruct (eval c a e y) as [p|] eqn:E; [|exact I].
    destruct (cond F se (red K here (subst se y))) as [r|] eqn:C; [|discriminate].
    pose proof (cond_sound _ _ _ _ _ _ HF S C (red_sound _ _ _ (subst_sound _ _ _ _ S E))) as M.
    destruct r as [b|g|b z r]; cbn [means] in M.
    + rewrite M. destruct b; eauto.
    + destruct (sexec K here calm s ((g, true) :: F) se) as [o1|] eqn:O1; [|discriminate].
      destruct (sexec K here calm t ((g, false) :: F) se) as [o2|] eqn:O2; [|discriminate]. injection H as <-.
      apply fits_mk with (b := p_truthy p); [exact HF|exact M|].
      revert M. destruct (p_truthy p); intros M; [eapply IHs; [|exact S|exact O1]|eapply IHt; [|exact S|exact O2]]; now apply facts_cons.
    + destruct M as (N & A & u & R & M).
      destruct b.
      * destruct (sexec K here calm s F se) as [o1|] eqn:O1; [|discriminate].
        destruct (sexec K here calm t F (put z (SvRope []) se)) as [o2|] eqn:O2; [|discriminate]. injection H as <-.
        apply fits_text with (t := u); [exact R|]. rewrite M. destruct (fullb u) eqn:Fu; [eauto|].
        eapply IHt; [exact HF| |exact O2]. apply fullb_false in Fu. subst u. eapply put_blank; eauto.
      * destruct (sexec K here calm t F se) as [o1|] eqn:O1; [|discriminate].
        destruct (sexec K here calm s F (put z (SvRope []) se)) as [o2|] eqn:O2; [|discriminate]. injection H as <-.
        apply fits_text with (t := u); [exact R|]. rewrite M. destruct (fullb u) eqn:Fu; cbn [negb]; [eauto|].
        eapply IHs; [exact HF| |exact O2]. apply fullb_false in Fu. subst u. eapply put_blank; eauto.
  - cbn [exec]. destruct (eval c a e w) as [p|] eqn:E; [|exact I]. apply (subst_sound _ _ _ _ S), red_sound in E.
    destruct (red K here (subst se w)) as [v| | | | | | | | | | | | | | | |]; try discriminate. cbn in E. injection E as <-. cbn [with_val].
    destruct v as [| | | | |l|l]; try discriminate.
    + eapply (unroll_sound _ _ _) with (out := ONext e a) in H; [exact H| |].
      * intros i F' e' se' o' HF' S' H'. eapply IHs; [exact HF'| |exact H']. apply sim_put; [apply sim_put; [exact S'|]|]; apply vsim_of_value.
      * cbn. auto.
    + eapply (unroll_sound _ _ _) with (out := ONext e a) in H; [exact H| |].
      * intros i F' e' se' o' HF' S' H'. eapply IHs; [exact HF'| |exact H']. apply sim_put; [apply sim_put; [exact S'|]|]; [apply vsim_of_value|reflexivity].
      * cbn. auto.
  - destruct (sx K calm se y) as [v|] eqn:E1; [|discriminate]. injection H as <-. cbn [exec].
    destruct (eval c a e y) as [p|] eqn:E; [|exact I]. cbn. split; [reflexivity|]. split; [|exact HF]. eapply sx_sound; eauto.
  - injection H as <-. cbn. auto.
  - destruct ps; [|discriminate]. destruct (sexec K here calm s F []) as [o1|] eqn:E1; [|discriminate]. injection H as <-. rewrite exec_block.
    pose proof (IHs _ [] [] _ HF (sim_nil _) E1) as G. destruct (exec c s [] a) eqn:X; try exact I; rewrite <- X in *; apply end_block_sound; auto; rewrite X in *; exact G.
Qed.

(** What a method that runs to its end returns. *)
Theorem leaves_sound o L out p s' : sat o out -> out = OReturn p s' -> leaves o = Some L ->
  exists t, p = PV (VStr t) /\ (t = "" \/ exists F r, In (F, r) L /\ facts_ok F /\ rope_text r = Some t).
Proof.
  revert L out. induction o as [F se|F se|F v|g x IHx y IHy]; intros L out S -> H; cbn [leaves] in H; try discriminate.
  - destruct v as [r| |]; try discriminate. destruct S as (-> & (t & -> & R) & HF). exists t. split; [reflexivity|].
    destruct r as [|b r]; [left; cbn in R; congruence|]. injection H as <-. right. exists F, (b :: r). split; [left; reflexivity|]. auto.
  - destruct (leaves x) as [Lx|] eqn:X; [|discriminate]. destruct (leaves y) as [Ly|] eqn:Y; [|discriminate]. injection H as <-.
    assert (G : sat x (OReturn p s') \/ sat y (OReturn p s')).
    { destruct g; cbn [sat] in S; [destruct S as ([] & _ & S)|destruct S as (t & _ & S); destruct (fullb t)]; auto. }
    destruct G as [G|G]; [destruct (IHx _ _ G eq_refl eq_refl) as (t & -> & T)|destruct (IHy _ _ G eq_refl eq_refl) as (t & -> & T)];
      exists t; (split; [reflexivity|]); (destruct T as [T|(F & r & I & HF & R)]; [auto|]); right; exists F, r; (split; [apply in_or_app; auto|]); auto.
Qed.
End Run.
