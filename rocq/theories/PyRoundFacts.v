(** * The check of PyRound.v suffices *)

From Coq Require Import Lia.
From Verif Require Import PyStrFacts OptionsFacts ArgSpec ArgParseFacts WordSpec WordFacts.
From Verif Require Export PyRound.
From Verif Require Import Value.
Local Open Scope string_scope.
Local Open Scope list_scope.
Local Arguments Ascii.eqb : simpl never.
Local Arguments String.eqb : simpl never.

(** ** Texts of values *)

Lemma plain_nonempty s : plain_text s = true -> s <> "".
Proof. unfold plain_text. intros H ->. discriminate. Qed.
Lemma plain_chars s : plain_text s = true -> all_chars plain_char s = true.
Proof. unfold plain_text. intros H. now apply andb_prop in H as [_ H]. Qed.
Lemma plain_make s : s <> "" -> all_chars plain_char s = true -> plain_text s = true.
Proof. unfold plain_text. intros N ->. destruct (String.eqb_spec s ""); [contradiction|reflexivity]. Qed.
Lemma plain_missing c s : plain_char c = false -> all_chars plain_char s = true -> has_char c s = false.
Proof.
  intros P. induction s as [|d s IH]; [reflexivity|]. cbn [all_chars]. intros H. apply andb_prop in H as [H1 H2]. rewrite has_char_cons, IH by exact H2.
  destruct (Ascii.eqb c d) eqn:E; [|reflexivity]. apply eqb_true_a in E. subst d. congruence.
Qed.
Lemma replace_none c t s : has_char c s = false -> replace_char c t s = s.
Proof.
  induction s as [|d s IH]; [reflexivity|]. rewrite has_char_cons. intros H. apply orb_false_iff in H as [H1 H2]. cbn [replace_char].
  rewrite H1. now rewrite IH.
Qed.
Lemma digits_plain s : all_chars is_digit s = true -> all_chars plain_char s = true.
Proof.
  assert (D : forall c, implb (is_digit c) (plain_char c) = true) by (apply forall_ascii; vm_compute; reflexivity).
  induction s as [|c s IH]; [reflexivity|]. cbn [all_chars]. intros H. apply andb_prop in H as [H1 H2]. rewrite IH by exact H2. specialize (D c). rewrite H1 in D. cbn in D. now rewrite D.
Qed.
Lemma pos_text z : (0 < z)%Z -> plain_text (str_of_Z z) = true.
Proof.
  intros H. destruct z as [|p|p]; try lia. cbn [str_of_Z]. apply plain_make.
  - intros E. pose proof (py_int_str_of_N (Npos p)) as G. change (str_of_Z (Zpos p)) with (str_of_N (Npos p)) in E. rewrite E in G. discriminate.
  - apply digits_plain. apply str_of_N_digits.
Qed.

Lemma contains_hash s : all_chars plain_char s = true -> contains "#" s = false.
Proof.
  induction s as [|c s IH]; [reflexivity|]. cbn [all_chars]. intros H. apply andb_prop in H as [H1 H2]. cbn [contains].
  rewrite IH by exact H2. rewrite orb_false_r. apply plain_char_spec in H1 as (_ & H1 & _). cbn [startswith]. rewrite ?(Ascii.eqb_sym "#" c).
  change HASH with "#"%char in H1. now rewrite H1.
Qed.
Lemma plain_item_ok s : plain_item_text s = true -> TextSpec.item s /\ plain_text s = true.
Proof.
  unfold plain_item_text. intros H. apply andb_prop in H as [P C]. split; [|exact P]. apply negb_true_iff in C. split; [now apply plain_nonempty|]. split; [|exact C].
  pose proof (plain_nonempty _ P) as N. apply plain_chars in P. apply strip_stripped, (stripped_all plain_char); auto.
  intros c Hc. unfold plain_char in Hc. apply andb_prop in Hc as [Hc _]. now apply negb_true_iff in Hc.
Qed.
Lemma join_plain l : l <> [] -> forallb plain_item_text l = true -> plain_text (join "," l) = true.
Proof.
  intros N. destruct l as [|s l]; [contradiction|]. clear N. revert s. induction l as [|t l IH]; intros s H; cbn [forallb] in H; apply andb_prop in H as [H1 H2];
    apply plain_item_ok in H1 as [_ H1].
  - exact H1.
  - rewrite join_cons. pose proof (IH t) as G. cbn [forallb] in G. specialize (G H2). apply plain_make.
    + intros E. apply app_eq_nil_s in E as [E _]. now apply plain_nonempty in H1.
    + rewrite !all_chars_app. rewrite (plain_chars _ H1), (plain_chars _ G). reflexivity.
Qed.

(** ** Conditions *)

Lemma gam_const v w : gam (AConst v) w = true <-> v = w.
Proof. cbn. destruct (value_eq_dec v w); split; congruence. Qed.
Lemma atruth_ok x w : gam x w = true -> atruth x = truthy w.
Proof.
  destruct x as [v| | | |]; [| | | |discriminate].
  - intros H. apply gam_const in H. now subst.
  - destruct w; try discriminate. cbn. intros H. apply andb_prop in H as [H _]. apply plain_nonempty in H. destruct s; [contradiction|reflexivity].
  - destruct w; try discriminate. cbn. intros H. apply andb_prop in H as [H _]. apply Z.ltb_lt in H. symmetry. apply negb_true_iff, Z.eqb_neq. lia.
  - destruct w as [| | | |[|s l]| |]; try discriminate. reflexivity.
Qed.
Lemma never_eq_ok x v w : never_eq x w = true -> gam x v = true -> py_eq v w = false.
Proof.
  intros N G. destruct x as [u| | | |]; [discriminate| | | |discriminate].
  - destruct v; try discriminate. destruct w; try reflexivity. cbn in *. apply andb_prop in G as [G _]. unfold py_eq. cbn. destruct (String.eqb_spec s s0); [subst; rewrite G in N; discriminate|reflexivity].
  - destruct v as [| |z| | | |]; try discriminate. cbn in G. apply andb_prop in G as [G G']. apply Z.ltb_lt in G. destruct w as [|b|y| | | |]; try reflexivity; unfold py_eq; cbn in *.
    + destruct b; [discriminate|]. apply Z.eqb_neq. lia.
    + apply orb_prop in N as [N|N]; [apply Z.leb_le in N; apply Z.eqb_neq; lia|].
      destruct (Z.eqb_spec z y) as [->|]; [|reflexivity]. rewrite N in G'. discriminate.
  - destruct v as [| | | |[|s l]| |]; try discriminate. destruct w as [| | | |[|t m]| |]; try reflexivity; try discriminate.
Qed.
Lemma abin_ok o x y u v w r : abin o x y = Some u -> gam x v = true -> gam y w = true -> bin o v w = Ok r -> gam u r = true.
Proof.
  intros H Gx Gy E.
  assert (C : forall w', y = AConst w' -> (forall v', x <> AConst v') ->
    match o with
      | BEq => if never_eq x w' then Some (AConst (VBool false)) else None
      | BNe => if never_eq x w' then Some (AConst (VBool true)) else None
      | BIs => match w' with VNone => Some (AConst (VBool false)) | _ => None end
      | BIsNot => match w' with VNone => Some (AConst (VBool true)) | _ => None end
      | BGt => match x, w' with APos _, VInt 0 => Some (AConst (VBool true)) | _, _ => None end
      | BLt => match x, w' with APos _, VInt 0 => Some (AConst (VBool false)) | _, _ => None end
      | BGe => match x, w' with APos _, VInt 0 => Some (AConst (VBool true)) | _, _ => None end
      | _ => None
      end = Some u -> gam u r = true).
  { intros w' -> Nx. apply gam_const in Gy. subst w'. destruct o; try discriminate; cbn [bin] in E.
    - destruct (never_eq x w) eqn:N; [|discriminate]. intros K. injection K as <-. rewrite (never_eq_ok _ _ _ N Gx) in E. injection E as <-. reflexivity.
    - destruct (never_eq x w) eqn:N; [|discriminate]. intros K. injection K as <-. rewrite (never_eq_ok _ _ _ N Gx) in E. injection E as <-. reflexivity.
    - destruct x; try discriminate. destruct w as [| |[]| | | |]; try discriminate. destruct v as [| |z| | | |]; try discriminate. cbn in Gx, E. apply andb_prop in Gx as [Gx _]. apply Z.ltb_lt in Gx.
      intros K. injection K as <-. injection E as <-. apply gam_const. f_equal. symmetry. apply Z.ltb_ge. lia.
    - destruct x; try discriminate. destruct w as [| |[]| | | |]; try discriminate. destruct v as [| |z| | | |]; try discriminate. cbn in Gx, E. apply andb_prop in Gx as [Gx _]. apply Z.ltb_lt in Gx.
      intros K. injection K as <-. injection E as <-. apply gam_const. f_equal. symmetry. rewrite Z.gtb_ltb. apply Z.ltb_lt. lia.
    - destruct x; try discriminate. destruct w as [| |[]| | | |]; try discriminate. destruct v as [| |z| | | |]; try discriminate. cbn in Gx, E. apply andb_prop in Gx as [Gx _]. apply Z.ltb_lt in Gx.
      intros K. injection K as <-. injection E as <-. apply gam_const. f_equal. symmetry. rewrite Z.geb_leb. apply Z.leb_le. lia.
    - destruct w; try discriminate. intros K. injection K as <-. injection E as <-. apply gam_const. f_equal. destruct x, v; try discriminate; try reflexivity. exfalso. eapply Nx. reflexivity.
    - destruct w; try discriminate. intros K. injection K as <-. injection E as <-. apply gam_const. f_equal. destruct x, v; try discriminate; try reflexivity. exfalso. eapply Nx. reflexivity. }
  destruct x as [v'| | | |]; [| | | |discriminate].
  - destruct y as [w'| | | |]; cbn [abin] in H; try discriminate.
    + apply gam_const in Gx, Gy. subst. rewrite E in H. injection H as <-. now apply gam_const.
    + apply gam_const in Gx. subst. destruct o; try discriminate. destruct v as [| | |t0| | |]; try discriminate. destruct (String.eqb_spec t0 "#") as [->|]; [|discriminate].
      injection H as <-. destruct w; try discriminate. cbn [bin py_in vbool bind] in E. apply andb_prop in Gy as [Gy _]. rewrite contains_hash in E by (apply plain_chars, Gy). injection E as <-. reflexivity.
  - destruct y as [w'| | | |]; cbn [abin] in H; try discriminate. eapply C; [reflexivity|discriminate|exact H].
  - destruct y as [w'| | | |]; cbn [abin] in H; try discriminate. eapply C; [reflexivity|discriminate|exact H].
  - destruct y as [w'| | | |]; cbn [abin] in H; try discriminate. eapply C; [reflexivity|discriminate|exact H].
Qed.
Lemma aun_ok o x u v r : aun o x = Some u -> gam x v = true -> un o v = Ok r -> gam u r = true.
Proof.
  intros H G E.
  assert (C : forall v', x = AConst v' -> match un o v' with Ok w => Some (AConst w) | Err _ => None end = Some u -> gam u r = true).
  { intros v' -> K. apply gam_const in G. subst v'. rewrite E in K. injection K as <-. now apply gam_const. }
  destruct o; cbn [aun] in H; try (destruct x; try discriminate; eapply C; eauto; fail).
  - injection H as <-. cbn in E. injection E as <-. apply gam_const. f_equal. now rewrite (atruth_ok _ _ G).
  - destruct x as [v'| | | |]; try discriminate; [eapply C; eauto|]. injection H as <-. destruct v; try discriminate. cbn in E. injection E as <-. exact G.
  - destruct x as [v'| | | |]; try discriminate; [eapply C; eauto| |].
    + injection H as <-. destruct v; try discriminate. cbn in E. injection E as <-. cbn in G |- *. apply andb_prop in G as [G _]. apply plain_nonempty in G. rewrite andb_true_r. apply Z.ltb_lt. destruct s; [contradiction|]. cbn [String.length]. lia.
    + injection H as <-. destruct v as [| | | |[|s l]| |]; try discriminate. cbn [un py_len bind] in E. injection E as <-. cbn [gam existsb negb]. rewrite andb_true_r. apply Z.ltb_lt. cbn [List.length]. lia.
  - injection H as <-. cbn in E. injection E as <-. apply gam_const. f_equal. now rewrite (atruth_ok _ _ G).
Qed.

Section Facts.
Variable a : attrs.
Definition al_ok (al : alpha) : Prop := forall k v, assoc k al = Some v -> gam (norm v) (get k a) = true /\ (v = AGone -> has_key k a = false).
Lemma al_value al : al_ok al -> forall k v w, assoc k al = Some v -> assoc k a = Some w -> gam v w = true.
Proof.
  intros A k v w H E. destruct (A k v H) as [G N]. unfold get in G. rewrite E in G. destruct v; auto. exfalso. specialize (N eq_refl). unfold has_key in N. now rewrite E in N.
Qed.
Lemma al_has al k v : al_ok al -> assoc k al = Some v -> v <> AConst VNone -> v <> AGone -> has_key k a = true.
Proof.
  intros A H N1 N2. destruct (A k v H) as [G _]. unfold get in G. unfold has_key. destruct (assoc k a); [reflexivity|]. exfalso.
  destruct v; try discriminate; cbn [norm] in G; [|contradiction]. apply gam_const in G. congruence.
Qed.

Lemma aeval_ok al x : al_ok al -> forall v p, aeval al x = Some v -> eval no_ctx a [] x = Ok p -> exists w, p = PV w /\ gam v w = true.
Proof.
  intros A. induction x as [v|y| |y IH k|y IH k d IHd|y IH k|o y IH|o y IHy z IHz|y IHy z IHz|y IHy z IHz|n|n|n|y IH|k|y IHy z IHz|];
    intros u p H E; cbn [aeval] in H; try discriminate.
  - injection H as <-. cbn in E. injection E as <-. exists v. split; [reflexivity|]. now apply gam_const.
  - destruct (is_self y) eqn:Y; [|discriminate]. apply is_self_eq in Y. subst y. rewrite eval_self_attr in E.
    destruct (assoc k a) as [w|] eqn:K; [|discriminate]. injection E as <-. exists w. split; [reflexivity|]. eapply al_value; eauto.
  - destruct (is_self y) eqn:Y; [|discriminate]. apply is_self_eq in Y. subst y. rewrite eval_self_has in E. injection E as <-.
    destruct (assoc k al) as [v|] eqn:K; [|discriminate]. exists (VBool (has_key k a)). split; [reflexivity|].
    assert (T : v <> AConst VNone -> v <> AGone -> gam (AConst (VBool true)) (VBool (has_key k a)) = true) by (intros N1 N2; apply gam_const; f_equal; symmetry; eapply al_has; eauto).
    destruct v as [[]| | | |]; try discriminate; try (injection H as <-; apply T; discriminate).
    injection H as <-. apply gam_const. f_equal. symmetry. now apply (A k AGone K).
  - destruct (aeval al y) as [v|] eqn:Y; [|discriminate]. rewrite eval_un in E. apply bind_ok' in E as (q & E1 & E2).
    destruct (IH _ _ eq_refl E1) as (w & -> & G). rewrite eun_val in E2. apply bind_ok' in E2 as (r & E2 & E3). injection E3 as <-.
    exists r. split; [reflexivity|]. eapply aun_ok; eauto.
  - destruct (aeval al y) as [v|] eqn:Y; [|discriminate]. destruct (aeval al z) as [v2|] eqn:Z; [|discriminate].
    rewrite eval_bin2 in E. apply bind_ok' in E as (q & E1 & E2). apply bind_ok' in E2 as (v' & E2 & E3). apply bind_ok' in E3 as (r & E3 & E4).
    apply bind_ok' in E4 as (w' & E4 & E5). apply bind_ok' in E5 as (t & E5 & E6). injection E6 as <-.
    destruct (IHy _ _ eq_refl E1) as (w1 & -> & G1). destruct (IHz _ _ eq_refl E3) as (w2 & -> & G2). cbn in E2, E4. injection E2 as <-. injection E4 as <-.
    exists t. split; [reflexivity|]. eapply abin_ok; eauto.
  - destruct (aeval al y) as [v|] eqn:Y; [|discriminate]. cbn [eval] in E. apply bind_ok' in E as (q & E1 & E2).
    destruct (IHy _ _ eq_refl E1) as (w & -> & G). cbn [p_truthy] in E2. rewrite <- (atruth_ok _ _ G) in E2. destruct (atruth v).
    + eauto.
    + injection H as <-. injection E2 as <-. eauto.
  - destruct (aeval al y) as [v|] eqn:Y; [|discriminate]. cbn [eval] in E. apply bind_ok' in E as (q & E1 & E2).
    destruct (IHy _ _ eq_refl E1) as (w & -> & G). cbn [p_truthy] in E2. rewrite <- (atruth_ok _ _ G) in E2. destruct (atruth v).
    + injection H as <-. injection E2 as <-. eauto.
    + eauto.
Qed.
Lemma aask_ok al g b c : al_ok al -> aask al g = Some b -> ask a g = Some c -> b = c.
Proof.
  unfold aask, ask. intros A H E. destruct (aeval al g) as [v|] eqn:V; [|discriminate]. injection H as <-.
  destruct (eval no_ctx a [] g) as [p|] eqn:P; [|discriminate]. injection E as <-. destruct (aeval_ok _ _ A _ _ V P) as (w & -> & G). cbn. now apply atruth_ok.
Qed.

(** ** Words *)

Definition live (p : path) : bool := forallb (fun gb => Bool.eqb (asks a (fst gb)) (snd gb)) p.
Notation living := (filter (fun pw => live (fst pw))).

Lemma item_ind' (P : item -> Prop) :
  (forall w, P (IWord w)) -> (forall g x y, Forall P x -> Forall P y -> P (IIf g x y)) -> forall i, P i.
Proof.
  intros H1 H2. fix IH 1. intros [w|g x y]; [apply H1|apply H2].
  - induction x as [|b x Ix]; constructor; [apply IH|exact Ix].
  - induction y as [|b y Iy]; constructor; [apply IH|exact Iy].
Qed.
Lemma living_flat_map {A} (f : A -> list (path * list wpiece)) l : living (flat_map f l) = flat_map (fun x => living (f x)) l.
Proof. induction l as [|x l IH]; [reflexivity|]. cbn [flat_map]. rewrite filter_app. now rewrite IH. Qed.
Lemma flat_off i : forall p, live p = false -> living (flat p i) = [].
Proof.
  induction i as [w|g x y Ix Iy] using item_ind'; intros p H; cbn [flat].
  - cbn [filter fst]. now rewrite H.
  - rewrite filter_app, !living_flat_map.
    assert (O : forall b l, Forall (fun i => forall p, live p = false -> living (flat p i) = []) l -> flat_map (fun i => living (flat ((g, b) :: p) i)) l = []).
    { intros b l Hl. induction Hl as [|j l Hj _ IH]; [reflexivity|]. cbn [flat_map]. rewrite IH, Hj; [reflexivity|]. unfold live in *. cbn [forallb]. now rewrite H, andb_false_r. }
    rewrite !O; auto.
Qed.
Lemma flat_on i : forall p, live p = true -> map (fun pw => wtext a (snd pw)) (living (flat p i)) = lw a i.
Proof.
  induction i as [w|g x y Ix Iy] using item_ind'; intros p H; cbn [flat].
  - cbn [filter fst]. now rewrite H.
  - rewrite filter_app, !living_flat_map. cbn [lw].
    assert (O : forall b l, asks a g = b -> Forall (fun i => forall p, live p = true -> map (fun pw => wtext a (snd pw)) (living (flat p i)) = lw a i) l ->
      map (fun pw => wtext a (snd pw)) (flat_map (fun i => living (flat ((g, b) :: p) i)) l) = flat_map (lw a) l /\
      forall m, flat_map (fun i => living (flat ((g, negb b) :: p) i)) m = []).
    { intros b l Eb Hl. split.
      - induction Hl as [|j l Hj _ IH]; [reflexivity|]. cbn [flat_map]. rewrite map_app, IH, Hj; [reflexivity|]. unfold live in *. cbn [forallb fst snd]. now rewrite H, Eb, Bool.eqb_reflx.
      - induction m as [|j m IH]; [reflexivity|]. cbn [flat_map]. rewrite IH, flat_off; [reflexivity|]. unfold live. cbn [forallb fst snd]. rewrite Eb. now destruct b. }
    destruct (asks a g) eqn:E.
    + destruct (O true x eq_refl Ix) as [O1 O2]. cbn [negb] in O2. now rewrite O2, app_nil_r.
    + destruct (O false y eq_refl Iy) as [O1 O2]. cbn [negb] in O2. now rewrite O2.
Qed.
Lemma flat_words items : map (fun pw => wtext a (snd pw)) (living (flat_map (flat []) items)) = flat_map (lw a) items.
Proof.
  rewrite living_flat_map. induction items as [|i items IH]; [reflexivity|]. cbn [flat_map]. rewrite map_app, IH, flat_on; reflexivity.
Qed.
Lemma flat_plain i : forall p, live p = true -> (forall pw, In pw (flat p i) -> live (fst pw) = true -> plain_pieces a (snd pw)) -> plain_item a i.
Proof.
  induction i as [w|g x y Ix Iy] using item_ind'; intros p H Hp.
  - apply (Hp (p, w)); [left; reflexivity|exact H].
  - apply plain_item_if. assert (O : forall b l, asks a g = b ->
      Forall (fun i => forall p, live p = true -> (forall pw, In pw (flat p i) -> live (fst pw) = true -> plain_pieces a (snd pw)) -> plain_item a i) l ->
      (forall pw, In pw (flat_map (flat ((g, b) :: p)) l) -> live (fst pw) = true -> plain_pieces a (snd pw)) -> plain_items a l).
    { intros b l Eb Hl Hw. apply Forall_forall. intros j Hj. rewrite Forall_forall in Hl. apply (Hl j Hj ((g, b) :: p)).
      - unfold live in *. cbn [forallb fst snd]. now rewrite H, Eb, Bool.eqb_reflx.
      - intros pw Hpw. apply Hw, in_flat_map. eauto. }
    cbn [flat] in Hp. destruct (asks a g) eqn:E; [apply (O true)|apply (O false)]; auto; intros pw Hpw; apply Hp, in_or_app; auto.
Qed.
Lemma flat_plains items : (forall pw, In pw (flat_map (flat []) items) -> live (fst pw) = true -> plain_pieces a (snd pw)) -> plain_items a items.
Proof.
  intros H. apply Forall_forall. intros i Hi. apply (flat_plain i []); [reflexivity|]. intros pw Hpw. apply H, in_flat_map. eauto.
Qed.

(** The conditions met have a value. *)
Fixpoint known_item (i : item) : Prop :=
  match i with
  | IWord w => True
  | IIf g x y => match ask a g with
                 | Some true => fold_right (fun i r => known_item i /\ r) True x
                 | Some false => fold_right (fun i r => known_item i /\ r) True y
                 | None => False
                 end
  end.
Lemma fold_and {A} (P : A -> Prop) l : fold_right (fun i r => P i /\ r) True l <-> Forall P l.
Proof. induction l as [|x l IH]; cbn [fold_right]; [split; auto|]. rewrite Forall_cons_iff. tauto. Qed.
Lemma known_if g x y b : ask a g = Some b -> Forall known_item (if b then x else y) -> known_item (IIf g x y).
Proof. intros E H. cbn [known_item]. rewrite E. destruct b; now apply fold_and. Qed.
Lemma known_if_inv g x y : known_item (IIf g x y) -> exists b, ask a g = Some b /\ Forall known_item (if b then x else y).
Proof. cbn [known_item]. destruct (ask a g) as [[]|]; [| |intros []]; intros H; apply fold_and in H; eauto. Qed.
Lemma known_closed st : Forall known_item (closed st).
Proof. unfold closed. destruct (w_cur st); repeat constructor. Qed.

Lemma wlit_known s : forall st l st', wlit s st = Some (l, st') -> Forall known_item l.
Proof.
  induction s as [|c s IH]; intros st l st' H; [injection H as <- <-; constructor|]. cbn [wlit] in H. destruct st as [cw g q]. cbn [w_q w_cur w_glued] in H. destruct q.
  - destruct (lexb c).
    + destruct (wlit s (mkW None false QNo)) as [[l1 st1]|] eqn:W; [|discriminate]. injection H as <- <-. apply Forall_app. split; [apply known_closed|eauto].
    + destruct (open_w _); [|discriminate]. repeat (match goal with H : (if ?b then _ else _) = _ |- _ => destruct b end); try discriminate; eauto.
  - destruct cw; [|discriminate]. repeat (match goal with H : (if ?b then _ else _) = _ |- _ => destruct b end); try discriminate; eauto.
  - destruct cw; [|discriminate]. repeat (match goal with H : (if ?b then _ else _) = _ |- _ => destruct b end); try discriminate; eauto.
Qed.
Definition knows_bit (b : bit) : Prop := forall st l st' s, wbit b st = Some (l, st') -> bit_text a b = Some s -> Forall known_item l.
Lemma wrope_known_of r : Forall knows_bit r -> forall st l st' s, wrope r st = Some (l, st') -> rope_text a r = Some s -> Forall known_item l.
Proof.
  induction 1 as [|b r Hb _ IH]; intros st l st' s W E; cbn [wrope] in W.
  - injection W as <- <-. constructor.
  - apply rope_cons_inv in E as (u & v & E1 & E2 & ->). destruct (wbit b st) as [[x s1]|] eqn:B; [|discriminate].
    destruct (wrope r s1) as [[y s2]|] eqn:R; [|discriminate]. injection W as <- <-. apply Forall_app. split; [eapply Hb; eauto|eapply IH; eauto].
Qed.
Lemma wbit_known b : knows_bit b.
Proof.
  induction b as [s|m k|sep k|g x y Ix Iy] using bit_ind'; intros st l st' u H E.
  - eapply wlit_known; eauto.
  - cbn [wbit] in H. unfold wvalue in H. destruct (open_w st); [|discriminate]. injection H as <- <-. constructor.
  - cbn [wbit] in H. unfold wvalue in H. destruct (open_w st); [|discriminate]. injection H as <- <-. constructor.
  - rewrite wbit_if in H. destruct (unquoted st) eqn:U; [|discriminate]. destruct (wrope x _) as [[p s1]|] eqn:W1; [|discriminate].
    destruct (wrope y _) as [[q s2]|] eqn:W2; [|discriminate]. destruct (unquoted s1 && unquoted s2) eqn:U2; [|discriminate]. injection H as <- <-.
    rewrite bit_text_if in E. destruct (ask a g) as [b|] eqn:A; [|discriminate]. apply Forall_app. split; [apply known_closed|]. constructor; [|constructor].
    eapply known_if; [exact A|]. destruct b; apply Forall_app; (split; [|apply known_closed]).
    + eapply (wrope_known_of x Ix); eauto.
    + eapply (wrope_known_of y Iy); eauto.
Qed.
Lemma line_items_known r s items : line_items r = Some items -> rope_text a r = Some s -> Forall known_item items.
Proof.
  unfold line_items. intros H E. destruct (drop_comments_text a 20 _ _ E) as (c & t & Et & -> & Rc).
  destruct (cut_nl (drop_comments 20 r)) as [l|] eqn:C; [|discriminate]. destruct (cut_nl_text _ _ _ _ C Et) as (line & El & ->).
  destruct (existsb bit_nl l) eqn:N; [discriminate|]. destruct (wrope l _) as [[x st]|] eqn:W; [|discriminate].
  destruct (unquoted st) eqn:U; [|discriminate]. injection H as <-. apply Forall_app. split; [|apply known_closed].
  eapply (wrope_known_of l); eauto. apply Forall_forall. intros b _. apply wbit_known.
Qed.

Fixpoint path_ok (p : path) : Prop :=
  match p with [] => True | gb :: p => path_ok p /\ (live p = true -> ask a (fst gb) <> None) end.
Lemma flat_paths i : forall p, path_ok p -> (live p = true -> known_item i) -> forall pw, In pw (flat p i) -> path_ok (fst pw).
Proof.
  induction i as [w|g x y Ix Iy] using item_ind'; intros p P Kn pw H; cbn [flat] in H.
  - destruct H as [<-|[]]. exact P.
  - assert (O : forall b l, Forall (fun i => forall p, path_ok p -> (live p = true -> known_item i) -> forall pw, In pw (flat p i) -> path_ok (fst pw)) l ->
      (live p = true -> asks a g = b -> Forall known_item l) -> In pw (flat_map (flat ((g, b) :: p)) l) -> path_ok (fst pw)).
    { intros b l Hl Kl Hin. apply in_flat_map in Hin as (j & Hj & Hpw). rewrite Forall_forall in Hl. apply (Hl j Hj ((g, b) :: p)); [| |exact Hpw].
      - cbn [path_ok fst]. split; [exact P|]. intros L. destruct (known_if_inv _ _ _ (Kn L)) as (c & E & _). congruence.
      - unfold live. cbn [forallb fst snd]. intros L. apply andb_prop in L as [L1 L2]. apply Bool.eqb_prop in L1.
        specialize (Kl L2 L1). rewrite Forall_forall in Kl. auto. }
    assert (V : live p = true -> forall b, asks a g = b -> Forall known_item (if b then x else y)).
    { intros L b Eb. destruct (known_if_inv _ _ _ (Kn L)) as (c & E & Kc). unfold asks in Eb. rewrite E in Eb. now subst. }
    apply in_app_or in H as [H|H]; [apply (O true x)|apply (O false y)]; auto; intros L Eb; apply (V L _ Eb).
Qed.
Lemma active_ok al p b : al_ok al -> path_ok p -> active al p = Some b -> live p = b.
Proof.
  intros A. revert b. induction p as [|[g c] p IH]; intros b P H; cbn [active path_ok fst snd] in *; [injection H as <-; reflexivity|].
  destruct P as [P N]. unfold live. cbn [forallb fst snd]. fold (live p). destruct (active al p) as [[]|]; [| |discriminate].
  - specialize (IH true P eq_refl). rewrite IH in *. specialize (N eq_refl). destruct (aask al g) as [d|] eqn:D; [|discriminate]. injection H as <-.
    unfold asks. destruct (ask a g) as [d'|] eqn:D'; [|contradiction]. rewrite (aask_ok _ _ _ _ A D D'). now rewrite andb_true_r.
  - injection H as <-. rewrite (IH false P eq_refl). now rewrite andb_false_r.
Qed.

Definition sw (s : sword) : oword := match s with WFlag o => OFlag o | WVal o v => OVal o (ptext a v) end.
Definition piece_of (s : sword) : list wpiece := match s with WFlag _ => [] | WVal _ v => [v] end.
Lemma partition_glue c s : forall o v, partition_char c s = (o, true, v) -> s = (o ++ String c v)%string.
Proof.
  induction s as [|d s IH]; intros o v H; [discriminate|]. cbn [partition_char] in H. destruct (Ascii.eqb c d) eqn:E.
  - apply eqb_true_a in E. subst. now injection H as <- <-.
  - destruct (partition_char c s) as [[o' e'] v'] eqn:P. injection H as <- -> <-. now rewrite (IH _ _ eq_refl).
Qed.
(** The text of a word, where the positional argument is just its value. *)
Definition wordtext (pos : string) (w : oword) : string :=
  match w with OVal o v => if String.eqb o pos then v else text w | _ => text w end.
Lemma sword_text pos w s : sword_of pos w = Some s -> wtext a w = wordtext pos (sw s).
Proof.
  unfold sword_of, wtext. destruct w as [|[t|m k|] [|v [|? ?]]]; try discriminate.
  - destruct (partition_char "=" t) as [[o e] v] eqn:P. destruct (String.eqb o pos) eqn:O; [discriminate|]. intros H. injection H as <-. cbn [map ptext]. unfold glue. cbn [fold_right]. rewrite app_nil_r_s.
    destruct e; [|reflexivity]. cbn [sw wordtext]. rewrite O. apply partition_glue in P. exact P.
  - destruct (partition_char "=" t) as [[o e] r] eqn:P. destruct e; [|discriminate]. cbn [andb]. destruct (String.eqb_spec r "") as [->|]; [|discriminate].
    destruct (String.eqb o pos) eqn:O; [discriminate|]. cbn [andb negb].
    intros H. injection H as <-. apply partition_glue in P. subst t. cbn [map ptext sw wordtext]. rewrite O. cbn [text]. unfold glue. cbn [fold_right]. rewrite app_nil_r_s, app_assoc_s. reflexivity.
  - intros H. injection H as <-. cbn [sw wordtext map]. rewrite String.eqb_refl. unfold glue. cbn [fold_right]. apply app_nil_r_s.
Qed.
Lemma sword_pieces pos w s : sword_of pos w = Some s -> Forall (plain_piece a) (piece_of s) -> plain_pieces a w.
Proof.
  unfold sword_of, plain_pieces. destruct w as [|[t|m k|] [|v [|? ?]]]; try discriminate.
  - intros _ _. repeat constructor.
  - destruct (partition_char "=" t) as [[o e] r]. destruct (e && _ && _); [|discriminate]. intros H. injection H as <-. cbn. intros F. constructor; [exact I|exact F].
  - intros H. injection H as <-. auto.
Qed.

Definition nvalue (n : nval) : value := match n with NConst v => v | NAttr k => get k a end.
Definition word_effect (x : decl * nat) (w : oword) : option value :=
  match given (act x) w, d_kind (fst x) with
  | Some v, KStore => Some v
  | Some _, KStoreConst => Some (d_const (fst x))
  | _, _ => None
  end.
Lemma const_given_ok x i o s n : const_given x s = Some n -> d_kind x = KStore -> word_effect (x, i) (OVal o s) = Some (nvalue n).
Proof.
  unfold const_given, word_effect. cbn [fst]. intros H ->.
  change (given (act (x, 0)) (OVal "" s)) with (given (act (x, i)) (OVal o s)) in H.
  destruct (given (act (x, i)) (OVal o s)); [|discriminate]. now injection H as <-.
Qed.
Lemma stores_ok x i al w n : stores x al w = Some n ->
  (forall k v, In k (sattrs w) -> assoc k al = Some v -> v <> AGone -> gam v (get k a) = true) ->
  word_effect (x, i) (sw w) = Some (nvalue n) /\ Forall (plain_piece a) (piece_of w).
Proof.
  intros H A. destruct w as [o|o [s|m k|sep k]]; cbn [stores] in H.
  - destruct (d_kind x) eqn:K; try discriminate. destruct (d_nargs x) as [|[|]| | |] eqn:N; try discriminate. injection H as <-. split; [|constructor].
    unfold word_effect, given. cbn [sw act action_of fst snd a_nargs]. now rewrite N, K.
  - destruct (d_kind x) eqn:K; try discriminate. destruct (d_nargs x) as [| | | |] eqn:N; try discriminate. split; [|repeat constructor]. now apply const_given_ok.
  - destruct (d_kind x) eqn:K; try discriminate. destruct (d_nargs x) as [| | | |] eqn:N; try discriminate.
    destruct (assoc k al) as [v|] eqn:Ak; [|discriminate]. assert (Ng : v <> AGone) by (intros ->; discriminate). pose proof (A k v (or_introl eq_refl) Ak Ng) as G.
    assert (U : exists u, assoc k a = Some u).
    { unfold get in G. destruct (assoc k a) as [u|]; [eauto|]. destruct v as [c| | | |]; try discriminate. apply gam_const in G. subst c. discriminate. }
    destruct U as (u & Eu). unfold get in G. rewrite Eu in G.
    assert (One : plain_text (ptext a (PVal m k)) = true -> Forall (plain_piece a) (piece_of (WVal o (PVal m k)))) by (intros Q; repeat constructor; exact Q).
    revert One. cbn [sw ptext bit_text]. rewrite Eu. intros One.
    assert (Gk : get k a = u) by (unfold get; now rewrite Eu).
    destruct v as [c|m0| | |]; [| | |discriminate|discriminate].
    + apply gam_const in G. subst c. assert (H' : match mode_text m u with Some s => if plain_text s then const_given x s else None | None => None end = Some n) by (destruct u; [discriminate|exact H ..]).
      clear H. rename H' into H. destruct (mode_text m u) as [s|]; [|discriminate]. destruct (plain_text s) eqn:P; [|discriminate].
      split; [now apply const_given_ok|]. now apply One.
    + destruct u as [| | |s| | |]; try discriminate. cbn [gam] in G. apply andb_prop in G as [G Gm].
      assert (T : mode_text m (VStr s) = Some s /\ ty_fun (d_type x) s = Ok (VStr s) /\ d_choices x = None /\ n = NAttr k).
      { unfold fixes in Gm. assert (Q : d_type x = TStr \/ d_type x = m0 -> ty_fun (d_type x) s = Ok (VStr s)).
        { intros [E|E]; rewrite E; [reflexivity|]. destruct (ty_fun m0 s) as [[]|]; try discriminate. apply String.eqb_eq in Gm. now subst. }
        destruct m; try discriminate; destruct (d_choices x); try discriminate.
        - destruct (argty_dec (d_type x) TStr); [injection H as <-; auto|]. destruct (argty_dec (d_type x) m0); [|discriminate]. injection H as <-. auto.
        - destruct (argty_dec (d_type x) TStr); [injection H as <-; auto|]. destruct (argty_dec (d_type x) m0); [|discriminate]. injection H as <-. auto.
        - destruct (argty_dec (d_type x) TStr); [|discriminate]. destruct (plain_char c) eqn:P; [discriminate|]. injection H as <-. cbn [mode_text]. rewrite replace_none; auto. apply plain_missing; auto. now apply plain_chars. }
      destruct T as (T1 & T2 & T3 & ->). rewrite T1 in *. split; [|now apply One].
      unfold word_effect, given, allowed. cbn [act action_of fst snd a_nargs a_type a_choices nvalue]. rewrite N, T2, T3, K, Gk. reflexivity.
    + destruct u as [| |z| | | |]; try discriminate. cbn [gam] in G. apply andb_prop in G as [G _]. apply Z.ltb_lt in G.
      assert (T : mode_text m (VInt z) = Some (str_of_Z z) /\ d_type x = TInt /\ d_choices x = None /\ n = NAttr k).
      { destruct m; try discriminate; destruct (d_type x) eqn:T; try discriminate; destruct (d_choices x); try discriminate; now injection H as <-. }
      destruct T as (T1 & T2 & T3 & ->). rewrite T1 in *. split; [|now apply One, pos_text].
      unfold word_effect, given, allowed. cbn [act action_of fst snd a_nargs a_type a_choices nvalue]. rewrite N, T2, T3, K, Gk. cbn [ty_fun]. unfold ty_int. now rewrite py_int_str_of_Z.
  - destruct (d_kind x) eqn:K; try discriminate. destruct (d_nargs x) as [| | | |] eqn:N; try discriminate.
    destruct (assoc k al) as [[| | | |]|] eqn:Ak; try discriminate. assert (Ng : AWords <> AGone) by discriminate. pose proof (A k _ (or_introl eq_refl) Ak Ng) as G.
    assert (U : exists u, assoc k a = Some u) by (unfold get in G; destruct (assoc k a) as [u|]; [eauto|discriminate]). destruct U as (u & Eu). unfold get in G. rewrite Eu in G.
    destruct (d_type x) eqn:T; try discriminate. destruct (d_choices x) eqn:Ch; try discriminate. destruct (String.eqb_spec sep ",") as [->|]; [|discriminate]. injection H as <-.
    destruct u as [| | | |l| |]; try discriminate. assert (Gk : get k a = VStrs l) by (unfold get; now rewrite Eu).
    assert (L : l <> [] /\ forallb plain_item_text l = true) by (destruct l; [discriminate|split; [discriminate|exact G]]). destruct L as [L1 L2].
    assert (One : plain_text (ptext a (PJoin "," k)) = true -> Forall (plain_piece a) (piece_of (WVal o (PJoin "," k)))) by (intros Q; repeat constructor; exact Q).
    revert One. cbn [sw ptext bit_text]. rewrite Eu. intros One.
    split; [|now apply One, join_plain].
    unfold word_effect, given, allowed. cbn [act action_of fst snd a_nargs a_type a_choices nvalue]. rewrite N, T, Ch, K, Gk. cbn [ty_fun]. unfold ty_comma.
    rewrite comma_split_join; [reflexivity|]. apply Forall_forall. intros y Hy. rewrite forallb_forall in L2. now apply plain_item_ok, L2.
Qed.

(** ** The check *)

Section Check.
Variable T : tab.
Variable init : attrs.
Variable F : facts.
Variable needs : list (string * expr).
Variable pos : string.
Variable sets : list string.
Notation dests := (dests T).

(** Each attribute has a value one of its options can have given it. *)
Definition typed : Prop := forall k, In k dests -> exists v, In v (avals T init k) /\ gam v (get k a) = true.
(** An option that is not written was not given. *)
Definition needs_ok : Prop := forall k g, In (k, g) needs -> In k dests -> must T k = false -> ask a g <> Some true -> get k a = start_value T init k.
Hypothesis Ty : typed.
Hypothesis Nd : needs_ok.
Hypothesis Fa : facts_ok a F.
(** The object has no attribute whose value is None, except those it had at first. *)
Hypothesis Gn : forall k, In k dests -> has_key k init = false -> mem k sets = false -> get k a = VNone -> has_key k a = false.

Definition good (al : alpha) : Prop :=
  forall k v, assoc k al = Some v -> In k dests /\ gam (norm v) (get k a) = true /\ (In (AConst (get k a)) (avals T init k) -> norm v = AConst (get k a)) /\ (v = AGone -> has_key k a = false).
Lemma good_ok al : good al -> al_ok al.
Proof. intros G k v H. destruct (G k v H) as (_ & H1 & _ & H2). auto. Qed.
Lemma norm_gone x : norm (gone x) = norm x.
Proof. destruct x as [[]| | | |]; reflexivity. Qed.
Lemma norm_gam x v : gam x v = true -> norm x = x.
Proof. destruct x; try reflexivity. discriminate. Qed.
Lemma mem_In' k l : mem k l = true -> In k l.
Proof. unfold mem. intros H. apply existsb_exists in H as (y & Hy & E). apply String.eqb_eq in E. now subst. Qed.
Lemma alphas M : known_attrs T M = true -> exists al, In al (all_alphas T init sets M) /\ good al.
Proof.
  unfold known_attrs, all_alphas. induction M as [|k M IH]; intros H; cbn [map products forallb] in *.
  - exists []. split; [now left|]. intros k v E. discriminate.
  - apply andb_prop in H as [H1 H2]. destruct (IH H2) as (al & Hal & G). apply mem_In' in H1. destruct (Ty k H1) as (v & Hv & Hg). set (w := get k a) in *.
    assert (C : exists v', In v' (avals T init k) /\ gam v' w = true /\ (In (AConst w) (avals T init k) -> v' = AConst w)).
    { destruct (in_dec aval_dec (AConst w) (avals T init k)) as [I|I].
      - exists (AConst w). split; [exact I|]. split; [now apply gam_const|auto].
      - exists v. split; [exact Hv|]. split; [exact Hg|]. intros J. contradiction. }
    destruct C as (v' & C1 & C2 & C3). exists ((k, if has_key k init || mem k sets then v' else gone v') :: al). split.
    + apply in_flat_map. exists (if has_key k init || mem k sets then v' else gone v'). split; [destruct (has_key k init || mem k sets); [exact C1|now apply in_map]|]. now apply in_map.
    + intros k' u. cbn [assoc]. destruct (String.eqb_spec k' k) as [->|]; [|apply G]. intros Eu. injection Eu as <-.
      assert (N' : norm (if has_key k init || mem k sets then v' else gone v') = v') by (destruct (has_key k init || mem k sets); rewrite ?norm_gone; eapply norm_gam; eauto).
      split; [exact H1|]. rewrite N'. split; [exact C2|]. split; [exact C3|]. intros Eg. destruct (has_key k init || mem k sets) eqn:I; [subst v'; discriminate|]. apply orb_false_iff in I as [I1 I2].
      assert (Ev : v' = AConst VNone) by (destruct v' as [[]| | | |]; try discriminate Eg; [reflexivity|discriminate C2]). subst v'. apply gam_const in C2. apply Gn; auto.
Qed.
Lemma possible_ok al : good al -> possible F al = true.
Proof.
  intros G. unfold possible. apply forallb_forall. intros f Hf. destruct (aask al (fst f)) as [b|] eqn:E; [|reflexivity].
  rewrite (aask_ok al (fst f) b (snd f)); auto using Bool.eqb_reflx. now apply good_ok.
Qed.
Lemma start_aval k : must T k = false -> In (AConst (start_value T init k)) (avals T init k).
Proof. intros H. unfold avals. rewrite H. apply nodup_In. now left. Qed.
Lemma needed_ok al : good al -> needed T init needs al = true.
Proof.
  intros G. unfold needed. apply forallb_forall. intros [k g] Hn. cbn [fst snd]. destruct (assoc k al) as [v|] eqn:E; [|reflexivity].
  destruct (aask al g) as [[]|] eqn:Q; try reflexivity. destruct (must T k) eqn:Mu; [reflexivity|]. cbn [orb].
  destruct (G k v E) as (Hd & Gw & Pr & _).
  assert (S : get k a = start_value T init k).
  { apply (Nd k g Hn Hd Mu). intros A. now pose proof (aask_ok al g _ _ (good_ok _ G) Q A). }
  rewrite S in Pr. rewrite (Pr (start_aval _ Mu)). destruct (aval_dec _ _); [reflexivity|contradiction].
Qed.

Notation liv := (filter (fun pw : tword => live (fst (fst pw)))).
Definition gives_w (pw : tword) (n : nval * nat) : Prop :=
  word_effect (snd pw) (sw (snd (fst pw))) = Some (nvalue (fst n)) /\ snd (snd pw) = snd n /\ Forall (plain_piece a) (piece_of (snd (fst pw))).
Lemma final_ok al ws : good al -> Forall (fun pw : tword => path_ok (fst (fst pw))) ws -> forall l, final al ws = Some l -> Forall2 gives_w (liv ws) l.
Proof.
  intros G P. induction P as [|[[p w] [x i]] ws Hp _ IH]; intros l H; cbn [final filter fst snd] in *; [injection H as <-; constructor|].
  destruct (active al p) as [b|] eqn:A; [|discriminate]. rewrite (active_ok _ _ _ (good_ok _ G) Hp A). destruct b; [|auto].
  destruct (stores x al w) as [n|] eqn:S; [|discriminate]. destruct (final al ws) as [r|] eqn:R; [|discriminate]. injection H as <-. constructor; [|auto].
  destruct (stores_ok x i al w n S) as [S1 S2].
  - intros k v _ E Ng. destruct (G k v E) as (_ & Gu & _). now destruct v.
  - split; [exact S1|]. split; [reflexivity|exact S2].
Qed.

Lemma latest_cons n l : latest (n :: l) = match latest l with Some v => Some v | None => Some (fst n) end.
Proof.
  unfold latest. cbn [fold_left]. assert (G : forall l b, fold_left (fun (_ : option nval) (n : nval * nat) => Some (fst n)) l b = match fold_left (fun (_ : option nval) (n : nval * nat) => Some (fst n)) l None with Some v => Some v | None => b end).
  { induction l0 as [|m l0 IH]; intros b; [reflexivity|]. cbn [fold_left]. rewrite (IH (Some (fst m))). now destruct (fold_left _ l0 None). }
  apply G.
Qed.
Definition placed (pw : tword) : Prop := assoc (sname (snd (fst pw))) (t_map T) = Some (snd pw).
Definition written (ws : list tword) : list oword := map (fun pw => sw (snd (fst pw))) ws.
Lemma effect_placed pw : placed pw -> tab_effect T (sw (snd (fst pw))) = option_map (fun v => (d_dest (fst (snd pw)), v)) (word_effect (snd pw) (sw (snd (fst pw)))).
Proof.
  unfold placed, tab_effect, word_effect. intros E. assert (N : name (sw (snd (fst pw))) = sname (snd (fst pw))) by (now destruct (snd (fst pw))).
  rewrite N, E. destruct (given _ _); [|reflexivity]. now destruct (d_kind _).
Qed.
Definition for_dest (d : string) (pw : tword) : bool := String.eqb d (d_dest (fst (snd pw))).
Lemma last_for d L : Forall placed L -> forall l, Forall2 gives_w (filter (for_dest d) L) l -> tab_last T (written L) d = option_map nvalue (latest l).
Proof.
  induction 1 as [|pw L Hp _ IH]; intros l H; cbn [filter written map tab_last] in *; [inversion H; reflexivity|].
  rewrite (effect_placed _ Hp). fold (written L). destruct (for_dest d pw) eqn:E.
  - inversion H as [|? n ? l' Hn Hl]; subst. rewrite (IH _ Hl), latest_cons. destruct (latest l'); [reflexivity|]. cbn [option_map].
    destruct Hn as (Hn & _). rewrite Hn. cbn [option_map]. unfold for_dest in E. now rewrite E.
  - rewrite (IH _ H). destruct (latest l); [reflexivity|]. cbn [option_map]. destruct (word_effect _ _); [|reflexivity]. cbn [option_map]. unfold for_dest in E. now rewrite E.
Qed.
Lemma filter_filter {A} (f g : A -> bool) l : filter f (filter g l) = filter g (filter f l).
Proof. induction l as [|x l IH]; [reflexivity|]. cbn [filter]. destruct (g x) eqn:G, (f x) eqn:E; cbn [filter]; rewrite ?G, ?E, IH; reflexivity. Qed.

(** The value the written words give to a destination. *)
Definition reread (ws : list oword) (d : string) : value :=
  match tab_last T ws d with Some v => v | None => tab_default (t_acts T) d end.
Lemma matches_ok d al l L : good al -> Forall placed L -> Forall2 gives_w (filter (for_dest d) L) l -> matches T init d al (latest l) = true ->
  laid init d (reread (written L) d) = get d a.
Proof.
  intros G P Hl. unfold reread. rewrite (last_for d L P l Hl). unfold matches.
  destruct (assoc d al) as [v|] eqn:E; [|destruct (latest l) as [[]|]; discriminate]. destruct (G d v E) as (_ & Gw & _). cbn [option_map]. set (v' := norm v) in *. clearbody v'. clear E v. rename v' into v.
  remember (get d a) as w eqn:Gd. symmetry in Gd. destruct (latest l) as [[u|k]|]; cbn [option_map nvalue].
  - destruct v; try discriminate. destruct (value_eq_dec _ _) as [->|]; [|discriminate]. intros _. now apply gam_const.
  - intros M. assert (K : k = d /\ w <> VNone).
    { destruct v; try discriminate; apply String.eqb_eq in M; (split; [exact M|]); intros ->; discriminate. }
    destruct K as [-> N]. rewrite Gd. now destruct w.
  - destruct v; try discriminate. destruct (value_eq_dec _ _) as [E'|]; [|discriminate]. intros _. unfold start_value in E'. rewrite E'. now apply gam_const.
Qed.

Lemma table_ok ws : forall tw, table T pos ws = Some tw ->
  Forall2 (fun pw t => fst pw = fst (fst t) /\ sword_of pos (snd pw) = Some (snd (fst t)) /\ placed t) ws tw.
Proof.
  induction ws as [|[p w] ws IH]; intros tw H; cbn [table] in H; [injection H as <-; constructor|].
  destruct (sword_of pos w) as [s|] eqn:S; [|discriminate]. destruct (assoc (sname s) (t_map T)) as [x|] eqn:E; [|discriminate].
  destruct (table T pos ws) as [l|]; [|discriminate]. injection H as <-. constructor; [|auto]. repeat split; auto.
Qed.
Lemma Forall2_filter {A B} (R : A -> B -> Prop) f g l m : (forall x y, R x y -> f x = g y) -> Forall2 R l m -> Forall2 R (filter f l) (filter g m).
Proof. intros H. induction 1 as [|x y l m Hxy _ IH]; [constructor|]. cbn [filter]. rewrite (H _ _ Hxy). destruct (g y); [constructor; auto|auto]. Qed.
Lemma Forall2_In_l {A B} (R : A -> B -> Prop) l m x : Forall2 R l m -> In x l -> exists y, In y m /\ R x y.
Proof. induction 1 as [|u v l m Hu _ IH]; intros []; [subst; eauto using in_eq|destruct (IH H) as (y & H1 & H2); eauto using in_cons]. Qed.
Lemma Forall2_In_r {A B} (R : A -> B -> Prop) l m y : Forall2 R l m -> In y m -> exists x, In x l /\ R x y.
Proof. induction 1 as [|u v l m Hu _ IH]; intros []; [subst; eauto using in_eq|destruct (IH H) as (x & H1 & H2); eauto using in_cons]. Qed.

Definition reads_back (ws : list oword) : Prop :=
  (forall w, In w ws -> tab_effect T w <> None) /\
  (forall x, In x (t_acts T) -> d_required (fst x) = true -> exists w y, In w ws /\ assoc (name w) (t_map T) = Some y /\ snd y = snd x) /\
  (forall d, In d dests -> laid init d (reread ws d) = get d a) /\
  List.length (filter (fun w => String.eqb (name w) pos) ws) <= 1.

Lemma written_text l m : Forall2 (fun (pw : path * list wpiece) (t : tword) => fst pw = fst (fst t) /\ sword_of pos (snd pw) = Some (snd (fst t)) /\ placed t) l m ->
  map (fun pw => wtext a (snd pw)) l = map (fun t : tword => wordtext pos (sw (snd (fst t)))) m.
Proof. induction 1 as [|x y l m (E1 & E2 & _) _ IH]; [reflexivity|]. cbn [map]. rewrite IH. f_equal. now apply sword_text. Qed.
Lemma check_items_sound names items : check_items T init F needs pos sets names items = true -> Forall known_item items ->
  exists n ws, In n names /\ flat_map (lw a) items = n :: map (wordtext pos) ws /\ plain_items a items /\ reads_back ws.
Proof.
  unfold check_items. destruct items as [|[[|[n| |] [|? ?]]|] items]; try discriminate. intros H Kn. apply andb_prop in H as [H1 H2]. apply mem_In' in H1.
  destruct (table T pos (flat_map (flat []) items)) as [tw|] eqn:Et; [|discriminate]. apply andb_prop in H2 as [H2 H4]. apply andb_prop in H2 as [H2 H3].
  pose proof (table_ok _ _ Et) as Tk.
  inversion Kn as [|? ? _ Kn']; subst.
  assert (Pk : Forall (fun pw : tword => path_ok (fst (fst pw))) tw).
  { apply Forall_forall. intros t Ht. destruct (Forall2_In_r _ _ _ _ Tk Ht) as (pw & Hpw & E & _). rewrite <- E.
    apply in_flat_map in Hpw as (i & Hi & Hpw). rewrite Forall_forall in Kn'. apply (flat_paths i []); auto. exact I. }
  assert (Pl : Forall placed tw). { apply Forall_forall. intros t Ht. destruct (Forall2_In_r _ _ _ _ Tk Ht) as (pw & _ & _ & _ & E). exact E. }
  assert (Pv : Forall placed (liv tw)). { apply Forall_forall. intros t Ht. apply filter_In in Ht as [Ht _]. rewrite Forall_forall in Pl. auto. }
  assert (D : forall d, In d dests -> exists al l, good al /\ Forall2 gives_w (filter (for_dest d) (liv tw)) l /\ matches T init d al (latest l) = true /\
     forall x, In x (decls_for T d) -> d_required (fst x) = true -> exists n, In n l /\ snd n = snd x).
  { intros d Hd. rewrite forallb_forall in H3. specialize (H3 d Hd). unfold check_dest in H3. cbv zeta in H3.
    destruct (known_attrs T _) eqn:K1 in H3; [|discriminate]. cbn [negb] in H3. rename H3 into K2.
    destruct (alphas _ K1) as (al & Hal & G). rewrite forallb_forall in K2. specialize (K2 al Hal). rewrite (possible_ok al G), (needed_ok al G) in K2. cbn [andb negb orb] in K2.
    destruct (final al _) as [l|] eqn:El; [|discriminate]. change (final al (filter (for_dest d) tw) = Some l) in El. apply andb_prop in K2 as [K2 K3]. exists al, l. split; [exact G|]. split; [|split; [exact K2|]].
    - rewrite filter_filter. apply (final_ok al); auto. apply Forall_forall. intros t Ht. apply filter_In in Ht as [Ht _]. rewrite Forall_forall in Pk. now apply Pk.
    - intros x Hx Rx. rewrite forallb_forall in K3. specialize (K3 x). rewrite filter_In in K3. specialize (K3 (conj Hx Rx)). apply existsb_exists in K3 as (m & Hm & Em).
      apply Nat.eqb_eq in Em. eauto. }
  assert (W : forall t, In t (liv tw) -> tab_effect T (sw (snd (fst t))) <> None /\ Forall (plain_piece a) (piece_of (snd (fst t)))).
  { intros t Ht. assert (Hd : In (d_dest (fst (snd t))) dests). { rewrite forallb_forall in H2. apply mem_In', H2. now apply filter_In in Ht as [Ht _]. }
    destruct (D _ Hd) as (al & l & _ & F2 & _). destruct (Forall2_In_l _ _ _ t F2) as (m & _ & E1 & _ & E2).
    { apply filter_In. split; [exact Ht|]. unfold for_dest. apply String.eqb_refl. }
    split; [|exact E2]. rewrite effect_placed by (rewrite Forall_forall in Pv; auto). rewrite E1. discriminate. }
  pose proof (Forall2_filter _ (fun pw => live (fst pw)) (fun t => live (fst (fst t))) _ _ (fun x y R => f_equal live (proj1 R)) Tk) as Tv.
  exists n, (written (liv tw)). split; [exact H1|]. split; [|split].
  - cbn [flat_map lw app]. unfold wtext. cbn [map ptext]. unfold glue. cbn [fold_right]. rewrite app_nil_r_s. f_equal. rewrite <- flat_words. unfold written. rewrite map_map.
    now apply written_text.
  - constructor; [repeat constructor|]. apply flat_plains. intros pw Hpw L.
    assert (Hl : In pw (living (flat_map (flat []) items))) by (apply filter_In; auto).
    destruct (Forall2_In_l _ _ _ _ Tv Hl) as (t & Ht & _ & Es & _). eapply sword_pieces; [exact Es|]. now apply W.
  - split; [|split; [|split]].
    + intros w Hw. unfold written in Hw. apply in_map_iff in Hw as (t & <- & Ht). now apply W.
    + intros x Hx Rx. assert (Hd : In (d_dest (fst x)) dests) by (apply nodup_In; apply (in_map (fun x => d_dest (fst x))), Hx).
      destruct (D _ Hd) as (al & l & _ & F2 & _ & Rq). destruct (Rq x) as (m & Hm & Em); [|exact Rx|].
      { apply filter_In. split; [exact Hx|apply String.eqb_refl]. }
      destruct (Forall2_In_r _ _ _ _ F2 Hm) as (t & Ht & _ & Es & _). apply filter_In in Ht as [Ht _].
      exists (sw (snd (fst t))), (snd t). split; [unfold written; apply in_map_iff; eauto|]. split; [|congruence].
      rewrite Forall_forall in Pv. specialize (Pv t Ht). unfold placed in Pv. now destruct (snd (fst t)).
    + intros d Hd. destruct (D d Hd) as (al & l & G & F2 & Ma & _). eapply matches_ok; eauto.
    + apply Nat.leb_le in H4. etransitivity; [|exact H4]. clear. unfold written, liv. induction tw as [|t l IH]; [cbn; lia|]. cbn [filter].
      assert (N : name (sw (snd (fst t))) = sname (snd (fst t))) by (destruct (snd (fst t)); reflexivity).
      destruct (live (fst (fst t))); cbn [map filter]; rewrite ?N; destruct (String.eqb (sname (snd (fst t))) pos); cbn [List.length]; lia.
Qed.
Lemma impossible_sound : impossible T init F needs sets = false.
Proof.
  unfold impossible. destruct (Nat.leb _ _); [|reflexivity]. cbn [andb]. destruct (known_attrs T _) eqn:E; [|reflexivity]. cbn [andb].
  destruct (alphas _ E) as (al & Hal & G). destruct (forallb _ _) eqn:X; [|reflexivity]. rewrite forallb_forall in X. specialize (X al Hal).
  rewrite (possible_ok al G), (needed_ok al G) in X. discriminate.
Qed.
Theorem check_leaf_sound names r s : check_leaf T init F needs pos sets names r = true -> rope_text a r = Some s ->
  exists n c line ws, In n names /\ s = (c ++ line ++ NL)%string /\ remarks c /\ unbroken line = true /\
    shlex_split true line = Ok (n :: map (wordtext pos) ws) /\ reads_back ws.
Proof.
  unfold check_leaf. rewrite impossible_sound. destruct (line_items r) as [items|] eqn:L; [|discriminate]. intros H E.
  destruct (check_items _ _ _ _ _ _ _ _) eqn:H' in H; [|discriminate]. clear H. rename H' into H.
  destruct (check_items_sound _ _ H (line_items_known _ _ _ L E)) as (n & ws & Hn & Ew & Pl & Rb).
  destruct (line_items_sound a _ _ _ L E Pl) as (c & line & -> & Rc & Hl & Hs). exists n, c, line, ws. rewrite Ew in Hs. repeat split; auto; apply Rb.
Qed.
End Check.
End Facts.
