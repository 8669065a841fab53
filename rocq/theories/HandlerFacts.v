(** * Lemmas about handlers *)

From Coq Require Import Lia Permutation.
From Verif Require Import PyStrFacts ArgParseFacts PkgFacts HandlerSpec.
From Verif Require Import Value.
Local Open Scope string_scope.
Local Open Scope list_scope.

(** ** Dictionaries *)

Lemma assoc_put_eq {A} k (v : A) l : assoc k (put k v l) = Some v.
Proof.
  induction l as [|[k' w] l IH]; cbn; [now rewrite String.eqb_refl|].
  destruct (String.eqb k k') eqn:E; cbn; rewrite E; auto.
Qed.
Lemma assoc_put_ne {A} k k' (v : A) l : k <> k' -> assoc k (put k' v l) = assoc k l.
Proof.
  intros H. apply String.eqb_neq in H. induction l as [|[q w] l IH]; cbn; [now rewrite H|].
  destruct (String.eqb k' q) eqn:E; cbn.
  - apply String.eqb_eq in E. subst q. rewrite H. reflexivity.
  - now rewrite IH.
Qed.
Lemma put_new {A} k (v : A) l : ~ In k (map fst l) -> put k v l = l ++ [(k, v)].
Proof.
  induction l as [|[q w] l IH]; cbn; intros H; [reflexivity|].
  destruct (String.eqb_spec k q) as [->|_]; [exfalso; apply H; auto|]. rewrite IH; auto.
Qed.
Lemma put_keys {A} k (v : A) l : In k (map fst l) -> map fst (put k v l) = map fst l.
Proof.
  induction l as [|[q w] l IH]; cbn; intros H; [contradiction|].
  destruct (String.eqb_spec k q) as [->|Hne]; cbn; [reflexivity|]. rewrite IH; [reflexivity|].
  destruct H as [->|H]; [congruence|exact H].
Qed.
Lemma assoc_In {A} k (v : A) l : assoc k l = Some v -> In (k, v) l.
Proof.
  induction l as [|[q w] l IH]; cbn; [discriminate|]. destruct (String.eqb_spec k q) as [->|_]; [|auto].
  intros H. injection H as ->. auto.
Qed.
Lemma assoc_key {A} k (l : list (string * A)) : In k (map fst l) <-> exists v, assoc k l = Some v.
Proof.
  split.
  - induction l as [|[q w] l IH]; cbn; [contradiction|]. intros H.
    destruct (String.eqb_spec k q) as [->|Hne]; [eauto|]. destruct H as [->|H]; [congruence|auto].
  - intros (v & H). apply assoc_In in H. apply in_map_iff. exists (k, v). auto.
Qed.
Lemma assoc_none {A} k (l : list (string * A)) : assoc k l = None <-> ~ In k (map fst l).
Proof.
  rewrite assoc_key. split.
  - intros H (v & E). congruence.
  - intros H. destruct (assoc k l) eqn:E; [|reflexivity]. exfalso. eauto.
Qed.
Lemma In_dict {A} (m : list (string * A)) : is_dict m -> forall k v, In (k, v) m -> assoc k m = Some v.
Proof.
  induction m as [|[q w] m IH]; intros Hd k v H; [contradiction|]. inversion Hd as [|? ? Hq Hm]; subst. cbn.
  destruct H as [E|H].
  - injection E as -> ->. now rewrite String.eqb_refl.
  - destruct (String.eqb_spec k q) as [->|_]; [|auto].
    exfalso. apply Hq. apply in_map_iff. exists (q, v). auto.
Qed.

Lemma NoDup_app_l {A} (l m : list A) : NoDup (l ++ m) -> NoDup l.
Proof.
  induction l as [|x l IH]; intros H; [constructor|]. inversion H as [|? ? H1 H2]; subst.
  constructor; [|auto]. intros X. apply H1, in_app_iff. auto.
Qed.

(** ** The heap *)

Lemma replace_nth_len {A} i (x : A) l : length (replace_nth i x l) = length l.
Proof. revert i. induction l as [|y l IH]; intros [|i]; cbn; auto. Qed.
Lemma replace_nth_eq {A} i (x : A) l : i < length l -> nth_error (replace_nth i x l) i = Some x.
Proof. revert i. induction l as [|y l IH]; intros [|i] H; cbn in *; try lia; auto. apply IH. lia. Qed.
Lemma replace_nth_ne {A} i j (x : A) l : i <> j -> nth_error (replace_nth i x l) j = nth_error l j.
Proof. revert i j. induction l as [|y l IH]; intros [|i] [|j] H; cbn; auto; try congruence. Qed.

Lemma obj_at_set_eq i o o' h : obj_at h i = Some o -> obj_at (set_obj i o' h) i = Some o'.
Proof. intros H. apply replace_nth_eq. apply nth_error_Some. unfold obj_at in H. congruence. Qed.
Lemma obj_at_set_ne i j o' h : i <> j -> obj_at (set_obj i o' h) j = obj_at h j.
Proof. intros H. now apply replace_nth_ne. Qed.
Lemma obj_at_lt h i o : obj_at h i = Some o -> i < length (h_objs h).
Proof. intros H. apply nth_error_Some. unfold obj_at in H. congruence. Qed.

Lemma obj_at_new o h : obj_at (set_command o h) (length (h_objs h)) = Some o.
Proof. unfold obj_at, set_command. cbn [h_objs]. rewrite nth_error_app2, Nat.sub_diag by lia. reflexivity. Qed.
Lemma obj_at_old o h i o1 : obj_at h i = Some o1 -> obj_at (set_command o h) i = Some o1.
Proof.
  intros H. unfold obj_at, set_command. cbn [h_objs]. rewrite nth_error_app1; [exact H|]. eapply obj_at_lt, H.
Qed.
Lemma obj_at_command o h i o1 : obj_at (set_command o h) i = Some o1 ->
  (i = length (h_objs h) /\ o1 = o) \/ obj_at h i = Some o1.
Proof.
  unfold obj_at, set_command. cbn [h_objs]. intros H. destruct (Nat.lt_ge_cases i (length (h_objs h))) as [L|L].
  - rewrite nth_error_app1 in H by exact L. auto.
  - rewrite nth_error_app2 in H by exact L. destruct (i - length (h_objs h)) as [|d] eqn:E; cbn in H.
    + injection H as <-. left. split; [lia|reflexivity].
    + destruct d; discriminate.
Qed.

(** ** Sorted insertion *)

Section Insert.
Variable nm : nat -> string.
Definition lt_name (i j : nat) : Prop := str_ltb (nm i) (nm j) = true.

Lemma insert_sorted_in i l : StronglySorted lt_name l -> forall x,
  In x (insert_sorted nm i l) <-> x = i \/ (In x l /\ nm x <> nm i).
Proof.
  induction l as [|j l IH]; intros Hs x; cbn [insert_sorted].
  - cbn. split; [intros [<-|[]]; auto|intros [->|[[] _]]; auto].
  - inversion Hs as [|? ? Hl Hf]; subst. rewrite Forall_forall in Hf. destruct (str_ltb (nm j) (nm i)) eqn:E.
    + cbn [In]. rewrite (IH Hl). split.
      * intros [<-|[->|[H1 H2]]]; auto. right. split; [auto|]. intros X. rewrite X, str_ltb_irrefl in E. discriminate.
      * intros [->|[[->|H1] H2]]; auto.
    + destruct (String.eqb_spec (nm i) (nm j)) as [En|En]; cbn [In].
      * split.
        -- intros [<-|H]; auto. right. split; [auto|]. specialize (Hf x H). unfold lt_name in Hf. rewrite En. intros X.
           rewrite X, str_ltb_irrefl in Hf. discriminate.
        -- intros [->|[[->|H1] H2]]; auto. congruence.
      * split.
        -- intros [<-|[<-|H]]; auto. right. split; [auto|]. specialize (Hf x H). unfold lt_name in Hf. intros X. rewrite X in Hf. congruence.
        -- intros [->|[[->|H1] H2]]; auto.
Qed.

Lemma insert_sorted_sorted i l : StronglySorted lt_name l -> StronglySorted lt_name (insert_sorted nm i l).
Proof.
  induction l as [|j l IH]; intros Hs; cbn [insert_sorted]; [repeat constructor|].
  inversion Hs as [|? ? Hl Hf]; subst. destruct (str_ltb (nm j) (nm i)) eqn:E.
  - constructor; [auto|]. rewrite Forall_forall in *. intros x Hx. apply (insert_sorted_in i l Hl) in Hx as [->|[Hx _]]; auto.
  - assert (L : str_ltb (nm i) (nm j) = true \/ nm i = nm j).
    { destruct (string_dec (nm i) (nm j)) as [X|X]; [auto|left]. apply str_leb_ltb; [|exact X].
      unfold str_ltb in E. apply negb_false_iff in E. exact E. }
    destruct (String.eqb_spec (nm i) (nm j)) as [En|En].
    + constructor; [exact Hl|]. rewrite Forall_forall in *. intros x Hx. specialize (Hf x Hx). unfold lt_name in *. now rewrite En.
    + destruct L as [L|L]; [|congruence]. constructor; [exact Hs|]. constructor; [exact L|].
      rewrite Forall_forall in *. intros x Hx. eapply str_ltb_trans; [exact L|]. apply Hf, Hx.
Qed.

Lemma insert_sorted_ext nm' i l : nm i = nm' i -> (forall x, In x l -> nm x = nm' x) ->
  insert_sorted nm i l = insert_sorted nm' i l.
Proof.
  intros Hi. induction l as [|j l IH]; intros H; cbn [insert_sorted]; [reflexivity|].
  rewrite <- Hi, <- (H j) by (cbn; auto). rewrite IH; [reflexivity|]. intros x Hx. apply H. cbn. auto.
Qed.
End Insert.

Fixpoint order_at (p : Z) (l : list (Z * list nat)) : list nat :=
  match l with
  | [] => []
  | (q, m) :: r => if Z.eqb p q then m else order_at p r
  end.

Lemma order_insert_keys nm p i l : NoDup (map fst l) -> NoDup (map fst (order_insert nm p i l)) /\
  (forall q, In q (map fst (order_insert nm p i l)) <-> q = p \/ In q (map fst l)).
Proof.
  induction l as [|[q m] l IH]; intros Hn; cbn [order_insert map fst].
  - split; [repeat constructor; auto|]. cbn. intros q. split; [intros [<-|[]]; auto|intros [->|[]]; auto].
  - inversion Hn as [|? ? Hq Hl]; subst. destruct (Z.eqb_spec p q) as [->|Hne]; cbn [map fst].
    + split; [exact Hn|]. intros x. cbn. split; [intros H; auto|intros [->|H]; auto].
    + destruct (IH Hl) as [I1 I2]. split.
      * constructor; [|exact I1]. rewrite I2. intros [->|H]; [congruence|auto].
      * intros x. cbn. rewrite I2. tauto.
Qed.
Lemma order_insert_in nm p i l : NoDup (map fst l) -> forall q m,
  In (q, m) (order_insert nm p i l) <-> (q = p /\ m = insert_sorted nm i (order_at p l)) \/ (q <> p /\ In (q, m) l).
Proof.
  induction l as [|[q m] l IH]; intros Hn q' m'; cbn [order_insert order_at].
  - cbn. split; [intros [E|[]]; injection E as <- <-; auto|intros [[-> ->]|[_ []]]; auto].
  - inversion Hn as [|? ? Hq Hl]; subst. cbn [map fst] in Hq. destruct (Z.eqb_spec p q) as [->|Hne]; cbn [In].
    + split.
      * intros [E|H]; [injection E as <- <-; auto|]. right. split; [|auto]. intros ->. apply Hq. apply in_map_iff. now exists (q, m').
      * intros [[-> ->]|[H1 [H2|H2]]]; auto. congruence.
    + rewrite (IH Hl). split.
      * intros [E|[H|[H1 H2]]]; auto. injection E as <- <-. right. split; [congruence|auto].
      * intros [H|[H1 [H2|H2]]]; auto.
Qed.
Lemma order_at_in p l : order_at p l = [] \/ In (p, order_at p l) l.
Proof.
  induction l as [|[q m] l IH]; cbn; [auto|]. destruct (Z.eqb_spec p q) as [->|_]; [auto|]. destruct IH; auto.
Qed.
Lemma order_at_eq p m l : NoDup (map fst l) -> In (p, m) l -> order_at p l = m.
Proof.
  induction l as [|[q m'] l IH]; intros Hn H; [contradiction|]. inversion Hn as [|? ? Hq Hl]; subst. cbn.
  destruct H as [E|H].
  - injection E as -> ->. now rewrite Z.eqb_refl.
  - destruct (Z.eqb_spec p q) as [->|_]; [|auto]. exfalso. apply Hq. apply in_map_iff. now exists (q, m).
Qed.

(** ** The invariant *)

Definition live (h : handler) (i : nat) : Prop := exists n, assoc n (h_commands h) = Some (Some i).

Record inv (m : list (string * cclass)) (h : handler) : Prop := mkInv {
  inv_keys : map fst (h_commands h) = map fst m;
  inv_serve : forall n k, In (n, k) m ->
    exists i o, assoc n (h_commands h) = Some (Some i) /\ obj_at h i = Some o /\ o_name o = cl_name k;
  inv_from : forall i o, live h i -> obj_at h i = Some o -> exists n k, In (n, k) m /\ o_class o = k;
  inv_uniq : forall i j oi oj, live h i -> live h j -> obj_at h i = Some oi -> obj_at h j = Some oj ->
    o_name oi = o_name oj -> i = j;
  inv_order_keys : NoDup (map fst (h_order h));
  inv_order : forall p l, In (p, l) (h_order h) -> StronglySorted (lt_name (name_at h)) l /\
    forall i, In i l -> live h i /\ exists o, obj_at h i = Some o /\ cl_prio (o_class o) = Some p;
  inv_written : forall i o p, live h i -> obj_at h i = Some o -> cl_prio (o_class o) = Some p ->
    exists l, In (p, l) (h_order h) /\ In i l }.

(** Handlers that differ in the attributes and data of their objects only. *)
Definition class_at (h : handler) (i : nat) : option cclass := option_map o_class (obj_at h i).
Record shape (h h' : handler) : Prop := mkShape {
  sh_objs : forall i, class_at h i = class_at h' i;
  sh_commands : h_commands h = h_commands h';
  sh_attrs : h_attrs h = h_attrs h';
  sh_order : h_order h = h_order h' }.

Lemma shape_obj h h' : shape h h' -> forall i o', obj_at h' i = Some o' -> exists o, obj_at h i = Some o /\ o_class o = o_class o'.
Proof.
  intros [S _ _ _] i o' E. specialize (S i). unfold class_at in S. rewrite E in S. destruct (obj_at h i) as [o|]; [|discriminate].
  injection S as S. eauto.
Qed.
Lemma shape_sym h h' : shape h h' -> shape h' h.
Proof. intros [A B C D]. split; auto. Qed.
Lemma shape_name h h' : shape h h' -> forall i, name_at h i = name_at h' i.
Proof.
  intros [S _ _ _] i. specialize (S i). unfold class_at, name_at, o_name in *.
  destruct (obj_at h i), (obj_at h' i); try discriminate; [|reflexivity]. injection S as ->. reflexivity.
Qed.
Lemma sorted_ext nm nm' l : (forall i, nm i = nm' i) -> StronglySorted (lt_name nm) l -> StronglySorted (lt_name nm') l.
Proof.
  intros H. induction 1 as [|a l Hs IH Hf]; constructor; auto. rewrite Forall_forall in *. intros x Hx.
  unfold lt_name. rewrite <- !H. apply Hf, Hx.
Qed.

Lemma inv_shape m h h' : shape h h' -> inv m h -> inv m h'.
Proof.
  intros S I. pose proof (shape_obj _ _ S) as So. pose proof (shape_obj _ _ (shape_sym _ _ S)) as So'.
  assert (L : forall i, live h' i <-> live h i) by (intros i; unfold live; now rewrite (sh_commands _ _ S)).
  split.
  - rewrite <- (sh_commands _ _ S). apply I.
  - intros n k H. destruct (inv_serve _ _ I n k H) as (i & o & E1 & E2 & E3). destruct (So' i o E2) as (o' & E4 & E5).
    exists i, o'. rewrite <- (sh_commands _ _ S). unfold o_name in *. rewrite E5. auto.
  - intros i o' Hl E. rewrite L in Hl. destruct (So i o' E) as (o & E1 & E2). rewrite <- E2. eapply inv_from; eauto.
  - intros i j oi oj Hi Hj E1 E2 E3. rewrite L in Hi, Hj. destruct (So i oi E1) as (oi' & F1 & F2). destruct (So j oj E2) as (oj' & F3 & F4).
    eapply (inv_uniq _ _ I); eauto. unfold o_name in *. congruence.
  - rewrite <- (sh_order _ _ S). apply I.
  - intros p l H. rewrite <- (sh_order _ _ S) in H. destruct (inv_order _ _ I p l H) as [A B]. split.
    + eapply sorted_ext; [|exact A]. apply shape_name, S.
    + intros i Hi. destruct (B i Hi) as [Hl (o & E1 & E2)]. rewrite L. split; [exact Hl|].
      destruct (So' i o E1) as (o' & F1 & F2). exists o'. rewrite F2. auto.
  - intros i o' p Hl E Hp. rewrite L in Hl. destruct (So i o' E) as (o & E1 & E2). rewrite <- E2 in Hp.
    rewrite <- (sh_order _ _ S). eapply inv_written; eauto.
Qed.

Lemma shape_set i o o' h : obj_at h i = Some o -> o_class o' = o_class o -> shape h (set_obj i o' h).
Proof.
  intros E Ec. split; auto. intros j. unfold class_at. destruct (Nat.eq_dec i j) as [<-|Hne].
  - rewrite (obj_at_set_eq _ _ _ _ E), E. cbn. now rewrite Ec.
  - now rewrite obj_at_set_ne.
Qed.
Lemma shape_refl h : shape h h.
Proof. split; auto. Qed.
Lemma shape_trans h1 h2 h3 : shape h1 h2 -> shape h2 h3 -> shape h1 h3.
Proof. intros [A B C D] [A' B' C' D']. split; congruence. Qed.

Lemma dispatcher_shape h args ln : shape h (fst (dispatcher h args ln)).
Proof.
  unfold dispatcher. destruct args as [|cmd rest]; [apply shape_refl|].
  destruct (assoc cmd (h_commands h)) as [[i|]|]; try apply shape_refl.
  destruct (obj_at h i) as [o|] eqn:E; [|apply shape_refl]. cbv zeta.
  set (a := stamp cmd (h_line h) ln (o_attrs o)). set (o1 := mkObj (o_class o) a (o_data o)).
  assert (S1 : shape h (set_obj i o1 h)) by (eapply shape_set; [exact E|reflexivity]).
  pose proof (obj_at_set_eq i o o1 h E) as E1.
  destruct (cl_parse _ _ _ _ _) as [[a' d'] [r|e]]; cbn [fst];
    (eapply shape_trans; [exact S1|]; eapply shape_set; [exact E1|reflexivity]).
Qed.
Lemma set_line_shape l h : shape h (set_line l h).
Proof. split; auto. Qed.
Lemma handle_shape h l a n : shape h (fst (handle_command h l a n)).
Proof. eapply shape_trans; [apply (set_line_shape l)|apply dispatcher_shape]. Qed.
Lemma call_shape a kw h : shape h (call_attr a kw h).
Proof.
  unfold call_attr. destruct (assoc a (h_attrs h)) as [[i|]|]; try apply shape_refl.
  destruct (obj_at h i) as [o|] eqn:E; [|apply shape_refl]. eapply shape_set; [exact E|reflexivity].
Qed.

(** *** Building *)

Lemma inv_empty : inv [] empty_handler.
Proof.
  assert (L : forall i, ~ live empty_handler i) by (intros i (n & H); discriminate).
  split; try (intros; exfalso; eapply L; eassumption); try (intros; contradiction); [reflexivity|constructor].
Qed.

Lemma find_class_spec h n cmds :
  match find_class h n cmds with
  | Some i => exists c, In (c, Some i) cmds /\ name_at h i = n
  | None => forall c i, In (c, Some i) cmds -> name_at h i <> n
  end.
Proof.
  induction cmds as [|[c [i|]] cmds IH]; cbn [find_class]; [intros c i []| |].
  - destruct (String.eqb_spec (name_at h i) n) as [E|E]; [exists c; cbn; auto|].
    destruct (find_class h n cmds).
    + destruct IH as (c' & H1 & H2). exists c'. cbn. auto.
    + intros c' i' [X|X]; [congruence|eauto].
  - destruct (find_class h n cmds).
    + destruct IH as (c' & H1 & H2). exists c'. cbn. auto.
    + intros c' i' [X|X]; [congruence|eauto].
Qed.

Lemma assoc_app_key {A} (l : list (string * A)) k v n : ~ In k (map fst l) ->
  assoc n (l ++ [(k, v)]) = if String.eqb n k then Some v else assoc n l.
Proof.
  induction l as [|[q w] l IH]; cbn; intros H; [reflexivity|].
  destruct (String.eqb_spec n q) as [->|_].
  - destruct (String.eqb_spec q k) as [->|_]; [exfalso; auto|reflexivity].
  - apply IH. auto.
Qed.

Lemma live_keys m h i : inv m h -> live h i -> exists n k, In (n, k) m /\ assoc n (h_commands h) = Some (Some i).
Proof.
  intros I (n & E). assert (H : In n (map fst m)).
  { rewrite <- (inv_keys _ _ I). apply assoc_key. eauto. }
  apply in_map_iff in H as ([n' k] & <- & H). exists n', k. auto.
Qed.
Lemma live_obj m h i : inv m h -> is_dict m -> live h i -> exists o, obj_at h i = Some o.
Proof.
  intros I Hd Hl. destruct (live_keys _ _ _ I Hl) as (n & k & H & E).
  destruct (inv_serve _ _ I n k H) as (j & o & E1 & E2 & _). exists o. congruence.
Qed.

Lemma register_inv m h n k : is_dict (m ++ [(n, k)]) -> inv m h -> inv (m ++ [(n, k)]) (register_command h (n, k)).
Proof.
  intros Hd I. assert (Hm : is_dict m).
  { unfold is_dict in *. rewrite map_app in Hd. now apply NoDup_app_l in Hd. }
  assert (Hn : ~ In n (map fst (h_commands h))).
  { rewrite (inv_keys _ _ I). unfold is_dict in Hd. rewrite map_app in Hd. cbn in Hd.
    apply NoDup_remove_2 in Hd. now rewrite app_nil_r in Hd. }
  assert (Hc : forall c i, In (c, Some i) (h_commands h) -> assoc c (h_commands h) = Some (Some i)).
  { intros c i. apply (In_dict (h_commands h)). unfold is_dict. rewrite (inv_keys _ _ I). exact Hm. }
  cbn [register_command]. pose proof (find_class_spec h (cl_name k) (h_commands h)) as F.
  destruct (find_class h (cl_name k) (h_commands h)) as [i|].
  - destruct F as (c & Fc & Fn). apply Hc in Fc.
    assert (Li : live h i) by (exists c; exact Fc).
    destruct (live_obj _ _ _ I Hm Li) as (o & Eo).
    assert (L : forall j, live (set_commands (put n (Some i) (h_commands h)) h) j <-> live h j).
    { intros j. unfold live. cbn [set_commands h_commands]. rewrite put_new by exact Hn. split.
      - intros (x & E). rewrite assoc_app_key in E by exact Hn. destruct (String.eqb_spec x n); [|eauto]. injection E as <-. exact Li.
      - intros (x & E). exists x. rewrite assoc_app_key by exact Hn. destruct (String.eqb_spec x n) as [->|]; [|exact E].
        exfalso. apply Hn. apply assoc_key. eauto. }
    split.
    + cbn [set_commands h_commands]. rewrite put_new by exact Hn. rewrite !map_app. cbn. now rewrite (inv_keys _ _ I).
    + intros n' k' H. apply in_app_iff in H as [H|[E|[]]].
      * destruct (inv_serve _ _ I _ _ H) as (j & o' & E1 & E2 & E3). exists j, o'. cbn [set_commands h_commands].
        rewrite put_new, assoc_app_key by exact Hn. destruct (String.eqb_spec n' n) as [->|]; [|auto].
        exfalso. apply Hn. apply assoc_key. eauto.
      * injection E as <- <-. exists i, o. cbn [set_commands h_commands]. rewrite assoc_put_eq. split; [reflexivity|].
        split; [exact Eo|]. unfold name_at in Fn. now rewrite Eo in Fn.
    + intros j o' Hl E. rewrite L in Hl. destruct (inv_from _ _ I j o' Hl E) as (n' & k' & H & E').
      exists n', k'. split; [apply in_app_iff; auto|exact E'].
    + intros a b oa ob Ha Hb. rewrite L in Ha, Hb. eapply (inv_uniq _ _ I); eauto.
    + apply I.
    + intros p l H. destruct (inv_order _ _ I p l H) as [A B]. split; [exact A|]. intros j Hj. destruct (B j Hj) as [B1 B2]. split; [now apply L|exact B2].
    + intros j o' p Hl. rewrite L in Hl. eapply (inv_written _ _ I); eauto.
  - set (o := new_obj k). set (i := length (h_objs h)). set (h1 := set_command o h).
    set (h2 := set_commands (put n (Some i) (h_commands h1)) h1).
    assert (K : h_commands h2 = h_commands h ++ [(n, Some i)]).
    { unfold h2, h1. cbn [set_commands set_command h_commands]. now rewrite put_new. }
    assert (Ei : obj_at h2 i = Some o) by apply obj_at_new.
    assert (Eo : forall j oj, obj_at h j = Some oj -> obj_at h2 j = Some oj) by (intros; now apply obj_at_old).
    assert (Old : forall j, live h j -> j <> i).
    { intros j Hl ->. destruct (live_obj _ _ _ I Hm Hl) as (o' & E). apply obj_at_lt in E. unfold i in E. lia. }
    assert (L : forall j, live h2 j <-> j = i \/ live h j).
    { intros j. unfold live. rewrite K. split.
      - intros (x & E). rewrite assoc_app_key in E by exact Hn. destruct (String.eqb_spec x n); [injection E as <-; auto|eauto].
      - intros [->|(x & E)].
        + exists n. rewrite assoc_app_key, String.eqb_refl by exact Hn. reflexivity.
        + exists x. rewrite assoc_app_key by exact Hn. destruct (String.eqb_spec x n) as [->|]; [|exact E].
          exfalso. apply Hn. apply assoc_key. eauto. }
    assert (Lo : forall j oj, live h j -> obj_at h2 j = Some oj -> obj_at h j = Some oj).
    { intros j oj Hl E. apply obj_at_command in E as [[E _]|E]; [|exact E]. exfalso. eapply Old; eauto. }
    assert (Nn : forall j oj, live h j -> obj_at h j = Some oj -> o_name oj <> cl_name k).
    { intros j oj (c & Hc') E. apply assoc_In in Hc'. specialize (F c j Hc'). unfold name_at in F. now rewrite E in F. }
    assert (Nh : forall j, live h j -> name_at h2 j = name_at h j).
    { intros j Hl. destruct (live_obj _ _ _ I Hm Hl) as (oj & E). unfold name_at. now rewrite (Eo _ _ E), E. }
    assert (Sorted : forall p l, In (p, l) (h_order h) -> StronglySorted (lt_name (name_at h2)) l).
    { intros p l H. destruct (inv_order _ _ I p l H) as [A B]. clear H.
      assert (B' : forall j, In j l -> live h j) by (intros j Hj; now apply B). clear B.
      induction A as [|a l A IH Hf]; constructor.
      - apply IH. intros j Hj. apply B'. now right.
      - rewrite Forall_forall in *. intros x Hx. unfold lt_name. rewrite !Nh; [apply Hf, Hx| |]; apply B'; [now right|now left]. }
    assert (SortAt : forall p, StronglySorted (lt_name (name_at h2)) (order_at p (h_order h))).
    { intros p. destruct (order_at_in p (h_order h)) as [E|E]; [rewrite E; constructor|eapply Sorted, E]. }
    split.
    + rewrite K, !map_app. cbn. now rewrite (inv_keys _ _ I).
    + intros n' k' H. apply in_app_iff in H as [H|[E|[]]].
      * destruct (inv_serve _ _ I _ _ H) as (j & o' & E1 & E2 & E3). exists j, o'. rewrite K, assoc_app_key by exact Hn.
        destruct (String.eqb_spec n' n) as [->|]; [|auto]. exfalso. apply Hn. apply assoc_key. eauto.
      * injection E as <- <-. exists i, o. rewrite K, assoc_app_key, String.eqb_refl by exact Hn. auto.
    + intros j o' Hl E. apply L in Hl as [->|Hl].
      * rewrite Ei in E. injection E as <-. exists n, k. split; [apply in_app_iff; cbn; auto|reflexivity].
      * apply Lo in E; [|exact Hl]. destruct (inv_from _ _ I j o' Hl E) as (n' & k' & H & E'). exists n', k'. split; [apply in_app_iff; auto|exact E'].
    + intros a b oa ob Ha Hb Ea Eb En. apply L in Ha as [->|Ha]; apply L in Hb as [->|Hb]; auto.
      * exfalso. rewrite Ei in Ea. injection Ea as <-. apply Lo in Eb; [|exact Hb]. apply (Nn b ob Hb Eb). symmetry. exact En.
      * exfalso. rewrite Ei in Eb. injection Eb as <-. apply Lo in Ea; [|exact Ha]. apply (Nn a oa Ha Ea). exact En.
      * eapply (inv_uniq _ _ I); eauto.
    + unfold h2, h1. cbn [set_commands set_command h_order]. destruct (o_prio o) as [p|]; [|apply I].
      apply order_insert_keys, I.
    + intros p l H. change (In (p, l) (match o_prio o with Some p => order_insert (name_at h2) p i (h_order h) | None => h_order h end)) in H.
      assert (Old' : In (p, l) (h_order h) -> StronglySorted (lt_name (name_at h2)) l /\
        (forall j, In j l -> live h2 j /\ exists oj, obj_at h2 j = Some oj /\ cl_prio (o_class oj) = Some p)).
      { intros H'. split; [eapply Sorted, H'|]. destruct (inv_order _ _ I p l H') as [_ B]. intros j Hj.
        destruct (B j Hj) as [Hl (oj & E1 & E2)]. rewrite L. split; [auto|]. exists oj. auto. }
      destruct (o_prio o) as [q|] eqn:Eq; [|apply Old', H].
      apply order_insert_in in H; [|apply I]. destruct H as [[-> ->]|[_ H]]; [|apply Old', H]. split.
      * apply insert_sorted_sorted, SortAt.
      * intros j Hj. apply insert_sorted_in in Hj; [|apply SortAt]. destruct Hj as [->|[Hj _]].
        -- rewrite L. split; [auto|]. exists o. split; [exact Ei|exact Eq].
        -- destruct (order_at_in q (h_order h)) as [E|E]; [rewrite E in Hj; contradiction|].
           destruct (inv_order _ _ I _ _ E) as [_ B]. destruct (B j Hj) as [Hl (oj & E1 & E2)]. rewrite L. split; [auto|]. exists oj. auto.
    + intros j oj p Hl E Hp.
      change (exists l, In (p, l) (match o_prio o with Some p => order_insert (name_at h2) p i (h_order h) | None => h_order h end) /\ In j l).
      apply L in Hl as [->|Hl].
      * rewrite Ei in E. injection E as <-. change (o_prio o = Some p) in Hp. rewrite Hp. eexists. split.
        -- apply order_insert_in; [apply I|]. left. split; reflexivity.
        -- apply insert_sorted_in; [apply SortAt|]. auto.
      * apply Lo in E; [|exact Hl]. destruct (inv_written _ _ I j oj p Hl E Hp) as (l & H1 & H2).
        destruct (o_prio o) as [q|] eqn:Eq; [|eauto]. destruct (Z.eq_dec p q) as [->|Hne].
        -- eexists. split; [apply order_insert_in; [apply I|]; left; split; reflexivity|].
           apply insert_sorted_in; [apply SortAt|]. right. rewrite (order_at_eq _ _ _ (inv_order_keys _ _ I) H1). split; [exact H2|].
           unfold name_at. rewrite Ei, (Eo _ _ E). apply (Nn j oj Hl E).
        -- exists l. split; [|exact H2]. apply order_insert_in; [apply I|]. right. auto.
Qed.

Lemma register_all m : forall m0 h, is_dict (m0 ++ m) -> inv m0 h -> inv (m0 ++ m) (fold_left register_command m h).
Proof.
  induction m as [|[n k] m IH]; intros m0 h Hd I; cbn [fold_left]; [now rewrite app_nil_r|].
  change ((n, k) :: m) with ([(n, k)] ++ m). rewrite app_assoc. apply IH.
  - rewrite <- app_assoc. exact Hd.
  - apply register_inv; [|exact I]. unfold is_dict in *. rewrite !map_app in Hd. cbn in Hd. rewrite map_app. cbn.
    change (map fst m0 ++ n :: map fst m) with (map fst m0 ++ [n] ++ map fst m) in Hd. rewrite app_assoc in Hd.
    now apply NoDup_app_l in Hd.
Qed.

Lemma register_data_shape dm : forall h, shape h (fold_left register_data dm h).
Proof.
  induction dm as [|d dm IH]; intros h; cbn; [apply shape_refl|]. eapply shape_trans; [|apply IH]. split; auto.
Qed.

Lemma build_inv m dm : is_dict m -> inv m (build_handler m dm).
Proof.
  intros Hd. unfold build_handler. eapply inv_shape; [apply register_data_shape|].
  apply (register_all m []); [exact Hd|apply inv_empty].
Qed.

(** *** Resetting *)

Lemma serve_unique m h n k n' i o : inv m h -> is_dict m -> In (n, k) m -> unaliased m n ->
  assoc n (h_commands h) = Some (Some i) -> obj_at h i = Some o ->
  assoc n' (h_commands h) = Some (Some i) -> n' = n.
Proof.
  intros I Hd H U E Eo E'. assert (Hk : In n' (map fst m)).
  { rewrite <- (inv_keys _ _ I). apply assoc_key. eauto. }
  apply in_map_iff in Hk as ([x k'] & <- & Hk). cbn [fst] in *. eapply U; eauto.
  destruct (inv_serve _ _ I _ _ H) as (a & oa & A1 & A2 & A3). destruct (inv_serve _ _ I _ _ Hk) as (b & ob & B1 & B2 & B3).
  congruence.
Qed.

Lemma reset_spec m h n k : inv m h -> is_dict m -> In (n, k) m -> unaliased m n ->
  exists i o h2, identity h n = Some i /\ obj_at h i = Some o /\ o_name o = cl_name k /\
    reset_command n h = (h2, None) /\ inv m h2 /\
    h_commands h2 = put n (Some (length (h_objs h))) (h_commands h) /\
    h_attrs h2 = put (attr_name (cl_name k)) (Some (length (h_objs h))) (h_attrs h) /\
    h_dataclasses h2 = h_dataclasses h /\ h_line h2 = h_line h /\
    obj_at h2 (length (h_objs h)) = Some (new_obj (o_class o)) /\
    (forall j oj, obj_at h j = Some oj -> obj_at h2 j = Some oj).
Proof.
  intros I Hd H U. destruct (inv_serve _ _ I _ _ H) as (i & o & E1 & E2 & E3).
  set (j := length (h_objs h)). set (on := new_obj (o_class o)).
  set (h1 := set_command on h). set (h2 := set_commands (put n (Some j) (h_commands h1)) h1).
  assert (Ei : obj_at h2 j = Some on) by apply obj_at_new.
  assert (Eo : forall x ox, obj_at h x = Some ox -> obj_at h2 x = Some ox) by (intros; now apply obj_at_old).
  exists i, o, h2. split; [unfold identity; now rewrite E1|]. split; [exact E2|]. split; [exact E3|].
  split; [unfold reset_command; rewrite E1, E2; reflexivity|]. split; [|split; [reflexivity|split; [|auto]]].
  2:{ change (put (attr_name (o_name on)) (Some j) (h_attrs h) = put (attr_name (cl_name k)) (Some j) (h_attrs h)).
      rewrite <- E3. reflexivity. }
  assert (Old : forall x, live h x -> x <> j).
  { intros x Hl ->. destruct (live_obj _ _ _ I Hd Hl) as (o' & E). apply obj_at_lt in E. unfold j in E. lia. }
  assert (Hn : In n (map fst (h_commands h))) by (apply assoc_key; eauto).
  assert (L : forall x, live h2 x <-> x = j \/ (live h x /\ x <> i)).
  { intros x. unfold live. change (h_commands h2) with (put n (Some j) (h_commands h)). split.
    - intros (c & E). destruct (string_dec c n) as [->|Hne].
      + rewrite assoc_put_eq in E. injection E as <-. auto.
      + rewrite assoc_put_ne in E by exact Hne. right. split; [eauto|]. intros ->. apply Hne.
        eapply (serve_unique m h n k); eauto.
    - intros [->|[(c & E) Hx]]; [exists n; apply assoc_put_eq|]. exists c. rewrite assoc_put_ne; [exact E|].
      intros ->. congruence. }
  assert (Li : live h i) by (exists n; exact E1).
  assert (Lo : forall x ox, live h x -> obj_at h2 x = Some ox -> obj_at h x = Some ox).
  { intros x ox Hl E. apply obj_at_command in E as [[E _]|E]; [|exact E]. exfalso. eapply Old; eauto. }
  assert (Nh : forall x, live h x -> name_at h2 x = name_at h x).
  { intros x Hl. destruct (live_obj _ _ _ I Hd Hl) as (ox & E). unfold name_at. now rewrite (Eo _ _ E), E. }
  assert (Nj : name_at h2 j = name_at h2 i) by (unfold name_at; rewrite Ei, (Eo _ _ E2); reflexivity).
  assert (Sorted : forall p l, In (p, l) (h_order h) -> StronglySorted (lt_name (name_at h2)) l).
  { intros p l Hl. destruct (inv_order _ _ I p l Hl) as [A B]. clear Hl.
    assert (B' : forall x, In x l -> live h x) by (intros x Hx; now apply B). clear B.
    induction A as [|a l A IH Hf]; constructor.
    - apply IH. intros x Hx. apply B'. now right.
    - rewrite Forall_forall in *. intros x Hx. unfold lt_name. rewrite !Nh; [apply Hf, Hx| |]; apply B'; [now right|now left]. }
  assert (SortAt : forall p, StronglySorted (lt_name (name_at h2)) (order_at p (h_order h))).
  { intros p. destruct (order_at_in p (h_order h)) as [E|E]; [rewrite E; constructor|eapply Sorted, E]. }
  assert (Pr : o_prio on = cl_prio (o_class o)) by reflexivity.
  split.
  - change (h_commands h2) with (put n (Some j) (h_commands h)). rewrite put_keys by exact Hn. apply I.
  - intros n' k' H'. change (h_commands h2) with (put n (Some j) (h_commands h)). destruct (string_dec n' n) as [->|Hne].
    + exists j, on. rewrite assoc_put_eq. split; [reflexivity|]. split; [exact Ei|].
      destruct (inv_serve _ _ I _ _ H') as (x & ox & X1 & X2 & X3). unfold on, o_name. cbn. unfold o_name in X3. congruence.
    + rewrite assoc_put_ne by exact Hne. destruct (inv_serve _ _ I _ _ H') as (x & ox & X1 & X2 & X3). exists x, ox. auto.
  - intros x ox Hl E. apply L in Hl as [->|[Hl Hx]].
    + rewrite Ei in E. injection E as <-. cbn. eapply (inv_from _ _ I i o Li E2).
    + apply Lo in E; [|exact Hl]. eapply inv_from; eauto.
  - intros a b oa ob Ha Hb Ea Eb En. apply L in Ha as [->|[Ha Hai]]; apply L in Hb as [->|[Hb Hbi]]; auto.
    + exfalso. rewrite Ei in Ea. injection Ea as <-. apply Lo in Eb; [|exact Hb]. apply Hbi. symmetry.
      eapply (inv_uniq _ _ I i b o ob); eauto.
    + exfalso. rewrite Ei in Eb. injection Eb as <-. apply Lo in Ea; [|exact Ha]. apply Hai.
      eapply (inv_uniq _ _ I a i oa o); eauto.
    + eapply (inv_uniq _ _ I); eauto.
  - unfold h2, h1. cbn [set_commands set_command h_order]. destruct (o_prio on) as [p|]; [|apply I].
    apply order_insert_keys, I.
  - intros p l Hp. change (In (p, l) (match o_prio on with Some p => order_insert (name_at h2) p j (h_order h) | None => h_order h end)) in Hp.
    assert (Old' : (cl_prio (o_class o) <> Some p) -> In (p, l) (h_order h) -> StronglySorted (lt_name (name_at h2)) l /\
      (forall x, In x l -> live h2 x /\ exists ox, obj_at h2 x = Some ox /\ cl_prio (o_class ox) = Some p)).
    { intros Hq H'. split; [eapply Sorted, H'|]. destruct (inv_order _ _ I p l H') as [_ B]. intros x Hx.
      destruct (B x Hx) as [Hl (ox & X1 & X2)]. split; [|exists ox; auto]. apply L. right. split; [exact Hl|].
      intros ->. congruence. }
    rewrite Pr in Hp. destruct (cl_prio (o_class o)) as [q|] eqn:Eq; [|apply Old'; [discriminate|exact Hp]].
    apply order_insert_in in Hp; [|apply I]. destruct Hp as [[-> ->]|[Hq Hp]]; [|apply Old'; [congruence|exact Hp]]. split.
    + apply insert_sorted_sorted, SortAt.
    + intros x Hx. apply insert_sorted_in in Hx; [|apply SortAt]. destruct Hx as [->|[Hx Hxn]].
      * split; [apply L; auto|]. exists on. split; [exact Ei|exact Eq].
      * destruct (order_at_in q (h_order h)) as [E|E]; [rewrite E in Hx; contradiction|].
        destruct (inv_order _ _ I _ _ E) as [_ B]. destruct (B x Hx) as [Hl (ox & X1 & X2)]. split.
        -- apply L. right. split; [exact Hl|]. intros ->. apply Hxn. symmetry. exact Nj.
        -- exists ox. auto.
  - intros x ox p Hl E Hp.
    change (exists l, In (p, l) (match o_prio on with Some p => order_insert (name_at h2) p j (h_order h) | None => h_order h end) /\ In x l).
    apply L in Hl as [->|[Hl Hx]].
    + rewrite Ei in E. injection E as <-. change (o_prio on = Some p) in Hp. rewrite Hp. eexists. split.
      * apply order_insert_in; [apply I|]. left. split; reflexivity.
      * apply insert_sorted_in; [apply SortAt|]. auto.
    + apply Lo in E; [|exact Hl]. destruct (inv_written _ _ I x ox p Hl E Hp) as (l & H1 & H2).
      destruct (o_prio on) as [q|] eqn:Eq; [|eauto]. destruct (Z.eq_dec p q) as [->|Hne].
      * eexists. split; [apply order_insert_in; [apply I|]; left; split; reflexivity|].
        apply insert_sorted_in; [apply SortAt|]. right. rewrite (order_at_eq _ _ _ (inv_order_keys _ _ I) H1). split; [exact H2|].
        rewrite Nj, !Nh by auto. unfold name_at. rewrite E, E2. intros X. apply Hx. eapply (inv_uniq _ _ I x i ox o); eauto.
      * exists l. split; [|exact H2]. apply order_insert_in; [apply I|]. right. auto.
Qed.

Lemma do_op_inv m h o : is_dict m -> op_ok m o -> inv m h -> inv m (do_op h o).
Proof.
  intros Hd Ho I. destruct o as [l a n|n|a kw]; cbn [do_op].
  - eapply inv_shape; [apply handle_shape|exact I].
  - destruct Ho as [Hn U]. apply in_map_iff in Hn as ([x k] & <- & H).
    destruct (reset_spec m h x k I Hd H U) as (i & o & h2 & _ & _ & _ & E & I2 & _). cbn [fst]. rewrite E. exact I2.
  - eapply inv_shape; [apply call_shape|exact I].
Qed.
Lemma in_use_inv m h : is_dict m -> in_use m h -> inv m h.
Proof.
  intros Hd (dm & ops & Ho & ->). revert Ho. generalize (build_inv m dm Hd). generalize (build_handler m dm).
  induction ops as [|o ops IH]; intros h I Ho; cbn [fold_left]; [exact I|]. inversion Ho; subst.
  apply IH; [|assumption]. apply do_op_inv; assumption.
Qed.
Lemma in_use_step m h o : op_ok m o -> in_use m h -> in_use m (do_op h o).
Proof.
  intros Ho (dm & ops & Hops & ->). exists dm, (ops ++ [o]). split; [apply Forall_app; auto|]. now rewrite fold_left_app.
Qed.

(** ** Output *)

Definition pick (h : handler) (i : nat) : list cmdobj := match obj_at h i with Some o => [o] | None => [] end.
Definition written_ids (h : handler) : list nat := concat (map snd (sort_prio (h_order h))).
Definition written (h : handler) : list cmdobj := flat_map (pick h) (written_ids h).

Lemma concat_all_app l m : concat_all (l ++ m) = (concat_all l ++ concat_all m)%string.
Proof. induction l as [|x l IH]; cbn; [reflexivity|]. now rewrite IH, app_assoc_s. Qed.
Lemma str_at_pick h i : str_at h i = concat_all (map o_str (pick h i)).
Proof. unfold str_at, pick. destruct (obj_at h i); cbn; [now rewrite app_nil_r_s|reflexivity]. Qed.
Lemma commands_str_written h : commands_str h = concat_all (map o_str (written h)).
Proof.
  unfold commands_str, written, written_ids. induction (sort_prio (h_order h)) as [|[p l] r IH]; cbn; [reflexivity|].
  rewrite flat_map_app, map_app, concat_all_app, IH. f_equal. clear. induction l as [|i l IH]; cbn; [reflexivity|].
  rewrite map_app, concat_all_app, IH, str_at_pick. reflexivity.
Qed.

Lemma insert_prio_perm x l : Permutation (x :: l) (insert_prio x l).
Proof.
  induction l as [|y l IH]; cbn; [reflexivity|]. destruct (fst x <=? fst y)%Z; [reflexivity|].
  rewrite perm_swap. now constructor.
Qed.
Lemma sort_prio_perm l : Permutation l (sort_prio l).
Proof. induction l as [|x l IH]; cbn; [reflexivity|]. rewrite <- insert_prio_perm. now constructor. Qed.

Definition lt_key (x y : Z * list nat) : Prop := (fst x < fst y)%Z.
Lemma insert_prio_sorted x l : ~ In (fst x) (map fst l) -> StronglySorted lt_key l -> StronglySorted lt_key (insert_prio x l).
Proof.
  induction l as [|y l IH]; intros Hx Hs; cbn [insert_prio]; [repeat constructor|].
  inversion Hs as [|? ? Hl Hf]; subst. cbn in Hx. destruct (Z.leb_spec (fst x) (fst y)) as [L|L].
  - assert (fst x < fst y)%Z by (destruct (Z.eq_dec (fst x) (fst y)); [exfalso; auto|lia]).
    constructor; [exact Hs|]. constructor; [exact H|]. rewrite Forall_forall in *. intros z Hz. specialize (Hf z Hz). unfold lt_key in *. lia.
  - constructor; [apply IH; auto|]. rewrite Forall_forall in *. intros z Hz.
    apply (Permutation_in _ (Permutation_sym (insert_prio_perm x l))) in Hz as [<-|Hz]; [exact L|auto].
Qed.
Lemma sort_prio_sorted l : NoDup (map fst l) -> StronglySorted lt_key (sort_prio l).
Proof.
  induction l as [|x l IH]; intros H; cbn; [constructor|]. inversion H as [|? ? Hx Hl]; subst.
  apply insert_prio_sorted; [|auto]. intros X. apply Hx.
  eapply Permutation_in; [|exact X]. apply Permutation_map, Permutation_sym, sort_prio_perm.
Qed.

Lemma sorted_app {A} (R : A -> A -> Prop) l m : StronglySorted R l -> StronglySorted R m ->
  (forall x y, In x l -> In y m -> R x y) -> StronglySorted R (l ++ m).
Proof.
  induction 1 as [|a l Hl IH Hf]; intros Hm Hx; cbn; [exact Hm|]. constructor.
  - apply IH; [exact Hm|]. intros x y X Y. apply Hx; [now right|exact Y].
  - rewrite Forall_forall in *. intros y Hy. apply in_app_iff in Hy as [Hy|Hy]; [auto|]. apply Hx; [now left|exact Hy].
Qed.

Lemma written_sorted m h : inv m h -> StronglySorted written_before (written h).
Proof.
  intros I. unfold written, written_ids.
  assert (B : forall p l, In (p, l) (sort_prio (h_order h)) -> StronglySorted (lt_name (name_at h)) l /\
    forall i, In i l -> exists o, obj_at h i = Some o /\ cl_prio (o_class o) = Some p).
  { intros p l H. apply (Permutation_in _ (Permutation_sym (sort_prio_perm _))) in H.
    destruct (inv_order _ _ I p l H) as [B1 B2]. split; [exact B1|]. intros i Hi. now apply B2. }
  pose proof (sort_prio_sorted _ (inv_order_keys _ _ I)) as S. clear I.
  assert (M : forall r, (forall p l, In (p, l) r -> forall i, In i l -> exists o, obj_at h i = Some o /\ cl_prio (o_class o) = Some p) ->
    forall o, In o (flat_map (pick h) (concat (map snd r))) -> exists p l, In (p, l) r /\ cl_prio (o_class o) = Some p).
  { intros r Hr o Ho. apply in_flat_map in Ho as (i & Hi & Ho). apply in_concat in Hi as (l & Hl & Hi).
    apply in_map_iff in Hl as ([p l'] & <- & Hl). destruct (Hr p l' Hl i Hi) as (o' & E1 & E2). unfold pick in Ho.
    rewrite E1 in Ho. destruct Ho as [<-|[]]. exists p, l'. auto. }
  induction S as [|[p l] r S IH Hf]; cbn [map concat flat_map]; [constructor|].
  rewrite flat_map_app. apply sorted_app.
  - destruct (B p l) as [B1 B2]; [now left|]. clear - B1 B2. cbn [snd]. induction B1 as [|i l B1 IH Hf]; cbn [flat_map]; [constructor|].
    assert (B2' : forall j, In j l -> exists o, obj_at h j = Some o /\ cl_prio (o_class o) = Some p) by (intros; apply B2; now right).
    destruct (B2 i) as (o & E1 & E2); [now left|]. unfold pick at 1. rewrite E1. cbn. constructor; [auto|].
    rewrite Forall_forall in *. intros o' Ho'. apply in_flat_map in Ho' as (j & Hj & Ho'). destruct (B2' j Hj) as (oj & F1 & F2).
    unfold pick in Ho'. rewrite F1 in Ho'. destruct Ho' as [<-|[]]. specialize (Hf j Hj). unfold lt_name, name_at in Hf.
    rewrite E1, F1 in Hf. exists p, p. auto.
  - apply IH. intros q l' H. apply B. now right.
  - intros a b Ha Hb.
    destruct (M [(p, l)]) with (o := a) as (p' & l' & H1 & H2).
    { intros q l' [E|[]]. apply B. now left. }
    { cbn. rewrite app_nil_r. exact Ha. }
    destruct H1 as [E|[]]. injection E as <- <-.
    destruct (M r) with (o := b) as (q & l'' & H3 & H4).
    { intros q l' Hq. apply B. now right. }
    { exact Hb. }
    exists p, q. split; [exact H2|]. split; [exact H4|]. left. rewrite Forall_forall in Hf. apply (Hf _ H3).
Qed.

Lemma written_in m h : inv m h -> is_dict m -> forall o,
  In o (written h) <-> (exists n, served h n = Some o) /\ cl_prio (o_class o) <> None.
Proof.
  intros I Hd o. unfold written, written_ids. rewrite in_flat_map. split.
  - intros (i & Hi & Ho). apply in_concat in Hi as (l & Hl & Hi). apply in_map_iff in Hl as ([p l'] & <- & Hl).
    apply (Permutation_in _ (Permutation_sym (sort_prio_perm _))) in Hl. destruct (inv_order _ _ I p l' Hl) as [_ B].
    destruct (B i Hi) as [(n & En) (o' & E1 & E2)]. unfold pick in Ho. rewrite E1 in Ho. destruct Ho as [<-|[]].
    split; [|congruence]. exists n. unfold served, identity. rewrite En. exact E1.
  - intros [(n & Hn) Hp]. unfold served, identity in Hn. destruct (assoc n (h_commands h)) as [[i|]|] eqn:E; try discriminate.
    destruct (cl_prio (o_class o)) as [p|] eqn:Ep; [|congruence].
    destruct (inv_written _ _ I i o p) as (l & H1 & H2); auto.
    { exists n. exact E. }
    exists i. split; [|unfold pick; rewrite Hn; cbn; auto]. apply in_concat. exists l. split; [|exact H2].
    apply in_map_iff. exists (p, l). split; [reflexivity|]. eapply Permutation_in; [apply sort_prio_perm|exact H1].
Qed.

Lemma written_before_irrefl a : ~ written_before a a.
Proof.
  intros (p & q & E1 & E2 & [H|[_ H]]); [rewrite E1 in E2; injection E2 as ->; lia|]. rewrite str_ltb_irrefl in H. discriminate.
Qed.
Lemma written_before_trans a b c : written_before a b -> written_before b c -> written_before a c.
Proof.
  intros (p & q & E1 & E2 & H) (q' & r & E3 & E4 & H'). rewrite E2 in E3. injection E3 as <-. exists p, r. split; [auto|]. split; [auto|].
  destruct H as [H|[-> H]], H' as [H'|[<- H']]; auto; [left; lia|]. right. split; [auto|]. eapply str_ltb_trans; eauto.
Qed.
Lemma sorted_same_set l : forall m, StronglySorted written_before l -> StronglySorted written_before m ->
  (forall o, In o l <-> In o m) -> l = m.
Proof.
  induction l as [|a l IH]; intros m Hl Hm H.
  - destruct m as [|b m]; [reflexivity|]. exfalso. apply (proj2 (H b)). now left.
  - destruct m as [|b m]; [exfalso; apply (proj1 (H a)); now left|].
    inversion Hl as [|? ? Hl1 Hl2]; inversion Hm as [|? ? Hm1 Hm2]; subst. rewrite Forall_forall in *.
    assert (a = b) as <-.
    { destruct (proj1 (H a) (or_introl eq_refl)) as [E|E]; [auto|]. destruct (proj2 (H b) (or_introl eq_refl)) as [E'|E']; [auto|].
      exfalso. apply (written_before_irrefl a). eapply written_before_trans; [apply Hl2, E'|apply Hm2, E]. }
    f_equal. apply IH; auto. intros o. split; intros Ho.
    + destruct (proj1 (H o) (or_intror Ho)) as [<-|E]; [|exact E]. exfalso. eapply written_before_irrefl, Hl2, Ho.
    + destruct (proj2 (H o) (or_intror Ho)) as [<-|E]; [|exact E]. exfalso. eapply written_before_irrefl, Hm2, Ho.
Qed.

(** ** Attributes *)

Record ainv (h : handler) : Prop := mkAinv {
  ainv_live : forall i o, live h i -> obj_at h i = Some o -> assoc (attr_name (o_name o)) (h_attrs h) = Some (Some i);
  ainv_attr : forall a r, assoc a (h_attrs h) = Some r -> exists i o, r = Some i /\ live h i /\ obj_at h i = Some o /\ a = attr_name (o_name o) }.

Lemma ainv_shape h h' : shape h h' -> ainv h -> ainv h'.
Proof.
  intros S [A B]. pose proof (shape_obj _ _ S) as So. pose proof (shape_obj _ _ (shape_sym _ _ S)) as So'.
  assert (L : forall i, live h' i <-> live h i) by (intros i; unfold live; now rewrite (sh_commands _ _ S)).
  split.
  - intros i o Hl E. rewrite L in Hl. destruct (So i o E) as (o' & E1 & E2). rewrite <- (sh_attrs _ _ S).
    unfold o_name. rewrite <- E2. now apply A.
  - intros a r E. rewrite <- (sh_attrs _ _ S) in E. destruct (B a r E) as (i & o & -> & Hl & E1 & ->).
    destruct (So' i o E1) as (o' & F1 & F2). exists i, o'. rewrite L. unfold o_name. rewrite F2. auto.
Qed.

Lemma attr_obj_spec m h : inv m h -> is_dict m -> ainv h -> forall a o,
  attr_obj h a = Some o <-> exists n, served h n = Some o /\ attr_name (o_name o) = a.
Proof.
  intros I Hd [A B] a o. unfold attr_obj. split.
  - intros H. destruct (assoc a (h_attrs h)) as [r|] eqn:E; [|discriminate]. destruct (B a r E) as (i & o' & -> & (n & En) & E1 & ->).
    rewrite E1 in H. injection H as <-. exists n. unfold served, identity. rewrite En. auto.
  - intros (n & H & <-). unfold served, identity in H. destruct (assoc n (h_commands h)) as [[i|]|] eqn:E; try discriminate.
    rewrite (A i o); [exact H| |exact H]. exists n. exact E.
Qed.

Lemma register_ainv m h n k : is_dict (m ++ [(n, k)]) -> own_attribute (m ++ [(n, k)]) -> inv m h -> ainv h ->
  ainv (register_command h (n, k)).
Proof.
  intros Hd Ho I [A B]. pose proof (register_inv _ _ _ _ Hd I) as I'. revert I'.
  assert (Hm : is_dict m).
  { unfold is_dict in *. rewrite map_app in Hd. now apply NoDup_app_l in Hd. }
  assert (Hn : ~ In n (map fst (h_commands h))).
  { rewrite (inv_keys _ _ I). unfold is_dict in Hd. rewrite map_app in Hd. cbn in Hd.
    apply NoDup_remove_2 in Hd. now rewrite app_nil_r in Hd. }
  cbn [register_command]. pose proof (find_class_spec h (cl_name k) (h_commands h)) as F.
  destruct (find_class h (cl_name k) (h_commands h)) as [i|]; intros I'.
  - destruct F as (c & Fc & Fn).
    assert (Li : live h i).
    { exists c. apply (In_dict (h_commands h)); [|exact Fc]. unfold is_dict. now rewrite (inv_keys _ _ I). }
    assert (L : forall j, live (set_commands (put n (Some i) (h_commands h)) h) j <-> live h j).
    { intros j. unfold live. cbn [set_commands h_commands]. rewrite put_new by exact Hn. split.
      - intros (x & E). rewrite assoc_app_key in E by exact Hn. destruct (String.eqb_spec x n); [|eauto]. injection E as <-. exact Li.
      - intros (x & E). exists x. rewrite assoc_app_key by exact Hn. destruct (String.eqb_spec x n) as [->|]; [|exact E].
        exfalso. apply Hn. apply assoc_key. eauto. }
    split.
    + intros j o Hl. rewrite L in Hl. now apply A.
    + intros a r E. destruct (B a r E) as (j & o & -> & Hl & X). exists j, o. rewrite L. auto.
  - set (o := new_obj k) in *. set (i := length (h_objs h)) in *. set (h1 := set_command o h) in *.
    set (h2 := set_commands (put n (Some i) (h_commands h1)) h1) in *.
    assert (K : h_commands h2 = h_commands h ++ [(n, Some i)]).
    { unfold h2, h1. cbn [set_commands set_command h_commands]. now rewrite put_new. }
    assert (Ka : h_attrs h2 = put (attr_name (cl_name k)) (Some i) (h_attrs h)) by reflexivity.
    assert (Ei : obj_at h2 i = Some o) by apply obj_at_new.
    assert (Li : live h2 i).
    { exists n. rewrite K, assoc_app_key, String.eqb_refl by exact Hn. reflexivity. }
    assert (L1 : forall j, live h j -> live h2 j).
    { intros j (x & E). exists x. rewrite K, assoc_app_key by exact Hn. destruct (String.eqb_spec x n) as [->|]; [|exact E].
      exfalso. apply Hn. apply assoc_key. eauto. }
    assert (Uq : forall j oj, live h2 j -> obj_at h2 j = Some oj -> attr_name (o_name oj) = attr_name (cl_name k) -> j = i).
    { intros j oj Hl E En. destruct (inv_from _ _ I' j oj Hl E) as (n' & k' & H1 & H2).
      eapply (inv_uniq _ _ I' j i oj o); eauto. unfold o_name. cbn. eapply Ho; [rewrite H2; exact H1|apply in_app_iff; right; left; reflexivity|exact En]. }
    split.
    + intros j oj Hl E. rewrite Ka. destruct (string_dec (attr_name (o_name oj)) (attr_name (cl_name k))) as [En|En].
      * rewrite (Uq j oj Hl E En). rewrite En. apply assoc_put_eq.
      * rewrite assoc_put_ne by exact En. destruct Hl as (x & Hx). rewrite K, assoc_app_key in Hx by exact Hn.
        destruct (String.eqb x n).
        -- injection Hx as <-. rewrite Ei in E. injection E as <-. exfalso. now apply En.
        -- assert (Hl : live h j) by (exists x; exact Hx). apply A; [exact Hl|].
           apply obj_at_command in E as [[-> _]|E]; [|exact E]. exfalso. destruct (live_obj _ _ _ I Hm Hl) as (o' & E').
           apply obj_at_lt in E'. unfold i in E'. lia.
    + intros a r E. rewrite Ka in E. destruct (string_dec a (attr_name (cl_name k))) as [->|En].
      * rewrite assoc_put_eq in E. injection E as <-. exists i, o. auto.
      * rewrite assoc_put_ne in E by exact En. destruct (B a r E) as (j & oj & -> & Hl & E1 & E2). exists j, oj.
        split; [reflexivity|]. split; [auto|]. split; [|exact E2]. now apply obj_at_old.
Qed.

Lemma own_app m1 m2 : own_attribute (m1 ++ m2) -> own_attribute m1.
Proof. intros H n k n' k' A B. eapply H; apply in_app_iff; eauto. Qed.

Lemma register_all_ainv m : forall m0 h, is_dict (m0 ++ m) -> own_attribute (m0 ++ m) -> inv m0 h -> ainv h ->
  ainv (fold_left register_command m h).
Proof.
  induction m as [|[n k] m IH]; intros m0 h Hd Ho I A; cbn [fold_left]; [exact A|].
  change ((n, k) :: m) with ([(n, k)] ++ m) in *. rewrite app_assoc in Hd, Ho.
  assert (Hd' : is_dict (m0 ++ [(n, k)])) by (unfold is_dict in *; rewrite map_app in Hd; now apply NoDup_app_l in Hd).
  eapply IH; [exact Hd|exact Ho|now apply register_inv|]. eapply register_ainv; eauto using own_app.
Qed.
Lemma build_ainv m dm : is_dict m -> own_attribute m -> ainv (build_handler m dm).
Proof.
  intros Hd Ho. unfold build_handler. eapply ainv_shape; [apply register_data_shape|].
  eapply (register_all_ainv m []); eauto using inv_empty. split; [|discriminate]. intros i o (n & H). discriminate.
Qed.

Lemma reset_ainv m h n : is_dict m -> own_attribute m -> op_ok m (HReset n) -> inv m h -> ainv h -> ainv (fst (reset_command n h)).
Proof.
  intros Hd Ho [Hn U] I [A B]. apply in_map_iff in Hn as ([x k] & <- & H). cbn [fst] in *.
  destruct (reset_spec m h x k I Hd H U) as (i & o & h2 & Id & E1 & E2 & -> & I2 & Kc & Ka & _ & _ & Ej & Eo). cbn [fst].
  set (j := length (h_objs h)) in *.
  assert (Lj : live h2 j) by (exists x; rewrite Kc; apply assoc_put_eq).
  assert (Id' : assoc x (h_commands h) = Some (Some i)).
  { unfold identity in Id. destruct (assoc x (h_commands h)); [now rewrite Id|discriminate]. }
  split.
  - intros y oy Hl E. rewrite Ka. destruct (string_dec (attr_name (o_name oy)) (attr_name (cl_name k))) as [En|En].
    + rewrite En, assoc_put_eq. do 2 f_equal. eapply (inv_uniq _ _ I2); [exact Lj|exact Hl|exact Ej|exact E|].
      destruct (inv_from _ _ I2 y oy Hl E) as (n' & k' & H1 & H2). unfold o_name at 1. cbn.
      change (o_name o = o_name oy). rewrite E2. unfold o_name. rewrite H2. symmetry. eapply Ho; eauto. rewrite <- H2. exact En.
    + rewrite assoc_put_ne by exact En. destruct Hl as (c & Hc). rewrite Kc in Hc. destruct (string_dec c x) as [->|Hne].
      * rewrite assoc_put_eq in Hc. injection Hc as <-. rewrite Ej in E. injection E as <-. exfalso. apply En.
        unfold o_name in E2 |- *. cbn. now rewrite E2.
      * rewrite assoc_put_ne in Hc by exact Hne. assert (Hl : live h y) by (exists c; exact Hc). apply A; [exact Hl|].
        destruct (live_obj _ _ _ I Hd Hl) as (oy' & Ey). rewrite (Eo _ _ Ey) in E. now injection E as <-.
  - intros a r E. rewrite Ka in E. destruct (string_dec a (attr_name (cl_name k))) as [->|En].
    + rewrite assoc_put_eq in E. injection E as <-. exists j, (new_obj (o_class o)). split; [reflexivity|].
      split; [exact Lj|]. split; [exact Ej|]. unfold o_name in E2 |- *. cbn. now rewrite E2.
    + rewrite assoc_put_ne in E by exact En. destruct (B a r E) as (y & oy & -> & (c & Hc) & Ey & Ea). exists y, oy.
      split; [reflexivity|]. split; [|auto]. exists c. rewrite Kc. rewrite assoc_put_ne; [exact Hc|]. intros ->.
      rewrite Hc in Id'. injection Id' as ->. rewrite E1 in Ey. injection Ey as <-. apply En. now rewrite Ea, E2.
Qed.

(** ** Fresh objects *)

Definition all_new (h : handler) : Prop := forall i o, obj_at h i = Some o -> o = new_obj (o_class o).
Lemma register_new h nk : all_new h -> all_new (register_command h nk).
Proof.
  intros H. destruct nk as [n k]. cbn. destruct (find_class _ _ _); [exact H|]. intros i o E.
  apply obj_at_command in E as [[_ ->]|E]; [reflexivity|eauto].
Qed.
Lemma build_new m dm : all_new (build_handler m dm).
Proof.
  unfold build_handler. assert (D : forall dm h, all_new h -> all_new (fold_left register_data dm h)).
  { clear. induction dm as [|d dm IH]; intros h H; cbn; [exact H|]. apply IH. exact H. }
  apply D. assert (R : forall m h, all_new h -> all_new (fold_left register_command m h)).
  { clear. induction m as [|d m IH]; intros h H; cbn; [exact H|]. apply IH, register_new, H. }
  apply R. intros i o E. unfold obj_at in E. destruct i; discriminate.
Qed.

Lemma served_inv m h : inv m h -> is_dict m -> forall n,
  match assoc n m with
  | Some k => exists i o, identity h n = Some i /\ obj_at h i = Some o /\ served h n = Some o /\ o_name o = cl_name k
  | None => identity h n = None /\ served h n = None
  end.
Proof.
  intros I Hd n. destruct (assoc n m) as [k|] eqn:E.
  - apply assoc_In in E. destruct (inv_serve _ _ I n k E) as (i & o & E1 & E2 & E3). exists i, o. unfold served, identity. rewrite E1. auto.
  - apply assoc_none in E. rewrite <- (inv_keys _ _ I) in E. apply assoc_none in E. unfold served, identity. rewrite E. auto.
Qed.

Lemma build_served m dm n k : is_dict m -> one_class_per_name m -> In (n, k) m -> served (build_handler m dm) n = Some (new_obj k).
Proof.
  intros Hd H1 H. pose proof (build_inv m dm Hd) as I. pose proof (served_inv _ _ I Hd n) as S.
  rewrite (In_dict _ Hd _ _ H) in S. destruct S as (i & o & E1 & E2 & E3 & E4). rewrite E3. f_equal.
  rewrite (build_new m dm i o E2). f_equal.
  destruct (inv_from _ _ I i o) as (n' & k' & H2 & H3); [|exact E2|].
  - exists n. unfold identity in E1. destruct (assoc n (h_commands (build_handler m dm))); [now rewrite E1|discriminate].
  - rewrite H3. eapply H1; eauto. rewrite <- H3. exact E4.
Qed.

(** ** Changing one object *)

Lemma served_set m h i o o' : inv m h -> is_dict m -> live h i -> obj_at h i = Some o -> forall n,
  served (set_obj i o' h) n =
  match served h n with
  | Some x => if String.eqb (o_name x) (o_name o) then Some o' else Some x
  | None => None
  end.
Proof.
  intros I Hd Hl E n. unfold served, identity. cbn [set_obj h_commands].
  destruct (assoc n (h_commands h)) as [[j|]|] eqn:Ej; try reflexivity.
  assert (Lj : live h j) by (exists n; exact Ej). destruct (live_obj _ _ _ I Hd Lj) as (oj & Eo). rewrite Eo.
  destruct (String.eqb_spec (o_name oj) (o_name o)) as [En|En].
  - assert (j = i) as -> by (eapply (inv_uniq _ _ I); eauto). eapply obj_at_set_eq; eauto.
  - rewrite obj_at_set_ne; [exact Eo|]. intros ->. rewrite E in Eo. injection Eo as <-. now apply En.
Qed.

(** ** Handlers made from the same map in another order *)

Record alike (m m' : list (string * cclass)) (h h' : handler) : Prop := mkAlike {
  al_served : forall n, served h n = served h' n;
  al_data : h_dataclasses h = h_dataclasses h';
  al_line : h_line h = h_line h';
  al_inv : inv m h; al_inv' : inv m' h'; al_ainv : ainv h; al_ainv' : ainv h' }.

Lemma option_ext {A} (x y : option A) : (forall a, x = Some a <-> y = Some a) -> x = y.
Proof.
  intros H. destruct x as [a|].
  - symmetry. now apply H.
  - destruct y as [b|]; [|reflexivity]. now apply H.
Qed.
Lemma alike_attr m m' h h' : is_dict m -> is_dict m' -> alike m m' h h' -> forall a, attr_obj h a = attr_obj h' a.
Proof.
  intros Hd Hd' [S _ _ I I' A A'] a. apply option_ext. intros o.
  rewrite (attr_obj_spec m h I Hd A), (attr_obj_spec m' h' I' Hd' A').
  split; intros (n & H & E); exists n; [rewrite <- S|rewrite S]; auto.
Qed.
Lemma alike_view m m' h h' : is_dict m -> is_dict m' -> alike m m' h h' -> view_of h = view_of h'.
Proof.
  intros Hd Hd' A. unfold view_of. rewrite (al_data _ _ _ _ A). f_equal. apply map_ext. intros n.
  now rewrite (alike_attr _ _ _ _ Hd Hd' A).
Qed.

Lemma alike_set m m' h h' i i' o o' : is_dict m -> is_dict m' -> alike m m' h h' -> live h i -> live h' i' ->
  obj_at h i = Some o -> obj_at h' i' = Some o -> o_class o' = o_class o -> alike m m' (set_obj i o' h) (set_obj i' o' h').
Proof.
  intros Hd Hd' A L L' E E' Ec. pose proof (shape_set _ _ _ _ E Ec) as S. pose proof (shape_set _ _ _ _ E' Ec) as S'.
  split; try apply A.
  - intros n. rewrite (served_set m h i o) by (auto; apply A). rewrite (served_set m' h' i' o) by (auto; apply A).
    now rewrite (al_served _ _ _ _ A).
  - eapply inv_shape; [exact S|apply A].
  - eapply inv_shape; [exact S'|apply A].
  - eapply ainv_shape; [exact S|apply A].
  - eapply ainv_shape; [exact S'|apply A].
Qed.

Lemma alike_served m m' h h' n : is_dict m -> is_dict m' -> alike m m' h h' ->
  (served h n = None /\ assoc n (h_commands h) = None /\ assoc n (h_commands h') = None) \/
  exists i i' o, assoc n (h_commands h) = Some (Some i) /\ assoc n (h_commands h') = Some (Some i') /\
    obj_at h i = Some o /\ obj_at h' i' = Some o /\ served h n = Some o.
Proof.
  intros Hd Hd' A. pose proof (al_served _ _ _ _ A n) as S.
  pose proof (served_inv _ _ (al_inv _ _ _ _ A) Hd n) as P. pose proof (served_inv _ _ (al_inv' _ _ _ _ A) Hd' n) as P'.
  destruct (assoc n m) as [k|] eqn:E.
  - destruct P as (i & o & P1 & P2 & P3 & _). right. destruct (assoc n m') as [k'|].
    + destruct P' as (i' & o' & P1' & P2' & P3' & _). rewrite P3, P3' in S. injection S as <-. exists i, i', o.
      unfold identity in P1, P1'.
      destruct (assoc n (h_commands h)) as [r|]; [|discriminate]. destruct (assoc n (h_commands h')) as [r'|]; [|discriminate].
      subst r r'. auto.
    + destruct P' as [_ P']. congruence.
  - destruct P as [_ P]. left. rewrite P in *. split; [reflexivity|]. destruct (assoc n m') as [k'|] eqn:E'.
    + destruct P' as (i' & o' & _ & _ & P' & _). congruence.
    + apply assoc_none in E. apply assoc_none in E'. rewrite <- (inv_keys _ _ (al_inv _ _ _ _ A)) in E.
      rewrite <- (inv_keys _ _ (al_inv' _ _ _ _ A)) in E'. now rewrite <- !assoc_none in *.
Qed.

Lemma alike_dispatch m m' h h' args ln : is_dict m -> is_dict m' -> alike m m' h h' ->
  snd (dispatcher h args ln) = snd (dispatcher h' args ln) /\
  alike m m' (fst (dispatcher h args ln)) (fst (dispatcher h' args ln)).
Proof.
  intros Hd Hd' A. unfold dispatcher. destruct args as [|cmd rest]; [auto|].
  destruct (alike_served m m' h h' cmd Hd Hd' A) as [(_ & -> & ->)|(i & i' & o & E & E' & Eo & Eo' & _)]; [auto|].
  rewrite E, E', Eo, Eo'. cbv zeta. rewrite <- (al_line _ _ _ _ A).
  set (a := stamp cmd (h_line h) ln (o_attrs o)). set (o1 := mkObj (o_class o) a (o_data o)).
  assert (L : live h i) by (exists cmd; exact E). assert (L' : live h' i') by (exists cmd; exact E').
  assert (A1 : alike m m' (set_obj i o1 h) (set_obj i' o1 h')) by (eapply alike_set; eauto).
  rewrite <- (alike_view _ _ _ _ Hd Hd' A1).
  pose proof (obj_at_set_eq i o o1 h Eo) as F. pose proof (obj_at_set_eq i' o o1 h' Eo') as F'.
  destruct (cl_parse _ _ _ _ _) as [[a' d'] [r|e]]; cbn [fst snd]; (split; [reflexivity|]);
    eapply alike_set; eauto.
Qed.

Lemma reset_served m h n k : inv m h -> is_dict m -> In (n, k) m -> unaliased m n ->
  exists o h2, served h n = Some o /\ reset_command n h = (h2, None) /\ inv m h2 /\
    served h2 n = Some (new_obj (o_class o)) /\ (forall n', n' <> n -> served h2 n' = served h n') /\
    attr_obj h2 (attr_name (cl_name k)) = Some (new_obj (o_class o)) /\
    (forall a, a <> attr_name (cl_name k) -> (forall x, assoc a (h_attrs h) = Some x -> exists i o, x = Some i /\ obj_at h i = Some o) ->
       attr_obj h2 a = attr_obj h a) /\
    h_dataclasses h2 = h_dataclasses h /\ h_line h2 = h_line h.
Proof.
  intros I Hd H U. destruct (reset_spec m h n k I Hd H U) as (i & o & h2 & Id & E1 & E2 & E3 & I2 & Kc & Ka & Kd & Kl & Ej & Eo).
  exists o, h2. split; [unfold served; now rewrite Id|]. split; [exact E3|]. split; [exact I2|].
  split; [unfold served, identity; now rewrite Kc, assoc_put_eq|]. split.
  { intros n' Hne. unfold served, identity. rewrite Kc, assoc_put_ne by exact Hne.
    destruct (assoc n' (h_commands h)) as [[j|]|] eqn:E; try reflexivity.
    assert (L : live h j) by (exists n'; exact E). destruct (live_obj _ _ _ I Hd L) as (oj & Hj). rewrite Hj. now apply Eo. }
  split; [unfold attr_obj; now rewrite Ka, assoc_put_eq|]. split; [|auto].
  intros a Hne Hx. unfold attr_obj. rewrite Ka, assoc_put_ne by exact Hne. destruct (assoc a (h_attrs h)) as [x|]; [|reflexivity].
  destruct (Hx x eq_refl) as (j & oj & -> & Hj). rewrite Hj. now apply Eo.
Qed.

Lemma alike_op m m' h h' o : is_dict m -> is_dict m' -> Permutation m m' -> own_attribute m ->
  op_ok m o -> alike m m' h h' -> alike m m' (do_op h o) (do_op h' o).
Proof.
  intros Hd Hd' Hp Ho Hk A.
  assert (Ho' : own_attribute m').
  { intros n k n' k' X Y. eapply Ho; eapply Permutation_in; [apply Permutation_sym, Hp|exact X|apply Permutation_sym, Hp|exact Y]. }
  destruct o as [l a ln|n|a kw]; cbn [do_op].
  - assert (A1 : alike m m' (set_line l h) (set_line l h')).
    { destruct A as [A1 A2 A3 A4 A5 A6 A7]. split; auto; try (eapply inv_shape; [apply set_line_shape|assumption]);
        (eapply ainv_shape; [apply set_line_shape|assumption]). }
    apply (alike_dispatch m m' _ _ a ln Hd Hd' A1).
  - assert (Hk' : op_ok m' (HReset n)).
    { destruct Hk as [H1 H2]. split.
      - eapply Permutation_in; [apply Permutation_map, Hp|exact H1].
      - intros k n' k' X Y. eapply H2; eapply Permutation_in; [apply Permutation_sym, Hp|exact X|apply Permutation_sym, Hp|exact Y]. }
    pose proof (reset_ainv m h n Hd Ho Hk (al_inv _ _ _ _ A) (al_ainv _ _ _ _ A)) as R1.
    pose proof (reset_ainv m' h' n Hd' Ho' Hk' (al_inv' _ _ _ _ A) (al_ainv' _ _ _ _ A)) as R2.
    destruct Hk as [H1 H2], Hk' as [H1' H2']. apply in_map_iff in H1 as ([x k] & <- & H1). cbn [fst] in *.
    assert (H1'' : In (x, k) m') by (eapply Permutation_in; eauto).
    destruct (reset_served m h x k (al_inv _ _ _ _ A) Hd H1 H2) as (o & h2 & S1 & S2 & S3 & S4 & S5 & _ & _ & S6 & S7).
    destruct (reset_served m' h' x k (al_inv' _ _ _ _ A) Hd' H1'' H2') as (o' & h2' & T1 & T2 & T3 & T4 & T5 & _ & _ & T6 & T7).
    rewrite S2 in *. rewrite T2 in *. cbn [fst] in *.
    assert (o' = o) as -> by (rewrite (al_served _ _ _ _ A) in S1; congruence).
    split; auto.
    + intros n'. destruct (string_dec n' x) as [->|Hne]; [congruence|]. rewrite S5, T5 by exact Hne. apply A.
    + rewrite S6, T6. apply A.
    + rewrite S7, T7. apply A.
  - pose proof (alike_attr _ _ _ _ Hd Hd' A a) as E. unfold call_attr. unfold attr_obj in E.
    destruct (assoc a (h_attrs h)) as [r|] eqn:Ea.
    + destruct (ainv_attr _ (al_ainv _ _ _ _ A) a r Ea) as (i & o & -> & L & Eo & _). rewrite Eo in E.
      destruct (assoc a (h_attrs h')) as [r'|] eqn:Ea'; [|discriminate].
      destruct (ainv_attr _ (al_ainv' _ _ _ _ A) a r' Ea') as (i' & o' & -> & L' & Eo' & _). rewrite Eo' in E. injection E as <-.
      rewrite Eo, Eo'. eapply alike_set; eauto.
    + destruct (assoc a (h_attrs h')) as [r'|] eqn:Ea'; [|exact A].
      destruct (ainv_attr _ (al_ainv' _ _ _ _ A) a r' Ea') as (i' & o' & -> & L' & Eo' & _). congruence.
Qed.

Lemma alike_str m m' h h' : is_dict m -> is_dict m' -> (forall n, served h n = served h' n) -> inv m h -> inv m' h' ->
  commands_str h = commands_str h'.
Proof.
  intros Hd Hd' S I I'. rewrite !commands_str_written. f_equal. f_equal.
  apply sorted_same_set; [eapply written_sorted; eauto|eapply written_sorted; eauto|].
  intros o. rewrite (written_in m h I Hd), (written_in m' h' I' Hd').
  split; intros [(n & H) Hp]; (split; [|exact Hp]); exists n; congruence.
Qed.

Lemma build_alike m m' dm : is_dict m -> Permutation m m' -> one_class_per_name m -> forall n,
  served (build_handler m dm) n = served (build_handler m' dm) n.
Proof.
  intros Hd Hp H1 n. assert (Hd' : is_dict m') by (eapply Permutation_NoDup; [apply Permutation_map, Hp|exact Hd]).
  destruct (assoc n m) as [k|] eqn:E.
  - apply assoc_In in E. rewrite (build_served m dm n k Hd H1 E). symmetry. apply build_served; [exact Hd'| |].
    + intros a k1 b k2 X Y. eapply H1; eapply Permutation_in; [apply Permutation_sym, Hp|exact X|apply Permutation_sym, Hp|exact Y].
    + eapply Permutation_in; eauto.
  - pose proof (served_inv _ _ (build_inv m dm Hd) Hd n) as P. rewrite E in P. destruct P as [_ ->].
    pose proof (served_inv _ _ (build_inv m' dm Hd') Hd' n) as P. destruct (assoc n m') as [k|] eqn:E'; [|symmetry; apply P].
    exfalso. apply assoc_In in E'. apply assoc_none in E. apply E. apply in_map_iff. exists (n, k). split; [reflexivity|].
    eapply Permutation_in; [apply Permutation_sym, Hp|exact E'].
Qed.

Lemma build_data m dm : h_dataclasses (build_handler m dm) = fold_left (fun d nd => put (fst nd) (snd nd) d) dm [] /\
  h_line (build_handler m dm) = "".
Proof.
  unfold build_handler. assert (R : forall m h, h_dataclasses (fold_left register_command m h) = h_dataclasses h /\
    h_line (fold_left register_command m h) = h_line h).
  { clear. induction m as [|[n k] m IH]; intros h; cbn [fold_left]; [auto|]. destruct (IH (register_command h (n, k))) as [-> ->].
    cbn. destruct (find_class _ _ _); auto. }
  assert (D : forall dm h, h_dataclasses (fold_left register_data dm h) = fold_left (fun d nd => put (fst nd) (snd nd) d) dm (h_dataclasses h) /\
    h_line (fold_left register_data dm h) = h_line h).
  { clear. induction dm as [|d dm IH]; intros h; cbn [fold_left]; [auto|]. destruct (IH (register_data h d)) as [-> ->]. auto. }
  destruct (D dm (fold_left register_command m empty_handler)) as [-> ->]. destruct (R m empty_handler) as [-> ->]. auto.
Qed.

Lemma ops_alike m m' dm ops : is_dict m -> Permutation m m' -> one_class_per_name m -> own_attribute m -> Forall (op_ok m) ops ->
  alike m m' (fold_left do_op ops (build_handler m dm)) (fold_left do_op ops (build_handler m' dm)).
Proof.
  intros Hd Hp H1 Ho Hops. assert (Hd' : is_dict m') by (eapply Permutation_NoDup; [apply Permutation_map, Hp|exact Hd]).
  assert (Ho' : own_attribute m').
  { intros n k n' k' X Y. eapply Ho; eapply Permutation_in; [apply Permutation_sym, Hp|exact X|apply Permutation_sym, Hp|exact Y]. }
  assert (A : alike m m' (build_handler m dm) (build_handler m' dm)).
  { split; auto using build_inv, build_ainv, build_alike.
    - rewrite (proj1 (build_data m dm)), (proj1 (build_data m' dm)). reflexivity.
    - rewrite (proj2 (build_data m dm)), (proj2 (build_data m' dm)). reflexivity. }
  revert A. generalize (build_handler m dm) (build_handler m' dm). induction ops as [|o ops IH]; intros h h' A; cbn [fold_left]; [exact A|].
  inversion Hops; subst. apply IH; [assumption|]. apply alike_op; assumption.
Qed.
