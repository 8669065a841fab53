(** * The analysis of PyCheck.v finds only what holds *)

From Verif Require Export PyCheck.
From Verif Require Import Value.
Local Open Scope string_scope.
Local Open Scope list_scope.

(** ** Reading after writing *)

Definition same_attrs (w : writes) (n n' : attrs) : Prop :=
  w_all w = false -> forall a, mem a (w_attrs w) = false -> assoc a n = assoc a n'.
Definition peq (w : writes) (p q : pval) : Prop :=
  match p, q with
  | PV v, PV u => v = u
  | PSelf, PSelf => True
  | PNs n, PNs m => same_attrs w n m
  | PObj d, PObj b => d_class d = d_class b /\ same_attrs w (d_attrs d) (d_attrs b)
  | _, _ => False
  end.
Definition orel {A} (R : A -> A -> Prop) (x y : option A) : Prop :=
  match x, y with Some a, Some b => R a b | None, None => True | _, _ => False end.
Definition rrel {A} (R : A -> A -> Prop) (x y : res A) : Prop :=
  match x, y with Ok a, Ok b => R a b | Err z, Err z' => z = z' | _, _ => False end.
Definition agree (w : writes) (e : env) (self : attrs) (e' : env) (self' : attrs) : Prop :=
  (forall y, mem y (w_vars w) = false -> orel (peq w) (assoc y e) (assoc y e'))
  /\ same_attrs w self self'.

Definition w_le (v w : writes) : Prop :=
  (forall x, mem x (w_vars w) = false -> mem x (w_vars v) = false)
  /\ (forall x, mem x (w_attrs w) = false -> mem x (w_attrs v) = false)
  /\ (w_all w = false -> w_all v = false).

Lemma same_attrs_refl w n : same_attrs w n n.
Proof. intros _ a _. reflexivity. Qed.
Lemma same_attrs_trans w a b c : same_attrs w a b -> same_attrs w b c -> same_attrs w a c.
Proof. intros H G A x X. rewrite (H A x X). apply G; assumption. Qed.
Lemma same_attrs_le v w n m : w_le v w -> same_attrs v n m -> same_attrs w n m.
Proof. intros (_ & La & Ll) H A x X. apply H; [apply Ll, A|apply La, X]. Qed.
Lemma peq_refl w p : peq w p p.
Proof. destruct p; simpl; auto using same_attrs_refl. Qed.
Lemma peq_trans w a b c : peq w a b -> peq w b c -> peq w a c.
Proof.
  destruct a, b, c; simpl; try tauto; try congruence; eauto using same_attrs_trans.
  intros [H G] [I J]. split; [congruence|eauto using same_attrs_trans].
Qed.
Lemma peq_le v w p q : w_le v w -> peq v p q -> peq w p q.
Proof.
  intros L. destruct p, q; simpl; try tauto; eauto using same_attrs_le.
  intros [H G]. split; eauto using same_attrs_le.
Qed.
Lemma orel_refl {A} (R : A -> A -> Prop) x : (forall a, R a a) -> orel R x x.
Proof. destruct x; simpl; auto. Qed.

Lemma agree_refl w e s : agree w e s e s.
Proof. split; [intros; apply orel_refl, peq_refl|apply same_attrs_refl]. Qed.
Lemma agree_trans w e s e1 s1 e2 s2 : agree w e s e1 s1 -> agree w e1 s1 e2 s2 -> agree w e s e2 s2.
Proof.
  intros [H I] [J K]. split; [|eauto using same_attrs_trans].
  intros y Y. specialize (H y Y). specialize (J y Y).
  destruct (assoc y e), (assoc y e1), (assoc y e2); simpl in *; try tauto. eauto using peq_trans.
Qed.
Lemma agree_le v w e s e1 s1 : w_le v w -> agree v e s e1 s1 -> agree w e s e1 s1.
Proof.
  intros L [H I]. split; [|eauto using same_attrs_le].
  intros y Y. destruct L as (Lv & L'). specialize (H y (Lv y Y)).
  destruct (assoc y e), (assoc y e1); simpl in *; try tauto. eapply peq_le; [|eassumption]. split; assumption.
Qed.

Lemma mem_app_false x l m : mem x (l ++ m) = false <-> mem x l = false /\ mem x m = false.
Proof.
  unfold mem. rewrite existsb_app, Bool.orb_false_iff. tauto.
Qed.
Lemma w_le_l v w : w_le v (w_join v w).
Proof.
  repeat split; simpl; intros; try (rewrite mem_app_false in *; tauto).
  apply Bool.orb_false_iff in H. tauto.
Qed.
Lemma w_le_r v w : w_le w (w_join v w).
Proof.
  repeat split; simpl; intros; try (rewrite mem_app_false in *; tauto).
  apply Bool.orb_false_iff in H. tauto.
Qed.
Lemma w_le_refl w : w_le w w.
Proof. repeat split; auto. Qed.

(** *** Expressions *)

Lemma find_attr_eq w self self' p q a :
  same_attrs w self self' -> peq w p q -> w_all w = false -> mem a (w_attrs w) = false ->
  find_attr self p a = find_attr self' q a.
Proof.
  intros S P A M. destruct p, q; simpl in *; try tauto; try reflexivity.
  - apply S; assumption.
  - apply P; assumption.
  - apply (proj2 P); assumption.
Qed.

Lemma peq_truthy w p q : peq w p q -> p_truthy p = p_truthy q.
Proof. destruct p, q; simpl; try tauto; congruence. Qed.
Lemma peq_val w p q : peq w p q -> to_val p = to_val q.
Proof. destruct p, q; simpl; try tauto; congruence. Qed.

Ltac rel IH :=
  let r := fresh "r" in let r' := fresh "r'" in
  match type of IH with rrel _ ?x ?y => destruct x as [r|], y as [r'|]; simpl in IH; try tauto; simpl; try (subst; reflexivity); try congruence end.

Lemma eval_stable c w x : forall e self e' self',
  agree w e self e' self' -> stable w x = true ->
  rrel (peq w) (eval c self e x) (eval c self' e' x).
Proof.
  induction x as [v|y| |y IH a|y IH a d IHd|y IH a|o y IH|o y IHy z IHz|y IHy z IHz|y IHy z IHz|n|n|n|y IH|a|y IHy z IHz|];
    intros e self e' self' A S; simpl in S; cbn [eval];
    repeat match goal with
           | H : _ && _ = true |- _ => apply andb_prop in H; destruct H
           | H : negb _ = true |- _ => apply Bool.negb_true_iff in H
           end.
  - apply peq_refl.
  - destruct (String.eqb y "self") eqn:E; [exact I|]. simpl in S.
    apply Bool.negb_true_iff in S. pose proof (proj1 A y S) as H.
    destruct (assoc y e), (assoc y e'); simpl in *; try tauto; reflexivity.
  - reflexivity.
  - specialize (IH _ _ _ _ A H). rel IH.
    rewrite (find_attr_eq w self self' r r' a (proj2 A) IH) by assumption.
    destruct (find_attr self' r' a); simpl; reflexivity.
  - specialize (IH _ _ _ _ A H). rel IH.
    rewrite (find_attr_eq w self self' r r' a (proj2 A) IH) by assumption.
    destruct (find_attr self' r' a); [reflexivity|]. apply IHd; assumption.
  - specialize (IH _ _ _ _ A H). rel IH.
    rewrite (find_attr_eq w self self' r r' a (proj2 A) IH) by assumption. reflexivity.
  - specialize (IH _ _ _ _ A S).
    destruct o; rel IH; try (rewrite (peq_truthy _ _ _ IH); reflexivity);
      rewrite (peq_val _ _ _ IH); destruct (to_val r'); simpl; try reflexivity;
      match goal with |- rrel _ ?x ?x => destruct x; simpl; auto using peq_refl end.
  - specialize (IHy _ _ _ _ A H). specialize (IHz _ _ _ _ A H0). rel IHy.
    rewrite (peq_val _ _ _ IHy). destruct (to_val r'); simpl; [|reflexivity].
    rel IHz. rewrite (peq_val _ _ _ IHz). destruct (to_val r'0); simpl; [|reflexivity].
    destruct (bin o a a0); simpl; reflexivity.
  - specialize (IHy _ _ _ _ A H). rel IHy. rewrite (peq_truthy _ _ _ IHy).
    destruct (p_truthy r'); [apply IHz; assumption|exact IHy].
  - specialize (IHy _ _ _ _ A H). rel IHy. rewrite (peq_truthy _ _ _ IHy).
    destruct (p_truthy r'); [exact IHy|apply IHz; assumption].
  - destruct (seen_in (c_view c) n); reflexivity.
  - reflexivity.
  - destruct (assoc n (v_data (c_view c))); simpl; auto using same_attrs_refl.
  - discriminate.
  - destruct (map_res _ _); simpl; reflexivity.
  - discriminate.
  - simpl. apply same_attrs_refl.
Qed.

(** *** Statements *)

Lemma assoc_put_eq {A} k (v : A) l : assoc k (put k v l) = Some v.
Proof.
  induction l as [|[k' w] r IH]; simpl; [rewrite String.eqb_refl; reflexivity|].
  destruct (String.eqb k k') eqn:E; simpl; rewrite E; auto.
Qed.
Lemma assoc_put_ne {A} k k' (v : A) l : k' <> k -> assoc k' (put k v l) = assoc k' l.
Proof.
  intros N. induction l as [|[k1 w] r IH]; simpl.
  - destruct (String.eqb k' k) eqn:E; [apply String.eqb_eq in E; contradiction|reflexivity].
  - destruct (String.eqb k k1) eqn:E; simpl.
    + apply String.eqb_eq in E. subst k1.
      destruct (String.eqb k' k) eqn:E; [apply String.eqb_eq in E; contradiction|reflexivity].
    + destruct (String.eqb k' k1); auto.
Qed.
Lemma assoc_del_ne {A} k k' (l : list (string * A)) : k' <> k -> assoc k' (del k l) = assoc k' l.
Proof.
  intros N. induction l as [|[k1 w] r IH]; simpl; [reflexivity|].
  destruct (String.eqb k k1) eqn:E; simpl.
  - apply String.eqb_eq in E. subst k1.
    destruct (String.eqb k' k) eqn:E; [apply String.eqb_eq in E; contradiction|exact IH].
  - destruct (String.eqb k' k1); auto.
Qed.
Lemma mem_cons_false x y l : mem x (y :: l) = false <-> x <> y /\ mem x l = false.
Proof.
  unfold mem. simpl. rewrite Bool.orb_false_iff.
  destruct (String.eqb x y) eqn:E.
  - apply String.eqb_eq in E. split; intros [H G]; [discriminate|contradiction].
  - apply String.eqb_neq in E. tauto.
Qed.

Definition out_agree (w : writes) (e : env) (self : attrs) (o : outcome) : Prop :=
  match o with
  | ONext e' self' | OBreak e' self' => agree w e self e' self'
  | OReturn _ self' | ORaise _ self' => same_attrs w self self'
  end.
Lemma out_agree_le v w e s o : w_le v w -> out_agree v e s o -> out_agree w e s o.
Proof. destruct o; simpl; eauto using agree_le, same_attrs_le. Qed.
Lemma out_agree_trans w e s e1 s1 o : agree w e s e1 s1 -> out_agree w e1 s1 o -> out_agree w e s o.
Proof.
  intros A. destruct o; simpl; eauto using agree_trans; intros; destruct A; eauto using same_attrs_trans.
Qed.

Lemma agree_put x p l b e self : mem x l = true -> agree (mkWrites l b false) e self (put x p e) self.
Proof.
  intros M. split; [|apply same_attrs_refl]. simpl. intros y Y.
  rewrite assoc_put_ne by (intros ->; congruence). apply orel_refl, peq_refl.
Qed.
Lemma agree_put_obj w x p q e self : assoc x e = Some p -> peq w p q -> agree w e self (put x q e) self.
Proof.
  intros E P. split; [|apply same_attrs_refl]. intros y _.
  destruct (String.eqb y x) eqn:Y.
  - apply String.eqb_eq in Y. subst y. rewrite assoc_put_eq, E. exact P.
  - apply String.eqb_neq in Y. rewrite assoc_put_ne by assumption. apply orel_refl, peq_refl.
Qed.
Lemma same_put w a v n : mem a (w_attrs w) = true -> same_attrs w n (put a v n).
Proof. intros M _ b B. rewrite assoc_put_ne by (intros ->; congruence). reflexivity. Qed.
Lemma same_del w a n : mem a (w_attrs w) = true -> same_attrs w n (del a n).
Proof. intros M _ b B. rewrite assoc_del_ne by (intros ->; congruence). reflexivity. Qed.

Lemma mem_here x l : mem x (x :: l) = true.
Proof. unfold mem. simpl. rewrite String.eqb_refl. reflexivity. Qed.

Lemma loop_agree {A} (body : A -> env -> attrs -> outcome) w :
  (forall i e self, out_agree w e self (body i e self)) ->
  forall l e self, out_agree w e self (loop body l e self).
Proof.
  intros H. induction l as [|i r IH]; intros e self; simpl; [apply agree_refl|].
  specialize (H i e self). destruct (body i e self); simpl in *; auto.
  eapply out_agree_trans; [exact H|apply IH].
Qed.

Lemma exec_agree c s : forall e self, out_agree (writes_of s) e self (exec c s e self).
Proof.
  induction s; intros e0 self; cbn [exec writes_of].
  - apply agree_refl.
  - specialize (IHs1 e0 self). destruct (exec c s1 e0 self) as [e' self'|e' self'|p self'|z self'] eqn:E;
      try (eapply out_agree_le; [apply w_le_l|exact IHs1]).
    eapply out_agree_trans; [eapply agree_le; [apply w_le_l|exact IHs1]|].
    eapply out_agree_le; [apply w_le_r|apply IHs2].
  - destruct (eval c self e0 e); simpl; [apply agree_put, mem_here|apply same_attrs_refl].
  - unfold with_val. destruct (eval c self e0 e) as [[v| | |]|]; simpl; try apply same_attrs_refl.
    unfold set_on. destruct (String.eqb x "self").
    { split; [intros; apply orel_refl, peq_refl|apply same_put, mem_here]. }
    destruct (assoc x e0) as [[|  |n|d]|] eqn:E; simpl; try apply same_attrs_refl.
    + split; [intros; apply orel_refl, peq_refl|apply same_put, mem_here].
    + eapply agree_put_obj; [exact E|]. simpl. apply same_put, mem_here.
    + eapply agree_put_obj; [exact E|]. simpl. split; [reflexivity|apply same_put, mem_here].
  - unfold del_on. destruct (String.eqb x "self").
    { split; [intros; apply orel_refl, peq_refl|apply same_del, mem_here]. }
    destruct (assoc x e0) as [[|  |n|d]|] eqn:E; simpl; try apply same_attrs_refl.
    + split; [intros; apply orel_refl, peq_refl|apply same_del, mem_here].
    + eapply agree_put_obj; [exact E|]. simpl. apply same_del, mem_here.
    + eapply agree_put_obj; [exact E|]. simpl. split; [reflexivity|apply same_del, mem_here].
  - unfold with_val. destruct (eval c self e0 e) as [[v| | |]|]; simpl; try apply same_attrs_refl.
    destruct v; simpl; try apply same_attrs_refl.
    destruct (assoc x e0) as [[[]| | |]|]; simpl; try apply same_attrs_refl. apply agree_put, mem_here.
  - unfold with_val. destruct (eval c self e0 e) as [[v| | |]|]; simpl; try apply same_attrs_refl.
    destruct v; simpl; try apply same_attrs_refl.
    destruct sep as [|ch [|]]; simpl; try apply same_attrs_refl.
    destruct (partition_char ch s) as [[b f] a]. simpl.
    eapply agree_trans; [|apply agree_put; unfold mem; simpl; rewrite String.eqb_refl, !Bool.orb_true_r; reflexivity].
    eapply agree_trans; [|apply agree_put; unfold mem; simpl; rewrite String.eqb_refl, !Bool.orb_true_r; reflexivity].
    apply agree_put, mem_here.
  - destruct (parse_args _ _ _); simpl; [apply agree_put, mem_here|apply same_attrs_refl].
  - destruct (parse_known_args _ _ _) as [[n r]|]; simpl; [|apply same_attrs_refl].
    eapply agree_trans; [|apply agree_put; unfold mem; simpl; rewrite String.eqb_refl, !Bool.orb_true_r; reflexivity].
    apply agree_put, mem_here.
  - assert (B : forall n m, same_attrs (mkWrites [] [] true) n m) by (intros n m D; discriminate D).
    destruct (assoc ns e0) as [[|  |n|]|]; simpl; try apply B.
    unfold set_to. destruct (String.eqb x "self").
    { split; [intros; apply orel_refl, peq_refl|apply B]. }
    destruct (assoc x e0) as [[|  | |d]|] eqn:E; simpl; try apply B.
    + split; [intros; apply orel_refl, peq_refl|apply B].
    + eapply agree_put_obj; [exact E|]. simpl. split; [reflexivity|apply B].
  - destruct (eval c self e0 c0) as [p|]; simpl; [|apply same_attrs_refl].
    destruct (p_truthy p); [eapply out_agree_le; [apply w_le_l|apply IHs1]|eapply out_agree_le; [apply w_le_r|apply IHs2]].
  - unfold with_val. destruct (eval c self e0 e) as [[v| | |]|]; simpl; try apply same_attrs_refl.
    destruct v; simpl; try apply same_attrs_refl.
    apply (loop_agree (fun i e self => exec c s (put x (PV (VStr i)) e) self)). intros i e1 s1.
    eapply out_agree_trans; [eapply agree_le; [apply w_le_l|apply agree_put, mem_here]|].
    eapply out_agree_le; [apply w_le_r|apply IHs].
  - unfold with_val. destruct (eval c self e0 e) as [[v| | |]|]; simpl; try apply same_attrs_refl.
    assert (P : forall p q e1 s1, agree (w_join (w_var [x; y]) (writes_of s)) e1 s1 (put y q (put x p e1)) s1).
    { intros p q e1 s1. eapply agree_le; [apply w_le_l|].
      eapply agree_trans; [|apply agree_put; unfold mem; simpl; rewrite String.eqb_refl, !Bool.orb_true_r; reflexivity].
      apply agree_put, mem_here. }
    destruct v; simpl; try apply same_attrs_refl.
    + apply (loop_agree (fun i e self => exec c s (put y (PV (VStr (snd i))) (put x (PV (VStr (fst i))) e)) self)). intros i e1 s1.
      eapply out_agree_trans; [apply P|]. eapply out_agree_le; [apply w_le_r|apply IHs].
    + apply (loop_agree (fun i e self => exec c s (put y (PV (VInt (snd i))) (put x (PV (VStr (fst i))) e)) self)). intros i e1 s1.
      eapply out_agree_trans; [apply P|]. eapply out_agree_le; [apply w_le_r|apply IHs].
  - apply (loop_agree (fun d e self => exec c s (put x (PObj d) e) self)). intros i e1 s1.
    eapply out_agree_trans; [eapply agree_le; [apply w_le_l|apply agree_put, mem_here]|].
    eapply out_agree_le; [apply w_le_r|apply IHs].
  - destruct line; apply same_attrs_refl.
  - apply same_attrs_refl.
  - destruct (eval c self e0 e) as [p|]; simpl; [|apply same_attrs_refl].
    destruct (p_truthy p); [apply agree_refl|apply same_attrs_refl].
  - destruct (eval c self e0 e) as [p|]; simpl; apply same_attrs_refl.
  - apply agree_refl.
  - split; [intros; apply orel_refl, peq_refl|intros D; discriminate D].
  - apply same_attrs_refl.
  - destruct (bind_params c self e0 params) as [e1|]; simpl; [|apply same_attrs_refl].
    specialize (IHs e1 self). unfold out_agree in IHs.
    assert (Q : forall p self', same_attrs (writes_of s) self self' ->
              agree (mkWrites [x] (w_attrs (writes_of s)) (w_all (writes_of s))) e0 self (put x p e0) self').
    { intros p self' H. split; [|exact H]. intros y Y. change (mem y [x] = false) in Y.
      apply mem_cons_false in Y. rewrite assoc_put_ne by apply Y. apply orel_refl, peq_refl. }
    destruct (exec c s e1 self) as [e2 s2|e2 s2|p s2|z s2]; simpl; try (apply Q; destruct IHs; assumption).
    + apply Q, IHs.
    + exact IHs.
Qed.

(** ** Facts *)

Definition holds (c : ctx) (self : attrs) (e : env) (f : claim) : Prop :=
  exists p, eval c self e (fst f) = Ok p /\ p_truthy p = snd f.
Definition all_hold (c : ctx) (self : attrs) (e : env) (F : facts) : Prop :=
  forall f, In f F -> holds c self e f.

Lemma same_fact_eq f g : same_fact f g = true -> f = g.
Proof.
  destruct f as [x b], g as [y d]. unfold same_fact. simpl.
  destruct (expr_eq_dec x y); [|discriminate]. simpl. intros H. apply Bool.eqb_prop in H. congruence.
Qed.
Lemma known_in F f : known F f = true -> In f F.
Proof.
  unfold known. rewrite existsb_exists. intros (g & I & E). apply same_fact_eq in E. subst g. exact I.
Qed.
Lemma all_app c s e F G : all_hold c s e F -> all_hold c s e G -> all_hold c s e (F ++ G).
Proof. intros H I f J. apply in_app_or in J. destruct J; auto. Qed.
Lemma all_add c s e F G : all_hold c s e F -> all_hold c s e G -> all_hold c s e (add F G).
Proof.
  revert F. induction G as [|g r IH]; intros F H I; simpl; [exact H|].
  apply IH; [|intros f J; apply I; right; exact J].
  destruct (known F g); [exact H|]. intros f [<-|J]; [apply I; left; reflexivity|apply H, J].
Qed.
Lemma all_filter c s e p F : all_hold c s e F -> all_hold c s e (filter p F).
Proof. intros H f I. apply filter_In in I. apply H, I. Qed.
Lemma all_cons c s e f F : holds c s e f -> all_hold c s e F -> all_hold c s e (f :: F).
Proof. intros H G g [->|I]; auto. Qed.
Lemma all_nil c s e : all_hold c s e [].
Proof. intros f []. Qed.
Lemma all_both_l c s e F G : all_hold c s e F -> all_hold c s e (both F G).
Proof. apply all_filter. Qed.
Lemma all_both_r c s e F G : all_hold c s e G -> all_hold c s e (both F G).
Proof. intros H f I. apply filter_In in I. apply H, known_in, I. Qed.

Lemma holds_stable c w s e s' e' f :
  agree w e s e' s' -> stable w (fst f) = true -> holds c s e f -> holds c s' e' f.
Proof.
  intros A S (p & E & T). pose proof (eval_stable c w (fst f) e s e' s' A S) as R.
  rewrite E in R. destruct (eval c s' e' (fst f)) as [q|] eqn:E'; [|contradiction].
  exists q. split; [exact E'|]. rewrite <- T. symmetry. eapply peq_truthy, R.
Qed.
Lemma all_keep c w s e s' e' F : agree w e s e' s' -> all_hold c s e F -> all_hold c s' e' (keep w F).
Proof.
  intros A H f I. apply filter_In in I. destruct I as [I S]. eapply holds_stable; eauto.
Qed.

Lemma truth_sound c s e F x : all_hold c s e F ->
  forall b p, truth F x = Some b -> eval c s e x = Ok p -> p_truthy p = b.
Proof.
  intros H.
  assert (K : forall x b p, known F (x, b) = true -> eval c s e x = Ok p -> p_truthy p = b).
  { intros y b p Y E. apply known_in in Y. destruct (H _ Y) as (q & E' & T). simpl in *. congruence. }
  induction x as [v|y| |y IH a|y IH a d IHd|y IH a|o y IH|o y IHy z IHz|y IHy z IHz|y IHy z IHz|n|n|n|y IH|a|y IHy z IHz|];
    intros b p; cbn [truth];
    (match goal with |- context [known F (?x, true)] => destruct (known F (x, true)) eqn:E1 end;
     [intros [= <-]; eapply K; eassumption|]);
    (match goal with |- context [known F (?x, false)] => destruct (known F (x, false)) eqn:E2 end;
     [intros [= <-]; eapply K; eassumption|]); try discriminate.
  - intros [= <-] [= <-]. reflexivity.
  - destruct o; try discriminate.
    + intros T E. cbn [eval] in E. destruct (truth F y) as [b'|]; [|discriminate].
      destruct (eval c s e y) as [q|]; [|discriminate]. simpl in *. injection E as <-. injection T as <-.
      simpl. rewrite (IH b' q); reflexivity.
    + intros T E. cbn [eval] in E.
      destruct (eval c s e y) as [q|]; [|discriminate]. simpl in *.
      destruct q as [v| | |]; try discriminate. simpl in E. injection E as <-. simpl.
      exact (IH b (PV v) T eq_refl).
  - intros T E. cbn [eval] in E. destruct (eval c s e y) as [q|]; [|discriminate]. simpl in E.
    destruct (truth F y) as [[|]|].
    + rewrite (IHy true q) in E by reflexivity. eauto.
    + rewrite (IHy false q) in E by reflexivity. injection E as <-. injection T as <-. apply IHy; reflexivity.
    + destruct (truth F z) as [[|]|]; try discriminate. injection T as <-.
      destruct (p_truthy q) eqn:Q; [eauto|]. injection E as <-. exact Q.
  - intros T E. cbn [eval] in E. destruct (eval c s e y) as [q|]; [|discriminate]. simpl in E.
    destruct (truth F y) as [[|]|].
    + rewrite (IHy true q) in E by reflexivity. injection E as <-. injection T as <-. apply IHy; reflexivity.
    + rewrite (IHy false q) in E by reflexivity. eauto.
    + destruct (truth F z) as [[|]|]; try discriminate. injection T as <-.
      destruct (p_truthy q) eqn:Q; [|eauto]. injection E as <-. exact Q.
Qed.

Lemma learn_sound c s e s' e' F x y p :
  all_hold c s e F -> eval c s e x = Ok p -> eval c s' e' y = Ok p -> all_hold c s' e' (learn F x y).
Proof.
  intros H E E' f. unfold learn. destruct (truth F x) as [b|] eqn:T; [|intros []].
  intros [<-|[]]. exists p. split; [exact E'|]. eapply truth_sound; eauto.
Qed.

(** Renaming. *)
Lemma eval_rename c s y z l x : forall e e',
  (forall v, mem v l = true -> eval c s e (EVar v) = eval c s e' (rename y z (EVar v))) ->
  vars_in l x = true -> eval c s e x = eval c s e' (rename y z x).
Proof.
  induction x; intros e0 e1 H V; cbn [vars_in] in V;
    try (apply andb_prop in V; destruct V as [V1 V2]);
    try (apply H; assumption);
    cbn [eval rename]; try reflexivity;
    repeat match goal with
           | IH : forall e e', _ -> vars_in l ?x = true -> _ , U : vars_in l ?x = true |- _ =>
               rewrite (IH e0 e1 H U); clear IH
           end; try reflexivity.
Qed.
Lemma holds_rename c s y z l e e' f :
  (forall v, mem v l = true -> eval c s e (EVar v) = eval c s e' (rename y z (EVar v))) ->
  vars_in l (fst f) = true -> holds c s e f -> holds c s e' (rename y z (fst f), snd f).
Proof.
  intros H V (p & E & T). exists p. simpl. split; [|exact T].
  rewrite <- (eval_rename c s y z l (fst f) e e' H V). exact E.
Qed.
Lemma rename_same y x : rename y y x = x.
Proof.
  induction x; simpl; try congruence.
  destruct (String.eqb x y) eqn:E; [apply String.eqb_eq in E; congruence|reflexivity].
Qed.
Lemma holds_over c s e e' l f :
  (forall v, mem v l = true -> eval c s e (EVar v) = eval c s e' (EVar v)) ->
  vars_in l (fst f) = true -> holds c s e f -> holds c s e' f.
Proof.
  intros H V G. rewrite (surjective_pairing f), <- (rename_same "" (fst f)).
  eapply holds_rename; eauto. intros v M. rewrite rename_same. apply H, M.
Qed.
Lemma all_over_self c s e e' F : all_hold c s e F -> all_hold c s e' (over ["self"] F).
Proof.
  intros H f I. apply filter_In in I. destruct I as [I V].
  eapply holds_over; [|exact V|apply H, I].
  intros v M. apply Bool.not_false_iff_true in M. destruct (String.eqb v "self") eqn:E.
  - cbn [eval]. rewrite E. reflexivity.
  - exfalso. apply M. unfold mem. simpl. rewrite E. reflexivity.
Qed.
Lemma all_renamed c s e F y z : eval c s e (EVar y) = eval c s e (EVar z) ->
  all_hold c s e F -> all_hold c s e (renamed y z F).
Proof.
  intros E H f I. apply in_map_iff in I. destruct I as (g & <- & I).
  destruct (H g I) as (p & E' & T). exists p. split; [|exact T]. simpl. rewrite <- E'. clear - E.
  destruct g as [x b]. simpl. induction x; cbn [rename]; try reflexivity.
  - destruct (String.eqb x y) eqn:X; [apply String.eqb_eq in X; subst x; auto|reflexivity].
  - cbn [eval]. rewrite IHx. reflexivity.
  - cbn [eval]. rewrite IHx1, IHx2. reflexivity.
  - cbn [eval]. rewrite IHx. reflexivity.
  - cbn [eval]. rewrite IHx. reflexivity.
  - cbn [eval]. rewrite IHx1, IHx2. reflexivity.
  - cbn [eval]. rewrite IHx1, IHx2. reflexivity.
  - cbn [eval]. rewrite IHx1, IHx2. reflexivity.
  - cbn [eval]. rewrite IHx. reflexivity.
  - cbn [eval]. rewrite IHx1, IHx2. reflexivity.
Qed.

Lemma return_facts_sound c s e F x p :
  all_hold c s e F -> eval c s e x = Ok p -> all_hold c s [("_ret", p)] (return_facts F x).
Proof.
  intros H E. unfold return_facts. apply all_add.
  - eapply learn_sound; eauto.
  - destruct x; try (eapply all_over_self; exact H).
    apply all_add; [eapply all_over_self; exact H|].
    intros f I. apply in_map_iff in I. destruct I as (g & <- & I). apply filter_In in I. destruct I as [I V].
    eapply holds_rename; [|exact V|apply H, I].
    intros v M. unfold mem in M. simpl in M. rewrite Bool.orb_false_r in M. apply String.eqb_eq in M. subst v.
    cbn [rename]. rewrite String.eqb_refl. rewrite E. reflexivity.
Qed.

(** ** Statements *)

Definition some_hold (c : ctx) (self : attrs) (e : env) (F : option facts) : Prop :=
  match F with Some F => all_hold c self e F | None => False end.
Definition checked (c : ctx) (a : ends) (o : outcome) : Prop :=
  match o with
  | ONext e self => some_hold c self e (en_next a)
  | OBreak e self => some_hold c self e (en_break a)
  | OReturn p self => some_hold c self [("_ret", p)] (en_return a)
  | ORaise _ _ => True
  end.

Lemma join_l c s e F G : some_hold c s e F -> some_hold c s e (join_facts F G).
Proof. destruct F as [F|]; [|intros []]. destruct G; simpl; [apply all_both_l|auto]. Qed.
Lemma join_r c s e F G : some_hold c s e G -> some_hold c s e (join_facts F G).
Proof. destruct G as [G|]; [|intros []]. destruct F; simpl; [apply all_both_r|auto]. Qed.

Lemma falsified_holds c s e f : holds c s e f -> holds c s e (falsified f, false).
Proof.
  intros (p & E & T). unfold falsified. destruct (snd f).
  - exists (PV (VBool false)). cbn [eval fst snd]. rewrite E. simpl. rewrite T. auto.
  - exists p. auto.
Qed.

Lemma join_if_then c w s t q F G H e self e' self' :
  w = w_join (writes_of s) (writes_of t) ->
  agree (writes_of s) e self e' self' -> holds c self e (q, true) ->
  some_hold c self' e' G -> some_hold c self' e' (join_if w q F G H).
Proof.
  intros -> A Q. destruct G as [G|]; [|intros []]. destruct H as [H|]; [|auto]. cbn [join_if some_hold].
  intros K. unfold after_if. apply all_add; [apply all_both_l, K|].
  destruct (stable _ q) eqn:S; [|apply all_nil].
  assert (Q' : holds c self' e' (q, true)).
  { eapply holds_stable; [eapply agree_le; [apply w_le_l|exact A]|exact S|exact Q]. }
  destruct Q' as (p & E & T). simpl in E, T. apply all_app.
  - intros f I. apply in_map_iff in I. destruct I as (g & <- & I). apply filter_In in I.
    destruct (falsified_holds c self' e' g (K g (proj1 I))) as (r & E' & T'). simpl in E', T'.
    exists r. cbn [eval fst snd]. rewrite E. simpl. rewrite T. auto.
  - intros f I. apply in_map_iff in I. destruct I as (g & <- & I).
    exists (PV (VBool false)). cbn [eval fst snd]. rewrite E. simpl. rewrite T. auto.
Qed.
Lemma join_if_else c w s t q F G H e self e' self' :
  w = w_join (writes_of s) (writes_of t) ->
  agree (writes_of t) e self e' self' -> holds c self e (q, false) ->
  some_hold c self' e' H -> some_hold c self' e' (join_if w q F G H).
Proof.
  intros -> A Q. destruct H as [H|]; [|intros []]. destruct G as [G|]; [|auto]. cbn [join_if some_hold].
  intros K. unfold after_if. apply all_add; [apply all_both_r, K|].
  destruct (stable _ q) eqn:S; [|apply all_nil].
  assert (Q' : holds c self' e' (q, false)).
  { eapply holds_stable; [eapply agree_le; [apply w_le_r|exact A]|exact S|exact Q]. }
  destruct Q' as (p & E & T). simpl in E, T. apply all_app.
  - intros f I. apply in_map_iff in I. destruct I as (g & <- & I).
    exists p. cbn [eval fst snd]. rewrite E. simpl. rewrite T. auto.
  - intros f I. apply in_map_iff in I. destruct I as (g & <- & I). apply filter_In in I.
    destruct (falsified_holds c self' e' g (K g (proj1 I))) as (r & E' & T'). simpl in E', T'.
    exists r. cbn [eval fst snd]. rewrite E. simpl. rewrite T. auto.
Qed.

Lemma named_hold c s e x F : (x <> "self" -> all_hold c s e F) -> all_hold c s e (named x F).
Proof.
  intros H. unfold named. destruct (String.eqb x "self") eqn:E; [apply all_nil|].
  apply H. apply String.eqb_neq, E.
Qed.
Lemma eval_put c s e x p : x <> "self" -> eval c s (put x p e) (EVar x) = Ok p.
Proof.
  intros N. cbn [eval]. apply String.eqb_neq in N. rewrite N, assoc_put_eq. reflexivity.
Qed.

Lemma loop_checked {A} c (body : A -> env -> attrs -> outcome) w F r :
  (forall i e self, all_hold c self e F -> checked c r (body i e self)) ->
  (forall i e self, out_agree w e self (body i e self)) -> keep w F = F ->
  forall l e self, all_hold c self e F -> checked c (mkEnds (Some F) None (en_return r)) (loop body l e self).
Proof.
  intros B W K. induction l as [|i l IH]; intros e self H; simpl; [exact H|].
  specialize (B i e self H). specialize (W i e self).
  destruct (body i e self) as [e' s'|e' s'|p s'|z s']; simpl in *; auto.
  - apply IH. rewrite <- K. eapply all_keep; eauto.
  - rewrite <- K. eapply all_keep; eauto.
Qed.

Lemma keep_keep w F : keep w (keep w F) = keep w F.
Proof.
  unfold keep. induction F as [|f r IH]; simpl; [reflexivity|].
  destruct (stable w (fst f)) eqn:E; simpl; [rewrite E, IH; reflexivity|exact IH].
Qed.
Lemma stable_le v w x : w_le v w -> stable w x = true -> stable v x = true.
Proof.
  intros (Lv & La & Ll). induction x; simpl; auto;
    rewrite ?andb_true_iff, ?Bool.orb_true_iff, ?Bool.negb_true_iff; try tauto.
  - intros [H|H]; auto.
  - intros [[H G] I]. auto.
  - intros [[[H G] I] J]. auto 8.
  - intros [[H G] I]. auto.
Qed.
Lemma all_keep_le c v w s e s' e' F :
  w_le v w -> agree v e s e' s' -> all_hold c s e F -> all_hold c s' e' (keep w F).
Proof. intros L A. apply all_keep. eapply agree_le; eauto. Qed.

Theorem check_sound c s : forall F e self,
  all_hold c self e F -> checked c (check F s) (exec c s e self).
Proof.
  induction s; intros F e0 self H;
    match goal with |- checked c (check F ?s) _ =>
      pose proof (exec_agree c s e0 self) as A;
      assert (K : forall e' self', agree (writes_of s) e0 self e' self' -> all_hold c self' e' (keep (writes_of s) F))
        by (intros e' self' B; eapply all_keep; eauto);
      cbn [check]; set (F' := keep (writes_of s) F) in *
    end;
    cbn [exec] in *.
  - exact H.
  - (* SSeq *)
    specialize (IHs1 F e0 self H).
    destruct (exec c s1 e0 self) as [e1 self1|e1 self1|p self1|z self1]; simpl in IHs1.
    + destruct (en_next (check F s1)) as [G|]; [|contradiction].
      specialize (IHs2 G e1 self1 IHs1).
      destruct (exec c s2 e1 self1); simpl in *; auto; apply join_r; exact IHs2.
    + destruct (en_next (check F s1)) as [G|]; simpl; [apply join_l|]; exact IHs1.
    + destruct (en_next (check F s1)) as [G|]; simpl; [apply join_l|]; exact IHs1.
    + exact I.
  - (* SAssign *)
    destruct (eval c self e0 e) as [p|] eqn:E; simpl; [|exact I].
    apply all_add; [apply K; exact A|]. apply named_hold. intros N. apply all_app.
    + eapply learn_sound; [exact H|exact E|apply eval_put, N].
    + destruct e; try apply all_nil. apply all_renamed; [|apply K; exact A].
      rewrite (eval_put c self e0 x p N). cbn [eval] in E |- *.
      destruct (String.eqb x0 "self") eqn:X; [exact E|].
      destruct (String.eqb x0 x) eqn:Y.
      * apply String.eqb_eq in Y. subst x0. rewrite assoc_put_eq. reflexivity.
      * apply String.eqb_neq in Y. rewrite assoc_put_ne by exact Y. exact E.
  - (* SAttr *)
    unfold with_val in *. destruct (eval c self e0 e) as [[v| | |]|] eqn:E; simpl; auto.
    unfold set_on in *. destruct (String.eqb x "self") eqn:X.
    { simpl. apply all_add; [apply K; exact A|].
      eapply learn_sound; [exact H|exact E|]. cbn [eval]. rewrite X. simpl. rewrite assoc_put_eq. reflexivity. }
    destruct (assoc x e0) as [[|  |n|d]|] eqn:Y; simpl; auto.
    + apply all_add; [apply K; exact A|].
      eapply learn_sound; [exact H|exact E|]. cbn [eval]. rewrite X, Y. simpl. rewrite assoc_put_eq. reflexivity.
    + apply all_add; [apply K; exact A|].
      eapply learn_sound; [exact H|exact E|]. cbn [eval]. rewrite X, assoc_put_eq. simpl. rewrite assoc_put_eq. reflexivity.
    + apply all_add; [apply K; exact A|].
      eapply learn_sound; [exact H|exact E|]. cbn [eval]. rewrite X, assoc_put_eq. simpl. rewrite assoc_put_eq. reflexivity.
  - (* SDel *)
    destruct (del_on x a e0 self) eqn:E; simpl; auto; try (apply K; exact A);
      unfold del_on in E; destruct (String.eqb x "self"); try discriminate;
      destruct (assoc x e0) as [[]|]; discriminate.
  - (* SAppend *)
    unfold with_val in *. destruct (eval c self e0 e) as [[v| | |]|] eqn:E; simpl; auto.
    destruct v; simpl; auto. destruct (assoc x e0) as [[[]| | |]|]; simpl; auto.
  - (* SPartition *)
    unfold with_val in *. destruct (eval c self e0 e) as [[v| | |]|] eqn:E; simpl; auto.
    destruct v; simpl; auto. destruct sep as [|ch [|]]; simpl; auto.
    destruct (partition_char ch s) as [[b f] a]. simpl. apply K. exact A.
  - (* SParse *)
    destruct (parse_args _ _ _); simpl; auto.
  - destruct (parse_known_args _ _ _) as [[n r]|]; simpl; auto.
  - (* SSetTo *)
    destruct (assoc ns e0) as [[|  |n|]|]; simpl; auto.
    destruct (set_to n x e0 self) eqn:E; simpl; auto; try (apply K; exact A);
      unfold set_to in E; destruct (String.eqb x "self"); try discriminate;
      destruct (assoc x e0) as [[]|]; discriminate.
  - (* SIf *)
    destruct (eval c self e0 c0) as [p|] eqn:E.
    2:{ destruct (truth F c0) as [[|]|]; simpl; auto. }
    assert (Q : holds c self e0 (c0, p_truthy p)) by (exists p; auto).
    destruct (truth F c0) as [b|] eqn:T.
    { assert (B : p_truthy p = b) by (eapply truth_sound; eauto). rewrite B in *.
      destruct b; [apply IHs1|apply IHs2]; apply all_cons; assumption. }
    destruct (p_truthy p) eqn:B.
    + specialize (IHs1 _ e0 self (all_cons _ _ _ _ _ Q H)). pose proof (exec_agree c s1 e0 self) as A1.
      destruct (exec c s1 e0 self); simpl in *; auto using join_l.
      eapply join_if_then; eauto.
    + specialize (IHs2 _ e0 self (all_cons _ _ _ _ _ Q H)). pose proof (exec_agree c s2 e0 self) as A2.
      destruct (exec c s2 e0 self); simpl in *; auto using join_r.
      eapply join_if_else; eauto.
  - (* SFor *)
    unfold with_val. destruct (eval c self e0 e) as [[v| | |]|] eqn:E; simpl; auto.
    destruct v; simpl; auto.
    assert (P : forall i e1 s1, agree (w_join (w_var [x]) (writes_of s)) e1 s1 (put x (PV (VStr i)) e1) s1)
      by (intros; eapply agree_le; [apply w_le_l|apply agree_put, mem_here]).
    apply (loop_checked c (fun i e self => exec c s (put x (PV (VStr i)) e) self) (w_join (w_var [x]) (writes_of s))).
    + intros i e1 s1 H1. apply IHs. unfold F'. rewrite <- keep_keep. eapply all_keep; [apply P|exact H1].
    + intros i e1 s1. eapply out_agree_trans; [apply P|]. eapply out_agree_le; [apply w_le_r|apply exec_agree].
    + apply keep_keep.
    + apply K. apply agree_refl.
  - (* SForPairs *)
    unfold with_val. destruct (eval c self e0 e) as [[v| | |]|] eqn:E; simpl; auto.
    assert (P : forall p q e1 s1, agree (w_join (w_var [x; y]) (writes_of s)) e1 s1 (put y q (put x p e1)) s1).
    { intros p q e1 s1. eapply agree_le; [apply w_le_l|].
      eapply agree_trans; [|apply agree_put; unfold mem; simpl; rewrite String.eqb_refl, !Bool.orb_true_r; reflexivity].
      apply agree_put, mem_here. }
    destruct v; simpl; auto.
    + apply (loop_checked c (fun i e self => exec c s (put y (PV (VStr (snd i))) (put x (PV (VStr (fst i))) e)) self)
               (w_join (w_var [x; y]) (writes_of s))).
      * intros i e1 s1 H1. apply IHs. unfold F'. rewrite <- keep_keep. eapply all_keep; [apply P|exact H1].
      * intros i e1 s1. eapply out_agree_trans; [apply P|]. eapply out_agree_le; [apply w_le_r|apply exec_agree].
      * apply keep_keep.
      * apply K. apply agree_refl.
    + apply (loop_checked c (fun i e self => exec c s (put y (PV (VInt (snd i))) (put x (PV (VStr (fst i))) e)) self)
               (w_join (w_var [x; y]) (writes_of s))).
      * intros i e1 s1 H1. apply IHs. unfold F'. rewrite <- keep_keep. eapply all_keep; [apply P|exact H1].
      * intros i e1 s1. eapply out_agree_trans; [apply P|]. eapply out_agree_le; [apply w_le_r|apply exec_agree].
      * apply keep_keep.
      * apply K. apply agree_refl.
  - (* SForData *)
    assert (P : forall i e1 s1, agree (w_join (w_var [x]) (writes_of s)) e1 s1 (put x (PObj i) e1) s1)
      by (intros; eapply agree_le; [apply w_le_l|apply agree_put, mem_here]).
    apply (loop_checked c (fun i e self => exec c s (put x (PObj i) e) self) (w_join (w_var [x]) (writes_of s))).
    + intros i e1 s1 H1. apply IHs. unfold F'. rewrite <- keep_keep. eapply all_keep; [apply P|exact H1].
    + intros i e1 s1. eapply out_agree_trans; [apply P|]. eapply out_agree_le; [apply w_le_r|apply exec_agree].
    + apply keep_keep.
    + apply K. apply agree_refl.
  - destruct line; exact I.
  - exact I.
  - destruct (eval c self e0 e) as [p|] eqn:E; simpl; auto. destruct (p_truthy p) eqn:T; simpl; auto.
    apply all_cons; [exists p; auto|exact H].
  - destruct (eval c self e0 e) as [p|] eqn:E; simpl; auto. eapply return_facts_sound; eauto.
  - exact H.
  - simpl. apply K. exact A.
  - exact I.
  - (* SBlock *)
    destruct (bind_params c self e0 params) as [e1|]; simpl; [|].
    2:{ exact I. }
    specialize (IHs (over ["self"] F) e1 self (all_over_self c self e0 e1 F H)).
    set (a := check (over ["self"] F) s) in *.
    set (out := join_facts (option_map (over ["self"]) (en_next a)) (option_map (over ["self"]) (en_break a))).
    set (R := option_map _ (en_return a)).
    assert (Fin : forall e' self', agree (writes_of (SBlock x params s)) e0 self e' self' ->
              some_hold c self' e' (join_facts out R) ->
              checked c (match join_facts out R with None => no_end | Some G => next (add F' G) end) (ONext e' self')).
    { intros e' self' B S. destruct (join_facts out R) as [G|]; [|contradiction].
      simpl. apply all_add; [apply K; exact B|exact S]. }
    destruct (exec c s e1 self) as [e2 s2|e2 s2|p s2|z s2]; simpl in A, IHs; try exact I.
    + apply Fin; [exact A|]. apply join_l. unfold out. apply join_l.
      destruct (en_next a) as [G|]; [|contradiction]. simpl. eapply all_over_self; exact IHs.
    + apply Fin; [exact A|]. apply join_l. unfold out. apply join_r.
      destruct (en_break a) as [G|]; [|contradiction]. simpl. eapply all_over_self; exact IHs.
    + apply Fin; [exact A|]. apply join_r. unfold R.
      destruct (en_return a) as [G|]; [|contradiction]. simpl in *.
      apply all_add; [eapply all_over_self; exact IHs|]. apply named_hold. intros N.
      intros f J. apply in_map_iff in J. destruct J as (g & <- & J). apply filter_In in J. destruct J as [J V].
      eapply holds_rename; [|exact V|apply IHs, J].
      intros v M. unfold mem in M. simpl in M. rewrite Bool.orb_false_r in M. apply Bool.orb_true_iff in M.
      destruct M as [M|M]; apply String.eqb_eq in M; subst v.
      * reflexivity.
      * change (rename "_ret" x (EVar "_ret")) with (EVar x). rewrite eval_put by exact N. reflexivity.
Qed.
