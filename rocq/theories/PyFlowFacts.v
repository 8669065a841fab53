(** * The analysis of PyFlow.v finds what holds *)

From Verif Require Import PyStrFacts ArgParseFacts ArgLineFacts ArgErrFacts NsFacts PyCheckFacts PyFlow.
From Verif Require Import Value.
Local Open Scope string_scope.
Local Open Scope list_scope.
Local Arguments Ascii.eqb : simpl never.
Local Arguments String.eqb : simpl never.

(** The attribute [k] after the namespace [n] was set on an object with attributes
    [a]. *)
Definition overlay (k : string) (n a : attrs) : option value :=
  match assoc k n with
  | Some v => if is_none v then assoc k a else Some v
  | None => assoc k a
  end.
Lemma set_to_obj_overlay n : forall a k, NoDup (map fst n) -> assoc k (set_to_obj n a) = overlay k n a.
Proof.
  induction n as [|[x v] n IH]; intros a k H; [reflexivity|]. cbn [set_to_obj]. cbn [map fst] in H. inversion H as [|? ? H1 H2]; subst.
  rewrite IH by exact H2. unfold overlay.
  assert (C : assoc k ((x, v) :: n) = if String.eqb k x then Some v else assoc k n) by reflexivity. rewrite C.
  destruct (String.eqb_spec k x) as [->|Ne].
  - assert (N : assoc x n = None).
    { destruct (assoc x n) eqn:E; [|reflexivity]. exfalso. apply H1. apply assoc_In_pair in E. apply in_map_iff. exists (x, v0). auto. }
    rewrite N. destruct (is_none v); [reflexivity|]. rewrite assoc_put, eqb_refl_s. reflexivity.
  - destruct (is_none v); [reflexivity|]. rewrite assoc_put. apply String.eqb_neq in Ne. rewrite Ne. reflexivity.
Qed.

Lemma mem_uni x V W : mem x (uni V W) = mem x V || mem x W.
Proof.
  unfold uni. destruct (mem x V) eqn:E; cbn [orb].
  - apply mem_In. apply in_or_app. left. now apply mem_In.
  - destruct (mem x W) eqn:F.
    + apply mem_In. apply in_or_app. right. apply filter_In. split; [now apply mem_In|]. now rewrite E.
    + destruct (mem x (V ++ _)) eqn:G; [|reflexivity]. apply mem_In, in_app_or in G as [G|G].
      * apply mem_In in G. congruence.
      * apply filter_In in G as [G _]. apply mem_In in G. congruence.
Qed.

Section Flow.
Variable c : ctx.
(** The namespace of the line, and the same with the derived attributes. *)
Variables (n0 n1 self0 : attrs).
Variable Dr : list (string * string).
Hypothesis off : forall k, mem k (pair_keys Dr) = false -> assoc k n1 = assoc k n0.
Hypothesis derived : forall q p u v, In (q, p) Dr -> assoc p n0 = Some u -> bin BIndex u (VInt 0) = Ok v -> assoc q n1 = Some v /\ is_none v = false.
Hypothesis dict0 : NoDup (map fst n0).
Hypothesis parsed : forall ln n r, parse_known_args (c_parser c) ln (c_args c) = Ok (n, r) -> n = n0.
Definition good : Prop := exists ln r, parse_known_args (c_parser c) ln (c_args c) = Ok (n0, r).

Definition agree (W : list string) (a b : attrs) : Prop := forall k, mem k W = false -> assoc k a = assoc k b.
Definition sets (W : list string) (a b : attrs) : Prop := forall k, mem k W = false -> assoc k a = overlay k n1 b.

Definition sat_h (h : hold) (p : pval) : Prop :=
  match h with
  | HVal => exists v, p = PV v
  | HSelf => p = PSelf
  | HNs W => good /\ exists n, p = PNs n /\ NoDup (map fst n) /\ agree W n n0
  | HNew k W => exists d, p = PObj d /\ assoc k (v_data (c_view c)) = Some (d_class d) /\ agree W (d_attrs d) (c_new c (d_class d))
  | HSet k W => good /\ exists d, p = PObj d /\ assoc k (v_data (c_view c)) = Some (d_class d) /\ sets W (d_attrs d) (c_new c (d_class d))
  end.
Definition sat_o (o : own) (self : attrs) : Prop :=
  match o with
  | OKeep W => agree W self self0
  | OSet W => good /\ sets W self self0
  | OAny => True
  end.
Definition sat_v (l : list (string * option hold)) (e : env) : Prop :=
  forall x h, look x l = Some h -> exists p, assoc x e = Some p /\ sat_h h p.
Definition sat (A : ast) (e : env) (self : attrs) : Prop := sat_v (av A) e /\ sat_o (ao A) self.
Definition sat_opt (h : option hold) (p : pval) : Prop := match h with Some h => sat_h h p | None => True end.

(** ** Changes *)

Lemma agree_put W a b k v : agree W a b -> agree (uni W [k]) (put k v a) b.
Proof.
  intros H x Hx. rewrite mem_uni in Hx. apply orb_false_iff in Hx as [H1 H2]. rewrite assoc_put.
  unfold mem in H2. cbn [existsb] in H2. apply orb_false_iff in H2 as [H2 _]. rewrite H2. auto.
Qed.
Lemma agree_del W a b k : agree W a b -> agree (uni W [k]) (del k a) b.
Proof.
  intros H x Hx. rewrite mem_uni in Hx. apply orb_false_iff in Hx as [H1 H2]. 
  unfold mem in H2. cbn [existsb] in H2. apply orb_false_iff in H2 as [H2 _]. rewrite assoc_del_ne; [auto|]. intros ->. now rewrite eqb_refl_s in H2.
Qed.
Lemma sets_put W a b k v : sets W a b -> sets (uni W [k]) (put k v a) b.
Proof.
  intros H x Hx. rewrite mem_uni in Hx. apply orb_false_iff in Hx as [H1 H2]. rewrite assoc_put.
  unfold mem in H2. cbn [existsb] in H2. apply orb_false_iff in H2 as [H2 _]. rewrite H2. auto.
Qed.
Lemma sets_del W a b k : sets W a b -> sets (uni W [k]) (del k a) b.
Proof.
  intros H x Hx. rewrite mem_uni in Hx. apply orb_false_iff in Hx as [H1 H2].
  unfold mem in H2. cbn [existsb] in H2. apply orb_false_iff in H2 as [H2 _]. rewrite assoc_del_ne; [auto|]. intros ->. now rewrite eqb_refl_s in H2.
Qed.
Lemma agree_more W V a b : (forall k, mem k W = true -> mem k V = true) -> agree W a b -> agree V a b.
Proof. intros HW H k Hk. apply H. destruct (mem k W) eqn:E; [|reflexivity]. rewrite (HW k E) in Hk. discriminate. Qed.
Lemma sets_more W V a b : (forall k, mem k W = true -> mem k V = true) -> sets W a b -> sets V a b.
Proof. intros HW H k Hk. apply H. destruct (mem k W) eqn:E; [|reflexivity]. rewrite (HW k E) in Hk. discriminate. Qed.
Lemma uni_l V W k : mem k V = true -> mem k (uni V W) = true.
Proof. intros H. rewrite mem_uni, H. reflexivity. Qed.
Lemma uni_r V W k : mem k W = true -> mem k (uni V W) = true.
Proof. intros H. rewrite mem_uni, H. apply orb_true_r. Qed.

(** Setting a namespace. *)
Lemma set_sets W Wn n a b : NoDup (map fst n) -> agree Wn n n1 -> agree W a b -> sets (uni W Wn) (set_to_obj n a) b.
Proof.
  intros HD Hn Ha k Hk. rewrite mem_uni in Hk. apply orb_false_iff in Hk as [H1 H2].
  rewrite set_to_obj_overlay by exact HD. unfold overlay. rewrite (Hn k H2), (Ha k H1). reflexivity.
Qed.
Lemma agree_off W n : agree W n n0 -> agree (uni W (pair_keys Dr)) n n1.
Proof. intros H k Hk. rewrite mem_uni in Hk. apply orb_false_iff in Hk as [H1 H2]. rewrite (off k H2). auto. Qed.
Lemma set_sets_again W Wn n a b : NoDup (map fst n) -> agree Wn n n1 -> sets W a b -> sets (uni W Wn) (set_to_obj n a) b.
Proof.
  intros HD Hn Ha k Hk. rewrite mem_uni in Hk. apply orb_false_iff in Hk as [H1 H2].
  rewrite set_to_obj_overlay by exact HD. unfold overlay at 1. rewrite (Hn k H2). rewrite (Ha k H1). unfold overlay.
  destruct (assoc k n1) as [v|]; [|reflexivity]. destruct (is_none v); reflexivity.
Qed.

Lemma sat_taint_h l h p : sat_h h p -> sat_h (taint_h l h) p.
Proof.
  destruct h; cbn [taint_h sat_h]; auto.
  - intros (G & n & -> & D & H). split; [exact G|]. exists n. repeat split; auto. eapply agree_more; [apply uni_l|exact H].
  - intros (d & -> & E & H). exists d. repeat split; auto. eapply agree_more; [apply uni_l|exact H].
  - intros (G & d & -> & E & H). split; [exact G|]. exists d. repeat split; auto. eapply sets_more; [apply uni_l|exact H].
Qed.
Lemma sat_taint_o l o s : sat_o o s -> sat_o (taint_o l o) s.
Proof.
  destruct o; cbn [taint_o sat_o]; auto.
  - apply agree_more, uni_l.
  - intros [G H]. split; [exact G|]. eapply sets_more; [apply uni_l|exact H].
Qed.
Lemma sat_o_put k v o s : sat_o o s -> sat_o (taint_o [k] o) (put k v s).
Proof. destruct o; cbn [taint_o sat_o]; auto using agree_put. intros [G H]. auto using sets_put. Qed.
Lemma sat_o_del k o s : sat_o o s -> sat_o (taint_o [k] o) (del k s).
Proof. destruct o; cbn [taint_o sat_o]; auto using agree_del. intros [G H]. auto using sets_del. Qed.
Lemma sat_set_own Wn n o s : good -> NoDup (map fst n) -> agree Wn n n1 -> sat_o o s -> sat_o (set_own Wn o) (set_to_obj n s).
Proof.
  intros G D Hn. destruct o; cbn [set_own sat_o]; auto.
  - intros H. split; [exact G|]. now apply set_sets.
  - intros [_ H]. split; [exact G|]. now apply set_sets_again.
Qed.

(** ** Joins *)

Lemma join_h_l g h p : sat_opt g p -> sat_opt (join_h g h) p.
Proof.
  destruct g as [[| |V|k V|k V]|], h as [[| |W|l W|l W]|]; cbn [join_h sat_opt]; auto.
  - intros (G & n & -> & D & H). split; [exact G|]. exists n. repeat split; auto. eapply agree_more; [apply uni_l|exact H].
  - destruct (String.eqb k l); cbn [sat_opt]; auto. intros (d & -> & E & H). exists d. repeat split; auto. eapply agree_more; [apply uni_l|exact H].
  - destruct (String.eqb k l); cbn [sat_opt]; auto. intros (G & d & -> & E & H). split; [exact G|]. exists d. repeat split; auto. eapply sets_more; [apply uni_l|exact H].
Qed.
Lemma join_h_r g h p : sat_opt h p -> sat_opt (join_h g h) p.
Proof.
  destruct g as [[| |V|k V|k V]|], h as [[| |W|l W|l W]|]; cbn [join_h sat_opt]; auto.
  - intros (G & n & -> & D & H). split; [exact G|]. exists n. repeat split; auto. eapply agree_more; [apply uni_r|exact H].
  - destruct (String.eqb_spec k l) as [->|]; cbn [sat_opt]; auto. intros (d & -> & E & H). exists d. repeat split; auto. eapply agree_more; [apply uni_r|exact H].
  - destruct (String.eqb_spec k l) as [->|]; cbn [sat_opt]; auto. intros (G & d & -> & E & H). split; [exact G|]. exists d. repeat split; auto. eapply sets_more; [apply uni_r|exact H].
Qed.
Lemma join_o_l o p s : sat_o o s -> sat_o (join_o o p) s.
Proof.
  destruct o, p; cbn [join_o sat_o]; auto.
  - apply agree_more, uni_l.
  - intros [G H]. split; [exact G|]. eapply sets_more; [apply uni_l|exact H].
Qed.
Lemma join_o_r o p s : sat_o p s -> sat_o (join_o o p) s.
Proof.
  destruct o, p; cbn [join_o sat_o]; auto.
  - apply agree_more, uni_r.
  - intros [G H]. split; [exact G|]. eapply sets_more; [apply uni_r|exact H].
Qed.

Lemma look_join x A B : look x (map (fun xh => (fst xh, join_h (snd xh) (look (fst xh) B))) A) =
  join_h (look x A) (look x B).
Proof.
  unfold look at 1 3. induction A as [|[y h] A IH]; cbn [map assoc fst snd].
  - reflexivity.
  - destruct (String.eqb_spec x y) as [->|]; [reflexivity|exact IH].
Qed.
Lemma sat_v_opt l e : sat_v l e <-> forall x, match look x l with Some h => exists p, assoc x e = Some p /\ sat_h h p | None => True end.
Proof.
  split.
  - intros H x. destruct (look x l) eqn:E; [|exact I]. auto.
  - intros H x h E. specialize (H x). rewrite E in H. exact H.
Qed.
Lemma join_some g h k : join_h g h = Some k -> exists a b, g = Some a /\ h = Some b.
Proof. destruct g as [[]|], h as [[]|]; cbn [join_h]; try discriminate; eauto. Qed.
Lemma join_a_l A B e s : sat A e s -> sat (join_a A B) e s.
Proof.
  intros [H1 H2]. split; [|now apply join_o_l]. intros x h E. cbn [join_a av] in E. rewrite look_join in E.
  pose proof (join_some _ _ _ E) as (a & b & Ea & Eb). destruct (H1 x a Ea) as (p & Ep & Hp). exists p. split; [exact Ep|].
  pose proof (join_h_l (Some a) (Some b) p Hp) as J. rewrite <- Ea, <- Eb, E in J. exact J.
Qed.
Lemma join_a_r A B e s : sat B e s -> sat (join_a A B) e s.
Proof.
  intros [H1 H2]. split; [|now apply join_o_r]. intros x h E. cbn [join_a av] in E. rewrite look_join in E.
  pose proof (join_some _ _ _ E) as (a & b & Ea & Eb). destruct (H1 x b Eb) as (p & Ep & Hp). exists p. split; [exact Ep|].
  pose proof (join_h_r (Some a) (Some b) p Hp) as J. rewrite <- Ea, <- Eb, E in J. exact J.
Qed.

Definition sat_r (r : option hold * own) (p : pval) (s : attrs) : Prop := sat_opt (fst r) p /\ sat_o (snd r) s.
Lemma join_r_l r q p s : sat_r r p s -> sat_r (join_r r q) p s.
Proof. intros [H1 H2]. split; [now apply join_h_l|now apply join_o_l]. Qed.
Lemma join_r_r r q p s : sat_r q p s -> sat_r (join_r r q) p s.
Proof. intros [H1 H2]. split; [now apply join_h_r|now apply join_o_r]. Qed.

Definition opt_sat (A : option ast) e s : Prop := match A with Some A => sat A e s | None => False end.
Definition opt_r (r : option (option hold * own)) p s : Prop := match r with Some r => sat_r r p s | None => False end.
Lemma opt_sat_l A B e s : opt_sat A e s -> opt_sat (join_opt join_a A B) e s.
Proof. destruct A, B; cbn; auto using join_a_l; tauto. Qed.
Lemma opt_sat_r A B e s : opt_sat B e s -> opt_sat (join_opt join_a A B) e s.
Proof. destruct A, B; cbn; auto using join_a_r; tauto. Qed.
Lemma opt_r_l A B e s : opt_r A e s -> opt_r (join_opt join_r A B) e s.
Proof. destruct A, B; cbn; auto using join_r_l; tauto. Qed.
Lemma opt_r_r A B e s : opt_r B e s -> opt_r (join_opt join_r A B) e s.
Proof. destruct A, B; cbn; auto using join_r_r; tauto. Qed.

(** ** Expressions and variables *)

Lemma eval_value self e x p : eval c self e x = Ok p ->
  match x with EVar _ | EGet _ _ _ | EAnd _ _ | EOr _ _ | ENew _ | ENoKw => True | _ => exists v, p = PV v end.
Proof.
  destruct x as [v|y| |y b|y b d|y b|o y|o y z|y z|y z|n|n|n|y|b|y z|]; intros H; try exact I; cbn [eval] in H.
  - injection H as <-. eauto.
  - injection H as <-. eauto.
  - apply bind_ok in H as (q & _ & H). destruct (find_attr self q b); [|discriminate]. injection H as <-. eauto.
  - apply bind_ok in H as (q & _ & H). injection H as <-. eauto.
  - destruct o; apply bind_ok in H as (q & _ & H);
      try (apply bind_ok in H as (v & _ & H); apply bind_ok in H as (w & _ & H)); injection H as <-; eauto.
  - apply bind_ok in H as (q & _ & H). apply bind_ok in H as (v & _ & H). apply bind_ok in H as (q' & _ & H).
    apply bind_ok in H as (w & _ & H). apply bind_ok in H as (r & _ & H). injection H as <-. eauto.
  - destruct (seen_in _ _); [|discriminate]. injection H as <-. eauto.
  - injection H as <-. eauto.
  - apply bind_ok in H as (q & _ & H). destruct q; try discriminate. apply bind_ok in H as (s & _ & H). injection H as <-. eauto.
  - apply bind_ok in H as (q & _ & H). injection H as <-. eauto.
  - apply bind_ok in H as (q & _ & H). apply bind_ok in H as (v & _ & H). apply bind_ok in H as (q' & _ & H).
    destruct v; try discriminate. injection H as <-. eauto.
Qed.
Lemma ahold_sound A e self x p : sat A e self -> eval c self e x = Ok p -> sat_opt (ahold A x) p.
Proof.
  intros [HV _] H. pose proof (eval_value self e x p H) as E. destruct x; cbn [ahold]; try exact I; try exact E.
  - cbn [eval] in H. destruct (String.eqb x "self"); [injection H as <-; reflexivity|].
    destruct (look x (av A)) as [h|] eqn:L; [|exact I]. destruct (HV x h L) as (q & Eq & Hq). rewrite Eq in H. injection H as <-. exact Hq.
  - cbn [eval] in H. destruct (assoc c0 (v_data (c_view c))) as [k|] eqn:L; [|discriminate]. injection H as <-. cbn [sat_opt sat_h].
    exists (mkData k (c_new c k)). cbn [d_class d_attrs]. repeat split; auto.
Qed.
Lemma look_put x h l y : look y (put x h l) = if String.eqb y x then h else look y l.
Proof. unfold look. rewrite assoc_put. destruct (String.eqb y x); reflexivity. Qed.
Lemma sat_put l e x h p : sat_v l e -> sat_opt h p -> sat_v (put x h l) (put x p e).
Proof.
  intros H Hp y g E. rewrite look_put in E. rewrite assoc_put. destruct (String.eqb y x).
  - subst h. eauto.
  - auto.
Qed.
Lemma sat_bind A e self x h p : sat A e self -> sat_opt h p -> sat (bind_a x h A) (put x p e) self.
Proof. intros [H1 H2] Hp. split; [now apply sat_put|exact H2]. Qed.
(** Forgetting what a variable holds. *)
Lemma sat_same l e x h p : sat_v l e -> assoc x e = Some p -> sat_opt h p -> sat_v (put x h l) e.
Proof.
  intros H E Hp y g L. rewrite look_put in L. destruct (String.eqb_spec y x) as [->|].
  - subst h. eauto.
  - auto.
Qed.
Lemma sat_forget l e x : sat_v l e -> sat_v (put x None l) e.
Proof. intros H y g L. rewrite look_put in L. destruct (String.eqb y x); [discriminate|auto]. Qed.

Lemma bind_params_sound A e self : sat A e self -> forall ps e0, bind_params c self e ps = Ok e0 ->
  sat_v (map (fun xe => (fst xe, ahold A (snd xe))) ps) e0.
Proof.
  intros HS ps. induction ps as [|[x y] ps IH]; intros e0 H; cbn [bind_params map_res] in H.
  - injection H as <-. intros x h L. discriminate.
  - apply bind_ok in H as (xp & H1 & H). apply bind_ok in H1 as (p & H1 & H2). injection H2 as <-.
    apply bind_ok in H as (r & H3 & H). injection H as <-. intros z h L. unfold look in L. cbn [map fst snd assoc] in *.
    destruct (String.eqb z x).
    + subst. exists p. split; [reflexivity|]. pose proof (ahold_sound A e self y p HS H1) as J. rewrite L in J. exact J.
    + exact (IH r H3 z h L).
Qed.

(** ** Attributes *)

Ltac oki := first [exact I | assumption | match goal with H : sat _ _ _ |- _ => exact (proj2 H) end].
Definition next_sat (A B : ast) (o : outcome) : Prop :=
  match o with ONext e s => sat B e s | ORaise _ s => sat_o (ao A) s | _ => False end.

Lemma touch_sound A e self x a (f : attrs -> attrs) :
  sat A e self ->
  (forall o s, sat_o o s -> sat_o (taint_o [a] o) (f s)) ->
  (forall W m b, agree W m b -> agree (uni W [a]) (f m) b) ->
  (forall W m b, sets W m b -> sets (uni W [a]) (f m) b) ->
  (forall m, NoDup (map fst m) -> NoDup (map fst (f m))) ->
  next_sat A (touch x a A)
    (if String.eqb x "self" then ONext e (f self)
     else match assoc x e with
          | Some PSelf => ONext e (f self)
          | Some (PNs n) => ONext (put x (PNs (f n)) e) self
          | Some (PObj d) => ONext (put x (PObj (mkData (d_class d) (f (d_attrs d)))) e) self
          | _ => ORaise AttributeError self
          end).
Proof.
  intros [HV HO] Fo Fa Fs Fd. unfold touch. destruct (String.eqb x "self"); [split; [exact HV|now apply Fo]|].
  destruct (look x (av A)) as [h|] eqn:L.
  - destruct (HV x h L) as (p & -> & Hp). destruct h; cbn [sat_h] in Hp.
    + destruct Hp as [v ->]. oki.
    + subst p. split; [|now apply Fo]. cbn [av]. intros y g. rewrite look_put. destruct (String.eqb_spec y x) as [->|]; [|apply HV].
      intros E. injection E as <-. apply HV. exact L.
    + destruct Hp as (G & n & -> & D & H). split; [|exact HO]. apply sat_put; [exact HV|]. cbn [sat_opt sat_h taint_h]. split; [exact G|]. exists (f n). auto.
    + destruct Hp as (d & -> & E & H). split; [|exact HO]. apply sat_put; [exact HV|]. cbn [sat_opt sat_h taint_h]. eexists; split; [reflexivity|]. cbn [d_class d_attrs]. auto.
    + destruct Hp as (G & d & -> & E & H). split; [|exact HO]. apply sat_put; [exact HV|]. cbn [sat_opt sat_h taint_h]. split; [exact G|]. eexists; split; [reflexivity|]. cbn [d_class d_attrs]. auto.
  - destruct (assoc x e) as [[v| |n|d]|] eqn:E; try oki; split; cbn [av ao].
    + now apply sat_forget.
    + now apply Fo.
    + intros y g Lg. rewrite look_put in Lg. rewrite assoc_put. destruct (String.eqb y x); [discriminate|auto].
    + now apply sat_taint_o.
    + intros y g Lg. rewrite look_put in Lg. rewrite assoc_put. destruct (String.eqb y x); [discriminate|auto].
    + now apply sat_taint_o.
Qed.
Lemma set_on_sound A e self x a v : sat A e self -> next_sat A (touch x a A) (set_on x a v e self).
Proof.
  intros H. apply (touch_sound A e self x a (put a v)); auto using sat_o_put, agree_put, sets_put, keys_put_dict.
Qed.
Lemma del_on_sound A e self x a : sat A e self -> next_sat A (touch x a A) (del_on x a e self).
Proof.
  intros H. apply (touch_sound A e self x a (del a)); auto using sat_o_del, agree_del, sets_del.
  intros m. apply keys_del_dict.
Qed.
Lemma set_to_sound A e self n Wn x : sat A e self -> good -> NoDup (map fst n) -> agree Wn n n1 -> next_sat A (set_a Wn x A) (set_to n x e self).
Proof.
  intros [HV HO] G D Hn. unfold set_a, set_to. destruct (String.eqb x "self"); [split; [exact HV|now apply sat_set_own]|].
  destruct (look x (av A)) as [h|] eqn:L.
  - destruct (HV x h L) as (p & -> & Hp). destruct h; cbn [sat_h] in Hp.
    + destruct Hp as [v ->]. oki.
    + subst p. split; [exact HV|now apply sat_set_own].
    + destruct Hp as (_ & n' & -> & _). oki.
    + destruct Hp as (d & -> & E & H). split; [|exact HO]. apply sat_put; [exact HV|]. cbn [sat_opt sat_h]. split; [exact G|]. eexists; split; [reflexivity|]. cbn [d_class d_attrs].
      split; [exact E|]. now apply set_sets.
    + destruct Hp as (_ & d & -> & E & H). split; [|exact HO]. apply sat_put; [exact HV|]. cbn [sat_opt sat_h]. split; [exact G|]. eexists; split; [reflexivity|]. cbn [d_class d_attrs].
      split; [exact E|]. now apply set_sets_again.
  - destruct (assoc x e) as [[v| |n'|d]|] eqn:E; try oki; split; try oki; cbn [av].
    + now apply sat_forget.
    + intros y g Lg. rewrite look_put in Lg. rewrite assoc_put. destruct (String.eqb y x); [discriminate|auto].
Qed.

(** An attribute that gets its derived value. *)
Lemma mem_without k a W : mem k (without a W) = mem k W && negb (String.eqb k a).
Proof.
  unfold without. destruct (mem k (filter _ W)) eqn:E.
  - apply mem_In, filter_In in E as [E1 E2]. apply mem_In in E1. now rewrite E1, E2.
  - destruct (mem k W) eqn:M; [|reflexivity]. destruct (String.eqb k a) eqn:Ea; [reflexivity|]. exfalso. apply not_true_iff_false in E. apply E, mem_In, filter_In. rewrite Ea. split; [now apply mem_In|reflexivity].
Qed.
Lemma sets_clean W a b k v : sets W a b -> assoc k n1 = Some v -> is_none v = false -> assoc k a = Some v -> sets (without k W) a b.
Proof.
  intros H N V E j Hj. rewrite mem_without in Hj. destruct (String.eqb_spec j k) as [Ej|].
  - subst j. unfold overlay. now rewrite N, V.
  - rewrite andb_true_r in Hj. auto.
Qed.
Lemma derives_sound A e self a y v : sat A e self -> derives Dr A a y = true -> eval c self e y = Ok (PV v) -> assoc a n1 = Some v /\ is_none v = false.
Proof.
  intros [HV _] H E. destruct y as [| | | | | | |o y z| | | | | | | | |]; try discriminate. destruct o; try discriminate. destruct y as [| | |y p| | | | | | | | | | | | |]; try discriminate.
  destruct y as [|m| | | | | | | | | | | | | | |]; try discriminate. destruct z as [w| | | | | | | | | | | | | | | |]; try discriminate. destruct w as [| |w| | | |]; try discriminate. destruct w; try discriminate.
  cbn [derives] in H. apply andb_prop in H as [H1 H]. apply negb_true_iff in H1. destruct (look m (av A)) as [[| |W| |]|] eqn:L; try discriminate.
  apply andb_prop in H as [H2 H]. apply negb_true_iff in H2. apply existsb_exists in H as ([q p'] & Hin & H). cbn [fst snd] in H. apply andb_prop in H as [Q P]. apply String.eqb_eq in Q, P. subst q p'.
  destruct (HV m _ L) as (x & Ex & _ & n & -> & _ & Hn). cbn [eval] in E. rewrite H1, Ex in E. cbn [bind find_attr] in E.
  destruct (assoc p n) as [u|] eqn:Ep; [|discriminate]. cbn [bind to_val] in E. apply bind_ok in E as (r & E1 & E). injection E as <-.
  apply (derived a p u r); [exact Hin| |exact E1]. now rewrite <- (Hn p H2).
Qed.
Lemma set_on_clean A e self x a v : sat A e self -> assoc a n1 = Some v -> is_none v = false -> next_sat A (clean x a (touch x a A)) (set_on x a v e self).
Proof.
  intros H N V. pose proof (set_on_sound A e self x a v H) as K.
  assert (O : forall o s, sat_o o s -> assoc a s = Some v -> sat_o (clean_o a o) s).
  { intros [W|W|] s Hs E; auto. destruct Hs as [G Hs]. split; [exact G|]. eapply sets_clean; eauto. }
  unfold set_on in *. unfold clean. destruct (String.eqb x "self").
  { destruct K as [K1 K2]. split; [exact K1|]. apply O; [exact K2|]. now rewrite assoc_put, eqb_refl_s. }
  destruct (look x (av (touch x a A))) as [h|] eqn:L; [|exact K]. destruct h as [| |W|k W|k W]; try exact K.
  - destruct (assoc x e) as [[u| |n|d]|] eqn:Ex; try exact K.
    + destruct K as [K1 K2]. split; [exact K1|]. apply O; [exact K2|]. now rewrite assoc_put, eqb_refl_s.
    + destruct K as [K1 K2]. destruct (K1 x _ L) as (p & Ep & Hp). rewrite assoc_put, eqb_refl_s in Ep. injection Ep as <-. discriminate.
    + destruct K as [K1 K2]. destruct (K1 x _ L) as (p & Ep & Hp). rewrite assoc_put, eqb_refl_s in Ep. injection Ep as <-. discriminate.
  - destruct (assoc x e) as [[u| |n|d]|] eqn:Ex; try exact K; destruct K as [K1 K2]; destruct (K1 x _ L) as (p & Ep & G & d' & -> & Hc & Hs).
    + rewrite Ex in Ep. discriminate.
    + rewrite assoc_put, eqb_refl_s in Ep. discriminate.
    + rewrite assoc_put, eqb_refl_s in Ep. injection Ep as <-. cbn [d_class d_attrs] in *. split; [|exact K2]. cbn [bind_a av].
      eapply sat_same; [exact K1|rewrite assoc_put, eqb_refl_s; reflexivity|]. cbn [sat_opt sat_h]. split; [exact G|]. eexists. split; [reflexivity|]. cbn [d_class d_attrs]. split; [exact Hc|].
      eapply sets_clean; eauto. now rewrite assoc_put, eqb_refl_s.
Qed.

(** ** Loops *)

(** What is known does not mention what is written. *)
Definition covers (w : writes) (h : hold) : Prop :=
  match h with
  | HVal | HSelf => w_all w = false
  | HNs W | HNew _ W | HSet _ W => w_all w = false /\ forall a, mem a (w_attrs w) = true -> mem a W = true
  end.
Definition covers_o (w : writes) (o : own) : Prop :=
  match o with
  | OKeep W | OSet W => w_all w = false /\ forall a, mem a (w_attrs w) = true -> mem a W = true
  | OAny => True
  end.
Definition tame (w : writes) (A : ast) : Prop :=
  (forall x h, look x (av A) = Some h -> mem x (w_vars w) = false /\ covers w h) /\ covers_o w (ao A).

Definition stays (A : ast) (o : outcome) : Prop :=
  match o with
  | ONext e s | OBreak e s => sat A e s
  | OReturn _ s => sat_o (ao A) s
  | ORaise _ s => sat_o (ao A) s
  end.

Lemma tame_join_l v w A : tame (w_join v w) A -> tame v A.
Proof.
  intros [H1 H2]. assert (T : w_all (w_join v w) = false -> w_all v = false) by (cbn [w_join w_all]; rewrite orb_false_iff; tauto).
  assert (M : forall a, mem a (w_attrs v) = true -> mem a (w_attrs (w_join v w)) = true).
  { intros a Ha. apply mem_In. apply in_or_app. left. now apply mem_In. }
  split.
  - intros x h L. destruct (H1 x h L) as [Hx Hc]. split.
    + destruct (mem x (w_vars v)) eqn:E; [|reflexivity]. rewrite <- Hx. symmetry. apply mem_In. apply in_or_app. left. now apply mem_In.
    + destruct h; cbn [covers] in *; auto; split; try (apply T; tauto); intros; apply Hc; auto.
  - destruct (ao A); cbn [covers_o] in *; auto; split; try (apply T; tauto); intros; apply H2; auto.
Qed.
Lemma tame_join_r v w A : tame (w_join v w) A -> tame w A.
Proof.
  intros [H1 H2]. assert (T : w_all (w_join v w) = false -> w_all w = false) by (cbn [w_join w_all]; rewrite orb_false_iff; tauto).
  assert (M : forall a, mem a (w_attrs w) = true -> mem a (w_attrs (w_join v w)) = true).
  { intros a Ha. apply mem_In. apply in_or_app. right. now apply mem_In. }
  split.
  - intros x h L. destruct (H1 x h L) as [Hx Hc]. split.
    + destruct (mem x (w_vars w)) eqn:E; [|reflexivity]. rewrite <- Hx. symmetry. apply mem_In. apply in_or_app. right. now apply mem_In.
    + destruct h; cbn [covers] in *; auto; split; try (apply T; tauto); intros; apply Hc; auto.
  - destruct (ao A); cbn [covers_o] in *; auto; split; try (apply T; tauto); intros; apply H2; auto.
Qed.
Lemma stays_var A e self w x p : tame w A -> mem x (w_vars w) = true -> sat A e self -> sat A (put x p e) self.
Proof.
  intros [T _] Hx [H1 H2]. split; [|exact H2]. intros y h L. rewrite assoc_put. destruct (String.eqb_spec y x) as [->|]; [|auto].
  destruct (T x h L) as [Hx' _]. congruence.
Qed.
Lemma uni_in W a : mem a W = true -> forall k, mem k (uni W [a]) = mem k W.
Proof.
  intros H k. rewrite mem_uni. unfold mem at 2. cbn [existsb]. rewrite orb_false_r. destruct (String.eqb_spec k a) as [->|]; [rewrite H; reflexivity|apply orb_false_r].
Qed.
Lemma stays_own w o s a (f : attrs -> attrs) :
  (forall o s, sat_o o s -> sat_o (taint_o [a] o) (f s)) -> covers_o w o -> mem a (w_attrs w) = true -> sat_o o s -> sat_o o (f s).
Proof.
  intros F C Ha H. apply F in H. destruct o; cbn [taint_o sat_o covers_o] in *; auto.
  - eapply agree_more; [|exact H]. intros k Hk. rewrite uni_in in Hk; [exact Hk|]. now apply C.
  - destruct H as [G H]. split; [exact G|]. eapply sets_more; [|exact H]. intros k Hk. rewrite uni_in in Hk; [exact Hk|]. now apply C.
Qed.
Lemma stays_touch w A e self x a (f : attrs -> attrs) : tame w A -> mem a (w_attrs w) = true -> sat A e self ->
  (forall o s, sat_o o s -> sat_o (taint_o [a] o) (f s)) ->
  (forall W m b, agree W m b -> agree (uni W [a]) (f m) b) ->
  (forall W m b, sets W m b -> sets (uni W [a]) (f m) b) ->
  (forall m, NoDup (map fst m) -> NoDup (map fst (f m))) ->
  stays A
    (if String.eqb x "self" then ONext e (f self)
     else match assoc x e with
          | Some PSelf => ONext e (f self)
          | Some (PNs n) => ONext (put x (PNs (f n)) e) self
          | Some (PObj d) => ONext (put x (PObj (mkData (d_class d) (f (d_attrs d)))) e) self
          | _ => ORaise AttributeError self
          end).
Proof.
  intros [T To] Ha [HV HO] Fo Fa Fs Fd. destruct (String.eqb x "self"); [split; [exact HV|eapply stays_own; eauto]|].
  assert (V : forall p q, assoc x e = Some p -> (forall h, covers w h -> sat_h h p -> sat_h h q) -> sat_v (av A) (put x q e)).
  { intros p q E Hq y h L. rewrite assoc_put. destruct (String.eqb_spec y x) as [->|]; [|auto]. exists q. split; [reflexivity|].
    destruct (HV x h L) as (p' & E' & Hp). rewrite E in E'. injection E' as <-. apply Hq; [|exact Hp]. apply (T x h L). }
  destruct (assoc x e) as [[v| |n|d]|] eqn:E; try oki; split; try exact HV; try exact HO.
  - eapply stays_own; eauto.
  - eapply V; [reflexivity|]. intros h C. destruct h; cbn [sat_h]; [intros [? Q]; discriminate|discriminate| |intros (? & Q & _); discriminate|intros (_ & ? & Q & _); discriminate].
    intros (G & m & Em & D & H). injection Em as <-. split; [exact G|]. exists (f n). repeat split; auto.
    eapply agree_more; [|apply Fa; exact H]. intros k Hk. rewrite uni_in in Hk; [exact Hk|]. now apply C.
  - eapply V; [reflexivity|]. intros h C. destruct h; cbn [sat_h]; [intros [? Q]; discriminate|discriminate|intros (_ & ? & Q & _); discriminate| |].
    + intros (m & Em & D & H). injection Em as <-. eexists; split; [reflexivity|]. cbn [d_class d_attrs]. split; [exact D|].
      eapply agree_more; [|apply Fa; exact H]. intros k' Hk. rewrite uni_in in Hk; [exact Hk|]. now apply C.
    + intros (G & m & Em & D & H). injection Em as <-. split; [exact G|]. eexists; split; [reflexivity|]. cbn [d_class d_attrs]. split; [exact D|].
      eapply sets_more; [|apply Fs; exact H]. intros k' Hk. rewrite uni_in in Hk; [exact Hk|]. now apply C.
Qed.

Lemma loop_stays {X} (body : X -> env -> attrs -> outcome) A :
  (forall x e self, sat A e self -> stays A (body x e self)) ->
  forall l e self, sat A e self -> stays A (loop body l e self).
Proof.
  intros HB l. induction l as [|x l IH]; intros e self H; cbn [loop]; [exact H|].
  specialize (HB x e self H). destruct (body x e self); cbn [stays] in *; auto.
Qed.
Lemma loop_no_break {X} (body : X -> env -> attrs -> outcome) l : forall e self,
  match loop body l e self with OBreak _ _ => False | _ => True end.
Proof. induction l as [|x l IH]; intros e self; cbn [loop]; [exact I|]. destruct (body x e self); try exact I; apply IH. Qed.

Lemma mem_self1 x l : mem x (x :: l) = true.
Proof. unfold mem. cbn [existsb]. rewrite eqb_refl_s. reflexivity. Qed.
Lemma mem_tl x y l : mem x l = true -> mem x (y :: l) = true.
Proof. unfold mem. cbn [existsb]. intros ->. apply orb_true_r. Qed.

Lemma exec_stays s : forall A e self, tame (writes_of s) A -> sat A e self -> stays A (exec c s e self).
Proof.
  induction s as [|s1 IH1 s2 IH2|x y|x b y|x b|x y|x y z sep w|ns|ns extra|ns x|y s1 IH1 s2 IH2|x y s IH|x y w s IH|x s IH|line tag| |y|y| |l|x t m ps|x ps s IH];
    intros A e self T H; cbn [exec]; cbn [writes_of] in T.
  - exact H.
  - pose proof (IH1 A e self (tame_join_l _ _ _ T) H) as H1. destruct (exec c s1 e self); cbn [stays] in *; auto.
    apply IH2; [eapply tame_join_r; eauto|exact H1].
  - destruct (eval c self e y) as [p|]; [|oki]. eapply stays_var; eauto. apply mem_self1.
  - unfold with_val. destruct (eval c self e y) as [[v| |n|d]|]; try oki. unfold set_on.
    apply (stays_touch _ A e self x b (put b v) T); auto using sat_o_put, agree_put, sets_put, keys_put_dict. apply mem_self1.
  - unfold del_on. apply (stays_touch _ A e self x b (del b) T); auto using sat_o_del, agree_del, sets_del; [apply mem_self1|]. intros m. apply keys_del_dict.
  - unfold with_val. destruct (eval c self e y) as [[v| |n|d]|]; try oki. destruct v; try oki.
    destruct (assoc x e) as [[[]| | |]|]; try oki. eapply stays_var; eauto. apply mem_self1.
  - unfold with_val. destruct (eval c self e w) as [[v| |n|d]|]; try oki. destruct v; try oki.
    destruct sep as [|ch [|]]; try oki. destruct (partition_char ch s) as [[b f] r]. cbn [stays].
    eapply stays_var; [exact T|apply mem_tl, mem_tl, mem_self1|]. eapply stays_var; [exact T|apply mem_tl, mem_self1|]. eapply stays_var; [exact T|apply mem_self1|]. exact H.
  - destruct (parse_args _ _ _); [|oki]. eapply stays_var; eauto. apply mem_self1.
  - destruct (parse_known_args _ _ _) as [[n r]|]; [|oki]. eapply stays_var; [exact T|apply mem_tl, mem_self1|]. eapply stays_var; [exact T|apply mem_self1|]. exact H.
  - destruct T as [T To]. assert (N : forall y h, look y (av A) = Some h -> False).
    { intros y h L. destruct (T y h L) as [_ C]. destruct h; cbn [covers w_all] in C; try discriminate; destruct C; discriminate. }
    assert (O : ao A = OAny) by (destruct (ao A); cbn [covers_o w_all] in To; try reflexivity; destruct To; discriminate).
    assert (Any : forall e' s', sat A e' s') by (intros e' s'; split; [intros y h L; destruct (N y h L)|rewrite O; oki]).
    destruct (assoc ns e) as [[v| |n|d]|]; try oki. unfold set_to. destruct (String.eqb x "self"); [apply Any|].
    destruct (assoc x e) as [[v| |n'|d]|]; try oki; apply Any.
  - destruct (eval c self e y) as [p|]; [|oki]. destruct (p_truthy p); [apply IH1; auto; eapply tame_join_l; eauto|apply IH2; auto; eapply tame_join_r; eauto].
  - unfold with_val. destruct (eval c self e y) as [[v| |n|d]|]; try oki. destruct v; try oki.
    apply loop_stays; [|exact H]. intros i e1 s1 H1. apply IH; [eapply tame_join_r; eauto|]. eapply stays_var; eauto. apply mem_In. apply in_or_app. left. now left.
  - unfold with_val. destruct (eval c self e w) as [[v| |n|d]|]; try oki. destruct v; try oki;
    (apply loop_stays; [|exact H]; intros i e1 s1 H1; apply IH; [eapply tame_join_r; eauto|];
     eapply stays_var; [exact T|apply mem_In; apply in_or_app; left; right; now left|]; eapply stays_var; [exact T|apply mem_In; apply in_or_app; left; now left|]; exact H1).
  - apply loop_stays; [|exact H]. intros i e1 s1 H1. apply IH; [eapply tame_join_r; eauto|]. eapply stays_var; eauto. apply mem_In. apply in_or_app. left. now left.
  - destruct line; oki.
  - oki.
  - destruct (eval c self e y) as [p|]; [|oki]. destruct (p_truthy p); [exact H|oki].
  - destruct (eval c self e y) as [p|]; [|oki]. apply H.
  - exact H.
  - assert (O : ao A = OAny) by (destruct T as [_ To]; destruct (ao A); cbn [covers_o w_all] in To; try reflexivity; destruct To; discriminate).
    destruct H as [H _]. split; [exact H|]. rewrite O. oki.
  - oki.
  - destruct (bind_params c self e ps) as [e0|]; [|oki].
    assert (T0 : tame (writes_of s) (mkAst [] (ao A))).
    { split; [intros y h L; discriminate|]. destruct T as [_ To]. destruct (ao A); cbn [covers_o w_all w_attrs] in *; exact To. }
    pose proof (IH (mkAst [] (ao A)) e0 self T0) as H0.
    assert (S0 : sat (mkAst [] (ao A)) e0 self) by (split; [intros y h L; discriminate|apply H]).
    specialize (H0 S0). destruct (exec c s e0 self) as [e1 s1|e1 s1|p s1|z s1]; cbn [stays] in H0 |- *; try oki;
    (eapply stays_var; [exact T|apply mem_self1|]; split; [apply H|]); try apply H0.
Qed.

Lemma look_blur w A x : look x (av (blur w A)) =
  if w_all w then None else if mem x (w_vars w) then None else option_map (taint_h (w_attrs w)) (look x (av A)).
Proof.
  unfold blur. destruct (w_all w); [reflexivity|]. cbn [av]. unfold look. induction (av A) as [|[y h] l IH]; cbn [map assoc fst snd].
  - destruct (mem x (w_vars w)); reflexivity.
  - destruct (String.eqb_spec x y) as [->|]; [reflexivity|exact IH].
Qed.
Lemma blur_tame w A : tame w (blur w A).
Proof.
  split.
  - intros x h L. rewrite look_blur in L. destruct (w_all w) eqn:E; [discriminate|]. destruct (mem x (w_vars w)); [discriminate|].
    split; [reflexivity|]. destruct (look x (av A)) as [g|]; [|discriminate]. injection L as <-.
    destruct g; cbn [taint_h covers]; auto; split; auto; intros a Ha; now apply uni_r.
  - unfold blur. destruct (w_all w) eqn:E; [exact I|]. cbn [ao]. destruct (ao A); cbn [taint_o covers_o]; auto; split; auto; intros a Ha; now apply uni_r.
Qed.
Lemma blur_sat w A e self : sat A e self -> sat (blur w A) e self.
Proof.
  intros [H1 H2]. split.
  - intros x h L. rewrite look_blur in L. destruct (w_all w); [discriminate|]. destruct (mem x (w_vars w)); [discriminate|].
    destruct (look x (av A)) as [g|] eqn:E; [|discriminate]. injection L as <-. destruct (H1 x g E) as (p & Ep & Hp). exists p. split; [exact Ep|]. now apply sat_taint_h.
  - unfold blur. destruct (w_all w); [exact I|]. cbn [ao]. now apply sat_taint_o.
Qed.
Lemma no_return s : can_return s = false -> forall e self, match exec c s e self with OReturn _ _ => False | _ => True end.
Proof.
  assert (LP : forall X (body : X -> env -> attrs -> outcome), (forall x e self, match body x e self with OReturn _ _ => False | _ => True end) ->
    forall l e self, match loop body l e self with OReturn _ _ => False | _ => True end).
  { intros X body HB l. induction l as [|x l IH]; intros e self; cbn [loop]; [exact I|]. specialize (HB x e self). destruct (body x e self); try exact I; [apply IH|exact HB]. }
  induction s as [|s1 IH1 s2 IH2|x y|x b y|x b|x y|x y z sep w|ns|ns extra|ns x|y s1 IH1 s2 IH2|x y s IH|x y w s IH|x s IH|line tag| |y|y| |l|x t m ps|x ps s IH];
    intros R e self; cbn [exec]; cbn [can_return] in R.
  - exact I.
  - apply orb_false_iff in R as [R1 R2]. specialize (IH1 R1 e self). destruct (exec c s1 e self); try exact I; [now apply IH2|exact IH1].
  - destruct (eval c self e y); exact I.
  - unfold with_val. destruct (eval c self e y) as [[v| |n|d]|]; try exact I. unfold set_on. destruct (String.eqb x "self"); [exact I|].
    destruct (assoc x e) as [[]|]; exact I.
  - unfold del_on. destruct (String.eqb x "self"); [exact I|]. destruct (assoc x e) as [[]|]; exact I.
  - unfold with_val. destruct (eval c self e y) as [[v| |n|d]|]; try exact I. destruct v; try exact I. destruct (assoc x e) as [[[]| | |]|]; exact I.
  - unfold with_val. destruct (eval c self e w) as [[v| |n|d]|]; try exact I. destruct v; try exact I. destruct sep as [|ch [|]]; try exact I.
    destruct (partition_char ch s) as [[? ?] ?]; exact I.
  - destruct (parse_args _ _ _); exact I.
  - destruct (parse_known_args _ _ _) as [[? ?]|]; exact I.
  - destruct (assoc ns e) as [[v| |n|d]|]; try exact I. unfold set_to. destruct (String.eqb x "self"); [exact I|]. destruct (assoc x e) as [[]|]; exact I.
  - apply orb_false_iff in R as [R1 R2]. destruct (eval c self e y) as [p|]; [|exact I]. destruct (p_truthy p); [now apply IH1|now apply IH2].
  - unfold with_val. destruct (eval c self e y) as [[v| |n|d]|]; try exact I. destruct v; try exact I. apply LP. intros. apply IH. exact R.
  - unfold with_val. destruct (eval c self e w) as [[v| |n|d]|]; try exact I. destruct v; try exact I; apply LP; intros; apply IH; exact R.
  - apply LP. intros. apply IH. exact R.
  - destruct line; exact I.
  - exact I.
  - destruct (eval c self e y) as [p|]; [|exact I]. destruct (p_truthy p); exact I.
  - discriminate.
  - exact I.
  - exact I.
  - exact I.
  - destruct (bind_params _ _ _ _) as [e0|]; [|exact I]. destruct (exec c s e0 self); exact I.
Qed.

(** ** Statements *)

Definition flows (f : aends) (o : outcome) : Prop :=
  match o with
  | ONext e s => opt_sat (f_next f) e s
  | OBreak e s => opt_sat (f_break f) e s
  | OReturn p s => opt_r (f_ret f) p s
  | ORaise _ s => sat_o (f_raise f) s
  end.

Lemma a_loop_sound {X} w s A e self (body : X -> env -> attrs -> outcome) l :
  sat A e self ->
  (forall x e self, sat (blur w A) e self -> stays (blur w A) (body x e self)) ->
  (can_return s = false -> forall x e self, match body x e self with OReturn _ _ => False | _ => True end) ->
  flows (a_loop w s A) (loop body l e self).
Proof.
  intros H HB HR. pose proof (loop_stays body (blur w A) HB l e self (blur_sat w A e self H)) as S.
  pose proof (loop_no_break body l e self) as NB.
  assert (NR : can_return s = false -> match loop body l e self with OReturn _ _ => False | _ => True end).
  { intros R. specialize (HR R). clear -HR. revert e self. induction l as [|x l IH]; intros e self; cbn [loop]; [exact I|].
    specialize (HR x e self). destruct (body x e self); try exact I; [apply IH|exact HR]. }
  unfold a_loop. destruct (loop body l e self) as [e1 s1|e1 s1|p s1|z s1]; cbn [flows stays f_next f_ret opt_sat] in *; [exact S|contradiction| |exact S].
  destruct (can_return s); [|exfalso; auto]. cbn [opt_r]. split; [exact I|exact S].
Qed.

Ltac oki ::= first [exact I | assumption | match goal with H : sat _ _ _ |- _ => first [exact (proj2 H) | exact (proj2 (blur_sat _ _ _ _ H))] end].
Theorem flow_sound s : forall A e self, sat A e self -> flows (flow Dr A s) (exec c s e self).
Proof.
  induction s as [|s1 IH1 s2 IH2|x y|x b y|x b|x y|x y z sep w|ns|ns extra|ns x|y s1 IH1 s2 IH2|x y s IH|x y w s IH|x s IH|line tag| |y|y| |l|x t m ps|x ps s IH];
    intros A e self H; cbn [exec flow].
  - exact H.
  - pose proof (IH1 A e self H) as H1. cbv zeta. destruct (f_next (flow Dr A s1)) as [B|] eqn:EB.
    + destruct (exec c s1 e self) as [e1 s1'|e1 s1'|p s1'|z s1']; cbn [flows f_break f_ret f_next f_raise] in *.
      * rewrite EB in H1. cbn [opt_sat] in H1. specialize (IH2 B e1 s1' H1).
        destruct (exec c s2 e1 s1'); cbn [flows f_next f_break f_ret f_raise] in *; auto using opt_sat_r, opt_r_r, join_o_l, join_o_r.
      * auto using opt_sat_l.
      * auto using opt_r_l.
      * auto using join_o_l.
    + destruct (exec c s1 e self) as [e1 s1'|e1 s1'|p s1'|z s1']; cbn [flows] in *; auto. rewrite EB in H1. destruct H1.
  - destruct (eval c self e y) as [p|] eqn:E; [|oki]. cbn [flows f_next a_next opt_sat]. apply sat_bind; [exact H|]. eapply ahold_sound; eauto.
  - unfold with_val. destruct (eval c self e y) as [[v| |n|d]|] eqn:Ey; try oki.
    assert (K : next_sat A (if derives Dr A b y then clean x b (touch x b A) else touch x b A) (set_on x b v e self)).
    { destruct (derives Dr A b y) eqn:Dy; [|now apply set_on_sound]. destruct (derives_sound A e self b y v H Dy Ey) as [N V]. now apply set_on_clean. }
    destruct (set_on x b v e self); cbn [next_sat flows] in *; try contradiction; auto.
  - pose proof (del_on_sound A e self x b H) as K. destruct (del_on x b e self); cbn [next_sat flows] in *; try contradiction; auto.
  - unfold with_val. destruct (eval c self e y) as [[v| |n|d]|]; try oki. destruct v; try oki.
    destruct (assoc x e) as [[[]| | |]|]; try oki. cbn [flows f_next a_next opt_sat]. apply sat_bind; [exact H|]. cbn. eauto.
  - unfold with_val. destruct (eval c self e w) as [[v| |n|d]|]; try oki. destruct v; try oki.
    destruct sep as [|ch [|]]; try oki. destruct (partition_char ch s) as [[b f] r]. cbn [flows f_next a_next opt_sat].
    apply sat_bind; [apply sat_bind; [apply sat_bind; [exact H|]|]|]; cbn; eauto.
  - destruct (parse_args (c_parser c) (line_of self) (c_args c)) as [n|z] eqn:E; [|oki]. cbn [flows f_next a_next opt_sat]. apply sat_bind; [exact H|].
    unfold parse_args in E. apply bind_ok in E as ([m1 r] & E1 & E). cbn [fst snd] in E. destruct r; [|discriminate]. injection E as <-.
    pose proof (parsed _ _ _ E1). subst m1. split; [eexists; eexists; exact E1|]. exists n0. repeat split; auto.
  - destruct (parse_known_args (c_parser c) (line_of self) (c_args c)) as [[n r]|z] eqn:E; [|oki]. cbn [flows f_next a_next opt_sat].
    apply sat_bind; [apply sat_bind; [exact H|]|cbn; eauto]. pose proof (parsed _ _ _ E). subst n. split; [eexists; eexists; exact E|]. exists n0. repeat split; auto.
  - destruct (look ns (av A)) as [h|] eqn:L.
    + destruct H as [HV HO]. destruct (HV ns h L) as (p & Ep & Hp). rewrite Ep.
      destruct h; cbn [sat_h] in Hp.
      * destruct Hp as [v ->]. oki.
      * subst p. oki.
      * destruct Hp as (G & n & -> & Nd & Hn). pose proof (set_to_sound A e self n (uni W (pair_keys Dr)) x (conj HV HO) G Nd (agree_off W n Hn)) as K.
        destruct (set_to n x e self); cbn [next_sat flows] in *; try contradiction; auto.
      * destruct Hp as (d & -> & _). oki.
      * destruct Hp as (_ & d & -> & _). oki.
    + destruct (assoc ns e) as [[v| |n|d]|]; try oki. destruct H as [HV HO]. unfold set_to.
      destruct (String.eqb x "self"); [split; [now apply sat_forget|oki]|].
      destruct (assoc x e) as [[v| |n'|d]|]; try oki; split; try oki; cbn [av].
      * now apply sat_forget.
      * intros z g Lg. rewrite look_put in Lg. rewrite assoc_put. destruct (String.eqb z x); [discriminate|auto].
  - destruct (eval c self e y) as [p|]; [|apply join_o_l; oki]. cbv zeta. destruct (p_truthy p).
    + specialize (IH1 A e self H). destruct (exec c s1 e self); cbn [flows f_next f_break f_ret f_raise] in *; auto using opt_sat_l, opt_r_l, join_o_l, join_o_r.
    + specialize (IH2 A e self H). destruct (exec c s2 e self); cbn [flows f_next f_break f_ret f_raise] in *; auto using opt_sat_r, opt_r_r, join_o_l, join_o_r.
  - unfold with_val. destruct (eval c self e y) as [[v| |n|d]|]; try oki. destruct v; try oki.
    apply a_loop_sound; [exact H| |].
    + intros i e1 s1 H1. pose proof (blur_tame (w_join (w_var [x]) (writes_of s)) A) as T.
      apply exec_stays; [eapply tame_join_r; exact T|]. eapply stays_var; [exact T| |exact H1]. apply mem_In. apply in_or_app. left. now left.
    + intros R i e1 s1. apply no_return. exact R.
  - unfold with_val. destruct (eval c self e w) as [[v| |n|d]|]; try oki.
    pose proof (blur_tame (w_join (w_var [x; y]) (writes_of s)) A) as T.
    destruct v; try oki; (apply a_loop_sound; [exact H| |intros R i e1 s1; apply no_return; exact R]; intros i e1 s1 H1;
      apply exec_stays; [eapply tame_join_r; exact T|];
      eapply stays_var; [exact T|apply mem_In; apply in_or_app; left; right; now left|]; eapply stays_var; [exact T|apply mem_In; apply in_or_app; left; now left|]; exact H1).
  - apply a_loop_sound; [exact H| |].
    + intros i e1 s1 H1. pose proof (blur_tame (w_join (w_var [x]) (writes_of s)) A) as T.
      apply exec_stays; [eapply tame_join_r; exact T|]. eapply stays_var; [exact T| |exact H1]. apply mem_In. apply in_or_app. left. now left.
    + intros R i e1 s1. apply no_return. exact R.
  - destruct line; oki.
  - oki.
  - destruct (eval c self e y) as [p|]; [|oki]. destruct (p_truthy p); [exact H|oki].
  - destruct (eval c self e y) as [p|] eqn:E; [|oki]. split; [eapply ahold_sound; eauto|apply H].
  - exact H.
  - destruct H as [H1 H2]. split; [exact H1|]. cbn [ao]. unfold delete_removed.
    assert (G : forall l o s, sat_o o s -> forall m, (forall k, In k m -> mem k l = true) -> sat_o (taint_o l o) (fold_left (fun a k => del k a) m s)).
    { clear. intros l o s H m Hm. assert (K : forall m s, (forall k, In k m -> mem k l = true) -> sat_o (taint_o l o) s -> sat_o (taint_o l o) (fold_left (fun a k => del k a) m s)).
      { clear. induction m as [|k m IH]; intros s Hm H; [exact H|]. cbn [fold_left]. apply IH; [intros; apply Hm; now right|].
        apply (stays_own (mkWrites [] l false) (taint_o l o) s k (del k)).
        - intros. now apply sat_o_del.
        - destruct o; cbn [taint_o covers_o]; auto; split; auto; intros a Ha; now apply uni_r.
        - apply Hm. now left.
        - exact H. }
      apply K; [exact Hm|]. now apply sat_taint_o. }
    apply G; [exact H2|]. intros k Hk. apply filter_In in Hk as [Hk _]. now apply mem_In.
  - oki.
  - destruct (bind_params c self e ps) as [e0|] eqn:E; cbv zeta.
    2: { destruct (join_opt join_r _ _) as [[h o]|]; cbn [flows f_raise a_none]; apply join_o_l; oki. }
    set (A0 := mkAst (map (fun xe => (fst xe, ahold A (snd xe))) ps) (ao A)).
    assert (S0 : sat A0 e0 self) by (split; [eapply bind_params_sound; eauto|apply H]).
    specialize (IH A0 e0 self S0).
    set (plain := option_map (fun B : ast => (Some HVal, ao B))).
    set (J := join_opt join_r (join_opt join_r (plain (f_next (flow Dr A0 s))) (plain (f_break (flow Dr A0 s)))) (f_ret (flow Dr A0 s))).
    set (R := join_o (ao A) (f_raise (flow Dr A0 s))).
    assert (F : forall p s', opt_r J p s' ->
      flows (match J with None => a_none R | Some (h, o) => mkAends (Some (mkAst (put x h (av A)) o)) None None R end) (ONext (put x p e) s')).
    { intros p s' K. destruct J as [[h o]|]; [|destruct K]. destruct K as [K1 K2]. cbn [fst snd] in *.
      split; [|exact K2]. cbn [av]. apply sat_put; [apply H|exact K1]. }
    assert (P : forall B e1 s1, opt_sat B e1 s1 -> opt_r (plain B) (PV VNone) s1).
    { intros [B|] e1 s1 HB; [|destruct HB]. split; [cbn; eauto|apply HB]. }
    destruct (exec c s e0 self) as [e1 s1|e1 s1|p s1|z s1]; cbn [flows] in IH.
    + apply F. apply opt_r_l, opt_r_l. eauto.
    + apply F. apply opt_r_l, opt_r_r. eauto.
    + apply F. apply opt_r_r. exact IH.
    + assert (K : sat_o R s1) by (apply join_o_r; exact IH). destruct J as [[h o]|]; exact K.
Qed.
End Flow.
