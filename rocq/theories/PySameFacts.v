(** * The check of PySame.v suffices *)

From Verif Require Import PyStrFacts ArgParseFacts ArgLineFacts PyClass NsFacts PyCheckFacts PyFlowFacts.
From Verif Require Export PySame.
From Verif Require Import Value.
Local Open Scope string_scope.
Local Open Scope list_scope.
Local Arguments Ascii.eqb : simpl never.
Local Arguments String.eqb : simpl never.

Section Same.
Variable N : list string.
Variable A : list (string * bool).
Variable onself : bool.
Variable kind : string.
Variable noargs : bool.

(** The two lines: what they are run with, and the values they give. *)
Variables c1 c2 : ctx.
Hypothesis same_view : c_view c1 = c_view c2.
Hypothesis same_list : c_list c1 = c_list c2.
Hypothesis same_new : forall k, c_new c1 k = c_new c2 k.
Variables n1 n2 : attrs.
Hypothesis dict1 : NoDup (map fst n1).
Hypothesis dict2 : NoDup (map fst n2).
Hypothesis parse1 : N <> [] -> forall ln n r, parse_known_args (c_parser c1) ln (c_args c1) = Ok (n, r) -> n = n1.
Hypothesis parse2 : N <> [] -> forall ln, parse_known_args (c_parser c2) ln (c_args c2) = Ok (n2, []).
Hypothesis no_args : noargs = true -> c_args c2 = [].
(** The initial attributes of what the values are stored on. *)
Variable init : attrs.
Definition differ (k : string) : Prop := assoc k n1 <> assoc k n2.
Hypothesis differ_ok : forall k, differ k -> exists i b, assoc k init = Some i /\ assoc k A = Some b /\ truthy i = negb b /\
  (assoc k n1 = Some VNone \/ assoc k n1 = Some i) /\ (assoc k n2 = Some VNone \/ assoc k n2 = Some i).
Hypothesis new_init : onself = false -> forall k, assoc kind (v_data (c_view c1)) = Some k -> c_new c1 k = init.

Lemma differ_dec k : {differ k} + {assoc k n1 = assoc k n2}.
Proof.
  unfold differ. destruct (assoc k n1) as [v|], (assoc k n2) as [w|]; try (left; discriminate); [|now right].
  destruct (value_eq_dec v w) as [->|Ne]; [now right|]. left. congruence.
Qed.
Lemma fixed_same k : fixed A k = true -> ~ differ k.
Proof.
  unfold fixed, has_key. intros H D. destruct (differ_ok k D) as (i & b & _ & E & _). rewrite E in H. discriminate.
Qed.

(** Related namespaces, objects, values, variables. *)
Definition ns_rel (m1 m2 : attrs) : Prop :=
  NoDup (map fst m1) /\ NoDup (map fst m2) /\
  forall k, (differ k -> assoc k m1 = assoc k n1 /\ assoc k m2 = assoc k n2) /\ (~ differ k -> assoc k m1 = assoc k m2).
Definition at_start (a : attrs) : Prop := forall k, differ k -> assoc k a = assoc k init.
Definition obj_rel (d1 d2 : data) : Prop :=
  d_class d1 = d_class d2 /\ (forall k, assoc k (d_attrs d1) = assoc k (d_attrs d2)) /\ at_start (d_attrs d1).
Definition self_rel (s1 s2 : attrs) : Prop :=
  (forall k, mem k line_notes = false -> assoc k s1 = assoc k s2) /\ (onself = true -> at_start s1 /\ at_start s2).
Definition val_rel (p1 p2 : pval) : Prop :=
  match p1, p2 with
  | PV v, PV w => v = w
  | PSelf, PSelf => onself = true
  | PObj d1, PObj d2 => onself = false /\ obj_rel d1 d2
  | _, _ => False
  end.
Definition truth_rel (p1 p2 : pval) : Prop :=
  val_rel p1 p2 \/ exists v w, p1 = PV v /\ p2 = PV w /\ truthy v = truthy w.
Definition lev_rel (l : lev) : pval -> pval -> Prop := match l with LSame => val_rel | LTruth => truth_rel end.
Definition opt_rel {X} (R : X -> X -> Prop) (x y : option X) : Prop :=
  match x, y with Some u, Some v => R u v | None, None => True | _, _ => False end.
(** Namespaces, or words left over: in the second line there are none. *)
Definition some_ns (p1 p2 : pval) : Prop :=
  match p1, p2 with PNs m1, PNs m2 => ns_rel m1 m2 | PV (VStrs _), PV w => w = VStrs [] | _, _ => False end.
Definition env_rel (e1 e2 : env) : Prop :=
  forall x, opt_rel (if mem x N then some_ns else val_rel) (assoc x e1) (assoc x e2).

Lemma val_truth p1 p2 : val_rel p1 p2 -> p_truthy p1 = p_truthy p2.
Proof. destruct p1, p2; cbn; try contradiction; [now intros ->|reflexivity|reflexivity]. Qed.
Lemma truth_truth p1 p2 : truth_rel p1 p2 -> p_truthy p1 = p_truthy p2.
Proof. intros [H|(v & w & -> & -> & H)]; [now apply val_truth|exact H]. Qed.
Lemma lev_truth l p1 p2 : lev_rel l p1 p2 -> p_truthy p1 = p_truthy p2.
Proof. destruct l; [apply val_truth|apply truth_truth]. Qed.
Lemma lev_weaken l p1 p2 : lev_rel l p1 p2 -> truth_rel p1 p2.
Proof. destruct l; [now left|auto]. Qed.

(** What [holder] and [read] say. *)
Lemma holder_ok s1 s2 e1 e2 y b p1 : self_rel s1 s2 -> env_rel e1 e2 -> holder N y = Some b -> eval c1 s1 e1 y = Ok p1 ->
  exists p2, eval c2 s2 e2 y = Ok p2 /\ (if b then some_ns p1 p2 else val_rel p1 p2 \/ p1 = PSelf /\ p2 = PSelf).
Proof.
  intros S E H. destruct y as [|y| | | | | | | | | | | | | | |]; try discriminate. cbn [holder eval] in *. destruct (String.eqb y "self").
  - injection H as <-. intros K. injection K as <-. eauto.
  - injection H as <-. specialize (E y). destruct (assoc y e1) as [q1|]; [|discriminate]. intros K. injection K as <-.
    destruct (assoc y e2) as [q2|]; [|destruct E]. exists q2. split; [reflexivity|]. cbn [opt_rel] in E. destruct (mem y N); [exact E|now left].
Qed.
Lemma find_same s1 s2 p1 p2 k : self_rel s1 s2 -> mem k line_notes = false -> val_rel p1 p2 \/ p1 = PSelf /\ p2 = PSelf -> find_attr s1 p1 k = find_attr s2 p2 k.
Proof.
  intros [S _] M [H|[-> ->]]; [|cbn; auto]. destruct p1, p2; cbn in *; try contradiction; auto. destruct H as (_ & _ & H & _). apply H.
Qed.
Lemma find_ns s1 s2 p1 p2 k : some_ns p1 p2 ->
  opt_rel (fun v w => v = w \/ (exists i, assoc k A = Some i /\ (i = true -> truthy v = false /\ truthy w = false))) (find_attr s1 p1 k) (find_attr s2 p2 k).
Proof.
  destruct p1 as [[]| | |], p2; cbn [some_ns]; try contradiction; [intros; exact I|]. intros (_ & _ & H). cbn [find_attr]. destruct (H k) as [H1 H2]. destruct (differ_dec k) as [D|D].
  - destruct (H1 D) as [-> ->]. destruct (differ_ok k D) as (i & b & _ & E & Ti & [-> | ->] & [-> | ->]); cbn [opt_rel]; right; exists b; (split; [exact E|]);
      intros ->; cbn in *; auto.
  - rewrite H2 by congruence. destruct (assoc k a0); cbn; auto.
Qed.
Lemma read_ok s1 s2 p1 p2 b k l : self_rel s1 s2 -> read A b k = Some l -> (if b then some_ns p1 p2 else val_rel p1 p2 \/ p1 = PSelf /\ p2 = PSelf) ->
  opt_rel (fun v w => lev_rel l (PV v) (PV w)) (find_attr s1 p1 k) (find_attr s2 p2 k).
Proof.
  intros S R H. unfold read in R. destruct b.
  - pose proof (find_ns s1 s2 _ _ k H) as F. destruct (find_attr s1 p1 k) as [v|], (find_attr s2 p2 k) as [w|]; cbn [opt_rel] in *; auto.
    destruct F as [->|(i & E & F)].
    + destruct l; [reflexivity|]. now left.
    + rewrite E in R. destruct i; [|discriminate]. injection R as <-. right. exists v, w. destruct (F eq_refl) as [-> ->]. auto.
  - destruct (mem k line_notes) eqn:M; [discriminate|]. injection R as <-. rewrite (find_same _ _ _ _ k S M H). destruct (find_attr s2 p2 k); cbn; auto.
Qed.
Lemma bind_ok3 {X Y} (x : res X) (f : X -> res Y) y : (do a <- x ;; f a) = Ok y -> exists a, x = Ok a /\ f a = Ok y.
Proof. destruct x; cbn; [eauto|discriminate]. Qed.

Lemma eval_un_any c s e o y p : eval c s e (EUn o y) = Ok p -> exists q, eval c s e y = Ok q /\
  ((o = UNot /\ p = PV (VBool (negb (p_truthy q)))) \/ (o <> UNot /\ exists v w, q = PV v /\ un o v = Ok w /\ p = PV w)).
Proof.
  intros H. assert (G : o = UNot \/ o <> UNot) by (destruct o; auto; right; discriminate). destruct G as [->|No].
  - cbn [eval] in H. apply bind_ok3 in H as (q & E & H). injection H as <-. eauto.
  - assert (H' : (do p <- eval c s e y ;; do v <- to_val p ;; do w <- un o v ;; Ok (PV w)) = Ok p) by (destruct o; auto; contradiction).
    apply bind_ok3 in H' as (q & E & H'). exists q. split; [exact E|]. right. split; [exact No|]. apply bind_ok3 in H' as (v & E2 & H').
    apply bind_ok3 in H' as (w & E3 & H'). injection H' as <-. destruct q; try discriminate. injection E2 as <-. eauto.
Qed.
Lemma eval_un_back c s e o y q p : eval c s e y = Ok q ->
  ((o = UNot /\ p = PV (VBool (negb (p_truthy q)))) \/ (o <> UNot /\ exists v w, q = PV v /\ un o v = Ok w /\ p = PV w)) -> eval c s e (EUn o y) = Ok p.
Proof.
  intros E [[-> ->]|(No & v & w & -> & U & ->)].
  - cbn [eval]. now rewrite E.
  - assert (G : eval c s e (EUn o y) = (do p <- eval c s e y ;; do v <- to_val p ;; do w <- un o v ;; Ok (PV w))) by (destruct o; auto; contradiction).
    rewrite G, E. cbn [bind to_val]. now rewrite U.
Qed.

Lemma rel_x_ok s1 s2 e1 e2 : self_rel s1 s2 -> env_rel e1 e2 -> forall x l p1, rel_x N A onself kind x = Some l -> eval c1 s1 e1 x = Ok p1 ->
  exists p2, eval c2 s2 e2 x = Ok p2 /\ lev_rel l p1 p2.
Proof.
  intros S E. induction x as [v|y| |y IH k|y IH k d IHd|y IH k|o y IH|o y IHy z IHz|y IHy z IHz|y IHy z IHz|n|n|n|y IH|k|y IHy z IHz|];
    intros l p1 R H; cbn [rel_x] in R; try discriminate.
  - injection R as <-. cbn in H. injection H as <-. exists (PV v). split; reflexivity.
  - destruct (if String.eqb y "self" then negb onself else mem y N) eqn:C; [discriminate|]. injection R as <-. cbn [eval] in *. destruct (String.eqb y "self").
    + injection H as <-. exists PSelf. split; [reflexivity|]. cbn. now apply negb_false_iff in C.
    + specialize (E y). rewrite C in E. destruct (assoc y e1) as [q1|]; [|discriminate]. injection H as <-. destruct (assoc y e2) as [q2|]; [|destruct E]. eauto.
  - destruct (holder N y) as [b|] eqn:Hb; [|discriminate]. cbn [eval] in H |- *. apply bind_ok3 in H as (q1 & E1 & H).
    destruct (holder_ok _ _ _ _ _ _ _ S E Hb E1) as (q2 & E2 & Q). rewrite E2. cbn [bind]. pose proof (read_ok _ _ _ _ _ _ _ S R Q) as F.
    destruct (find_attr s1 q1 k) as [v|]; [|discriminate]. injection H as <-. destruct (find_attr s2 q2 k) as [w|]; [|destruct F]. eauto.
  - destruct (holder N y) as [b|] eqn:Hb; [|discriminate]. destruct (rel_x N A onself kind d) as [[]|] eqn:Rd; try discriminate.
    cbn [eval] in H |- *. apply bind_ok3 in H as (q1 & E1 & H).
    destruct (holder_ok _ _ _ _ _ _ _ S E Hb E1) as (q2 & E2 & Q). rewrite E2. cbn [bind]. pose proof (read_ok _ _ _ _ _ _ _ S R Q) as F.
    destruct (find_attr s1 q1 k) as [v|], (find_attr s2 q2 k) as [w|]; cbn [opt_rel] in F; try contradiction.
    + injection H as <-. eauto.
    + destruct (IHd _ _ eq_refl H) as (p2 & Ep & Rp). exists p2. split; [exact Ep|]. destruct l; [exact Rp|now left].
  - destruct (holder N y) as [b|] eqn:Hb; [|discriminate]. destruct (mem k line_notes) eqn:M; [discriminate|]. injection R as <-.
    cbn [eval] in H |- *. apply bind_ok3 in H as (q1 & E1 & H). injection H as <-.
    destruct (holder_ok _ _ _ _ _ _ _ S E Hb E1) as (q2 & E2 & Q). rewrite E2. cbn [bind]. eexists. split; [reflexivity|]. cbn [lev_rel val_rel].
    f_equal. destruct b.
    + pose proof (find_ns s1 s2 _ _ k Q) as F. destruct (find_attr s1 q1 k), (find_attr s2 q2 k); cbn in F; tauto.
    + rewrite (find_same _ _ _ _ k S M Q). reflexivity.
  - destruct (rel_x N A onself kind y) as [m|] eqn:Ry; [|discriminate]. apply eval_un_any in H as (q1 & E1 & H).
    destruct (IH _ _ eq_refl E1) as (q2 & E2 & Q). destruct H as [[-> ->]|(No & v & w & -> & U & ->)].
    + exists (PV (VBool (negb (p_truthy q2)))). split; [eapply eval_un_back; eauto|]. assert (l = LSame) as -> by (destruct m; now injection R). cbn. now rewrite (lev_truth _ _ _ Q).
    + destruct m.
      * injection R as <-. destruct q2; cbn in Q; try contradiction. subst v0. exists (PV w). split; [|reflexivity]. eapply eval_un_back; [exact E2|]. right. split; [exact No|]. eexists _, _. split; [reflexivity|]. split; [exact U|reflexivity].
      * destruct o; try discriminate; [contradiction|]. injection R as <-. cbn in U. injection U as <-.
        assert (G : exists v', q2 = PV v' /\ truthy v = truthy v').
        { destruct Q as [Q|(a & b & Ea & -> & T)]; [destruct q2; cbn in Q; try contradiction; subst; eauto|]. injection Ea as <-. eauto. }
        destruct G as (v' & -> & T). exists (PV (VBool (truthy v'))). split; [|cbn; now rewrite T]. eapply eval_un_back; [exact E2|]. right. split; [discriminate|]. eexists _, _. split; [reflexivity|]. split; reflexivity.
  - destruct (rel_x N A onself kind y) as [[]|] eqn:Ry; try discriminate. destruct (rel_x N A onself kind z) as [[]|] eqn:Rz; try discriminate. injection R as <-.
    cbn [eval] in H |- *. apply bind_ok3 in H as (q1 & E1 & H). apply bind_ok3 in H as (v & E2 & H). apply bind_ok3 in H as (q2 & E3 & H).
    apply bind_ok3 in H as (w & E4 & H). apply bind_ok3 in H as (r & E5 & H). injection H as <-.
    destruct (IHy _ _ eq_refl E1) as (t1 & T1 & Q1). destruct (IHz _ _ eq_refl E3) as (t2 & T2 & Q2).
    destruct q1; try discriminate. destruct q2; try discriminate. destruct t1; cbn in Q1; try contradiction. destruct t2; cbn in Q2; try contradiction. subst.
    cbn in E2, E4. injection E2 as <-. injection E4 as <-. rewrite T1. cbn [bind to_val]. rewrite T2. cbn [bind to_val]. rewrite E5. cbn [bind]. eexists. split; reflexivity.
  - destruct (rel_x N A onself kind y) as [m|] eqn:Ry; [|discriminate]. destruct (rel_x N A onself kind z) as [m'|] eqn:Rz; [|destruct m; discriminate].
    cbn [eval] in H |- *. apply bind_ok3 in H as (q1 & E1 & H). destruct (IHy _ _ eq_refl E1) as (q2 & E2 & Q). rewrite E2. cbn [bind]. rewrite <- (lev_truth _ _ _ Q).
    destruct (p_truthy q1) eqn:T.
    + destruct (IHz _ _ eq_refl H) as (t & T1 & Q1). exists t. split; [exact T1|]. destruct m; injection R as <-; [exact Q1|]. now apply lev_weaken in Q1.
    + injection H as <-. exists q2. split; [reflexivity|]. destruct m; injection R as <-; [|exact Q]. destruct m'; [exact Q|now left].
  - destruct (rel_x N A onself kind y) as [m|] eqn:Ry; [|discriminate]. destruct (rel_x N A onself kind z) as [m'|] eqn:Rz; [|destruct m; discriminate].
    cbn [eval] in H |- *. apply bind_ok3 in H as (q1 & E1 & H). destruct (IHy _ _ eq_refl E1) as (q2 & E2 & Q). rewrite E2. cbn [bind]. rewrite <- (lev_truth _ _ _ Q).
    destruct (p_truthy q1) eqn:T.
    + injection H as <-. exists q2. split; [reflexivity|]. destruct m; injection R as <-; [|exact Q]. destruct m'; [exact Q|now left].
    + destruct (IHz _ _ eq_refl H) as (t & T1 & Q1). exists t. split; [exact T1|]. destruct m; injection R as <-; [exact Q1|]. now apply lev_weaken in Q1.
  - injection R as <-. cbn [eval] in *. rewrite <- same_view. destruct (seen_in _ n); [|discriminate]. injection H as <-. eexists. split; reflexivity.
  - injection R as <-. cbn [eval] in *. rewrite <- same_view. injection H as <-. eexists. split; reflexivity.
  - destruct (negb onself && String.eqb n kind) eqn:C; [|discriminate]. injection R as <-. apply andb_prop in C as [C1 C2]. apply negb_true_iff in C1. apply String.eqb_eq in C2. subst n.
    cbn [eval] in *. rewrite <- same_view. destruct (assoc kind (v_data (c_view c1))) as [k|] eqn:K; [|discriminate]. injection H as <-. eexists. split; [reflexivity|].
    cbn. split; [exact C1|]. split; [reflexivity|]. cbn [d_attrs]. rewrite <- same_new. split; [reflexivity|]. intros j _. now rewrite (new_init C1 k eq_refl).
  - injection R as <-. cbn [eval] in *. rewrite <- same_list. apply bind_ok3 in H as (m & E1 & H). injection H as <-. rewrite E1. eexists. split; reflexivity.
  - destruct (rel_x N A onself kind y) as [[]|] eqn:Ry; try discriminate. destruct (holder N z) as [[]|] eqn:Hz; try discriminate.
    destruct (forallb snd A) eqn:FA; [|discriminate]. injection R as <-. cbn [eval] in H |- *.
    apply bind_ok3 in H as (q1 & E1 & H). apply bind_ok3 in H as (v & E2 & H). apply bind_ok3 in H as (q2 & E3 & H).
    destruct (IHy _ _ eq_refl E1) as (t1 & T1 & Q1). destruct (holder_ok _ _ _ _ _ _ _ S E Hz E3) as (t2 & T2 & Q2).
    destruct q1; try discriminate. destruct t1; cbn in Q1; try contradiction. subst. cbn in E2. injection E2 as <-. rewrite T1. cbn [bind to_val]. rewrite T2. cbn [bind].
    match goal with H : match ?v with _ => _ end = _ |- _ => destruct v; try discriminate end. injection H as <-. eexists. split; [reflexivity|]. cbn. do 2 f_equal. apply filter_ext. intros [k o]. cbn [fst].
    pose proof (find_ns s1 s2 _ _ k Q2) as F. destruct (find_attr s1 q2 k), (find_attr s2 t2 k); cbn in F; try contradiction; auto.
    destruct F as [->|(i & Ei & F)]; [reflexivity|]. assert (i = true) as -> by (rewrite forallb_forall in FA; apply assoc_In_pair in Ei; exact (FA _ Ei)). now destruct (F eq_refl) as [-> ->].
Qed.

(** ** Statements *)

Definition out_rel (o1 o2 : outcome) : Prop :=
  match o1, o2 with
  | ONext e1 s1, ONext e2 s2 | OBreak e1 s1, OBreak e2 s2 => env_rel e1 e2 /\ self_rel s1 s2
  | OReturn p1 s1, OReturn p2 s2 => val_rel p1 p2 /\ self_rel s1 s2
  | ORaise _ _, _ => True
  | _, _ => False
  end.

Lemma env_put x p1 p2 e1 e2 : env_rel e1 e2 -> (if mem x N then some_ns else val_rel) p1 p2 -> env_rel (put x p1 e1) (put x p2 e2).
Proof. intros E P y. rewrite !assoc_put. destruct (String.eqb_spec y x) as [->|]; [exact P|apply E]. Qed.
Lemma env_plain x p1 p2 e1 e2 : env_rel e1 e2 -> plain_var N x = true -> val_rel p1 p2 -> env_rel (put x p1 e1) (put x p2 e2).
Proof. unfold plain_var. intros E Px P. apply env_put; [exact E|]. apply negb_true_iff in Px. now rewrite Px. Qed.
Lemma self_put s1 s2 k v : self_rel s1 s2 -> fixed A k = true -> self_rel (put k v s1) (put k v s2).
Proof.
  intros [S1 S2] F. split.
  - intros j M. rewrite !assoc_put. destruct (String.eqb j k); auto.
  - intros O. destruct (S2 O) as [T1 T2]. split; intros j D; rewrite assoc_put; (destruct (String.eqb_spec j k) as [->|]; [now apply fixed_same in D|auto]).
Qed.
Lemma self_del s1 s2 k : self_rel s1 s2 -> fixed A k = true -> self_rel (del k s1) (del k s2).
Proof.
  intros [S1 S2] F. split.
  - intros j M. rewrite !assoc_del. destruct (String.eqb j k); auto.
  - intros O. destruct (S2 O) as [T1 T2]. split; intros j D; rewrite assoc_del; (destruct (String.eqb_spec j k) as [->|]; [now apply fixed_same in D|auto]).
Qed.
Lemma obj_put d1 d2 k v : obj_rel d1 d2 -> fixed A k = true -> obj_rel (mkData (d_class d1) (put k v (d_attrs d1))) (mkData (d_class d2) (put k v (d_attrs d2))).
Proof.
  intros (C & S1 & S2) F. split; [exact C|]. cbn [d_attrs]. split.
  - intros j. rewrite !assoc_put. destruct (String.eqb j k); auto.
  - intros j D. rewrite assoc_put. destruct (String.eqb_spec j k) as [->|]; [now apply fixed_same in D|auto].
Qed.
Lemma obj_del d1 d2 k : obj_rel d1 d2 -> fixed A k = true -> obj_rel (mkData (d_class d1) (del k (d_attrs d1))) (mkData (d_class d2) (del k (d_attrs d2))).
Proof.
  intros (C & S1 & S2) F. split; [exact C|]. cbn [d_attrs]. split.
  - intros j. rewrite !assoc_del. destruct (String.eqb j k); auto.
  - intros j D. rewrite assoc_del. destruct (String.eqb_spec j k) as [->|]; [now apply fixed_same in D|auto].
Qed.
Lemma ns_put m1 m2 k v : ns_rel m1 m2 -> fixed A k = true -> ns_rel (put k v m1) (put k v m2).
Proof.
  intros (D1 & D2 & H) F. split; [now apply keys_put_dict|]. split; [now apply keys_put_dict|]. intros j. rewrite !assoc_put. destruct (String.eqb_spec j k) as [->|]; [|apply H].
  split; [|auto]. intros D. now apply fixed_same in D.
Qed.
Lemma ns_del m1 m2 k : ns_rel m1 m2 -> fixed A k = true -> ns_rel (del k m1) (del k m2).
Proof.
  intros (D1 & D2 & H) F. split; [now apply keys_del_dict|]. split; [now apply keys_del_dict|]. intros j. rewrite !assoc_del. destruct (String.eqb_spec j k) as [->|]; [|apply H].
  split; [|auto]. intros D. now apply fixed_same in D.
Qed.

Lemma set_on_rel x k v e1 e2 s1 s2 : env_rel e1 e2 -> self_rel s1 s2 -> fixed A k = true -> out_rel (set_on x k v e1 s1) (set_on x k v e2 s2).
Proof.
  intros E S F. unfold set_on. destruct (String.eqb x "self"); [split; auto using self_put|]. pose proof (E x) as Ex. destruct (assoc x e1) as [p1|]; [|exact I].
  destruct (assoc x e2) as [p2|]; [|destruct Ex]. cbn [opt_rel] in Ex. destruct (mem x N) eqn:M.
  - destruct p1 as [[]| | |], p2; cbn in Ex; try contradiction; try exact I. split; [|exact S]. apply env_put; [exact E|]. rewrite M. now apply ns_put.
  - destruct p1, p2; cbn in Ex; try contradiction; try exact I.
    + split; auto using self_put.
    + split; [|exact S]. apply env_put; [exact E|]. rewrite M. destruct Ex as [Eo Ex]. split; [exact Eo|]. now apply obj_put.
Qed.
Lemma del_on_rel x k e1 e2 s1 s2 : env_rel e1 e2 -> self_rel s1 s2 -> fixed A k = true -> out_rel (del_on x k e1 s1) (del_on x k e2 s2).
Proof.
  intros E S F. unfold del_on. destruct (String.eqb x "self"); [split; auto using self_del|]. pose proof (E x) as Ex. destruct (assoc x e1) as [p1|]; [|exact I].
  destruct (assoc x e2) as [p2|]; [|destruct Ex]. cbn [opt_rel] in Ex. destruct (mem x N) eqn:M.
  - destruct p1 as [[]| | |], p2; cbn in Ex; try contradiction; try exact I. split; [|exact S]. apply env_put; [exact E|]. rewrite M. now apply ns_del.
  - destruct p1, p2; cbn in Ex; try contradiction; try exact I.
    + split; auto using self_del.
    + split; [|exact S]. apply env_put; [exact E|]. rewrite M. destruct Ex as [Eo Ex]. split; [exact Eo|]. now apply obj_del.
Qed.
(** Storing the values of the two lines on equal objects. *)
Lemma overlay_rel m1 m2 a1 a2 k : ns_rel m1 m2 -> at_start a1 -> at_start a2 -> assoc k a1 = assoc k a2 -> overlay k m1 a1 = overlay k m2 a2.
Proof.
  intros (_ & _ & H) S1 S2 E. unfold overlay. destruct (H k) as [H1 H2]. destruct (differ_dec k) as [D|D].
  - destruct (H1 D) as [-> ->]. rewrite (S1 k D), (S2 k D). destruct (differ_ok k D) as (i & b & -> & _ & _ & [-> | ->] & [-> | ->]); cbn [is_none]; auto; now destruct i.
  - rewrite H2, E by congruence. reflexivity.
Qed.
Lemma overlay_start m1 m2 a : ns_rel m1 m2 -> at_start a -> (forall k, differ k -> overlay k m1 a = assoc k init) /\ (forall k, differ k -> overlay k m2 a = assoc k init).
Proof.
  intros (_ & _ & H) S. split; intros k D; destruct (H k) as [H1 _]; destruct (H1 D) as [E1 E2]; unfold overlay; rewrite ?E1, ?E2, (S k D);
    destruct (differ_ok k D) as (i & b & -> & _ & _ & [E | E] & [E' | E']); rewrite ?E, ?E'; cbn [is_none]; auto; now destruct i.
Qed.
Lemma set_to_rel m1 m2 x e1 e2 s1 s2 : env_rel e1 e2 -> self_rel s1 s2 -> ns_rel m1 m2 -> (if String.eqb x "self" then onself else true) = true ->
  out_rel (set_to m1 x e1 s1) (set_to m2 x e2 s2).
Proof.
  intros E S M O. pose proof M as (D1 & D2 & _).
  assert (Sf : onself = true -> self_rel (set_to_obj m1 s1) (set_to_obj m2 s2)).
  { intros Ho. destruct S as [S1 S2]. destruct (S2 Ho) as [T1 T2]. split.
    - intros k Mk. rewrite !set_to_obj_overlay by assumption. apply overlay_rel; auto.
    - intros _. split; intros k D; rewrite set_to_obj_overlay by assumption; [now apply (overlay_start m1 m2 s1)|now apply (overlay_start m1 m2 s2)]. }
  unfold set_to. destruct (String.eqb x "self"); [split; auto|]. pose proof (E x) as Ex. destruct (assoc x e1) as [p1|]; [|exact I].
  destruct (assoc x e2) as [p2|]; [|destruct Ex]. cbn [opt_rel] in Ex. destruct (mem x N) eqn:Mx.
  - destruct p1 as [[]| | |], p2; cbn in Ex; try contradiction; exact I.
  - destruct p1, p2; cbn in Ex; try contradiction; try exact I.
    + split; auto.
    + split; [|exact S]. apply env_put; [exact E|]. rewrite Mx. destruct Ex as [Eo (C & T1 & T2)]. split; [exact Eo|]. split; [exact C|]. cbn [d_attrs].
      assert (T2' : at_start (d_attrs d0)) by (intros k D; rewrite <- T1; auto). split.
      * intros k. rewrite !set_to_obj_overlay by assumption. apply overlay_rel; auto.
      * intros k D. rewrite set_to_obj_overlay by assumption. now apply (overlay_start m1 m2).
Qed.
Lemma removed_rel l s1 s2 : forallb (fixed A) l = true -> self_rel s1 s2 -> self_rel (delete_removed l s1) (delete_removed l s2).
Proof.
  assert (G : forall l (a : attrs) k, assoc k (delete_removed l a) = if mem k l then None else assoc k a).
  { intros m a k. unfold delete_removed.
    assert (G : forall l (a : attrs), assoc k (fold_left (fun a k => del k a) l a) = if mem k l then None else assoc k a).
    { clear. induction l as [|x l IH]; intros a; [reflexivity|]. cbn [fold_left]. rewrite IH, assoc_del. unfold mem. cbn [existsb]. destruct (String.eqb k x), (existsb (String.eqb k) l); reflexivity. }
    rewrite G. destruct (mem k (filter _ m)) eqn:M.
    - apply mem_In in M. apply filter_In in M as [M _]. apply mem_In in M. now rewrite M.
    - destruct (mem k m) eqn:M2; [|reflexivity]. destruct (assoc k a) eqn:Ea; [|reflexivity]. exfalso. apply mem_In in M2.
      assert (X : In k (filter (fun k => has_key k a) m)) by (apply filter_In; split; [exact M2|unfold has_key; now rewrite Ea]). apply mem_In in X. congruence. }
  intros F [S1 S2]. assert (Fx : forall k, differ k -> mem k l = false).
  { intros k D. destruct (mem k l) eqn:M; [|reflexivity]. apply mem_In in M. rewrite forallb_forall in F. apply F in M. now apply fixed_same in M. }
  split.
  - intros k M. rewrite !G, S1 by exact M. reflexivity.
  - intros O. destruct (S2 O) as [T1 T2]. split; intros k D; rewrite G, (Fx k D); auto.
Qed.

Lemma with_val_rel x e1 e2 s1 s2 (k1 k2 : value -> outcome) : self_rel s1 s2 -> env_rel e1 e2 -> same_x N A onself kind x = true ->
  (forall v, out_rel (k1 v) (k2 v)) -> out_rel (with_val (eval c1 s1 e1 x) s1 k1) (with_val (eval c2 s2 e2 x) s2 k2).
Proof.
  intros S E H K. unfold same_x in H. destruct (rel_x N A onself kind x) as [[]|] eqn:R; try discriminate. unfold with_val.
  destruct (eval c1 s1 e1 x) as [p1|] eqn:E1; [|exact I]. destruct (rel_x_ok _ _ _ _ S E _ _ _ R E1) as (p2 & E2 & P). rewrite E2.
  destruct p1, p2; cbn in P; try contradiction; try exact I. subst. apply K.
Qed.
Lemma loop_rel {X} (b1 b2 : X -> env -> attrs -> outcome) l :
  (forall i e1 e2 s1 s2, env_rel e1 e2 -> self_rel s1 s2 -> out_rel (b1 i e1 s1) (b2 i e2 s2)) ->
  forall e1 e2 s1 s2, env_rel e1 e2 -> self_rel s1 s2 -> out_rel (loop b1 l e1 s1) (loop b2 l e2 s2).
Proof.
  intros H. induction l as [|i l IH]; intros e1 e2 s1 s2 E S; cbn [loop]; [split; auto|]. specialize (H i e1 e2 s1 s2 E S).
  destruct (b1 i e1 s1), (b2 i e2 s2); cbn in H; try contradiction; try exact I; destruct H; try (apply IH; auto); split; auto.
Qed.
Lemma params_rel ps s1 s2 e1 e2 : self_rel s1 s2 -> env_rel e1 e2 -> forallb (fun p => same_x N A onself kind (snd p) && plain_var N (fst p)) ps = true ->
  forall f1, bind_params c1 s1 e1 ps = Ok f1 -> exists f2, bind_params c2 s2 e2 ps = Ok f2 /\ env_rel f1 f2.
Proof.
  intros S E. unfold bind_params. induction ps as [|[x y] ps IH]; intros H f1 B; cbn [map_res forallb fst snd] in *.
  - injection B as <-. exists []. split; [reflexivity|]. intros z. exact I.
  - apply andb_prop in H as [H1 H2]. apply andb_prop in H1 as [H1 H3]. unfold same_x in H1. destruct (rel_x N A onself kind y) as [[]|] eqn:R; try discriminate.
    apply bind_ok3 in B as (q & E1 & B). apply bind_ok3 in E1 as (p1 & E1 & E1'). injection E1' as <-. apply bind_ok3 in B as (r & E3 & B). injection B as <-.
    destruct (rel_x_ok _ _ _ _ S E _ _ _ R E1) as (p2 & E2 & P). destruct (IH H2 _ E3) as (g & E4 & G). rewrite E2. cbn [bind]. rewrite E4. cbn [bind].
    exists ((x, p2) :: g). split; [reflexivity|]. intros z. cbn [assoc]. destruct (String.eqb_spec z x) as [->|]; [|apply G]. cbn [opt_rel].
    unfold plain_var in H3. apply negb_true_iff in H3. now rewrite H3.
Qed.

Lemma raises_ok c s : raises s = true -> forall (en : env) (a : attrs), exists x a', exec c s en a = ORaise x a'.
Proof.
  induction s; intros R en at0; cbn [raises] in R; try discriminate; cbn [exec].
  - apply orb_prop in R as [R|R].
    + destruct (IHs1 R en at0) as (x & a' & ->). eauto.
    + destruct s1; try discriminate; cbn [exec]; [now apply IHs2|]. destruct (eval c at0 en _) as [p|]; [now apply IHs2|eauto].
  - match goal with |- context[if ?b then _ else _] => destruct b | |- context[match ?b with true => _ | false => _ end] => destruct b end; eauto.
Qed.
Theorem rel_s_ok s : rel_s N A onself kind noargs s = true -> forall e1 e2 s1 s2, env_rel e1 e2 -> self_rel s1 s2 -> out_rel (exec c1 s e1 s1) (exec c2 s e2 s2).
Proof.
  induction s as [|s IHs t IHt|x y|x k y|x k|x y|x y z sep w|n|n ex|n x|y s IHs t IHt|x y s IHs|x y w s IHs|x s IHs|b tag| |y|y| |l|x tg m ps|x ps s IHs];
    intros R e1 e2 s1 s2 E S; cbn [rel_s] in R; cbn [exec].
  - split; auto.
  - apply andb_prop in R as [R1 R2]. specialize (IHs R1 e1 e2 s1 s2 E S). destruct (exec c1 s e1 s1), (exec c2 s e2 s2); cbn in IHs; try contradiction; try exact I; auto.
    destruct IHs. auto.
  - apply andb_prop in R as [R1 R2]. unfold same_x in R1. destruct (rel_x N A onself kind y) as [[]|] eqn:Ry; try discriminate.
    destruct (eval c1 s1 e1 y) as [p1|] eqn:E1; [|exact I]. destruct (rel_x_ok _ _ _ _ S E _ _ _ Ry E1) as (p2 & -> & P). split; [|exact S]. now apply env_plain.
  - apply andb_prop in R as [R1 R2]. apply with_val_rel; auto. intros v. now apply set_on_rel.
  - now apply del_on_rel.
  - apply andb_prop in R as [R1 R2]. apply with_val_rel; auto. intros v. destruct v; try exact I. pose proof (E x) as Ex.
    unfold plain_var in R2. apply negb_true_iff in R2. rewrite R2 in Ex.
    destruct (assoc x e1) as [p1|]; [|exact I]. destruct (assoc x e2) as [p2|]; [|destruct Ex]. cbn [opt_rel] in Ex.
    destruct p1 as [v| | |]; try exact I. destruct p2; cbn in Ex; try contradiction. subst. destruct v0; try exact I. split; [|exact S]. apply env_put; [exact E|]. rewrite R2. reflexivity.
  - apply andb_prop in R as [R1 R2]. apply andb_prop in R2 as [R2 R3]. apply andb_prop in R2 as [R2 R4].
    apply with_val_rel; auto. intros v. destruct v; try exact I. destruct sep as [|ch [|? ?]]; try exact I. destruct (partition_char ch s) as [[b f] a].
    split; [|exact S]. repeat (apply env_plain; [|assumption|reflexivity]). exact E.
  - assert (L : line_of s1 = line_of s2) by (unfold line_of, get; destruct S as [S _]; now rewrite (S "lineno" eq_refl)).
    assert (Nn : N <> []) by (intros Z; rewrite Z in R; discriminate R).
    destruct (parse_args (c_parser c1) (line_of s1) (c_args c1)) as [m|] eqn:P; [|exact I]. unfold parse_args in P |- *. rewrite (parse2 Nn). cbn [bind fst snd].
    apply bind_ok3 in P as ([m' r] & P & P'). cbn [fst snd] in P'. destruct r; [|discriminate]. injection P' as ->. apply (parse1 Nn) in P. subst m.
    split; [|exact S]. apply env_put; [exact E|]. rewrite R. cbn. split; [exact dict1|]. split; [exact dict2|]. intros k. split; [auto|]. unfold differ. intros D.
    destruct (differ_dec k) as [D'|D']; [contradiction|exact D'].
  - apply andb_prop in R as [R R0]. assert (Nn : N <> []) by (intros Z; rewrite Z in R; discriminate R).
    destruct (parse_known_args (c_parser c1) (line_of s1) (c_args c1)) as [[m r]|] eqn:P; [|exact I]. rewrite (parse2 Nn). apply (parse1 Nn) in P. subst m.
    split; [|exact S]. apply env_put; [apply env_put; [exact E|]|]; [rewrite R|rewrite R0; reflexivity]. cbn. split; [exact dict1|]. split; [exact dict2|]. intros k. split; [auto|]. unfold differ. intros D.
    destruct (differ_dec k) as [D'|D']; [contradiction|exact D'].
  - apply andb_prop in R as [R1 R2]. pose proof (E n) as En. rewrite R1 in En. destruct (assoc n e1) as [p1|]; [|exact I]. destruct (assoc n e2) as [p2|]; [|destruct En].
    destruct p1 as [[]| | |], p2; cbn in En; try contradiction; try exact I. now apply set_to_rel.
  - apply orb_prop in R as [R|R].
    2: { apply andb_prop in R as [R R3]. apply andb_prop in R as [R R2]. apply orb_prop in R as [R|R].
      2: { destruct y as [|y| | | | | | | | | | | | | | |]; try discriminate. cbn [left_over] in R. apply andb_prop in R as [R0 R]. apply negb_true_iff in R0. cbn [eval]. rewrite R0.
        pose proof (E y) as Ey. rewrite R in Ey. destruct (assoc y e1) as [p1|]; [|exact I]. destruct (assoc y e2) as [p2|]; [|destruct Ey]. cbn [opt_rel] in Ey.
        destruct (p_truthy p1) eqn:T; [destruct (raises_ok c1 s R2 e1 s1) as (x & a & ->); exact I|].
        destruct p1 as [[]| | |], p2; cbn in Ey, T; try contradiction; try discriminate. subst. cbn. auto. }
      apply andb_prop in R as [R0 R1].
      assert (E2 : exists p, eval c2 s2 e2 y = Ok p /\ p_truthy p = false).
      { specialize (no_args R0). destruct y; try discriminate; cbn [given_words] in R1.
        - exists (PV (VStrs [])). cbn [eval]. rewrite no_args. auto.
        - destruct o; try discriminate. destruct y1; try discriminate. destruct o; try discriminate.
          destruct y1; try discriminate. destruct y2; try discriminate. destruct v; try discriminate. destruct z; try discriminate.
          exists (PV (VBool false)). cbn [eval]. rewrite no_args. auto. }
      destruct E2 as (p2 & -> & ->). destruct (eval c1 s1 e1 y) as [p1|]; [|exact I]. destruct (p_truthy p1); [|auto].
      destruct (raises_ok c1 s R2 e1 s1) as (x & a & ->). exact I. }
    apply andb_prop in R as [R1 R2]. apply andb_prop in R2 as [R2 R3]. unfold any_x in R1. destruct (rel_x N A onself kind y) as [l|] eqn:Ry; [|discriminate].
    destruct (eval c1 s1 e1 y) as [p1|] eqn:E1; [|exact I]. destruct (rel_x_ok _ _ _ _ S E _ _ _ Ry E1) as (p2 & -> & P). rewrite <- (lev_truth _ _ _ P).
    destruct (p_truthy p1); auto.
  - apply andb_prop in R as [R1 R2]. apply andb_prop in R2 as [R2 R3]. apply with_val_rel; auto. intros v. destruct v; try exact I. apply loop_rel; auto.
    intros i f1 f2 t1 t2 Ef St. apply IHs; auto. apply env_plain; auto. reflexivity.
  - apply andb_prop in R as [R1 R2]. apply andb_prop in R2 as [R2 R3]. apply andb_prop in R2 as [R2 R4]. apply with_val_rel; auto. intros v. destruct v; try exact I; apply loop_rel; auto;
    intros i f1 f2 t1 t2 Ef St; apply IHs; auto; repeat (apply env_plain; [|assumption|reflexivity]); exact Ef.
  - discriminate.
  - destruct b; exact I.
  - exact I.
  - unfold any_x in R. destruct (rel_x N A onself kind y) as [l|] eqn:Ry; [|discriminate].
    destruct (eval c1 s1 e1 y) as [p1|] eqn:E1; [|exact I]. destruct (rel_x_ok _ _ _ _ S E _ _ _ Ry E1) as (p2 & -> & P). rewrite <- (lev_truth _ _ _ P).
    destruct (p_truthy p1); [split; auto|exact I].
  - unfold same_x in R. destruct (rel_x N A onself kind y) as [[]|] eqn:Ry; try discriminate.
    destruct (eval c1 s1 e1 y) as [p1|] eqn:E1; [|exact I]. destruct (rel_x_ok _ _ _ _ S E _ _ _ Ry E1) as (p2 & -> & P). split; auto.
  - split; auto.
  - split; [exact E|]. now apply removed_rel.
  - exact I.
  - apply andb_prop in R as [R1 R2]. apply andb_prop in R2 as [R2 R3]. destruct (bind_params c1 s1 e1 ps) as [f1|] eqn:B; [|exact I].
    destruct (params_rel ps s1 s2 e1 e2 S E R1 f1 B) as (f2 & -> & F). specialize (IHs R3 f1 f2 s1 s2 F S).
    destruct (exec c1 s f1 s1), (exec c2 s f2 s2); cbn in IHs; try contradiction; try exact I; destruct IHs as [I1 I2]; (split; [|exact I2]); apply env_plain; auto; reflexivity.
Qed.
End Same.
