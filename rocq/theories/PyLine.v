(** * Whether a method depends on the number and the text of the line

    A method is run twice with the same words: on lines with different numbers and
    texts, in handlers that may differ in the commands that were given, and with data
    objects that were made on other lines.  A method that passes this check does the
    same in both runs, as long as the commands it asks about were given in both handlers
    or in none. *)

From Verif Require Import PyStrFacts ArgParseFacts ArgLineFacts PyClass NsFacts PyCheck PyCheckFacts PyFlowFacts.
From Verif Require Import Value.
Local Open Scope string_scope.
Local Open Scope list_scope.
Local Arguments Ascii.eqb : simpl never.
Local Arguments String.eqb : simpl never.

Section Places.
(** The attributes in which the objects of the command may differ in the two runs: the
    line number and perhaps others that tell where a line stood (currentCmd,
    currentLine).  Data objects may differ in the line number only. *)
Variable places : list string.
Hypothesis has_lineno : mem "lineno" places = true.

Section Check.
(** The variables that hold namespaces, and the commands the method may ask about. *)
Variables N Q : list string.

Definition free_var (x : string) : bool := negb (mem x N).
Fixpoint line_x (x : expr) : bool :=
  match x with
  | EConst _ | EArgs | ENew _ => true
  | ENoKw => false
  | EVar y => free_var y
  | EAttr y k => match y with EVar _ => true | _ => line_x y end && negb (mem k places)
  | EGet y k d => match y with EVar _ => true | _ => line_x y end && negb (mem k places) && line_x d
  | EHas y _ => match y with EVar _ => true | _ => line_x y end
  | EUn _ y => line_x y
  | EBin _ y z | EAnd y z | EOr y z => line_x y && line_x z
  | ESeen n | EHandlerHas n => mem n Q
  | EDataStr y => line_x y
  | EDataNames k => negb (mem k places)
  | EUsed y z => line_x y && match z with EVar v => negb (String.eqb v "self") && mem v N | _ => false end
  end.
Definition copies_line (k : string) (y : expr) : bool :=
  match y with EAttr (EVar v) j => String.eqb k "lineno" && String.eqb v "self" && mem j places | _ => false end.
Definition line_p (p : string * expr) : bool :=
  line_x (snd p) && free_var (fst p) || match snd p with EVar y => mem y N && mem (fst p) N && negb (String.eqb y "self") | _ => false end.
Fixpoint line_s (s : stmt) : bool :=
  match s with
  | SPass | SRaise _ _ | STypeError | SBreak | SCall _ _ _ _ | SDelRemoved _ | SDel _ _ | SSetTo _ _ => true
  | SSeq s t => line_s s && line_s t
  | SAssign x y => line_x y && free_var x
  | SAttr x k y => line_x y || copies_line k y && free_var x
  | SAppend x y => line_x y && free_var x
  | SPartition x y z _ w => line_x w && (free_var x && free_var y && free_var z)
  | SParse n => mem n N
  | SParseKnown n x => mem n N && free_var x
  | SIf c s t => line_x c && (line_s s && line_s t)
  | SFor x y s => line_x y && (free_var x && line_s s)
  | SForPairs x y w s => line_x w && (free_var x && free_var y && line_s s)
  | SForData x s => free_var x && line_s s
  | SAssert y | SReturn y => line_x y
  | SBlock x ps s => forallb line_p ps && (free_var x && line_s s)
  end.
End Check.
(** The variables set by the argument parser, and the commands asked about. *)
Fixpoint ns_vars (s : stmt) : list string :=
  match s with
  | SSeq s t | SIf _ s t => ns_vars s ++ ns_vars t
  | SParse n | SParseKnown n _ => [n]
  | SFor _ _ s | SForPairs _ _ _ s | SForData _ s | SBlock _ _ s => ns_vars s
  | _ => []
  end.
Fixpoint asks_x (x : expr) : list string :=
  match x with
  | EAttr y _ | EHas y _ | EUn _ y | EDataStr y => asks_x y
  | EGet y _ z | EBin _ y z | EAnd y z | EOr y z | EUsed y z => asks_x y ++ asks_x z
  | ESeen n | EHandlerHas n => [n]
  | _ => []
  end.
Fixpoint asks_s (s : stmt) : list string :=
  match s with
  | SSeq s t => asks_s s ++ asks_s t
  | SAssign _ y | SAttr _ _ y | SAppend _ y | SPartition _ _ _ _ y | SAssert y | SReturn y => asks_x y
  | SIf y s t => asks_x y ++ asks_s s ++ asks_s t
  | SFor _ y s | SForPairs _ _ y s => asks_x y ++ asks_s s
  | SForData _ s => asks_s s
  | SBlock _ ps s => flat_map (fun p => asks_x (snd p)) ps ++ asks_s s
  | _ => []
  end.
Definition lineless (s : stmt) : bool := line_s (ns_vars s) (asks_s s) s.

(** ** Equal up to the place *)

Definition attrs_l (P : list string) (a b : attrs) : Prop :=
  (forall k, mem k P = false -> assoc k a = assoc k b) /\ forall k, assoc k a = None <-> assoc k b = None.
Definition data_l (d e : data) : Prop := d_class d = d_class e /\ attrs_l ["lineno"] (d_attrs d) (d_attrs e).
Definition val_l (p q : pval) : Prop :=
  match p, q with
  | PV v, PV w => v = w
  | PSelf, PSelf => True
  | PObj d, PObj e => data_l d e
  | _, _ => False
  end.
Definition opt_l {X} (R : X -> X -> Prop) (x y : option X) : Prop :=
  match x, y with Some u, Some v => R u v | None, None => True | _, _ => False end.

Lemma attrs_l_refl P a : attrs_l P a a.
Proof. split; [reflexivity|tauto]. Qed.
Lemma attrs_l_trans P a b c : attrs_l P a b -> attrs_l P b c -> attrs_l P a c.
Proof. intros [H1 H2] [H3 H4]. split; [intros k M; now rewrite H1, H3 by exact M|]. intros k. now rewrite H2, H4. Qed.
Lemma attrs_l_sym P a b : attrs_l P a b -> attrs_l P b a.
Proof. intros [H1 H2]. split; [intros k M; now rewrite H1|]. intros k. now rewrite H2. Qed.
Lemma attrs_put P a b k v : attrs_l P a b -> attrs_l P (put k v a) (put k v b).
Proof.
  intros [H1 H2]. split; intros j; rewrite !assoc_put; destruct (String.eqb j k); auto. tauto.
Qed.
Lemma attrs_put_place P a b k v w : attrs_l P a b -> mem k P = true -> attrs_l P (put k v a) (put k w b).
Proof.
  intros [H1 H2] M. split; intros j; rewrite !assoc_put; destruct (String.eqb_spec j k) as [->|]; auto; [congruence|]. split; discriminate.
Qed.
Lemma attrs_del P a b k : attrs_l P a b -> attrs_l P (del k a) (del k b).
Proof. intros [H1 H2]. split; intros j; rewrite !assoc_del; destruct (String.eqb j k); auto. tauto. Qed.
Lemma attrs_set P n : forall a b, attrs_l P a b -> attrs_l P (set_to_obj n a) (set_to_obj n b).
Proof. induction n as [|[k v] n IH]; intros a b H; cbn [set_to_obj]; [exact H|]. apply IH. destruct (is_none v); [exact H|now apply attrs_put]. Qed.
Lemma has_key_l P a b k : attrs_l P a b -> has_key k a = has_key k b.
Proof. intros [_ H]. unfold has_key. specialize (H k). destruct (assoc k a), (assoc k b); auto; destruct H as [H1 H2]; try (discriminate (H1 eq_refl)); discriminate (H2 eq_refl). Qed.
Lemma attrs_removed P l a b : attrs_l P a b -> attrs_l P (delete_removed l a) (delete_removed l b).
Proof.
  intros H. unfold delete_removed. assert (E : filter (fun k => has_key k a) l = filter (fun k => has_key k b) l).
  { apply filter_ext. intros k. now apply (has_key_l P). }
  rewrite E. clear E. generalize (filter (fun k => has_key k b) l). intros m. revert a b H.
  induction m as [|x m IH]; intros a b H; cbn [fold_left]; [exact H|]. apply IH. now apply attrs_del.
Qed.
Lemma data_l_refl d : data_l d d.
Proof. split; [reflexivity|apply attrs_l_refl]. Qed.
Lemma val_l_plain v : val_l (PV v) (PV v).
Proof. reflexivity. Qed.
Lemma val_l_truth p q : val_l p q -> p_truthy p = p_truthy q.
Proof. destruct p, q; cbn; try contradiction; auto; now intros ->. Qed.

Section Line.
Variables N Q : list string.
Variables c1 c2 : ctx.
Hypothesis same_args : c_args c1 = c_args c2.
Hypothesis same_parser : c_parser c1 = c_parser c2.
Hypothesis same_new : forall k, c_new c1 k = c_new c2 k.
Hypothesis same_classes : forall k, assoc k (v_data (c_view c1)) = assoc k (v_data (c_view c2)).
Hypothesis same_seen : forall n, mem n Q = true -> seen_in (c_view c1) n = seen_in (c_view c2) n.
Hypothesis like_list : Forall2 data_l (c_list c1) (c_list c2).
Hypothesis like_str : forall d e s, data_l d e -> c_str c1 d = Ok s -> c_str c2 e = Ok s.

Definition ns_l (p q : pval) : Prop := match p, q with PNs m, PNs n => m = n | _, _ => False end.
Definition var_l (x : string) : pval -> pval -> Prop := if mem x N then ns_l else val_l.
Definition env_l (e1 e2 : env) : Prop := forall x, opt_l (var_l x) (assoc x e1) (assoc x e2).

Definition any_l (p q : pval) : Prop := val_l p q \/ ns_l p q.
Lemma var_any x p q : var_l x p q -> any_l p q.
Proof. unfold var_l, any_l. destruct (mem x N); auto. Qed.

Lemma not_lineno k : mem k places = false -> mem k ["lineno"] = false.
Proof. intros M. unfold mem. cbn [existsb]. destruct (String.eqb_spec k "lineno") as [->|]; [congruence|reflexivity]. Qed.
Lemma find_l s1 s2 p q k : attrs_l places s1 s2 -> any_l p q -> mem k places = false -> find_attr s1 p k = find_attr s2 q k.
Proof.
  intros [S _] [V|V] M; destruct p, q; cbn in *; try contradiction; auto; [|now subst]. destruct V as [_ [V _]]. apply V. now apply not_lineno.
Qed.
Lemma find_none s1 s2 p q k : attrs_l places s1 s2 -> any_l p q -> (find_attr s1 p k = None <-> find_attr s2 q k = None).
Proof. intros [_ S] [V|V]; destruct p, q; cbn in *; try contradiction; auto; [tauto| |now subst]. destruct V as [_ [_ V]]. auto. Qed.
Definition any_x (x : expr) : bool := match x with EVar _ => true | _ => line_x N Q x end.
Lemma any_x_ok s1 s2 e1 e2 y p : attrs_l places s1 s2 -> env_l e1 e2 -> (forall p, line_x N Q y = true -> eval c1 s1 e1 y = Ok p -> exists q, eval c2 s2 e2 y = Ok q /\ val_l p q) ->
  any_x y = true -> eval c1 s1 e1 y = Ok p -> exists q, eval c2 s2 e2 y = Ok q /\ any_l p q.
Proof.
  intros S E IH L H. assert (G : (exists v, y = EVar v) \/ line_x N Q y = true) by (destruct y; cbn [any_x] in L; eauto). destruct G as [[v ->]|G].
  - cbn [eval] in *. destruct (String.eqb v "self"); [injection H as <-; exists PSelf; split; [reflexivity|now left]|]. specialize (E v).
    destruct (assoc v e1) as [q1|]; [|discriminate]. injection H as <-. destruct (assoc v e2) as [q2|]; [|destruct E]. exists q2. split; [reflexivity|]. eapply var_any; exact E.
  - destruct (IH _ G H) as (q & E2 & V). exists q. split; [exact E2|now left].
Qed.

Lemma bind_o {X Y} (x : res X) (f : X -> res Y) y : (do a <- x ;; f a) = Ok y -> exists a, x = Ok a /\ f a = Ok y.
Proof. destruct x; cbn; [eauto|discriminate]. Qed.
Lemma un_same c c' s s' e e' o y p q r : eval c s e y = Ok p -> eval c' s' e' y = Ok q -> val_l p q -> eval c s e (EUn o y) = Ok r ->
  exists r', eval c' s' e' (EUn o y) = Ok r' /\ val_l r r'.
Proof.
  intros E1 E2 V H. assert (G : o = UNot \/ o <> UNot) by (destruct o; auto; right; discriminate). destruct G as [->|No].
  - cbn [eval] in *. rewrite E1 in H. rewrite E2. cbn [bind] in *. injection H as <-. eexists. split; [reflexivity|]. cbn. now rewrite (val_l_truth _ _ V).
  - assert (X : forall c s e, eval c s e (EUn o y) = (do p <- eval c s e y ;; do v <- to_val p ;; do w <- un o v ;; Ok (PV w))) by (intros; destruct o; auto; contradiction).
    rewrite X in *. rewrite E1 in H. rewrite E2. cbn [bind] in *. destruct p, q; cbn in V; try contradiction; try discriminate. subst. cbn [to_val bind] in *.
    destruct (un o v0); [|discriminate]. cbn [bind] in *. injection H as <-. eexists; split; reflexivity.
Qed.

Lemma line_x_ok s1 s2 e1 e2 : attrs_l places s1 s2 -> env_l e1 e2 -> forall x p, line_x N Q x = true -> eval c1 s1 e1 x = Ok p -> exists q, eval c2 s2 e2 x = Ok q /\ val_l p q.
Proof.
  intros S E. induction x as [v|y| |y IH k|y IH k d IHd|y IH k|o y IH|o y IHy z IHz|y IHy z IHz|y IHy z IHz|n|n|n|y IH|k|y IHy z IHz|];
    intros p L H; cbn [line_x] in L.
  - cbn in *. injection H as <-. eexists; split; reflexivity.
  - cbn [eval] in *. destruct (String.eqb y "self"); [injection H as <-; exists PSelf; now split|]. specialize (E y).
    destruct (assoc y e1) as [q1|]; [|discriminate]. injection H as <-. destruct (assoc y e2) as [q2|]; [|destruct E]. exists q2. split; [reflexivity|].
    cbn [opt_l] in E. unfold var_l in E. unfold free_var in L. apply negb_true_iff in L. now rewrite L in E.
  - cbn [eval] in *. injection H as <-. rewrite same_args. eexists; split; reflexivity.
  - apply andb_prop in L as [L1 L2]. apply negb_true_iff in L2. cbn [eval] in *. apply bind_o in H as (q1 & E1 & H). destruct (any_x_ok _ _ _ _ _ _ S E IH L1 E1) as (q2 & E2 & V). rewrite E2. cbn [bind].
    rewrite <- (find_l s1 s2 q1 q2 k S V L2). destruct (find_attr s1 q1 k); [|discriminate]. injection H as <-. eexists; split; reflexivity.
  - apply andb_prop in L as [L1 L3]. apply andb_prop in L1 as [L1 L2]. apply negb_true_iff in L2. cbn [eval] in *. apply bind_o in H as (q1 & E1 & H). destruct (any_x_ok _ _ _ _ _ _ S E IH L1 E1) as (q2 & E2 & V). rewrite E2. cbn [bind].
    rewrite <- (find_l s1 s2 q1 q2 k S V L2). destruct (find_attr s1 q1 k); [|auto]. injection H as <-. eexists; split; reflexivity.
  - cbn [eval] in *. apply bind_o in H as (q1 & E1 & H). destruct (any_x_ok _ _ _ _ _ _ S E IH L E1) as (q2 & E2 & V). rewrite E2. cbn [bind]. injection H as <-. eexists. split; [reflexivity|]. cbn. do 1 f_equal.
    pose proof (find_none s1 s2 q1 q2 k S V) as F. destruct (find_attr s1 q1 k), (find_attr s2 q2 k); auto; destruct F as [F1 F2]; [discriminate (F2 eq_refl)|discriminate (F1 eq_refl)].
  - assert (E1 : exists q1, eval c1 s1 e1 y = Ok q1).
    { destruct (eval c1 s1 e1 y) as [q1|] eqn:E1; [eauto|]. exfalso. destruct o; cbn [eval] in H; rewrite E1 in H; discriminate. }
    destruct E1 as [q1 E1]. destruct (IH _ L E1) as (q2 & E2 & V). exact (un_same _ _ _ _ _ _ o y _ _ p E1 E2 V H).
  - apply andb_prop in L as [L1 L2]. cbn [eval] in H |- *. apply bind_o in H as (q1 & E1 & H). apply bind_o in H as (v & E2 & H). apply bind_o in H as (q2 & E3 & H).
    apply bind_o in H as (w & E4 & H). destruct (IHy _ L1 E1) as (t1 & T1 & Q1). destruct (IHz _ L2 E3) as (t2 & T2 & Q2). rewrite T1. cbn [bind].
    destruct q1; try discriminate. destruct q2; try discriminate. destruct t1; cbn in Q1; try contradiction. destruct t2; cbn in Q2; try contradiction. subst.
    cbn in E2, E4. injection E2 as ->. injection E4 as ->. cbn [bind to_val]. rewrite T2. cbn [bind to_val]. apply bind_o in H as (r & E5 & H). injection H as <-. rewrite E5. cbn [bind]. eexists; split; reflexivity.
  - apply andb_prop in L as [L1 L2]. cbn [eval] in H |- *. apply bind_o in H as (q1 & E1 & H). destruct (IHy _ L1 E1) as (t1 & T1 & Q1). rewrite T1. cbn [bind].
    rewrite <- (val_l_truth _ _ Q1). destruct (p_truthy q1); [auto|]. injection H as <-. eauto.
  - apply andb_prop in L as [L1 L2]. cbn [eval] in H |- *. apply bind_o in H as (q1 & E1 & H). destruct (IHy _ L1 E1) as (t1 & T1 & Q1). rewrite T1. cbn [bind].
    rewrite <- (val_l_truth _ _ Q1). destruct (p_truthy q1); [|auto]. injection H as <-. eauto.
  - cbn [eval] in *. rewrite <- (same_seen n L). destruct (seen_in _ n); [|discriminate]. injection H as <-. eexists; split; reflexivity.
  - cbn [eval] in *. rewrite <- (same_seen n L). injection H as <-. eexists; split; reflexivity.
  - cbn [eval] in *. rewrite <- same_classes. destruct (assoc n (v_data (c_view c1))) as [k|]; [|discriminate]. injection H as <-. eexists. split; [reflexivity|]. cbn. rewrite same_new. apply data_l_refl.
  - cbn [eval] in *. apply bind_o in H as (q1 & E1 & H). destruct (IH _ L E1) as (q2 & E2 & V). rewrite E2. cbn [bind]. destruct q1; try discriminate. destruct q2; cbn in V; try contradiction.
    apply bind_o in H as (t & E3 & H). injection H as <-. rewrite (like_str _ _ _ V E3). cbn [bind]. eexists; split; reflexivity.
  - apply negb_true_iff in L. cbn [eval] in *. apply bind_o in H as (m & E1 & H). injection H as <-.
    assert (G : forall l1 l2, Forall2 data_l l1 l2 -> forall m, map_res (fun d => match get k (d_attrs d) with VStr s => Ok s | _ => Err TypeError end) l1 = Ok m ->
      map_res (fun d => match get k (d_attrs d) with VStr s => Ok s | _ => Err TypeError end) l2 = Ok m).
    { intros l1 l2 F. induction F as [|d e l1 l2 [_ [D _]] F IH]; intros m0 M; [exact M|]. cbn [map_res] in *. unfold get in *. rewrite (D k (not_lineno k L)) in M.
      apply bind_o in M as (s & M1 & M). rewrite M1. cbn [bind]. apply bind_o in M as (r & M2 & M). rewrite (IH _ M2). exact M. }
    rewrite (G _ _ like_list _ E1). eexists; split; reflexivity.
  - apply andb_prop in L as [L1 L2]. destruct z as [|v| | | | | | | | | | | | | | |]; try discriminate. apply andb_prop in L2 as [L2 L3]. apply negb_true_iff in L2.
    cbn [eval] in H |- *. rewrite L2 in *. apply bind_o in H as (q1 & E1 & H). apply bind_o in H as (w & E2 & H). apply bind_o in H as (q2 & E3 & H).
    destruct (IHy _ L1 E1) as (t1 & T1 & Q1). destruct q1; try discriminate. destruct t1; cbn in Q1; try contradiction. subst. cbn in E2. injection E2 as <-. rewrite T1. cbn [bind to_val].
    specialize (E v). destruct (assoc v e1) as [u1|]; [|discriminate]. injection E3 as ->. destruct (assoc v e2) as [u2|]; [|destruct E]. cbn [opt_l] in E. unfold var_l in E. rewrite L3 in E.
    destruct q2, u2; cbn in E; try contradiction. subst. cbn [bind] in *. match goal with H : match ?v with _ => _ end = _ |- _ => destruct v; try discriminate end. injection H as <-. eexists; split; reflexivity.
  - discriminate.
Qed.

(** ** Statements *)

Definition out_l (o1 o2 : outcome) : Prop :=
  match o1, o2 with
  | ONext e1 s1, ONext e2 s2 | OBreak e1 s1, OBreak e2 s2 => env_l e1 e2 /\ attrs_l places s1 s2
  | OReturn p1 s1, OReturn p2 s2 => val_l p1 p2 /\ attrs_l places s1 s2
  | ORaise _ _, _ => True
  | _, _ => False
  end.
Lemma env_var x p1 p2 e1 e2 : env_l e1 e2 -> var_l x p1 p2 -> env_l (put x p1 e1) (put x p2 e2).
Proof. intros E P y. rewrite !assoc_put. destruct (String.eqb_spec y x) as [->|]; [exact P|apply E]. Qed.
Lemma env_free x p1 p2 e1 e2 : env_l e1 e2 -> free_var N x = true -> val_l p1 p2 -> env_l (put x p1 e1) (put x p2 e2).
Proof. unfold free_var. intros E F P. apply env_var; [exact E|]. apply negb_true_iff in F. unfold var_l. now rewrite F. Qed.
Lemma var_some x e1 e2 p : env_l e1 e2 -> assoc x e1 = Some p -> exists q, assoc x e2 = Some q /\ var_l x p q.
Proof. intros E H. specialize (E x). rewrite H in E. destruct (assoc x e2) as [q|]; [|destruct E]. eauto. Qed.

Lemma var_cases x p q : var_l x p q -> (mem x N = true /\ exists m, p = PNs m /\ q = PNs m) \/ (mem x N = false /\ val_l p q).
Proof. unfold var_l. destruct (mem x N); [|auto]. intros H. left. split; [reflexivity|]. destruct p, q; cbn in H; try contradiction. subst. eauto. Qed.
Lemma set_on_l x k v w e1 e2 s1 s2 : env_l e1 e2 -> attrs_l places s1 s2 -> v = w \/ k = "lineno" /\ mem x N = false ->
  out_l (set_on x k v e1 s1) (set_on x k w e2 s2).
Proof.
  intros E S V. assert (P : forall P a b, mem "lineno" P = true -> attrs_l P a b -> attrs_l P (put k v a) (put k w b)).
  { intros P a b M H. destruct V as [->|[-> _]]; [now apply attrs_put|now apply attrs_put_place]. }
  unfold set_on.
  destruct (String.eqb x "self") eqn:X; [split; auto|]. destruct (assoc x e1) as [p1|] eqn:A1; [|exact I].
  destruct (var_some x e1 e2 p1 E A1) as (p2 & -> & R). destruct (var_cases _ _ _ R) as [(M & m & -> & ->)|(M & R')].
  - destruct V as [->|[_ V]]; [|congruence]. split; [|exact S]. apply env_var; [exact E|]. unfold var_l. rewrite M. reflexivity.
  - destruct p1, p2; cbn in R'; try contradiction; try exact I.
    + split; auto.
    + split; [|exact S]. apply env_var; [exact E|]. unfold var_l. rewrite M. destruct R' as [Rc Ra]. split; [exact Rc|]. cbn [d_attrs]. auto.
Qed.
Lemma del_on_l x k e1 e2 s1 s2 : env_l e1 e2 -> attrs_l places s1 s2 -> out_l (del_on x k e1 s1) (del_on x k e2 s2).
Proof.
  intros E S. unfold del_on. destruct (String.eqb x "self"); [split; auto using attrs_del|]. destruct (assoc x e1) as [p1|] eqn:A1; [|exact I].
  destruct (var_some x e1 e2 p1 E A1) as (p2 & -> & R). destruct (var_cases _ _ _ R) as [(M & m & -> & ->)|(M & R')].
  - split; [|exact S]. apply env_var; [exact E|]. unfold var_l. rewrite M. reflexivity.
  - destruct p1, p2; cbn in R'; try contradiction; try exact I.
    + split; auto using attrs_del.
    + split; [|exact S]. apply env_var; [exact E|]. unfold var_l. rewrite M. destruct R' as [Rc Ra]. split; [exact Rc|]. cbn [d_attrs]. now apply attrs_del.
Qed.
Lemma set_to_l m x e1 e2 s1 s2 : env_l e1 e2 -> attrs_l places s1 s2 -> out_l (set_to m x e1 s1) (set_to m x e2 s2).
Proof.
  intros E S. unfold set_to. destruct (String.eqb x "self"); [split; auto using attrs_set|]. destruct (assoc x e1) as [p1|] eqn:A1; [|exact I].
  destruct (var_some x e1 e2 p1 E A1) as (p2 & -> & R). destruct (var_cases _ _ _ R) as [(M & n & -> & ->)|(M & R')]; [exact I|].
  destruct p1, p2; cbn in R'; try contradiction; try exact I.
  - split; auto using attrs_set.
  - split; [|exact S]. apply env_var; [exact E|]. unfold var_l. rewrite M. destruct R' as [Rc Ra]. split; [exact Rc|]. cbn [d_attrs]. now apply attrs_set.
Qed.
Lemma with_val_l x e1 e2 s1 s2 (k1 k2 : value -> outcome) : attrs_l places s1 s2 -> env_l e1 e2 -> line_x N Q x = true ->
  (forall v, out_l (k1 v) (k2 v)) -> out_l (with_val (eval c1 s1 e1 x) s1 k1) (with_val (eval c2 s2 e2 x) s2 k2).
Proof.
  intros S E H K. unfold with_val. destruct (eval c1 s1 e1 x) as [p1|] eqn:E1; [|exact I]. destruct (line_x_ok _ _ _ _ S E _ _ H E1) as (p2 & E2 & P). rewrite E2.
  destruct p1, p2; cbn in P; try contradiction; try exact I. subst. apply K.
Qed.
Lemma loop_l {X} (R : X -> X -> Prop) (b1 b2 : X -> env -> attrs -> outcome) l1 l2 : Forall2 R l1 l2 ->
  (forall i j e1 e2 s1 s2, R i j -> env_l e1 e2 -> attrs_l places s1 s2 -> out_l (b1 i e1 s1) (b2 j e2 s2)) ->
  forall e1 e2 s1 s2, env_l e1 e2 -> attrs_l places s1 s2 -> out_l (loop b1 l1 e1 s1) (loop b2 l2 e2 s2).
Proof.
  intros F H. induction F as [|i j l1 l2 Rij F IH]; intros e1 e2 s1 s2 E S; cbn [loop]; [split; auto|]. specialize (H i j e1 e2 s1 s2 Rij E S).
  destruct (b1 i e1 s1), (b2 j e2 s2); cbn in H; try contradiction; try exact I; destruct H; try (apply IH; auto); split; auto.
Qed.
Lemma Forall2_same {X} (l : list X) : Forall2 eq l l.
Proof. induction l; constructor; auto. Qed.
Lemma params_l ps s1 s2 e1 e2 : attrs_l places s1 s2 -> env_l e1 e2 -> forallb (line_p N Q) ps = true ->
  forall f1, bind_params c1 s1 e1 ps = Ok f1 -> exists f2, bind_params c2 s2 e2 ps = Ok f2 /\ env_l f1 f2.
Proof.
  intros S E. unfold bind_params. induction ps as [|[x y] ps IH]; intros H f1 B; cbn [map_res forallb fst snd] in *.
  - injection B as <-. exists []. split; [reflexivity|]. intros z. exact I.
  - apply andb_prop in H as [H1 H2].
    apply bind_o in B as (q & E1 & B). apply bind_o in E1 as (p1 & E1 & E1'). injection E1' as <-. apply bind_o in B as (r & E3 & B). injection B as <-.
    assert (G : exists p2, eval c2 s2 e2 y = Ok p2 /\ var_l x p1 p2).
    { unfold line_p in H1. cbn [fst snd] in H1. apply orb_prop in H1 as [H1|H1].
      - apply andb_prop in H1 as [H1 H3]. destruct (line_x_ok _ _ _ _ S E _ _ H1 E1) as (p2 & E2 & P). exists p2. split; [exact E2|].
        unfold free_var in H3. apply negb_true_iff in H3. unfold var_l. now rewrite H3.
      - destruct y as [|y| | | | | | | | | | | | | | |]; try discriminate. apply andb_prop in H1 as [H1 H4]. apply andb_prop in H1 as [H1 H3]. apply negb_true_iff in H4.
        cbn [eval] in *. rewrite H4 in *. destruct (assoc y e1) as [u|] eqn:A; [|discriminate]. injection E1 as ->. destruct (var_some y e1 e2 _ E A) as (p2 & -> & R).
        exists p2. split; [reflexivity|]. unfold var_l in *. now rewrite H1 in R; rewrite H3. }
    destruct G as (p2 & E2 & P). destruct (IH H2 _ E3) as (g & E4 & G). rewrite E2. cbn [bind]. rewrite E4. cbn [bind].
    exists ((x, p2) :: g). split; [reflexivity|]. intros z. cbn [assoc]. destruct (String.eqb_spec z x) as [->|]; [|apply G]. exact P.
Qed.

Theorem line_s_ok s : line_s N Q s = true -> forall e1 e2 s1 s2, env_l e1 e2 -> attrs_l places s1 s2 -> out_l (exec c1 s e1 s1) (exec c2 s e2 s2).
Proof.
  induction s as [|s IHs t IHt|x y|x k y|x k|x y|x y z sep w|n|n ex|n x|y s IHs t IHt|x y s IHs|x y w s IHs|x s IHs|b tag| |y|y| |l|x tg m ps|x ps s IHs];
    intros R e1 e2 s1 s2 E S; cbn [line_s] in R; cbn [exec].
  - split; auto.
  - apply andb_prop in R as [R1 R2]. specialize (IHs R1 e1 e2 s1 s2 E S). destruct (exec c1 s e1 s1), (exec c2 s e2 s2); cbn in IHs; try contradiction; try exact I; auto.
    destruct IHs. auto.
  - apply andb_prop in R as [R1 R2]. destruct (eval c1 s1 e1 y) as [p1|] eqn:E1; [|exact I]. destruct (line_x_ok _ _ _ _ S E _ _ R1 E1) as (p2 & -> & P). split; [|exact S]. now apply env_free.
  - apply orb_prop in R as [R|R].
    + apply with_val_l; auto. intros v. apply set_on_l; auto.
    + apply andb_prop in R as [R Rx]. apply negb_true_iff in Rx. unfold copies_line in R. destruct y as [| | |[|v| | | | | | | | | | | | | | |] j| | | | | | | | | | | | |]; try discriminate.
      apply andb_prop in R as [R R3]. apply andb_prop in R as [R1 R2]. cbn [eval]. rewrite R2. cbn [bind find_attr].
      pose proof S as [S1 S2]. destruct (assoc j s1) as [v1|] eqn:A1; [|exact I]. destruct (assoc j s2) as [v2|] eqn:A2; [|apply S2 in A2; congruence].
      cbn [with_val]. apply String.eqb_eq in R1. apply set_on_l; auto.
  - now apply del_on_l.
  - apply andb_prop in R as [R1 R2]. apply with_val_l; auto. intros v. destruct v; try exact I.
    destruct (assoc x e1) as [p1|] eqn:A1; [|exact I]. destruct (var_some x e1 e2 _ E A1) as (p2 & -> & Rp). destruct (var_cases _ _ _ Rp) as [(M & n & -> & ->)|(M & R')]; [exact I|].
    destruct p1 as [v| | |]; try exact I. destruct p2; cbn in R'; try contradiction. subst. destruct v0; try exact I. split; [|exact S]. apply env_free; auto. reflexivity.
  - apply andb_prop in R as [R1 R2]. apply andb_prop in R2 as [R2 R3]. apply andb_prop in R2 as [R2 R4].
    apply with_val_l; auto. intros v. destruct v; try exact I. destruct sep as [|ch [|? ?]]; try exact I. destruct (partition_char ch s) as [[b f] a].
    split; [|exact S]. repeat (apply env_free; [|assumption|reflexivity]). exact E.
  - destruct (parse_args (c_parser c1) (line_of s1) (c_args c1)) as [m|] eqn:P; [|exact I]. rewrite same_parser, same_args in P. rewrite (up_parse_args _ (line_of s2) _ _ _ P).
    split; [|exact S]. apply env_var; [exact E|]. unfold var_l. rewrite R. reflexivity.
  - apply andb_prop in R as [R1 R2]. destruct (parse_known_args (c_parser c1) (line_of s1) (c_args c1)) as [[m r]|] eqn:P; [|exact I]. rewrite same_parser, same_args in P. rewrite (up_parse_known_args _ (line_of s2) _ _ _ P).
    split; [|exact S]. apply env_free; [|exact R2|reflexivity]. apply env_var; [exact E|]. unfold var_l. rewrite R1. reflexivity.
  - destruct (assoc n e1) as [p1|] eqn:A1; [|exact I]. destruct (var_some n e1 e2 _ E A1) as (p2 & -> & Rp). destruct (var_cases _ _ _ Rp) as [(M & m & -> & ->)|(M & R')].
    + now apply set_to_l.
    + destruct p1, p2; cbn in R'; try contradiction; exact I.
  - apply andb_prop in R as [R1 R2]. apply andb_prop in R2 as [R2 R3].
    destruct (eval c1 s1 e1 y) as [p1|] eqn:E1; [|exact I]. destruct (line_x_ok _ _ _ _ S E _ _ R1 E1) as (p2 & -> & P). rewrite <- (val_l_truth _ _ P).
    destruct (p_truthy p1); auto.
  - apply andb_prop in R as [R1 R2]. apply andb_prop in R2 as [R2 R3]. apply with_val_l; auto. intros v. destruct v; try exact I. apply (loop_l eq); auto using Forall2_same.
    intros i j f1 f2 t1 t2 -> Ef St. apply IHs; auto. apply env_free; auto. reflexivity.
  - apply andb_prop in R as [R1 R2]. apply andb_prop in R2 as [R2 R3]. apply andb_prop in R2 as [R2 R4]. apply with_val_l; auto. intros v. destruct v; try exact I; apply (loop_l eq); auto using Forall2_same;
    intros i j f1 f2 t1 t2 -> Ef St; apply IHs; auto; repeat (apply env_free; [|assumption|reflexivity]); exact Ef.
  - apply andb_prop in R as [R1 R2]. apply (loop_l data_l); auto. intros i j f1 f2 t1 t2 D Ef St. apply IHs; auto. apply env_free; auto.
  - destruct b; exact I.
  - exact I.
  - destruct (eval c1 s1 e1 y) as [p1|] eqn:E1; [|exact I]. destruct (line_x_ok _ _ _ _ S E _ _ R E1) as (p2 & -> & P). rewrite <- (val_l_truth _ _ P).
    destruct (p_truthy p1); [split; auto|exact I].
  - destruct (eval c1 s1 e1 y) as [p1|] eqn:E1; [|exact I]. destruct (line_x_ok _ _ _ _ S E _ _ R E1) as (p2 & -> & P). split; auto.
  - split; auto.
  - split; [exact E|]. now apply attrs_removed.
  - exact I.
  - apply andb_prop in R as [R1 R2]. apply andb_prop in R2 as [R2 R3]. destruct (bind_params c1 s1 e1 ps) as [f1|] eqn:B; [|exact I].
    destruct (params_l ps s1 s2 e1 e2 S E R1 f1 B) as (f2 & -> & F). specialize (IHs R3 f1 f2 s1 s2 F S).
    destruct (exec c1 s f1 s1), (exec c2 s f2 s2); cbn in IHs; try contradiction; try exact I; destruct IHs as [I1 I2]; (split; [|exact I2]); apply env_free; auto; reflexivity.
Qed.
End Line.
End Places.
