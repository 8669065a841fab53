(** * Tables made of declarations are well declared *)

From Verif Require Import PyStrFacts ArgSpec ArgParseFacts ArgLineFacts ArgErrFacts ArgDecl.
From Verif Require Import Value.
Local Open Scope string_scope.
Local Open Scope list_scope.

(** Types whose values are strings, or lists of strings. *)
Definition string_type (t : argty) : bool := match t with TStr | TMount | TDrop _ | TName _ _ => true | _ => false end.
Definition list_type (t : argty) : bool := match t with TComma | TPorts => true | _ => false end.

Definition no_opts (d : decl) : bool := match d_opts d with [] => true | _ => false end.
Definition is_store (k : akind) : bool := match k with KStore => true | _ => false end.

(** One declaration makes sense. *)
Definition decl_ok (d : decl) : bool :=
  forallb option_name (d_opts d) &&
  (if no_opts d then string_type (d_type d) && is_store (d_kind d) else true) &&
  match d_nargs d with NOne | NOpt | NInt 0 => true | _ => string_type (d_type d) end &&
  match d_kind d with
  | KStore | KStoreConst => true
  | KAppend => match d_nargs d with NOne => true | _ => false end && string_type (d_type d)
               && is_list_value (d_default d)
  | KAppendConst => match d_nargs d with NInt 0 => true | _ => false end
               && match d_const d with VStr _ => true | _ => false end && is_list_value (d_default d)
  | KExtend => match d_nargs d with
               | NOne => list_type (d_type d) && match d_choices d with None => true | _ => false end
               | NStar | NPlus => true | _ => false end && is_list_value (d_default d)
  | KExtendConst => match d_nargs d with NInt 0 => true | _ => false end
               && match d_const d with VStrs _ => true | _ => false end && is_list_value (d_default d)
  end.

Definition decls (ops : list tableop) : list decl :=
  flat_map (fun o => match o with OpAdd d => [d] | OpRemove _ => [] end) ops.

Definition table_sane (ops : list tableop) : bool :=
  forallb decl_ok (decls ops) &&
  forallb (fun d => forallb (fun d' =>
     negb (collects (d_kind d)) || negb (String.eqb (d_dest d') (d_dest d)) || collects (d_kind d')) (decls ops)) (decls ops).

(** An action that came from a declaration. *)
Definition from_decl (d : decl) (a : action) : Prop :=
  a_dest a = d_dest d /\ a_kind a = d_kind d /\ a_nargs a = d_nargs d /\ a_const a = d_const d /\
  a_default a = d_default d /\ a_type a = ty_fun (d_type d) /\ a_choices a = d_choices d /\
  a_required a = d_required d /\ is_positional a = no_opts d.

Lemma string_type_ok t : string_type t = true -> forall s v, ty_fun t s = Ok v -> exists x, v = VStr x.
Proof.
  destruct t; try discriminate; intros _ s v H; cbn [ty_fun] in H;
  try (match type of H with context [assoc ?k ?l] => destruct (assoc k l); [|discriminate] end);
  injection H as <-; eauto.
Qed.
Lemma list_type_ok t : list_type t = true -> forall s v, ty_fun t s = Ok v -> exists x, v = VStrs x.
Proof. destruct t; try discriminate; intros _ s v H; injection H as <-; eauto. Qed.
Lemma ty_fun_fails t s e : ty_fun t s = Err e -> e = ValueError.
Proof.
  destruct t; simpl; try discriminate.
  - unfold ty_int. destruct (py_int s); [discriminate|]. intros H; injection H as <-; reflexivity.
  - unfold ty_bool, ksboolean. destruct (mem (lower s) _); [discriminate|].
    destruct (mem (lower s) _); [discriminate|]. intros H; injection H as <-; reflexivity.
  - destruct (assoc _ m); [discriminate|]. intros H; injection H as <-; reflexivity.
  - destruct (assoc _ m); [discriminate|]. intros H; injection H as <-; reflexivity.
Qed.

Lemma from_decl_proper ln d a : decl_ok d = true -> from_decl d a -> declared_properly ln a.
Proof.
  intros Hd (E1 & E2 & E3 & E4 & E5 & E6 & E7 & E8 & E9).
  unfold decl_ok in Hd. repeat (apply andb_true_iff in Hd as [Hd ?H]).
  assert (S : string_type (d_type d) = true -> converts_to_strings a).
  { intros X s v Hv. rewrite E6 in Hv. eapply string_type_ok; eauto. }
  assert (LT : list_type (d_type d) = true -> converts_to_lists a).
  { intros X s v Hv. rewrite E6 in Hv. eapply list_type_ok; eauto. }
  repeat split.
  - intros s e He. rewrite E6 in He. left. eapply ty_fun_fails; eauto.
  - rewrite E9 in H2. rewrite H2 in H1. apply andb_true_iff in H1 as [H1 _]. auto.
  - rewrite E9 in H2. rewrite H2 in H1. apply andb_true_iff in H1 as [_ H1].
    rewrite E2. destruct (d_kind d); try reflexivity; discriminate.
  - rewrite E3. destruct (d_nargs d) as [|[|?]| | |]; auto.
  - rewrite E2, E3, E4, E5, E7.
    destruct (d_kind d); auto.
    + repeat (apply andb_true_iff in H as [H ?Hx]). destruct (d_nargs d) as [|[|?]| | |]; try discriminate; auto.
    + repeat (apply andb_true_iff in H as [H ?Hx]). destruct (d_nargs d) as [|[|?]| | |]; try discriminate.
      destruct (d_const d); try discriminate. eauto.
    + repeat (apply andb_true_iff in H as [H ?Hx]). split; [|auto].
      destruct (d_nargs d) as [|[|?]| | |]; try discriminate; auto.
      apply andb_true_iff in H as [H H']. destruct (d_choices d); [discriminate|]. auto.
    + repeat (apply andb_true_iff in H as [H ?Hx]). destruct (d_nargs d) as [|[|?]| | |]; try discriminate.
      destruct (d_const d); try discriminate. eauto.
Qed.

(** All actions come from declarations. *)
Definition comes_from (ds : list decl) (p : parser) : Prop :=
  forall a, In a (all_actions p) -> exists d, In d ds /\ from_decl d a.

Lemma from_action_of d i : from_decl d (action_of d i).
Proof. repeat split. Qed.

Lemma resolve_one_from ds p o : comes_from ds p -> comes_from ds (resolve_one p o).
Proof.
  unfold resolve_one. destruct (assoc o (p_optmap p)) as [old|] eqn:E; [|auto].
  intros H a Ha. unfold all_actions in Ha; cbn [p_actions p_optmap] in Ha. apply in_app_or in Ha as [Ha|Ha].
  - apply in_flat_map in Ha as (b & Hb & Ha).
    destruct (H b) as (d & Hd & F); [unfold all_actions; apply in_or_app; auto|].
    exists d. split; [exact Hd|].
    destruct (Nat.eqb (a_id b) (a_id old)).
    + destruct (a_opts (strip_opt o b)) as [|x l] eqn:Eo; [destruct Ha|].
      destruct Ha as [<-|[]].
      destruct F as (F1 & F2 & F3 & F4 & F5 & F6 & F7 & F8 & F9). repeat split; auto.
      rewrite <- F9. unfold is_positional. rewrite Eo. simpl in Eo.
      destruct (a_opts b); [discriminate|reflexivity].
    + destruct Ha as [<-|[]]. exact F.
  - apply H. unfold all_actions. apply in_or_app. right.
    apply in_map_iff in Ha as (kv & <- & Hk). apply in_map. eapply In_del; eauto.
Qed.

Lemma resolve_from ds opts : forall p, comes_from ds p -> comes_from ds (fold_left resolve_one opts p).
Proof. induction opts as [|o opts IH]; intros p H; simpl; auto. apply IH, resolve_one_from, H. Qed.

Lemma add_argument_from ds p d : comes_from ds p -> In d ds -> comes_from ds (add_argument p (action_of d)).
Proof.
  intros H Hd a Ha. unfold add_argument, all_actions in Ha; cbn [p_actions p_optmap] in Ha.
  pose proof (resolve_from ds (a_opts (action_of d (p_next p))) p H) as H1.
  apply in_app_or in Ha as [Ha|Ha].
  - apply in_app_or in Ha as [Ha|[<-|[]]].
    + apply H1. unfold all_actions. apply in_or_app; auto.
    + exists d. split; [exact Hd|apply from_action_of].
  - apply in_map_iff in Ha as (kv & <- & Hk). apply put_all_in in Hk as [Hk|[_ Hk]].
    + apply H1. unfold all_actions. apply in_or_app; right. apply in_map; exact Hk.
    + rewrite Hk. exists d. split; [exact Hd|apply from_action_of].
Qed.

Lemma remove_first_action_in o l a : In a (remove_first_action o l) -> In a l.
Proof.
  induction l as [|b l IH]; simpl; auto. destruct (mem o (a_opts b)); simpl; tauto.
Qed.

Lemma remove_argument_from ds p o : comes_from ds p -> comes_from ds (remove_argument p o).
Proof.
  unfold remove_argument. intros H. destruct (existsb _ (p_actions p)); [|exact H].
  intros a Ha. apply H. unfold all_actions in *; cbn [p_actions p_optmap] in *.
  apply in_app_or in Ha as [Ha|Ha]; apply in_or_app; [left|right].
  - eapply remove_first_action_in; eauto.
  - apply in_map_iff in Ha as (kv & <- & Hk). apply in_map. eapply In_del; eauto.
Qed.

Lemma build_app ops ops' : build (ops ++ ops') = fold_left apply_op ops' (build ops).
Proof. unfold build. apply fold_left_app. Qed.

Lemma fold_from ds ops : forall p, (forall d, In d (decls ops) -> In d ds) -> comes_from ds p ->
  comes_from ds (fold_left apply_op ops p).
Proof.
  induction ops as [|[d|o] ops IH]; intros p Hd H; simpl; auto.
  - apply IH; [intros x Hx; apply Hd; simpl; auto|]. apply add_argument_from; auto. apply Hd; simpl; auto.
  - apply IH; [intros x Hx; apply Hd; simpl; auto|]. apply remove_argument_from; auto.
Qed.

Lemma build_from ops : comes_from (decls ops) (build ops).
Proof. apply fold_from; [auto|]. intros a []. Qed.

Lemma build_table_ok ops : table_sane ops = true -> table_ok (build ops) = true.
Proof.
  intros H. apply andb_true_iff in H as [H _]. rewrite forallb_forall in H. unfold build.
  assert (G : forall ops p, (forall d, In d (decls ops) -> decl_ok d = true) -> table_ok p = true ->
              table_ok (fold_left apply_op ops p) = true).
  { induction ops0 as [|[d|o] ops0 IH]; intros p Hd Hp; simpl; auto.
    - apply IH; [intros x Hx; apply Hd; simpl; auto|]. apply add_argument_ok; auto.
      assert (X : decl_ok d = true) by (apply Hd; simpl; auto).
      unfold decl_ok in X. repeat (apply andb_true_iff in X as [X _]). exact X.
    - apply IH; [intros x Hx; apply Hd; simpl; auto|]. apply remove_argument_ok; auto. }
  apply G; auto.
Qed.

Lemma build_well_declared ln ops : table_sane ops = true -> well_declared ln (build ops).
Proof.
  intros H. apply andb_true_iff in H as [H H2]. rewrite forallb_forall in H, H2. split.
  - intros a Ha. destruct (build_from ops a Ha) as (d & Hd & F). eapply from_decl_proper; eauto.
  - intros a b Ha Hb Hc He.
    destruct (build_from ops a Ha) as (d & Hd & F). destruct (build_from ops b Hb) as (d' & Hd' & F').
    specialize (H2 d Hd). rewrite forallb_forall in H2. specialize (H2 d' Hd').
    destruct F as (F1 & F2 & _), F' as (F1' & F2' & _).
    rewrite <- F1, <- F2, <- F1', <- F2', Hc, He, eqb_refl_s in H2. exact H2.
Qed.

(** Errors of such tables are parse errors for the line. *)
Lemma build_perr ln ops args e : table_sane ops = true ->
  parse_args (build ops) ln args = Err e -> exists t, e = KSParseError ln t.
Proof.
  intros H He. eapply parse_args_perr; eauto using build_table_ok, build_well_declared.
Qed.
