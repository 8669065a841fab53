(** * The handlers of the versions: C31, C32 *)

From Coq Require Import Sorting.Permutation.
From Verif Require Import PyStrFacts ArgParseFacts HandlerFacts Version ClassModel PropsHandler.
From Verif Require Import HandlerSpec.
From Verif Require Import Value.
Local Open Scope string_scope.
Local Open Scope list_scope.
Local Arguments Ascii.eqb : simpl never.
Local Arguments String.eqb : simpl never.

(** The class statement of [c] lists [base]. *)
Definition marked (base c : string) : Prop := exists k, find_classdef c = Some k /\ In base (k_bases k).

(** What the dispatcher notes on a command object. *)
Definition notes : list string := ["currentCmd"; "currentLine"; "lineno"; "seen"].

(** ** The command maps *)

Fixpoint distinct (l : list string) : bool :=
  match l with [] => true | x :: r => negb (mem x r) && distinct r end.
Lemma distinct_NoDup l : distinct l = true -> NoDup l.
Proof.
  induction l as [|x l IH]; cbn; intros H; constructor; apply andb_true_iff in H as [H1 H2]; auto.
  apply negb_true_iff in H1. now apply mem_false.
Qed.
Definition attrs_distinct (cm : list (string * string)) : bool :=
  forallb (fun x => forallb (fun y => negb (String.eqb (attr_name (snd x)) (attr_name (snd y))) || String.eqb (snd x) (snd y)) cm) cm.
Definition in_table (cm : list (string * string)) : bool :=
  forallb (fun x => match find_classdef (snd x) with Some _ => true | None => false end) cm.
Lemma maps_checked : forallb (fun h => distinct (map fst (fst (snd h))) && (Z.eqb (fst h) RHEL7 || attrs_distinct (fst (snd h))) && in_table (fst (snd h))) handlers = true.
Proof. vm_compute. reflexivity. Qed.

Lemma map_checked v cm dm : In (v, (cm, dm)) handlers ->
  distinct (map fst cm) = true /\ (v <> RHEL7 -> attrs_distinct cm = true).
Proof.
  intros H. pose proof maps_checked as M. rewrite forallb_forall in M. specialize (M _ H). cbn [fst snd] in M.
  apply andb_true_iff in M as [M _]. apply andb_true_iff in M as [M1 M2]. split; [exact M1|]. intros N.
  apply orb_true_iff in M2 as [M2|M2]; [|exact M2]. apply Z.eqb_eq in M2. contradiction.
Qed.
Lemma version_dict other v cm dm : In (v, (cm, dm)) handlers -> is_dict (version_map other cm).
Proof.
  intros H. apply map_checked in H as [H _]. unfold is_dict, version_map. rewrite map_map. cbn [fst].
  now apply distinct_NoDup.
Qed.
Lemma version_entry other cm n k : In (n, k) (version_map other cm) -> exists c, In (n, c) cm /\ k = class_model other c.
Proof. unfold version_map. intros H. apply in_map_iff in H as ([n' c] & E & H). injection E as <- <-. eauto. Qed.
Lemma version_in other cm n c : In (n, c) cm -> In (n, class_model other c) (version_map other cm).
Proof. intros H. unfold version_map. apply in_map_iff. exists (n, c). auto. Qed.
Lemma version_one other cm : one_class_per_name (version_map other cm).
Proof.
  intros n k n' k' H H'. apply version_entry in H as (c & _ & ->). apply version_entry in H' as (c' & _ & ->).
  cbn [class_model cl_name]. congruence.
Qed.
Lemma version_own other v cm dm : In (v, (cm, dm)) handlers -> v <> RHEL7 -> own_attribute (version_map other cm).
Proof.
  intros H V n k n' k' H1 H2. apply map_checked in H as [_ A]. specialize (A V).
  apply version_entry in H1 as (c & H1 & ->). apply version_entry in H2 as (c' & H2 & ->). cbn [class_model cl_name]. intros E.
  unfold attrs_distinct in A. rewrite forallb_forall in A. specialize (A _ H1). rewrite forallb_forall in A. specialize (A _ H2).
  cbn [snd] in A. rewrite E, String.eqb_refl in A. cbn in A. now apply String.eqb_eq.
Qed.

(** In RHEL7 [install] and [upgrade] are different classes with one attribute. *)
Lemma rhel7_not_own other : exists cm dm, In (RHEL7, (cm, dm)) handlers /\ ~ own_attribute (version_map other cm).
Proof.
  exists RHEL7_commands, RHEL7_data. split.
  - unfold handlers. repeat (first [left; reflexivity|right]).
  - intros H. specialize (H "install" (class_model other "F11_Upgrade") "upgrade" (class_model other "F20_Upgrade")).
    cbn [class_model cl_name] in H. enough ("F11_Upgrade" = "F20_Upgrade") by discriminate. apply H; [| |reflexivity];
    apply version_in; (apply assoc_In; vm_compute; reflexivity).
Qed.

(** An attribute of a handler in use holds an object of its own name. *)
Definition named (h : handler) : Prop :=
  forall a i o, assoc a (h_attrs h) = Some (Some i) -> obj_at h i = Some o -> attr_name (o_name o) = a.
Lemma named_shape h h' : shape h h' -> named h -> named h'.
Proof.
  intros S N a i o' E Eo. rewrite <- (sh_attrs _ _ S) in E. destruct (shape_obj _ _ S i o' Eo) as (o & E1 & E2).
  unfold o_name. rewrite <- E2. exact (N a i o E E1).
Qed.
Definition attrs_old (h : handler) : Prop := forall a i, assoc a (h_attrs h) = Some (Some i) -> i < length (h_objs h).
Lemma named_set h o : attrs_old h -> named h -> attrs_old (set_command o h) /\ named (set_command o h).
Proof.
  intros Old N. split.
  - intros a i E. cbn [set_command h_attrs h_objs] in *. rewrite app_length. cbn [length].
    destruct (string_dec a (attr_name (o_name o))) as [->|Ne].
    + rewrite assoc_put_eq in E. injection E as <-. lia.
    + rewrite assoc_put_ne in E by exact Ne. apply Old in E. lia.
  - intros a i oi E Eo. cbn [set_command h_attrs] in E.
    destruct (string_dec a (attr_name (o_name o))) as [->|Ne].
    + rewrite assoc_put_eq in E. injection E as <-. rewrite obj_at_new in Eo. now injection Eo as <-.
    + rewrite assoc_put_ne in E by exact Ne. apply obj_at_command in Eo as [[-> _]|Eo]; [|eauto]. apply Old in E. lia.
Qed.
Lemma named_register h nk : attrs_old h /\ named h -> attrs_old (register_command h nk) /\ named (register_command h nk).
Proof.
  intros [A B]. destruct nk as [n k]. cbn [register_command]. destruct (find_class _ _ _); [split; assumption|].
  exact (named_set _ _ A B).
Qed.
Lemma attrs_old_shape h h' : shape h h' -> attrs_old h -> attrs_old h'.
Proof.
  intros S O a i E. rewrite <- (sh_attrs _ _ S) in E. apply O in E.
  destruct (nth_error (h_objs h') i) eqn:F; [now apply nth_error_Some; rewrite F|].
  exfalso. pose proof (sh_objs _ _ S i) as C. unfold class_at, obj_at in C. rewrite F in C.
  destruct (nth_error (h_objs h) i) eqn:G; [discriminate|]. apply nth_error_None in G. lia.
Qed.
Lemma in_use_named m h : in_use m h -> named h.
Proof.
  intros (dm & ops & _ & ->). enough (attrs_old (fold_left do_op ops (build_handler m dm)) /\ named (fold_left do_op ops (build_handler m dm))) by tauto.
  assert (B : attrs_old (build_handler m dm) /\ named (build_handler m dm)).
  { unfold build_handler. assert (R : attrs_old (fold_left register_command m empty_handler) /\ named (fold_left register_command m empty_handler)).
    { assert (E : attrs_old empty_handler /\ named empty_handler) by (split; repeat intro; discriminate).
      revert E. generalize empty_handler. induction m as [|x m IH]; intros h E; cbn [fold_left]; [exact E|]. apply IH, named_register, E. }
    split; [eapply attrs_old_shape|eapply named_shape]; try apply register_data_shape; apply R. }
  revert B. generalize (build_handler m dm). induction ops as [|o ops IH]; intros h [B1 B2]; cbn [fold_left]; [auto|]. apply IH.
  destruct o as [l a n|n|a kw]; cbn [do_op].
  - split; [eapply attrs_old_shape|eapply named_shape]; eauto using handle_shape.
  - unfold reset_command. destruct (assoc n (h_commands h)) as [[i|]|]; cbn [fst]; auto.
    + destruct (obj_at h i) as [o|]; cbn [fst]; auto. exact (named_set _ _ B1 B2).
    + split; [intros a i E|intros a i o E Eo]; cbn [h_attrs h_objs] in *;
        (destruct (string_dec a "nonetype") as [->|Ne]; [rewrite assoc_put_eq in E; discriminate|rewrite assoc_put_ne in E by exact Ne]).
      * now apply B1 in E.
      * exact (B2 a i o E Eo).
  - split; [eapply attrs_old_shape|eapply named_shape]; eauto using call_shape.
Qed.

(** Deprecated and removed classes take these methods from the base class. *)
Definition takes_all (base c : string) : bool :=
  String.eqb (comes_from c "parse") base && String.eqb (comes_from c "__str__") base &&
  String.eqb (comes_from c "dataList") base && String.eqb (comes_from c "__init__") base &&
  negb (mem (attr_name c) watched).
Definition marked_b (base c : string) : bool :=
  match find_classdef c with Some k => mem base (k_bases k) | None => false end.
Lemma marked_spec base c : marked base c <-> marked_b base c = true.
Proof.
  unfold marked, marked_b. split.
  - intros (k & -> & H). now apply mem_In.
  - destruct (find_classdef c) as [k|]; [|discriminate]. intros H. exists k. split; auto. now apply mem_In.
Qed.
Lemma find_classdef_In c k : find_classdef c = Some k -> In k classes /\ k_name k = c.
Proof. intros H. apply find_some in H as [H E]. apply String.eqb_eq in E. auto. Qed.
Lemma marked_checked : forallb (fun k => forallb (fun b => negb (marked_b b (k_name k)) || takes_all b (k_name k))
  ["DeprecatedCommand"; "RemovedCommand"]) classes = true.
Proof. vm_compute. reflexivity. Qed.
Local Opaque comes_from find_classdef marked_b.
Lemma marked_takes b c : In b ["DeprecatedCommand"; "RemovedCommand"] -> marked b c -> takes_all b c = true.
Proof.
  intros Hb H. pose proof H as H'. destruct H' as (k & F & _). apply find_classdef_In in F as [F <-].
  pose proof marked_checked as M. rewrite forallb_forall in M. specialize (M _ F). rewrite forallb_forall in M. specialize (M _ Hb).
  apply marked_spec in H. rewrite H in M. cbn [negb orb] in M. exact M.
Qed.

(** The class a deprecated ([rem] false) or removed command is modelled by. *)
Lemma marked_class other b c : In b ["DeprecatedCommand"; "RemovedCommand"] -> marked b c ->
  let k := class_model other c in
  cl_init k = base_attrs VNone /\ cl_list k = false /\ (forall a d, cl_str k a d = "") /\
  cl_parse k = (if String.eqb b "DeprecatedCommand" then deprecated_parse else removed_parse).
Proof.
  intros Hb H. pose proof (marked_takes _ _ Hb H) as T. unfold takes_all in T.
  rewrite !andb_true_iff, !String.eqb_eq in T. destruct T as ((((T1 & T2) & T3) & T4) & _).
  cbv zeta. unfold class_model, from_base. rewrite T1, T2, T3, T4. cbn [cl_init cl_list cl_str cl_parse].
  destruct Hb as [<-|[<-|[]]]; repeat split.
Qed.

(** ** C31 *)

Section Inert.
Variable other : string -> cclass.

(** A line of a deprecated or removed command: what stays as it is. *)
Definition unchanged (cm : list (string * string)) (n c : string) (h h' : handler) : Prop :=
  commands_str h' = commands_str h /\ view_of h' = view_of h /\
  (forall n' c', In (n', c') cm -> c' <> c -> served h' n' = served h n') /\
  exists o o', served h n = Some o /\ served h' n = Some o' /\ o_class o' = o_class o /\ o_data o' = o_data o /\
    o_str o = "" /\ o_str o' = "" /\ forall k, ~ In k notes -> assoc k (o_attrs o') = assoc k (o_attrs o).

Lemma stamp_other cmd line ln a k : ~ In k notes -> assoc k (stamp cmd line ln a) = assoc k a.
Proof.
  intros H. unfold stamp. rewrite !assoc_put_ne; auto; intros ->; apply H; cbn; auto.
Qed.

Lemma replace_replace {A} i (x y : A) l : replace_nth i x (replace_nth i y l) = replace_nth i x l.
Proof. revert i. induction l as [|z l IH]; intros [|i]; cbn; auto. now rewrite IH. Qed.

Lemma inert_line v cm dm n c h line args ln b :
  In b ["DeprecatedCommand"; "RemovedCommand"] ->
  In (v, (cm, dm)) handlers -> In (n, c) cm -> marked b c ->
  in_use (version_map other cm) h ->
  let r := handle_command h line (n :: args) ln in
  unchanged cm n c h (fst r) /\
  snd r = (if String.eqb b "DeprecatedCommand" then None else Some (KSParseError (Some ln) "removed")).
Proof.
  intros Hb Hv Hn Hm U.
  pose proof (version_dict other _ _ _ Hv) as D. pose proof (version_one other cm) as O.
  pose proof (in_use_inv _ _ D U) as I.
  pose proof (version_in other _ _ _ Hn) as Hn'.
  destruct (C27_classes_stay _ _ _ _ D O U Hn') as (o & So & Co).
  pose proof (in_use_named _ _ U) as AI.
  destruct (marked_class other b c Hb Hm) as (Ki & Kl & Ks & Kp).
  assert (W : mem (attr_name c) watched = false).
  { pose proof (marked_takes _ _ Hb Hm) as T. unfold takes_all in T. rewrite !andb_true_iff, negb_true_iff in T. apply T. }
  unfold served, identity in So. destruct (assoc n (h_commands h)) as [[i|]|] eqn:E; try discriminate.
  set (a := stamp n line ln (o_attrs o)). set (o' := mkObj (o_class o) a (o_data o)).
  set (h1 := set_obj i o' (set_line line h)).
  assert (R : handle_command h line (n :: args) ln =
    (h1, if String.eqb b "DeprecatedCommand" then None else Some (KSParseError (Some ln) "removed"))).
  { unfold handle_command, dispatcher. change (h_commands (set_line line h)) with (h_commands h). rewrite E.
    change (obj_at (set_line line h) i) with (obj_at h i). rewrite So. cbv zeta.
    change (h_line (set_line line h)) with line. fold a. fold o'. fold h1. rewrite Co, Kp.
    assert (S2 : set_obj i (mkObj (class_model other c) a (o_data o)) h1 = h1).
    { unfold h1, o'. rewrite Co. unfold set_obj. cbn [h_objs h_commands h_attrs h_order h_dataclasses h_line].
      now rewrite replace_replace. }
    destruct Hb as [<-|[<-|[]]].
    - change (String.eqb "DeprecatedCommand" "DeprecatedCommand") with true. cbv iota. unfold deprecated_parse. cbv iota. rewrite S2. reflexivity.
    - change (String.eqb "RemovedCommand" "DeprecatedCommand") with false. cbv iota. unfold removed_parse. cbv iota. rewrite S2. f_equal. f_equal. f_equal.
      unfold a, stamp, get. rewrite assoc_put_ne by discriminate. rewrite assoc_put_eq. now rewrite N2Z.id. }
  rewrite R. cbn [fst snd]. split; [|reflexivity].
  assert (Ob : forall j, obj_at h1 j = if Nat.eqb j i then Some o' else obj_at h j).
  { intros j. unfold h1. destruct (Nat.eqb_spec j i) as [->|Ne].
    - eapply obj_at_set_eq. exact So.
    - rewrite obj_at_set_ne by auto. reflexivity. }
  assert (Os : o_str o' = "" /\ o_str o = "").
  { unfold o_str, o'. cbn [o_class o_attrs o_data]. rewrite Co. split; apply Ks. }
  assert (Nm : o_name o = c) by (unfold o_name; rewrite Co; reflexivity).
  split; [|split; [|split]].
  - unfold commands_str. change (h_order h1) with (h_order h). f_equal. apply map_ext. intros [p l]. f_equal. apply map_ext.
    intros j. unfold str_at. rewrite Ob. destruct (Nat.eqb_spec j i) as [->|Ne]; [|reflexivity].
    rewrite So. destruct Os as [-> ->]. reflexivity.
  - unfold view_of. change (h_dataclasses h1) with (h_dataclasses h). f_equal. apply map_ext_in. intros x Hx. f_equal.
    unfold attr_obj. change (h_attrs h1) with (h_attrs h). destruct (assoc x (h_attrs h)) as [[j|]|] eqn:Ex; auto.
    rewrite Ob. destruct (Nat.eqb_spec j i) as [->|Ne]; [|reflexivity]. exfalso.
    pose proof (AI x i o Ex So) as <-. rewrite Nm in Hx. apply mem_In in Hx. congruence.
  - intros n' c' Hn2 Hc. unfold served, identity. change (h_commands h1) with (h_commands h).
    destruct (assoc n' (h_commands h)) as [[j|]|] eqn:Ej; auto. rewrite Ob. destruct (Nat.eqb_spec j i) as [->|Ne]; [|reflexivity].
    exfalso. apply Hc. pose proof (version_in other _ _ _ Hn2) as H2.
    destruct (C27_classes_stay _ _ _ _ D O U H2) as (o2 & S2 & C2). unfold served, identity in S2. rewrite Ej, So in S2.
    injection S2 as <-. rewrite Co in C2. now injection C2.
  - exists o, o'. unfold served, identity. change (h_commands h1) with (h_commands h). rewrite E, So, Ob, Nat.eqb_refl.
    repeat split; try apply Os. intros k Hk. cbn [o' o_attrs]. now apply stamp_other.
Qed.

(** In every version, a line of a deprecated command raises nothing, and changes
    nothing but the dispatcher's notes on the command itself. *)
Theorem C31_deprecated : forall v cm dm n c h line args ln,
  In (v, (cm, dm)) handlers -> In (n, c) cm -> marked "DeprecatedCommand" c ->
  in_use (version_map other cm) h ->
  snd (handle_command h line (n :: args) ln) = None /\
  unchanged cm n c h (fst (handle_command h line (n :: args) ln)).
Proof.
  intros v cm dm n c h line args ln Hv Hn Hm U.
  destruct (inert_line v cm dm n c h line args ln "DeprecatedCommand" (or_introl eq_refl) Hv Hn Hm U) as [A B]. auto.
Qed.

(** A line of a removed command always raises, with its line number, and changes as
    little. *)
Theorem C31_removed : forall v cm dm n c h line args ln,
  In (v, (cm, dm)) handlers -> In (n, c) cm -> marked "RemovedCommand" c ->
  in_use (version_map other cm) h ->
  (exists t, snd (handle_command h line (n :: args) ln) = Some (KSParseError (Some ln) t)) /\
  unchanged cm n c h (fst (handle_command h line (n :: args) ln)).
Proof.
  intros v cm dm n c h line args ln Hv Hn Hm U.
  destruct (inert_line v cm dm n c h line args ln "RemovedCommand" (or_intror (or_introl eq_refl)) Hv Hn Hm U) as [A B].
  split; [exists "removed"; exact B|exact A].
Qed.
End Inert.
Print Assumptions C31_deprecated.
Print Assumptions C31_removed.

(** There are such commands: all of these, in the latest version. *)
Example C31_example :
  map fst (filter (fun nc => marked_b "DeprecatedCommand" (snd nc)) F34_commands) = ["autostep"; "method"] /\
  map fst (filter (fun nc => marked_b "RemovedCommand" (snd nc)) F34_commands) = ["device"; "deviceprobe"; "dmraid"; "install"; "multipath"].
Proof. split; vm_compute; reflexivity. Qed.

(** ** C32 *)

(** A class is named [version_Family]: F16_Raid.  Families are compared in lower
    case, as handler attributes are. *)
Definition prefix (c : string) : string := let '(b, _, _) := partition_char "_" c in b.
Definition family (c : string) : string := let '(_, _, a) := partition_char "_" c in lower a.
Definition class_version (c : string) : option Z := assoc (prefix c) versionMap.
Definition of_fedora (c : string) : Prop := startswith c "F" = true.
Definition fedora (v : Z) : Prop := exists n, In (n, v) versionMap /\ of_fedora n.

(** [c] has a syntax of version [v] or earlier, and no Fedora class of its family is
    between the two. *)
Definition newest_for (v : Z) (c : string) : Prop :=
  of_fedora c /\ exists w, class_version c = Some w /\ (w <= v)%Z /\
  forall k w', In k classes -> family (k_name k) = family c -> of_fedora (k_name k) ->
    class_version (k_name k) = Some w' -> (w' <= v)%Z -> (w' <= w)%Z.

(** The only entries of Fedora handlers that are not so. *)
Definition backports : list (Z * string) :=
  [(F16, "F17_LogVolData"); (F16, "F17_PartData"); (F18, "RHEL7_FcoeData"); (F19, "F20_LogVolData")].

Definition fedora_b (v : Z) : bool := existsb (fun x => Z.eqb (snd x) v && startswith (fst x) "F") versionMap.
Definition lines_of (l : list classdef) : list (string * Z) :=
  flat_map (fun k => match class_version (k_name k) with
                     | Some w => if startswith (k_name k) "F" then [(family (k_name k), w)] else []
                     | None => []
                     end) l.
Definition newest_b (lines : list (string * Z)) (v : Z) (c : string) : bool :=
  startswith c "F" &&
  match class_version c with
  | None => false
  | Some w => Z.leb w v &&
      let f := family c in
      forallb (fun x => negb (Z.leb (snd x) v) || Z.leb (snd x) w || negb (String.eqb (fst x) f)) lines
  end.
Lemma fedora_spec v : fedora v -> fedora_b v = true.
Proof.
  intros (n & H & F). unfold fedora_b. apply existsb_exists. exists (n, v). cbn [fst snd]. rewrite Z.eqb_refl.
  split; [exact H|]. exact F.
Qed.
Lemma newest_spec v c : newest_b (lines_of classes) v c = true -> newest_for v c.
Proof.
  unfold newest_b, newest_for, of_fedora. intros H. apply andb_prop in H as [H1 H2]. split; [exact H1|].
  destruct (class_version c) as [w|]; [|discriminate]. apply andb_prop in H2 as [H2 H3]. exists w.
  split; [reflexivity|]. split; [now apply Z.leb_le|]. intros k w' Hk Hf Ho Hv Hw. cbv zeta in H3.
  rewrite forallb_forall in H3.
  assert (L : In (family (k_name k), w') (lines_of classes)).
  { unfold lines_of. apply in_flat_map. exists k. split; [exact Hk|]. rewrite Hv, Ho. left. reflexivity. }
  specialize (H3 _ L). cbn [fst snd] in H3. rewrite Hf, String.eqb_refl, orb_false_r in H3.
  apply Z.leb_le in Hw. rewrite Hw in H3. now apply Z.leb_le.
Qed.
Definition fedora_check (lines : list (string * Z)) : bool :=
  forallb (fun h => negb (fedora_b (fst h)) ||
    (forallb (fun x => newest_b lines (fst h) (snd x)) (fst (snd h)) &&
     forallb (fun x => newest_b lines (fst h) (snd x) || existsb (fun e => Z.eqb (fst e) (fst h) && String.eqb (snd e) (snd x)) backports) (snd (snd h))))
  handlers.
Lemma fedora_checked : fedora_check (lines_of classes) = true.
Proof. vm_compute. reflexivity. Qed.

Lemma fedora_uses lines v cm dm : fedora_check lines = true -> In (v, (cm, dm)) handlers -> fedora v ->
  (forall n c, In (n, c) cm -> newest_b lines v c = true) /\
  (forall n c, In (n, c) dm -> ~ In (v, c) backports -> newest_b lines v c = true).
Proof.
  intros F Hh Hf. unfold fedora_check in F. rewrite forallb_forall in F. specialize (F _ Hh).
  cbn [fst snd] in F. rewrite (fedora_spec _ Hf) in F. cbn [negb orb] in F. apply andb_prop in F as [F1 F2].
  rewrite forallb_forall in F1, F2. split; intros n c Hc.
  - exact (F1 _ Hc).
  - intros Hb. specialize (F2 _ Hc). cbn [snd] in F2. apply orb_prop in F2 as [F|F]; [exact F|].
    exfalso. apply Hb. apply existsb_exists in F as ([v' c'] & F & E). cbn [fst snd] in E. apply andb_prop in E as [E1 E2].
    apply Z.eqb_eq in E1. apply String.eqb_eq in E2. now subst.
Qed.

(** Every command of a Fedora handler has the newest syntax of its family that is not
    newer than the version. *)
Theorem C32_commands : forall v cm dm n c,
  In (v, (cm, dm)) handlers -> fedora v -> In (n, c) cm -> newest_for v c.
Proof.
  intros v cm dm n c Hh Hf Hc. apply newest_spec. exact (proj1 (fedora_uses _ v cm dm fedora_checked Hh Hf) n c Hc).
Qed.
Print Assumptions C32_commands.

(** And so has every data class, but for four. *)
Theorem C32_data : forall v cm dm n c,
  In (v, (cm, dm)) handlers -> fedora v -> In (n, c) dm -> ~ In (v, c) backports -> newest_for v c.
Proof.
  intros v cm dm n c Hh Hf Hc Hb. apply newest_spec. exact (proj2 (fedora_uses _ v cm dm fedora_checked Hh Hf) n c Hc Hb).
Qed.
Print Assumptions C32_data.

(** The four are in the handlers, and newer than their versions. *)
Theorem C32_data_refuted : forall v c, In (v, c) backports ->
  exists cm dm n w, In (v, (cm, dm)) handlers /\ In (n, c) dm /\ class_version c = Some w /\ (v < w)%Z.
Proof.
  assert (A : forallb (fun x => existsb (fun h => Z.eqb (fst h) (fst x) && existsb (fun d => String.eqb (snd d) (snd x)) (snd (snd h)) &&
    match class_version (snd x) with Some w => Z.ltb (fst x) w | None => false end) handlers) backports = true) by (vm_compute; reflexivity).
  intros v c H. rewrite forallb_forall in A. specialize (A _ H). apply existsb_exists in A as ((v' & cm & dm) & Hh & A).
  cbn [fst snd] in A. apply andb_prop in A as [A A3]. apply andb_prop in A as [A1 A2]. apply Z.eqb_eq in A1. subst v'.
  apply existsb_exists in A2 as ([n c'] & Hd & E). cbn [snd] in E. apply String.eqb_eq in E. subst c'.
  destruct (class_version c) as [w|] eqn:W; [|discriminate]. apply Z.ltb_lt in A3. exists cm, dm, n, w. auto.
Qed.
Print Assumptions C32_data_refuted.

(** The RHEL handlers take commands over from Fedora versions released later, but
    never from a later RHEL. *)
Theorem C32_rhel : forall v cm dm n c w,
  In (v, (cm, dm)) handlers -> ~ fedora v -> In (n, c) cm -> ~ of_fedora c -> class_version c = Some w -> (w <= v)%Z.
Proof.
  assert (A : forallb (fun h => fedora_b (fst h) || forallb (fun x => startswith (snd x) "F" ||
    match class_version (snd x) with Some w => Z.leb w (fst h) | None => true end) (fst (snd h))) handlers = true) by (vm_compute; reflexivity).
  intros v cm dm n c w Hh Hf Hc Ho Hw. rewrite forallb_forall in A. specialize (A _ Hh). cbn [fst snd] in A.
  apply orb_prop in A as [A|A].
  - exfalso. apply Hf. unfold fedora_b in A. apply existsb_exists in A as ([n' v'] & H & E). cbn [fst snd] in E.
    apply andb_prop in E as [E1 E2]. apply Z.eqb_eq in E1. subst v'. exists n'. split; assumption.
  - rewrite forallb_forall in A. specialize (A _ Hc). cbn [snd] in A. unfold of_fedora in Ho.
    destruct (startswith c "F"); [now destruct Ho|]. cbn [orb] in A. rewrite Hw in A. now apply Z.leb_le.
Qed.
Theorem C32_rhel_refuted : exists cm dm n c w,
  In (RHEL6, (cm, dm)) handlers /\ In (n, c) cm /\ class_version c = Some w /\ (RHEL6 < w)%Z.
Proof.
  exists RHEL6_commands, RHEL6_data, "volgroup", "F16_VolGroup", F16. split; [|split; [|split]].
  - unfold handlers. repeat (first [left; reflexivity|right]).
  - apply assoc_In. vm_compute. reflexivity.
  - vm_compute. reflexivity.
  - vm_compute. reflexivity.
Qed.
Print Assumptions C32_rhel.
Print Assumptions C32_rhel_refuted.
Example C32_example : fedora F34 /\ ~ fedora RHEL8 /\ In ("raid", "F29_Raid") F34_commands /\ class_version "F29_Raid" = Some F29.
Proof.
  split; [exists "F34"; split; [apply assoc_In; vm_compute; reflexivity|reflexivity]|]. split; [|split].
  - intros H. apply fedora_spec in H. vm_compute in H. discriminate.
  - apply assoc_In. vm_compute. reflexivity.
  - vm_compute. reflexivity.
Qed.

(** ** The handlers of the versions and C27-C30 *)

(** What C27-C30 ask of a command map holds of every version's, except that in RHEL7
    [install] and [upgrade] compete for one attribute. *)
Theorem C27_versions : forall other v cm dm, In (v, (cm, dm)) handlers ->
  is_dict (version_map other cm) /\ one_class_per_name (version_map other cm) /\
  (v <> RHEL7 -> own_attribute (version_map other cm)).
Proof. intros other v cm dm H. split; [eauto using version_dict|]. split; [apply version_one|eauto using version_own]. Qed.
Theorem C27_rhel7_refuted : forall other, exists cm dm,
  In (RHEL7, (cm, dm)) handlers /\ ~ own_attribute (version_map other cm).
Proof. exact rhel7_not_own. Qed.
Print Assumptions C27_versions.
Print Assumptions C27_rhel7_refuted.
