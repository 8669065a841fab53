(** * C35: storage commands exclude each other *)

From Verif Require Import PyStrFacts ArgParseFacts HandlerFacts ClassModel PropsHandler PropsClass.
From Verif Require Import HandlerSpec ParserSpec Parser PropsParse CmdFacts PyClass.
From Verif Require Import Value.
Local Open Scope string_scope.
Local Open Scope list_scope.
Local Arguments Ascii.eqb : simpl never.
Local Arguments String.eqb : simpl never.

(** Pairs of commands that must not be used together. *)
Definition manual : list string := ["part"; "partition"; "raid"; "volgroup"; "logvol"; "reqpart"].
Definition exclusive (n m : string) : Prop :=
  (n = "autopart" /\ (In m manual \/ m = "mount")) \/ (n = "mount" /\ In m manual).

(** The versions with the checks. *)
Definition checked_version (v : Z) : Prop := v = RHEL6 \/ (F20 <= v)%Z.

(** The commands of a kickstart: first words of its command lines. *)
Definition commands_of (cmds : list (string * list string * N)) : list string :=
  flat_map (fun c => match snd (fst c) with n :: _ => [n] | [] => [] end) cmds.

(** ** The handlers of these versions *)

Definition attribute (n : string) : string := if String.eqb n "part" then "partition" else n.
Definition pairs : list (string * string) :=
  let half := map (pair "autopart") (manual ++ ["mount"]) ++ map (pair "mount") manual in
  half ++ map (fun p => (snd p, fst p)) half.
Definition checked_version_b (v : Z) : bool := Z.eqb v RHEL6 || Z.leb F20 v.
(** The classes that matter, each with the commands it must refuse to follow. *)
Definition add_guard (c n : string) (l : list (string * list string)) : list (string * list string) :=
  match assoc c l with
  | Some ns => if mem n ns then l else put c (n :: ns) l
  | None => put c [n] l
  end.
Definition guards_of (cm : list (string * string)) (l : list (string * list string)) : list (string * list string) :=
  fold_left (fun l nm => match assoc (fst nm) cm, assoc (snd nm) cm with
                         | Some _, Some d => add_guard d (attribute (fst nm)) l
                         | _, _ => l
                         end) pairs l.
Definition guards : list (string * list string) :=
  fold_left (fun l h => if checked_version_b (fst h) then guards_of (fst (snd h)) l else l) handlers [].
Lemma guards_checked : forallb (fun x => guarded "seen" (fst x) (snd x)) guards = true.
Proof. vm_compute. reflexivity. Qed.

Definition pair_ok (gs : list (string * list string)) (sk : handler) (cm : list (string * string)) (nm : string * string) : bool :=
  match assoc (fst nm) cm, assoc (snd nm) cm with
  | Some c, Some d =>
      match assoc (fst nm) (h_commands sk), assoc (attribute (fst nm)) (h_attrs sk), assoc d gs with
      | Some (Some i), Some (Some j), Some ns => Nat.eqb i j && mem (attribute (fst nm)) watched && has_key c gs && mem (attribute (fst nm)) ns
      | _, _, _ => false
      end
  | _, _ => true
  end.
Definition storage_check (gs : list (string * list string)) : bool :=
  forallb (fun h => negb (checked_version_b (fst h)) ||
    let cm := fst (snd h) in let sk := skeleton cm in forallb (pair_ok gs sk cm) pairs) handlers.
Lemma storage_checked : storage_check guards = true.
Proof. vm_compute. reflexivity. Qed.

Lemma pairs_spec n m : exclusive n m -> In (n, m) pairs /\ In (m, n) pairs.
Proof.
  assert (A : forall n m, exclusive n m -> In (n, m) (map (pair "autopart") (manual ++ ["mount"]) ++ map (pair "mount") manual)).
  { intros a b [[-> [H| ->]]|[-> H]]; apply in_app_iff.
    - left. apply in_map. apply in_app_iff. now left.
    - left. apply in_map. apply in_app_iff. right. now left.
    - right. now apply in_map. }
  intros H. apply A in H. unfold pairs. cbv zeta. split; apply in_app_iff; [now left|right].
  apply in_map_iff. exists (n, m). auto.
Qed.
Lemma version_spec v : checked_version v -> checked_version_b v = true.
Proof. unfold checked_version, checked_version_b. intros [->|H]; [reflexivity|]. apply Z.leb_le in H. rewrite H. apply orb_true_r. Qed.
(** The command [n] has a class [c] that keeps its mark, and an attribute by which the
    class [d] of [m] finds it. *)
Definition linked (sk : handler) (cm : list (string * string)) (n m c d : string) : Prop :=
  exists i, assoc n (h_commands sk) = Some (Some i) /\ assoc (attribute n) (h_attrs sk) = Some (Some i) /\
  mem (attribute n) watched = true /\ parse_keeps "seen" c = true /\ refuses (attribute n) d = true.
Lemma pair_linked gs v cm dm n m c d : forallb (fun x => guarded "seen" (fst x) (snd x)) gs = true -> storage_check gs = true ->
  In (v, (cm, dm)) handlers -> checked_version v -> In (n, m) pairs ->
  assoc n cm = Some c -> assoc m cm = Some d -> linked (skeleton cm) cm n m c d.
Proof.
  unfold storage_check. intros G S Hv Hc Hp An Am. rewrite forallb_forall in S. specialize (S _ Hv). cbn [fst snd] in S. rewrite (version_spec v Hc) in S.
  cbn [negb orb] in S. cbv zeta in S. rewrite forallb_forall in S. specialize (S _ Hp). unfold pair_ok in S. cbn [fst snd] in S. rewrite An, Am in S.
  destruct (assoc n (h_commands (skeleton cm))) as [[i|]|] eqn:Ei; try discriminate.
  destruct (assoc (attribute n) (h_attrs (skeleton cm))) as [[j|]|] eqn:Ej; try discriminate.
  destruct (assoc d gs) as [ns|] eqn:Ed; [|discriminate].
  apply andb_prop in S as [S R]. apply andb_prop in S as [S K]. apply andb_prop in S as [S W]. apply Nat.eqb_eq in S. subst j.
  rewrite forallb_forall in G. exists i. split; [exact Ei|]. split; [exact Ej|]. split; [exact W|]. split.
  - unfold has_key in K. destruct (assoc c gs) as [ms|] eqn:Eg; [|discriminate]. apply assoc_In, G in Eg. cbn [fst snd] in Eg. apply guarded_spec in Eg. apply Eg.
  - apply assoc_In, G in Ed. cbn [fst snd] in Ed. apply guarded_spec in Ed as [_ Ed]. apply Ed. now apply mem_In.
Qed.

(** ** What was seen *)

Section Seen.
Variable rest : string -> cclass.
Variables (v : Z) (cm dm : list (string * string)).
Hypothesis Hv : In (v, (cm, dm)) handlers.
Notation used := (used rest cm dm).

(** The object of [n] is marked as seen. *)
Definition was_seen (n : string) (h : handler) : Prop := exists i o,
  assoc n (h_commands h) = Some (Some i) /\ obj_at h i = Some o /\ assoc "seen" (o_attrs o) = Some (VBool true).

Lemma stamp_seen n line ln a : assoc "seen" (stamp n line ln a) = Some (VBool true).
Proof. unfold stamp. apply assoc_put_eq. Qed.

Lemma seen_self h n c line args ln : used h -> In (n, c) cm -> parse_keeps "seen" c = true ->
  was_seen n (fst (handle_command h line (n :: args) ln)).
Proof.
  intros U Hc K. destruct (used_served rest v cm dm Hv h n c U Hc) as (i & o & Ei & Eo & _ & Ec).
  destruct (dispatch_cases h line n args ln i o Ei Eo) as (a' & d' & P & J).
  exists i, (mkObj (o_class o) a' d'). split; [|split].
  - rewrite (proj1 (used_commands rest cm dm _ (used_step rest cm dm h line (n :: args) ln U))), <- (proj1 (used_commands rest cm dm h U)). exact Ei.
  - rewrite J, Nat.eqb_refl. reflexivity.
  - cbn [o_attrs]. rewrite Ec in P.
    destruct (cl_parse (class_model (cmd_class rest) c) _ _ (o_data o) args) as [[a1 d1] r] eqn:Ep.
    apply (parse_keeps_sound rest "seen" c _ _ _ _ _ _ _ K) in Ep. rewrite stamp_seen in Ep.
    destruct r; destruct P as (-> & _); exact Ep.
Qed.
Lemma seen_stays h n c line args ln : used h -> In (n, c) cm -> parse_keeps "seen" c = true ->
  was_seen n h -> was_seen n (fst (handle_command h line args ln)).
Proof.
  intros U Hc K (i & o & Ei & Eo & S). destruct args as [|m args]; [exists i, o; auto|].
  destruct (used_served rest v cm dm Hv h n c U Hc) as (i' & o' & Ei' & Eo' & _ & Ec).
  rewrite Ei in Ei'. injection Ei' as <-. rewrite Eo in Eo'. injection Eo' as <-.
  destruct (assoc m (h_commands h)) as [[j|]|] eqn:Em.
  2,3: unfold handle_command, dispatcher; cbn [set_line h_commands]; rewrite Em; exists i, o; auto.
  destruct (obj_at h j) as [p|] eqn:Ej.
  2: unfold handle_command, dispatcher; cbn [set_line h_commands]; rewrite Em;
     change (obj_at (set_line line h) j) with (obj_at h j);
     match goal with |- context [obj_at ?g j] => change (obj_at g j) with (obj_at h j) end; rewrite Ej; exists i, o; auto.
  destruct (dispatch_cases h line m args ln j p Em Ej) as (a' & d' & P & J).
  assert (C' : assoc n (h_commands (fst (handle_command h line (m :: args) ln))) = Some (Some i)).
  { rewrite (proj1 (used_commands rest cm dm _ (used_step rest cm dm h line (m :: args) ln U))), <- (proj1 (used_commands rest cm dm h U)). exact Ei. }
  destruct (Nat.eqb_spec i j) as [<-|Ne].
  - rewrite Eo in Ej. injection Ej as <-. exists i, (mkObj (o_class o) a' d'). split; [exact C'|]. split; [rewrite J, Nat.eqb_refl; reflexivity|].
    cbn [o_attrs]. rewrite Ec in P.
    destruct (cl_parse (class_model (cmd_class rest) c) _ _ (o_data o) args) as [[a1 d1] r] eqn:Ep.
    apply (parse_keeps_sound rest "seen" c _ _ _ _ _ _ _ K) in Ep. rewrite stamp_seen in Ep.
    destruct r; destruct P as (-> & _); exact Ep.
  - exists i, o. split; [exact C'|]. split; [|exact S]. rewrite J. apply Nat.eqb_neq in Ne. rewrite Ne. exact Eo.
Qed.

(** A line of [m] is refused when [n] was seen. *)
Lemma refused h n c m d line args ln : used h -> In (n, c) cm -> In (m, d) cm -> linked (skeleton cm) cm n m c d ->
  was_seen n h -> exists e, snd (handle_command h line (m :: args) ln) = Some e.
Proof.
  intros U Hn Hm (j & Lc & Ea & W & K & R) (i & o & Ei & Eo & S).
  destruct (used_commands rest cm dm h U) as [Uc Ua]. rewrite <- Uc, Ei in Lc. injection Lc as <-. rewrite <- Ua in Ea.
  destruct (used_served rest v cm dm Hv h m d U Hm) as (k & p & Ek & Ep & _ & Ec).
  destruct (dispatch_cases h line m args ln k p Ek Ep) as (a' & d' & Q & _). rewrite Ec in Q.
  match type of Q with context [cl_parse _ ?vw ?a ?l args] => destruct (refuses_sound rest (attribute n) d vw a l args R) as (a1 & e & E) end.
  - unfold seen_in, view_of. cbn [v_seen]. 
    assert (G : forall (f : string -> option bool) l x, mem x l = true -> assoc x (map (fun y => (y, f y)) l) = Some (f x)).
    { intros f l x. induction l as [|y l IH]; cbn [map assoc]; [discriminate|]. unfold mem. cbn [existsb].
      rewrite (String.eqb_sym x y). destruct (String.eqb_spec y x) as [->|]; cbn [orb]; auto. }
    rewrite (G (fun y => option_map o_seen (attr_obj _ y))) by exact W. unfold attr_obj.
    match goal with |- context [assoc (attribute n) (h_attrs ?g)] => change (h_attrs g) with (h_attrs h) end. rewrite Ea.
    destruct (Nat.eqb_spec i k) as [<-|Ne].
    + erewrite obj_at_set_eq by exact Ep. cbn [option_map]. unfold o_seen. cbn [o_attrs]. unfold get. rewrite stamp_seen. reflexivity.
    + rewrite obj_at_set_ne by auto. change (obj_at (set_line line h) i) with (obj_at h i). rewrite Eo. cbn [option_map]. unfold o_seen, get. rewrite S. reflexivity.
  - rewrite E in Q. destruct Q as (_ & _ & Q). eauto.
Qed.

Lemma seen_executed n c : In (n, c) cm -> parse_keeps "seen" c = true -> forall cmds h h', used h ->
  execute handle_command cmds h = (h', None) -> (was_seen n h \/ In n (commands_of cmds)) -> used h' /\ was_seen n h'.
Proof.
  intros Hc K. induction cmds as [|[[l ws] ln] cmds IH]; intros h h' U E S; cbn [execute] in E.
  - injection E as <-. destruct S as [S|[]]. auto.
  - pose proof (used_step rest cm dm h l ws ln U) as U1.
    pose proof (seen_stays h n c l ws ln U Hc K) as S1.
    assert (S2 : forall args, ws = n :: args -> was_seen n (fst (handle_command h l ws ln))).
    { intros args ->. now apply (seen_self h n c). }
    destruct (handle_command h l ws ln) as [h1 [e|]]; [discriminate|]. cbn [fst] in *. apply (IH h1 h' U1 E).
    destruct S as [S|S]; [left; auto|]. unfold commands_of in S. cbn [flat_map fst snd] in S. apply in_app_iff in S as [S|S]; [|right; exact S].
    destruct ws as [|w args]; [destruct S|]. destruct S as [->|[]]. left. eauto.
Qed.

Lemma execute_app {C} (f : C -> string -> list string -> N -> C * option exn) a b c :
  execute f (a ++ b) c = match execute f a c with (c', None) => execute f b c' | r => r end.
Proof.
  revert c. induction a as [|[[l ws] n] a IH]; intros c; cbn [app execute]; [reflexivity|].
  destruct (f c l ws n) as [c' [e|]]; auto.
Qed.
Lemma exclude_order n c m d before between after line1 args1 ln1 line2 args2 ln2 h h' :
  In (n, c) cm -> In (m, d) cm -> linked (skeleton cm) cm n m c d -> used h ->
  execute handle_command (before ++ (line1, n :: args1, ln1) :: between ++ (line2, m :: args2, ln2) :: after) h = (h', None) -> False.
Proof.
  intros Hn Hm P U E. assert (K : parse_keeps "seen" c = true) by (destruct P as (i & P); apply P).
  replace (before ++ (line1, n :: args1, ln1) :: between ++ (line2, m :: args2, ln2) :: after)
    with ((before ++ (line1, n :: args1, ln1) :: between) ++ (line2, m :: args2, ln2) :: after) in E by (rewrite <- app_assoc; reflexivity).
  rewrite execute_app in E. destruct (execute handle_command (before ++ _ :: between) h) as [h1 [e|]] eqn:E1; [discriminate|].
  destruct (seen_executed n c Hn K _ h h1 U E1) as [U1 S1].
  { right. unfold commands_of. apply in_flat_map. exists (line1, n :: args1, ln1). split; [apply in_elt|left; reflexivity]. }
  cbn [execute] in E. destruct (refused h1 n c m d line2 args2 ln2 U1 Hn Hm P S1) as [e X].
  destruct (handle_command h1 line2 (m :: args2) ln2) as [h2 r]. cbn [snd] in X. subst r. discriminate.
Qed.
End Seen.

Lemma commands_split n cmds : In n (commands_of cmds) -> exists before line args ln after, cmds = before ++ (line, n :: args, ln) :: after.
Proof.
  unfold commands_of. intros H. apply in_flat_map in H as ([[l ws] ln] & Hin & H). cbn [fst snd] in H.
  destruct ws as [|w ws]; [destruct H|]. destruct H as [->|[]]. apply in_split in Hin as (b & a & ->). eauto 6.
Qed.

(** ** C35 *)

(** A sequence of command lines, of any commands and in any order, that a new handler
    of such a version takes without error does not use two exclusive commands.  [rest]
    stands for the classes that are not modelled. *)
Theorem C35_exclusive : forall rest v cm dm n m cmds h,
  In (v, (cm, dm)) handlers -> checked_version v -> exclusive n m ->
  execute handle_command cmds (build_handler (version_map (cmd_class rest) cm) dm) = (h, None) ->
  ~ (In n (commands_of cmds) /\ In m (commands_of cmds)).
Proof.
  intros rest v cm dm n m cmds h Hv Hc X E [Hn Hm].
  assert (Known : forall x, In x (commands_of cmds) -> exists c, In (x, c) cm /\ assoc x cm = Some c).
  { intros x Hx. apply commands_split in Hx as (b & l & args & ln & a & ->).
    rewrite execute_app in E. destruct (execute handle_command b _) as [h1 [e|]] eqn:E1; [discriminate|].
    assert (U : used rest cm dm h1).
    { pose proof (used_start rest cm dm) as U0. unfold start in U0. clear E X Hn Hm. revert U0 E1. generalize (build_handler (version_map (cmd_class rest) cm) dm).
      induction b as [|[[l0 ws] n0] b IH]; intros h0 U0 E1; cbn [execute] in E1; [injection E1 as <-; exact U0|].
      pose proof (used_step rest cm dm h0 l0 ws n0 U0) as U1. destruct (handle_command h0 l0 ws n0) as [h2 [e|]]; [discriminate|]. eauto. }
    cbn [execute] in E. destruct (assoc x cm) as [c|] eqn:Ax; [exists c; split; [now apply assoc_In|reflexivity]|]. exfalso.
    assert (N : assoc x (h_commands h1) = None).
    { destruct (assoc x (h_commands h1)) as [k|] eqn:Ek; [|reflexivity]. exfalso.
      apply used_commands in U as [Uc _]. rewrite Uc in Ek. eapply skeleton_names in Ek. congruence. }
    unfold handle_command, dispatcher in E. cbn [set_line h_commands] in E. rewrite N in E. discriminate. }
  destruct (Known n Hn) as (c & Hcn & An). destruct (Known m Hm) as (d & Hdm & Am). clear Known.
  destruct (pairs_spec n m X) as [P1 P2].
  pose proof (pair_linked guards v cm dm n m c d guards_checked storage_checked Hv Hc P1 An Am) as L1.
  pose proof (pair_linked guards v cm dm m n d c guards_checked storage_checked Hv Hc P2 Am An) as L2.
  pose proof (used_start rest cm dm) as U. unfold start in U.
  apply commands_split in Hn as (b & l & args & ln & a & ->).
  unfold commands_of in Hm. rewrite flat_map_app in Hm. cbn [flat_map fst snd] in Hm. apply in_app_iff in Hm as [Hm|Hm].
  - apply commands_split in Hm as (b' & l' & args' & ln' & a' & ->).
    rewrite <- app_assoc in E. cbn [app] in E.
    exact (exclude_order rest v cm dm Hv m d n c _ _ _ _ _ _ _ _ _ _ _ Hdm Hcn L2 U E).
  - apply in_app_iff in Hm as [[Hm|[]]|Hm].
    + subst m. destruct X as [[-> [X|X]]|[-> X]]; try discriminate; cbn in X; repeat (destruct X as [X|X]; [discriminate X|]); destruct X.
    + apply commands_split in Hm as (b' & l' & args' & ln' & a' & ->).
      exact (exclude_order rest v cm dm Hv n c m d _ _ _ _ _ _ _ _ _ _ _ Hcn Hdm L1 U E).
Qed.
Print Assumptions C35_exclusive.

(** For texts: the commands of a kickstart that is read without error. *)
Theorem C35_kickstart : forall rest v cm dm n m cf depth s sec pl st,
  In (v, (cm, dm)) handlers -> checked_version v -> exclusive n m -> cf_version cf = v ->
  cf_errorsAreFatal cf = true -> stands_alone cf (splitlines s) -> forallb plain_marker (splitlines s) = true ->
  readKickstartFromString handler handle_command cf depth s
    (new_parser handler (build_handler (version_map (cmd_class rest) cm) dm) sec pl) = (st, None) ->
  ~ (In n (commands_of (commands_outside None 0 (splitlines s))) /\ In m (commands_of (commands_outside None 0 (splitlines s)))).
Proof.
  intros rest v cm dm n m cf depth s sec pl st Hv Hc X Ev Ef Ha Hm Hr.
  apply C12_between_sections in Hr; auto.
  - exact (C35_exclusive rest v cm dm n m _ _ Hv Hc X Hr).
  - rewrite Ev. destruct Hc as [->|Hc]; [vm_compute; discriminate|]. eapply Z.le_trans; [|exact Hc]. vm_compute. discriminate.
Qed.
Print Assumptions C35_kickstart.

(** Either kind of commands alone is taken, both together are refused, in both orders. *)
Definition demo_rest (c : string) : cclass := mkClass c [] false [] (fun _ a d _ => (a, d, Ok None)) (fun _ _ => "").
Definition demo_lines (l : list (list string)) : list (string * list string * N) := map (fun ws => ("", ws, 1%N)) l.
Definition accepts (v : Z) (l : list (list string)) : option bool :=
  match find (fun h => Z.eqb (fst h) v) handlers with
  | Some (_, (cm, dm)) =>
      Some (match snd (execute handle_command (demo_lines l) (build_handler (version_map (cmd_class demo_rest) cm) dm)) with
            | None => true | Some _ => false end)
  | None => None
  end.
Definition auto : list (list string) := [["autopart"; "--type"; "lvm"]; ["zerombr"]].
Definition by_hand : list (list string) :=
  [["part"; "pv.1"; "--size"; "500"]; ["clearpart"; "--all"]; ["volgroup"; "vg"; "pv.1"]; ["logvol"; "/"; "--vgname"; "vg"; "--name=root"; "--size=100"]].
Example C35_example :
  checked_version F34 /\ exclusive "autopart" "logvol" /\ exclusive "mount" "part" /\
  accepts F34 auto = Some true /\ accepts F34 by_hand = Some true /\
  accepts F34 (auto ++ by_hand) = Some false /\ accepts F34 (by_hand ++ auto) = Some false /\
  accepts RHEL6 by_hand = Some true /\ accepts RHEL6 (by_hand ++ [["autopart"]]) = Some false.
Proof.
  split; [right; vm_compute; discriminate|]. split; [left; cbn; tauto|]. split; [right; cbn; tauto|]. repeat split; lazy; reflexivity.
Qed.

(** Every other version takes them together. *)
Theorem C35_other_versions_refuted : forall v cm dm, In (v, (cm, dm)) handlers -> ~ checked_version v ->
  exists cmds h, execute handle_command cmds (build_handler (version_map (cmd_class demo_rest) cm) dm) = (h, None) /\
    In "autopart" (commands_of cmds) /\ In "part" (commands_of cmds).
Proof.
  assert (A : forallb (fun h => checked_version_b (fst h) ||
    match snd (execute handle_command (demo_lines [["part"; "/"; "--size"; "500"]; ["autopart"]])
      (build_handler (version_map (cmd_class demo_rest) (fst (snd h))) (snd (snd h)))) with None => true | Some _ => false end) handlers = true) by (lazy; reflexivity).
  intros v cm dm Hv Hc. rewrite forallb_forall in A. specialize (A _ Hv). cbn [fst snd] in A.
  assert (N : checked_version_b v = false).
  { destruct (checked_version_b v) eqn:E; [|reflexivity]. exfalso. apply Hc. unfold checked_version_b in E. apply orb_prop in E as [E|E].
    - left. now apply Z.eqb_eq. - right. now apply Z.leb_le. }
  rewrite N in A. cbn [orb] in A. eexists. destruct (execute handle_command (demo_lines [["part"; "/"; "--size"; "500"]; ["autopart"]]) _) as [h [e|]] eqn:E; [discriminate|].
  exists h. split; [exact E|]. cbn. tauto.
Qed.
Print Assumptions C35_other_versions_refuted.
