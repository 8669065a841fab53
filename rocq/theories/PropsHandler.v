(** * Handlers: C27-C30, C34 and the commands of C17 *)

From Coq Require Import Sorting.Permutation.
From Verif Require Import PyStrFacts ArgParseFacts HandlerFacts Parser ParserSpec ParserFacts PropsParse.
From Verif Require Import HandlerSpec.
From Verif Require Import Value.
Local Open Scope string_scope.
Local Open Scope list_scope.

(** Classes for the examples: the arguments are kept in the attribute [arg], or one
    data object is made per line; the argument "bad" is an error. *)
Definition toy (n : string) (p : value) : cclass :=
  mkClass n (base_attrs p ++ [("arg", VStr ""); ("old", VInt 1)]) false ["old"]
    (fun v a d args => if mem "bad" args then (a, d, Err (KSParseError None "bad"))
                       else (put "arg" (VStr (join " " args)) a, d, Ok None))
    (fun a d => match get "arg" a with VStr (String c s) => (n ++ " " ++ String c s ++ nl)%string | _ => "" end).
Definition toy_list (n : string) (p : value) : cclass :=
  mkClass n (base_attrs p) true []
    (fun v a d args => if mem "bad" args then (a, d, Err (KSParseError None "bad"))
                       else (a, d, Ok (Some (mkData "D" [("arg", VStr (join " " args))]))))
    (fun a d => concat_all (map (fun x => match get "arg" (d_attrs x) with
                                          | VStr s => (n ++ " " ++ s ++ nl)%string | _ => "" end) d)).
Definition toys : list (string * cclass) :=
  [("text", toy "F26_DisplayMode" (VInt 0)); ("part", toy_list "F29_Partition" (VInt 130));
   ("cmdline", toy "F26_DisplayMode" (VInt 0)); ("autopart", toy "F29_AutoPart" (VInt 100));
   ("zerombr", toy "F9_ZeroMbr" (VInt 110)); ("install", toy "F29_Install" VNone);
   ("partition", toy_list "F29_Partition" (VInt 130)); ("bootloader", toy "F29_Bootloader" (VInt 10));
   ("clearpart", toy "F28_ClearPart" (VInt 110))].

Ltac dict := unfold is_dict; cbn; repeat constructor; cbn; intuition discriminate.
Lemma toys_dict : is_dict toys. Proof. dict. Qed.
Lemma toys_one : one_class_per_name toys.
Proof.
  intros n k n' k' H H'. cbn in H, H'.
  repeat (destruct H as [H|H]; [injection H as <- <-;
     repeat (destruct H' as [H'|H']; [injection H' as <- <-; cbn; first [reflexivity|discriminate]|]); contradiction|]).
  contradiction.
Qed.
Lemma toys_own : own_attribute toys.
Proof.
  assert (D : forallb (fun x => forallb (fun y =>
     negb (String.eqb (attr_name (cl_name (snd x))) (attr_name (cl_name (snd y)))) || String.eqb (cl_name (snd x)) (cl_name (snd y)))
     toys) toys = true) by (vm_compute; reflexivity).
  intros n k n' k' H H' E. rewrite forallb_forall in D. specialize (D _ H). rewrite forallb_forall in D. specialize (D _ H').
  cbn [snd] in D. apply orb_true_iff in D as [D|D]; [|now apply String.eqb_eq].
  rewrite E, String.eqb_refl in D. discriminate.
Qed.
Lemma toys_autopart : unaliased toys "autopart".
Proof.
  intros k n' k' H H' E. cbn in H, H'.
  repeat (destruct H as [H|H]; [first [discriminate|injection H as <-];
     repeat (destruct H' as [H'|H']; [injection H' as <- <-; first [reflexivity|discriminate]|]); contradiction|]).
  contradiction.
Qed.

(** ** C27 *)

(** Names share their object exactly if they share the class name, and each name is
    served by an instance of a class of the right name - in a new handler and in
    every handler in use. *)
Theorem C27_shared : forall m h n1 k1 n2 k2,
  is_dict m -> in_use m h -> In (n1, k1) m -> In (n2, k2) m ->
  exists i j o1 o2, identity h n1 = Some i /\ identity h n2 = Some j /\ (i = j <-> cl_name k1 = cl_name k2) /\
    served h n1 = Some o1 /\ served h n2 = Some o2 /\ o_name o1 = cl_name k1 /\ o_name o2 = cl_name k2.
Proof.
  intros m h n1 k1 n2 k2 D U H1 H2. pose proof (in_use_inv _ _ D U) as I.
  pose proof (served_inv _ _ I D n1) as S1. pose proof (served_inv _ _ I D n2) as S2.
  rewrite (In_dict _ D _ _ H1) in S1. rewrite (In_dict _ D _ _ H2) in S2.
  destruct S1 as (i & o1 & A1 & B1 & C1 & N1), S2 as (j & o2 & A2 & B2 & C2 & N2).
  exists i, j, o1, o2. repeat split; auto.
  - intros ->. rewrite B1 in B2. injection B2 as <-. congruence.
  - intros E. assert (L : forall n i, identity h n = Some i -> live h i).
    { intros n x. unfold identity, live. destruct (assoc n (h_commands h)) as [r|] eqn:X; [|discriminate]. intros ->. eauto. }
    eapply (inv_uniq _ _ I); eauto. congruence.
Qed.
Print Assumptions C27_shared.

(** Each name is served by a new instance of its own class. *)
Theorem C27_instances : forall m dm n k,
  is_dict m -> one_class_per_name m -> In (n, k) m -> served (build_handler m dm) n = Some (new_obj k).
Proof. intros; apply build_served; auto. Qed.
Print Assumptions C27_instances.

(** and keeps the class whatever happens to the handler. *)
Theorem C27_classes_stay : forall m h n k,
  is_dict m -> one_class_per_name m -> in_use m h -> In (n, k) m -> exists o, served h n = Some o /\ o_class o = k.
Proof.
  intros m h n k D O U H. pose proof (in_use_inv _ _ D U) as I. pose proof (served_inv _ _ I D n) as S.
  rewrite (In_dict _ D _ _ H) in S. destruct S as (i & o & A & B & C & N). exists o. split; auto.
  destruct (inv_from _ _ I i o) as (n' & k' & H' & E); auto.
  { exists n. unfold identity in A. destruct (assoc n (h_commands h)) as [r|]; [now subst|discriminate]. }
  rewrite E. symmetry. eapply (O n k n' k'); eauto. rewrite <- N. unfold o_name. congruence.
Qed.
Print Assumptions C27_classes_stay.

(** Names outside the map are not served. *)
Theorem C27_only_registered : forall m h n,
  is_dict m -> in_use m h -> ~ In n (map fst m) -> assoc n (h_commands h) = None.
Proof.
  intros m h n D U H. pose proof (in_use_inv _ _ D U) as I. rewrite <- (inv_keys _ _ I) in H.
  destruct (assoc n (h_commands h)) eqn:E; [|reflexivity]. exfalso. apply H. apply assoc_key; eauto.
Qed.
Print Assumptions C27_only_registered.

(** Without the condition on the classes the first class registered under a name
    serves all of them. *)
Theorem C27_two_classes_refuted : exists m n k,
  is_dict m /\ In (n, k) m /\ served (build_handler m []) n <> Some (new_obj k).
Proof.
  exists [("text", toy "X_Mode" (VInt 0)); ("cmdline", toy "X_Mode" (VInt 1))], "cmdline", (toy "X_Mode" (VInt 1)).
  split; [dict|]. split; [right; left; reflexivity|]. vm_compute. discriminate.
Qed.
Print Assumptions C27_two_classes_refuted.

Example C27_example :
  is_dict toys /\ one_class_per_name toys /\
  identity (build_handler toys []) "text" = identity (build_handler toys []) "cmdline" /\
  identity (build_handler toys []) "text" <> identity (build_handler toys []) "part" /\
  identity (build_handler toys []) "autopart" <> None.
Proof. split; [exact toys_dict|]. split; [exact toys_one|]. repeat split; vm_compute; congruence. Qed.

(** ** C28 *)

(** What is written: the output of each object that serves a command and has a
    priority, once, ordered by priority and then class name. *)
Theorem C28_order : forall m h, is_dict m -> in_use m h ->
  exists L, commands_str h = concat_all (map o_str L) /\ StronglySorted written_before L /\ NoDup L /\
    forall o, In o L <-> (exists n k, In (n, k) m /\ served h n = Some o) /\ cl_prio (o_class o) <> None.
Proof.
  intros m h D U. pose proof (in_use_inv _ _ D U) as I. exists (written h).
  pose proof (written_sorted _ _ I) as S.
  split; [apply commands_str_written|]. split; [exact S|]. split.
  - clear -S. induction S as [|a l S IH F]; constructor; auto. intros H. rewrite Forall_forall in F. apply F in H.
    eapply written_before_irrefl; eauto.
  - intros o. rewrite (written_in _ _ I D). split; intros [[n H] P]; split; auto.
    + pose proof (served_inv _ _ I D n) as X. destruct (assoc n m) as [k|] eqn:E; [|destruct X; congruence].
      exists n, k. split; [eapply assoc_In; eauto|exact H].
    + destruct H as [k [_ H]]. eauto.
Qed.
Print Assumptions C28_order.

(** The output of a new handler does not depend on the order of the command map. *)
Theorem C28_new_permutation : forall m m' dm dm',
  is_dict m -> one_class_per_name m -> Permutation m m' ->
  commands_str (build_handler m dm) = commands_str (build_handler m' dm').
Proof.
  intros m m' dm dm' D O P. assert (D' : is_dict m').
  { unfold is_dict in *. eapply Permutation_NoDup; [|exact D]. now apply Permutation_map. }
  apply (alike_str m m'); auto; [|now apply build_inv|now apply build_inv].
  intros n. rewrite (build_alike m m' dm D P O). assert (O' : one_class_per_name m').
  { intros a k b k' Ha Hb. apply (O a k b k'); apply (Permutation_in _ (Permutation_sym P)); assumption. }
  destruct (assoc n m') as [k|] eqn:E.
  - apply assoc_In in E. now rewrite !(build_served m' _ n k D' O' E).
  - pose proof (served_inv m' _ (build_inv m' dm D') D' n) as X. pose proof (served_inv m' _ (build_inv m' dm' D') D' n) as Y.
    rewrite E in X, Y. destruct X, Y. congruence.
Qed.
Print Assumptions C28_new_permutation.

(** Nor does that of a handler in use, on which the same operations were made. *)
Theorem C28_permutation : forall m m' dm ops,
  is_dict m -> one_class_per_name m -> own_attribute m -> Permutation m m' -> Forall (op_ok m) ops ->
  commands_str (fold_left do_op ops (build_handler m dm)) = commands_str (fold_left do_op ops (build_handler m' dm)) /\
  forall n, served (fold_left do_op ops (build_handler m dm)) n = served (fold_left do_op ops (build_handler m' dm)) n.
Proof.
  intros m m' dm ops D O A P F. assert (D' : is_dict m').
  { unfold is_dict in *. eapply Permutation_NoDup; [|exact D]. now apply Permutation_map. }
  destruct (ops_alike m m' dm ops D P O A F) as [S _ _ I I' _ _]. split; [exact (alike_str m m' _ _ D D' S I I')|exact S].
Qed.
Print Assumptions C28_permutation.

Definition toy_ops : list hop :=
  [HLine "x" ["part"; "/"] 1; HLine "x" ["zerombr"; "yes"] 2; HLine "x" ["cmdline"; "a"; "b"] 3; HLine "x" ["text"; "bad"] 4;
   HLine "x" ["clearpart"; "--all"] 5; HLine "x" ["partition"; "/home"] 6; HLine "x" ["install"; "now"] 7;
   HLine "x" ["autopart"; "c"] 8; HCall "bootloader" [("arg", VStr "--boot"); ("old", VInt 2); ("none", VInt 3)]].
Example C28_example :
  is_dict toys /\ one_class_per_name toys /\ own_attribute toys /\ Forall (op_ok toys) toy_ops /\
  in_use toys (fold_left do_op toy_ops (build_handler toys [])) /\
  commands_str (fold_left do_op toy_ops (build_handler toys [])) =
    ("F26_DisplayMode a b" ++ nl ++ "F29_Bootloader --boot" ++ nl ++ "F29_AutoPart c" ++ nl ++ "F28_ClearPart --all" ++ nl
     ++ "F9_ZeroMbr yes" ++ nl ++ "F29_Partition /" ++ nl ++ "F29_Partition /home" ++ nl)%string.
Proof.
  assert (F : Forall (op_ok toys) toy_ops) by (repeat constructor).
  split; [exact toys_dict|]. split; [exact toys_one|]. split; [exact toys_own|]. split; [exact F|].
  split; [exists [], toy_ops; auto|]. vm_compute. reflexivity.
Qed.

(** ** C29 *)

(** [handler.resetCommand(n)] for a name with no aliases: the command, and the
    attribute it is shown under, are a new instance; other commands and attributes
    stay; the output is what it was with the new instance in the old one's place. *)
Theorem C29_reset : forall m h n k,
  is_dict m -> one_class_per_name m -> own_attribute m -> in_use m h -> In (n, k) m -> unaliased m n ->
  exists h2 L o, reset_command n h = (h2, None) /\
    served h n = Some o /\ o_class o = k /\
    served h2 n = Some (new_obj k) /\ attr_obj h2 (attr_name (cl_name k)) = Some (new_obj k) /\
    (forall n', n' <> n -> served h2 n' = served h n') /\
    (forall a, a <> attr_name (cl_name k) -> attr_obj h2 a = attr_obj h a) /\
    commands_str h = concat_all (map o_str L) /\
    commands_str h2 = concat_all (map (fun x => o_str (if String.eqb (o_name x) (cl_name k) then new_obj k else x)) L) /\
    (forall x, In x L -> o_name x = cl_name k -> x = o).
Proof.
  intros m h n k D O A U H Un. pose proof (in_use_inv _ _ D U) as I.
  destruct (C27_classes_stay _ _ _ _ D O U H) as (o & So & Co).
  destruct (reset_served _ _ _ _ I D H Un) as (o' & h2 & So' & R & I2 & S2 & Sn & At & An & _).
  rewrite So in So'. injection So' as <-. rewrite Co in *.
  assert (AI : ainv h).
  { destruct U as (dm & ops & F & ->). apply (al_ainv _ _ _ _ (ops_alike m m dm ops D (Permutation_refl _) O A F)). }
  assert (Only : forall x, In x (written h) -> o_name x = cl_name k -> x = o).
  { intros x Hx Nx. apply (written_in _ _ I D) in Hx as [[n' Hn'] _].
    pose proof (served_inv _ _ I D n') as X. destruct (assoc n' m) as [k'|] eqn:E; [|destruct X; congruence].
    destruct X as (_ & o' & _ & _ & S' & N'). rewrite Hn' in S'. injection S' as <-.
    assert (n' = n) as ->. { apply (Un k n' k' H (assoc_In _ _ _ E)). congruence. }
    congruence. }
  exists h2, (written h), o. repeat split; auto.
  - intros a Ha. apply An; auto. intros x Hx. destruct (ainv_attr _ AI _ _ Hx) as (i & oi & -> & _ & Hi & _). eauto.
  - apply commands_str_written.
  - rewrite commands_str_written. f_equal.
    rewrite <- (map_map (fun x => if String.eqb (o_name x) (cl_name k) then new_obj k else x) o_str).
    f_equal. set (f := fun x => if String.eqb (o_name x) (cl_name k) then new_obj k else x).
    assert (Cl : forall x, In x (written h) -> o_class (f x) = o_class x).
    { intros x Hx. unfold f. destruct (String.eqb_spec (o_name x) (cl_name k)) as [E|E]; [|reflexivity].
      rewrite (Only _ Hx E), Co. reflexivity. }
    apply sorted_same_set; [eapply written_sorted; eauto| |].
    + pose proof (written_sorted _ _ I) as Ss. revert Ss Cl. generalize (written h) as L. clear.
      induction L as [|x L IH]; intros Ss Cl; cbn [map]; constructor.
      * inversion Ss; subst. apply IH; auto. intros; apply Cl; now right.
      * inversion Ss as [|? ? _ F]; subst. rewrite Forall_forall in *. intros y Hy. apply in_map_iff in Hy as (z & <- & Hz).
        destruct (F _ Hz) as (p & q & P & Q & W). exists p, q.
        unfold o_name. rewrite !Cl by (cbn; auto). auto.
    + intros x. rewrite (written_in _ _ I2 D). split.
      * intros [[n' Hn'] P]. destruct (String.eqb_spec n' n) as [->|Ne].
        -- rewrite S2 in Hn'. injection Hn' as <-. apply in_map_iff. exists o. split.
           { unfold f, o_name. rewrite Co, String.eqb_refl. reflexivity. }
           apply (written_in _ _ I D). split; [eauto|]. now rewrite Co.
        -- rewrite Sn in Hn' by auto. apply in_map_iff. exists x. split; [|apply (written_in _ _ I D); eauto].
           unfold f. destruct (String.eqb_spec (o_name x) (cl_name k)) as [E|E]; [|reflexivity]. exfalso.
           pose proof (served_inv _ _ I D n') as X. destruct (assoc n' m) as [k'|] eqn:E'; [|destruct X; congruence].
           destruct X as (_ & o' & _ & _ & S' & N'). rewrite Hn' in S'. injection S' as <-.
           apply Ne. apply (Un k n' k' H (assoc_In _ _ _ E')). congruence.
      * intros Hx. apply in_map_iff in Hx as (z & <- & Hz). pose proof (Cl _ Hz) as Cz.
        pose proof Hz as Hz'. apply (written_in _ _ I D) in Hz' as [[n' Hn'] P]. split; [|now rewrite Cz].
        unfold f in *. destruct (String.eqb_spec (o_name z) (cl_name k)) as [E|E]; [eauto|].
        exists n'. rewrite Sn; auto. intros ->. rewrite So in Hn'. injection Hn' as <-. apply E. unfold o_name. now rewrite Co.
Qed.
Print Assumptions C29_reset.

(** A reset handler is one with the command in the state of a new handler. *)
Theorem C29_as_new : forall m h dm n k,
  is_dict m -> one_class_per_name m -> own_attribute m -> in_use m h -> In (n, k) m -> unaliased m n ->
  let h2 := fst (reset_command n h) in
  served h2 n = served (build_handler m dm) n /\
  attr_obj h2 (attr_name (cl_name k)) = attr_obj (build_handler m dm) (attr_name (cl_name k)).
Proof.
  intros m h dm n k D O A U H Un. destruct (C29_reset _ _ _ _ D O A U H Un) as (h2 & L & o & R & _ & _ & S2 & At & _).
  rewrite R. cbn [fst]. pose proof (build_served m dm n k D O H) as B. rewrite B. split; [auto|]. rewrite At. symmetry.
  apply (attr_obj_spec m); auto; [now apply build_inv|now apply build_ainv|]. exists n. split; auto.
Qed.
Print Assumptions C29_as_new.

(** Unknown names. *)
Theorem C29_unknown : forall m h n,
  is_dict m -> in_use m h -> ~ In n (map fst m) -> reset_command n h = (h, Some KeyError).
Proof.
  intros m h n D U H. unfold reset_command. rewrite (C27_only_registered _ _ _ D U H). reflexivity.
Qed.
Print Assumptions C29_unknown.

(** The claim fails for a name with an alias: the other name keeps the old object,
    and what it was given is no longer written. *)
Theorem C29_alias_refuted : exists m h n h2,
  is_dict m /\ one_class_per_name m /\ own_attribute m /\ in_use m h /\ reset_command n h = (h2, None) /\
  (exists n', identity h n = identity h n' /\ identity h2 n <> identity h2 n' /\ served h2 n' = served h n') /\
  commands_str h2 = "" /\
  let h3 := fst (handle_command h2 "x" ["partition"; "/boot"] 2) in
  snd (handle_command h2 "x" ["partition"; "/boot"] 2) = None /\ commands_str h3 = "".
Proof.
  exists toys, (fold_left do_op [HLine "x" ["part"; "/"] 1] (build_handler toys [])), "part".
  eexists. split; [exact toys_dict|]. split; [exact toys_one|]. split; [exact toys_own|].
  split. { exists [], [HLine "x" ["part"; "/"] 1]. split; [repeat constructor|reflexivity]. }
  split; [vm_compute; reflexivity|]. split; [exists "partition"; repeat split; vm_compute; congruence|].
  repeat split; vm_compute; reflexivity.
Qed.
Print Assumptions C29_alias_refuted.

(** Resetting a masked command fails, and leaves an attribute behind. *)
Theorem C29_masked_refuted : exists m keep n h2,
  is_dict m /\ In n (map fst m) /\
  reset_command n (mask_all_except keep (build_handler m [])) = (h2, Some AttributeError) /\
  has_command "nonetype" h2 = true.
Proof.
  exists toys, ["text"], "autopart". eexists. split; [exact toys_dict|]. split; [cbn; tauto|].
  split; vm_compute; reflexivity.
Qed.
Print Assumptions C29_masked_refuted.

Example C29_example :
  let h := fold_left do_op toy_ops (build_handler toys []) in
  unaliased toys "autopart" /\ in_use toys h /\
  commands_str (fst (reset_command "autopart" h)) =
    ("F26_DisplayMode a b" ++ nl ++ "F29_Bootloader --boot" ++ nl ++ "F28_ClearPart --all" ++ nl
     ++ "F9_ZeroMbr yes" ++ nl ++ "F29_Partition /" ++ nl ++ "F29_Partition /home" ++ nl)%string.
Proof.
  cbv zeta. split; [exact toys_autopart|]. split; [exists [], toy_ops; split; [repeat constructor|reflexivity]|].
  vm_compute. reflexivity.
Qed.

(** ** C30 *)

(** After maskAllExcept a registered command outside the list does nothing. *)
Theorem C30_masked : forall h keep line n args ln,
  assoc n (h_commands h) <> None -> ~ In n keep ->
  handle_command (mask_all_except keep h) line (n :: args) ln = (set_line line (mask_all_except keep h), None).
Proof.
  intros h keep line n args ln H Hk. unfold handle_command, dispatcher, mask_all_except, set_line. cbn [h_commands].
  assert (M : mem n keep = false) by now apply mem_false.
  assert (E : forall c, assoc n c <> None -> assoc n (map (fun c : string * option nat => if mem (fst c) keep then c else (fst c, None)) c) = Some None).
  { induction c as [|[a x] c IH]; [intros X; now elim X|]. cbn [map assoc fst]. destruct (String.eqb_spec n a) as [<-|Ne].
    - intros _. rewrite M. cbn [assoc]. now rewrite String.eqb_refl.
    - intros Hc. destruct (mem a keep); cbn [assoc]; apply String.eqb_neq in Ne; rewrite Ne; auto. }
  rewrite E; auto.
Qed.
Print Assumptions C30_masked.

(** A command in the list is handled as before: the same exception or none, and
    the handler one gets is that of the unmasked handler, masked. *)
Theorem C30_kept : forall h keep line n args ln,
  In n keep ->
  handle_command (mask_all_except keep h) line (n :: args) ln =
  (mask_all_except keep (fst (handle_command h line (n :: args) ln)), snd (handle_command h line (n :: args) ln)).
Proof.
  intros h keep line n args ln Hk. apply mem_In in Hk.
  assert (E : assoc n (h_commands (mask_all_except keep h)) = assoc n (h_commands h)).
  { cbn [mask_all_except h_commands]. induction (h_commands h) as [|[a x] c IH]; [reflexivity|].
    cbn [map assoc fst]. destruct (String.eqb_spec n a) as [<-|Ne].
    - rewrite Hk. cbn [assoc]. now rewrite String.eqb_refl.
    - destruct (mem a keep); cbn [assoc]; apply String.eqb_neq in Ne; rewrite Ne; auto. }
  unfold handle_command, dispatcher. change (h_commands (set_line line (mask_all_except keep h))) with (h_commands (mask_all_except keep h)).
  rewrite E. change (h_commands (set_line line h)) with (h_commands h).
  destruct (assoc n (h_commands h)) as [[i|]|]; [|reflexivity|reflexivity].
  change (obj_at (set_line line (mask_all_except keep h)) i) with (obj_at (set_line line h) i).
  destruct (obj_at (set_line line h) i) as [o|]; [|reflexivity]. cbv zeta.
  set (h1 := set_obj i _ (set_line line h)).
  change (view_of (set_obj i _ (set_line line (mask_all_except keep h)))) with (view_of h1).
  change (h_line (set_line line (mask_all_except keep h))) with (h_line (set_line line h)).
  destruct (cl_parse (o_class o) (view_of h1) _ _ _) as [[a' d'] [r|e]]; reflexivity.
Qed.
Print Assumptions C30_kept.

(** The objects of the kept commands, and the attributes, are not touched. *)
Theorem C30_objects : forall h keep n,
  served (mask_all_except keep h) n = (if mem n keep then served h n else None) /\
  forall a, attr_obj (mask_all_except keep h) a = attr_obj h a.
Proof.
  intros h keep n. split; [|reflexivity]. unfold served, identity. cbn [mask_all_except h_commands].
  assert (E : assoc n (map (fun c : string * option nat => if mem (fst c) keep then c else (fst c, None)) (h_commands h)) =
     if mem n keep then assoc n (h_commands h) else match assoc n (h_commands h) with None => None | Some _ => Some None end).
  { induction (h_commands h) as [|[a x] c IH]; [destruct (mem n keep); reflexivity|].
    cbn [map assoc fst]. destruct (mem a keep) eqn:M; cbn [assoc]; destruct (String.eqb_spec n a) as [<-|Ne]; rewrite ?M; auto. }
  rewrite E. destruct (mem n keep); [reflexivity|]. destruct (assoc n (h_commands h)); reflexivity.
Qed.
Print Assumptions C30_objects.

(** Names that were not registered still fail. *)
Theorem C30_unregistered : forall h keep line n args ln,
  assoc n (h_commands h) = None ->
  snd (handle_command (mask_all_except keep h) line (n :: args) ln) = Some (KSParseError (Some ln) "unknown command").
Proof.
  intros h keep line n args ln H. unfold handle_command, dispatcher. cbn [set_line mask_all_except h_commands].
  assert (E : assoc n (map (fun c : string * option nat => if mem (fst c) keep then c else (fst c, None)) (h_commands h)) = None).
  { induction (h_commands h) as [|[a x] c IH]; [reflexivity|]. cbn [map assoc fst] in *.
    destruct (String.eqb n a) eqn:Ea; [discriminate|]. destruct (mem a keep); cbn [assoc]; rewrite Ea; auto. }
  rewrite E. reflexivity.
Qed.
Print Assumptions C30_unregistered.

(** A finding: masking also empties the output, of the kept commands too. *)
Theorem C30_not_written : forall h keep, commands_str (mask_all_except keep h) = "".
Proof. reflexivity. Qed.
Print Assumptions C30_not_written.

Example C30_example :
  let h := mask_all_except ["text"; "part"] (build_handler toys []) in
  assoc "zerombr" (h_commands (build_handler toys [])) <> None /\
  snd (handle_command h "x" ["zerombr"; "bad"] 1) = None /\
  snd (handle_command h "x" ["part"; "bad"] 1) = Some (KSParseError None "bad") /\
  option_map o_data (served (fst (handle_command h "x" ["part"; "/"] 1)) "part") = Some [mkData "D" [("arg", VStr "/")]].
Proof. cbv zeta. repeat split; vm_compute; congruence. Qed.

(** ** C34 *)

(** [obj(k=v, ...)] on the attributes of a data object: those that exist and were not
    removed get their values, all others are as before, none is added. *)
Theorem C34_attributes : forall removed kwargs a,
  is_dict kwargs ->
  map fst (call_attrs removed kwargs a) = map fst a /\
  forall k, assoc k (call_attrs removed kwargs a) =
    match assoc k kwargs with
    | Some v => if mem k removed then assoc k a
                else match assoc k a with Some _ => Some v | None => None end
    | None => assoc k a
    end.
Proof.
  intros removed kwargs. induction kwargs as [|[k v] r IH]; intros a D; [auto|].
  inversion D as [|? ? Hk D']; subst. cbn [call_attrs assoc].
  set (a' := if mem k removed then a else if has_key k a then put k v a else a).
  destruct (IH a' D') as [K V]. split.
  - rewrite K. unfold a'. destruct (mem k removed); [reflexivity|]. destruct (has_key k a) eqn:E; [|reflexivity].
    unfold has_key in E. destruct (assoc k a) eqn:E'; [|discriminate]. apply put_keys, assoc_key; eauto.
  - intros j. rewrite V. destruct (String.eqb_spec j k) as [->|Ne].
    + assert (assoc k r = None) as ->.
      { destruct (assoc k r) eqn:E; [|reflexivity]. exfalso. apply Hk. apply assoc_key; eauto. }
      unfold a'. destruct (mem k removed); [reflexivity|]. unfold has_key. destruct (assoc k a) eqn:E; [|now rewrite E].
      now rewrite assoc_put_eq.
    + assert (assoc j a' = assoc j a) as ->; [|reflexivity].
      unfold a'. destruct (mem k removed); [reflexivity|]. destruct (has_key k a); [|reflexivity]. now apply assoc_put_ne.
Qed.
Print Assumptions C34_attributes.

(** On a command, which also becomes seen. *)
Theorem C34_command : forall o kwargs,
  is_dict kwargs -> has_key "seen" (o_attrs o) = true ->
  let o' := call_command kwargs o in
  o_class o' = o_class o /\ o_data o' = o_data o /\ map fst (o_attrs o') = map fst (o_attrs o) /\
  forall k, assoc k (o_attrs o') =
    match assoc k kwargs with
    | Some v => if mem k (cl_removed (o_class o)) then (if String.eqb k "seen" then Some (VBool true) else assoc k (o_attrs o))
                else match assoc k (o_attrs o) with Some _ => Some v | None => None end
    | None => if String.eqb k "seen" then Some (VBool true) else assoc k (o_attrs o)
    end.
Proof.
  intros o kwargs D S o'. subst o'. cbn [call_command o_class o_data o_attrs].
  unfold has_key in S. destruct (assoc "seen" (o_attrs o)) as [s|] eqn:Es; [|discriminate].
  destruct (C34_attributes (cl_removed (o_class o)) kwargs (put "seen" (VBool true) (o_attrs o)) D) as [K V].
  repeat split.
  - rewrite K. apply put_keys, assoc_key; eauto.
  - intros k. rewrite V. destruct (String.eqb_spec k "seen") as [->|Ne].
    + rewrite assoc_put_eq, Es. reflexivity.
    + now rewrite assoc_put_ne.
Qed.
Print Assumptions C34_command.

Example C34_example :
  let o := new_obj (toy "X" (VInt 1)) in
  let kw := [("arg", VStr "a"); ("old", VInt 2); ("none", VInt 3)] in
  is_dict kw /\ has_key "seen" (o_attrs o) = true /\
  get "arg" (o_attrs (call_command kw o)) = VStr "a" /\ get "old" (o_attrs (call_command kw o)) = VInt 1 /\
  has_key "none" (o_attrs (call_command kw o)) = false /\ o_seen (call_command kw o) = true.
Proof. cbv zeta. split; [dict|]. repeat split; vm_compute; reflexivity. Qed.

(** ** C17: commands *)

(** A name that is not registered: an error with the line number, and no command,
    attribute or output of the handler changes. *)
Theorem C17_unknown_command : forall h line n args ln,
  assoc n (h_commands h) = None ->
  exists t, handle_command h line (n :: args) ln = (set_line line h, Some (KSParseError (Some ln) t)).
Proof. intros h line n args ln H. eexists. unfold handle_command, dispatcher. cbn [set_line h_commands]. now rewrite H. Qed.
Print Assumptions C17_unknown_command.

(** In a file, after any text without an error: the error has the line's number; the
    handler is as the text before left it; the text after it is not read. *)
Theorem C17_unknown_in_file : forall m cf fuel A line B st s1 n args,
  cf_errorsAreFatal cf = true -> (F8 <= cf_version cf)%Z ->
  is_dict m -> in_use m (ks_cmds handler s1) ->
  complete A = true -> splitlines line = [line] -> complete line = true ->
  readKickstartFromString handler handle_command cf fuel A st = (s1, None) -> ks_state handler s1 = None ->
  command_words line = Some (n :: args) -> ~ In n (map fst m) ->
  exists s2 t, readKickstartFromString handler handle_command cf fuel (A ++ line ++ B) st
      = (s2, Some (KSParseError (Some (N.of_nat (length (splitlines A)) + 1)%N) t)) /\
    ks_cmds handler s2 = set_line line (ks_cmds handler s1) /\ ks_sec handler s2 = ks_sec handler s1.
Proof.
  intros m cf fuel A line B st s1 n args HF H8 D U HA Hl1 Hl2 HR Hs Hw Hn.
  pose proof (C27_only_registered _ _ _ D U Hn) as E.
  destruct (C17_unknown_command (ks_cmds handler s1) line n args (N.of_nat (length (splitlines A)) + 1)%N E) as [t Ht].
  eexists. exists t. split; [|split; cycle 1].
  - apply (C13_first_error handler handle_command cf fuel A line B st s1 _ _ _ HF H8 HA Hl1 Hl2 HR Hs Hw Ht).
  - reflexivity.
  - reflexivity.
Qed.
Print Assumptions C17_unknown_in_file.

Example C17_command_example :
  let st := new_parser handler (build_handler toys []) (mkSH [] new_packages []) "" in
  let r := readKickstartFromString handler handle_command (demo_config true) 5
     ("part /" ++ nl ++ "nothing --here" ++ nl ++ "part /home" ++ nl) st in
  snd r = Some (KSParseError (Some 2%N) "unknown command") /\
  commands_str (ks_cmds handler (fst r)) = ("F29_Partition /" ++ nl)%string.
Proof. cbv zeta. split; vm_compute; reflexivity. Qed.
