(** * C54: what ksverdiff prints is what the two versions accept *)

From Verif Require Import VerDiff Tools ClassModel Handler HandlerSpec HandlerFacts PropsHandler PropsClass ArgParse ArgDecl ArgSpec PyClass CmdFacts CmdLines PropsStore PkgFacts HandlerMaps.
From Verif Require PropsTools PropsInit.
From Coq Require Import Sorting.Sorted Lia.
From Verif Require Import ArgLineFacts PyStrFacts Value.
Local Open Scope string_scope.
Local Open Scope list_scope.
Local Arguments String.eqb : simpl never.

(** ** Tables *)

Definition kinds_ok : bool :=
  forallb (fun c => Bool.eqb (is_a "RemovedCommand" c) (marked_b "RemovedCommand" c) &&
                    Bool.eqb (is_a "DeprecatedCommand" c && negb (is_a "RemovedCommand" c)) (marked_b "DeprecatedCommand" c)) used_classes.
Lemma kinds_checked : kinds_ok = true.
Proof. vm_compute. reflexivity. Qed.

(** The first strings of the options of a class, and all that have ever been one of the command's. *)
Definition firsts (c : string) : list string := map first_string (p_actions (build (table_of c))).
Definition served_pairs : list (string * string) := flat_map (fun h => fst (snd h)) handlers.
Definition classes_for (n : string) : list string := MiniPy.distinct (flat_map (fun p => if String.eqb (fst p) n then [snd p] else []) served_pairs).
Definition fair (t : list string * list string) (o : string) : bool :=
  if String.eqb o "" then true
  else if negb (startswith o "--") then false
  else if String.eqb o "--" then false
  else if has_char "=" o then false
  else if has_char SP o then false
  else if mem o (fst t) then true
  else forallb (fun o' => negb (startswith o' o)) (snd t).
Definition options_fair (n : string) : bool :=
  let ts := map (fun c => (firsts c, option_names c)) (classes_for n) in
  let us := MiniPy.distinct (flat_map fst ts) in
  forallb (fun t => forallb (fair t) us) ts.
Definition all_fair : bool := forallb options_fair (MiniPy.distinct (map fst served_pairs)).
Lemma fair_checked : all_fair = true.
Proof. vm_compute. reflexivity. Qed.

Lemma used_class v cm dm n c : In (v, (cm, dm)) handlers -> In (n, c) cm -> In c used_classes.
Proof. intros Hv Hc. apply PropsInit.distinct_has, in_flat_map. exists (v, (cm, dm)). split; [exact Hv|]. exact (in_map snd _ _ Hc). Qed.
Lemma class_for v cm dm n c : In (v, (cm, dm)) handlers -> In (n, c) cm -> In c (classes_for n).
Proof.
  intros Hv Hc. apply PropsInit.distinct_has, in_flat_map. exists (n, c). split.
  - apply in_flat_map. exists (v, (cm, dm)). auto.
  - cbn [fst snd]. rewrite String.eqb_refl. left; reflexivity.
Qed.
Lemma name_for v cm dm n c : In (v, (cm, dm)) handlers -> In (n, c) cm -> In n (MiniPy.distinct (map fst served_pairs)).
Proof. intros Hv Hc. apply PropsInit.distinct_has. apply (in_map fst served_pairs (n, c)), in_flat_map. exists (v, (cm, dm)). auto. Qed.
Local Opaque comes_from method_of table_of removed_of data_str new_attrs init_of marked_b used_classes is_a no_op options classes_for served_pairs handlers.

Lemma dict_map v cm dm : In (v, (cm, dm)) handlers -> is_dict cm.
Proof. intros H. apply map_checked in H as [H _]. unfold is_dict. now apply distinct_NoDup. Qed.
Lemma removed_kind c : In c used_classes -> (is_a "RemovedCommand" c = true <-> marked "RemovedCommand" c).
Proof.
  intros I. pose proof (proj1 (forallb_forall _ _) kinds_checked c I) as K. cbv beta in K. apply andb_prop in K as [K _].
  apply Bool.eqb_prop in K. rewrite K. symmetry. apply marked_spec.
Qed.
Lemma deprecated_kind c : In c used_classes ->
  (is_a "DeprecatedCommand" c && negb (is_a "RemovedCommand" c) = true <-> marked "DeprecatedCommand" c).
Proof.
  intros I. pose proof (proj1 (forallb_forall _ _) kinds_checked c I) as K. cbv beta in K. apply andb_prop in K as [_ K].
  apply Bool.eqb_prop in K. rewrite K. symmetry. apply marked_spec.
Qed.

Lemma served_yes cm n p : served_by cm n p = true <-> exists c, assoc n cm = Some c /\ p c = true.
Proof.
  unfold served_by. destruct (assoc n cm) as [c|].
  - split; [intros H; eauto|]. intros (c' & E & H). injection E as <-. exact H.
  - split; [discriminate|]. intros (c' & E & _). discriminate.
Qed.
Lemma served_no cm n p c : assoc n cm = Some c -> (served_by cm n p = false <-> p c = false).
Proof. unfold served_by. intros ->. tauto. Qed.
Lemma without_In a b x : In x (without a b) <-> In x a /\ ~ In x b.
Proof.
  unfold without. rewrite filter_In, negb_true_iff. split; intros [A B]; (split; [exact A|]).
  - intros H. apply mem_In in H. congruence.
  - destruct (mem x b) eqn:E; [|reflexivity]. apply mem_In in E. contradiction.
Qed.
Lemma both_In cf ct n : In n (both cf ct) <-> In n (map fst cf) /\ In n (map fst ct).
Proof. unfold both. rewrite filter_In, mem_In. tauto. Qed.
Lemma names_class (cm : list (string * string)) n : In n (map fst cm) <-> exists c, In (n, c) cm.
Proof.
  rewrite in_map_iff. split.
  - intros ([m c] & <- & H). exists c. exact H.
  - intros (c & H). exists (n, c). auto.
Qed.

(** ** The lists of commands *)

Section Two.
Variables (vf vt : Z) (cf df ct dt : list (string * string)).
Hypothesis Hf : In (vf, (cf, df)) handlers.
Hypothesis Ht : In (vt, (ct, dt)) handlers.

Theorem C54_removed : forall n,
  In n (df_removed (verdiff cf ct)) <->
  exists c, In (n, c) cf /\ ((forall c', ~ In (n, c') ct) \/ (~ marked "RemovedCommand" c /\ exists c', In (n, c') ct /\ marked "RemovedCommand" c')).
Proof.
  intros n. cbn [df_removed verdiff]. unfold removed_commands. rewrite sort_str_in, in_app_iff, filter_In, both_In, without_In, andb_true_iff, negb_true_iff, !names_class.
  pose proof (In_dict cf (dict_map _ _ _ Hf)) as Df. pose proof (In_dict ct (dict_map _ _ _ Ht)) as Dt. split.
  - intros [((C & C') & T & F)|[[c C] N]].
    + destruct C as [c C], C' as [c' C']. exists c. split; [exact C|]. right. apply (proj1 (served_no cf n (is_a "RemovedCommand") c (Df _ _ C))) in F. split.
      * intros M. apply (removed_kind c (used_class _ _ _ _ _ Hf C)) in M. congruence.
      * exists c'. split; [exact C'|]. apply served_yes in T as (k & E & T). rewrite (Dt _ _ C') in E. injection E as <-.
        exact (proj1 (removed_kind c' (used_class _ _ _ _ _ Ht C')) T).
    + exists c. split; [exact C|]. left. intros c' C'. apply N. eauto.
  - intros (c & C & [N|(M & c' & C' & M')]).
    + right. split; [eauto|]. intros (c' & C'). exact (N _ C').
    + left. split; [eauto|]. split.
      * apply served_yes. exists c'. split; [exact (Dt _ _ C')|]. exact (proj2 (removed_kind c' (used_class _ _ _ _ _ Ht C')) M').
      * apply (proj2 (served_no cf n (is_a "RemovedCommand") c (Df _ _ C))). destruct (is_a "RemovedCommand" c) eqn:E; [|reflexivity]. destruct M. exact (proj1 (removed_kind c (used_class _ _ _ _ _ Hf C)) E).
Qed.

Theorem C54_deprecated : forall n,
  In n (df_deprecated (verdiff cf ct)) <-> exists c c', In (n, c) cf /\ In (n, c') ct /\ marked "DeprecatedCommand" c'.
Proof.
  intros n. cbn [df_deprecated verdiff]. unfold deprecated_commands. rewrite sort_str_in, filter_In, both_In, !names_class.
  pose proof (In_dict ct (dict_map _ _ _ Ht)) as Dt.
  assert (X : forall c', In (n, c') ct -> (served_by ct n (is_a "DeprecatedCommand") && negb (served_by ct n (is_a "RemovedCommand")) = true <-> marked "DeprecatedCommand" c')).
  { intros c' C'. unfold served_by. rewrite (Dt _ _ C'). exact (deprecated_kind c' (used_class _ _ _ _ _ Ht C')). }
  split.
  - intros (([c C] & [c' C']) & K). exists c, c'. split; [exact C|]. split; [exact C'|]. now apply X.
  - intros (c & c' & C & C' & M). split; [eauto|]. now apply (X c').
Qed.

Theorem C54_added : forall n,
  In n (df_added (verdiff cf ct)) <-> (exists c', In (n, c') ct) /\ forall c, ~ In (n, c) cf.
Proof.
  intros n. cbn [df_added verdiff]. unfold added_commands. rewrite sort_str_in, without_In, !names_class. split; intros [A B]; (split; [exact A|]).
  - intros c C. apply B. eauto.
  - intros [c C]. exact (B _ C).
Qed.

(** ** The lines of these commands *)

(** A line of a command that is listed as removed is refused by the new version. *)
Theorem C54_removed_lines : forall rest n h line args ln,
  In n (df_removed (verdiff cf ct)) -> used rest ct dt h -> snd (handle_command h line (n :: args) ln) <> None.
Proof.
  intros rest n h line args ln R U. apply C54_removed in R as (c & C & [N|(_ & c' & C' & M)]).
  - apply (line_unknown rest ct dt h n line args ln U). exact N.
  - destruct (C31_removed (cmd_class rest) vt ct dt n c' h line args ln Ht C' M (used_in_use rest ct dt h U)) as [[t E] _]. rewrite E. discriminate.
Qed.
(** One of a command that is listed as deprecated is accepted by the new version and does nothing. *)
Theorem C54_deprecated_lines : forall rest n h line args ln,
  In n (df_deprecated (verdiff cf ct)) -> used rest ct dt h ->
  snd (handle_command h line (n :: args) ln) = None /\ commands_str (fst (handle_command h line (n :: args) ln)) = commands_str h.
Proof.
  intros rest n h line args ln R U. apply C54_deprecated in R as (c & c' & _ & C' & M).
  destruct (C31_deprecated (cmd_class rest) vt ct dt n c' h line args ln Ht C' M (used_in_use rest ct dt h U)) as [E (X & _)]. auto.
Qed.
(** One of a command that is listed as added is refused by the old version. *)
Theorem C54_added_lines : forall rest n h line args ln,
  In n (df_added (verdiff cf ct)) -> used rest cf df h -> snd (handle_command h line (n :: args) ln) <> None.
Proof.
  intros rest n h line args ln R U. apply C54_added in R as [_ N]. apply (line_unknown rest cf df h n line args ln U). exact N.
Qed.
(** A command that does something in the old version and is in neither of the first two lists does something in the new one. *)
Theorem C54_others : forall n c,
  In (n, c) cf -> live c -> ~ In n (df_removed (verdiff cf ct)) -> ~ In n (df_deprecated (verdiff cf ct)) ->
  exists c', In (n, c') ct /\ live c'.
Proof.
  intros n c C [_ L] R D. destruct (assoc n ct) as [c'|] eqn:E.
  - apply assoc_In in E. exists c'. split; [exact E|]. split; intros M.
    + apply D, C54_deprecated. eauto.
    + apply R, C54_removed. exists c. split; [exact C|]. right. eauto.
  - destruct R. apply C54_removed. exists c. split; [exact C|]. left. intros c' C'. rewrite (In_dict ct (dict_map _ _ _ Ht) _ _ C') in E. discriminate.
Qed.

(** ** The options *)

Lemma keep_some_In {A} (l : list (option A)) x : In x (keep_some l) <-> In (Some x) l.
Proof.
  induction l as [|[y|] l IH]; cbn [keep_some In]; [tauto| |].
  - rewrite IH. split; intros [H|H]; auto; [left; now subst|left; congruence].
  - rewrite IH. split; [auto|]. intros [H|H]; [discriminate|exact H].
Qed.
Lemma listed_changes d : In d (df_options (verdiff cf ct)) ->
  exists c c', In (ch_command d, c) cf /\ In (ch_command d, c') ct /\ changes_of cf ct (ch_command d) = Some d /\
    has_op cf (ch_command d) c = true /\ has_op ct (ch_command d) c' = true.
Proof.
  cbn [df_options verdiff]. rewrite keep_some_In, in_map_iff. intros (n & E & _).
  pose proof E as E0. unfold changes_of in E. destruct (assoc n cf) as [c|] eqn:Ec; [|discriminate]. destruct (assoc n ct) as [c'|] eqn:Ec'; [|discriminate].
  destruct (has_op cf n c && has_op ct n c') eqn:Op; [|discriminate]. apply andb_prop in Op as [O1 O2].
  injection E as <-. cbn [ch_command]. apply assoc_In in Ec, Ec'. exists c, c'. auto.
Qed.
Lemma changes_lists d c c' : In (ch_command d, c) cf -> In (ch_command d, c') ct -> changes_of cf ct (ch_command d) = Some d ->
  (forall o, In o (ch_removed d) <-> In o (map first_string (options cf (ch_command d) c)) /\ ~ In o (map first_string (options ct (ch_command d) c'))) /\
  (forall o, In o (ch_added d) <-> In o (map first_string (options ct (ch_command d) c')) /\ ~ In o (map first_string (options cf (ch_command d) c))).
Proof.
  remember (ch_command d) as n eqn:En. intros C C' E. unfold changes_of in E.
  rewrite (In_dict cf (dict_map _ _ _ Hf) _ _ C), (In_dict ct (dict_map _ _ _ Ht) _ _ C') in E.
  destruct (has_op cf n c && has_op ct n c'); [|discriminate]. injection E as E. clear En. subst d. cbn [ch_removed ch_added].
  split; intros o; rewrite sort_str_in, without_In; unfold getOptSet; rewrite !nodup_In; reflexivity.
Qed.
End Two.
Lemma fair_option v cm dm v' cm' dm' n c c' o : In (v, (cm, dm)) handlers -> In (v', (cm', dm')) handlers -> In (n, c) cm -> In (n, c') cm' ->
  In o (firsts c) -> ~ In o (firsts c') -> o <> "" ->
  startswith o "--" = true /\ o <> "--" /\ has_char "=" o = false /\ has_char SP o = false /\ forall o', In o' (option_names c') -> startswith o' o = false.
Proof.
  intros Hv Hv' C C' O N Z0. pose proof (proj1 (forallb_forall _ _) fair_checked n (name_for _ _ _ _ _ Hv C)) as K.
  unfold options_fair in K. cbv zeta in K.
  pose proof (proj1 (forallb_forall _ _) K (firsts c', option_names c')) as K1. cbv beta in K1. clear K.
  assert (I' : In (firsts c', option_names c') (map (fun c => (firsts c, option_names c)) (classes_for n))).
  { apply in_map_iff. exists c'. split; [reflexivity|]. exact (class_for _ _ _ _ _ Hv' C'). }
  specialize (K1 I'). pose proof (proj1 (forallb_forall _ _) K1 o) as K2. clear K1.
  assert (I : In o (MiniPy.distinct (flat_map fst (map (fun c => (firsts c, option_names c)) (classes_for n))))).
  { apply PropsInit.distinct_has, in_flat_map. exists (firsts c, option_names c). split; [|exact O].
    apply in_map_iff. exists c. split; [reflexivity|]. exact (class_for _ _ _ _ _ Hv C). }
  specialize (K2 I). unfold fair in K2. destruct (String.eqb_spec o "") as [|_]; [contradiction|].
  destruct (startswith o "--") eqn:S1; [|discriminate K2]. cbn [negb] in K2. destruct (String.eqb_spec o "--") as [|Nd]; [discriminate K2|].
  destruct (has_char "=" o) eqn:He; [discriminate K2|]. destruct (has_char SP o) eqn:Hs; [discriminate K2|]. cbn [fst snd] in K2.
  destruct (mem o (firsts c')) eqn:M; [apply mem_In in M; contradiction|].
  repeat split; auto. intros o' I0. pose proof (proj1 (forallb_forall _ _) K2 o' I0) as X. cbv beta in X. now apply negb_true_iff in X.
Qed.
Lemma name_part_alone o : has_char "=" o = false -> name_part o = o.
Proof. intros H. unfold name_part. now rewrite partition_char_none. Qed.
Lemma name_part_value o x : has_char "=" o = false -> name_part (o ++ "=" ++ x) = o.
Proof. intros H. unfold name_part. change ("=" ++ x)%string with (String "=" x). now rewrite (partition_char_app "=" o x H). Qed.
Local Transparent options.
Lemma options_own cm n c : n <> "method" -> map first_string (options cm n c) = firsts c.
Proof. intros N. unfold options, op_class. apply String.eqb_neq in N. now rewrite N. Qed.
Lemma word_refused rest v cm dm v' cm' dm' n c c' o w h line l r ln :
  In (v, (cm, dm)) handlers -> In (v', (cm', dm')) handlers -> In (n, c) cm -> In (n, c') cm' ->
  In o (firsts c) -> ~ In o (firsts c') -> o <> "" ->
  live c' -> ~ lenient v' n -> used rest cm' dm' h ->
  w = o \/ (exists x, w = (o ++ "=" ++ x)%string /\ has_char SP x = false) -> ~ In "--" l ->
  snd (handle_command h line (n :: l ++ w :: r) ln) <> None.
Proof.
  intros Hv Hv' C C' O N Z0 L Q U W D. destruct (fair_option _ _ _ _ _ _ _ _ _ _ Hv Hv' C C' O N Z0) as (S1 & Nd & He & Hs & F).
  assert (P : name_part w = o) by (destruct W as [->|(x & -> & _)]; [now apply name_part_alone|now apply name_part_value]).
  apply (C03_command_unknown rest v' cm' dm' n c' h line l w r ln Hv' C' L Q U D).
  - destruct W as [->|(x & -> & _)]; [exact S1|]. apply startswith_spec in S1 as (t & ->). apply startswith_spec. exists (t ++ "=" ++ x)%string. apply app_assoc_s.
  - intros ->. apply Nd. rewrite <- P. reflexivity.
  - destruct W as [->|(x & -> & Hx)]; [exact Hs|]. rewrite has_char_app, Hs. cbn [has_char orb]. cbn. exact Hx.
  - intros o' I. unfold spells. rewrite P. now apply F.
Qed.

(** A line with an option that is listed as removed from the command, alone or with a value, is refused by the new version;
    one with an option that is listed as added is refused by the old one. The commands of [lenient] are left aside: they do not look at words
    they do not know. *)
Theorem C54_option_removed_lines : forall vf cf df vt ct dt rest d c' o w h line l r ln,
  In (vf, (cf, df)) handlers -> In (vt, (ct, dt)) handlers ->
  In d (df_options (verdiff cf ct)) -> In o (ch_removed d) -> o <> "" ->
  In (ch_command d, c') ct -> live c' -> ~ lenient vt (ch_command d) -> used rest ct dt h ->
  w = o \/ (exists x, w = (o ++ "=" ++ x)%string /\ has_char SP x = false) -> ~ In "--" l ->
  snd (handle_command h line (ch_command d :: l ++ w :: r) ln) <> None.
Proof.
  intros vf cf df vt ct dt rest d c' o w h line l r ln Hf Ht Hd Ho Z0 C' L Q U W D.
  destruct (listed_changes cf ct d Hd) as (c & c2 & C & C2 & E & _).
  assert (c2 = c') as -> by (pose proof (In_dict ct (dict_map _ _ _ Ht) _ _ C') as E1; rewrite (In_dict ct (dict_map _ _ _ Ht) _ _ C2) in E1; now injection E1).
  destruct (changes_lists vf vt cf df ct dt Hf Ht d c c' C C' E) as [R _]. destruct (proj1 (R o) Ho) as [O N].
  assert (Nm : ch_command d <> "method") by (intros X; apply Q; left; rewrite X; do 6 right; left; reflexivity).
  rewrite (options_own _ _ _ Nm) in O. rewrite (options_own _ _ _ Nm) in N.
  exact (word_refused rest vf cf df vt ct dt (ch_command d) c c' o w h line l r ln Hf Ht C C' O N Z0 L Q U W D).
Qed.
Theorem C54_option_added_lines : forall vf cf df vt ct dt rest d c o w h line l r ln,
  In (vf, (cf, df)) handlers -> In (vt, (ct, dt)) handlers ->
  In d (df_options (verdiff cf ct)) -> In o (ch_added d) -> o <> "" ->
  In (ch_command d, c) cf -> live c -> ~ lenient vf (ch_command d) -> used rest cf df h ->
  w = o \/ (exists x, w = (o ++ "=" ++ x)%string /\ has_char SP x = false) -> ~ In "--" l ->
  snd (handle_command h line (ch_command d :: l ++ w :: r) ln) <> None.
Proof.
  intros vf cf df vt ct dt rest d c o w h line l r ln Hf Ht Hd Ho Z0 C L Q U W D.
  destruct (listed_changes cf ct d Hd) as (c1 & c' & C1 & C' & E & _).
  assert (c1 = c) as -> by (pose proof (In_dict cf (dict_map _ _ _ Hf) _ _ C) as E1; rewrite (In_dict cf (dict_map _ _ _ Hf) _ _ C1) in E1; now injection E1).
  destruct (changes_lists vf vt cf df ct dt Hf Ht d c c' C C' E) as [_ R]. destruct (proj1 (R o) Ho) as [O N].
  assert (Nm : ch_command d <> "method") by (intros X; apply Q; left; rewrite X; do 6 right; left; reflexivity).
  rewrite (options_own _ _ _ Nm) in O. rewrite (options_own _ _ _ Nm) in N.
  exact (word_refused rest vt ct dt vf cf df (ch_command d) c' c o w h line l r ln Ht Hf C' C O N Z0 L Q U W D).
Qed.

(** ** Order and repetitions *)

Lemma keys_nodup v cm dm : In (v, (cm, dm)) handlers -> NoDup (map fst cm).
Proof. exact (dict_map v cm dm). Qed.
Lemma sort_nodup_keep l : NoDup l -> NoDup (sort_str l).
Proof. intros H. eapply Permutation.Permutation_NoDup; [apply sort_str_perm|exact H]. Qed.
Lemma NoDup_app_intro (l m : list string) : NoDup l -> NoDup m -> (forall x, In x l -> In x m -> False) -> NoDup (l ++ m).
Proof.
  induction l as [|a l IH]; intros A B D; [exact B|]. inversion A as [|? ? Na Nl]; subst. cbn [app]. constructor.
  - rewrite in_app_iff. intros [H|H]; [contradiction|]. exact (D a (or_introl eq_refl) H).
  - apply IH; [exact Nl|exact B|]. intros x Hx. apply D. right. exact Hx.
Qed.
Lemma filter_nodup (f : string -> bool) l : NoDup l -> NoDup (filter f l).
Proof. apply NoDup_filter. Qed.
(** The words of every list stand in order, none twice. *)
Definition in_order (l : list string) : Prop := StronglySorted leS l /\ NoDup l.
Theorem C54_in_order : forall vf cf df vt ct dt, In (vf, (cf, df)) handlers -> In (vt, (ct, dt)) handlers ->
  in_order (df_removed (verdiff cf ct)) /\ in_order (df_deprecated (verdiff cf ct)) /\ in_order (df_added (verdiff cf ct)) /\
  forall d, In d (df_options (verdiff cf ct)) -> in_order (ch_added d) /\ in_order (ch_deprecated d) /\ in_order (ch_removed d).
Proof.
  intros vf cf df vt ct dt Hf Ht. pose proof (keys_nodup _ _ _ Hf) as Nf. pose proof (keys_nodup _ _ _ Ht) as Nt.
  assert (Nb : NoDup (both cf ct)) by (apply filter_nodup; exact Nf).
  split; [|split; [|split]].
  - split; [apply sort_str_sorted|]. apply sort_nodup_keep. apply NoDup_app_intro.
    + apply filter_nodup, Nb.
    + apply filter_nodup, Nf.
    + intros x A B. apply filter_In in A as [A _]. apply both_In in A as [_ A]. apply without_In in B as [_ B]. contradiction.
  - split; [apply sort_str_sorted|]. apply sort_nodup_keep, filter_nodup, Nb.
  - split; [apply sort_str_sorted|]. apply sort_nodup_keep, filter_nodup, Nt.
  - intros d Hd. destruct (listed_changes cf ct d Hd) as (c & c' & _ & _ & E & _). remember (ch_command d) as n eqn:En. unfold changes_of in E.
    destruct (assoc n cf) as [k|]; [|discriminate]. destruct (assoc n ct) as [k'|]; [|discriminate].
    destruct (has_op cf n k && has_op ct n k'); [|discriminate]. injection E as E. clear En. subst d. cbn [ch_added ch_deprecated ch_removed].
    split; [|split]; (split; [apply sort_str_sorted|]); apply sort_nodup_keep; unfold getOptSet, without; try apply filter_nodup; apply NoDup_nodup.
Qed.

(** ** What is printed *)

(** A version is compared with itself: nothing was removed or added. *)
Theorem C54_same : forall v cm dm, In (v, (cm, dm)) handlers ->
  df_removed (verdiff cm cm) = [] /\ df_added (verdiff cm cm) = [] /\
  forall d, In d (df_options (verdiff cm cm)) -> ch_added d = [] /\ ch_removed d = [].
Proof.
  intros v cm dm H. split; [|split].
  - destruct (df_removed (verdiff cm cm)) as [|n l] eqn:E; [reflexivity|]. exfalso.
    assert (I : In n (df_removed (verdiff cm cm))) by (rewrite E; left; reflexivity).
    apply (C54_removed v v cm dm cm dm H H) in I as (c & C & [N|(M & c' & C' & M')]); [exact (N _ C)|].
    pose proof (In_dict cm (dict_map _ _ _ H) _ _ C) as E1. rewrite (In_dict cm (dict_map _ _ _ H) _ _ C') in E1. injection E1 as ->. contradiction.
  - destruct (df_added (verdiff cm cm)) as [|n l] eqn:E; [reflexivity|]. exfalso.
    assert (I : In n (df_added (verdiff cm cm))) by (rewrite E; left; reflexivity).
    apply C54_added in I as [[c C] N]. exact (N _ C).
  - intros d Hd. destruct (listed_changes cm cm d Hd) as (c & c' & C & C' & E & _).
    pose proof (In_dict cm (dict_map _ _ _ H) _ _ C) as E1. rewrite (In_dict cm (dict_map _ _ _ H) _ _ C') in E1. injection E1 as ->.
    destruct (changes_lists v v cm dm cm dm H H d c c C C E) as [R A].
    split.
    + destruct (ch_added d) as [|x l]; [reflexivity|]. destruct (proj1 (A x) (or_introl eq_refl)). contradiction.
    + destruct (ch_removed d) as [|x l]; [reflexivity|]. destruct (proj1 (R x) (or_introl eq_refl)). contradiction.
Qed.

Lemma changes_listed cf ct n d : In n (map fst cf) -> In n (map fst ct) -> changes_of cf ct n = Some d -> In d (df_options (verdiff cf ct)).
Proof.
  intros A B E. cbn [df_options verdiff]. apply keep_some_In, in_map_iff. exists n. split; [exact E|]. apply sort_str_in, both_In. auto.
Qed.
Lemma handlers_distinct : NoDup (map fst handlers).
Proof.
  assert (K : (fix go (l : list Z) : bool := match l with [] => true | x :: r => negb (existsb (Z.eqb x) r) && go r end) (map fst handlers) = true) by (vm_compute; reflexivity).
  revert K. generalize (map fst handlers). clear. induction l as [|x l IH]; intros K; [constructor|]. apply andb_prop in K as [K1 K2].
  constructor; [|exact (IH K2)]. intros I. apply negb_true_iff in K1. assert (X : existsb (Z.eqb x) l = true) by (apply existsb_exists; exists x; split; [exact I|apply Z.eqb_refl]). congruence.
Qed.
Lemma the_handler_of v cm dm : In (v, (cm, dm)) handlers -> the_handler v = Some cm.
Proof.
  unfold the_handler. pose proof handlers_distinct as D. revert D. generalize handlers. clear. induction l as [|[u [c d]] l IH]; [intros _ []|intros D [E|I]].
  - injection E as -> -> ->. cbn [find fst]. rewrite Z.eqb_refl. reflexivity.
  - cbn [map fst] in D. inversion D as [|? ? Nu Dl]; subst. cbn [find fst]. destruct (Z.eqb_spec u v) as [->|Ne].
    + destruct Nu. exact (in_map fst _ _ I).
    + exact (IH Dl I).
Qed.
(** Two names of versions: what is printed is the difference of the command maps of those versions, and the exit status is 0. *)
Theorem C54_printed : forall f t a b, makeVersion (VerStr f) = Ok a -> makeVersion (VerStr t) = Ok b ->
  exists cf df ct dt, In (a, (cf, df)) handlers /\ In (b, (ct, dt)) handlers /\
    ksverdiff (Some f) (Some t) false = Ok (Compared (printed t (verdiff cf ct)), 0%Z).
Proof.
  intros f t a b A B. destruct (PropsTools.C50_has_commands _ _ A) as (cf & df & Hf). destruct (PropsTools.C50_has_commands _ _ B) as (ct & dt & Ht).
  exists cf, df, ct, dt. split; [exact Hf|]. split; [exact Ht|]. unfold ksverdiff, bind. rewrite A, B, (the_handler_of _ _ _ Hf), (the_handler_of _ _ _ Ht).
  destruct (String.eqb_spec f "") as [->|_]; [discriminate A|]. destruct (String.eqb_spec t "") as [->|_]; [discriminate B|]. reflexivity.
Qed.
(** A name that is missing or that is none of a version: the exit status is 1, and no exception leaves the tool. *)
Theorem C54_refused : forall f t, (forall a b x y, f = Some x -> t = Some y -> makeVersion (VerStr x) = Ok a -> makeVersion (VerStr y) = Ok b -> False) ->
  exists m, ksverdiff f t false = Ok (m, 1%Z).
Proof.
  intros [f|] [t|] N; try (eexists; reflexivity). unfold ksverdiff, bind. destruct (String.eqb f "" || String.eqb t ""); [eexists; reflexivity|].
  destruct (makeVersion (VerStr f)) as [a|e] eqn:A.
  - destruct (makeVersion (VerStr t)) as [b|e] eqn:B; [destruct (N a b f t eq_refl eq_refl A B)|].
    destruct (PropsTools.C50_refused _ _ B) as (x & ->). eexists; reflexivity.
  - destruct (PropsTools.C50_refused _ _ A) as (x & ->). eexists; reflexivity.
Qed.

Print Assumptions C54_removed.
Print Assumptions C54_deprecated.
Print Assumptions C54_added.
Print Assumptions C54_removed_lines.
Print Assumptions C54_deprecated_lines.
Print Assumptions C54_added_lines.
Print Assumptions C54_others.
Print Assumptions C54_option_removed_lines.
Print Assumptions C54_option_added_lines.
Print Assumptions C54_in_order.
Print Assumptions C54_same.
Print Assumptions C54_printed.
Print Assumptions C54_refused.

(** ** Examples *)

Local Transparent comes_from method_of table_of removed_of data_str new_attrs init_of marked_b used_classes is_a no_op classes_for served_pairs handlers.
Lemma rhel7_in : In (RHEL7, (RHEL7_commands, RHEL7_data)) handlers.
Proof. unfold handlers. repeat (first [left; reflexivity|right]). Qed.
Lemma rhel8_in : In (RHEL8, (RHEL8_commands, RHEL8_data)) handlers.
Proof. unfold handlers. repeat (first [left; reflexivity|right]). Qed.
Lemma f28_in : In (F28, (F28_commands, F28_data)) handlers.
Proof. unfold handlers. repeat (first [left; reflexivity|right]). Qed.
Lemma f34_in : In (F34, (F34_commands, F34_data)) handlers.
Proof. unfold handlers. repeat (first [left; reflexivity|right]). Qed.
Lemma fc6_in : In (FC6, (FC6_commands, FC6_data)) handlers.
Proof. unfold handlers. repeat (first [left; reflexivity|right]). Qed.
Lemma f9_in : In (F9, (F9_commands, F9_data)) handlers.
Proof. unfold handlers. repeat (first [left; reflexivity|right]). Qed.
Lemma entry cm n c : assoc n cm = Some c -> In (n, c) (cm : list (string * string)).
Proof. apply assoc_In. Qed.

Local Opaque verdiff.
Example C54_commands_example :
  In "upgrade" (df_removed (verdiff RHEL7_commands RHEL8_commands)) /\ In "btrfs" (df_deprecated (verdiff RHEL7_commands RHEL8_commands)) /\
  In "mount" (df_added (verdiff RHEL7_commands RHEL8_commands)).
Proof.
  split; [|split].
  - apply (proj2 (C54_removed _ _ _ _ _ _ rhel7_in rhel8_in "upgrade")). exists "F20_Upgrade". split; [apply entry; vm_compute; reflexivity|]. left.
    intros c I. apply (in_map fst) in I. apply mem_In in I. vm_compute in I. discriminate.
  - apply (proj2 (C54_deprecated RHEL8 RHEL7_commands _ _ rhel8_in "btrfs")). exists "RHEL7_BTRFS", "RHEL8_BTRFS".
    repeat split; try (apply entry; vm_compute; reflexivity). apply marked_spec. vm_compute. reflexivity.
  - apply (proj2 (C54_added RHEL7_commands RHEL8_commands "mount")). split; [exists "F27_Mount"; apply entry; vm_compute; reflexivity|]. intros c I. apply (in_map fst) in I. apply mem_In in I. vm_compute in I. discriminate.
Qed.
(** An option of [C54_option_added_lines]: text --non-interactive, from RHEL7 to RHEL8. *)
Definition text_changes : changes := mkChanges "text" ["--non-interactive"] [] [].
Lemma text_changes_of : changes_of RHEL7_commands RHEL8_commands "text" = Some text_changes.
Proof. vm_compute. reflexivity. Qed.
Example C54_option_example : forall rest h line ln, used rest RHEL7_commands RHEL7_data h ->
  snd (handle_command h line ["text"; "--non-interactive"] ln) <> None.
Proof.
  intros rest h line ln U.
  refine (C54_option_added_lines RHEL7 RHEL7_commands RHEL7_data RHEL8 RHEL8_commands RHEL8_data rest text_changes "FC3_DisplayMode" "--non-interactive" "--non-interactive" h line [] [] ln
            rhel7_in rhel8_in (changes_listed _ _ "text" _ _ _ text_changes_of) (or_introl eq_refl) _ _ _ _ U (or_introl eq_refl) _).
  - apply mem_In. vm_compute. reflexivity.
  - apply mem_In. vm_compute. reflexivity.
  - discriminate.
  - apply entry. vm_compute. reflexivity.
  - split; rewrite marked_spec; vm_compute; discriminate.
  - intros [L|[[L _]|[L _]]]; [apply mem_In in L; vm_compute in L; discriminate|apply mem_In in L; vm_compute in L; discriminate|discriminate].
  - intros [].
Qed.

(** ** What it does not say *)

(** Options of a command that had none in the old version are not listed as added: autopart --encrypted is an option of F9 and not of FC6. *)
Theorem C54_new_options_refuted : exists vf cf df vt ct dt n c c' o,
  In (vf, (cf, df)) handlers /\ In (vt, (ct, dt)) handlers /\ In (n, c) cf /\ In (n, c') ct /\ live c /\ live c' /\
  In o (firsts c') /\ ~ In o (firsts c) /\ ~ exists d, In d (df_options (verdiff cf ct)) /\ ch_command d = n.
Proof.
  exists FC6, FC6_commands, FC6_data, F9, F9_commands, F9_data, "autopart", "FC3_AutoPart", "F9_AutoPart", "--encrypted".
  split; [exact fc6_in|]. split; [exact f9_in|]. split; [apply entry; vm_compute; reflexivity|]. split; [apply entry; vm_compute; reflexivity|].
  split; [split; rewrite marked_spec; vm_compute; discriminate|]. split; [split; rewrite marked_spec; vm_compute; discriminate|].
  split; [apply mem_In; vm_compute; reflexivity|]. split; [intros I; apply mem_In in I; vm_compute in I; discriminate|].
  intros (d & Hd & En). destruct (listed_changes _ _ d Hd) as (c & c' & C & _ & _ & O & _). rewrite En in C, O.
  assert (E : assoc "autopart" FC6_commands = Some c) by exact (In_dict _ (dict_map _ _ _ fc6_in) _ _ C).
  vm_compute in E. injection E as <-. vm_compute in O. discriminate.
Qed.
Print Assumptions C54_new_options_refuted.
(** A command that the old version refuses and the new one takes is not listed as added when the old one knows its name:
    install, from F34 to F28. *)
Theorem C54_back_refuted : exists vf cf df vt ct dt n c c',
  In (vf, (cf, df)) handlers /\ In (vt, (ct, dt)) handlers /\ In (n, c) cf /\ In (n, c') ct /\ marked "RemovedCommand" c /\ live c' /\
  ~ In n (df_added (verdiff cf ct)).
Proof.
  exists F34, F34_commands, F34_data, F28, F28_commands, F28_data, "install", "F34_Install", "F20_Install".
  split; [exact f34_in|]. split; [exact f28_in|].
  assert (I : In ("install", "F34_Install") F34_commands) by (apply entry; vm_compute; reflexivity).
  split; [exact I|]. split; [apply entry; vm_compute; reflexivity|]. split; [apply marked_spec; vm_compute; reflexivity|].
  split; [split; rewrite marked_spec; vm_compute; discriminate|]. intros A. apply C54_added in A as [_ A]. exact (A _ I).
Qed.
Print Assumptions C54_back_refuted.
(** A command is listed as deprecated in a version though it was so before: btrfs, from RHEL8 to itself. *)
Theorem C54_already_refuted : exists v cm dm n,
  In (v, (cm, dm)) handlers /\ In n (df_deprecated (verdiff cm cm)).
Proof.
  exists RHEL8, RHEL8_commands, RHEL8_data, "btrfs". split; [exact rhel8_in|].
  apply (proj2 (C54_deprecated RHEL8 RHEL8_commands _ _ rhel8_in "btrfs")). exists "RHEL8_BTRFS", "RHEL8_BTRFS".
  repeat split; try (apply entry; vm_compute; reflexivity). apply marked_spec. vm_compute. reflexivity.
Qed.
Print Assumptions C54_already_refuted.
