(** * Proofs about package selections *)

From Coq Require Import Sorted Permutation.
From Verif Require Import PyStrFacts ArgSpec ArgParseFacts ArgLineFacts ArgErrFacts Packages PkgSpec.
From Verif Require Import Value.
Local Open Scope string_scope.
Local Open Scope list_scope.
Local Arguments Ascii.eqb : simpl never.

(** ** Sorting *)

Lemma insert_str_perm x l : Permutation (x :: l) (insert_str x l).
Proof.
  induction l as [|y l IH]; simpl; [reflexivity|]. destruct (str_leb x y); [reflexivity|].
  rewrite perm_swap. constructor. exact IH.
Qed.
Lemma sort_str_perm l : Permutation l (sort_str l).
Proof.
  induction l as [|x l IH]; simpl; [reflexivity|]. rewrite <- insert_str_perm. constructor. exact IH.
Qed.
Lemma sort_str_in x l : In x (sort_str l) <-> In x l.
Proof. split; apply Permutation_in; [symmetry|]; apply sort_str_perm. Qed.

Definition leS (a b : string) : Prop := str_leb a b = true.
Definition ltS (a b : string) : Prop := str_ltb a b = true.

Lemma insert_str_sorted x l : StronglySorted leS l -> StronglySorted leS (insert_str x l).
Proof.
  induction l as [|y l IH]; simpl; intros H.
  - constructor; constructor.
  - inversion H as [|? ? Hs Hf]; subst. destruct (str_leb x y) eqn:E.
    + constructor; [exact H|]. constructor; [exact E|].
      rewrite Forall_forall in *. intros z Hz. eapply str_leb_trans; [exact E|]. now apply Hf.
    + constructor; [now apply IH|]. rewrite Forall_forall in *. intros z Hz.
      apply (Permutation_in _ (Permutation_sym (insert_str_perm x l))) in Hz. destruct Hz as [<-|Hz].
      * destruct (str_leb_total x y) as [E'|E']; [congruence|exact E'].
      * now apply Hf.
Qed.
Lemma sort_str_sorted l : StronglySorted leS (sort_str l).
Proof. induction l; simpl; [constructor|]. now apply insert_str_sorted. Qed.

Lemma sorted_strict l : NoDup l -> StronglySorted leS l -> StronglySorted ltS l.
Proof.
  induction l as [|x l IH]; intros Hn Hs; [constructor|].
  inversion Hn; inversion Hs; subst. constructor; [now apply IH|].
  rewrite Forall_forall in *. intros y Hy. apply str_leb_ltb; [now apply H6|]. intros ->. contradiction.
Qed.

Lemma sorted_set_strict l : strictly_sorted (sorted_set l).
Proof.
  apply sorted_strict; [|apply sort_str_sorted]. eapply Permutation_NoDup; [apply sort_str_perm|]. apply NoDup_nodup.
Qed.
Lemma sorted_set_in x l : In x (sorted_set l) <-> In x l.
Proof. unfold sorted_set. rewrite sort_str_in. apply nodup_In. Qed.

Lemma set_minus_in x l m : In x (set_minus l m) <-> In x l /\ ~ In x m.
Proof.
  unfold set_minus. rewrite filter_In. split; intros [H1 H2]; split; auto.
  - apply negb_true_iff in H2. now apply mem_false in H2.
  - apply negb_true_iff. now apply mem_false.
Qed.

(** ** C21 *)

Definition pk_inv (p : packages) : Prop :=
  strictly_sorted (pk_packageList p) /\ strictly_sorted (pk_excludedList p) /\
  NoDup (map g_name (pk_groupList p)).

Lemma process_group_inv line p p' : process_group line p = Ok p' ->
  pk_packageList p' = pk_packageList p /\ pk_excludedList p' = pk_excludedList p /\
  (NoDup (map g_name (pk_groupList p)) -> NoDup (map g_name (pk_groupList p'))).
Proof.
  unfold process_group. intros H. apply bind_ok in H as ([ns extra] & _ & H).
  destruct (_ && _); [discriminate|].
  destruct (existsb _ (pk_groupList p)) eqn:E; injection H as <-; [auto|]. simpl.
  split; [reflexivity|]. split; [reflexivity|]. intros Hn. rewrite map_app. simpl.
  apply NoDup_app_remove_l with (l := []) in Hn || idtac.
  apply (Permutation_NoDup (Permutation_cons_append _ _)). constructor; [|exact Hn].
  intros Hin. apply in_map_iff in Hin as (g & Hg & Hin).
  assert (existsb (fun g => String.eqb (join " " extra) (g_name g)) (pk_groupList p) = true); [|congruence].
  apply existsb_exists. exists g. split; [exact Hin|]. rewrite Hg. apply String.eqb_refl.
Qed.

Lemma add_line_inv l a a' : add_line l a = Ok a' ->
  pk_packageList (ac_pk a') = pk_packageList (ac_pk a) /\
  pk_excludedList (ac_pk a') = pk_excludedList (ac_pk a) /\
  (NoDup (map g_name (pk_groupList (ac_pk a))) -> NoDup (map g_name (pk_groupList (ac_pk a')))).
Proof.
  unfold add_line. destruct (startswith (strip l) "@^").
  { intros H. injection H as <-. auto. }
  destruct (strip l) as [|c r]; [discriminate|].
  destruct (Ascii.eqb c "@").
  { intros H. apply bind_ok in H as (p' & H & E). injection E as <-. simpl. eapply process_group_inv; eauto. }
  destruct (Ascii.eqb c "-").
  - destruct (_ && _); [intros H; injection H as <-; auto|].
    destruct r as [|d r]; [discriminate|]. destruct (Ascii.eqb d "@"); intros H; injection H as <-; auto.
  - intros H. injection H as <-. auto.
Qed.

Lemma add_lines_inv ls : forall a,
  pk_packageList (ac_pk (fst (add_lines ls a))) = pk_packageList (ac_pk a) /\
  pk_excludedList (ac_pk (fst (add_lines ls a))) = pk_excludedList (ac_pk a) /\
  (NoDup (map g_name (pk_groupList (ac_pk a))) -> NoDup (map g_name (pk_groupList (ac_pk (fst (add_lines ls a)))))).
Proof.
  induction ls as [|l ls IH]; intros a; simpl; [auto|].
  destruct (add_line l a) as [a'|] eqn:E; [|simpl; auto].
  apply add_line_inv in E as (E1 & E2 & E3). destruct (IH a') as (I1 & I2 & I3).
  rewrite I1, I2, E1, E2. auto.
Qed.

Lemma NoDup_map_filter {A B} (f : A -> B) q l : NoDup (map f l) -> NoDup (map f (filter q l)).
Proof.
  induction l as [|x l IH]; simpl; intros H; [constructor|]. inversion H; subst.
  destruct (q x); [|auto]. simpl. constructor; [|auto]. intros Hin. apply H2.
  apply in_map_iff in Hin as (y & Hy & Hin). apply filter_In in Hin as [Hin _]. apply in_map_iff. eauto.
Qed.

Lemma packages_add_inv ls p : pk_inv p -> pk_inv (fst (packages_add ls p)).
Proof.
  intros (H1 & H2 & H3). unfold packages_add. pose proof (add_lines_inv ls (mkAcc p [] [] [])) as I.
  destruct (add_lines ls (mkAcc p [] [] [])) as [a [e|]]; simpl in *.
  - destruct I as (I1 & I2 & I3). unfold pk_inv. rewrite I1, I2. auto.
  - destruct I as (I1 & I2 & I3). split; [apply sorted_set_strict|]. split; [apply sorted_set_strict|].
    simpl. apply NoDup_map_filter. auto.
Qed.

Lemma add_calls_inv calls : forall p, pk_inv p -> pk_inv (fold_left (fun p ls => fst (packages_add ls p)) calls p).
Proof. induction calls as [|ls calls IH]; simpl; intros p H; [exact H|]. apply IH, packages_add_inv, H. Qed.

Lemma new_packages_inv : pk_inv new_packages.
Proof. repeat constructor. Qed.

(** ** C22 *)

(** One line, one call: what it does to the two package lists. *)
Lemma add_one_lists l p x :
  (In x (pk_packageList (fst (packages_add [l] p))) <->
     match mention l with
     | Some (b, y) => if String.eqb x y then b = true else In x (pk_packageList p)
     | None => In x (pk_packageList p)
     end) /\
  (In x (pk_excludedList (fst (packages_add [l] p))) <->
     match mention l with
     | Some (b, y) => if String.eqb x y then b = false else In x (pk_excludedList p) /\ ~ In x (pk_packageList p)
     | None => In x (pk_excludedList p) /\ (snd (packages_add [l] p) = None -> ~ In x (pk_packageList p))
     end).
Proof.
  unfold packages_add, add_lines, add_line, mention.
  assert (Same : forall a, pk_packageList (ac_pk a) = pk_packageList p -> ac_newEx a = [] -> ac_newPk a = [] ->
     (In x (sorted_set (set_minus (pk_packageList p) (ac_newEx a) ++ ac_newPk a)) <-> In x (pk_packageList p)) /\
     (In x (sorted_set (set_minus (pk_excludedList p) (set_minus (pk_packageList p) (ac_newEx a) ++ ac_newPk a) ++ ac_newEx a))
       <-> In x (pk_excludedList p) /\ ~ In x (pk_packageList p))).
  { intros a _ -> ->. rewrite !app_nil_r. rewrite !sorted_set_in, !set_minus_in. simpl. intuition. }
  destruct (startswith (strip l) "@^") eqn:E0.
  { destruct (strip l) as [|c r]; [discriminate|]. simpl in E0. apply andb_prop in E0 as [E0 _].
    apply eqb_true_a in E0. subst c. cbn [fst snd pk_packageList pk_excludedList set_lists ac_newEx ac_newPk set_environment ac_pk].
    change (Ascii.eqb "@" "@") with true. cbn iota. rewrite !app_nil_r, !sorted_set_in, !set_minus_in. simpl. intuition. }
  destruct (strip l) as [|c r].
  { simpl. intuition. discriminate. }
  destruct (Ascii.eqb c "@") eqn:Ec.
  { destruct (process_group r p) as [p'|] eqn:Ep; cbn [bind ac_pk].
    - rewrite Ep. cbn [bind fst snd pk_packageList pk_excludedList set_lists ac_newEx ac_newPk ac_pk].
      rewrite !app_nil_r, !sorted_set_in, !set_minus_in. simpl. intuition.
    - rewrite Ep. simpl. intuition. discriminate. }
  destruct (Ascii.eqb c "-") eqn:Ed.
  - destruct r as [|d r].
    { destruct (pk_environment p); simpl; intuition; discriminate. }
    destruct (_ && _) eqn:Een.
    + apply andb_prop in Een as [Een _]. simpl in Een. apply andb_prop in Een as [Een _].
      apply eqb_true_a in Een. subst d. change (Ascii.eqb "@" "@") with true. cbn iota.
      cbn [fst snd pk_packageList pk_excludedList set_lists ac_newEx ac_newPk set_environment ac_pk].
      rewrite !app_nil_r, !sorted_set_in, !set_minus_in. simpl. intuition.
    + destruct (Ascii.eqb d "@") eqn:Eat.
      * cbn [fst snd pk_packageList pk_excludedList set_lists ac_newEx ac_newPk ac_pk].
        rewrite !app_nil_r, !sorted_set_in, !set_minus_in. simpl. intuition.
      * cbn [fst snd pk_packageList pk_excludedList set_lists ac_newEx ac_newPk ac_pk app].
        rewrite !app_nil_r, !sorted_set_in, in_app_iff, !set_minus_in.
        destruct (String.eqb_spec x (String d r)) as [->|Hx]; simpl; intuition congruence.
  - cbn [fst snd pk_packageList pk_excludedList set_lists ac_newEx ac_newPk ac_pk app].
    rewrite !app_nil_r, !sorted_set_in, set_minus_in, !in_app_iff, !set_minus_in.
    destruct (String.eqb_spec x (String c r)) as [->|Hx]; simpl; intuition congruence.
Qed.

Definition listed (x : string) (p : packages) : option bool :=
  if mem x (pk_packageList p) then Some true else if mem x (pk_excludedList p) then Some false else None.

Definition pk_disjoint (p : packages) : Prop := forall x, In x (pk_packageList p) -> In x (pk_excludedList p) -> False.

Lemma add_one_disjoint l p : pk_disjoint p -> pk_disjoint (fst (packages_add [l] p)).
Proof.
  intros Hd x. destruct (add_one_lists l p x) as [-> ->]. destruct (mention l) as [[b y]|].
  - destruct (String.eqb x y); [congruence|]. tauto.
  - intros H [H' _]. exact (Hd x H H').
Qed.

Lemma add_each_lists ls x : forall p, pk_disjoint p ->
  (In x (pk_packageList (add_each ls p)) <->
     match last_mention x ls with Some b => b = true | None => In x (pk_packageList p) end) /\
  (In x (pk_excludedList (add_each ls p)) <->
     match last_mention x ls with Some b => b = false | None => In x (pk_excludedList p) end).
Proof.
  induction ls as [|l ls IH]; intros p Hd; [simpl; tauto|].
  unfold add_each. cbn [fold_left]. fold (add_each ls (fst (packages_add [l] p))).
  destruct (IH _ (add_one_disjoint l p Hd)) as [I1 I2]. rewrite I1, I2. cbn [last_mention].
  destruct (last_mention x ls) as [b|]; [tauto|]. destruct (add_one_lists l p x) as [A1 A2].
  rewrite A1, A2. specialize (Hd x). destruct (mention l) as [[b y]|].
  - destruct (String.eqb x y); tauto.
  - split; [tauto|]. split; [tauto|]. intros H. split; [exact H|]. intros _ H'. tauto.
Qed.

(** ** C23 *)


(** The words of a group line. *)
Definition group_item (w : string) : item := if group_option w then IOpt (OFlag w) else IArg w.

Lemma group_line_meaning (ws : list string) : forall m0 : meaning,
  forallb group_option ws = true ->
  exists m, read_words group_parser m0 (map OFlag ws) = Some m /\
    m "nodefaults" = (if mem "--nodefaults" ws then VBool true else m0 "nodefaults") /\
    m "optional" = (if mem "--optional" ws then VBool true else m0 "optional").
Proof.
  induction ws as [|w ws IH]; intros m0 H.
  - exists m0. simpl. auto.
  - cbn [forallb] in H. apply andb_prop in H as [Hw H]. unfold group_option in Hw. apply mem_In in Hw.
    destruct Hw as [<-|[<-|[]]]; cbn [map read_words].
    + set (m1 := set m0 "nodefaults" (VBool true)).
      change (read_word group_parser m0 (OFlag "--nodefaults")) with (Some m1).
      destruct (IH m1 H) as (m & -> & H1 & H2). exists m. split; [reflexivity|]. rewrite H1, H2. split.
      * change (m1 "nodefaults") with (VBool true). change (mem "--nodefaults" ("--nodefaults" :: ws)) with true.
        destruct (mem "--nodefaults" ws); reflexivity.
      * reflexivity.
    + set (m1 := set m0 "optional" (VBool true)).
      change (read_word group_parser m0 (OFlag "--optional")) with (Some m1).
      destruct (IH m1 H) as (m & -> & H1 & H2). exists m. split; [reflexivity|]. rewrite H1, H2. split.
      * reflexivity.
      * change (m1 "optional") with (VBool true). change (mem "--optional" ("--optional" :: ws)) with true.
        destruct (mem "--optional" ws); reflexivity.
Qed.

Lemma group_items ws : forallb (fun w => group_option w || negb (startswith w "-")) ws = true ->
  map itext (map group_item ws) = ws /\
  iopts (map group_item ws) = map OFlag (filter group_option ws) /\
  iargs (map group_item ws) = filter (fun w => negb (group_option w)) ws /\
  forallb plain_word (iargs (map group_item ws)) = true.
Proof.
  induction ws as [|w ws IH]; intros H; [repeat split|]. cbn [forallb] in H. apply andb_prop in H as [Hw H].
  destruct (IH H) as (I1 & I2 & I3 & I4). cbn [map filter]. unfold group_item at 1 3 5 7.
  destruct (group_option w) eqn:E; cbn [negb orb] in *.
  - cbn [itext text iopts iargs flat_map app map]. fold (iopts (map group_item ws)) (iargs (map group_item ws)).
    rewrite I1, I2. auto.
  - cbn [itext text iopts iargs flat_map app map forallb]. fold (iopts (map group_item ws)) (iargs (map group_item ws)).
    rewrite I1, I2, I3. split; [reflexivity|]. split; [reflexivity|]. split; [reflexivity|].
    unfold plain_word at 1. rewrite Hw. rewrite I3 in I4. exact I4.
Qed.

Lemma mem_filter x q ws : q x = true -> mem x (filter q ws) = mem x ws.
Proof.
  intros Hq. induction ws as [|w ws IH]; [reflexivity|]. cbn [filter].
  destruct (q w) eqn:E; cbn [mem existsb]; fold (mem x ws) (mem x (filter q ws)); [rewrite IH; reflexivity|].
  rewrite IH. destruct (String.eqb_spec x w) as [->|]; [congruence|reflexivity].
Qed.

Lemma process_group_spec rest p : group_words rest = true ->
  let ws := split_ws rest in
  let name := join " " (filter (fun w => negb (group_option w)) ws) in
  process_group rest p =
  match mem "--nodefaults" ws, mem "--optional" ws with
  | true, true => Err (KSParseError None "group-both")
  | nd, opt =>
      Ok (if existsb (fun g => String.eqb name (g_name g)) (pk_groupList p) then p
          else set_groups (pk_groupList p ++ [mkGroup name (if nd then GRequired else if opt then GAll else GDefault)]) p)
  end.
Proof.
  intros H ws name. unfold group_words in H. fold ws in H.
  destruct (group_items ws H) as (G1 & G2 & G3 & G4).
  assert (Hf : forallb group_option (filter group_option ws) = true).
  { apply forallb_forall. intros x Hx. now apply filter_In in Hx. }
  destruct (group_line_meaning (filter group_option ws) (declared (p_actions group_parser)) Hf) as (m & Hm & Hn & Ho).
  rewrite mem_filter in Hn, Ho by reflexivity.
  destruct (parse_known_items group_parser None (map group_item ws) m) as (ns & Hns & Hd).
  - reflexivity.
  - reflexivity.
  - simpl. intros a [<-|[<-|[]]] d; discriminate.
  - simpl. intros a [<-|[<-|[]]]; discriminate.
  - unfold line_meaning. rewrite G2. exact Hm.
  - exact G4.
  - rewrite G1, G3 in Hns. unfold process_group. fold ws. rewrite Hns. cbn [bind].
    rewrite !Hd, Hn, Ho. change (declared (p_actions group_parser) "nodefaults") with (VBool false).
    change (declared (p_actions group_parser) "optional") with (VBool false). fold name.
    destruct (mem "--nodefaults" ws), (mem "--optional" ws); cbn [truthy andb]; try reflexivity;
      destruct (existsb _ _); reflexivity.
Qed.

(** How a group stands in a selection. *)
Definition standing (g : string) (l : list group) : option ginclude :=
  option_map g_include (find (fun x => String.eqb g (g_name x)) l).

Lemma standing_app g l m : standing g (l ++ m) = match standing g l with Some i => Some i | None => standing g m end.
Proof.
  unfold standing. induction l as [|x l IH]; simpl; [reflexivity|]. destruct (String.eqb g (g_name x)); [reflexivity|exact IH].
Qed.

Lemma standing_exists g l : existsb (fun x => String.eqb g (g_name x)) l = match standing g l with Some _ => true | None => false end.
Proof.
  unfold standing. induction l as [|x l IH]; simpl; [reflexivity|]. destruct (String.eqb g (g_name x)); [reflexivity|exact IH].
Qed.

Lemma standing_filter g names l :
  standing g (filter (fun x => negb (mem (g_name x) names)) l) = if mem g names then None else standing g l.
Proof.
  unfold standing. induction l as [|x l IH]; simpl; [destruct (mem g names); reflexivity|].
  destruct (mem (g_name x) names) eqn:E; simpl.
  - rewrite IH. destruct (String.eqb_spec g (g_name x)) as [->|]; [rewrite E; reflexivity|reflexivity].
  - destruct (String.eqb_spec g (g_name x)) as [->|]; [rewrite E; reflexivity|exact IH].
Qed.

Lemma startswith_at2 r : startswith r "@^" = true -> exists t, r = ("@^" ++ t)%string.
Proof. intros H. apply startswith_spec in H as (t & ->). eauto. Qed.

Lemma add_one_groups l p g : proper_group_line l = true -> no_caret g = true ->
  standing g (pk_groupList (fst (packages_add [l] p))) = group_step g (standing g (pk_groupList p)) l.
Proof.
  unfold packages_add, add_lines, add_line, group_step, group_event, proper_group_line. intros Hl Hg.
  destruct (startswith (strip l) "@^") eqn:E0.
  { cbn [fst ac_exGrp app map g_name set_lists pk_groupList ac_pk set_environment]. rewrite (standing_filter g []). reflexivity. }
  destruct (strip l) as [|c r]; [reflexivity|].
  rewrite !startswith_cons, !startswith_nil, andb_true_r in *.
  rewrite (Ascii.eqb_sym "@" c), (Ascii.eqb_sym "-" c) in *.
  destruct (Ascii.eqb c "@") eqn:Ec.
  - cbn [andb negb] in Hl. cbn [drop] in Hl. rewrite Hl || idtac.
    assert (Hgw : group_words r = true).
    { destruct (Ascii.eqb c "@" && startswith r "^") eqn:Ex; [|exact Hl].
      apply eqb_true_a in Ec. subst c. exfalso. revert E0 Ex. simpl. congruence. }
    cbn [drop ac_pk]. rewrite (process_group_spec r p Hgw). cbv zeta.
    set (ws := split_ws r). set (n := join " " (filter (fun w => negb (group_option w)) ws)).
    destruct (mem "--nodefaults" ws), (mem "--optional" ws); cbn [bind fst snd]; try reflexivity.
    all: cbn [set_lists pk_groupList ac_pk ac_exGrp map mem existsb negb].
    all: rewrite (standing_filter g []); cbn [mem existsb].
    all: rewrite standing_exists; destruct (String.eqb_spec g n) as [->|Hne].
    all: try (destruct (standing n (pk_groupList p)) eqn:Es; [exact Es|]; cbn [set_groups pk_groupList];
         rewrite standing_app, Es; unfold standing; cbn [find g_name]; rewrite String.eqb_refl; reflexivity).
    all: destruct (standing n (pk_groupList p)); [reflexivity|]; cbn [set_groups pk_groupList];
         rewrite standing_app; unfold standing at 2; cbn [find g_name];
         destruct (String.eqb_spec g n); [contradiction|]; destruct (standing g (pk_groupList p)); reflexivity.
  - cbn [andb]. destruct (Ascii.eqb c "-") eqn:Ed.
    + cbn [andb]. destruct r as [|d r].
      { cbn. destruct (pk_environment p); reflexivity. }
      rewrite !startswith_cons, !startswith_nil, andb_true_r. rewrite (Ascii.eqb_sym "@" d).
      destruct (Ascii.eqb d "@") eqn:Eat.
      * cbn [andb drop]. destruct (startswith r "^" && _) eqn:Een.
        -- cbn [fst ac_exGrp app map g_name set_lists pk_groupList ac_pk set_environment]. rewrite (standing_filter g []). cbn [mem existsb].
           destruct (String.eqb_spec g r) as [->|]; [|reflexivity].
           apply andb_prop in Een as [Een _]. unfold no_caret in Hg. rewrite Een in Hg. discriminate.
        -- cbn [fst ac_exGrp app map g_name set_lists pk_groupList ac_pk]. rewrite (standing_filter g [r]).
           cbn [mem existsb]. rewrite orb_false_r. reflexivity.
      * cbn [andb]. cbn [fst ac_exGrp app map g_name set_lists pk_groupList ac_pk set_environment]. rewrite (standing_filter g []). reflexivity.
    + cbn [fst ac_exGrp app map g_name set_lists pk_groupList ac_pk set_environment]. rewrite (standing_filter g []). reflexivity.
Qed.

Lemma add_each_groups ls g : no_caret g = true -> forallb proper_group_line ls = true -> forall p,
  standing g (pk_groupList (add_each ls p)) = fold_left (group_step g) ls (standing g (pk_groupList p)).
Proof.
  intros Hg. induction ls as [|l ls IH]; intros H p; [reflexivity|].
  cbn [forallb] in H. apply andb_prop in H as [Hl H]. unfold add_each. cbn [fold_left].
  fold (add_each ls (fst (packages_add [l] p))). rewrite (IH H), add_one_groups by assumption. reflexivity.
Qed.

Lemma standing_in g i l : NoDup (map g_name l) -> standing g l = Some i <-> In (mkGroup g i) l.
Proof.
  unfold standing. induction l as [|[n j] l IH]; simpl; intros Hn.
  - split; [discriminate|intros []].
  - inversion Hn; subst. destruct (String.eqb_spec g n) as [->|Hne]; simpl.
    + split.
      * intros H. injection H as ->. auto.
      * intros [H|H]; [congruence|]. exfalso. apply H1. apply in_map_iff. exists (mkGroup n i). auto.
    + rewrite (IH H2). split; [auto|]. intros [H|H]; [congruence|exact H].
Qed.

(** Excluded groups are remembered in order. *)
Lemma add_one_exclusions l p : proper_group_line l = true ->
  filter no_caret (map g_name (pk_excludedGroupList (fst (packages_add [l] p)))) =
  filter no_caret (map g_name (pk_excludedGroupList p)) ++ filter no_caret (exclusions [l]).
Proof.
  unfold packages_add, add_lines, add_line, exclusions, group_event, proper_group_line. intros Hl. cbn [flat_map].
  destruct (startswith (strip l) "@^") eqn:E0.
  { cbn. rewrite !app_nil_r. reflexivity. }
  destruct (strip l) as [|c r]; [cbn; rewrite !app_nil_r; reflexivity|].
  rewrite !startswith_cons, !startswith_nil, andb_true_r in *.
  rewrite (Ascii.eqb_sym "@" c), (Ascii.eqb_sym "-" c) in *.
  destruct (Ascii.eqb c "@") eqn:Ec.
  - assert (Hgw : group_words r = true).
    { destruct (Ascii.eqb c "@" && startswith r "^") eqn:Ex; [|exact Hl].
      apply eqb_true_a in Ec. subst c. exfalso. revert E0 Ex. simpl. congruence. }
    cbn [drop ac_pk]. rewrite (process_group_spec r p Hgw). cbv zeta.
    set (ws := split_ws r).
    destruct (mem "--nodefaults" ws), (mem "--optional" ws); cbn [bind fst snd]; rewrite ?app_nil_r; try reflexivity.
    all: cbn [set_lists pk_excludedGroupList ac_pk ac_exGrp filter]; rewrite ?app_nil_r; destruct (existsb _ _); reflexivity.
  - cbn [andb]. destruct (Ascii.eqb c "-") eqn:Ed.
    + cbn [andb]. destruct r as [|d r].
      { cbn. rewrite !app_nil_r. destruct (pk_environment p); reflexivity. }
      rewrite !startswith_cons, !startswith_nil, andb_true_r. rewrite (Ascii.eqb_sym "@" d).
      destruct (Ascii.eqb d "@") eqn:Eat.
      * cbn [andb drop]. destruct (startswith r "^" && _) eqn:Een.
        -- cbn. rewrite !app_nil_r. apply andb_prop in Een as [Een _]. unfold no_caret at 3. rewrite Een. cbn.
           rewrite app_nil_r. reflexivity.
        -- cbn [fst ac_exGrp app map g_name set_lists pk_excludedGroupList ac_pk]. rewrite map_app, filter_app. reflexivity.
      * cbn. rewrite !app_nil_r. reflexivity.
    + cbn. rewrite !app_nil_r. reflexivity.
Qed.

Lemma add_each_exclusions ls : forallb proper_group_line ls = true -> forall p,
  filter no_caret (map g_name (pk_excludedGroupList (add_each ls p))) =
  filter no_caret (map g_name (pk_excludedGroupList p)) ++ filter no_caret (exclusions ls).
Proof.
  induction ls as [|l ls IH]; intros H p.
  - simpl. rewrite app_nil_r. reflexivity.
  - cbn [forallb] in H. apply andb_prop in H as [Hl H]. unfold add_each. cbn [fold_left].
    fold (add_each ls (fst (packages_add [l] p))). rewrite (IH H), add_one_exclusions by assumption.
    rewrite <- app_assoc, <- filter_app. f_equal. f_equal. unfold exclusions. cbn [flat_map]. rewrite app_nil_r. reflexivity.
Qed.

(** ** C24 *)

Definition env_step (cur : option string) (line : string) : option string :=
  let s := strip line in
  if startswith s "@^" then Some (drop 2 s)
  else if startswith s "-@^" then
    match cur with Some e => if String.eqb e (drop 3 s) then None else cur | None => None end
  else cur.

Lemma process_group_env line p p' : process_group line p = Ok p' -> pk_environment p' = pk_environment p.
Proof.
  unfold process_group. intros H. apply bind_ok in H as ([ns extra] & _ & H).
  destruct (_ && _); [discriminate|]. destruct (existsb _ _); injection H as <-; reflexivity.
Qed.

Lemma add_one_env l p : pk_environment (fst (packages_add [l] p)) = env_step (pk_environment p) l.
Proof.
  unfold packages_add, add_lines, add_line, env_step.
  destruct (startswith (strip l) "@^") eqn:E0; [reflexivity|].
  destruct (strip l) as [|c r]; [reflexivity|].
  rewrite !startswith_cons in *. rewrite (Ascii.eqb_sym "@" c), (Ascii.eqb_sym "-" c) in *.
  destruct (Ascii.eqb c "@") eqn:Ec.
  - assert (Ascii.eqb c "-" = false) as -> by (apply eqb_true_a in Ec; subst; reflexivity). cbn [andb].
    cbn [ac_pk]. destruct (process_group r p) as [p'|] eqn:Ep; cbn [bind fst]; [|reflexivity]. cbn.
    eapply process_group_env; eauto.
  - destruct (Ascii.eqb c "-") eqn:Ed; cbn [andb]; [|reflexivity].
    destruct (startswith r "@^") eqn:Er; cbn [andb].
    + destruct r as [|d r]; [discriminate|]. cbn [ac_pk drop]. destruct (pk_environment p) as [e|] eqn:Ee.
      * cbn [drop]. destruct (String.eqb e (drop 2 (String d r))) eqn:Eq; cbn [drop] in Eq |- *; rewrite ?Eq; [reflexivity|].
        destruct (Ascii.eqb d "@"); cbn; exact Ee.
      * destruct (Ascii.eqb d "@"); cbn; exact Ee.
    + destruct r as [|d r]; [reflexivity|]. destruct (Ascii.eqb d "@"); reflexivity.
Qed.

Lemma add_each_env ls : forall p, pk_environment (add_each ls p) = fold_left env_step ls (pk_environment p).
Proof.
  induction ls as [|l ls IH]; intros p; [reflexivity|]. unfold add_each. cbn [fold_left].
  fold (add_each ls (fst (packages_add [l] p))). rewrite IH, add_one_env. reflexivity.
Qed.

Lemma app_drop2 s : startswith s "@^" = true <-> s = ("@^" ++ drop 2 s)%string.
Proof.
  split; [|intros H; rewrite H; apply startswith_app]. intros H. apply startswith_spec in H as (t & ->). reflexivity.
Qed.
Lemma app_drop3 s : startswith s "-@^" = true <-> s = ("-@^" ++ drop 3 s)%string.
Proof.
  split; [|intros H; rewrite H; apply startswith_app]. intros H. apply startswith_spec in H as (t & ->). reflexivity.
Qed.

Lemma env_fold ls : forall cur e, fold_left env_step ls cur = Some e <->
  (exists l1 l l2, ls = l1 ++ l :: l2 /\ selects l e /\
     forall l', In l' l2 -> (forall e', ~ selects l' e') /\ ~ deselects l' e) \/
  (cur = Some e /\ forall l', In l' ls -> (forall e', ~ selects l' e') /\ ~ deselects l' e).
Proof.
  induction ls as [|l ls IH]; intros cur e; cbn [fold_left].
  - split.
    + intros ->. right. split; [reflexivity|]. intros l' [].
    + intros [(l1 & l & l2 & H & _)|[-> _]]; [destruct l1; discriminate|reflexivity].
  - rewrite IH. split.
    + intros [(l1 & x & l2 & -> & H1 & H2)|[Hc H]].
      * left. exists (l :: l1), x, l2. auto.
      * unfold env_step in Hc. destruct (startswith (strip l) "@^") eqn:E0.
        -- injection Hc as <-. left. exists [], l, ls. split; [reflexivity|]. split; [|exact H].
           unfold selects. now apply app_drop2 in E0.
        -- right. assert (Hns : forall e', ~ selects l e').
           { intros e' He'. unfold selects in He'. rewrite He', startswith_app in E0. discriminate. }
           destruct (startswith (strip l) "-@^") eqn:E1.
           ++ destruct cur as [e0|]; [|discriminate]. destruct (String.eqb_spec e0 (drop 3 (strip l))) as [Eq|Hne]; [discriminate|].
              injection Hc as ->. split; [reflexivity|]. intros l' [<-|Hl']; [|auto]. split; [exact Hns|].
              intros Hd. unfold deselects in Hd. rewrite Hd in Hne. simpl in Hne. congruence.
           ++ split; [exact Hc|]. intros l' [<-|Hl']; [|auto]. split; [exact Hns|].
              intros Hd. unfold deselects in Hd. rewrite Hd, startswith_app in E1. discriminate.
    + intros [(l1 & x & l2 & Heq & H1 & H2)|[-> H]].
      * destruct l1 as [|y l1]; injection Heq as -> ->.
        -- right. split; [|exact H2]. unfold env_step. unfold selects in H1. rewrite H1, startswith_app. reflexivity.
        -- left. exists l1, x, l2. auto.
      * right. split; [|intros; apply H; simpl; auto]. unfold env_step.
        destruct (H l (or_introl eq_refl)) as [Hs Hd]. destruct (startswith (strip l) "@^") eqn:E0.
        { exfalso. eapply Hs. unfold selects. now apply app_drop2. }
        destruct (startswith (strip l) "-@^") eqn:E1; [|reflexivity].
        destruct (String.eqb_spec e (drop 3 (strip l))) as [->|]; [|reflexivity].
        exfalso. apply Hd. unfold deselects. now apply app_drop3.
Qed.
