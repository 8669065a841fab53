(** * Facts about written package selections *)

From Coq Require Import Lia Sorted Permutation.
From Verif Require Import PyStrFacts ShlexFacts OptionsFacts PreFacts ArgParseFacts ArgLineFacts ArgErrFacts Packages PkgSpec PkgFacts
  Parser ParserFacts ParserSpec ParserRel ParserLines ParserRun SectSpec SectFacts PkgHeadSpec PkgHeadFacts PkgTextSpec.
From Verif Require Import Value.
Local Open Scope string_scope.
Local Open Scope list_scope.

Local Arguments String.eqb : simpl never.
Local Arguments Ascii.eqb : simpl never.

(** ** Sorted lists *)

Lemma strict_ext l : forall m, strictly_sorted l -> strictly_sorted m -> (forall x, In x l <-> In x m) -> l = m.
Proof.
  unfold strictly_sorted. induction l as [|a l IH]; intros m Hl Hm H.
  - destruct m as [|b m]; [reflexivity|]. exfalso. apply (H b). simpl; auto.
  - destruct m as [|b m]; [exfalso; apply (H a); simpl; auto|].
    inversion Hl as [|? ? Hl1 Hl2]; inversion Hm as [|? ? Hm1 Hm2]; subst. rewrite Forall_forall in Hl2, Hm2.
    assert (Irr : forall x, str_ltb x x = true -> False).
    { intros x. unfold str_ltb. destruct (str_leb_total x x) as [E|E]; rewrite E; discriminate. }
    assert (Tr : forall x y, str_ltb x y = true -> str_ltb y x = true -> False).
    { intros x y. unfold str_ltb. intros H1 H2. apply negb_true_iff in H1, H2.
      destruct (str_leb_total x y); congruence. }
    assert (a = b).
    { destruct (proj1 (H a)) as [E|E]; [simpl; auto|auto|]. destruct (proj2 (H b)) as [E'|E']; [simpl; auto|auto|].
      exfalso. eapply Tr; eauto. }
    subst b. f_equal. apply IH; auto. intros x. split; intros Hx.
    + destruct (proj1 (H x)) as [E|E]; [simpl; auto| |exact E]. subst x. exfalso. eapply Irr, Hl2, Hx.
    + destruct (proj2 (H x)) as [E|E]; [simpl; auto| |exact E]. subst x. exfalso. eapply Irr, Hm2, Hx.
Qed.

Lemma sorted_set_fix l : strictly_sorted l -> sorted_set l = l.
Proof. intros H. apply strict_ext; auto using sorted_set_strict. apply (fun x => sorted_set_in x l). Qed.
Lemma sorted_set_perm l m : (forall x, In x l <-> In x m) -> sorted_set l = sorted_set m.
Proof. intros H. apply strict_ext; auto using sorted_set_strict. intros x. rewrite !sorted_set_in. apply H. Qed.
Lemma sort_nodup l : NoDup l -> sort_str l = sorted_set l.
Proof. intros H. unfold sorted_set. f_equal. symmetry. apply nodup_fixed_point, H. Qed.

Lemma insert_group_perm g l : Permutation (g :: l) (insert_group g l).
Proof.
  induction l as [|h l IH]; simpl; [reflexivity|]. destruct (str_leb (g_name g) (g_name h)); [reflexivity|].
  rewrite perm_swap. constructor. exact IH.
Qed.
Lemma sort_groups_perm l : Permutation l (sort_groups l).
Proof. induction l as [|x l IH]; simpl; [reflexivity|]. rewrite <- insert_group_perm. constructor. exact IH. Qed.

Definition leG (a b : group) : Prop := str_leb (g_name a) (g_name b) = true.
Lemma insert_group_sorted x l : StronglySorted leG l -> StronglySorted leG (insert_group x l).
Proof.
  induction l as [|y l IH]; simpl; intros H.
  - constructor; constructor.
  - inversion H as [|? ? Hs Hf]; subst. destruct (str_leb (g_name x) (g_name y)) eqn:E.
    + constructor; [exact H|]. constructor; [exact E|].
      rewrite Forall_forall in *. intros z Hz. unfold leG. eapply str_leb_trans; [exact E|]. now apply Hf.
    + constructor; [now apply IH|]. rewrite Forall_forall in *. intros z Hz.
      apply (Permutation_in _ (Permutation_sym (insert_group_perm x l))) in Hz. destruct Hz as [<-|Hz].
      * unfold leG. destruct (str_leb_total (g_name x) (g_name y)) as [E'|E']; [congruence|exact E'].
      * now apply Hf.
Qed.
Lemma sort_groups_sorted l : StronglySorted leG (sort_groups l).
Proof. induction l; simpl; [constructor|]. now apply insert_group_sorted. Qed.
Lemma sort_groups_fix l : StronglySorted leG l -> sort_groups l = l.
Proof.
  induction l as [|x l IH]; intros H; [reflexivity|]. inversion H as [|? ? Hs Hf]; subst. cbn [sort_groups fold_right].
  fold (sort_groups l). rewrite IH by exact Hs. destruct l as [|y l]; [reflexivity|]. cbn [insert_group].
  inversion Hf as [|? ? Hy]; subst. unfold leG in Hy. rewrite Hy. reflexivity.
Qed.
Lemma sort_groups_idem l : sort_groups (sort_groups l) = sort_groups l.
Proof. apply sort_groups_fix, sort_groups_sorted. Qed.
Lemma sort_str_idem l : sort_str (sort_str l) = sort_str l.
Proof.
  assert (H : forall l, StronglySorted leS l -> sort_str l = l).
  { clear l. induction l as [|x l IH]; intros H; [reflexivity|]. inversion H as [|? ? Hs Hf]; subst. cbn [sort_str].
    rewrite IH by exact Hs. destruct l as [|y l]; [reflexivity|]. cbn [insert_str].
    inversion Hf as [|? ? Hy]; subst. unfold leS in Hy. rewrite Hy. reflexivity. }
  apply H, sort_str_sorted.
Qed.

(** ** One line *)

Definition sorted_disjoint (p : packages) : Prop :=
  strictly_sorted (pk_packageList p) /\ strictly_sorted (pk_excludedList p) /\
  forall x, In x (pk_packageList p) -> ~ In x (pk_excludedList p).

Lemma set_minus_disjoint l m : (forall x, In x l -> ~ In x m) -> set_minus l m = l.
Proof.
  unfold set_minus. induction l as [|a l IH]; intros H; [reflexivity|]. cbn [filter].
  assert (E : mem a m = false) by (apply mem_false, H; simpl; auto). rewrite E. cbn [negb]. rewrite IH; auto.
  intros x Hx. apply H. simpl; auto.
Qed.

Lemma filter_all {A} (f : A -> bool) l : (forall x, In x l -> f x = true) -> filter f l = l.
Proof.
  induction l as [|a l IH]; intros H; [reflexivity|]. cbn [filter]. rewrite (H a) by (simpl; auto). rewrite IH; auto.
  intros x Hx. apply H. simpl; auto.
Qed.

Lemma unchanged_lists p : sorted_disjoint p ->
  set_lists (sorted_set (set_minus (pk_packageList p) [] ++ [])) (sorted_set (set_minus (pk_excludedList p) (set_minus (pk_packageList p) [] ++ []) ++ []))
    (filter (fun g => negb (mem (g_name g) [])) (pk_groupList p)) (pk_excludedGroupList p ++ []) p = p.
Proof.
  intros (H1 & H2 & H3). rewrite !app_nil_r. rewrite (set_minus_disjoint (pk_packageList p) []) by (intros x _ []).
  rewrite set_minus_disjoint by (intros x Hx Hx'; apply (H3 x); auto).
  rewrite !sorted_set_fix by assumption. rewrite filter_all by reflexivity. destruct p; reflexivity.
Qed.

Lemma clean_spec l : clean l = true -> l <> "" /\ strip l = l /\ has_char HASH l = false /\
  all_chars (fun c => negb (is_linebreak c)) l = true /\ startswith l "%" = false.
Proof.
  unfold clean. intros H. repeat (apply andb_true_iff in H as [H ?H]).
  apply negb_true_iff, String.eqb_neq in H. apply String.eqb_eq in H3. apply negb_true_iff in H2, H0. auto.
Qed.

(** The selections are equal up to the environment. *)
Lemma add_env e p : environment_name e = true -> sorted_disjoint p ->
  packages_add [("@^" ++ e)%string] p = (set_environment (Some e) p, None).
Proof.
  intros He Hp. apply andb_true_iff in He as [He _]. apply clean_spec in He as (_ & Hs & _).
  unfold packages_add. cbn [add_lines]. unfold add_line. rewrite Hs. rewrite startswith_app.
  change (drop 2 ("@^" ++ e)) with e. cbn [ac_pk ac_newEx ac_newPk ac_exGrp map].
  f_equal. change (pk_packageList p) with (pk_packageList (set_environment (Some e) p)).
  change (pk_excludedList p) with (pk_excludedList (set_environment (Some e) p)). apply unchanged_lists. exact Hp.
Qed.

Lemma plain_no_option g : forallb (fun w => negb (startswith w "-")) (split_ws g) = true ->
  filter (fun w => negb (group_option w)) (split_ws g) = split_ws g /\
  mem "--nodefaults" (split_ws g) = false /\ mem "--optional" (split_ws g) = false.
Proof.
  intros H. rewrite forallb_forall in H. split; [|split].
  - apply filter_all. intros x Hx. specialize (H x Hx). apply negb_true_iff in H. apply negb_true_iff.
    destruct (group_option x) eqn:E; [|reflexivity]. unfold group_option in E. apply mem_In in E.
    destruct E as [<-|[<-|[]]]; discriminate.
  - apply mem_false. intros Hx. specialize (H _ Hx). discriminate.
  - apply mem_false. intros Hx. specialize (H _ Hx). discriminate.
Qed.

Lemma split_ws_app a b : split_ws (a ++ String SP b) = split_ws a ++ split_ws b.
Proof.
  induction a as [|c a IH]; [reflexivity|]. cbn [append split_ws]. destruct (is_space c) eqn:Ec; [exact IH|].
  destruct a as [|d a].
  - cbn [append]. change (is_space SP) with true. cbn [split_ws app]. change (is_space SP) with true. reflexivity.
  - cbn [append] in *. destruct (is_space d) eqn:Ed; [rewrite IH; reflexivity|]. rewrite IH.
    destruct (split_ws_head d a Ed) as (w & r & E). rewrite E. reflexivity.
Qed.

Lemma existsb_name n l : ~ In n (map g_name l) -> existsb (fun g => String.eqb n (g_name g)) l = false.
Proof.
  intros H. induction l as [|x l IH]; [reflexivity|]. cbn [existsb map] in *.
  destruct (String.eqb_spec n (g_name x)) as [E|E]; [exfalso; apply H; simpl; auto|]. apply IH. intros X. apply H. simpl; auto.
Qed.

Definition group_rest (g : group) : string :=
  match g_include g with
  | GRequired => g_name g ++ String SP "--nodefaults"
  | GAll => g_name g ++ String SP "--optional"
  | GDefault => g_name g
  end.
Lemma group_str_rest g : group_str g = String "@" (group_rest g).
Proof. unfold group_str, group_rest. destruct (g_include g); reflexivity. Qed.

Lemma group_name_spec n : group_name n = true ->
  clean ("@" ++ n) = true /\ no_caret n = true /\ join " " (split_ws n) = n /\
  forallb (fun w => negb (startswith w "-")) (split_ws n) = true.
Proof.
  unfold group_name. intros H. apply andb_true_iff in H as [H H3]. apply andb_true_iff in H as [H H2].
  apply andb_true_iff in H as [H H1]. apply String.eqb_eq in H2. auto.
Qed.

Lemma group_str_clean g : group_name (g_name g) = true -> clean (group_str g) = true.
Proof.
  intros H. apply group_name_spec in H as (H & _).
  destruct g as [n i]. cbn [g_name] in *. destruct i; unfold group_str; cbn [g_include g_name]; [|exact H|].
  all: apply clean_spec in H as (_ & _ & A & B & _); unfold clean.
  all: assert (X : forall t, has_char HASH ("@" ++ n ++ t) = has_char HASH t) by
    (intros t; rewrite <- app_assoc_s, has_char_app, A; reflexivity).
  all: rewrite X.
  all: assert (Y : forall t f, all_chars f ("@" ++ n ++ t) = all_chars f ("@" ++ n) && all_chars f t) by
    (intros t f; rewrite <- app_assoc_s, all_chars_app; reflexivity).
  all: rewrite Y, B.
  all: rewrite strip_stripped; [rewrite String.eqb_refl; reflexivity|].
  all: unfold stripped; apply andb_true_iff; split; [reflexivity|].
  all: rewrite !last_ok_app; try reflexivity; try discriminate; destruct n; discriminate.
Qed.

Lemma rest_words g : group_name (g_name g) = true ->
  group_words (group_rest g) = true /\
  join " " (filter (fun w => negb (group_option w)) (split_ws (group_rest g))) = g_name g /\
  mem "--nodefaults" (split_ws (group_rest g)) = (match g_include g with GRequired => true | _ => false end) /\
  mem "--optional" (split_ws (group_rest g)) = (match g_include g with GAll => true | _ => false end) /\
  startswith (group_rest g) "^" = false.
Proof.
  intros H. apply group_name_spec in H as (_ & Hc & Hj & Hw). destruct (plain_no_option _ Hw) as (P1 & P2 & P3).
  assert (W : forallb (fun w => group_option w || negb (startswith w "-")) (split_ws (g_name g)) = true).
  { rewrite forallb_forall in *. intros x Hx. rewrite (Hw x Hx). apply orb_true_r. }
  assert (S : forall t, startswith (g_name g ++ String SP t) "^" = false).
  { intros t. unfold no_caret in Hc. apply negb_true_iff in Hc. destruct (g_name g) as [|c r]; [reflexivity|].
    cbn [append]. rewrite startswith_cons, startswith_nil in *. exact Hc. }
  assert (M : forall x l m, mem x (l ++ m) = mem x l || mem x m) by (intros; unfold mem; apply existsb_app).
  unfold group_words, group_rest. destruct (g_include g).
  - rewrite split_ws_app, forallb_app, filter_app, W, P1, !M, P2, P3, S. cbn [app]. 
    change (split_ws "--nodefaults") with ["--nodefaults"]. 
    change (filter (fun w => negb (group_option w)) ["--nodefaults"]) with (@nil string). rewrite app_nil_r, Hj. repeat split; reflexivity.
  - rewrite W, P1, Hj, P2, P3. repeat split. unfold no_caret in Hc. now apply negb_true_iff in Hc.
  - rewrite split_ws_app, forallb_app, filter_app, W, P1, !M, P2, P3, S.
    change (split_ws "--optional") with ["--optional"]. 
    change (filter (fun w => negb (group_option w)) ["--optional"]) with (@nil string). rewrite app_nil_r, Hj. repeat split; reflexivity.
Qed.

Lemma add_group g p : group_name (g_name g) = true -> ~ In (g_name g) (map g_name (pk_groupList p)) -> sorted_disjoint p ->
  packages_add [group_str g] p = (set_groups (pk_groupList p ++ [g]) p, None).
Proof.
  intros Hg Hn Hp. pose proof (group_str_clean g Hg) as Hc. apply clean_spec in Hc as (_ & Hs & _).
  destruct (rest_words g Hg) as (W1 & W2 & W3 & W4 & W5).
  unfold packages_add. cbn [add_lines]. unfold add_line. rewrite Hs, group_str_rest.
  rewrite startswith_cons. change (Ascii.eqb "@" "@") with true. cbn [andb]. rewrite W5.
  change (Ascii.eqb "@" "@") with true. cbv iota. cbn [ac_pk].
  rewrite (process_group_spec _ p W1). cbv zeta. rewrite W2, W3, W4.
  rewrite existsb_name by exact Hn.
  assert (E : forall i, i = g_include g -> mkGroup (g_name g) i = g) by (intros i ->; destruct g; reflexivity).
  set (q := set_groups (pk_groupList p ++ [g]) p).
  assert (Q : set_lists (sorted_set (set_minus (pk_packageList p) [] ++ []))
     (sorted_set (set_minus (pk_excludedList p) (set_minus (pk_packageList p) [] ++ []) ++ []))
     (filter (fun g => negb (mem (g_name g) [])) (pk_groupList q)) (pk_excludedGroupList q ++ []) q = q)
    by (exact (unchanged_lists q Hp)).
  destruct (g_include g) eqn:Ei; cbn [bind ac_pk ac_newEx ac_newPk ac_exGrp map]; rewrite E by reflexivity; fold q; f_equal; exact Q.
Qed.

Lemma add_pkg x p : package_name x = true -> ~ In x (pk_excludedList p) -> sorted_disjoint p ->
  packages_add [x] p =
  (set_lists (sorted_set (pk_packageList p ++ [x])) (pk_excludedList p) (pk_groupList p) (pk_excludedGroupList p) p, None).
Proof.
  intros Hx Hn (P1 & P2 & P3). unfold package_name in Hx. apply andb_true_iff in Hx as [Hx H2]. apply andb_true_iff in Hx as [Hc H1].
  apply clean_spec in Hc as (Hne & Hs & _). unfold packages_add. cbn [add_lines]. unfold add_line. rewrite Hs.
  destruct x as [|c r]; [congruence|]. rewrite startswith_cons, startswith_nil, andb_true_r in *.
  apply negb_true_iff in H1, H2. rewrite H1. cbn [andb].
  rewrite (Ascii.eqb_sym c "@"), H1, (Ascii.eqb_sym c "-"), H2. cbn [ac_pk ac_newEx ac_newPk ac_exGrp map app].
  rewrite !app_nil_r. rewrite (set_minus_disjoint (pk_packageList p) []) by (intros y _ []).
  rewrite set_minus_disjoint.
  - rewrite (sorted_set_fix (pk_excludedList p)) by exact P2. rewrite filter_all by reflexivity. reflexivity.
  - intros y Hy Hy'. apply in_app_iff in Hy' as [Hy'|[<-|[]]]; [apply (P3 y); auto|auto].
Qed.

Lemma add_exgroup g p : excluded_group_name (g_name g) = true -> g_include g = GDefault ->
  ~ In (g_name g) (map g_name (pk_groupList p)) ->
  (forall e, pk_environment p = Some e -> g_name g <> ("^" ++ e)%string) -> sorted_disjoint p ->
  packages_add [("-" ++ group_str g)%string] p =
  (set_lists (pk_packageList p) (pk_excludedList p) (pk_groupList p) (pk_excludedGroupList p ++ [g]) p, None).
Proof.
  intros Hg Hi Hn He (P1 & P2 & P3). unfold excluded_group_name in Hg. apply clean_spec in Hg as (_ & Hs & _).
  destruct g as [n i]. cbn [g_name g_include] in *. subst i. unfold group_str. cbn [g_include g_name].
  change ("-" ++ "@" ++ n)%string with ("-@" ++ n)%string.
  unfold packages_add. cbn [add_lines]. unfold add_line. rewrite Hs. change ("-@" ++ n)%string with (String "-" (String "@" n)).
  rewrite startswith_cons. change (Ascii.eqb "@" "-") with false. cbn [andb]. change (Ascii.eqb "-" "@") with false.
  change (Ascii.eqb "-" "-") with true. change (Ascii.eqb "@" "@") with true. cbv iota.
  rewrite startswith_cons. change (Ascii.eqb "@" "@") with true. cbn [andb ac_pk drop].
  assert (E : startswith n "^" && (match pk_environment p with Some e => String.eqb e (drop 1 n) | None => false end) = false).
  { destruct (pk_environment p) as [e|]; [|apply andb_false_r]. specialize (He e eq_refl).
    destruct n as [|c r]; [reflexivity|]. rewrite startswith_cons, startswith_nil, andb_true_r. cbn [drop].
    destruct (Ascii.eqb "^" c) eqn:Ec; [|reflexivity]. apply Ascii.eqb_eq in Ec. subst c. cbn [andb].
    apply String.eqb_neq. intros ->. apply He. reflexivity. }
  cbn [drop] in E. rewrite E. cbn [ac_pk ac_newEx ac_newPk ac_exGrp map app g_name].
  rewrite !app_nil_r. rewrite (set_minus_disjoint (pk_packageList p) []) by (intros y _ []).
  rewrite set_minus_disjoint by (intros y Hy Hy'; apply (P3 y); auto). rewrite !sorted_set_fix by assumption.
  rewrite filter_all; [reflexivity|]. intros h Hh. apply negb_true_iff, mem_false. intros [X|[]]. apply Hn. rewrite X.
  apply in_map, Hh.
Qed.

Lemma add_excl x p : excluded_name x = true -> ~ In x (pk_packageList p) -> sorted_disjoint p ->
  packages_add [("-" ++ x)%string] p =
  (set_lists (pk_packageList p) (sorted_set (pk_excludedList p ++ [x])) (pk_groupList p) (pk_excludedGroupList p) p, None).
Proof.
  intros Hx Hn (P1 & P2 & P3). unfold excluded_name in Hx. apply andb_true_iff in Hx as [Hx H2]. apply andb_true_iff in Hx as [Hc H1].
  apply clean_spec in Hc as (_ & Hs & _). unfold packages_add. cbn [add_lines]. unfold add_line. rewrite Hs.
  destruct x as [|c r]; [discriminate|]. cbn [append]. rewrite !startswith_cons, startswith_nil in *.
  rewrite andb_true_r in H2. apply negb_true_iff in H2. rewrite H2.
  change (Ascii.eqb "@" "-") with false. change (Ascii.eqb "-" "@") with false. change (Ascii.eqb "-" "-") with true. cbn [andb]. 
  rewrite (Ascii.eqb_sym c "@"), H2. cbn [ac_pk ac_newEx ac_newPk ac_exGrp map app].
  rewrite !app_nil_r. rewrite (set_minus_disjoint (pk_packageList p) [String c r]) by (intros y Hy [<-|[]]; auto).
  rewrite set_minus_disjoint by (intros y Hy Hy'; apply (P3 y); auto).
  rewrite (sorted_set_fix (pk_packageList p)) by exact P1. rewrite filter_all by reflexivity. reflexivity.
Qed.

(** ** Many lines *)

Fixpoint add_seq (ls : list string) (p : packages) : packages * option exn :=
  match ls with
  | [] => (p, None)
  | l :: r => match packages_add [l] p with (q, None) => add_seq r q | (q, Some e) => (q, Some e) end
  end.
Lemma add_seq_app a b p q : add_seq a p = (q, None) -> add_seq (a ++ b) p = add_seq b q.
Proof.
  revert p. induction a as [|l a IH]; intros p H; [injection H as ->; reflexivity|]. cbn [add_seq app] in *.
  destruct (packages_add [l] p) as [p1 [e|]]; [discriminate|]. apply IH, H.
Qed.

Lemma add_groups gs : forall p, Forall (fun g => group_name (g_name g) = true) gs ->
  NoDup (map g_name (pk_groupList p ++ gs)) -> sorted_disjoint p ->
  add_seq (map group_str gs) p = (set_groups (pk_groupList p ++ gs) p, None).
Proof.
  induction gs as [|g gs IH]; intros p Hg Hn Hp.
  { rewrite app_nil_r. destruct p; reflexivity. }
  inversion Hg as [|? ? G1 G2]; subst. cbn [map add_seq].
  rewrite add_group; auto.
  - rewrite IH; auto.
    + cbn. rewrite <- app_assoc. reflexivity.
    + cbn [set_groups pk_groupList]. rewrite <- app_assoc. exact Hn.
  - rewrite map_app in Hn. cbn [map] in Hn. apply NoDup_remove_2 in Hn. intros X. apply Hn, in_app_iff. auto.
Qed.

Lemma add_pkgs xs : forall p, Forall (fun x => package_name x = true) xs ->
  (forall x, In x xs -> ~ In x (pk_excludedList p)) -> sorted_disjoint p ->
  add_seq xs p =
  (set_lists (sorted_set (pk_packageList p ++ xs)) (pk_excludedList p) (pk_groupList p) (pk_excludedGroupList p) p, None).
Proof.
  induction xs as [|x xs IH]; intros p Hx Hn Hp.
  { rewrite app_nil_r, sorted_set_fix by apply Hp. destruct p; reflexivity. }
  inversion Hx as [|? ? G1 G2]; subst. cbn [add_seq]. rewrite add_pkg; auto; [|apply Hn; simpl; auto].
  rewrite IH; auto.
  - cbn. unfold set_lists. cbn. do 2 f_equal. apply sorted_set_perm. intros y. rewrite !in_app_iff, sorted_set_in, in_app_iff. simpl. tauto.
  - intros y Hy. cbn. apply Hn. simpl; auto.
  - destruct Hp as (P1 & P2 & P3). split; [|split]; cbn; auto using sorted_set_strict.
    intros y Hy. rewrite sorted_set_in, in_app_iff in Hy. destruct Hy as [Hy|[<-|[]]]; auto. apply Hn. simpl; auto.
Qed.

Lemma add_exgroups gs : forall p, Forall (fun g => excluded_group_name (g_name g) = true /\ g_include g = GDefault) gs ->
  (forall g, In g (pk_groupList p) -> ~ In (g_name g) (map g_name gs)) ->
  (forall e, pk_environment p = Some e -> ~ In ("^" ++ e)%string (map g_name gs)) -> sorted_disjoint p ->
  add_seq (map (fun g => ("-" ++ group_str g)%string) gs) p =
  (set_lists (pk_packageList p) (pk_excludedList p) (pk_groupList p) (pk_excludedGroupList p ++ gs) p, None).
Proof.
  induction gs as [|g gs IH]; intros p Hg Hn He Hp.
  { rewrite app_nil_r. destruct p; reflexivity. }
  inversion Hg as [|? ? [G1 G3] G2]; subst. cbn [map add_seq]. rewrite add_exgroup; auto.
  - rewrite IH; auto.
    + cbn. rewrite <- app_assoc. reflexivity.
    + intros h Hh X. apply (Hn h Hh). simpl; auto.
    + intros e E X. apply (He e E). simpl; auto.
  - intros X. apply in_map_iff in X as (h & E & Hh). apply (Hn h Hh). simpl; auto.
  - intros e E X. apply (He e E). simpl; auto.
Qed.

Lemma add_excls xs : forall p, Forall (fun x => excluded_name x = true) xs ->
  (forall x, In x xs -> ~ In x (pk_packageList p)) -> sorted_disjoint p ->
  add_seq (map (fun x => ("-" ++ x)%string) xs) p =
  (set_lists (pk_packageList p) (sorted_set (pk_excludedList p ++ xs)) (pk_groupList p) (pk_excludedGroupList p) p, None).
Proof.
  induction xs as [|x xs IH]; intros p Hx Hn Hp.
  { rewrite app_nil_r, sorted_set_fix by apply Hp. destruct p; reflexivity. }
  inversion Hx as [|? ? G1 G2]; subst. cbn [map add_seq]. rewrite add_excl; auto; [|apply Hn; simpl; auto].
  rewrite IH; auto.
  - cbn. unfold set_lists. cbn. do 2 f_equal. apply sorted_set_perm. intros y. rewrite !in_app_iff, sorted_set_in, in_app_iff. simpl. tauto.
  - intros y Hy. cbn. apply Hn. simpl; auto.
  - destruct Hp as (P1 & P2 & P3). split; [|split]; cbn; auto using sorted_set_strict.
    intros y Hy. rewrite sorted_set_in, in_app_iff. intros [X|[<-|[]]]; [eapply P3; eauto|]. apply (Hn x); simpl; auto.
Qed.

(** The lines of a written selection. *)
Definition content_lines (p : packages) : list string :=
  (if pk_default p then [] else match pk_environment p with Some (String c e) => [("@^" ++ String c e)%string] | _ => [] end) ++
  map group_str (sort_groups (pk_groupList p)) ++ sort_str (pk_packageList p) ++
  map (fun g => ("-" ++ group_str g)%string) (sort_groups (pk_excludedGroupList p)) ++
  map (fun x => ("-" ++ x)%string) (sort_str (pk_excludedList p)).

Lemma content_lines_text p : packages_content p = concat_all (map (fun l => (l ++ nl)%string) (content_lines p)).
Proof.
  unfold packages_content, content_lines. rewrite !map_app, !concat_all_app. f_equal.
  { destruct (pk_default p); [reflexivity|]. destruct (pk_environment p) as [[|c e]|]; try reflexivity.
    cbn [map concat_all]. rewrite app_nil_r_s. reflexivity. }
  rewrite !map_map. reflexivity.
Qed.

Lemma Forall_sorted {P : group -> Prop} l : Forall P l -> Forall P (sort_groups l).
Proof. intros H. eapply Permutation_Forall; [apply sort_groups_perm|exact H]. Qed.
Lemma Forall_sort_str {P : string -> Prop} l : Forall P l -> Forall P (sort_str l).
Proof. rewrite !Forall_forall. intros H x Hx. apply H. apply (sort_str_in x l). exact Hx. Qed.

(** A selection without content, whose settings are those of [p]. *)
Definition settings (p : packages) : packages :=
  mkPackages (pk_addBase p) (pk_nocore p) (pk_default p) None [] [] (pk_excludeDocs p) [] (pk_handleMissing p)
    (pk_handleBroken p) [] (pk_instLangs p) (pk_multiLib p) (pk_excludeWeakdeps p) (pk_timeout p) (pk_retries p) true.

Lemma content_read p : proper_lists p -> clear_groups p -> (pk_default p = true -> pk_environment p = None) ->
  add_seq (content_lines p) (settings p) = (as_read p, None).
Proof.
  intros (L1 & L2 & L3 & L4 & L5 & L6 & L7 & L8 & L9) (G1 & G2) Hd.
  assert (S0 : sorted_disjoint (settings p)) by (split; [|split]; cbn; [constructor|constructor|intros x []]).
  unfold content_lines.
  rewrite (add_seq_app _ _ _ (set_environment (pk_environment p) (settings p))).
  2:{ destruct (pk_default p) eqn:E; [rewrite (Hd eq_refl); unfold settings; rewrite E; reflexivity|].
      destruct (pk_environment p) as [[|c e]|] eqn:Ee.
      - specialize (L9 _ eq_refl). discriminate.
      - cbn [add_seq]. change (String "@" (String "^" (String c e))) with ("@^" ++ String c e)%string. rewrite add_env; auto.
      - reflexivity. }
  rewrite (add_seq_app _ _ _ (set_groups (sort_groups (pk_groupList p)) (set_environment (pk_environment p) (settings p)))).
  2:{ rewrite add_groups; auto using Forall_sorted. cbn. eapply Permutation_NoDup; [|exact L7].
      apply Permutation_map, sort_groups_perm. }
  erewrite add_seq_app.
  2:{ apply add_pkgs; [apply Forall_sort_str, L1|cbn; auto|exact S0]. }
  cbn [set_groups set_environment settings pk_packageList pk_excludedList pk_groupList pk_excludedGroupList app set_lists
       pk_addBase pk_nocore pk_default pk_environment pk_excludeDocs pk_handleMissing pk_handleBroken pk_instLangs pk_multiLib
       pk_excludeWeakdeps pk_timeout pk_retries pk_seen].
  erewrite add_seq_app.
  2:{ apply add_exgroups; cbn [pk_groupList pk_environment].
      - apply Forall_sorted, L8.
      - intros g Hg X. apply (Permutation_in _ (Permutation_sym (sort_groups_perm _))) in Hg.
        apply (G1 g Hg). apply (Permutation_in _ (Permutation_map _ (Permutation_sym (sort_groups_perm _)))). exact X.
      - intros e E X. apply (G2 e E). apply (Permutation_in _ (Permutation_map _ (Permutation_sym (sort_groups_perm _)))). exact X.
      - split; [|split]; cbn; [apply sorted_set_strict|constructor|intros x _ []]. }
  rewrite add_excls; cbn [set_lists pk_packageList pk_excludedList pk_groupList pk_excludedGroupList].
  - assert (X : forall l, NoDup l -> sorted_set (sort_str l) = sort_str l).
    { intros l Hl. rewrite !sort_nodup by assumption. apply sorted_set_fix, sorted_set_strict. }
    cbn [app]. rewrite !X by assumption. reflexivity.
  - apply Forall_sort_str, L3.
  - intros x Hx Hx'. rewrite sorted_set_in in Hx'. rewrite sort_str_in in Hx, Hx'. apply (L5 x); auto.
  - split; [|split]; cbn; [apply sorted_set_strict|constructor|intros x _ []].
Qed.

(** ** The header *)

Definition opt_flag (b : bool) (o : string) : list oword := if b then [OFlag o] else [].
Definition opt_val (v : option string) (o : string) : list oword := match v with Some x => [OVal o x] | None => [] end.
Definition written_options (p : packages) : list oword :=
  opt_flag (pk_default p) "--default" ++ opt_flag (pk_excludeDocs p) "--excludedocs" ++
  opt_flag (negb (pk_addBase p)) "--nobase" ++ opt_flag (pk_nocore p) "--nocore" ++
  opt_flag (pk_handleMissing p) "--ignoremissing" ++ opt_flag (pk_handleBroken p) "--ignorebroken" ++
  opt_val (pk_instLangs p) "--inst-langs" ++ opt_flag (pk_multiLib p) "--multilib" ++
  opt_flag (pk_excludeWeakdeps p) "--exclude-weakdeps" ++
  opt_val (option_map str_of_Z (pk_timeout p)) "--timeout" ++ opt_val (option_map str_of_Z (pk_retries p)) "--retries".

Lemma written_options_text p : packages_options p = concat_all (map (fun x => " " ++ x)%string (map text (written_options p))).
Proof.
  unfold packages_options, written_options. rewrite !map_app, !concat_all_app.
  assert (F : forall (b : bool) o, (if b then String SP o else "") = concat_all (map (fun x => " " ++ x)%string (map text (opt_flag b o)))).
  { intros [] o; cbn; rewrite ?app_nil_r_s; reflexivity. }
  assert (V : forall v o, (match v with Some l => String SP o ++ "=" ++ l | None => "" end)%string =
     concat_all (map (fun x => " " ++ x)%string (map text (opt_val v o)))).
  { intros [l|] o; [|reflexivity]. cbn [opt_val map text concat_all]. rewrite app_nil_r_s. reflexivity. }
  rewrite <- !F, <- !V. destruct (pk_addBase p), (pk_instLangs p), (pk_timeout p), (pk_retries p); reflexivity.
Qed.

Lemma forallb_flag f b o : (b = true -> f (OFlag o) = true) -> forallb f (opt_flag b o) = true.
Proof. intros H. destruct b; [|reflexivity]. cbn. rewrite H by reflexivity. reflexivity. Qed.
Lemma forallb_val f v o : (forall x, v = Some x -> f (OVal o x) = true) -> forallb f (opt_val v o) = true.
Proof. intros H. destruct v; [|reflexivity]. cbn. rewrite H by reflexivity. reflexivity. Qed.

Lemma digits_plain n : plain_text (str_of_N n) = true.
Proof.
  unfold plain_text. eapply all_chars_impl; [|apply str_of_N_digits]. intros c H.
  assert (X : implb (is_digit c) (plain_char c) = true).
  { apply (forall_ascii (fun c => implb (is_digit c) (plain_char c))). vm_compute; reflexivity. }
  rewrite H in X. exact X.
Qed.
Lemma number_plain z : plain_text (str_of_Z z) = true.
Proof.
  destruct z as [|q|q]; [reflexivity|apply digits_plain|]. unfold str_of_Z, plain_text. cbn [all_chars]. 
  apply (digits_plain (Npos q)).
Qed.
Lemma plain_no_space s : plain_text s = true -> has_char SP s = false.
Proof.
  intros H. apply has_char_all. eapply all_chars_impl; [|exact H]. intros c Hc.
  assert (X : implb (plain_char c) (negb (Ascii.eqb SP c)) = true).
  { apply (forall_ascii (fun c => implb (plain_char c) (negb (Ascii.eqb SP c)))). vm_compute; reflexivity. }
  rewrite Hc in X. exact X.
Qed.

Lemma map_str_Some o x : option_map str_of_Z o = Some x -> exists z, o = Some z /\ x = str_of_Z z.
Proof. destruct o; [|discriminate]. cbn. intros H. injection H as <-. eauto. Qed.

Lemma written_proper ver p : fits ver p -> forallb proper_word (written_options p) = true.
Proof.
  intros (_ & _ & _ & _ & _ & _ & _ & HL). unfold written_options. rewrite !forallb_app.
  assert (N : forall o x v, (o = "--timeout" \/ o = "--retries") -> option_map str_of_Z v = Some x -> proper_word (OVal o x) = true).
  { intros o x v Ho Hx. apply map_str_Some in Hx as (z & _ & ->).
    assert (P : negb (has_char SP (str_of_Z z)) && match py_int (str_of_Z z) with Some _ => true | None => false end = true).
    { rewrite py_int_str_of_Z, plain_no_space by apply number_plain. reflexivity. }
    destruct Ho as [-> | ->]; exact P. }
  repeat (apply andb_true_iff; split); try (apply forallb_flag; intros _; reflexivity).
  - apply forallb_val. intros x Hx. destruct (HL x Hx) as [_ P]. apply plain_no_space in P.
    change (proper_word (OVal "--inst-langs" x)) with (negb (has_char SP x)). rewrite P. reflexivity.
  - apply forallb_val. eauto.
  - apply forallb_val. eauto.
Qed.

Lemma written_defined ver p : fits ver p -> forallb (defined_in ver) (written_options p) = true.
Proof.
  intros (H1 & H2 & H3 & H4 & H5 & H6 & H7 & HL). unfold written_options. rewrite !forallb_app.
  assert (D : forall w k a b, assoc (name w) header_options = Some (k, a, b) -> within ver a b = true -> defined_in ver w = true).
  { intros w k a b E W. unfold defined_in. rewrite E. exact W. }
  repeat (apply andb_true_iff; split).
  - apply forallb_flag. intros E. destruct (H1 E) as [V _]. eapply D; [reflexivity|].
    unfold within. apply Z.leb_le in V. rewrite V. reflexivity.
  - apply forallb_flag. intros E. eapply D; reflexivity.
  - apply forallb_flag. intros E. apply negb_true_iff in E. destruct (H2 E) as [V1 V2]. eapply D; [reflexivity|].
    unfold within. apply Z.leb_le in V1. apply Z.ltb_lt in V2. rewrite V1, V2. reflexivity.
  - apply forallb_flag. intros E. specialize (H3 E). eapply D; [reflexivity|].
    unfold within. apply Z.leb_le in H3. rewrite H3. reflexivity.
  - apply forallb_flag. intros E. eapply D; reflexivity.
  - apply forallb_flag. intros E. specialize (H4 E). eapply D; [reflexivity|].
    unfold within. apply Z.leb_le in H4. rewrite H4. reflexivity.
  - apply forallb_val. intros x E. destruct (HL x E) as [V _]. eapply D; [reflexivity|].
    unfold within. apply Z.leb_le in V. rewrite V. reflexivity.
  - apply forallb_flag. intros E. specialize (H5 E). eapply D; [reflexivity|].
    unfold within. apply Z.leb_le in H5. rewrite H5. reflexivity.
  - apply forallb_flag. intros E. specialize (H6 E). eapply D; [reflexivity|].
    unfold within. apply Z.leb_le in H6. rewrite H6. reflexivity.
  - apply forallb_val. intros x E. apply map_str_Some in E as (z & E & _).
    assert (V : (RHEL7 <= ver)%Z) by (apply H7; left; congruence). eapply D; [reflexivity|].
    unfold within. apply Z.leb_le in V. rewrite V. reflexivity.
  - apply forallb_val. intros x E. apply map_str_Some in E as (z & E & _).
    assert (V : (RHEL7 <= ver)%Z) by (apply H7; right; congruence). eapply D; [reflexivity|].
    unfold within. apply Z.leb_le in V. rewrite V. reflexivity.
Qed.

Lemma has_flag_app o a b : has_flag o (a ++ b) = has_flag o a || has_flag o b.
Proof. unfold has_flag. apply existsb_app. Qed.
Lemma has_flag_flag o b x : has_flag o (opt_flag b x) = b && String.eqb x o.
Proof. destruct b; cbn; rewrite ?orb_false_r; reflexivity. Qed.
Lemma has_flag_val o v x : has_flag o (opt_val v x) = false.
Proof. destruct v; reflexivity. Qed.
Lemma last_given_app n a b : last_given n (a ++ b) = match last_given n b with Some v => Some v | None => last_given n a end.
Proof.
  induction a as [|w a IH]; [cbn [app]; destruct (last_given n b); reflexivity|]. cbn [app last_given]. rewrite IH.
  destruct (last_given n b); reflexivity.
Qed.
Lemma last_given_flag n b x : last_given n (opt_flag b x) = None.
Proof. destruct b; reflexivity. Qed.
Lemma last_given_val n v x : last_given n (opt_val v x) = if mem x n then v else None.
Proof. destruct v; cbn; destruct (mem x n); reflexivity. Qed.

Lemma written_flag o p : has_flag o (written_options p) =
  (pk_default p && String.eqb "--default" o) || ((pk_excludeDocs p && String.eqb "--excludedocs" o) ||
  ((negb (pk_addBase p) && String.eqb "--nobase" o) || ((pk_nocore p && String.eqb "--nocore" o) ||
  ((pk_handleMissing p && String.eqb "--ignoremissing" o) || ((pk_handleBroken p && String.eqb "--ignorebroken" o) ||
  ((pk_multiLib p && String.eqb "--multilib" o) || (pk_excludeWeakdeps p && String.eqb "--exclude-weakdeps" o))))))).
Proof.
  unfold written_options. rewrite !has_flag_app, !has_flag_flag, !has_flag_val. cbn [orb]. rewrite !orb_false_r. reflexivity.
Qed.

Lemma written_given n p : last_given n (written_options p) =
  match (if mem "--retries" n then option_map str_of_Z (pk_retries p) else None) with
  | Some v => Some v
  | None => match (if mem "--timeout" n then option_map str_of_Z (pk_timeout p) else None) with
            | Some v => Some v
            | None => if mem "--inst-langs" n then pk_instLangs p else None
            end
  end.
Proof.
  unfold written_options. rewrite !last_given_app, !last_given_flag, !last_given_val.
  destruct (mem "--retries" n), (mem "--timeout" n), (mem "--inst-langs" n), (option_map str_of_Z (pk_retries p)),
    (option_map str_of_Z (pk_timeout p)), (pk_instLangs p); reflexivity.
Qed.

Ltac flag_of F o := 
  let E := fresh "E" in pose proof (F o) as E; cbv [String.eqb Ascii.eqb Bool.eqb] in E; 
  rewrite ?andb_true_r, ?andb_false_r, ?orb_false_r, ?orb_false_l in E; rewrite E; clear E.

Lemma written_effect ver p : fits ver p -> header_effect ver (written_options p) new_packages = settings p.
Proof.
  intros (H1 & H2 & H3 & H4 & H5 & H6 & H7 & HL). unfold header_effect, settings. cbv zeta.
  assert (F := fun o => written_flag o p).
  flag_of F "--nobase". flag_of F "--nocore". flag_of F "--default". flag_of F "--excludedocs". flag_of F "--ignoremissing".
  flag_of F "--ignorebroken". flag_of F "--multilib". flag_of F "--excludeWeakdeps". flag_of F "--exclude-weakdeps".
  rewrite !written_given.
  change (mem "--retries" ["--instLangs"; "--inst-langs"]) with false.
  change (mem "--timeout" ["--instLangs"; "--inst-langs"]) with false.
  change (mem "--inst-langs" ["--instLangs"; "--inst-langs"]) with true.
  change (mem "--retries" ["--timeout"]) with false. change (mem "--timeout" ["--timeout"]) with true.
  change (mem "--inst-langs" ["--timeout"]) with false. change (mem "--retries" ["--retries"]) with true.
  change (mem "--timeout" ["--retries"]) with false. change (mem "--inst-langs" ["--retries"]) with false. cbv iota.
  cbn [new_packages pk_addBase pk_nocore pk_default pk_environment pk_excludedList pk_excludedGroupList pk_groupList
    pk_handleBroken pk_packageList pk_instLangs pk_multiLib pk_excludeWeakdeps pk_timeout pk_retries orb].
  assert (B : forall (b : bool) v, (b = true -> (v <= ver)%Z) -> (if (v <=? ver)%Z then b else false) = b).
  { intros [] v H; [specialize (H eq_refl); apply Z.leb_le in H; rewrite H; reflexivity|]. destruct (v <=? ver)%Z; reflexivity. }
  assert (M : forall o, number (match option_map str_of_Z o with Some v => Some v | None => None end) = o).
  { intros [z|]; [|reflexivity]. cbn. apply py_int_str_of_Z. }
  assert (E1 : (if (RHEL6 <=? ver)%Z then negb (negb (pk_addBase p)) else true) = pk_addBase p).
  { rewrite negb_involutive. destruct (pk_addBase p); [destruct (RHEL6 <=? ver)%Z; reflexivity|].
    destruct (H2 eq_refl) as [V _]. apply Z.leb_le in V. rewrite V. reflexivity. }
  assert (E2 : forall o, (o <> None -> (RHEL7 <= ver)%Z) -> (if (RHEL7 <=? ver)%Z then number (match option_map str_of_Z o with Some v => Some v | None => None end) else None) = o).
  { intros o V. rewrite M. destruct o; [|destruct (RHEL7 <=? ver)%Z; reflexivity].
    assert (W : (RHEL7 <= ver)%Z) by (apply V; discriminate). apply Z.leb_le in W. rewrite W. reflexivity. }
  rewrite E1, !B, !E2, ?orb_false_r by auto. destruct (pk_instLangs p); reflexivity.
Qed.

Lemma written_consistent ver p : fits ver p -> contradictory (written_options p) = false.
Proof.
  intros (H1 & _). unfold contradictory. assert (F := fun o => written_flag o p).
  flag_of F "--default". flag_of F "--nobase". flag_of F "--nocore". destruct (pk_default p); [|reflexivity].
  destruct (H1 eq_refl) as (_ & -> & -> & _). reflexivity.
Qed.

Lemma written_header ver ln p : fits ver p ->
  packages_handleHeader ver ln ("%packages" :: map text (written_options p)) new_packages = (settings p, None).
Proof.
  intros H. rewrite header_accepts by eauto using written_proper, written_defined.
  rewrite written_consistent with (ver := ver) by exact H. rewrite written_effect by exact H. reflexivity.
Qed.

(** ** The section *)

Section Reading.
Variable C : Type.
Variable dispatch : C -> string -> list string -> N -> C * option exn.
Variable cf : config.
Notation kstate := (kstate C).
Implicit Types st : kstate.
Notation run := (run_lines C dispatch cf).

Lemma commands_read_run n st A s1 : commands_read dispatch cf n st A s1 ->
  complete A = true /\ ks_state C s1 = None /\ ks_depth C s1 = 0%N /\
  run (handle_include C cf (read_kickstart C dispatch cf n)) None (splitlines A) 0 (reset C st)
    = (s1, Ok (Some (None, N.of_nat (length (splitlines A))))).
Proof.
  intros [HA Hv].
  assert (R : complete A = true /\ ks_state C s1 = None /\
    run (handle_include C cf (read_kickstart C dispatch cf n)) None (splitlines A) 0 (reset C st)
      = (s1, Ok (Some (None, N.of_nat (length (splitlines A)))))).
  { destruct Hv as [H8|Hn]; [apply has_read_run; auto|].
    destruct HA as (H1 & H2 & H3). split; [exact H1|]. split; [exact H3|].
    rewrite read_string_run, run_lines_app in H2.
    set (i := handle_include C cf (read_kickstart C dispatch cf n)) in *.
    pose proof (run_lines_both C dispatch cf i (splitlines A) None 0 (reset C st) (splitlines_nonempty A)) as Hb.
    destruct (run i None (splitlines A) 0 (reset C st)) as [s2 [[[m l]|]|x]] eqn:E; [|contradiction|discriminate].
    subst l. assert (m = None) as ->.
    { eapply command_part_mode; [left; exact Hn|]. fold i. exact E. }
    cbn [run_lines] in H2. rewrite steps_eq in H2. cbn [step sm_step] in H2.
    change (String.eqb "" "") with true in H2. cbn [outcome] in H2. injection H2 as ->. rewrite N.add_0_l. reflexivity. }
  destruct R as (R1 & R2 & R3). split; [exact R1|]. split; [exact R2|]. split; [|exact R3].
  pose proof (run_lines_deep C dispatch cf _ (include_deep C dispatch cf n) (splitlines A) None 0 (reset C st)) as Dp.
  rewrite R3 in Dp. destruct Dp as [_ Dp]. apply Dp. reflexivity.
Qed.

Lemma packages_body i t lines : forall q q' ln st,
  assoc "%packages" (ks_sections C st) = Some (SPackages t) -> sh_packages (ks_sec C st) = q ->
  (forall l, In l lines -> l <> "") ->
  forallb (fun l => negb (startswith (lstrip l) "%")) lines = true ->
  read_lines lines q = (q', None) ->
  run i (Some "%packages") lines ln st =
    (set_section C "%packages" (SPackages t) (mkSH (sh_scripts (ks_sec C st)) q' (sh_nulls (ks_sec C st))) st,
     Ok (Some (Some "%packages", (ln + N.of_nat (length lines))%N))).
Proof.
  induction lines as [|l lines IH]; intros q q' ln st Ho Hq Hl Hm Hr.
  { cbn [read_lines] in Hr. injection Hr as <-. cbn [run_lines length]. rewrite N.add_0_r. do 2 f_equal.
    unfold set_section. rewrite put_id by exact Ho. subst q. destruct st as [? [? ? ?] ? ? ? ? ? ?]; reflexivity. }
  cbn [forallb] in Hm. apply andb_true_iff in Hm as [Hm Hms]. apply negb_true_iff in Hm.
  cbn [run_lines]. rewrite steps_eq. cbn [step]. unfold rs_step.
  assert (He : String.eqb l "" = false) by (apply String.eqb_neq, Hl; simpl; auto).
  rewrite He. cbn [andb]. unfold all_lines. rewrite Ho. cbn [allLines negb]. rewrite andb_true_r, ibc_eq.
  cbn [read_lines] in Hr. destruct (blank l || comment l).
  - rewrite (IH q q'); auto; [|intros x Hx; apply Hl; simpl; auto].
    cbn [length]. do 4 f_equal. lia.
  - rewrite Hm. unfold call_line. rewrite Ho. cbn [sec_handleLine]. rewrite Hq.
    destruct (packages_handleLine l q) as [q1 [e|]]; [discriminate|].
    rewrite (IH q1 q'); auto.
    + f_equal; [|cbn [length]; do 3 f_equal; lia]. unfold set_section. cbn. rewrite put_put. reflexivity.
    + unfold set_section. cbn. rewrite assoc_put, String.eqb_refl. reflexivity.
    + intros x Hx; apply Hl; simpl; auto.
Qed.

Lemma packages_section n st A s1 args h b e q0 q :
  commands_read dispatch cf n st A s1 -> has_packages s1 ->
  section_line "%packages" args h -> no_markers b -> section_end (cf_version cf) e ->
  packages_handleHeader (cf_version cf) (N.of_nat (length (splitlines A)) + 1) ("%packages" :: args) (sh_packages (ks_sec C s1)) = (q0, None) ->
  read_lines (splitlines b) q0 = (q, None) ->
  exists s2, readKickstartFromString C dispatch cf n (A ++ h ++ b ++ e) st = (s2, None) /\ ks_state C s2 = None /\
    only_selects q s1 s2 /\ has_packages s2.
Proof.
  intros HA (t & Ho) Hh [Hb1 Hb2] He Hq0 Hq.
  apply commands_read_run in HA as (HA & Hst & Hd & R).
  rewrite read_string_run, (splitlines_app A) by auto.
  assert (Hh' := Hh). destruct Hh' as (Hh1 & Hh2 & Hh3 & Hs & _).
  rewrite (splitlines_app h), (splitlines_app b), Hh1 by auto.
  set (i := handle_include C cf (read_kickstart C dispatch cf n)) in *.
  rewrite <- app_assoc, run_lines_app, R. cbn [app]. cbn [run_lines]. rewrite steps_eq. cbn [step].
  set (ln := N.of_nat (length (splitlines A))) in *.
  assert (S : sm_step C dispatch cf i h ln s1 =
    (set_section C "%packages" (SPackages (t + 1)) (mkSH (sh_scripts (ks_sec C s1)) q0 (sh_nulls (ks_sec C s1)))
       (set_state C (Some "%packages") s1), Ok (Go (Some "%packages") (ln + 1)%N))).
  { unfold sm_step. assert (Hl : String.eqb h "" = false) by (apply String.eqb_neq; intros ->; discriminate).
    rewrite Hl, ibc_eq, Hh3, Hs. change (String.eqb "%packages" "%include") with false.
    rewrite Hst. change (String.eqb "%packages" "%ksappend") with false. cbv iota.
    change (Ascii.eqb "%" "%") with true. cbv iota. 
    assert (Hv : valid_state C s1 "%packages" = true) by (unfold valid_state, has_key; rewrite Ho; reflexivity).
    rewrite Hv. cbn [negb andb]. cbv zeta. unfold call_header. cbn [ks_sections set_state]. rewrite Ho. cbn [sec_handleHeader].
    change (ks_sec C (set_state C (Some "%packages") s1)) with (ks_sec C s1). rewrite Hq0. reflexivity. }
  rewrite S. cbv iota. clear S.
  set (sh := set_section C "%packages" (SPackages (t + 1)) (mkSH (sh_scripts (ks_sec C s1)) q0 (sh_nulls (ks_sec C s1)))
       (set_state C (Some "%packages") s1)).
  assert (Osh : assoc "%packages" (ks_sections C sh) = Some (SPackages (t + 1))).
  { unfold sh, set_section. cbn. rewrite assoc_put, String.eqb_refl. reflexivity. }
  rewrite <- app_assoc, run_lines_app. rewrite (packages_body i (t + 1) (splitlines b) q0 q); auto; [|apply splitlines_nonempty].
  set (sb := set_section C "%packages" (SPackages (t + 1)) (mkSH (sh_scripts (ks_sec C sh)) q (sh_nulls (ks_sec C sh))) sh).
  assert (Osb : assoc "%packages" (ks_sections C sb) = Some (SPackages (t + 1))).
  { unfold sb, set_section. cbn. rewrite assoc_put, String.eqb_refl. reflexivity. }
  assert (F : finalize C "%packages" sb = (set_state C None (set_section C "%packages" (SPackages (t + 1)) (ks_sec C sb) sb), None)).
  { unfold finalize. rewrite Osb. reflexivity. }
  set (s2 := set_state C None (set_section C "%packages" (SPackages (t + 1)) (ks_sec C sb) sb)) in *.
  assert (Fin : outcome C (run i (Some "%packages") (splitlines e ++ [""]) (ln + 1 + N.of_nat (length (splitlines b)))%N sb) = (s2, None)).
  { destruct He as [[He1 He2]|[Hv ->]].
    - rewrite He1. cbn [app run_lines]. rewrite steps_eq. cbn [step]. rewrite rs_end by exact He2. rewrite F. cbv iota.
      rewrite steps_eq. cbn [step sm_step]. change (String.eqb "" "") with true. reflexivity.
    - cbn [splitlines app run_lines]. rewrite steps_eq. cbn [step]. unfold rs_step.
      change (ks_depth C sb) with (ks_depth C s1). rewrite Hd. change (String.eqb "" "" && N.eqb 0 0) with true.
      assert (E8 : (F8 <=? cf_version cf)%Z = false) by (apply Z.leb_gt; exact Hv). rewrite E8. cbn [andb].
      rewrite F. cbv iota. unfold all_lines.
      assert (E : assoc "%packages" (ks_sections C s2) = Some (SPackages (t + 1))).
      { unfold s2, set_section. cbn. rewrite assoc_put, String.eqb_refl. reflexivity. }
      rewrite E. reflexivity. }
  rewrite Fin. exists s2. split; [reflexivity|]. split; [reflexivity|]. split.
  - unfold only_selects, s2, sb, sh, set_state, set_section, known. cbn.
    split; [reflexivity|]. split; [reflexivity|]. split; [reflexivity|]. split; [reflexivity|]. split.
    + rewrite !put_put, map_fst_put. unfold has_key. rewrite Ho. reflexivity.
    + intros m Hm. apply String.eqb_neq in Hm. rewrite !assoc_put, Hm. reflexivity.
  - exists (t + 1)%N. unfold s2, set_section. cbn. rewrite assoc_put, String.eqb_refl. reflexivity.
Qed.

Lemma commands_read_blank n st A s1 : commands_read dispatch cf n st A s1 -> commands_read dispatch cf n st (A ++ nl) s1.
Proof.
  intros H. pose proof (commands_read_run _ _ _ _ H) as (HA & Hst & Hd & R). destruct H as [_ Hv].
  split; [|destruct Hv as [Hv|Hv]; [left; exact Hv|right]].
  - split; [apply complete_nl|]. split; [|exact Hst].
    rewrite read_string_run, splitlines_app by exact HA. rewrite <- app_assoc, run_lines_app, R.
    change (splitlines nl ++ [""]) with [nl; ""]. cbn [run_lines]. rewrite steps_eq. cbn [step].
    rewrite sm_inert; [|reflexivity|discriminate]. rewrite steps_eq. cbn [step sm_step]. change (String.eqb "" "") with true. reflexivity.
  - unfold no_sections in *. rewrite splitlines_app by exact HA. rewrite forallb_app, Hv. reflexivity.
Qed.

End Reading.

(** ** Lines of a written selection *)

Lemma clean_read l : clean l = true -> blank (l ++ nl) || comment (l ++ nl) = false /\
  startswith (lstrip (l ++ nl)) "%" = false /\
  splitlines (l ++ nl) = [(l ++ nl)%string] /\
  forall p, packages_handleLine (l ++ nl) p = packages_add [l] p.
Proof.
  intros H. apply clean_spec in H as (H1 & H2 & H3 & H4 & H5).
  destruct (strip_spec l) as [E|E]; [congruence|]. rewrite H2 in E. unfold stripped in E. apply andb_true_iff in E as [E1 E2].
  destruct l as [|c r]; [congruence|]. cbn [head_ok] in E1. apply negb_true_iff in E1.
  assert (L : lstrip (String c r ++ nl) = (String c r ++ nl)%string).
  { apply lstrip_by_head. cbn. rewrite E1. reflexivity. }
  split; [|split; [|split]].
  - apply orb_false_iff. split.
    + unfold blank. cbn. rewrite E1. reflexivity.
    + unfold comment. rewrite L. cbn [append]. rewrite startswith_cons, startswith_nil, andb_true_r.
      cbn [has_char] in H3. apply orb_false_iff in H3 as [H3 _]. exact H3.
  - rewrite L. cbn [append]. rewrite startswith_cons, startswith_nil in *. exact H5.
  - apply single_line, H4.
  - intros p. unfold packages_handleLine. rewrite partition_char_none.
    + cbn [fst]. f_equal. f_equal. unfold rstrip. rewrite rstrip_by_app_all by reflexivity. apply rstrip_by_last, E2.
    + rewrite has_char_app, H3. reflexivity.
Qed.

Lemma written_lines ls : forallb clean ls = true ->
  let b := concat_all (map (fun l => (l ++ nl)%string) ls) in
  no_markers b /\ forall p, read_lines (splitlines b) p = add_seq ls p.
Proof.
  cbv zeta. induction ls as [|l ls IH]; intros H.
  { split; [split; reflexivity|reflexivity]. }
  cbn [forallb] in H. apply andb_true_iff in H as [Hl H]. destruct (IH H) as [[I1 I2] I3].
  destruct (clean_read l Hl) as (R1 & R2 & R3 & R4). cbn [map concat_all].
  rewrite splitlines_app by apply complete_nl. rewrite R3. split.
  - split; [apply complete_app; [apply complete_nl|exact I1]|].
    rewrite splitlines_app by apply complete_nl. rewrite R3. cbn [app forallb]. rewrite R2. exact I2.
  - intros p. cbn [app read_lines add_seq]. rewrite R1, R4. destruct (packages_add [l] p) as [q [x|]]; auto.
Qed.

Lemma read_lines_app a b p q : read_lines a p = (q, None) -> read_lines (a ++ b) p = read_lines b q.
Proof.
  revert p. induction a as [|l a IH]; intros p H; [injection H as ->; reflexivity|]. cbn [read_lines app] in *.
  destruct (blank l || comment l); [apply IH, H|].
  destruct (packages_handleLine l p) as [p1 [e|]]; [discriminate|]. apply IH, H.
Qed.

Lemma content_clean p : proper_lists p -> forallb clean (content_lines p) = true.
Proof.
  intros (L1 & L2 & L3 & L4 & L5 & L6 & L7 & L8 & L9). unfold content_lines. rewrite !forallb_app.
  repeat (apply andb_true_iff; split).
  - destruct (pk_default p); [reflexivity|]. destruct (pk_environment p) as [[|c e]|]; try reflexivity.
    specialize (L9 _ eq_refl). unfold environment_name in L9. apply andb_true_iff in L9 as [L9 _].
    cbn [forallb]. rewrite andb_true_r. exact L9.
  - apply forallb_forall. intros x Hx. apply in_map_iff in Hx as (g & <- & Hg). apply group_str_clean.
    apply Forall_sorted in L6. rewrite Forall_forall in L6. auto.
  - apply forallb_forall. intros x Hx. rewrite sort_str_in in Hx. rewrite Forall_forall in L1. specialize (L1 x Hx).
    unfold package_name in L1. apply andb_true_iff in L1 as [L1 _]. apply andb_true_iff in L1 as [L1 _]. exact L1.
  - apply forallb_forall. intros x Hx. apply in_map_iff in Hx as (g & <- & Hg).
    apply Forall_sorted in L8. rewrite Forall_forall in L8. destruct (L8 g Hg) as [X Y]. unfold group_str. rewrite Y. exact X.
  - apply forallb_forall. intros x Hx. apply in_map_iff in Hx as (y & <- & Hy). rewrite sort_str_in in Hy.
    rewrite Forall_forall in L3. specialize (L3 y Hy). unfold excluded_name in L3.
    apply andb_true_iff in L3 as [L3 _]. apply andb_true_iff in L3 as [L3 _]. exact L3.
Qed.

Lemma written_options_plain ver p : fits ver p ->
  forallb (fun x => plain_text x && negb (String.eqb x "")) ("%packages" :: map text (written_options p)) = true.
Proof.
  intros (_ & _ & _ & _ & _ & _ & _ & HL). cbn [forallb]. change (plain_text "%packages" && negb (String.eqb "%packages" "")) with true. cbn [andb].
  assert (F : forall b o, plain_text o && negb (String.eqb o "") = true -> forallb (fun x => plain_text x && negb (String.eqb x "")) (map text (opt_flag b o)) = true).
  { intros [] o H; [|reflexivity]. cbn [opt_flag map text forallb]. rewrite H. reflexivity. }
  assert (V : forall v o, plain_text (o ++ "=") && negb (String.eqb (o ++ "=") "") = true -> (forall x, v = Some x -> plain_text x = true) ->
    forallb (fun x => plain_text x && negb (String.eqb x "")) (map text (opt_val v o)) = true).
  { intros [x|] o H Hx; [|reflexivity]. specialize (Hx x eq_refl). cbn [opt_val map text forallb]. rewrite andb_true_r.
    apply andb_true_iff in H as [H H']. unfold plain_text in *. rewrite <- app_assoc_s, all_chars_app, H, Hx. cbn [andb].
    destruct (o ++ "=")%string; [discriminate|reflexivity]. }
  unfold written_options. rewrite !map_app, !forallb_app.
  repeat (apply andb_true_iff; split); try (apply F; reflexivity).
  - apply V; [reflexivity|]. intros x Hx. apply (HL x Hx).
  - apply V; [reflexivity|]. intros x Hx. apply map_str_Some in Hx as (z & _ & ->). apply number_plain.
  - apply V; [reflexivity|]. intros x Hx. apply map_str_Some in Hx as (z & _ & ->). apply number_plain.
Qed.

Lemma written_packages_line ver p : fits ver p ->
  section_line "%packages" (map text (written_options p)) (join " " ("%packages" :: map text (written_options p)) ++ nl).
Proof.
  intros H. pose proof (written_options_plain ver p H) as W.
  assert (P : exists r, (join " " ("%packages" :: map text (written_options p)) ++ nl)%string = String "%" r).
  { rewrite join_space_cons. cbn. eauto. }
  split; [apply single_line, join_no_break, W|]. split; [apply complete_nl|]. split; [destruct P as [r ->]; reflexivity|].
  split; [apply split_plain; [exact W|discriminate|reflexivity]|]. repeat split; discriminate.
Qed.

Lemma packages_str_words ver p : packages_str ver p <> "" ->
  packages_str ver p =
  (nl ++ (join " " ("%packages" :: map text (written_options p)) ++ nl) ++
   (concat_all (map (fun l => (l ++ nl)%string) (content_lines p)) ++ nl) ++
   (if (F8 <=? ver)%Z then "%end" ++ nl else ""))%string.
Proof.
  unfold packages_str. destruct (_ && _ && _); [congruence|]. intros _.
  rewrite join_space_cons, <- written_options_text, <- content_lines_text.
  destruct (F8 <=? ver)%Z; rewrite !app_assoc_s; rewrite ?app_nil_r_s; reflexivity.
Qed.

Lemma as_read_str ver p : packages_str ver p <> "" -> packages_str ver (as_read p) = packages_str ver p.
Proof.
  intros H. rewrite (packages_str_words ver p H).
  assert (O : written_options (as_read p) = written_options p) by reflexivity.
  assert (K : content_lines (as_read p) = content_lines p).
  { unfold content_lines, as_read. cbn [pk_default pk_environment pk_groupList pk_packageList pk_excludedGroupList pk_excludedList].
    rewrite !sort_groups_idem, !sort_str_idem. reflexivity. }
  rewrite packages_str_words.
  - rewrite O, K. reflexivity.
  - unfold packages_str. cbn [as_read pk_seen negb]. rewrite andb_false_r. destruct (F8 <=? ver)%Z; discriminate.
Qed.

Lemma section_round_trip C (dispatch : C -> string -> list string -> N -> C * option exn) cf n st A s1 p :
  commands_read dispatch cf n st A s1 -> has_packages s1 -> sh_packages (ks_sec C s1) = new_packages ->
  fits (cf_version cf) p -> proper_lists p -> clear_groups p -> packages_str (cf_version cf) p <> "" ->
  exists s2, readKickstartFromString C dispatch cf n (A ++ packages_str (cf_version cf) p) st = (s2, None) /\ ks_state C s2 = None /\
    only_selects (as_read p) s1 s2 /\ has_packages s2.
Proof.
  intros HA Ho Hn Hf Hl Hc Hs. apply commands_read_blank in HA. rewrite packages_str_words by exact Hs.
  destruct (written_lines (content_lines p) (content_clean p Hl)) as [[N1 N2] W2].
  set (b := concat_all (map (fun l => (l ++ nl)%string) (content_lines p))) in *.
  destruct (packages_section C dispatch cf n st (A ++ nl) s1 (map text (written_options p))
    (join " " ("%packages" :: map text (written_options p)) ++ nl) (b ++ nl) (if (F8 <=? cf_version cf)%Z then "%end" ++ nl else "")
    (settings p) (as_read p)) as (s2 & R); auto.
  - apply written_packages_line with (ver := cf_version cf), Hf.
  - split; [apply complete_nl|]. rewrite splitlines_app by exact N1. rewrite forallb_app, N2. reflexivity.
  - unfold section_end. destruct (F8 <=? cf_version cf)%Z eqn:E; [left; split; vm_compute; reflexivity|right].
    apply Z.leb_gt in E. auto.
  - rewrite Hn. apply written_header, Hf.
  - rewrite splitlines_app by exact N1. erewrite read_lines_app.
    2:{ rewrite W2. apply content_read; auto. intros Hd. apply Hf, Hd. }
    reflexivity.
  - exists s2. rewrite !app_assoc_s in *. exact R.
Qed.

(** ** Selections that come out of the parser *)

Definition word_of (Q : ascii -> bool) (w : string) : Prop :=
  w <> "" /\ all_chars (fun c => negb (is_space c) && Q c) w = true.

Lemma split_ws_words Q s : all_chars Q s = true -> Forall (word_of Q) (split_ws s).
Proof.
  induction s as [|c s IH]; intros H; [constructor|]. cbn [all_chars] in H. apply andb_true_iff in H as [Hc H]. specialize (IH H).
  cbn [split_ws]. destruct (is_space c) eqn:E; [exact IH|].
  assert (W : word_of Q (String c "")) by (split; [discriminate|]; cbn; rewrite E, Hc; reflexivity).
  destruct s as [|d s]; [constructor; auto|]. destruct (is_space d) eqn:Ed; [constructor; auto|].
  destruct (split_ws (String d s)) as [|h t]; [constructor; auto|]. inversion IH as [|? ? [H1 H2] H3]; subst.
  constructor; [|exact H3]. split; [discriminate|]. cbn [all_chars]. rewrite E, Hc, H2. reflexivity.
Qed.

Lemma split_ws_word Q w : word_of Q w -> split_ws w = [w].
Proof.
  intros [Hn H]. induction w as [|c w IH]; [congruence|]. cbn [all_chars] in H. apply andb_true_iff in H as [Hc H].
  apply andb_true_iff in Hc as [Hc _]. apply negb_true_iff in Hc. cbn [split_ws]. rewrite Hc.
  destruct w as [|d w]; [reflexivity|]. cbn [all_chars] in H. apply andb_true_iff in H as [Hd H].
  apply andb_true_iff in Hd as [Hd Hq]. apply negb_true_iff in Hd. rewrite Hd. rewrite IH; [reflexivity|discriminate|].
  cbn [all_chars]. rewrite Hd, Hq, H. reflexivity.
Qed.

Lemma split_ws_join Q ws : Forall (word_of Q) ws -> split_ws (join " " ws) = ws.
Proof.
  induction ws as [|w ws IH]; intros H; [reflexivity|]. inversion H as [|? ? H1 H2]; subst.
  destruct ws as [|v ws]; [apply (split_ws_word Q), H1|].
  change (join " " (w :: v :: ws)) with (w ++ String SP (join " " (v :: ws)))%string.
  rewrite split_ws_app, IH by exact H2. rewrite (split_ws_word Q) by exact H1. reflexivity.
Qed.

Lemma join_chars Q ws : Q SP = true -> Forall (word_of Q) ws -> all_chars Q (join " " ws) = true.
Proof.
  intros HS. induction ws as [|w ws IH]; intros H; [reflexivity|]. inversion H as [|? ? [_ H1] H2]; subst.
  assert (W : all_chars Q w = true).
  { eapply all_chars_impl; [|exact H1]. intros c Hc. now apply andb_true_iff in Hc. }
  destruct ws as [|v ws]; [exact W|].
  change (join " " (w :: v :: ws)) with (w ++ String SP (join " " (v :: ws)))%string.
  rewrite all_chars_app, W. cbn [all_chars andb]. rewrite HS. apply IH, H2.
Qed.

Lemma join_last Q ws : ws <> [] -> Forall (word_of Q) ws -> last_ok (fun c => negb (is_space c)) (join " " ws) = true.
Proof.
  induction ws as [|w ws IH]; intros Hn H; [congruence|]. inversion H as [|? ? [H0 H1] H2]; subst.
  destruct ws as [|v ws].
  - cbn [join]. clear - H0 H1. induction w as [|c w IH]; [congruence|]. cbn [all_chars] in H1.
    apply andb_true_iff in H1 as [Hc H1]. apply andb_true_iff in Hc as [Hc _]. destruct w; [exact Hc|]. apply IH; [discriminate|exact H1].
  - change (join " " (w :: v :: ws)) with (w ++ " " ++ join " " (v :: ws))%string.
    assert (J : join " " (v :: ws) <> "").
    { inversion H2 as [|? ? [Hv _] _]; subst. destruct v; [congruence|]. destruct ws; discriminate. }
    rewrite last_ok_app by discriminate. rewrite last_ok_app by exact J. apply IH; [discriminate|exact H2].
Qed.

Definition entry_char (c : ascii) : bool := negb (is_linebreak c) && negb (Ascii.eqb HASH c).

Lemma group_entry r : clean (String "@" r) = true -> group_words r = true ->
  no_caret (join " " (filter (fun w => negb (group_option w)) (split_ws r))) = true ->
  group_name (join " " (filter (fun w => negb (group_option w)) (split_ws r))) = true.
Proof.
  intros Hc Hw Hn. apply clean_spec in Hc as (_ & _ & H3 & H4 & _).
  assert (Q : all_chars entry_char r = true).
  { cbn [has_char all_chars] in H3, H4. apply orb_false_iff in H3 as [_ H3]. apply andb_true_iff in H4 as [_ H4].
    apply has_char_all in H3. clear - H3 H4. induction r as [|c r IH]; [reflexivity|]. cbn [all_chars] in *.
    apply andb_true_iff in H3 as [A B], H4 as [D E]. unfold entry_char at 1. rewrite A, D, IH; auto. }
  pose proof (split_ws_words _ _ Q) as W.
  assert (W' : Forall (word_of entry_char) (filter (fun w => negb (group_option w)) (split_ws r))).
  { rewrite Forall_forall in *. intros x Hx. apply filter_In in Hx as [Hx _]. auto. }
  set (ws := filter (fun w => negb (group_option w)) (split_ws r)) in *.
  assert (J : all_chars entry_char (join " " ws) = true) by (apply join_chars; [reflexivity|exact W']).
  unfold group_name. rewrite Hn, (split_ws_join _ _ W'), String.eqb_refl. 
  assert (F : forallb (fun w => negb (startswith w "-")) ws = true).
  { unfold group_words in Hw. rewrite forallb_forall in *. intros x Hx. unfold ws in Hx. apply filter_In in Hx as [Hx Ho].
    specialize (Hw x Hx). apply negb_true_iff in Ho. rewrite Ho in Hw. exact Hw. }
  rewrite F, !andb_true_r. unfold clean. rewrite strip_stripped.
  - rewrite String.eqb_refl. change ("@" ++ join " " ws)%string with (String "@" (join " " ws)). 
    cbn [has_char all_chars]. rewrite startswith_cons. change (Ascii.eqb "%" "@") with false. cbn [andb negb].
    change (negb (String.eqb (String "@" (join " " ws)) "")) with true. rewrite !andb_true_r. cbn [andb].
    apply andb_true_iff; split.
    + apply negb_true_iff. apply orb_false_iff. split; [reflexivity|]. apply has_char_all. eapply all_chars_impl; [|exact J].
      intros c Hc. apply andb_true_iff in Hc as [_ Hc]. exact Hc.
    + eapply all_chars_impl; [|exact J]. intros c Hc. apply andb_true_iff in Hc as [Hc _]. exact Hc.
  - unfold stripped. apply andb_true_iff; split; [reflexivity|]. destruct ws as [|w ws'] eqn:E; [reflexivity|].
    rewrite last_ok_app.
    + apply (join_last entry_char); [discriminate|exact W'].
    + inversion W' as [|? ? [Hv _] _]; subst. destruct w; [congruence|]. destruct ws'; discriminate.
Qed.

Lemma add_one_rest l p q : packages_add [l] p = (q, None) -> proper_entry (strip l) = true ->
  settings q = settings p /\
  (forall g, In g (pk_groupList q) -> In g (pk_groupList p) \/ group_name (g_name g) = true) /\
  (forall g, In g (pk_excludedGroupList q) -> In g (pk_excludedGroupList p) \/
     (excluded_group_name (g_name g) = true /\ g_include g = GDefault)) /\
  (forall e, pk_environment q = Some e -> pk_environment p = Some e \/ environment_name e = true).
Proof.
  unfold packages_add, add_lines, add_line, proper_entry. intros H Hp. apply andb_true_iff in Hp as [Hc Hp].
  assert (G : forall (l : list group) ns g, In g (filter (fun g => negb (mem (g_name g) ns)) l) -> In g l).
  { intros ll ns g Hg. now apply filter_In in Hg. }
  destruct (startswith (strip l) "@^") eqn:E0.
  { injection H as <-. split; [reflexivity|]. cbn -[drop append]. split; [|split].
    - intros g Hg. left. eapply (G _ []), Hg.
    - intros g Hg. rewrite app_nil_r in Hg. auto.
    - intros e He. injection He as <-. right. change (environment_name (drop 2 (strip l)) = true). unfold environment_name. apply app_drop2 in E0. rewrite <- E0, Hc. cbn [andb].
      apply negb_true_iff, String.eqb_neq. intros X. rewrite X in E0. rewrite E0 in Hp. discriminate. }
  destruct (strip l) as [|c r] eqn:Es; [discriminate|].
  rewrite startswith_cons, startswith_nil, andb_true_r in Hp. rewrite (Ascii.eqb_sym "@" c) in Hp.
  destruct (Ascii.eqb c "@") eqn:Ec.
  - apply Ascii.eqb_eq in Ec. subst c. cbn [drop ac_pk] in *. apply andb_true_iff in Hp as [Hw Hn].
    pose proof (group_entry r Hc Hw Hn) as Hg.
    rewrite (process_group_spec r p Hw) in H. cbv zeta in H.
    destruct (mem "--nodefaults" (split_ws r)), (mem "--optional" (split_ws r)); cbn [bind] in H; [discriminate| | |];
      (destruct (existsb _ _) eqn:Ex; injection H as <-; cbn;
       (split; [reflexivity|]; split; [|split; [intros g Hg'; rewrite app_nil_r in Hg'; auto|auto]]);
       intros g Hg'; apply (G _ []) in Hg'; auto; cbn in Hg'; apply in_app_iff in Hg' as [Hg'|[<-|[]]]; auto).
  - destruct (Ascii.eqb c "-") eqn:Ed.
    + apply Ascii.eqb_eq in Ed. subst c. destruct (_ && _) eqn:Ee.
      { injection H as <-. cbn. split; [reflexivity|]. split; [intros g Hg; left; eapply (G _ []), Hg|].
        split; [intros g Hg; rewrite app_nil_r in Hg; auto|discriminate]. }
      destruct r as [|d r']; [discriminate|]. destruct (Ascii.eqb d "@") eqn:Ea.
      * apply Ascii.eqb_eq in Ea. subst d. injection H as <-. cbn. split; [reflexivity|].
        split; [intros g Hg; left; eapply (G _ [_]), Hg|]. split; [|auto].
        intros g Hg. apply in_app_iff in Hg as [Hg|[<-|[]]]; auto.
      * injection H as <-. cbn. split; [reflexivity|]. split; [intros g Hg; left; eapply (G _ []), Hg|].
        split; [intros g Hg; rewrite app_nil_r in Hg; auto|auto].
    + injection H as <-. cbn. split; [reflexivity|]. split; [intros g Hg; left; eapply (G _ []), Hg|].
      split; [intros g Hg; rewrite app_nil_r in Hg; auto|auto].
Qed.

Lemma strict_nodup l : strictly_sorted l -> NoDup l.
Proof.
  unfold strictly_sorted. induction l as [|a l IH]; intros H; [constructor|]. inversion H as [|? ? H1 H2]; subst.
  constructor; [|auto]. intros Hin. rewrite Forall_forall in H2. specialize (H2 a Hin). unfold str_ltb in H2.
  destruct (str_leb_total a a) as [E|E]; rewrite E in H2; discriminate.
Qed.

Definition well (p : packages) : Prop := proper_lists p /\ sorted_disjoint p.

Lemma add_one_well l p q : packages_add [l] p = (q, None) -> proper_entry (strip l) = true -> well p ->
  well q /\ settings q = settings p.
Proof.
  intros H He [(L1 & L2 & L3 & L4 & L5 & L6 & L7 & L8 & L9) (S1 & S2 & S3)].
  destruct (add_one_rest l p q H He) as (R1 & R2 & R3 & R4). split; [|exact R1].
  assert (I : pk_inv q).
  { pose proof (packages_add_inv [l] p (conj S1 (conj S2 L7))) as I. rewrite H in I. exact I. }
  destruct I as (I1 & I2 & I3).
  assert (D : forall x, In x (pk_packageList q) -> ~ In x (pk_excludedList q)).
  { intros x Hx Hx'. pose proof (add_one_disjoint l p S3) as D. rewrite H in D. exact (D x Hx Hx'). }
  assert (A := add_one_lists l p). rewrite H in A. cbn [fst snd] in A.
  apply andb_true_iff in He as [Hc _].
  rewrite Forall_forall in *.
  split; [|split; [exact I1|split; [exact I2|exact D]]].
  unfold proper_lists. rewrite !Forall_forall. split.
  { intros x Hx. destruct (A x) as [A1 _]. apply A1 in Hx. unfold mention in Hx.
    destruct (strip l) as [|c r] eqn:Es; [auto|]. destruct (Ascii.eqb c "@") eqn:E1; [auto|].
    destruct (Ascii.eqb c "-") eqn:E2.
    - destruct r as [|d r]; [auto|]. destruct (Ascii.eqb d "@"); [auto|]. destruct (String.eqb x _); [discriminate|auto].
    - destruct (String.eqb_spec x (String c r)) as [->|]; [|auto]. unfold package_name. rewrite Hc.
      rewrite !startswith_cons, !startswith_nil, !andb_true_r, (Ascii.eqb_sym "@"), (Ascii.eqb_sym "-"), E1, E2. reflexivity. }
  split; [apply strict_nodup, I1|]. split.
  { intros x Hx. destruct (A x) as [_ A1]. apply A1 in Hx. unfold mention in Hx.
    destruct (strip l) as [|c r] eqn:Es; [apply L3; tauto|]. destruct (Ascii.eqb c "@") eqn:E1; [apply L3; tauto|].
    destruct (Ascii.eqb c "-") eqn:E2.
    - destruct r as [|d r]; [apply L3; tauto|]. destruct (Ascii.eqb d "@") eqn:E3; [apply L3; tauto|].
      destruct (String.eqb_spec x (String d r)) as [->|]; [|apply L3; tauto]. apply Ascii.eqb_eq in E2. subst c.
      unfold excluded_name. change ("-" ++ String d r)%string with (String "-" (String d r)). rewrite Hc.
      rewrite !startswith_cons, !startswith_nil, (Ascii.eqb_sym "@"), E3. reflexivity.
    - destruct (String.eqb x _); [discriminate|]. apply L3; tauto. }
  split; [apply strict_nodup, I2|]. split; [exact D|]. split.
  { intros g Hg. apply R2 in Hg as [Hg|Hg]; auto. }
  split; [exact I3|]. split.
  { intros g Hg. apply R3 in Hg as [Hg|Hg]; auto. }
  intros e Ee. apply R4 in Ee as [Ee|Ee]; auto.
Qed.

Lemma strip_rstrip s : strip (rstrip s) = strip s.
Proof.
  assert (X : forall c r, is_space c = false -> lstrip (String c r) = String c r).
  { intros c r H. apply lstrip_by_head. cbn. rewrite H. reflexivity. }
  induction s as [|c s IH]; [reflexivity|]. unfold rstrip. cbn [rstrip_by]. fold (rstrip s).
  destruct (rstrip s) as [|d t] eqn:E.
  - destruct (is_space c) eqn:Ec.
    + symmetry. unfold rstrip in E. apply rstrip_by_nil in E. apply strip_nil. cbn. rewrite Ec. exact E.
    + unfold strip. rewrite !X by exact Ec. unfold rstrip in *. cbn [rstrip_by]. rewrite E, Ec. reflexivity.
  - destruct (is_space c) eqn:Ec.
    + unfold strip, lstrip in *. cbn [lstrip_by]. rewrite Ec. exact IH.
    + unfold strip. rewrite !X by exact Ec. unfold rstrip in *. cbn [rstrip_by]. fold (rstrip s). unfold rstrip. rewrite E.
      pose proof (rstrip_by_last_spec is_space s) as L. rewrite E in L. destruct L as [L|L]; [discriminate|].
      pose proof (rstrip_by_last _ _ L) as L'. cbn [rstrip_by] in L'. cbn [rstrip_by]. rewrite L'. reflexivity.
Qed.

Lemma read_well lines : forall p q, read_lines lines p = (q, None) -> forallb proper_line lines = true -> well p ->
  well q /\ settings q = settings p.
Proof.
  induction lines as [|l lines IH]; intros p q H Hl Hp; [injection H as <-; auto|].
  cbn [forallb] in Hl. apply andb_true_iff in Hl as [H1 H2]. cbn [read_lines] in H. unfold proper_line in H1.
  destruct (blank l || comment l); [eapply IH; eauto|]. cbn [orb] in H1.
  destruct (packages_handleLine l p) as [p1 [e|]] eqn:E; [discriminate|]. unfold packages_handleLine in E.
  destruct (add_one_well _ _ _ E) as [W1 W2]; auto.
  { rewrite strip_rstrip. exact H1. }
  destruct (IH p1 q H H2 W1) as [W3 W4]. split; [exact W3|congruence].
Qed.

Lemma has_flag_in o ws : has_flag o ws = true -> In (OFlag o) ws.
Proof.
  unfold has_flag. intros H. apply existsb_exists in H as (w & Hw & E). destruct w as [x|x v]; [|discriminate].
  apply String.eqb_eq in E. subst x. exact Hw.
Qed.
Lemma last_given_in ns ws v : last_given ns ws = Some v -> exists o, In o ns /\ In (OVal o v) ws.
Proof.
  induction ws as [|w ws IH]; [discriminate|]. cbn [last_given]. destruct (last_given ns ws) as [u|].
  - intros H. injection H as ->. destruct (IH eq_refl) as (o & Ho & Hi). exists o. simpl; auto.
  - destruct w as [x|x u]; [discriminate|]. destruct (mem x ns) eqn:E; [|discriminate]. intros H. injection H as ->.
    apply mem_In in E. exists x. simpl; auto.
Qed.

Lemma header_fits ver ws q : forallb (defined_in ver) ws = true -> contradictory ws = false ->
  settings q = settings (header_effect ver ws new_packages) ->
  (forall l, pk_instLangs q = Some l -> plain_text l = true) -> (pk_default q = true -> pk_environment q = None) ->
  fits ver q.
Proof.
  intros Hd Hc Hs Hl He. rewrite forallb_forall in Hd.
  assert (D : forall w k a b, In w ws -> assoc (name w) header_options = Some (k, a, b) -> within ver a b = true).
  { intros w k a b Hw E. specialize (Hd w Hw). unfold defined_in in Hd. rewrite E in Hd. exact Hd. }
  unfold settings, header_effect in Hs. cbv zeta in Hs. injection Hs as S1 S2 S3 S4 S5 S6 S7 S8 S9 S10 S11.
  cbn [new_packages pk_addBase pk_nocore pk_default pk_handleBroken pk_instLangs pk_multiLib pk_excludeWeakdeps pk_timeout pk_retries] in *.
  rewrite orb_false_r in S3.
  assert (Fg : forall o v, has_flag o ws = true -> assoc o header_options = Some (HFlag, Some v, None) -> (v <= ver)%Z).
  { intros o v H E. apply has_flag_in in H. specialize (D _ _ _ _ H E). unfold within in D. rewrite andb_true_r in D. apply Z.leb_le, D. }
  assert (B : forall v (x : bool), (if (v <=? ver)%Z then x else false) = true -> (v <= ver)%Z).
  { intros v x H. destruct (v <=? ver)%Z eqn:E; [apply Z.leb_le, E|discriminate]. }
  unfold fits. split.
  { intros H. pose proof H as H'. rewrite S3 in H'. pose proof (Fg _ _ H' eq_refl) as V. unfold contradictory in Hc. rewrite H' in Hc.
    cbn [andb] in Hc. apply orb_false_iff in Hc as [C1 C2]. split; [exact V|].
    rewrite S1, S2, C1, C2. split; [destruct (RHEL6 <=? ver)%Z; reflexivity|]. split; [destruct (F21 <=? ver)%Z; reflexivity|auto]. }
  split.
  { rewrite S1. intros H. destruct (RHEL6 <=? ver)%Z eqn:E; [|discriminate]. apply negb_false_iff in H. apply has_flag_in in H.
    specialize (D _ _ _ _ H eq_refl). unfold within in D. rewrite E in D. apply Z.leb_le in E. apply Z.ltb_lt in D. auto. }
  split; [rewrite S2; apply B|]. split; [rewrite S6; apply B|]. split; [rewrite S8; apply B|]. split; [rewrite S9; apply B|].
  split.
  { intros [H|H]; [rewrite S10 in H|rewrite S11 in H]; destruct (RHEL7 <=? ver)%Z eqn:E; try (apply Z.leb_le, E); congruence. }
  intros l E. split; [|apply Hl, E]. rewrite S7 in E. destruct (last_given _ ws) as [v|] eqn:G; [|discriminate].
  apply last_given_in in G as (o & [<-|[<-|[]]] & Hi); specialize (D _ _ _ _ Hi eq_refl); unfold within in D;
    rewrite andb_true_r in D; apply Z.leb_le, D.
Qed.

Lemma new_well p : pk_packageList p = [] -> pk_excludedList p = [] -> pk_groupList p = [] -> pk_excludedGroupList p = [] ->
  pk_environment p = None -> well p.
Proof.
  intros E1 E2 E3 E4 E5. unfold well, proper_lists, sorted_disjoint. rewrite E1, E2, E3, E4, E5.
  repeat split; try constructor; try discriminate; intros ? [].
Qed.
