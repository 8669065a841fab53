(** * Option tables with one positional argument *)

From Coq Require Import Lia.
From Verif Require Import PyStrFacts OptionsFacts ArgSpec ArgParseFacts ArgLineFacts ArgErrFacts ArgDecl ArgDeclFacts ArgSimple ArgTable NsFacts NsRange ArgOne.
From Verif Require Import PyCheck PyCheckFacts HandlerFacts PyFlow CmdFlow PyRound PyRoundFacts RoundSpec.
From Verif Require Import Value.
Local Open Scope string_scope.
Local Open Scope list_scope.
Local Arguments String.eqb : simpl never.

(** The argument of a table, and the table with an option in its place. *)
Definition the_word (ops : list tableop) : option (decl * nat) :=
  match filter (fun x => no_opts (fst x)) (t_acts (tabulate ops)) with [x] => Some x | _ => None end.
Definition optioned (ops : list tableop) : list tableop :=
  match the_word ops with
  | None => ops
  | Some _ => map (fun o => match o with OpAdd d => OpAdd (as_option d) | OpRemove o => OpRemove o end) ops
  end.
Definition word_name (ops : list tableop) : string := match the_word ops with Some x => ("--" ++ d_dest (fst x))%string | None => "" end.
Definition word_pair (ops : list tableop) : list (string * string) :=
  match the_word ops with
  | Some x => match d_nargs (fst x) with NInt _ => [(word_attr (d_dest (fst x)), d_dest (fst x))] | _ => [] end
  | None => []
  end.

Definition decl_dec (x y : decl) : {x = y} + {x <> y}.
Proof.
  decide equality; try apply bool_dec; try apply string_dec; try apply value_eq_dec; try apply argty_dec.
  - decide equality. apply list_eq_dec, string_dec.
  - decide equality. apply Nat.eq_dec.
  - decide equality.
  - apply list_eq_dec, string_dec.
Defined.
Definition row_dec (x y : decl * nat) : {x = y} + {x <> y}.
Proof. decide equality; [apply Nat.eq_dec|apply decl_dec]. Defined.
Definition entry_dec (x y : string * (decl * nat)) : {x = y} + {x <> y}.
Proof. decide equality; [apply row_dec|apply string_dec]. Defined.
Definition word_row (x : decl * nat) : decl * nat := (as_option (fst x), snd x).
Definition good_word (d : decl) : bool :=
  match d_kind d, d_default d, d_choices d, d_type d with
  | KStore, VNone, None, (TStr | TMount) =>
      match d_nargs d with NInt 1 => d_required d | NOpt => negb (d_required d) && String.eqb (word_attr (d_dest d)) (d_dest d) | _ => false end
  | _, _, _, _ => false
  end.
Definition apart (d x : decl) : bool := negb (String.eqb (d_dest x) (d_dest d)) && negb (String.eqb (d_dest x) (word_attr (d_dest d))).
Definition check_word (ops : list tableop) : bool :=
  match the_word ops with
  | None => negb (has_key "" (t_map (tabulate ops)))
  | Some (d, i) =>
      let T := tabulate ops in let T' := tabulate (optioned ops) in
      table_sane ops && defaults_ok ops && good_word d &&
      (if list_eq_dec row_dec (t_acts T') (map word_row (t_acts T)) then true else false) &&
      (if list_eq_dec entry_dec (del ("--" ++ d_dest d)%string (t_map T')) (t_map T) then true else false) &&
      match assoc ("--" ++ d_dest d)%string (t_map T') with Some x => if row_dec x (as_option d, i) then true else false | None => false end &&
      forallb (fun kx => apart d (fst (snd kx)) && negb (Nat.eqb (snd (snd kx)) i)) (t_map T) &&
      forallb (fun x => no_opts (fst x) || apart d (fst x)) (t_acts T) &&
      forallb (fun kx => negb (String.eqb (fst kx) ("--" ++ d_dest d)%string) || (if row_dec (snd kx) (as_option d, i) then true else false)) (t_map T')
  end.

Section Word.
Variables (ops : list tableop) (d : decl) (i : nat).
Let T := tabulate ops.
Let T' := tabulate (optioned ops).
Let p := d_dest d.
Let q := word_attr (d_dest d).
Let nm := ("--" ++ d_dest d)%string.
Hypothesis isword : the_word ops = Some (d, i).
Hypothesis chk : check_word ops = true.
Let P := act (d, i).
Let f := match d_type d with TMount => mountpoint | _ => fun s => s end.

Lemma word_only : filter (fun x => no_opts (fst x)) (t_acts T) = [(d, i)].
Proof. unfold the_word in isword. fold T in isword. destruct (filter _ _) as [|x [|? ?]]; try discriminate. now injection isword as ->. Qed.
Lemma word_in : In (d, i) (t_acts T) /\ d_opts d = [].
Proof.
  assert (H : In (d, i) (filter (fun x => no_opts (fst x)) (t_acts T))) by (rewrite word_only; now left). apply filter_In in H as [H1 H2]. split; [exact H1|].
  cbn [fst] in H2. unfold no_opts in H2. destruct (d_opts d); [reflexivity|discriminate].
Qed.
Lemma word_uniq x : In x (t_acts T) -> no_opts (fst x) = true -> x = (d, i).
Proof. intros H1 H2. assert (H : In x (filter (fun x => no_opts (fst x)) (t_acts T))) by (apply filter_In; auto). rewrite word_only in H. destruct H as [H|[]]. now symmetry. Qed.
Lemma word_parts : table_sane ops = true /\ defaults_ok ops = true /\ good_word d = true /\ t_acts T' = map word_row (t_acts T) /\ del nm (t_map T') = t_map T /\
  assoc nm (t_map T') = Some (as_option d, i) /\ (forall kx, In kx (t_map T) -> apart d (fst (snd kx)) = true /\ snd (snd kx) <> i) /\
  (forall x, In x (t_acts T) -> x = (d, i) \/ apart d (fst x) = true) /\ (forall y, In (nm, y) (t_map T') -> y = (as_option d, i)).
Proof.
  pose proof chk as H. unfold check_word in H. rewrite isword in H. cbv zeta in H. fold T T' nm in H. apply andb_prop in H as [H H9]. apply andb_prop in H as [H H8]. apply andb_prop in H as [H H7]. apply andb_prop in H as [H H6]. apply andb_prop in H as [H H5].
  apply andb_prop in H as [H H4]. apply andb_prop in H as [H H3]. apply andb_prop in H as [H1 H2]. do 3 (split; [assumption|]).
  destruct (list_eq_dec row_dec _ _) as [E4|]; [|discriminate]. split; [exact E4|]. destruct (list_eq_dec entry_dec _ _) as [E5|]; [|discriminate]. split; [exact E5|].
  destruct (assoc nm (t_map T')) as [y|]; [|discriminate]. destruct (row_dec y _) as [->|]; [|discriminate]. split; [reflexivity|]. rewrite forallb_forall in H7, H8, H9. split; [|split].
  - intros kx Hk. apply H7, andb_prop in Hk as [K1 K2]. split; [exact K1|]. apply negb_true_iff, Nat.eqb_neq in K2. exact K2.
  - intros x Hx. pose proof (H8 x Hx) as K. apply orb_prop in K as [K|K]; [left; now apply word_uniq|now right].
  - intros y Hy. specialize (H9 _ Hy). cbn [fst snd] in H9. rewrite eqb_refl_s in H9. cbn [negb orb] in H9. destruct (row_dec y _); [assumption|discriminate].
Qed.
Lemma good_parts : d_kind d = KStore /\ d_default d = VNone /\ d_choices d = None /\ (forall s, ty_fun (d_type d) s = Ok (VStr (f s))) /\
  ((d_nargs d = NInt 1 /\ d_required d = true) \/ (d_nargs d = NOpt /\ d_required d = false /\ q = p)) /\ (forall s, startswith s "-" = true -> startswith (f s) "-" = true).
Proof.
  destruct word_parts as (_ & _ & G & _). unfold good_word in G. destruct (d_kind d); try discriminate. destruct (d_default d); try discriminate. destruct (d_choices d); [discriminate|].
  assert (N : match d_nargs d with NInt 1 => d_required d | NOpt => negb (d_required d) && String.eqb (word_attr (d_dest d)) (d_dest d) | _ => false end = true) by (destruct (d_type d); try discriminate; exact G).
  do 3 (split; [reflexivity|]). split; [|split].
  - unfold f. destruct (d_type d); try discriminate; reflexivity.
  - destruct (d_nargs d) as [|[|[|?]]| | |]; try discriminate; [left; auto|right]. apply andb_prop in N as [N1 N2]. apply negb_true_iff in N1. apply String.eqb_eq in N2. auto.
  - intros s. unfold f. destruct (d_type d); try discriminate; auto. unfold mountpoint. destruct (startswith s "/") eqn:E; [|auto]. intros H. apply startswith_spec in H as (r & ->). discriminate.
Qed.
Lemma other_word o : o <> nm -> assoc o (t_map T') = assoc o (t_map T).
Proof. intros H. destruct word_parts as (_ & _ & _ & _ & E & _). rewrite <- E, assoc_del. destruct (String.eqb_spec o nm); [contradiction|reflexivity]. Qed.
Lemma del_sub {A} k (l : list (string * A)) x : In x (del k l) -> In x l.
Proof. induction l as [|[j v] l IH]; cbn [del]; [auto|]. destruct (String.eqb k j); intros H; [right; auto|]. destruct H as [->|H]; [now left|right; auto]. Qed.
Lemma map_sub x : In x (t_map T) -> In x (t_map T').
Proof. destruct word_parts as (_ & _ & _ & _ & E & _). rewrite <- E. apply del_sub. Qed.
Lemma apart_ne x : apart d x = true -> d_dest x <> p /\ d_dest x <> q.
Proof. unfold apart. intros H. apply andb_prop in H as [H1 H2]. apply negb_true_iff, String.eqb_neq in H1, H2. auto. Qed.
Lemma as_option_other x : no_opts x = false -> as_option x = x.
Proof. unfold as_option, no_opts. destruct (d_opts x); [discriminate|reflexivity]. Qed.
Lemma as_option_word : as_option d = mkDecl [nm] q KStore NOne (d_const d) VNone (d_type d) None (d_required d) (d_deprecated d).
Proof. destruct good_parts as (K & D & C & _). unfold as_option. rewrite (proj2 word_in), K, D, C. reflexivity. Qed.
Lemma act_apart x : In x (t_acts T) -> x <> (d, i) -> no_opts (fst x) = false /\ word_row x = x /\ d_dest (fst x) <> p /\ d_dest (fst x) <> q.
Proof.
  intros Hx N. assert (H : no_opts (fst x) = false) by (destruct (no_opts (fst x)) eqn:E; [destruct N; now apply word_uniq|reflexivity]).
  split; [exact H|]. split; [unfold word_row; rewrite as_option_other by exact H; now destruct x|]. destruct word_parts as (_ & _ & _ & _ & _ & _ & _ & A & _). destruct (A x Hx) as [|A']; [contradiction|now apply apart_ne].
Qed.
Lemma dests_word k : In k (PyRound.dests T') <-> (k = q \/ (exists x, In x (t_acts T) /\ x <> (d, i) /\ d_dest (fst x) = k)).
Proof.
  unfold PyRound.dests. rewrite nodup_In, in_map_iff. destruct word_parts as (_ & _ & _ & E & _). rewrite E. split.
  - intros (y & <- & Hy). apply in_map_iff in Hy as (x & <- & Hx). destruct (row_dec x (d, i)) as [->|N]; [left; cbn [word_row fst]; now rewrite as_option_word|].
    right. exists x. destruct (act_apart x Hx N) as (_ & -> & _). auto.
  - intros [->|(x & Hx & N & <-)].
    + exists (word_row (d, i)). split; [cbn [word_row fst]; now rewrite as_option_word|]. apply in_map. apply word_in.
    + exists x. split; [reflexivity|]. destruct (act_apart x Hx N) as (_ & R & _). rewrite <- R. now apply in_map.
Qed.
Lemma default_other k : k <> p -> k <> q -> tab_default (t_acts T') k = tab_default (t_acts T) k.
Proof.
  intros Np Nq. destruct word_parts as (_ & _ & _ & E & _). rewrite E. assert (G : forall x, In x (t_acts T) -> x = (d, i) \/ word_row x = x).
  { intros x Hx. destruct (row_dec x (d, i)) as [->|N]; [now left|right]. now apply act_apart. }
  clear E. revert G. induction (t_acts T) as [|x l IH]; intros G; [reflexivity|]. cbn [map tab_default].
  assert (IH' : tab_default (map word_row l) k = tab_default l k) by (apply IH; intros y Hy; apply G; now right).
  destruct (G x (or_introl eq_refl)) as [->|Rx]; [|rewrite Rx, IH'; reflexivity]. cbn [word_row fst]. rewrite as_option_word. cbn [d_dest d_default]. fold p.
  destruct (String.eqb_spec k q); [contradiction|]. destruct (String.eqb_spec k p); [contradiction|exact IH'].
Qed.
Lemma default_all_none l k : (forall x, In x l -> d_dest (fst x) = k -> d_default (fst x) = VNone) -> tab_default l k = VNone.
Proof.
  induction l as [|x l IH]; intros H; [reflexivity|]. cbn [tab_default]. destruct (String.eqb_spec k (d_dest (fst x))) as [->|]; [apply H; [now left|reflexivity]|].
  apply IH. intros y Hy. apply H. now right.
Qed.
Lemma default_word : tab_default (t_acts T') q = VNone /\ tab_default (t_acts T) p = VNone.
Proof.
  destruct good_parts as (_ & D & _). destruct word_parts as (_ & _ & _ & E & _). split; apply default_all_none.
  - rewrite E. intros y Hy Hq. apply in_map_iff in Hy as (x & <- & Hx). destruct (row_dec x (d, i)) as [->|N]; [cbn [word_row fst]; now rewrite as_option_word|].
    destruct (act_apart x Hx N) as (_ & R & _ & N2). rewrite R in Hq. contradiction.
  - intros x Hx Hp. destruct (row_dec x (d, i)) as [->|N]; [exact D|]. destruct (act_apart x Hx N) as (_ & _ & N1 & _). contradiction.
Qed.

(** ** The argument as an action *)

Lemma P_pos : a_opts P = []. Proof. exact (proj2 word_in). Qed.
Lemma P_kind : a_kind P = KStore. Proof. exact (proj1 good_parts). Qed.
Lemma P_many : a_nargs P = NInt 1 \/ a_nargs P = NOpt.
Proof. destruct good_parts as (_ & _ & _ & _ & [[N _]|[N _]] & _); [left|right]; exact N. Qed.
Lemma P_dflt : a_default P = VNone. Proof. exact (proj1 (proj2 good_parts)). Qed.
Lemma P_free : a_choices P = None. Proof. exact (proj1 (proj2 (proj2 good_parts))). Qed.
Lemma P_conv s : a_type P s = Ok (VStr (f s)). Proof. exact (proj1 (proj2 (proj2 (proj2 good_parts))) s). Qed.
Lemma P_only : positionals (build ops) = [P].
Proof.
  unfold positionals. rewrite build_tabulate. cbn [real p_actions]. fold T.
  assert (G : forall l, filter is_positional (map act l) = map act (filter (fun x => no_opts (fst x)) l)).
  { induction l as [|x l IH]; [reflexivity|]. cbn [map filter]. change (is_positional (act x)) with (no_opts (fst x)). destruct (no_opts (fst x)); cbn [map]; now rewrite IH. }
  rewrite G, word_only. reflexivity.
Qed.
Lemma lowered_none n : d_nargs d = NOpt -> lowered (word_pair ops) n = n.
Proof. intros N. unfold word_pair. rewrite isword. cbn [fst]. now rewrite N. Qed.
Lemma lowered_one n t : d_nargs d = NInt 1 -> assoc p n = Some (VStrs [t]) -> lowered (word_pair ops) n = put q (VStr t) (del p n).
Proof. intros N E. unfold word_pair. rewrite isword. cbn [fst]. rewrite N. cbn [lowered]. fold p q. rewrite E. reflexivity. Qed.
Lemma lowered_other n k : k <> p -> k <> q -> assoc k (lowered (word_pair ops) n) = assoc k n.
Proof.
  intros Np Nq. apply lowered_off. unfold word_pair. rewrite isword. cbn [fst]. destruct (d_nargs d); try reflexivity. cbn [pair_keys flat_map fst snd app]. fold q. fold p. cbn [mem existsb].
  destruct (String.eqb_spec k q); [contradiction|]. destruct (String.eqb_spec k p); [contradiction|reflexivity].
Qed.

(** ** The values of any line *)

Hypothesis simple : simple_table T' = true.
Hypothesis closed : forall x, In x (all_decls T') -> In (d_dest x) (PyRound.dests T').
Definition in_scope (k : string) (v : value) : Prop :=
  (k = p /\ (v = VNone \/ stored_value P f v)) \/ (k <> p /\ (v = tab_default (t_acts T) k \/ exists x, In x (all_decls T') /\ d_dest x = k /\ produces x v)).
Lemma word_scope ln args n r : parse_known_args (build ops) ln args = Ok (n, r) ->
  (in_range in_scope n /\ (d_nargs d = NInt 1 -> exists s, assoc p n = Some (VStrs [f s]))) /\ (forall k, has_key k n = true -> k = p \/ (k <> q /\ In k (PyRound.dests T'))).
Proof.
  intros E. destruct word_parts as (TS & DO & _ & EA & _ & _ & EM & _). destruct good_parts as (K & Df & C & Ty & Nr & _).
  pose (R := in_scope).
  assert (RG : in_range R n /\ (a_nargs P = NInt 1 -> exists s, assoc (a_dest P) n = Some (word_value P f s))).
  { apply (one_range P f P_pos P_kind P_many P_dflt P_free P_conv R) with (p := build ops) (ln := ln) (args := args) (r := r).
    - intros v Hv. left. split; [reflexivity|]. now right.
    - apply P_only.
    - intros a. now apply defaults_ok_settled.
    - intros a Ha. rewrite build_tabulate in Ha. cbn [real p_optmap] in Ha. rewrite map_map in Ha. cbn [snd] in Ha. apply in_map_iff in Ha as ([o [x j]] & <- & Hx). cbn [snd]. fold T in Hx.
      destruct (EM _ Hx) as [Ap Ni]. apply apart_ne in Ap as [Ap Aq]. cbn [fst snd] in *.
      split; [|split; [exact Ap|exact Ni]].
      pose proof simple as S. unfold simple_table in S. apply andb_prop in S as [_ S2]. rewrite forallb_forall in S2. specialize (S2 _ (map_sub _ Hx)). cbn [snd fst] in S2. unfold simple_decl in S2. apply andb_prop in S2 as [O S2].
      assert (Id : In x (all_decls T')) by (unfold all_decls; apply in_or_app; right; apply in_map_iff; exists (o, (x, j)); auto using map_sub).
      unfold stores_in_range. cbn [act action_of fst snd a_kind a_dest a_const a_opts a_nargs]. destruct (d_kind x) eqn:Kx; try discriminate.
      + right. destruct (d_nargs x); try discriminate. split; [unfold no_opts in O; destruct (d_opts x); [discriminate|discriminate]|]. split; [reflexivity|]. split; [reflexivity|].
        intros ln' s w Ew. right. split; [exact Ap|]. right. exists x. split; [exact Id|]. split; [reflexivity|]. eapply checked_produces; eauto.
      + left. split; [reflexivity|]. right. split; [exact Ap|]. right. exists x. split; [exact Id|]. split; [reflexivity|]. left. auto.
    - intros a Ha Hd. rewrite build_tabulate in Ha. cbn [real p_actions] in Ha. apply in_map_iff in Ha as (x & <- & Hx). fold T in Hx. destruct (row_dec x (d, i)) as [->|N]; [reflexivity|].
      exfalso. destruct (act_apart x Hx N) as (_ & _ & Np & _). apply Np. exact Hd.
    - intros k a Ha <-. rewrite declared_build. fold T. unfold R, in_scope. destruct (string_dec (a_dest a) p) as [->|N]; [left; split; [reflexivity|left; apply default_word]|right; auto].
    - intros N. destruct Nr as [[_ Rq]|[N' _]]; [exact Rq|]. exfalso. change (a_nargs P) with (d_nargs d) in N. congruence.
    - exact E. }
  assert (Keys : forall k, has_key k n = true -> k = p \/ (k <> q /\ In k (PyRound.dests T'))).
  { refine (parse_known_keys (fun k => k = p \/ (k <> q /\ In k (PyRound.dests T'))) (fun n => forall k, has_key k n = true -> k = p \/ (k <> q /\ In k (PyRound.dests T'))) _ _ _ _ _ _ _ _ E); [discriminate| |].
    { intros k w n0 Hk H j Hj. rewrite has_key_put in Hj. apply orb_true_iff in Hj as [Hj|Hj]; [|auto]. apply String.eqb_eq in Hj. now subst. }
    intros a Ha. unfold all_actions in Ha. rewrite build_tabulate in Ha. cbn [real p_actions p_optmap] in Ha. fold T in Ha. apply in_app_or in Ha as [Ha|Ha].
    - apply in_map_iff in Ha as (x & <- & Hx). destruct (row_dec x (d, i)) as [->|N]; [now left|right]. destruct (act_apart x Hx N) as (_ & _ & _ & Nq). split; [exact Nq|]. apply dests_word. right. exists x. auto.
    - rewrite map_map in Ha. apply in_map_iff in Ha as (kx & <- & Hx). right. destruct (EM _ Hx) as [Ap _]. apply apart_ne in Ap as [_ Aq]. split; [exact Aq|]. apply (closed (fst (snd kx))). unfold all_decls. apply in_or_app. right. apply in_map_iff. exists kx. auto using map_sub. }
  split; [|exact Keys]. destruct RG as [RG NE]. split; [exact RG|]. intros N. destruct (NE N) as (s & Es). exists s. change (a_dest P) with p in Es. rewrite Es. unfold word_value. change (a_nargs P) with (d_nargs d). now rewrite N.
Qed.
Lemma word_raw ln args n r : parse_known_args (build ops) ln args = Ok (n, r) -> d_nargs d = NInt 1 ->
  (exists s, assoc p n = Some (VStrs [s])) /\ (q <> p -> assoc q n = None).
Proof.
  intros E N. destruct (word_scope ln args n r E) as [[_ NE] Keys]. split; [destruct (NE N) as (s & Es); eauto|]. intros Ne. destruct (assoc q n) as [v|] eqn:Ev; [|reflexivity]. exfalso.
  destruct (Keys q) as [X|[X _]]; [unfold has_key; now rewrite Ev|contradiction..].
Qed.
Theorem word_values ln args n r : parse_known_args (build ops) ln args = Ok (n, r) -> forall k,
  (In k (PyRound.dests T') -> exists v, assoc k (lowered (word_pair ops) n) = Some v /\
     (v = tab_default (t_acts T') k \/ exists x, In x (all_decls T') /\ d_dest x = k /\ produces x v)) /\
  (~ In k (PyRound.dests T') -> assoc k (lowered (word_pair ops) n) = None).
Proof.
  intros E. destruct word_parts as (TS & DO & _ & EA & _ & _ & EM & _). destruct good_parts as (K & Df & C & Ty & Nr & _).
  destruct (word_scope ln args n r E) as [[RG NE] Keys].
  assert (Wd : In (as_option d) (all_decls T')).
  { unfold all_decls. apply in_or_app. left. rewrite EA. apply in_map_iff. exists (word_row (d, i)). split; [reflexivity|]. apply in_map. apply word_in. }
  assert (Pw : forall s, produces (as_option d) (VStr (f s))).
  { intros s. right. rewrite as_option_word. cbn [d_kind d_type d_choices]. split; [reflexivity|]. exists s. split; [apply Ty|discriminate]. }
  intros k. destruct Nr as [[N Rq]|[N [Rq Eqp]]].
  - (* nargs 1 *)
    destruct (NE N) as (s & Es).
    rewrite (lowered_one n (f s) N Es). rewrite assoc_put. destruct (String.eqb_spec k q) as [->|Nq].
    + split; [|intros H; destruct H; apply dests_word; now left]. intros _. exists (VStr (f s)). split; [reflexivity|]. right. exists (as_option d). split; [exact Wd|]. split; [now rewrite as_option_word|apply Pw].
    + rewrite assoc_del. destruct (String.eqb_spec k p) as [->|Np].
      * split; [|reflexivity]. intros H. exfalso. apply dests_word in H as [H|(x & Hx & Nx & Hd)]; [contradiction|]. destruct (act_apart x Hx Nx) as (_ & _ & X & _). contradiction.
      * split.
        { intros H. apply dests_word in H as [H|(x & Hx & Nx & Hd)]; [contradiction|]. pose proof (table_has ops ln args n r x E Hx) as Hk. rewrite Hd in Hk. unfold has_key in Hk.
          destruct (assoc k n) as [v|] eqn:Ev; [|discriminate]. exists v. split; [reflexivity|]. destruct (RG k v Ev) as [[X _]|[_ X]]; [contradiction|]. rewrite default_other by assumption. exact X. }
        { intros H. destruct (assoc k n) as [v|] eqn:Ev; [|reflexivity]. exfalso. destruct (Keys k) as [X|[_ X]]; try contradiction. unfold has_key. now rewrite Ev. }
  - rewrite (lowered_none n N). split.
    + intros H. assert (Hk : has_key k n = true).
      { apply dests_word in H as [->|(x & Hx & Nx & <-)]; [rewrite Eqp; change p with (d_dest (fst (d, i))); eapply table_has; [exact E|apply word_in]|eapply table_has; eauto]. }
      unfold has_key in Hk. destruct (assoc k n) as [v|] eqn:Ev; [|discriminate]. exists v. split; [reflexivity|]. destruct (RG k v Ev) as [[-> X]|[Np X]].
      * rewrite <- Eqp, (proj1 default_word). destruct X as [->|[(s & ->)|[_ ->]]]; [now left| |now left]. right. exists (as_option d). split; [exact Wd|]. split; [now rewrite as_option_word|].
        unfold word_value. change (a_nargs P) with (d_nargs d). rewrite N. apply Pw.
      * rewrite default_other; [exact X|exact Np|congruence].
    + intros H. destruct (assoc k n) as [v|] eqn:Ev; [|reflexivity]. exfalso. destruct (Keys k) as [X|[_ X]]; [unfold has_key; now rewrite Ev| |contradiction]. apply H, dests_word. left. congruence.
Qed.

(** ** The line that gives values *)

Lemma split_one ws : (List.length (filter (fun w => String.eqb (name w) nm) ws) <= 1)%nat ->
  (forall w, In w ws -> name w <> nm) \/
  exists pre w post, ws = pre ++ w :: post /\ name w = nm /\ (forall w, In w (pre ++ post) -> name w <> nm).
Proof.
  induction ws as [|w ws IH]; intros L; [left; intros w []|]. cbn [filter] in L. destruct (String.eqb_spec (name w) nm) as [E|N].
  - right. exists [], w, ws. split; [reflexivity|]. split; [exact E|]. cbn [List.length] in L. intros u Hu Eu. cbn [app] in Hu.
    assert (X : In u (filter (fun w => String.eqb (name w) nm) ws)) by (apply filter_In; split; [exact Hu|now apply String.eqb_eq]).
    destruct (filter _ ws); [contradiction|cbn [List.length] in L; lia].
  - destruct (IH L) as [H|(pre & u & post & -> & E & H)].
    + left. intros u [<-|Hu]; auto.
    + right. exists (w :: pre), u, post. split; [reflexivity|]. split; [exact E|]. intros x [<-|Hx]; auto.
Qed.
Lemma plain_texts ws : (forall w, In w ws -> name w <> nm) -> map (wordtext nm) ws = map text ws.
Proof.
  intros H. apply map_ext_in. intros w Hw. specialize (H w Hw). destruct w as [o|o v]; [reflexivity|]. cbn [wordtext]. cbn [name] in H. destruct (String.eqb_spec o nm); [contradiction|reflexivity].
Qed.
Lemma other_effect w : name w <> nm -> tab_effect T' w = tab_effect T w.
Proof. intros H. unfold tab_effect. now rewrite other_word. Qed.
Lemma effect_apart w k v : tab_effect T w = Some (k, v) -> k <> p /\ k <> q.
Proof.
  unfold tab_effect. destruct (assoc (name w) (t_map T)) as [x|] eqn:E; [|discriminate]. apply assoc_In in E. destruct word_parts as (_ & _ & _ & _ & _ & _ & EM & _).
  destruct (EM _ E) as [A _]. cbn [snd fst] in A. apply apart_ne in A. destruct (given _ _); [|discriminate]. destruct (d_kind (fst x)); try discriminate; intros H; injection H as <- _; exact A.
Qed.
Lemma last_other ws k : (forall w, In w ws -> name w <> nm) -> tab_last T' ws k = tab_last T ws k.
Proof.
  induction ws as [|w ws IH]; intros H; [reflexivity|]. cbn [tab_last]. rewrite IH by (intros u Hu; apply H; now right). rewrite other_effect by (apply H; now left). reflexivity.
Qed.
Lemma last_apart ws : tab_last T ws p = None /\ tab_last T ws q = None.
Proof.
  induction ws as [|w ws [IH1 IH2]]; [auto|]. cbn [tab_last]. rewrite IH1, IH2. destruct (tab_effect T w) as [[k v]|] eqn:E; [|auto]. destruct (effect_apart w k v E) as [N1 N2].
  destruct (String.eqb_spec p k); [congruence|]. destruct (String.eqb_spec q k); [congruence|auto].
Qed.
Lemma word_effect w : name w = nm -> tab_effect T' w <> None -> exists s, w = OVal nm s /\ tab_effect T' w = Some (q, VStr (f s)).
Proof.
  intros E H. destruct word_parts as (_ & _ & _ & _ & _ & EN & _). destruct good_parts as (K & Df & C & Ty & _).
  unfold tab_effect in *. rewrite E, EN, as_option_word in *. destruct w as [o|o s]; cbn [name] in E; subst o; cbn in H |- *; [contradiction|].
  exists s. split; [reflexivity|]. revert H. unfold given. cbn. rewrite Ty. cbn. auto.
Qed.
Lemma word_last_app ws1 ws2 k : tab_last T' (ws1 ++ ws2) k = match tab_last T' ws2 k with Some v => Some v | None => tab_last T' ws1 k end.
Proof. induction ws1 as [|w ws1 IH]; cbn [app tab_last]; [now destruct (tab_last T' ws2 k)|]. rewrite IH. destruct (tab_last T' ws2 k); reflexivity. Qed.
Lemma sane_table : ArgSpec.table_ok (build ops) = true.
Proof. destruct word_parts as (H & _). now apply build_table_ok. Qed.
Lemma can_read ws : (forall w, In w ws -> name w <> nm) -> (forall w, In w ws -> tab_effect T' w <> None) -> forallb (readable (build ops)) ws = true.
Proof.
  intros N H. apply forallb_forall. intros w Hw. unfold readable. rewrite effect_build. fold T. rewrite <- other_effect by auto. specialize (H w Hw). destruct (tab_effect T' w); [reflexivity|contradiction].
Qed.
Lemma required_option ws : (forall x, In x (t_acts T') -> d_required (fst x) = true -> exists w y, In w ws /\ assoc (name w) (t_map T') = Some y /\ snd y = snd x) ->
  forall a, In a (p_actions (build ops)) -> a_required a = true ->
  exists w, In w ws /\ ((name w = nm /\ a_id a = a_id P) \/ (name w <> nm /\ exists b, option_of (build ops) (name w) = Some b /\ a_id b = a_id a)).
Proof.
  intros H a Ha Rq. rewrite build_tabulate in Ha. cbn [real p_actions] in Ha. fold T in Ha. apply in_map_iff in Ha as (x & <- & Hx).
  destruct word_parts as (_ & _ & _ & EA & _ & EN & _). 
  assert (Rx : d_required (fst (word_row x)) = true).
  { destruct (row_dec x (d, i)) as [->|N]; [cbn [word_row fst]; rewrite as_option_word; exact Rq|]. destruct (act_apart x Hx N) as (_ & -> & _). exact Rq. }
  destruct (H (word_row x)) as (w & y & Hw & Ey & Es); [rewrite EA; now apply in_map|exact Rx|]. exists w. split; [exact Hw|].
  destruct (string_dec (name w) nm) as [En|Nn].
  - left. split; [exact En|]. rewrite En, EN in Ey. injection Ey as <-. cbn [snd word_row] in Es. cbn. now symmetry.
  - right. split; [exact Nn|]. rewrite other_word in Ey by exact Nn. exists (act y). rewrite option_of_build. fold T. rewrite Ey. split; [reflexivity|exact Es].
Qed.
Theorem word_line ws : (forall w, In w ws -> tab_effect T' w <> None) ->
  (forall x, In x (t_acts T') -> d_required (fst x) = true -> exists w y, In w ws /\ assoc (name w) (t_map T') = Some y /\ snd y = snd x) ->
  (List.length (filter (fun w => String.eqb (name w) nm) ws) <= 1)%nat ->
  (forall s, tab_last T' ws q = Some (VStr s) -> startswith s "-" = false) ->
  exists n, (forall ln, parse_known_args (build ops) ln (map (wordtext nm) ws) = Ok (n, [])) /\
    forall k, get k (lowered (word_pair ops) n) = match tab_last T' ws k with Some v => v | None => tab_default (t_acts T') k end.
Proof.
  intros H1 H2 H3 H4. destruct word_parts as (TS & DO & _ & EA & _ & EN & EM & _). destruct good_parts as (K & Df & C & Ty & Nr & Da).
  pose proof (required_option ws H2) as RO. destruct (split_one ws H3) as [H|(pre & w & post & -> & E & H)].
  - (* no word *)
    assert (N : d_nargs d = NOpt /\ q = p).
    { destruct Nr as [[N Rq]|[N [_ X]]]; [|auto]. exfalso. destruct (H2 (word_row (d, i))) as (w & y & Hw & Ey & Es); [rewrite EA; apply in_map, word_in|cbn [word_row fst]; now rewrite as_option_word|].
      cbn [word_row snd] in Es. rewrite other_word in Ey by auto. apply assoc_In, EM in Ey as [_ X]. now cbn [snd] in X. }
    destruct N as [N Eqp]. rewrite (plain_texts ws H).
    destruct (none_line P P_pos P_kind P_dflt (build ops) ws sane_table P_only) as (n & Hn & Gn); [intros a; now apply defaults_ok_settled|exact N|now apply can_read| |].
    { intros a Ha Rq. destruct (RO a Ha Rq) as (w & Hw & [[X _]|[_ (b & B1 & B2)]]); [destruct (H w Hw X)|]. exists w, b. auto. }
    exists n. split; [exact Hn|]. intros k. rewrite (lowered_none n N), Gn, last_write_build, declared_build. fold T. rewrite (last_other ws k H).
    change (a_dest P) with p. destruct (String.eqb_spec k p) as [->|Np]; [rewrite (proj1 (last_apart ws)), <- Eqp; now rewrite (proj1 default_word)|].
    rewrite default_other; [reflexivity|exact Np|congruence].
  - destruct (word_effect w E) as (s & -> & Es). { apply H1. apply in_or_app. right. now left. }
    assert (Hpre : forall w, In w pre -> name w <> nm) by (intros u Hu; apply H, in_or_app; now left).
    assert (Hpost : forall w, In w post -> name w <> nm) by (intros u Hu; apply H, in_or_app; now right).
    assert (LQ : tab_last T' (pre ++ OVal nm s :: post) q = Some (VStr (f s))).
    { rewrite word_last_app. cbn [tab_last]. rewrite (last_other post q Hpost), (proj2 (last_apart post)), Es, eqb_refl_s. reflexivity. }
    assert (Ds : startswith s "-" = false). { destruct (startswith s "-") eqn:X; [|reflexivity]. apply Da in X. rewrite (H4 _ LQ) in X. discriminate. }
    destruct (ArgOne.one_line P f P_pos P_kind P_many P_free P_conv (build ops) pre s post sane_table P_only) as (n & Hn & Gn);
      [intros a; now apply defaults_ok_settled|exact Ds| | | |].
    { apply can_read; [exact Hpre|]. intros u Hu. apply H1, in_or_app. now left. }
    { apply can_read; [exact Hpost|]. intros u Hu. apply H1, in_or_app. right. now right. }
    { intros a Ha Rq. destruct (RO a Ha Rq) as (u & Hu & [[_ X]|[X (b & B1 & B2)]]); [now left|]. right. exists u, b. split; [|auto].
      apply in_or_app. apply in_app_or in Hu as [Hu|[<-|Hu]]; [now left|now destruct X|now right]. }
    exists n. split.
    { intros ln. rewrite map_app. cbn [map wordtext]. rewrite eqb_refl_s, (plain_texts pre Hpre), (plain_texts post Hpost). apply Hn. }
    assert (Gp : get p n = word_value P f s).
    { rewrite Gn, last_write_build. fold T. rewrite (proj1 (last_apart post)). change (a_dest P) with p. now rewrite eqb_refl_s. }
    assert (Go : forall k, k <> p -> k <> q -> get k n = match tab_last T' (pre ++ OVal nm s :: post) k with Some v => v | None => tab_default (t_acts T') k end).
    { intros k Np Nq. rewrite Gn, !last_write_build, declared_build. fold T. change (a_dest P) with p. rewrite word_last_app. cbn [tab_last]. rewrite Es, (last_other post k Hpost), (last_other pre k Hpre).
      destruct (tab_last T post k); [reflexivity|]. destruct (String.eqb_spec k p); [contradiction|]. destruct (String.eqb_spec k q); [contradiction|]. now rewrite default_other. }
    intros k. destruct Nr as [[N Rq]|[N [Rq Eqp]]].
    + unfold word_value in Gp. change (a_nargs P) with (d_nargs d) in Gp. rewrite N in Gp.
      assert (Ap : assoc p n = Some (VStrs [f s])). { unfold get in Gp. destruct (assoc p n) as [v|]; [now rewrite Gp|discriminate]. }
      rewrite (lowered_one n (f s) N Ap). unfold get at 1. rewrite assoc_put. destruct (String.eqb_spec k q) as [->|Nq]; [now rewrite LQ|].
      rewrite assoc_del. destruct (String.eqb_spec k p) as [->|Np]; [|now apply Go].
      rewrite word_last_app. cbn [tab_last]. rewrite Es, (last_other post p Hpost), (last_other pre p Hpre), (proj1 (last_apart post)), (proj1 (last_apart pre)).
      destruct (String.eqb_spec p q); [contradiction|]. symmetry. apply default_all_none. rewrite EA. intros y Hy Hd. apply in_map_iff in Hy as (x & <- & Hx).
      destruct (row_dec x (d, i)) as [->|Nx]; [cbn [word_row fst]; now rewrite as_option_word|]. destruct (act_apart x Hx Nx) as (_ & R & X & _). rewrite R in Hd. contradiction.
    + rewrite (lowered_none n N). destruct (string_dec k p) as [->|Np]; [|apply Go; congruence]. rewrite Gp. rewrite <- Eqp, LQ. unfold word_value. change (a_nargs P) with (d_nargs d). now rewrite N.
Qed.

(** Where the values of two lines differ, so do the lowered values. *)
Lemma lowered_differ ln1 ln2 args1 args2 n1 n2 r1 r2 : parse_known_args (build ops) ln1 args1 = Ok (n1, r1) -> parse_known_args (build ops) ln2 args2 = Ok (n2, r2) ->
  (forall k, assoc k (lowered (word_pair ops) n1) <> assoc k (lowered (word_pair ops) n2) ->
     assoc k (lowered (word_pair ops) n1) = Some VNone \/ assoc k (lowered (word_pair ops) n2) = Some VNone) ->
  forall k, assoc k n1 <> assoc k n2 -> assoc k n1 = assoc k (lowered (word_pair ops) n1) /\ assoc k n2 = assoc k (lowered (word_pair ops) n2) /\ mem k (pair_keys (word_pair ops)) = false.
Proof.
  intros E1 E2 H k Hk. destruct good_parts as (_ & _ & _ & _ & [[N Rq]|[N _]] & _); [|rewrite !(lowered_none _ N); split; [reflexivity|]; split; [reflexivity|]; unfold word_pair; rewrite isword; cbn [fst]; now rewrite N].
  destruct (word_raw ln1 args1 n1 r1 E1 N) as [(s1 & S1) O1]. destruct (word_raw ln2 args2 n2 r2 E2 N) as [(s2 & S2) O2].
  assert (Es : s1 = s2).
  { destruct (string_dec s1 s2) as [|Ns]; [assumption|]. exfalso. destruct (H q) as [X|X]; rewrite (lowered_one n1 s1 N S1), (lowered_one n2 s2 N S2), !assoc_put_eq in *; congruence. }
  destruct (string_dec k p) as [->|Np]; [congruence|]. destruct (string_dec k q) as [->|Nq]; [rewrite O1, O2 in Hk by congruence; now destruct Hk|].
  split; [symmetry; now apply lowered_other|]. split; [symmetry; now apply lowered_other|]. unfold word_pair. rewrite isword. cbn [fst]. rewrite N. cbn [pair_keys flat_map fst snd app]. fold q. fold p. cbn [mem existsb].
  destruct (String.eqb_spec k q); [contradiction|]. destruct (String.eqb_spec k p); [contradiction|reflexivity].
Qed.
Lemma default_same k : In k (PyRound.dests T') -> tab_default (t_acts T') k = tab_default (t_acts T) k.
Proof.
  intros H. apply dests_word in H as [->|(x & Hx & N & <-)].
  - rewrite (proj1 default_word). symmetry. apply default_all_none. intros x Hx Hd. destruct (row_dec x (d, i)) as [->|N]; [apply good_parts|]. destruct (act_apart x Hx N) as (_ & _ & _ & X). contradiction.
  - destruct (act_apart x Hx N) as (_ & _ & X & Y). now apply default_other.
Qed.
Lemma decls_word x : In x (all_decls T') -> In x (map (fun y => as_option (fst y)) (t_acts T) ++ map (fun kx => fst (snd kx)) (t_map T)).
Proof.
  destruct word_parts as (_ & _ & _ & EA & ED & EN & _ & _ & EU). unfold all_decls. rewrite EA. intros H. apply in_or_app. apply in_app_or in H as [H|H].
  - left. rewrite map_map in H. exact H.
  - apply in_map_iff in H as ([o y] & <- & Hy). cbn [snd]. destruct (string_dec o nm) as [->|N].
    + left. assert (y = (as_option d, i)) as -> by auto.
      apply in_map_iff. exists (d, i). split; [reflexivity|apply word_in].
    + right. apply in_map_iff. exists (o, y). split; [reflexivity|]. rewrite <- ED. clear -Hy N. induction (t_map T') as [|[k v] l IH]; [destruct Hy|]. cbn [del]. destruct (String.eqb_spec nm k) as [<-|Nk]; destruct Hy as [Hy|Hy]; [congruence|auto|left; exact Hy|right; auto].
Qed.
End Word.

(** ** Tables with and without an argument *)

Lemma pair_short ops : (List.length (word_pair ops) <= 1)%nat.
Proof. unfold word_pair. destruct (the_word ops) as [x|]; [|cbn; lia]. destruct (d_nargs (fst x)); cbn; lia. Qed.
Lemma optioned_none ops : the_word ops = None -> optioned ops = ops /\ word_name ops = "" /\ word_pair ops = [].
Proof. unfold optioned, word_name, word_pair. now intros ->. Qed.
Lemma unnamed_text ops ws : check_word ops = true -> the_word ops = None -> (forall w, In w ws -> tab_effect (tabulate ops) w <> None) -> map (wordtext "") ws = map text ws.
Proof.
  unfold check_word. intros C N. rewrite N in C. intros H. apply map_ext_in. intros w Hw. specialize (H w Hw). destruct w as [o|o v]; [reflexivity|]. cbn [wordtext].
  destruct (String.eqb_spec o "") as [->|]; [|reflexivity]. exfalso. apply H. unfold tab_effect. cbn [name]. unfold has_key in C. destruct (assoc "" _); [discriminate|reflexivity].
Qed.
Theorem given_line ops ws : check_word ops = true -> table_plain (optioned ops) = true ->
  (forall w, In w ws -> tab_effect (tabulate (optioned ops)) w <> None) ->
  (forall x, In x (t_acts (tabulate (optioned ops))) -> d_required (fst x) = true -> exists w y, In w ws /\ assoc (name w) (t_map (tabulate (optioned ops))) = Some y /\ snd y = snd x) ->
  (List.length (filter (fun w => String.eqb (name w) (word_name ops)) ws) <= 1)%nat ->
  (forall x s, the_word ops = Some x -> tab_last (tabulate (optioned ops)) ws (word_attr (d_dest (fst x))) = Some (VStr s) -> startswith s "-" = false) ->
  exists n, (forall ln, parse_known_args (build ops) ln (map (wordtext (word_name ops)) ws) = Ok (n, [])) /\
    forall k, get k (lowered (word_pair ops) n) = match tab_last (tabulate (optioned ops)) ws k with Some v => v | None => tab_default (t_acts (tabulate (optioned ops))) k end.
Proof.
  intros C TP H1 H2 H3 H4. destruct (the_word ops) as [[d i]|] eqn:N.
  - unfold word_name in *. rewrite N in *. apply (word_line ops d i N C ws H1 H2 H3). intros s. exact (H4 (d, i) s eq_refl).
  - destruct (optioned_none ops N) as (Eo & En & Ep). rewrite Eo in *. rewrite En, Ep. rewrite (unnamed_text ops ws C N H1).
    destruct (plain_line ops None ws TP) as (n & P & G).
    + unfold required_given. apply forallb_forall. intros y Hy. destruct (d_required (fst y)) eqn:Rq; [|reflexivity]. cbn [negb orb].
      destruct (H2 y Hy Rq) as (w & z & Hw & Ew & Ez). apply existsb_exists. exists w. split; [exact Hw|]. rewrite Ew. now apply Nat.eqb_eq.
    + apply forallb_forall. intros w Hw. specialize (H1 w Hw). destruct (tab_effect (tabulate ops) w); [reflexivity|contradiction].
    + exists n. split; [|exact G]. intros ln. apply (up_parse_args None ln) in P. unfold parse_args in P. apply bind_ok in P as ([m q] & P & Q). cbn [fst snd] in Q. destruct q; [|discriminate]. injection Q as ->. exact P.
Qed.
Lemma given_differ ops : check_word ops = true -> simple_table (tabulate (optioned ops)) = true ->
  (forall x, In x (all_decls (tabulate (optioned ops))) -> In (d_dest x) (PyRound.dests (tabulate (optioned ops)))) ->
  forall ln1 ln2 args1 args2 n1 n2 r1 r2, parse_known_args (build ops) ln1 args1 = Ok (n1, r1) -> parse_known_args (build ops) ln2 args2 = Ok (n2, r2) ->
  (forall k, assoc k (lowered (word_pair ops) n1) <> assoc k (lowered (word_pair ops) n2) ->
     assoc k (lowered (word_pair ops) n1) = Some VNone \/ assoc k (lowered (word_pair ops) n2) = Some VNone) ->
  forall k, assoc k n1 <> assoc k n2 -> assoc k n1 = assoc k (lowered (word_pair ops) n1) /\ assoc k n2 = assoc k (lowered (word_pair ops) n2) /\ mem k (pair_keys (word_pair ops)) = false.
Proof.
  intros C S K ln1 ln2 args1 args2 n1 n2 r1 r2 E1 E2 H k Hk. destruct (the_word ops) as [[d i]|] eqn:N; [eapply lowered_differ; eauto|].
  destruct (optioned_none ops N) as (_ & _ & ->). auto.
Qed.
