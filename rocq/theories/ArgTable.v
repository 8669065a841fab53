(** * Computing with tables of declarations

    [build] makes a parser whose actions contain functions; [tabulate] does the same
    with the declarations themselves, which are plain data. *)

From Verif Require Import PyStrFacts ArgSpec ArgParseFacts ArgLineFacts ArgErrFacts ArgDecl ArgDeclFacts ArgSimple.
From Verif Require Import Value.
Local Open Scope string_scope.
Local Open Scope list_scope.

Record tab := mkTab { t_acts : list (decl * nat); t_map : list (string * (decl * nat)); t_next : nat }.

Definition act (x : decl * nat) : action := action_of (fst x) (snd x).
Definition real (t : tab) : parser :=
  mkParser (map act (t_acts t)) (map (fun kv => (fst kv, act (snd kv))) (t_map t)) (t_next t).

Definition strip_decl (o : string) (d : decl) : decl :=
  mkDecl (filter (fun x => negb (String.eqb o x)) (d_opts d)) (d_dest d) (d_kind d) (d_nargs d) (d_const d)
    (d_default d) (d_type d) (d_choices d) (d_required d) (d_deprecated d).
Definition tab_resolve (t : tab) (o : string) : tab :=
  match assoc o (t_map t) with
  | None => t
  | Some old =>
      mkTab (flat_map (fun a => if Nat.eqb (snd a) (snd old)
                                then match d_opts (strip_decl o (fst a)) with [] => [] | _ => [(strip_decl o (fst a), snd a)] end
                                else [a]) (t_acts t))
        (del o (t_map t)) (t_next t)
  end.
Definition tab_add (t : tab) (d : decl) : tab :=
  let a := (d, t_next t) in
  let t1 := fold_left tab_resolve (d_opts d) t in
  mkTab (t_acts t1 ++ [a]) (fold_left (fun m o => put o a m) (d_opts d) (t_map t1)) (S (t_next t)).
Fixpoint tab_remove_first (o : string) (l : list (decl * nat)) : list (decl * nat) :=
  match l with
  | [] => []
  | a :: r => if mem o (d_opts (fst a)) then r else a :: tab_remove_first o r
  end.
Definition tab_remove (t : tab) (o : string) : tab :=
  if existsb (fun a => mem o (d_opts (fst a))) (t_acts t)
  then mkTab (tab_remove_first o (t_acts t)) (del o (t_map t)) (t_next t)
  else t.
Definition tab_op (t : tab) (o : tableop) : tab :=
  match o with OpAdd d => tab_add t d | OpRemove o => tab_remove t o end.
Definition tabulate (ops : list tableop) : tab := fold_left tab_op ops (mkTab [] [] 0).

Lemma assoc_map {A B} (f : A -> B) o l : assoc o (map (fun kv => (fst kv, f (snd kv))) l) = option_map f (assoc o l).
Proof. induction l as [|[k v] l IH]; [reflexivity|]. cbn [map assoc fst snd]. destruct (String.eqb o k); [reflexivity|exact IH]. Qed.
Lemma del_map {A B} (f : A -> B) o l :
  del o (map (fun kv => (fst kv, f (snd kv))) l) = map (fun kv => (fst kv, f (snd kv))) (del o l).
Proof.
  induction l as [|[k v] l IH]; [reflexivity|]. cbn [map del fst snd]. destruct (String.eqb o k); [exact IH || reflexivity|].
  cbn [map fst snd]. rewrite IH. reflexivity.
Qed.
Lemma put_map {A B} (f : A -> B) o v l :
  put o (f v) (map (fun kv => (fst kv, f (snd kv))) l) = map (fun kv => (fst kv, f (snd kv))) (put o v l).
Proof.
  induction l as [|[k w] l IH]; [reflexivity|]. cbn [map put fst snd]. destruct (String.eqb o k); [reflexivity|].
  cbn [map fst snd]. rewrite IH. reflexivity.
Qed.

Lemma real_resolve t o : real (tab_resolve t o) = resolve_one (real t) o.
Proof.
  unfold resolve_one, tab_resolve. cbn [real p_optmap]. rewrite assoc_map. destruct (assoc o (t_map t)) as [old|]; [|reflexivity].
  cbn [option_map]. unfold real. cbn [t_acts t_map t_next p_actions p_next p_optmap]. f_equal; [|symmetry; apply del_map].
  induction (t_acts t) as [|a l IH]; [reflexivity|]. cbn [flat_map map]. rewrite map_app, IH. f_equal.
  change (a_id (act a)) with (snd a). change (a_id (act old)) with (snd old). destruct (Nat.eqb (snd a) (snd old)); [|reflexivity].
  change (a_opts (strip_opt o (act a))) with (d_opts (strip_decl o (fst a))).
  destruct (d_opts (strip_decl o (fst a))) eqn:E; [reflexivity|]. cbn [map]. reflexivity.
Qed.

Lemma next_resolve opts : forall p, p_next (fold_left resolve_one opts p) = p_next p.
Proof.
  induction opts as [|o opts IH]; intros p; [reflexivity|]. cbn [fold_left]. rewrite IH.
  unfold resolve_one. destruct (assoc o (p_optmap p)); reflexivity.
Qed.

Lemma real_add t d : real (tab_add t d) = add_argument (real t) (action_of d).
Proof.
  unfold tab_add, add_argument. cbn [real p_next a_opts action_of].
  assert (R : forall opts t, fold_left resolve_one opts (real t) = real (fold_left tab_resolve opts t)).
  { induction opts as [|o opts IH]; intros t0; [reflexivity|]. cbn [fold_left]. rewrite <- IH, real_resolve. reflexivity. }
  change (mkParser (map act (t_acts t)) (map (fun kv => (fst kv, act (snd kv))) (t_map t)) (t_next t)) with (real t).
  rewrite R. set (t1 := fold_left tab_resolve (d_opts d) t). unfold real. cbn [t_acts t_map t_next p_actions p_optmap].
  rewrite map_app. f_equal.
  change (action_of d (t_next t)) with (act (d, t_next t)). generalize (t_map t1). generalize (d, t_next t) as x.
  induction (d_opts d) as [|o opts IH]; intros x m; [reflexivity|]. cbn [fold_left]. rewrite put_map. apply IH.
Qed.

Lemma real_remove t o : real (tab_remove t o) = remove_argument (real t) o.
Proof.
  unfold tab_remove, remove_argument. cbn [real p_actions].
  assert (E : existsb (fun a => mem o (a_opts a)) (map act (t_acts t)) = existsb (fun a => mem o (d_opts (fst a))) (t_acts t)).
  { induction (t_acts t) as [|a l IH]; [reflexivity|]. cbn [map existsb]. rewrite IH. reflexivity. }
  rewrite E. destruct (existsb _ (t_acts t)); [|reflexivity]. unfold real. cbn [t_acts t_map t_next p_optmap p_next]. f_equal.
  - clear E. induction (t_acts t) as [|a l IH]; [reflexivity|]. cbn [tab_remove_first map remove_first_action].
    change (a_opts (act a)) with (d_opts (fst a)). destruct (mem o (d_opts (fst a))); [reflexivity|]. cbn [map]. rewrite IH. reflexivity.
  - symmetry. apply del_map.
Qed.

Theorem build_tabulate ops : build ops = real (tabulate ops).
Proof.
  unfold build, tabulate. change empty_parser with (real (mkTab [] [] 0)). generalize (mkTab [] [] 0).
  induction ops as [|[d|o] ops IH]; intros t; [reflexivity| |]; cbn [fold_left apply_op tab_op];
  [rewrite <- real_add|rewrite <- real_remove]; apply IH.
Qed.

Lemma option_of_build ops o : option_of (build ops) o = option_map act (assoc o (t_map (tabulate ops))).
Proof. rewrite build_tabulate. unfold option_of. cbn [real p_optmap]. apply assoc_map. Qed.

Lemma optmap_names ops : map fst (p_optmap (build ops)) = map fst (t_map (tabulate ops)).
Proof. rewrite build_tabulate. cbn [real p_optmap]. rewrite map_map. reflexivity. Qed.

(** ** Checks on tables *)

Definition no_positionals (ops : list tableop) : bool :=
  forallb (fun x => negb (no_opts (fst x))) (t_acts (tabulate ops)).
Definition default_ok (d : decl) : bool :=
  match d_default d with
  | VStr s => match ty_fun (d_type d) s with Ok (VStr t) => String.eqb s t | _ => false end
  | _ => true
  end.
Definition defaults_ok (ops : list tableop) : bool := forallb (fun x => default_ok (fst x)) (t_acts (tabulate ops)).

Lemma no_positionals_ok ops : no_positionals ops = true -> positionals (build ops) = [].
Proof.
  unfold no_positionals, positionals. rewrite build_tabulate. cbn [real p_actions].
  induction (t_acts (tabulate ops)) as [|a l IH]; [reflexivity|]. cbn [forallb map filter]. intros H. apply andb_true_iff in H as [H1 H2].
  change (is_positional (act a)) with (no_opts (fst a)). apply negb_true_iff in H1. rewrite H1. auto.
Qed.

Lemma defaults_ok_settled ops a : defaults_ok ops = true -> In a (p_actions (build ops)) -> settled a.
Proof.
  unfold defaults_ok. rewrite build_tabulate. cbn [real p_actions]. intros H Ha. apply in_map_iff in Ha as (x & <- & Hx).
  rewrite forallb_forall in H. specialize (H x Hx). intros d Hd. change (a_default (act x)) with (d_default (fst x)) in Hd.
  unfold default_ok in H. rewrite Hd in H. change (a_type (act x)) with (ty_fun (d_type (fst x))).
  destruct (ty_fun (d_type (fst x)) d) as [v|]; [|discriminate]. destruct v; try discriminate. apply String.eqb_eq in H. congruence.
Qed.

(** The required options, by their ids. *)
Definition required_given (ops : list tableop) (ws : list oword) : bool :=
  forallb (fun x => negb (d_required (fst x)) ||
                    existsb (fun w => match assoc (name w) (t_map (tabulate ops)) with
                                      | Some y => Nat.eqb (snd y) (snd x) | None => false end) ws) (t_acts (tabulate ops)).
Lemma required_given_ok ops ws a : required_given ops ws = true -> In a (p_actions (build ops)) -> a_required a = true ->
  exists w b, In w ws /\ option_of (build ops) (name w) = Some b /\ a_id b = a_id a.
Proof.
  unfold required_given. intros H Ha Hr. rewrite forallb_forall in H. rewrite build_tabulate in Ha. cbn [real p_actions] in Ha.
  apply in_map_iff in Ha as (x & <- & Hx). specialize (H x Hx). change (a_required (act x)) with (d_required (fst x)) in Hr. rewrite Hr in H.
  cbn [negb orb] in H. apply existsb_exists in H as (w & Hw & H).
  destruct (assoc (name w) (t_map (tabulate ops))) as [y|] eqn:E; [|discriminate].
  exists w, (act y). rewrite option_of_build, E. apply Nat.eqb_eq in H. auto.
Qed.

Definition table_plain (ops : list tableop) : bool := table_sane ops && no_positionals ops && defaults_ok ops.

(** The declared default of a destination. *)
Fixpoint tab_default (l : list (decl * nat)) (d : string) : value :=
  match l with
  | [] => VNone
  | x :: r => if String.eqb d (d_dest (fst x)) then d_default (fst x) else tab_default r d
  end.
Lemma declared_build ops d : declared (p_actions (build ops)) d = tab_default (t_acts (tabulate ops)) d.
Proof.
  rewrite build_tabulate. cbn [real p_actions]. induction (t_acts (tabulate ops)) as [|x l IH]; [reflexivity|].
  cbn [map declared tab_default]. change (a_dest (act x)) with (d_dest (fst x)). destruct (String.eqb d (d_dest (fst x))); [reflexivity|exact IH].
Qed.

(** What a word writes, from the declarations. *)
Definition tab_effect (t : tab) (w : oword) : option (string * value) :=
  match assoc (name w) (t_map t) with
  | None => None
  | Some x =>
      match given (act x) w, d_kind (fst x) with
      | Some v, KStore => Some (d_dest (fst x), v)
      | Some _, KStoreConst => Some (d_dest (fst x), d_const (fst x))
      | _, _ => None
      end
  end.
Lemma effect_build ops w : effect (build ops) w = tab_effect (tabulate ops) w.
Proof.
  unfold effect, tab_effect. rewrite option_of_build. destruct (assoc (name w) (t_map (tabulate ops))); reflexivity.
Qed.

Fixpoint tab_last (t : tab) (ws : list oword) (d : string) : option value :=
  match ws with
  | [] => None
  | w :: r => match tab_last t r d, tab_effect t w with
              | Some v, _ => Some v
              | None, Some (d', v) => if String.eqb d d' then Some v else None
              | None, None => None
              end
  end.
Lemma last_write_build ops ws d : last_write (build ops) ws d = tab_last (tabulate ops) ws d.
Proof. induction ws as [|w ws IH]; [reflexivity|]. cbn [last_write tab_last]. rewrite IH, effect_build. reflexivity. Qed.

Theorem plain_line ops ln ws :
  table_plain ops = true -> required_given ops ws = true ->
  forallb (fun w => match tab_effect (tabulate ops) w with Some _ => true | None => false end) ws = true ->
  exists ns, parse_args (build ops) ln (map text ws) = Ok ns /\
    forall d, get d ns = match tab_last (tabulate ops) ws d with Some v => v | None => tab_default (t_acts (tabulate ops)) d end.
Proof.
  intros H Hr Hw. unfold table_plain in H. apply andb_true_iff in H as [H H3]. apply andb_true_iff in H as [H1 H2].
  destruct (simple_line (build ops) ln ws) as (ns & R & G).
  - apply build_table_ok, H1.
  - apply no_positionals_ok, H2.
  - intros a. apply defaults_ok_settled, H3.
  - intros a. apply required_given_ok, Hr.
  - rewrite forallb_forall in *. intros w Hin. specialize (Hw w Hin). unfold readable. rewrite effect_build. exact Hw.
  - exists ns. split; [exact R|]. intros d. rewrite G, last_write_build, declared_build. reflexivity.
Qed.
