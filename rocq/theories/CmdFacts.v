(** * Command classes of the versions *)

From Verif Require Import PyStrFacts ArgParseFacts HandlerFacts ClassModel PropsHandler PropsClass.
From Verif Require Import HandlerSpec ParserSpec NsFacts PyCheck PyCheckFacts PyKeep PyClass.
From Verif Require Import Value.
Local Open Scope string_scope.
Local Open Scope list_scope.
Local Arguments Ascii.eqb : simpl never.
Local Arguments String.eqb : simpl never.

(** ** What a handler looks like depends on the names of the classes only *)

Definition names_of (m : list (string * cclass)) : list (string * string) :=
  map (fun nk => (fst nk, cl_name (snd nk))) m.
Record alike_names (h h' : handler) : Prop := mkAlike {
  al_objs : map o_name (h_objs h) = map o_name (h_objs h');
  al_commands : h_commands h = h_commands h';
  al_attrs : h_attrs h = h_attrs h' }.

Lemma name_at_map h i : name_at h i = match nth_error (map o_name (h_objs h)) i with Some n => n | None => "" end.
Proof. unfold name_at, obj_at. rewrite nth_error_map. destruct (nth_error (h_objs h) i); reflexivity. Qed.
Lemma alike_find h h' n cmds : alike_names h h' -> find_class h n cmds = find_class h' n cmds.
Proof.
  intros A. induction cmds as [|[x [i|]] cmds IH]; cbn [find_class]; auto. rewrite IH, !name_at_map, (al_objs _ _ A). reflexivity.
Qed.
Lemma alike_register h h' n k k' : cl_name k = cl_name k' -> alike_names h h' ->
  alike_names (register_command h (n, k)) (register_command h' (n, k')).
Proof.
  intros E A. cbn [register_command]. rewrite <- E, <- (alike_find h h' (cl_name k) _ A), <- (al_commands _ _ A).
  destruct (find_class h (cl_name k) (h_commands h)).
  - split; cbn; try (apply A). now rewrite (al_commands _ _ A).
  - pose proof (al_objs _ _ A) as O. assert (L : length (h_objs h) = length (h_objs h')).
    { rewrite <- (map_length o_name (h_objs h)), O. apply map_length. }
    split; cbn.
    + rewrite !map_app, O. cbn. unfold o_name at 2 4. cbn. now rewrite E.
    + rewrite L, (al_commands _ _ A). reflexivity.
    + unfold o_name. cbn. rewrite E, L, (al_attrs _ _ A). reflexivity.
Qed.
Lemma alike_build m m' dm dm' : names_of m = names_of m' -> alike_names (build_handler m dm) (build_handler m' dm').
Proof.
  intros E. unfold build_handler.
  assert (D : forall dm h, alike_names h (fold_left register_data dm h)).
  { clear. induction dm as [|d dm IH]; intros h; cbn [fold_left]; [split; reflexivity|].
    destruct (IH (register_data h d)) as [A B C]. split; [now rewrite <- A|now rewrite <- B|now rewrite <- C]. }
  assert (R : forall m m' h h', names_of m = names_of m' -> alike_names h h' ->
     alike_names (fold_left register_command m h) (fold_left register_command m' h')).
  { clear. induction m as [|[n k] m IH]; intros [|[n' k'] m'] h h' E A; try discriminate; cbn [fold_left]; [exact A|].
    cbn in E. injection E as <- E1 E2. apply IH; [exact E2|]. now apply alike_register. }
  destruct (D dm (fold_left register_command m empty_handler)) as [A1 B1 C1].
  destruct (D dm' (fold_left register_command m' empty_handler)) as [A2 B2 C2].
  destruct (R m m' empty_handler empty_handler E) as [A3 B3 C3]; [split; reflexivity|].
  split; congruence.
Qed.
Lemma names_version other cm : names_of (version_map other cm) = cm.
Proof. unfold names_of, version_map. rewrite map_map. cbn. rewrite <- (map_id cm) at 2. apply map_ext. intros []; reflexivity. Qed.

(** A handler with the same names. *)
Definition named_class (c : string) : cclass :=
  mkClass c [] false [] (fun _ a d _ => (a, d, Ok None)) (fun _ _ => "").
Definition skeleton (cm : list (string * string)) : handler :=
  build_handler (map (fun nc => (fst nc, named_class (snd nc))) cm) [].
Lemma skeleton_alike other cm dm : alike_names (build_handler (version_map other cm) dm) (skeleton cm).
Proof.
  apply alike_build. rewrite names_version. unfold names_of. rewrite map_map. cbn. rewrite <- (map_id cm) at 1. apply map_ext. intros []; reflexivity.
Qed.

(** Its commands are those of the map. *)
Lemma skeleton_names cm n i : assoc n (h_commands (skeleton cm)) = Some i -> assoc n cm <> None.
Proof.
  unfold skeleton, build_handler. cbn [fold_left]. intros H N.
  assert (G : forall l h, assoc n (map (fun nc => (fst nc, named_class (snd nc))) l) = None -> assoc n (h_commands h) = None ->
    assoc n (h_commands (fold_left register_command (map (fun nc => (fst nc, named_class (snd nc))) l) h)) = None).
  { clear. induction l as [|[x c] l IH]; intros h N H; cbn [map fold_left]; [exact H|]. cbn [map assoc fst snd] in N.
    destruct (String.eqb_spec n x) as [|Ne]; [discriminate|]. apply IH; [exact N|]. cbn [register_command].
    destruct (find_class h _ _); cbn [set_commands set_command h_commands]; rewrite assoc_put_ne by auto; exact H. }
  rewrite G in H; [discriminate| |reflexivity].
  clear -N. induction cm as [|[x c] cm IH]; cbn [map assoc fst snd] in *; [reflexivity|]. destruct (String.eqb n x); [discriminate|auto].
Qed.

(** ** Running commands on the handler of a version *)

Section Version.
Variable rest : string -> cclass.
Variables (v : Z) (cm dm : list (string * string)).
Hypothesis Hv : In (v, (cm, dm)) handlers.
Definition start : handler := build_handler (version_map (cmd_class rest) cm) dm.

(** After any number of command lines. *)
Definition used (h : handler) : Prop := exists ops, Forall (fun o => match o with HLine _ _ _ => True | _ => False end) ops /\
  h = fold_left do_op ops start.
Lemma used_start : used start.
Proof. exists []. split; [constructor|reflexivity]. Qed.
Lemma used_step h line args ln : used h -> used (fst (handle_command h line args ln)).
Proof.
  intros (ops & F & ->). exists (ops ++ [HLine line args ln]). split; [apply Forall_app; split; auto|].
  rewrite fold_left_app. reflexivity.
Qed.
Lemma used_in_use h : used h -> in_use (version_map (cmd_class rest) cm) h.
Proof.
  intros (ops & F & ->). exists dm, ops. split; [|reflexivity]. eapply Forall_impl; [|exact F]. intros []; cbn; tauto.
Qed.
Lemma used_shape h : used h -> shape start h.
Proof.
  intros (ops & F & ->). generalize start. induction ops as [|o ops IH]; intros s; [apply shape_refl|]. cbn [fold_left].
  inversion F; subst. destruct o; try contradiction. eapply shape_trans; [apply handle_shape|]. apply IH. assumption.
Qed.
Lemma used_commands h : used h -> h_commands h = h_commands (skeleton cm) /\ h_attrs h = h_attrs (skeleton cm).
Proof.
  intros U. pose proof (used_shape h U) as S. pose proof (skeleton_alike (cmd_class rest) cm dm) as A. unfold start in S. split.
  - rewrite <- (sh_commands _ _ S). apply (al_commands _ _ A).
  - rewrite <- (sh_attrs _ _ S). apply (al_attrs _ _ A).
Qed.
Lemma used_served h n c : used h -> In (n, c) cm -> exists i o, assoc n (h_commands h) = Some (Some i) /\ obj_at h i = Some o /\
  served h n = Some o /\ o_class o = class_model (cmd_class rest) c.
Proof.
  intros U H. destruct (C27_classes_stay (version_map (cmd_class rest) cm) h n (class_model (cmd_class rest) c)) as (o & So & Co).
  - eapply version_dict; eauto.
  - apply version_one.
  - now apply used_in_use.
  - now apply version_in.
  - pose proof So as S'. unfold served, identity in S'. destruct (assoc n (h_commands h)) as [[i|]|] eqn:E; try discriminate. exists i, o. auto.
Qed.
End Version.

(** ** Command lines *)

Lemma dispatch_cases h line n args ln i o :
  assoc n (h_commands h) = Some (Some i) -> obj_at h i = Some o ->
  let a := stamp n line ln (o_attrs o) in
  let h1 := set_obj i (mkObj (o_class o) a (o_data o)) (set_line line h) in
  exists a' d', (match cl_parse (o_class o) (view_of h1) a (o_data o) args with
                 | (a1, d1, Err e) => a' = a1 /\ d' = d1 /\ snd (handle_command h line (n :: args) ln) = Some e
                 | (a1, d1, Ok r) => a' = a1 /\ d' = match r with
                             | Some x => if cl_list (o_class o) then d1 ++ [x] else d1
                             | None => d1
                             end /\ snd (handle_command h line (n :: args) ln) = None
                 end) /\
    forall j, obj_at (fst (handle_command h line (n :: args) ln)) j =
      if Nat.eqb j i then Some (mkObj (o_class o) a' d') else obj_at h j.
Proof.
  intros E Eo a h1. unfold handle_command, dispatcher. cbn [set_line h_commands]. rewrite E.
  change (obj_at (set_line line h) i) with (obj_at h i).
  change (obj_at (mkHandler (h_objs h) (h_commands h) (h_attrs h) (h_order h) (h_dataclasses h) line) i) with (obj_at h i).
  rewrite Eo. cbv zeta.
  change (mkHandler (h_objs h) (h_commands h) (h_attrs h) (h_order h) (h_dataclasses h) line) with (set_line line h).
  change (h_line (set_line line h)) with line. fold a. fold h1.
  assert (O : forall o' j, obj_at (set_obj i o' h1) j = if Nat.eqb j i then Some o' else obj_at h j).
  { intros o' j. destruct (Nat.eqb_spec j i) as [->|Ne].
    - eapply obj_at_set_eq. unfold h1. eapply obj_at_set_eq. exact Eo.
    - rewrite obj_at_set_ne by auto. unfold h1. rewrite obj_at_set_ne by auto. reflexivity. }
  destruct (cl_parse (o_class o) (view_of h1) a (o_data o) args) as [[a1 d1] [r|e]]; cbn [fst snd].
  - exists a1, (match r with Some x => if cl_list (o_class o) then d1 ++ [x] else d1 | None => d1 end). split; [auto|]. intros j. apply O.
  - exists a1, d1. split; [auto|]. intros j. apply O.
Qed.

(** ** Parse methods of the tables *)

Definition parse_code (c : string) : option stmt :=
  match method_of c "__init__" [], method_of c "parse" [], method_of c "__str__" [] with
  | Some _, Some p, Some _ => Some p
  | _, _, _ => None
  end.
Lemma cmd_class_parse rest c s : parse_code c = Some s -> cl_parse (cmd_class rest c) = cmd_parse c s.
Proof.
  unfold parse_code, cmd_class. generalize (method_of c "__init__" []) (method_of c "parse" []) (method_of c "__str__" []).
  intros [i|] [p|] [t|] E; try discriminate. injection E as ->. reflexivity.
Qed.
Lemma class_model_parse other c : cl_parse (class_model other c) =
  from_base c "parse" deprecated_parse removed_parse abstract_parse (cl_parse (other c)).
Proof. reflexivity. Qed.
Definition based (b : string) : bool := mem b ["DeprecatedCommand"; "RemovedCommand"; "KickstartCommand"].
Lemma based_not {A} b (d r k x : A) : based b = false ->
  (if String.eqb b "DeprecatedCommand" then d else if String.eqb b "RemovedCommand" then r
   else if String.eqb b "KickstartCommand" then k else x) = x.
Proof.
  unfold based, mem. cbn [existsb]. rewrite !orb_false_iff. intros (-> & -> & -> & _). reflexivity.
Qed.
Lemma from_base_not {A} c m (d r k x : A) : based (comes_from c m) = false -> from_base c m d r k x = x.
Proof. intros H. exact (based_not _ d r k x H). Qed.
(** The class and its parse method are in the tables, and parse is not that of a base class. *)
Definition own_parse (c : string) : bool := negb (based (comes_from c "parse")).
Local Opaque comes_from method_of table_of removed_of data_str new_attrs.
Lemma class_parse rest c s : parse_code c = Some s -> own_parse c = true ->
  cl_parse (class_model (cmd_class rest) c) = cmd_parse c s.
Proof.
  intros E O. rewrite class_model_parse. apply negb_true_iff in O. rewrite (from_base_not c "parse" _ _ _ _ O). apply cmd_class_parse. exact E.
Qed.

(** [c] refuses a line when the command [n] was seen. *)
Definition refuses (n c : string) : bool :=
  own_parse c &&
  match parse_code c with
  | Some s => let a := check [(ESeen n, true); (EHandlerHas n, true)] s in
              match en_next a, en_break a, en_return a with None, None, None => true | _, _, _ => false end
  | None => false
  end.
Lemma refuses_sound rest n c v a l args : refuses n c = true -> seen_in v n = Some true ->
  exists a' e, cl_parse (class_model (cmd_class rest) c) v a l args = (a', l, Err e).
Proof.
  unfold refuses. intros H S. apply andb_prop in H as [O H]. destruct (parse_code c) as [s|] eqn:E; [|discriminate].
  rewrite (class_parse rest c s E O). unfold cmd_parse, run.
  pose proof (check_sound (parse_ctx c v l args) s [(ESeen n, true); (EHandlerHas n, true)] [] a) as K.
  assert (A : all_hold (parse_ctx c v l args) a [] [(ESeen n, true); (EHandlerHas n, true)]).
  { intros f [<-|[<-|[]]]; unfold holds; cbn [fst snd eval parse_ctx c_view]; rewrite S; eexists; split; reflexivity. }
  specialize (K A). unfold checked in K.
  destruct (en_next _); [discriminate|]. destruct (en_break _); [discriminate|]. destruct (en_return _); [discriminate|].
  destruct (exec (parse_ctx c v l args) s [] a) as [e' s'|e' s'|p s'|x s']; cbn [some_hold] in K; try contradiction.
  cbn [bind]. eauto.
Qed.

(** parse leaves the attribute [k] of the command alone. *)
Definition parse_keeps (k c : string) : bool :=
  own_parse c && negb (mem k (dests (table_of c))) &&
  match parse_code c with Some s => keeps k s | None => false end.
Lemma parse_keeps_sound rest k c v a l args a' d' r : parse_keeps k c = true ->
  cl_parse (class_model (cmd_class rest) c) v a l args = (a', d', r) -> assoc k a' = assoc k a.
Proof.
  unfold parse_keeps. intros H P. apply andb_prop in H as [H K]. apply andb_prop in H as [O D].
  destruct (parse_code c) as [s|] eqn:E; [|discriminate]. rewrite (class_parse rest c s E O) in P. unfold cmd_parse, run in P.
  pose proof (exec_keeps (parse_ctx c v l args) k) as X.
  assert (HP : forall ln n r, parse_known_args (c_parser (parse_ctx c v l args)) ln (c_args (parse_ctx c v l args)) = Ok (n, r) -> has_key k n = false).
  { intros ln n r0 Hn. destruct (has_key k n) eqn:Hk; [|reflexivity]. exfalso. cbn [parse_ctx c_parser c_args] in Hn.
    apply (known_dests _ _ _ _ _ _ Hn) in Hk. apply negb_true_iff in D. apply mem_false in D. contradiction. }
  specialize (X HP s [] a K). assert (L : env_lacks k []) by (intros x p Hx; discriminate). specialize (X L).
  destruct (exec (parse_ctx c v l args) s [] a) as [e' s'|e' s'|p s'|x s']; cbn [kept] in X; injection P as <- _ _; tauto.
Qed.

(** Both at once, for several commands [ns]. *)
Definition guarded (k c : string) (ns : list string) : bool :=
  own_parse c && negb (mem k (dests (table_of c))) &&
  match parse_code c with
  | Some s => keeps k s && forallb (fun n => let a := check [(ESeen n, true); (EHandlerHas n, true)] s in
                match en_next a, en_break a, en_return a with None, None, None => true | _, _, _ => false end) ns
  | None => false
  end.
Lemma guarded_spec k c ns : guarded k c ns = true -> parse_keeps k c = true /\ forall n, In n ns -> refuses n c = true.
Proof.
  unfold guarded, parse_keeps, refuses. intros H. apply andb_prop in H as [H G]. apply andb_prop in H as [O D]. rewrite O, D.
  destruct (parse_code c) as [s|]; [|discriminate]. apply andb_prop in G as [G1 G2]. rewrite G1. split; [reflexivity|].
  intros n Hn. rewrite forallb_forall in G2. exact (G2 n Hn).
Qed.
