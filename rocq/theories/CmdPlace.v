(** * Lines can be moved

    What a command line does does not depend on where the line stands, nor on other
    commands, except those the command asks about. *)

From Verif Require Import PyStrFacts ArgParseFacts HandlerFacts ClassModel PropsHandler PropsClass HandlerSpec ParserSpec PropsStorage PyClass CmdFacts CmdLines CmdRound PyLine.
From Verif Require Import Value.
Local Open Scope string_scope.
Local Open Scope list_scope.
Local Arguments Ascii.eqb : simpl never.
Local Arguments String.eqb : simpl never.

(** What tells where a line stood. *)
Definition all_places : list string := ["currentCmd"; "currentLine"; "lineno"].

(** ** The texts *)

Definition quiet_str (c : string) : bool :=
  match method_of c "__str__" [] with
  | Some m => lineless all_places m && match asks_s m with [] => negb (mem "_r" (ns_vars m)) | _ => false end
  | None => true
  end.
Lemma texts_lineless : forallb quiet_str (map fst (base_code ++ code)) = true.
Proof. vm_compute. reflexivity. Qed.
Lemma mro_head f c l : mro f c = Some l -> exists r, l = c :: r.
Proof.
  destruct f as [|f]; [discriminate|]. cbn [mro]. destruct (find_classdef c) as [k|]; [|intros E; injection E as <-; eexists; reflexivity].
  destruct (existsb _ _); [discriminate|]. destruct (merge _ _); [|discriminate]. intros E. injection E as <-. eexists. reflexivity.
Qed.
Lemma expand_none f self rm m ps : find_method m self = None -> expand f self rm (SCall "_r" TSelf m ps) = None.
Proof. intros H. destruct f as [|f]; [reflexivity|]. cbn [expand expand_with search]. now rewrite H. Qed.
Lemma method_none c m ps : ~ In c (map fst (base_code ++ code)) -> method_of c m ps = None.
Proof.
  intros H. unfold method_of. apply expand_none. unfold mro_of. destruct (mro 40 c) as [l|] eqn:E; [|reflexivity].
  apply mro_head in E as [r ->]. cbn [find_method]. apply assoc_none in H. now rewrite H.
Qed.
Lemma quiet_all c : quiet_str c = true.
Proof.
  destruct (in_dec string_dec c (map fst (base_code ++ code))) as [H|H].
  - pose proof texts_lineless as T. rewrite forallb_forall in T. now apply T.
  - unfold quiet_str. now rewrite method_none.
Qed.

(** ** Running a method *)

Lemma run_l P c1 c2 st a b a' p : mem "lineno" P = true -> lineless P st = true -> mem "_r" (ns_vars st) = false ->
  c_args c1 = c_args c2 -> c_parser c1 = c_parser c2 -> (forall k, c_new c1 k = c_new c2 k) ->
  (forall k, assoc k (v_data (c_view c1)) = assoc k (v_data (c_view c2))) ->
  (forall n, mem n (asks_s st) = true -> seen_in (c_view c1) n = seen_in (c_view c2) n) ->
  Forall2 data_l (c_list c1) (c_list c2) -> (forall d e s, data_l d e -> c_str c1 d = Ok s -> c_str c2 e = Ok s) ->
  attrs_l P a b -> run c1 st [] a = (a', Ok p) -> exists b' q, run c2 st [] b = (b', Ok q) /\ attrs_l P a' b' /\ val_l p q.
Proof.
  intros Ml L R H1 H2 H3 H4 H5 H6 H7 A E. unfold run in *.
  pose proof (line_s_ok P Ml (ns_vars st) (asks_s st) c1 c2 H1 H2 H3 H4 H5 H6 H7 st L [] [] a b (fun x => I) A) as O.
  destruct (exec c1 st [] a) as [e1 s1|e1 s1|p1 s1|z1 s1]; destruct (exec c2 st [] b) as [e2 s2|e2 s2|p2 s2|z2 s2]; cbn [out_l] in O; try contradiction; try discriminate.
  - destruct O as [Oe Os]. specialize (Oe "_r"). unfold var_l in Oe. rewrite R in Oe. injection E as <- E. destruct (assoc "_r" e1) as [q1|]; [|discriminate]. injection E as ->.
    destruct (assoc "_r" e2) as [q2|]; [|destruct Oe]. eauto.
  - destruct O as [Oe Os]. injection E as <- <-. eauto.
Qed.


(** Fewer places. *)
Lemma attrs_l_more P P' a b : (forall k, mem k P = true -> mem k P' = true) -> attrs_l P a b -> attrs_l P' a b.
Proof.
  intros M [H1 H2]. split; [|exact H2]. intros k Hk. apply H1. destruct (mem k P) eqn:E; [|reflexivity]. rewrite (M k E) in Hk. discriminate.
Qed.
Lemma data_l_sym d e : data_l d e -> data_l e d.
Proof. intros [C A]. split; [now symmetry|now apply attrs_l_sym]. Qed.
Lemma data_l_trans d e g : data_l d e -> data_l e g -> data_l d g.
Proof. intros [C A] [C' A']. split; [congruence|]. eapply attrs_l_trans; eauto. Qed.
Lemma Forall2_sym_l l m : Forall2 data_l l m -> Forall2 data_l m l.
Proof. induction 1; constructor; auto using data_l_sym. Qed.

Lemma lineno_place k : mem k ["lineno"] = true -> mem k all_places = true.
Proof. intros M. apply mem_In in M as [<-|[]]. reflexivity. Qed.

Definition text_res (r : res pval) : res string := do p <- r ;; match p with PV (VStr t) => Ok t | _ => Err TypeError end.
Lemma text_l c1 c2 m a b s : lineless all_places m = true -> asks_s m = [] -> mem "_r" (ns_vars m) = false ->
  c_args c1 = c_args c2 -> c_parser c1 = c_parser c2 -> (forall k, c_new c1 k = c_new c2 k) ->
  (forall k, assoc k (v_data (c_view c1)) = assoc k (v_data (c_view c2))) ->
  Forall2 data_l (c_list c1) (c_list c2) -> (forall d e s, data_l d e -> c_str c1 d = Ok s -> c_str c2 e = Ok s) ->
  attrs_l all_places a b -> text_res (snd (run c1 m [] a)) = Ok s -> text_res (snd (run c2 m [] b)) = Ok s.
Proof.
  intros L As R H1 H2 H3 H4 H6 H7 A H. destruct (run c1 m [] a) as [x' [p|z]] eqn:E; [|discriminate].
  destruct (run_l all_places c1 c2 m a b x' p eq_refl L R H1 H2 H3 H4) as (b' & q & E2 & _ & V); auto.
  { intros n Hn. rewrite As in Hn. discriminate. }
  rewrite E2. unfold text_res in *. cbn [snd bind] in *. destruct p; try discriminate. destruct q; cbn in V; try contradiction. now subst.
Qed.
Local Opaque method_of lineless asks_s ns_vars table_of init_of build mode_of comes_from.
Lemma parse_code_str c st : parse_code c = Some st -> method_of c "__str__" [] <> None.
Proof.
  unfold parse_code. generalize (method_of c "__init__" []) (method_of c "parse" []) (method_of c "__str__" []). intros [i|] [p|] [u|]; discriminate.
Qed.
Local Opaque parse_code.
Lemma quiet_spec c m : method_of c "__str__" [] = Some m -> lineless all_places m = true /\ asks_s m = [] /\ mem "_r" (ns_vars m) = false.
Proof.
  intros E. pose proof (quiet_all c) as Qs. unfold quiet_str in Qs. rewrite E in Qs. apply andb_prop in Qs as [L Qs].
  destruct (asks_s m); [|discriminate]. apply negb_true_iff in Qs. auto.
Qed.
Lemma data_str_as d : data_str d = match method_of (d_class d) "__str__" [] with Some m => text_res (snd (run no_ctx m [] (d_attrs d))) | None => data_str d end.
Proof. unfold data_str. destruct (method_of (d_class d) "__str__" []); reflexivity. Qed.
Lemma data_str_l d e s : data_l d e -> data_str d = Ok s -> data_str e = Ok s.
Proof.
  intros [C A]. rewrite (data_str_as d), (data_str_as e), <- C. destruct (method_of (d_class d) "__str__" []) as [m|] eqn:E.
  - destruct (quiet_spec _ _ E) as (L & As & R). apply text_l; auto; [constructor|]. eapply attrs_l_more; [exact lineno_place|exact A].
  - unfold data_str. rewrite E. discriminate.
Qed.
Section Classes.
Variable rest : string -> cclass.
Notation cls c := (class_model (cmd_class rest) c).

(** The text of a class of the tables. *)
Lemma cmd_str_as c t a l : cmd_str c t a l = text_res (snd (run (parse_ctx c no_view l []) t [] a)).
Proof. reflexivity. Qed.
Lemma str_l_one c a b l m s t : attrs_l all_places a b -> Forall2 data_l l m ->
  method_of c "__str__" [] = Some t -> cmd_str c t a l = Ok s -> cmd_str c t b m = Ok s.
Proof.
  intros A F Ms H. destruct (quiet_spec _ _ Ms) as (L & As & R). rewrite cmd_str_as in *.
  exact (text_l (parse_ctx c no_view l []) (parse_ctx c no_view m []) t a b s L As R eq_refl eq_refl (fun _ => eq_refl) (fun _ => eq_refl) F (fun d e x => data_str_l d e x) A H).
Qed.
Lemma str_l c st a b l m : parse_code c = Some st -> attrs_l all_places a b -> Forall2 data_l l m -> cl_str (cls c) a l = cl_str (cls c) b m.
Proof.
  intros Pc A F. rewrite class_model_str. unfold from_base. destruct (method_of c "__str__" []) as [t|] eqn:Ms.
  - rewrite (cmd_class_str rest c st t Pc Ms).
    assert (E : match cmd_str c t a l with Ok x => x | Err _ => "" end = match cmd_str c t b m with Ok x => x | Err _ => "" end).
    { destruct (cmd_str c t a l) as [s|] eqn:E1; [now rewrite (str_l_one c a b l m s t A F Ms E1)|].
      destruct (cmd_str c t b m) as [s|] eqn:E2; [|reflexivity]. rewrite (str_l_one c b a m l s t (attrs_l_sym _ _ _ A) (Forall2_sym_l _ _ F) Ms E2) in E1. discriminate. }
    destruct (String.eqb _ _); [reflexivity|]. destruct (String.eqb _ _); [reflexivity|]. destruct (String.eqb _ _); [reflexivity|]. exact E.
  - destruct (parse_code_str c st Pc Ms).
Qed.

(** A line for a class of the tables. *)
Definition movable (P : list string) (c : string) : bool :=
  match parse_code c with Some st => based (comes_from c "parse") || lineless P st && negb (mem "_r" (ns_vars st)) | None => false end.
Definition asked (c : string) : list string :=
  if based (comes_from c "parse") then [] else match parse_code c with Some st => asks_s st | None => [] end.
Lemma parse_l P c vw vw' a b l m args a' l' r : mem "lineno" P = true -> movable P c = true ->
  (forall k, assoc k (v_data vw) = assoc k (v_data vw')) -> (forall n, In n (asked c) -> seen_in vw n = seen_in vw' n) ->
  attrs_l P a b -> Forall2 data_l l m -> cl_parse (cls c) vw a l args = (a', l', Ok r) ->
  exists b' r', cl_parse (cls c) vw' b m args = (b', m, Ok r') /\ l' = l /\ attrs_l P a' b' /\ opt_l data_l r r'.
Proof.
  unfold movable, asked. intros Sub M Vd Vs A F. destruct (based (comes_from c "parse")) eqn:O.
  - rewrite class_model_parse. unfold based in O. unfold from_base. destruct (String.eqb (comes_from c "parse") "DeprecatedCommand") eqn:D.
    + intros E. injection E as <- <- <-. exists b, None. repeat split; auto; apply A.
    + destruct (String.eqb (comes_from c "parse") "RemovedCommand") eqn:D2; [discriminate|]. destruct (String.eqb (comes_from c "parse") "KickstartCommand") eqn:D3; [discriminate|].
      unfold mem in O. cbn [existsb] in O. rewrite D, D2, D3 in O. discriminate O.
  - destruct (parse_code c) as [st|] eqn:Pc; [|discriminate]. cbn [orb] in M. apply andb_prop in M as [L R]. apply negb_true_iff in R.
    rewrite (class_parse rest c st Pc) by (unfold own_parse; now rewrite O). unfold cmd_parse. destruct (run (parse_ctx c vw l args) st [] a) as [x' [p|z]] eqn:E; [|discriminate].
    intros E'. injection E' as <- <- <-.
    destruct (run_l P (parse_ctx c vw l args) (parse_ctx c vw' m args) st a b x' p Sub L R) as (b' & q & E2 & Ab & V); auto.
    { intros n Hn. apply Vs. now apply mem_In. }
    { intros d e s. apply data_str_l. }
    rewrite E2. cbn [bind]. eexists b', _. split; [reflexivity|]. split; [reflexivity|]. split; [exact Ab|]. destruct p, q; cbn in V |- *; try contradiction; auto.
Qed.
End Classes.

(** ** In handlers *)

(** The same object, but for the places of lines. *)
Definition obj_l (o o' : cmdobj) : Prop :=
  o_class o = o_class o' /\ attrs_l all_places (o_attrs o) (o_attrs o') /\ Forall2 data_l (o_data o) (o_data o').
Definition given_as (h : handler) (q : string) : option bool := option_map o_seen (attr_obj h q).
(** The two lines differ in the places only. *)
Definition placed (P : list string) (n line : string) (ln : N) (m line' : string) (ln' : N) : Prop :=
  (mem "currentCmd" P = true \/ n = m) /\ (mem "currentLine" P = true \/ line = line') /\ (mem "lineno" P = true \/ ln = ln').

Lemma attrs_put_or P a b k v w : attrs_l P a b -> mem k P = true \/ v = w -> attrs_l P (put k v a) (put k w b).
Proof. intros A [M| ->]; [now apply attrs_put_place|now apply attrs_put]. Qed.
Lemma attrs_stamp P n line ln m line' ln' a b : placed P n line ln m line' ln' -> attrs_l all_places a b -> attrs_l P (stamp n line ln a) (stamp m line' ln' b).
Proof.
  intros (P1 & P2 & P3) [H1 H2]. unfold stamp. split; intros k; rewrite !assoc_put.
  - intros Mk. destruct (String.eqb_spec k "seen") as [->|]; [reflexivity|].
    destruct (String.eqb_spec k "lineno") as [->|]; [destruct P3 as [P3| ->]; [congruence|reflexivity]|].
    destruct (String.eqb_spec k "currentLine") as [->|]; [destruct P2 as [P2| ->]; [congruence|reflexivity]|].
    destruct (String.eqb_spec k "currentCmd") as [->|]; [destruct P1 as [P1| ->]; [congruence|reflexivity]|].
    apply H1. unfold mem, all_places. cbn [existsb]. repeat match goal with |- context [String.eqb k ?x] => destruct (String.eqb_spec k x); [contradiction|] end. reflexivity.
  - repeat match goal with |- context [String.eqb k ?x] => destruct (String.eqb k x); [split; discriminate|] end. apply H2.
Qed.
Lemma obj_l_refl o : obj_l o o.
Proof. split; [reflexivity|]. split; [apply attrs_l_refl|]. induction (o_data o); constructor; auto using data_l_refl. Qed.
Lemma obj_l_trans o p q : obj_l o p -> obj_l p q -> obj_l o q.
Proof.
  intros (C & A & F) (C' & A' & F'). split; [congruence|]. split; [eapply attrs_l_trans; eauto|].
  clear -F F'. revert F'. generalize (o_data q). induction F as [|d e l m D F IH]; intros k F'; inversion F'; subst; constructor; eauto using data_l_trans.
Qed.
Lemma obj_l_sym o p : obj_l o p -> obj_l p o.
Proof. intros (C & A & F). split; [now symmetry|]. split; [now apply attrs_l_sym|now apply Forall2_sym_l]. Qed.
Lemma obj_l_seen o p : obj_l o p -> o_seen o = o_seen p.
Proof. intros (_ & [A _] & _). unfold o_seen, get. now rewrite A. Qed.

Section Handlers.
Variable rest : string -> cclass.
Variables (v : Z) (cm dm : list (string * string)).
Hypothesis Hv : In (v, (cm, dm)) handlers.
Notation used := (used rest cm dm).
Notation cls c := (class_model (cmd_class rest) c).

Lemma view_seen h i o o' n line ln q : attr_obj h q = attr_obj h q -> obj_at h i = Some o ->
  o' = mkObj (o_class o) (stamp n line ln (o_attrs o)) (o_data o) ->
  seen_in (view_of (set_obj i o' (set_line line h))) q =
    if mem q watched then match assoc q (h_attrs h) with
                          | Some (Some j) => if Nat.eqb j i then Some true else option_map o_seen (obj_at h j)
                          | _ => None
                          end
    else None.
Proof.
  intros _ E ->. unfold view_of, seen_in. cbn [v_seen].
  assert (G : forall l, assoc q (map (fun n0 => (n0, option_map o_seen (attr_obj (set_obj i (mkObj (o_class o) (stamp n line ln (o_attrs o)) (o_data o)) (set_line line h)) n0))) l) =
    if mem q l then Some (option_map o_seen (attr_obj (set_obj i (mkObj (o_class o) (stamp n line ln (o_attrs o)) (o_data o)) (set_line line h)) q)) else None).
  { induction l as [|x l IH]; [reflexivity|]. cbn [map assoc]. unfold mem in *. cbn [existsb]. destruct (String.eqb_spec q x) as [->|]; [reflexivity|]. exact IH. }
  rewrite G. destruct (mem q watched); [|reflexivity]. unfold attr_obj. change (h_attrs (set_obj i _ (set_line line h))) with (h_attrs h).
  destruct (assoc q (h_attrs h)) as [[j|]|]; [|reflexivity|reflexivity]. destruct (Nat.eqb_spec j i) as [->|Ne].
  - rewrite (obj_at_set_eq i o); [|exact E]. cbn [option_map]. unfold o_seen, get. cbn [o_attrs]. now rewrite stamp_seen.
  - rewrite obj_at_set_ne by auto. reflexivity.
Qed.

(** A line accepted in one handler is accepted in another one in which the object of the
    command is the same, and has the same effect on it. *)
Lemma line_moves P h h' n m c line line' args ln ln' h1 o o' : used h -> used h' -> In (n, c) cm -> In (m, c) cm -> mem "lineno" P = true -> (forall k, mem k P = true -> mem k all_places = true) -> movable P c = true -> placed P n line ln m line' ln' ->
  served h n = Some o -> served h' n = Some o' -> obj_l o o' -> (forall q, In q (asked c) -> mem q watched = true -> given_as h q = given_as h' q) ->
  handle_command h line (n :: args) ln = (h1, None) ->
  exists h1' o1 o1', handle_command h' line' (m :: args) ln' = (h1', None) /\ served h1 n = Some o1 /\ served h1' n = Some o1' /\ obj_l o1 o1' /\
    (forall k d, In (k, d) cm -> d <> c -> served h1 k = served h k) /\ (forall k d, In (k, d) cm -> d <> c -> served h1' k = served h' k).
Proof.
  intros U U' Hn Hm Ml Sub Mv Pl So So' (Oc & Oa & Od) Qs E.
  destruct (used_served rest v cm dm Hv h n c U Hn) as (i & p & Ei & Eo & Sp & Co). rewrite So in Sp. injection Sp as <-.
  destruct (used_served rest v cm dm Hv h' m c U' Hm) as (j & p & Ej & Eo' & Sp & Co').
  destruct (used_served rest v cm dm Hv h' n c U' Hn) as (j' & p' & Ej' & Eo'' & Sp' & _). rewrite So' in Sp'. injection Sp' as <-.
  assert (j' = j) as -> by (now apply (same_object rest v cm dm Hv h' n c m c j' j U' Hn Hm Ej' Ej)).
  assert (p = o') as -> by congruence.
  assert (j = i) as -> by (rewrite (proj1 (used_commands rest cm dm h' U')) in Ej'; rewrite (proj1 (used_commands rest cm dm h U)) in Ei; congruence).
  destruct (dispatch_cases h line n args ln i o Ei Eo) as (a1 & d1 & Pr & J). destruct (dispatch_cases h' line' m args ln' i o' Ej Eo') as (a2 & d2 & P' & J').
  cbv zeta in Pr, P'. rewrite E in Pr, J. cbn [fst snd] in Pr, J. rewrite Co in Pr. rewrite Co' in P'.
  match type of Pr with context [cl_parse ?k ?vw ?a ?l args] => destruct (cl_parse k vw a l args) as [[a0 d0] [r|z]] eqn:Pa; [|destruct Pr as (_ & _ & Pr); discriminate] end.
  destruct Pr as (-> & -> & _).
  match type of Pa with cl_parse _ ?vw ?a ?l _ = _ =>
    destruct (parse_l rest P c vw (view_of (set_obj i (mkObj (cls c) (stamp m line' ln' (o_attrs o')) (o_data o')) (set_line line' h')))
      a (stamp m line' ln' (o_attrs o')) l (o_data o') args a0 d0 r Ml Mv) as (b' & r' & Pb & -> & Ab & Rr) end.
  { intros k. cbn [view_of v_data set_obj set_line h_dataclasses]. rewrite (used_data rest v cm dm Hv h k U), (used_data rest v cm dm Hv h' k U'). reflexivity. }
  { intros q Hq. rewrite (view_seen h i o _ n line ln q) by (auto; now rewrite Co). rewrite (view_seen h' i o' _ m line' ln' q) by (auto; now rewrite Co').
    destruct (mem q watched) eqn:Wq; [|reflexivity]. specialize (Qs q Hq Wq). unfold given_as, attr_obj in Qs.
    rewrite (proj2 (used_commands rest cm dm h U)) in *. rewrite (proj2 (used_commands rest cm dm h' U')) in *.
    destruct (assoc q (h_attrs (skeleton cm))) as [[j0|]|]; auto. destruct (Nat.eqb j0 i); auto. }
  { now apply attrs_stamp. }
  { exact Od. }
  { exact Pa. }
  rewrite Pb in P'. destruct P' as (-> & -> & Sn). destruct (handle_command h' line' (m :: args) ln') as [h1' e'] eqn:E'. cbn [fst snd] in *. subst e'.
  assert (U1 : used h1) by (pose proof (used_step rest cm dm h line (n :: args) ln U) as X; now rewrite E in X).
  assert (U1' : used h1') by (pose proof (used_step rest cm dm h' line' (m :: args) ln' U') as X; now rewrite E' in X).
  assert (G : forall g g1 x, used g -> used g1 -> (forall j, obj_at g1 j = if Nat.eqb j i then Some x else obj_at g j) -> assoc n (h_commands g) = Some (Some i) ->
    served g1 n = Some x /\ forall k d, In (k, d) cm -> d <> c -> served g1 k = served g k).
  { intros g g1 x Ug Ug1 Jg En. assert (Sc : h_commands g1 = h_commands g) by (now rewrite (proj1 (used_commands rest cm dm g Ug)), (proj1 (used_commands rest cm dm g1 Ug1))).
    split.
    - unfold served, identity. rewrite Sc, En, Jg, Nat.eqb_refl. reflexivity.
    - intros k d Hk Nd. destruct (used_served rest v cm dm Hv g k d Ug Hk) as (q & y & Eq & Ey & Sy & Cy). unfold served, identity. rewrite Sc, Eq, Jg.
      destruct (Nat.eqb_spec q i) as [->|]; [|reflexivity]. exfalso. apply Nd. now apply (same_object rest v cm dm Hv g k d n c i i Ug Hk Hn Eq En). }
  destruct (G h h1 _ U U1 J Ei) as [S1 K1]. destruct (G h' h1' _ U' U1' J' Ej') as [S2 K2].
  eexists h1', _, _. split; [reflexivity|]. split; [exact S1|]. split; [exact S2|]. split; [|split; assumption].
  split; [exact Oc|]. cbn [o_attrs o_data]. split; [eapply attrs_l_more; eauto|]. destruct r as [d|], r' as [d'|]; cbn in Rr; try contradiction; [|exact Od].
  rewrite Co, Co' in *. destruct (cl_list (cls c)); [|exact Od]. apply Forall2_app; [exact Od|]. constructor; [exact Rr|constructor].
Qed.
End Handlers.
