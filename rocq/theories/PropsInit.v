(** * C47: objects made with keyword arguments *)

From Verif Require Import PyStrFacts ArgSpec ArgParseFacts HandlerFacts HandlerSpec ParserSpec ClassModel PropsHandler PropsClass NsFacts PyKeep PyClass CmdFacts CmdFlow CmdLines PropsStorage PropsStore PropsRound CmdPlace PropsPlace PyInit.
From Verif Require Import Value.
Local Open Scope string_scope.
Local Open Scope list_scope.
Local Arguments String.eqb : simpl never.

(** ** What the keyword arguments say *)

(** What an object keeps about itself and about its options: not given by keyword. *)
Definition own_attributes : list string :=
  ["writePriority"; "currentCmd"; "currentLine"; "lineno"; "seen";
   "bootprotoList"; "levelMap"; "exclusive_required_options"; "typeMap"; "bind_to_choices"; "validActions"; "validModes"; "whenMap"; "rescue"].
(** Attributes with a second keyword, the name of the option; it is used when its value
    is not empty. *)
Definition second_keywords : list (string * string) :=
  [("reserved_space", "reserved-space"); ("reserved_percent", "reserved-percent"); ("dataLevel", "data"); ("metaDataLevel", "metadata"); ("mkfsopts", "mkfsoptions")].
(** Attributes that are another attribute when not given. *)
Definition copied_from : list (string * string) := [("remote", "osname")].

Definition keyword (kw : attrs) (k : string) (d : value) : value := match assoc k kw with Some v => v | None => d end.
(** The attribute [k] of an object made with [kw], where one made without has [d]. *)
Definition with_keywords (kw : attrs) (k : string) (d : value) : value :=
  if mem k own_attributes then d
  else match assoc k second_keywords with
       | Some k2 => if truthy (keyword kw k2 VNone) then keyword kw k2 VNone else keyword kw k d
       | None => match assoc k copied_from with
                 | Some k2 => keyword kw k (keyword kw k2 d)
                 | None => keyword kw k d
                 end
       end.

(** The classes of the versions, but for those of logging (the level is made "info" when
    it is empty), of method, multipath and realm (outside the tables), and displaymode of
    F26 (see [C47_displaymode_refuted]). *)
Definition set_apart : list string :=
  ["FC6_Logging"; "F34_Logging"; "FC3_Method"; "FC6_Method"; "F13_Method"; "RHEL6_Method"; "F14_Method"; "F18_Method"; "F19_Method"; "RHEL7_Method"; "F28_Method"; "F34_Method";
   "FC6_MultiPath"; "F24_MultiPath"; "F34_MultiPath"; "FC6_MultiPathData"; "F19_Realm"; "F26_DisplayMode"].

(** ** The check *)

Definition falsy_end (x : sval) : bool := match x with SConst v => negb (truthy v) | _ => false end.
Definition is_const (x : sval) : bool := match x with SConst _ => true | _ => false end.
Definition attr_ok (k : string) (x : sval) : bool :=
  if mem k own_attributes then is_const x
  else match assoc k second_keywords with
       | Some k2 => match x with
                    | SEither (SGet a d) (SGet b e) => String.eqb a k2 && falsy_end d && String.eqb b k && is_const e
                    | _ => false
                    end
       | None => match assoc k copied_from with
                 | Some k2 => match x with SGet a (SGet b d) => String.eqb a k && String.eqb b k2 && is_const d | _ => false end
                 | None => match x with SGet a d => String.eqb a k && is_const d | _ => false end
                 end
       end.
Definition made_ok (c : string) : bool :=
  match made_attrs c with
  | Some l => forallb (fun e => attr_ok (fst e) (snd e)) l && forallb (fun k => negb (has_key k l)) (removed_of c)
  | None => false
  end.
Definition all_classes : list string := MiniPy.distinct (flat_map (fun h => map snd (fst (snd h)) ++ map snd (snd (snd h))) handlers).
Lemma made_checked : forallb (fun c => if mem c set_apart then true else made_ok c) all_classes = true.
Proof. vm_compute. reflexivity. Qed.
Lemma distinct_has x l : In x l -> In x (MiniPy.distinct l).
Proof.
  induction l as [|y l IH]; [auto|]. intros [->|H]; cbn [MiniPy.distinct]; [now left|]. destruct (String.eqb_spec y x) as [->|N]; [now left|].
  right. apply filter_In. split; [auto|]. apply negb_true_iff. now apply String.eqb_neq.
Qed.
Lemma class_in v cm dm c : In (v, (cm, dm)) handlers -> In c (map snd cm ++ map snd dm) -> In c all_classes.
Proof. intros Hv Hc. apply distinct_has. apply in_flat_map. exists (v, (cm, dm)). auto. Qed.
Lemma made_init c l : made_attrs c = Some l -> init_of c = aden [] l.
Proof. intros H. unfold init_of. now rewrite (made_new c l [] H). Qed.
Local Opaque comes_from method_of table_of removed_of new_attrs init_of made_attrs all_classes.
Lemma attr_ok_value k x kw : attr_ok k x = true -> den kw x = with_keywords kw k (den [] x).
Proof.
  unfold attr_ok, with_keywords. destruct (mem k own_attributes).
  - destruct x; try discriminate. reflexivity.
  - destruct (assoc k second_keywords) as [k2|].
    + destruct x as [|? ?|[|a d|] [|b e|]]; try discriminate. intros H. apply andb_prop in H as [H H4]. apply andb_prop in H as [H H3]. apply andb_prop in H as [H1 H2].
      apply String.eqb_eq in H1, H3. subst a b. destruct d as [d| |]; try discriminate. destruct e as [e| |]; try discriminate. cbn [falsy_end] in H2. apply negb_true_iff in H2.
      cbn [den assoc]. rewrite H2. unfold keyword. destruct (assoc k2 kw) as [w|]; [reflexivity|]. rewrite H2. reflexivity.
    + destruct (assoc k copied_from) as [k2|].
      * destruct x as [|a [|b d|]|]; try discriminate. intros H. apply andb_prop in H as [H H3]. apply andb_prop in H as [H1 H2]. apply String.eqb_eq in H1, H2. subst a b.
        destruct d as [d| |]; try discriminate. reflexivity.
      * destruct x as [|a d|]; try discriminate. intros H. apply andb_prop in H as [H H2]. apply String.eqb_eq in H. subst a. destruct d as [d| |]; try discriminate. reflexivity.
Qed.
Lemma class_made v cm dm c : In (v, (cm, dm)) handlers -> In c (map snd cm ++ map snd dm) -> ~ In c set_apart -> made_ok c = true.
Proof.
  intros Hv Hc Ns. pose proof made_checked as M. rewrite forallb_forall in M. specialize (M c (class_in v cm dm c Hv Hc)).
  destruct (mem c set_apart) eqn:E; [|exact M]. apply mem_In in E. contradiction.
Qed.
(** A command or data object of a version, made with any keyword arguments: it has the
    attributes of one made without, those that were given with the value given and the
    others unchanged; unknown keywords are ignored, and attributes that the class lists as
    removed do not come back.  (The keyword writePriority is a parameter of its own.) *)
Theorem C47_keywords : forall v cm dm c kw, In (v, (cm, dm)) handlers -> In c (map snd cm ++ map snd dm) -> ~ In c set_apart -> has_key "writePriority" kw = false ->
  exists a, new_attrs c kw = Ok a /\ map fst a = map fst (init_of c) /\
    (forall k d, assoc k (init_of c) = Some d -> assoc k a = Some (with_keywords kw k d)) /\
    (forall k, In k (removed_of c) -> has_key k a = false).
Proof.
  intros v cm dm c kw Hv Hc Ns _. pose proof (class_made v cm dm c Hv Hc Ns) as M. unfold made_ok in M. destruct (made_attrs c) as [l|] eqn:E; [|discriminate].
  apply andb_prop in M as [M R]. rewrite forallb_forall in M, R. exists (aden kw l). split; [exact (made_new c l kw E)|].
  rewrite (made_init c l E). unfold aden. split; [rewrite !map_map; reflexivity|]. split.
  - intros k d. rewrite !(assoc_map (den _)). destruct (assoc k l) as [x|] eqn:A; [|discriminate]. cbn [option_map]. intros H. injection H as <-. f_equal.
    apply attr_ok_value. exact (M _ (assoc_In _ _ _ A)).
  - intros k Hk. specialize (R k Hk). apply negb_true_iff in R. unfold has_key in *. rewrite (assoc_map (den _)). destruct (assoc k l); [discriminate|reflexivity].
Qed.
Print Assumptions C47_keywords.
Local Transparent comes_from method_of table_of removed_of new_attrs init_of made_attrs all_classes.
Local Definition part_keywords : attrs := [("mountpoint", VStr "/home"); ("size", VInt 500); ("bytesPerInode", VInt 1); ("colour", VStr "red"); ("mkfsoptions", VStr "-q"); ("mkfsopts", VStr "-v")].
Example C47_example :
  existsb (fun h => Z.eqb (fst h) F34 && mem "F29_PartData" (map snd (snd (snd h)))) handlers = true /\ mem "F29_PartData" set_apart = false /\
  match new_attrs "F29_PartData" part_keywords with
  | Ok a => (get "mountpoint" a, get "size" a, get "mkfsopts" a, get "grow" a, has_key "bytesPerInode" a, has_key "colour" a) =
            (VStr "/home", VInt 500, VStr "-q", VBool false, false, false)
  | Err _ => False
  end.
Proof. vm_compute. auto. Qed.

(** displaymode of F26 does not hand its keyword arguments on. *)
Theorem C47_displaymode_refuted : exists a, new_attrs "F26_DisplayMode" [("displayMode", VInt 1)] = Ok a /\ get "displayMode" a = VNone /\
  exists b, new_attrs "FC3_DisplayMode" [("displayMode", VInt 1)] = Ok b /\ get "displayMode" b = VInt 1.
Proof. eexists. split; [vm_compute; reflexivity|]. split; [vm_compute; reflexivity|]. eexists. split; vm_compute; reflexivity. Qed.
Print Assumptions C47_displaymode_refuted.

(** ** Removed attributes and command lines *)

Definition option_dests (c : string) : list string := map a_dest (all_actions (build (table_of c))).
Definition never_sets (k c : string) : bool :=
  own_parse c && negb (mem k (option_dests c)) && match parse_code c with Some s => keeps k s | None => false end &&
  negb (mem k ["lineno"; "currentCmd"; "currentLine"; "seen"]).
Definition still_options : list string := ["FC6_XConfig"; "F10_XConfig"; "F12_ZFCP"].
Lemma removed_checked : forallb (fun c => if mem c still_options then true else forallb (fun k => never_sets k c && inits c && negb (has_key k (init_of c))) (removed_of c))
  (MiniPy.distinct (flat_map (fun h => map snd (fst (snd h))) handlers)) = true.
Proof. vm_compute. reflexivity. Qed.
Local Opaque comes_from method_of table_of removed_of new_attrs init_of made_attrs all_classes.
Lemma never_sets_sound rest k c v a l args a' d' r : never_sets k c = true ->
  cl_parse (class_model (cmd_class rest) c) v a l args = (a', d', r) -> assoc k a' = assoc k a.
Proof.
  unfold never_sets. intros H P. apply andb_prop in H as [H _]. apply andb_prop in H as [H K]. apply andb_prop in H as [O D].
  destruct (parse_code c) as [s|] eqn:E; [|discriminate]. rewrite (class_parse rest c s E O) in P. unfold cmd_parse, run in P.
  pose proof (exec_keeps (parse_ctx c v l args) k) as X.
  assert (HP : forall ln n r, parse_known_args (c_parser (parse_ctx c v l args)) ln (c_args (parse_ctx c v l args)) = Ok (n, r) -> has_key k n = false).
  { intros ln n r0 Hn. cbn [parse_ctx c_parser c_args] in Hn. apply negb_true_iff in D. apply mem_false in D.
    refine (parse_known_keys (fun d => d <> k) (fun n => has_key k n = false) eq_refl _ _ _ _ _ _ _ Hn).
    - intros d w m Hd Hm. rewrite has_key_put, Hm. destruct (String.eqb_spec k d); [congruence|reflexivity].
    - intros x Hx Ek. apply D. unfold option_dests. rewrite <- Ek. now apply in_map. }
  specialize (X HP s [] a K). assert (L : env_lacks k []) by (intros x p Hx; discriminate). specialize (X L).
  destruct (exec (parse_ctx c v l args) s [] a) as [e' s'|e' s'|p s'|x s']; cbn [kept] in X; injection P as <- _ _; tauto.
Qed.

Lemma never_sets_other k c : never_sets k c = true -> forall n line ln a, has_key k (stamp n line ln a) = has_key k a.
Proof.
  unfold never_sets. intros H n line ln a. apply andb_prop in H as [_ H]. apply negb_true_iff in H. apply mem_false in H.
  unfold has_key, stamp. rewrite !assoc_put. repeat match goal with |- context [String.eqb k ?x] => destruct (String.eqb_spec k x) as [->|]; [exfalso; apply H; cbn; tauto|] end. reflexivity.
Qed.
Lemma removed_class v cm dm n c k : In (v, (cm, dm)) handlers -> In (n, c) cm -> ~ In c still_options -> In k (removed_of c) -> never_sets k c = true /\ inits c = true /\ has_key k (init_of c) = false.
Proof.
  intros Hv Hn Ns Hk. pose proof removed_checked as R. rewrite forallb_forall in R. specialize (R c).
  destruct (mem c still_options) eqn:E; [apply mem_In in E; contradiction|].
  assert (I : In c (MiniPy.distinct (flat_map (fun h => map snd (fst (snd h))) handlers))).
  { apply distinct_has. apply in_flat_map. exists (v, (cm, dm)). split; [exact Hv|]. cbn [fst snd]. apply in_map_iff. exists (n, c). auto. }
  specialize (R I). rewrite forallb_forall in R. specialize (R k Hk). apply andb_prop in R as [R R2]. apply andb_prop in R as [R0 R1]. apply negb_true_iff in R2. auto.
Qed.
(** After any lines, accepted or not, no command has an attribute that its class lists as
    removed, except in the classes that still take an option of that name. *)
Theorem C47_removed : forall rest v cm dm h n c o k, In (v, (cm, dm)) handlers -> used rest cm dm h -> In (n, c) cm -> ~ In c still_options -> In k (removed_of c) ->
  served h n = Some o -> has_key k (o_attrs o) = false.
Proof.
  intros rest v cm dm h n c o k Hv (ops & F & ->) Hn Ns Hk. destruct (removed_class v cm dm n c k Hv Hn Ns Hk) as (Ne & Ii & Ni).
  revert o. induction ops as [|op ops IH] using rev_ind; intros o.
  - cbn [fold_left]. rewrite (start_served rest v cm dm Hv n c Hn). intros H. injection H as <-. cbn [new_obj o_attrs].
    pose proof Ne as Nc. unfold never_sets in Nc. apply andb_prop in Nc as [Nc _]. apply andb_prop in Nc as [_ Nc]. destruct (parse_code c) as [st|] eqn:Pc; [|discriminate].
    rewrite (class_init rest c st Pc Ii). exact Ni.
  - apply Forall_app in F as [F Fo]. inversion Fo as [|? ? Ho _]; subst. destruct op as [line ws ln| |]; try contradiction.
    specialize (IH F). rewrite fold_left_app. cbn [fold_left do_op]. set (h := fold_left do_op ops (start rest cm dm)) in *.
    assert (U : used rest cm dm h) by (exists ops; auto).
    destruct ws as [|m args]; [exact (IH o)|]. destruct (assoc m cm) as [d|] eqn:Am.
    + apply assoc_In in Am. destruct (line_cases rest v cm dm Hv h m d line args ln U Am) as (p & vw & a' & d' & Sp & Cp & V & P & J).
      rewrite (J n c Hn). destruct (String.eqb_spec c d) as [<-|]; [|exact (IH o)]. intros H. injection H as <-. cbn [o_attrs].
      assert (Sn : served h n = Some p) by (rewrite (served_alias rest v cm dm h n m c Hv U Hn Am); exact Sp).
      specialize (IH p Sn). rewrite <- (never_sets_other k c Ne m line ln) in IH. unfold has_key in *.
      destruct (cl_parse (class_model (cmd_class rest) c) vw (stamp m line ln (o_attrs p)) (o_data p) args) as [[a1 d1] r] eqn:E.
      assert (a' = a1) as -> by (destruct r; tauto). rewrite (never_sets_sound rest k c _ _ _ _ _ _ _ Ne E). exact IH.
    + destruct (line_unknown rest cm dm h m line args ln U) as [_ W]; [|rewrite W; exact (IH o)].
      intros d Hd. apply (In_dict _ (dict_cm rest v cm dm Hv)) in Hd. congruence.
Qed.
Print Assumptions C47_removed.
Local Transparent comes_from method_of table_of removed_of new_attrs init_of made_attrs all_classes.
(** xconfig of FC6 still takes --card, and stores it although the attribute is removed. *)
Theorem C47_removed_refuted : In "card" (removed_of "FC6_XConfig") /\ after FC6 [["xconfig"; "--card"; "x"]] "xconfig" ["card"] = Some [VStr "x"].
Proof. split; [vm_compute; auto|]. vm_compute. reflexivity. Qed.
Print Assumptions C47_removed_refuted.
Example C47_example_lines : existsb (fun h => Z.eqb (fst h) F34 && existsb (fun e => String.eqb (fst e) "bootloader" && String.eqb (snd e) "F34_Bootloader") (fst (snd h))) handlers = true /\
  mem "useLilo" (removed_of "F34_Bootloader") = true /\ mem "F34_Bootloader" still_options = false /\ accepts F34 [["bootloader"; "--location"; "mbr"]] = Some true.
Proof. repeat (split; [vm_compute; reflexivity|]). lazy. reflexivity. Qed.
