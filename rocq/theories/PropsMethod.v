(** * Property theorems C36 (the installation method) *)

From Verif Require Import PyStrFacts HandlerFacts PropsHandler PropsClass CmdFacts CmdLines PropsStorage MethodFacts PyClass Version.
From Verif Require Import Value.
Local Open Scope string_scope.
Local Open Scope list_scope.
Local Arguments Ascii.eqb : simpl never.
Local Arguments String.eqb : simpl never.

(** ** Specification: what can happen to a handler *)

(** The operations of [HandlerSpec.v], except calling the attribute method; assigning to an
    attribute of handler.method; calling handler.method with keyword arguments. *)
Inductive mop :=
| Other (o : hop)
| Assign (n : string) (v : value)
| Call (kwargs : attrs).
Definition mop_ok (o : mop) : Prop := match o with Other (HCall a _) => a <> "method" | _ => True end.
Definition proxy (h : handler) : option nat := match assoc "method" (h_attrs h) with Some r => r | None => None end.
Definition do_mop (ms : list string) (h : handler) (o : mop) : handler :=
  match o with
  | Other o => do_op h o
  | Assign n v => match proxy h with Some s => fst (write_attr ms s n v h) | None => h end
  | Call kw => match proxy h with Some s => fst (method_call ms s kw h) | None => h end
  end.
(** The handlers of a version, after any operations, exceptions ignored; [c] is the class
    of its method command. *)
Definition handler_of (rest : string -> cclass) (cm dm : list (string * string)) (c : string) (h : handler) : Prop :=
  exists ops, Forall mop_ok ops /\ h = fold_left (do_mop (methods_of c)) ops (start rest cm dm).

(** [handler.M.seen] and so on. *)
Definition attr_of (h : handler) (m k : string) : option value :=
  match attr_obj h m with Some o => assoc k (o_attrs o) | None => None end.

(** ** The method classes *)

Definition method_class_ok (c : string) : bool :=
  let ms := methods_of c in
  mem "url" ms && negb (mem "method" ms) && negb (mem "nonetype" ms) && PropsClass.distinct ms &&
  (String.eqb (comes_from c "__init__") "KickstartCommand" || String.eqb (comes_from c "__init__") "DeprecatedCommand") &&
  (String.eqb (comes_from c "parse") "KickstartCommand" || String.eqb (comes_from c "parse") "DeprecatedCommand").
Definition method_map_ok (cm : list (string * string)) : bool :=
  match assoc "method" cm with
  | None => false
  | Some c =>
      method_class_ok c &&
      forallb (fun nc => negb (String.eqb (attr_name (snd nc)) "method") || String.eqb (snd nc) c) cm &&
      forallb (fun m => match assoc m (h_attrs (skeleton cm)) with Some (Some _) => true | _ => false end) ("method" :: methods_of c)
  end.
Lemma method_maps : forallb (fun h => method_map_ok (fst (snd h))) handlers = true.
Proof. vm_compute. reflexivity. Qed.

Local Opaque comes_from method_of table_of removed_of data_str new_attrs init_of methods_of skeleton.

(** What the method command itself holds. *)
Definition plain (rest : string -> cclass) (c : string) (o : cmdobj) : Prop :=
  attr_name (o_name o) = "method" -> o_class o = class_model (cmd_class rest) c /\ incl (map fst (o_attrs o)) internals.

Section Proxy.
Variable rest : string -> cclass.
Variables (v : Z) (cm dm : list (string * string)) (c : string).
Hypothesis Hv : In (v, (cm, dm)) handlers.
Hypothesis Hc : In ("method", c) cm.
Notation ms := (methods_of c).

Lemma map_facts : method_class_ok c = true /\
  (forall n d, In (n, d) cm -> attr_name d = "method" -> d = c) /\ has_all ("method" :: ms) (skeleton cm).
Proof.
  pose proof method_maps as M. rewrite forallb_forall in M. specialize (M _ Hv). cbn [fst snd] in M. unfold method_map_ok in M.
  assert (D : is_dict cm) by exact (dict_cm rest v cm dm Hv). rewrite (In_dict cm D _ _ Hc) in M.
  apply andb_prop in M as [M M3]. apply andb_prop in M as [M1 M2]. split; [exact M1|]. split.
  - intros n d Hn E. rewrite forallb_forall in M2. specialize (M2 _ Hn). cbn [snd] in M2. rewrite E, eqb_refl_s in M2. cbn [negb orb] in M2. now apply String.eqb_eq.
  - intros m Hm. rewrite forallb_forall in M3. specialize (M3 _ Hm). destruct (assoc m _) as [[i|]|]; try discriminate. eauto.
Qed.
Lemma class_facts : In "url" ms /\ ~ In "method" ms /\ ~ In "nonetype" ("method" :: ms) /\ NoDup ms /\
  (comes_from c "__init__" = "KickstartCommand" \/ comes_from c "__init__" = "DeprecatedCommand") /\
  (comes_from c "parse" = "KickstartCommand" \/ comes_from c "parse" = "DeprecatedCommand").
Proof.
  destruct map_facts as (M & _). unfold method_class_ok in M. apply andb_prop in M as [M M6]. apply andb_prop in M as [M M5]. apply andb_prop in M as [M M4].
  apply andb_prop in M as [M M3]. apply andb_prop in M as [M1 M2]. apply negb_true_iff in M2, M3. apply orb_prop in M5, M6.
  split; [now apply mem_In|]. split; [now apply mem_false|]. split; [cbn [In]; intros [X|X]; [discriminate|now apply mem_false in M3]|].
  split; [now apply distinct_NoDup|]. split; [destruct M5 as [X|X]|destruct M6 as [X|X]]; apply String.eqb_eq in X; auto.
Qed.
Lemma init_keys : incl (map fst (cl_init (class_model (cmd_class rest) c))) internals.
Proof.
  change (cl_init (class_model (cmd_class rest) c)) with
    (from_base c "__init__" (base_attrs VNone) (base_attrs VNone) (base_attrs (VInt 0)) (cl_init (cmd_class rest c))).
  unfold from_base. destruct class_facts as (_ & _ & _ & _ & [->| ->] & _); cbn [String.eqb]; vm_compute; tauto.
Qed.
Lemma parse_keeps_attrs vw a l args : fst (fst (cl_parse (class_model (cmd_class rest) c) vw a l args)) = a.
Proof.
  change (cl_parse (class_model (cmd_class rest) c)) with
    (from_base c "parse" deprecated_parse removed_parse abstract_parse (cl_parse (cmd_class rest c))).
  unfold from_base. destruct class_facts as (_ & _ & _ & _ & _ & [->| ->]); reflexivity.
Qed.

Record good (h : handler) : Prop := mkGood {
  g_fine : fine ("method" :: ms) h;
  g_label : labelled h;
  g_plain : each (plain rest c) h }.

Lemma good_start : good (start rest cm dm).
Proof.
  destruct map_facts as (_ & Ha & Hs). split; [split|..].
  - apply build_sound.
  - intros m Hm. unfold start. rewrite (al_attrs _ _ (skeleton_alike (cmd_class rest) cm dm)). now apply Hs.
  - apply build_labelled.
  - apply build_each. intros n k Hk. unfold version_map in Hk. apply in_map_iff in Hk as ([n' d] & E & Hd). cbn [fst snd] in E. injection E as <- <-.
    intros E. cbn [o_name new_obj o_class class_model cl_name o_attrs] in *. rewrite (Ha n' d Hd E). split; [reflexivity|]. exact init_keys.
Qed.

Lemma put_keys k w a l : In k l -> incl (map fst a) l -> incl (map fst (put (A := value) k w a)) l.
Proof.
  intros Hk H x Hx. apply assoc_key in Hx as (y & Hx). destruct (String.eqb_spec x k) as [->|Ne]; [exact Hk|].
  rewrite assoc_put_ne in Hx by exact Ne. apply H. apply assoc_key. eauto.
Qed.

Lemma good_set_attr h m i o k w : good h -> command_at h m = Ok (i, o) -> (m = "method" -> In k internals) -> good (set_attr i o k w h).
Proof.
  intros [F L E] C K. pose proof C as C'. apply command_at_attr in C' as (A & O & _). split.
  - now apply set_attr_fine.
  - unfold set_attr. now apply (labelled_set i o).
  - unfold set_attr. apply each_set; [exact E|]. intros N. cbn [o_name o_class o_attrs] in *. pose proof (E i o O N) as [P1 P2]. split; [exact P1|].
    apply put_keys; [|exact P2]. apply K. rewrite <- (L m i o A O). exact N.
Qed.

Lemma good_op h o : mop_ok (Other o) -> good h -> good (do_op h o).
Proof.
  intros K [F L E]. destruct class_facts as (_ & _ & Nn & _). split; [now apply fine_op|..].
  - destruct o as [line args ln|n|a kw]; cbn [do_op].
    + unfold handle_command, dispatcher. destruct args as [|x args]; [exact L|]. destruct (assoc x _) as [[i|]|]; try exact L.
      destruct (obj_at _ i) as [o|] eqn:Eo; [|exact L]. cbv zeta.
      assert (L1 : forall a' d', labelled (set_obj i (mkObj (o_class o) a' d') (set_obj i (mkObj (o_class o) (stamp x (h_line (set_line line h)) ln (o_attrs o)) (o_data o)) (set_line line h)))).
      { intros a' d'. eapply labelled_set; [apply (obj_at_set_eq i o); exact Eo|reflexivity|]. now apply (labelled_set i o). }
      destruct (cl_parse _ _ _ _ _) as [[a' d'] []]; apply L1.
    + unfold reset_command. destruct (assoc n (h_commands h)) as [[i|]|]; cbn [fst]; try exact L.
      * destruct (obj_at h i) as [o|]; cbn [fst]; [|exact L]. exact (labelled_command (new_obj (o_class o)) h (proj1 F) L).
      * intros a i o Ea. cbn [h_attrs] in Ea. destruct (String.eqb_spec a "nonetype") as [->|Ne]; [rewrite assoc_put_eq in Ea; discriminate|].
        rewrite assoc_put_ne in Ea by exact Ne. exact (L a i o Ea).
    + unfold call_attr. destruct (assoc a (h_attrs h)) as [[i|]|]; try exact L. destruct (obj_at h i) as [o|] eqn:Eo; [|exact L].
      now apply (labelled_set i o).
  - destruct o as [line args ln|n|a kw]; cbn [do_op].
    + unfold handle_command, dispatcher. destruct args as [|x args]; [exact E|]. destruct (assoc x _) as [[i|]|]; try exact E.
      destruct (obj_at _ i) as [o|] eqn:Eo; [|exact E]. cbv zeta.
      change (obj_at (set_line line h) i) with (obj_at h i) in Eo. cbn [set_line h_line].
      assert (S : forall d, plain rest c (mkObj (o_class o) (stamp x line ln (o_attrs o)) d)).
      { intros d N. cbn [o_name o_class o_attrs] in *. pose proof (E i o Eo N) as [P1 P2]. split; [exact P1|].
        unfold stamp. repeat (apply put_keys; [cbn; tauto|]). exact P2. }
      assert (E1 : each (plain rest c) (set_obj i (mkObj (o_class o) (stamp x line ln (o_attrs o)) (o_data o)) (set_line line h))).
      { apply each_set; [exact E|apply S]. }
      destruct (cl_parse _ _ _ _ _) as [[a' d'] r] eqn:Q.
      assert (E2 : forall d, plain rest c (mkObj (o_class o) a' d)).
      { intros d N. cbn [o_name o_class o_attrs] in N. pose proof (E i o Eo N) as [P1 P2]. cbn [o_class o_attrs]. split; [exact P1|].
        rewrite P1 in Q. pose proof (parse_keeps_attrs (view_of (set_obj i (mkObj (class_model (cmd_class rest) c) (stamp x line ln (o_attrs o)) (o_data o)) (set_line line h)))
          (stamp x line ln (o_attrs o)) (o_data o) args) as K1. rewrite Q in K1. cbn [fst] in K1. subst a'. now apply (S d). }
      destruct r; apply each_set; auto.
    + unfold reset_command. destruct (assoc n (h_commands h)) as [[i|]|]; cbn [fst]; try exact E.
      destruct (obj_at h i) as [o|] eqn:Eo; cbn [fst]; [|exact E]. apply (each_command (plain rest c) (new_obj (o_class o)) h E).
      intros N. cbn [new_obj o_name o_class o_attrs] in *. pose proof (E i o Eo N) as [P1 _]. split; [exact P1|]. rewrite P1. exact init_keys.
    + unfold call_attr. destruct (assoc a (h_attrs h)) as [[i|]|] eqn:Ea; try exact E. destruct (obj_at h i) as [o|] eqn:Eo; [|exact E].
      apply each_set; [exact E|]. intros N. exfalso. apply K. rewrite <- (L a i o Ea Eo). exact N.
Qed.

Lemma proxy_at h : good h -> exists s o, proxy h = Some s /\ command_at h "method" = Ok (s, o) /\
  o_class o = class_model (cmd_class rest) c /\ incl (map fst (o_attrs o)) internals.
Proof.
  intros G. destruct (fine_command _ h "method" (g_fine h G)) as (s & o & C); [now left|]. exists s, o.
  pose proof C as C'. apply command_at_attr in C' as (A & O & _). split; [unfold proxy; now rewrite A|]. split; [exact C|].
  apply (g_plain h G s o O). exact (g_label h G "method" s o A O).
Qed.

Lemma good_clear l h : good h -> incl l ms -> good (fst (clear_seen l h)).
Proof.
  revert h. induction l as [|m l IH]; intros h G I; [exact G|]. cbn [clear_seen].
  destruct (fine_command _ h m (g_fine h G)) as (i & o & C); [right; apply I; now left|]. rewrite C. apply IH; [|intros x Hx; apply I; now right].
  apply (good_set_attr h m i o); auto. intros ->. cbn. tauto.
Qed.
Lemma get_command_at h w i o : get_command ms h w = Ok (i, o) -> exists m, In m ms /\ command_at h m = Ok (i, o) /\ (w = VStr m \/ (w = VNone /\ m = "url")).
Proof.
  unfold get_command. destruct w; try discriminate.
  - destruct (mem "url" ms) eqn:M; [|discriminate]. intros C. exists "url". split; [now apply mem_In|]. auto.
  - destruct (mem s ms) eqn:M; [|discriminate]. intros C. exists s. split; [now apply mem_In|]. auto.
Qed.
Lemma good_write h s n w : good h -> proxy h = Some s -> good (fst (write_attr ms s n w h)).
Proof.
  intros G P. unfold write_attr. destruct (String.eqb n "method") eqn:En.
  - unfold set_method. pose proof (good_clear ms h G (incl_refl _)) as G1. destruct (clear_seen ms h) as [h1 [e|]]; [exact G1|]. cbn [fst] in G1.
    destruct (is_none w); [exact G1|]. destruct (get_command ms h1 w) as [[i o]|e] eqn:C; [|exact G1].
    apply get_command_at in C as (m & Hm & C & _). cbn [fst]. apply (good_set_attr h1 m i o); auto. intros ->. cbn. tauto.
  - destruct (mem n internals) eqn:M.
    + destruct (proxy_at h G) as (s' & o & P' & C & _). rewrite P in P'. injection P' as <-. pose proof C as C'. apply command_at_attr in C' as (_ & O & _).
      rewrite O. cbn [fst]. apply (good_set_attr h "method" s o); auto. intros _. now apply mem_In.
    + destruct (do m <- get_method ms h ;; get_command ms h m) as [[i o]|e] eqn:C; [|exact G].
      destruct (assoc n (o_attrs o)); [|exact G]. cbn [fst]. destruct (get_method ms h) as [w'|]; [|discriminate]. cbn [bind] in C.
      apply get_command_at in C as (m & Hm & C & _). apply (good_set_attr h m i o); auto. intros ->. now destruct class_facts as (_ & X & _).
Qed.
Lemma proxy_kept h h' : h_attrs h' = h_attrs h -> proxy h' = proxy h.
Proof. intros E. unfold proxy. now rewrite E. Qed.
Lemma clear_attrs l h : h_attrs (fst (clear_seen l h)) = h_attrs h.
Proof. revert h. induction l as [|m l IH]; intros h; [reflexivity|]. cbn [clear_seen]. destruct (command_at h m) as [[i o]|]; [|reflexivity]. now rewrite IH. Qed.
Lemma write_attrs s n w h : h_attrs (fst (write_attr ms s n w h)) = h_attrs h.
Proof.
  unfold write_attr. destruct (String.eqb n "method").
  - unfold set_method. pose proof (clear_attrs ms h) as A. destruct (clear_seen ms h) as [h1 [e|]]; [exact A|]. cbn [fst] in A.
    destruct (is_none w); [exact A|]. destruct (get_command ms h1 w) as [[i o]|e]; exact A.
  - destruct (mem n internals); [destruct (obj_at h s); reflexivity|]. destruct (bind _ _) as [[i o]|]; [|reflexivity]. destruct (assoc n (o_attrs o)); reflexivity.
Qed.
Lemma good_call h s kw : good h -> proxy h = Some s -> good (fst (method_call ms s kw h)).
Proof.
  intros G P. unfold method_call. destruct (proxy_at h G) as (s' & o & P' & C & _). rewrite P in P'. injection P' as <-.
  pose proof C as C'. apply command_at_attr in C' as (_ & O & _). rewrite O.
  assert (G1 : good (set_attr s o "seen" (VBool true) h)) by (apply (good_set_attr h "method" s o); auto; intros _; cbn; tauto).
  assert (P1 : proxy (set_attr s o "seen" (VBool true) h) = Some s) by exact P. revert G1 P1. generalize (set_attr s o "seen" (VBool true) h). clear -Hv Hc.
  induction kw as [|[k w] kw IH]; intros h G P; [exact G|]. cbn [method_call_loop].
  destruct (read_attr ms s h k) as [[x|]|]; try (now apply IH). pose proof (good_write h s k w G P) as G1. pose proof (write_attrs s k w h) as A.
  destruct (write_attr ms s k w h) as [h1 [e|]]; cbn [fst] in *; [exact G1|]. apply IH; [exact G1|]. now rewrite (proxy_kept h).
Qed.
Lemma handler_good h : handler_of rest cm dm c h -> good h.
Proof.
  intros (ops & F & ->). assert (R : forall ops h, Forall mop_ok ops -> good h -> good (fold_left (do_mop ms) ops h)).
  { clear -Hv Hc. induction ops as [|o ops IH]; intros h F G; [exact G|]. cbn [fold_left]. inversion F as [|? ? Ho Fo]; subst. apply IH; [exact Fo|].
    destruct o as [o|n w|kw]; cbn [do_mop].
    - now apply good_op.
    - destruct (proxy h) as [s|] eqn:P; [now apply good_write|exact G].
    - destruct (proxy h) as [s|] eqn:P; [now apply good_call|exact G]. }
  apply R; [exact F|exact good_start].
Qed.
End Proxy.

(** ** C36 *)

(** Assigning one of the version's methods to handler.method.method selects it: it is the
    method then read, its command alone is marked as seen among the methods, and nothing
    else in the handler changes. *)
Theorem C36_select : forall rest v cm dm c h m,
  In (v, (cm, dm)) handlers -> In ("method", c) cm -> handler_of rest cm dm c h -> In m (methods_of c) ->
  exists s h', proxy h = Some s /\ write_attr (methods_of c) s "method" (VStr m) h = (h', None) /\
    read_attr (methods_of c) s h' "method" = Some (Ok (VStr m)) /\
    (forall x, In x (methods_of c) -> attr_of h' x "seen" = Some (VBool (String.eqb x m))) /\
    (forall x k, k <> "seen" -> attr_of h' x k = attr_of h x k) /\
    (forall x, ~ In x (methods_of c) -> attr_obj h' x = attr_obj h x).
Proof.
  intros rest v cm dm c h m Hv Hc U Hm. pose proof (handler_good rest v cm dm c Hv Hc h U) as G.
  destruct (class_facts rest v cm dm c Hv Hc) as (_ & _ & _ & Nd & _). destruct (proxy_at rest c h G) as (s & o & P & _).
  destruct (clear_spec (methods_of c) ("method" :: methods_of c) h (g_fine _ _ _ G)) as (h1 & C1 & F1 & A1 & V1); [intros x Hx; now right|exact Nd|].
  destruct (fine_command _ h1 m F1) as (i & o1 & C); [now right|]. exists s, (set_attr i o1 "seen" (VBool true) h1). split; [exact P|].
  assert (W : write_attr (methods_of c) s "method" (VStr m) h = (set_attr i o1 "seen" (VBool true) h1, None)).
  { unfold write_attr, set_method. rewrite eqb_refl_s, C1. cbn [is_none get_command]. rewrite (proj2 (mem_In m _) Hm), C. reflexivity. }
  split; [exact W|].
  assert (V : forall a, attr_obj (set_attr i o1 "seen" (VBool true) h1) a =
     if String.eqb a m then Some (mkObj (o_class o1) (put "seen" (VBool true) (o_attrs o1)) (o_data o1)) else attr_obj h1 a).
  { intros a. apply set_attr_at; [exact (proj1 F1)|exact C]. }
  pose proof (proj2 (proj2 (command_at_attr _ _ _ _ C))) as Ao.
  assert (S : forall x, In x (methods_of c) -> attr_of (set_attr i o1 "seen" (VBool true) h1) x "seen" = Some (VBool (String.eqb x m))).
  { intros x Hx. unfold attr_of. rewrite V. destruct (String.eqb_spec x m) as [->|Ne]; [cbn [o_attrs]; now rewrite assoc_put_eq|].
    rewrite V1, (proj2 (mem_In x _) Hx). destruct (fine_command _ h x (g_fine _ _ _ G)) as (j & ox & Cx); [now right|].
    apply command_at_attr in Cx as (_ & _ & ->). cbn [option_map unseen o_attrs]. now rewrite assoc_put_eq. }
  split; [|split; [exact S|split]].
  - unfold read_attr. change (mem "method" class_level || dunder "method") with false. cbn iota. rewrite eqb_refl_s. f_equal.
    destruct (get_method_spec (methods_of c) ("method" :: methods_of c) (set_attr i o1 "seen" (VBool true) h1)) as (r & E & R);
      [now apply set_attr_fine|intros x Hx; now right|]. rewrite E. f_equal.
    assert (Q : forall x ox, In x (methods_of c) -> attr_obj (set_attr i o1 "seen" (VBool true) h1) x = Some ox -> o_seen ox = String.eqb x m).
    { intros x ox Hx Ex. specialize (S x Hx). unfold attr_of in S. rewrite Ex in S. unfold o_seen, get. now rewrite S. }
    destruct r; try contradiction.
    + exfalso. specialize (R m _ Hm (eq_trans (V m) (f_equal (fun b : bool => if b then _ else _) (eqb_refl_s m)))).
      rewrite (Q m _ Hm (eq_trans (V m) (f_equal (fun b : bool => if b then _ else _) (eqb_refl_s m)))), eqb_refl_s in R. discriminate.
    + destruct R as (p & q & ox & El & Ex & Sx & _). rewrite (Q s0 ox) in Sx; [apply String.eqb_eq in Sx; congruence| |exact Ex].
      rewrite El. apply in_or_app. right. now left.
  - intros x k Hk. unfold attr_of. rewrite V. destruct (String.eqb_spec x m) as [->|Ne].
    + cbn [o_attrs]. rewrite assoc_put_ne by exact Hk. rewrite V1, (proj2 (mem_In m _) Hm) in Ao. destruct (attr_obj h m); [|discriminate].
      cbn [option_map] in Ao. injection Ao as <-. cbn [unseen o_attrs]. now rewrite assoc_put_ne.
    + rewrite V1. destruct (mem x (methods_of c)); [|reflexivity]. destruct (attr_obj h x); [|reflexivity]. cbn [option_map unseen o_attrs].
      now rewrite assoc_put_ne.
  - intros x Hx. rewrite V. destruct (String.eqb_spec x m) as [->|Ne]; [contradiction|]. rewrite V1.
    destruct (mem x (methods_of c)) eqn:M; [apply mem_In in M; contradiction|reflexivity].
Qed.
Print Assumptions C36_select.

(** Assigning None, or anything that is not one of the methods, leaves no method selected;
    in the second case an AttributeError is raised. *)
Theorem C36_deselect : forall rest v cm dm c h w,
  In (v, (cm, dm)) handlers -> In ("method", c) cm -> handler_of rest cm dm c h -> (forall m, w = VStr m -> ~ In m (methods_of c)) ->
  exists s h', proxy h = Some s /\ write_attr (methods_of c) s "method" w h = (h', if is_none w then None else Some AttributeError) /\
    read_attr (methods_of c) s h' "method" = Some (Ok VNone) /\
    (forall x, In x (methods_of c) -> attr_of h' x "seen" = Some (VBool false)) /\
    (forall x k, k <> "seen" -> attr_of h' x k = attr_of h x k) /\
    (forall x, ~ In x (methods_of c) -> attr_obj h' x = attr_obj h x).
Proof.
  intros rest v cm dm c h w Hv Hc U Hw. pose proof (handler_good rest v cm dm c Hv Hc h U) as G.
  destruct (class_facts rest v cm dm c Hv Hc) as (_ & _ & _ & Nd & _). destruct (proxy_at rest c h G) as (s & o & P & _).
  destruct (clear_spec (methods_of c) ("method" :: methods_of c) h (g_fine _ _ _ G)) as (h1 & C1 & F1 & A1 & V1); [intros x Hx; now right|exact Nd|].
  exists s, h1. split; [exact P|].
  assert (S : forall x, In x (methods_of c) -> attr_of h1 x "seen" = Some (VBool false)).
  { intros x Hx. unfold attr_of. rewrite V1, (proj2 (mem_In x _) Hx). destruct (fine_command _ h x (g_fine _ _ _ G)) as (j & ox & Cx); [now right|].
    apply command_at_attr in Cx as (_ & _ & ->). cbn [option_map unseen o_attrs]. now rewrite assoc_put_eq. }
  split; [|split; [|split; [exact S|split]]].
  - unfold write_attr, set_method. rewrite eqb_refl_s, C1. destruct w; try reflexivity. cbn [is_none get_command].
    destruct (mem s0 (methods_of c)) eqn:M; [apply mem_In in M; now apply (Hw s0) in M|reflexivity].
  - unfold read_attr. change (mem "method" class_level || dunder "method") with false. cbn iota. rewrite eqb_refl_s. f_equal.
    destruct (get_method_spec (methods_of c) ("method" :: methods_of c) h1 F1) as (r & E & R); [intros x Hx; now right|]. rewrite E. f_equal.
    destruct r; try contradiction; [reflexivity|]. destruct R as (p & q & ox & El & Ex & Sx & _). exfalso.
    assert (Hx : In s0 (methods_of c)) by (rewrite El; apply in_or_app; right; now left). specialize (S s0 Hx). unfold attr_of in S. rewrite Ex in S.
    unfold o_seen, get in Sx. now rewrite S in Sx.
  - intros x k Hk. unfold attr_of. rewrite V1. destruct (mem x (methods_of c)); [|reflexivity]. destruct (attr_obj h x); [|reflexivity]. cbn [option_map unseen o_attrs].
    now rewrite assoc_put_ne.
  - intros x Hx. rewrite V1. destruct (mem x (methods_of c)) eqn:M; [apply mem_In in M; contradiction|reflexivity].
Qed.
Print Assumptions C36_deselect.

(** Reading handler.method.method gives a method whose command is marked as seen, the first
    in the order of the list; it gives None exactly when there is none. *)
Theorem C36_read_method : forall rest v cm dm c h,
  In (v, (cm, dm)) handlers -> In ("method", c) cm -> handler_of rest cm dm c h ->
  exists s r, proxy h = Some s /\ read_attr (methods_of c) s h "method" = Some (Ok r) /\
    match r with
    | VNone => forall m o, In m (methods_of c) -> attr_obj h m = Some o -> o_seen o = false
    | VStr m => exists p q o, methods_of c = p ++ m :: q /\ attr_obj h m = Some o /\ o_seen o = true /\
                  (forall x o', In x p -> attr_obj h x = Some o' -> o_seen o' = false)
    | _ => False
    end.
Proof.
  intros rest v cm dm c h Hv Hc U. pose proof (handler_good rest v cm dm c Hv Hc h U) as G. destruct (proxy_at rest c h G) as (s & o & P & _).
  destruct (get_method_spec (methods_of c) ("method" :: methods_of c) h (g_fine _ _ _ G)) as (r & E & R); [intros x Hx; now right|].
  exists s, r. split; [exact P|]. split; [|exact R]. unfold read_attr. change (mem "method" class_level || dunder "method") with false. cbn iota.
  rewrite eqb_refl_s. now rewrite E.
Qed.
Print Assumptions C36_read_method.

(** The command that [handler.method] stands for. *)
Definition stands_for (h : handler) (ms : list string) (m : string) : Prop :=
  get_method ms h = Ok (VStr m) \/ (get_method ms h = Ok VNone /\ m = "url").

(** Reading any other attribute reads that of the selected method's command, or of url when
    none is selected. *)
Theorem C36_read : forall rest v cm dm c h n,
  In (v, (cm, dm)) handlers -> In ("method", c) cm -> handler_of rest cm dm c h ->
  ~ In n internals -> ~ In n class_level -> dunder n = false ->
  exists s m, proxy h = Some s /\ In m (methods_of c) /\ stands_for h (methods_of c) m /\
    read_attr (methods_of c) s h n = Some (match attr_of h m n with Some w => Ok w | None => Err AttributeError end).
Proof.
  intros rest v cm dm c h n Hv Hc U N1 N2 N3. pose proof (handler_good rest v cm dm c Hv Hc h U) as G.
  destruct (proxy_at rest c h G) as (s & o & P & Cs & _ & K). destruct (class_facts rest v cm dm c Hv Hc) as (Hu & _).
  destruct (get_method_spec (methods_of c) ("method" :: methods_of c) h (g_fine _ _ _ G)) as (r & E & R); [intros x Hx; now right|].
  assert (Em : exists m, In m (methods_of c) /\ stands_for h (methods_of c) m /\ get_command (methods_of c) h r = command_at h m).
  { destruct r; try contradiction.
    - exists "url". split; [exact Hu|]. split; [now right|]. cbn [get_command]. now rewrite (proj2 (mem_In _ _) Hu).
    - destruct R as (p & q & ox & El & _). assert (Hx : In s0 (methods_of c)) by (rewrite El; apply in_or_app; right; now left).
      exists s0. split; [exact Hx|]. split; [now left|]. cbn [get_command]. now rewrite (proj2 (mem_In _ _) Hx). }
  destruct Em as (m & Hm & St & Eg). exists s, m. split; [exact P|]. split; [exact Hm|]. split; [exact St|].
  unfold read_attr. assert (M : mem n class_level = false) by now apply mem_false. rewrite M, N3. cbn [orb].
  destruct (String.eqb_spec n "method") as [->|Ne]; [destruct N1; now left|]. apply command_at_attr in Cs as (_ & -> & _).
  assert (An : assoc n (o_attrs o) = None).
  { destruct (assoc n (o_attrs o)) as [w|] eqn:A; [|reflexivity]. exfalso. apply N1, K, assoc_key. eauto. }
  rewrite An, E. cbn [bind]. rewrite Eg. destruct (fine_command _ h m (g_fine _ _ _ G)) as (i & om & Cm); [now right|]. rewrite Cm. cbn [bind snd].
  apply command_at_attr in Cm as (_ & _ & Am). unfold attr_of. now rewrite Am.
Qed.
Print Assumptions C36_read.

(** Writing an attribute that the selected method's command has changes that attribute and
    nothing else, and it is then read back; writing one it does not have is an
    AttributeError. *)
Theorem C36_write : forall rest v cm dm c h n w,
  In (v, (cm, dm)) handlers -> In ("method", c) cm -> handler_of rest cm dm c h ->
  ~ In n internals -> ~ In n class_level -> dunder n = false ->
  exists s m h', proxy h = Some s /\ In m (methods_of c) /\ stands_for h (methods_of c) m /\
    match attr_of h m n with
    | None => write_attr (methods_of c) s n w h = (h, Some AttributeError)
    | Some _ => write_attr (methods_of c) s n w h = (h', None) /\
        read_attr (methods_of c) s h' n = Some (Ok w) /\ stands_for h' (methods_of c) m /\
        (forall x k, attr_of h' x k = if String.eqb x m && String.eqb k n then Some w else attr_of h x k)
    end.
Proof.
  intros rest v cm dm c h n w Hv Hc U N1 N2 N3. pose proof (handler_good rest v cm dm c Hv Hc h U) as G.
  destruct (C36_read rest v cm dm c h n Hv Hc U N1 N2 N3) as (s & m & P & Hm & St & _).
  destruct (fine_command _ h m (g_fine _ _ _ G)) as (i & om & Cm); [now right|].
  assert (Eg : (do r <- get_method (methods_of c) h ;; get_command (methods_of c) h r) = Ok (i, om)).
  { destruct (class_facts rest v cm dm c Hv Hc) as (Hu & _).
    destruct St as [->|[-> ->]]; cbn [bind get_command]; rewrite (proj2 (mem_In _ _) Hm); exact Cm. }
  pose proof (proj2 (proj2 (command_at_attr _ _ _ _ Cm))) as Am.
  assert (W : write_attr (methods_of c) s n w h = match assoc n (o_attrs om) with None => (h, Some AttributeError) | Some _ => (set_attr i om n w h, None) end).
  { unfold write_attr. destruct (String.eqb_spec n "method") as [->|Ne]; [destruct N1; now left|].
    assert (M : mem n internals = false) by now apply mem_false. now rewrite M, Eg. }
  exists s, m, (set_attr i om n w h). split; [exact P|]. split; [exact Hm|]. split; [exact St|].
  unfold attr_of at 1. rewrite Am, W. destruct (assoc n (o_attrs om)) as [w0|] eqn:A; [|reflexivity]. split; [reflexivity|].
  set (h' := set_attr i om n w h).
  assert (V : forall x k, attr_of h' x k = if String.eqb x m && String.eqb k n then Some w else attr_of h x k).
  { intros x k. unfold attr_of, h'. rewrite (set_attr_at h m i om n w x (proj1 (g_fine _ _ _ G)) Cm). destruct (String.eqb_spec x m) as [->|Nx]; cbn [andb]; [|reflexivity].
    cbn [o_attrs]. rewrite Am. destruct (String.eqb_spec k n) as [->|Nk]; [apply assoc_put_eq|now apply assoc_put_ne]. }
  assert (Gs : get_method (methods_of c) h' = get_method (methods_of c) h).
  { assert (R : forall l, incl l (methods_of c) -> get_method l h' = get_method l h).
    { induction l as [|x l IH]; intros I; [reflexivity|]. cbn [get_method].
      destruct (fine_command _ h x (g_fine _ _ _ G)) as (j & ox & Cx); [right; apply I; now left|].
      destruct (fine_command ("method" :: methods_of c) h' x) as (j' & ox' & Cx'); [now apply set_attr_fine, (g_fine _ _ _ G)|right; apply I; now left|].
      rewrite Cx, Cx'. cbn [bind snd]. assert (Sx : o_seen ox' = o_seen ox).
      { apply command_at_attr in Cx as (_ & _ & Cx). apply command_at_attr in Cx' as (_ & _ & Cx'). pose proof (V x "seen") as Vx. unfold attr_of in Vx.
        rewrite Cx, Cx' in Vx. unfold o_seen, get. rewrite Vx. destruct (String.eqb_spec "seen" n) as [<-|]; [destruct N1; cbn; tauto|].
        now rewrite andb_false_r. }
      rewrite Sx, IH; [reflexivity|]. intros y Hy. apply I. now right. }
    apply R, incl_refl. }
  assert (St' : stands_for h' (methods_of c) m) by (unfold stands_for; rewrite Gs; exact St).
  split; [|split; [exact St'|exact V]].
  assert (U' : handler_of rest cm dm c h').
  { destruct U as (ops & F & E). exists (ops ++ [Assign n w]). split; [apply Forall_app; split; [exact F|constructor; [exact I|constructor]]|].
    rewrite fold_left_app, <- E. cbn [fold_left do_mop]. rewrite P, W. reflexivity. }
  destruct (C36_read rest v cm dm c h' n Hv Hc U' N1 N2 N3) as (s' & m' & P' & Hm' & St2 & R').
  assert (s' = s) as -> by (change (proxy h') with (proxy h) in P'; congruence). rewrite R'.
  assert (m' = m) as -> by (destruct St', St2 as [X|[X ->]]; intuition congruence).
  rewrite V, !eqb_refl_s. reflexivity.
Qed.
Print Assumptions C36_write.
Local Transparent comes_from method_of table_of removed_of data_str new_attrs init_of methods_of skeleton.

(** After a file with two method lines the earlier one of the list is selected, not the
    one given last. *)
Definition after_lines (v : Z) (lines : list (list string)) : option (option (res value)) :=
  match find (fun h => Z.eqb (fst h) v) handlers with
  | Some (_, (cm, dm)) =>
      match assoc "method" cm with
      | Some c => let h := fold_left (fun h ws => fst (handle_command h "" ws 1)) lines (start demo_rest cm dm) in
                  match proxy h with Some s => Some (read_attr (methods_of c) s h "method") | None => None end
      | None => None
      end
  | None => None
  end.
Theorem C36_last_line_refuted : exists v l1 l2,
  after_lines v [l1] = Some (Some (Ok (VStr "cdrom"))) /\ after_lines v [l2] = Some (Some (Ok (VStr "url"))) /\
  after_lines v [l1; l2] = Some (Some (Ok (VStr "cdrom"))).
Proof.
  exists F33, ["cdrom"], ["url"; "--url=http://x"]. repeat split; lazy; reflexivity.
Qed.
Print Assumptions C36_last_line_refuted.

Example C36_example :
  option_map (fun h => assoc "method" (fst (snd h))) (find (fun h => Z.eqb (fst h) RHEL8) handlers) = Some (Some "F28_Method") /\
  methods_of "F28_Method" = ["cdrom"; "harddrive"; "nfs"; "url"; "liveimg"; "hmc"] /\ methods_of "F34_Method" = ["cdrom"; "harddrive"; "nfs"; "url"; "liveimg"] /\
  mop_ok (Assign "server" (VStr "s")) /\
  after_lines F33 [["nfs"; "--server=s"; "--dir=/d"]; ["url"; "--url=http://x"]] = Some (Some (Ok (VStr "nfs"))).
Proof. repeat split; lazy; reflexivity. Qed.
