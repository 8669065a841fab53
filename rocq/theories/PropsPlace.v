(** * Where a line stands: C44 *)

From Verif Require Import PyStrFacts ArgParseFacts HandlerFacts ClassModel PropsHandler PropsClass HandlerSpec ParserSpec PropsStorage PyClass CmdFacts CmdLines CmdRound PyLine CmdPlace.
From Verif Require Import PyStr Value.
Local Open Scope string_scope.
Local Open Scope list_scope.
Local Arguments Ascii.eqb : simpl never.
Local Arguments String.eqb : simpl never.

(** ** What the theorems say *)

(** Two objects of a command with the same settings: they may differ in the name, the
    text and the number of the last line, and their data objects in the number of the
    line. *)
Definition same_but (P : list string) (a b : attrs) : Prop :=
  (forall k, ~ In k P -> assoc k a = assoc k b) /\ forall k, assoc k a = None <-> assoc k b = None.
Definition same_settings (o o' : cmdobj) : Prop :=
  o_class o = o_class o' /\ same_but ["currentCmd"; "currentLine"; "lineno"] (o_attrs o) (o_attrs o') /\
  Forall2 (fun d e => d_class d = d_class e /\ same_but ["lineno"] (d_attrs d) (d_attrs e)) (o_data o) (o_data o').

(** Commands that are not modelled; commands for which the text of the line matters; and
    commands for which it matters by which of their names they are given. *)
Definition unmodelled : list string := ["method"; "multipath"; "realm"].
Definition by_text : list string := ["auth"; "authconfig"; "authselect"].
Definition by_name : list string := ["bootloader"; "lilo"; "halt"; "poweroff"; "reboot"; "shutdown"; "upgrade"; "cmdline"; "graphical"; "text"; "install"].
(** Commands that exclude each other: [autopart] and [mount] exclude all the others. *)
Definition layouts : list string := ["autopart"; "mount"].
Definition storage : list string := ["autopart"; "logvol"; "mount"; "part"; "partition"; "raid"; "reqpart"; "volgroup"].
Definition apart (n m : string) : Prop := (In n layouts -> ~ In m storage) /\ (In m layouts -> ~ In n storage).
Definition given_alike (h h' : handler) (n : string) : Prop := option_map o_seen (served h n) = option_map o_seen (served h' n).

(** Lines, each with its words and its number, in another order.  Lines of one command stay in
    their order, and so do lines of commands that exclude each other. *)
Definition sep (cm : list (string * string)) (w w' : list string) : Prop :=
  match w, w' with
  | n :: _, m :: _ => assoc n cm <> assoc m cm /\ apart n m
  | _, _ => False
  end.
Inductive reordered (cm : list (string * string)) : list (string * list string * N) -> list (string * list string * N) -> Prop :=
| re_nil : reordered cm [] []
| re_line x y w ln ln' l l' : (match w with n :: _ => In n by_text -> x = y | [] => True end) ->
    reordered cm l l' -> reordered cm ((x, w, ln) :: l) ((y, w, ln') :: l')
| re_swap a b l : sep cm (snd (fst a)) (snd (fst b)) -> reordered cm (a :: b :: l) (b :: a :: l)
| re_trans l l1 l2 : reordered cm l l1 -> reordered cm l1 l2 -> reordered cm l l2.
Definition modelled_line (a : string * list string * N) : Prop := match snd (fst a) with n :: _ => ~ In n unmodelled | [] => True end.

(** ** The tables *)

Definition places_of (n : string) : list string :=
  if mem n by_text then ["lineno"] else if mem n by_name then ["currentLine"; "lineno"] else all_places.
(** The classes each command has had, gathered from the maps. *)
Definition add_class (t : list (string * list string)) (nc : string * string) : list (string * list string) :=
  match assoc (fst nc) t with
  | Some l => if mem (snd nc) l then t else map (fun e => if String.eqb (fst e) (fst nc) then (fst e, snd nc :: snd e) else e) t
  | None => (fst nc, [snd nc]) :: t
  end.
Definition classes_of := Eval vm_compute in fold_left (fun t h => fold_left add_class (fst (snd h)) t) handlers [].
Definition class_ok (n c : string) : bool :=
  match parse_code c with
  | Some st => let b := based (comes_from c "parse") in
      (b || lineless (places_of n) st && negb (mem "_r" (ns_vars st))) &&
      (b || (if mem n layouts then true else if mem n storage then forallb (fun q => mem q layouts) (asks_s st) else match asks_s st with [] => true | _ => false end))
  | None => false
  end.
Lemma classes_ok : forallb (fun e => mem (fst e) unmodelled || forallb (class_ok (fst e)) (snd e)) classes_of = true.
Proof. vm_compute. reflexivity. Qed.

(** The classes of the storage commands, and the objects behind the names asked about. *)
Definition version_ok (h : Z * (list (string * string) * list (string * string))) : bool :=
  let cm := fst (snd h) in
  let sk := skeleton cm in
  forallb (fun nc => match assoc (fst nc) classes_of with Some l => mem (snd nc) l | None => false end) cm &&
  forallb (fun K => forallb (fun nc => negb (mem (fst nc) K) || forallb (fun mc => negb (String.eqb (snd nc) (snd mc)) || mem (fst mc) K) cm) cm) [layouts; storage] &&
  forallb (fun a => match snd a with
                    | Some j => forallb (fun WK => negb (mem (fst a) (fst WK)) ||
                                 existsb (fun b => match snd b with Some i => Nat.eqb i j | None => false end) (h_commands sk) && forallb (fun b => match snd b with Some i => negb (Nat.eqb i j) || mem (fst b) (snd WK) | None => true end) (h_commands sk))
                                 [(layouts, layouts); (watched, storage)]
                    | None => true
                    end) (h_attrs sk).
Lemma versions_ok : forallb version_ok handlers = true.
Proof. vm_compute. reflexivity. Qed.

(** ** One line *)

Lemma mem_not {k l} : mem k l = false <-> ~ In k l.
Proof. split; [intros H I; apply mem_In in I; congruence|]. intros H. destruct (mem k l) eqn:E; [|reflexivity]. apply mem_In in E. contradiction. Qed.
Lemma same_but_l P a b : same_but P a b <-> attrs_l P a b.
Proof. unfold same_but, attrs_l. split; intros [H1 H2]; (split; [|exact H2]); intros k Hk; apply H1; now apply mem_not. Qed.
Lemma same_l o o' : same_settings o o' <-> obj_l o o'.
Proof.
  unfold same_settings, obj_l. change ["currentCmd"; "currentLine"; "lineno"] with all_places. rewrite same_but_l.
  assert (E : forall l m, Forall2 (fun d e => d_class d = d_class e /\ same_but ["lineno"] (d_attrs d) (d_attrs e)) l m <-> Forall2 data_l l m).
  { intros l m. split; induction 1 as [|d e l m [H1 H2] F IH]; constructor; auto; (split; [exact H1|now apply same_but_l]). }
  rewrite E. reflexivity.
Qed.

Lemma line_placed n m line line' ln ln' c : movable (places_of n) c = true ->
  n = m \/ ~ In n (by_name ++ by_text) -> line = line' \/ ~ In n by_text ->
  exists P, mem "lineno" P = true /\ (forall k, mem k P = true -> mem k all_places = true) /\ movable P c = true /\ placed P n line ln m line' ln'.
Proof.
  intros M H1 H2; exists (places_of n).
  unfold places_of in *. rewrite in_app_iff in H1. destruct (mem n by_text) eqn:T.
    + apply mem_In in T. repeat split; auto. intros k Hk. apply mem_In in Hk as [<-|[]]. reflexivity.
      all: right; tauto.
    + destruct (mem n by_name) eqn:B.
      * apply mem_In in B. repeat split; auto. { intros k Hk. apply mem_In in Hk as [<-|[<-|[]]]; reflexivity. } right. tauto.
      * repeat split; auto.
Qed.

Lemma class_ok_spec n c : class_ok n c = true -> movable (places_of n) c = true /\ (asked c <> [] -> In n storage) /\ (~ In n layouts -> forall q, In q (asked c) -> mem q layouts = true).
Proof.
  unfold class_ok, movable, asked. destruct (parse_code c) as [st|]; [|discriminate]. cbv zeta. destruct (based (comes_from c "parse")).
  - intros _. repeat split; try reflexivity; [intros H; now destruct H|intros _ q []].
  - cbn [orb]. intros H. apply andb_prop in H as [H1 H2]. rewrite H1. split; [reflexivity|]. destruct (mem n layouts) eqn:L; [|destruct (mem n storage) eqn:T].
    + apply mem_In in L. split; [|contradiction]. intros _. destruct L as [<-|[<-|[]]]; cbn; tauto.
    + split; [intros _; now apply mem_In|]. intros _. now rewrite forallb_forall in H2.
    + destruct (asks_s st); [|discriminate]. split; [intros H; now destruct H|intros _ q []].
Qed.
Section Version.
Variable rest : string -> cclass.
Variables (v : Z) (cm dm : list (string * string)).
Hypothesis Hv : In (v, (cm, dm)) handlers.
Notation used := (used rest cm dm).
Notation cls c := (class_model (cmd_class rest) c).

Lemma version_facts :
  (forall n c, In (n, c) cm -> ~ In n unmodelled -> class_ok n c = true) /\
  (forall W K, In (W, K) [(layouts, layouts); (watched, storage)] ->
    forall q j, In (q, Some j) (h_attrs (skeleton cm)) -> mem q W = true -> exists n, In (n, Some j) (h_commands (skeleton cm)) /\ In n K) /\
  (forall K, In K [layouts; storage] -> forall n m c, In (n, c) cm -> In (m, c) cm -> In n K -> In m K).
Proof.
  pose proof versions_ok as V. rewrite forallb_forall in V. specialize (V _ Hv). unfold version_ok in V. cbn [fst snd] in V.
  apply andb_prop in V as [V V3]. apply andb_prop in V as [V1 V4]. rewrite forallb_forall in V1, V3, V4. split; [|split].
  - intros n c Hn Nu. specialize (V1 _ Hn). cbn [fst snd] in V1. destruct (assoc n classes_of) as [l|] eqn:E; [|discriminate].
    pose proof classes_ok as K. rewrite forallb_forall in K. specialize (K _ (assoc_In _ _ _ E)). cbn [fst snd] in K.
    apply orb_prop in K as [K|K]; [apply mem_In in K; contradiction|]. rewrite forallb_forall in K. apply K. now apply mem_In.
  - intros W K HWK q j Hq Hw. specialize (V3 _ Hq). cbn [fst snd] in V3. rewrite forallb_forall in V3. specialize (V3 _ HWK). cbn [fst snd] in V3.
    rewrite Hw in V3. cbn [negb orb] in V3. apply andb_prop in V3 as [V3 V5]. apply existsb_exists in V3 as ([n [i|]] & Hn & E); [|discriminate].
    cbn [snd] in E. apply Nat.eqb_eq in E as ->. exists n. split; [exact Hn|]. rewrite forallb_forall in V5. specialize (V5 _ Hn).
    cbn [fst snd] in V5. rewrite Nat.eqb_refl in V5. cbn [negb orb] in V5. now apply mem_In.
  - intros K HK n m c Hn Hm Sn. specialize (V4 _ HK). rewrite forallb_forall in V4. specialize (V4 _ Hn). cbn [fst snd] in V4. apply mem_In in Sn. rewrite Sn in V4. cbn [negb orb] in V4. rewrite forallb_forall in V4. specialize (V4 _ Hm).
    cbn [fst snd] in V4. rewrite eqb_refl_s in V4. cbn [negb orb] in V4. now apply mem_In.
Qed.

Lemma moved_movable n c : In (n, c) cm -> ~ In n unmodelled -> movable (places_of n) c = true.
Proof. intros Hn Nu. apply (class_ok_spec n c). exact (proj1 version_facts n c Hn Nu). Qed.
Lemma moved_asking n c : In (n, c) cm -> ~ In n unmodelled -> asked c <> [] -> In n storage.
Proof. intros Hn Nu. apply (class_ok_spec n c). exact (proj1 version_facts n c Hn Nu). Qed.
Lemma moved_more n c q : In (n, c) cm -> ~ In n unmodelled -> ~ In n layouts -> In q (asked c) -> mem q layouts = true.
Proof. intros Hn Nu Nl. apply (class_ok_spec n c); [|exact Nl]. exact (proj1 version_facts n c Hn Nu). Qed.

(** The commands asked about. *)
Lemma given_asked W K h h' q : In (W, K) [(layouts, layouts); (watched, storage)] -> used h -> used h' -> (forall k, In k K -> given_alike h h' k) -> mem q W = true -> given_as h q = given_as h' q.
Proof.
  intros HWK U U' G Hw. unfold given_as, attr_obj. rewrite (proj2 (used_commands rest cm dm h U)), (proj2 (used_commands rest cm dm h' U')).
  destruct (assoc q (h_attrs (skeleton cm))) as [[j|]|] eqn:A; [|reflexivity|reflexivity]. apply assoc_In in A.
  destruct (proj1 (proj2 version_facts) W K HWK q j A Hw) as (n & Hn & S). specialize (G n S). unfold given_alike, served, identity in G.
  rewrite (proj1 (used_commands rest cm dm h U)), (proj1 (used_commands rest cm dm h' U')) in G.
  assert (D : is_dict (h_commands (skeleton cm))).
  { rewrite <- (proj1 (used_commands rest cm dm h U)).
    pose proof (version_dict (cmd_class rest) _ _ _ Hv) as D. unfold is_dict in *.
    rewrite (inv_keys _ _ (in_use_inv _ _ D (used_in_use rest cm dm h U))). exact D. }
  rewrite (In_dict _ D _ _ Hn) in G. exact G.
Qed.
Lemma given_watched h h' q : used h -> used h' -> (forall k, In k storage -> given_alike h h' k) -> mem q watched = true -> given_as h q = given_as h' q.
Proof.
  intros U U' G W. apply (given_asked watched storage); auto. cbn. auto.
Qed.
End Version.
Lemma movable_code P c : movable P c = true -> exists st, parse_code c = Some st.
Proof. unfold movable. destruct (parse_code c) as [st|]; [eauto|discriminate]. Qed.
Local Opaque parse_code comes_from method_of movable.
Lemma same_str rest o o' c st : parse_code c = Some st -> o_class o = class_model (cmd_class rest) c -> obj_l o o' -> o_str o = o_str o'.
Proof. intros Pc Co (C & A & F). unfold o_str. rewrite <- C, Co. exact (str_l rest c st _ _ _ _ Pc A F). Qed.
Lemma served_alias rest v cm dm h n m c : In (v, (cm, dm)) handlers -> used rest cm dm h -> In (n, c) cm -> In (m, c) cm -> served h n = served h m.
Proof.
  intros Hv U Hn Hm. destruct (used_served rest v cm dm Hv h n c U Hn) as (i & o & Ei & Eo & So & _). destruct (used_served rest v cm dm Hv h m c U Hm) as (j & p & Ej & Ep & Sp & _).
  assert (i = j) as -> by (now apply (same_object rest v cm dm Hv h n c m c i j U Hn Hm Ei Ej)). rewrite So, Sp. congruence.
Qed.

(** ** C44 *)

(** What a line does to its command depends neither on where the line stands nor on other
    commands, except that the storage commands look at each other. *)
Theorem C44_moved : forall rest v cm dm n m c h h' line line' ln ln' args h1 o o',
  In (v, (cm, dm)) handlers -> In (n, c) cm -> In (m, c) cm -> ~ In n unmodelled ->
  n = m \/ ~ In n (by_name ++ by_text) -> line = line' \/ ~ In n by_text ->
  used rest cm dm h -> used rest cm dm h' -> served h n = Some o -> served h' m = Some o' -> same_settings o o' ->
  (In n storage -> forall k, In k storage -> given_alike h h' k) ->
  handle_command h line (n :: args) ln = (h1, None) ->
  exists h1' o1 o1', handle_command h' line' (m :: args) ln' = (h1', None) /\
    served h1 n = Some o1 /\ served h1' m = Some o1' /\ same_settings o1 o1' /\ o_str o1 = o_str o1'.
Proof.
  intros rest v cm dm n m c h h' line line' ln ln' args h1 o o' Hv Hn Hm Nu Nm Nl U U' So So' R G E.
  pose proof (moved_movable v cm dm Hv n c Hn Nu) as M. destruct (line_placed n m line line' ln ln' c M Nm Nl) as (P & P1 & P2 & P3 & P4).
  rewrite <- (served_alias rest v cm dm h' n m c Hv U' Hn Hm) in So'. apply same_l in R.
  destruct (line_moves rest v cm dm Hv P h h' n m c line line' args ln ln' h1 o o' U U' Hn Hm P1 P2 P3 P4 So So' R) as (h1' & o1 & o1' & E' & S1 & S1' & R1 & _); [|exact E|].
  { intros q Hq Wq. apply (given_watched rest v cm dm Hv h h' q U U'); [|exact Wq]. apply G.
    apply (moved_asking v cm dm Hv n c Hn Nu). intros A. rewrite A in Hq. destruct Hq. }
  exists h1', o1, o1'. split; [exact E'|]. split; [exact S1|].
  assert (U1 : used rest cm dm h1) by (pose proof (used_step rest cm dm h line (n :: args) ln U) as X; now rewrite E in X).
  assert (U1' : used rest cm dm h1') by (pose proof (used_step rest cm dm h' line' (m :: args) ln' U') as X; now rewrite E' in X).
  split; [now rewrite <- (served_alias rest v cm dm h1' n m c Hv U1' Hn Hm)|]. split; [now apply same_l|].
  destruct (movable_code P c P3) as [st Pc]. apply (same_str rest o1 o1' c st Pc); [|exact R1].
  destruct (used_served rest v cm dm Hv h1 n c U1 Hn) as (i & p & _ & _ & Sp & Cp). congruence.
Qed.
Print Assumptions C44_moved.

(** ** Sequences of lines *)

Section Order.
Variable rest : string -> cclass.
Variables (v : Z) (cm dm : list (string * string)).
Hypothesis Hv : In (v, (cm, dm)) handlers.
Notation used := (used rest cm dm).
Notation cls c := (class_model (cmd_class rest) c).

Definition like (h h' : handler) : Prop := used h /\ used h' /\
  forall n c, In (n, c) cm -> exists o o', served h n = Some o /\ served h' n = Some o' /\ match parse_code c with Some _ => obj_l o o' | None => o = o' end.
Lemma like_refl h : used h -> like h h.
Proof.
  intros U. split; [exact U|]. split; [exact U|]. intros n c Hn. destruct (used_served rest v cm dm Hv h n c U Hn) as (i & o & _ & _ & So & _). exists o, o.
  split; [exact So|]. split; [exact So|]. destruct (parse_code c); [apply obj_l_refl|reflexivity].
Qed.
Lemma like_sym h h' : like h h' -> like h' h.
Proof.
  intros (U & U' & L). split; [exact U'|]. split; [exact U|]. intros n c Hn. destruct (L n c Hn) as (o & o' & So & So' & R). exists o', o.
  split; [exact So'|]. split; [exact So|]. destruct (parse_code c); [now apply obj_l_sym|now symmetry].
Qed.
Lemma like_trans h h1 h2 : like h h1 -> like h1 h2 -> like h h2.
Proof.
  intros (U & U' & L) (_ & U2 & L2). split; [exact U|]. split; [exact U2|]. intros n c Hn. destruct (L n c Hn) as (o & o' & So & So' & R). destruct (L2 n c Hn) as (p & p' & Sp & Sp' & R2).
  rewrite So' in Sp. injection Sp as <-. exists o, p'. split; [exact So|]. split; [exact Sp'|]. destruct (parse_code c); [eapply obj_l_trans; eauto|congruence].
Qed.
Lemma like_seen h h' : like h h' -> forall n, given_alike h h' n.
Proof.
  intros (U & U' & L) n. unfold given_alike. destruct (assoc n cm) as [c|] eqn:A.
  - apply assoc_In in A. destruct (L n c A) as (o & o' & -> & -> & R). cbn. f_equal. destruct (parse_code c); [now apply obj_l_seen|now subst].
  - assert (N : forall g, used g -> served g n = None).
    { intros g Ug. unfold served, identity. rewrite (proj1 (used_commands rest cm dm g Ug)). destruct (assoc n (h_commands (skeleton cm))) as [k|] eqn:Ek; [|reflexivity].
      exfalso. apply skeleton_names in Ek. congruence. }
    now rewrite (N h U), (N h' U').
Qed.

(** A line in two handlers that are alike. *)
Lemma like_line h h' x y n args ln ln' h1 : like h h' -> ~ In n unmodelled -> (In n by_text -> x = y) ->
  handle_command h x (n :: args) ln = (h1, None) -> exists h1', handle_command h' y (n :: args) ln' = (h1', None) /\ like h1 h1'.
Proof.
  intros L Nu T E. pose proof L as (U & U' & K).
  destruct (assoc n cm) as [c|] eqn:A.
  2: { destruct (line_unknown rest cm dm h n x args ln U) as [W _]; [|rewrite E in W; destruct (W eq_refl)]. intros d Hd. apply (In_dict _ (dict_cm rest v cm dm Hv)) in Hd. congruence. }
  apply assoc_In in A. destruct (K n c A) as (o & o' & So & So' & R).
  pose proof (moved_movable v cm dm Hv n c A Nu) as M. destruct (line_placed n n x y ln ln' c M (or_introl eq_refl)) as (P & P1 & P2 & P3 & P4).
  { destruct (in_dec string_dec n by_text) as [I|I]; [left; auto|now right]. }
  destruct (movable_code P c P3) as [st Pc]. rewrite Pc in R.
  destruct (line_moves rest v cm dm Hv P h h' n n c x y args ln ln' h1 o o' U U' A A P1 P2 P3 P4 So So' R) as (h1' & o1 & o1' & E' & S1 & S1' & R1 & F & F'); [|exact E|].
  { intros q Hq Wq. apply (given_watched rest v cm dm Hv h h' q U U'); [|exact Wq]. intros k _. now apply like_seen. }
  exists h1'. split; [exact E'|].
  assert (U1 : used h1) by (pose proof (used_step rest cm dm h x (n :: args) ln U) as X; now rewrite E in X).
  assert (U1' : used h1') by (pose proof (used_step rest cm dm h' y (n :: args) ln' U') as X; now rewrite E' in X).
  split; [exact U1|]. split; [exact U1'|]. intros k d Hk. destruct (string_dec d c) as [->|Nd].
  - exists o1, o1'. rewrite (served_alias rest v cm dm h1 k n c Hv U1 Hk A), (served_alias rest v cm dm h1' k n c Hv U1' Hk A), Pc. auto.
  - rewrite (F k d Hk Nd), (F' k d Hk Nd). auto.
Qed.
Lemma like_lines l : forall h h' h1, Forall modelled_line l -> like h h' -> execute handle_command l h = (h1, None) ->
  exists h1', execute handle_command l h' = (h1', None) /\ like h1 h1'.
Proof.
  induction l as [|[[x w] ln] l IH]; intros h h' h1 Fm L E; cbn [execute] in *.
  - injection E as <-. exists h'. auto.
  - inversion Fm as [|? ? Hm Hr]; subst. destruct (handle_command h x w ln) as [g [e|]] eqn:G; [discriminate|].
    assert (X : exists g', handle_command h' x w ln = (g', None) /\ like g g').
    { destruct w as [|n args]; [|apply (like_line h h' x x n args ln ln g L); auto].
      cbn in G. discriminate. }
    destruct X as (g' & -> & Lg). exact (IH g g' h1 Hr Lg E).
Qed.

Lemma closed_as K n m c : In K [layouts; storage] -> In (n, c) cm -> In (m, c) cm -> In n K -> In m K.
Proof. intros HK. apply (proj2 (proj2 (version_facts v cm dm Hv)) K HK). Qed.
(** Storage commands are not affected by a line of another command. *)
Lemma frame_alike K g g1 n c : In K [layouts; storage] -> used g -> used g1 -> In (n, c) cm -> ~ In n K -> (forall k d, In (k, d) cm -> d <> c -> served g1 k = served g k) ->
  forall k, In k K -> given_alike g g1 k.
Proof.
  intros HK U U1 Hn Ns F k Sk. unfold given_alike. destruct (assoc k cm) as [d|] eqn:A.
  - apply assoc_In in A. rewrite (F k d A); [reflexivity|]. intros ->. apply Ns. exact (closed_as K k n c HK A Hn Sk).
  - assert (N : forall g, used g -> served g k = None).
    { intros g0 Ug. unfold served, identity. rewrite (proj1 (used_commands rest cm dm g0 Ug)). destruct (assoc k (h_commands (skeleton cm))) as [j|] eqn:Ek; [|reflexivity].
      exfalso. apply skeleton_names in Ek. congruence. }
    now rewrite (N g U), (N g1 U1).
Qed.
(** What a line of [m] asks is not changed by a line of [n] apart from it. *)
Lemma apart_asks g g1 n c m d q : used g -> used g1 -> In (n, c) cm -> In (m, d) cm -> ~ In m unmodelled -> apart n m ->
  (forall k e, In (k, e) cm -> e <> c -> served g1 k = served g k) -> In q (asked d) -> mem q watched = true -> given_as g q = given_as g1 q.
Proof.
  intros U U1 Hn Hm Nm [A1 A2] F Hq Wq. destruct (in_dec string_dec m layouts) as [Lm|Lm].
  - apply (given_asked rest v cm dm Hv watched storage g g1 q); auto; [cbn; auto|]. apply (frame_alike storage g g1 n c); auto. cbn; auto.
  - apply (given_asked rest v cm dm Hv layouts layouts g g1 q); auto; [cbn; auto| |exact (moved_more v cm dm Hv m d q Hm Nm Lm Hq)].
    apply (frame_alike layouts g g1 n c); auto; [cbn; auto|]. intros Ln. apply (A1 Ln).
    apply (moved_asking v cm dm Hv m d Hm Nm). intros E. rewrite E in Hq. destruct Hq.
Qed.
Lemma like_swap g x n a ln y m b ln' g2 : used g -> ~ In n unmodelled -> ~ In m unmodelled -> sep cm (n :: a) (m :: b) ->
  execute handle_command [(x, n :: a, ln); (y, m :: b, ln')] g = (g2, None) ->
  exists g2', execute handle_command [(y, m :: b, ln'); (x, n :: a, ln)] g = (g2', None) /\ like g2 g2'.
Proof.
  intros U Nn Nm [Ac Sp] E. cbn [execute] in *. destruct (handle_command g x (n :: a) ln) as [g1 [e|]] eqn:E1; [discriminate|].
  destruct (handle_command g1 y (m :: b) ln') as [h2 [e|]] eqn:E2; [discriminate|]. injection E as ->.
  assert (U1 : used g1) by (pose proof (used_step rest cm dm g x (n :: a) ln U) as X; now rewrite E1 in X).
  assert (U2 : used g2) by (pose proof (used_step rest cm dm g1 y (m :: b) ln' U1) as X; now rewrite E2 in X).
  assert (K : forall g x n a ln g1, used g -> handle_command g x (n :: a) ln = (g1, None) -> exists c, assoc n cm = Some c).
  { intros h0 x0 n0 a0 l0 h1 U0 E0. destruct (assoc n0 cm) as [c|] eqn:A; [eauto|].
    destruct (line_unknown rest cm dm h0 n0 x0 a0 l0 U0) as [W _]; [|rewrite E0 in W; destruct (W eq_refl)]. intros d Hd. apply (In_dict _ (dict_cm rest v cm dm Hv)) in Hd. congruence. }
  destruct (K _ _ _ _ _ _ U E1) as [c An]. destruct (K _ _ _ _ _ _ U1 E2) as [d Am]. assert (Ncd : c <> d) by congruence.
  apply assoc_In in An. apply assoc_In in Am.
  pose proof (moved_movable v cm dm Hv n c An Nn) as Mn. pose proof (moved_movable v cm dm Hv m d Am Nm) as Mm.
  destruct (line_placed n n x x ln ln c Mn (or_introl eq_refl) (or_introl eq_refl)) as (P & P1 & P2 & P3 & P4).
  destruct (line_placed m m y y ln' ln' d Mm (or_introl eq_refl) (or_introl eq_refl)) as (Q & Q1 & Q2 & Q3 & Q4).
  destruct (used_served rest v cm dm Hv g n c U An) as (_ & o & _ & _ & So & _).
  destruct (used_served rest v cm dm Hv g m d U Am) as (_ & p & _ & _ & Sp' & _).
  destruct (line_moves rest v cm dm Hv P g g n n c x x a ln ln g1 o o U U An An P1 P2 P3 P4 So So (obj_l_refl o)) as (_ & o1 & _ & _ & S1 & _ & _ & F1 & _); [reflexivity|exact E1|].
  assert (Sp1 : served g1 m = Some p) by (rewrite (F1 m d Am); [exact Sp'|congruence]).
  destruct (line_moves rest v cm dm Hv Q g1 g m m d y y b ln' ln' g2 p p U1 U Am Am Q1 Q2 Q3 Q4 Sp1 Sp' (obj_l_refl p)) as (g1' & p1 & p1' & E1' & T1 & T1' & R1 & F2 & F2'); [|exact E2|].
  { intros q Hq Wq. symmetry. exact (apart_asks g g1 n c m d q U U1 An Am Nm Sp F1 Hq Wq). }
  assert (U1' : used g1') by (pose proof (used_step rest cm dm g y (m :: b) ln' U) as X; now rewrite E1' in X).
  assert (So1 : served g1' n = Some o) by (rewrite (F2' n c An); [exact So|congruence]).
  destruct (line_moves rest v cm dm Hv P g g1' n n c x x a ln ln g1 o o U U1' An An P1 P2 P3 P4 So So1 (obj_l_refl o)) as (g2' & o2 & o2' & E2' & T2 & T2' & R2 & F3 & F3'); [|exact E1|].
  { intros q Hq Wq. refine (apart_asks g g1' m d n c q U U1' Am An Nn _ F2' Hq Wq). destruct Sp; split; assumption. }
  rewrite E1', E2'. eexists. split; [reflexivity|].
  assert (U2' : used g2') by (pose proof (used_step rest cm dm g1' x (n :: a) ln U1') as X; now rewrite E2' in X).
  split; [exact U2|]. split; [exact U2'|]. intros k e Hk. destruct (movable_code P c P3) as [st Pc]. destruct (movable_code Q d Q3) as [st' Pd].
  destruct (string_dec e c) as [->|Nec].
  - exists o2, o2'. rewrite (served_alias rest v cm dm g2 k n c Hv U2 Hk An), (served_alias rest v cm dm g2' k n c Hv U2' Hk An), (F2 n c An Ncd), Pc. auto.
  - destruct (string_dec e d) as [->|Ned].
    + exists p1, p1'. rewrite (served_alias rest v cm dm g2 k m d Hv U2 Hk Am), (F3' k d Hk Nec), (served_alias rest v cm dm g1' k m d Hv U1' Hk Am), Pd. auto.
    + destruct (used_served rest v cm dm Hv g k e U Hk) as (_ & z & _ & _ & Sz & _). exists z, z.
      rewrite (F2 k e Hk Ned), (F1 k e Hk Nec), (F3' k e Hk Nec), (F2' k e Hk Ned). split; [exact Sz|]. split; [exact Sz|]. destruct (parse_code e); [apply obj_l_refl|reflexivity].
Qed.

Lemma execute_two a b l (h : handler) : execute handle_command (a :: b :: l) h =
  match execute handle_command [a; b] h with (h1, None) => execute handle_command l h1 | r => r end.
Proof.
  destruct a as [[x w] ln], b as [[y u] ln']. cbn [execute]. destruct (handle_command h x w ln) as [h1 [e|]]; [reflexivity|]. destruct (handle_command h1 y u ln') as [h2 [e|]]; reflexivity.
Qed.
Lemma reordered_modelled l l' : reordered cm l l' -> Forall modelled_line l -> Forall modelled_line l'.
Proof.
  induction 1 as [|x y w ln ln' l l' T R IH|a b l S|l l1 l2 R1 IH1 R2 IH2]; intros F; auto.
  - inversion F; subst. constructor; auto.
  - inversion F as [|? ? Ha Hr]; subst. inversion Hr; subst. repeat constructor; auto.
Qed.
Lemma like_reordered l l' : reordered cm l l' -> forall h h' h1, Forall modelled_line l -> like h h' -> execute handle_command l h = (h1, None) ->
  exists h1', execute handle_command l' h' = (h1', None) /\ like h1 h1'.
Proof.
  induction 1 as [|x y w ln ln' l l' T R IH|a b l S|l l1 l2 R1 IH1 R2 IH2]; intros h h' h1 Fm L E.
  - cbn [execute] in *. injection E as <-. eauto.
  - inversion Fm as [|? ? Hm Hr]; subst. cbn [execute] in *. destruct (handle_command h x w ln) as [g [e|]] eqn:G; [discriminate|].
    assert (X : exists g', handle_command h' y w ln' = (g', None) /\ like g g').
    { destruct w as [|n args]; [|apply (like_line h h' x y n args ln ln' g L); auto].
      cbn in G. discriminate. }
    destruct X as (g' & -> & Lg). exact (IH g g' h1 Hr Lg E).
  - rewrite execute_two in E. destruct (execute handle_command [a; b] h) as [g [e|]] eqn:G; [discriminate|].
    inversion Fm as [|? ? Ha Hr]; subst. inversion Hr as [|? ? Hb Hl]; subst.
    destruct a as [[x [|n w]] ln], b as [[y [|m u]] ln']; try contradiction. cbn [fst snd] in S. unfold modelled_line in Ha, Hb. cbn [fst snd] in Ha, Hb.
    destruct (like_swap h x n w ln y m u ln' g (proj1 L) Ha Hb S G) as (g' & G' & Lg).
    destruct (like_lines l g g' h1 Hl Lg E) as (h2 & E2 & L2).
    assert (E3 : execute handle_command ((y, m :: u, ln') :: (x, n :: w, ln) :: l) h = (h2, None)) by (now rewrite execute_two, G').
    destruct (like_lines ((y, m :: u, ln') :: (x, n :: w, ln) :: l) h h' h2) as (h3 & E4 & L3); [|exact L|exact E3|].
    { repeat constructor; auto. }
    exists h3. split; [exact E4|]. eapply like_trans; eauto.
  - destruct (IH1 h h' h1 Fm L E) as (h2 & E2 & L2). destruct (IH2 h' h' h2) as (h3 & E3 & L3); [|apply like_refl; apply L|exact E2|].
    + exact (reordered_modelled _ _ R1 Fm).
    + exists h3. split; [exact E3|]. eapply like_trans; eauto.
Qed.

(** The texts. *)
Lemma like_str h h' i : like h h' -> live h i -> str_at h i = str_at h' i.
Proof.
  intros (U & U' & L) (n & Hn). pose proof Hn as Hk. rewrite (proj1 (used_commands rest cm dm h U)) in Hk. pose proof (skeleton_names cm n _ Hk) as Hc.
  destruct (assoc n cm) as [c|] eqn:A; [|contradiction]. apply assoc_In in A. destruct (L n c A) as (o & o' & So & So' & R).
  destruct (used_served rest v cm dm Hv h n c U A) as (j & p & Ej & Ep & Sp & Cp). destruct (used_served rest v cm dm Hv h' n c U' A) as (j' & p' & Ej' & Ep' & Sp' & Cp').
  rewrite Hn in Ej. injection Ej as <-. rewrite (proj1 (used_commands rest cm dm h' U')) in Ej'. rewrite Hk in Ej'. injection Ej' as <-.
  unfold str_at. rewrite Ep, Ep'. rewrite So in Sp. injection Sp as <-. rewrite So' in Sp'. injection Sp' as <-.
  destruct (parse_code c) as [st|] eqn:Pc; [exact (same_str rest o o' c st Pc Cp R)|now rewrite R].
Qed.
Lemma like_text h h' : like h h' -> commands_str h = commands_str h'.
Proof.
  intros L. pose proof L as (U & U' & _). unfold commands_str.
  assert (O : h_order h' = h_order h) by (now rewrite <- (sh_order _ _ (used_shape rest cm dm h U)), <- (sh_order _ _ (used_shape rest cm dm h' U'))).
  rewrite O. f_equal. apply map_ext_in. intros [p l] Hp. cbn [snd]. f_equal. apply map_ext_in. intros i Hi. apply like_str; [exact L|].
  pose proof (version_dict (cmd_class rest) _ _ _ Hv) as D. pose proof (in_use_inv _ _ D (used_in_use rest cm dm h U)) as I.
  apply (inv_order _ _ I p l); [|exact Hi]. exact (Permutation.Permutation_in _ (Permutation.Permutation_sym (sort_prio_perm _)) Hp).
Qed.
End Order.

(** Accepted lines may be written in any other order that keeps the lines of each command, and
    the lines of storage commands, in their order: they are accepted, every command has
    the same settings, and the same file is written. *)
Theorem C44_order : forall rest v cm dm h l l' h1,
  In (v, (cm, dm)) handlers -> used rest cm dm h -> Forall modelled_line l -> reordered cm l l' ->
  execute handle_command l h = (h1, None) ->
  exists h1', execute handle_command l' h = (h1', None) /\ commands_str h1' = commands_str h1 /\
    forall n c, In (n, c) cm -> exists o o', served h1 n = Some o /\ served h1' n = Some o' /\ same_settings o o'.
Proof.
  intros rest v cm dm h l l' h1 Hv U Fm R E. destruct (like_reordered rest v cm dm Hv l l' R h h h1 Fm (like_refl rest v cm dm Hv h U) E) as (h1' & E' & L).
  exists h1'. split; [exact E'|]. split; [symmetry; exact (like_text rest v cm dm Hv h1 h1' L)|].
  intros n c Hn. destruct L as (_ & _ & L). destruct (L n c Hn) as (o & o' & So & So' & K). exists o, o'. split; [exact So|]. split; [exact So'|].
  apply same_l. destruct (parse_code c); [exact K|]. rewrite K. apply obj_l_refl.
Qed.
Print Assumptions C44_order.

(** The hypotheses are met, and the two files are the same.  The order of lines of one
    command, and of commands that exclude each other, does matter. *)
Definition text_from (v : Z) (l : list (string * list string * N)) (n : string) : option (option string * bool) :=
  match find (fun h => Z.eqb (fst h) v) handlers with
  | Some (_, (cm, dm)) => let r := execute handle_command l (start demo_rest cm dm) in Some (option_map o_str (served (fst r) n), match snd r with None => true | _ => false end)
  | None => None
  end.
Definition order_a : list (string * list string * N) :=
  [("part / --size=5", ["part"; "/"; "--size=5"], 1%N); ("raid", ["raid"; "/x"; "--device=md0"; "--level=0"; "raid.1"; "raid.2"], 2%N); ("zerombr", ["zerombr"], 3%N)].
Definition order_b : list (string * list string * N) :=
  [("zerombr # yes", ["zerombr"], 7%N); ("raid", ["raid"; "/x"; "--device=md0"; "--level=0"; "raid.1"; "raid.2"], 2%N); ("part / --size=5", ["part"; "/"; "--size=5"], 1%N)].
Example C44_example :
  Forall modelled_line order_a /\
  (match find (fun h => Z.eqb (fst h) F34) handlers with Some (_, (cm, dm)) => reordered cm order_a order_b | None => False end) /\
  (forall l, l = order_a \/ l = order_b ->
    text_from F34 l "raid" = Some (Some ("raid /x --device=0 --level=RAID0 raid.1 raid.2" ++ nl)%string, true)) /\
  text_from F34 [("", ["lang"; "de"], 1%N); ("", ["lang"; "en"], 2%N)] "lang" <> text_from F34 [("", ["lang"; "en"], 2%N); ("", ["lang"; "de"], 1%N)] "lang" /\
  option_map snd (text_from RHEL6 [("", ["part"; "/"; "--size=5"], 1%N); ("", ["autopart"], 2%N)] "part") = Some false.
Proof.
  assert (N : forall n, In n ["part"; "raid"; "zerombr"] -> ~ In n unmodelled).
  { intros n H X. cbn in H, X. destruct H as [<-|[<-|[<-|[]]]]; destruct X as [X|[X|[X|[]]]]; discriminate. }
  split. { repeat constructor; unfold modelled_line; cbn [fst snd]; apply N; cbn; auto. }
  split.
  { assert (S : exists cm dm, find (fun h => Z.eqb (fst h) F34) handlers = Some (F34, (cm, dm)) /\ assoc "part" cm = Some "F34_Partition" /\ assoc "raid" cm = Some "F29_Raid" /\ assoc "zerombr" cm = Some "F9_ZeroMbr").
    { destruct (find (fun h => Z.eqb (fst h) F34) handlers) as [[v [cm dm]]|] eqn:F; [|lazy in F; discriminate].
      exists cm, dm. assert (X : v = F34) by (apply find_some in F as [_ F]; now apply Z.eqb_eq in F). rewrite X. split; [reflexivity|].
      lazy in F. injection F as _ <- _. repeat split; lazy; reflexivity. }
    destruct S as (cm & dm & -> & Ep & Er & Ez).
    assert (A : forall n m, In n ["part"; "raid"; "zerombr"] -> In m ["part"; "raid"; "zerombr"] -> apart n m).
    { assert (L : forall n, In n ["part"; "raid"; "zerombr"] -> ~ In n layouts).
      { intros n H X. cbn in H, X. destruct H as [<-|[<-|[<-|[]]]]; destruct X as [X|[X|[]]]; discriminate. }
      intros n m Hn Hm. split; intros X; exfalso; [exact (L n Hn X)|exact (L m Hm X)]. }
    unfold order_a, order_b. eapply re_trans; [apply re_swap|]. { split; [congruence|apply A; cbn; auto]. }
    eapply re_trans; [apply (re_line _ "raid" "raid" _ 2%N 2%N); [intros _; reflexivity|apply re_swap]|]. { split; [congruence|apply A; cbn; auto]. }
    eapply re_trans; [apply re_swap|]. { split; [congruence|apply A; cbn; auto]. }
    apply re_line; [intros X; cbn in X; destruct X as [X|[X|[X|[]]]]; discriminate|]. repeat (apply re_line; [auto|]). apply re_nil. }
  split. { intros l [->| ->]; vm_compute; reflexivity. }
  split; [vm_compute; discriminate|]. vm_compute; reflexivity.
Qed.
