(** * Commands whose __str__ and parse undo each other

    A check of a class, and what it says of the lines the class accepts. *)

From Coq Require Import Lia.
From Verif Require Import PyStrFacts OptionsFacts ArgParseFacts HandlerFacts ClassModel PropsHandler PropsClass ArgSpec ArgDecl ArgDeclFacts ArgTable NsFacts NsRange.
From Verif Require Import PyCheck PyCheckFacts PyClass CmdFacts PyFlow PyFlowFacts CmdFlow RuleFacts PyText PyTextFacts PyWords PyWordsFacts PyRound PyRoundFacts PySame PySameFacts RoundSpec CmdWord.
From Verif Require Import Value.
Local Open Scope string_scope.
Local Open Scope list_scope.
Local Arguments Ascii.eqb : simpl never.
Local Arguments String.eqb : simpl never.

(** ** The check *)

Definition own (k : string) : expr := EAttr (EVar "self") k.
Definition need_expr (n : need) : expr :=
  match n with
  | When k => own k
  | Unless k => EUn UNot (own k)
  | WhenBoth k j => EAnd (own k) (own j)
  | Never => EConst (VBool false)
  end.
Definition tidy_b (v : value) : bool :=
  match v with
  | VStr s => plain_text s
  | VInt z => Z.leb 0 z
  | VStrs l => match l with [] => false | _ => forallb plain_item_text l end
  | VBool _ => true
  | VNone | VPairs _ | VCodes _ => false
  end.
(** An expression about the object in the variable [x], as one about self. *)
Fixpoint to_self (x : string) (y : expr) : option expr :=
  match y with
  | EConst v => Some (EConst v)
  | EAttr (EVar z) k => if String.eqb z x then Some (own k) else None
  | EUn o y => option_map (EUn o) (to_self x y)
  | EBin o y z => match to_self x y, to_self x z with Some y', Some z' => Some (EBin o y' z') | _, _ => None end
  | EAnd y z => match to_self x y, to_self x z with Some y', Some z' => Some (EAnd y' z') | _, _ => None end
  | EOr y z => match to_self x y, to_self x z with Some y', Some z' => Some (EOr y' z') | _, _ => None end
  | _ => None
  end.
Definition facts_about (x : string) (F : facts) : facts :=
  flat_map (fun f => match to_self x (fst f) with Some y => [(y, snd f)] | None => [] end) F.
(** The statements of __str__. *)
Definition body_of (s : stmt) : option stmt :=
  match s with SBlock x [] s => if String.eqb x "_r" then Some s else None | _ => None end.
Definition str_body (t : string) : option stmt :=
  match method_of t "__str__" [] with Some s => body_of s | None => None end.
Definition stamped : list string := ["currentCmd"; "currentLine"; "lineno"; "seen"].
(** Values whose text does not end with a blank. *)
Definition calm_aval (v : aval) : bool :=
  match v with
  | AConst (VStr s) => String.eqb s "" || plain_text s
  | AConst (VInt z) => plain_text (str_of_Z z)
  | AConst (VStrs (_ :: _)) => false
  | _ => true
  end.
(** Values whose text is not empty either. *)
Definition full_aval (v : aval) : bool := match v with AWord _ | APos _ => true | _ => false end.
(** Options that may be given with the value they would have anyway, and whether that
    value is false. *)
Definition ambiguous (T : tab) (init : attrs) : list (string * bool) :=
  flat_map (fun d => match get d init with
                     | VNone => []
                     | v => match tab_default (t_acts T) d with VNone => [(d, negb (truthy v))] | _ => [] end
                     end) (PyRound.dests T).
Definition unclear (T : tab) (init : attrs) (off : list string) : list (string * bool) := filter (fun kb => negb (mem (fst kb) off)) (ambiguous T init).
Definition is_in (v : aval) (l : list aval) : bool := if in_dec aval_dec v l then true else false.
(** A value of one of the kinds [v] is of one of the kinds [l]. *)
Definition covered (l : list aval) (v : aval) : bool :=
  match v with
  | APos _ => existsb (fun w => match w with APos ex => forallb (fun z => is_in (AConst (VInt z)) l) ex | _ => false end) l
  | _ => is_in v l
  end.
(** Where the values go: on the command, or on an object of the class the handler has for
    a name; and what else is set. *)
Definition mode_of (c : string) : option (bool * string * list string) :=
  match word_flow (word_pair (table_of c)) c with
  | Some (HSelf, OSet V, _) => Some (true, "", V)
  | Some (HSelf, OKeep V, _) => match t_acts (tabulate (table_of c)) with [] => Some (true, "", V) | _ => None end
  | Some (HSet k V, OKeep [], OKeep []) => Some (false, k, V)
  | _ => None
  end.
(** The alternatives a text starts with, and those that depend on a search, one by one. *)
Fixpoint pieces (F : facts) (pre r : list bit) : list (facts * list bit) :=
  match r with
  | [] => [(F, pre)]
  | TIf g x y :: r' =>
      if match pre, g with [], _ => true | _, EBin BIn _ _ => true | _, _ => false end
      then pieces ((g, true) :: F) (pre ++ x) r' ++ pieces ((g, false) :: F) (pre ++ y) r'
      else pieces F (pre ++ [TIf g x y]) r'
  | b :: r' => pieces F (pre ++ [b]) r'
  end.
(** What is known in a case of a class. *)
Definition case_facts (l : list (string * bool)) : facts := map (fun kb => (own (fst kb), snd kb)) l.
Definition cases_of (c : string) : list (list (string * bool)) := match assoc c cases with Some l => l | None => [[]] end.

Section Check.
Variables (c t : string) (T : tab) (init : attrs).
Variables (needs : list (string * need)) (rewritten : list string).
Variables (onself : bool) (kind : string) (W : list string).

Definition check_decl (d : decl) : bool :=
  forallb (covered (avals T init (d_dest d))) (of_decl d) && mem (d_dest d) (PyRound.dests T) &&
  match d_kind d, d_const d with KStoreConst, VNone => false | _, _ => true end.
Definition check_dest_of (k : string) : bool :=
  negb (must T k && tidy_b (start_value T init k)) && (negb (mem k W) || mem k rewritten) && negb (mem k stamped).
Definition check_table (ops : list tableop) : bool :=
  table_plain ops && simple_table T && forallb check_decl (all_decls T) && forallb check_dest_of (PyRound.dests T).
(** Attributes that always have the same value. *)
Definition consts : list (string * value) :=
  flat_map (fun kv => if mem (fst kv) W || mem (fst kv) stamped then []
                      else match avals T init (fst kv) with [AConst v] => [(fst kv, v)] | _ => [] end) init.
Definition constants : list (string * value) := (if onself && negb (mem "seen" W) then [("seen", VBool true)] else []) ++ consts.
Definition present : string -> option bool :=
  let ds := PyRound.dests T in
  fun k => if mem k W || mem k stamped || (mem k ds && negb (has_key k init)) then None else Some (has_key k init).
Definition calm : bool -> string -> bool := let ds := PyRound.dests T in fun full k => mem k ds && forallb (if full then full_aval else calm_aval) (avals T init k).
Definition need_list : list (string * expr) :=
  let ds := PyRound.dests T in let pr := present in
  flat_map (fun n => if forallb (fun k => mem k ds && match pr k with Some true => true | _ => false end) (need_attrs (snd n)) then [(fst n, need_expr (snd n))] else []) needs.
Definition check_str (pos : string) (F : facts) (name : string) (s : stmt) : bool :=
  match sexec constants present calm s F [] with
  | Some o => match leaves o with
              | Some l => forallb (fun Fr => check_leaf T init (fst Fr) need_list pos W [name] (snd Fr)) (flat_map (fun Fr => pieces (fst Fr) [] (snd Fr)) l)
              | None => false
              end
  | None => false
  end.
Definition takes_none : bool := match t_map T with [] => true | _ => false end.
Definition check_parse (off : list string) (s : stmt) : bool :=
  rel_s (parse_vars s) (unclear T init off) onself kind takes_none s && negb (mem "_r" (parse_vars s)).
End Check.

Definition check_round (c t name : string) : bool :=
  match mode_of c, parse_code c, str_body t, parse_facts c with
  | Some (onself, kind, W), Some s, Some b, Some F =>
      let ops := optioned (table_of c) in
      let T := tabulate ops in
      let init := init_of t in
      check_word (table_of c) && match the_word (table_of c) with Some x => negb (mem (word_attr (d_dest (fst x))) (listed name changed)) | None => true end &&
      (if onself then String.eqb c t && negb (based (comes_from c "__str__")) else true) &&
      check_table T init (listed name changed) W ops &&
      check_parse T init onself kind (pair_keys (word_pair (table_of c))) s &&
      forallb (fun l => forallb (fun kb => match present T init W (fst kb) with Some true => true | _ => false end) l &&
         check_str T init (written_if name c) onself W (word_name (table_of c)) (case_facts l ++ facts_about (if onself then "self" else "_r") F) name b) (cases_of c)
  | _, _, _, _ => false
  end.

(** ** Values *)

Lemma in_space s : (forall c, In c (list_ascii_of_string s) -> is_space c = false /\ ~ In c ["'"; """"; "\"; "#"]%char) <-> all_chars plain_char s = true.
Proof.
  assert (G : forall c, (is_space c = false /\ ~ In c ["'"; """"; "\"; "#"]%char) <-> plain_char c = true).
  { intros c. unfold plain_char. rewrite andb_true_iff, !negb_true_iff. split; intros [H1 H2]; (split; [exact H1|]).
    - destruct (existsb _ _) eqn:E; [|reflexivity]. destruct H2. apply existsb_exists in E as (x & Hx & E). apply eqb_true_a in E. subst x. exact Hx.
    - intros Hin. assert (E : existsb (Ascii.eqb c) [SQUOTE; DQUOTE; BSLASH; HASH] = true) by (apply existsb_exists; exists c; split; [exact Hin|apply Ascii.eqb_refl]). congruence. }
  induction s as [|c s IH]; cbn [list_ascii_of_string all_chars]; [split; [reflexivity|intros _ c []]|]. rewrite andb_true_iff, <- IH, <- G. split.
  - intros H. split; [apply H; now left|intros d Hd; apply H; now right].
  - intros [H1 H2] d [<-|Hd]; auto.
Qed.
Lemma bare_spec s : bare s <-> plain_text s = true.
Proof.
  unfold bare, plain_text. rewrite in_space, andb_true_iff, negb_true_iff. destruct (String.eqb_spec s "") as [->|N]; split; intros [H1 H2]; split; auto; try congruence.
Qed.
Lemma tidy_spec v : tidy v <-> tidy_b v = true.
Proof.
  destruct v as [|b|z|s|l|p|p]; cbn [tidy tidy_b]; try (split; [contradiction|discriminate]).
  - split; auto.
  - symmetry. apply Z.leb_le.
  - apply bare_spec.
  - assert (I : forall s, bare s /\ has_char "," s = false <-> plain_item_text s = true).
    { intros s. unfold plain_item_text. rewrite bare_spec, andb_true_iff, negb_true_iff. reflexivity. }
    destruct l as [|s l]; [split; [intros [H _]; now destruct H|discriminate]|]. rewrite forallb_forall. split.
    + intros [_ H] x Hx. apply I. auto.
    + intros H. split; [discriminate|]. intros x Hx. apply I. auto.
Qed.

Section Fit.
Variables (T : tab) (init : attrs).
Lemma in_dests k : In k (PyRound.dests T) <-> exists x, In x (t_acts T) /\ d_dest (fst x) = k.
Proof. unfold PyRound.dests. rewrite nodup_In, in_map_iff. split; intros (x & H1 & H2); exists x; auto. Qed.
Lemma must_spec k : must T k = true <-> exists x, In x (t_acts T) /\ d_dest (fst x) = k /\ d_required (fst x) = true.
Proof.
  unfold must, decls_for. rewrite existsb_exists. split.
  - intros (x & Hx & R). apply filter_In in Hx as [Hx E]. apply String.eqb_eq in E. exists x. auto.
  - intros (x & Hx & E & R). exists x. split; [|exact R]. apply filter_In. split; [exact Hx|]. rewrite E. apply eqb_refl_s.
Qed.
Lemma is_in_spec v l : is_in v l = true <-> In v l.
Proof. unfold is_in. destruct (in_dec aval_dec v l); split; auto; discriminate. Qed.
Lemma covered_ok l v w : covered l v = true -> gam v w = true -> exists u, In u l /\ gam u w = true.
Proof.
  intros C G. destruct v; cbn [covered] in C; try (apply is_in_spec in C; eauto; fail).
  apply existsb_exists in C as ([|?|ex'| |] & Hu & C); try discriminate. destruct w as [| |z| | | |]; try discriminate. cbn [gam] in G.
  apply andb_prop in G as [G1 G2]. destruct (existsb (Z.eqb z) ex') eqn:E.
  - apply existsb_exists in E as (y & Hy & E). apply Z.eqb_eq in E. subst y. rewrite forallb_forall in C. apply C, is_in_spec in Hy.
    exists (AConst (VInt z)). split; [exact Hy|]. now apply gam_const.
  - exists (APos ex'). split; [exact Hu|]. cbn [gam]. rewrite G1, E. reflexivity.
Qed.

(** What an option stores is None only if it says so. *)
Lemma produces_some d v : match d_kind d, d_const d with KStoreConst, VNone => false | _, _ => true end = true -> produces d v -> v <> VNone.
Proof.
  intros C [[K ->]|(K & s & E & _)]; rewrite K in C.
  - destruct (d_const d); congruence.
  - intros ->. destruct (d_type d); cbn [ty_fun] in E; try discriminate.
    + unfold ty_int in E. destruct (py_int s); discriminate.
    + unfold ty_bool in E. destruct (ksboolean s); discriminate.
    + destruct (assoc _ _); discriminate.
    + destruct (assoc _ _); discriminate.
Qed.
Lemma produces_of d v : simple_decl d = true -> produces d v -> tidy_b v = true -> (forall p s, d_type d = TDrop p -> v = VStr s -> startswith s p = false) -> exists u, In u (of_decl d) /\ gam u v = true.
Proof.
  intros S P Tv Dr. unfold simple_decl in S. apply andb_prop in S as [_ S]. unfold of_decl. destruct P as [[K ->]|(K & s & E & C)]; rewrite K in S |- *.
  - exists (AConst (d_const d)). split; [now left|]. now apply gam_const.
  - destruct (d_nargs d); try discriminate. destruct (d_choices d) as [l|].
    { destruct (C l eq_refl) as (x & -> & Hx). exists (AConst (VStr x)). split; [apply in_map_iff; eauto|now apply gam_const]. }
    clear C. destruct (d_type d) as [| | | | |pre| | |up m|m] eqn:Et; cbn [ty_fun] in E.
    + unfold ty_str in E. injection E as <-. exists (AWord TStr). split; [now left|]. cbn [gam]. apply andb_true_intro. split; [exact Tv|]. unfold fixes. cbn. apply eqb_refl_s.
    + unfold ty_int in E. destruct (py_int s) as [z|]; [|discriminate]. injection E as <-. cbn [tidy_b] in Tv. apply Z.leb_le in Tv.
      destruct (Z.eq_dec z 0) as [->|N]; [exists (AConst (VInt 0)); split; [now left|now apply gam_const]|].
      exists (APos []). split; [right; now left|]. cbn [gam existsb]. rewrite andb_true_r. apply Z.ltb_lt. lia.
    + unfold ty_bool in E. destruct (ksboolean s) as [[]|]; [| |discriminate]; injection E as <-.
      * exists (AConst (VBool true)). split; [now left|now apply gam_const].
      * exists (AConst (VBool false)). split; [right; now left|now apply gam_const].
    + unfold ty_comma in E. injection E as <-. exists AWords. split; [now left|]. cbn [tidy_b] in Tv. cbn [gam]. match goal with |- match ?l with [] => false | _ :: _ => _ end = true => destruct l; [discriminate|exact Tv] end.
    + unfold ty_mount in E. injection E as <-. exists (AWord TMount). split; [now left|]. cbn [gam]. apply andb_true_intro. split; [exact Tv|]. unfold fixes. cbn [ty_fun]. unfold ty_mount. rewrite mountpoint_idem. apply eqb_refl_s.
    + set (u := if startswith s pre then _ else _) in E. injection E as <-. exists (AWord (TDrop pre)). split; [now left|]. cbn [gam]. apply andb_true_intro. split; [exact Tv|]. unfold fixes. cbn [ty_fun]. rewrite (Dr pre u eq_refl eq_refl). apply eqb_refl_s.
    + injection E as <-. exists AWords. split; [now left|]. cbn [tidy_b] in Tv. cbn [gam]. match goal with |- match ?l with [] => false | _ :: _ => _ end = true => destruct l; [discriminate|exact Tv] end.
    + injection E as <-. discriminate.
    + destruct (assoc _ _) as [x|] eqn:A; [|discriminate]. injection E as <-. exists (AConst (VStr x)). split; [|now apply gam_const].
      apply in_map_iff. eexists (_, x). split; [reflexivity|]. eapply assoc_In; exact A.
    + destruct (assoc _ _) as [x|] eqn:A; [|discriminate]. injection E as <-. exists (AConst (VInt x)). split; [|now apply gam_const].
      apply in_map_iff. eexists (_, x). split; [reflexivity|]. eapply assoc_In; exact A.
Qed.
End Fit.

(** ** An object with the values of a line *)

Lemma get_assoc k (a : attrs) v : assoc k a = Some v -> get k a = v.
Proof. unfold get. now intros ->. Qed.
Lemma overlay_laid k n a : get k a = get k a -> match overlay k n a with Some v => v | None => VNone end = laid a k (get k n).
Proof.
  intros _. unfold overlay, laid, get. destruct (assoc k n) as [v|]; [|reflexivity]. destruct v; reflexivity.
Qed.
Lemma no_default T k : ~ In k (PyRound.dests T) -> tab_default (t_acts T) k = VNone.
Proof.
  intros H. assert (G : forall x, In x (t_acts T) -> d_dest (fst x) <> k) by (intros x Hx E; apply H, in_dests; eauto). revert G. clear H.
  induction (t_acts T) as [|x l IH]; intros G; [reflexivity|]. cbn [tab_default]. destruct (String.eqb_spec k (d_dest (fst x))) as [->|]; [destruct (G x); [now left|reflexivity]|].
  apply IH. intros y Hy. apply G. now right.
Qed.
Lemma inked_solid s : all_chars inked s = true -> solid_text s.
Proof. intros H. destruct (String.eqb_spec s "") as [->|N]; [now left|]. right. now apply all_last. Qed.
Lemma all_map p q f s : (forall c, implb (p c) (q (f c)) = true) -> all_chars p s = true ->
  all_chars q ((fix g (s : string) := match s with EmptyString => EmptyString | String c r => String (f c) (g r) end) s) = true.
Proof.
  intros H. induction s as [|c s IH]; [reflexivity|]. cbn [all_chars]. intros K. apply andb_prop in K as [K1 K2]. specialize (H c). rewrite K1 in H. cbn in H.
  rewrite H. cbn [andb]. now apply IH.
Qed.
Lemma plain_inked s : all_chars plain_char s = true -> all_chars inked s = true.
Proof.
  assert (I : forall c, implb (plain_char c) (inked c) = true) by (apply forall_ascii; vm_compute; reflexivity).
  induction s as [|c s IH]; [reflexivity|]. cbn [all_chars]. intros K. apply andb_prop in K as [K1 K2]. specialize (I c). rewrite K1 in I. cbn in I. rewrite I. now apply IH.
Qed.
Lemma lower_inked s : all_chars inked s = true -> all_chars inked (lower s) = true.
Proof.
  assert (I : forall c, implb (inked c) (inked (lower_char c)) = true) by (apply forall_ascii; vm_compute; reflexivity).
  induction s as [|c s IH]; [reflexivity|]. cbn [all_chars lower]. intros K. apply andb_prop in K as [K1 K2]. specialize (I c). rewrite K1 in I. cbn in I. rewrite I. now apply IH.
Qed.
Lemma upper_inked s : all_chars inked s = true -> all_chars inked (upper s) = true.
Proof.
  assert (I : forall c, implb (inked c) (inked (upper_char c)) = true) by (apply forall_ascii; vm_compute; reflexivity).
  induction s as [|c s IH]; [reflexivity|]. cbn [all_chars upper]. intros K. apply andb_prop in K as [K1 K2]. specialize (I c). rewrite K1 in I. cbn in I. rewrite I. now apply IH.
Qed.
Lemma escape_inked c s : all_chars inked s = true -> all_chars inked (replace_char c (String BSLASH (String c EmptyString)) s) = true.
Proof.
  induction s as [|d s IH]; [reflexivity|]. cbn [all_chars replace_char]. intros K. apply andb_prop in K as [K1 K2]. destruct (Ascii.eqb c d) eqn:E.
  - apply eqb_true_a in E. subst d. cbn [append all_chars]. rewrite K1. now apply IH.
  - cbn [all_chars]. rewrite K1. now apply IH.
Qed.
Definition calm_value (v : value) : Prop :=
  match v with
  | VStr s => all_chars inked s = true
  | VInt z => all_chars inked (str_of_Z z) = true
  | VStrs l => l = [] \/ forallb plain_text l = true
  | _ => True
  end.
Lemma calm_text m v s : calm_value v -> mode_text m v = Some s -> solid_text s.
Proof.
  intros C E. apply inked_solid. destruct m, v as [|[]|z|x|l|p|p]; cbn in E, C; try discriminate; injection E as <-; try reflexivity; try exact C.
  - now apply lower_inked.
  - now apply upper_inked.
  - now apply escape_inked.
Qed.
Lemma calm_joined sep l : calm_value (VStrs l) -> solid_text (join sep l).
Proof.
  intros [->|H]; [now left|]. destruct l as [|x l]; [now left|]. right. revert x H. induction l as [|y l IH]; intros x H; cbn [forallb] in H; apply andb_prop in H as [H1 H2].
  - cbn [join]. apply all_last; [now apply plain_nonempty|]. apply plain_inked. now apply plain_chars.
  - specialize (IH y H2). change (join sep (x :: y :: l)) with (x ++ sep ++ join sep (y :: l))%string. apply last_app, last_app, IH.
Qed.
Lemma gam_calm u v : calm_aval u = true -> gam u v = true -> calm_value v.
Proof.
  intros C G. destruct u as [w|ty|ex| |]; [| | | |discriminate]; cbn [calm_aval] in C.
  - apply gam_const in G. subst w. destruct v as [|b|z|s|l|p|p]; cbn; auto.
    + now apply plain_inked, plain_chars.
    + apply orb_prop in C as [C|C]; [apply String.eqb_eq in C; now subst|now apply plain_inked, plain_chars].
    + destruct l; [now left|discriminate].
  - destruct v; try discriminate. cbn [gam] in G. apply andb_prop in G as [G _]. now apply plain_inked, plain_chars.
  - destruct v; try discriminate. cbn [gam] in G. apply andb_prop in G as [G _]. apply Z.ltb_lt in G. now apply plain_inked, plain_chars, pos_text.
  - destruct v as [| | | |[|x l]| |]; try discriminate. right. cbn [gam] in G. rewrite forallb_forall in *. intros y Hy. apply G in Hy. unfold plain_item_text in Hy. now apply andb_prop in Hy as [Hy _].
Qed.

Section Object.
Variables (ops : list tableop) (init : attrs) (rewritten : list string) (onself : bool) (W : list string).
Let T := tabulate ops.
Hypothesis table : check_table T init rewritten W ops = true.
(** The values of the line, and the attributes of the object. *)
Variables n a : attrs.
Definition ns_ok (n : attrs) : Prop := forall k,
  (In k (PyRound.dests T) -> exists v, assoc k n = Some v /\
     (v = tab_default (t_acts T) k \/ exists d, In d (all_decls T) /\ d_dest d = k /\ produces d v)) /\
  (~ In k (PyRound.dests T) -> assoc k n = None).
Hypothesis ns : ns_ok n.
Hypothesis here : forall k, mem k W = false -> mem k stamped = false -> assoc k a = overlay k n init.
Hypothesis same : forall k, In k rewritten -> In k (PyRound.dests T) -> get k a = laid init k (get k n).
Hypothesis seen : onself = true -> mem "seen" W = false -> assoc "seen" a = Some (VBool true).
Hypothesis fit : forall k, In k (PyRound.dests T) -> (must T k = false /\ get k a = start_value T init k) \/ tidy_b (get k a) = true.
Hypothesis drops : forall d p s, In d (all_decls T) -> d_type d = TDrop p -> get (d_dest d) a = VStr s -> startswith s p = false.

Lemma table_parts : table_plain ops = true /\ simple_table T = true /\ forallb (check_decl T init) (all_decls T) = true /\ forallb (check_dest_of T init rewritten W) (PyRound.dests T) = true.
Proof. unfold check_table in table. apply andb_prop in table as [H H4]. apply andb_prop in H as [H H3]. apply andb_prop in H as [H1 H2]. auto. Qed.
Lemma dest_parts k : In k (PyRound.dests T) -> (must T k = true -> tidy_b (start_value T init k) = false) /\ (mem k W = true -> In k rewritten) /\ mem k stamped = false.
Proof.
  intros Hk. destruct table_parts as (_ & _ & _ & H). rewrite forallb_forall in H. apply H in Hk. unfold check_dest_of in Hk.
  apply andb_prop in Hk as [Hk H3]. apply andb_prop in Hk as [H1 H2]. apply negb_true_iff in H1, H3. split; [|split].
  - intros M. rewrite M in H1. exact H1.
  - intros M. rewrite M in H2. now apply mem_In.
  - exact H3.
Qed.
Lemma decl_parts d : In d (all_decls T) -> simple_decl d = true /\ forallb (covered (avals T init (d_dest d))) (of_decl d) = true /\
  match d_kind d, d_const d with KStoreConst, VNone => false | _, _ => true end = true.
Proof.
  intros Hd. destruct table_parts as (_ & S & H & _). rewrite forallb_forall in H. split.
  - unfold simple_table in S. apply andb_prop in S as [S1 S2]. unfold all_decls in Hd. apply in_app_or in Hd as [Hd|Hd]; apply in_map_iff in Hd as (x & <- & Hx).
    + rewrite forallb_forall in S1. now apply S1.
    + rewrite forallb_forall in S2. now apply (S2 x).
  - apply H in Hd. unfold check_decl in Hd. apply andb_prop in Hd as [Hd H3]. apply andb_prop in Hd as [H1 H2]. auto.
Qed.
Lemma dest_laid k : In k (PyRound.dests T) -> get k a = laid init k (get k n).
Proof.
  intros Hk. destruct (dest_parts k Hk) as (_ & H2 & H3). destruct (mem k W) eqn:M; [apply same; auto|].
  unfold get at 1. rewrite (here k M H3). now apply overlay_laid.
Qed.
Lemma obj_typed : typed a T init.
Proof.
  intros k Hk. destruct (dest_parts k Hk) as (H1 & _ & _). pose proof (dest_laid k Hk) as L. destruct (proj1 (ns k) Hk) as (v & E & R).
  assert (G : get k n = v) by now apply get_assoc. rewrite G in L. destruct (fit k Hk) as [[M S]|Td].
  { exists (AConst (start_value T init k)). split; [now apply start_aval|]. now apply gam_const. }
  destruct R as [->|(d & Hd & Ed & P)].
  - destruct (must T k) eqn:M; [unfold start_value in *; rewrite L in Td; rewrite H1 in Td by reflexivity; discriminate|].
    exists (AConst (start_value T init k)). split; [now apply start_aval|]. apply gam_const. now symmetry.
  - destruct (decl_parts d Hd) as (S & C & N0). assert (Nv : v <> VNone) by (eapply produces_some; eauto).
    assert (L' : get k a = v) by (rewrite L; destruct v; [contradiction|reflexivity..]). rewrite L' in *.
    destruct (produces_of d v S P Td) as (u & Hu & Gu); [intros p s Et ->; apply (drops d p s Hd Et); now rewrite Ed|]. rewrite forallb_forall in C. apply C in Hu. rewrite <- Ed. eapply covered_ok; eauto.
Qed.
Lemma obj_gone k : In k (PyRound.dests T) -> has_key k init = false -> mem k W = false -> get k a = VNone -> has_key k a = false.
Proof.
  intros Hk I M N. destruct (dest_parts k Hk) as (_ & _ & H3).
  pose proof (here k M H3) as H. unfold overlay in H. unfold get in N. unfold has_key in *. rewrite H in *. destruct (assoc k n) as [v|]; [destruct v; cbn [is_none] in *; try discriminate|]; destruct (assoc k init); auto; discriminate.
Qed.
Lemma present_ok k b : present T init W k = Some b -> has_key k a = b.
Proof.
  unfold present. destruct (mem k W) eqn:M; [discriminate|]. destruct (mem k stamped) eqn:S; [discriminate|]. cbn [orb].
  pose proof (here k M S) as H. destruct (mem k (PyRound.dests T)) eqn:D.
  - apply mem_In in D. destruct (has_key k init) eqn:I; [|discriminate]. cbn. intros E. injection E as <-.
    unfold has_key in *. rewrite H. unfold overlay. destruct (assoc k n) as [v|]; [destruct (is_none v)|]; try reflexivity; destruct (assoc k init); auto.
  - cbn. intros E. injection E as <-. unfold has_key. rewrite H. unfold overlay. rewrite (proj2 (ns k)); [reflexivity|]. intros X. apply mem_In in X. congruence.
Qed.
Lemma constants_ok k v : assoc k (constants T init onself W) = Some v -> assoc k a = Some v.
Proof.
  intros E. apply assoc_In in E. unfold constants in E. apply in_app_or in E as [E|E].
  - destruct onself eqn:O; [|contradiction]. destruct (mem "seen" W) eqn:M; [contradiction|]. destruct E as [E|[]]. injection E as <- <-. auto.
  - unfold consts in E. apply in_flat_map in E as ([j w] & Hj & E). cbn [fst] in E. destruct (mem j W) eqn:M; [contradiction|]. destruct (mem j stamped) eqn:S; [contradiction|].
    cbn [orb] in E. destruct (avals T init j) as [|[u|?| | |] [|? ?]] eqn:A; try contradiction. destruct E as [E|[]]. injection E as -> ->.
    pose proof (here k M S) as H. assert (I : has_key k init = true).
    { unfold has_key. destruct (assoc k init) eqn:X; [reflexivity|]. exfalso. apply assoc_none in X. apply X. apply in_map_iff. exists (k, w). auto. }
    assert (Ha : has_key k a = true).
    { unfold has_key in *. rewrite H. unfold overlay. destruct (assoc k n) as [x|]; [destruct (is_none x)|]; auto. }
    unfold has_key in Ha. destruct (assoc k a) as [x|] eqn:Ex; [|discriminate]. f_equal. clear Ha. symmetry.
    destruct (in_dec string_dec k (PyRound.dests T)) as [D|D].
    + destruct (obj_typed k D) as (u & Hu & G). rewrite A in Hu. destruct Hu as [<-|[]]. apply gam_const in G. rewrite (get_assoc _ _ _ Ex) in G. exact G.
    + unfold overlay in H. rewrite (proj2 (ns k) D) in H.
      assert (Mu : must T k = false). { destruct (must T k) eqn:Mu; [|reflexivity]. exfalso. apply must_spec in Mu as (y & Hy & Ey & _). apply D, in_dests. eauto. }
      pose proof (start_aval T init k Mu) as St. rewrite A in St. destruct St as [St|[]]. injection St as ->.
      unfold start_value. rewrite (no_default T k D). cbn [laid]. now apply get_assoc.
Qed.
Lemma full_ok k v s : calm T init true k = true -> assoc k a = Some v -> mode_text MAny v = Some s -> last_ok inked s = true.
Proof.
  unfold calm. intros C E M. apply andb_prop in C as [C1 C2]. apply mem_In in C1. destruct (obj_typed k C1) as (u & Hu & G). rewrite forallb_forall in C2. apply C2 in Hu.
  rewrite (get_assoc _ _ _ E) in G. apply all_last; [|]; destruct u; try discriminate; destruct v; try discriminate; cbn in M; injection M as <-; cbn [gam] in G; apply andb_prop in G as [G _].
  - now apply plain_nonempty.
  - apply plain_nonempty. apply Z.ltb_lt in G. now apply pos_text.
  - now apply plain_inked, plain_chars.
  - apply Z.ltb_lt in G. now apply plain_inked, plain_chars, pos_text.
Qed.
Lemma calm_ok k v : calm T init false k = true -> assoc k a = Some v -> calm_value v.
Proof.
  unfold calm. intros C E. apply andb_prop in C as [C1 C2]. apply mem_In in C1. destruct (obj_typed k C1) as (u & Hu & G). rewrite forallb_forall in C2.
  rewrite (get_assoc _ _ _ E) in G. eapply gam_calm; eauto.
Qed.
End Object.

Lemma line_ns ops init rewritten W ln args n r : check_table (tabulate ops) init rewritten W ops = true ->
  parse_known_args (build ops) ln args = Ok (n, r) -> ns_ok ops n.
Proof.
  intros C E k. destruct (table_parts ops init rewritten W C) as (P & S & D & _). split.
  - intros Hk. apply in_dests in Hk as (x & Hx & <-). pose proof (table_has ops ln args n r x E Hx) as H. unfold has_key in H.
    destruct (assoc (d_dest (fst x)) n) as [v|] eqn:A; [|discriminate]. exists v. split; [reflexivity|]. eapply table_range; eauto.
  - intros Hk. destruct (assoc k n) as [v|] eqn:A; [|reflexivity]. exfalso. apply Hk. assert (H : has_key k n = true) by (unfold has_key; now rewrite A).
    revert k H Hk A. assert (G : forall k, has_key k n = true -> In k (PyRound.dests (tabulate ops))); [|intros k H _ _; now apply G].
    refine (parse_known_keys (fun k => In k (PyRound.dests (tabulate ops))) (fun n => forall k, has_key k n = true -> In k (PyRound.dests (tabulate ops))) _ _ _ _ _ _ _ _ E); [discriminate| |].
    { intros d w n0 Hd H k Hk. rewrite has_key_put in Hk. apply orb_true_iff in Hk as [Hk|Hk]; [|auto]. apply String.eqb_eq in Hk. now subst. }
    intros x Hx. unfold all_actions in Hx. rewrite build_tabulate in Hx. cbn [real p_actions p_optmap] in Hx. rewrite forallb_forall in D.
    assert (Q : forall d, In d (all_decls (tabulate ops)) -> In (d_dest d) (PyRound.dests (tabulate ops))).
    { intros d Hd. apply D in Hd. unfold check_decl in Hd. apply andb_prop in Hd as [Hd _]. apply andb_prop in Hd as [_ Hd]. now apply mem_In. }
    apply in_app_or in Hx as [Hx|Hx].
    + apply in_map_iff in Hx as (y & <- & Hy). apply (Q (fst y)). unfold all_decls. apply in_or_app. left. now apply in_map.
    + rewrite map_map in Hx. apply in_map_iff in Hx as (y & <- & Hy). apply (Q (fst (snd y))). unfold all_decls. apply in_or_app. right. apply (in_map (fun kx => fst (snd kx))). exact Hy.
Qed.
Lemma closed_table ops init rewritten W : check_table (tabulate ops) init rewritten W ops = true ->
  forall d, In d (all_decls (tabulate ops)) -> In (d_dest d) (PyRound.dests (tabulate ops)).
Proof.
  intros C d Hd. destruct (table_parts ops init rewritten W C) as (_ & _ & D & _). rewrite forallb_forall in D. apply D in Hd. unfold check_decl in Hd.
  apply andb_prop in Hd as [Hd _]. apply andb_prop in Hd as [_ Hd]. now apply mem_In.
Qed.
(** The same with an argument in the line. *)
Lemma low_ns ops init rewritten W ln args n r : check_word ops = true -> check_table (tabulate (optioned ops)) init rewritten W (optioned ops) = true ->
  parse_known_args (build ops) ln args = Ok (n, r) -> ns_ok (optioned ops) (lowered (word_pair ops) n).
Proof.
  intros Cw C E. destruct (the_word ops) as [[d i]|] eqn:N.
  - intros k. destruct (table_parts _ init rewritten W C) as (_ & S & _). exact (word_values ops d i N Cw S (closed_table _ init rewritten W C) ln args n r E k).
  - destruct (optioned_none ops N) as (Eo & _ & ->). rewrite Eo in *. eapply line_ns; eauto.
Qed.
Lemma none_ns ops : t_acts (tabulate ops) = [] -> ns_ok ops [].
Proof.
  intros E k. split; [|reflexivity]. intros Hk. apply in_dests in Hk as (x & Hx & _). rewrite E in Hx. contradiction.
Qed.

(** ** Facts *)

Lemma to_self_ok c s e x p0 a : eval c s e (EVar x) = Ok p0 -> (forall k, find_attr s p0 k = assoc k a) ->
  forall y z, to_self x y = Some z -> eval c s e y = eval no_ctx a [] z.
Proof.
  intros Ex Hf. induction y as [v|y| |y IH k|y IH k d IHd|y IH k|o y IH|o y IHy z IHz|y IHy z IHz|y IHy z IHz|m|m|m|y IH|k|y IHy z IHz|]; intros w; cbn [to_self]; try discriminate.
  - intros H. injection H as <-. reflexivity.
  - destruct y as [|x0| | | | | | | | | | | | | | |]; try discriminate. destruct (String.eqb_spec x0 x) as [->|]; [|discriminate]. intros H. injection H as <-.
    unfold own. rewrite eval_self_attr. change (eval c s e (EAttr (EVar x) k)) with (do p <- eval c s e (EVar x) ;; match find_attr s p k with Some v => Ok (PV v) | None => Err AttributeError end).
    rewrite Ex. cbn [bind]. rewrite Hf. reflexivity.
  - destruct (to_self x y) as [y'|]; [|discriminate]. intros H. injection H as <-. cbn [eval]. rewrite (IH y' eq_refl). reflexivity.
  - destruct (to_self x y) as [y'|]; [|discriminate]. destruct (to_self x z) as [z'|]; [|discriminate]. intros H. injection H as <-. cbn [eval]. rewrite (IHy y' eq_refl), (IHz z' eq_refl). reflexivity.
  - destruct (to_self x y) as [y'|]; [|discriminate]. destruct (to_self x z) as [z'|]; [|discriminate]. intros H. injection H as <-. cbn [eval]. rewrite (IHy y' eq_refl), (IHz z' eq_refl). reflexivity.
  - destruct (to_self x y) as [y'|]; [|discriminate]. destruct (to_self x z) as [z'|]; [|discriminate]. intros H. injection H as <-. cbn [eval]. rewrite (IHy y' eq_refl), (IHz z' eq_refl). reflexivity.
Qed.
Lemma facts_about_ok c s e x p0 a F : eval c s e (EVar x) = Ok p0 -> (forall k, find_attr s p0 k = assoc k a) ->
  all_hold c s e F -> facts_ok a (facts_about x F).
Proof.
  intros Ex Hf H f Hin. unfold facts_about in Hin. apply in_flat_map in Hin as (g & Hg & Hin). destruct (to_self x (fst g)) as [y|] eqn:Ey; [|contradiction].
  destruct Hin as [<-|[]]. cbn [fst snd]. destruct (H g Hg) as (p & Ep & Tp). unfold ask. rewrite <- (to_self_ok c s e x p0 a Ex Hf _ _ Ey), Ep. now rewrite Tp.
Qed.
Lemma parse_facts_ok rest c F v a l args a' d' r : parse_facts c = Some F ->
  cl_parse (class_model (cmd_class rest) c) v a l args = (a', d', Ok r) ->
  exists e p, all_hold (parse_ctx c v l args) a' e F /\ assoc "_r" e = Some p /\ r = match p with PObj d => Some d | _ => None end.
Proof.
  unfold parse_facts. intros G P. destruct (own_parse c) eqn:O; [|discriminate]. destruct (parse_code c) as [s|] eqn:E; [|discriminate].
  rewrite (class_parse rest c s E O) in P. unfold cmd_parse, run in P. cbv zeta in G.
  pose proof (check_sound (parse_ctx c v l args) s [] [] a (all_nil _ _ _)) as K. unfold checked in K.
  destruct (en_next (check [] s)) as [F0|]; [|discriminate]. destruct (en_break (check [] s)); [discriminate|]. destruct (en_return (check [] s)); [discriminate|]. injection G as ->.
  destruct (exec (parse_ctx c v l args) s [] a) as [e1 s1|e1 s1|p s1|x1 s1]; cbn [bind] in P; try discriminate.
  - destruct (assoc "_r" e1) as [p|] eqn:A; cbn [bind] in P; [|discriminate]. injection P as <- <- <-. exists e1, p. auto.
  - destruct K.
Qed.

(** ** Needs *)

Lemma ask_own a k : ask a (own k) = match assoc k a with Some v => Some (truthy v) | None => None end.
Proof. unfold ask, own. rewrite eval_self_attr. destruct (assoc k a); reflexivity. Qed.

Lemma need_ask a n : (forall k, In k (need_attrs n) -> has_key k a = true) -> met a n -> ask a (need_expr n) = Some true.
Proof.
  intros H M. assert (G : forall k, In k (need_attrs n) -> ask a (own k) = Some (truthy (get k a))).
  { intros k Hk. rewrite ask_own. specialize (H k Hk). unfold has_key in H. unfold get. destruct (assoc k a); [reflexivity|discriminate]. }
  clear H. unfold ask in *. destruct n as [k|k|k j|]; cbn [need_expr need_attrs met eval] in *; [| | |contradiction].
  - rewrite (G k (or_introl eq_refl)). now rewrite M.
  - specialize (G k (or_introl eq_refl)). destruct (eval no_ctx a [] (own k)) as [p|]; [|discriminate]. injection G as G. cbn [bind p_truthy truthy]. rewrite G, M. reflexivity.
  - destruct M as [M1 M2]. pose proof (G k (or_introl eq_refl)) as G1. pose proof (G j (or_intror (or_introl eq_refl))) as G2.
    destruct (eval no_ctx a [] (own k)) as [p|]; [|discriminate]. injection G1 as G1. cbn [bind]. rewrite G1, M1. rewrite G2, M2. reflexivity.
Qed.

(** ** The first line *)

Lemma data_text_iff d m : method_of (d_class d) "__str__" [] = Some m ->
  data_str d = do p <- snd (run no_ctx m [] (d_attrs d)) ;; match p with PV (VStr t) => Ok t | _ => Err TypeError end.
Proof. unfold data_str. now intros ->. Qed.
Lemma data_text d m s : method_of (d_class d) "__str__" [] = Some m -> data_str d = Ok s ->
  (do p <- snd (run no_ctx m [] (d_attrs d)) ;; match p with PV (VStr t) => Ok t | _ => Err TypeError end) = Ok s.
Proof. unfold data_str. intros ->. auto. Qed.
Definition values_low (c : string) (args : list string) : attrs := lowered (word_pair (table_of c)) (values_or_none c args).
Local Opaque comes_from method_of table_of removed_of data_str new_attrs init_of word_flow.
Lemma first_run rest c vw a0 l args a' d' r rewritten init onself kind W : mode_of c = Some (onself, kind, W) -> check_word (table_of c) = true ->
  check_table (tabulate (optioned (table_of c))) init rewritten W (optioned (table_of c)) = true ->
  cl_parse (class_model (cmd_class rest) c) vw a0 l args = (a', d', Ok r) ->
  d' = l /\ ns_ok (optioned (table_of c)) (values_low c args) /\
  (onself = true -> r = None /\ forall k, mem k W = false -> assoc k a' = overlay k (values_low c args) a0) /\
  (onself = false -> exists d, r = Some d /\ assoc kind (v_data vw) = Some (d_class d) /\
     forall k, mem k W = false -> assoc k (d_attrs d) = overlay k (values_low c args) (init_of (d_class d))) /\
  (line_values c args = None -> t_acts (tabulate (table_of c)) = []).
Proof.
  unfold mode_of. intros M Cw C P. destruct (word_flow (word_pair (table_of c)) c) as [[[h o] o']|] eqn:E; [|discriminate].
  assert (NS : PyFlowFacts.good (parse_ctx c vw l args) (values_or_none c args) -> line_values c args = Some (values_or_none c args) /\ ns_ok (optioned (table_of c)) (values_low c args)).
  { intros G. apply good_values in G. split; [exact G|]. unfold line_values in G. destruct (parse_known_args _ _ _) as [[m q]|] eqn:Q; [|discriminate]. injection G as G. unfold values_low. rewrite <- G. eapply low_ns; eauto. }
  destruct (word_ends rest c vw a0 a' l d' args _ _ _ _ _ (pair_short (table_of c)) E P) as (-> & p & -> & R1 & R2). fold (values_low c args) in R1, R2.
  destruct h as [| | | |k V]; try discriminate.
  - cbn [sat_h] in R1. subst p. destruct o as [V|V|]; try discriminate.
    + destruct (t_acts (tabulate (table_of c))) eqn:TA; [|discriminate]. injection M as <- <- <-. cbn [sat_o] in R2.
      assert (Nw : the_word (table_of c) = None) by (unfold the_word; now rewrite TA). destruct (optioned_none _ Nw) as (Eo & _ & Ep).
      assert (N : ns_ok (optioned (table_of c)) (values_low c args)).
      { unfold values_low, values_or_none. destruct (line_values c args) as [n|] eqn:L; [|rewrite Ep, Eo; now apply none_ns].
        unfold line_values in L. destruct (parse_known_args _ _ _) as [[m q]|] eqn:Q; [|discriminate]. injection L as <-. eapply low_ns; eauto. }
      split; [reflexivity|]. split; [exact N|]. split; [|split; [discriminate|auto]]. intros _. split; [reflexivity|]. intros k Hk. rewrite (R2 k Hk). unfold overlay.
      rewrite (proj2 (N k)); [reflexivity|]. rewrite Eo. intros D. apply in_dests in D as (x & Hx & _). rewrite TA in Hx. contradiction.
    + injection M as <- <- <-. destruct R2 as [G R2]. destruct (NS G) as [L N].
      split; [reflexivity|]. split; [exact N|]. split; [auto|split; [discriminate|congruence]].
  - destruct o as [[]| |]; try discriminate. destruct o' as [[]| |]; try discriminate. injection M as <- <- <-.
    destruct R1 as (G & d & -> & Dc & R1). destruct (NS G) as [L N].
    split; [reflexivity|]. split; [exact N|]. split; [discriminate|split; [|congruence]]. intros _. exists d. auto.
Qed.

(** ** __str__ *)

Lemma run_body c s b a : body_of s = Some b -> exists x, snd (run c s [] a) = match exec c b [] a with
  | OReturn p _ => Ok p | ONext _ _ => x | OBreak _ _ => x | ORaise e _ => Err e end /\ match x with Ok (PV (VStr _)) => False | _ => True end.
Proof.
  unfold body_of. destruct s as [| | | | | | | | | | | | | | | | | | | | |x ps s]; try discriminate. destruct ps; [|discriminate]. destruct (String.eqb_spec x "_r") as [->|]; [|discriminate]. intros E. injection E as ->.
  unfold run. cbn [exec]. replace (bind_params c a [] []) with (Ok ([] : env)) by reflexivity. assert (Z : forall p : pval, assoc "_r" (put "_r" p []) = Some p) by (intros; apply assoc_put_eq). destruct (exec c b [] a) as [e1 s1|e1 s1|p s1|y s1]; try rewrite Z; cbn [snd].
  - exists (Ok (PV VNone)). auto.
  - exists (Ok (PV VNone)). auto.
  - exists (Err TypeError). auto.
  - exists (Err TypeError). auto.
Qed.

Lemma pieces_text x r : forall F pre t, facts_ok x F -> rope_text x (pre ++ r) = Some t ->
  exists F' r', In (F', r') (pieces F pre r) /\ facts_ok x F' /\ rope_text x r' = Some t.
Proof.
  induction r as [|b r IH]; intros F pre t HF E.
  - rewrite app_nil_r in E. exists F, pre. cbn. auto.
  - assert (G : rope_text x ((pre ++ [b]) ++ r) = Some t) by (now rewrite <- app_assoc).
    destruct b as [s|m k|sep k|g p q]; try (apply (IH F _ t HF G)). cbn [pieces].
    destruct (match pre, g with [], _ => true | _, EBin BIn _ _ => true | _, _ => false end); [|apply (IH F _ t HF G)].
    apply rope_app_inv in E as (u & w & E1 & E2 & ->). apply rope_cons_inv in E2 as (u1 & u2 & E2 & E3 & ->). rewrite bit_text_if in E2.
    destruct (ask x g) as [[]|] eqn:A; [| |discriminate].
    + destruct (IH ((g, true) :: F) (pre ++ p) (u ++ u1 ++ u2)%string) as (F' & r' & I & O); [now apply facts_cons| |].
      * rewrite <- app_assoc. apply rope_app; [exact E1|]. now apply rope_app.
      * exists F', r'. split; [apply in_or_app; now left|exact O].
    + destruct (IH ((g, false) :: F) (pre ++ q) (u ++ u1 ++ u2)%string) as (F' & r' & I & O); [now apply facts_cons| |].
      * rewrite <- app_assoc. apply rope_app; [exact E1|]. now apply rope_app.
      * exists F', r'. split; [apply in_or_app; now right|exact O].
Qed.

(** The text, when it is not empty: a line whose words give the attributes back. *)
Lemma str_line (c : ctx) ops init rewritten needs onself W n x pos F name b p s' : check_table (tabulate ops) init rewritten W ops = true ->
  ns_ok ops n ->
  (forall k, mem k W = false -> mem k stamped = false -> assoc k x = overlay k n init) ->
  (forall k, In k rewritten -> In k (PyRound.dests (tabulate ops)) -> get k x = laid init k (get k n)) ->
  (onself = true -> mem "seen" W = false -> assoc "seen" x = Some (VBool true)) ->
  (forall k, In k (PyRound.dests (tabulate ops)) -> (must (tabulate ops) k = false /\ get k x = start_value (tabulate ops) init k) \/ tidy_b (get k x) = true) ->
  (forall k g, In (k, g) needs -> In k (PyRound.dests (tabulate ops)) -> (forall j, In j (need_attrs g) -> In j (PyRound.dests (tabulate ops))) ->
     must (tabulate ops) k = false -> ~ met x g -> get k x = start_value (tabulate ops) init k) ->
  (forall d p s, In d (all_decls (tabulate ops)) -> d_type d = TDrop p -> get (d_dest d) x = VStr s -> startswith s p = false) ->
  facts_ok x F -> check_str (tabulate ops) init needs onself W pos F name b = true ->
  exec c b [] x = OReturn p s' ->
  exists t, p = PV (VStr t) /\ (t = "" \/ exists com line ws, t = (com ++ line ++ NL)%string /\ remarks com /\ unbroken line = true /\
    shlex_split true line = Ok (name :: map (wordtext pos) ws) /\ reads_back x (tabulate ops) init pos ws).
Proof.
  intros C NS H1 H2 H3 H4 H5 H6 HF K Ex. set (T := tabulate ops) in *.
  pose proof (obj_typed ops init rewritten W C n x NS H1 H2 H4 H6) as Ty.
  pose proof (obj_gone ops init rewritten W C n x H1) as Gn.
  unfold check_str in K. destruct (sexec _ _ _ b F []) as [o|] eqn:Es; [|discriminate]. destruct (leaves o) as [L|] eqn:El; [|discriminate].
  assert (Fi : fits x o (exec c b [] x)).
  { apply (sexec_sound c x (constants T init onself W) (present T init W) (calm T init)) with (F := F) (se := []); auto.
    - intros k v. now apply (constants_ok ops init rewritten onself W C n x).
    - intros k v. now apply (present_ok ops init W n x).
    - intros m k v s Hk Hv. apply calm_text. now apply (calm_ok ops init rewritten W C n x NS H1 H2 H4 H6 k).
    - intros sep k l Hk Hv. apply calm_joined. now apply (calm_ok ops init rewritten W C n x NS H1 H2 H4 H6 k).
    - intros k v s. apply (full_ok ops init rewritten W C n x NS H1 H2 H4 H6).
    - apply sim_nil. }
  rewrite Ex in Fi. cbn [fits] in Fi. destruct (leaves_sound x o L _ p s' Fi eq_refl El) as (t & -> & [->|(F0 & r0 & Hin & HF0 & Rt0)]); [exists ""; auto|].
  destruct (pieces_text x r0 F0 [] t HF0 Rt0) as (F' & r & Hp & HF' & Rt).
  exists t. split; [reflexivity|]. right. rewrite forallb_forall in K. specialize (K (F', r)). cbn [fst snd] in K.
  specialize (K (proj2 (in_flat_map _ _ _) (ex_intro _ (F0, r0) (conj Hin Hp)))).
  assert (N0 : needs_ok x T init (need_list T init needs W)).
  { intros k g Hg Hk Mk A. unfold need_list in Hg. apply in_flat_map in Hg as ([j nd] & Hj & Hg). cbn [fst snd] in Hg.
    destruct (forallb _ (need_attrs nd)) eqn:Fa; [|contradiction]. destruct Hg as [E|[]]. injection E as -> <-. rewrite forallb_forall in Fa.
    assert (Fb : forall j, In j (need_attrs nd) -> In j (PyRound.dests T) /\ has_key j x = true).
    { intros j Hin'. apply Fa, andb_prop in Hin' as [Q1 Q2]. split; [now apply mem_In|]. destruct (present T init W j) as [[]|] eqn:Pj; try discriminate. now apply (present_ok ops init W n x NS H1). }
    apply (H5 k nd); auto.
    - intros i Hi. now apply Fb.
    - intros M. apply A. apply need_ask; [|exact M]. intros i Hi. now apply Fb. }
  destruct (check_leaf_sound x T init F' (need_list T init needs W) pos W Ty N0 HF' Gn [name] r t K Rt) as (m & com & line & ws & [<-|[]] & E1 & E2 & E3 & E4 & E5).
  exists com, line, ws. auto.
Qed.

(** ** The second line *)

Lemma second_line ops init rewritten W n n2 x ws : check_table (tabulate ops) init rewritten W ops = true -> ns_ok ops n -> ns_ok ops n2 ->
  (forall k, In k (PyRound.dests (tabulate ops)) -> get k x = laid init k (get k n)) ->
  (forall k, In k (PyRound.dests (tabulate ops)) -> laid init k (reread (tabulate ops) ws k) = get k x) ->
  (forall k, get k n2 = reread (tabulate ops) ws k) ->
  forall k, differ n n2 k -> In k (PyRound.dests (tabulate ops)) /\ exists i b, assoc k init = Some i /\ assoc k (ambiguous (tabulate ops) init) = Some b /\ truthy i = negb b /\
      ((assoc k n = Some VNone /\ assoc k n2 = Some i) \/ (assoc k n = Some i /\ assoc k n2 = Some VNone)).
Proof.
  intros C NS NS2 L R3 G2. set (T := tabulate ops) in *.
    intros k D. unfold differ in D. destruct (in_dec string_dec k (PyRound.dests T)) as [Hk|Hk]; [|destruct D; rewrite (proj2 (NS k) Hk), (proj2 (NS2 k) Hk); reflexivity].
    split; [exact Hk|]. destruct (proj1 (NS k) Hk) as (v & Ev & Rv). destruct (proj1 (NS2 k) Hk) as (w & Ew & Rw). rewrite Ev, Ew in *.
    assert (Hlaid : laid init k v = laid init k w).
    { rewrite <- (get_assoc _ _ _ Ev), <- L by exact Hk. rewrite <- (R3 k Hk). rewrite <- (G2 k). now rewrite (get_assoc _ _ _ Ew). }
    assert (Dn : forall u, (u = tab_default (t_acts T) k \/ (exists d, In d (all_decls T) /\ d_dest d = k /\ produces d u)) -> u = VNone -> tab_default (t_acts T) k = VNone).
    { intros u [->|(d & Hd & _ & Pd)] E; [exact E|]. exfalso. apply (produces_some d u); auto. now apply (decl_parts ops init rewritten W C). }
    assert (Am : tab_default (t_acts T) k = VNone -> get k init <> VNone -> assoc k (ambiguous T init) = Some (negb (truthy (get k init)))).
    { intros Td Gi. unfold ambiguous. clear -Td Gi Hk. revert Hk. induction (PyRound.dests T) as [|j l IH]; [contradiction|]. intros Hk. cbn [flat_map].
      destruct (string_dec j k) as [->|Ne].
      - rewrite Td. destruct (get k init); try contradiction; cbn [app assoc]; rewrite eqb_refl_s; reflexivity.
      - destruct Hk as [->|Hk]; [contradiction|]. specialize (IH Hk).
        destruct (get j init); try exact IH; destruct (tab_default (t_acts T) j); try exact IH; cbn [app assoc]; (destruct (String.eqb_spec k j); [congruence|exact IH]). }
    assert (In_ : get k init <> VNone -> assoc k init = Some (get k init)) by (unfold get; destruct (assoc k init); [reflexivity|contradiction]).
    assert (Cases : (v = VNone /\ w <> VNone /\ w = get k init) \/ (w = VNone /\ v <> VNone /\ v = get k init)).
    { destruct (value_eq_dec v VNone) as [->|Nv]; destruct (value_eq_dec w VNone) as [->|Nw].
      - congruence.
      - left. split; [reflexivity|]. split; [exact Nw|]. destruct w; [contradiction|now symmetry..].
      - right. split; [reflexivity|]. split; [exact Nv|]. destruct v; [contradiction|exact Hlaid..].
      - destruct D. f_equal. destruct v; [contradiction|..]; (destruct w; [contradiction|exact Hlaid..]). }
    destruct Cases as [(-> & Nw & Gw)|(-> & Nv & Gv)].
    + assert (Gi : get k init <> VNone) by congruence. exists (get k init), (negb (truthy (get k init))). rewrite negb_involutive.
      split; [auto|]. split; [apply Am; [apply (Dn VNone Rv eq_refl)|exact Gi]|]. split; [reflexivity|]. left. split; [reflexivity|]. now rewrite Gw.
    + assert (Gi : get k init <> VNone) by congruence. exists (get k init), (negb (truthy (get k init))). rewrite negb_involutive.
      split; [auto|]. split; [apply Am; [apply (Dn VNone Rw eq_refl)|exact Gi]|]. split; [reflexivity|]. right. split; [now rewrite Gv|reflexivity].
Qed.

(** ** Both *)

Lemma class_model_str other c : cl_str (class_model other c) =
  from_base c "__str__" (fun _ _ => "") (fun _ _ => "") (fun _ _ => "") (cl_str (other c)).
Proof. reflexivity. Qed.
Lemma cmd_class_str rest c s t : parse_code c = Some s -> method_of c "__str__" [] = Some t ->
  cl_str (cmd_class rest c) = fun a l => match cmd_str c t a l with Ok x => x | Err _ => "" end.
Proof.
  unfold parse_code, cmd_class. generalize (method_of c "__init__" []) (method_of c "parse" []) (method_of c "__str__" []).
  intros [i|] [p|] [u|] E E2; try discriminate. injection E2 as ->. reflexivity.
Qed.
Lemma class_str rest c s t a l : parse_code c = Some s -> based (comes_from c "__str__") = false -> method_of c "__str__" [] = Some t ->
  cl_str (class_model (cmd_class rest) c) a l = match cmd_str c t a l with Ok x => x | Err _ => "" end.
Proof.
  intros E O M. rewrite class_model_str, (from_base_not c "__str__" _ _ _ _ O), (cmd_class_str rest c s t E M). reflexivity.
Qed.
Lemma str_returns c t b x s : method_of t "__str__" [] = Some b -> forall d, body_of b = Some d ->
  (do p <- snd (run c b [] x) ;; match p with PV (VStr t) => Ok t | _ => Err TypeError end) = Ok s ->
  exists s', exec c d [] x = OReturn (PV (VStr s)) s'.
Proof.
  intros _ d B H. destruct (run_body c b d x B) as (y & E & N). rewrite E in H. destruct (exec c d [] x) as [e1 s1|e1 s1|p s1|z s1].
  - destruct y as [[[]| | |]|]; try discriminate; contradiction.
  - destruct y as [[[]| | |]|]; try discriminate; contradiction.
  - cbn [bind] in H. destruct p as [[]| | |]; try discriminate. injection H as ->. eauto.
  - discriminate.
Qed.
Lemma check_round_parts c t name : check_round c t name = true -> exists onself kind W s b m F,
  mode_of c = Some (onself, kind, W) /\ parse_code c = Some s /\ method_of t "__str__" [] = Some m /\ body_of m = Some b /\ parse_facts c = Some F /\
  (onself = true -> c = t /\ based (comes_from c "__str__") = false) /\
  check_table (tabulate (optioned (table_of c))) (init_of t) (listed name changed) W (optioned (table_of c)) = true /\
  check_parse (tabulate (optioned (table_of c))) (init_of t) onself kind (pair_keys (word_pair (table_of c))) s = true /\
  (forall l, In l (cases_of c) -> (forall k b0, In (k, b0) l -> present (tabulate (optioned (table_of c))) (init_of t) W k = Some true) /\
     check_str (tabulate (optioned (table_of c))) (init_of t) (written_if name c) onself W (word_name (table_of c)) (case_facts l ++ facts_about (if onself then "self" else "_r") F) name b = true) /\
  check_word (table_of c) = true /\ (forall x, the_word (table_of c) = Some x -> mem (word_attr (d_dest (fst x))) (listed name changed) = false).
Proof.
  unfold check_round, str_body. destruct (mode_of c) as [[[onself kind] W]|]; [|discriminate]. destruct (parse_code c) as [s|]; [|discriminate].
  destruct (method_of t "__str__" []) as [m|]; [|discriminate]. destruct (body_of m) as [b|] eqn:B; [|discriminate]. destruct (parse_facts c) as [F|]; [|discriminate]. cbv zeta.
  intros H. apply andb_prop in H as [H H4]. apply andb_prop in H as [H H3]. apply andb_prop in H as [H H2]. apply andb_prop in H as [H H1]. apply andb_prop in H as [H5 H6]. exists onself, kind, W, s, b, m, F. do 5 (split; [auto|]).
  split; [|do 2 (split; [assumption|]); split; [|split; [assumption|]; intros x Nx; rewrite Nx in H6; now apply negb_true_iff]].
  2:{ intros l Hl. rewrite forallb_forall in H4. apply H4, andb_prop in Hl as [Q1 Q2]. split; [|exact Q2]. rewrite forallb_forall in Q1. intros k b0 Hk. apply Q1 in Hk. cbn [fst] in Hk.
      destruct (present _ _ _ k) as [[]|]; [reflexivity|discriminate|discriminate]. }
  intros ->. apply andb_prop in H1 as [E1 E2]. apply String.eqb_eq in E1. apply negb_true_iff in E2. auto.
Qed.

(** What is recorded, and its text: the command itself, or a new object. *)
Definition recorded (k : cclass) (t : string) (a : attrs) (l : list data) (r : option data) (x : attrs) (s : string) : Prop :=
  match r with
  | None => x = a /\ s = cl_str k a l
  | Some d => d_class d = t /\ x = d_attrs d /\ data_str d = Ok s
  end.
Definition same_result (r r' : option data) : Prop :=
  match r, r' with
  | None, None => True
  | Some d, Some e => d_class d = d_class e /\ forall k, assoc k (d_attrs d) = assoc k (d_attrs e)
  | _, _ => False
  end.
(** The table of a class, with an option in the place of its argument. *)
Notation low c := (optioned (table_of c)).
Lemma options_low c : check_word (table_of c) = true -> table_plain (low c) = true -> options c = map fst (t_acts (tabulate (low c))).
Proof.
  intros Cw TP. unfold options. destruct (the_word (table_of c)) as [[d i]|] eqn:N.
  - destruct (word_parts (table_of c) d i N Cw) as (_ & _ & _ & -> & _). now rewrite map_map.
  - destruct (optioned_none _ N) as (-> & _). rewrite (proj1 (optioned_none _ N)) in TP. unfold table_plain in TP. apply andb_prop in TP as [TP _]. apply andb_prop in TP as [_ NP].
    unfold no_positionals in NP. rewrite forallb_forall in NP. apply map_ext_in. intros x Hx. apply as_option_other. apply NP in Hx. now apply negb_true_iff.
Qed.
Section Low.
Variables (c : string).
Hypothesis Cw : check_word (table_of c) = true.
Hypothesis TP : table_plain (low c) = true.
Lemma option_dest k : is_option c k <-> In k (PyRound.dests (tabulate (low c))).
Proof.
  unfold is_option. rewrite in_dests, (options_low c Cw TP). split.
  - intros (d & Hd & E). apply in_map_iff in Hd as (x & <- & Hx). eauto.
  - intros (x & Hx & E). exists (fst x). split; [now apply in_map|exact E].
Qed.
Lemma required_must k : ~ is_required c k <-> must (tabulate (low c)) k = false.
Proof.
  rewrite <- not_true_iff_false, must_spec. unfold is_required. rewrite (options_low c Cw TP). split; intros H X; apply H.
  - destruct X as (x & Hx & E & R). exists (fst x). split; [now apply in_map|auto].
  - destruct X as (d & Hd & E & R). apply in_map_iff in Hd as (x & <- & Hx). eauto.
Qed.
Lemma left_out_start t k : In k (PyRound.dests (tabulate (low c))) -> left_out c t k = start_value (tabulate (low c)) (init_of t) k.
Proof.
  intros Hk. unfold left_out, start_value, laid. assert (E : tab_default (t_acts (tabulate (low c))) k = tab_default (t_acts (tabulate (table_of c))) k).
  { destruct (the_word (table_of c)) as [[d i]|] eqn:N; [now apply (default_same (table_of c) d i N Cw)|]. now rewrite (proj1 (optioned_none _ N)). }
  rewrite E. destruct (tab_default (t_acts (tabulate (table_of c))) k); reflexivity.
Qed.
Lemma line_gives_laid t k args : In k (PyRound.dests (tabulate (low c))) -> (forall x, the_word (table_of c) = Some x -> k <> word_attr (d_dest (fst x))) ->
  line_gives c t k args = laid (init_of t) k (get k (values_low c args)).
Proof.
  intros Hk Nq. assert (E : get k (values_low c args) = get k (values_or_none c args)).
  { unfold values_low. destruct (the_word (table_of c)) as [[d i]|] eqn:N; [|now destruct (optioned_none _ N) as (_ & _ & ->)].
    specialize (Nq _ eq_refl). cbn [fst] in Nq. unfold get. rewrite (lowered_other (table_of c) d i N); [reflexivity| |exact Nq].
    destruct (proj1 (dests_word (table_of c) d i N Cw k) Hk) as [Hq|(x & Hx & Nx & <-)]; [contradiction|]. now destruct (act_apart (table_of c) d i N Cw x Hx Nx) as (_ & _ & X & _). }
  rewrite E. unfold line_gives, values_or_none, laid. destruct (line_values c args) as [q|]; [destruct (get k q)|]; reflexivity.
Qed.
Lemma declared_low d : In d (all_decls (tabulate (low c))) -> In d (declared_by c).
Proof.
  destruct (the_word (table_of c)) as [[e i]|] eqn:N; [now apply (decls_word (table_of c) e i N Cw)|].
  unfold declared_by. rewrite (options_low c Cw TP). now rewrite (proj1 (optioned_none _ N)).
Qed.
End Low.

(** What is known of the command after a line, and of a new object. *)
Definition object_facts (c t : string) (W : list string) (onself : bool) (F : facts) (b : stmt) (n x : attrs) (s : string) : Prop :=
  (forall k, mem k W = false -> mem k stamped = false -> assoc k x = overlay k n (init_of t)) /\
  (onself = true -> mem "seen" W = false -> assoc "seen" x = Some (VBool true)) /\
  facts_ok x (facts_about (if onself then "self" else "_r") F) /\
  exists cx s', exec cx b [] x = OReturn (PV (VStr s)) s'.
Lemma cmd_text rest c st m b a l : parse_code c = Some st -> based (comes_from c "__str__") = false -> method_of c "__str__" [] = Some m -> body_of m = Some b ->
  cl_str (class_model (cmd_class rest) c) a l <> "" ->
  exists cx s', exec cx b [] a = OReturn (PV (VStr (cl_str (class_model (cmd_class rest) c) a l))) s'.
Proof.
  intros Pc Bs Ms Bo. rewrite (class_str rest c st m a l Pc Bs Ms). unfold cmd_str.
  match goal with |- match ?X with Ok _ => _ | Err _ => _ end <> _ -> _ => destruct X as [s|] eqn:E; [|contradiction] end.
  intros _. exists (parse_ctx c no_view l []). eapply (str_returns _ c m a s Ms b Bo). exact E.
Qed.
Lemma first_self rest c name vw a0 a' l args r kind W st b m F :
  (forall k, mem k stamped = false -> assoc k a0 = assoc k (init_of c)) -> assoc "seen" a0 = Some (VBool true) ->
  mode_of c = Some (true, kind, W) -> check_word (table_of c) = true -> parse_code c = Some st -> method_of c "__str__" [] = Some m -> body_of m = Some b -> parse_facts c = Some F ->
  based (comes_from c "__str__") = false ->
  check_table (tabulate (low c)) (init_of c) (listed name changed) W (low c) = true ->
  cl_parse (class_model (cmd_class rest) c) vw a0 l args = (a', l, Ok r) ->
  cl_str (class_model (cmd_class rest) c) a' l <> "" ->
  r = None /\ object_facts c c W true F b (values_low c args) a' (cl_str (class_model (cmd_class rest) c) a' l).
Proof.
  intros Ha0 Hseen Mo Cw Pc Ms Bo Pf Bs Ct P Hs.
  destruct (first_run rest c vw a0 l args a' l r _ _ true kind W Mo Cw Ct P) as (_ & NS & FS & _).
  destruct (parse_facts_ok rest c F vw a0 l args a' l r Pf P) as (e & p & AH & _ & _).
  destruct (FS eq_refl) as (-> & Fa). split; [reflexivity|]. unfold object_facts. split; [|split; [|split]].
  - intros k Hk Sk. rewrite (Fa k Hk). unfold overlay. now rewrite (Ha0 k Sk).
  - intros _ M. rewrite (Fa "seen" M). unfold overlay. rewrite (proj2 (NS "seen")); [exact Hseen|]. intros D.
    destruct (dest_parts (low c) (init_of c) (listed name changed) W Ct "seen" D) as (_ & _ & X). discriminate.
  - apply (facts_about_ok (parse_ctx c vw l args) a' e "self" PSelf a' F); [reflexivity|intros k; reflexivity|exact AH].
  - eapply cmd_text; eauto.
Qed.
Lemma eval_var (c : ctx) (a : attrs) (e : env) x p : String.eqb x "self" = false -> assoc x e = Some p -> eval c a e (EVar x) = Ok p.
Proof. intros N E. cbn [eval]. now rewrite N, E. Qed.
Lemma first_data rest c t name vw a0 a' l args d kind W st b m F :
  mode_of c = Some (false, kind, W) -> check_word (table_of c) = true -> parse_code c = Some st -> method_of t "__str__" [] = Some m -> body_of m = Some b -> parse_facts c = Some F ->
  check_table (tabulate (low c)) (init_of t) (listed name changed) W (low c) = true ->
  cl_parse (class_model (cmd_class rest) c) vw a0 l args = (a', l, Ok (Some d)) ->
  d_class d = t -> forall s, data_str d = Ok s ->
  object_facts c t W false F b (values_low c args) (d_attrs d) s /\ assoc kind (v_data vw) = Some t.
Proof.
  intros Mo Cw Pc Ms Bo Pf Ct P Dt s Ds.
  destruct (first_run rest c vw a0 l args a' l (Some d) _ _ false kind W Mo Cw Ct P) as (_ & NS & _ & FD & _).
  destruct (parse_facts_ok rest c F vw a0 l args a' l (Some d) Pf P) as (e & p & AH & Er & Ep).
  destruct (FD eq_refl) as (d0 & E & Dc & Fa). injection E as <-. rewrite Dt in *. split; [|exact Dc]. unfold object_facts. split; [|split; [|split]].
  - intros k Hk _. exact (Fa k Hk).
  - discriminate.
  - destruct p as [v0| |n0|d0]; try discriminate. injection Ep as <-. apply (facts_about_ok (parse_ctx c vw l args) a' e "_r" (PObj d) (d_attrs d) F); [|intros k; reflexivity|exact AH].
    apply eval_var; [reflexivity|exact Er].
  - exists no_ctx. eapply (str_returns no_ctx t m (d_attrs d) s Ms b Bo). apply data_text; [now rewrite Dt|exact Ds].
Qed.

(** The second run, given that the words read back. *)
Lemma run_again (c : string) (st : stmt) (T : tab) (vw : view) (l : list data) args ws init onself kind off n n2 a0 b0 a' p :
  check_parse T init onself kind off st = true -> NoDup (map fst n) -> NoDup (map fst n2) ->
  (forall ln n0 r, parse_known_args (build (table_of c)) ln args = Ok (n0, r) -> n0 = n) -> (forall ln, parse_known_args (build (table_of c)) ln ws = Ok (n2, [])) ->
  (takes_none T = true -> ws = []) ->
  (forall k, differ n n2 k -> exists i b, assoc k init = Some i /\ assoc k (unclear T init off) = Some b /\ truthy i = negb b /\
      (assoc k n = Some VNone \/ assoc k n = Some i) /\ (assoc k n2 = Some VNone \/ assoc k n2 = Some i)) ->
  (onself = false -> forall k, assoc kind (v_data vw) = Some k -> init_of k = init) ->
  (forall k, mem k line_notes = false -> assoc k a0 = assoc k b0) -> (onself = true -> at_start n n2 init a0 /\ at_start n n2 init b0) ->
  run (parse_ctx c vw l args) st [] a0 = (a', Ok p) ->
  exists b' q, run (parse_ctx c vw l ws) st [] b0 = (b', Ok q) /\ (forall k, mem k line_notes = false -> assoc k b' = assoc k a') /\ val_rel onself n n2 init p q.
Proof.
  intros Cp D1 D2 P1 P2 NA Df Nw Hb St P. unfold check_parse in Cp. apply andb_prop in Cp as [Cp Nr]. apply negb_true_iff in Nr.
  assert (RS : out_rel (parse_vars st) onself n n2 init (exec (parse_ctx c vw l args) st [] a0) (exec (parse_ctx c vw l ws) st [] b0)).
  { apply (rel_s_ok (parse_vars st) (unclear T init off) onself kind (takes_none T) (parse_ctx c vw l args) (parse_ctx c vw l ws)); auto.
    - intros y. exact I.
    - split; auto. }
  unfold run in P |- *.
  destruct (exec (parse_ctx c vw l args) st [] a0) as [e1 s1|e1 s1|p1 s1|z1 s1]; destruct (exec (parse_ctx c vw l ws) st [] b0) as [e2 s2|e2 s2|p2 s2|z2 s2]; cbn [out_rel] in RS; try contradiction; try discriminate.
  - destruct RS as [Re Rs]. destruct (assoc "_r" e1) as [q1|] eqn:Q1; [|discriminate]. injection P as <- <-.
    specialize (Re "_r"). rewrite Nr, Q1 in Re. destruct (assoc "_r" e2) as [q2|]; [|contradiction]. cbn [opt_rel] in *.
    exists s2, q2. split; [reflexivity|]. split; [intros k Hk; symmetry; now apply (proj1 Rs)|exact Re].
  - destruct RS as [Re Rs]. injection P as <- <-. exists s2, p2. split; [reflexivity|]. split; [intros k Hk; symmetry; now apply (proj1 Rs)|exact Re].
Qed.
Lemma val_result onself n n2 init p q : val_rel onself n n2 init p q ->
  same_result match p with PObj d => Some d | _ => None end match q with PObj d => Some d | _ => None end.
Proof. destruct p, q; cbn [val_rel same_result]; try contradiction; auto. intros (_ & Dc & Da & _). auto. Qed.
Lemma values_dict c args : NoDup (map fst (values_or_none c args)).
Proof. unfold values_or_none. destruct (line_values c args) eqn:E; [eapply line_values_dict; eauto|constructor]. Qed.
Lemma values_parse c args ln n0 r : parse_known_args (build (table_of c)) ln args = Ok (n0, r) -> n0 = values_or_none c args.
Proof. intros H. apply line_values_any in H. unfold values_or_none. now rewrite H. Qed.
Lemma assoc_unclear T init off k : mem k off = false -> assoc k (unclear T init off) = assoc k (ambiguous T init).
Proof.
  intros H. unfold unclear. induction (ambiguous T init) as [|[j b] l IH]; [reflexivity|]. cbn [filter fst assoc]. destruct (String.eqb_spec k j) as [->|N].
  - rewrite H. cbn [negb assoc]. now rewrite eqb_refl_s.
  - destruct (negb (mem j off)); [|exact IH]. cbn [assoc]. destruct (String.eqb_spec k j); [contradiction|exact IH].
Qed.

(** Whether the text depends on the attributes only, the notes of the line excepted. *)
Definition steady (t : string) : bool := match method_of t "__str__" [] with Some m => rel_s [] [] true "" false m | None => false end.
Lemma steady_run (c : ctx) m x y x' v : rel_s [] [] true "" false m = true -> (forall k, mem k line_notes = false -> assoc k y = assoc k x) ->
  run c m [] x = (x', Ok (PV v)) -> snd (run c m [] y) = Ok (PV v).
Proof.
  intros R E P.
  assert (RS : out_rel [] true [] [] [] (exec c m [] x) (exec c m [] y)).
  { assert (Nd : forall k, ~ differ [] [] k) by (intros k D; now destruct D).
    apply (rel_s_ok [] [] true "" false c c); try reflexivity; try discriminate; try exact R; try (now constructor); try (intros Z; now destruct Z).
    split; [intros k Hk; symmetry; auto|]. intros _. split; intros k D; now destruct (Nd k). }
  unfold run in P |- *.
  destruct (exec c m [] x) as [e1 s1|e1 s1|p1 s1|z1 s1]; destruct (exec c m [] y) as [e2 s2|e2 s2|p2 s2|z2 s2]; cbn [out_rel] in RS; try contradiction; try discriminate.
  - destruct RS as [Re Rs]. destruct (assoc "_r" e1) as [q1|] eqn:Q1; [|discriminate]. injection P as _ ->.
    specialize (Re "_r"). rewrite Q1 in Re. destruct (assoc "_r" e2) as [q2|]; [|contradiction]. cbn [opt_rel mem existsb] in Re. destruct q2; cbn in Re; try contradiction. now subst.
  - destruct RS as [Re Rs]. injection P as _ ->. destruct p2; cbn in Re; try contradiction. now subst.
Qed.
Lemma steady_class rest c st x y l : steady c = true -> parse_code c = Some st -> based (comes_from c "__str__") = false ->
  (forall k, mem k line_notes = false -> assoc k y = assoc k x) -> cl_str (class_model (cmd_class rest) c) x l <> "" ->
  cl_str (class_model (cmd_class rest) c) y l = cl_str (class_model (cmd_class rest) c) x l.
Proof.
  unfold steady. intros S Pc B E. destruct (method_of c "__str__" []) as [m|] eqn:Ms; [|discriminate].
  rewrite !(class_str rest c st m _ l Pc B Ms). unfold cmd_str.
  destruct (run (parse_ctx c no_view l []) m [] x) as [x' [p|z]] eqn:R; cbn [snd bind]; [|contradiction].
  destruct p as [v| | |]; try contradiction. intros Hs.
  now rewrite (steady_run _ m x y x' v S E R).
Qed.
Lemma steady_data d e s : steady (d_class d) = true -> d_class e = d_class d -> (forall k, assoc k (d_attrs e) = assoc k (d_attrs d)) -> data_str d = Ok s -> data_str e = Ok s.
Proof.
  unfold steady. intros S C E H. destruct (method_of (d_class d) "__str__" []) as [m|] eqn:Ms; [|discriminate].
  pose proof (data_text d m s Ms H) as X. rewrite data_text_iff with (m := m); [|now rewrite C].
  destruct (run no_ctx m [] (d_attrs d)) as [x' [p|z]] eqn:R; cbn [snd bind] in X; [|discriminate]. destruct p as [v| | |]; try discriminate.
  rewrite (steady_run _ m (d_attrs d) (d_attrs e) x' v S (fun k _ => E k) R). exact X.
Qed.

(** The line written for an object. *)
Lemma written_line c t name args W onself F b x s : check_word (table_of c) = true ->
  (forall x, the_word (table_of c) = Some x -> mem (word_attr (d_dest (fst x))) (listed name changed) = false) ->
  check_table (tabulate (low c)) (init_of t) (listed name changed) W (low c) = true ->
  (forall l, In l (cases_of c) -> (forall k b0, In (k, b0) l -> present (tabulate (low c)) (init_of t) W k = Some true) /\
     check_str (tabulate (low c)) (init_of t) (written_if name c) onself W (word_name (table_of c)) (case_facts l ++ facts_about (if onself then "self" else "_r") F) name b = true) ->
  (line_values c args = None -> t_acts (tabulate (table_of c)) = []) ->
  ns_ok (low c) (values_low c args) -> object_facts c t W onself F b (values_low c args) x s ->
  writable name c t args x -> s <> "" ->
  exists com line ws n2, s = (com ++ line ++ NL)%string /\ remarks com /\ unbroken line = true /\ shlex_split true line = Ok (name :: ws) /\
    NoDup (map fst n2) /\ (forall ln, parse_known_args (build (table_of c)) ln ws = Ok (n2, [])) /\ (takes_none (tabulate (low c)) = true -> ws = []) /\
    forall k, differ (values_or_none c args) n2 k -> mem k stamped = false /\ exists i b, assoc k (init_of t) = Some i /\ assoc k (unclear (tabulate (low c)) (init_of t) (pair_keys (word_pair (table_of c)))) = Some b /\ truthy i = negb b /\
      (assoc k (values_or_none c args) = Some VNone \/ assoc k (values_or_none c args) = Some i) /\ (assoc k n2 = Some VNone \/ assoc k n2 = Some i).
Proof.
  intros Cw Nch Ct Cs Lv NS (X1 & X2 & X3 & cx & s' & X4) (Wr1 & Wr2 & Wr3 & Wr4 & Wr5 & Wr6) Hs.
  destruct (table_parts (low c) (init_of t) (listed name changed) W Ct) as (TP & ST & _ & _).
  assert (Fit : forall k, In k (PyRound.dests (tabulate (low c))) -> (must (tabulate (low c)) k = false /\ get k x = start_value (tabulate (low c)) (init_of t) k) \/ tidy_b (get k x) = true).
  { intros k Hk. destruct (Wr1 k (proj2 (option_dest c Cw TP k) Hk)) as [[R1 R2]|R]; [left; split; [now apply required_must|now rewrite <- (left_out_start c Cw)]|right; now apply tidy_spec]. }
  assert (Same : forall k, In k (listed name changed) -> In k (PyRound.dests (tabulate (low c))) -> get k x = laid (init_of t) k (get k (values_low c args))).
  { intros k Hk Hd. rewrite (Wr3 k Hk (proj2 (option_dest c Cw TP k) Hd)). apply line_gives_laid; auto. intros y Ny ->. specialize (Nch y Ny). apply mem_In in Hk. congruence. }
  assert (Case : exists l, In l (cases_of c) /\ forall k b0, In (k, b0) l -> truthy (get k x) = b0).
  { unfold cases_of. destruct (assoc c cases) as [L|] eqn:EL; [now apply Wr6|]. exists []. split; [now left|intros k b0 []]. }
  destruct Case as (cl & Hcl & Tcl). destruct (Cs cl Hcl) as [Pcl Ccl].
  assert (X5 : facts_ok x (case_facts cl ++ facts_about (if onself then "self" else "_r") F)).
  { intros f Hf. apply in_app_or in Hf as [Hf|Hf]; [|now apply X3]. unfold case_facts in Hf. apply in_map_iff in Hf as ([k b0] & <- & Hk). cbn [fst snd]. rewrite ask_own.
    pose proof (present_ok (low c) (init_of t) W (values_low c args) x NS X1 k true (Pcl k b0 Hk)) as Hh. unfold has_key in Hh. pose proof (Tcl k b0 Hk) as Tk. unfold get in Tk.
    destruct (assoc k x); [now rewrite Tk|discriminate]. }
  destruct (str_line cx (low c) (init_of t) (listed name changed) (written_if name c) onself W (values_low c args) x (word_name (table_of c)) (case_facts cl ++ facts_about (if onself then "self" else "_r") F) name b (PV (VStr s)) s' Ct NS X1 Same X2 Fit) as (u & Eu & Cu); [| |exact X5|exact Ccl|exact X4|].
  { intros k g Hg Hk Hj Mk Nm. rewrite <- (left_out_start c Cw) by exact Hk. apply (Wr2 k g Hg); [now apply option_dest|intros j Jj; apply option_dest; auto|now apply required_must|exact Nm]. }
  { intros d p u Hd. apply Wr5. now apply declared_low. }
  injection Eu as <-. destruct Cu as [->|(com & line & ws & E1 & E2 & E3 & E4 & E5)]; [contradiction|]. destruct E5 as (R1 & R2 & R3 & R4).
  pose proof (dest_laid (low c) (init_of t) (listed name changed) W Ct (values_low c args) x X1 Same) as Ld.
  destruct (given_line (table_of c) ws Cw TP R1 R2 R4) as (n2 & P2 & G2).
  { intros [d i] u N Lq. cbn [fst] in Lq. destruct (word_in (table_of c) d i N) as [Win Wo]. apply (Wr4 d u); [apply in_map_iff; now exists (d, i)|exact Wo|].
    assert (Hq : In (word_attr (d_dest d)) (PyRound.dests (tabulate (low c)))) by (apply (dests_word (table_of c) d i N Cw); now left).
    rewrite <- (R3 _ Hq). unfold reread. rewrite Lq. reflexivity. }
  pose proof (low_ns (table_of c) (init_of t) (listed name changed) W None _ n2 [] Cw Ct (P2 None)) as NS2.
  pose proof (second_line (low c) (init_of t) (listed name changed) W (values_low c args) (lowered (word_pair (table_of c)) n2) x ws Ct NS NS2 Ld R3 G2) as Df.
  exists com, line, (map (wordtext (word_name (table_of c))) ws), n2. do 4 (split; [assumption|]). split; [eapply known_dict; exact (P2 None)|]. split; [exact P2|]. split.
  - unfold takes_none. intros Tn. destruct (t_map (tabulate (low c))) eqn:Tm; [|discriminate]. destruct ws as [|w ws]; [reflexivity|]. exfalso. apply (R1 w); [now left|].
    unfold tab_effect. rewrite Tm. reflexivity.
  - assert (Raw : forall k, differ (values_or_none c args) n2 k -> differ (values_low c args) (lowered (word_pair (table_of c)) n2) k /\ assoc k (values_or_none c args) = assoc k (values_low c args) /\
      assoc k n2 = assoc k (lowered (word_pair (table_of c)) n2) /\ mem k (pair_keys (word_pair (table_of c))) = false).
    { intros k D. destruct (line_values c args) as [n|] eqn:L.
      - unfold line_values in L. destruct (parse_known_args _ _ _) as [[m q]|] eqn:Q; [|discriminate]. injection L as ->.
        assert (Ev : values_or_none c args = n) by (symmetry; eapply values_parse; eauto).
        assert (A : assoc k n = assoc k (lowered (word_pair (table_of c)) n) /\ assoc k n2 = assoc k (lowered (word_pair (table_of c)) n2) /\ mem k (pair_keys (word_pair (table_of c))) = false).
        { eapply (given_differ (table_of c) Cw ST (closed_table _ _ _ _ Ct) _ None args _ n n2 q [] Q (P2 None)).
          - intros j Dj. unfold values_low in Df. rewrite Ev in Df. destruct (Df j Dj) as (_ & i & b0 & _ & _ & _ & [[A _]|[_ A]]); auto.
          - rewrite <- Ev. exact D. }
        unfold values_low. rewrite Ev. destruct A as (A1 & A2 & A3). split; [|auto]. unfold differ in *. rewrite <- A1, <- A2, <- Ev. exact D.
      - exfalso. specialize (Lv eq_refl). assert (Nw : the_word (table_of c) = None) by (unfold the_word; now rewrite Lv). destruct (optioned_none _ Nw) as (Eo & _ & Ep).
        apply D. unfold values_or_none. rewrite L. cbn [assoc]. rewrite Ep in NS2. cbn [lowered] in NS2. rewrite (proj2 (NS2 k)); [reflexivity|].
        rewrite Eo. intros X. apply in_dests in X as (y & Hy & _). rewrite Lv in Hy. contradiction. }
    intros k D. destruct (Raw k D) as (D' & A1 & A2 & A3). destruct (Df k D') as (Hk & i & b0 & Q1 & Q2 & Q3 & Q4). rewrite A1, A2.
    split; [now destruct (dest_parts (low c) (init_of t) (listed name changed) W Ct k Hk) as (_ & _ & Sk)|]. exists i, b0. rewrite assoc_unclear by exact A3. do 3 (split; [assumption|]).
    destruct Q4 as [[-> ->]|[-> ->]]; auto.
Qed.
Lemma facts_own c F : parse_facts c = Some F -> own_parse c = true.
Proof. unfold parse_facts. destruct (own_parse c); [reflexivity|discriminate]. Qed.
Local Opaque mode_of parse_code parse_facts check_table check_str check_parse.

Theorem round_class c t name rest vw a0 l args a' d' r x s : check_round c t name = true ->
  (t = c -> (forall k, mem k stamped = false -> assoc k a0 = assoc k (init_of c)) /\ assoc "seen" a0 = Some (VBool true)) ->
  cl_parse (class_model (cmd_class rest) c) vw a0 l args = (a', d', Ok r) ->
  recorded (class_model (cmd_class rest) c) t a' d' r x s -> writable name c t args x -> s <> "" ->
  exists com line ws, s = (com ++ line ++ NL)%string /\ remarks com /\ unbroken line = true /\ shlex_split true line = Ok (name :: ws) /\
    forall b0, (forall k, mem k line_notes = false -> assoc k b0 = assoc k a0) ->
    exists b' r', cl_parse (class_model (cmd_class rest) c) vw b0 l ws = (b', d', Ok r') /\
      (forall k, mem k line_notes = false -> assoc k b' = assoc k a') /\ same_result r r'.
Proof.
  intros CR Ha P Rec Wr Hs.
  destruct (check_round_parts c t name CR) as (onself & kind & W & st & b & m & F & Mo & Pc & Ms & Bo & Pf & Os & Ct & Cp & Cs & Cw & Nch).
  destruct (first_run rest c vw a0 l args a' d' r _ _ onself kind W Mo Cw Ct P) as (-> & NS & _ & FD & Lv).
  assert (Hx : object_facts c t W onself F b (values_low c args) x s /\ (onself = false -> assoc kind (v_data vw) = Some t)).
  { destruct onself.
    - destruct (Os eq_refl) as (<- & Bs). destruct (Ha eq_refl) as [Ha0 Hseen]. assert (R0 : r = None /\ x = a' /\ s = cl_str (class_model (cmd_class rest) c) a' l).
      { destruct (first_run rest c vw a0 l args a' l r _ _ true kind W Mo Cw Ct P) as (_ & _ & FS & _). destruct (FS eq_refl) as (-> & _). split; [reflexivity|exact Rec]. }
      destruct R0 as (-> & -> & ->). destruct (first_self rest c name vw a0 a' l args None kind W st b m F Ha0 Hseen Mo Cw Pc Ms Bo Pf Bs Ct P Hs) as [_ Q]. split; [exact Q|discriminate].
    - destruct (FD eq_refl) as (d & -> & _). destruct Rec as (Dt & -> & Ds). destruct (first_data rest c t name vw a0 a' l args d kind W st b m F Mo Cw Pc Ms Bo Pf Ct P Dt s Ds) as [Q1 Q2]. auto. }
  destruct Hx as [OF Hk].
  destruct (written_line c t name args W onself F b x s Cw Nch Ct Cs Lv NS OF Wr Hs) as (com & line & ws & n2 & E1 & E2 & E3 & E4 & D2 & P2 & NA & Df).
  exists com, line, ws. do 4 (split; [assumption|]). intros b0 Hb0.
  assert (O : own_parse c = true) by (eapply facts_own; exact Pf).
  rewrite (class_parse rest c st Pc O) in P |- *. unfold cmd_parse in P |- *.
  destruct (run (parse_ctx c vw l args) st [] a0) as [a1 [p|z]] eqn:R; [|discriminate]. cbn [bind] in P. injection P as -> <-.
  assert (G : onself = true -> at_start (values_or_none c args) n2 (init_of t) a0 /\ at_start (values_or_none c args) n2 (init_of t) b0).
  { intros ->. destruct (Os eq_refl) as (<- & _). destruct (Ha eq_refl) as [Ha0 _].
    assert (G : forall k, differ (values_or_none c args) n2 k -> assoc k a0 = assoc k (init_of c) /\ mem k line_notes = false).
    { intros k D. destruct (Df k D) as (Sk & _). split; [now apply Ha0|].
      destruct (mem k line_notes) eqn:M; [|reflexivity]. apply mem_In in M. rewrite <- Sk. symmetry. apply mem_In. destruct M as [<-|[<-|[]]]; cbn; auto. }
    split; intros k D; destruct (G k D) as [G1 G2]; [exact G1|]. now rewrite Hb0. }
  destruct (run_again c st (tabulate (low c)) vw l args ws (init_of t) onself kind (pair_keys (word_pair (table_of c))) (values_or_none c args) n2 a0 b0 a' p Cp) as (b' & q & R2 & Eb & Vq); auto.
  - apply values_dict.
  - intros ln n0 r0. apply values_parse.
  - intros k D. now destruct (Df k D).
  - intros Of k Ek. rewrite (Hk Of) in Ek. now injection Ek as <-.
  - intros k M. symmetry. auto.
  - rewrite R2. cbn [bind]. eexists b', _. split; [reflexivity|]. split; [exact Eb|]. eapply val_result; eauto.
Qed.
Local Transparent comes_from method_of table_of removed_of data_str new_attrs init_of word_flow mode_of parse_code parse_facts check_table check_str check_parse.
