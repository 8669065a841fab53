(** * Where the values of a namespace come from

    For option tables without positional arguments: each destination of the table is an
    attribute of the namespace, and its value is the default or what an option of the
    destination makes of some text. *)

From Coq Require Import Lia.
From Verif Require Import PyStrFacts ArgSpec ArgParseFacts ArgLineFacts ArgErrFacts ArgDecl ArgDeclFacts ArgSimple ArgTable NsFacts.
From Verif Require Import Value.
Local Open Scope string_scope.
Local Open Scope list_scope.

(** ** Attributes present *)

Lemma parse_known_has p ln args n r a : parse_known_args p ln args = Ok (n, r) -> In a (p_actions p) -> has_key (a_dest a) n = true.
Proof.
  intros E Ha. rewrite parse_known_args_ploop in E. apply bind_ok in E as (L & Ec & E). apply bind_ok in E as (st & E1 & E). apply bind_ok in E as (n1 & E2 & E). injection E as <- _.
  pose (Q := fun n : attrs => has_key (a_dest a) n = true).
  assert (Put : forall d v n, True -> Q n -> Q (put d v n)).
  { intros d v m _ H. unfold Q in *. rewrite has_key_put, H. now rewrite orb_true_r. }
  apply (finish_keys (fun _ => True) Q Put ln (p_actions p) (s_seen st) false (s_ns st) n1); [intros b _; exact I| |exact E2].
  match type of E1 with ploop ln L ?s = _ => pose proof (ploop_keys (fun _ => True) Q Put ln L s) as K end. rewrite E1 in K. apply K; [intros s b x _; exact I|intros b _; exact I|].
  cbn [s_ns]. unfold init_ns. clear -Ha. unfold Q.
  assert (G : forall l m, In a l \/ has_key (a_dest a) m = true -> has_key (a_dest a) (fold_left (fun ns a => if has_key (a_dest a) ns then ns else put (a_dest a) (a_default a) ns) l m) = true).
  { induction l as [|b l IH]; intros m [H|H]; try contradiction; cbn [fold_left]; auto.
    - apply IH. destruct H as [->|H]; [|now left]. right. destruct (has_key (a_dest a) m) eqn:K; [exact K|]. now rewrite has_key_put, eqb_refl_s.
    - apply IH. right. destruct (has_key (a_dest b) m); [exact H|]. rewrite has_key_put, H. now rewrite orb_true_r. }
  apply G. now left.
Qed.

(** ** Values *)

Section Range.
(** What a destination can hold. *)
Variable R : string -> value -> Prop.
Definition in_range (n : attrs) : Prop := forall k v, assoc k n = Some v -> R k v.
Definition stores_in_range (a : action) : Prop :=
  (a_kind a = KStoreConst /\ R (a_dest a) (a_const a)) \/
  (a_opts a <> [] /\ a_kind a = KStore /\ a_nargs a = NOne /\ forall ln s v, get_checked ln a s = Ok v -> R (a_dest a) v).

Lemma range_put k v n : R k v -> in_range n -> in_range (put k v n).
Proof. intros H N j w. rewrite assoc_put. destruct (String.eqb_spec j k) as [->|]; [|apply N]. intros E. injection E as <-. exact H. Qed.
Lemma take_range ln a args st st' : stores_in_range a -> (a_nargs a = NOne -> length args = 1) -> in_range (s_ns st) ->
  take_action ln a args st = Ok st' -> in_range (s_ns st').
Proof.
  intros H L N E. unfold take_action in E. apply bind_ok in E as (v & E1 & E). apply bind_ok in E as (n & E2 & E). injection E as <-. cbn [s_ns].
  unfold call_action in E2. destruct H as [[K Rc]|(O & K & Na & Rs)]; rewrite K in E2; injection E2 as <-; apply range_put; auto.
  specialize (L Na). destruct args as [|s [|? ?]]; try discriminate. unfold get_values in E1. rewrite Na in E1. destruct (a_opts a); [contradiction|]. eapply Rs; eauto.
Qed.
Definition words_range (L : list (string * cls)) : Prop := forall s a x, In (s, CO (Some a) x) L -> stores_in_range a.
Lemma no_pos_consume ln L st : s_pos st = [] -> consume_positionals ln L st = Ok (mkPstate (s_ns st) (s_seen st) (s_extras st) [], L).
Proof. intros H. unfold consume_positionals. rewrite H. cbn [map take_positionals]. cbn [bind fst snd]. rewrite H. now rewrite skipn_nil. Qed.
Lemma leading_length l k : k <= leading_args l -> k <= length l.
Proof. revert k. induction l as [|[| |] l IH]; intros k H; cbn [leading_args length] in *; try lia. destruct k; [lia|]. specialize (IH k). lia. Qed.
Lemma consume_range ln s oa x B st st' r : words_range ((s, CO oa x) :: B) -> in_range (s_ns st) ->
  consume_optional ln s oa x B st = Ok (st', r) -> in_range (s_ns st') /\ s_pos st' = s_pos st /\ words_range r.
Proof.
  intros W N E. assert (WB : forall k, words_range (skipn k B)). { intros k s' a x' H. apply (W s' a x'). right. eapply In_skipn; eauto. }
  unfold consume_optional in E. destruct oa as [b|]; [|injection E as <- <-; split; [exact N|split; [reflexivity|apply (WB 0)]]].
  assert (Hb : stores_in_range b) by (apply (W s b x); now left). destruct x as [v|].
  - destruct (match_optional _ _) as [[|[|?]]|]; try discriminate. apply bind_ok in E as (s1 & E & E'). injection E' as <- <-.
    split; [eapply (take_range ln b [v] st); [exact Hb|reflexivity|exact N|exact E]|]. split; [now apply take_action_seen in E as [_ ->]|apply (WB 0)].
  - destruct (match_optional (a_nargs b) (map snd B)) as [k|] eqn:M; [|discriminate]. apply bind_ok in E as (s1 & E & E'). injection E' as <- <-.
    split; [|split; [now apply take_action_seen in E as [_ ->]|apply WB]]. eapply take_range; eauto. intros Na.
    apply match_optional_count in M as [M1 M2]. rewrite Na in M2. subst k. apply leading_length in M1. rewrite map_length in *. rewrite firstn_length. lia.
Qed.
Lemma ploop_range ln L st : words_range L -> s_pos st = [] -> in_range (s_ns st) ->
  match ploop ln L st with Ok st' => in_range (s_ns st') | Err _ => True end.
Proof.
  apply (ploop_induct ln (fun L st X => words_range L -> s_pos st = [] -> in_range (s_ns st) ->
    match X with Ok st' => in_range (s_ns st') | Err _ => True end)); auto.
  - intros L0 st0 st' r _ E _ HP HN. rewrite no_pos_consume in E by exact HP. injection E as <- <-. exact HN.
  - intros s oa x B st0 st' r X E HX HW HP HN. destruct (consume_range _ _ _ _ _ _ _ _ HW HN E) as (N1 & P1 & W1). apply HX; auto. congruence.
  - intros A s oa x B st0 st' r X _ _ E Hl HX HW HP HN. rewrite no_pos_consume in E by exact HP. injection E as <- <-. lia.
  - intros A s oa x B st0 st' X _ _ E HX HW HP HN. rewrite no_pos_consume in E by exact HP. injection E as <-. apply HX; auto.
    intros s' a x' Hin. apply (HW s' a x'). apply in_or_app. auto.
Qed.
Lemma finish_range ln acts : forall seen missing n n', (forall a, In a acts -> settled a) -> in_range n -> finish ln acts seen missing n = Ok n' -> in_range n'.
Proof.
  induction acts as [|a acts IH]; intros seen missing n n' HS HN E; cbn [finish] in E.
  - destruct missing; [discriminate|]. injection E as <-. exact HN.
  - assert (HS' : forall b, In b acts -> settled b) by (intros b Hb; apply HS; now right).
    destruct (existsb (Nat.eqb (a_id a)) seen); [eauto|]. destruct (a_required a); [eauto|].
    destruct (a_default a) eqn:D; try (eapply IH in E; eauto; fail). destruct (has_key (a_dest a) n && value_eqb (get (a_dest a) n) (VStr s)) eqn:C; [|eauto].
    apply bind_ok in E as (v & Ev & E). eapply IH in E; [exact E|exact HS'|]. apply andb_prop in C as [C1 C2]. apply value_eqb_str in C2.
    unfold get_value in Ev. rewrite (HS a (or_introl eq_refl) s D) in Ev. injection Ev as <-. apply range_put; [|exact HN]. apply HN.
    unfold get, has_key in *. destruct (assoc (a_dest a) n); [congruence|discriminate].
Qed.
Lemma init_range acts : (forall d a, In a acts -> a_dest a = d -> R d (declared acts d)) -> in_range (init_ns acts).
Proof.
  intros H. unfold init_ns.
  assert (G : forall l m pre, acts = pre ++ l -> (forall k, has_key k m = true <-> exists a, In a pre /\ a_dest a = k) -> in_range m ->
    in_range (fold_left (fun ns a => if has_key (a_dest a) ns then ns else put (a_dest a) (a_default a) ns) l m)).
  { induction l as [|b l IH]; intros m pre E K M; cbn [fold_left]; [exact M|]. apply (IH _ (pre ++ [b])).
    - now rewrite <- app_assoc.
    - intros k. destruct (has_key (a_dest b) m) eqn:Hb.
      + rewrite K. split; intros (a & Ha & Ed).
        * exists a. split; [apply in_or_app; auto|exact Ed].
        * apply in_app_or in Ha as [Ha|[<-|[]]]; [eauto|]. rewrite <- Ed. now apply K.
      + rewrite has_key_put. split.
        * intros X. apply orb_true_iff in X as [X|X]; [apply String.eqb_eq in X; exists b; split; [apply in_or_app; right; now left|now subst]|].
          apply K in X as (a & Ha & Ed). exists a. split; [apply in_or_app; auto|exact Ed].
        * intros (a & Ha & Ed). apply in_app_or in Ha as [Ha|[<-|[]]]; [|subst; now rewrite eqb_refl_s]. apply orb_true_iff. right. apply K. eauto.
    - destruct (has_key (a_dest b) m) eqn:Hb; [exact M|]. apply range_put; [|exact M].
      assert (D : declared acts (a_dest b) = a_default b).
      { rewrite E. assert (N : forall a, In a pre -> a_dest a <> a_dest b).
        { intros a Ha X. assert (has_key (a_dest b) m = true) by (apply K; eauto). congruence. }
        clear -N. induction pre as [|a pre IH]; cbn [app declared]; [now rewrite eqb_refl_s|]. destruct (String.eqb_spec (a_dest b) (a_dest a)) as [X|]; [exfalso; apply (N a); [now left|now symmetry]|].
        apply IH. intros c Hc. apply N. now right. }
      rewrite <- D. apply (H _ b); [rewrite E; apply in_or_app; right; now left|reflexivity]. }
  apply (G acts [] []); auto.
  - intros k. cbn. split; [discriminate|]. intros (a & [] & _).
  - intros k v E. discriminate.
Qed.
Lemma known_range p ln args n r : positionals p = [] -> (forall a, In a (p_actions p) -> settled a) ->
  (forall a, In a (map snd (p_optmap p)) -> stores_in_range a) -> (forall d a, In a (p_actions p) -> a_dest a = d -> R d (declared (p_actions p) d)) ->
  parse_known_args p ln args = Ok (n, r) -> in_range n.
Proof.
  intros HP HS HA HD E. rewrite parse_known_args_ploop in E. apply bind_ok in E as (L & Ec & E). apply bind_ok in E as (st & E1 & E). apply bind_ok in E as (n1 & E2 & E). injection E as <- _.
  eapply finish_range; [exact HS| |exact E2]. match type of E1 with ploop ln L ?s = _ => pose proof (ploop_range ln L s) as K end. rewrite E1 in K. apply K.
  - intros s a x Hin. apply HA. eapply parse_optional_action. eapply classify_in; [exact Ec|exact Hin|discriminate|discriminate].
  - exact HP.
  - now apply init_range.
Qed.
End Range.

(** ** For tables of declarations *)

(** What an option can store. *)
Definition produces (d : decl) (v : value) : Prop :=
  (d_kind d = KStoreConst /\ v = d_const d) \/
  (d_kind d = KStore /\ exists s, ty_fun (d_type d) s = Ok v /\ forall l, d_choices d = Some l -> exists t, v = VStr t /\ In t l).
(** Each option stores one value or a constant. *)
Definition simple_decl (d : decl) : bool :=
  negb (no_opts d) && match d_kind d, d_nargs d with KStoreConst, _ | KStore, NOne => true | _, _ => false end.
Definition simple_table (T : tab) : bool :=
  forallb (fun x => simple_decl (fst x)) (t_acts T) && forallb (fun kx => simple_decl (fst (snd kx))) (t_map T).
Definition all_decls (T : tab) : list decl := map fst (t_acts T) ++ map (fun kx => fst (snd kx)) (t_map T).

Lemma checked_produces d i ln s v : d_kind d = KStore -> get_checked ln (act (d, i)) s = Ok v -> produces d v.
Proof.
  intros K E. right. split; [exact K|]. exists s. unfold get_checked, get_value, check_value in E. cbn [act action_of fst snd a_type a_choices] in E.
  destruct (ty_fun (d_type d) s) as [w|e]; [|destruct e; discriminate]. cbn [bind] in E. destruct (d_choices d) as [l|].
  - destruct w as [| | |t| | |]; try discriminate. destruct (mem t l) eqn:M; [|discriminate]. injection E as <-. split; [reflexivity|].
    intros l' E'. injection E' as <-. exists t. split; [reflexivity|]. now apply mem_In.
  - injection E as <-. split; [reflexivity|discriminate].
Qed.
Theorem table_range ops ln args n r k v : table_plain ops = true -> simple_table (tabulate ops) = true ->
  parse_known_args (build ops) ln args = Ok (n, r) -> assoc k n = Some v ->
  v = tab_default (t_acts (tabulate ops)) k \/ exists d, In d (all_decls (tabulate ops)) /\ d_dest d = k /\ produces d v.
Proof.
  intros TP ST E. revert k v. unfold table_plain in TP. apply andb_prop in TP as [TP H3]. apply andb_prop in TP as [H1 H2]. apply andb_prop in ST as [S1 S2].
  apply (known_range (fun k v => v = tab_default (t_acts (tabulate ops)) k \/ exists d, In d (all_decls (tabulate ops)) /\ d_dest d = k /\ produces d v) (build ops) ln args n r); auto.
  - now apply no_positionals_ok.
  - intros a. now apply defaults_ok_settled.
  - intros a Ha. rewrite build_tabulate in Ha. cbn [real p_optmap] in Ha. rewrite map_map in Ha. cbn [snd] in Ha. apply in_map_iff in Ha as ([o [d i]] & <- & Hx). cbn [snd].
    rewrite forallb_forall in S2. specialize (S2 _ Hx). cbn [snd fst] in S2. unfold simple_decl in S2. apply andb_prop in S2 as [O S2].
    assert (Id : In d (all_decls (tabulate ops))) by (unfold all_decls; apply in_or_app; right; apply in_map_iff; exists (o, (d, i)); auto).
    unfold stores_in_range. cbn [act action_of fst snd a_kind a_dest a_const a_opts a_nargs]. destruct (d_kind d) eqn:K; try discriminate.
    + right. destruct (d_nargs d); try discriminate. split; [unfold no_opts in O; destruct (d_opts d); [discriminate|discriminate]|]. split; [reflexivity|]. split; [reflexivity|].
      intros ln' s w Ew. right. exists d. split; [exact Id|]. split; [reflexivity|]. eapply checked_produces; eauto.
    + left. split; [reflexivity|]. right. exists d. split; [exact Id|]. split; [reflexivity|]. left. auto.
  - intros d a Ha <-. left. now rewrite declared_build.
Qed.
Theorem table_has ops ln args n r x : parse_known_args (build ops) ln args = Ok (n, r) -> In x (t_acts (tabulate ops)) -> has_key (d_dest (fst x)) n = true.
Proof.
  intros E Hx. change (d_dest (fst x)) with (a_dest (act x)). eapply parse_known_has; [exact E|]. rewrite build_tabulate. cbn [real p_actions]. now apply in_map.
Qed.
