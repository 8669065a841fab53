(** * Lemmas about option lines: what parse_args makes of known words *)

From Verif Require Import PyStrFacts ArgParse ArgParseFacts ArgSpec.
From Verif Require Import Value.
From Coq Require Import Lia.
Local Open Scope string_scope.
Local Open Scope list_scope.

(** ** Classifying words *)

Lemma partition_char_app c a b : has_char c a = false ->
  partition_char c (a ++ String c b) = (a, true, b).
Proof.
  unfold has_char. induction a as [|x a IH]; cbn -[Ascii.eqb]; intros H.
  - rewrite Ascii.eqb_refl. reflexivity.
  - apply orb_false_elim in H as [H1 H2]. rewrite Ascii.eqb_sym in H1. rewrite ?(Ascii.eqb_sym x c), ?(Ascii.eqb_sym c x), ?H1.
    rewrite Ascii.eqb_sym in H1. rewrite ?H1. rewrite IH by exact H2. reflexivity.
Qed.

Lemma partition_char_none c a : has_char c a = false -> partition_char c a = (a, false, "").
Proof.
  unfold has_char. induction a as [|x a IH]; cbn -[Ascii.eqb]; intros H; [reflexivity|].
  apply orb_false_elim in H as [H1 H2]. rewrite IH by exact H2.
  rewrite ?H1, ?(Ascii.eqb_sym x c), ?H1. reflexivity.
Qed.

Lemma option_name_spec o : option_name o = true ->
  exists c r, o = String DASH (String DASH (String c r)) /\ has_char "=" o = false.
Proof.
  unfold option_name. intros H. apply andb_prop in H as [H H3]. apply andb_prop in H as [H1 H2].
  apply negb_true_iff in H3, H2. apply startswith_spec in H1 as (t & ->).
  destruct t as [|c r]; [discriminate|]. exists c, r. auto.
Qed.

Lemma assoc_In_pair {A} k (l : list (string * A)) v : assoc k l = Some v -> In (k, v) l.
Proof.
  induction l as [|[k' w] l IH]; simpl; [discriminate|].
  destruct (String.eqb k k') eqn:E; [|auto]. apply String.eqb_eq in E as ->. intros H; injection H as ->; auto.
Qed.

Lemma assoc_none_notin {A} k (l : list (string * A)) : (forall v, ~ In (k, v) l) -> assoc k l = None.
Proof.
  intros H. destruct (assoc k l) as [v|] eqn:E; [|reflexivity].
  apply assoc_In_pair in E. destruct (H v E).
Qed.

Lemma table_ok_name p o a : table_ok p = true -> option_of p o = Some a -> option_name o = true.
Proof.
  unfold table_ok, option_of. rewrite forallb_forall. intros H E.
  apply assoc_In_pair in E. apply H in E. apply andb_prop in E. apply E.
Qed.

Lemma table_ok_named p : table_ok p = true -> forall o a, option_of p o = Some a -> is_positional a = false.
Proof.
  unfold table_ok, option_of. rewrite forallb_forall. intros H o a E.
  apply assoc_In_pair in E. apply H in E. apply andb_prop in E as [_ E]. now apply negb_true_iff in E.
Qed.

Lemma parse_optional_name p ln o a : table_ok p = true -> option_of p o = Some a ->
  parse_optional p ln o = Ok (CO (Some a) None).
Proof.
  intros Ht E. pose proof (table_ok_name _ _ _ Ht E) as Hn.
  apply option_name_spec in Hn as (c & r & -> & _). unfold parse_optional, option_of in *.
  cbn [negb]. rewrite eqb_refl_a. cbn [negb]. rewrite E. reflexivity.
Qed.

Lemma table_ok_eq p o v : table_ok p = true -> assoc (o ++ String "=" v) (p_optmap p) = None.
Proof.
  intros Ht. apply assoc_none_notin. intros a H. unfold table_ok in Ht. rewrite forallb_forall in Ht.
  apply Ht in H. simpl in H. unfold option_name in H. rewrite has_char_app in H. simpl in H.
  rewrite orb_true_r, andb_false_r in H. discriminate.
Qed.

Lemma parse_optional_assign p ln o a v : table_ok p = true -> option_of p o = Some a ->
  parse_optional p ln (o ++ "=" ++ v) = Ok (CO (Some a) (Some v)).
Proof.
  intros Ht E. pose proof (table_ok_name _ _ _ Ht E) as Hn.
  change ("=" ++ v)%string with (String "=" v).
  pose proof (table_ok_eq p o v Ht) as Hno.
  apply option_name_spec in Hn as (c & r & Ho & Heq).
  pose proof (partition_char_app "=" o v Heq) as Hp.
  remember (o ++ String "=" v)%string as s eqn:Es. rewrite Ho in Es. cbn in Es.
  rewrite Es in *. unfold parse_optional. rewrite eqb_refl_a. cbn [negb]. rewrite Hno.
  unfold EQUALS. rewrite Hp. unfold option_of in E. rewrite E. reflexivity.
Qed.

Lemma parse_optional_plain p ln v : startswith v "-" = false -> parse_optional p ln v = Ok CA.
Proof.
  destruct v as [|c r]; [reflexivity|]. rewrite startswith_cons, startswith_nil, andb_true_r.
  intros H. unfold parse_optional, DASH. rewrite Ascii.eqb_sym, H. reflexivity.
Qed.

(** The class of a known word. *)
Definition word_cls (a : action) (w : oword) : cls :=
  match w with OFlag _ => CO (Some a) None | OVal _ v => CO (Some a) (Some v) end.

Lemma text_not_dashes p w a : table_ok p = true -> option_of p (name w) = Some a ->
  String.eqb (text w) "--" = false.
Proof.
  intros Ht E. apply table_ok_name in E; [|exact Ht]. apply option_name_spec in E as (c & r & E & _).
  destruct w; simpl in *; rewrite E; reflexivity.
Qed.

Lemma parse_optional_word p ln w a : table_ok p = true -> option_of p (name w) = Some a ->
  parse_optional p ln (text w) = Ok (word_cls a w).
Proof.
  intros Ht E. destruct w; simpl in *; [now apply parse_optional_name|now apply parse_optional_assign].
Qed.

Lemma classify_word p ln w a r : table_ok p = true -> option_of p (name w) = Some a ->
  classify p ln (text w :: r) = do l <- classify p ln r ;; Ok ((text w, word_cls a w) :: l).
Proof.
  intros Ht E. cbn [classify]. rewrite (text_not_dashes p w a Ht E), (parse_optional_word p ln w a Ht E).
  reflexivity.
Qed.

Lemma classify_plain p ln v r : startswith v "-" = false ->
  classify p ln (v :: r) = do l <- classify p ln r ;; Ok ((v, CA) :: l).
Proof.
  intros H. cbn [classify]. rewrite parse_optional_plain by exact H.
  destruct (String.eqb v "--") eqn:E; [|reflexivity]. apply String.eqb_eq in E as ->. discriminate.
Qed.

(** ** Taking a known word *)

Lemma strs_of_one s : strs_of [VStr s] = Ok [s].
Proof. reflexivity. Qed.

Lemma get_checked_given ln a o s v :
  (a_nargs a = NOne \/ a_nargs a = NOpt) ->
  given a (OVal o s) = Some v -> get_checked ln a s = Ok v.
Proof.
  intros Hn H. unfold given in H. unfold get_checked, get_value, check_value, allowed in *.
  destruct (a_type a s) as [x|e]; [|destruct Hn as [Hn|Hn]; rewrite Hn in H; discriminate].
  cbn [bind].
  destruct Hn as [Hn|Hn]; rewrite Hn in H;
    destruct x; destruct (a_choices a) as [ch|]; try discriminate; try (injection H as <-; reflexivity);
    destruct (mem _ ch) eqn:Em; try discriminate; injection H as <-; reflexivity.
Qed.

Lemma get_list_given ln a s t :
  a_type a s = Ok (VStr t) -> allowed a t = true -> get_list ln a [s] = Ok (VStrs [t]).
Proof.
  intros H Ha. unfold get_list, allowed in *. cbn [map_res]. unfold get_value. rewrite H. cbn [bind map_res].
  unfold check_value. destruct (a_choices a) as [l|]; [rewrite Ha|]; reflexivity.
Qed.

Lemma get_values_val ln a o s v : is_positional a = false ->
  given a (OVal o s) = Some v -> get_values ln a [s] = Ok v.
Proof.
  intros Hp H. unfold get_values. unfold is_positional in Hp.
  destruct (a_opts a) as [|o0 os]; [discriminate|]. cbn iota.
  destruct (a_nargs a) as [|n| | |] eqn:En.
  - eapply get_checked_given; eauto.
  - unfold given in H. rewrite En in H. destruct n as [|[|n]]; try discriminate.
    destruct (a_type a s) as [[]|] eqn:Et; try discriminate.
    destruct (allowed a s0) eqn:Ea; try discriminate. injection H as <-. now apply get_list_given.
  - eapply get_checked_given; eauto.
  - unfold given in H. rewrite En in H. destruct (a_type a s) as [[]|] eqn:Et; try discriminate.
    destruct (allowed a s0) eqn:Ea; try discriminate. injection H as <-. now apply get_list_given.
  - unfold given in H. rewrite En in H. destruct (a_type a s) as [[]|] eqn:Et; try discriminate.
    destruct (allowed a s0) eqn:Ea; try discriminate. injection H as <-. now apply get_list_given.
Qed.

Lemma get_values_flag ln a : is_positional a = false -> a_nargs a = NInt 0 ->
  get_values ln a [] = Ok (VStrs []).
Proof.
  intros Hp Hn. unfold get_values. rewrite Hn. unfold is_positional in Hp.
  destruct (a_opts a); [discriminate|]. reflexivity.
Qed.

Lemma call_action_update a v ns v' :
  update a v (get (a_dest a) ns) = Some v' -> call_action a v ns = Ok (put (a_dest a) v' ns).
Proof.
  unfold update, call_action. intros H.
  destruct (a_kind a); try (injection H as <-; reflexivity).
  - destruct v; try discriminate; destruct (a_const a), (get (a_dest a) ns); try discriminate;
      injection H as <-; reflexivity.
  - destruct (a_const a); try (destruct v; discriminate);
      destruct v, (get (a_dest a) ns); try discriminate; injection H as <-; reflexivity.
  - destruct (get (a_dest a) ns) eqn:Eg.
    all: try (destruct v, (a_const a); discriminate).
    + destruct v, (a_const a); injection H as <-; reflexivity.
    + destruct v; try (destruct (a_const a); discriminate). destruct (a_const a); injection H as <-; reflexivity.
  - destruct (get (a_dest a) ns) eqn:Eg.
    all: destruct v, (a_const a); try discriminate; injection H as <-; reflexivity.
Qed.

Lemma consume_word ln a w v v' r st :
  is_positional a = false ->
  given a w = Some v -> update a v (get (a_dest a) (s_ns st)) = Some v' ->
  consume_optional ln (text w) (Some a) (match w with OFlag _ => None | OVal _ s => Some s end) r st
  = Ok (mkPstate (put (a_dest a) v' (s_ns st)) (a_id a :: s_seen st) (s_extras st) (s_pos st), r).
Proof.
  intros Hp Hg Hu. unfold consume_optional. destruct w as [o|o s].
  - unfold given in Hg. destruct (a_nargs a) as [|[|n]| | |] eqn:En; try discriminate.
    injection Hg as <-. cbn [match_optional Nat.leb firstn skipn map]. unfold take_action.
    rewrite get_values_flag by assumption. cbn [bind]. rewrite (call_action_update _ _ _ _ Hu). reflexivity.
  - replace (match_optional (a_nargs a) [CA]) with (Some 1).
    + unfold take_action. rewrite (get_values_val _ _ _ _ _ Hp Hg). cbn [bind].
      rewrite (call_action_update _ _ _ _ Hu). reflexivity.
    + unfold given in Hg. destruct (a_nargs a) as [|[|[|n]]| | |]; try reflexivity; discriminate.
Qed.

(** ** Runs of known words *)

(** State after the words, as a fold. *)
Fixpoint run_words (p : parser) (ws : list oword) (ns : attrs) (seen : list nat)
  : option (attrs * list nat) :=
  match ws with
  | [] => Some (ns, seen)
  | w :: r =>
      match option_of p (name w) with
      | None => None
      | Some a =>
          match given a w with
          | None => None
          | Some v => match update a v (get (a_dest a) ns) with
                      | None => None
                      | Some v' => run_words p r (put (a_dest a) v' ns) (a_id a :: seen)
                      end
          end
      end
  end.

Lemma run_words_app p ws1 : forall ws2 ns seen,
  run_words p (ws1 ++ ws2) ns seen =
  match run_words p ws1 ns seen with Some (ns', seen') => run_words p ws2 ns' seen' | None => None end.
Proof.
  induction ws1 as [|w ws1 IH]; intros ws2 ns seen; [reflexivity|]. simpl.
  destruct (option_of p (name w)); [|reflexivity]. destruct (given a w); [|reflexivity].
  destruct (update _ _ _); [apply IH|reflexivity].
Qed.

Definition word_of (p : parser) (w : oword) : string * cls :=
  (text w, match option_of p (name w) with Some a => word_cls a w | None => CA end).

Lemma classify_words p ln ws r : table_ok p = true ->
  Forall (fun w => option_of p (name w) <> None) ws ->
  classify p ln (map text ws ++ r) = do l <- classify p ln r ;; Ok (map (word_of p) ws ++ l).
Proof.
  intros Ht H. induction H as [|w ws Hw H IH]; cbn [map app].
  - destruct (classify p ln r); reflexivity.
  - destruct (option_of p (name w)) as [a|] eqn:E; [|congruence].
    rewrite (classify_word p ln w a) by assumption. rewrite IH.
    destruct (classify p ln r); [|reflexivity]. cbn [bind]. unfold word_of at 2. rewrite E. reflexivity.
Qed.

Lemma run_words_known p ws : forall ns seen r, run_words p ws ns seen = Some r ->
  Forall (fun w => option_of p (name w) <> None) ws.
Proof.
  induction ws as [|w ws IH]; intros ns seen r H; [constructor|]. simpl in H.
  destruct (option_of p (name w)) eqn:E; [|discriminate]. destruct (given a w); [|discriminate].
  destruct (update _ _ _); [|discriminate]. constructor; [congruence|]. eapply IH; eauto.
Qed.

Lemma ploop_words p ln : table_ok p = true -> forall ws rest ns seen ns' seen' ex pos,
  run_words p ws ns seen = Some (ns', seen') ->
  ploop ln (map (word_of p) ws ++ rest) (mkPstate ns seen ex pos)
  = ploop ln rest (mkPstate ns' seen' ex pos).
Proof.
  intros Hn. induction ws as [|w ws IH]; intros rest ns seen ns' seen' ex pos H; simpl in H.
  - injection H as -> ->. reflexivity.
  - destruct (option_of p (name w)) as [a|] eqn:E; [|discriminate].
    destruct (given a w) as [v|] eqn:Eg; [|discriminate].
    destruct (update a v (get (a_dest a) ns)) as [v'|] eqn:Eu; [|discriminate].
    cbn [map app]. unfold word_of at 1. rewrite E.
    assert (Hw : word_cls a w = CO (Some a) (match w with OFlag _ => None | OVal _ s => Some s end))
      by (destruct w; reflexivity).
    rewrite Hw, ploop_co.
    rewrite (consume_word ln a w v v' _ (mkPstate ns seen ex pos)) by (eauto; apply (table_ok_named p Hn _ _ E)).
    cbn [bind fst snd s_ns s_seen s_extras s_pos]. apply IH. exact H.
Qed.

(** ** The end of the line: required options and defaults *)

Lemma put_same k v (l : attrs) : assoc k l = Some v -> put k v l = l.
Proof.
  induction l as [|[k' w] l IH]; simpl; [discriminate|]. destruct (String.eqb k k') eqn:E.
  - intros H; injection H as ->. reflexivity.
  - intros H. rewrite IH by exact H. reflexivity.
Qed.

Lemma value_eqb_str v d : value_eqb v (VStr d) = true -> v = VStr d.
Proof. destruct v; simpl; try discriminate. intros H; apply String.eqb_eq in H; congruence. Qed.

Lemma finish_ok ln acts seen ns :
  (forall a, In a acts -> In (a_id a) seen \/ (a_required a = false /\ settled a)) ->
  finish ln acts seen false ns = Ok ns.
Proof.
  induction acts as [|a acts IH]; intros H; [reflexivity|]. cbn [finish].
  assert (IH' : finish ln acts seen false ns = Ok ns) by (apply IH; intros; apply H; simpl; auto).
  destruct (existsb (Nat.eqb (a_id a)) seen) eqn:E; [exact IH'|].
  destruct (H a (or_introl eq_refl)) as [Hs|[Hr Hs]].
  { exfalso. assert (existsb (Nat.eqb (a_id a)) seen = true); [|congruence].
    apply existsb_exists. exists (a_id a). split; [exact Hs|apply Nat.eqb_refl]. }
  rewrite Hr. destruct (a_default a) eqn:Ed; try exact IH'.
  destruct (has_key (a_dest a) ns && value_eqb (get (a_dest a) ns) (VStr s)) eqn:Ek; [|exact IH'].
  apply andb_prop in Ek as [Ek Ev]. unfold get_value. rewrite (Hs s Ed). cbn [bind].
  rewrite put_same; [exact IH'|]. apply value_eqb_str in Ev. unfold get, has_key in *.
  destruct (assoc (a_dest a) ns); [congruence|discriminate].
Qed.

(** ** Namespaces as meanings *)

Lemma init_ns_gen acts : forall ns d,
  get d (fold_left (fun ns a => if has_key (a_dest a) ns then ns else put (a_dest a) (a_default a) ns) acts ns)
  = if has_key d ns then get d ns else declared acts d.
Proof.
  induction acts as [|a acts IH]; intros ns d; cbn [fold_left declared].
  - unfold get, has_key. destruct (assoc d ns); reflexivity.
  - rewrite IH. destruct (has_key (a_dest a) ns) eqn:E.
    + destruct (has_key d ns) eqn:Ed; [reflexivity|]. destruct (String.eqb d (a_dest a)) eqn:Eq; [|reflexivity].
      apply String.eqb_eq in Eq. congruence.
    + rewrite has_key_put, get_put. destruct (String.eqb d (a_dest a)) eqn:Eq; simpl; [|reflexivity].
      apply String.eqb_eq in Eq as ->. rewrite E. reflexivity.
Qed.

Lemma get_init_ns acts d : get d (init_ns acts) = declared acts d.
Proof. unfold init_ns. rewrite init_ns_gen. reflexivity. Qed.

Definition agrees (ns : attrs) (m : meaning) : Prop := forall d, get d ns = m d.

Lemma read_words_run p ws : forall ns m m' seen,
  agrees ns m -> read_words p m ws = Some m' ->
  exists ns' seen', run_words p ws ns seen = Some (ns', seen') /\ agrees ns' m'.
Proof.
  induction ws as [|w ws IH]; intros ns m m' seen Ha H; simpl in *.
  - injection H as <-. eauto.
  - unfold read_word in H. destruct (option_of p (name w)) as [a|]; [|discriminate].
    destruct (given a w) as [v|]; [|discriminate]. rewrite <- Ha in H.
    destruct (update a v (get (a_dest a) ns)) as [v'|]; [|discriminate].
    eapply IH; [|exact H]. intros d. rewrite get_put. unfold set. destruct (String.eqb d (a_dest a)); auto.
Qed.

Lemma run_words_keys p ws : forall ns seen ns' seen',
  run_words p ws ns seen = Some (ns', seen') ->
  (forall w, In w ws -> forall a, option_of p (name w) = Some a -> has_key (a_dest a) ns = true) ->
  map fst ns' = map fst ns.
Proof.
  induction ws as [|w ws IH]; intros ns seen ns' seen' H Hk; simpl in H.
  - injection H as <- <-. reflexivity.
  - destruct (option_of p (name w)) as [a|] eqn:E; [|discriminate].
    destruct (given a w) as [v|]; [|discriminate].
    destruct (update a v (get (a_dest a) ns)) as [v'|]; [|discriminate].
    assert (Hd : has_key (a_dest a) ns = true) by (eapply Hk; simpl; eauto).
    apply IH in H.
    + rewrite H, map_fst_put, Hd. reflexivity.
    + intros w' Hw' a' Ha'. rewrite has_key_put. rewrite (Hk w' (or_intror Hw') a' Ha'). apply orb_true_r.
Qed.

Lemma run_words_seen p ws : forall ns seen ns' seen',
  run_words p ws ns seen = Some (ns', seen') ->
  forall i, In i seen' <-> In i seen \/ exists w a, In w ws /\ option_of p (name w) = Some a /\ a_id a = i.
Proof.
  induction ws as [|w ws IH]; intros ns seen ns' seen' H i; simpl in H.
  - injection H as <- <-. split; [auto|intros [H|(w & a & [] & _)]; exact H].
  - destruct (option_of p (name w)) as [a|] eqn:E; [|discriminate].
    destruct (given a w) as [v|]; [|discriminate].
    destruct (update a v (get (a_dest a) ns)) as [v'|]; [|discriminate].
    rewrite (IH _ _ _ _ H i). simpl. split.
    + intros [[<-|Hi]|(w' & a' & Hw & Ha & Hi)]; eauto 8.
      all: right; [exists w, a|exists w', a']; simpl; auto.
    + intros [Hi|(w' & a' & [<-|Hw] & Ha & Hi)]; auto.
      * left. left. congruence.
      * right. eauto.
Qed.

(** ** The line theorem *)

Lemma parse_words p ln ws ns seen :
  table_ok p = true -> positionals p = [] ->
  (forall a, In a (p_actions p) -> In (a_id a) seen \/ (a_required a = false /\ settled a)) ->
  run_words p ws (init_ns (p_actions p)) [] = Some (ns, seen) ->
  parse_args p ln (map text ws) = Ok ns.
Proof.
  intros Ht Hp Hr Hrun. unfold parse_args. rewrite parse_known_args_ploop.
  assert (Hc : classify p ln (map text ws) = Ok (map (word_of p) ws)).
  { rewrite <- (app_nil_r (map text ws)), classify_words;
      [simpl; now rewrite app_nil_r|exact Ht|eapply run_words_known; eauto]. }
  rewrite Hc. cbn [bind]. fold is_positional. unfold positionals in Hp. fold is_positional in Hp. rewrite Hp.
  rewrite <- (app_nil_r (map (word_of p) ws)), (ploop_words p ln Ht _ _ _ _ _ _ _ _ Hrun).
  rewrite ploop_end by reflexivity. cbn. rewrite finish_ok by exact Hr. reflexivity.
Qed.

Lemma parse_line p ln ws m :
  table_ok p = true -> positionals p = [] ->
  (forall a, In a (p_actions p) -> settled a) ->
  (forall a, In a (p_actions p) -> a_required a = true ->
     exists w b, In w ws /\ option_of p (name w) = Some b /\ a_id b = a_id a) ->
  line_meaning p ws = Some m ->
  exists ns, parse_args p ln (map text ws) = Ok ns /\ forall d, get d ns = m d.
Proof.
  intros Ht Hp Hs Hr Hm.
  destruct (read_words_run p ws (init_ns (p_actions p)) _ _ [] (fun d => get_init_ns _ d) Hm)
    as (ns & seen & Hrun & Ha).
  exists ns. split; [|exact Ha]. eapply parse_words; eauto.
  intros a Hin. destruct (a_required a) eqn:E; [left|right; auto].
  rewrite (run_words_seen _ _ _ _ _ _ Hrun). right.
  destruct (Hr a Hin E) as (w & b & Hw & Hb & Hi). eauto.
Qed.

(** ** Consequences *)

Lemma read_words_app p m ws1 ws2 :
  read_words p m (ws1 ++ ws2) =
  match read_words p m ws1 with Some m' => read_words p m' ws2 | None => None end.
Proof.
  revert m. induction ws1 as [|w ws1 IH]; intros m; [reflexivity|]. simpl.
  destruct (read_word p m w); [apply IH|reflexivity].
Qed.

Lemma read_words_other p d ws : forall m m',
  (forall w, In w ws -> ~ writes p w d) -> read_words p m ws = Some m' -> m' d = m d.
Proof.
  induction ws as [|w ws IH]; intros m m' H E; simpl in E.
  - now injection E as <-.
  - unfold read_word in E. destruct (option_of p (name w)) as [a|] eqn:Eo; [|discriminate].
    destruct (given a w) as [v|]; [|discriminate].
    destruct (update a v (m (a_dest a))) as [v'|]; [|discriminate].
    rewrite (IH _ _ (fun w' Hw => H w' (or_intror Hw)) E). unfold set.
    destruct (String.eqb d (a_dest a)) eqn:Ed; [|reflexivity].
    apply String.eqb_eq in Ed. destruct (H w (or_introl eq_refl)). exists a. auto.
Qed.

Lemma last_word_wins p ws1 w ws2 a v m :
  line_meaning p (ws1 ++ w :: ws2) = Some m ->
  option_of p (name w) = Some a -> a_kind a = KStore -> given a w = Some v ->
  (forall w', In w' ws2 -> ~ writes p w' (a_dest a)) ->
  m (a_dest a) = v.
Proof.
  unfold line_meaning. intros E Ho Hk Hg Hl. rewrite read_words_app in E.
  destruct (read_words p _ ws1) as [m1|]; [|discriminate]. cbn [read_words] in E.
  unfold read_word in E. rewrite Ho, Hg in E. unfold update in E. rewrite Hk in E.
  rewrite (read_words_other _ _ _ _ _ Hl E). unfold set. rewrite String.eqb_refl. reflexivity.
Qed.

Lemma last_flag_wins p ws1 w ws2 a v m :
  line_meaning p (ws1 ++ w :: ws2) = Some m ->
  option_of p (name w) = Some a -> a_kind a = KStoreConst -> given a w = Some v ->
  (forall w', In w' ws2 -> ~ writes p w' (a_dest a)) ->
  m (a_dest a) = a_const a.
Proof.
  unfold line_meaning. intros E Ho Hk Hg Hl. rewrite read_words_app in E.
  destruct (read_words p _ ws1) as [m1|]; [|discriminate]. cbn [read_words] in E.
  unfold read_word in E. rewrite Ho, Hg in E. unfold update in E. rewrite Hk in E.
  destruct v; rewrite (read_words_other _ _ _ _ _ Hl E); unfold set; rewrite String.eqb_refl; reflexivity.
Qed.

Definition same_meaning (x y : option meaning) : Prop :=
  match x, y with
  | Some m, Some n => forall d, m d = n d
  | None, None => True
  | _, _ => False
  end.

Lemma same_meaning_trans x y z : same_meaning x y -> same_meaning y z -> same_meaning x z.
Proof. destruct x, y, z; simpl; try tauto. intros A B d. now rewrite A. Qed.

Lemma read_words_ext p ws : forall m n, (forall d, m d = n d) ->
  same_meaning (read_words p m ws) (read_words p n ws).
Proof.
  induction ws as [|w ws IH]; intros m n H; [exact H|]. simpl. unfold read_word.
  destruct (option_of p (name w)) as [a|]; [|exact I]. destruct (given a w) as [v|]; [|exact I].
  rewrite H. destruct (update a v (n (a_dest a))); [|exact I]. apply IH.
  intros d. unfold set. destruct (String.eqb d (a_dest a)); auto.
Qed.

Lemma read_words_swap p m w1 w2 r :
  (forall d, ~ (writes p w1 d /\ writes p w2 d)) ->
  same_meaning (read_words p m (w1 :: w2 :: r)) (read_words p m (w2 :: w1 :: r)).
Proof.
  intros H. cbn [read_words]. unfold read_word.
  destruct (option_of p (name w1)) as [a|] eqn:E1; destruct (option_of p (name w2)) as [b|] eqn:E2; try exact I.
  - assert (Hd : String.eqb (a_dest a) (a_dest b) = false).
    { destruct (String.eqb (a_dest a) (a_dest b)) eqn:E; [|reflexivity]. apply String.eqb_eq in E.
      destruct (H (a_dest a)). split; [exists a|exists b]; auto. }
    assert (S1 : forall x, set m (a_dest a) x (a_dest b) = m (a_dest b)).
    { intros x. unfold set. rewrite String.eqb_sym, Hd. reflexivity. }
    assert (S2 : forall x, set m (a_dest b) x (a_dest a) = m (a_dest a)).
    { intros x. unfold set. rewrite Hd. reflexivity. }
    destruct (given a w1) as [v|]; destruct (given b w2) as [u|]; try exact I.
    + destruct (update a v (m (a_dest a))) as [v'|] eqn:U1; destruct (update b u (m (a_dest b))) as [u'|] eqn:U2;
        rewrite ?S1, ?S2, ?U1, ?U2; try exact I.
      apply read_words_ext. intros d. unfold set.
      destruct (String.eqb d (a_dest b)) eqn:B; destruct (String.eqb d (a_dest a)) eqn:A; auto.
      apply String.eqb_eq in A, B. rewrite <- A, <- B, String.eqb_refl in Hd. discriminate.
    + destruct (update a v _); exact I.
    + destruct (update b u _); exact I.
  - destruct (given a w1); [destruct (update a v _)|]; exact I.
  - destruct (given b w2); [destruct (update b v _)|]; exact I.
Qed.

Lemma reorder_meaning p ws ws' : reorder p ws ws' ->
  same_meaning (line_meaning p ws) (line_meaning p ws').
Proof.
  induction 1 as [ws|l w1 w2 r ws Hd H IH].
  - unfold line_meaning. apply read_words_ext. reflexivity.
  - eapply same_meaning_trans; [|exact IH]. unfold line_meaning. rewrite !read_words_app.
    destruct (read_words p _ l) as [m|]; [|exact I]. apply read_words_swap. exact Hd.
Qed.

Lemma reorder_in p ws ws' w : reorder p ws ws' -> In w ws <-> In w ws'.
Proof.
  induction 1 as [ws|l w1 w2 r ws Hd H IH]; [tauto|]. rewrite <- IH. rewrite !in_app_iff. simpl. tauto.
Qed.

(** Namespaces of one table have the same keys, so equal meanings are equal
    namespaces. *)
Lemma init_ns_keys acts : forall ns,
  NoDup (map fst ns) ->
  NoDup (map fst (fold_left (fun ns a => if has_key (a_dest a) ns then ns else put (a_dest a) (a_default a) ns) acts ns)).
Proof.
  induction acts as [|a acts IH]; intros ns H; [exact H|]. cbn [fold_left]. apply IH.
  destruct (has_key (a_dest a) ns) eqn:E; [exact H|]. rewrite map_fst_put, E.
  clear IH. induction ns as [|[k v] ns IHn]; simpl in *; [repeat constructor; simpl; tauto|].
  unfold has_key in E. simpl in E. destruct (String.eqb (a_dest a) k) eqn:Ek; [discriminate|].
  inversion H as [|? ? H1 H2]; subst. constructor.
  - rewrite in_app_iff. simpl. intros [Hi|[Hi|[]]]; [tauto|]. subst k. rewrite String.eqb_refl in Ek. discriminate.
  - apply IHn; assumption.
Qed.

Lemma has_key_init a acts : In a acts -> has_key (a_dest a) (init_ns acts) = true.
Proof.
  unfold init_ns.
  assert (M : forall d acts ns, has_key d ns = true ->
    has_key d (fold_left (fun ns a => if has_key (a_dest a) ns then ns else put (a_dest a) (a_default a) ns) acts ns) = true).
  { intros d l. induction l as [|b l IH]; intros ns H; [exact H|]. cbn [fold_left]. apply IH.
    destruct (has_key (a_dest b) ns); [exact H|]. rewrite has_key_put, H. apply orb_true_r. }
  assert (G : forall acts ns, In a acts ->
    has_key (a_dest a) (fold_left (fun ns a => if has_key (a_dest a) ns then ns else put (a_dest a) (a_default a) ns) acts ns) = true).
  { clear acts. intros l. induction l as [|b l IH]; intros ns H; [destruct H|]. cbn [fold_left]. destruct H as [->|H]; [|apply IH; exact H].
    apply M. destruct (has_key (a_dest a) ns) eqn:E; [exact E|]. rewrite has_key_put, String.eqb_refl. reflexivity. }
  intros H. apply G. exact H.
Qed.
