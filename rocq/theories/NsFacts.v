(** * Which attributes a namespace has *)

From Verif Require Import PyStrFacts ArgSpec ArgParseFacts ArgLineFacts ArgErrFacts ArgDecl ArgDeclFacts.
From Verif Require Import Value.
Local Open Scope string_scope.
Local Open Scope list_scope.

(** The destinations of a table. *)
Definition dests (ops : list tableop) : list string := map d_dest (decls ops).

Section Keys.
Variable P : string -> Prop.
(** Something that holds of a namespace whose attributes are set one after the other. *)
Variable keys_in : attrs -> Prop.
Hypothesis keys_nil : keys_in [].
Hypothesis keys_put : forall d v n, P d -> keys_in n -> keys_in (put d v n).
Definition acts_in (l : list action) : Prop := forall a, In a l -> P (a_dest a).

Lemma call_action_keys a v n n' : P (a_dest a) -> keys_in n -> call_action a v n = Ok n' -> keys_in n'.
Proof.
  intros Hd H E. unfold call_action in E.
  destruct (a_kind a).
  - injection E as <-. now apply keys_put.
  - injection E as <-. now apply keys_put.
  - apply bind_ok in E as (? & _ & E). apply bind_ok in E as (? & _ & E). injection E as <-. now apply keys_put.
  - apply bind_ok in E as (? & _ & E). apply bind_ok in E as (? & _ & E). injection E as <-. now apply keys_put.
  - destruct (get (a_dest a) n); try discriminate; [|destruct v; try discriminate]; injection E as <-; now apply keys_put.
  - destruct (get (a_dest a) n); try (destruct (a_const a), v; try discriminate); injection E as <-; now apply keys_put.
Qed.
Lemma take_action_keys ln a args st st' : P (a_dest a) -> keys_in (s_ns st) -> take_action ln a args st = Ok st' -> keys_in (s_ns st').
Proof.
  intros Hd H E. unfold take_action in E. apply bind_ok in E as (v & _ & E). apply bind_ok in E as (n & E1 & E). injection E as <-.
  cbn [s_ns]. eauto using call_action_keys.
Qed.
Lemma take_positionals_keys ln acts : acts_in acts -> forall counts rest st st' r, keys_in (s_ns st) ->
  take_positionals ln acts counts rest st = Ok (st', r) -> keys_in (s_ns st').
Proof.
  intros HA. induction acts as [|a acts IH]; intros [|k counts] rest st st' r H E; cbn [take_positionals] in E;
    try (injection E as <- <-; exact H).
  apply bind_ok in E as (st1 & E1 & E). eapply IH in E; [exact E|intros b Hb; apply HA; now right|].
  eapply take_action_keys; [|exact H|exact E1]. apply HA. now left.
Qed.
Lemma consume_positionals_keys ln rest st st' r : acts_in (s_pos st) -> keys_in (s_ns st) ->
  consume_positionals ln rest st = Ok (st', r) -> acts_in (s_pos st') /\ keys_in (s_ns st').
Proof.
  intros HA H E. split.
  - intros a Ha. apply HA. exact (proj1 (consume_positionals_seen _ _ _ _ _ E) a Ha).
  - unfold consume_positionals in E. apply bind_ok in E as ([s q] & E1 & E2). injection E2 as <- <-. cbn [s_ns fst snd].
    eapply take_positionals_keys; eauto.
Qed.

Definition words_in (L : list (string * cls)) : Prop := forall s a x, In (s, CO (Some a) x) L -> P (a_dest a).

Lemma ploop_keys ln L st : words_in L -> acts_in (s_pos st) -> keys_in (s_ns st) ->
  match ploop ln L st with Ok st' => keys_in (s_ns st') | Err _ => True end.
Proof.
  apply (ploop_induct ln (fun L st X => words_in L -> acts_in (s_pos st) -> keys_in (s_ns st) ->
    match X with Ok st' => keys_in (s_ns st') | Err _ => True end)); auto.
  - intros L0 st0 st' r _ E _ HA HK. cbn [add_extras s_ns]. eapply consume_positionals_keys; eauto.
  - intros s oa x B st0 st' r X E HX HW HA HK. apply HX; clear HX.
    + intros s' a x' Hin. apply (HW s' a x'). right. pose proof E as E'. unfold consume_optional in E'.
      destruct oa as [b|]; [|injection E' as <- <-; exact Hin].
      destruct x as [v|].
      * destruct (match_optional _ _) as [[|[|?]]|]; try discriminate. apply bind_ok in E' as (? & _ & E'). injection E' as <- <-. exact Hin.
      * destruct (match_optional (a_nargs b) (map snd B)) as [k|]; [|discriminate]. apply bind_ok in E' as (? & _ & E'). injection E' as <- <-.
        eapply In_skipn; eauto.
    + unfold consume_optional in E. destruct oa as [b|]; [|injection E as <- <-; exact HA].
      destruct x as [v|].
      * destruct (match_optional _ _) as [[|[|?]]|]; try discriminate. apply bind_ok in E as (s1 & E & E'). injection E' as <- <-.
        apply take_action_seen in E as [_ ->]. exact HA.
      * destruct (match_optional (a_nargs b) (map snd B)) as [k|]; [|discriminate]. apply bind_ok in E as (s1 & E & E'). injection E' as <- <-.
        apply take_action_seen in E as [_ ->]. exact HA.
    + assert (Hb : match oa with Some b => P (a_dest b) | None => True end).
      { destruct oa as [b|]; [|exact I]. apply (HW s b x). now left. }
      unfold consume_optional in E. destruct oa as [b|]; [|injection E as <- <-; exact HK].
      destruct x as [v|].
      * destruct (match_optional _ _) as [[|[|?]]|]; try discriminate. apply bind_ok in E as (s1 & E & E'). injection E' as <- <-.
        eauto using take_action_keys.
      * destruct (match_optional (a_nargs b) (map snd B)) as [k|]; [|discriminate]. apply bind_ok in E as (s1 & E & E'). injection E' as <- <-.
        eauto using take_action_keys.
  - intros A s oa x B st0 st' r X _ _ E _ HX HW HA HK. pose proof (consume_positionals_suffix _ _ _ _ _ E) as (n & Hn).
    destruct (consume_positionals_keys _ _ _ _ _ HA HK E) as [HA' HK']. apply HX; auto.
    intros s' a x' Hin. apply (HW s' a x'). apply in_app_or in Hin as [Hin|Hin]; apply in_or_app; auto. left. rewrite Hn in Hin. eapply In_skipn; eauto.
  - intros A s oa x B st0 st' X _ _ E HX HW HA HK. destruct (consume_positionals_keys _ _ _ _ _ HA HK E) as [HA' HK'].
    apply HX; auto. intros s' a x' Hin. apply (HW s' a x'). apply in_or_app. auto.
Qed.

Lemma finish_keys ln acts : forall seen missing n n', acts_in acts -> keys_in n ->
  finish ln acts seen missing n = Ok n' -> keys_in n'.
Proof.
  induction acts as [|a acts IH]; intros seen missing n n' HA HK E; cbn [finish] in E.
  - destruct missing; [discriminate|]. injection E as <-. exact HK.
  - assert (HA' : acts_in acts) by (intros b Hb; apply HA; now right).
    destruct (existsb (Nat.eqb (a_id a)) seen); [eauto|]. destruct (a_required a); [eauto|].
    destruct (a_default a); try (eapply IH in E; eauto; fail). destruct (_ && _); [|eauto].
    apply bind_ok in E as (v & _ & E). eapply IH in E; [exact E|exact HA'|]. apply keys_put; [apply HA; now left|exact HK].
Qed.

Lemma init_keys acts : forall n, acts_in acts -> keys_in n ->
  keys_in (fold_left (fun ns a => if has_key (a_dest a) ns then ns else put (a_dest a) (a_default a) ns) acts n).
Proof.
  induction acts as [|a acts IH]; intros n HA HK; [exact HK|]. cbn [fold_left]. apply IH; [intros b Hb; apply HA; now right|].
  destruct (has_key (a_dest a) n); [exact HK|]. apply keys_put; [apply HA; now left|exact HK].
Qed.

Lemma parse_optional_action p ln s a x : parse_optional p ln s = Ok (CO (Some a) x) -> In a (map snd (p_optmap p)).
Proof.
  unfold parse_optional. destruct s as [|ch r]; [discriminate|]. destruct (negb _); [discriminate|].
  destruct (assoc (String ch r) (p_optmap p)) as [b|] eqn:E.
  - intros H. injection H as <- _. apply assoc_In_pair in E. apply in_map_iff. exists (String ch r, b). auto.
  - destruct r as [|d r]; [discriminate|]. destruct (partition_char EQUALS _) as [[o sep] v] eqn:Ep.
    destruct (if sep : bool then assoc o (p_optmap p) else None) as [b|] eqn:E2.
    + intros H. injection H as <- _. destruct sep; [|discriminate]. apply assoc_In_pair in E2. apply in_map_iff. exists (o, b). auto.
    + destruct (if Ascii.eqb d DASH then _ else _) as [|[b v'] [|? ?]] eqn:E3.
      * destruct (negative_number _); [discriminate|]. destruct (has_char _ _); discriminate.
      * intros H. injection H as <- _. destruct (Ascii.eqb d DASH); [|discriminate].
        unfold option_tuples in E3. rewrite Ep in E3. assert (Hin : In (b, v') [(b, v')]) by now left.
        rewrite <- E3 in Hin. apply in_map_iff in Hin as (kv & Hkv & Hin). injection Hkv as <- _.
        apply filter_In in Hin as [Hin _]. apply in_map. exact Hin.
      * discriminate.
Qed.

Lemma parse_known_keys p ln args n r : acts_in (all_actions p) -> parse_known_args p ln args = Ok (n, r) -> keys_in n.
Proof.
  intros H E. rewrite parse_known_args_ploop in E.
  assert (Ha : acts_in (p_actions p)) by (intros a Hin; apply H; unfold all_actions; apply in_or_app; auto).
  assert (Ho : acts_in (map snd (p_optmap p))) by (intros a Hin; apply H; unfold all_actions; apply in_or_app; auto).
  apply bind_ok in E as (L & Ec & E). apply bind_ok in E as (st & E1 & E). apply bind_ok in E as (n1 & E2 & E). injection E as <- _.
  eapply finish_keys; [exact Ha| |exact E2].
  match type of E1 with ploop ln L ?s = _ => pose proof (ploop_keys ln L s) as K end. rewrite E1 in K. apply K.
  - intros s a x Hin. apply Ho. eapply parse_optional_action. eapply classify_in; [exact Ec|exact Hin|discriminate|discriminate].
  - cbn [s_pos]. intros a Hin. apply filter_In in Hin as [Hin _]. auto.
  - cbn [s_ns]. unfold init_ns. apply init_keys; [exact Ha|]. exact keys_nil.
Qed.
End Keys.

(** The attributes of a namespace are destinations of the table. *)
Lemma known_dests ops ln args n r k :
  parse_known_args (build ops) ln args = Ok (n, r) -> has_key k n = true -> In k (dests ops).
Proof.
  intros E Hk. revert Hk. revert k. refine (parse_known_keys (fun k => In k (dests ops)) (fun n => forall k, has_key k n = true -> In k (dests ops)) _ _ _ _ _ _ _ _ E); [discriminate| |].
  { intros d v n0 Hd H k Hk. rewrite has_key_put in Hk. apply orb_true_iff in Hk as [Hk|Hk]; [|auto]. apply String.eqb_eq in Hk. now subst. }
  intros a Ha. destruct (build_from ops a Ha) as (d & Hd & F). unfold dests. destruct F as (-> & _). apply in_map. exact Hd.
Qed.
Lemma args_dests ops ln args n k :
  parse_args (build ops) ln args = Ok n -> has_key k n = true -> In k (dests ops).
Proof.
  unfold parse_args. intros E. apply bind_ok in E as ([n1 r] & E1 & E). cbn [fst snd] in E.
  destruct r; [|discriminate]. injection E as <-. eapply known_dests; eauto.
Qed.

(** No attribute is there twice. *)
Lemma keys_put_dict (k : string) (v : value) n : NoDup (map fst n) -> NoDup (map fst (put k v n)).
Proof.
  induction n as [|[x w] n IH]; intros H; cbn [put].
  - constructor; [intros []|constructor].
  - destruct (String.eqb_spec k x) as [->|Ne]; [exact H|]. cbn [map fst] in *. inversion H as [|? ? H1 H2]; subst. constructor; [|auto].
    intros Hin. apply H1. clear -Hin Ne. induction n as [|[y w'] n IH]; cbn [put map fst In] in *.
    + destruct Hin as [E|[]]. congruence.
    + destruct (String.eqb_spec k y) as [->|]; cbn [map fst In] in Hin; [exact Hin|]. destruct Hin as [->|Hin]; auto.
Qed.
Lemma keys_del_dict {A} (k : string) (n : list (string * A)) : NoDup (map fst n) -> NoDup (map fst (del k n)).
Proof.
  induction n as [|[x w] n IH]; intros H; cbn [del]; [constructor|]. cbn [map fst] in H. inversion H as [|? ? H1 H2]; subst.
  destruct (String.eqb_spec k x) as [->|Ne]; [auto|]. cbn [map fst]. constructor; [|auto].
  intros Hin. apply H1. clear -Hin. induction n as [|[y w'] n IH]; cbn [del] in *; [exact Hin|].
  destruct (String.eqb k y); cbn [map fst In] in *; tauto.
Qed.
Lemma known_dict p ln args n r : parse_known_args p ln args = Ok (n, r) -> NoDup (map fst n).
Proof.
  intros E. apply (parse_known_keys (fun _ => True) (fun n => NoDup (map fst n))) in E; [exact E|constructor| |].
  - intros d v n0 _ H. now apply keys_put_dict.
  - intros a _. exact I.
Qed.

(** ** The number of the line matters to errors only *)

Definition upto {A} (x y : res A) : Prop := forall r, x = Ok r -> y = Ok r.
Lemma upto_refl {A} (x : res A) : upto x x.
Proof. intros r H. exact H. Qed.
Lemma upto_err {A} e (y : res A) : upto (Err e) y.
Proof. intros r H. discriminate. Qed.
Lemma upto_bind {A B} (x y : res A) (f g : A -> res B) : upto x y -> (forall a, upto (f a) (g a)) -> upto (bind x f) (bind y g).
Proof. intros H HF r E. apply bind_ok in E as (a & E1 & E2). rewrite (H _ E1). cbn [bind]. now apply HF. Qed.
Lemma upto_map {A B} (f g : A -> res B) l : (forall a, upto (f a) (g a)) -> upto (map_res f l) (map_res g l).
Proof.
  intros H. induction l as [|a l IH]; cbn [map_res]; [apply upto_refl|].
  apply upto_bind; [apply H|]. intros b. apply upto_bind; [exact IH|]. intros c. apply upto_refl.
Qed.
Section Line.
Variables l1 l2 : option N.
Ltac up := first [apply upto_refl | apply upto_err | apply upto_bind; [|intros ?]; up].

Lemma up_parse_optional p s : upto (parse_optional p l1 s) (parse_optional p l2 s).
Proof.
  unfold parse_optional, ap_error. destruct s as [|ch r]; [up|]. destruct (negb _); [up|]. destruct (assoc _ _); [up|].
  destruct r; [up|]. destruct (partition_char _ _) as [[? ?] ?]. destruct (if _ : bool then _ else _); [up|].
  match goal with |- upto (match ?x with _ => _ end) _ => destruct x as [|[? ?] [|? ?]] end; up.
Qed.
Lemma up_classify p args : upto (classify p l1 args) (classify p l2 args).
Proof.
  induction args as [|s r IH]; cbn [classify]; [up|]. destruct (String.eqb s "--"); [up|].
  apply upto_bind; [apply up_parse_optional|]. intros. apply upto_bind; [exact IH|]. intros. up.
Qed.
Lemma up_get_value a s : upto (get_value l1 a s) (get_value l2 a s).
Proof. unfold get_value, ap_error. destruct (a_type a s) as [|[]]; up. Qed.
Lemma up_check_value a v : upto (check_value l1 a v) (check_value l2 a v).
Proof. unfold check_value, ap_error. destruct (a_choices a); [|up]. destruct v; try up. destruct (mem _ _); up. Qed.
Lemma up_get_checked a s : upto (get_checked l1 a s) (get_checked l2 a s).
Proof. apply upto_bind; [apply up_get_value|]. intros. apply up_check_value. Qed.
Lemma up_get_list a args : upto (get_list l1 a args) (get_list l2 a args).
Proof.
  apply upto_bind; [apply upto_map, up_get_value|]. intros. apply upto_bind; [apply upto_map, up_check_value|]. intros. up.
Qed.
Lemma up_get_values a args : upto (get_values l1 a args) (get_values l2 a args).
Proof.
  unfold get_values. cbv zeta. set (pos := match a_opts a with [] => true | _ => false end). clearbody pos.
  destruct (if pos then remove_first "--" args else args) as [|s [|? ?]]; destruct (a_nargs a);
  try apply up_get_list; try apply up_get_checked.
  - destruct (if pos then a_default a else a_const a); try up. apply up_get_checked.
  - destruct pos; [apply up_check_value|apply up_get_list].
Qed.
Lemma up_take_action a args st : upto (take_action l1 a args st) (take_action l2 a args st).
Proof. apply upto_bind; [apply up_get_values|]. intros. up. Qed.
Lemma up_consume_optional s oa x rest st : upto (consume_optional l1 s oa x rest st) (consume_optional l2 s oa x rest st).
Proof.
  unfold consume_optional, ap_error. destruct oa; [|up]. destruct x.
  - destruct (match_optional _ _) as [[|[|?]]|]; try up. apply upto_bind; [apply up_take_action|]. intros. up.
  - destruct (match_optional _ _); [|up]. apply upto_bind; [apply up_take_action|]. intros. up.
Qed.
Lemma up_take_positionals acts : forall counts rest st, upto (take_positionals l1 acts counts rest st) (take_positionals l2 acts counts rest st).
Proof.
  induction acts as [|a acts IH]; intros [|k counts] rest st; cbn [take_positionals]; try up.
  apply upto_bind; [apply up_take_action|]. intros. apply IH.
Qed.
Lemma up_consume_positionals rest st : upto (consume_positionals l1 rest st) (consume_positionals l2 rest st).
Proof. unfold consume_positionals. cbv zeta. apply upto_bind; [apply up_take_positionals|]. intros. up. Qed.
Lemma up_parse_loop fuel : forall rest st, upto (parse_loop fuel l1 rest st) (parse_loop fuel l2 rest st).
Proof.
  induction fuel as [|f IH]; intros rest st; unfold parse_loop; fold parse_loop; [up|].
  destruct (existsb (fun sc => is_co (snd sc)) rest).
  - destruct rest as [|[s []] r];
    try (apply upto_bind; [apply up_consume_positionals|]; intros [st' rest']; destruct (Nat.ltb _ _); [apply IH|];
         destruct (span_nonopt rest'); apply IH).
    apply upto_bind; [apply up_consume_optional|]. intros. apply IH.
  - apply upto_bind; [apply up_consume_positionals|]. intros [? ?]. up.
Qed.
Lemma up_finish acts : forall seen missing n, upto (finish l1 acts seen missing n) (finish l2 acts seen missing n).
Proof.
  induction acts as [|a acts IH]; intros seen missing n; cbn [finish]; unfold ap_error.
  - destruct missing; up.
  - destruct (existsb _ _); [apply IH|]. destruct (a_required a); [apply IH|]. destruct (a_default a); try apply IH.
    destruct (_ && _); [|apply IH]. apply upto_bind; [apply up_get_value|]. intros. apply IH.
Qed.
Lemma up_parse_known_args p args : upto (parse_known_args p l1 args) (parse_known_args p l2 args).
Proof.
  unfold parse_known_args. apply upto_bind; [apply up_classify|]. intros L. cbv zeta.
  apply upto_bind; [apply up_parse_loop|]. intros. apply upto_bind; [apply up_finish|]. intros. up.
Qed.
Lemma up_parse_args p args : upto (parse_args p l1 args) (parse_args p l2 args).
Proof. unfold parse_args, ap_error. apply upto_bind; [apply up_parse_known_args|]. intros [? []]; cbn [snd fst]; up. Qed.
End Line.
