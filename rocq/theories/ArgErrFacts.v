(** * Lemmas about failing option lines, and about spelling a value with or without
    an equals sign *)

From Verif Require Import PyStrFacts ArgParse ArgParseFacts ArgSpec ArgLineFacts.
From Verif Require Import Value.
From Coq Require Import Lia.
Local Open Scope string_scope.
Local Open Scope list_scope.

Lemma leading_args_le l : leading_args l <= length l.
Proof. induction l as [|[| |] l IH]; simpl; lia. Qed.

Lemma leading_args_stop A oa e B : leading_args (A ++ CO oa e :: B) = leading_args A.
Proof. induction A as [|[| |] A IH]; simpl; auto. Qed.

Lemma match_optional_stop n A oa e B : match_optional n (A ++ CO oa e :: B) = match_optional n A.
Proof. unfold match_optional. rewrite leading_args_stop. reflexivity. Qed.

Lemma match_optional_le n l k : match_optional n l = Some k -> k <= leading_args l.
Proof.
  unfold match_optional. destruct n.
  - destruct (Nat.leb_spec 1 (leading_args l)); [|discriminate]. intros H0; injection H0 as <-. lia.
  - destruct (Nat.leb_spec n (leading_args l)); [|discriminate]. intros H0; injection H0 as <-. lia.
  - intros H; injection H as <-. destruct (leading_args l); lia.
  - intros H; injection H as <-. lia.
  - destruct (Nat.leb_spec 1 (leading_args l)); [|discriminate]. intros H0; injection H0 as <-. lia.
Qed.

Lemma consume_optional_app ln s oa e A x oa' e' B st :
  consume_optional ln s oa e (A ++ (x, CO oa' e') :: B) st
  = do sr <- consume_optional ln s oa e A st ;; Ok (fst sr, snd sr ++ (x, CO oa' e') :: B).
Proof.
  unfold consume_optional. destruct oa as [a|]; [|reflexivity]. destruct e as [v|].
  - destruct (match_optional _ _) as [[|[|?]]|]; try reflexivity.
    destruct (take_action ln a [v] st); reflexivity.
  - rewrite map_app. cbn [map snd]. rewrite match_optional_stop.
    destruct (match_optional (a_nargs a) (map snd A)) as [k|] eqn:E; [|reflexivity].
    apply match_optional_le in E. pose proof (leading_args_le (map snd A)) as L. rewrite map_length in L.
    rewrite firstn_app, skipn_app. replace (k - length A) with 0 by lia.
    rewrite firstn_O, skipn_O, app_nil_r.
    destruct (take_action ln a (map fst (firstn k A)) st); reflexivity.
Qed.

(** Split a classified line at its first option. *)
Lemma first_option (L : list (string * cls)) :
  has_co L = false \/ exists A s oa e B, L = A ++ (s, CO oa e) :: B /\ has_co A = false.
Proof.
  induction L as [|[s c] L IH]; [left; reflexivity|]. destruct c as [| |oa e].
  - destruct IH as [IH|(A & s' & oa & e & B & -> & HA)]; [left; exact IH|].
    right. exists ((s, CA) :: A), s', oa, e, B. split; [reflexivity|exact HA].
  - destruct IH as [IH|(A & s' & oa & e & B & -> & HA)]; [left; exact IH|].
    right. exists ((s, CDash) :: A), s', oa, e, B. split; [reflexivity|exact HA].
  - right. exists [], s, oa, e, L. split; reflexivity.
Qed.

Definition takes_one (a : action) : Prop := a_nargs a = NOne \/ a_nargs a = NOpt \/ a_nargs a = NInt 1.

Lemma ploop_join ln a o o' v R : takes_one a ->
  forall n L st, length L <= n ->
  ploop ln (L ++ (o, CO (Some a) None) :: (v, CA) :: R) st
  = ploop ln (L ++ (o', CO (Some a) (Some v)) :: R) st.
Proof.
  intros Ha.
  assert (Base : forall st, ploop ln ((o, CO (Some a) None) :: (v, CA) :: R) st
                          = ploop ln ((o', CO (Some a) (Some v)) :: R) st).
  { intros st. rewrite !ploop_co. unfold consume_optional. cbn [map snd].
    destruct Ha as [Ha|[Ha|Ha]]; rewrite Ha; cbn [match_optional leading_args Nat.leb Nat.min firstn skipn map fst];
      (destruct (take_action ln a [v] st); reflexivity). }
  induction n as [|n IH]; intros L st Hn.
  { destruct L; [apply Base|simpl in Hn; lia]. }
  destruct (first_option L) as [HL|(A & s & oa & e & B & -> & HA)].
  - destruct L as [|x L]; [apply Base|].
    rewrite !ploop_chunk by (assumption || discriminate).
    destruct (consume_positionals ln (x :: L) st) as [[st' r]|]; cbn [bind fst snd]; [|reflexivity].
    destruct (Nat.ltb_spec (length r) (length (x :: L))) as [H|H].
    + apply IH. simpl in *. lia.
    + apply Base.
  - rewrite <- !app_assoc, <- !app_comm_cons. destruct A as [|x A].
    + cbn [app]. rewrite !ploop_co, !consume_optional_app.
      destruct (consume_optional ln s oa e B st) as [[st' r]|] eqn:E; cbn [bind fst snd]; [|reflexivity].
      apply consume_optional_len in E. apply IH. simpl in Hn. lia.
    + rewrite !ploop_chunk by (assumption || discriminate).
      destruct (consume_positionals ln (x :: A) st) as [[st' r]|]; cbn [bind fst snd]; [|reflexivity].
      rewrite app_length in Hn. simpl in Hn.
      destruct (Nat.ltb_spec (length r) (length (x :: A))) as [H|H].
      * rewrite !app_comm_cons, !app_assoc. apply IH. rewrite app_length. simpl in *. lia.
      * rewrite !app_comm_cons. apply IH. simpl. lia.
Qed.

Lemma classify_app p ln l r : ~ In "--" l ->
  classify p ln (l ++ r) = do a <- classify p ln l ;; do b <- classify p ln r ;; Ok (a ++ b).
Proof.
  induction l as [|s l IH]; intros H; cbn [app classify bind].
  - destruct (classify p ln r); reflexivity.
  - destruct (String.eqb s "--") eqn:E; [apply String.eqb_eq in E; subst; simpl in H; tauto|].
    destruct (parse_optional p ln s); cbn [bind]; [|reflexivity].
    rewrite IH by (simpl in H; tauto).
    destruct (classify p ln l); cbn [bind]; [|reflexivity]. destruct (classify p ln r); reflexivity.
Qed.

Lemma value_join p ln l o v r a :
  table_ok p = true -> option_of p o = Some a -> takes_one a ->
  startswith v "-" = false -> ~ In "--" l ->
  parse_known_args p ln (l ++ o :: v :: r) = parse_known_args p ln (l ++ (o ++ "=" ++ v)%string :: r).
Proof.
  intros Ht Ho Ha Hv Hl. rewrite !parse_known_args_ploop, !classify_app by exact Hl.
  rewrite (classify_word p ln (OFlag o) a) by assumption.
  rewrite (classify_word p ln (OVal o v) a) by assumption.
  rewrite classify_plain by exact Hv. cbn [word_cls text].
  destruct (classify p ln l) as [L|]; cbn [bind]; [|reflexivity].
  destruct (classify p ln r) as [R|]; cbn [bind]; [|reflexivity].
  rewrite (ploop_join ln a o (o ++ "=" ++ v)%string v R Ha (length L) L _ (le_n _)). reflexivity.
Qed.

(** ** Unknown options *)

Lemma take_action_extras ln a args st st' : take_action ln a args st = Ok st' -> s_extras st' = s_extras st.
Proof.
  unfold take_action. intros H. apply bind_ok in H as (? & _ & H). apply bind_ok in H as (? & _ & H).
  injection H as <-. reflexivity.
Qed.

Lemma take_positionals_extras ln acts : forall counts rest st st' r,
  take_positionals ln acts counts rest st = Ok (st', r) -> s_extras st' = s_extras st.
Proof.
  induction acts as [|a acts IH]; intros [|k counts] rest st st' r H; simpl in H;
    try (injection H as <- <-; reflexivity).
  apply bind_ok in H as (st1 & H1 & H). apply IH in H. rewrite H. eapply take_action_extras; eauto.
Qed.

Lemma consume_positionals_extras ln rest st st' r :
  consume_positionals ln rest st = Ok (st', r) -> s_extras st' = s_extras st.
Proof.
  unfold consume_positionals. intros H. apply bind_ok in H as ([s q] & H1 & H2).
  injection H2 as <- <-. apply take_positionals_extras in H1. exact H1.
Qed.

Definition unknown_in (L : list (string * cls)) : Prop := exists s e, In (s, CO None e) L.

Lemma unknown_not_co L : has_co L = false -> ~ unknown_in L.
Proof.
  intros H (s & e & Hin). assert (has_co L = true); [|congruence].
  apply existsb_exists. exists (s, CO None e). split; [exact Hin|reflexivity].
Qed.

Lemma unknown_app A B : unknown_in (A ++ B) -> unknown_in A \/ unknown_in B.
Proof. intros (s & e & H). apply in_app_or in H as [H|H]; [left|right]; exists s, e; exact H. Qed.

Lemma unknown_skip k L : k <= leading_args (map snd L) -> unknown_in L -> unknown_in (skipn k L).
Proof.
  revert k. induction L as [|[s c] L IH]; intros k Hk H; [destruct k; exact H|].
  destruct k as [|k]; [exact H|]. destruct c as [| |oa e]; simpl in Hk; try lia.
  simpl. apply IH; [lia|]. destruct H as (s' & e & [H|H]); [discriminate|]. exists s', e. exact H.
Qed.

Lemma app_nonnil_l {A} (l m : list A) : l <> [] -> l ++ m <> [].
Proof. destruct l; [congruence|discriminate]. Qed.

Lemma ploop_unknown ln : forall n L st st', length L <= n ->
  ploop ln L st = Ok st' -> unknown_in L \/ s_extras st <> [] -> s_extras st' <> [].
Proof.
  induction n as [|n IH]; intros L st st' Hn H Hu.
  { destruct L; [|simpl in Hn; lia]. rewrite ploop_end in H by reflexivity.
    apply bind_ok in H as ([s1 r] & H1 & H). injection H as <-. simpl.
    destruct Hu as [(s & e & [])|Hu]. apply app_nonnil_l. apply consume_positionals_extras in H1. congruence. }
  destruct (first_option L) as [HL|(A & s & oa & e & B & -> & HA)].
  - rewrite ploop_end in H by exact HL.
    apply bind_ok in H as ([s1 r] & H1 & H). injection H as <-. simpl.
    destruct Hu as [Hu|Hu]; [destruct (unknown_not_co _ HL Hu)|].
    apply app_nonnil_l. apply consume_positionals_extras in H1. congruence.
  - rewrite app_length in Hn. simpl in Hn. destruct A as [|x A].
    + cbn [app] in *. rewrite ploop_co in H. apply bind_ok in H as ([s1 r] & H1 & H). cbn [fst snd] in H.
      pose proof (consume_optional_len _ _ _ _ _ _ _ _ H1) as Hl. eapply IH; [|exact H|]; [simpl in *; lia|].
      unfold consume_optional in H1. destruct oa as [a|].
      * assert (Hu' : unknown_in B \/ s_extras st <> []).
        { destruct Hu as [(s' & e' & [Hu|Hu])|Hu]; [discriminate|left; exists s', e'; exact Hu|right; exact Hu]. }
        destruct e as [v|].
        -- destruct (match_optional _ _) as [[|[|?]]|]; try discriminate.
           apply bind_ok in H1 as (s2 & H1 & H2). injection H2 as <- <-.
           rewrite (take_action_extras _ _ _ _ _ H1). exact Hu'.
        -- destruct (match_optional (a_nargs a) (map snd B)) as [k|] eqn:Em; [|discriminate].
           apply bind_ok in H1 as (s2 & H1 & H2). injection H2 as <- <-.
           rewrite (take_action_extras _ _ _ _ _ H1). destruct Hu' as [Hu'|Hu']; [left|right; exact Hu'].
           apply unknown_skip; [|exact Hu']. now apply match_optional_le in Em.
      * injection H1 as <- <-. right. simpl. destruct (s_extras st); discriminate.
    + assert (Hu' : unknown_in ((s, CO oa e) :: B) \/ s_extras st <> []).
      { destruct Hu as [Hu|Hu]; [|right; exact Hu]. apply unknown_app in Hu as [Hu|Hu]; [|left; exact Hu].
        destruct (unknown_not_co _ HA Hu). }
      rewrite ploop_chunk in H by (assumption || discriminate).
      apply bind_ok in H as ([s1 r] & H1 & H). cbn [fst snd] in H.
      pose proof (consume_positionals_extras _ _ _ _ _ H1) as He.
      destruct (Nat.ltb_spec (length r) (length (x :: A))) as [Hlt|Hge].
      * eapply IH; [|exact H|]; [rewrite app_length; simpl in *; lia|].
        rewrite He. destruct Hu' as [(s' & e' & Hu')|Hu']; [left|right; exact Hu'].
        exists s', e'. apply in_or_app. right. exact Hu'.
      * eapply IH; [|exact H|]; [simpl in *; lia|]. simpl. rewrite He.
        destruct Hu' as [Hu'|Hu']; [left; exact Hu'|right; apply app_nonnil_l; exact Hu'].
Qed.

Lemma spells_self w o : has_char "=" o = false -> startswith w o = true ->
  (w = o \/ exists v, w = (o ++ String "=" v)%string) -> spells w o = true.
Proof.
  intros Ho _ [->|(v & ->)]; unfold spells, name_part.
  - rewrite partition_char_none by exact Ho. cbn [fst]. rewrite <- (app_nil_r_s o) at 1. apply startswith_app.
  - rewrite partition_char_app by exact Ho. cbn [fst]. rewrite <- (app_nil_r_s o) at 1. apply startswith_app.
Qed.

Lemma startswith_refl o : startswith o o = true.
Proof. rewrite <- (app_nil_r_s o) at 1. apply startswith_app. Qed.

Lemma parse_optional_unspelled p ln w c :
  table_ok p = true -> parse_optional p ln w = Ok c ->
  forall a e, c = CO (Some a) e -> exists o, In (o, a) (p_optmap p) /\ spells w o = true.
Proof.
  intros Ht H a e ->. unfold parse_optional in H.
  destruct w as [|c r]; [discriminate|]. destruct (Ascii.eqb c DASH) eqn:Ed; cbn [negb] in H; [|discriminate].
  destruct (assoc (String c r) (p_optmap p)) as [b|] eqn:Ea.
  { injection H as -> <-. exists (String c r). split; [now apply assoc_In_pair|].
    pose proof (table_ok_name p _ _ Ht Ea) as Hn. apply option_name_spec in Hn as (? & ? & _ & Hn).
    unfold spells, name_part. rewrite partition_char_none by exact Hn. apply startswith_refl. }
  destruct r as [|d r]; [discriminate|]. unfold spells, name_part. unfold EQUALS in *.
  destruct (partition_char "=" (String c (String d r))) as [[o sep] v] eqn:Ep. cbn [fst].
  destruct sep.
  - destruct (assoc o (p_optmap p)) as [b|] eqn:Eo.
    + injection H as -> <-. exists o. split; [now apply assoc_In_pair|apply startswith_refl].
    + destruct (Ascii.eqb d DASH); [|destruct (negative_number (String c (String d r))); [|destruct (has_char SP (String c (String d r)))]; discriminate].
      unfold option_tuples in H. unfold EQUALS in H. rewrite Ep in H.
      destruct (filter _ _) as [|[k b] [|? ?]] eqn:Ef; cbn [map] in H;
        [destruct (negative_number (String c (String d r))); [|destruct (has_char SP (String c (String d r)))]; discriminate| |discriminate].
      injection H as -> <-. exists k.
      assert (Hin : In (k, a) [(k, a)]) by (simpl; auto).
      rewrite <- Ef in Hin. apply filter_In in Hin. exact Hin.
  - destruct (Ascii.eqb d DASH); [|destruct (negative_number (String c (String d r))); [|destruct (has_char SP (String c (String d r)))]; discriminate].
    unfold option_tuples in H. unfold EQUALS in H. rewrite Ep in H.
    destruct (filter _ _) as [|[k b] [|? ?]] eqn:Ef; cbn [map] in H;
      [destruct (negative_number (String c (String d r))); [|destruct (has_char SP (String c (String d r)))]; discriminate| |discriminate].
    injection H as -> <-. exists k.
    assert (Hin : In (k, a) [(k, a)]) by (simpl; auto).
    rewrite <- Ef in Hin. apply filter_In in Hin. exact Hin.
Qed.

Lemma parse_optional_unknown p ln w :
  table_ok p = true ->
  startswith w "--" = true -> w <> "--" -> has_char SP w = false ->
  (forall o a, In (o, a) (p_optmap p) -> spells w o = false) ->
  parse_optional p ln w = Ok (CO None None).
Proof.
  intros Ht Hw Hn Hs Hu.
  apply startswith_spec in Hw as (t & ->). destruct t as [|c t]; [destruct Hn; reflexivity|].
  assert (Hneg : negative_number ("--" ++ String c t) = false).
  { unfold negative_number. change ("--" ++ String c t)%string with (String "-" (String "-" (String c t))).
    unfold chop_nl. destruct (ends_with_char _ _); [|reflexivity].
    set (k := String.length _ - 1). assert (Hk : exists j, k = S (S j)) by (exists (String.length t); subst k; simpl; lia).
    destruct Hk as [j ->]. reflexivity. }
  unfold parse_optional. cbn [append]. rewrite eqb_refl_a. cbn [negb].
  change (String "-" (String "-" (String c t))) with ("--" ++ String c t)%string.
  destruct (assoc _ _) as [a|] eqn:Ea.
  { exfalso. pose proof (table_ok_name p _ _ Ht Ea) as Hno. apply option_name_spec in Hno as (? & ? & _ & Hno).
    pose proof (Hu _ _ (assoc_In_pair _ _ _ Ea)) as Hx. unfold spells, name_part in Hx.
    rewrite partition_char_none in Hx by exact Hno. cbn [fst] in Hx. rewrite startswith_refl in Hx. discriminate. }
  change (Ascii.eqb "-" DASH) with true. cbv iota. unfold option_tuples.
  assert (Hf : forall pre, fst (fst (partition_char EQUALS ("--" ++ String c t))) = pre ->
             filter (fun kv : string * action => startswith (fst kv) pre) (p_optmap p) = []).
  { intros pre Hpre. destruct (filter _ _) as [|[k b] l] eqn:Ef; [reflexivity|exfalso].
    assert (Hin : In (k, b) ((k, b) :: l)) by (simpl; auto). rewrite <- Ef in Hin.
    apply filter_In in Hin as [Hin Hst]. pose proof (Hu _ _ Hin) as Hx. unfold spells, name_part in Hx.
    unfold EQUALS in Hpre. rewrite Hpre in Hx. simpl in Hst. congruence. }
  assert (Hg : forall o, fst (fst (partition_char EQUALS ("--" ++ String c t))) = o -> assoc o (p_optmap p) = None).
  { intros o Ho. apply assoc_none_notin. intros a Hin. pose proof (Hu _ _ Hin) as Hx.
    unfold spells, name_part in Hx. unfold EQUALS in Ho. rewrite Ho, startswith_refl in Hx. discriminate. }
  destruct (partition_char EQUALS ("--" ++ String c t)) as [[o sep] v] eqn:Ep. cbn [fst] in Hf, Hg.
  rewrite (Hf o eq_refl), (Hg o eq_refl), Hneg, Hs. destruct sep; reflexivity.
Qed.

Lemma unknown_rejected p ln l w r :
  table_ok p = true -> ~ In "--" l ->
  startswith w "--" = true -> w <> "--" -> has_char SP w = false ->
  (forall o a, In (o, a) (p_optmap p) -> spells w o = false) ->
  exists e, parse_args p ln (l ++ w :: r) = Err e.
Proof.
  intros Ht Hl Hw Hn Hs Hu. unfold parse_args. rewrite parse_known_args_ploop, classify_app by exact Hl.
  cbn [classify]. rewrite (parse_optional_unknown p ln w) by assumption.
  destruct (String.eqb w "--") eqn:E; [apply String.eqb_eq in E; congruence|]. cbn [bind].
  destruct (classify p ln l) as [L|e]; cbn [bind]; [|eauto].
  destruct (classify p ln r) as [R|e]; cbn [bind]; [|eauto].
  destruct (ploop ln _ _) as [st|e] eqn:Ep; cbn [bind]; [|eauto].
  assert (He : s_extras st <> []).
  { eapply ploop_unknown; [apply le_n|exact Ep|]. left. exists w, None. apply in_or_app. right. left. reflexivity. }
  destruct (finish _ _ _ _ _); cbn [bind]; [|eauto]. cbn [snd]. destruct (s_extras st); [congruence|].
  eexists. reflexivity.
Qed.

(** ** Induction over the loop *)

Definition add_extras (st : pstate) (l : list string) : pstate :=
  mkPstate (s_ns st) (s_seen st) (s_extras st ++ l) (s_pos st).

Lemma ploop_induct ln (Q : list (string * cls) -> pstate -> res pstate -> Prop) :
  (forall L st e, has_co L = false -> consume_positionals ln L st = Err e -> Q L st (Err e)) ->
  (forall L st st' r, has_co L = false -> consume_positionals ln L st = Ok (st', r) ->
     Q L st (Ok (add_extras st' (map fst r)))) ->
  (forall s oa x B st e, consume_optional ln s oa x B st = Err e -> Q ((s, CO oa x) :: B) st (Err e)) ->
  (forall s oa x B st st' r X, consume_optional ln s oa x B st = Ok (st', r) ->
     Q r st' X -> Q ((s, CO oa x) :: B) st X) ->
  (forall A s oa x B st e, has_co A = false -> A <> [] ->
     consume_positionals ln A st = Err e -> Q (A ++ (s, CO oa x) :: B) st (Err e)) ->
  (forall A s oa x B st st' r X, has_co A = false -> A <> [] ->
     consume_positionals ln A st = Ok (st', r) -> length r < length A ->
     Q (r ++ (s, CO oa x) :: B) st' X -> Q (A ++ (s, CO oa x) :: B) st X) ->
  (forall A s oa x B st st' X, has_co A = false -> A <> [] ->
     consume_positionals ln A st = Ok (st', A) ->
     Q ((s, CO oa x) :: B) (add_extras st' (map fst A)) X -> Q (A ++ (s, CO oa x) :: B) st X) ->
  forall L st, Q L st (ploop ln L st).
Proof.
  intros H1 H2 H3 H4 H5 H6 H7.
  assert (G : forall n L st, length L <= n -> Q L st (ploop ln L st)).
  { induction n as [|n IH]; intros L st Hn.
    - destruct L; [|simpl in Hn; lia]. rewrite ploop_end by reflexivity.
      destruct (consume_positionals ln [] st) as [[st' r]|e] eqn:E; cbn [bind]; [apply H2|apply H1]; auto.
    - destruct (first_option L) as [HL|(A & s & oa & x & B & -> & HA)].
      + rewrite ploop_end by exact HL.
        destruct (consume_positionals ln L st) as [[st' r]|e] eqn:E; cbn [bind]; [apply H2|apply H1]; auto.
      + rewrite app_length in Hn. simpl in Hn. destruct A as [|y A].
        * cbn [app] in *. rewrite ploop_co.
          destruct (consume_optional ln s oa x B st) as [[st' r]|e] eqn:E; cbn [bind fst snd]; [|now apply H3].
          eapply H4; [exact E|]. apply IH. apply consume_optional_len in E. simpl in *. lia.
        * assert (Hne : y :: A <> []) by discriminate.
          rewrite ploop_chunk by assumption.
          destruct (consume_positionals ln (y :: A) st) as [[st' r]|e] eqn:E; cbn [bind fst snd]; [|now apply H5].
          destruct (Nat.ltb_spec (length r) (length (y :: A))) as [Hlt|Hge].
          -- eapply H6; eauto. apply IH. rewrite app_length. simpl in *. lia.
          -- pose proof (consume_positionals_suffix _ _ _ _ _ E) as (k & Hk). rewrite Hk in Hge.
             rewrite skipn_ge_len in Hk by exact Hge. subst r. eapply H7; eauto. apply IH. simpl in *. lia. }
  intros L st. apply (G (length L)). lia.
Qed.

(** ** Which actions run *)

Lemma take_action_seen ln a args st st' :
  take_action ln a args st = Ok st' -> s_seen st' = a_id a :: s_seen st /\ s_pos st' = s_pos st.
Proof.
  unfold take_action. intros H. apply bind_ok in H as (? & _ & H). apply bind_ok in H as (? & _ & H).
  injection H as <-. auto.
Qed.

Lemma take_positionals_seen ln acts : forall counts rest st st' r,
  take_positionals ln acts counts rest st = Ok (st', r) ->
  s_pos st' = s_pos st /\
  forall i, In i (s_seen st') -> In i (s_seen st) \/ exists a, In a acts /\ a_id a = i.
Proof.
  induction acts as [|a acts IH]; intros [|k counts] rest st st' r H; simpl in H;
    try (injection H as <- <-; auto).
  apply bind_ok in H as (st1 & H1 & H). apply take_action_seen in H1 as [Hs Hp].
  apply IH in H as [Hp' Hi]. split; [congruence|]. intros i Hin.
  apply Hi in Hin as [Hin|(b & Hb & Hid)]; [|right; exists b; simpl; auto].
  rewrite Hs in Hin. destruct Hin as [<-|Hin]; [right; exists a; simpl; auto|auto].
Qed.

Lemma In_skipn {A} n (l : list A) x : In x (skipn n l) -> In x l.
Proof. intros H. rewrite <- (firstn_skipn n l). apply in_or_app. auto. Qed.

Lemma consume_positionals_seen ln rest st st' r :
  consume_positionals ln rest st = Ok (st', r) ->
  (forall a, In a (s_pos st') -> In a (s_pos st)) /\
  forall i, In i (s_seen st') -> In i (s_seen st) \/ exists a, In a (s_pos st) /\ a_id a = i.
Proof.
  unfold consume_positionals. intros H. apply bind_ok in H as ([s q] & H1 & H2).
  injection H2 as <- <-. simpl. apply take_positionals_seen in H1 as [Hp Hi]. split; [|exact Hi].
  intros a Ha. apply In_skipn in Ha. congruence.
Qed.

Definition ran_from (L : list (string * cls)) (st : pstate) (i : nat) : Prop :=
  In i (s_seen st) \/ (exists s a e, In (s, CO (Some a) e) L /\ a_id a = i)
  \/ exists a, In a (s_pos st) /\ a_id a = i.

Lemma ploop_seen ln L st :
  match ploop ln L st with
  | Ok st' => forall i, In i (s_seen st') -> ran_from L st i
  | Err _ => True
  end.
Proof.
  apply (ploop_induct ln (fun L st X => match X with
    | Ok st' => forall i, In i (s_seen st') -> ran_from L st i | Err _ => True end)); clear; auto.
  - intros L st st' r _ H i Hi. simpl in Hi. apply consume_positionals_seen in H as [_ H].
    apply H in Hi as [Hi|Hi]; [left|right; right]; exact Hi.
  - intros s oa x B st st' r [X|] H HX; auto. intros i Hi. apply HX in Hi.
    unfold consume_optional in H. destruct oa as [a|].
    + assert (K : exists args n, take_action ln a args st = Ok st' /\ r = skipn n B).
      { destruct x as [v|].
        - destruct (match_optional _ _) as [[|[|?]]|]; try discriminate.
          apply bind_ok in H as (s2 & H & H2). injection H2 as <- <-. exists [v], 0. auto.
        - destruct (match_optional (a_nargs a) (map snd B)) as [k|] eqn:Em; [|discriminate].
          apply bind_ok in H as (s2 & H & H2). injection H2 as <- <-. exists (map fst (firstn k B)), k. auto. }
      destruct K as (args & n & Ht & ->). apply take_action_seen in Ht as [Hs Hp].
      destruct Hi as [Hi|[(s' & b & e & Hin & Hb)|(b & Hin & Hb)]].
      * rewrite Hs in Hi. destruct Hi as [<-|Hi]; [|left; exact Hi].
        right. left. exists s, a, x. simpl. auto.
      * right. left. exists s', b, e. apply In_skipn in Hin. simpl. auto.
      * right. right. exists b. rewrite <- Hp. auto.
    + injection H as <- <-. destruct Hi as [Hi|[(s' & b & e & Hin & Hb)|(b & Hin & Hb)]].
      * left. exact Hi.
      * right. left. exists s', b, e. simpl. auto.
      * right. right. exists b. auto.
  - intros A s oa x B st st' r [X|] _ _ H _ HX; auto. intros i Hi. apply HX in Hi.
    pose proof (consume_positionals_suffix _ _ _ _ _ H) as (n & ->).
    apply consume_positionals_seen in H as [Hp H].
    destruct Hi as [Hi|[(s' & b & e & Hin & Hb)|(b & Hin & Hb)]].
    + apply H in Hi as [Hi|Hi]; [left|right; right]; exact Hi.
    + right. left. exists s', b, e. split; [|exact Hb]. apply in_app_or in Hin as [Hin|Hin]; apply in_or_app; auto.
      left. eapply In_skipn; eauto.
    + right. right. exists b. auto.
  - intros A s oa x B st st' [X|] _ _ H HX; auto. intros i Hi. apply HX in Hi.
    apply consume_positionals_seen in H as [Hp H].
    destruct Hi as [Hi|[(s' & b & e & Hin & Hb)|(b & Hin & Hb)]].
    + simpl in Hi. apply H in Hi as [Hi|Hi]; [left|right; right]; exact Hi.
    + right. left. exists s', b, e. split; [|exact Hb]. apply in_or_app; auto.
    + right. right. exists b. simpl in Hin. auto.
Qed.

Lemma finish_missing ln acts : forall seen missing ns,
  missing = true \/ (exists a, In a acts /\ a_required a = true /\ ~ In (a_id a) seen) ->
  exists e, finish ln acts seen missing ns = Err e.
Proof.
  induction acts as [|a acts IH]; intros seen missing ns H; cbn [finish].
  - destruct H as [->|(a & [] & _)]. eexists. reflexivity.
  - destruct (existsb (Nat.eqb (a_id a)) seen) eqn:E.
    + apply IH. destruct H as [H|(b & [<-|Hb] & Hr & Hs)]; eauto.
      exfalso. apply existsb_exists in E as (i & Hi & He). apply Nat.eqb_eq in He. subst i. auto.
    + destruct (a_required a) eqn:Er.
      * apply IH. auto.
      * assert (H' : missing = true \/ (exists a, In a acts /\ a_required a = true /\ ~ In (a_id a) seen)).
        { destruct H as [H|(b & [<-|Hb] & Hr & Hs)]; eauto. congruence. }
        destruct (a_default a); try (apply IH; exact H').
        destruct (_ && _); [|apply IH; exact H'].
        destruct (get_value ln a s); cbn [bind]; [apply IH; exact H'|eauto].
Qed.

Lemma classify_in p ln args : forall l s c, classify p ln args = Ok l -> In (s, c) l -> c <> CA -> c <> CDash ->
  In s args /\ parse_optional p ln s = Ok c.
Proof.
  induction args as [|w args IH]; intros l s c H Hin Hc Hd; cbn [classify] in H.
  - injection H as <-. destruct Hin.
  - destruct (String.eqb w "--") eqn:E.
    + injection H as <-. destruct Hin as [Hin|Hin]; [congruence|].
      apply in_map_iff in Hin as (y & Hy & _). congruence.
    + apply bind_ok in H as (k & Hk & H). apply bind_ok in H as (l' & Hl & H). injection H as <-.
      destruct Hin as [Hin|Hin]; [injection Hin as -> ->; simpl; auto|].
      eapply IH in Hl; eauto. simpl. tauto.
Qed.

Lemma required_missing p ln args a :
  table_ok p = true -> In a (p_actions p) -> a_required a = true -> is_positional a = false ->
  NoDup (map a_id (p_actions p)) ->
  (forall w o b, In w args -> In (o, b) (p_optmap p) -> a_id b = a_id a -> spells w o = false) ->
  exists e, parse_args p ln args = Err e.
Proof.
  intros Ht Ha Hr Hpos Hnd Hw. unfold parse_args. rewrite parse_known_args_ploop.
  destruct (classify p ln args) as [L|e] eqn:Ec; cbn [bind]; [|eauto].
  match goal with |- context [ploop ln L ?s] => set (st0 := s) end.
  pose proof (ploop_seen ln L st0) as Hs.
  destruct (ploop ln L st0) as [st|e]; cbn [bind]; [|eauto].
  destruct (finish_missing ln (p_actions p) (s_seen st) false (s_ns st)) as (e & He).
  { right. exists a. split; [exact Ha|]. split; [exact Hr|]. intros Hi. apply Hs in Hi.
    destruct Hi as [[]|[(s & b & x & Hin & Hb)|(b & Hin & Hb)]].
    - eapply classify_in in Ec as [Hs' Hp]; eauto; try discriminate.
      eapply parse_optional_unspelled in Hp as (o & Ho & Hsp); eauto.
      rewrite (Hw s o b Hs' Ho Hb) in Hsp. discriminate.
    - subst st0. simpl in Hin. apply filter_In in Hin as [Hin Hop].
      assert (b = a).
      { clear - Hnd Hin Ha Hb. induction (p_actions p) as [|y l IH]; [destruct Hin|].
        inversion Hnd as [|? ? Hy Hl]; subst. destruct Hin as [->|Hin], Ha as [->|Ha]; auto.
        - destruct Hy. apply in_map_iff. exists a. auto.
        - destruct Hy. apply in_map_iff. exists b. auto. }
      subst b. unfold is_positional in Hpos. rewrite Hpos in Hop. discriminate. }
  rewrite He. cbn [bind]. eauto.
Qed.

(** ** Every failure is a parse error for the line *)

Definition perr (ln : option N) (e : exn) : Prop := exists t, e = KSParseError ln t.

Lemma ap_error_perr {A} ln t e : @ap_error A ln t = Err e -> perr ln e.
Proof. intros H. injection H as <-. eexists. reflexivity. Qed.

Lemma get_value_perr ln a s e : fails_properly ln a -> get_value ln a s = Err e -> perr ln e.
Proof.
  intros Hf. unfold get_value. destruct (a_type a s) as [v|x] eqn:E; [discriminate|].
  apply Hf in E as [->|[->|(t & ->)]]; intros H; apply ap_error_perr in H; exact H.
Qed.

Lemma get_value_ok ln a s v : get_value ln a s = Ok v -> a_type a s = Ok v.
Proof. unfold get_value, ap_error. destruct (a_type a s) as [w|[]]; congruence. Qed.

Lemma check_value_perr ln a v e : check_value ln a v = Err e -> perr ln e.
Proof.
  unfold check_value. destruct (a_choices a); [|discriminate].
  destruct v; try (apply ap_error_perr). destruct (mem s l); [discriminate|apply ap_error_perr].
Qed.

Lemma check_value_ok ln a v w : check_value ln a v = Ok w -> w = v.
Proof.
  unfold check_value, ap_error. destruct (a_choices a); [|congruence].
  destruct v; try discriminate. destruct (mem s l); congruence.
Qed.

Lemma get_checked_perr ln a s e : fails_properly ln a -> get_checked ln a s = Err e -> perr ln e.
Proof.
  intros Hf H. unfold get_checked in H. apply bind_err in H as [H|(v & _ & H)].
  - eapply get_value_perr; eauto.
  - eapply check_value_perr; eauto.
Qed.

Lemma get_checked_ok ln a s v : get_checked ln a s = Ok v -> a_type a s = Ok v.
Proof.
  unfold get_checked. intros H. apply bind_ok in H as (w & Hw & H). apply check_value_ok in H. subst.
  eapply get_value_ok; eauto.
Qed.

Lemma map_res_perr {A B} ln (f : A -> res B) l e :
  (forall x y, f x = Err y -> perr ln y) -> map_res f l = Err e -> perr ln e.
Proof.
  intros Hf. induction l as [|x l IH]; simpl; [discriminate|]. intros H.
  apply bind_err in H as [H|(v & _ & H)]; [eapply Hf; eauto|].
  apply bind_err in H as [H|(w & _ & H)]; [auto|discriminate].
Qed.

Lemma map_res_forall {A B} (P : B -> Prop) (f : A -> res B) l r :
  (forall x y, In x l -> f x = Ok y -> P y) -> map_res f l = Ok r -> Forall P r.
Proof.
  revert r. induction l as [|x l IH]; simpl; intros r Hf H; [injection H as <-; constructor|].
  apply bind_ok in H as (v & Hv & H). apply bind_ok in H as (w & Hw & H). injection H as <-.
  constructor; [eapply Hf; eauto|]. apply IH; auto. intros; eapply Hf; eauto.
Qed.

Definition is_vstr (v : value) : Prop := exists t, v = VStr t.

Lemma strs_of_vstr l : Forall is_vstr l -> exists s, strs_of l = Ok s.
Proof.
  induction 1 as [|x l (t & ->) _ (s & IH)]; simpl; [eauto|]. rewrite IH. cbn [bind]. eauto.
Qed.

Lemma get_list_perr ln a args e : fails_properly ln a -> converts_to_strings a ->
  get_list ln a args = Err e -> perr ln e.
Proof.
  intros Hf Hc. unfold get_list. intros H. apply bind_err in H as [H|(l & Hl & H)].
  { eapply map_res_perr; [|exact H]. intros. eapply get_value_perr; eauto. }
  apply bind_err in H as [H|(l' & Hl' & H)].
  { eapply map_res_perr; [|exact H]. intros. eapply check_value_perr; eauto. }
  exfalso. assert (F : Forall is_vstr l).
  { eapply map_res_forall; [|exact Hl]. intros x y _ Hy. apply get_value_ok in Hy. eapply Hc; eauto. }
  assert (F' : Forall is_vstr l').
  { eapply map_res_forall; [|exact Hl']. intros x y Hx Hy. apply check_value_ok in Hy. subst y.
    rewrite Forall_forall in F. apply F. exact Hx. }
  apply strs_of_vstr in F' as (s & Hs). rewrite Hs in H. discriminate.
Qed.

Lemma get_list_ok ln a args v : get_list ln a args = Ok v -> exists l, v = VStrs l.
Proof.
  unfold get_list. intros H. apply bind_ok in H as (? & _ & H). apply bind_ok in H as (? & _ & H).
  apply bind_ok in H as (? & _ & H). injection H as <-. eauto.
Qed.

(** Words handed to an option are as many as it takes. *)
Definition right_count (a : action) (args : list string) : Prop :=
  match a_nargs a with
  | NOne => length args = 1 | NInt k => length args = k | NOpt => length args <= 1
  | NStar => True | NPlus => 1 <= length args
  end.

Lemma get_values_perr ln a args e : declared_properly ln a ->
  (is_positional a = true \/ right_count a args) ->
  get_values ln a args = Err e -> perr ln e.
Proof.
  intros (Hf & Hpos & Hn & Hk) Hor H. unfold get_values in H.
  fold (is_positional a) in H. destruct (is_positional a) eqn:Ep.
  - destruct (Hpos eq_refl) as [Hs _]. set (args' := remove_first "--" args) in *.
    destruct args' as [|x [|y l]]; destruct (a_nargs a) eqn:En;
      try (eapply get_list_perr; eassumption); try (eapply get_checked_perr; eassumption).
    + destruct (a_default a); try discriminate. eapply get_checked_perr; eassumption.
    + eapply check_value_perr; eassumption.
  - destruct Hor as [Hor|Hor]; [discriminate|]. unfold right_count in Hor.
    destruct args as [|x [|y l]]; destruct (a_nargs a) as [|k| | |] eqn:En; simpl in Hor; try lia;
      try (eapply get_list_perr; eassumption); try (eapply get_checked_perr; eassumption).
    + subst k. simpl in H. discriminate.
    + destruct (a_const a); try discriminate. eapply get_checked_perr; eassumption.
    + subst k. eapply get_list_perr; eassumption.
    + destruct k; [lia|]. eapply get_list_perr; eassumption.
Qed.

Definition ns_ok (p : parser) (ns : attrs) : Prop :=
  forall a, In a (all_actions p) -> collects (a_kind a) = true -> is_list_value (get (a_dest a) ns) = true.

Lemma get_values_kind ln a args v : declared_properly ln a -> is_positional a = false -> right_count a args ->
  get_values ln a args = Ok v ->
  match a_kind a with
  | KAppend => exists s, v = VStr s
  | KExtend | KExtendConst => exists l, v = VStrs l
  | _ => True
  end.
Proof.
  intros (Hf & _ & Hn & Hk) Hp Hc H. unfold get_values in H. fold (is_positional a) in H. rewrite Hp in H.
  unfold right_count in Hc. destruct (a_kind a) eqn:Ek; auto.
  - destruct Hk as (En & Hs & _). rewrite En in *. destruct args as [|x [|y l]]; simpl in Hc; try lia.
    apply get_checked_ok in H. eapply Hs; eauto.
  - destruct Hk as ([(En & Hs & _)|[En|En]] & _); rewrite En in *.
    + destruct args as [|x [|y l]]; simpl in Hc; try lia. apply get_checked_ok in H. eapply Hs; eauto.
    + destruct args as [|x [|y l]]; apply get_list_ok in H; exact H.
    + destruct args as [|x [|y l]]; apply get_list_ok in H; exact H.
  - destruct Hk as (En & _). rewrite En in *. destruct args; [|simpl in Hc; lia].
    apply get_list_ok in H. exact H.
Qed.

Lemma call_action_ok p ln a v ns : well_declared ln p -> In a (all_actions p) -> ns_ok p ns ->
  match a_kind a with
  | KAppend => exists s, v = VStr s
  | KExtend | KExtendConst => exists l, v = VStrs l
  | _ => True
  end ->
  exists ns', call_action a v ns = Ok ns' /\ ns_ok p ns'.
Proof.
  intros [Hd Hshare] Ha Hns Hv.
  assert (Keep : forall w, (collects (a_kind a) = true -> is_list_value w = true) ->
            ns_ok p (put (a_dest a) w ns)).
  { intros w Hw b Hb Hcb. rewrite get_put. destruct (String.eqb (a_dest b) (a_dest a)) eqn:E; [|now apply Hns].
    apply Hw. apply String.eqb_eq in E. eapply Hshare; [exact Hb|exact Ha|exact Hcb|congruence]. }
  pose proof (Hd a Ha) as (_ & _ & _ & Hk). pose proof (Hns a Ha) as Hl.
  unfold call_action. destruct (a_kind a) eqn:Ek; simpl in Hl; cbn [collects] in Keep.
  - eexists. split; [reflexivity|]. apply Keep. discriminate.
  - eexists. split; [reflexivity|]. apply Keep. discriminate.
  - destruct Hv as (s & ->). specialize (Hl eq_refl).
    destruct (get (a_dest a) ns); try discriminate; simpl; eexists; (split; [reflexivity|]); apply Keep; reflexivity.
  - destruct Hk as (_ & (s & ->) & _). specialize (Hl eq_refl).
    destruct (get (a_dest a) ns); try discriminate; simpl; eexists; (split; [reflexivity|]); apply Keep; reflexivity.
  - destruct Hv as (s & ->). specialize (Hl eq_refl).
    destruct (get (a_dest a) ns); try discriminate; simpl; eexists; (split; [reflexivity|]); apply Keep; reflexivity.
  - destruct Hv as (s & ->). destruct Hk as (_ & (l & ->) & _). specialize (Hl eq_refl).
    destruct (get (a_dest a) ns); try discriminate; simpl; eexists; (split; [reflexivity|]); apply Keep; reflexivity.
Qed.

Lemma take_action_cases p ln a args st : well_declared ln p -> In a (all_actions p) -> ns_ok p (s_ns st) ->
  (is_positional a = true \/ right_count a args) ->
  match take_action ln a args st with
  | Ok st' => ns_ok p (s_ns st')
  | Err e => perr ln e
  end.
Proof.
  intros Hw Ha Hns Hor. unfold take_action. pose proof (proj1 Hw a Ha) as Hd.
  destruct (get_values ln a args) as [v|e] eqn:Ev; cbn [bind].
  - destruct (call_action_ok p ln a v (s_ns st) Hw Ha Hns) as (ns' & -> & Hns').
    + destruct (is_positional a) eqn:Ep.
      * destruct Hd as (_ & Hpos & _). destruct (Hpos Ep) as [_ ->]. exact I.
      * destruct Hor as [Hor|Hor]; [discriminate|]. eapply get_values_kind; eauto.
    + cbn [bind]. exact Hns'.
  - eapply get_values_perr; eauto.
Qed.

Lemma take_positionals_cases p ln acts : well_declared ln p -> forall counts rest st,
  (forall a, In a acts -> In a (all_actions p) /\ is_positional a = true) -> ns_ok p (s_ns st) ->
  match take_positionals ln acts counts rest st with
  | Ok (st', _) => ns_ok p (s_ns st')
  | Err e => perr ln e
  end.
Proof.
  intros Hw. induction acts as [|a acts IH]; intros [|k counts] rest st Hin Hns; simpl; auto.
  destruct (Hin a (or_introl eq_refl)) as [Ha Hp].
  pose proof (take_action_cases p ln a (map fst (firstn k rest)) st Hw Ha Hns (or_introl Hp)) as H.
  destruct (take_action ln a (map fst (firstn k rest)) st) as [st'|e]; cbn [bind]; [|exact H].
  apply IH; auto. intros b Hb. apply Hin. simpl. auto.
Qed.

Definition st_ok (p : parser) (st : pstate) : Prop :=
  ns_ok p (s_ns st) /\ forall a, In a (s_pos st) -> In a (all_actions p) /\ is_positional a = true.

Lemma consume_positionals_cases p ln rest st : well_declared ln p -> st_ok p st ->
  match consume_positionals ln rest st with
  | Ok (st', _) => st_ok p st'
  | Err e => perr ln e
  end.
Proof.
  intros Hw [Hns Hpos]. unfold consume_positionals.
  set (counts := match_partial _ _).
  pose proof (take_positionals_cases p ln (s_pos st) Hw counts rest st Hpos Hns) as H.
  destruct (take_positionals ln (s_pos st) counts rest st) as [[st' r]|e] eqn:E; cbn [bind fst snd]; [|exact H].
  split; simpl; [exact H|]. intros a Ha. apply In_skipn in Ha. apply take_positionals_seen in E as [Hp _].
  rewrite Hp in Ha. auto.
Qed.

Definition cls_ok (p : parser) (L : list (string * cls)) : Prop :=
  forall s a e, In (s, CO (Some a) e) L -> In a (all_actions p) /\ is_positional a = false.

Lemma match_optional_count a l k : match_optional (a_nargs a) l = Some k ->
  k <= leading_args l /\ match a_nargs a with
  | NOne => k = 1 | NInt n => k = n | NOpt => k <= 1 | NStar => True | NPlus => 1 <= k end.
Proof.
  intros H. split; [eapply match_optional_le; eauto|].
  unfold match_optional in H. destruct (a_nargs a); auto.
  - destruct (Nat.leb 1 (leading_args l)); congruence.
  - destruct (Nat.leb n (leading_args l)); congruence.
  - injection H as <-. destruct (leading_args l); lia.
  - destruct (Nat.leb_spec 1 (leading_args l)); [|discriminate]. injection H as <-. lia.
Qed.

Lemma consume_optional_cases p ln s oa x B st : well_declared ln p -> st_ok p st ->
  cls_ok p ((s, CO oa x) :: B) ->
  match consume_optional ln s oa x B st with
  | Ok (st', r) => st_ok p st' /\ cls_ok p r
  | Err e => perr ln e
  end.
Proof.
  intros Hw [Hns Hpos] Hc. unfold consume_optional.
  assert (HcB : cls_ok p B) by (intros s' a e Hin; eapply Hc; simpl; eauto).
  destruct oa as [a|].
  - destruct (Hc s a x (or_introl eq_refl)) as [Ha Hp].
    destruct x as [v|].
    + destruct (match_optional (a_nargs a) [CA]) as [[|[|k]]|] eqn:Em; try (eexists; reflexivity).
      pose proof (take_action_cases p ln a [v] st Hw Ha Hns) as H.
      apply match_optional_count in Em as [_ Em].
      assert (Hr : right_count a [v]) by (unfold right_count; destruct (a_nargs a); simpl in *; auto; lia).
      specialize (H (or_intror Hr)).
      destruct (take_action ln a [v] st) as [st'|e] eqn:Et; cbn [bind]; [|exact H].
      split; [|exact HcB]. split; [exact H|]. apply take_action_seen in Et as [_ ->]. exact Hpos.
    + destruct (match_optional (a_nargs a) (map snd B)) as [k|] eqn:Em; [|eexists; reflexivity].
      pose proof (take_action_cases p ln a (map fst (firstn k B)) st Hw Ha Hns) as H.
      apply match_optional_count in Em as [Hk Em].
      pose proof (leading_args_le (map snd B)) as L. rewrite map_length in L.
      assert (Hr : right_count a (map fst (firstn k B))).
      { unfold right_count. rewrite map_length, firstn_length, Nat.min_l by lia. destruct (a_nargs a); auto. }
      specialize (H (or_intror Hr)).
      destruct (take_action ln a (map fst (firstn k B)) st) as [st'|e] eqn:Et; cbn [bind]; [|exact H].
      split; [|intros s' b e Hin; apply In_skipn in Hin; eapply HcB; eauto].
      split; [exact H|]. apply take_action_seen in Et as [_ ->]. exact Hpos.
  - split; [|exact HcB]. split; assumption.
Qed.

Lemma ploop_cases p ln : well_declared ln p -> forall L st,
  st_ok p st -> cls_ok p L ->
  match ploop ln L st with Ok st' => st_ok p st' | Err e => perr ln e end.
Proof.
  intros Hw L st.
  apply (ploop_induct ln (fun L st X => st_ok p st -> cls_ok p L ->
            match X with Ok st' => st_ok p st' | Err e => perr ln e end)); clear L st.
  - intros L st e _ E Hst _. pose proof (consume_positionals_cases p ln L st Hw Hst) as H. rewrite E in H. exact H.
  - intros L st st' r _ E Hst _. pose proof (consume_positionals_cases p ln L st Hw Hst) as H. rewrite E in H. exact H.
  - intros s oa x B st e E Hst Hc. pose proof (consume_optional_cases p ln s oa x B st Hw Hst Hc) as H. rewrite E in H. exact H.
  - intros s oa x B st st' r X E HX Hst Hc. pose proof (consume_optional_cases p ln s oa x B st Hw Hst Hc) as H.
    rewrite E in H. apply HX; apply H.
  - intros A s oa x B st e _ _ E Hst _. pose proof (consume_positionals_cases p ln A st Hw Hst) as H. rewrite E in H. exact H.
  - intros A s oa x B st st' r X _ _ E _ HX Hst Hc. pose proof (consume_positionals_cases p ln A st Hw Hst) as H.
    pose proof (consume_positionals_suffix _ _ _ _ _ E) as (n & ->). rewrite E in H. apply HX; [exact H|].
    intros s' a e Hin. eapply Hc. apply in_app_or in Hin as [Hin|Hin]; apply in_or_app; [left|right; exact Hin].
    eapply In_skipn; eauto.
  - intros A s oa x B st st' X _ _ E HX Hst Hc. pose proof (consume_positionals_cases p ln A st Hw Hst) as H.
    rewrite E in H. apply HX; [exact H|]. intros s' a e Hin. eapply Hc. apply in_or_app. right. exact Hin.
Qed.

Lemma finish_cases ln acts : (forall a, In a acts -> fails_properly ln a) -> forall seen missing ns e,
  finish ln acts seen missing ns = Err e -> perr ln e.
Proof.
  induction acts as [|a acts IH]; intros Hf seen missing ns e H; cbn [finish] in H.
  - destruct missing; [apply ap_error_perr in H; exact H|discriminate].
  - assert (IH' : forall seen missing ns e, finish ln acts seen missing ns = Err e -> perr ln e)
      by (apply IH; intros; apply Hf; simpl; auto).
    destruct (existsb _ seen); [eauto|]. destruct (a_required a); [eauto|].
    destruct (a_default a); eauto. destruct (_ && _); eauto.
    apply bind_err in H as [H|(v & _ & H)]; eauto. eapply get_value_perr; [|exact H]. apply Hf. simpl. auto.
Qed.

Lemma parse_optional_perr p ln s e : parse_optional p ln s = Err e -> perr ln e.
Proof.
  unfold parse_optional. destruct s as [|c r]; [discriminate|]. destruct (negb _); [discriminate|].
  destruct (assoc _ _); [discriminate|]. destruct r as [|d r]; [discriminate|].
  destruct (partition_char _ _) as [[o sep] v].
  destruct (if sep then _ else _); [discriminate|].
  destruct (if Ascii.eqb d DASH then _ else _) as [|[? ?] [|? ?]]; try discriminate.
  - destruct (negative_number _); [discriminate|]. destruct (has_char SP _); discriminate.
  - apply ap_error_perr.
Qed.

Lemma classify_perr p ln args e : classify p ln args = Err e -> perr ln e.
Proof.
  induction args as [|s args IH]; cbn [classify]; [discriminate|].
  destruct (String.eqb s "--"); [discriminate|]. intros H.
  apply bind_err in H as [H|(c & _ & H)]; [eapply parse_optional_perr; eauto|].
  apply bind_err in H as [H|(l & _ & H)]; [auto|discriminate].
Qed.

Lemma classify_cls_ok p ln args L : table_ok p = true -> classify p ln args = Ok L -> cls_ok p L.
Proof.
  intros Ht H s a e Hin. eapply classify_in in H as [_ H]; eauto; try discriminate.
  eapply parse_optional_unspelled in H as (o & Ho & _); eauto. split.
  - unfold all_actions. apply in_or_app. right. apply in_map_iff. exists (o, a). auto.
  - unfold table_ok in Ht. rewrite forallb_forall in Ht. apply Ht in Ho. apply andb_prop in Ho as [_ Ho].
    now apply negb_true_iff in Ho.
Qed.

Lemma declared_list acts d : (forall a, In a acts -> a_dest a = d -> is_list_value (a_default a) = true) ->
  is_list_value (declared acts d) = true.
Proof.
  induction acts as [|a acts IH]; intros H; simpl; [reflexivity|].
  destruct (String.eqb d (a_dest a)) eqn:E.
  - apply String.eqb_eq in E. apply H; simpl; auto.
  - apply IH. intros; apply H; simpl; auto.
Qed.

Lemma init_ns_ok p ln : well_declared ln p -> ns_ok p (init_ns (p_actions p)).
Proof.
  intros [Hd Hs] a Ha Hc. rewrite get_init_ns. apply declared_list. intros b Hb Hdst.
  assert (Hb' : In b (all_actions p)) by (unfold all_actions; apply in_or_app; auto).
  pose proof (Hs a b Ha Hb' Hc Hdst) as Hcb. destruct (Hd b Hb') as (_ & _ & _ & Hk).
  destruct (a_kind b); try discriminate; tauto.
Qed.

Lemma parse_known_perr p ln args e : table_ok p = true -> well_declared ln p ->
  parse_known_args p ln args = Err e -> perr ln e.
Proof.
  intros Ht Hw. rewrite parse_known_args_ploop. intros H.
  apply bind_err in H as [H|(L & HL & H)]; [eapply classify_perr; eauto|].
  match type of H with context [ploop ln L ?s] => set (st0 := s) in * end.
  assert (Hst : st_ok p st0).
  { split; [eapply init_ns_ok; eauto|]. simpl. intros a Ha. apply filter_In in Ha as [Ha Hp]. split.
    - unfold all_actions. apply in_or_app. auto.
    - exact Hp. }
  pose proof (ploop_cases p ln Hw L st0 Hst (classify_cls_ok _ _ _ _ Ht HL)) as Hl.
  destruct (ploop ln L st0) as [st|x]; cbn [bind] in H; [|injection H as <-; exact Hl].
  apply bind_err in H as [H|(ns & _ & H)]; [|discriminate].
  eapply finish_cases; [|exact H]. intros a Ha. apply (proj1 Hw). unfold all_actions. apply in_or_app. auto.
Qed.

Lemma parse_args_perr p ln args e : table_ok p = true -> well_declared ln p ->
  parse_args p ln args = Err e -> perr ln e.
Proof.
  intros Ht Hw H. unfold parse_args in H. apply bind_err in H as [H|([ns ex] & _ & H)].
  - eapply parse_known_perr; eauto.
  - cbn [fst snd] in H. destruct ex; [discriminate|]. eapply ap_error_perr; eauto.
Qed.


(** ** Tables built with add_argument and remove_argument are well formed *)

Lemma In_del {V} o (m : list (string * V)) kv : In kv (del o m) -> In kv m.
Proof.
  induction m as [|[k v] m IH]; simpl; auto. destruct (String.eqb o k); simpl; intuition.
Qed.
Lemma In_put {V} o (x : V) (m : list (string * V)) kv : In kv (put o x m) -> In kv m \/ kv = (o, x).
Proof.
  induction m as [|[k v] m IH]; simpl; [intuition|].
  destruct (String.eqb o k) eqn:E; simpl; intuition.
  apply String.eqb_eq in E. subst. auto.
Qed.

Lemma table_ok_in p : table_ok p = true <->
  forall kv, In kv (p_optmap p) -> option_name (fst kv) && negb (is_positional (snd kv)) = true.
Proof. unfold table_ok. apply forallb_forall. Qed.

Lemma resolve_sub opts : forall p kv, In kv (p_optmap (fold_left resolve_one opts p)) -> In kv (p_optmap p).
Proof.
  induction opts as [|o opts IH]; simpl; intros p kv H; auto. apply IH in H. unfold resolve_one in H.
  destruct (assoc o (p_optmap p)); [|exact H]. simpl in H. eapply In_del; eauto.
Qed.

Lemma put_all_in opts (a : action) : forall m kv,
  In kv (fold_left (fun m o => put o a m) opts m) -> In kv m \/ (In (fst kv) opts /\ snd kv = a).
Proof.
  induction opts as [|o opts IH]; simpl; intros m kv H; auto.
  apply IH in H as [H|[H H']]; auto. apply In_put in H as [H| ->]; auto.
Qed.

Lemma add_argument_ok p mk :
  table_ok p = true -> forallb option_name (a_opts (mk (p_next p))) = true ->
  table_ok (add_argument p mk) = true.
Proof.
  intros Ht Ho. rewrite table_ok_in in *. intros kv H. unfold add_argument in H. simpl in H.
  apply put_all_in in H as [H|[H ->]].
  - apply Ht. eapply resolve_sub; eauto.
  - rewrite forallb_forall in Ho. rewrite (Ho _ H). unfold is_positional.
    destruct (a_opts (mk (p_next p))); [destruct H|reflexivity].
Qed.

Lemma remove_argument_ok p o : table_ok p = true -> table_ok (remove_argument p o) = true.
Proof.
  intros Ht. unfold remove_argument. destruct (existsb _ _); [|exact Ht].
  rewrite table_ok_in in *. simpl. intros kv H. apply Ht. eapply In_del; eauto.
Qed.

(** ** Lines mixing options and plain words, for tables without positionals *)

Lemma ploop_extra ln s c r st : s_pos st = [] -> is_co c = false ->
  ploop ln ((s, c) :: r) st = ploop ln r (add_extras st [s]).
Proof.
  intros Hp Hc.
  assert (CP : forall L st', s_pos st' = [] -> consume_positionals ln L st' = Ok (st', L)).
  { intros L [n e x p] E. simpl in E. subst p. reflexivity. }
  destruct (has_co r) eqn:E.
  - destruct (first_option r) as [E'|(A & s' & oa & x & B & -> & HA)]; [congruence|].
    change ((s, c) :: A ++ (s', CO oa x) :: B) with (((s, c) :: A) ++ (s', CO oa x) :: B).
    rewrite ploop_chunk; [|unfold has_co in *; simpl; rewrite Hc; exact HA|discriminate].
    rewrite CP by exact Hp. cbn [bind fst snd]. rewrite Nat.ltb_irrefl.
    destruct A as [|a A].
    + simpl. unfold add_extras. reflexivity.
    + rewrite ploop_chunk; [|exact HA|discriminate]. rewrite CP by exact Hp. cbn [bind fst snd].
      rewrite Nat.ltb_irrefl. unfold add_extras. simpl. rewrite <- app_assoc. reflexivity.
  - rewrite !ploop_end; [|exact E|unfold has_co in *; simpl; rewrite Hc; exact E].
    rewrite !CP by exact Hp. cbn [bind fst snd]. unfold add_extras. simpl. rewrite <- app_assoc. reflexivity.
Qed.

(** An item of a line: an option word or a plain word. *)
Inductive item := IOpt (w : oword) | IArg (s : string).
Definition itext (i : item) : string := match i with IOpt w => text w | IArg s => s end.
Definition iopts (l : list item) : list oword :=
  flat_map (fun i => match i with IOpt w => [w] | IArg _ => [] end) l.
Definition iargs (l : list item) : list string :=
  flat_map (fun i => match i with IOpt _ => [] | IArg s => [s] end) l.
Definition plain_word (s : string) : bool := negb (startswith s "-").

Definition item_of (p : parser) (i : item) : string * cls :=
  match i with IOpt w => word_of p w | IArg s => (s, CA) end.

Lemma classify_items p ln l r : table_ok p = true ->
  Forall (fun w => option_of p (name w) <> None) (iopts l) -> forallb plain_word (iargs l) = true ->
  classify p ln (map itext l ++ r) = do x <- classify p ln r ;; Ok (map (item_of p) l ++ x).
Proof.
  intros Ht. induction l as [|[w|s] l IH]; intros H1 H2; cbn [map app].
  - destruct (classify p ln r); reflexivity.
  - cbn [iopts flat_map app] in H1. inversion H1 as [|? ? Hw Hr]; subst.
    destruct (option_of p (name w)) as [a|] eqn:E; [|congruence]. cbn [itext].
    rewrite (classify_word p ln w a) by assumption. rewrite (IH Hr H2).
    destruct (classify p ln r); [|reflexivity]. cbn [bind item_of]. unfold word_of at 1. rewrite E. reflexivity.
  - cbn [iargs flat_map app forallb] in H2. apply andb_prop in H2 as [Hs H2]. cbn [itext].
    unfold plain_word in Hs. apply negb_true_iff in Hs.
    rewrite classify_plain by exact Hs. rewrite (IH H1 H2). destruct (classify p ln r); reflexivity.
Qed.

Lemma ploop_items p ln : table_ok p = true -> forall l rest ns seen ns' seen' ex,
  run_words p (iopts l) ns seen = Some (ns', seen') ->
  ploop ln (map (item_of p) l ++ rest) (mkPstate ns seen ex [])
  = ploop ln rest (mkPstate ns' seen' (ex ++ iargs l) []).
Proof.
  intros Ht. induction l as [|[w|s] l IH]; intros rest ns seen ns' seen' ex H.
  - cbn in H. injection H as -> ->. cbn [map app iargs flat_map]. rewrite app_nil_r. reflexivity.
  - change (iopts (IOpt w :: l)) with ([w] ++ iopts l) in H. rewrite run_words_app in H.
    destruct (run_words p [w] ns seen) as [[n1 s1]|] eqn:E1; [|discriminate].
    cbn [map app]. change (item_of p (IOpt w) :: map (item_of p) l ++ rest)
      with (map (word_of p) [w] ++ (map (item_of p) l ++ rest)).
    rewrite (ploop_words p ln Ht _ _ _ _ _ _ _ _ E1). apply IH. exact H.
  - cbn [map app item_of]. rewrite ploop_extra by reflexivity. unfold add_extras. cbn [s_ns s_seen s_extras s_pos].
    rewrite (IH _ _ _ _ _ _ H). cbn [iargs flat_map]. rewrite <- app_assoc. reflexivity.
Qed.

Lemma parse_known_items p ln l m :
  table_ok p = true -> positionals p = [] ->
  (forall a, In a (p_actions p) -> settled a) ->
  (forall a, In a (p_actions p) -> a_required a = true ->
     exists w b, In w (iopts l) /\ option_of p (name w) = Some b /\ a_id b = a_id a) ->
  line_meaning p (iopts l) = Some m -> forallb plain_word (iargs l) = true ->
  exists ns, parse_known_args p ln (map itext l) = Ok (ns, iargs l) /\ forall d, get d ns = m d.
Proof.
  intros Ht Hp Hs Hr Hm Ha.
  destruct (read_words_run p (iopts l) (init_ns (p_actions p)) _ _ [] (fun d => get_init_ns _ d) Hm)
    as (ns & seen & Hrun & Hag).
  exists ns. split; [|exact Hag]. rewrite parse_known_args_ploop.
  rewrite <- (app_nil_r (map itext l)), classify_items;
    [|exact Ht|eapply run_words_known; eauto|exact Ha]. cbn [classify bind].
  fold is_positional. unfold positionals in Hp. fold is_positional in Hp. rewrite Hp.
  rewrite (ploop_items p ln Ht _ _ _ _ _ _ _ Hrun). rewrite ploop_end by reflexivity. cbn.
  rewrite app_nil_r. rewrite finish_ok; [reflexivity|].
  intros a Hin. destruct (a_required a) eqn:E; [left|right; auto].
  rewrite (run_words_seen _ _ _ _ _ _ Hrun). right.
  destruct (Hr a Hin E) as (w & b & Hw & Hb & Hi). eauto.
Qed.
