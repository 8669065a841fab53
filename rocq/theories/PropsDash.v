(** * C43: the word -- ends the options *)

From Coq Require Import Lia Wf_nat.
From Verif Require Import PyStrFacts ArgParseFacts ArgLineFacts ArgSpec ArgDecl ArgDeclFacts ArgTable PyClass.
From Verif Require Import Value.
Local Open Scope string_scope.
Local Open Scope list_scope.
Local Arguments String.eqb : simpl never.

Lemma no_positionals ln l st : s_pos st = [] -> consume_positionals ln l st = Ok (st, l).
Proof. intros H. destruct st as [ns seen ex pos]. cbn in H. subst pos. reflexivity. Qed.
Lemma leading_app A B : leading_args (A ++ CDash :: B) = leading_args A.
Proof. induction A as [|[] A IH]; cbn; auto. Qed.
Lemma leading_length A : leading_args A <= length A.
Proof. induction A as [|[] A IH]; cbn; lia. Qed.
Lemma match_app n A B : match_optional n (A ++ CDash :: B) = match_optional n A.
Proof. destruct n; cbn [match_optional]; rewrite ?leading_app; reflexivity. Qed.
Lemma match_length n A k : match_optional n A = Some k -> k <= length A.
Proof.
  pose proof (leading_length A) as L. destruct n as [|j| | |]; unfold match_optional; intros H.
  - destruct (Nat.leb_spec 1 (leading_args A)); [|discriminate]. injection H as <-. lia.
  - destruct (Nat.leb_spec j (leading_args A)); [|discriminate]. injection H as <-. lia.
  - assert (E : k = Nat.min 1 (leading_args A)) by congruence. rewrite E. lia.
  - injection H as <-. lia.
  - destruct (Nat.leb_spec 1 (leading_args A)); [|discriminate]. injection H as <-. lia.
Qed.

(** What is left over. *)
Definition left_over (ws : list string) (st : pstate) : pstate := mkPstate (s_ns st) (s_seen st) (s_extras st ++ ws) (s_pos st).
Lemma take_pos ln a args st st' : take_action ln a args st = Ok st' -> s_pos st' = s_pos st.
Proof. unfold take_action. intros H. apply bind_ok in H as (v & _ & H). apply bind_ok in H as (n & _ & H). now injection H as <-. Qed.
Lemma consume_app ln s oa e A w B st : consume_optional ln s oa e (A ++ (w, CDash) :: B) st =
  do sr <- consume_optional ln s oa e A st ;; Ok (fst sr, snd sr ++ (w, CDash) :: B).
Proof.
  unfold consume_optional. destruct oa as [a|]; [|reflexivity]. destruct e as [x|].
  - destruct (match_optional (a_nargs a) [CA]) as [[|[|k]]|]; try reflexivity. destruct (take_action ln a [x] st); reflexivity.
  - rewrite map_app. cbn [map snd]. rewrite match_app. destruct (match_optional (a_nargs a) (map snd A)) as [k|] eqn:M; [|reflexivity].
    apply match_length in M. rewrite map_length in M.
    rewrite firstn_app, skipn_app. replace (k - length A) with 0 by lia. cbn [firstn skipn]. rewrite app_nil_r.
    destruct (take_action ln a (map fst (firstn k A)) st); reflexivity.
Qed.
Lemma consume_pos ln s oa e A st st' r : consume_optional ln s oa e A st = Ok (st', r) -> s_pos st' = s_pos st.
Proof.
  unfold consume_optional. destruct oa as [a|]; [|now intros H; injection H as <- <-]. destruct e as [x|].
  - destruct (match_optional (a_nargs a) [CA]) as [[|[|k]]|]; try discriminate. intros H. apply bind_ok in H as (q & H & E). injection E as <- <-. eapply take_pos; eauto.
  - destruct (match_optional (a_nargs a) (map snd A)) as [k|]; [|discriminate]. intros H. apply bind_ok in H as (q & H & E). injection E as <- <-. eapply take_pos; eauto.
Qed.
Lemma first_co l : has_co l = true -> exists A s oa e B, l = A ++ (s, CO oa e) :: B /\ has_co A = false.
Proof.
  induction l as [|[s c] l IH]; [discriminate|]. unfold has_co. cbn [existsb snd]. destruct c as [| |oa e]; cbn [is_co orb].
  - intros H. destruct (IH H) as (A & t & oa & e & B & -> & N). exists ((s, CA) :: A), t, oa, e, B. auto.
  - intros H. destruct (IH H) as (A & t & oa & e & B & -> & N). exists ((s, CDash) :: A), t, oa, e, B. auto.
  - intros _. exists [], s, oa, e, l. auto.
Qed.

Lemma loop_dash ln w B : has_co B = false -> forall A st, s_pos st = [] ->
  ploop ln (A ++ (w, CDash) :: B) st = do s1 <- ploop ln A st ;; Ok (left_over (w :: map fst B) s1).
Proof.
  intros HB. intros A. induction A as [A IH] using (induction_ltof1 _ (@length (string * cls))). unfold ltof in IH. intros st Hp.
  destruct (has_co A) eqn:HA.
  - destruct (first_co A HA) as (P & s & oa & e & Q & -> & NP).
    assert (Co : forall st, s_pos st = [] -> ploop ln (((s, CO oa e) :: Q) ++ (w, CDash) :: B) st = do s1 <- ploop ln ((s, CO oa e) :: Q) st ;; Ok (left_over (w :: map fst B) s1)).
    { intros st0 H0. rewrite <- app_comm_cons, !ploop_co, consume_app. destruct (consume_optional ln s oa e Q st0) as [[st1 r1]|] eqn:E; cbn [bind fst snd]; [|reflexivity].
      apply IH; [|now rewrite (consume_pos _ _ _ _ _ _ _ _ E)]. apply consume_optional_len in E. rewrite app_length. cbn [length]. lia. }
    destruct P as [|x P]; [now apply Co|]. rewrite <- app_assoc.
    assert (Nx : x :: P <> []) by discriminate. change (((s, CO oa e) :: Q) ++ (w, CDash) :: B) with ((s, CO oa e) :: (Q ++ (w, CDash) :: B)) in *.
    rewrite (ploop_chunk ln (x :: P) s oa e (Q ++ (w, CDash) :: B) st NP Nx), (ploop_chunk ln (x :: P) s oa e Q st NP Nx), !no_positionals by exact Hp.
    cbn [bind fst snd]. rewrite Nat.ltb_irrefl. now apply Co.
  - rewrite !ploop_end, !no_positionals by (auto; rewrite has_co_app, HA; exact HB). cbn [bind fst snd]. unfold left_over. cbn [s_ns s_seen s_extras s_pos].
    now rewrite map_app, app_assoc.
Qed.
Lemma classify_dash p ln l r : ~ In "--" l ->
  classify p ln (l ++ "--" :: r) = do c <- classify p ln l ;; Ok (c ++ ("--", CDash) :: map (fun x => (x, CA)) r).
Proof.
  induction l as [|s l IH]; intros N; [reflexivity|]. rewrite <- app_comm_cons. cbn [classify].
  destruct (String.eqb_spec s "--") as [->|_]; [destruct N; now left|]. rewrite IH by (intros H; apply N; now right).
  destruct (parse_optional p ln s); cbn [bind]; [|reflexivity]. destruct (classify p ln l); reflexivity.
Qed.

(** For every option table without positional arguments: the word -- and what follows it
    is handed back as it stands, whatever it looks like, and the words before it are read
    as if the line ended there. *)
Theorem C43_dashes p ln l r : positionals p = [] -> ~ In "--" l ->
  parse_known_args p ln (l ++ "--" :: r) =
  match parse_known_args p ln l with
  | Ok (ns, extra) => Ok (ns, extra ++ "--" :: r)
  | Err e => Err e
  end.
Proof.
  intros Hp N. rewrite !parse_known_args_ploop, classify_dash by exact N.
  change (filter (fun a => match a_opts a with [] => true | _ => false end) (p_actions p)) with (positionals p). rewrite Hp.
  destruct (classify p ln l) as [c|e]; cbn [bind]; [|reflexivity].
  rewrite loop_dash; [|induction r; auto|reflexivity]. destruct (ploop ln c _) as [st|e]; cbn [bind]; [|reflexivity].
  unfold left_over. cbn [s_seen s_ns s_extras]. destruct (finish ln (p_actions p) (s_seen st) false (s_ns st)); cbn [bind]; [|reflexivity].
  now rewrite map_map, map_id.
Qed.
Print Assumptions C43_dashes.
(** A command that takes options only refuses a line with --. *)
Corollary C43_refused p ln ws : positionals p = [] -> In "--" ws -> exists e, parse_args p ln ws = Err e.
Proof.
  intros Hp H. assert (S : exists l r, ws = l ++ "--" :: r /\ ~ In "--" l).
  { clear Hp. induction ws as [|w ws IH]; [destruct H|]. destruct (String.eqb_spec w "--") as [->|Ne]; [exists [], ws; auto|].
    destruct H as [->|H]; [contradiction|]. destruct (IH H) as (l & r & -> & N). exists (w :: l), r. split; [reflexivity|]. intros [E|E]; [now apply Ne|contradiction]. }
  destruct S as (l & r & -> & N). unfold parse_args. rewrite (C43_dashes p ln l r Hp N). destruct (parse_known_args p ln l) as [[ns ex]|e]; [|eexists; reflexivity].
  cbn [bind fst snd]. destruct ex; eexists; reflexivity.
Qed.
Print Assumptions C43_refused.

(** ** Tables with positional arguments *)

Section Two.
Variable ln : option N.
(** The destinations of the positional arguments. *)
Variable P : string -> bool.

(** Two runs: the same values outside [P], the same arguments to come. *)
Definition agree (m n : attrs) : Prop := forall d, P d = false -> assoc d m = assoc d n.
Definition alike (x y : pstate) : Prop := agree (s_ns x) (s_ns y) /\ s_seen x = s_seen y /\ s_pos x = s_pos y /\ Forall (fun a => P (a_dest a) = true) (s_pos x).
Definition no_options (l : list (string * cls)) : Prop := has_co l = false.
Definition suffix_rel (l m : list (string * cls)) : Prop :=
  map snd l = map snd m /\
  (no_options l \/ exists A w r t, l = A ++ (w, CDash) :: r /\ m = A ++ (w, CDash) :: t /\ no_options r).
Definition both {X} (R : X -> X -> Prop) (x y : res X) : Prop := match x, y with Ok u, Ok v => R u v | _, _ => True end.
Lemma both_bind {X Y} (R : X -> X -> Prop) (Q : Y -> Y -> Prop) x y f g : both R x y -> (forall u v, R u v -> both Q (f u) (g v)) -> both Q (bind x f) (bind y g).
Proof. destruct x as [u|], y as [v|]; cbn; auto. intros _ _. destruct (f u); exact I. Qed.

Lemma has_co_map l m : map snd l = map snd m -> has_co l = has_co m.
Proof.
  intros H. assert (G : forall q, has_co q = existsb is_co (map snd q)) by (intros q; induction q as [|[s c] q IH]; [reflexivity|]; unfold has_co in *; cbn; now rewrite IH).
  now rewrite !G, H.
Qed.
Lemma call_put a v m m' : call_action a v m = Ok m' -> exists u, m' = put (a_dest a) u m.
Proof.
  unfold call_action. destruct (a_kind a); intros H.
  - injection H as <-. eauto.
  - injection H as <-. eauto.
  - apply bind_ok in H as (x & _ & H). apply bind_ok in H as (y & _ & H). injection H as <-. eauto.
  - apply bind_ok in H as (x & _ & H). apply bind_ok in H as (y & _ & H). injection H as <-. eauto.
  - destruct (get (a_dest a) m); try discriminate; [injection H as <-; eauto|]. destruct v; try discriminate. injection H as <-. eauto.
  - destruct (get (a_dest a) m); destruct (a_const a); destruct v; try discriminate; injection H as <-; eauto.
Qed.
Lemma call_free a v w m n : P (a_dest a) = true -> agree m n -> both agree (call_action a v m) (call_action a w n).
Proof.
  intros H A. destruct (call_action a v m) as [m'|] eqn:E1; [|exact I]. destruct (call_action a w n) as [n'|] eqn:E2; [|exact I]. cbn.
  apply call_put in E1 as (u1 & ->). apply call_put in E2 as (u2 & ->). intros d Hd. rewrite !assoc_put. destruct (String.eqb_spec d (a_dest a)) as [->|]; [congruence|auto].
Qed.
Lemma call_same a v m n : agree m n -> both agree (call_action a v m) (call_action a v n).
Proof.
  intros A. destruct (P (a_dest a)) eqn:D; [now apply call_free|]. pose proof (A _ D) as G.
  assert (Q : forall u, agree (put (a_dest a) u m) (put (a_dest a) u n)).
  { intros u d Hd. rewrite !assoc_put. destruct (String.eqb d (a_dest a)); auto. }
  unfold call_action, get. rewrite <- G. destruct (a_kind a).
  - apply Q.
  - apply Q.
  - destruct (as_strs _); cbn [bind]; [|exact I]. destruct (as_str v); cbn [bind]; [apply Q|exact I].
  - destruct (as_strs _); cbn [bind]; [|exact I]. destruct (as_str (a_const a)); cbn [bind]; [apply Q|exact I].
  - destruct (match assoc (a_dest a) m with Some _ => _ | None => _ end); try exact I; [apply Q|]. destruct v; try exact I. apply Q.
  - destruct (match assoc (a_dest a) m with Some _ => _ | None => _ end), (a_const a), v; try exact I; apply Q.
Qed.
Lemma take_same a args x y : alike x y -> both alike (take_action ln a args x) (take_action ln a args y).
Proof.
  intros (A & S & Q & F). unfold take_action. destruct (get_values ln a args) as [v|]; cbn [bind]; [|exact I].
  apply (both_bind agree); [now apply call_same|]. intros m n H. cbn. split; [exact H|]. cbn. rewrite S. auto.
Qed.
Lemma take_free a args args' x y : P (a_dest a) = true -> alike x y -> both alike (take_action ln a args x) (take_action ln a args' y).
Proof.
  intros D (A & S & Q & F). unfold take_action. destruct (get_values ln a args) as [v|]; cbn [bind]; [|exact I].
  destruct (get_values ln a args') as [w|]; cbn [bind]; [|destruct (call_action a v (s_ns x)); exact I].
  apply (both_bind agree); [now apply call_free|]. intros m n H. cbn. split; [exact H|]. cbn. rewrite S. auto.
Qed.

Lemma no_options_skipn k l : no_options l -> no_options (skipn k l).
Proof. apply has_co_skipn. Qed.
Lemma suffix_skipn k l m : suffix_rel l m -> suffix_rel (skipn k l) (skipn k m).
Proof.
  intros (E & H). split; [rewrite <- !skipn_map; now rewrite E|]. destruct H as [H|(A & w & r & t & -> & -> & Hr)]; [left; now apply no_options_skipn|].
  destruct (Nat.le_gt_cases k (length A)) as [L|L].
  - right. exists (skipn k A), w, r, t. rewrite !skipn_app. replace (k - length A) with 0 by lia. auto.
  - left. rewrite skipn_app, (skipn_all2 A) by lia. cbn [app]. apply no_options_skipn. exact Hr.
Qed.
Definition pair_rel (u v : pstate * list (string * cls)) : Prop := alike (fst u) (fst v) /\ suffix_rel (snd u) (snd v).
Lemma consume_one s oa e A x y : alike x y -> both (fun u v => alike (fst u) (fst v) /\ snd u = snd v) (consume_optional ln s oa e A x) (consume_optional ln s oa e A y).
Proof.
  intros H. unfold consume_optional. destruct oa as [a|].
  - destruct e as [w|].
    + destruct (match_optional (a_nargs a) [CA]) as [[|[|k]]|]; try exact I. apply (both_bind alike); [now apply take_same|]. intros u v R. cbn. auto.
    + destruct (match_optional (a_nargs a) (map snd A)) as [k|]; [|exact I]. apply (both_bind alike); [now apply take_same|]. intros u v R. cbn. auto.
  - cbn. split; [|reflexivity]. destruct H as (H1 & H2 & H3 & H4). split; auto.
Qed.
Lemma consume_two s oa e A w r t x y : alike x y -> no_options r -> map snd r = map snd t ->
  both pair_rel (consume_optional ln s oa e (A ++ (w, CDash) :: r) x) (consume_optional ln s oa e (A ++ (w, CDash) :: t) y).
Proof.
  intros H Hr E. rewrite !consume_app. apply (both_bind (fun u v => alike (fst u) (fst v) /\ snd u = snd v)); [now apply consume_one|].
  intros [x1 l1] [y1 l2] [R1 R2]. cbn [fst snd] in *. subst l2. split; [exact R1|]. cbn [snd]. split.
  - rewrite !map_app. cbn [map snd]. now rewrite E.
  - right. exists l1, w, r, t. auto.
Qed.
Lemma take_pos_two acts : forall counts l m x y, Forall (fun a => P (a_dest a) = true) acts -> alike x y -> suffix_rel l m ->
  both pair_rel (take_positionals ln acts counts l x) (take_positionals ln acts counts m y).
Proof.
  induction acts as [|a acts IH]; intros counts l m x y F H S; [split; auto|]. inversion F as [|? ? F1 F2]; subst. destruct counts as [|k counts]; [split; auto|]. cbn [take_positionals].
  apply (both_bind alike); [now apply take_free|]. intros u v R. apply IH; auto. now apply suffix_skipn.
Qed.
Lemma consume_pos_two l m x y : alike x y -> suffix_rel l m -> both pair_rel (consume_positionals ln l x) (consume_positionals ln m y).
Proof.
  intros H S. unfold consume_positionals. destruct H as (H1 & H2 & H3 & H4). rewrite <- H3, <- (proj1 S). set (cs := match_partial _ _).
  apply (both_bind pair_rel); [apply take_pos_two; auto; repeat split; auto|]. intros [u l1] [v m1] [(R1 & R2 & R3 & R4) R]. cbn [fst snd] in R1, R2, R3, R4, R. cbn. split; [|exact R]. cbn. split; [exact R1|]. cbn. rewrite R2, <- R3. repeat split; auto.
  apply Forall_forall. intros a Ha. rewrite Forall_forall in R4. apply R4. rewrite <- (firstn_skipn (length cs) (s_pos u)). apply in_or_app. now right.
Qed.
Lemma span_two l : forall m, suffix_rel l m -> suffix_rel (snd (span_nonopt l)) (snd (span_nonopt m)).
Proof.
  assert (G : forall l, exists k, snd (span_nonopt l) = skipn k l /\ forall m, map snd l = map snd m -> snd (span_nonopt m) = skipn k m).
  { clear l. induction l as [|[s c] l (k & IH1 & IH2)]; [exists 0; split; [reflexivity|intros [|]; [reflexivity|discriminate]]|]. cbn [span_nonopt]. destruct (is_co c) eqn:C.
    - exists 0. split; [reflexivity|]. intros [|[s' c'] m] E; [discriminate|]. cbn in E. injection E as <- _. cbn [span_nonopt]. now rewrite C.
    - exists (S k). split; [destruct (span_nonopt l); exact IH1|]. intros [|[s' c'] m] E; [discriminate|]. cbn in E. injection E as <- E. cbn [span_nonopt]. rewrite C.
      specialize (IH2 m E). destruct (span_nonopt m). exact IH2. }
  intros m S. destruct (G l) as (k & -> & H). rewrite (H m (proj1 S)). now apply suffix_skipn.
Qed.
Lemma alike_extras x y e f : alike x y -> alike (mkPstate (s_ns x) (s_seen x) e (s_pos x)) (mkPstate (s_ns y) (s_seen y) f (s_pos y)).
Proof. intros (A & B & C & D). repeat split; auto. Qed.

Lemma loop_two : forall f l m x y, alike x y -> suffix_rel l m -> both alike (parse_loop f ln l x) (parse_loop f ln m y).
Proof.
  induction f as [|f IH]; intros l m x y H S; [exact I|]. rewrite !parse_loop_S.
  change (existsb (fun sc => is_co (snd sc)) l) with (has_co l). change (existsb (fun sc => is_co (snd sc)) m) with (has_co m).
  rewrite <- (has_co_map l m (proj1 S)). destruct (has_co l) eqn:C.
  - assert (Pos : both alike
        (do sr <- consume_positionals ln l x ;; let '(st', rest') := sr in
            if Nat.ltb (length rest') (length l) then parse_loop f ln rest' st'
            else let '(pre, r) := span_nonopt rest' in parse_loop f ln r (mkPstate (s_ns st') (s_seen st') (s_extras st' ++ map fst pre)%list (s_pos st')))
        (do sr <- consume_positionals ln m y ;; let '(st', rest') := sr in
            if Nat.ltb (length rest') (length m) then parse_loop f ln rest' st'
            else let '(pre, r) := span_nonopt rest' in parse_loop f ln r (mkPstate (s_ns st') (s_seen st') (s_extras st' ++ map fst pre)%list (s_pos st')))).
    { apply (both_bind pair_rel); [now apply consume_pos_two|]. intros [u l1] [v m1] [R1 R2]. cbn [fst snd] in *.
      assert (L1 : length l1 = length m1) by (rewrite <- (map_length snd l1), (proj1 R2); apply map_length).
      assert (L2 : length l = length m) by (rewrite <- (map_length snd l), (proj1 S); apply map_length).
      rewrite L1, L2. destruct (Nat.ltb (length m1) (length m)); [now apply IH|]. pose proof (span_two l1 m1 R2) as Sp.
      destruct (span_nonopt l1) as [p1 q1], (span_nonopt m1) as [p2 q2]. cbn [snd] in Sp. apply IH; [|exact Sp]. now apply alike_extras. }
    destruct S as [E [N|(A & w & r & t & -> & -> & Hr)]]; [unfold no_options in N; congruence|].
    assert (Et : map snd r = map snd t).
    { rewrite !map_app in E. apply app_inv_head in E. cbn in E. now injection E. }
    destruct A as [|[s c] A]; [exact Pos|]. rewrite <- !app_comm_cons in *. destruct c as [| |oa e]; [exact Pos|exact Pos|].
    apply (both_bind pair_rel); [now apply consume_two|]. intros u v [R1 R2]. now apply IH.
  - apply (both_bind pair_rel); [now apply consume_pos_two|]. intros [u l1] [v m1] [R1 R2]. cbn. now apply alike_extras.
Qed.
Lemma finish_two acts seen : forall b m n, agree m n -> both agree (finish ln acts seen b m) (finish ln acts seen b n).
Proof.
  induction acts as [|a acts IH]; intros b m n A; cbn [finish]; [destruct b; [exact I|exact A]|].
  destruct (existsb (Nat.eqb (a_id a)) seen); [now apply IH|]. destruct (a_required a); [now apply IH|]. destruct (a_default a) as [| | |s| | |]; try now apply IH.
  destruct (P (a_dest a)) eqn:D.
  - assert (F : forall v w, agree (put (a_dest a) v m) (put (a_dest a) w n) /\ agree (put (a_dest a) v m) n /\ agree m (put (a_dest a) w n)).
    { intros v w. repeat split; intros d Hd; rewrite ?assoc_put; (destruct (String.eqb_spec d (a_dest a)) as [->|]; [congruence|auto]). }
    destruct (get_value ln a s) as [v|]; cbn [bind].
    + destruct (F v v) as (F1 & F2 & F3).
      destruct (has_key (a_dest a) m && value_eqb (get (a_dest a) m) (VStr s)), (has_key (a_dest a) n && value_eqb (get (a_dest a) n) (VStr s)); now apply IH.
    + destruct (has_key (a_dest a) m && value_eqb (get (a_dest a) m) (VStr s)), (has_key (a_dest a) n && value_eqb (get (a_dest a) n) (VStr s)); try exact I.
      * destruct (finish ln acts seen b m); exact I.
      * now apply IH.
  - assert (E : has_key (a_dest a) m = has_key (a_dest a) n /\ get (a_dest a) m = get (a_dest a) n) by (unfold has_key, get; rewrite (A _ D); auto).
    destruct E as [-> ->]. destruct (has_key (a_dest a) n && value_eqb (get (a_dest a) n) (VStr s)); [|now apply IH].
    destruct (get_value ln a s) as [v|]; cbn [bind]; [|exact I]. apply IH. intros d Hd. rewrite !assoc_put. destruct (String.eqb d (a_dest a)); auto.
Qed.
End Two.

(** For every option table, two lines that differ only in what follows --, with equally
    many words there: if both are accepted, all options have the same values; only the
    positional arguments may differ. *)
Theorem C43_options p ln l r r' ns extra ns' extra' d : ~ In "--" l -> length r = length r' ->
  parse_known_args p ln (l ++ "--" :: r) = Ok (ns, extra) -> parse_known_args p ln (l ++ "--" :: r') = Ok (ns', extra') ->
  ~ In d (map a_dest (positionals p)) -> assoc d ns = assoc d ns'.
Proof.
  intros N L H1 H2 D. rewrite parse_known_args_ploop, classify_dash in H1, H2 by exact N.
  change (filter (fun a => match a_opts a with [] => true | _ => false end) (p_actions p)) with (positionals p) in *.
  destruct (classify p ln l) as [c|e]; cbn [bind] in H1, H2; [|discriminate].
  set (P := fun d => mem d (map a_dest (positionals p))). assert (Pd : P d = false) by (destruct (P d) eqn:E; [apply mem_In in E; contradiction|reflexivity]).
  set (st := mkPstate _ _ _ _) in *.
  assert (A : alike P st st).
  { repeat split; auto. apply Forall_forall. intros a Ha. apply mem_In. now apply in_map. }
  assert (No : forall q, no_options (map (fun x => (x, CA)) q)) by (intros q; induction q as [|z q IHq]; [reflexivity|exact IHq]).
  assert (Em : map snd (map (fun x : string => (x, CA)) r) = map snd (map (fun x : string => (x, CA)) r')).
  { clear -L. revert r' L. induction r as [|x r IH]; intros [|y r'] L; try discriminate; [reflexivity|]. cbn. f_equal. apply IH. now injection L. }
  assert (Sf : suffix_rel (c ++ ("--", CDash) :: map (fun x => (x, CA)) r) (c ++ ("--", CDash) :: map (fun x => (x, CA)) r')).
  { split; [rewrite !map_app; cbn [map snd]; now rewrite Em|]. right. exists c, "--", (map (fun x => (x, CA)) r), (map (fun x => (x, CA)) r'). auto. }
  unfold ploop in H1, H2. assert (Ll : length (c ++ ("--", CDash) :: map (fun x => (x, CA)) r) = length (c ++ ("--", CDash) :: map (fun x => (x, CA)) r')).
  { rewrite !app_length. cbn [length]. now rewrite !map_length, L. }
  rewrite <- Ll in H2. pose proof (loop_two ln P (S (length (c ++ ("--", CDash) :: map (fun x => (x, CA)) r))) _ _ st st A Sf) as B.
  apply bind_ok in H1 as (s1 & P1 & H1). apply bind_ok in H2 as (s2 & P2 & H2). rewrite P1, P2 in B. cbn in B. destruct B as (B & Sn & _).
  apply bind_ok in H1 as (m1 & F1 & H1). apply bind_ok in H2 as (m2 & F2 & H2). injection H1 as <- <-. injection H2 as <- <-.
  pose proof (finish_two ln P (p_actions p) (s_seen s1) false _ _ B) as F. rewrite Sn in F at 2. rewrite F1, F2 in F. apply F. exact Pd.
Qed.
Print Assumptions C43_options.

(** rootpw has a positional argument, the password; it may then start with dashes. *)
Example C43_example :
  map a_dest (positionals (build (table_of "F18_RootPw"))) = ["password"] /\
  match parse_known_args (build (table_of "F18_RootPw")) None ["--lock"; "--"; "--plaintext"] with
  | Ok (ns, extra) => (get "lock" ns, get "password" ns, extra) = (VBool true, VStr "--plaintext", [])
  | Err _ => False
  end /\
  positionals (build (table_of "F29_AutoPart")) = [] /\
  match parse_known_args (build (table_of "F29_AutoPart")) None ["--nolvm"; "--"; "--encrypted"] with
  | Ok (ns, extra) => (get "encrypted" ns, extra) = (VBool false, ["--"; "--encrypted"])
  | Err _ => False
  end.
Proof. do 3 (split; [vm_compute; reflexivity|]). vm_compute. reflexivity. Qed.
