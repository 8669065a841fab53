(** * Lemmas about the argparse model *)

From Verif Require Import PyStrFacts ArgParse.
From Verif Require Import Value.
From Coq Require Import Lia.
Local Open Scope string_scope.
Local Open Scope list_scope.

Lemma bind_ok {A B} (x : res A) (f : A -> res B) b :
  bind x f = Ok b -> exists a, x = Ok a /\ f a = Ok b.
Proof. destruct x; simpl; [eauto|discriminate]. Qed.

Lemma bind_err {A B} (x : res A) (f : A -> res B) e :
  bind x f = Err e -> x = Err e \/ exists a, x = Ok a /\ f a = Err e.
Proof. destruct x; simpl; intros H; [right; eauto|left; congruence]. Qed.

(** ** Dictionaries *)

Lemma assoc_put {A} k (v : A) l x :
  assoc x (put k v l) = if String.eqb x k then Some v else assoc x l.
Proof.
  induction l as [|[k' w] l IH]; simpl.
  - destruct (String.eqb x k); reflexivity.
  - destruct (String.eqb k k') eqn:E; simpl.
    + apply String.eqb_eq in E as <-. destruct (String.eqb x k); reflexivity.
    + rewrite IH. destruct (String.eqb x k') eqn:E2; [|reflexivity].
      apply String.eqb_eq in E2 as ->. rewrite String.eqb_sym, E. reflexivity.
Qed.

Lemma get_put k v l x : get x (put k v l) = if String.eqb x k then v else get x l.
Proof. unfold get. rewrite assoc_put. destruct (String.eqb x k); reflexivity. Qed.

Lemma has_key_put {A} k (v : A) l x :
  has_key x (put k v l) = String.eqb x k || has_key x l.
Proof. unfold has_key. rewrite assoc_put. destruct (String.eqb x k); reflexivity. Qed.

Lemma assoc_del {A} k (l : list (string * A)) x :
  assoc x (del k l) = if String.eqb x k then None else assoc x l.
Proof.
  induction l as [|[k' w] l IH]; simpl.
  - destruct (String.eqb x k); reflexivity.
  - destruct (String.eqb k k') eqn:E; simpl.
    + apply String.eqb_eq in E as <-. rewrite IH. destruct (String.eqb x k); reflexivity.
    + rewrite IH. destruct (String.eqb x k') eqn:E2; [|reflexivity].
      apply String.eqb_eq in E2 as ->. rewrite String.eqb_sym, E. reflexivity.
Qed.

Lemma map_fst_put {A} k (v : A) l :
  map fst (put k v l) = if has_key k l then map fst l else map fst l ++ [k].
Proof.
  unfold has_key. induction l as [|[k' w] l IH]; simpl; [reflexivity|].
  destruct (String.eqb k k') eqn:E; simpl; [reflexivity|].
  rewrite IH. destruct (assoc k l); reflexivity.
Qed.

(** Two dictionaries with the same keys in the same order, each once, and the
    same values are equal. *)
Lemma attrs_ext (l m : attrs) :
  map fst l = map fst m -> NoDup (map fst l) ->
  (forall k, get k l = get k m) -> l = m.
Proof.
  revert m. induction l as [|[k v] l IH]; intros [|[k' w] m] Hf Hn Hg; simpl in *; try discriminate; auto.
  injection Hf as <- Hf. inversion Hn as [|? ? Hk Hn']; subst.
  pose proof (Hg k) as H. unfold get in H. simpl in H. rewrite String.eqb_refl in H. subst w.
  f_equal. apply IH; auto. intros x. specialize (Hg x). unfold get in *. simpl in Hg.
  destruct (String.eqb x k) eqn:E; auto. apply String.eqb_eq in E as ->.
  assert (N : forall (q : attrs), ~ In k (map fst q) -> assoc k q = None).
  { induction q as [|[a b] q IHq]; simpl; intros Hq; [reflexivity|].
    destruct (String.eqb k a) eqn:E; [apply String.eqb_eq in E; subst; tauto|apply IHq; tauto]. }
  rewrite !N; [reflexivity|rewrite <- Hf|]; auto.
Qed.

(** ** Progress of the loop: fuel is irrelevant *)

Lemma span_nonopt_len l : length (snd (span_nonopt l)) <= length l.
Proof.
  induction l as [|[s c] l IH]; simpl; [lia|].
  destruct (is_co c); simpl; [lia|]. destruct (span_nonopt l); simpl in *; lia.
Qed.

Lemma span_nonopt_app l : fst (span_nonopt l) ++ snd (span_nonopt l) = l.
Proof.
  induction l as [|[s c] l IH]; simpl; [reflexivity|].
  destruct (is_co c); simpl; [reflexivity|]. destruct (span_nonopt l); simpl in *. now rewrite IH.
Qed.

Lemma span_nonopt_co s oa e l : span_nonopt ((s, CO oa e) :: l) = ([], (s, CO oa e) :: l).
Proof. reflexivity. Qed.

Lemma take_positionals_suffix ln acts : forall counts rest st st' rest',
  take_positionals ln acts counts rest st = Ok (st', rest') ->
  exists n, rest' = skipn n rest.
Proof.
  induction acts as [|a acts IH]; intros [|k counts] rest st st' rest' H; simpl in H;
    try (injection H as <- <-; now exists 0).
  apply bind_ok in H as (st1 & _ & H). apply IH in H as (n & ->).
  exists (k + n). rewrite Nat.add_comm. clear. revert n rest.
  induction k as [|k IH]; intros n rest; simpl; [now rewrite Nat.add_0_r|].
  destruct rest; [now destruct n|]. rewrite Nat.add_succ_r. simpl. apply IH.
Qed.

Lemma consume_positionals_len ln rest st st' rest' :
  consume_positionals ln rest st = Ok (st', rest') -> length rest' <= length rest.
Proof.
  unfold consume_positionals. intros H. apply bind_ok in H as ([s r] & H1 & H2).
  apply take_positionals_suffix in H1 as (n & ->). injection H2 as <- <-. simpl.
  rewrite skipn_length. lia.
Qed.

Lemma consume_positionals_suffix ln rest st st' rest' :
  consume_positionals ln rest st = Ok (st', rest') -> exists n, rest' = skipn n rest.
Proof.
  unfold consume_positionals. intros H. apply bind_ok in H as ([s r] & H1 & H2).
  apply take_positionals_suffix in H1 as (n & ->). injection H2 as <- <-. simpl. now exists n.
Qed.

Lemma consume_optional_len ln s oa e rest st st' rest' :
  consume_optional ln s oa e rest st = Ok (st', rest') -> length rest' <= length rest.
Proof.
  unfold consume_optional. destruct oa as [a|].
  - destruct e as [x|].
    + destruct (match_optional _ _) as [[|[|?]]|]; try discriminate. intros H.
      apply bind_ok in H as (? & _ & H). injection H as <- <-. lia.
    + destruct (match_optional _ _) as [k|]; try discriminate. intros H.
      apply bind_ok in H as (? & _ & H). injection H as <- <-. rewrite skipn_length. lia.
  - intros H. injection H as <- <-. lia.
Qed.

Lemma skipn_same_len {A} n (l : list A) : length (skipn n l) = length l -> skipn n l = l.
Proof.
  rewrite skipn_length. destruct l as [|x l]; [now destruct n|]. simpl.
  destruct n; simpl; [reflexivity|lia].
Qed.

Lemma skipn_ge_len {A} n (l : list A) : length l <= length (skipn n l) -> skipn n l = l.
Proof. intros H. apply skipn_same_len. pose proof (skipn_length n l). lia. Qed.

Lemma parse_loop_fuel ln : forall f g rest st,
  length rest < f -> length rest < g -> parse_loop f ln rest st = parse_loop g ln rest st.
Proof.
  induction f as [|f IH]; intros [|g] rest st Hf Hg; try lia. simpl.
  destruct (existsb _ rest) eqn:Ex; [|reflexivity].
  destruct rest as [|[s c] rest]; [discriminate|].
  assert (P : is_co c = false ->
     (do sr <- consume_positionals ln ((s, c) :: rest) st ;;
      let '(st', rest') := sr in
      if Nat.ltb (length rest') (length ((s, c) :: rest)) then parse_loop f ln rest' st'
      else let '(pre, r) := span_nonopt rest' in
           parse_loop f ln r (mkPstate (s_ns st') (s_seen st') (s_extras st' ++ map fst pre) (s_pos st')))
   = (do sr <- consume_positionals ln ((s, c) :: rest) st ;;
      let '(st', rest') := sr in
      if Nat.ltb (length rest') (length ((s, c) :: rest)) then parse_loop g ln rest' st'
      else let '(pre, r) := span_nonopt rest' in
           parse_loop g ln r (mkPstate (s_ns st') (s_seen st') (s_extras st' ++ map fst pre) (s_pos st')))).
  { intros Hc. destruct (consume_positionals ln ((s, c) :: rest) st) as [[st' rest']|] eqn:E; simpl; [|reflexivity].
    destruct (Nat.ltb_spec (length rest') (S (length rest))) as [H|H]; simpl in *.
    - apply IH; lia.
    - pose proof (consume_positionals_suffix _ _ _ _ _ E) as (n & ->).
      rewrite (skipn_ge_len n ((s, c) :: rest)) by exact H.
      simpl. rewrite Hc. pose proof (span_nonopt_len rest) as Hl.
      destruct (span_nonopt rest) as [pre r]; simpl in *. apply IH; lia. }
  destruct c as [| |oa e]; [apply P; reflexivity|apply P; reflexivity|].
  destruct (consume_optional ln s oa e rest st) as [[st' rest']|] eqn:E; simpl; [|reflexivity].
  apply consume_optional_len in E. simpl in *. apply IH; lia.
Qed.

Lemma parse_loop_S f ln rest st :
  parse_loop (S f) ln rest st
  = if existsb (fun sc => is_co (snd sc)) rest then
        match rest with
        | (s, CO oa e) :: r =>
            do sr <- consume_optional ln s oa e r st ;; parse_loop f ln (snd sr) (fst sr)
        | _ =>
            do sr <- consume_positionals ln rest st ;;
            let '(st', rest') := sr in
            if Nat.ltb (length rest') (length rest) then parse_loop f ln rest' st'
            else let '(pre, r) := span_nonopt rest' in
                 parse_loop f ln r (mkPstate (s_ns st') (s_seen st')
                                      (s_extras st' ++ map fst pre)%list (s_pos st'))
        end
      else
        do sr <- consume_positionals ln rest st ;;
        let '(st', rest') := sr in
        Ok (mkPstate (s_ns st') (s_seen st') (s_extras st' ++ map fst rest')%list (s_pos st')).
Proof. reflexivity. Qed.

Arguments parse_loop : simpl never.

(** The loop without fuel. *)
Definition ploop ln rest st := parse_loop (S (length rest)) ln rest st.

Lemma ploop_co ln s oa e r st :
  ploop ln ((s, CO oa e) :: r) st
  = do sr <- consume_optional ln s oa e r st ;; ploop ln (snd sr) (fst sr).
Proof.
  unfold ploop at 1. rewrite parse_loop_S. cbn [existsb snd is_co orb].
  destruct (consume_optional ln s oa e r st) as [[st' r']|] eqn:E; cbn [bind]; [|reflexivity].
  apply consume_optional_len in E. cbn [fst snd]. apply parse_loop_fuel; simpl; lia.
Qed.

Definition has_co (l : list (string * cls)) : bool := existsb (fun sc => is_co (snd sc)) l.

Lemma ploop_end ln rest st : has_co rest = false ->
  ploop ln rest st
  = do sr <- consume_positionals ln rest st ;;
    Ok (mkPstate (s_ns (fst sr)) (s_seen (fst sr)) (s_extras (fst sr) ++ map fst (snd sr)) (s_pos (fst sr))).
Proof.
  intros H. unfold ploop. rewrite parse_loop_S. fold (has_co rest). rewrite H.
  destruct (consume_positionals ln rest st) as [[st' r]|]; reflexivity.
Qed.

Lemma ploop_pos ln s c r st : is_co c = false -> has_co r = true ->
  ploop ln ((s, c) :: r) st
  = do sr <- consume_positionals ln ((s, c) :: r) st ;;
    let '(st', rest') := sr in
    if Nat.ltb (length rest') (S (length r)) then ploop ln rest' st'
    else let '(pre, r') := span_nonopt rest' in
         ploop ln r' (mkPstate (s_ns st') (s_seen st') (s_extras st' ++ map fst pre) (s_pos st')).
Proof.
  intros Hc Hr. unfold ploop at 1. rewrite parse_loop_S. fold (has_co ((s, c) :: r)). cbn [length].
  replace (has_co ((s, c) :: r)) with true by (unfold has_co in *; simpl; rewrite Hc, Hr; reflexivity).
  assert (P : (do sr <- consume_positionals ln ((s, c) :: r) st ;;
      let '(st', rest') := sr in
      if Nat.ltb (length rest') (S (length r)) then parse_loop (S (length r)) ln rest' st'
      else let '(pre, r') := span_nonopt rest' in
         parse_loop (S (length r)) ln r' (mkPstate (s_ns st') (s_seen st') (s_extras st' ++ map fst pre) (s_pos st')))
    = do sr <- consume_positionals ln ((s, c) :: r) st ;;
    let '(st', rest') := sr in
    if Nat.ltb (length rest') (S (length r)) then ploop ln rest' st'
    else let '(pre, r') := span_nonopt rest' in
         ploop ln r' (mkPstate (s_ns st') (s_seen st') (s_extras st' ++ map fst pre) (s_pos st'))).
  { destruct (consume_positionals ln ((s, c) :: r) st) as [[st' rest']|] eqn:E; cbn [bind]; [|reflexivity].
    destruct (Nat.ltb_spec (length rest') (S (length r))) as [H|H].
    - apply parse_loop_fuel; lia.
    - pose proof (consume_positionals_suffix _ _ _ _ _ E) as (n & ->).
      rewrite (skipn_ge_len n ((s, c) :: r)) by exact H.
      simpl. rewrite Hc. pose proof (span_nonopt_len r) as Hl.
      destruct (span_nonopt r) as [pre r']; simpl in *. apply parse_loop_fuel; lia. }
  destruct c; [exact P|exact P|discriminate].
Qed.

Lemma parse_known_args_ploop p ln args :
  parse_known_args p ln args
  = do l <- classify p ln args ;;
    do st <- ploop ln l (mkPstate (init_ns (p_actions p)) [] []
               (filter (fun a => match a_opts a with [] => true | _ => false end) (p_actions p))) ;;
    do ns <- finish ln (p_actions p) (s_seen st) false (s_ns st) ;;
    Ok (ns, s_extras st).
Proof. reflexivity. Qed.

(** ** Matching positionals looks only at the words before the next option *)

Lemma existsb_map {A B} (f : B -> bool) (g : A -> B) l : existsb f (map g l) = existsb (fun x => f (g x)) l.
Proof. induction l as [|x l IH]; simpl; [reflexivity|]. now rewrite IH. Qed.

Definition no_co (l : list cls) : bool := forallb (fun c => negb (is_co c)) l.

Lemma no_co_existsb l : no_co l = negb (existsb is_co l).
Proof. induction l as [|c l IH]; simpl; [reflexivity|]. rewrite IH. destruct (is_co c); reflexivity. Qed.

Definition try_len (n : nargs_t) (r : list nargs_t) (l : list cls) : nat -> option (list nat) :=
  fix try_len (k : nat) : option (list nat) :=
    match (if pos_accepts n (firstn k l)
           then match match_positionals r (skipn k l) with
                | Some ks => Some (k :: ks)
                | None => None
                end
           else None) with
    | Some ks => Some ks
    | None => match k with O => None | S k' => try_len k' end
    end.

Lemma match_positionals_cons n r l :
  match_positionals (n :: r) l = try_len n r l (length l).
Proof. reflexivity. Qed.

Lemma try_len_eq n r l k :
  try_len n r l k =
    match (if pos_accepts n (firstn k l)
           then match match_positionals r (skipn k l) with
                | Some ks => Some (k :: ks)
                | None => None
                end
           else None) with
    | Some ks => Some ks
    | None => match k with O => None | S k' => try_len n r l k' end
    end.
Proof. destruct k; reflexivity. Qed.

Lemma match_positionals_prefix ns : forall A oa e B,
  no_co A = true ->
  match_positionals ns (A ++ CO oa e :: B) = match_positionals ns A.
Proof.
  induction ns as [|n r IH]; intros A oa e B HA; [reflexivity|].
  rewrite !match_positionals_cons.
  assert (Low : forall k, k <= length A -> try_len n r (A ++ CO oa e :: B) k = try_len n r A k).
  { induction k as [|k IHk]; intros Hk.
    - rewrite !try_len_eq. rewrite !skipn_O, !firstn_O. destruct (pos_accepts n []); [|reflexivity]. rewrite IH by exact HA. reflexivity.
    - rewrite (try_len_eq n r (A ++ CO oa e :: B) (S k)), (try_len_eq n r A (S k)), firstn_app, skipn_app.
      replace (S k - length A) with 0 by lia. rewrite firstn_O. rewrite app_nil_r.
      rewrite skipn_O, IH.
      + rewrite IHk by lia. reflexivity.
      + rewrite <- (firstn_skipn (S k) A) in HA. unfold no_co in HA. rewrite forallb_app in HA.
        apply andb_prop in HA as [_ HA]. exact HA. }
  assert (High : forall j, try_len n r (A ++ CO oa e :: B) (j + length A) = try_len n r A (length A)).
  { induction j as [|j IHj]; [apply Low; reflexivity|].
    rewrite (try_len_eq n r (A ++ CO oa e :: B)). cbn [plus].
    replace (pos_accepts n (firstn (S (j + length A)) (A ++ CO oa e :: B))) with false; [exact IHj|].
    unfold pos_accepts. rewrite firstn_app. replace (S (j + length A) - length A) with (S j) by lia.
    simpl firstn at 2. rewrite existsb_app. simpl. rewrite orb_true_r. reflexivity. }
  rewrite app_length. simpl length. rewrite Nat.add_comm. apply High.
Qed.

Lemma match_partial_upto_prefix ns A oa e B i : no_co A = true ->
  match_partial_upto i ns (A ++ CO oa e :: B) = match_partial_upto i ns A.
Proof.
  intros HA. induction i as [|i IH]; [reflexivity|].
  cbn [match_partial_upto]. rewrite match_positionals_prefix by exact HA.
  destruct (match_positionals (firstn (S i) ns) A); [reflexivity|exact IH].
Qed.

Lemma match_partial_prefix ns A oa e B : no_co A = true ->
  match_partial ns (A ++ CO oa e :: B) = match_partial ns A.
Proof. intros; apply match_partial_upto_prefix; assumption. Qed.

Lemma try_len_sum n r l k ks : (forall ks' j, j <= length l -> match_positionals r (skipn j l) = Some ks' -> list_sum ks' <= length l - j) ->
  k <= length l -> try_len n r l k = Some ks -> list_sum ks <= length l.
Proof.
  intros H. induction k as [|k IH]; intros Hk; rewrite try_len_eq.
  - destruct (pos_accepts _ _); [|discriminate].
    destruct (match_positionals r (skipn 0 l)) eqn:E; [|discriminate]. intros Hs; injection Hs as <-.
    apply H in E; [simpl; lia|lia].
  - destruct (pos_accepts _ _); [|apply IH; lia].
    destruct (match_positionals r (skipn (S k) l)) eqn:E; [|apply IH; lia]. intros Hs; injection Hs as <-.
    apply H in E; [change (list_sum (S k :: l0)) with (S k + list_sum l0); lia|lia].
Qed.

Lemma match_positionals_sum ns : forall l ks, match_positionals ns l = Some ks -> list_sum ks <= length l.
Proof.
  induction ns as [|n r IH]; intros l ks H.
  - injection H as <-. simpl. lia.
  - rewrite match_positionals_cons in H. eapply try_len_sum in H; eauto.
    intros ks' j Hj E. apply IH in E. rewrite skipn_length in E. lia.
Qed.

Lemma match_partial_sum ns l : list_sum (match_partial ns l) <= length l.
Proof.
  unfold match_partial. generalize (length ns) as i. induction i as [|i IH]; [simpl; lia|].
  cbn [match_partial_upto]. destruct (match_positionals (firstn (S i) ns) l) eqn:E; [|exact IH].
  eapply match_positionals_sum; eauto.
Qed.

Lemma take_positionals_app ln acts : forall counts A B st,
  list_sum counts <= length A ->
  take_positionals ln acts counts (A ++ B) st
  = do sr <- take_positionals ln acts counts A st ;; Ok (fst sr, snd sr ++ B).
Proof.
  induction acts as [|a acts IH]; intros [|k counts] A B st H; try reflexivity.
  cbn [take_positionals]. change (list_sum (k :: counts)) with (k + list_sum counts) in H.
  rewrite firstn_app, skipn_app. replace (k - length A) with 0 by lia.
  rewrite firstn_O, skipn_O, app_nil_r.
  destruct (take_action ln a (map fst (firstn k A)) st) as [st'|]; cbn [bind]; [|reflexivity].
  rewrite IH by (rewrite skipn_length; lia). reflexivity.
Qed.

Lemma consume_positionals_app ln A s oa e B st : has_co A = false ->
  consume_positionals ln (A ++ (s, CO oa e) :: B) st
  = do sr <- consume_positionals ln A st ;; Ok (fst sr, snd sr ++ (s, CO oa e) :: B).
Proof.
  intros HA. unfold consume_positionals. rewrite map_app. cbn [map snd].
  rewrite match_partial_prefix.
  2:{ rewrite no_co_existsb, existsb_map. unfold has_co in HA. rewrite HA. reflexivity. }
  rewrite take_positionals_app.
  2:{ rewrite <- (map_length snd A). apply match_partial_sum. }
  destruct (take_positionals _ _ _ A st) as [[st' r]|]; reflexivity.
Qed.

Lemma has_co_skipn n l : has_co l = false -> has_co (skipn n l) = false.
Proof.
  revert l. induction n as [|n IH]; intros l H; [exact H|].
  destruct l as [|x l]; [reflexivity|]. unfold has_co in H. simpl in H.
  apply orb_false_elim in H as [_ H]. simpl. apply IH. exact H.
Qed.

Lemma has_co_app A B : has_co (A ++ B) = has_co A || has_co B.
Proof. unfold has_co. apply existsb_app. Qed.

Lemma span_nonopt_pre A s oa e B : has_co A = false ->
  span_nonopt (A ++ (s, CO oa e) :: B) = (A, (s, CO oa e) :: B).
Proof.
  induction A as [|[t c] A IH]; intros H; [reflexivity|].
  unfold has_co in H. simpl in H. apply orb_false_elim in H as [Hc H].
  simpl. rewrite Hc, IH by exact H. reflexivity.
Qed.

(** One chunk of positional words before an option. *)
Lemma ploop_chunk ln A s oa e B st : has_co A = false -> A <> [] ->
  ploop ln (A ++ (s, CO oa e) :: B) st
  = do sr <- consume_positionals ln A st ;;
    if Nat.ltb (length (snd sr)) (length A) then ploop ln (snd sr ++ (s, CO oa e) :: B) (fst sr)
    else ploop ln ((s, CO oa e) :: B)
           (mkPstate (s_ns (fst sr)) (s_seen (fst sr)) (s_extras (fst sr) ++ map fst A) (s_pos (fst sr))).
Proof.
  intros HA Hn. destruct A as [|[t c] A]; [congruence|]. clear Hn.
  assert (HA2 := HA). unfold has_co in HA. simpl in HA. apply orb_false_elim in HA as [Hc HA].
  rewrite <- app_comm_cons, ploop_pos.
  2: exact Hc.
  2: { rewrite has_co_app. unfold has_co. simpl. apply orb_true_r. }
  rewrite app_comm_cons, consume_positionals_app by exact HA2.
  destruct (consume_positionals ln ((t, c) :: A) st) as [[st' r]|] eqn:E; cbn [bind fst snd]; [|reflexivity].
  rewrite !app_length. cbn [length].
  destruct (Nat.ltb_spec (length r) (S (length A))) as [H|H].
  - replace (Nat.ltb (length r + S (length B)) (S (length A + S (length B)))) with true; [reflexivity|].
    symmetry. apply Nat.ltb_lt. lia.
  - replace (Nat.ltb (length r + S (length B)) (S (length A + S (length B)))) with false.
    2:{ symmetry. apply Nat.ltb_ge. lia. }
    apply consume_positionals_suffix in E as (n & ->).
    rewrite (skipn_ge_len n ((t, c) :: A)) by exact H.
    rewrite span_nonopt_pre by exact HA2. reflexivity.
Qed.
