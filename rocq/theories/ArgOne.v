(** * Lines of a parser with one positional argument *)

From Coq Require Import Lia.
From Verif Require Import PyStrFacts OptionsFacts ArgSpec ArgParseFacts ArgLineFacts ArgErrFacts ArgDecl ArgDeclFacts ArgSimple ArgTable NsFacts NsRange.
From Verif Require Import Value.
Local Open Scope string_scope.
Local Open Scope list_scope.

(** ** The argument [P]: one text, which must be given (nargs 1) or need not (nargs "?") *)

Section One.
Variable P : action.
Variable f : string -> string.
Hypothesis pos : a_opts P = [].
Hypothesis kind : a_kind P = KStore.
Hypothesis many : a_nargs P = NInt 1 \/ a_nargs P = NOpt.
Hypothesis dflt : a_default P = VNone.
Hypothesis free : a_choices P = None.
Hypothesis conv : forall s, a_type P s = Ok (VStr (f s)).

(** What is stored for the word [s]. *)
Definition word_value (s : string) : value := match a_nargs P with NInt _ => VStrs [f s] | _ => VStr (f s) end.

Lemma get_one ln s : String.eqb "--" s = false -> get_values ln P [s] = Ok (word_value s).
Proof.
  intros H. unfold get_values, word_value. rewrite pos. cbn [remove_first]. rewrite H. destruct many as [N|N]; rewrite N.
  - apply get_list_given; [apply conv|]. unfold allowed. now rewrite free.
  - unfold get_checked, get_value, check_value. rewrite conv, free. reflexivity.
Qed.
Lemma get_dash ln s : get_values ln P ["--"; s] = Ok (word_value s).
Proof.
  unfold get_values, word_value. rewrite pos. cbn [remove_first]. change (String.eqb "--" "--") with true. destruct many as [N|N]; rewrite N.
  - apply get_list_given; [apply conv|]. unfold allowed. now rewrite free.
  - unfold get_checked, get_value, check_value. rewrite conv, free. reflexivity.
Qed.

(** ** Words that can be taken *)

(** Before the word -- nothing looks like it; after it there are no options. *)
Definition tame (L : list (string * cls)) : Prop := exists X Y, L = X ++ Y /\ (forall s c, In (s, c) X -> c <> CDash /\ (c = CA -> s <> "--")) /\
  (Y = [] \/ exists Z, Y = ("--", CDash) :: Z /\ forall s c, In (s, c) Z -> c = CA).
Lemma classify_tame p ln args : forall L, classify p ln args = Ok L -> tame L.
Proof.
  induction args as [|w args IH]; intros L H; cbn [classify] in H.
  - injection H as <-. exists [], []. split; [reflexivity|]. split; [intros s c []|now left].
  - destruct (String.eqb_spec w "--") as [->|Nw].
    + injection H as <-. exists [], (("--", CDash) :: map (fun x => (x, CA)) args). split; [reflexivity|]. split; [intros s c []|].
      right. eexists. split; [reflexivity|]. intros s c Hin. apply in_map_iff in Hin as (x & E & _). now injection E as _ <-.
    + apply bind_ok in H as (c & Hc & H). apply bind_ok in H as (l & Hl & H). injection H as <-.
      destruct (IH l Hl) as (X & Y & -> & HX & HY). exists ((w, c) :: X), Y. split; [reflexivity|]. split; [|exact HY].
      intros s c' [E|Hin]; [|now apply HX]. injection E as <- <-. split; [|intros _; exact Nw].
      intros ->. unfold parse_optional in Hc. destruct w as [|x r]; [discriminate|].
      repeat match type of Hc with context [match ?y with _ => _ end] => destruct y; try discriminate end.
Qed.
Lemma tame_skip k B : (k <= leading_args (map snd B))%nat -> tame B -> tame (skipn k B).
Proof.
  revert B. induction k as [|k IH]; intros B Hk HB; [exact HB|]. destruct B as [|[s c] B]; [exact HB|]. cbn [map snd leading_args] in Hk.
  destruct c; try lia. cbn [skipn]. apply IH; [lia|]. destruct HB as (X & Y & E & HX & HY). destruct X as [|x X].
  - destruct HY as [->|(Z & -> & _)]; discriminate.
  - injection E as <- ->. exists X, Y. split; [reflexivity|]. split; [|exact HY]. intros s' c' Hin. apply HX. now right.
Qed.
Lemma tame_rest A s oa x B : tame (A ++ (s, CO oa x) :: B) -> tame ((s, CO oa x) :: B).
Proof.
  induction A as [|[t c] A IH]; intros H; [exact H|]. apply IH. destruct H as (X & Y & E & HX & HY). destruct X as [|y X].
  - destruct HY as [->|(Z & -> & HZ)]; [discriminate|]. injection E as _ _ E. exfalso. specialize (HZ s (CO oa x)). rewrite <- E in HZ.
    discriminate HZ. apply in_or_app. right. now left.
  - injection E as <- E. exists X, Y. split; [exact E|]. split; [|exact HY]. intros s' c' Hin. apply HX. now right.
Qed.
Lemma tame_tail s c B : c <> CDash -> tame ((s, c) :: B) -> tame B.
Proof.
  intros Hc (X & Y & E & HX & HY). destruct X as [|y X].
  - destruct HY as [->|(Z & -> & _)]; [discriminate|]. injection E as _ E _. contradiction.
  - injection E as <- ->. exists X, Y. split; [reflexivity|]. split; [|exact HY]. intros s' c' Hin. apply HX. now right.
Qed.

(** What a chunk of words makes of the argument. *)
Lemma partial_one l : match match_partial [a_nargs P] l with
  | [] => True | [k] => pos_accepts (a_nargs P) (firstn k l) = true | _ => False end.
Proof.
  unfold match_partial. cbn [List.length match_partial_upto firstn]. destruct (match_positionals [a_nargs P] l) as [ks|] eqn:E; [|exact I].
  cbn [match_positionals] in E. revert E. generalize (List.length l) as k. induction k as [|k IH]; intros E.
  - destruct (pos_accepts (a_nargs P) (firstn 0 l)) eqn:A; [|discriminate]. injection E as <-. exact A.
  - destruct (pos_accepts (a_nargs P) (firstn (S k) l)) eqn:A; [injection E as <-; exact A|exact (IH E)].
Qed.
Definition stored_value (v : value) : Prop := (exists s, v = word_value s) \/ (a_nargs P = NOpt /\ v = VNone).
Lemma tame_one l : tame l -> pos_accepts (a_nargs P) (map snd l) = true -> (exists s, map fst l = [s] /\ s <> "--") \/ (exists s, map fst l = ["--"; s]) \/
  (exists s, map fst l = [s; "--"] /\ s <> "--") \/ (a_nargs P = NOpt /\ (map fst l = [] \/ map fst l = ["--"])).
Proof.
  intros (X & Y & -> & HX & HY) A. unfold pos_accepts in A. apply andb_prop in A as [A1 A2]. apply negb_true_iff in A1.
  assert (HX' : forall s c, In (s, c) X -> c = CA /\ s <> "--").
  { intros s c Hin. destruct (HX s c Hin) as [H1 H2]. assert (c = CA); [|now split; auto]. destruct c as [| |oa e]; [reflexivity|now destruct H1|].
    exfalso. rewrite <- not_true_iff_false, existsb_exists in A1. apply A1. exists (CO oa e). split; [|reflexivity]. apply (in_map snd (X ++ Y) (s, CO oa e)). apply in_or_app. now left. }
  clear HX A1. unfold count_args in A2. rewrite map_app, filter_app, app_length in A2.
  assert (CX : List.length (filter (fun c => match c with CA => true | _ => false end) (map snd X)) = List.length X).
  { clear -HX'. induction X as [|[s c] X IH]; [reflexivity|]. destruct (HX' s c (or_introl eq_refl)) as [-> _]. cbn [map snd filter List.length]. rewrite IH; [reflexivity|]. intros s' c' H. apply HX'. now right. }
  rewrite CX in A2. rewrite map_app. destruct HY as [->|(Z & -> & HZ)].
  - cbn [map filter List.length app] in *. rewrite app_nil_r. rewrite Nat.add_0_r in A2. destruct X as [|[s c] [|y X]].
    + right. right. right. destruct many as [N|N]; rewrite N in A2; [discriminate|auto].
    + left. exists s. split; [reflexivity|]. now apply (HX' s c (or_introl eq_refl)).
    + exfalso. destruct many as [N|N]; rewrite N in A2; discriminate.
  - assert (CZ : List.length (filter (fun c => match c with CA => true | _ => false end) (map snd Z)) = List.length Z).
    { clear -HZ. induction Z as [|[s c] Z IH]; [reflexivity|]. rewrite (HZ s c (or_introl eq_refl)). cbn [map snd filter List.length]. rewrite IH; [reflexivity|]. intros s' c' H. apply (HZ s'). now right. }
    cbn [map snd fst filter] in *. rewrite CZ in A2. destruct X as [|[s c] X].
    + cbn [List.length Nat.add] in A2. destruct Z as [|[t d] [|z Z]].
      * right. right. right. destruct many as [N|N]; rewrite N in A2; [discriminate|auto].
      * right. left. exists t. reflexivity.
      * exfalso. destruct many as [N|N]; rewrite N in A2; discriminate.
    + right. right. left. cbn [List.length] in A2. assert (X = [] /\ Z = []) as [-> ->].
      { destruct many as [N|N]; rewrite N in A2; [apply Nat.eqb_eq in A2|apply Nat.leb_le in A2]; destruct X, Z; cbn [List.length] in A2; try lia; auto. }
      exists s. split; [reflexivity|]. now apply (HX' s c (or_introl eq_refl)).
Qed.
Lemma get_chunk ln l v : tame l -> pos_accepts (a_nargs P) (map snd l) = true -> get_values ln P (map fst l) = Ok v -> stored_value v.
Proof.
  intros T A E. destruct (tame_one l T A) as [(s & M & H)|[(s & M)|[(s & M & H)|(N & H)]]]; unfold stored_value; try rewrite M in E.
  - rewrite get_one in E by (rewrite String.eqb_sym; now apply String.eqb_neq). injection E as <-. eauto.
  - rewrite get_dash in E. injection E as <-. eauto.
  - assert (Q : get_values ln P [s; "--"] = get_values ln P [s]).
    { unfold get_values. rewrite pos. cbn [remove_first]. assert (Hs : String.eqb "--" s = false) by (rewrite String.eqb_sym; now apply String.eqb_neq). rewrite Hs. reflexivity. }
    rewrite Q, get_one in E by (rewrite String.eqb_sym; now apply String.eqb_neq). injection E as <-. eauto.
  - right. split; [exact N|]. unfold get_values in E. rewrite pos, N, dflt in E. destruct H as [H|H]; rewrite H in E; cbn in E; now injection E as <-.
Qed.
Lemma In_firstn {A} k (l : list A) x : In x (firstn k l) -> In x l.
Proof. intros H. rewrite <- (firstn_skipn k l). apply in_or_app. now left. Qed.
Lemma tame_firstn k L : tame L -> tame (firstn k L).
Proof.
  intros (X & Y & -> & HX & HY). rewrite firstn_app. exists (firstn k X), (firstn (k - List.length X) Y). split; [reflexivity|]. split.
  - intros s c Hin. apply HX. eapply In_firstn; eauto.
  - destruct HY as [->|(Z & -> & HZ)]; [left; now rewrite firstn_nil|]. destruct (k - List.length X) as [|j]; [now left|]. right. exists (firstn j Z). split; [reflexivity|].
    intros s c Hin. apply (HZ s). eapply In_firstn; eauto.
Qed.

(** ** What the whole line stores *)

Variable R : string -> value -> Prop.
Hypothesis range : forall v, stored_value v -> R (a_dest P) v.
Definition aside (L : list (string * cls)) : Prop := forall s a x, In (s, CO (Some a) x) L -> stores_in_range R a /\ a_dest a <> a_dest P /\ a_id a <> a_id P.
Definition waiting (st : pstate) : Prop := s_pos st = [P] /\ ~ In (a_id P) (s_seen st).
Definition done (st : pstate) : Prop := s_pos st = [] /\ exists v, assoc (a_dest P) (s_ns st) = Some v /\ stored_value v.

Lemma take_one ln L st st' r : tame L -> waiting st -> in_range R (s_ns st) -> consume_positionals ln L st = Ok (st', r) ->
  in_range R (s_ns st') /\ ((waiting st' /\ r = L) \/ done st').
Proof.
  intros T [W1 W2] N E. unfold consume_positionals in E. rewrite W1 in E. cbn [map] in E. pose proof (partial_one (map snd L)) as M.
  destruct (match_partial [a_nargs P] (map snd L)) as [|k [|? ?]]; [| |contradiction].
  - cbn [take_positionals bind fst snd skipn List.length] in E. injection E as <- <-. cbn [s_ns]. split; [exact N|]. left. split; [|reflexivity]. split; [exact W1|exact W2].
  - cbn [take_positionals] in E. apply bind_ok in E as ([st1 r1] & E & E'). apply bind_ok in E as (st2 & E & E2). injection E2 as <- <-. cbn [fst snd List.length] in E'. injection E' as <- <-.
    unfold take_action in E. apply bind_ok in E as (v & Ev & E). apply bind_ok in E as (n & En & E). injection E as <-. cbn [s_ns s_pos].
    unfold call_action in En. rewrite kind in En. injection En as <-.
    assert (S : stored_value v). { eapply (get_chunk ln (firstn k L)); [now apply tame_firstn| |exact Ev]. rewrite <- firstn_map. exact M. }
    split; [apply range_put; auto|]. right. split; [cbn [s_pos]; now rewrite W1|]. exists v. cbn [s_ns]. rewrite assoc_put, String.eqb_refl. auto.
Qed.
Lemma take_aside ln s oa x B st st' r : aside ((s, CO oa x) :: B) -> in_range R (s_ns st) -> consume_optional ln s oa x B st = Ok (st', r) ->
  in_range R (s_ns st') /\ s_pos st' = s_pos st /\ aside r /\ assoc (a_dest P) (s_ns st') = assoc (a_dest P) (s_ns st) /\
  (In (a_id P) (s_seen st') -> In (a_id P) (s_seen st)) /\ (tame ((s, CO oa x) :: B) -> tame r).
Proof.
  intros A N E. assert (W : words_range R ((s, CO oa x) :: B)) by (intros s' a x' Hin; now apply (A s' a x')).
  destruct (consume_range R ln s oa x B st st' r W N E) as (N1 & P1 & _). split; [exact N1|]. split; [exact P1|].
  assert (AB : forall k, aside (skipn k B)) by (intros k s' a x' H; apply (A s' a x'); right; eapply In_skipn; eauto).
  assert (TA : forall b args st1, In (s, CO (Some b) x) ((s, CO oa x) :: B) -> take_action ln b args st = Ok st1 ->
    assoc (a_dest P) (s_ns st1) = assoc (a_dest P) (s_ns st) /\ (In (a_id P) (s_seen st1) -> In (a_id P) (s_seen st))).
  { intros b args st1 Hb Ht. destruct (A _ _ _ Hb) as (Hs & Hd & Hi). unfold take_action in Ht. apply bind_ok in Ht as (v & _ & Ht). apply bind_ok in Ht as (n & Hn & Ht). injection Ht as <-. cbn [s_ns s_seen].
    split; [|intros [X|X]; [contradiction|exact X]]. unfold call_action in Hn.
    assert (Q : exists w, n = put (a_dest b) w (s_ns st)). { destruct Hs as [[K _]|(_ & K & _)]; rewrite K in Hn; injection Hn as <-; eauto. }
    destruct Q as (w & ->). rewrite assoc_put. destruct (String.eqb_spec (a_dest P) (a_dest b)); [congruence|reflexivity]. }
  unfold consume_optional in E. destruct oa as [b|]; [|injection E as <- <-; cbn [s_ns s_seen]; split; [apply (AB 0)|]; split; [reflexivity|]; split; [auto|]; apply tame_tail; discriminate].
  destruct x as [v|].
  - destruct (match_optional _ _) as [[|[|?]]|]; try discriminate. apply bind_ok in E as (s1 & E & E'). injection E' as <- <-.
    destruct (TA b [v] s1 (or_introl eq_refl) E) as [T1 T2]. split; [apply (AB 0)|]. split; [exact T1|]. split; [exact T2|]. apply tame_tail; discriminate.
  - destruct (match_optional (a_nargs b) (map snd B)) as [k|] eqn:M; [|discriminate]. apply bind_ok in E as (s1 & E & E'). injection E' as <- <-.
    destruct (TA b _ s1 (or_introl eq_refl) E) as [T1 T2]. split; [apply AB|]. split; [exact T1|]. split; [exact T2|]. intros T. apply tame_tail in T; [|discriminate].
    apply match_optional_count in M as [M1 _]. now apply tame_skip.
Qed.
Lemma ploop_one ln L st : aside L -> in_range R (s_ns st) -> (waiting st /\ tame L) \/ done st ->
  match ploop ln L st with Ok st' => in_range R (s_ns st') /\ (waiting st' \/ done st') | Err _ => True end.
Proof.
  apply (ploop_induct ln (fun L st X => aside L -> in_range R (s_ns st) -> (waiting st /\ tame L) \/ done st ->
    match X with Ok st' => in_range R (s_ns st') /\ (waiting st' \/ done st') | Err _ => True end)); auto.
  - intros L0 st0 st' r _ E HA HN [[W T]|D].
    + destruct (take_one ln L0 st0 st' r T W HN E) as (N1 & [[W1 _]|D1]); (split; [exact N1|]); [left; exact W1|right; exact D1].
    + destruct D as (D1 & D2). rewrite no_pos_consume in E by exact D1. injection E as <- <-. split; [exact HN|]. right. split; [reflexivity|exact D2].
  - intros s oa x B st0 st' r X E HX HA HN H. destruct (take_aside _ _ _ _ _ _ _ _ HA HN E) as (N1 & P1 & A1 & G1 & S1 & T1). apply HX; auto.
    destruct H as [[[W1 W2] T]|(D1 & v & D2)]; [left|right].
    + split; [|auto]. split; [congruence|auto].
    + split; [congruence|]. exists v. now rewrite G1.
  - intros A s oa x B st0 st' r X HCo Hne E Hl HX HA HN H.
    assert (HA' : aside (r ++ (s, CO oa x) :: B)).
    { intros s' a x' Hin. apply (HA s' a x'). apply in_app_or in Hin as [Hin|Hin]; apply in_or_app; [left|now right].
      apply consume_positionals_suffix in E as (n & ->). eapply In_skipn; eauto. }
    destruct H as [[W T]|D].
    + assert (TA : tame A). { destruct T as (X0 & Y & Q & HX0 & HY). assert (firstn (List.length A) (X0 ++ Y) = A) as <- by (rewrite <- Q, firstn_app, Nat.sub_diag, firstn_all; cbn [firstn]; apply app_nil_r).
        apply tame_firstn. exists X0, Y. auto. }
      destruct (take_one ln A st0 st' r TA W HN E) as (N1 & [[W1 ->]|D1]); [lia|]. apply HX; auto.
    + destruct D as (D1 & D2). rewrite no_pos_consume in E by exact D1. injection E as <- <-. lia.
  - intros A s oa x B st0 st' X HCo Hne E HX HA HN H.
    assert (HA' : aside ((s, CO oa x) :: B)) by (intros s' a x' Hin; apply (HA s' a x'), in_or_app; now right).
    destruct H as [[W T]|D].
    + assert (TA : tame A). { destruct T as (X0 & Y & Q & HX0 & HY). assert (firstn (List.length A) (X0 ++ Y) = A) as <- by (rewrite <- Q, firstn_app, Nat.sub_diag, firstn_all; cbn [firstn]; apply app_nil_r).
        apply tame_firstn. exists X0, Y. auto. }
      destruct (take_one ln A st0 st' A TA W HN E) as (N1 & [[W1 _]|D1]); apply HX; auto.
      left. split; [exact W1|]. eapply tame_rest; eauto.
    + destruct D as (D1 & D2). rewrite no_pos_consume in E by exact D1. injection E as <-. apply HX; auto. right. split; [reflexivity|exact D2].
Qed.
Lemma finish_required ln acts : forall seen missing n n', finish ln acts seen missing n = Ok n' -> missing = false /\ forall a, In a acts -> a_required a = true -> In (a_id a) seen.
Proof.
  assert (ME : forall acts seen n n', finish ln acts seen true n <> Ok n').
  { clear. induction acts as [|a acts IH]; intros seen n n'; cbn [finish]; [discriminate|]. destruct (existsb _ seen); [apply IH|]. destruct (a_required a); [apply IH|].
    destruct (a_default a); try apply IH. destruct (_ && _); [|apply IH]. destruct (get_value ln a s); cbn [bind]; [apply IH|discriminate]. }
  induction acts as [|a acts IH]; intros seen missing n n' E; cbn [finish] in E.
  - destruct missing; [discriminate|]. split; [reflexivity|]. intros a [].
  - destruct (existsb (Nat.eqb (a_id a)) seen) eqn:Ex.
    + destruct (IH _ _ _ _ E) as [M H]. split; [exact M|]. intros b [<-|Hb] Rb; [|auto]. apply existsb_exists in Ex as (i & Hi & Ei). apply Nat.eqb_eq in Ei. now subst.
    + destruct (a_required a) eqn:Ra; [destruct (ME _ _ _ _ E)|].
      assert (G : missing = false /\ forall b, In b acts -> a_required b = true -> In (a_id b) seen).
      { destruct (a_default a); try (eapply IH; exact E). destruct (_ && _); [|eapply IH; exact E]. apply bind_ok in E as (v & _ & E). eapply IH; exact E. }
      destruct G as [M H]. split; [exact M|]. intros b [<-|Hb] Rb; [congruence|auto].
Qed.
Lemma finish_keeps ln k acts : (forall a s, In a acts -> a_dest a = k -> a_default a <> VStr s) -> forall seen missing n n', finish ln acts seen missing n = Ok n' -> assoc k n' = assoc k n.
Proof.
  induction acts as [|a acts IH]; intros H seen missing n n' E; cbn [finish] in E.
  - destruct missing; [discriminate|]. now injection E as <-.
  - assert (H' : forall b s, In b acts -> a_dest b = k -> a_default b <> VStr s) by (intros b s Hb; apply H; now right).
    destruct (existsb _ seen); [eauto|]. destruct (a_required a); [eauto|]. destruct (a_default a) eqn:D; eauto. destruct (_ && _); [|eauto].
    apply bind_ok in E as (v & _ & E). rewrite (IH H' _ _ _ _ E), assoc_put. destruct (String.eqb_spec k (a_dest a)) as [->|]; [|reflexivity]. exfalso. apply (H a s); auto. now left.
Qed.
Theorem one_range p ln args n r : positionals p = [P] -> (forall a, In a (p_actions p) -> settled a) ->
  (forall a, In a (map snd (p_optmap p)) -> stores_in_range R a /\ a_dest a <> a_dest P /\ a_id a <> a_id P) ->
  (forall a, In a (p_actions p) -> a_dest a = a_dest P -> a = P) ->
  (forall d a, In a (p_actions p) -> a_dest a = d -> R d (declared (p_actions p) d)) ->
  (a_nargs P = NInt 1 -> a_required P = true) ->
  parse_known_args p ln args = Ok (n, r) -> in_range R n /\ (a_nargs P = NInt 1 -> exists s, assoc (a_dest P) n = Some (word_value s)).
Proof.
  intros HP HS HA HU HD HR E. rewrite parse_known_args_ploop in E. apply bind_ok in E as (L & Ec & E). apply bind_ok in E as (st & E1 & E). apply bind_ok in E as (n1 & E2 & E). injection E as <- _.
  match type of E1 with ploop ln L ?s = _ => pose proof (ploop_one ln L s) as K end. rewrite E1 in K. destruct K as [K1 K2].
  - intros s a x Hin. apply HA. eapply parse_optional_action. eapply classify_in; [exact Ec|exact Hin|discriminate|discriminate].
  - now apply init_range.
  - left. split; [|eapply classify_tame; exact Ec]. split; [exact HP|]. cbn. auto.
  - split; [eapply finish_range; [exact HS|exact K1|exact E2]|]. intros N.
    assert (In P (p_actions p)) as Hin. { assert (In P (positionals p)) as X by (rewrite HP; now left). unfold positionals in X. now apply filter_In in X. }
    destruct (finish_required _ _ _ _ _ _ E2) as [_ Q]. specialize (Q P Hin (HR N)). destruct K2 as [[_ W]|(_ & v & D1 & D2)]; [contradiction|].
    assert (Kp : assoc (a_dest P) n1 = assoc (a_dest P) (s_ns st)) by (eapply finish_keeps; [|exact E2]; intros a s Ha Hd; rewrite (HU a Ha Hd), dflt; discriminate). rewrite Kp.
    destruct D2 as [(s & ->)|(N' & _)]; [eauto|congruence].
Qed.

(** ** A line of options around the argument, or without it *)

Lemma consume_word_one ln s ns seen ex : startswith s "-" = false ->
  consume_positionals ln [(s, CA)] (mkPstate ns seen ex [P]) = Ok (mkPstate (put (a_dest P) (word_value s) ns) (a_id P :: seen) ex [], []).
Proof.
  intros H. unfold consume_positionals. cbn [s_pos map snd].
  assert (M : match_partial [a_nargs P] [CA] = [1]) by (destruct many as [N|N]; rewrite N; reflexivity). rewrite M.
  cbn [take_positionals firstn map fst skipn List.length]. unfold take_action. rewrite get_one by (destruct (String.eqb_spec "--" s) as [<-|]; [discriminate|reflexivity]).
  cbn [bind]. unfold call_action. rewrite kind. reflexivity.
Qed.
Lemma consume_none_one ln ns seen ex : a_nargs P = NOpt ->
  consume_positionals ln [] (mkPstate ns seen ex [P]) = Ok (mkPstate (put (a_dest P) VNone ns) (a_id P :: seen) ex [], []).
Proof.
  intros N. unfold consume_positionals. cbn [s_pos map snd]. rewrite N. change (match_partial [NOpt] []) with [0].
  cbn [take_positionals firstn map fst skipn List.length]. unfold take_action, get_values. rewrite pos, N, dflt. cbn [remove_first bind]. unfold call_action. rewrite kind. reflexivity.
Qed.
Lemma known_words p ws : forallb (readable p) ws = true -> Forall (fun w => option_of p (name w) <> None) ws.
Proof.
  intros H. apply Forall_forall. intros w Hw. rewrite forallb_forall in H. specialize (H w Hw). unfold readable, effect in H. destruct (option_of p (name w)); [discriminate|discriminate].
Qed.
Theorem one_line p ws1 s ws2 : table_ok p = true -> positionals p = [P] -> (forall a, In a (p_actions p) -> settled a) -> startswith s "-" = false ->
  forallb (readable p) ws1 = true -> forallb (readable p) ws2 = true ->
  (forall a, In a (p_actions p) -> a_required a = true -> a_id a = a_id P \/ exists w b, In w (ws1 ++ ws2) /\ option_of p (name w) = Some b /\ a_id b = a_id a) ->
  exists ns, (forall ln, parse_known_args p ln (map text ws1 ++ s :: map text ws2) = Ok (ns, [])) /\
    forall d, get d ns = match last_write p ws2 d with Some v => v | None => if String.eqb d (a_dest P) then word_value s else match last_write p ws1 d with Some v => v | None => declared (p_actions p) d end end.
Proof.
  intros Ht Hp Hs Hd H1 H2 Hr.
  destruct (simple_words p ws1 (declared (p_actions p)) H1) as (m1 & E1 & M1).
  destruct (read_words_run p ws1 (init_ns (p_actions p)) _ _ [] (fun d => get_init_ns _ d) E1) as (n1 & seen1 & R1 & A1).
  destruct (simple_words p ws2 (set m1 (a_dest P) (word_value s)) H2) as (m2 & E2 & M2).
  assert (A2 : agrees (put (a_dest P) (word_value s) n1) (set m1 (a_dest P) (word_value s))).
  { intros d. rewrite get_put. unfold set. destruct (String.eqb d (a_dest P)); [reflexivity|apply A1]. }
  destruct (read_words_run p ws2 _ _ _ (a_id P :: seen1) A2 E2) as (n2 & seen2 & R2 & A3).
  exists n2. split; [|intros d; rewrite A3, M2; unfold set; rewrite M1; reflexivity].
  intros ln. rewrite parse_known_args_ploop. rewrite classify_words by (auto using known_words). rewrite classify_plain by exact Hd.
  assert (C : classify p ln (map text ws2) = Ok (map (word_of p) ws2)).
  { rewrite <- (app_nil_r (map text ws2)), classify_words by (auto using known_words). cbn [classify bind]. now rewrite app_nil_r. }
  rewrite C. cbn [bind]. change (filter (fun a => match a_opts a with [] => true | _ => false end) (p_actions p)) with (positionals p). rewrite Hp.
  rewrite (ploop_words p ln Ht _ _ _ _ _ _ _ _ R1).
  assert (Q : ploop ln ((s, CA) :: map (word_of p) ws2) (mkPstate n1 seen1 [] [P]) = ploop ln (map (word_of p) ws2) (mkPstate (put (a_dest P) (word_value s) n1) (a_id P :: seen1) [] [])).
  { destruct ws2 as [|w ws2].
    - cbn [map]. rewrite !ploop_end by reflexivity. rewrite consume_word_one by exact Hd. reflexivity.
    - assert (W : exists oa x, word_of p w = (text w, CO oa x)).
      { pose proof (known_words p _ H2) as F. inversion F as [|? ? Fw _]; subst. unfold word_of. destruct (option_of p (name w)) as [b|]; [|contradiction]. destruct w; cbn [word_cls]; eauto. }
      destruct W as (oa & x & W). cbn [map]. rewrite W. change ((s, CA) :: (text w, CO oa x) :: map (word_of p) ws2) with ([(s, CA)] ++ (text w, CO oa x) :: map (word_of p) ws2).
      rewrite ploop_chunk by (reflexivity || discriminate). rewrite consume_word_one by exact Hd. reflexivity. }
  rewrite Q. rewrite <- (app_nil_r (map (word_of p) ws2)), (ploop_words p ln Ht _ _ _ _ _ _ _ _ R2). rewrite ploop_end by reflexivity. rewrite no_pos_consume by reflexivity. cbn [bind fst snd s_ns s_seen s_extras s_pos map app].
  rewrite finish_ok; [reflexivity|]. intros a Ha. destruct (a_required a) eqn:Ra; [|right; auto]. left. apply (run_words_seen _ _ _ _ _ _ R2).
  destruct (Hr a Ha Ra) as [->|(w & b & Hw & Hb & Hi)]; [left; now left|]. apply in_app_or in Hw as [Hw|Hw].
  - left. right. apply (run_words_seen _ _ _ _ _ _ R1). right. eauto.
  - right. eauto.
Qed.
Theorem none_line p ws : table_ok p = true -> positionals p = [P] -> (forall a, In a (p_actions p) -> settled a) -> a_nargs P = NOpt ->
  forallb (readable p) ws = true ->
  (forall a, In a (p_actions p) -> a_required a = true -> exists w b, In w ws /\ option_of p (name w) = Some b /\ a_id b = a_id a) ->
  exists ns, (forall ln, parse_known_args p ln (map text ws) = Ok (ns, [])) /\
    forall d, get d ns = if String.eqb d (a_dest P) then VNone else match last_write p ws d with Some v => v | None => declared (p_actions p) d end.
Proof.
  intros Ht Hp Hs N H1 Hr.
  destruct (simple_words p ws (declared (p_actions p)) H1) as (m1 & E1 & M1).
  destruct (read_words_run p ws (init_ns (p_actions p)) _ _ [] (fun d => get_init_ns _ d) E1) as (n1 & seen1 & R1 & A1).
  exists (put (a_dest P) VNone n1). split; [|intros d; rewrite get_put; destruct (String.eqb d (a_dest P)); [reflexivity|]; rewrite A1; apply M1].
  intros ln. rewrite parse_known_args_ploop.
  assert (C : classify p ln (map text ws) = Ok (map (word_of p) ws)).
  { rewrite <- (app_nil_r (map text ws)), classify_words by (auto using known_words). cbn [classify bind]. now rewrite app_nil_r. }
  rewrite C. cbn [bind]. change (filter (fun a => match a_opts a with [] => true | _ => false end) (p_actions p)) with (positionals p). rewrite Hp.
  rewrite <- (app_nil_r (map (word_of p) ws)), (ploop_words p ln Ht _ _ _ _ _ _ _ _ R1). rewrite ploop_end by reflexivity. rewrite consume_none_one by exact N. cbn [bind fst snd s_ns s_seen s_extras s_pos map app].
  rewrite finish_ok; [reflexivity|]. intros a Ha. destruct (a_required a) eqn:Ra; [|right; auto]. left. right. apply (run_words_seen _ _ _ _ _ _ R1). right. eauto.
Qed.
End One.
