(** * getopt and the specification of realm join *)

From Verif Require Import PyStrFacts ArgLineFacts VersionFacts Realm RealmSpec.
From Coq Require Import Lia.
From Verif Require Import Value.
Local Open Scope string_scope.
Local Open Scope list_scope.
Local Arguments Ascii.eqb : simpl never.
Local Arguments String.eqb : simpl never.

Lemma last_inv a b c : (a ++ String c "")%string = (b ++ String c "")%string -> a = b.
Proof.
  revert b. induction a as [|x a IH]; intros [|y b] E; cbn [append] in E; try reflexivity.
  - injection E as -> E. destruct b; discriminate.
  - injection E as -> E. destruct a; discriminate.
  - injection E as -> E. now rewrite (IH b E).
Qed.
Lemma starts_eq o p : has_char "="%char p = false -> startswith (o ++ "=") p = startswith o p.
Proof.
  revert p. induction o as [|c o IH]; intros [|d p] H; try reflexivity.
  - cbn [append startswith]. unfold has_char in H. cbn [any_char] in H. apply orb_false_elim in H as [H _].
    rewrite ?(Ascii.eqb_sym d), H. rewrite ?H. reflexivity.
  - unfold has_char in H. cbn [any_char] in H. apply orb_false_elim in H as [_ H]. cbn [append startswith]. now rewrite IH.
Qed.
Lemma means_starts p o : means p o <-> startswith o p = true /\ forall o', In o' (map fst realm_options) -> startswith o' p = true -> o' = o.
Proof.
  unfold means. rewrite startswith_spec. split; intros [H K]; (split; [exact H|]).
  - intros o' I S. apply in_map_iff in I as ([o2 b] & <- & I). apply startswith_spec in S as [r E]. exact (K _ b r I E).
  - intros o' b r I E. apply K; [exact (in_map fst _ _ I)|]. apply startswith_spec. eauto.
Qed.

Definition spelled (x : string * bool) : string := if snd x then (fst x ++ "=")%string else fst x.
Lemma longs_spelled : realm_longs = map spelled realm_options.
Proof. reflexivity. Qed.

Lemma filter_spelled p l : has_char "="%char p = false ->
  filter (fun o => startswith o p) (map spelled l) = map spelled (filter (fun x => startswith (fst x) p) l).
Proof.
  intros H. induction l as [|[o b] l IH]; [reflexivity|]. cbn [map filter fst].
  assert (E : startswith (spelled (o, b)) p = startswith o p) by (unfold spelled; cbn [fst snd]; destruct b; [now apply starts_eq|reflexivity]).
  rewrite E, IH. destruct (startswith o p); reflexivity.
Qed.
Lemma one_left p l o (b : bool) : NoDup (map fst l) ->
  (filter (fun x => startswith (fst x) p) l = [(o, b)] <->
   In (o, b) l /\ startswith o p = true /\ forall o', In o' (map fst l) -> startswith o' p = true -> o' = o).
Proof.
  intros D. split.
  - intros F. assert (I : In (o, b) (filter (fun x => startswith (fst x) p) l)) by (rewrite F; left; reflexivity).
    apply filter_In in I as [I S]. split; [exact I|]. split; [exact S|]. intros o' I' S'. apply in_map_iff in I' as (x & <- & I').
    assert (J : In x (filter (fun x => startswith (fst x) p) l)) by (apply filter_In; auto). rewrite F in J. destruct J as [<-|[]]. reflexivity.
  - intros (I & S & U). induction l as [|[o1 b1] l IH]; [contradiction|]. cbn [map fst] in D. inversion D as [|? ? N D']; subst.
    cbn [filter fst]. destruct I as [I|I].
    + injection I as -> ->. rewrite S. f_equal. destruct (filter _ l) as [|y m] eqn:F; [reflexivity|]. exfalso.
      assert (J : In y (filter (fun x => startswith (fst x) p) l)) by (rewrite F; left; reflexivity). apply filter_In in J as [J Sy].
      assert (E : fst y = o) by (apply U; [right; exact (in_map fst _ _ J)|exact Sy]). apply N. rewrite <- E. exact (in_map fst _ _ J).
    + destruct (startswith o1 p) eqn:S1.
      * exfalso. assert (E : o1 = o) by (apply U; [left; reflexivity|exact S1]). subst o1. apply N. exact (in_map fst _ _ I).
      * apply IH; auto. intros o' Io. apply U. right. exact Io.
Qed.
Lemma chop_last o c : chop (o ++ String c "") = o.
Proof. induction o as [|x o IH]; [reflexivity|]. cbn [append chop]. rewrite IH. destruct (o ++ String c "")%string eqn:E; [destruct o; discriminate|reflexivity]. Qed.
Lemma ends_last o c : ends_with_char c (o ++ String c "") = true.
Proof. induction o as [|x o IH]; cbn [append ends_with_char]; [|destruct (o ++ String c "")%string eqn:E; [destruct o; discriminate|exact IH]]. apply Ascii.eqb_refl. Qed.

Lemma long_spec p b o : has_char "="%char p = false ->
  (long_has_args p realm_longs = Some (b, o) <-> In (o, b) realm_options /\ means p o).
Proof.
  intros H. rewrite means_starts.
  destruct (in_dec string_dec p (map fst realm_options)) as [I|N].
  - assert (Q : forallb (fun x => forallb (fun y => Bool.eqb (startswith (fst y) (fst x)) (String.eqb (fst y) (fst x))) realm_options &&
                     match long_has_args (fst x) realm_longs with Some (b, o) => Bool.eqb b (snd x) && String.eqb o (fst x) | None => false end) realm_options = true)
      by (vm_compute; reflexivity).
    rewrite forallb_forall in Q. apply in_map_iff in I as ([p' b'] & Ep & I). cbn in Ep. subst p'.
    pose proof (Q _ I) as [Q1 Q2]%andb_prop. rewrite forallb_forall in Q1. cbn [fst snd] in *.
    destruct (long_has_args p realm_longs) as [[b2 o2]|]; [|discriminate]. apply andb_prop in Q2 as [E1 E2].
    apply Bool.eqb_prop in E1 as ->. apply String.eqb_eq in E2 as ->.
    assert (U : forall o' b', In (o', b') realm_options -> startswith o' p = true -> o' = p).
    { intros o' c I' S. specialize (Q1 _ I'). cbn [fst] in Q1. rewrite S in Q1. apply Bool.eqb_prop in Q1. symmetry in Q1. now apply String.eqb_eq. }
    split.
    + intros E. injection E as <- <-. split; [exact I|]. split; [apply startswith_spec; exists ""; now rewrite app_nil_r_s|].
      intros o' J S. apply in_map_iff in J as ([o2 c] & <- & J). exact (U _ _ J S).
    + intros (J & S & _). assert (o = p) as -> by exact (U _ _ J S).
      assert (D : NoDup (map fst realm_options)) by (repeat constructor; cbn; intuition discriminate).
      assert (b = b') as ->; [|reflexivity].
      cbn in I, J. clear -I J. repeat (destruct I as [I|I]; [injection I as <- <-; repeat (destruct J as [J|J]; [try discriminate; now injection J|]); contradiction|]). contradiction.
  - assert (M : forall ps, incl ps realm_longs -> mem p ps = false /\ mem (p ++ "=") ps = false).
    { intros ps Hi. split; apply mem_false; intros X; apply Hi in X; rewrite longs_spelled in X; apply in_map_iff in X as ([o1 b1] & E & X);
        unfold spelled in E; cbn [fst snd] in E; apply N.
      - destruct b1; [|subst p; exact (in_map fst _ _ X)]. exfalso. rewrite <- E, has_char_app in H. apply orb_false_elim in H as [_ H]. discriminate.
      - destruct b1.
        + assert (o1 = p) as -> by (revert E; apply last_inv). exact (in_map fst _ _ X).
        + exfalso. assert (K : forallb (fun y => negb (has_char "="%char (fst y))) realm_options = true) by (vm_compute; reflexivity).
          rewrite forallb_forall in K. specialize (K _ X). cbn [fst] in K. rewrite E, has_char_app in K. apply negb_true_iff, orb_false_elim in K as [_ K]. discriminate. }
    unfold long_has_args. specialize (M (filter (fun o => startswith o p) realm_longs)).
    assert (Hi : incl (filter (fun o => startswith o p) realm_longs) realm_longs) by (intros x Hx; apply filter_In in Hx; tauto).
    destruct (M Hi) as [M1 M2]. rewrite M1, M2. clear M M1 M2 Hi N. rewrite longs_spelled, filter_spelled by exact H.
    assert (D : NoDup (map fst realm_options)) by (repeat constructor; cbn; intuition discriminate).
    rewrite <- (one_left p realm_options o b D).
    destruct (filter (fun x => startswith (fst x) p) realm_options) as [|[o1 b1] [|y l]] eqn:F; cbn [map].
    + split; discriminate.
    + unfold spelled. cbn [fst snd]. destruct b1.
      * rewrite ends_last, chop_last. split; intros E; injection E as <- <-; reflexivity.
      * assert (X : ends_with_char "="%char o1 = false).
        { assert (I : In (o1, false) realm_options) by (apply (proj1 (filter_In (fun x => startswith (fst x) p) (o1, false) realm_options)); rewrite F; left; reflexivity).
          cbn in I. repeat (destruct I as [I|I]; [try discriminate; injection I as <-; reflexivity|]). contradiction. }
        rewrite X. split; intros E; injection E as <- <-; reflexivity.
    + split; discriminate.
Qed.

Lemma not_dashed a : startswith a "-" && negb (String.eqb a "-") = false <-> ~ dashed a.
Proof.
  unfold dashed. destruct (startswith a "-") eqn:S; cbn [andb].
  - apply startswith_spec in S as [r ->]. destruct (String.eqb_spec ("-" ++ r) "-") as [E|Ne]; cbn [negb].
    + split; [|reflexivity]. intros _ (r2 & E2 & N). rewrite E2 in E. injection E as E. exact (N E).
    + split; [discriminate|]. intros K. exfalso. apply K. exists r. split; [reflexivity|]. intros ->. now apply Ne.
  - split; [|reflexivity]. intros _ (r & -> & _). assert (X : startswith ("-" ++ r) "-" = true) by (apply startswith_spec; eauto). congruence.
Qed.
Lemma partition_spec c s : (has_char c s = false /\ partition_char c s = (s, false, "")) \/
  exists a b, s = (a ++ String c b)%string /\ has_char c a = false /\ partition_char c s = (a, true, b).
Proof.
  induction s as [|d s IH].
  - left. split; reflexivity.
  - destruct (Ascii.eqb_spec c d) as [<-|Ne].
    + right. exists "", s. repeat split. exact (partition_char_app c "" s eq_refl).
    + destruct IH as [[H E]|(a & b & -> & H & E)].
      * left. assert (X : has_char c (String d s) = false) by (unfold has_char in *; cbn [any_char]; rewrite H; rewrite (proj2 (Ascii.eqb_neq c d) Ne); reflexivity).
        split; [exact X|]. now apply partition_char_none.
      * right. exists (String d a), b. assert (X : has_char c (String d a) = false) by (unfold has_char in *; cbn [any_char]; rewrite H; rewrite (proj2 (Ascii.eqb_neq c d) Ne); reflexivity).
        repeat split; [exact X|]. change (String d (a ++ String c b)) with (String d a ++ String c b)%string. now apply partition_char_app.
Qed.

Lemma finds_discover o b v opts : In (o, b) realm_options -> finds o v (discover opts) = discover ((("--" ++ o)%string, v) :: opts).
Proof.
  intros I. unfold finds, discover. cbn [filter fst].
  assert (E : mem ("--" ++ o) discoverable = if in_dec string_dec o finding then true else false).
  { cbn in I. repeat (destruct I as [I|I]; [injection I as <- <-; reflexivity|]). contradiction. }
  rewrite E. destruct (in_dec string_dec o finding); reflexivity.
Qed.
Lemma flag_discover o opts : In (o, false) realm_options -> discover ((("--" ++ o)%string, "") :: opts) = discover opts.
Proof. intros I. cbn in I. repeat (destruct I as [I|I]; [try discriminate; injection I as <-; reflexivity|]). contradiction. Qed.

Lemma option_word p : p <> "" -> startswith ("--" ++ p) "-" && negb (String.eqb ("--" ++ p) "-") = true /\ String.eqb ("--" ++ p) "--" = false /\
  startswith ("--" ++ p) "--" = true /\ drop 2 ("--" ++ p) = p.
Proof. intros H. destruct p; [contradiction|]. repeat split; reflexivity. Qed.

Lemma getopt_joins args : forall opts r, getopt realm_longs args = Some (opts, [r]) -> joins args r (discover opts).
Proof.
  remember (List.length args) as n eqn:En. assert (L : List.length args <= n) by lia. clear En. revert args L.
  induction n as [|n IH]; intros args L opts r E; [destruct args; [discriminate|cbn in L; lia]|].
  destruct args as [|a args]; [discriminate|]. cbn in L.
  cbn [getopt] in E. destruct (startswith a "-" && negb (String.eqb a "-")) eqn:D.
  2: { injection E as <- <- ->. apply join_name. now apply not_dashed. }
  destruct (String.eqb_spec a "--") as [->|Na].
  { injection E as <- ->. apply join_dashes. }
  destruct (startswith a "--") eqn:S; [|discriminate]. apply startswith_spec in S as [t ->].
  assert (Nt : t <> "") by (intros ->; now apply Na). destruct (option_word t Nt) as (_ & _ & _ & Dt). rewrite Dt in E.
  destruct (partition_spec "="%char t) as [[H P]|(p & v & -> & H & P)]; rewrite P in E.
  - destruct (long_has_args t realm_longs) as [[b o]|] eqn:G; [|discriminate]. apply (long_spec t b o H) in G as [I M]. destruct b.
    + destruct args as [|v args]; [discriminate|]. cbn in L. destruct (getopt realm_longs args) as [[os rem]|] eqn:G2; [|discriminate]. injection E as <- ->.
      change (joins (("--" ++ t)%string :: v :: args) r (discover ((("--" ++ o)%string, v) :: os))).
      rewrite <- (finds_discover o true v os I). apply (join_next t o v args r); auto. apply IH; [lia|exact G2].
    + destruct (getopt realm_longs args) as [[os rem]|] eqn:G2; [|discriminate]. injection E as <- ->.
      change (joins (("--" ++ t)%string :: args) r (discover ((("--" ++ o)%string, "") :: os))).
      rewrite (flag_discover o os I). apply (join_flag t o args r); auto. apply IH; [lia|exact G2].
  - destruct (long_has_args p realm_longs) as [[b o]|] eqn:G; [|discriminate]. apply (long_spec p b o H) in G as [I M]. destruct b; [|discriminate].
    destruct (getopt realm_longs args) as [[os rem]|] eqn:G2; [|discriminate]. injection E as <- ->.
    change (joins (("--" ++ p ++ "=" ++ v)%string :: args) r (discover ((("--" ++ o)%string, v) :: os))).
    rewrite <- (finds_discover o true v os I). apply (join_equals p o v args r); auto. apply IH; [lia|exact G2].
Qed.
Lemma joins_getopt args r ds : joins args r ds -> exists opts, getopt realm_longs args = Some (opts, [r]) /\ discover opts = ds.
Proof.
  intros J. induction J as [r N|r|p o args r ds I M Np H J (os & IH & <-)|p o v args r ds I M H J (os & IH & <-)|p o v args r ds I M Np H J (os & IH & <-)].
  - exists []. split; [|reflexivity]. cbn [getopt]. apply not_dashed in N. now rewrite N.
  - exists []. split; reflexivity.
  - destruct (option_word p Np) as (W1 & W2 & W3 & W4). exists ((("--" ++ o)%string, "") :: os). split; [|now apply flag_discover].
    cbn [getopt]. rewrite W1, W2, W3, W4, (partition_char_none _ _ H), (proj2 (long_spec p false o H) (conj I M)), IH. reflexivity.
  - assert (Np : (p ++ "=" ++ v)%string <> "") by (destruct p; discriminate).
    destruct (option_word _ Np) as (W1 & W2 & W3 & W4). exists ((("--" ++ o)%string, v) :: os). split; [|symmetry; exact (finds_discover o true v os I)].
    cbn [getopt]. rewrite W1, W2, W3, W4. change (p ++ "=" ++ v)%string with (p ++ String "="%char v)%string.
    rewrite (partition_char_app _ _ _ H), (proj2 (long_spec p true o H) (conj I M)), IH. reflexivity.
  - destruct (option_word p Np) as (W1 & W2 & W3 & W4). exists ((("--" ++ o)%string, v) :: os). split; [|symmetry; exact (finds_discover o true v os I)].
    cbn [getopt]. rewrite W1, W2, W3, W4, (partition_char_none _ _ H), (proj2 (long_spec p true o H) (conj I M)), IH. reflexivity.
Qed.
Lemma parse_join_spec ln args r js ds : parse_join ln args = Ok (r, js, ds) <-> js = args /\ joins args r ds.
Proof.
  unfold parse_join. split.
  - destruct (getopt realm_longs args) as [[os [|x [|y rem]]]|] eqn:G; try discriminate. intros E. injection E as <- <- <-. split; [reflexivity|]. now apply getopt_joins.
  - intros [-> J]. apply joins_getopt in J as (os & -> & <-). reflexivity.
Qed.
