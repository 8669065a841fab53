(** * Proofs about versions *)

From Verif Require Export Version PyStrFacts.
Local Open Scope string_scope.

Lemma assoc_In {A} k (l : list (string * A)) v : assoc k l = Some v -> In (k, v) l.
Proof.
  induction l as [|(k', w) l IH]; simpl; [discriminate|].
  destruct (String.eqb_spec k k'); [intros E; injection E as ->; subst; auto|auto].
Qed.

Lemma stringToVersion_sound s v : stringToVersion s = Ok v -> In v (map snd versionMap).
Proof.
  unfold stringToVersion. intros H.
  assert (A : forall k, assoc k versionMap = Some v -> In v (map snd versionMap)).
  { intros k Hk. apply assoc_In in Hk. apply (in_map snd) in Hk. exact Hk. }
  destruct (assoc (upper s) versionMap) eqn:E; [injection H as ->; eauto|].
  destruct (re_fedora s) as [d|].
  - destruct (assoc ("FC" ++ d) versionMap) eqn:E1; [injection H as ->; eauto|].
    destruct (assoc ("F" ++ d) versionMap) eqn:E2; [injection H as ->; eauto|discriminate].
  - destruct (re_rhel s) as [d|]; [|discriminate].
    destruct (assoc ("RHEL" ++ d) versionMap) eqn:E2; [injection H as ->; eauto|discriminate].
Qed.

Lemma stringToVersion_total s :
  (exists v, stringToVersion s = Ok v) \/ exists t, stringToVersion s = Err (KSVersionError t).
Proof.
  unfold stringToVersion, unsupported.
  destruct (assoc (upper s) versionMap); [eauto|].
  destruct (re_fedora s) as [d|].
  - destruct (assoc ("FC" ++ d) versionMap); [eauto|].
    destruct (assoc ("F" ++ d) versionMap); eauto.
  - destruct (re_rhel s) as [d|]; [|eauto]. destruct (assoc ("RHEL" ++ d) versionMap); eauto.
Qed.

Lemma find_version_sound v m s : find_version v m = Ok s -> In (s, v) m.
Proof.
  induction m as [|(k, w) m IH]; simpl; [discriminate|].
  destruct (String.eqb k "DEVEL"); [auto|].
  destruct (Z.eqb_spec w v); [intros E; injection E as ->; subst; auto|auto].
Qed.

Lemma find_version_total v m :
  (exists s, find_version v m = Ok s) \/ exists t, find_version v m = Err (KSVersionError t).
Proof.
  induction m as [|(k, w) m IH]; simpl; [right; eexists; reflexivity|].
  destruct (String.eqb k "DEVEL"); [auto|]. destruct (Z.eqb w v); eauto.
Qed.

(** Every version number of the table is found again. *)
Definition version_roundtrip_check : bool :=
  forallb (fun v => forallb (fun b =>
    match versionToString v b with
    | Ok s => match stringToVersion s with Ok w => Z.eqb w v | Err _ => false end
    | Err _ => false
    end) [true; false]) (map snd versionMap).

Lemma version_roundtrip v b : In v (map snd versionMap) ->
  exists s, versionToString v b = Ok s /\ stringToVersion s = Ok v.
Proof.
  intros H.
  assert (C : version_roundtrip_check = true) by (vm_compute; reflexivity).
  unfold version_roundtrip_check in C.
  pose proof (proj1 (forallb_forall _ _) C v H) as C1. clear C.
  assert (Hb : In b [true; false]) by (destruct b; simpl; auto).
  pose proof (proj1 (forallb_forall _ _) C1 b Hb) as C2. clear C1.
  cbv beta in C2.
  destruct (versionToString v b) as [s|e]; [|discriminate C2]. exists s; split; [reflexivity|].
  destruct (stringToVersion s) as [w|e]; [|discriminate C2].
  apply Z.eqb_eq in C2; subst; reflexivity.
Qed.

Lemma versionToString_unsupported v b : ~ In v (map snd versionMap) ->
  exists t, versionToString v b = Err (KSVersionError t).
Proof.
  intros H. unfold versionToString.
  destruct (negb b && Z.eqb v DEVEL) eqn:E.
  - exfalso; apply H. apply andb_true_iff in E as [_ E]. apply Z.eqb_eq in E; subst.
    simpl; auto.
  - destruct (find_version_total v versionMap) as [(s & Hs)|Ht]; [|exact Ht].
    exfalso; apply H. apply find_version_sound in Hs. apply (in_map snd) in Hs. exact Hs.
Qed.

(** ** Case does not matter *)

Lemma upper_char_idem c : upper_char (upper_char c) = upper_char c.
Proof.
  assert (X : Ascii.eqb (upper_char (upper_char c)) (upper_char c) = true).
  { apply (forall_ascii (fun c => Ascii.eqb (upper_char (upper_char c)) (upper_char c))).
    vm_compute; reflexivity. }
  apply eqb_true_a; exact X.
Qed.
Lemma upper_idem s : upper (upper s) = upper s.
Proof. induction s as [|c s IH]; simpl; [auto|]. rewrite upper_char_idem, IH; auto. Qed.

Lemma lower_upper_char c : lower_char (upper_char c) = lower_char c.
Proof.
  assert (X : Ascii.eqb (lower_char (upper_char c)) (lower_char c) = true).
  { apply (forall_ascii (fun c => Ascii.eqb (lower_char (upper_char c)) (lower_char c))).
    vm_compute; reflexivity. }
  apply eqb_true_a; exact X.
Qed.
Lemma lower_upper s : lower (upper s) = lower s.
Proof. induction s as [|c s IH]; simpl; [auto|]. rewrite lower_upper_char, IH; auto. Qed.

(** Upper-casing keeps the characters the two patterns look at. *)
Lemma upper_char_keeps c :
  Ascii.eqb (upper_char c) SP = Ascii.eqb c SP /\ Ascii.eqb (upper_char c) LF = Ascii.eqb c LF
  /\ Ascii.eqb LF (upper_char c) = Ascii.eqb LF c
  /\ is_digit (upper_char c) = is_digit c /\ (is_digit c = true -> upper_char c = c)
  /\ Ascii.eqb (upper_char c) "."%char = Ascii.eqb c "."%char.
Proof.
  assert (X : (Bool.eqb (Ascii.eqb (upper_char c) SP) (Ascii.eqb c SP)
    && (Bool.eqb (Ascii.eqb (upper_char c) LF) (Ascii.eqb c LF)
    && (Bool.eqb (Ascii.eqb LF (upper_char c)) (Ascii.eqb LF c)
    && (Bool.eqb (is_digit (upper_char c)) (is_digit c)
    && (implb (is_digit c) (Ascii.eqb (upper_char c) c)
    && Bool.eqb (Ascii.eqb (upper_char c) ".") (Ascii.eqb c "."))))))%char = true).
  { apply (forall_ascii (fun c => (Bool.eqb (Ascii.eqb (upper_char c) SP) (Ascii.eqb c SP)
    && (Bool.eqb (Ascii.eqb (upper_char c) LF) (Ascii.eqb c LF)
    && (Bool.eqb (Ascii.eqb LF (upper_char c)) (Ascii.eqb LF c)
    && (Bool.eqb (is_digit (upper_char c)) (is_digit c)
    && (implb (is_digit c) (Ascii.eqb (upper_char c) c)
    && Bool.eqb (Ascii.eqb (upper_char c) ".") (Ascii.eqb c "."))))))%char)).
    vm_compute; reflexivity. }
  repeat (apply andb_true_iff in X as [? X]).
  repeat match goal with H : Bool.eqb _ _ = true |- _ => apply Bool.eqb_prop in H end.
  repeat split; auto.
  intros Hd; rewrite Hd in *; simpl in *. apply eqb_true_a; auto.
Qed.

Lemma upper_all (p : ascii -> bool) s : (forall c, p (upper_char c) = p c) ->
  all_chars p (upper s) = all_chars p s.
Proof. intros H; induction s as [|c s IH]; simpl; [auto|]. rewrite H, IH; auto. Qed.
Lemma upper_any (p : ascii -> bool) s : (forall c, p (upper_char c) = p c) ->
  any_char p (upper s) = any_char p s.
Proof. intros H; induction s as [|c s IH]; simpl; [auto|]. rewrite H, IH; auto. Qed.

Lemma upper_last_blank s :
  last_blank (upper s) = option_map (fun ab => (upper (fst ab), upper (snd ab))) (last_blank s).
Proof.
  induction s as [|c s IH]; simpl; [auto|]. rewrite IH.
  destruct (last_blank s) as [(a, b)|]; simpl; [auto|].
  destruct (upper_char_keeps c) as (E & _). rewrite E. destruct (Ascii.eqb c SP); reflexivity.
Qed.

Lemma upper_drop n s : drop n (upper s) = upper (drop n s).
Proof. revert s; induction n as [|n IH]; intros [|c s]; simpl; auto. Qed.
Lemma upper_take n s : take n (upper s) = upper (take n s).
Proof. revert s; induction n as [|n IH]; intros [|c s]; simpl; auto. rewrite IH; auto. Qed.
Lemma upper_length s : String.length (upper s) = String.length s.
Proof. induction s; simpl; auto. Qed.
Lemma upper_ends s : ends_with_char LF (upper s) = ends_with_char LF s.
Proof.
  induction s as [|c s IH]; simpl; [auto|].
  destruct (upper_char_keeps c) as (_ & E & _).
  destruct s as [|d s]; simpl in *; [exact E|exact IH].
Qed.
Lemma upper_before_dollar s : before_dollar (upper s) = upper (before_dollar s).
Proof.
  unfold before_dollar. rewrite upper_ends, upper_length. destruct (ends_with_char LF s); [|auto].
  apply upper_take.
Qed.
Lemma upper_digits s : all_chars is_digit s = true -> upper s = s.
Proof.
  induction s as [|c s IH]; simpl; [auto|]. intros H; apply andb_true_iff in H as [Hc Hs].
  rewrite IH by auto. destruct (upper_char_keeps c) as (_ & _ & _ & _ & E & _). rewrite E; auto.
Qed.
Lemma upper_empty s : String.eqb (upper s) "" = String.eqb s "".
Proof. destruct s; reflexivity. Qed.

Lemma re_fedora_upper s : re_fedora (upper s) = re_fedora s.
Proof.
  unfold re_fedora. rewrite upper_before_dollar, lower_upper.
  destruct (startswith _ _); [|reflexivity].
  rewrite upper_drop, upper_last_blank.
  destruct (last_blank _) as [(x, d)|]; cbn [option_map fst snd]; [|reflexivity].
  unfold has_char. rewrite (upper_any (Ascii.eqb LF)), (upper_all is_digit), upper_empty.
  2,3: intros c; destruct (upper_char_keeps c) as (E1 & E2 & E3 & E4 & E5 & E6); auto.
  destruct (negb (any_char (Ascii.eqb LF) x) && negb (String.eqb d "")); cbn [andb]; [|reflexivity].
  destruct (all_chars is_digit d) eqn:E; [|reflexivity]. rewrite upper_digits by auto; reflexivity.
Qed.

Lemma upper_leading s : leading_digits (upper s)
  = (fst (leading_digits s), upper (snd (leading_digits s))).
Proof.
  induction s as [|c s IH]; [reflexivity|]. cbn [upper leading_digits].
  destruct (upper_char_keeps c) as (_ & _ & _ & E4 & E5 & _). rewrite E4.
  destruct (is_digit c); [|reflexivity]. rewrite IH, (E5 eq_refl).
  destruct (leading_digits s); reflexivity.
Qed.

Lemma re_rhel_upper s : re_rhel (upper s) = re_rhel s.
Proof.
  unfold re_rhel. rewrite upper_before_dollar, lower_upper.
  destruct (startswith _ _); [|reflexivity].
  rewrite upper_drop, upper_last_blank.
  destruct (last_blank _) as [(x, d)|]; cbn [option_map fst snd]; [|reflexivity].
  rewrite upper_leading. destruct (leading_digits d) as (ds, r). cbn [fst snd].
  unfold has_char. rewrite (upper_any (Ascii.eqb LF)), (upper_all (fun c => is_digit c || Ascii.eqb c ".")%char).
  2,3: intros c; destruct (upper_char_keeps c) as (E1 & E2 & E3 & E4 & E5 & E6); rewrite ?E4, ?E6; auto.
  reflexivity.
Qed.

Lemma stringToVersion_case s t : upper s = upper t -> stringToVersion s = stringToVersion t.
Proof.
  intros H.
  assert (A : forall x, stringToVersion (upper x) = stringToVersion x).
  { intros x. unfold stringToVersion. rewrite upper_idem, re_fedora_upper, re_rhel_upper. reflexivity. }
  rewrite <- (A s), <- (A t), H. reflexivity.
Qed.

(** ** The long names *)

Lemma last_blank_app x d : has_char SP d = false -> last_blank (x ++ String SP d) = Some (x, d).
Proof.
  intros Hd.
  assert (N : last_blank d = None).
  { clear x. unfold has_char in Hd. induction d as [|c d IH]; [reflexivity|]. cbn [any_char last_blank] in *.
    apply orb_false_iff in Hd as [H1 H2]. rewrite (IH H2), Ascii.eqb_sym, H1. reflexivity. }
  induction x as [|c x IH]; cbn [append last_blank].
  - rewrite N. reflexivity.
  - rewrite IH. reflexivity.
Qed.

Lemma ends_with_app c a b : b <> "" -> ends_with_char c (a ++ b) = ends_with_char c b.
Proof.
  intros Hb; induction a as [|x a IH]; simpl; [auto|].
  rewrite IH. destruct (a ++ b) eqn:E; [|reflexivity].
  apply app_eq_nil_s in E as [_ E]; contradiction.
Qed.

Lemma digits_no_end d : all_chars is_digit d = true -> ends_with_char LF d = false.
Proof.
  induction d as [|c d IH]; [reflexivity|]. cbn [all_chars]; intros H; apply andb_true_iff in H as [Hc Hd].
  cbn [ends_with_char]. destruct d as [|e d]; [|auto].
  destruct (Ascii.eqb c LF) eqn:E; [|auto]. apply eqb_true_a in E; subst; discriminate.
Qed.

Lemma digits_no_sp d : all_chars is_digit d = true -> has_char SP d = false.
Proof.
  unfold has_char. induction d as [|c d IH]; [reflexivity|]. cbn [all_chars any_char]; intros H.
  apply andb_true_iff in H as [Hc Hd]. rewrite (IH Hd), orb_false_r.
  destruct (Ascii.eqb SP c) eqn:E; [|auto]. apply eqb_true_a in E; subst; discriminate.
Qed.

Lemma drop_app a b : drop (String.length a) (a ++ b) = b.
Proof. induction a; simpl; auto. Qed.

Lemma lower_app a b : lower (a ++ b) = lower a ++ lower b.
Proof. induction a as [|c a IH]; simpl; [auto|]. rewrite IH; auto. Qed.
Lemma upper_app a b : upper (a ++ b) = upper a ++ upper b.
Proof. induction a as [|c a IH]; simpl; [auto|]. rewrite IH; auto. Qed.
Lemma lower_length s : String.length (lower s) = String.length s.
Proof. induction s; simpl; auto. Qed.

Lemma re_fedora_match f x d :
  lower f = "fedora" -> has_char LF x = false -> d <> "" -> all_chars is_digit d = true ->
  re_fedora (f ++ x ++ String SP d) = Some d.
Proof.
  intros Hf Hx Hn Hd. unfold re_fedora, before_dollar.
  rewrite <- (app_assoc_s f x), ends_with_app, app_assoc_s by discriminate.
  assert (E : ends_with_char LF (String SP d) = false).
  { destruct d; [contradiction|]. cbn [ends_with_char]. apply (digits_no_end _ Hd). }
  rewrite E, lower_app, Hf, startswith_app.
  replace 6 with (String.length f) by (rewrite <- lower_length, Hf; reflexivity).
  rewrite drop_app, last_blank_app by (apply digits_no_sp; auto).
  rewrite Hx, Hd. apply String.eqb_neq in Hn; rewrite Hn. reflexivity.
Qed.

Lemma no_key_with_blank s : has_char SP s = true -> assoc (upper s) versionMap = None.
Proof.
  intros H. assert (H' : has_char SP (upper s) = true).
  { unfold has_char in *. rewrite upper_any; [exact H|].
    intros c. rewrite Ascii.eqb_sym. destruct (upper_char_keeps c) as (-> & _). apply Ascii.eqb_sym. }
  destruct (assoc (upper s) versionMap) as [v|] eqn:E; [|reflexivity].
  apply assoc_In in E. exfalso.
  assert (C : forallb (fun kv => negb (has_char SP (fst kv))) versionMap = true) by (vm_compute; reflexivity).
  pose proof (proj1 (forallb_forall _ _) C _ E) as X. cbv beta in X. cbn [fst] in X.
  rewrite H' in X. discriminate.
Qed.

Lemma stringToVersion_fedora f x d :
  lower f = "fedora" -> has_char LF x = false -> d <> "" -> all_chars is_digit d = true ->
  stringToVersion (f ++ x ++ " " ++ d) =
  match assoc ("FC" ++ d) versionMap with
  | Some v => Ok v
  | None => match assoc ("F" ++ d) versionMap with Some v => Ok v | None => unsupported end
  end.
Proof.
  intros Hf Hx Hn Hd. change (" " ++ d) with (String SP d). unfold stringToVersion.
  rewrite no_key_with_blank; [rewrite re_fedora_match by auto; reflexivity|].
  unfold has_char. rewrite !any_char_app. cbn [any_char]. rewrite eqb_refl_a.
  rewrite !orb_true_r. reflexivity.
Qed.

Lemma leading_digits_app d r :
  all_chars is_digit d = true ->
  (match r with "" => true | String c _ => negb (is_digit c) end) = true ->
  leading_digits (d ++ r) = (d, r).
Proof.
  intros Hd Hr. induction d as [|c d IH]; cbn [append].
  - destruct r as [|c r]; [reflexivity|]. cbn [leading_digits].
    apply negb_true_iff in Hr; rewrite Hr. reflexivity.
  - cbn [all_chars] in Hd. apply andb_true_iff in Hd as [Hc Hd].
    cbn [leading_digits]. rewrite Hc, (IH Hd). reflexivity.
Qed.

Definition dot_or_digit (c : ascii) : bool := is_digit c || Ascii.eqb c "."%char.

Lemma dots_no_end d : all_chars dot_or_digit d = true -> ends_with_char LF d = false.
Proof.
  induction d as [|c d IH]; [reflexivity|]. cbn [all_chars]; intros H; apply andb_true_iff in H as [Hc Hd].
  cbn [ends_with_char]. destruct d as [|e d]; [|auto].
  destruct (Ascii.eqb c LF) eqn:E; [|auto]. apply eqb_true_a in E; subst; discriminate.
Qed.
Lemma dots_no_sp d : all_chars dot_or_digit d = true -> has_char SP d = false.
Proof.
  unfold has_char. induction d as [|c d IH]; [reflexivity|]. cbn [all_chars any_char]; intros H.
  apply andb_true_iff in H as [Hc Hd]. rewrite (IH Hd), orb_false_r.
  destruct (Ascii.eqb SP c) eqn:E; [|auto]. apply eqb_true_a in E; subst; discriminate.
Qed.

Lemma re_rhel_match f x d r :
  lower f = "red hat enterprise linux" -> has_char LF x = false ->
  d <> "" -> all_chars is_digit d = true ->
  (match r with "" => true | String c _ => Ascii.eqb c "."%char end) = true ->
  all_chars dot_or_digit r = true ->
  re_rhel (f ++ x ++ String SP (d ++ r)) = Some d.
Proof.
  intros Hf Hx Hn Hd Hr Hdr. unfold re_rhel, before_dollar.
  assert (Hall : all_chars dot_or_digit (d ++ r) = true).
  { rewrite all_chars_app, Hdr, andb_true_r. eapply all_chars_impl; [|exact Hd].
    intros c Hc; unfold dot_or_digit; rewrite Hc; reflexivity. }
  rewrite <- (app_assoc_s f x), ends_with_app, app_assoc_s by discriminate.
  assert (E : ends_with_char LF (String SP (d ++ r)) = false).
  { destruct d as [|e d]; [contradiction|]. cbn [append] in *.
    change (ends_with_char LF (String e (d ++ r)) = false). apply (dots_no_end _ Hall). }
  rewrite E, lower_app, Hf, startswith_app.
  replace 24 with (String.length f) by (rewrite <- lower_length, Hf; reflexivity).
  rewrite drop_app, last_blank_app by (apply dots_no_sp; auto).
  rewrite leading_digits_app; [|auto|].
  2:{ destruct r as [|c r]; [reflexivity|]. apply eqb_true_a in Hr; subst; reflexivity. }
  fold dot_or_digit. rewrite Hx. change (fun c => is_digit c || (c =? ".")%char) with dot_or_digit.
  rewrite Hdr. apply String.eqb_neq in Hn; rewrite Hn. reflexivity.
Qed.

Lemma re_fedora_prefix f x : lower f = "red hat enterprise linux" -> re_fedora (f ++ x) = None.
Proof.
  intros Hf. unfold re_fedora, before_dollar.
  assert (A : forall y, startswith (lower (f ++ y)) "fedora" = false).
  { intros y. rewrite lower_app, Hf. reflexivity. }
  destruct (ends_with_char LF (f ++ x)) eqn:E.
  - assert (T : exists y, take (String.length (f ++ x) - 1) (f ++ x) = f ++ y).
    { destruct x as [|c x].
      - exfalso. rewrite app_nil_r_s in E.
        assert (L : ends_with_char LF (lower f) = true).
        { clear -E. induction f as [|c f IH]; [discriminate|]. cbn [lower ends_with_char] in *.
          destruct f as [|d f]; [|cbn [lower] in *; auto].
          cbn [lower]. apply eqb_true_a in E; subst; reflexivity. }
        rewrite Hf in L. discriminate.
      - clear E Hf A. induction f as [|d f (y & IH)].
        + cbn [append]. eexists; reflexivity.
        + exists y. cbn [append String.length]. rewrite Nat.sub_succ, Nat.sub_0_r.
          destruct (String.length (f ++ String c x)) as [|n] eqn:En.
          * destruct f; discriminate.
          * cbn [take]. rewrite Nat.sub_succ, Nat.sub_0_r in IH. rewrite IH. reflexivity. }
    destruct T as (y & ->). rewrite A. reflexivity.
  - rewrite A. reflexivity.
Qed.

Lemma stringToVersion_rhel f x d r :
  lower f = "red hat enterprise linux" -> has_char LF x = false ->
  d <> "" -> all_chars is_digit d = true ->
  (match r with "" => true | String c _ => Ascii.eqb c "."%char end) = true ->
  all_chars dot_or_digit r = true ->
  stringToVersion (f ++ x ++ " " ++ d ++ r) =
  match assoc ("RHEL" ++ d) versionMap with Some v => Ok v | None => unsupported end.
Proof.
  intros Hf Hx Hn Hd Hr Hdr. change (" " ++ d ++ r) with (String SP (d ++ r)). unfold stringToVersion.
  rewrite no_key_with_blank; [rewrite re_fedora_prefix, re_rhel_match by auto; reflexivity|].
  unfold has_char. rewrite !any_char_app. cbn [any_char]. rewrite eqb_refl_a.
  rewrite !orb_true_r. reflexivity.
Qed.

(** C09 *)
Lemma take_startswith p s : String.eqb (take (String.length p) s) p = startswith s p.
Proof.
  revert s; induction p as [|c p IH]; intros [|d s]; cbn [String.length take startswith]; auto.
  cbn [String.eqb]. rewrite IH, Ascii.eqb_sym. destruct (Ascii.eqb c d); reflexivity.
Qed.

Lemma version_of_lines_find lines :
  version_of_lines lines =
  match find (fun l => startswith l "#version=") lines with
  | None => Ok DEVEL
  | Some l => stringToVersion (rstrip (drop 9 l))
  end.
Proof.
  induction lines as [|l r IH]; [reflexivity|]. cbn [version_of_lines find].
  change 9 with (String.length "#version=") at 1. rewrite take_startswith.
  destruct (startswith l "#version=") eqn:E.
  - destruct (String.eqb_spec (strip l) ""); [|reflexivity].
    apply strip_nil in e. apply startswith_spec in E as (t & ->). discriminate.
  - destruct (String.eqb (strip l) ""); exact IH.
Qed.

Lemma DEVEL_largest v : In v (map snd versionMap) -> (v <= DEVEL)%Z.
Proof.
  intros H.
  assert (C : forallb (fun v => Z.leb v DEVEL) (map snd versionMap) = true) by (vm_compute; reflexivity).
  apply Z.leb_le. exact (proj1 (forallb_forall _ _) C v H).
Qed.
