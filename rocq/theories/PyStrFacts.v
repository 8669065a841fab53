(** * Lemmas about the string operations of [PyStr] (no model content here) *)

From Verif Require Export PyStr.
Local Open Scope string_scope.

Arguments N.add : simpl never.
Arguments N.mul : simpl never.
Arguments N.sub : simpl never.
Arguments N.leb : simpl never.
Arguments N.ltb : simpl never.
Arguments N.eqb : simpl never.

Lemma app_nil_r_s s : s ++ "" = s.
Proof. induction s as [|c s IH]; simpl; congruence. Qed.

Lemma app_assoc_s a b c : (a ++ b) ++ c = a ++ b ++ c.
Proof. induction a as [|x a IH]; simpl; congruence. Qed.

Lemma app_cons_s c s t : String c s ++ t = String c (s ++ t).
Proof. reflexivity. Qed.

Lemma app_eq_nil_s a b : a ++ b = "" -> a = "" /\ b = "".
Proof. destruct a; simpl; [auto|discriminate]. Qed.

Lemma app_inj_l a b c : a ++ b = a ++ c -> b = c.
Proof. induction a as [|x a IH]; simpl; [auto|]. intros H; injection H; auto. Qed.

Lemma eqb_refl_a c : Ascii.eqb c c = true.
Proof. apply Ascii.eqb_refl. Qed.

Lemma eqb_true_a a b : Ascii.eqb a b = true <-> a = b.
Proof. apply Ascii.eqb_eq. Qed.

Lemma eqb_false_a a b : Ascii.eqb a b = false <-> a <> b.
Proof. apply Ascii.eqb_neq. Qed.

Lemma eqb_refl_s s : String.eqb s s = true.
Proof. apply String.eqb_refl. Qed.

Lemma cp_inj a b : cp a = cp b -> a = b.
Proof.
  unfold cp; intros H.
  rewrite <- (ascii_N_embedding a), <- (ascii_N_embedding b), H; reflexivity.
Qed.

Lemma all_chars_app p a b : all_chars p (a ++ b) = all_chars p a && all_chars p b.
Proof. induction a as [|c a IH]; simpl; [auto|]. rewrite IH, andb_assoc; reflexivity. Qed.

Lemma any_char_app p a b : any_char p (a ++ b) = any_char p a || any_char p b.
Proof. induction a as [|c a IH]; simpl; [auto|]. rewrite IH, orb_assoc; reflexivity. Qed.

Lemma any_all p s : any_char p s = negb (all_chars (fun c => negb (p c)) s).
Proof.
  induction s as [|c s IH]; simpl; [auto|].
  rewrite IH, negb_andb, negb_involutive; reflexivity.
Qed.

Lemma all_chars_impl (p q : ascii -> bool) s :
  (forall c, p c = true -> q c = true) -> all_chars p s = true -> all_chars q s = true.
Proof.
  intros H; induction s as [|c s IH]; simpl; [auto|].
  intros HH; apply andb_true_iff in HH as [H1 H2].
  rewrite (H _ H1), (IH H2); reflexivity.
Qed.

Lemma all_chars_ext (p q : ascii -> bool) s :
  (forall c, p c = q c) -> all_chars p s = all_chars q s.
Proof. intros H; induction s as [|c s IH]; simpl; [auto|]. rewrite H, IH; reflexivity. Qed.

Lemma concat_all_app l m : concat_all (l ++ m)%list = concat_all l ++ concat_all m.
Proof. induction l as [|x l IH]; simpl; [auto|]. rewrite IH, app_assoc_s; reflexivity. Qed.

Lemma join_cons sep x y l : join sep (x :: y :: l) = x ++ sep ++ join sep (y :: l).
Proof. reflexivity. Qed.

Lemma has_char_app c a b : has_char c (a ++ b) = has_char c a || has_char c b.
Proof. apply any_char_app. Qed.

Lemma startswith_nil s : startswith s "" = true.
Proof. destruct s; reflexivity. Qed.

Lemma startswith_cons c s d p : startswith (String c s) (String d p) = Ascii.eqb d c && startswith s p.
Proof. reflexivity. Qed.

Lemma startswith_app s t : startswith (s ++ t) s = true.
Proof.
  induction s as [|c s IH]; [apply startswith_nil|]. cbn [append startswith].
  rewrite eqb_refl_a; exact IH.
Qed.

Lemma startswith_spec s p : startswith s p = true <-> exists t, s = p ++ t.
Proof.
  split; [|intros (t & ->); apply startswith_app].
  revert s; induction p as [|d p IH]; intros s H; [exists s; reflexivity|].
  destruct s as [|c s]; [discriminate|]. cbn [startswith] in H.
  apply andb_true_iff in H as [H1 H2]. apply eqb_true_a in H1; subst.
  destruct (IH s H2) as (t & ->). exists t; reflexivity.
Qed.

(** ** A property of single characters checked on all 256 of them *)

Fixpoint all_bits (n : nat) : list (list bool) :=
  match n with
  | O => [[]]
  | S k => (map (cons true) (all_bits k) ++ map (cons false) (all_bits k))%list
  end.
Definition all_ascii : list ascii :=
  map (fun l => match l with
                | [a;b;c;d;e;f;g;h] => Ascii a b c d e f g h
                | _ => zero
                end) (all_bits 8).

Lemma all_bits_complete l : In l (all_bits (length l)).
Proof.
  induction l as [|b l IH]; simpl; [auto|].
  apply in_or_app; destruct b; [left|right]; apply in_map; exact IH.
Qed.

Lemma all_ascii_complete c : In c all_ascii.
Proof.
  destruct c as [b0 b1 b2 b3 b4 b5 b6 b7]. unfold all_ascii. apply in_map_iff.
  exists [b0; b1; b2; b3; b4; b5; b6; b7]. split; [reflexivity|].
  exact (all_bits_complete [b0; b1; b2; b3; b4; b5; b6; b7]).
Qed.

Lemma forall_ascii (p : ascii -> bool) :
  forallb p all_ascii = true -> forall c, p c = true.
Proof. intros H c. exact (proj1 (forallb_forall p all_ascii) H c (all_ascii_complete c)). Qed.

(** ** White space, stripping *)

Lemma lstrip_by_all p s : all_chars p s = true -> lstrip_by p s = "".
Proof.
  induction s as [|c s IH]; simpl; [auto|].
  intros H; apply andb_true_iff in H as [H1 H2]; rewrite H1; auto.
Qed.

Lemma rstrip_by_all p s : all_chars p s = true -> rstrip_by p s = "".
Proof.
  induction s as [|c s IH]; simpl; [auto|].
  intros H; apply andb_true_iff in H as [H1 H2]; rewrite (IH H2), H1; auto.
Qed.

Lemma rstrip_by_nil p s : rstrip_by p s = "" <-> all_chars p s = true.
Proof.
  split; [|apply rstrip_by_all].
  induction s as [|c s IH]; simpl; [auto|].
  destruct (rstrip_by p s) eqn:E; [|discriminate].
  destruct (p c) eqn:Ec; [|discriminate]. intros _; simpl; auto.
Qed.

Lemma lstrip_by_nil p s : lstrip_by p s = "" <-> all_chars p s = true.
Proof.
  split; [|apply lstrip_by_all].
  induction s as [|c s IH]; simpl; [auto|].
  destruct (p c) eqn:Ec; [|discriminate]. simpl; auto.
Qed.

Lemma all_chars_rstrip_by p q s : all_chars q s = true -> all_chars q (rstrip_by p s) = true.
Proof.
  induction s as [|c s IH]; simpl; [auto|].
  intros H; apply andb_true_iff in H as [H1 H2].
  specialize (IH H2). destruct (rstrip_by p s) eqn:E.
  - destruct (p c); simpl; rewrite ?H1; auto.
  - simpl in *; rewrite H1; auto.
Qed.

Lemma all_chars_lstrip_by p q s : all_chars q s = true -> all_chars q (lstrip_by p s) = true.
Proof.
  induction s as [|c s IH]; simpl; [auto|].
  intros H; apply andb_true_iff in H as [H1 H2].
  destruct (p c); simpl; [auto|]. rewrite H1, H2; auto.
Qed.

Lemma strip_nil s : strip s = "" <-> all_chars is_space s = true.
Proof.
  unfold strip, rstrip, lstrip. rewrite rstrip_by_nil. split.
  - induction s as [|c s IH]; simpl; [auto|].
    destruct (is_space c) eqn:E; simpl; [auto|]. rewrite E; discriminate.
  - intros H; apply all_chars_lstrip_by; exact H.
Qed.

(** First / last character tests. *)
Definition head_ok (p : ascii -> bool) (s : string) : bool :=
  match s with "" => false | String c _ => p c end.
Fixpoint last_ok (p : ascii -> bool) (s : string) : bool :=
  match s with
  | "" => false
  | String c "" => p c
  | String _ r => last_ok p r
  end.

Lemma lstrip_by_head p s : head_ok (fun c => negb (p c)) s = true -> lstrip_by p s = s.
Proof. destruct s as [|c s]; simpl; [auto|]. destruct (p c); [discriminate|auto]. Qed.

Lemma rstrip_by_last p s : last_ok (fun c => negb (p c)) s = true -> rstrip_by p s = s.
Proof.
  induction s as [|c s IH]; simpl; [auto|].
  destruct s as [|d s].
  - simpl. destruct (p c); [discriminate|auto].
  - intros H; rewrite (IH H); reflexivity.
Qed.

Lemma rstrip_by_app_all p a b : all_chars p b = true -> rstrip_by p (a ++ b) = rstrip_by p a.
Proof.
  intros H; induction a as [|c a IH]; simpl; [apply rstrip_by_all; auto|].
  rewrite IH; reflexivity.
Qed.

Lemma lstrip_by_app_all p a b : all_chars p a = true -> lstrip_by p (a ++ b) = lstrip_by p b.
Proof.
  induction a as [|c a IH]; simpl; [auto|].
  intros H; apply andb_true_iff in H as [H1 H2]; rewrite H1; auto.
Qed.

Lemma last_ok_app p a b : b <> "" -> last_ok p (a ++ b) = last_ok p b.
Proof.
  intros Hb; induction a as [|c a IH]; simpl; [auto|].
  rewrite IH. destruct (a ++ b) eqn:E; [|reflexivity].
  apply app_eq_nil_s in E as [_ E]; contradiction.
Qed.

Lemma rstrip_by_last_spec p s : rstrip_by p s = "" \/ last_ok (fun c => negb (p c)) (rstrip_by p s) = true.
Proof.
  induction s as [|c s IH]; simpl; [auto|].
  destruct (rstrip_by p s) eqn:E.
  - destruct (p c) eqn:Ec; [auto|]. right; simpl; rewrite Ec; auto.
  - right. destruct IH as [IH|IH]; [discriminate|]. simpl in *; exact IH.
Qed.

Lemma lstrip_by_head_spec p s : lstrip_by p s = "" \/ head_ok (fun c => negb (p c)) (lstrip_by p s) = true.
Proof.
  induction s as [|c s IH]; simpl; [auto|].
  destruct (p c) eqn:E; [auto|]. right; simpl; rewrite E; auto.
Qed.

Lemma rstrip_by_head p q s : rstrip_by p s <> "" -> head_ok q (rstrip_by p s) = head_ok q s.
Proof.
  destruct s as [|c s]; simpl; [auto|].
  destruct (rstrip_by p s); [destruct (p c); simpl; auto; contradiction|auto].
Qed.

Lemma head_ok_app p a b : a <> "" -> head_ok p (a ++ b) = head_ok p a.
Proof. destruct a; simpl; [contradiction|auto]. Qed.

(** A word that is non-empty and neither starts nor ends with white space. *)
Definition stripped (s : string) : bool :=
  head_ok (fun c => negb (is_space c)) s && last_ok (fun c => negb (is_space c)) s.

Lemma strip_stripped s : stripped s = true -> strip s = s.
Proof.
  unfold stripped, strip, rstrip, lstrip; intros H; apply andb_true_iff in H as [H1 H2].
  rewrite (lstrip_by_head _ _ H1). apply rstrip_by_last; auto.
Qed.

Lemma strip_spec s : strip s = "" \/ stripped (strip s) = true.
Proof.
  unfold strip, rstrip, lstrip, stripped.
  destruct (rstrip_by_last_spec is_space (lstrip_by is_space s)) as [H|H]; [auto|].
  right. rewrite H, andb_true_r.
  rewrite rstrip_by_head by (intros E; rewrite E in H; discriminate).
  destruct (lstrip_by_head_spec is_space s) as [E|E]; [|exact E].
  rewrite E in H; discriminate.
Qed.

Lemma strip_idem s : strip (strip s) = strip s.
Proof.
  destruct (strip_spec s) as [H|H]; [rewrite H; reflexivity|apply strip_stripped; auto].
Qed.

(** ** Splitting on a character *)

Lemma split_char_nonnil c s : split_char c s <> [].
Proof.
  destruct s as [|x s]; simpl; [discriminate|].
  destruct (Ascii.eqb c x); [discriminate|]. destruct (split_char c s); discriminate.
Qed.

Lemma split_char_none c s : has_char c s = false -> split_char c s = [s].
Proof.
  unfold has_char; induction s as [|x s IH]; simpl; [auto|].
  intros H; apply orb_false_iff in H as [H1 H2]. rewrite H1, (IH H2); reflexivity.
Qed.

Lemma split_char_app c a s :
  has_char c a = false -> split_char c (a ++ String c s) = a :: split_char c s.
Proof.
  unfold has_char; induction a as [|x a IH]; simpl.
  - intros _; rewrite eqb_refl_a; reflexivity.
  - intros H; apply orb_false_iff in H as [H1 H2]. rewrite H1, (IH H2); reflexivity.
Qed.

Lemma split_char_join c l :
  l <> [] -> Forall (fun s => has_char c s = false) l ->
  split_char c (join (String c "") l) = l.
Proof.
  induction l as [|x l IH]; [contradiction|]. intros _ H; inversion H as [|? ? Hx Hl]; subst.
  destruct l as [|y l].
  - simpl; apply split_char_none; auto.
  - rewrite join_cons, app_cons_s. cbn [append]. rewrite split_char_app by auto.
    rewrite IH; [auto|discriminate|auto].
Qed.

Lemma split_char_no c s : Forall (fun t => has_char c t = false) (split_char c s).
Proof.
  induction s as [|x s IH]; simpl; [repeat constructor|].
  destruct (Ascii.eqb c x) eqn:E; [constructor; auto|].
  destruct (split_char c s) as [|h t] eqn:Es.
  - repeat constructor. unfold has_char; simpl; rewrite E; auto.
  - inversion IH; subst. constructor; auto.
    unfold has_char in *; simpl; rewrite E; auto.
Qed.

Lemma join_split_char c s : join (String c "") (split_char c s) = s.
Proof.
  induction s as [|x s IH]; simpl; [auto|].
  destruct (Ascii.eqb c x) eqn:E.
  - apply eqb_true_a in E; subst x.
    destruct (split_char c s) as [|h t] eqn:Es; [exfalso; eapply split_char_nonnil; eauto|].
    rewrite join_cons, IH; reflexivity.
  - destruct (split_char c s) as [|h t] eqn:Es; [exfalso; eapply split_char_nonnil; eauto|].
    destruct t as [|h' t]; simpl in *; [congruence|]. rewrite <- IH; reflexivity.
Qed.

(** ** Integers *)

Lemma mem_In x l : mem x l = true <-> In x l.
Proof.
  unfold mem; rewrite existsb_exists; split.
  - intros (y & Hy & E); apply String.eqb_eq in E; subst; auto.
  - intros H; exists x; split; [auto|apply eqb_refl_s].
Qed.

Lemma mem_false x l : mem x l = false <-> ~ In x l.
Proof.
  rewrite <- mem_In; destruct (mem x l); split; intros H; congruence.
Qed.

(** ** String order *)

Lemma str_leb_refl s : str_leb s s = true.
Proof. induction s as [|c s IH]; simpl; [auto|]. rewrite N.ltb_irrefl; auto. Qed.

Lemma str_leb_total s t : str_leb s t = true \/ str_leb t s = true.
Proof.
  revert t; induction s as [|a s IH]; intros [|b t]; simpl; auto.
  destruct (N.ltb_spec (cp a) (cp b)), (N.ltb_spec (cp b) (cp a)); auto; try lia.
Qed.

Lemma str_leb_antisym s t : str_leb s t = true -> str_leb t s = true -> s = t.
Proof.
  revert t; induction s as [|a s IH]; intros [|b t]; simpl; auto; try discriminate.
  destruct (N.ltb_spec (cp a) (cp b)), (N.ltb_spec (cp b) (cp a)); try discriminate; try lia.
  intros H1 H2. rewrite (IH t H1 H2). f_equal. apply cp_inj; lia.
Qed.

Lemma str_leb_trans s t u : str_leb s t = true -> str_leb t u = true -> str_leb s u = true.
Proof.
  revert t u; induction s as [|a s IH]; intros [|b t] [|c u]; simpl; auto; try discriminate.
  destruct (N.ltb_spec (cp a) (cp b)), (N.ltb_spec (cp b) (cp a)); try discriminate; try lia;
  destruct (N.ltb_spec (cp b) (cp c)), (N.ltb_spec (cp c) (cp b)); try discriminate; try lia;
  destruct (N.ltb_spec (cp a) (cp c)), (N.ltb_spec (cp c) (cp a)); auto; try lia.
  apply IH.
Qed.

Lemma str_ltb_trans s t u : str_ltb s t = true -> str_ltb t u = true -> str_ltb s u = true.
Proof.
  unfold str_ltb; rewrite !negb_true_iff; intros H1 H2.
  destruct (str_leb u s) eqn:E; [|auto].
  destruct (str_leb_total s t) as [H|H]; [|congruence].
  rewrite (str_leb_trans _ _ _ E H) in H2; discriminate.
Qed.

Lemma str_ltb_irrefl s : str_ltb s s = false.
Proof. unfold str_ltb; rewrite str_leb_refl; auto. Qed.

Lemma str_leb_ltb s t : str_leb s t = true -> s <> t -> str_ltb s t = true.
Proof.
  unfold str_ltb; intros H Hne. destruct (str_leb t s) eqn:E; [|auto].
  exfalso; apply Hne, str_leb_antisym; auto.
Qed.

(** ** [int] and [str] of integers *)

From Coq Require Import DecimalString DecimalN DecimalFacts.

Fixpoint uint_fold (acc : N) (d : Decimal.uint) : N :=
  match d with
  | Decimal.Nil => acc
  | Decimal.D0 d => uint_fold (10 * acc) d
  | Decimal.D1 d => uint_fold (10 * acc + 1) d
  | Decimal.D2 d => uint_fold (10 * acc + 2) d
  | Decimal.D3 d => uint_fold (10 * acc + 3) d
  | Decimal.D4 d => uint_fold (10 * acc + 4) d
  | Decimal.D5 d => uint_fold (10 * acc + 5) d
  | Decimal.D6 d => uint_fold (10 * acc + 6) d
  | Decimal.D7 d => uint_fold (10 * acc + 7) d
  | Decimal.D8 d => uint_fold (10 * acc + 8) d
  | Decimal.D9 d => uint_fold (10 * acc + 9) d
  end.

Lemma uint_fold_pos d p : uint_fold (Npos p) d = Npos (Pos.of_uint_acc d p).
Proof.
  revert p; induction d as [|d IH|d IH|d IH|d IH|d IH|d IH|d IH|d IH|d IH|d IH]; intros p;
  cbn [uint_fold Pos.of_uint_acc]; [reflexivity| ..];
  rewrite <- IH; f_equal; lia.
Qed.

Lemma uint_fold_of_uint d : uint_fold 0 d = N.of_uint d.
Proof.
  unfold N.of_uint.
  induction d as [|d IH|d IH|d IH|d IH|d IH|d IH|d IH|d IH|d IH|d IH]; [reflexivity| ..];
  cbn [uint_fold Pos.of_uint]; [exact IH| ..];
  change (10 * 0)%N with 0%N; rewrite N.add_0_l; apply uint_fold_pos.
Qed.

Lemma digits_val_uint d : forall acc prev, (prev = true \/ d <> Decimal.Nil) ->
  digits_val prev acc (NilEmpty.string_of_uint d) = Some (uint_fold acc d).
Proof.
  induction d as [|d IH|d IH|d IH|d IH|d IH|d IH|d IH|d IH|d IH|d IH]; intros acc prev H;
  [destruct H as [H|H]; [rewrite H; reflexivity|contradiction]| ..];
  cbn [NilEmpty.string_of_uint digits_val uint_fold];
  match goal with |- context [is_digit ?c] =>
    change (is_digit c) with true; cbv iota;
    let v := eval vm_compute in (digit_val c) in change (digit_val c) with v
  end; rewrite IH by auto; f_equal; rewrite ?N.add_0_r; reflexivity.
Qed.

Lemma uint_nz_nil n : N.to_uint n <> Decimal.Nil.
Proof.
  intros E. pose proof (DecimalN.Unsigned.of_to n) as H; rewrite E in H.
  simpl in H; subst n; vm_compute in E; discriminate.
Qed.

Lemma nilzero_nilempty d : d <> Decimal.Nil -> NilZero.string_of_uint d = NilEmpty.string_of_uint d.
Proof. destruct d; simpl; auto; contradiction. Qed.

Lemma digits_val_str_of_N n : digits_val false 0 (str_of_N n) = Some n.
Proof.
  unfold str_of_N. rewrite nilzero_nilempty by apply uint_nz_nil.
  rewrite digits_val_uint by (right; apply uint_nz_nil).
  rewrite uint_fold_of_uint, DecimalN.Unsigned.of_to; reflexivity.
Qed.

Lemma nilempty_digits d : all_chars is_digit (NilEmpty.string_of_uint d) = true.
Proof.
  induction d as [|d IH|d IH|d IH|d IH|d IH|d IH|d IH|d IH|d IH|d IH];
  [reflexivity| ..]; cbn [NilEmpty.string_of_uint all_chars]; rewrite IH; reflexivity.
Qed.

Lemma str_of_N_digits n : all_chars is_digit (str_of_N n) = true.
Proof.
  unfold str_of_N. rewrite nilzero_nilempty by apply uint_nz_nil. apply nilempty_digits.
Qed.

Lemma str_of_N_nonnil n : str_of_N n <> "".
Proof.
  intros E. pose proof (digits_val_str_of_N n) as H; rewrite E in H; discriminate.
Qed.

Lemma all_head p s : s <> "" -> all_chars p s = true -> head_ok p s = true.
Proof. destruct s; simpl; [contradiction|]. intros _ H; apply andb_true_iff in H; tauto. Qed.

Lemma all_last p s : s <> "" -> all_chars p s = true -> last_ok p s = true.
Proof.
  induction s as [|c s IH]; [contradiction|]. intros _; simpl.
  intros H; apply andb_true_iff in H as [H1 H2]. destruct s as [|d s]; [auto|].
  apply IH; [discriminate|auto].
Qed.

Lemma stripped_all p s : (forall c, p c = true -> is_space c = false) ->
  s <> "" -> all_chars p s = true -> stripped s = true.
Proof.
  intros Hp Hn Ha. unfold stripped. apply andb_true_iff; split.
  - apply all_head; auto. eapply all_chars_impl; [|exact Ha].
    intros c Hc; simpl; rewrite (Hp c Hc); auto.
  - apply all_last; auto. eapply all_chars_impl; [|exact Ha].
    intros c Hc; simpl; rewrite (Hp c Hc); auto.
Qed.

Lemma digit_not_space c : is_digit c = true -> is_space c = false.
Proof.
  intros H.
  assert (X : implb (is_digit c) (negb (is_space c)) = true).
  { revert c H; intros c _; revert c. apply (forall_ascii (fun c => implb (is_digit c) (negb (is_space c)))).
    vm_compute; reflexivity. }
  rewrite H in X; simpl in X. apply negb_true_iff; exact X.
Qed.

Lemma py_int_str_of_N n : py_int (str_of_N n) = Some (Z.of_N n).
Proof.
  unfold py_int. rewrite strip_stripped.
  2:{ apply (stripped_all is_digit); auto using digit_not_space, str_of_N_nonnil, str_of_N_digits. }
  pose proof (str_of_N_digits n) as Hd. pose proof (digits_val_str_of_N n) as Hv.
  destruct (str_of_N n) as [|c r]; [discriminate|].
  simpl in Hd; apply andb_true_iff in Hd as [Hc _].
  destruct (Ascii.eqb c "-"%char) eqn:E; [apply eqb_true_a in E; subst; discriminate|].
  destruct (Ascii.eqb c "+"%char) eqn:E'; [apply eqb_true_a in E'; subst; discriminate|].
  rewrite Hv; reflexivity.
Qed.

Lemma py_int_str_of_Z z : py_int (str_of_Z z) = Some z.
Proof.
  destruct z as [|p|p]; [reflexivity| |].
  - unfold str_of_Z; rewrite py_int_str_of_N; reflexivity.
  - unfold str_of_Z, py_int. rewrite strip_stripped.
    + rewrite eqb_refl_a, digits_val_str_of_N; reflexivity.
    + unfold stripped; simpl head_ok. simpl andb.
      pose proof (str_of_N_nonnil (Npos p)) as Hn.
      pose proof (str_of_N_digits (Npos p)) as Hd.
      cbn [last_ok]. destruct (str_of_N (Npos p)) as [|c r] eqn:E; [contradiction|].
      apply all_last; [discriminate|]. eapply all_chars_impl; [|exact Hd].
      intros d Hdd; simpl; rewrite (digit_not_space d Hdd); auto.
Qed.
