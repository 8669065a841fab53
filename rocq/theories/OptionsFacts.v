(** * Proofs about option value types *)

From Verif Require Export Options PyStrFacts TextSpec.
Local Open Scope string_scope.

Lemma strip_no_char p s : all_chars p s = true -> all_chars p (strip s) = true.
Proof. intros H. apply all_chars_rstrip_by, all_chars_lstrip_by, H. Qed.

Lemma has_char_all c s : has_char c s = false <-> all_chars (fun x => negb (Ascii.eqb c x)) s = true.
Proof. unfold has_char. rewrite any_all, negb_false_iff; tauto. Qed.

(** C05 *)
Lemma comma_split_items s : Forall item (comma_split s).
Proof.
  unfold comma_split. apply Forall_forall. intros x Hx.
  apply filter_In in Hx as [Hx Hn]. apply negb_true_iff, String.eqb_neq in Hn.
  apply in_map_iff in Hx as (y & <- & Hy).
  split; [exact Hn|]. split; [apply strip_idem|].
  apply has_char_all, strip_no_char, has_char_all.
  exact (proj1 (Forall_forall _ _) (split_char_no "," s) y Hy).
Qed.

Lemma comma_split_join l : Forall item l -> comma_split (join "," l) = l.
Proof.
  intros H. destruct l as [|x l]; [reflexivity|].
  unfold comma_split.
  rewrite split_char_join; [|discriminate|].
  2:{ eapply Forall_impl; [|exact H]. intros a (_ & _ & Ha); exact Ha. }
  induction H as [|a m (Hn & Hs & Hc) Hm IH]; [reflexivity|].
  cbn [map filter]. rewrite Hs. apply String.eqb_neq in Hn; rewrite Hn. cbn [negb].
  f_equal; exact IH.
Qed.

(** Items are exactly the stripped non-empty pieces: an independent reading of
    the split, piece by piece. *)
Lemma comma_split_cons x s : has_char "," x = false ->
  comma_split (x ++ "," ++ s) =
  (if String.eqb (strip x) "" then comma_split s else strip x :: comma_split s).
Proof.
  intros H. unfold comma_split. change ("," ++ s) with (String ","%char s).
  rewrite split_char_app by exact H. cbn [map filter].
  destruct (String.eqb (strip x) ""); reflexivity.
Qed.

(** C07 *)
Lemma same_letter_lower c w :
  (96 < cp w)%N \/ (cp w < 65)%N -> (cp w < 192)%N -> (same_letter c w <-> lower_char c = w).
Proof.
  intros Hw Hw'. unfold same_letter, lower_char.
  destruct (_ || _)%bool eqn:E.
  - assert (Hc : (65 <= cp c <= 90 \/ 192 <= cp c <= 222)%N).
    { apply orb_true_iff in E as [E|E]; repeat (apply andb_true_iff in E as [E ?]);
      rewrite ?N.leb_le in *; lia. }
    assert (X : cp (ascii_of_N (cp c + 32)) = (cp c + 32)%N).
    { unfold cp at 1. apply N_ascii_embedding. unfold cp in *. lia. }
    split.
    + intros [->|[H1 H2]]; [lia|]. apply cp_inj. rewrite X. exact H2.
    + intros <-. rewrite X in *. right; split; lia.
  - split.
    + intros [->|[H1 H2]]; [reflexivity|].
      exfalso. apply orb_false_iff in E as [E _]. apply andb_false_iff in E.
      rewrite !N.leb_gt in E. lia.
    + intros ->; left; reflexivity.
Qed.

Definition lower_word (w : string) : bool :=
  all_chars (fun c => ((97 <=? cp c) && (cp c <=? 122) || (48 <=? cp c) && (cp c <=? 57))%N%bool) w.

Lemma case_variant_lower s w : lower_word w = true -> (case_variant s w <-> lower s = w).
Proof.
  revert w; induction s as [|c s IH]; intros [|d w]; simpl; intros H; try (split; [contradiction|discriminate]).
  - split; auto.
  - unfold lower_word in H; cbn [all_chars] in H. apply andb_true_iff in H as [Hd Hw].
    rewrite (IH w Hw), same_letter_lower.
    + split; [intros [-> ->]; reflexivity|]. intros E; injection E; auto.
    + apply orb_true_iff in Hd as [Hd|Hd]; apply andb_true_iff in Hd as [H1 H2];
      rewrite N.leb_le in *; lia.
    + apply orb_true_iff in Hd as [Hd|Hd]; apply andb_true_iff in Hd as [H1 H2];
      rewrite N.leb_le in *; lia.
Qed.

Lemma mem_lower s l : forallb lower_word l = true ->
  (mem (lower s) l = true <-> Exists (case_variant s) l).
Proof.
  intros H. rewrite mem_In, Exists_exists. split.
  - intros Hin. exists (lower s). split; [exact Hin|].
    apply case_variant_lower; [|reflexivity]. exact (proj1 (forallb_forall _ _) H _ Hin).
  - intros (w & Hw & Hc). apply case_variant_lower in Hc; [subst; exact Hw|].
    exact (proj1 (forallb_forall _ _) H _ Hw).
Qed.

Lemma ksboolean_true s : ksboolean s = Ok true <-> Exists (case_variant s) ["on"; "yes"; "true"; "1"].
Proof.
  rewrite <- mem_lower by reflexivity. unfold ksboolean.
  destruct (mem (lower s) ["on"; _; _; _]); [tauto|].
  destruct (mem (lower s) ["off"; _; _; _]); split; intros; discriminate.
Qed.

Lemma ksboolean_false s : ksboolean s = Ok false <-> Exists (case_variant s) ["off"; "no"; "false"; "0"].
Proof.
  rewrite <- mem_lower by reflexivity. unfold ksboolean.
  destruct (mem (lower s) ["on"; _; _; _]) eqn:E.
  - split; [discriminate|]. intros H. apply mem_In in E. apply mem_In in H.
    simpl in E, H. destruct E as [E|[E|[E|[E|[]]]]], H as [H|[H|[H|[H|[]]]]]; congruence.
  - destruct (mem (lower s) ["off"; _; _; _]); split; auto; discriminate.
Qed.

Lemma ksboolean_other s : ~ Exists (case_variant s) ["on"; "yes"; "true"; "1"; "off"; "no"; "false"; "0"] ->
  ksboolean s = Err ValueError.
Proof.
  intros H. unfold ksboolean.
  destruct (mem (lower s) ["on"; _; _; _]) eqn:E.
  - exfalso; apply H. apply mem_lower in E; [|reflexivity].
    apply Exists_exists in E as (w & Hw & Hc). apply Exists_exists; exists w; split; [|exact Hc].
    simpl in *; tauto.
  - destruct (mem (lower s) ["off"; _; _; _]) eqn:E'; [|reflexivity].
    exfalso; apply H. apply mem_lower in E'; [|reflexivity].
    apply Exists_exists in E' as (w & Hw & Hc). apply Exists_exists; exists w; split; [|exact Hc].
    simpl in *; tauto.
Qed.

(** C06 *)
Lemma norm_comps_plain comps : forall acc,
  Forall plain_component acc -> Forall (fun c => has_char "/" c = false) comps ->
  Forall plain_component (norm_comps true comps acc).
Proof.
  induction comps as [|c r IH]; intros acc Ha Hc; cbn [norm_comps].
  - apply Forall_rev; exact Ha.
  - inversion Hc as [|? ? Hc1 Hc2]; subst.
    destruct (String.eqb_spec c ""); cbn [orb]; [apply IH; auto|].
    destruct (String.eqb_spec c "."); cbn [orb]; [apply IH; auto|].
    destruct (String.eqb_spec c ".."); cbn [orb negb andb].
    + destruct acc as [|t acc]; [apply IH; auto|].
      inversion Ha as [|? ? (H1 & H2 & H3 & H4) Ha']; subst.
      destruct (String.eqb_spec t ".."); [contradiction|]. apply IH; auto.
    + apply IH; [constructor; [repeat split; auto|auto]|auto].
Qed.

Lemma norm_comps_walk comps : forall acc,
  Forall plain_component acc -> Forall (fun c => has_char "/" c = false) comps ->
  norm_comps true comps acc = rev (walk comps acc).
Proof.
  induction comps as [|c r IH]; intros acc Ha Hc; cbn [norm_comps walk]; [reflexivity|].
  inversion Hc as [|? ? Hc1 Hc2]; subst.
  destruct (String.eqb_spec c ""); cbn [orb]; [apply IH; auto|].
  destruct (String.eqb_spec c "."); cbn [orb]; [apply IH; auto|].
  destruct (String.eqb_spec c ".."); cbn [orb negb andb].
  - destruct acc as [|t acc]; [cbn [tl]; apply IH; auto|].
    inversion Ha as [|? ? (H1 & H2 & H3 & H4) Ha']; subst.
    destruct (String.eqb_spec t ".."); [contradiction|]. cbn [tl]. apply IH; auto.
  - apply IH; [constructor; [repeat split; auto|auto]|auto].
Qed.

Lemma walk_plain l : Forall plain_component l -> forall here, walk l here = (rev l ++ here)%list.
Proof.
  induction 1 as [|c l (H1 & H2 & H3 & H4) Hl IH]; intros here; [reflexivity|].
  cbn [walk rev]. apply String.eqb_neq in H1, H2, H3. rewrite H1, H2, H3, IH, <- app_assoc.
  reflexivity.
Qed.

Definition abs_lead (s : string) : string :=
  if startswith s "//" && negb (startswith s "///") then "//" else "/".

Lemma mountpoint_abs_eq s : startswith s "/" = true ->
  mountpoint s = abs_lead s ++ join "/" (norm_comps true (split_char SLASH s) []).
Proof.
  intros H. unfold mountpoint, normpath. rewrite H.
  destruct s as [|c s]; [discriminate|]. cbn [String.eqb]. fold (abs_lead (String c s)).
  unfold abs_lead. destruct (_ && _); reflexivity.
Qed.

Lemma mountpoint_abs_shape s : startswith s "/" = true ->
  Forall plain_component (norm_comps true (split_char SLASH s) []).
Proof. intros _. apply norm_comps_plain; [constructor|apply split_char_no]. Qed.

Lemma join_plain_head l : Forall plain_component l -> startswith (join "/" l) "/" = false.
Proof.
  intros H. destruct H as [|c l (H1 & H2 & H3 & H4) Hl]; [reflexivity|].
  assert (X : startswith c "/" = false).
  { destruct c as [|x c]; [contradiction|]. unfold has_char in H4; cbn [any_char] in H4.
    apply orb_false_iff in H4 as [H4 _]. cbn [startswith]. change (Ascii.eqb "/" x = false) in H4. rewrite H4; reflexivity. }
  destruct l as [|d l]; [exact X|].
  rewrite join_cons. destruct c as [|x c]; [contradiction|].
  cbn [append startswith] in *. rewrite startswith_nil in *. exact X.
Qed.

Lemma split_char_lead c s : split_char c (String c s) = "" :: split_char c s.
Proof. cbn [split_char]. rewrite eqb_refl_a. reflexivity. Qed.

Lemma split_lead_join l : Forall plain_component l ->
  split_char SLASH (String SLASH (join "/" l)) = "" :: match l with [] => [""] | _ => l end.
Proof.
  intros H. cbn [split_char]. rewrite eqb_refl_a. f_equal.
  destruct l as [|c l]; [reflexivity|].
  apply split_char_join; [discriminate|].
  eapply Forall_impl; [|exact H]. intros a (_ & _ & _ & Ha); exact Ha.
Qed.

Lemma components_mountpoint s : startswith s "/" = true ->
  exists k, components (mountpoint s)
    = (repeat "" k ++ match walk (components s) [] with [] => [""] | w => rev w end)%list
    /\ (k = 1 \/ k = 2).
Proof.
  intros H. rewrite mountpoint_abs_eq by exact H.
  pose proof (mountpoint_abs_shape s H) as Hp.
  assert (E : norm_comps true (split_char SLASH s) [] = rev (walk (components s) [])).
  { apply norm_comps_walk; [constructor|apply split_char_no]. }
  assert (M : forall w : list string, match rev w with [] => [""] | _ => rev w end
             = match w with [] => [""] | w' => rev w' end).
  { intros w. destruct w as [|a w]; [reflexivity|]. destruct (rev (a :: w)) eqn:Er; [|reflexivity].
    apply (f_equal (@List.length _)) in Er. rewrite rev_length in Er; discriminate. }
  unfold abs_lead, components at 1. destruct (_ && _).
  - exists 2; split; [|auto]. cbn [append]. rewrite split_char_lead, split_lead_join by exact Hp. rewrite E, M. destruct (walk (components s) []); reflexivity.
  - exists 1; split; [|auto]. cbn [append].
    rewrite split_lead_join by exact Hp. rewrite E, M. destruct (walk (components s) []); reflexivity.
Qed.

Lemma mountpoint_idem s : mountpoint (mountpoint s) = mountpoint s.
Proof.
  destruct (startswith s "/") eqn:H; [|unfold mountpoint; rewrite H, H; reflexivity].
  pose proof (mountpoint_abs_shape s H) as Hp.
  rewrite (mountpoint_abs_eq s H).
  set (l := norm_comps true (split_char SLASH s) []) in *.
  assert (Ha : startswith (abs_lead s ++ join "/" l) "/" = true).
  { unfold abs_lead. destruct (_ && _); cbn [append startswith]; rewrite ?startswith_nil; reflexivity. }
  rewrite (mountpoint_abs_eq _ Ha).
  assert (L : abs_lead (abs_lead s ++ join "/" l) = abs_lead s).
  { pose proof (join_plain_head l Hp) as Hh.
    assert (A : abs_lead s = "//" \/ abs_lead s = "/") by (unfold abs_lead; destruct (_ && _); auto).
    destruct A as [-> | ->]; unfold abs_lead; cbn [append]; rewrite ?startswith_cons, ?startswith_nil.
    - rewrite Hh. reflexivity.
    - rewrite Hh. reflexivity. }
  rewrite L. do 2 f_equal.
  assert (N : forall acc, Forall plain_component acc ->
            norm_comps true l acc = (rev acc ++ l)%list).
  { clear - Hp. induction Hp as [|c l (H1 & H2 & H3 & H4) Hl IH]; intros acc Ha; cbn [norm_comps].
    - rewrite app_nil_r; reflexivity.
    - apply String.eqb_neq in H1, H2, H3. rewrite H1, H2, H3. cbn [orb negb].
      rewrite IH; [cbn [rev]; rewrite <- app_assoc; reflexivity|].
      constructor; [repeat split; first [assumption | apply String.eqb_neq; assumption]|assumption]. }
  assert (N0 : norm_comps true (match l with [] => [""] | _ => l end) [] = l).
  { specialize (N [] (Forall_nil _)). destruct l; [reflexivity|exact N]. }
  unfold abs_lead. destruct (_ && _); cbn [append].
  - rewrite split_char_lead, split_lead_join by exact Hp.
    cbn [norm_comps String.eqb orb]. exact N0.
  - rewrite split_lead_join by exact Hp. cbn [norm_comps String.eqb orb]. exact N0.
Qed.
