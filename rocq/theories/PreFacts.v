(** * Proofs about preprocessing and the put-back iterator *)

From Verif Require Import PyStrFacts Preprocess PreSpec.
From Verif Require Import Value.
Local Open Scope string_scope.
Local Open Scope list_scope.

Lemma splitlines_concat s : concat_all (splitlines s) = s.
Proof.
  remember (String.length s) as n eqn:E. assert (L : String.length s <= n) by lia. clear E.
  revert s L. induction n as [|n IH]; intros [|c r] L; simpl in L; try lia; [reflexivity..|].
  cbn [splitlines]. destruct (is_linebreak c).
  - destruct r as [|d r']; [reflexivity|]. destruct (Ascii.eqb c CR && Ascii.eqb d LF).
    + cbn [concat_all]. rewrite IH by (simpl in L; lia). reflexivity.
    + cbn [concat_all]. rewrite IH by lia. reflexivity.
  - specialize (IH r ltac:(lia)). destruct (splitlines r) as [|h t]; cbn [concat_all] in *.
    + rewrite <- IH. reflexivity.
    + rewrite <- IH. reflexivity.
Qed.

Lemma splitlines_nonempty s l : In l (splitlines s) -> l <> "".
Proof.
  remember (String.length s) as n eqn:E. assert (L : String.length s <= n) by lia. clear E.
  revert s L. induction n as [|n IH]; intros [|c r] L; simpl in L; try lia; [intros []..|].
  cbn [splitlines]. destruct (is_linebreak c).
  - destruct r as [|d r'].
    + intros [<-|[]]; discriminate.
    + destruct (Ascii.eqb c CR && Ascii.eqb d LF).
      * intros [<-|H]; [discriminate|]. apply (IH r' ltac:(simpl in L; lia) H).
      * intros [<-|H]; [discriminate|]. apply (IH (String d r') ltac:(lia) H).
  - destruct (splitlines r) as [|h t] eqn:E.
    + intros [<-|[]]; discriminate.
    + intros [<-|H]; [discriminate|]. apply (IH r ltac:(lia)). rewrite E. simpl. auto.
Qed.

(** The first line that cannot be had, with the number of lines before it. *)
Lemma preprocess_lines_ok load lines : forall n,
  (forall l, In l lines -> l <> "") ->
  forall tail, tail = [] \/ tail = [""] ->
  (forall t, preprocess_lines load n (lines ++ tail) = Ok t <->
     exists parts, Forall2 (fun l p => stands_for load l = Some p) lines parts /\ t = concat_all parts).
Proof.
  induction lines as [|l lines IH]; intros n Hne tail Ht t.
  - assert (preprocess_lines load n ([] ++ tail) = Ok "") as -> by (destruct Ht; subst; reflexivity).
    split.
    + intros H. injection H as <-. exists []. split; [constructor|reflexivity].
    + intros (parts & H & ->). inversion H. reflexivity.
  - cbn [app preprocess_lines]. destruct (String.eqb_spec l "") as [E|_]; [destruct (Hne l); simpl; auto|].
    assert (Hne' : forall l', In l' lines -> l' <> "") by (intros; apply Hne; simpl; auto).
    set (X := preprocess_lines load (n + 1) (lines ++ tail)).
    assert (IHx : forall t, X = Ok t <-> exists parts, Forall2 (fun l p => stands_for load l = Some p) lines parts /\ t = concat_all parts)
      by (intros; apply IH; auto). clearbody X.
    assert (Step : forall c : string, stands_for load l = Some c ->
              ((do t <- X ;; Ok (c ++ t)%string) = Ok t <->
              exists parts, Forall2 (fun l p => stands_for load l = Some p) (l :: lines) parts /\ t = concat_all parts)).
    { intros c Hc. split.
      - intros H. destruct X as [t'|]; [|discriminate]. cbn [bind] in H. injection H as <-.
        destruct (proj1 (IHx t') eq_refl) as (parts & Hp & ->). exists (c :: parts). split; [constructor; auto|reflexivity].
      - intros (parts & Hp & ->). inversion Hp as [|? p ? ps Hl Hps]; subst. rewrite Hc in Hl. injection Hl as <-.
        rewrite (proj2 (IHx (concat_all ps)) (ex_intro _ ps (conj Hps eq_refl))). reflexivity. }
    assert (Fail : stands_for load l = None -> forall e, (@Err string e = Ok t <->
              exists parts, Forall2 (fun l p => stands_for load l = Some p) (l :: lines) parts /\ t = concat_all parts)).
    { intros Hc e. split; [discriminate|]. intros (parts & Hp & _). inversion Hp. congruence. }
    unfold stands_for, is_ksappend, ksappend_file in Step, Fail.
    destruct (startswith (strip l) "%ksappend") eqn:Ek; cbn [negb].
    + destruct (split_char SP (strip l)) as [|x [|u us]] eqn:Es; cbn [nth_error] in *.
      * now apply Fail.
      * now apply Fail.
      * destruct (load u) as [c|] eqn:El; [now apply Step|now apply Fail].
    + now apply Step.
Qed.

Lemma preprocess_lines_fail load good bad rest : forall n,
  (forall l, In l (good ++ [bad]) -> l <> "") ->
  (forall l, In l good -> stands_for load l <> None) -> stands_for load bad = None ->
  preprocess_lines load n (good ++ bad :: rest) =
  Err (match ksappend_file bad with
       | None => KSParseError (Some (n + N.of_nat (length good) + 1)%N) "ksappend-url"
       | Some _ => KSError (Some (n + N.of_nat (length good) + 1)%N) "ksappend-load"
       end).
Proof.
  induction good as [|l good IH]; intros n Hne Hg Hb.
  - cbn [app preprocess_lines length]. destruct (String.eqb_spec bad "") as [E|_]; [destruct (Hne bad); simpl; auto|].
    unfold stands_for, is_ksappend, ksappend_file in *.
    destruct (startswith (strip bad) "%ksappend"); [|discriminate]. cbn [negb].
    replace (n + N.of_nat 0 + 1)%N with (n + 1)%N by lia.
    destruct (split_char SP (strip bad)) as [|x [|u us]]; cbn [nth_error] in *; try reflexivity.
    rewrite Hb. reflexivity.
  - assert (IH' : preprocess_lines load (n + 1) (good ++ bad :: rest) =
       Err (match ksappend_file bad with
       | None => KSParseError (Some (n + N.of_nat (length (l :: good)) + 1)%N) "ksappend-url"
       | Some _ => KSError (Some (n + N.of_nat (length (l :: good)) + 1)%N) "ksappend-load"
       end)).
    { rewrite IH; auto.
      - replace (n + 1 + N.of_nat (length good) + 1)%N with (n + N.of_nat (length (l :: good)) + 1)%N by (simpl length; lia).
        reflexivity.
      - intros; apply Hne; simpl; auto.
      - intros; apply Hg; simpl; auto. }
    cbn [app preprocess_lines]. destruct (String.eqb_spec l "") as [E|_]; [destruct (Hne l); simpl; auto|].
    pose proof (Hg l (or_introl eq_refl)) as Hl. unfold stands_for, is_ksappend in Hl.
    destruct (startswith (strip l) "%ksappend"); cbn [negb].
    + unfold ksappend_file in Hl. destruct (split_char SP (strip l)) as [|x [|u us]]; cbn [nth_error] in *; try congruence.
      destruct (load u); [|congruence]. rewrite IH'. reflexivity.
    + rewrite IH'. reflexivity.
Qed.

Lemma stands_for_plain load lines : forallb (fun l => negb (is_ksappend l)) lines = true ->
  Forall2 (fun l p => stands_for load l = Some p) lines lines.
Proof.
  induction lines as [|l lines IH]; simpl; intros H; constructor.
  - apply andb_prop in H as [H _]. unfold stands_for. apply negb_true_iff in H. rewrite H. reflexivity.
  - apply IH. now apply andb_prop in H.
Qed.

(** ** The put-back iterator refines the list *)

Fixpoint pb_run (ops : list op) (i : pbi) : list (option string) * pbi :=
  match ops with
  | [] => ([], i)
  | Put s :: ops' => pb_run ops' (pb_put s i)
  | Next :: ops' => let '(o, i') := pb_next i in let '(out, i'') := pb_run ops' i' in (o :: out, i'')
  end.

(** The lines an iterator still has to deliver. *)
Definition pending (i : pbi) : list string :=
  match pb_buf i with Some (String c s) => String c s :: pb_rest i | _ => pb_rest i end.

Definition held (i : pbi) : bool := match pb_buf i with Some (String _ _) => true | _ => false end.

Lemma pb_next_pending i : match pending i with
  | [] => pb_next i = (None, i)
  | x :: r => exists i', pb_next i = (Some x, i') /\ pending i' = r /\ held i' = false
  end.
Proof.
  unfold pending, pb_next, held. destruct i as [[[|c s]|] rest]; simpl.
  - destruct rest; [reflexivity|]. eexists. repeat split.
  - eexists. repeat split.
  - destruct rest; [reflexivity|]. eexists. repeat split.
Qed.

Lemma pb_refines ops : forall i h, disciplined h ops = true -> (held i = true -> h = true) ->
  fst (pb_run ops i) = fst (list_run ops (pending i)) /\
  pending (snd (pb_run ops i)) = snd (list_run ops (pending i)).
Proof.
  induction ops as [|[|s] ops IH]; intros i h Hd Hh; simpl.
  - auto.
  - simpl in Hd. pose proof (pb_next_pending i) as N. destruct (pending i) as [|x r] eqn:E.
    + assert (Hhf : held i = false).
      { unfold pending, held in *. destruct (pb_buf i) as [[|]|]; congruence. }
      rewrite N. destruct (IH i false Hd) as [I1 I2]; [congruence|]. rewrite E in I1, I2.
      destruct (pb_run ops i) as [out i']. destruct (list_run ops []) as [out' l']. simpl in *. subst. auto.
    + destruct N as (i' & -> & Hp & Hh'). destruct (IH i' false Hd) as [I1 I2]; [congruence|]. rewrite Hp in I1, I2.
      destruct (pb_run ops i') as [out i'']. destruct (list_run ops r) as [out' l']. simpl in *. subst. auto.
  - simpl in Hd. apply andb_prop in Hd as [Hd Hd2]. apply andb_prop in Hd as [Hd0 Hd1].
    destruct s as [|c s]; [discriminate|].
    assert (P : pending (pb_put (String c s) i) = String c s :: pending i).
    { unfold pending at 1. simpl. destruct (held i) eqn:E; [destruct h; [discriminate|]; specialize (Hh eq_refl); discriminate|].
      unfold pending, held in *. destruct (pb_buf i) as [[|]|]; congruence. }
    rewrite <- P. apply (IH _ true Hd2). auto.
Qed.
