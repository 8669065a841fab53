(** * The method proxy: what its operations do to the handler *)

From Verif Require Import PyStrFacts HandlerFacts PropsHandler PropsClass CmdFacts.
From Verif Require Export HandlerSpec Method.
From Verif Require Import Value.
Local Open Scope string_scope.
Local Open Scope list_scope.
Local Arguments Ascii.eqb : simpl never.
Local Arguments String.eqb : simpl never.

(** ** Attributes of the handler and objects *)

(** Every attribute has an object, and different attributes have different objects. *)
Record sound (h : handler) : Prop := mkSound {
  so_obj : forall a i, assoc a (h_attrs h) = Some (Some i) -> exists o, obj_at h i = Some o;
  so_one : forall a b i, assoc a (h_attrs h) = Some (Some i) -> assoc b (h_attrs h) = Some (Some i) -> a = b }.
(** The object behind an attribute has a class of that name. *)
Definition labelled (h : handler) : Prop := forall a i o, assoc a (h_attrs h) = Some (Some i) -> obj_at h i = Some o -> attr_name (o_name o) = a.
Definition has_all (ms : list string) (h : handler) : Prop := forall m, In m ms -> exists i, assoc m (h_attrs h) = Some (Some i).

Lemma sound_same h h' : h_attrs h' = h_attrs h -> length (h_objs h') = length (h_objs h) -> sound h -> sound h'.
Proof.
  intros A L [B O]. split; rewrite A; [|exact O]. intros a i E. apply B in E as (o & E). unfold obj_at in *.
  assert (H : i < length (h_objs h)) by (apply nth_error_Some; congruence). rewrite <- L in H. apply nth_error_Some in H.
  destruct (nth_error (h_objs h') i) as [o'|]; [eauto|contradiction].
Qed.
Lemma sound_set i o h : sound h -> sound (set_obj i o h).
Proof. intros S. apply (sound_same h); [reflexivity|apply replace_nth_len|exact S]. Qed.
Lemma sound_command o h : sound h -> sound (set_command o h).
Proof.
  intros [B O]. split; cbn [set_command h_attrs].
  - intros a i. destruct (String.eqb_spec a (attr_name (o_name o))) as [->|Ne].
    + rewrite assoc_put_eq. intros E. injection E as <-. unfold obj_at. cbn [set_command h_objs]. rewrite nth_error_app2, Nat.sub_diag by auto. now exists o.
    + rewrite assoc_put_ne by exact Ne. intros E. apply B in E as (o' & E). exists o'. unfold obj_at in *. cbn [set_command h_objs].
      rewrite nth_error_app1; [exact E|]. apply nth_error_Some. congruence.
  - assert (L : forall a i, assoc a (h_attrs h) = Some (Some i) -> i < length (h_objs h)).
    { intros a i E. apply B in E as (o' & E). unfold obj_at in E. apply nth_error_Some. congruence. }
    intros a b i. destruct (String.eqb_spec a (attr_name (o_name o))) as [->|Na], (String.eqb_spec b (attr_name (o_name o))) as [->|Nb]; auto.
    + rewrite assoc_put_eq, assoc_put_ne by exact Nb. intros E F. injection E as <-. apply L in F. lia.
    + rewrite assoc_put_eq, assoc_put_ne by exact Na. intros E F. injection F as <-. apply L in E. lia.
    + rewrite !assoc_put_ne by assumption. apply O.
Qed.
Lemma has_put ms h a i : has_all ms h -> forall m, In m ms -> exists j, assoc m (put a (Some i) (h_attrs h)) = Some (Some j).
Proof.
  intros H m Hm. destruct (String.eqb_spec m a) as [->|Ne]; [rewrite assoc_put_eq; eauto|rewrite assoc_put_ne by exact Ne; auto].
Qed.

Lemma build_sound m dm : sound (build_handler m dm).
Proof.
  unfold build_handler. assert (D : forall dm h, sound h -> sound (fold_left register_data dm h)).
  { clear. induction dm as [|d dm IH]; intros h S; [exact S|]. apply IH. now apply (sound_same h). }
  apply D. assert (R : forall m h, sound h -> sound (fold_left register_command m h)).
  { clear. induction m as [|[n k] m IH]; intros h S; [exact S|]. cbn [fold_left]. apply IH. unfold register_command.
    destruct (find_class _ _ _).
    - now apply (sound_same h).
    - apply (sound_same (set_command (new_obj k) h)); [reflexivity|reflexivity|now apply sound_command]. }
  apply R. split; cbn; discriminate.
Qed.

(** ** Command lines, resets and calls *)

Lemma line_kept h line args ln : h_attrs (fst (handle_command h line args ln)) = h_attrs h /\
  length (h_objs (fst (handle_command h line args ln))) = length (h_objs h).
Proof.
  unfold handle_command, dispatcher. destruct args as [|x args]; [auto|]. destruct (assoc x _) as [[i|]|]; try (cbn; auto; fail).
  destruct (obj_at _ i); [|cbn; auto]. cbv zeta. destruct (cl_parse _ _ _ _ _) as [[? ?] []]; cbn [fst set_obj h_attrs h_objs set_line]; rewrite !replace_nth_len; auto.
Qed.

Definition fine (ms : list string) (h : handler) : Prop := sound h /\ has_all ms h.
Lemma fine_op ms h o : ~ In "nonetype" ms -> fine ms h -> fine ms (do_op h o).
Proof.
  intros N [S H]. destruct o as [line args ln|n|a kw]; cbn [do_op].
  - destruct (line_kept h line args ln) as [A L]. split; [now apply (sound_same h)|]. intros m Hm. rewrite A. auto.
  - unfold reset_command. destruct (assoc n (h_commands h)) as [[i|]|]; cbn [fst]; [| |split; auto].
    + destruct (obj_at h i) as [o|]; cbn [fst]; [|split; auto]. split.
      * apply (sound_same (set_command (new_obj (o_class o)) h)); [reflexivity|reflexivity|now apply sound_command].
      * intros m Hm. cbn [set_commands set_command h_attrs]. exact (has_put ms h _ _ H m Hm).
    + split.
      * destruct S as [B O]. split; cbn [h_attrs].
        -- intros a i E. destruct (String.eqb_spec a "nonetype") as [->|Ne]; [rewrite assoc_put_eq in E; discriminate|].
           rewrite assoc_put_ne in E by exact Ne. eapply B; exact E.
        -- intros a b i E F. destruct (String.eqb_spec a "nonetype") as [->|Na]; [rewrite assoc_put_eq in E; discriminate|].
           destruct (String.eqb_spec b "nonetype") as [->|Nb]; [rewrite assoc_put_eq in F; discriminate|].
           rewrite assoc_put_ne in E, F by assumption. eapply O; eauto.
      * intros m Hm. cbn [h_attrs]. rewrite assoc_put_ne; [auto|]. intros ->. contradiction.
  - unfold call_attr. destruct (assoc a (h_attrs h)) as [[i|]|]; try (split; assumption). destruct (obj_at h i); [|split; assumption].
    split; [now apply sound_set|exact H].
Qed.

(** ** The operations of the proxy *)

Lemma command_at_ok h m i o : assoc m (h_attrs h) = Some (Some i) -> obj_at h i = Some o -> command_at h m = Ok (i, o).
Proof. intros A B. unfold command_at. now rewrite A, B. Qed.
Lemma command_at_attr h m i o : command_at h m = Ok (i, o) -> assoc m (h_attrs h) = Some (Some i) /\ obj_at h i = Some o /\ attr_obj h m = Some o.
Proof.
  unfold command_at, attr_obj. destruct (assoc m (h_attrs h)) as [[j|]|]; try discriminate. destruct (obj_at h j) eqn:E; [|discriminate].
  intros X. injection X as <- <-. auto.
Qed.
Lemma fine_command ms h m : fine ms h -> In m ms -> exists i o, command_at h m = Ok (i, o).
Proof. intros [[B _] H] Hm. destruct (H m Hm) as (i & A). destruct (B m i A) as (o & E). exists i, o. now apply command_at_ok. Qed.

(** Changing one attribute of one object. *)
Lemma set_attr_fine ms i o k v h : fine ms h -> fine ms (set_attr i o k v h).
Proof. intros [S H]. split; [now apply sound_set|exact H]. Qed.
Lemma set_attr_at h m i o k v a : sound h -> command_at h m = Ok (i, o) ->
  attr_obj (set_attr i o k v h) a = if String.eqb a m then Some (mkObj (o_class o) (put k v (o_attrs o)) (o_data o)) else attr_obj h a.
Proof.
  intros S C. apply command_at_attr in C as (A & E & _). unfold attr_obj. cbn [set_attr set_obj h_attrs].
  destruct (String.eqb_spec a m) as [->|Ne].
  - rewrite A. unfold set_attr. now rewrite (obj_at_set_eq i o).
  - destruct (assoc a (h_attrs h)) as [[j|]|] eqn:Aa; try reflexivity. unfold set_attr. rewrite obj_at_set_ne; [reflexivity|].
    intros <-. apply Ne. eapply so_one; eauto.
Qed.
Lemma set_attr_attrs i o k v h : h_attrs (set_attr i o k v h) = h_attrs h.
Proof. reflexivity. Qed.

(** The attribute [seen] of some commands set to False. *)
Definition unseen (o : cmdobj) : cmdobj := mkObj (o_class o) (put "seen" (VBool false) (o_attrs o)) (o_data o).
Lemma clear_spec ms' ms h : fine ms h -> incl ms' ms -> NoDup ms' -> exists h', clear_seen ms' h = (h', None) /\ fine ms h' /\ h_attrs h' = h_attrs h /\
  forall a, attr_obj h' a = if mem a ms' then option_map unseen (attr_obj h a) else attr_obj h a.
Proof.
  revert h. induction ms' as [|m r IH]; intros h F I D.
  - exists h. repeat split; auto; apply F.
  - destruct (fine_command ms h m F) as (i & o & C); [apply I; now left|]. cbn [clear_seen]. rewrite C. inversion D as [|? ? Hm Dr]; subst.
    destruct (IH (set_attr i o "seen" (VBool false) h)) as (h' & E & F' & A & V); [now apply set_attr_fine|intros x Hx; apply I; now right|exact Dr|].
    exists h'. split; [exact E|]. split; [exact F'|]. split; [now rewrite A|]. intros a. rewrite V, (set_attr_at h m i o _ _ a (proj1 F) C).
    cbn [mem existsb]. destruct (String.eqb_spec a m) as [->|Ne]; cbn [orb].
    + destruct (mem m r) eqn:M; [apply mem_In in M; contradiction|]. apply command_at_attr in C as (_ & _ & ->). reflexivity.
    + reflexivity.
Qed.

Lemma get_method_spec ms' ms h : fine ms h -> incl ms' ms -> exists r, get_method ms' h = Ok r /\
  match r with
  | VNone => forall m o, In m ms' -> attr_obj h m = Some o -> o_seen o = false
  | VStr m => exists p q o, ms' = p ++ m :: q /\ attr_obj h m = Some o /\ o_seen o = true /\
                (forall x o', In x p -> attr_obj h x = Some o' -> o_seen o' = false)
  | _ => False
  end.
Proof.
  intros F. induction ms' as [|m r IH]; intros I.
  - exists VNone. split; [reflexivity|]. intros m o [].
  - destruct (fine_command ms h m F) as (i & o & C); [apply I; now left|]. cbn [get_method]. rewrite C. cbn [bind snd].
    pose proof C as C'. apply command_at_attr in C' as (_ & _ & Ao). destruct (o_seen o) eqn:S.
    + exists (VStr m). split; [reflexivity|]. exists [], r, o. repeat split; auto. intros x o' [].
    + destruct IH as (w & E & W); [intros x Hx; apply I; now right|]. exists w. split; [exact E|]. destruct w; try exact W.
      * intros x o' [<-|Hx] Ax; [congruence|eauto].
      * destruct W as (p & q & o1 & -> & A1 & S1 & P). exists (m :: p), q, o1. repeat split; auto.
        intros x o' [<-|Hx] Ax; [congruence|eauto].
Qed.

(** ** The objects of the handler *)

(** All objects are as [P] says. *)
Definition each (P : cmdobj -> Prop) (h : handler) : Prop := forall i o, obj_at h i = Some o -> P o.
Lemma build_each (P : cmdobj -> Prop) (m : list (string * cclass)) dm : (forall n k, In (n, k) m -> P (new_obj k)) -> each P (build_handler m dm).
Proof.
  intros H. unfold build_handler. assert (D : forall dm h, each P h -> each P (fold_left register_data dm h)).
  { clear. induction dm as [|d dm IH]; intros h S; [exact S|]. apply IH. exact S. }
  apply D. assert (R : forall m h, (forall n k, In (n, k) m -> P (new_obj k)) -> each P h -> each P (fold_left register_command m h)).
  { clear. induction m as [|[n k] m IH]; intros h H S; [exact S|]. cbn [fold_left]. apply IH; [intros; eapply H; right; eauto|]. unfold register_command.
    destruct (find_class _ _ _); [exact S|]. intros i o E. unfold obj_at in E. cbn [set_commands set_command h_objs] in E.
    destruct (Nat.ltb_spec i (length (h_objs h))) as [L|L].
    - rewrite nth_error_app1 in E by exact L. exact (S i o E).
    - rewrite nth_error_app2 in E by exact L. destruct (i - length (h_objs h)) as [|[|j]]; cbn in E; try discriminate. injection E as <-. eapply H. now left. }
  apply R; [exact H|]. intros i o E. unfold obj_at in E. cbn in E. now destruct i.
Qed.
Lemma each_set (P : cmdobj -> Prop) i o h : each P h -> P o -> each P (set_obj i o h).
Proof.
  intros E H j x. destruct (Nat.eq_dec i j) as [<-|Ne].
  - unfold obj_at. cbn. destruct (Nat.ltb_spec i (length (h_objs h))) as [L|L].
    + rewrite replace_nth_eq by exact L. intros X. now injection X as <-.
    + intros X. assert (i < length (replace_nth i o (h_objs h))) by (apply nth_error_Some; congruence). rewrite replace_nth_len in *. lia.
  - rewrite obj_at_set_ne by exact Ne. apply E.
Qed.
Lemma each_command (P : cmdobj -> Prop) o h : each P h -> P o -> each P (set_command o h).
Proof.
  intros S H i x E. unfold obj_at in E. cbn [set_command h_objs] in E.
  destruct (Nat.ltb_spec i (length (h_objs h))) as [L|L].
  - rewrite nth_error_app1 in E by exact L. exact (S i x E).
  - rewrite nth_error_app2 in E by exact L. destruct (i - length (h_objs h)) as [|[|j]]; cbn in E; try discriminate. now injection E as <-.
Qed.

Lemma labelled_set i o o' h : obj_at h i = Some o -> o_name o' = o_name o -> labelled h -> labelled (set_obj i o' h).
Proof.
  intros E N L a j x A. cbn [set_obj h_attrs] in A. destruct (Nat.eq_dec i j) as [<-|Ne].
  - rewrite (obj_at_set_eq i o) by exact E. intros X. injection X as <-. rewrite N. eapply L; eauto.
  - rewrite obj_at_set_ne by exact Ne. eauto.
Qed.
Lemma labelled_command o h : sound h -> labelled h -> labelled (set_command o h).
Proof.
  intros S L a i x. cbn [set_command h_attrs]. destruct (String.eqb_spec a (attr_name (o_name o))) as [->|Ne].
  - rewrite assoc_put_eq. intros E. injection E as <-. unfold obj_at. cbn [set_command h_objs]. rewrite nth_error_app2, Nat.sub_diag by auto.
    cbn. intros E. now injection E as <-.
  - rewrite assoc_put_ne by exact Ne. intros E X. apply (L a i x E). destruct (so_obj h S a i E) as (y & Y). unfold obj_at in *.
    cbn [set_command h_objs] in X. rewrite nth_error_app1 in X; [exact X|]. apply nth_error_Some. congruence.
Qed.
Lemma build_labelled m dm : labelled (build_handler m dm).
Proof.
  unfold build_handler. assert (D : forall dm h, labelled h -> labelled (fold_left register_data dm h)).
  { clear. induction dm as [|d dm IH]; intros h S; [exact S|]. apply IH. exact S. }
  apply D. assert (R : forall m h, sound h -> labelled h -> labelled (fold_left register_command m h)).
  { clear. induction m as [|[n k] m IH]; intros h S L; [exact L|]. cbn [fold_left]. unfold register_command at 2.
    destruct (find_class _ _ _).
    - apply IH; [now apply (sound_same h)|exact L].
    - apply IH; [|exact (labelled_command (new_obj k) h S L)].
      apply (sound_same (set_command (new_obj k) h)); [reflexivity|reflexivity|now apply sound_command]. }
  apply R; [|intros a i o E; discriminate E]. split; cbn; discriminate.
Qed.
