(** * C56: loading files and URLs *)

From Verif Require Import PyStrFacts Load.
From Coq Require Import Lia.
From Verif Require Import Value.
Local Open Scope string_scope.
Local Open Scope list_scope.
Local Arguments String.eqb : simpl never.

(** ** Specification *)

(** The bytes of one code point in UTF-8 (RFC 3629, section 3). *)
Definition utf8_char (x : N) (bs : bytes) : Prop :=
  ((x < 128 /\ bs = [x]) \/
   (128 <= x < 2048 /\ exists a b, b < 64 /\ x = a * 64 + b /\ bs = [192 + a; 128 + b]) \/
   (2048 <= x < 65536 /\ ~ (55296 <= x <= 57343) /\ exists a b c, b < 64 /\ c < 64 /\ x = a * 4096 + b * 64 + c /\ bs = [224 + a; 128 + b; 128 + c]) \/
   (65536 <= x <= 1114111 /\ exists a b c d, b < 64 /\ c < 64 /\ d < 64 /\ x = a * 262144 + b * 4096 + c * 64 + d /\ bs = [240 + a; 128 + b; 128 + c; 128 + d]))%N.
Inductive utf8 : codes -> bytes -> Prop :=
| utf8_nil : utf8 [] []
| utf8_cons x bs t r : utf8_char x bs -> utf8 t r -> utf8 (x :: t) (bs ++ r).
(** A location is a URL if it has the three characters in it. *)
Definition url (location : string) : Prop := exists a b, location = (a ++ "://" ++ b)%string.
Definition same_files (fs fs' : disk) : Prop := forall p, fs' p = fs p.
Definition same_but (p : string) (fs fs' : disk) : Prop := forall q, q <> p -> fs' q = fs q.

(** ** UTF-8 *)

Ltac flags := repeat match goal with
  | H : _ && _ = true |- _ => apply andb_prop in H; destruct H
  | H : within _ _ _ = true |- _ => unfold within in H
  | H : cont _ = true |- _ => unfold cont in H
  | H : (_ <=? _)%N = true |- _ => apply N.leb_le in H
  | H : (_ <? _)%N = true |- _ => apply N.ltb_lt in H
  | H : (_ <? _)%N = false |- _ => apply N.ltb_ge in H
  end.
Lemma decode_utf8 : forall n s t, (List.length s <= n)%nat -> decode s = Some t -> utf8 t s.
Proof.
  induction n as [|n IH]; intros s t L D.
  { destruct s; [|cbn in L; lia]. injection D as <-. constructor. }
  destruct s as [|a r]; [injection D as <-; constructor|]. cbn [decode] in D. cbn [List.length] in L. destruct (a <? 128)%N eqn:A1.
  { destruct (decode r) as [t1|] eqn:R; [|discriminate]. injection D as <-. flags. apply (utf8_cons a [a]); [left; auto|]. apply IH; [lia|exact R]. }
  destruct r as [|b r2]; [discriminate|]. destruct (within 194 223 a) eqn:A2.
  { destruct (cont b) eqn:B; [|discriminate]. destruct (decode r2) as [t1|] eqn:R; [|discriminate]. injection D as <-. flags.
    apply (utf8_cons _ [a; b]); [|apply IH; [cbn in L; lia|exact R]]. right. left. split; [lia|]. exists (a - 192)%N, (b - 128)%N. split; [lia|]. split; [reflexivity|]. f_equal; [lia|]. f_equal. lia. }
  destruct r2 as [|c r3]; [discriminate|]. destruct (within 224 239 a) eqn:A3.
  { destruct (within _ _ b && cont c) eqn:B; [|discriminate]. destruct (decode r3) as [t1|] eqn:R; [|discriminate]. injection D as <-. flags.
    apply (utf8_cons _ [a; b; c]); [|apply IH; [cbn in L; lia|exact R]]. right. right. left.
    destruct (N.eqb_spec a 224), (N.eqb_spec a 237); (split; [lia|]); (split; [lia|]); exists (a - 224)%N, (b - 128)%N, (c - 128)%N; (split; [lia|]); (split; [lia|]); (split; [reflexivity|]); (replace (224 + (a - 224))%N with a by lia); (replace (128 + (b - 128))%N with b by lia); (replace (128 + (c - 128))%N with c by lia); reflexivity. }
  destruct r3 as [|d r4]; [discriminate|]. destruct (within 240 244 a) eqn:A4; [|discriminate].
  destruct (within _ _ b && cont c && cont d) eqn:B; [|discriminate]. destruct (decode r4) as [t1|] eqn:R; [|discriminate]. injection D as <-. flags.
  apply (utf8_cons _ [a; b; c; d]); [|apply IH; [cbn in L; lia|exact R]]. right. right. right.
  destruct (N.eqb_spec a 240), (N.eqb_spec a 244); (split; [lia|]); exists (a - 240)%N, (b - 128)%N, (c - 128)%N, (d - 128)%N; (split; [lia|]); (split; [lia|]); (split; [lia|]); (split; [reflexivity|]); (replace (240 + (a - 240))%N with a by lia); (replace (128 + (b - 128))%N with b by lia); (replace (128 + (c - 128))%N with c by lia); (replace (128 + (d - 128))%N with d by lia); reflexivity.
Qed.
Ltac yes x := let H := fresh in assert (H : x = true) by (unfold within, cont; rewrite ?andb_true_iff, ?N.leb_le, ?N.ltb_lt; lia); rewrite H; clear H.
Ltac no x := let H := fresh in assert (H : x = false) by (first [apply N.ltb_ge; lia|unfold within; apply andb_false_iff; rewrite ?N.leb_gt; lia]); rewrite H; clear H.
Lemma utf8_decode s t : utf8 t s -> decode s = Some t.
Proof.
  induction 1 as [|x bs t r Hx H IH]; [reflexivity|].
  destruct Hx as [[L ->]|[(L & a & b & Lb & -> & ->)|[(L & Ns & a & b & c & Lb & Lc & -> & ->)|(L & a & b & c & d & Lb & Lc & Ld & -> & ->)]]]; cbn [app decode].
  - yes (x <? 128)%N. now rewrite IH.
  - no (192 + a <? 128)%N. yes (within 194 223 (192 + a)). yes (cont (128 + b)). rewrite IH. do 2 f_equal. lia.
  - no (224 + a <? 128)%N. no (within 194 223 (224 + a)). yes (within 224 239 (224 + a)).
    assert (W : within (if (224 + a =? 224)%N then 160 else 128) (if (224 + a =? 237)%N then 159 else 191) (128 + b) = true).
    { unfold within. destruct (N.eqb_spec (224 + a) 224), (N.eqb_spec (224 + a) 237); rewrite andb_true_iff, !N.leb_le; lia. }
    rewrite W. yes (cont (128 + c)). rewrite IH. cbn [andb]. do 2 f_equal. lia.
  - no (240 + a <? 128)%N. no (within 194 223 (240 + a)). no (within 224 239 (240 + a)). yes (within 240 244 (240 + a)).
    assert (W : within (if (240 + a =? 240)%N then 144 else 128) (if (240 + a =? 244)%N then 143 else 191) (128 + b) = true).
    { unfold within. destruct (N.eqb_spec (240 + a) 240), (N.eqb_spec (240 + a) 244); rewrite andb_true_iff, !N.leb_le; lia. }
    rewrite W. yes (cont (128 + c)). yes (cont (128 + d)). rewrite IH. cbn [andb]. do 2 f_equal. lia.
Qed.
Lemma is_url_iff l : is_url l = true <-> url l.
Proof.
  induction l as [|x l IH].
  - split; [discriminate|]. intros (a & b & E). destruct a; discriminate.
  - cbn [is_url]. rewrite orb_true_iff, IH. split.
    + intros [H|(a & b & ->)].
      * apply startswith_spec in H as [r E]. exists "", r. exact E.
      * exists (String x a), b. reflexivity.
    + intros (a & b & E). destruct a as [|y a]; [left; apply startswith_spec; exists b; exact E|]. right. cbn in E. injection E as -> ->. exists a, b. reflexivity.
Qed.
Lemma not_url l : ~ url l -> is_url l = false.
Proof. intros H. destruct (is_url l) eqn:E; [|reflexivity]. apply is_url_iff in E. contradiction. Qed.

(** ** C56 *)
Section Loading.
Variable get : string -> answer.
Variable can_write : string -> bool.
Variable encoded : codes -> option bytes.
Notation load_to_str := (load_to_str get).
Notation load_to_file := (load_to_file get can_write encoded).

(** A file is given as the text whose UTF-8 it holds. *)
Theorem C56_file fs f t : ~ url f -> (load_to_str fs f = Ok t <-> exists b, fs f = Some b /\ utf8 t b).
Proof.
  intros U. unfold Load.load_to_str. rewrite (not_url f U). unfold load_file. destruct (fs f) as [b|].
  - destruct (decode b) as [t'|] eqn:D; split.
    + intros E. injection E as <-. exists b. split; [reflexivity|]. exact (decode_utf8 _ b t' (le_n _) D).
    + intros (b' & E & H). injection E as <-. apply utf8_decode in H. congruence.
    + discriminate.
    + intros (b' & E & H). injection E as <-. apply utf8_decode in H. congruence.
  - split; [discriminate|]. intros (b & E & _). discriminate.
Qed.
(** One that cannot be opened is a KickstartError. *)
Theorem C56_no_file fs f : ~ url f -> fs f = None -> exists e, load_to_str fs f = Err e /\ is_ks_error e = true.
Proof. intros U E. unfold Load.load_to_str, load_file. rewrite (not_url f U), E. eexists. split; reflexivity. Qed.
(** A URL is given as the text of the answer; anything but the status 200 is a KickstartError. *)
Theorem C56_url fs u : url u -> match load_to_str fs u with
  | Ok t => get u = Answer 200 t
  | Err e => is_ks_error e = true /\ forall t, get u <> Answer 200 t
  end.
Proof.
  intros U. apply is_url_iff in U. unfold Load.load_to_str, load_url. rewrite U. destruct (get u) as [| |st t]; [split; [reflexivity|discriminate]..|].
  destruct (Z.eqb_spec st 200) as [->|N]; [reflexivity|]. split; [reflexivity|]. intros t' E. injection E as -> _. contradiction.
Qed.
(** What load_to_file leaves: on success the destination, which it returns; otherwise only the destination can have changed, and after a
    KickstartError nothing has. *)
Theorem C56_effect fs l d fs' r : load_to_file fs l d = (fs', r) -> same_but d fs fs' /\
  match r with
  | Ok p => p = d /\ can_write d = true /\
            ((url l /\ exists t b, get l = Answer 200 t /\ encoded t = Some b /\ fs' d = Some b) \/ (~ url l /\ exists b, fs l = Some b /\ fs' d = Some b))
  | Err e => is_ks_error e = true /\ same_files fs fs' \/ url l /\ exists t, get l = Answer 200 t /\ encoded t = None
  end.
Proof.
  assert (Wr : forall b, same_but d fs (written d b fs)).
  { intros b q N. unfold written. destruct (String.eqb_spec q d); [contradiction|reflexivity]. }
  assert (Wd : forall b, written d b fs d = Some b) by (intros b; unfold written; now rewrite String.eqb_refl).
  assert (Id : same_but d fs fs /\ same_files fs fs) by (split; intros q; reflexivity). destruct Id as [Id1 Id2].
  unfold Load.load_to_file. destruct (is_url l) eqn:U.
  - apply is_url_iff in U. unfold load_url. destruct (get l) as [| |st t] eqn:G; [intros E; injection E as <- <-; split; [exact Id1|auto]..|].
    destruct (Z.eqb_spec st 200) as [->|N]; [|intros E; injection E as <- <-; split; [exact Id1|auto]].
    destruct (can_write d) eqn:W; [|intros E; injection E as <- <-; split; [exact Id1|auto]].
    destruct (encoded t) as [b|] eqn:En; intros E; injection E as <- <-; (split; [apply Wr|]).
    + split; [reflexivity|]. split; [reflexivity|]. left. split; [exact U|]. exists t, b. auto.
    + right. split; [exact U|]. exists t. auto.
  - assert (NU : ~ url l) by (intros X; apply is_url_iff in X; congruence). unfold copy_file.
    destruct (String.eqb l d); [intros E; injection E as <- <-; split; [exact Id1|auto]|].
    destruct (fs l) as [b|] eqn:Fl; [|intros E; injection E as <- <-; split; [exact Id1|auto]].
    destruct (can_write d) eqn:W; intros E; injection E as <- <-; [split; [apply Wr|]|split; [exact Id1|auto]].
    split; [reflexivity|]. split; [reflexivity|]. right. split; [exact NU|]. exists b. auto.
Qed.
(** It succeeds when it can: the location can be read, the destination written and (for a URL) the text encoded, and they are not the same file. *)
Theorem C56_copies fs l d : can_write d = true ->
  (url l /\ (exists t b, get l = Answer 200 t /\ encoded t = Some b)) \/ (~ url l /\ l <> d /\ fs l <> None) -> snd (load_to_file fs l d) = Ok d.
Proof.
  intros W [(U & t & b & G & En)|(U & Ne & Fl)]; unfold Load.load_to_file.
  - apply is_url_iff in U. rewrite U. unfold load_url. rewrite G. change (Z.eqb 200 200) with true. cbv iota. rewrite W, En. reflexivity.
  - rewrite (not_url l U). unfold copy_file. apply String.eqb_neq in Ne. rewrite Ne, W. destruct (fs l); [reflexivity|contradiction].
Qed.
(** Reading the copy is reading the original, where text files are UTF-8. *)
Theorem C56_copy_reads fs l d fs' : (forall t b, encoded t = Some b -> utf8 t b) -> ~ url d -> load_to_file fs l d = (fs', Ok d) ->
  load_to_str fs' d = load_to_str fs l.
Proof.
  intros Enc Ud E. destruct (C56_effect _ _ _ _ _ E) as (_ & _ & _ & [(U & t & b & G & En & Fd)|(U & b & Fl & Fd)]); unfold Load.load_to_str; rewrite (not_url d Ud).
  - apply is_url_iff in U. rewrite U. unfold load_file, load_url. rewrite Fd, G, (utf8_decode _ _ (Enc _ _ En)). reflexivity.
  - rewrite (not_url l U). unfold load_file. now rewrite Fd, Fl.
Qed.
(** Files do not depend on the network, nor URLs on files. *)
Theorem C56_apart fs fs' get' l : (url l -> get l = get' l) -> (~ url l -> fs l = fs' l) -> load_to_str fs l = Load.load_to_str get' fs' l.
Proof.
  intros H1 H2. unfold Load.load_to_str. destruct (is_url l) eqn:U.
  - apply is_url_iff in U. unfold load_url. now rewrite (H1 U).
  - unfold load_file. rewrite H2; [reflexivity|]. intros X. apply is_url_iff in X. congruence.
Qed.
(** Every error of reading is said to be a KickstartError, but a file that is not UTF-8 raises another exception. *)
Theorem C56_not_utf8_refuted fs f b : ~ url f -> fs f = Some b -> (forall t, ~ utf8 t b) -> exists e, load_to_str fs f = Err e /\ is_ks_error e = false.
Proof.
  intros U Fb N. unfold Load.load_to_str, load_file. rewrite (not_url f U), Fb. destruct (decode b) as [t|] eqn:D; [exfalso; exact (N t (decode_utf8 _ _ _ (le_n _) D))|].
  eexists. split; reflexivity.
Qed.
(** A file whose path has :// in it is never read. *)
Theorem C56_path_refuted fs fs' p : url p -> load_to_str fs p = load_to_str fs' p.
Proof. intros U. apply C56_apart; [reflexivity|contradiction]. Qed.
End Loading.
(** UTF-8 gives back what was encoded, and bytes stand for at most one text. *)
Theorem C56_utf8 t b : utf8 t b <-> decode b = Some t.
Proof. split; [apply utf8_decode|]. apply (decode_utf8 _ b t (le_n _)). Qed.
Print Assumptions C56_file.
Print Assumptions C56_no_file.
Print Assumptions C56_url.
Print Assumptions C56_effect.
Print Assumptions C56_copies.
Print Assumptions C56_copy_reads.
Print Assumptions C56_apart.
Print Assumptions C56_not_utf8_refuted.
Print Assumptions C56_path_refuted.
Print Assumptions C56_utf8.

(** ** Examples *)
(** A file with an accented letter, a euro sign and a musical sign; and one in Latin-1. *)
Definition disk_demo : disk := fun p => if String.eqb p "/ks.cfg" then Some [108; 195; 169; 226; 130; 172; 240; 157; 132; 158]%N else if String.eqb p "/old.cfg" then Some [108; 233; 10]%N else None.
Definition get_demo : string -> answer := fun u => if String.eqb u "http://host/ks.cfg" then Answer 200 [108; 233]%N else Answer 404 [].
Example C56_example : load_to_str get_demo disk_demo "/ks.cfg" = Ok [108; 233; 8364; 119070]%N /\ load_to_str get_demo disk_demo "/old.cfg" = Err ValueError /\
  load_to_str get_demo disk_demo "http://host/ks.cfg" = Ok [108; 233]%N /\ ~ url "/ks.cfg" /\ url "http://host/ks.cfg".
Proof.
  repeat split; try reflexivity.
  - intros U. apply is_url_iff in U. discriminate.
  - apply is_url_iff. reflexivity.
Qed.
Example C56_old_example : forall t, ~ utf8 t [108; 233; 10]%N.
Proof. intros t H. apply utf8_decode in H. discriminate. Qed.
Example C56_copy_example : snd (load_to_file get_demo (fun _ => true) (fun t => Some t) disk_demo "/old.cfg" "/tmp/ks.cfg") = Ok "/tmp/ks.cfg".
Proof. reflexivity. Qed.
