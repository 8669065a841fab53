(** * C10 and C40: preprocessing, the put-back iterator

    Vocabulary: PreSpec.v.  Model: Preprocess.v. *)

From Verif Require Import PyStrFacts Preprocess PreSpec PreFacts.
From Verif Require Import Value.
Local Open Scope string_scope.
Local Open Scope list_scope.

(** ** C10 *)

(** Preprocessing succeeds exactly when every line can be had, and then returns
    the lines in order, each %ksappend line replaced by the file it names. *)
Theorem C10_replaces_ksappend_lines : forall load s t,
  preprocessFromStringToString load s = Ok t <->
  exists parts, Forall2 (fun l p => stands_for load l = Some p) (splitlines s) parts
                /\ t = concat_all parts.
Proof.
  intros load s t. apply preprocess_lines_ok; [|auto]. intros l. apply splitlines_nonempty.
Qed.
Print Assumptions C10_replaces_ksappend_lines.

(** The same for a file. *)
Theorem C10_file : forall load f t,
  preprocessKickstartToString load f = Ok t <->
  exists s parts, load f = Some s
    /\ Forall2 (fun l p => stands_for load l = Some p) (splitlines s) parts /\ t = concat_all parts.
Proof.
  intros load f t. unfold preprocessKickstartToString. destruct (load f) as [s|].
  - rewrite <- (app_nil_r (splitlines s)) at 1. split.
    + intros H. apply preprocess_lines_ok in H as (parts & H1 & H2); auto; [eauto|].
      intros l. apply splitlines_nonempty.
    + intros (s' & parts & E & H). injection E as <-. apply preprocess_lines_ok; eauto. intros l. apply splitlines_nonempty.
  - split; [discriminate|]. intros (s & parts & E & _). discriminate.
Qed.
Print Assumptions C10_file.

(** Without %ksappend lines the text comes back unchanged. *)
Theorem C10_unchanged : forall load s,
  forallb (fun l => negb (is_ksappend l)) (splitlines s) = true ->
  preprocessFromStringToString load s = Ok s.
Proof.
  intros load s H. apply C10_replaces_ksappend_lines. exists (splitlines s).
  split; [now apply stands_for_plain|]. symmetry. apply splitlines_concat.
Qed.
Print Assumptions C10_unchanged.

(** The first line that cannot be had raises, with its line number: a parse error
    when it names no file, a KickstartError when the file cannot be loaded. *)
Theorem C10_first_failure : forall load s good bad rest,
  splitlines s = good ++ bad :: rest ->
  (forall l, In l good -> stands_for load l <> None) -> stands_for load bad = None ->
  preprocessFromStringToString load s =
  Err (match ksappend_file bad with
       | None => KSParseError (Some (N.of_nat (length good) + 1)%N) "ksappend-url"
       | Some _ => KSError (Some (N.of_nat (length good) + 1)%N) "ksappend-load"
       end).
Proof.
  intros load s good bad rest E Hg Hb. unfold preprocessFromStringToString. rewrite E, <- app_assoc.
  cbn [app]. rewrite (preprocess_lines_fail load good bad (rest ++ [""]) 0); auto.
  intros l Hl. apply (splitlines_nonempty s). rewrite E. apply in_app_or in Hl as [Hl|[<-|[]]]; apply in_or_app; simpl; auto.
Qed.
Print Assumptions C10_first_failure.

(** The temporary file variants write that text, or no file when it is empty. *)
Theorem C10_temporary_file : forall load s r,
  preprocessFromString load s = Ok r <->
  exists t, preprocessFromStringToString load s = Ok t /\ (r = None /\ t = "" \/ r = Some t /\ t <> "").
Proof.
  intros load s r. unfold preprocessFromString. destruct (preprocessFromStringToString load s) as [t|e]; cbn [bind].
  - destruct (String.eqb_spec t "") as [->|Hne]; split.
    + intros H. injection H as <-. exists "". auto.
    + intros (t' & Ht & [[-> _]|[-> Ht']]); [reflexivity|]. injection Ht as <-. congruence.
    + intros H. injection H as <-. exists t. auto.
    + intros (t' & Ht & [[-> Ht']|[-> Ht']]); injection Ht as <-; congruence.
  - split; [discriminate|]. intros (t & H & _). discriminate.
Qed.
Print Assumptions C10_temporary_file.

Definition ex_load (f : string) : option string :=
  if String.eqb f "/tmp/a" then Some ("user --name=x" ++ nl)%string else None.
Example C10_case :
  preprocessFromStringToString ex_load ("lang en" ++ nl ++ " %ksappend /tmp/a extra" ++ nl ++ "halt")
  = Ok ("lang en" ++ nl ++ "user --name=x" ++ nl ++ "halt")%string.
Proof. vm_compute. reflexivity. Qed.
Example C10_case_failure :
  let bad := ("%ksappend /tmp/b" ++ nl)%string in
  splitlines ("lang en" ++ nl ++ bad ++ "%ksappend") = [("lang en" ++ nl)%string] ++ bad :: ["%ksappend"]
  /\ stands_for ex_load bad = None /\ ksappend_file bad = Some "/tmp/b".
Proof. vm_compute. auto. Qed.

(** ** C40 *)

(** Against any interleaving of next and put (non-empty lines, no two put in a
    row), the iterator is a list: put conses, next takes the head. *)
Theorem C40_put_back_is_a_list : forall lines ops,
  disciplined false ops = true ->
  fst (pb_run ops (pb_new lines)) = fst (list_run ops lines) /\
  pending (snd (pb_run ops (pb_new lines))) = snd (list_run ops lines).
Proof. intros lines ops H. apply (pb_refines ops (pb_new lines) false H). discriminate. Qed.
Print Assumptions C40_put_back_is_a_list.

(** Both restrictions are needed. *)
Theorem C40_two_puts_refuted : exists lines ops,
  fst (pb_run ops (pb_new lines)) <> fst (list_run ops lines) /\
  forallb (fun o => match o with Put "" => false | _ => true end) ops = true.
Proof. exists ["c"], [Put "b"; Put "a"; Next; Next; Next]. vm_compute. split; [discriminate|reflexivity]. Qed.
Print Assumptions C40_two_puts_refuted.
Theorem C40_empty_line_refuted : exists lines, fst (pb_run [Put ""; Next] (pb_new lines)) <> [Some ""].
Proof. exists ["c"]. vm_compute. discriminate. Qed.
Print Assumptions C40_empty_line_refuted.

Example C40_case :
  let ops := [Next; Put "x"; Next; Next; Put "y"; Next; Next; Next] in
  disciplined false ops = true /\
  fst (pb_run ops (pb_new ["a"; "b"; "c"])) = [Some "a"; Some "x"; Some "b"; Some "y"; Some "c"; None].
Proof. vm_compute. auto. Qed.
