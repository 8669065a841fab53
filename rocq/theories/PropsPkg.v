(** * C21 - C24: package selections

    Vocabulary: PkgSpec.v.  Model: Packages.v. *)

From Verif Require Import Packages PkgSpec PkgFacts.
From Verif Require Import Value.
Local Open Scope string_scope.
Local Open Scope list_scope.

(** ** C21 *)

(** After any sequence of add calls, successful or not, both package lists are
    strictly sorted and no group name occurs twice. *)
Theorem C21_lists_are_sets : forall calls,
  let p := fold_left (fun p ls => fst (packages_add ls p)) calls new_packages in
  strictly_sorted (pk_packageList p) /\ strictly_sorted (pk_excludedList p) /\
  NoDup (map g_name (pk_groupList p)).
Proof. intros calls. apply add_calls_inv, new_packages_inv. Qed.
Print Assumptions C21_lists_are_sets.

(** The same from any selection that has the property. *)
Theorem C21_preserved : forall calls p,
  strictly_sorted (pk_packageList p) -> strictly_sorted (pk_excludedList p) ->
  NoDup (map g_name (pk_groupList p)) ->
  let p' := fold_left (fun p ls => fst (packages_add ls p)) calls p in
  strictly_sorted (pk_packageList p') /\ strictly_sorted (pk_excludedList p') /\
  NoDup (map g_name (pk_groupList p')).
Proof. intros calls p H1 H2 H3. apply add_calls_inv. repeat split; assumption. Qed.
Print Assumptions C21_preserved.

Example C21_case :
  let p := fold_left (fun p ls => fst (packages_add ls p))
             [["zsh"; "bash"; "@core"; "zsh"]; ["-"]; ["@base --optional"; "@core --nodefaults"; "-vim"; "aide"]] new_packages in
  pk_packageList p = ["aide"; "bash"; "zsh"] /\ pk_excludedList p = ["vim"] /\
  pk_groupList p = [mkGroup "core" GDefault; mkGroup "base" GAll].
Proof. vm_compute. auto. Qed.

(** ** C22 *)

(** After any sequence of lines a package is selected iff its last mention is plain,
    and deselected iff its last mention has a minus sign. *)
Theorem C22_last_mention_decides : forall lines x,
  (In x (pk_packageList (add_each lines new_packages)) <-> last_mention x lines = Some true) /\
  (In x (pk_excludedList (add_each lines new_packages)) <-> last_mention x lines = Some false).
Proof.
  intros lines x. destruct (add_each_lists lines x new_packages) as [H1 H2]; [intros y []|].
  rewrite H1, H2. destruct (last_mention x lines) as [[]|]; simpl; split; split; congruence || tauto.
Qed.
Print Assumptions C22_last_mention_decides.

(** The same on top of an earlier selection, which counts where a package is not
    mentioned. *)
Theorem C22_on_top_of : forall lines x p,
  (forall y, In y (pk_packageList p) -> In y (pk_excludedList p) -> False) ->
  (In x (pk_packageList (add_each lines p)) <->
     match last_mention x lines with Some b => b = true | None => In x (pk_packageList p) end) /\
  (In x (pk_excludedList (add_each lines p)) <->
     match last_mention x lines with Some b => b = false | None => In x (pk_excludedList p) end).
Proof. intros lines x p H. apply add_each_lists. exact H. Qed.
Print Assumptions C22_on_top_of.

(** Hence a package is never in both lists. *)
Theorem C22_never_both : forall lines x,
  In x (pk_packageList (add_each lines new_packages)) ->
  In x (pk_excludedList (add_each lines new_packages)) -> False.
Proof.
  intros lines x H1 H2. destruct (C22_last_mention_decides lines x) as [A B].
  apply A in H1. apply B in H2. congruence.
Qed.
Print Assumptions C22_never_both.

(** One add call with several lines is not the same as several calls: a package can
    end up in both lists. *)
Theorem C22_one_call_refuted : exists lines x,
  let p := fst (packages_add lines new_packages) in
  In x (pk_packageList p) /\ In x (pk_excludedList p).
Proof. exists ["vim"; "-vim"], "vim". vm_compute. auto. Qed.
Print Assumptions C22_one_call_refuted.

Example C22_case :
  let ls := ["vim"; " -vim  "; "emacs"; "@core"; "-"; "-nano"; "vim"; "-@base"; "@^minimal"; "-emacs"] in
  pk_packageList (add_each ls new_packages) = ["vim"] /\
  pk_excludedList (add_each ls new_packages) = ["emacs"; "nano"] /\
  map (fun x => last_mention x ls) ["vim"; "emacs"; "nano"; "ed"] = [Some true; Some false; Some false; None].
Proof. vm_compute. auto. Qed.

(** ** C23 *)

(** A group is in the list, with options [i], iff that is how it stands: included,
    not excluded since, with the options of the first inclusion after the last
    exclusion. *)
Theorem C23_group_standing : forall lines g i,
  forallb proper_group_line lines = true -> no_caret g = true ->
  In (mkGroup g i) (pk_groupList (add_each lines new_packages)) <-> group_standing g lines = Some i.
Proof.
  intros lines g i Hl Hg. rewrite <- standing_in.
  - rewrite (add_each_groups lines g Hg Hl). reflexivity.
  - assert (E : add_each lines new_packages =
      fold_left (fun p ls => fst (packages_add ls p)) (map (fun l => [l]) lines) new_packages).
    { unfold add_each. generalize new_packages. clear. induction lines; intros p; simpl; auto. }
    rewrite E. apply add_calls_inv, new_packages_inv.
Qed.
Print Assumptions C23_group_standing.

(** Every exclusion is remembered, in order and with repetitions. *)
Theorem C23_exclusions_remembered : forall lines,
  forallb proper_group_line lines = true ->
  filter no_caret (map g_name (pk_excludedGroupList (add_each lines new_packages))) =
  filter no_caret (exclusions lines).
Proof. intros lines H. rewrite add_each_exclusions by exact H. reflexivity. Qed.
Print Assumptions C23_exclusions_remembered.

(** Names with a caret are the environments' business, but a deselected environment
    that was not selected is remembered as if it were a group. *)
Theorem C23_caret_refuted : exists line,
  pk_excludedGroupList (add_each [line] new_packages) = [mkGroup "^minimal" GDefault].
Proof. exists "-@^minimal". vm_compute. reflexivity. Qed.
Print Assumptions C23_caret_refuted.

Example C23_case :
  let ls := ["@core --nodefaults"; "@core"; "@my  group --optional"; "-@base"; "-@core"; "vim";
             "@core --optional"; "@core"; "-@base"; "@bad --optional --nodefaults"] in
  forallb proper_group_line ls = true /\
  pk_groupList (add_each ls new_packages) = [mkGroup "my group" GAll; mkGroup "core" GAll] /\
  map (fun g => group_standing g ls) ["my group"; "core"; "base"; "bad"] = [Some GAll; Some GAll; None; None] /\
  exclusions ls = ["base"; "core"; "base"].
Proof. vm_compute. auto. Qed.

(** ** C24 *)

(** The environment is [e] iff some line selects [e] and no later line selects any
    environment or deselects [e]. *)
Theorem C24_last_environment : forall lines e,
  pk_environment (add_each lines new_packages) = Some e <->
  exists l1 l l2, lines = l1 ++ l :: l2 /\ selects l e /\
    forall l', In l' l2 -> (forall e', ~ selects l' e') /\ ~ deselects l' e.
Proof.
  intros lines e. rewrite add_each_env, env_fold. split; [|auto]. intros [H|[H _]]; [exact H|discriminate].
Qed.
Print Assumptions C24_last_environment.

Example C24_case :
  pk_environment (add_each ["@^gnome"; "vim"; "-@^gnome"; "@^kde "; "-@^gnome"; "@core"] new_packages) = Some "kde" /\
  pk_environment (add_each ["@^gnome"; "-@^gnome"] new_packages) = None.
Proof. vm_compute. auto. Qed.
Example C24_case_selects : selects "  @^kde " "kde" /\ deselects "-@^kde" "kde".
Proof. split; reflexivity. Qed.
