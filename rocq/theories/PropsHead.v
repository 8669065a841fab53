(** * C26: the options of %packages headers

    Vocabulary: PkgHeadSpec.v ([header_options] lists the options with the versions
    that define them).  Model: Sections.v. *)

From Verif Require Import ArgSpec Sections SectSpec PkgHeadSpec PkgHeadFacts.
From Verif Require Import Value.
Local Open Scope string_scope.
Local Open Scope list_scope.

(** A header made of proper options, in any number and order, is accepted exactly if
    the version defines each of them and they do not contradict each other. *)
Theorem C26_accepted_iff : forall ver ln ws p,
  forallb proper_word ws = true ->
  (snd (packages_handleHeader ver ln ("%packages" :: map text ws) p) = None <->
   (forall w, In w ws -> defined_in ver w = true) /\ contradictory ws = false).
Proof.
  intros ver ln ws p Hp. rewrite <- forallb_forall. destruct (forallb (defined_in ver) ws) eqn:E.
  - rewrite (header_accepts ver ln ws p Hp E). destruct (contradictory ws); cbn [snd]; split; intros H;
      try discriminate; auto. destruct H; discriminate.
  - destruct (header_undefined ver ln ws p Hp E) as (t & ->). cbn [snd]. split; [discriminate|]. intros [H _]; discriminate.
Qed.
Print Assumptions C26_accepted_iff.

(** A rejected header raises KickstartParseError with the number of its line, and an
    option that the version does not define leaves the selection as it was. *)
Theorem C26_rejected : forall ver ln ws p e,
  forallb proper_word ws = true ->
  snd (packages_handleHeader ver ln ("%packages" :: map text ws) p) = Some e ->
  (exists t, e = KSParseError (Some ln) t) /\
  ((exists w, In w ws /\ defined_in ver w = false) ->
   fst (packages_handleHeader ver ln ("%packages" :: map text ws) p) = p).
Proof.
  intros ver ln ws p e Hp He. destruct (forallb (defined_in ver) ws) eqn:E.
  - split.
    + rewrite (header_accepts ver ln ws p Hp E) in He. destruct (contradictory ws); [|discriminate].
      cbn [snd] in He. injection He as <-. eauto.
    + rewrite forallb_forall in E. intros (w & Hw & F). rewrite (E w Hw) in F. discriminate.
  - destruct (header_undefined ver ln ws p Hp E) as (t & R). rewrite R in *. cbn [snd fst] in *. injection He as <-. eauto.
Qed.
Print Assumptions C26_rejected.

(** An accepted header records what its options say and nothing else. *)
Theorem C26_recorded : forall ver ln ws p,
  forallb proper_word ws = true -> (forall w, In w ws -> defined_in ver w = true) -> contradictory ws = false ->
  packages_handleHeader ver ln ("%packages" :: map text ws) p = (header_effect ver ws p, None).
Proof.
  intros ver ln ws p Hp Hd Hc. rewrite (header_accepts ver ln ws p Hp) by (apply forallb_forall; exact Hd).
  rewrite Hc. reflexivity.
Qed.
Print Assumptions C26_recorded.

(** Two contradictory options are rejected wherever they stand among the others. *)
Theorem C26_contradiction : forall ver ln ws p o,
  forallb proper_word ws = true -> In (OFlag "--default") ws -> In (OFlag o) ws -> In o ["--nobase"; "--nocore"] ->
  exists t, snd (packages_handleHeader ver ln ("%packages" :: map text ws) p) = Some (KSParseError (Some ln) t).
Proof.
  intros ver ln ws p o Hp H1 H2 Ho. destruct (forallb (defined_in ver) ws) eqn:E.
  - rewrite (header_accepts ver ln ws p Hp E).
    assert (F : forall x, In (OFlag x) ws -> has_flag x ws = true).
    { intros x Hx. unfold has_flag. apply existsb_exists. exists (OFlag x). split; [exact Hx|]. apply String.eqb_refl. }
    assert (C : contradictory ws = true).
    { unfold contradictory. rewrite (F _ H1). destruct Ho as [<-|[<-|[]]]; rewrite (F _ H2); [reflexivity|apply orb_true_r]. }
    rewrite C. cbn [snd]. eauto.
  - destruct (header_undefined ver ln ws p Hp E) as (t & ->). cbn [snd]. eauto.
Qed.
Print Assumptions C26_contradiction.

Example C26_header : list oword :=
  [OFlag "--ignoremissing"; OVal "--timeout" "30"; OVal "--instLangs" "en_US:cs"; OFlag "--nocore"].
Example C26_header_ok : forallb proper_word C26_header = true /\ forallb (defined_in RHEL7) C26_header = true /\
  forallb (defined_in F18) C26_header = false /\ contradictory C26_header = false /\
  contradictory (OFlag "--default" :: C26_header) = true.
Proof. repeat split; reflexivity. Qed.
Example C26_header_read :
  let p := fst (packages_handleHeader RHEL7 7 ("%packages" :: map text C26_header) new_packages) in
  pk_handleMissing p = true /\ pk_timeout p = Some 30%Z /\ pk_instLangs p = Some "en_US:cs" /\ pk_nocore p = true.
Proof. cbv zeta. rewrite C26_recorded; [|reflexivity| |reflexivity]; [repeat split; reflexivity|].
  apply forallb_forall. reflexivity. Qed.
