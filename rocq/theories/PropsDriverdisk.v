(** * C41: the source of a driverdisk *)

From Verif Require Import PyStrFacts ArgParseFacts HandlerFacts ClassModel PropsHandler PropsClass.
From Verif Require Import HandlerSpec ParserSpec Parser ArgSpec ArgDecl PropsStorage NsFacts ArgTable PyFlowFacts PyClass CmdFacts CmdFlow CmdLines CmdStrict RoundSpec CmdRound PropsRound PropsStore PropsRepo PropsUrl.
From Coq Require Import Lia.
From Verif Require Import Value.
Local Open Scope string_scope.
Local Open Scope list_scope.
Local Arguments Ascii.eqb : simpl never.
Local Arguments String.eqb : simpl never.

(** ** Specification *)

(** What a driverdisk line can give: a partition, as a word; --source; from RHEL4 on --biospart. *)
Definition disk_sources (v : Z) : list string := ["partition"; "source"] ++ if Z.leb RHEL4 v then ["biospart"] else [].

(** ** The classes *)

Definition at_ns (k : string) : expr := EAttr (EVar "ns") k.
Definition disk_end : stmt :=
  SSeq (SBlock "_t1" [] (SReturn (ENew "DriverDiskData"))) (SSeq (SAssign "ddd" (EVar "_t1")) (SSeq (SSetTo "ns" "ddd")
    (SSeq (SAttr "ddd" "lineno" (EAttr (EVar "self") "lineno"))
    (SSeq (SIf (at_ns "partition") (SAttr "ddd" "partition" (EBin BIndex (at_ns "partition") (EConst (VInt 0)))) SPass) (SReturn (EVar "ddd")))))).
Definition disk_code (checks : stmt) (none : expr) (tag : string) : stmt :=
  SBlock "_r" [] (SSeq (SParseKnown "ns" "extra")
    (SSeq (SIf (EBin BGt (EUn ULen (at_ns "partition")) (EConst (VInt 1))) (SRaise true "Only one partition may be specified for driverdisk command.")
            (SIf (EVar "extra") (SRaise true "Unexpected arguments to %(command)s command: %(options)s") SPass))
    (SSeq checks
    (SSeq (SIf none (SRaise true tag) SPass)
    disk_end)))).
Definition both (k j tag : string) (t : stmt) : stmt := SIf (EAnd (at_ns k) (at_ns j)) (SRaise true tag) t.
Definition disk_two : stmt :=
  disk_code (both "partition" "source" "Only one of --source and partition may be specified for driverdisk command." SPass)
    (EAnd (EUn UNot (at_ns "partition")) (EUn UNot (at_ns "source"))) "One of --source or partition must be specified for driverdisk command.".
Definition disk_three : stmt :=
  disk_code (both "partition" "source" "Only one of --source and partition may be specified for driverdisk command."
      (both "partition" "biospart" "Only one of --biospart and partition may be specified for driverdisk command."
      (both "source" "biospart" "Only one of --biospart and --source may be specified for driverdisk command." SPass)))
    (EAnd (EUn UNot (at_ns "partition")) (EAnd (EUn UNot (at_ns "source")) (EUn UNot (at_ns "biospart"))))
    "One of --source, --biospart, or partition must be specified for driverdisk command.".
Definition disk_classes : list (string * bool) := [("FC3_DriverDisk", false); ("FC4_DriverDisk", true); ("F12_DriverDisk", true); ("F14_DriverDisk", true)].
Lemma disk_codes : Forall (fun e : string * bool => own_parse (fst e) = true /\ parse_code (fst e) = Some (if snd e then disk_three else disk_two)) disk_classes.
Proof. unfold disk_classes. repeat (apply Forall_cons || apply Forall_nil); cbn [fst snd]; (split; vm_compute; reflexivity). Qed.
Lemma disk_handlers : forallb (fun h => forallb (fun nc => negb (String.eqb (fst nc) "driverdisk") ||
    match assoc (snd nc) disk_classes with Some b => Bool.eqb b (Z.leb RHEL4 (fst h)) | None => false end) (fst (snd h))) handlers = true.
Proof. vm_compute. reflexivity. Qed.
Local Opaque comes_from method_of table_of removed_of data_str new_attrs init_of parse_flow marked_b strict reads names_ok used_classes parse_code build own_parse inits.

Definition told (n : attrs) (k : string) : value := match assoc k n with Some w => w | None => VNone end.

Lemma disk_run C b a a' p : run C (if b : bool then disk_three else disk_two) [] a = (a', Ok p) ->
  exists n r, parse_known_args (c_parser C) (line_of a) (c_args C) = Ok (n, r) /\ r = [] /\
    (forall l, told n "partition" = VStrs l -> length l <= 1) /\
    exactly_one (["partition"; "source"] ++ if b then ["biospart"] else []) (told n).
Proof.
  intros R. unfold run in R.
  assert (R' : match exec C (if b then disk_three else disk_two) [] a with ORaise _ _ => False | _ => True end).
  { destruct (exec C (if b then disk_three else disk_two) [] a); auto; discriminate. }
  clear R. assert (G : exists checks none tag, (if b then disk_three else disk_two) = disk_code checks none tag /\
      checks = (if b then both "partition" "source" "Only one of --source and partition may be specified for driverdisk command."
      (both "partition" "biospart" "Only one of --biospart and partition may be specified for driverdisk command."
      (both "source" "biospart" "Only one of --biospart and --source may be specified for driverdisk command." SPass))
      else both "partition" "source" "Only one of --source and partition may be specified for driverdisk command." SPass) /\
      none = (if b then EAnd (EUn UNot (at_ns "partition")) (EAnd (EUn UNot (at_ns "source")) (EUn UNot (at_ns "biospart"))) else EAnd (EUn UNot (at_ns "partition")) (EUn UNot (at_ns "source")))).
  { destruct b; do 3 eexists; (split; [reflexivity|]); split; reflexivity. }
  destruct G as (checks & none & tag & Eg & Ec & En). rewrite Eg in R'. clear Eg. unfold disk_code in R'. remember disk_end as t1.
  cbn [exec bind_params map_res] in R'.
  destruct (parse_known_args (c_parser C) (line_of a) (c_args C)) as [[n r]|z]; [|destruct R']. exists n, r. split; [reflexivity|].
  match type of R' with context [put "extra" ?y (put "ns" ?w ?e)] => set (e2 := put "extra" y (put "ns" w e)) in R';
    assert (R1 : assoc "ns" e2 = Some w) by (unfold e2; rewrite assoc_put_ne by discriminate; apply assoc_put_eq);
    assert (R2 : assoc "extra" e2 = Some y) by (unfold e2; apply assoc_put_eq); clearbody e2 end.
  assert (At : forall k, eval C a e2 (at_ns k) = match assoc k n with Some w => Ok (PV w) | None => Err AttributeError end).
  { intros k. unfold at_ns. cbn [eval]. change (String.eqb "ns" "self") with false. cbv iota. rewrite R1. cbn [bind find_attr]. now destruct (assoc k n). }
  assert (Len : eval C a e2 (EBin BGt (EUn ULen (at_ns "partition")) (EConst (VInt 1))) =
     match assoc "partition" n with Some w => do u <- un ULen w ;; do x <- bin BGt u (VInt 1) ;; Ok (PV x) | None => Err AttributeError end).
  { cbn [eval]. rewrite At. destruct (assoc "partition" n) as [w|]; [|reflexivity]. cbn [bind to_val]. destruct (un ULen w); [|reflexivity]. cbn [bind]. reflexivity. }
  rewrite Len in R'. unfold told. destruct (assoc "partition" n) as [wp|] eqn:Ap; [|destruct R'].
  destruct (un ULen wp) as [u|] eqn:Eu; [|destruct R']. cbn [bind] in R'. destruct (bin BGt u (VInt 1)) as [x|] eqn:Ex; [|destruct R']. cbn [bind p_truthy] in R'.
  destruct (truthy x) eqn:Tx; [destruct R'|]. cbn [eval] in R'. change (String.eqb "extra" "self") with false in R'. cbv iota in R'. rewrite R2 in R'. cbn [bind p_truthy truthy] in R'.
  destruct r as [|r0 r]; [|destruct R']. cbn [p_truthy truthy negb] in R'. split; [reflexivity|]. split.
  { intros l ->. cbn [un py_len bind] in Eu. injection Eu as <-. cbn [bin] in Ex. rewrite cmp_len in Ex. injection Ex as <-. cbn [truthy] in Tx. destruct l as [|? [|? ?]]; cbn in *; try lia; discriminate. }
  subst checks none. unfold both in R'.
  assert (EA : forall k y, eval C a e2 (EAnd (at_ns k) y) = match assoc k n with Some w => if truthy w then eval C a e2 y else Ok (PV w) | None => Err AttributeError end).
  { intros k y. change (eval C a e2 (EAnd (at_ns k) y)) with (do p <- eval C a e2 (at_ns k) ;; if p_truthy p then eval C a e2 y else Ok p). rewrite At. now destruct (assoc k n). }
  assert (EN : forall k, eval C a e2 (EUn UNot (at_ns k)) = match assoc k n with Some w => Ok (PV (VBool (negb (truthy w)))) | None => Err AttributeError end).
  { intros k. change (eval C a e2 (EUn UNot (at_ns k))) with (do p <- eval C a e2 (at_ns k) ;; Ok (PV (VBool (negb (p_truthy p))))). rewrite At. now destruct (assoc k n). }
  assert (EB : forall k y, eval C a e2 (EAnd (EUn UNot (at_ns k)) y) = match assoc k n with Some w => if truthy w then Ok (PV (VBool false)) else eval C a e2 y | None => Err AttributeError end).
  { intros k y. change (eval C a e2 (EAnd (EUn UNot (at_ns k)) y)) with (do p <- eval C a e2 (EUn UNot (at_ns k)) ;; if p_truthy p then eval C a e2 y else Ok p). rewrite EN. destruct (assoc k n) as [w|]; [|reflexivity]. cbn [bind p_truthy truthy]. now destruct (truthy w). }
  assert (One : forall ks k, In k ks -> truthy (told n k) = true -> (forall j, In j ks -> j = k \/ truthy (told n j) = false) -> exactly_one ks (told n)).
  { intros ks k Hk Tk O. exists k. split; [exact Hk|]. split; [exact Tk|]. intros j Hj Ne. destruct (O j Hj); [contradiction|assumption]. }
  change (fun k => match assoc k n with Some w => w | None => VNone end) with (told n).
  assert (Tp : told n "partition" = wp) by (unfold told; now rewrite Ap).
  destruct (truthy wp) eqn:T1;
    (destruct (assoc "source" n) as [ws|] eqn:As; [destruct (truthy ws) eqn:T2|]);
    (destruct (assoc "biospart" n) as [wb|] eqn:Ab; [destruct (truthy wb) eqn:T3|]);
    try (assert (Ts : told n "source" = ws) by (unfold told; now rewrite As)); try (assert (Tb : told n "biospart" = wb) by (unfold told; now rewrite Ab));
    destruct b; cbn [exec] in R';
    repeat (progress (rewrite ?EA, ?EB, ?At, ?EN, ?Ap, ?As, ?Ab, ?T1, ?T2, ?T3 in R'; cbn [p_truthy truthy negb bind exec] in R')); try contradiction;
    first [apply (One _ "partition"); [cbn; tauto|congruence|intros j Hj; cbn in Hj; repeat destruct Hj as [<-|Hj]; try contradiction; first [left; reflexivity|right; congruence]]
          |apply (One _ "source"); [cbn; tauto|congruence|intros j Hj; cbn in Hj; repeat destruct Hj as [<-|Hj]; try contradiction; first [left; reflexivity|right; congruence]]
          |apply (One _ "biospart"); [cbn; tauto|congruence|intros j Hj; cbn in Hj; repeat destruct Hj as [<-|Hj]; try contradiction; first [left; reflexivity|right; congruence]]].
Qed.

(** ** The theorems *)

(** A driverdisk line that is accepted gives exactly one of a partition, --source and --biospart, and not two partitions. *)
Theorem C41_driverdisk_line : forall rest v cm dm c h line args ln,
  In (v, (cm, dm)) handlers -> In ("driverdisk", c) cm -> used rest cm dm h ->
  snd (handle_command h line ("driverdisk" :: args) ln) = None ->
  exactly_one (disk_sources v) (fun k => match gives c k args with Some w => w | None => VNone end) /\
  forall l, gives c "partition" args = Some (VStrs l) -> length l <= 1.
Proof.
  intros rest v cm dm c h line args ln Hv Hc U E.
  assert (X : In (c, Z.leb RHEL4 v) disk_classes).
  { pose proof disk_handlers as T. rewrite forallb_forall in T. specialize (T _ Hv). cbn [fst snd] in T. rewrite forallb_forall in T. specialize (T _ Hc). cbn [fst snd] in T.
    change (String.eqb "driverdisk" "driverdisk") with true in T. cbn [negb orb] in T. destruct (assoc c disk_classes) as [b|] eqn:A; [|discriminate]. apply Bool.eqb_prop in T. subst b. now apply assoc_In. }
  pose proof disk_codes as UC. rewrite Forall_forall in UC. specialize (UC _ X). cbn [fst snd] in UC. destruct UC as (O & Pc).
  destruct (line_cases rest v cm dm Hv h "driverdisk" c line args ln U Hc) as (q & vw & a' & d' & Sq & Cq & Vd & P & J).
  rewrite E in P. cbn [fst snd] in P.
  destruct (cl_parse (class_model (cmd_class rest) c) vw (stamp "driverdisk" line ln (o_attrs q)) (o_data q) args) as [[a1 d1] [y|e]] eqn:Q; [|destruct P as (_ & _ & P); discriminate].
  rewrite (class_parse rest c _ Pc O) in Q. unfold cmd_parse in Q.
  destruct (run (parse_ctx c vw (o_data q) args) (if Z.leb RHEL4 v then disk_three else disk_two) [] (stamp "driverdisk" line ln (o_attrs q))) as [a2 [p2|e2]] eqn:R; [|discriminate].
  destruct (disk_run _ _ _ _ _ R) as (n & r & Pn & _ & Ln & One). cbn [parse_ctx c_parser c_args] in Pn. apply line_values_any in Pn.
  assert (G : forall k, match gives c k args with Some w => w | None => VNone end = told n k).
  { intros k. unfold gives, told. rewrite Pn. destruct (assoc k n) as [w|]; [|reflexivity]. now destruct w. }
  split.
  - unfold disk_sources. destruct One as (k & Hk & Tk & Oth). exists k. split; [exact Hk|]. cbn beta. rewrite G. split; [exact Tk|]. intros j Hj Ne. rewrite G. now apply Oth.
  - intros l Hl. apply Ln. rewrite <- G, Hl. reflexivity.
Qed.
Print Assumptions C41_driverdisk_line.

Local Transparent comes_from method_of table_of removed_of data_str new_attrs init_of parse_flow marked_b strict reads names_ok used_classes parse_code build own_parse inits.
(** The empty word counts as a partition: the driver disk that is recorded has no source, and the line it is written as is refused. *)
Definition disk_text : string := "driverdisk " ++ nl.
Theorem C41_driverdisk_refuted : exists v a d, first_line v ["driverdisk"; ""] = Some (None, Some (a, [d], disk_text)) /\
  (forall k, In k (disk_sources v) -> truthy (get k (d_attrs d)) = false) /\ accepts v [["driverdisk"]] = Some false.
Proof.
  exists F34. do 2 eexists. split; [lazy; reflexivity|]. split; [|lazy; reflexivity]. intros k [<-|[<-|[<-|[]]]]; lazy; reflexivity.
Qed.
Print Assumptions C41_driverdisk_refuted.
Example C41_driverdisk_example :
  option_map (fun h => assoc "driverdisk" (fst (snd h))) (find (fun h => Z.eqb (fst h) F34) handlers) = Some (Some "F14_DriverDisk") /\
  accepts F34 [["driverdisk"; "sda1"]] = Some true /\ accepts F34 [["driverdisk"; "sda1"; "sdb1"]] = Some false /\ accepts F34 [["driverdisk"; "sda1"; "--biospart=x"]] = Some false /\
  accepts F34 [["driverdisk"; "--source=u"]] = Some true /\ accepts FC3 [["driverdisk"; "--biospart=x"]] = Some false.
Proof. repeat split; lazy; reflexivity. Qed.
