(** * C41: the source of a url *)

From Verif Require Import PyStrFacts ArgParseFacts HandlerFacts ClassModel PropsHandler PropsClass.
From Verif Require Import HandlerSpec ParserSpec Parser ArgSpec ArgDecl PropsStorage NsFacts ArgTable PyFlowFacts PyClass CmdFacts CmdFlow CmdLines CmdStrict RoundSpec CmdRound PropsRound PropsStore PropsRepo.
From Coq Require Import Lia.
From Verif Require Import Value.
Local Open Scope string_scope.
Local Open Scope list_scope.
Local Arguments Ascii.eqb : simpl never.
Local Arguments String.eqb : simpl never.

(** ** Specification *)

(** The sources a url line can give, from F18 on. *)
Definition url_sources (v : Z) : list string := ["mirrorlist"; "url"] ++ if Z.leb F27 v then ["metalink"] else [].
(** Exactly one of the texts is not empty. *)
Definition exactly_one (l : list string) (g : string -> value) : Prop :=
  exists k, In k l /\ truthy (g k) = true /\ forall j, In j l -> j <> k -> truthy (g j) = false.

(** ** The classes *)

Definition url_code : stmt :=
  SBlock "_r" [] (SSeq (SBlock "_t1" [] (SSeq (SParse "ns") (SSeq (SSetTo "ns" "self") (SReturn (EVar "self")))))
    (SSeq (SAssign "retval" (EVar "_t1"))
    (SSeq (SParse "ns")
    (SSeq (SAssign "used_options" (EUsed (EAttr (EVar "self") "exclusive_required_options") (EVar "ns")))
    (SSeq (SIf (EBin BEq (EUn ULen (EVar "used_options")) (EConst (VInt 0))) (SRaise true "One of -%(options_list)s options must be specified for url command.") SPass)
    (SSeq (SIf (EBin BGt (EUn ULen (EVar "used_options")) (EConst (VInt 1))) (SRaise true "Only one of %(options_list)s options may be specified for url command.") SPass)
      (SReturn (EVar "retval")))))))).
Definition two_urls : list (string * string) := [("mirrorlist", "--mirrorlist"); ("url", "--url")].
Definition three_urls : list (string * string) := two_urls ++ [("metalink", "--metalink")].
Definition url_classes : list (string * list (string * string)) :=
  [("F18_Url", two_urls); ("RHEL8_Url", three_urls); ("F27_Url", three_urls); ("F30_Url", three_urls)].
Lemma url_codes : Forall (fun e => own_parse (fst e) = true /\ inits (fst e) = true /\ parse_code (fst e) = Some url_code /\
  assoc exclusive (init_of (fst e)) = Some (VPairs (snd e)) /\
  check_table (tabulate (table_of (fst e))) (init_of (fst e)) [] [] (table_of (fst e)) = true /\ mem exclusive (PyRound.dests (tabulate (table_of (fst e)))) = false /\
  forallb (fun k => match assoc k (init_of (fst e)) with Some w => negb (truthy w) | None => false end) (map fst (snd e)) = true) url_classes.
Proof. unfold url_classes. repeat (apply Forall_cons || apply Forall_nil); cbn [fst snd]; (do 6 (split; [vm_compute; reflexivity|]); vm_compute; reflexivity). Qed.
Lemma url_handlers : forallb (fun h => forallb (fun nc => negb (String.eqb (fst nc) "url") || Z.ltb (fst h) F18 ||
    match assoc (snd nc) url_classes with
    | Some l => if list_eq_dec string_dec (map fst l) (url_sources (fst h)) then true else false
    | None => false
    end) (fst (snd h))) handlers = true.
Proof. vm_compute. reflexivity. Qed.
Local Opaque comes_from method_of table_of removed_of data_str new_attrs init_of parse_flow marked_b strict reads names_ok used_classes parse_code build own_parse inits check_table.

Lemma url_values c l : In (c, l) url_classes -> forall args n, line_values c args = Some n -> assoc exclusive n = None.
Proof.
  intros Hc args n L. pose proof url_codes as U. rewrite Forall_forall in U. specialize (U _ Hc). cbn [fst snd] in U. destruct U as (_ & _ & _ & _ & Ct & M & _).
  unfold line_values in L. destruct (parse_known_args (build (table_of c)) None args) as [[m r]|] eqn:P; [|discriminate]. injection L as ->.
  pose proof (line_ns (table_of c) (init_of c) [] [] None args n r Ct P exclusive) as [_ N]. apply N. intros I. apply mem_In in I. congruence.
Qed.
Lemma len_zero k : py_eq (VInt (Z.of_nat k)) (VInt 0) = match k with 0 => true | _ => false end.
Proof. destruct k; reflexivity. Qed.

Lemma url_run c l vw d args a a' r : In (c, l) url_classes -> assoc exclusive a = Some (VPairs l) ->
  run (parse_ctx c vw d args) url_code [] a = (a', r) ->
  assoc exclusive a' = Some (VPairs l) /\
  forall p, r = Ok p -> exists n, line_values c args = Some n /\ length (given_sources l n) = 1 /\ a' = set_to_obj n a.
Proof.
  intros Hc E R. unfold run, url_code in R. cbn [exec bind_params map_res] in R.
  change (c_parser (parse_ctx c vw d args)) with (build (table_of c)) in R. change (c_args (parse_ctx c vw d args)) with args in R.
  destruct (parse_args (build (table_of c)) (line_of a) args) as [n|x] eqn:P1; [|injection R as <- <-; split; [exact E|discriminate]].
  pose proof P1 as Q1. apply args_known in Q1 as [r1 Q1]. apply line_values_any in Q1.
  pose proof (url_values c l Hc args n Q1) as Ne. pose proof (line_values_dict c args n Q1) as Nd.
  assert (R0 : forall e : env, assoc "ns" (put "ns" (PNs n) e) = Some (PNs n)) by (intros e; apply assoc_put_eq). rewrite R0 in R.
  unfold set_to in R. change (String.eqb "self" "self") with true in R. cbv iota in R. cbn [eval] in R. change (String.eqb "self" "self") with true in R. cbv iota in R. cbn [bind] in R.
  assert (E1 : assoc exclusive (set_to_obj n a) = Some (VPairs l)) by (rewrite set_to_obj_overlay by exact Nd; unfold overlay; now rewrite Ne).
  change (String.eqb "_t1" "self") with false in R. cbv iota in R. rewrite assoc_put_eq in R.
  destruct (parse_args (build (table_of c)) (line_of (set_to_obj n a)) args) as [n2|x] eqn:P2; [|injection R as <- <-; split; [exact E1|discriminate]].
  assert (n2 = n) by (apply args_known in P2 as [r2 P2]; apply line_values_any in P2; congruence). subst n2.
  cbn [find_attr bind] in R. unfold exclusive in E1. rewrite E1 in R. cbn [bind to_val] in R. change (String.eqb "ns" "self") with false in R. cbv iota in R. rewrite R0 in R. cbn [bind find_attr] in R.
  fold (given_sources l n) in R. remember (given_sources l n) as g eqn:Eg.
  match type of R with context [put "used_options" ?x ?e] => set (e2 := put "used_options" x e) in R; assert (R2 : assoc "used_options" e2 = Some x) by apply assoc_put_eq;
    assert (R3 : assoc "retval" e2 = Some PSelf) by (unfold e2; rewrite !assoc_put_ne by discriminate; apply assoc_put_eq); clearbody e2 end.
  change (String.eqb "used_options" "self") with false in R. change (String.eqb "retval" "self") with false in R. cbv iota in R. rewrite R2 in R. cbn [bind to_val un py_len bin] in R.
  rewrite map_length, len_zero in R. cbn [bind p_truthy truthy] in R.
  destruct g as [|x1 g]; cbn [length p_truthy truthy exec eval] in R; [injection R as <- <-; split; [exact E1|discriminate]|].
  change (String.eqb "used_options" "self") with false in R. cbv iota in R. rewrite R2 in R. cbn [bind to_val un py_len bin] in R. rewrite map_length, cmp_len in R. cbn [length bind p_truthy truthy] in R.
  destruct g as [|x2 g]; cbn [length p_truthy truthy exec eval] in R; [|injection R as <- <-; split; [exact E1|discriminate]].
  change (String.eqb "retval" "self") with false in R. cbv iota in R. rewrite R3 in R. cbn [bind] in R. injection R as <- <-. split; [exact E1|]. intros p _. exists n. rewrite <- Eg. auto.
Qed.

(** Exactly one, by the list of the options that were used. *)
Lemma one_given l n g : NoDup (map fst l) -> (forall k, In k (map fst l) -> truthy (g k) = match assoc k n with Some w => truthy w | None => false end) ->
  length (given_sources l n) = 1 -> exactly_one (map fst l) g.
Proof.
  unfold given_sources, exactly_one. induction l as [|[k o] l IH]; intros ND T L; [discriminate|]. cbn [map fst filter] in *. inversion ND as [|? ? Nk ND']; subst.
  pose proof (T k (or_introl eq_refl)) as Tk. destruct (match assoc k n with Some w => truthy w | None => false end) eqn:G.
  - exists k. split; [now left|]. split; [exact Tk|]. intros j [<-|Hj] Ne; [contradiction|]. rewrite (T j (or_intror Hj)).
    cbn [length] in L. destruct (filter _ l) as [|x r] eqn:F; [|discriminate]. apply in_map_iff in Hj as ([j' q] & <- & Hj). cbn [fst].
    destruct (match assoc j' n with Some w => truthy w | None => false end) eqn:J; [|reflexivity].
    assert (X : In (j', q) (filter (fun ao => match assoc (fst ao) n with Some w => truthy w | None => false end) l)) by (apply filter_In; split; [exact Hj|exact J]).
    rewrite F in X. destruct X.
  - destruct (IH ND' (fun j Hj => T j (or_intror Hj)) L) as (j & Hj & Tj & O). exists j. split; [now right|]. split; [exact Tj|].
    intros i [<-|Hi] Ne; [exact Tk|now apply O].
Qed.

Section Used.
Variable rest : string -> cclass.
Variables (v : Z) (cm dm : list (string * string)).
Hypothesis Hv : In (v, (cm, dm)) handlers.
Notation used := (used rest cm dm).

Lemma url_class c : In ("url", c) cm -> (F18 <= v)%Z -> exists l, In (c, l) url_classes /\ map fst l = url_sources v.
Proof.
  intros Hc V. pose proof url_handlers as T. rewrite forallb_forall in T. specialize (T _ Hv). cbn [fst snd] in T. rewrite forallb_forall in T. specialize (T _ Hc). cbn [fst snd] in T.
  change (String.eqb "url" "url") with true in T. cbn [negb orb] in T. rewrite (proj2 (Z.ltb_ge v F18) V) in T. cbn [orb] in T.
  destruct (assoc c url_classes) as [l|] eqn:A; [|discriminate]. exists l. split; [now apply assoc_In|]. now destruct (list_eq_dec string_dec (map fst l) (url_sources v)).
Qed.
(** The list of the exclusive options is never changed. *)
Lemma url_exclusive c l h o : In ("url", c) cm -> In (c, l) url_classes -> used h -> served h "url" = Some o -> assoc exclusive (o_attrs o) = Some (VPairs l).
Proof.
  intros Hc Hl U. pose proof url_codes as UC. rewrite Forall_forall in UC. specialize (UC _ Hl). cbn [fst snd] in UC. destruct UC as (O & Ii & Pc & Ex & _).
  revert o. destruct U as (ops & FO & ->). induction ops as [|op ops IH] using rev_ind.
  - intros p Sp. cbn [fold_left] in Sp. rewrite (start_served rest v cm dm Hv "url" c Hc) in Sp. injection Sp as <-. cbn [new_obj o_attrs]. now rewrite (class_init rest c _ Pc Ii).
  - apply Forall_app in FO as [FO Fo]. inversion Fo as [|? ? Hop _]; subst. destruct op as [line ws ln| |]; try contradiction.
    rewrite fold_left_app. cbn [fold_left do_op]. specialize (IH FO). set (h := fold_left do_op ops (start rest cm dm)) in *.
    assert (U : used h) by (exists ops; auto). intros p Sp.
    destruct ws as [|m args]; [exact (IH p Sp)|]. destruct (assoc m cm) as [d0|] eqn:Am.
    + apply assoc_In in Am. destruct (line_cases rest v cm dm Hv h m d0 line args ln U Am) as (q & vw & a' & d' & Sq & Cq & Vd & P & J).
      rewrite (J "url" c Hc) in Sp. destruct (String.eqb_spec c d0) as [<-|]; [|exact (IH p Sp)]. injection Sp as <-. cbn [o_attrs].
      assert (Sn : served h "url" = Some q).
      { destruct (used_served rest v cm dm Hv h "url" c U Hc) as (i & q1 & Ei & Eq & Sq1 & _).
        destruct (used_served rest v cm dm Hv h m c U Am) as (j & q' & Ej & Eq' & Sq' & _).
        pose proof (same_object rest v cm dm Hv h "url" c m c i j U Hc Am Ei Ej) as X. assert (i = j) by now apply X. subst j. congruence. }
      assert (Es : assoc exclusive (stamp m line ln (o_attrs q)) = Some (VPairs l)) by (unfold stamp; rewrite !assoc_put; exact (IH q Sn)).
      destruct (cl_parse (class_model (cmd_class rest) c) vw (stamp m line ln (o_attrs q)) (o_data q) args) as [[a1 d1] y] eqn:Q.
      assert (a' = a1) by (destruct y; destruct P as (-> & _); reflexivity). subst a'.
      rewrite (class_parse rest c _ Pc O) in Q. unfold cmd_parse in Q.
      destruct (run (parse_ctx c vw (o_data q) args) url_code [] (stamp m line ln (o_attrs q))) as [a2 r2] eqn:R. injection Q as <- _ _.
      exact (proj1 (url_run c l vw (o_data q) args _ a2 r2 Hl Es R)).
    + destruct (line_unknown rest cm dm h m line args ln U) as [_ K].
      { intros d1 Hd1. apply (In_dict cm) in Hd1; [congruence|exact (dict_cm rest v cm dm Hv)]. }
      rewrite K in Sp. exact (IH p Sp).
Qed.
(** An accepted line, what it gives and what it leaves. *)
Lemma url_accepted c l h line args ln h1 o : In ("url", c) cm -> In (c, l) url_classes -> used h -> served h "url" = Some o ->
  handle_command h line ("url" :: args) ln = (h1, None) ->
  exists n, line_values c args = Some n /\ length (given_sources l n) = 1 /\
    exists o1, served h1 "url" = Some o1 /\ o_attrs o1 = set_to_obj n (stamp "url" line ln (o_attrs o)).
Proof.
  intros Hc Hl U So E. pose proof url_codes as UC. rewrite Forall_forall in UC. specialize (UC _ Hl). cbn [fst snd] in UC. destruct UC as (O & Ii & Pc & Ex & _).
  destruct (line_cases rest v cm dm Hv h "url" c line args ln U Hc) as (q & vw & a' & d' & Sq & Cq & Vd & P & J).
  assert (q = o) by congruence. subst q. pose proof (J "url" c Hc) as J0. rewrite E in J0, P. cbn [fst snd] in J0, P. rewrite eqb_refl_s in J0.
  assert (Es : assoc exclusive (stamp "url" line ln (o_attrs o)) = Some (VPairs l)) by (unfold stamp; rewrite !assoc_put; exact (url_exclusive c l h o Hc Hl U So)).
  destruct (cl_parse (class_model (cmd_class rest) c) vw (stamp "url" line ln (o_attrs o)) (o_data o) args) as [[a1 d1] [y|e]] eqn:Q; [|destruct P as (_ & _ & P); discriminate].
  destruct P as (-> & -> & _). rewrite (class_parse rest c _ Pc O) in Q. unfold cmd_parse in Q.
  destruct (run (parse_ctx c vw (o_data o) args) url_code [] (stamp "url" line ln (o_attrs o))) as [a2 [p2|e2]] eqn:R; [|discriminate].
  destruct (url_run c l vw (o_data o) args _ a2 (Ok p2) Hl Es R) as [_ X]. destruct (X p2 eq_refl) as (n & L & G & A). injection Q as <- _ _.
  exists n. split; [exact L|]. split; [exact G|]. eexists. split; [exact J0|]. exact A.
Qed.
End Used.

Lemma url_nodup c l : In (c, l) url_classes -> NoDup (map fst l).
Proof. intros [E|[E|[E|[E|[]]]]]; injection E as _ <-; cbn; repeat constructor; cbn; intuition discriminate. Qed.

(** ** The theorems *)

(** From F18 on, a url line that is accepted gives exactly one source. *)
Theorem C41_url_line : forall rest v cm dm c h line args ln,
  In (v, (cm, dm)) handlers -> In ("url", c) cm -> (F18 <= v)%Z -> used rest cm dm h ->
  snd (handle_command h line ("url" :: args) ln) = None ->
  exactly_one (url_sources v) (fun k => match gives c k args with Some w => w | None => VNone end).
Proof.
  intros rest v cm dm c h line args ln Hv Hc V U E. destruct (url_class v cm dm Hv c Hc V) as (l & Hl & Ml).
  destruct (used_served rest v cm dm Hv h "url" c U Hc) as (i & o & _ & _ & So & _).
  destruct (handle_command h line ("url" :: args) ln) as [h1 e] eqn:H. cbn [snd] in E. subst e.
  destruct (url_accepted rest v cm dm Hv c l h line args ln h1 o Hc Hl U So H) as (n & L & G & _).
  rewrite <- Ml. apply (one_given l n); [exact (url_nodup c l Hl)| |exact G].
  intros k _. unfold gives. rewrite L. destruct (assoc k n) as [w|]; [|reflexivity]. now destruct w.
Qed.
Print Assumptions C41_url_line.

(** So a url that was not set before has exactly one source after the line. *)
Theorem C41_url_recorded : forall rest v cm dm c h line args ln h1 o,
  In (v, (cm, dm)) handlers -> In ("url", c) cm -> (F18 <= v)%Z -> used rest cm dm h ->
  served h "url" = Some (new_obj (class_model (cmd_class rest) c)) ->
  handle_command h line ("url" :: args) ln = (h1, None) -> served h1 "url" = Some o ->
  exactly_one (url_sources v) (fun k => get k (o_attrs o)).
Proof.
  intros rest v cm dm c h line args ln h1 o Hv Hc V U S0 H So. destruct (url_class v cm dm Hv c Hc V) as (l & Hl & Ml).
  destruct (url_accepted rest v cm dm Hv c l h line args ln h1 _ Hc Hl U S0 H) as (n & L & G & o1 & S1 & A).
  assert (o1 = o) by congruence. subst o1.
  rewrite <- Ml. apply (one_given l n); [exact (url_nodup c l Hl)| |exact G].
  pose proof url_codes as UC. rewrite Forall_forall in UC. specialize (UC _ Hl). cbn [fst snd] in UC. destruct UC as (O & Ii & Pc & _ & _ & _ & F).
  intros k Hk. rewrite forallb_forall in F. specialize (F k Hk). unfold get. rewrite A, set_to_obj_overlay by (eapply line_values_dict; exact L). unfold overlay.
  assert (Z : truthy (match assoc k (stamp "url" line ln (o_attrs (new_obj (class_model (cmd_class rest) c)))) with Some w => w | None => VNone end) = false).
  { cbn [new_obj o_attrs]. rewrite (class_init rest c _ Pc Ii). rewrite stamp_other; [destruct (assoc k (init_of c)) as [w|]; [now apply negb_true_iff|discriminate]|].
    intros I. revert Hk I. destruct Hl as [Hl|[Hl|[Hl|[Hl|[]]]]]; injection Hl as _ <-; cbn; intuition (subst; discriminate). }
  destruct (assoc k n) as [w|]; [|exact Z]. destruct w; cbn [is_none]; try reflexivity. exact Z.
Qed.
Print Assumptions C41_url_recorded.

(** Such a url meets the condition that C38 puts on it. *)
Theorem C41_url_case : forall rest v cm dm c h line args ln h1 o,
  In (v, (cm, dm)) handlers -> In ("url", c) cm -> (F18 <= v)%Z -> used rest cm dm h ->
  served h "url" = Some (new_obj (class_model (cmd_class rest) c)) ->
  handle_command h line ("url" :: args) ln = (h1, None) -> served h1 "url" = Some o ->
  forall L, assoc c cases = Some L -> exists l, In l L /\ forall k b, In (k, b) l -> truthy (get k (o_attrs o)) = b.
Proof.
  intros rest v cm dm c h line args ln h1 o Hv Hc V U S0 H So L HL.
  destruct (C41_url_recorded rest v cm dm c h line args ln h1 o Hv Hc V U S0 H So) as (k & Hk & Tk & Oth).
  destruct (url_class v cm dm Hv c Hc V) as (l & Hl & Ml). rewrite <- Ml in Hk, Oth.
  assert (P : forall m : list (string * bool), (forall j b, In (j, b) m -> In j (map fst l) /\ b = String.eqb j k) -> forall j b, In (j, b) m -> truthy (get j (o_attrs o)) = b).
  { intros m Hm j b Hj. destruct (Hm j b Hj) as [Ij ->]. destruct (String.eqb_spec j k) as [E|N]; [now rewrite E|now apply Oth]. }
  clear Tk Oth So S0 H Hv Hc U.
  destruct Hl as [Hl|[Hl|[Hl|[Hl|[]]]]]; injection Hl as <- <-; cbn [map fst two_urls three_urls app] in Hk, P; injection HL as <-;
    (destruct Hk as [<-|[<-|Hk]]; [eexists; split; [right; left; reflexivity|]|eexists; split; [left; reflexivity|]|
      try destruct Hk as [<-|Hk]; try contradiction; eexists; (split; [right; right; left; reflexivity|])]);
    apply P; intros j b Hj; cbn in Hj; repeat destruct Hj as [Hj|Hj]; try contradiction; injection Hj as <- <-; (split; [cbn; tauto|reflexivity]).
Qed.
Print Assumptions C41_url_case.

Local Transparent comes_from method_of table_of removed_of data_str new_attrs init_of parse_flow marked_b strict reads names_ok used_classes parse_code build own_parse inits check_table.
(** A refused line changes the url all the same: it then has two sources. *)
Theorem C41_url_refuted : exists v ws r a ds s, first_line v ws = Some (Some r, Some (a, ds, s)) /\ hd_error ws = Some "url" /\ assoc "url" a = Some (VStr "a") /\ assoc "mirrorlist" a = Some (VStr "b").
Proof. exists F34, ["url"; "--url=a"; "--mirrorlist=b"]. do 4 eexists. split; [lazy; reflexivity|]. repeat split. Qed.
Print Assumptions C41_url_refuted.
Example C41_url_example :
  option_map (fun h => assoc "url" (fst (snd h))) (find (fun h => Z.eqb (fst h) F34) handlers) = Some (Some "F30_Url") /\
  accepts F34 [["url"; "--url=x"; "--metalink=y"]] = Some false /\ accepts F34 [["url"; "--proxy=p"]] = Some false /\ accepts F34 [["url"; "--metalink=y"]] = Some true.
Proof. repeat split; lazy; reflexivity. Qed.
