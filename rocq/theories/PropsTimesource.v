(** * C41: the source of a timesource *)

From Verif Require Import PyStrFacts ArgParseFacts HandlerFacts ClassModel PropsHandler PropsClass.
From Verif Require Import HandlerSpec ParserSpec Parser ArgSpec ArgDecl PropsStorage NsFacts ArgTable PyFlowFacts PyClass CmdFacts CmdFlow CmdLines CmdStrict RoundSpec CmdRound PropsRound PropsStore PropsRepo PropsUrl.
From Verif Require Import Value.
Local Open Scope string_scope.
Local Open Scope list_scope.
Local Arguments Ascii.eqb : simpl never.
Local Arguments String.eqb : simpl never.

(** ** Specification *)

(** What a timesource line can give. *)
Definition time_sources : list string := ["ntp_server"; "ntp_pool"; "ntp_disable"].

(** ** The class *)

Definition time_code : stmt :=
  SBlock "_r" [] (SSeq (SBlock "_t1" [] (SReturn (ENew "TimesourceData"))) (SSeq (SAssign "td" (EVar "_t1"))
    (SSeq (SParse "ns") (SSeq (SSetTo "ns" "td") (SSeq (SAttr "td" "lineno" (EAttr (EVar "self") "lineno"))
    (SSeq (SAssign "used_options" (EUsed (EAttr (EVar "self") "exclusive_required_options") (EVar "ns")))
    (SSeq (SIf (EBin BEq (EUn ULen (EVar "used_options")) (EConst (VInt 0))) (SRaise true "One of -%(options_list)s options must be specified for timesource command.") SPass)
    (SSeq (SIf (EBin BGt (EUn ULen (EVar "used_options")) (EConst (VInt 1))) (SRaise true "Only one of %(options_list)s options may be specified for timesource command.") SPass)
      (SReturn (EVar "td")))))))))).
Definition times : list (string * string) := [("ntp_server", "--ntp-server"); ("ntp_pool", "--ntp-pool"); ("ntp_disable", "--ntp-disable")].
Lemma time_class : own_parse "F33_Timesource" = true /\ inits "F33_Timesource" = true /\ parse_code "F33_Timesource" = Some time_code /\
  assoc exclusive (init_of "F33_Timesource") = Some (VPairs times).
Proof. do 3 (split; [vm_compute; reflexivity|]). vm_compute. reflexivity. Qed.
Lemma time_handlers : forallb (fun h => forallb (fun nc => negb (String.eqb (fst nc) "timesource") ||
    (String.eqb (snd nc) "F33_Timesource" && match assoc "TimesourceData" (snd (snd h)) with
    | Some d => forallb (fun k => match assoc k (init_of d) with Some w => negb (truthy w) | None => true end) time_sources
    | None => false
    end)) (fst (snd h))) handlers = true.
Proof. vm_compute. reflexivity. Qed.
Lemma time_live : live "F33_Timesource".
Proof. split; intros H; apply marked_spec in H; vm_compute in H; discriminate. Qed.
Local Opaque comes_from method_of table_of removed_of data_str new_attrs init_of parse_flow marked_b strict reads names_ok used_classes parse_code build own_parse inits.

Lemma time_run C a a' p : assoc exclusive a = Some (VPairs times) -> run C time_code [] a = (a', Ok p) ->
  exists n, parse_args (c_parser C) (line_of a) (c_args C) = Ok n /\ length (given_sources times n) = 1.
Proof.
  intros E R. unfold run, time_code in R. cbn [exec bind_params map_res] in R.
  destruct (eval C a [] (ENew "TimesourceData")) as [td|] eqn:En; [|discriminate].
  assert (Td : td <> PSelf) by (intros ->; cbn [eval] in En; destruct (assoc "TimesourceData" (v_data (c_view C))); discriminate).
  cbn [eval] in R. change (String.eqb "_t1" "self") with false in R. cbv iota in R. rewrite assoc_put_eq in R. cbn [bind] in R.
  destruct (parse_args (c_parser C) (line_of a) (c_args C)) as [n|]; [|discriminate]. exists n. split; [reflexivity|].
  match type of R with context [put "ns" (PNs n) ?e] => set (e1 := put "ns" (PNs n) e) in R; assert (R1 : assoc "ns" e1 = Some (PNs n)) by apply assoc_put_eq;
    assert (R2 : assoc "td" e1 = Some td) by (unfold e1; rewrite assoc_put_ne by discriminate; apply assoc_put_eq); clearbody e1 end.
  rewrite R1 in R. unfold set_to in R. change (String.eqb "td" "self") with false in R. cbv iota in R. rewrite R2 in R.
  destruct td as [v| |m|d]; try discriminate; [congruence|].
  match type of R with context [put "td" ?x e1] => set (e2 := put "td" x e1) in R; assert (R3 : assoc "ns" e2 = Some (PNs n)) by (unfold e2; rewrite assoc_put_ne by discriminate; exact R1);
    assert (R4 : assoc "td" e2 = Some x) by apply assoc_put_eq; clearbody e2 end.
  change (String.eqb "self" "self") with true in R. cbv iota in R. cbn [bind find_attr] in R.
  destruct (assoc "lineno" a) as [w|]; [|discriminate]. cbn [bind with_val] in R. unfold set_on in R. change (String.eqb "td" "self") with false in R. cbv iota in R. rewrite R4 in R.
  match type of R with context [put "td" ?x e2] => set (e3 := put "td" x e2) in R; assert (R5 : assoc "ns" e3 = Some (PNs n)) by (unfold e3; rewrite assoc_put_ne by discriminate; exact R3);
    clearbody e3 end.
  unfold exclusive in E. rewrite E in R. cbn [bind to_val] in R. change (String.eqb "ns" "self") with false in R. cbv iota in R. rewrite R5 in R. cbn [bind find_attr] in R.
  fold (given_sources times n) in R. remember (given_sources times n) as g eqn:Eg.
  match type of R with context [put "used_options" ?x ?e] => set (e4 := put "used_options" x e) in R; assert (R6 : assoc "used_options" e4 = Some x) by apply assoc_put_eq; clearbody e4 end.
  change (String.eqb "used_options" "self") with false in R. cbv iota in R. rewrite R6 in R. cbn [bind to_val un py_len bin] in R. rewrite map_length, len_zero in R. cbn [bind p_truthy truthy] in R.
  destruct g as [|x1 g]; cbn [length p_truthy truthy exec eval] in R; [discriminate|].
  change (String.eqb "used_options" "self") with false in R. cbv iota in R. rewrite R6 in R. cbn [bind to_val un py_len bin] in R. rewrite map_length, cmp_len in R. cbn [length bind p_truthy truthy] in R.
  destruct g as [|x2 g]; [reflexivity|]. cbn [length p_truthy truthy exec eval] in R. discriminate.
Qed.

(** ** The theorems *)

(** After any command lines, every time source that is recorded has exactly one of a server, a pool and the word to disable NTP. *)
Theorem C41_timesource_recorded : forall rest v cm dm c h o d,
  In (v, (cm, dm)) handlers -> In ("timesource", c) cm -> used rest cm dm h ->
  served h "timesource" = Some o -> In d (o_data o) -> exactly_one time_sources (fun k => get k (d_attrs d)).
Proof.
  intros rest v cm dm c h o d Hv Hc U.
  pose proof time_handlers as T. rewrite forallb_forall in T. specialize (T _ Hv). cbn [fst snd] in T. rewrite forallb_forall in T. specialize (T _ Hc). cbn [fst snd] in T.
  change (String.eqb "timesource" "timesource") with true in T. cbn [negb orb] in T. apply andb_prop in T as [T1 T2]. apply String.eqb_eq in T1. subst c.
  destruct (assoc "TimesourceData" dm) as [dc|] eqn:Ed; [|discriminate]. rewrite forallb_forall in T2.
  assert (Hr : In ("timesource", ("TimesourceData", ["lineno"])) recording) by (cbn; tauto).
  destruct (recording_class v cm dm "timesource" "F33_Timesource" "TimesourceData" ["lineno"] Hv Hc Hr) as (M & L); [discriminate|exact time_live|].
  destruct time_class as (O & Ii & Pc & Ex). set (c := "F33_Timesource") in *. clearbody c.
  assert (Main : forall o, served h "timesource" = Some o -> assoc exclusive (o_attrs o) = Some (VPairs times) /\ forall d, In d (o_data o) -> exactly_one time_sources (fun k => get k (d_attrs d))).
  { destruct U as (ops & FO & ->). induction ops as [|op ops IH] using rev_ind.
    - intros p Sp. cbn [fold_left] in Sp. rewrite (start_served rest v cm dm Hv "timesource" c Hc) in Sp. injection Sp as <-. cbn [new_obj o_attrs o_data].
      rewrite (class_init rest c _ Pc Ii). split; [exact Ex|intros ? []].
    - apply Forall_app in FO as [FO Fo]. inversion Fo as [|? ? Hop _]; subst. destruct op as [line ws ln| |]; try contradiction.
      rewrite fold_left_app. cbn [fold_left do_op]. specialize (IH FO). set (h := fold_left do_op ops (start rest cm dm)) in *.
      assert (U : used rest cm dm h) by (exists ops; auto). intros p Sp.
      destruct ws as [|m args]; [exact (IH p Sp)|]. destruct (assoc m cm) as [d0|] eqn:Am.
      + apply assoc_In in Am. destruct (line_cases rest v cm dm Hv h m d0 line args ln U Am) as (q & vw & a' & d' & Sq & Cq & Vd & P & J).
        rewrite (J "timesource" c Hc) in Sp. destruct (String.eqb_spec c d0) as [<-|]; [|exact (IH p Sp)]. injection Sp as <-. cbn [o_attrs o_data].
        assert (Sn : served h "timesource" = Some q).
        { destruct (used_served rest v cm dm Hv h "timesource" c U Hc) as (i & q1 & Ei & Eq & Sq1 & _).
          destruct (used_served rest v cm dm Hv h m c U Am) as (j & q' & Ej & Eq' & Sq' & _).
          pose proof (same_object rest v cm dm Hv h "timesource" c m c i j U Hc Am Ei Ej) as X. assert (i = j) by now apply X. subst j. congruence. }
        destruct (IH q Sn) as [IE ID].
        assert (Es : assoc exclusive (stamp m line ln (o_attrs q)) = Some (VPairs times)) by (unfold stamp; rewrite !assoc_put; exact IE).
        destruct (cl_parse (class_model (cmd_class rest) c) vw (stamp m line ln (o_attrs q)) (o_data q) args) as [[a1 d1] [x|e1]] eqn:Q.
        * destruct P as (-> & -> & _). pose proof Q as Q'. apply (makes_data_ok rest c _ _ _ _ _ _ "TimesourceData" ["lineno"] x M) in Q' as (-> & Ka & y & ns & -> & Ck & Ln & At).
          rewrite (keeps_list_ok rest c L). split; [now rewrite Ka|]. intros d1 Hin. apply in_app_iff in Hin as [Hin|[<-|[]]]; [exact (ID d1 Hin)|].
          rewrite (class_parse rest c _ Pc O) in Q. unfold cmd_parse in Q.
          destruct (run (parse_ctx c vw (o_data q) args) time_code [] (stamp m line ln (o_attrs q))) as [a2 [p2|e2]] eqn:R; [|discriminate].
          destruct (time_run _ _ _ _ Es R) as (n & Pn & L1). apply args_known in Pn as [rr Pn]. cbn [parse_ctx c_parser c_args] in Pn. apply line_values_any in Pn.
          assert (n = ns) by congruence. subst n. rewrite (Vd "TimesourceData"), Ed in Ck. injection Ck as Ck.
          apply (one_given times ns); [repeat constructor; cbn; intuition discriminate| |exact L1].
          intros k Hk. apply (source_truth ns dc); [|exact (T2 k Hk)]. rewrite Ck. apply At. cbn in Hk. destruct Hk as [<-|[<-|[<-|[]]]]; reflexivity.
        * destruct P as (-> & -> & _). apply (makes_data_err rest c _ _ _ _ _ _ "TimesourceData" ["lineno"] e1 M) in Q as (-> & Ka). split; [now rewrite Ka|exact ID].
      + destruct (line_unknown rest cm dm h m line args ln U) as [_ K].
        { intros d1 Hd1. apply (In_dict cm) in Hd1; [congruence|exact (dict_cm rest v cm dm Hv)]. }
        rewrite K in Sp. exact (IH p Sp). }
  intros So Hd. exact (proj2 (Main o So) d Hd).
Qed.
Print Assumptions C41_timesource_recorded.

(** A timesource line that does not give exactly one of them is refused. *)
Theorem C41_timesource_refused : forall rest v cm dm c h line args ln k,
  In (v, (cm, dm)) handlers -> In ("timesource", c) cm -> live c -> used rest cm dm h -> assoc "TimesourceData" dm = Some k ->
  ~ exactly_one time_sources (fun j => match line_says c k j args with Some w => w | None => VNone end) ->
  snd (handle_command h line ("timesource" :: args) ln) <> None.
Proof.
  intros rest v cm dm c h line args ln k Hv Hc Hl U Hk Ho E. apply Ho.
  assert (Hr : In ("timesource", ("TimesourceData", ["lineno"])) recording) by (cbn; tauto).
  assert (Hd : "timesource" = "device" -> (F8 <= v)%Z) by discriminate.
  destruct (C03_accepted_recorded_once rest v cm dm "timesource" c h line args ln "timesource" c "TimesourceData" ["lineno"] Hv Hc Hr Hd Hl U E Hc) as (o & o' & _ & So & _ & X).
  rewrite eqb_refl_s in X. destruct X as (x & Exx & Hx & Ax).
  assert (I : In x (o_data o')) by (rewrite Exx; apply in_app_iff; right; now left).
  destruct (C41_timesource_recorded rest v cm dm c _ o' x Hv Hc (used_step rest cm dm h line ("timesource" :: args) ln U) So I) as (j & Hj & Tj & Oj).
  assert (Dk : d_class x = k). { apply (In_dict dm) in Hx; [congruence|]. exact (data_dict v cm dm Hv). }
  assert (G : forall i, In i time_sources -> match line_says c k i args with Some w => w | None => VNone end = get i (d_attrs x)).
  { intros i Hi. unfold get. rewrite (Ax i), Dk; [reflexivity|]. intros [<-|[]]. cbn in Hi. intuition discriminate. }
  exists j. split; [exact Hj|]. cbn beta. rewrite (G j Hj). split; [exact Tj|]. intros i Hi Ne. rewrite (G i Hi). now apply Oj.
Qed.
Print Assumptions C41_timesource_refused.

Local Transparent comes_from method_of table_of removed_of data_str new_attrs init_of parse_flow marked_b strict reads names_ok used_classes parse_code build own_parse inits.
Example C41_timesource_example :
  option_map (fun h => assoc "timesource" (fst (snd h))) (find (fun h => Z.eqb (fst h) F34) handlers) = Some (Some "F33_Timesource") /\ live "F33_Timesource" /\
  accepts F34 [["timesource"; "--ntp-server=a"; "--nts"]] = Some true /\ accepts F34 [["timesource"; "--nts"]] = Some false /\
  accepts F34 [["timesource"; "--ntp-pool=a"; "--ntp-disable"]] = Some false /\ accepts F34 [["timesource"; "--ntp-disable"]; ["timesource"; "--ntp-pool=a"]] = Some true.
Proof. split; [lazy; reflexivity|]. split; [exact time_live|]. repeat split; lazy; reflexivity. Qed.
