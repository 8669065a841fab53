(** * C41: the sources of a repository *)

From Verif Require Import PyStrFacts ArgParseFacts HandlerFacts ClassModel PropsHandler PropsClass.
From Verif Require Import HandlerSpec ParserSpec Parser ArgSpec ArgDecl PropsStorage NsFacts ArgTable PyFlowFacts PyClass CmdFacts CmdFlow CmdLines CmdStrict CmdRound PropsRound PropsStore.
From Verif Require Import RuleSpec RuleFacts PropsRules.
From Coq Require Import Lia.
From Verif Require Import Value.
Local Open Scope string_scope.
Local Open Scope list_scope.
Local Arguments Ascii.eqb : simpl never.
Local Arguments String.eqb : simpl never.

(** ** Specification *)

(** A repository has at most one source; before F15 it has one. *)
Definition repo_rules (v : Z) : list rule :=
  [not_both "mirrorlist" "baseurl"] ++ from v F27 [not_both "mirrorlist" "metalink"; not_both "baseurl" "metalink"] ++
  before v F15 [one_of ["mirrorlist"; "baseurl"]].

(** ** The classes *)

Definition sources (v : Z) : list string := ["mirrorlist"; "baseurl"] ++ if Z.leb F27 v then ["metalink"] else [].
Definition repo_checks (b : bool) (tail : stmt) : stmt :=
  SBlock "_r" [] (SSeq (SParse "ns")
    (SSeq (SAssign "used_options" (EUsed (EAttr (EVar "self") "exclusive_required_options") (EVar "ns")))
    (SSeq (SBlock "_t1" [] (SReturn (EConst (VBool b))))
    (SSeq (SIf (EAnd (EVar "_t1") (EUn UNot (EVar "used_options"))) (SRaise true "One of -%(options_list)s options must be specified for repo command.") SPass)
    (SSeq (SIf (EBin BGt (EUn ULen (EVar "used_options")) (EConst (VInt 1))) (SRaise true "Only one of %(options_list)s options may be specified for repo command.") SPass)
      tail))))).
Definition repo_tail : stmt :=
  SSeq (SBlock "_t2" [] (SReturn (ENew "RepoData"))) (SSeq (SAssign "rd" (EVar "_t2")) (SSeq (SSetTo "ns" "rd")
    (SSeq (SAttr "rd" "lineno" (EAttr (EVar "self") "lineno")) (SReturn (EVar "rd"))))).
Definition exclusive : string := "exclusive_required_options".
Definition two : list (string * string) := [("mirrorlist", "--mirrorlist"); ("baseurl", "--baseurl")].
Definition three : list (string * string) := two ++ [("metalink", "--metalink")].
Definition repo_classes : list (string * (bool * list (string * string))) :=
  [("FC6_Repo", (true, two)); ("F8_Repo", (true, two)); ("F11_Repo", (true, two)); ("F13_Repo", (true, two)); ("F14_Repo", (true, two)); ("RHEL6_Repo", (true, two));
   ("F15_Repo", (false, two)); ("F21_Repo", (false, two)); ("RHEL7_Repo", (false, two));
   ("F27_Repo", (false, three)); ("F30_Repo", (false, three)); ("F33_Repo", (false, three)); ("RHEL8_Repo", (false, three))].
Lemma repo_codes : Forall (fun e => own_parse (fst e) = true /\ inits (fst e) = true /\ parse_code (fst e) = Some (repo_checks (fst (snd e)) repo_tail) /\
  assoc exclusive (init_of (fst e)) = Some (VPairs (snd (snd e)))) repo_classes.
Proof. unfold repo_classes. repeat (apply Forall_cons || apply Forall_nil); cbn [fst snd]; (do 3 (split; [vm_compute; reflexivity|]); vm_compute; reflexivity). Qed.
Lemma repo_handlers : forallb (fun h => forallb (fun nc => negb (String.eqb (fst nc) "repo") ||
    match assoc (snd nc) repo_classes, assoc "RepoData" (snd (snd h)) with
    | Some (b, l), Some d => Bool.eqb b (Z.ltb (fst h) F15) && (if list_eq_dec string_dec (map fst l) (sources (fst h)) then true else false) &&
        forallb (fun k => match assoc k (init_of d) with Some w => negb (truthy w) | None => true end) (sources (fst h))
    | _, _ => negb (live_b (snd nc))
    end) (fst (snd h))) handlers = true.
Proof. vm_compute. reflexivity. Qed.
Local Opaque comes_from method_of table_of removed_of data_str new_attrs init_of parse_flow marked_b strict reads names_ok used_classes parse_code build own_parse inits.

(** The sources among the options given. *)
Definition given_sources (l : list (string * string)) (n : attrs) : list (string * string) :=
  filter (fun ao => match assoc (fst ao) n with Some w => truthy w | None => false end) l.
Lemma cmp_len k : vbool (py_cmp Z.gtb (VInt (Z.of_nat k)) (VInt 1)) = Ok (VBool (match k with S (S _) => true | _ => false end)).
Proof.
  destruct k as [|[|k]]; try reflexivity. unfold py_cmp. cbn [as_int vbool bind]. do 2 f_equal. apply Z.gtb_lt. lia.
Qed.
Lemma checks_run C b tail a l : assoc exclusive a = Some (VPairs l) ->
  match run C (repo_checks b tail) [] a with
  | (_, Ok _) => exists n, parse_args (c_parser C) (line_of a) (c_args C) = Ok n /\ length (given_sources l n) <= 1 /\ (b = true -> given_sources l n <> [])
  | _ => True
  end.
Proof.
  intros E. unfold run, repo_checks, exclusive in *. cbn [exec bind_params map_res].
  destruct (parse_args (c_parser C) (line_of a) (c_args C)) as [n|x]; [|exact I].
  cbn [eval bind]. change (String.eqb "self" "self") with true. cbv iota. cbn [bind find_attr]. rewrite E. cbn [bind to_val].
  change (String.eqb "ns" "self") with false. cbv iota.
  assert (R0 : forall e : env, assoc "ns" (put "ns" (PNs n) e) = Some (PNs n)) by (intros e; apply assoc_put_eq). rewrite R0. cbn [bind find_attr].
  fold (given_sources l n). remember (given_sources l n) as g eqn:Eg.
  match goal with |- context [put "_t1" (PV (VBool b)) ?e] => set (e2 := put "_t1" (PV (VBool b)) e) end.
  assert (R1 : assoc "_t1" e2 = Some (PV (VBool b))) by apply assoc_put_eq.
  assert (R2 : assoc "used_options" e2 = Some (PV (VStrs (map snd g)))) by (unfold e2; rewrite assoc_put_ne by discriminate; apply assoc_put_eq).
  clearbody e2. change (String.eqb "_t1" "self") with false. change (String.eqb "used_options" "self") with false. cbv iota. rewrite R1, R2. cbn [bind p_truthy truthy].
  assert (Len : length (map snd g) = length g) by apply map_length.
  destruct b, g as [|x1 [|x2 g]]; cbn [map negb p_truthy truthy bind exec eval to_val un py_len length] in *; try exact I;
    rewrite ?R2; cbn [bind to_val un py_len length map bin]; rewrite ?cmp_len; cbn [bind p_truthy truthy]; try exact I;
    destruct (exec C tail e2 a); try exact I; cbn [put assoc]; try change (String.eqb "_r" "_r") with true; cbv iota; exists n; (split; [reflexivity|]); rewrite <- Eg; cbn; split; first [lia | congruence].
Qed.

Lemma args_known p ln args n : parse_args p ln args = Ok n -> exists r, parse_known_args p ln args = Ok (n, r).
Proof. unfold parse_args. destruct (parse_known_args p ln args) as [[m [|x r]]|]; cbn [bind]; intros E; try discriminate; injection E as ->; eauto. Qed.

(** What an object has of the sources is what the line gave. *)
Lemma source_truth n dc d k : assoc k (d_attrs d) = overlay k n (init_of dc) -> (match assoc k (init_of dc) with Some w => negb (truthy w) | None => true end) = true ->
  truthy (get k (d_attrs d)) = match assoc k n with Some w => truthy w | None => false end.
Proof.
  intros E F. unfold get. rewrite E. unfold overlay. assert (Z : truthy (match assoc k (init_of dc) with Some w => w | None => VNone end) = false).
  { destruct (assoc k (init_of dc)) as [w|]; [now apply negb_true_iff|reflexivity]. }
  destruct (assoc k n) as [w|]; [|exact Z]. destruct w; cbn [is_none]; try reflexivity. exact Z.
Qed.
Lemma sources_rules v (l : list (string * string)) n g r : map fst l = sources v ->
  (forall k, In k (sources v) -> truthy (g k) = match assoc k n with Some w => truthy w | None => false end) ->
  length (given_sources l n) <= 1 -> ((v <? F15)%Z = true -> given_sources l n <> []) -> In r (repo_rules v) -> obeys g r.
Proof.
  intros El T L1 L2 Hr. unfold given_sources in *.
  assert (Bf : (v <? F15)%Z = true -> Z.leb F27 v = false) by (intros B; apply Z.ltb_lt in B; apply Z.leb_gt; unfold F15, F27 in *; lia).
  assert (Pair : forall k j, In k (sources v) -> In j (sources v) -> (truthy (g k) = true -> truthy (g j) = true -> False) -> obeys g (not_both k j)).
  { intros k j _ _ H K. apply H; [exact (K (Set_ k) true (or_introl eq_refl))|exact (K (Set_ j) true (or_intror (or_introl eq_refl)))]. }
  unfold repo_rules, from, before in Hr. unfold sources in *.
  destruct (Z.leb F27 v) eqn:V.
  - destruct l as [|[k1 o1] [|[k2 o2] [|[k3 o3] [|]]]]; try discriminate. cbn [map fst app] in El. injection El as -> -> ->.
    pose proof (T "mirrorlist" ltac:(cbn; tauto)) as T1. pose proof (T "baseurl" ltac:(cbn; tauto)) as T2. pose proof (T "metalink" ltac:(cbn; tauto)) as T3.
    cbn [filter fst] in L1. rewrite <- T1, <- T2, <- T3 in L1.
    destruct (v <? F15)%Z; [discriminate (Bf eq_refl)|]. cbn [app In] in Hr.
    destruct Hr as [<-|[<-|[<-|[]]]]; apply Pair; try (cbn; tauto); intros X Y; rewrite X, Y in L1;
      destruct (truthy (g "mirrorlist")), (truthy (g "baseurl")), (truthy (g "metalink")); try discriminate; cbn in L1; lia.
  - destruct l as [|[k1 o1] [|[k2 o2] [|]]]; try discriminate. cbn [map fst app] in El. injection El as -> ->.
    pose proof (T "mirrorlist" ltac:(cbn; tauto)) as T1. pose proof (T "baseurl" ltac:(cbn; tauto)) as T2.
    cbn [filter fst] in L1, L2. rewrite <- T1, <- T2 in L1, L2. rewrite app_nil_l in Hr.
    destruct Hr as [<-|Hr].
    + apply Pair; try (cbn; tauto). intros X Y. rewrite X, Y in L1. cbn in L1. lia.
    + destruct (v <? F15)%Z; [|destruct Hr]. destruct Hr as [<-|[]]. intros K.
      pose proof (K (Set_ "mirrorlist") false ltac:(cbn; tauto)) as K1. pose proof (K (Set_ "baseurl") false ltac:(cbn; tauto)) as K2. cbn [is_so] in K1, K2.
      destruct (truthy (g "mirrorlist")); [exact (K1 eq_refl)|]. destruct (truthy (g "baseurl")); [exact (K2 eq_refl)|]. exact (L2 eq_refl eq_refl).
Qed.

(** ** The theorems *)

(** In a handler of any version, after any command lines, every repository that is recorded has
    at most one source, and has one before F15. *)
Theorem C41_repo_recorded : forall rest v cm dm c h o d r,
  In (v, (cm, dm)) handlers -> In ("repo", c) cm -> live c -> used rest cm dm h ->
  served h "repo" = Some o -> In d (o_data o) -> In r (repo_rules v) -> obeys (fun k => get k (d_attrs d)) r.
Proof.
  intros rest v cm dm c h o d r Hv Hc Hl U.
  assert (Hr : In ("repo", ("RepoData", ["lineno"])) recording) by (cbn; tauto).
  destruct (recording_class v cm dm "repo" c "RepoData" ["lineno"] Hv Hc Hr) as (M & L); [discriminate|exact Hl|].
  pose proof repo_handlers as T. rewrite forallb_forall in T. specialize (T _ Hv). cbn [fst snd] in T. rewrite forallb_forall in T. specialize (T _ Hc). cbn [fst snd] in T.
  change (String.eqb "repo" "repo") with true in T. cbn [negb orb] in T.
  destruct (assoc c repo_classes) as [[b l]|] eqn:Ec; [|rewrite (live_spec c Hl) in T; discriminate].
  destruct (assoc "RepoData" dm) as [dc|] eqn:Ed; [|rewrite (live_spec c Hl) in T; discriminate].
  apply andb_prop in T as [T T3]. apply andb_prop in T as [T1 T2]. apply Bool.eqb_prop in T1. subst b. destruct (list_eq_dec string_dec (map fst l) (sources v)) as [El|]; [|discriminate].
  rewrite forallb_forall in T3. pose proof repo_codes as RC. rewrite Forall_forall in RC. specialize (RC _ (assoc_In _ _ _ Ec)). cbn [fst snd] in RC. destruct RC as (O & Ii & Pc & Ex).
  assert (Main : forall o, served h "repo" = Some o -> assoc exclusive (o_attrs o) = Some (VPairs l) /\ forall d r, In d (o_data o) -> In r (repo_rules v) -> obeys (fun k => get k (d_attrs d)) r).
  { destruct U as (ops & FO & ->). induction ops as [|op ops IH] using rev_ind.
    - intros p Sp. cbn [fold_left] in Sp. rewrite (start_served rest v cm dm Hv "repo" c Hc) in Sp. injection Sp as <-. cbn [new_obj o_attrs o_data].
      rewrite (class_init rest c _ Pc Ii). split; [exact Ex|intros ? ? []].
    - apply Forall_app in FO as [FO Fo]. inversion Fo as [|? ? Hop _]; subst. destruct op as [line ws ln| |]; try contradiction.
      rewrite fold_left_app. cbn [fold_left do_op]. specialize (IH FO). set (h := fold_left do_op ops (start rest cm dm)) in *.
      assert (U : used rest cm dm h) by (exists ops; auto). intros p Sp.
      destruct ws as [|m args]; [exact (IH p Sp)|]. destruct (assoc m cm) as [d0|] eqn:Am.
      + apply assoc_In in Am. destruct (line_cases rest v cm dm Hv h m d0 line args ln U Am) as (q & vw & a' & d' & Sq & Cq & Vd & P & J).
        rewrite (J "repo" c Hc) in Sp. destruct (String.eqb_spec c d0) as [<-|]; [|exact (IH p Sp)]. injection Sp as <-. cbn [o_attrs o_data].
        assert (Sn : served h "repo" = Some q).
        { destruct (used_served rest v cm dm Hv h "repo" c U Hc) as (i & q1 & Ei & Eq & Sq1 & _).
          destruct (used_served rest v cm dm Hv h m c U Am) as (j & q' & Ej & Eq' & Sq' & _).
          pose proof (same_object rest v cm dm Hv h "repo" c m c i j U Hc Am Ei Ej) as X. assert (i = j) by now apply X. subst j. congruence. }
        destruct (IH q Sn) as [IE ID].
        assert (Es : assoc exclusive (stamp m line ln (o_attrs q)) = Some (VPairs l)) by (unfold stamp; rewrite !assoc_put; exact IE).
        destruct (cl_parse (class_model (cmd_class rest) c) vw (stamp m line ln (o_attrs q)) (o_data q) args) as [[a1 d1] [x|e1]] eqn:Q.
        * destruct P as (-> & -> & _). pose proof Q as Q'. apply (makes_data_ok rest c _ _ _ _ _ _ "RepoData" ["lineno"] x M) in Q' as (-> & Ka & y & ns & -> & Ck & Ln & At).
          rewrite (keeps_list_ok rest c L). split; [now rewrite Ka|]. intros d1 r1 Hin Hr1. apply in_app_iff in Hin as [Hin|[<-|[]]]; [exact (ID d1 r1 Hin Hr1)|].
          rewrite (class_parse rest c _ Pc O) in Q. unfold cmd_parse in Q.
          pose proof (checks_run (parse_ctx c vw (o_data q) args) (v <? F15)%Z repo_tail (stamp m line ln (o_attrs q)) l Es) as CR.
          destruct (run (parse_ctx c vw (o_data q) args) (repo_checks (v <? F15)%Z repo_tail) [] (stamp m line ln (o_attrs q))) as [a2 [p2|e2]]; [|discriminate].
          destruct CR as (n & Pn & L1 & L2). apply args_known in Pn as [rr Pn]. cbn [parse_ctx c_parser c_args] in Pn. apply line_values_any in Pn.
          assert (n = ns) by congruence. subst n. rewrite (Vd "RepoData"), Ed in Ck. injection Ck as Ck.
          apply (sources_rules v l ns); [exact El| |exact L1|exact L2|exact Hr1].
          intros k Hk. apply (source_truth ns dc); [|exact (T3 k Hk)]. rewrite Ck. apply At.
          unfold sources in Hk. apply in_app_iff in Hk as [Hk|Hk]; [destruct Hk as [<-|[<-|[]]]; reflexivity|]. destruct (Z.leb F27 v); [destruct Hk as [<-|[]]; reflexivity|destruct Hk].
        * destruct P as (-> & -> & _). apply (makes_data_err rest c _ _ _ _ _ _ "RepoData" ["lineno"] e1 M) in Q as (-> & Ka). split; [now rewrite Ka|exact ID].
      + destruct (line_unknown rest cm dm h m line args ln U) as [_ K].
        { intros d1 Hd1. apply (In_dict cm) in Hd1; [congruence|exact (dict_cm rest v cm dm Hv)]. }
        rewrite K in Sp. exact (IH p Sp). }
  intros So Hd Hrule. exact (proj2 (Main o So) d r Hd Hrule).
Qed.
Print Assumptions C41_repo_recorded.

(** A repo line that gives several sources, or none before F15, is refused. *)
Theorem C41_repo_refused : forall rest v cm dm c h line args ln k r,
  In (v, (cm, dm)) handlers -> In ("repo", c) cm -> live c -> used rest cm dm h -> assoc "RepoData" dm = Some k -> In r (repo_rules v) ->
  ~ obeys (fun j => match line_says c k j args with Some w => w | None => VNone end) r ->
  snd (handle_command h line ("repo" :: args) ln) <> None.
Proof.
  intros rest v cm dm c h line args ln k r Hv Hc Hl U Hk Hrule Ho E. apply Ho.
  assert (Hr : In ("repo", ("RepoData", ["lineno"])) recording) by (cbn; tauto).
  assert (Hd : "repo" = "device" -> (F8 <= v)%Z) by discriminate.
  destruct (C03_accepted_recorded_once rest v cm dm "repo" c h line args ln "repo" c "RepoData" ["lineno"] Hv Hc Hr Hd Hl U E Hc) as (o & o' & _ & So & _ & X).
  rewrite eqb_refl_s in X. destruct X as (x & Exx & Hx & Ax).
  pose proof (C41_repo_recorded rest v cm dm c _ o' x r Hv Hc Hl (used_step rest cm dm h line ("repo" :: args) ln U) So) as R.
  assert (I : In x (o_data o')) by (rewrite Exx; apply in_app_iff; right; now left). specialize (R I Hrule).
  assert (Dk : d_class x = k). { apply (In_dict dm) in Hx; [congruence|]. exact (data_dict v cm dm Hv). }
  eapply obeys_ext; [|exact R]. intros j J. cbn beta. unfold get. rewrite (Ax j), Dk; [reflexivity|].
  intros [<-|[]]. assert (F : forall r v, In r (repo_rules v) -> ~ In "lineno" (concerns r)).
  { intros r0 v0 H0 Y. unfold repo_rules, from, before in H0. destruct (Z.leb F27 v0), (v0 <? F15)%Z; cbn in H0; intuition (subst; cbn in Y; intuition discriminate). }
  exact (F r v Hrule J).
Qed.
Print Assumptions C41_repo_refused.

Local Transparent comes_from method_of table_of removed_of data_str new_attrs init_of parse_flow marked_b strict reads names_ok used_classes parse_code build own_parse inits.
Example C41_repo_example :
  option_map (fun h => assoc "repo" (fst (snd h))) (find (fun h => Z.eqb (fst h) F34) handlers) = Some (Some "F33_Repo") /\ live "F33_Repo" /\
  accepts F34 [["repo"; "--name=a"; "--baseurl=x"; "--metalink=y"]] = Some false /\ accepts F34 [["repo"; "--name=a"; "--metalink=y"]] = Some true /\
  accepts F34 [["repo"; "--name=a"]] = Some true /\ accepts F14 [["repo"; "--name=a"]] = Some false /\ accepts F14 [["repo"; "--name=a"; "--mirrorlist=x"]] = Some true.
Proof.
  split; [lazy; reflexivity|]. split.
  { split; intros H; apply marked_spec in H; vm_compute in H; discriminate. }
  repeat split; lazy; reflexivity.
Qed.
