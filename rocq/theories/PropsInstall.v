(** * C57: install and upgrade *)

From Verif Require Import PyStrFacts Shlex ArgParseFacts HandlerFacts ClassModel PropsHandler PropsClass PyText.
From Verif Require Import HandlerSpec ParserSpec Parser ArgSpec ArgDecl PropsArgs PropsStorage NsFacts NsRange ArgTable PyFlowFacts PyClass CmdFacts CmdFlow CmdLines CmdStrict RoundSpec PyWordsFacts CmdRound PropsRound PropsStore PropsRepo NamedFacts PropsNamed.
From Verif Require ShlexFacts.
From Coq Require Import Lia.
From Verif Require Import Value.
Local Open Scope string_scope.
Local Open Scope list_scope.
Local Arguments Ascii.eqb : simpl never.
Local Arguments String.eqb : simpl never.

(** ** Specification *)

(** The device a line names: nothing before F11. *)
Definition device_of (v : Z) (c : string) (args : list string) : option string :=
  if Z.leb F11 v then match gives c "root_device" args with Some (VStr r) => Some r | _ => None end else None.
(** The line for an installation, and for an upgrade of a device. *)
Definition install_line (up : bool) (dev : option string) : string :=
  if up then match dev with Some r => "upgrade --root-device=" ++ r | None => "upgrade" end else "install".
Definition install_remark (up : bool) : string := if up then "# Upgrade existing installation" else "# Install OS instead of upgrade".
Definition install_text (up : bool) (dev : option string) : string := install_remark up ++ nl ++ install_line up dev ++ nl.
(** The versions with the commands: upgrade until F19, install until F28 and RHEL7. *)
Definition in_use_at (v : Z) (n : string) : Prop := (n = "upgrade" /\ v < F20)%Z \/ (n = "install" /\ v < RHEL8)%Z.

(** ** The classes *)

Definition up_end : stmt :=
  SSeq (SIf (EBin BEq (self_at "currentCmd") (EConst (VStr "upgrade"))) (SAttr "self" "upgrade" (EConst (VBool true))) (SAttr "self" "upgrade" (EConst (VBool false)))) (SReturn (EVar "self")).
Definition up_code0 : stmt := SSeq (SParse "_") up_end.
Definition up_code1 : stmt :=
  SSeq (SParse "ns") (SSeq (SIf (EBin BEq (EAttr (EVar "ns") "root_device") (EConst (VStr "")))
    (SRaise true "Kickstart command %(command)s does not accept empty parameter %(parameter)s") (SAttr "self" "root_device" (EAttr (EVar "ns") "root_device"))) up_end).
Definition up_code2 : stmt := SSeq (SBlock "_t1" [] up_code1) (SSeq (SAttr "self" "upgrade" (EConst (VBool false))) (SReturn (EVar "self"))).
Definition up_classes : list (string * stmt) := [("FC3_Upgrade", up_code0); ("F11_Upgrade", up_code1); ("F20_Install", up_code2)].
Definition up_ok (e : string * stmt) : bool :=
  own_parse (fst e) && negb (based (comes_from (fst e) "__str__")) && check_table (tabulate (table_of (fst e))) (init_of (fst e)) [] [] (table_of (fst e)).
Lemma ups_ok : forallb up_ok up_classes = true.
Proof. vm_compute. reflexivity. Qed.
Lemma up_codes : Forall (fun e => parse_code (fst e) = Some (SBlock "_r" [] (snd e))) up_classes.
Proof. repeat (apply Forall_cons || apply Forall_nil); cbn [fst snd]; vm_compute; reflexivity. Qed.
Definition up_class (v : Z) (n c : string) : bool :=
  if Z.ltb v F11 then String.eqb c "FC3_Upgrade" else if Z.ltb v F20 then String.eqb c "F11_Upgrade" else mem c ["F11_Upgrade"; "F20_Install"] && String.eqb n "install".
Lemma up_handlers : forallb (fun h => forallb (fun nc =>
    if (if String.eqb (fst nc) "upgrade" then Z.ltb (fst h) F20 else if String.eqb (fst nc) "install" then Z.ltb (fst h) RHEL8 else false) then up_class (fst h) (fst nc) (snd nc) else true) (fst (snd h))) handlers = true.
Proof. vm_compute. reflexivity. Qed.
Definition up_table : list tableop := [OpAdd (mkDecl ["--root-device"] "root_device" KStore NOne VNone VNone TStr None false false)].
Lemma up_tables : table_of "FC3_Upgrade" = [] /\ table_of "F11_Upgrade" = up_table /\ table_of "F20_Install" = up_table.
Proof. repeat split; vm_compute; reflexivity. Qed.
Lemma up_dest : In "root_device" (PyRound.dests (tabulate up_table)).
Proof. vm_compute. tauto. Qed.
Lemma up_default : tab_default (t_acts (tabulate up_table)) "root_device" = VNone.
Proof. vm_compute. reflexivity. Qed.
Lemma up_decls d : In d (all_decls (tabulate up_table)) -> d_kind d = KStore /\ d_type d = TStr.
Proof. intros H. assert (F : Forall (fun d => d_kind d = KStore /\ d_type d = TStr) (all_decls (tabulate up_table))) by (vm_compute; repeat constructor). rewrite Forall_forall in F. exact (F d H). Qed.
Definition up_str0 : stmt :=
  SSeq (SBlock "_t1" [] (SReturn (EConst (VStr "")))) (SSeq (SAssign "retval" (EVar "_t1"))
    (SSeq (SIf (EBin BIs (self_at "upgrade") (EConst VNone)) (SReturn (EVar "retval")) SPass)
    (SSeq (SIf (self_at "upgrade") (SAssign "retval" (EBin BAdd (EVar "retval") (EConst (VStr (install_text true None))))) (SAssign "retval" (EBin BAdd (EVar "retval") (EConst (VStr (install_text false None))))))
      (SReturn (EVar "retval"))))).
Definition up_str1 : stmt :=
  SSeq (SIf (EAnd (self_at "upgrade") (EBin BIsNot (self_at "root_device") (EConst VNone)))
      (SSeq (SBlock "_t1" [] (SReturn (EConst (VStr "")))) (SSeq (SAssign "retval" (EVar "_t1"))
        (SAssign "retval" (EBin BAdd (EVar "retval") (EBin BAdd (EBin BAdd (EConst (VStr (install_remark true ++ nl ++ "upgrade --root-device="))) (EUn UStr (self_at "root_device"))) (EConst (VStr nl)))))))
      (SSeq (SBlock "_t2" [] up_str0) (SAssign "retval" (EVar "_t2")))) (SReturn (EVar "retval")).
Lemma up_strs : method_of "FC3_Upgrade" "__str__" [] = Some (SBlock "_r" [] up_str0) /\ method_of "F11_Upgrade" "__str__" [] = Some (SBlock "_r" [] up_str1) /\
  method_of "F20_Install" "__str__" [] = Some (SBlock "_r" [] up_str1).
Proof. repeat split; vm_compute; reflexivity. Qed.
Local Opaque comes_from method_of table_of removed_of data_str new_attrs init_of parse_flow marked_b strict reads names_ok used_classes parse_code build own_parse inits check_table tabulate.

(** ** What the methods do *)

Lemma up_done C a e n : assoc "currentCmd" a = Some (VStr n) -> exec C up_end e a = OReturn PSelf (put "upgrade" (VBool (String.eqb n "upgrade")) a).
Proof. intros H. unfold up_end. cbn [exec]. rewrite (cond_eq C _ _ n _ H). cbn [p_truthy truthy]. destruct (String.eqb n "upgrade"); reflexivity. Qed.
Lemma up_run0 C a e n : assoc "currentCmd" a = Some (VStr n) ->
  exec C up_code0 e a = match parse_args (c_parser C) (line_of a) (c_args C) with Ok _ => OReturn PSelf (put "upgrade" (VBool (String.eqb n "upgrade")) a) | Err z => ORaise z a end.
Proof.
  intros H. unfold up_code0. change (exec C (SSeq (SParse "_") up_end) e a) with (match exec C (SParse "_") e a with ONext e' s' => exec C up_end e' s' | o => o end).
  cbn [exec]. destruct (parse_args (c_parser C) (line_of a) (c_args C)); [|reflexivity]. now apply up_done.
Qed.
Lemma up_run1 C a e n : assoc "currentCmd" a = Some (VStr n) ->
  (forall ns, parse_args (c_parser C) (line_of a) (c_args C) = Ok ns -> assoc "root_device" ns = Some VNone \/ exists r, assoc "root_device" ns = Some (VStr r)) ->
  exec C up_code1 e a = match parse_args (c_parser C) (line_of a) (c_args C) with
    | Ok ns => match get "root_device" ns with
               | VStr "" => ORaise (KSParseError (line_of a) "Kickstart command %(command)s does not accept empty parameter %(parameter)s") a
               | w => OReturn PSelf (put "upgrade" (VBool (String.eqb n "upgrade")) (put "root_device" w a))
               end
    | Err z => ORaise z a end.
Proof.
  intros H N. unfold up_code1. remember up_end as t eqn:Et. cbn [exec]. destruct (parse_args (c_parser C) (line_of a) (c_args C)) as [ns|z]; [|reflexivity]. specialize (N ns eq_refl).
  cbn [eval]. change (String.eqb "ns" "self") with false. cbv iota. rewrite assoc_put_eq. cbn [bind find_attr]. unfold get.
  assert (H2 : forall w, assoc "currentCmd" (put "root_device" w a) = Some (VStr n)) by (intros w; rewrite assoc_put_ne by discriminate; exact H).
  destruct N as [N|[r N]]; rewrite N; cbn [bind to_val].
  - cbn [bin value_eqb p_truthy truthy]. cbn [bind find_attr]. rewrite ?N. rewrite Et. apply up_done. apply H2.
  - destruct r as [|x r]; [reflexivity|]. cbn [bin value_eqb]. change (String.eqb (String x r) "") with false. cbn [p_truthy truthy]. rewrite Et. apply up_done. apply H2.
Qed.
Lemma up_run2 C a e n : assoc "currentCmd" a = Some (VStr n) ->
  (forall ns, parse_args (c_parser C) (line_of a) (c_args C) = Ok ns -> assoc "root_device" ns = Some VNone \/ exists r, assoc "root_device" ns = Some (VStr r)) ->
  exec C up_code2 e a = match exec C up_code1 [] a with
    | OReturn _ a' => OReturn PSelf (put "upgrade" (VBool false) a')
    | o => o
    end.
Proof.
  intros H N. unfold up_code2. change (exec C (SSeq (SBlock "_t1" [] up_code1) ?t) e a) with (match exec C (SBlock "_t1" [] up_code1) e a with ONext e' s' => exec C t e' s' | o => o end).
  cbn [exec bind_params map_res]. rewrite (up_run1 C a _ n H N). destruct (parse_args (c_parser C) (line_of a) (c_args C)) as [ns|z]; [|reflexivity].
  destruct (get "root_device" ns) as [| | |[|x r]| | |]; reflexivity.
Qed.
Definition named_device (c : string) (args : list string) : option string := match gives c "root_device" args with Some (VStr r) => Some r | _ => None end.
Definition device_value (o : option string) : value := match o with Some r => VStr r | None => VNone end.
Lemma up_ns c args ln ns r : In c ["F11_Upgrade"; "F20_Install"] -> parse_known_args (build (table_of c)) ln args = Ok (ns, r) ->
  assoc "root_device" ns = Some (device_value (named_device c args)).
Proof.
  intros Hc P. assert (Ct : check_table (tabulate (table_of c)) (init_of c) [] [] (table_of c) = true).
  { pose proof ups_ok as F. rewrite forallb_forall in F. assert (E : exists s, In (c, s) up_classes) by (destruct Hc as [<-|[<-|[]]]; eexists; cbn; eauto). destruct E as [s E]. specialize (F _ E). unfold up_ok in F. cbn [fst] in F. now apply andb_prop in F as [_ F]. }
  assert (Tb : table_of c = up_table) by (destruct Hc as [<-|[<-|[]]]; apply up_tables).
  pose proof (line_values_any _ _ _ _ _ P) as L. destruct (proj1 (line_ns _ _ _ _ _ _ _ _ Ct P "root_device")) as (w & A & V).
  { rewrite Tb. exact up_dest. }
  rewrite A. f_equal. assert (W : w = VNone \/ exists r, w = VStr r).
  { rewrite Tb in V. destruct V as [->|(d & Id & Dd & Pr)]; [left; exact up_default|]. pose proof (up_decls d Id) as X.
    destruct X as [X1 X2]. destruct Pr as [[K _]|(_ & s & T & _)]; [rewrite X1 in K; discriminate K|]. rewrite X2 in T. injection T as <-. right. eauto. }
  unfold named_device, gives. rewrite L, A. destruct W as [->|[s ->]]; reflexivity.
Qed.
Local Opaque gives.
Lemma up_effect c s vw d args a n a' p : In (c, s) up_classes -> (c = "F20_Install" -> n = "install") -> assoc "currentCmd" a = Some (VStr n) ->
  run (parse_ctx c vw d args) (SBlock "_r" [] s) [] a = (a', Ok p) ->
  assoc "upgrade" a' = Some (VBool (String.eqb n "upgrade")) /\
  (c <> "FC3_Upgrade" -> assoc "root_device" a' = Some (device_value (named_device c args)) /\ named_device c args <> Some "").
Proof.
  intros Hc Hn H R. rewrite run_block in R.
  assert (N : In c ["F11_Upgrade"; "F20_Install"] -> forall ns, parse_args (build (table_of c)) (line_of a) args = Ok ns -> assoc "root_device" ns = Some (device_value (named_device c args))).
  { intros Ic ns P. apply args_known in P as [r P]. exact (up_ns c args _ ns r Ic P). }
  assert (N' : In c ["F11_Upgrade"; "F20_Install"] -> forall ns, parse_args (build (table_of c)) (line_of a) args = Ok ns -> assoc "root_device" ns = Some VNone \/ exists r, assoc "root_device" ns = Some (VStr r)).
  { intros Ic ns P. rewrite (N Ic ns P). destruct (named_device c args); cbn [device_value]; eauto. }
  assert (Put : forall (w : value) (b : attrs), assoc "root_device" (put "upgrade" w b) = assoc "root_device" b) by (intros; now rewrite assoc_put_ne by discriminate).
  remember (named_device c args) as dv eqn:Dv.
  destruct Hc as [E|[E|[E|[]]]]; injection E as <- <-.
  - rewrite (up_run0 _ _ _ n H) in R. cbn [parse_ctx c_parser c_args] in R. destruct (parse_args (build (table_of "FC3_Upgrade")) (line_of a) args) as [ns|] eqn:P; [|discriminate R]. injection R as <- _.
    split; [apply assoc_put_eq|congruence].
  - assert (R1 := up_run1 (parse_ctx "F11_Upgrade" vw d args) a [] n H). cbn [parse_ctx c_parser c_args] in R1. rewrite R1 in R by (apply N'; cbn; tauto). clear R1.
    destruct (parse_args (build (table_of "F11_Upgrade")) (line_of a) args) as [ns|] eqn:P; [|discriminate R]. specialize (N ltac:(cbn; tauto) ns eq_refl). unfold get in R. rewrite N in R.
    destruct dv as [[|x r]|]; cbn [device_value] in *; [discriminate R| |]; injection R as <- _; (split; [apply assoc_put_eq|]); intros _; rewrite Put, assoc_put_eq; (split; [reflexivity|congruence]).
  - assert (R1 := up_run2 (parse_ctx "F20_Install" vw d args) a [] n H). cbn [parse_ctx c_parser c_args] in R1. rewrite R1 in R by (apply N'; cbn; tauto). clear R1.
    assert (R1 := up_run1 (parse_ctx "F20_Install" vw d args) a [] n H). cbn [parse_ctx c_parser c_args] in R1. rewrite R1 in R by (apply N'; cbn; tauto). clear R1.
    destruct (parse_args (build (table_of "F20_Install")) (line_of a) args) as [ns|] eqn:P; [|discriminate R]. specialize (N ltac:(cbn; tauto) ns eq_refl). unfold get in R. rewrite N in R.
    rewrite (Hn eq_refl). change (String.eqb "install" "upgrade") with false.
    destruct dv as [[|x r]|]; cbn [device_value] in *; [discriminate R| |]; injection R as <- _; (split; [apply assoc_put_eq|]); intros _; rewrite !Put, assoc_put_eq; (split; [reflexivity|congruence]).
Qed.
Lemma up_accept c s vw d args a n ns : In (c, s) up_classes -> assoc "currentCmd" a = Some (VStr n) -> parse_known_args (build (table_of c)) None args = Ok (ns, []) -> named_device c args <> Some "" ->
  exists a', run (parse_ctx c vw d args) (SBlock "_r" [] s) [] a = (a', Ok PSelf).
Proof.
  intros Hc H K Nd. rewrite run_block. pose proof (known_parse _ (line_of a) _ _ K) as P.
  assert (N : In c ["F11_Upgrade"; "F20_Install"] -> assoc "root_device" ns = Some (device_value (named_device c args))) by (intros Ic; exact (up_ns c args _ ns [] Ic K)).
  assert (N' : In c ["F11_Upgrade"; "F20_Install"] -> forall ns', parse_args (build (table_of c)) (line_of a) args = Ok ns' -> assoc "root_device" ns' = Some VNone \/ exists r, assoc "root_device" ns' = Some (VStr r)).
  { intros Ic ns' P'. rewrite P in P'. injection P' as <-. rewrite (N Ic). destruct (named_device c args); cbn [device_value]; eauto. }
  remember (named_device c args) as dv eqn:Dv.
  destruct Hc as [E|[E|[E|[]]]]; injection E as <- <-.
  - rewrite (up_run0 _ _ _ n H). cbn [parse_ctx c_parser c_args]. rewrite P. eauto.
  - assert (R1 := up_run1 (parse_ctx "F11_Upgrade" vw d args) a [] n H). cbn [parse_ctx c_parser c_args] in R1. rewrite R1 by (apply N'; cbn; tauto). clear R1.
    rewrite P. unfold get. rewrite N by (cbn; tauto). destruct dv as [[|x r]|]; cbn [device_value]; [congruence| |]; eauto.
  - assert (R1 := up_run2 (parse_ctx "F20_Install" vw d args) a [] n H). cbn [parse_ctx c_parser c_args] in R1. rewrite R1 by (apply N'; cbn; tauto). clear R1.
    assert (R1 := up_run1 (parse_ctx "F20_Install" vw d args) a [] n H). cbn [parse_ctx c_parser c_args] in R1. rewrite R1 by (apply N'; cbn; tauto). clear R1.
    rewrite P. unfold get. rewrite N by (cbn; tauto). destruct dv as [[|x r]|]; cbn [device_value]; [congruence| |]; eauto.
Qed.
Local Ltac step_all := repeat (first [progress (change (String.eqb "self" "self") with true) | progress (change (String.eqb "_t1" "self") with false) | progress (change (String.eqb "_t2" "self") with false) | progress (change (String.eqb "retval" "self") with false) |
  match goal with |- context [py_is (VBool ?x) VNone] => change (py_is (VBool x) VNone) with false | |- context [py_is (VStr ?x) VNone] => change (py_is (VStr x) VNone) with false | |- context [py_is VNone VNone] => change (py_is VNone VNone) with true end |
  rewrite assoc_put_eq | progress cbv iota | progress cbn [bind find_attr to_val bin un py_is py_add py_str is_none p_truthy truthy negb device_value]]).
Lemma up_text0 C a e b : assoc "upgrade" a = Some (VBool b) -> exec C up_str0 e a = OReturn (PV (VStr (install_text b None))) a.
Proof.
  intros H. unfold up_str0, self_at. cbn [exec bind_params map_res eval]. step_all. rewrite H. step_all. destruct b; step_all; rewrite ?H; step_all; reflexivity.
Qed.
Lemma up_text1 C a e b dv : assoc "upgrade" a = Some (VBool b) -> assoc "root_device" a = Some (device_value dv) ->
  exec C up_str1 e a = OReturn (PV (VStr (install_text b (if b then dv else None)))) a.
Proof.
  intros H G. unfold up_str1. pose proof (up_text0 C a) as T0. remember up_str0 as t eqn:Et. unfold self_at. cbn [exec bind_params map_res eval]. step_all. rewrite H. step_all.
  destruct b; step_all.
  - rewrite G. destruct dv as [r|]; step_all.
    + rewrite ?G. step_all. cbn. unfold install_text, install_line. rewrite ?app_assoc_s. reflexivity.
    + rewrite (T0 _ _ H). step_all. reflexivity.
  - rewrite (T0 _ _ H). step_all. reflexivity.
Qed.

(** ** Lines of a handler *)

Lemma up_of v cm dm n c : In (v, (cm, dm)) handlers -> In (n, c) cm -> in_use_at v n -> up_class v n c = true.
Proof.
  intros Hv Hc Hn. pose proof up_handlers as T. rewrite forallb_forall in T. specialize (T _ Hv). cbn [fst snd] in T. rewrite forallb_forall in T. specialize (T _ Hc). cbn [fst snd] in T.
  destruct Hn as [[-> L]|[-> L]].
  - change (String.eqb "upgrade" "upgrade") with true in T. cbv iota in T. rewrite (proj2 (Z.ltb_lt _ _) L) in T. exact T.
  - change (String.eqb "install" "upgrade") with false in T. change (String.eqb "install" "install") with true in T. cbv iota in T. rewrite (proj2 (Z.ltb_lt _ _) L) in T. exact T.
Qed.
Lemma up_known v n c : up_class v n c = true -> (exists s, In (c, s) up_classes) /\ (c = "FC3_Upgrade" <-> (v < F11)%Z) /\ (c = "F20_Install" -> n = "install").
Proof.
  unfold up_class. destruct (Z.ltb_spec v F11) as [A|A].
  - intros E. apply String.eqb_eq in E. subst c. split; [eexists; left; reflexivity|]. split; [tauto|discriminate].
  - destruct (Z.ltb v F20).
    + intros E. apply String.eqb_eq in E. subst c. split; [eexists; right; left; reflexivity|]. split; [split; [discriminate|lia]|discriminate].
    + intros E. apply andb_prop in E as [E En]. apply String.eqb_eq in En. apply mem_In in E. destruct E as [<-|[<-|[]]]; (split; [eexists; cbn; eauto|]); (split; [split; [discriminate|lia]|auto]).
Qed.
Lemma up_parts c s : In (c, s) up_classes -> parse_code c = Some (SBlock "_r" [] s) /\ own_parse c = true /\ based (comes_from c "__str__") = false /\
  exists t, method_of c "__str__" [] = Some (SBlock "_r" [] t) /\ t = (if String.eqb c "FC3_Upgrade" then up_str0 else up_str1).
Proof.
  intros I. pose proof up_codes as Pc. rewrite Forall_forall in Pc. split; [exact (Pc _ I)|]. pose proof ups_ok as F. rewrite forallb_forall in F. specialize (F _ I). unfold up_ok in F. cbn [fst] in F.
  apply andb_prop in F as [F _]. apply andb_prop in F as [O B]. split; [exact O|]. split; [now apply negb_true_iff|]. eexists. split; [|reflexivity].
  destruct up_strs as (M0 & M1 & M2). destruct I as [E|[E|[E|[]]]]; injection E as <- <-; assumption.
Qed.
Lemma up_written rest c s a d b dv : In (c, s) up_classes -> assoc "upgrade" a = Some (VBool b) -> (c <> "FC3_Upgrade" -> assoc "root_device" a = Some (device_value dv)) -> (c = "FC3_Upgrade" -> dv = None) ->
  cl_str (class_model (cmd_class rest) c) a d = install_text b (if b then dv else None).
Proof.
  intros I U R D. destruct (up_parts c s I) as (Pc & O & B & t & M & Et). rewrite (class_str rest c _ _ a d Pc B M). unfold cmd_str. rewrite run_block. destruct (String.eqb_spec c "FC3_Upgrade") as [E|E].
  - rewrite Et, (up_text0 _ a [] b U). cbn [snd bind]. rewrite (D E). now destruct b.
  - rewrite Et, (up_text1 _ a [] b dv U (R E)). reflexivity.
Qed.

(** ** The theorems *)

(** After an accepted install or upgrade line, whatever came before it, the object says
    what the last line says and writes it; until F19 both names stand for that object. *)
Theorem C57_install : forall rest v cm dm n c h line args ln h1,
  In (v, (cm, dm)) handlers -> In (n, c) cm -> in_use_at v n -> used rest cm dm h ->
  handle_command h line (n :: args) ln = (h1, None) ->
  let dev := device_of v c args in
  let up := String.eqb n "upgrade" in
  dev <> Some "" /\
  exists o, (forall m, In (m, c) cm -> served h1 m = Some o) /\
    ((v < F20)%Z -> forall m c', In m ["install"; "upgrade"] -> In (m, c') cm -> served h1 m = Some o) /\
    assoc "upgrade" (o_attrs o) = Some (VBool up) /\
    ((F11 <= v)%Z -> assoc "root_device" (o_attrs o) = Some (match dev with Some r => VStr r | None => VNone end)) /\
    o_str o = install_text up (if up then dev else None).
Proof.
  intros rest v cm dm n c h line args ln h1 Hv Hc Hn U E dev up. pose proof (up_of v cm dm n c Hv Hc Hn) as Uc. destruct (up_known v n c Uc) as ([s Is] & C0 & C2).
  destruct (up_parts c s Is) as (Pc & O & _). destruct (block_accepted rest v cm dm h n c s line args ln h1 Hv Hc U Pc O E) as (q & vw & a' & d' & p & Sq & R & J).
  destruct (up_effect c s vw (o_data q) args _ n a' p Is C2 (stamp_name _ _ _ _) R) as [A K].
  assert (Dd : (F11 <= v)%Z -> dev = named_device c args) by (intros V; unfold dev, device_of; rewrite (proj2 (Z.leb_le _ _) V); reflexivity).
  assert (D0 : (v < F11)%Z -> dev = None) by (intros V; unfold dev, device_of; rewrite (proj2 (Z.leb_gt _ _) V); reflexivity).
  assert (V1 : c <> "FC3_Upgrade" -> (F11 <= v)%Z) by (intros X; destruct (Z.ltb_spec v F11) as [L|L]; [apply C0 in L; contradiction|exact L]).
  split. { destruct (Z.ltb_spec v F11) as [L|L]; [rewrite (D0 L); discriminate|]. rewrite (Dd L). apply K. intros X. apply C0 in X. lia. }
  exists (mkObj (class_model (cmd_class rest) c) a' d'). cbn [o_attrs]. split; [exact J|]. split; [|split; [exact A|split]].
  - intros V m c' Hm Im. apply J. assert (X : up_class v m c' = true). { apply (up_of v cm dm m c' Hv Im). destruct Hm as [<-|[<-|[]]]; [right|left]; (split; [reflexivity|]); unfold F20, RHEL8 in *; lia. }
    assert (c' = c) as ->; [|exact Im]. unfold up_class in X, Uc. rewrite (proj2 (Z.ltb_lt _ _) V) in X, Uc. destruct (Z.ltb v F11); apply String.eqb_eq in X, Uc; congruence.
  - intros V. rewrite (Dd V). change (match named_device c args with Some r => VStr r | None => VNone end) with (device_value (named_device c args)). apply K. intros X. apply C0 in X. lia.
  - unfold o_str. cbn [o_class o_attrs o_data]. apply (up_written rest c s a' d' up dev Is A).
    + intros X. rewrite (Dd (V1 X)). now apply K.
    + intros X. apply D0. now apply C0.
Qed.
Print Assumptions C57_install.

Lemma known_of p ln ws ns : parse_args p ln ws = Ok ns -> parse_known_args p ln ws = Ok (ns, []).
Proof. unfold parse_args. destruct (parse_known_args p ln ws) as [[n [|x r]]|]; cbn [bind]; try discriminate. now intros [= ->]. Qed.
Local Transparent build.
Lemma device_read ln r : exists ns, parse_args (build up_table) ln ["--root-device=" ++ r]%string = Ok ns /\ get "root_device" ns = VStr r.
Proof.
  destruct (C02_line_means (build up_table) ln [OVal "--root-device" r] (set (declared (p_actions (build up_table))) "root_device" (VStr r))) as (ns & E & M).
  - reflexivity.
  - reflexivity.
  - intros a Ha d Hd. cbn in Ha. destruct Ha as [<-|[]]. cbn in Hd. discriminate.
  - intros a Ha Hr. cbn in Ha. destruct Ha as [<-|[]]. discriminate Hr.
  - reflexivity.
  - exists ns. split; [exact E|]. rewrite M. reflexivity.
Qed.
Lemma none_read ln : parse_args (build []) ln [] = Ok [] /\ exists ns, parse_args (build up_table) ln [] = Ok ns /\ get "root_device" ns = VNone.
Proof. split; [reflexivity|]. eexists. split; reflexivity. Qed.
Local Transparent gives table_of.
Lemma none_named : named_device "FC3_Upgrade" [] <> Some "".
Proof. vm_compute. discriminate. Qed.
Local Opaque build gives table_of.
Lemma device_line r : bare r -> shlex_split true ("upgrade --root-device=" ++ r) = Ok ["upgrade"; "--root-device=" ++ r]%string /\ unbroken ("upgrade --root-device=" ++ r) = true.
Proof.
  intros B. apply bare_spec in B. split.
  - pose proof B as B'. unfold plain_text in B'. apply andb_prop in B' as [_ B'].
    assert (Bc : forall s, all_chars plain_char s = true -> all_chars (ShlexFacts.bare_char true) s = true).
    { induction s as [|c s IH]; [reflexivity|]. cbn [all_chars]. intros H. apply andb_prop in H as [H1 H2]. rewrite (IH H2), andb_true_r. apply plain_char_spec in H1 as (E1 & E2 & E3 & E4 & _).
      unfold ShlexFacts.bare_char. rewrite E1, E2, E3, E4. reflexivity. }
    change ("upgrade --root-device=" ++ r)%string with (ShlexFacts.word_text [ShlexFacts.Bare "upgrade"] ++ (" --root-device=" ++ r))%string. rewrite ShlexFacts.split_word by reflexivity.
    change (" --root-device=" ++ r)%string with (String " " ("--root-device=" ++ r)). rewrite ShlexFacts.split_white by reflexivity.
    assert (T : ShlexFacts.word_text [ShlexFacts.Bare ("--root-device=" ++ r)%string] = ("--root-device=" ++ r)%string) by (unfold ShlexFacts.word_text; cbn [map concat_all ShlexFacts.frag_text]; apply app_nil_r_s).
    rewrite <- (app_nil_r_s ("--root-device=" ++ r)). rewrite <- T at 1. rewrite ShlexFacts.split_word.
    + change (shlex_split true "") with (Ok (@nil string)). cbn [bind]. unfold ShlexFacts.word_val. cbn [map concat_all ShlexFacts.frag_val]. rewrite !app_nil_r_s. reflexivity.
    + unfold ShlexFacts.word_ok. rewrite T. cbn [forallb ShlexFacts.frag_ok]. rewrite Bc; [reflexivity|]. rewrite all_chars_app, B'. reflexivity.
    + reflexivity.
  - rewrite unbroken_app, (plain_text_no_lf r B). reflexivity.
Qed.

(** That line, read again in the same version, whatever came before, says the same, if the
    device needs no quotes. *)
Theorem C57_install_round : forall rest v cm dm n c dev h line ln,
  In (v, (cm, dm)) handlers -> In (n, c) cm -> in_use_at v n -> used rest cm dm h ->
  (forall r, dev = Some r -> (F11 <= v)%Z /\ n = "upgrade" /\ bare r) ->
  let up := String.eqb n "upgrade" in
  exists args o, unbroken (install_line up dev) = true /\
    shlex_split true (install_line up dev) = Ok (n :: args) /\
    snd (handle_command h line (n :: args) ln) = None /\
    served (fst (handle_command h line (n :: args) ln)) n = Some o /\
    assoc "upgrade" (o_attrs o) = Some (VBool up) /\
    ((F11 <= v)%Z -> assoc "root_device" (o_attrs o) = Some (match dev with Some r => VStr r | None => VNone end)) /\
    o_str o = install_text up dev.
Proof.
  intros rest v cm dm n c dev h line ln Hv Hc Hn U Hd up. pose proof (up_of v cm dm n c Hv Hc Hn) as Uc. destruct (up_known v n c Uc) as ([s Is] & C0 & C2).
  destruct (up_parts c s Is) as (Pc & O & _). destruct up_tables as (T0 & T1 & T2).
  set (args := match dev with Some r => ["--root-device=" ++ r]%string | None => [] end).
  assert (L : unbroken (install_line up dev) = true /\ shlex_split true (install_line up dev) = Ok (n :: args)).
  { destruct dev as [r|]; subst args.
    - destruct (Hd r eq_refl) as (_ & -> & B). destruct (device_line r B) as [D1 D2]. unfold up. change (String.eqb "upgrade" "upgrade") with true. cbn [install_line]. auto.
    - destruct Hn as [[-> _]|[-> _]]; split; vm_compute; reflexivity. }
  assert (Fc : In c ["F11_Upgrade"; "F20_Install"] \/ c = "FC3_Upgrade") by (destruct Is as [E|[E|[E|[]]]]; injection E as <- _; cbn; tauto).
  assert (K : exists ns, parse_known_args (build (table_of c)) None args = Ok (ns, []) /\ (In c ["F11_Upgrade"; "F20_Install"] -> get "root_device" ns = device_value dev)).
  { destruct Fc as [Fc|Fc].
    - assert (Tc : table_of c = up_table) by (destruct Fc as [<-|[<-|[]]]; assumption). rewrite Tc. destruct dev as [r|]; subst args.
      + destruct (device_read None r) as (ns & E & G). exists ns. split; [now apply known_of|]. intros _. exact G.
      + destruct (proj2 (none_read None)) as (ns & E & G). exists ns. split; [now apply known_of|]. intros _. exact G.
    - destruct dev as [r|]; subst args; [exfalso; destruct (Hd r eq_refl) as (V & _); apply C0 in Fc; lia|]. subst c. rewrite T0. exists []. split; [apply known_of; apply none_read|].
      intros [E|[E|[]]]; discriminate E. }
  destruct K as (ns & K & G).
  assert (Nd : In c ["F11_Upgrade"; "F20_Install"] -> named_device c args = dev).
  { intros Ic. specialize (G Ic). unfold get in G. rewrite (up_ns c args _ ns [] Ic K) in G. destruct (named_device c args), dev; cbn [device_value] in G; congruence. }
  assert (Vc : (F11 <= v)%Z -> In c ["F11_Upgrade"; "F20_Install"]) by (intros V; destruct Fc as [Fc|Fc]; [exact Fc|apply C0 in Fc; lia]).
  assert (Dv : device_of v c args = dev).
  { unfold device_of. destruct (Z.leb_spec F11 v) as [V|V]; [exact (Nd (Vc V))|]. destruct dev as [r|]; [|reflexivity]. destruct (Hd r eq_refl) as (V' & _). lia. }
  assert (N : snd (handle_command h line (n :: args) ln) = None).
  { apply (block_taken rest v cm dm h n c s line args ln Hv Hc U Pc O). intros vw d a Ha. apply (up_accept c s vw d args a n ns Is Ha K). destruct Fc as [Fc|Fc].
    - rewrite (Nd Fc). intros X. destruct (Hd "" X) as (_ & _ & B & _). congruence.
    - destruct dev as [r|]; [exfalso; destruct (Hd r eq_refl) as (V & _); apply C0 in Fc; lia|]. unfold args. rewrite Fc. exact none_named. }
  destruct (handle_command h line (n :: args) ln) as [h1 r1] eqn:E. cbn [fst snd] in *. subst r1.
  destruct (C57_install rest v cm dm n c h line args ln h1 Hv Hc Hn U E) as (_ & o & So & _ & Ou & Or & Ot). rewrite Dv in Or, Ot. fold up in Ou, Ot.
  exists args, o. rewrite E. cbn [fst snd]. destruct L as [L1 L2]. repeat (split; [first [assumption|reflexivity|exact (So n Hc)]|]). rewrite Ot.
  destruct dev as [r|]; [destruct (Hd r eq_refl) as (_ & -> & _); reflexivity|]. now destruct up.
Qed.
Print Assumptions C57_install_round.

Local Transparent comes_from method_of table_of removed_of data_str new_attrs init_of parse_flow marked_b strict reads names_ok used_classes parse_code build own_parse inits check_table tabulate gives.
(** A device with a blank in it is accepted in quotes and written without them: the text is
    a line that is refused. *)
Theorem C57_root_refuted :
  texts_after F19 [["upgrade"; "--root-device=LABEL=a b"]] "upgrade" = Some ([true], Some (install_text true (Some "LABEL=a b"))) /\
  shlex_split true (install_line true (Some "LABEL=a b")) = Ok ["upgrade"; "--root-device=LABEL=a"; "b"] /\
  texts_after F19 [["upgrade"; "--root-device=LABEL=a"; "b"]] "upgrade" = Some ([false], Some "").
Proof. repeat split; vm_compute; reflexivity. Qed.
Print Assumptions C57_root_refuted.

Example C57_install_examples :
  texts_after F19 [["install"]; ["upgrade"; "--root-device=sda1"]] "install" = Some ([true; true], Some ("# Upgrade existing installation" ++ nl ++ "upgrade --root-device=sda1" ++ nl)%string) /\
  texts_after F19 [["upgrade"; "--root-device=sda1"]; ["install"]] "upgrade" = Some ([true; true], Some ("# Install OS instead of upgrade" ++ nl ++ "install" ++ nl)%string) /\
  texts_after F19 [["upgrade"; "--root-device="]] "upgrade" = Some ([false], Some "").
Proof. repeat split; vm_compute; reflexivity. Qed.
