(** * C59: commands that are only switched on *)

From Verif Require Import PyStrFacts Shlex ArgParse ArgParseFacts HandlerFacts ClassModel PropsHandler PropsClass PyText.
From Verif Require Import HandlerSpec ParserSpec Parser ArgSpec ArgDecl PropsArgs PropsStorage NsFacts NsRange ArgTable PyFlowFacts PyClass CmdFacts CmdFlow CmdLines CmdStrict RoundSpec PyWordsFacts CmdRound PropsRound PropsStore PropsRepo NamedFacts PropsNamed.
From Coq Require Import Lia.
From Verif Require Import Value.
Local Open Scope string_scope.
Local Open Scope list_scope.
Local Arguments Ascii.eqb : simpl never.
Local Arguments String.eqb : simpl never.

(** ** Specification *)

(** The commands, with the attribute that is set and the text that is then written; in the
    versions given they are in use (not deprecated). *)
Definition switches : list (string * (string * string)) :=
  [("lilocheck", ("check", "lilocheck" ++ nl));
   ("interactive", ("interactive", "# Use interactive kickstart installation method" ++ nl ++ "interactive" ++ nl));
   ("unsupported_hardware", ("unsupported_hardware", "unsupported_hardware" ++ nl));
   ("skipx", ("skipx", "# Do not configure the X Window System" ++ nl ++ "skipx" ++ nl));
   ("mediacheck", ("mediacheck", "mediacheck" ++ nl));
   ("zerombr", ("zerombr", "# Clear the Master Boot Record" ++ nl ++ "zerombr" ++ nl))]%string.
Definition switch_in_use (v : Z) (n : string) : Prop := (n = "lilocheck" -> (v < FC4)%Z) /\ (n = "interactive" -> (v < F14)%Z).
(** Before F9 zerombr takes any words and ignores them. *)
Definition switch_takes (v : Z) (n : string) (args : list string) : Prop := args = [] \/ (n = "zerombr" /\ (v < F9)%Z).

(** ** Lines of a command without options *)

Lemma empty_class (ln : option N) s : exists c, parse_optional (build []) ln s = Ok c /\ match c with CO (Some _) _ => False | _ => True end.
Proof.
  unfold parse_optional. change (p_optmap (build [])) with (@nil (string * action)).
  destruct s as [|x s]; [eexists; split; [reflexivity|exact I]|].
  destruct (Ascii.eqb x DASH); cbn [negb assoc]; [|eexists; split; [reflexivity|exact I]].
  destruct s as [|y s]; [eexists; split; [reflexivity|exact I]|].
  assert (T : option_tuples (build []) (String x (String y s)) = []) by (unfold option_tuples; destruct (partition_char EQUALS (String x (String y s))) as [[? ?] ?]; reflexivity).
  rewrite T. destruct (partition_char EQUALS (String x (String y s))) as [[o sep] v].
  destruct sep, (Ascii.eqb y DASH), (negative_number (String x (String y s))), (has_char SP (String x (String y s))); eexists; (split; [reflexivity|exact I]).
Qed.
Definition no_action (l : list (string * cls)) : Prop := Forall (fun sc => match snd sc with CO (Some _) _ => False | _ => True end) l.
Lemma empty_classes ln args : exists l, classify (build []) ln args = Ok l /\ map fst l = args /\ no_action l.
Proof.
  induction args as [|s args (l & E & M & N)]; [exists []; repeat split; constructor|]. cbn [classify]. destruct (String.eqb s "--").
  - eexists. split; [reflexivity|]. split; [cbn [map fst]; now rewrite map_map, map_id|]. constructor; [exact I|]. clear. induction args; constructor; [exact I|assumption].
  - destruct (empty_class ln s) as (c & C & D). rewrite C, E. eexists. split; [reflexivity|]. split; [cbn [map fst]; now rewrite M|]. constructor; assumption.
Qed.
Lemma span_parts l : let '(a, b) := span_nonopt l in l = app a b.
Proof. induction l as [|[s c] l IH]; [reflexivity|]. cbn [span_nonopt]. destruct (is_co c); [reflexivity|]. destruct (span_nonopt l) as [a b]. now rewrite IH at 1. Qed.
Lemma empty_loop ln f : forall rest ns seen ex, no_action rest -> Datatypes.length rest < f ->
  parse_loop f ln rest (mkPstate ns seen ex []) = Ok (mkPstate ns seen (app ex (map fst rest)) []).
Proof.
  induction f as [|f IH]; intros rest ns seen ex N L; [lia|]. unfold parse_loop; fold parse_loop.
  assert (Cp : consume_positionals ln rest (mkPstate ns seen ex []) = Ok (mkPstate ns seen ex [], rest)) by reflexivity.
  destruct (existsb (fun sc => is_co (snd sc)) rest) eqn:X.
  - destruct rest as [|[s c] r]; [discriminate X|]. inversion N as [|? ? N1 N2]; subst. cbn [snd] in N1. cbn [Datatypes.length] in L.
    assert (Other : is_co c = false -> (let '(pre, r0) := span_nonopt ((s, c) :: r) in parse_loop f ln r0 (mkPstate ns seen (app ex (map fst pre)) [])) = Ok (mkPstate ns seen (app ex (map fst ((s, c) :: r))) [])).
    { intros Hc. pose proof (span_parts r) as Sp. cbn [span_nonopt]. rewrite Hc. destruct (span_nonopt r) as [a b]. rewrite IH.
      - f_equal. f_equal. rewrite <- app_assoc. f_equal. rewrite <- map_app. cbn [app]. now rewrite Sp.
      - rewrite Sp in N2. apply Forall_app in N2. apply N2.
      - rewrite Sp in L. rewrite app_length in L. lia. }
    destruct c as [| |[a|] e].
    + cbv iota. rewrite Cp. cbn [bind]. rewrite Nat.ltb_irrefl. cbn [s_ns s_seen s_extras s_pos]. exact (Other eq_refl).
    + cbv iota. rewrite Cp. cbn [bind]. rewrite Nat.ltb_irrefl. cbn [s_ns s_seen s_extras s_pos]. exact (Other eq_refl).
    + contradiction.
    + cbn [consume_optional bind fst snd s_ns s_seen s_extras s_pos]. rewrite IH; [|assumption|lia]. f_equal. f_equal. cbn [map fst]. now rewrite <- app_assoc.
  - rewrite Cp. reflexivity.
Qed.
(** A parser without arguments leaves all words over. *)
Lemma empty_known ln args : parse_known_args (build []) ln args = Ok ([], args).
Proof.
  unfold parse_known_args. destruct (empty_classes ln args) as (l & E & M & N). rewrite E. cbn [bind]. change (p_actions (build [])) with (@nil action). cbn [filter init_ns fold_left].
  rewrite empty_loop; [|exact N|lia]. cbn [bind finish s_seen s_ns s_extras app]. now rewrite M.
Qed.
Lemma empty_args ln args : (exists ns, parse_args (build []) ln args = Ok ns) <-> args = [].
Proof. unfold parse_args. rewrite empty_known. cbn [bind snd fst]. destruct args; split; try discriminate; eauto. intros [ns H]. discriminate H. Qed.

(** ** The classes *)

Definition on_code (b : string) : stmt := SSeq (SParse "_") (SSeq (SAttr "self" b (EConst (VBool true))) (SReturn (EVar "self"))).
Definition any_code (b : string) : stmt := SSeq (SParseKnown "_" "extra") (SSeq (SIf (EVar "extra") SPass SPass) (SSeq (SAttr "self" b (EConst (VBool true))) (SReturn (EVar "self")))).
Definition on_str (b t : string) : stmt :=
  SSeq (SBlock "_t1" [] (SReturn (EConst (VStr "")))) (SSeq (SAssign "retval" (EVar "_t1"))
    (SSeq (SIf (self_at b) (SAssign "retval" (EBin BAdd (EVar "retval") (EConst (VStr t)))) SPass) (SReturn (EVar "retval")))).
(** Class, command, does it ignore words. *)
Definition on_classes : list (string * (string * bool)) :=
  [("FC3_LiloCheck", ("lilocheck", false)); ("FC3_Interactive", ("interactive", false)); ("RHEL6_UnsupportedHardware", ("unsupported_hardware", false));
   ("FC3_SkipX", ("skipx", false)); ("FC4_MediaCheck", ("mediacheck", false)); ("FC3_ZeroMbr", ("zerombr", true)); ("F9_ZeroMbr", ("zerombr", false))].
Lemma on_parts : Forall (fun e : string * (string * bool) => let '(c, (n, any)) := e in exists b t, assoc n switches = Some (b, t) /\ ~ In b ["seen"; "lineno"; "currentLine"; "currentCmd"] /\
  parse_code c = Some (SBlock "_r" [] (if any then any_code b else on_code b)) /\ own_parse c = true /\ based (comes_from c "__str__") = false /\
  method_of c "__str__" [] = Some (SBlock "_r" [] (on_str b t)) /\ table_of c = []) on_classes.
Proof.
  repeat (apply Forall_cons || apply Forall_nil); cbv beta iota; eexists; eexists; (split; [vm_compute; reflexivity|]); (split; [cbn; intuition discriminate|]); repeat split; vm_compute; reflexivity.
Qed.
Definition on_class (v : Z) (n c : string) : bool :=
  if (if String.eqb n "lilocheck" then Z.ltb v FC4 else if String.eqb n "interactive" then Z.ltb v F14 else has_key n switches) then
    match assoc c on_classes with Some (n', any) => String.eqb n n' && Bool.eqb any (String.eqb n "zerombr" && Z.ltb v F9) | None => false end
  else true.
Lemma on_handlers : forallb (fun h => forallb (fun nc => on_class (fst h) (fst nc) (snd nc)) (fst (snd h))) handlers = true.
Proof. vm_compute. reflexivity. Qed.
Local Opaque comes_from method_of table_of removed_of data_str new_attrs init_of parse_flow marked_b strict reads names_ok used_classes parse_code build own_parse inits check_table tabulate flag gives.
Lemma on_of v cm dm n c b t : In (v, (cm, dm)) handlers -> In (n, c) cm -> switch_in_use v n -> assoc n switches = Some (b, t) ->
  exists any, In (c, (n, any)) on_classes /\ (any = true <-> n = "zerombr" /\ (v < F9)%Z).
Proof.
  intros Hv Hc [U1 U2] A. pose proof on_handlers as T. rewrite forallb_forall in T. specialize (T _ Hv). cbn [fst snd] in T. rewrite forallb_forall in T. specialize (T _ Hc). cbn [fst snd] in T. unfold on_class in T.
  assert (X : (if String.eqb n "lilocheck" then Z.ltb v FC4 else if String.eqb n "interactive" then Z.ltb v F14 else has_key n switches) = true).
  { destruct (String.eqb_spec n "lilocheck") as [E|_]; [apply Z.ltb_lt; auto|]. destruct (String.eqb_spec n "interactive") as [E|_]; [apply Z.ltb_lt; auto|]. unfold has_key. now rewrite A. }
  rewrite X in T. destruct (assoc c on_classes) as [[n' any]|] eqn:C; [|discriminate T]. apply andb_prop in T as [T1 T2]. apply String.eqb_eq in T1. subst n'. apply Bool.eqb_prop in T2.
  exists any. split; [exact (HandlerFacts.assoc_In _ _ _ C)|]. rewrite T2. split.
  - intros H. apply andb_prop in H as [H1 H2]. apply String.eqb_eq in H1. now apply Z.ltb_lt in H2.
  - intros [-> H2]. apply Z.ltb_lt in H2. rewrite H2. reflexivity.
Qed.
Lemma on_run C a b : (exists ns, parse_args (c_parser C) (line_of a) (c_args C) = Ok ns) -> run C (SBlock "_r" [] (on_code b)) [] a = (put b (VBool true) a, Ok PSelf).
Proof. intros [ns H]. rewrite run_block. unfold on_code. cbn [exec]. rewrite H. reflexivity. Qed.
Lemma on_not C a b z : parse_args (c_parser C) (line_of a) (c_args C) = Err z -> run C (SBlock "_r" [] (on_code b)) [] a = (a, Err z).
Proof. intros H. rewrite run_block. unfold on_code. cbn [exec]. rewrite H. reflexivity. Qed.
Lemma any_run C a b ns r : parse_known_args (c_parser C) (line_of a) (c_args C) = Ok (ns, r) -> run C (SBlock "_r" [] (any_code b)) [] a = (put b (VBool true) a, Ok PSelf).
Proof. intros H. rewrite run_block. unfold any_code. cbn [exec]. rewrite H. cbn [eval]. change (String.eqb "extra" "self") with false. cbv iota. rewrite assoc_put_eq. cbn [bind]. destruct r; reflexivity. Qed.
Local Ltac step_all := repeat (first [progress (change (String.eqb "self" "self") with true) | progress (change (String.eqb "_t1" "self") with false) | progress (change (String.eqb "retval" "self") with false) |
  progress (change (String.eqb "extra" "self") with false) | progress (change (String.eqb "ns" "self") with false) |
  rewrite assoc_put_eq | progress cbv iota | progress cbn [bind find_attr to_val bin un py_is py_add py_str is_none p_truthy truthy negb]]).
Lemma on_same_text rest c n any b t x y d e : In (c, (n, any)) on_classes -> assoc n switches = Some (b, t) -> assoc b x = assoc b y -> cl_str (class_model (cmd_class rest) c) x d = cl_str (class_model (cmd_class rest) c) y e.
Proof.
  intros I A H. pose proof on_parts as F. rewrite Forall_forall in F. specialize (F _ I). cbv beta iota in F. destruct F as (b' & t' & A' & _ & Pc & O & B & M & _). rewrite A in A'. injection A' as <- <-.
  rewrite (class_str rest _ _ _ x d Pc B M), (class_str rest _ _ _ y e Pc B M). unfold cmd_str. rewrite !run_block. unfold on_str, self_at. cbn [exec bind_params map_res eval]. 
  step_all. rewrite H. destruct (assoc b y) as [w|]; step_all; [|reflexivity]. destruct (truthy w); reflexivity.
Qed.
Lemma on_written rest c n any b t x d : In (c, (n, any)) on_classes -> assoc n switches = Some (b, t) -> assoc b x = Some (VBool true) -> cl_str (class_model (cmd_class rest) c) x d = t.
Proof.
  intros I A H. pose proof on_parts as F. rewrite Forall_forall in F. specialize (F _ I). cbv beta iota in F. destruct F as (b' & t' & A' & _ & Pc & O & B & M & _). rewrite A in A'. injection A' as <- <-.
  rewrite (class_str rest _ _ _ x d Pc B M). unfold cmd_str. rewrite !run_block. unfold on_str, self_at. cbn [exec bind_params map_res eval]. 
  step_all. rewrite H. reflexivity.
Qed.

(** ** The theorem *)

(** A line of such a command is accepted, whatever came before it, exactly if it has no words
    (or they are ignored). Then the command is on and written so; a refused line leaves the
    setting and the text as they were. *)
Theorem C59_switch : forall rest v cm dm n c b t h line args ln q,
  In (v, (cm, dm)) handlers -> In (n, c) cm -> assoc n switches = Some (b, t) -> switch_in_use v n -> used rest cm dm h -> served h n = Some q ->
  exists o, served (fst (handle_command h line (n :: args) ln)) n = Some o /\
    (switch_takes v n args -> snd (handle_command h line (n :: args) ln) = None /\ assoc b (o_attrs o) = Some (VBool true) /\ o_str o = t) /\
    (~ switch_takes v n args -> snd (handle_command h line (n :: args) ln) <> None /\ assoc b (o_attrs o) = assoc b (o_attrs q) /\ o_str o = o_str q).
Proof.
  intros rest v cm dm n c b t h line args ln q Hv Hc A Iu U Sq0. destruct (on_of v cm dm n c b t Hv Hc Iu A) as (any & I & Any).
  pose proof on_parts as F. rewrite Forall_forall in F. specialize (F _ I). cbv beta iota in F. destruct F as (b' & t' & A' & Nb & Pc & O & B & M & T). rewrite A in A'. injection A' as <- <-.
  destruct (line_cases rest v cm dm Hv h n c line args ln U Hc) as (q' & vw & a' & d' & Sq & Cq & Vd & P & J). rewrite Sq0 in Sq. injection Sq as <-.
  exists (mkObj (class_model (cmd_class rest) c) a' d'). split; [rewrite (J n c Hc), eqb_refl_s; reflexivity|]. cbn [o_attrs]. unfold o_str. cbn [o_class o_attrs o_data]. rewrite Cq.
  rewrite (class_parse rest c _ Pc O) in P. unfold cmd_parse in P.
  set (a := stamp n line ln (o_attrs q)) in *. set (X := parse_ctx c vw (o_data q) args) in *.
  assert (Sb : assoc b a = assoc b (o_attrs q)). { unfold a, stamp. cbn [In] in Nb. rewrite !assoc_put_ne by (intros E; apply Nb; rewrite E; tauto). reflexivity. }
  assert (On : run X (SBlock "_r" [] (if any then any_code b else on_code b)) [] a = (put b (VBool true) a, Ok PSelf) -> snd (handle_command h line (n :: args) ln) = None /\ assoc b a' = Some (VBool true)).
  { intros R. rewrite R in P. cbn [bind] in P. destruct P as (-> & _ & N). split; [exact N|apply assoc_put_eq]. }
  assert (Kn : parse_known_args (c_parser X) (line_of a) (c_args X) = Ok ([], args)). { unfold X. cbn [parse_ctx c_parser c_args]. rewrite T. apply empty_known. }
  assert (Ka : (exists ns, parse_args (c_parser X) (line_of a) (c_args X) = Ok ns) <-> args = []). { unfold X. cbn [parse_ctx c_parser c_args]. rewrite T. apply empty_args. }
  split.
  - intros Tk. assert (R : run X (SBlock "_r" [] (if any then any_code b else on_code b)) [] a = (put b (VBool true) a, Ok PSelf)).
    { destruct any; [exact (any_run _ _ _ _ _ Kn)|]. apply on_run. apply Ka. destruct Tk as [->|Z]; [reflexivity|]. apply Any in Z. discriminate Z. }
    destruct (On R) as [N S]. split; [exact N|]. split; [exact S|]. exact (on_written rest c n any b t a' d' I A S).
  - intros Tk. destruct any; [exfalso; apply Tk; right; now apply Any|].
    destruct (parse_args (c_parser X) (line_of a) (c_args X)) as [ns|z] eqn:E.
    { exfalso. apply Tk. left. apply Ka. eauto. }
    rewrite (on_not X a b z E) in P. destruct P as (-> & -> & N). rewrite N. split; [discriminate|]. split; [exact Sb|]. exact (on_same_text rest c n false b t _ _ _ _ I A Sb).
Qed.
Print Assumptions C59_switch.

(** The text is the command's line, for some commands after one comment line; that line,
    split into words and read by a handler with any history, is accepted and written the
    same. *)
Theorem C59_round : forall rest v cm dm n c b t h line ln q,
  In (v, (cm, dm)) handlers -> In (n, c) cm -> assoc n switches = Some (b, t) -> switch_in_use v n -> used rest cm dm h -> served h n = Some q ->
  exists pre o, t = (pre ++ n ++ nl)%string /\ (pre = "" \/ exists s, pre = ("#" ++ s ++ nl)%string /\ unbroken s = true) /\ shlex_split true n = Ok [n] /\
    snd (handle_command h line [n] ln) = None /\ served (fst (handle_command h line [n] ln)) n = Some o /\
    assoc b (o_attrs o) = Some (VBool true) /\ o_str o = t.
Proof.
  intros rest v cm dm n c b t h line ln q Hv Hc A Iu U Sq. destruct (C59_switch rest v cm dm n c b t h line [] ln q Hv Hc A Iu U Sq) as (o & So & Yes & _).
  destruct (Yes (or_introl eq_refl)) as (N & B & T).
  assert (W : exists pre, t = (pre ++ n ++ nl)%string /\ (pre = "" \/ exists s, pre = ("#" ++ s ++ nl)%string /\ unbroken s = true) /\ shlex_split true n = Ok [n]).
  { apply HandlerFacts.assoc_In in A. unfold switches in A. cbn [In] in A.
    destruct A as [A|[A|[A|[A|[A|[A|[]]]]]]]; injection A as <- <- <-.
    - exists "". split; [reflexivity|]. split; [now left|vm_compute; reflexivity].
    - exists ("# Use interactive kickstart installation method" ++ nl)%string. split; [reflexivity|]. split; [right; exists " Use interactive kickstart installation method"; split; vm_compute; reflexivity|vm_compute; reflexivity].
    - exists "". split; [reflexivity|]. split; [now left|vm_compute; reflexivity].
    - exists ("# Do not configure the X Window System" ++ nl)%string. split; [reflexivity|]. split; [right; exists " Do not configure the X Window System"; split; vm_compute; reflexivity|vm_compute; reflexivity].
    - exists "". split; [reflexivity|]. split; [now left|vm_compute; reflexivity].
    - exists ("# Clear the Master Boot Record" ++ nl)%string. split; [reflexivity|]. split; [right; exists " Clear the Master Boot Record"; split; vm_compute; reflexivity|vm_compute; reflexivity]. }
  destruct W as (pre & W1 & W2 & W3). exists pre, o. auto 10.
Qed.
Print Assumptions C59_round.

Local Transparent comes_from method_of table_of removed_of data_str new_attrs init_of parse_flow marked_b strict reads names_ok used_classes parse_code build own_parse inits check_table tabulate flag gives.
Example C59_examples :
  texts_after FC3 [["lilocheck"; "x"]; ["lilocheck"]; ["lilocheck"; "--x"]] "lilocheck" = Some ([false; true; false], Some ("lilocheck" ++ nl)%string) /\
  texts_after RHEL8 [["skipx"; "yes"]] "skipx" = Some ([false], Some "") /\
  texts_after RHEL8 [["mediacheck"]] "mediacheck" = Some ([true], Some ("mediacheck" ++ nl)%string) /\
  texts_after FC3 [["zerombr"; "yes"; "--x"]] "zerombr" = Some ([true], Some ("# Clear the Master Boot Record" ++ nl ++ "zerombr" ++ nl)%string) /\
  texts_after F9 [["zerombr"; "yes"]] "zerombr" = Some ([false], Some "") /\
  switch_in_use FC3 "lilocheck" /\ switch_takes FC3 "zerombr" ["yes"] /\ ~ switch_takes F9 "zerombr" ["yes"].
Proof.
  repeat match goal with |- _ /\ _ => split end; try (vm_compute; reflexivity).
  - split; [intros _; vm_compute; reflexivity|discriminate].
  - right. split; [reflexivity|vm_compute; reflexivity].
  - intros [H|[_ H]]; [discriminate H|vm_compute in H; discriminate H].
Qed.
