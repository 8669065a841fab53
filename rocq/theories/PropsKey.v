(** * C58: key *)

From Verif Require Import PyStrFacts Shlex ArgParseFacts HandlerFacts ClassModel PropsHandler PropsClass PyText.
From Verif Require Import HandlerSpec ParserSpec Parser ArgSpec ArgDecl PropsArgs PropsStorage NsFacts NsRange ArgTable PyFlowFacts PyClass CmdFacts CmdFlow CmdLines CmdStrict RoundSpec PyWordsFacts CmdRound PropsRound PropsStore PropsRepo NamedFacts PropsNamed.
From Verif Require Import PropsProbe.
From Coq Require Import Lia.
From Verif Require Import Value.
Local Open Scope string_scope.
Local Open Scope list_scope.
Local Arguments Ascii.eqb : simpl never.
Local Arguments String.eqb : simpl never.

(** ** Specification *)

(** The words of a key line that are no options of it, and whether it gives --skip. *)
Definition key_words (args : list string) : list string :=
  match parse_known_args (build (table_of "RHEL5_Key")) None args with Ok (_, r) => r | Err _ => [] end.
Definition key_skips (args : list string) : bool := match gives "RHEL5_Key" "skip" args with Some (VBool b) => b | _ => false end.
(** What a line says: no key, or one word. *)
Inductive key_said : Type := Skipped | Key (w : string).
Definition key_says (args : list string) (k : key_said) : Prop :=
  match k with
  | Skipped => key_skips args = true
  | Key w => key_skips args = false /\ key_words args = [w] /\ startswith w "-" = false
  end.
Definition key_value (k : key_said) : value := match k with Skipped => VInt (-99) | Key w => VStr w end.
Definition key_line (k : key_said) : string := match k with Skipped => "key --skip" | Key w => "key " ++ w end.
Definition key_text (k : key_said) : string := match k with Key "" => "" | _ => key_line k ++ nl end.

(** ** The class (commands/key.py:28-68) *)

Definition key_end : stmt :=
  SSeq (SIf (self_at "skip") (SAttr "self" "key" (EConst (VInt (-99))))
    (SIf (EBin BNe (EUn ULen (EVar "extra")) (EConst (VInt 1))) (SRaise true "key")
      (SIf (EUn UDashed (EVar "extra")) (SRaise true "Unexpected arguments to %(command)s command: %(options)s")
        (SAttr "self" "key" (EBin BIndex (EVar "extra") (EConst (VInt 0))))))) (SReturn (EVar "self")).
Definition key_code : stmt := SSeq (SParseKnown "ns" "extra") (SSeq (SSetTo "ns" "self") key_end).
Definition key_str : stmt :=
  SSeq (SBlock "_t1" [] (SReturn (EConst (VStr "")))) (SSeq (SAssign "retval" (EVar "_t1"))
    (SSeq (SIf (EBin BEq (self_at "key") (EConst (VInt (-99)))) (SAssign "retval" (EBin BAdd (EVar "retval") (EConst (VStr ("key --skip" ++ nl)))))
      (SIf (self_at "key") (SAssign "retval" (EBin BAdd (EVar "retval") (EBin BAdd (EBin BAdd (EConst (VStr "key ")) (EUn UStr (self_at "key"))) (EConst (VStr nl))))) SPass))
      (SReturn (EVar "retval")))).
Definition key_table : list tableop := [OpAdd (mkDecl ["--skip"] "skip" KStoreConst (NInt 0) (VBool true) (VBool false) TStr None false false)].
Lemma key_parts : parse_code "RHEL5_Key" = Some (SBlock "_r" [] key_code) /\ own_parse "RHEL5_Key" = true /\ based (comes_from "RHEL5_Key" "__str__") = false /\
  method_of "RHEL5_Key" "__str__" [] = Some (SBlock "_r" [] key_str) /\ table_of "RHEL5_Key" = key_table /\
  check_table (tabulate (table_of "RHEL5_Key")) (init_of "RHEL5_Key") [] [] (table_of "RHEL5_Key") = true.
Proof. repeat split; vm_compute; reflexivity. Qed.
Lemma key_dest : In "skip" (PyRound.dests (tabulate key_table)) /\ tab_default (t_acts (tabulate key_table)) "skip" = VBool false.
Proof. split; vm_compute; tauto. Qed.
Lemma key_decls d : In d (all_decls (tabulate key_table)) -> d_kind d = KStoreConst /\ d_const d = VBool true.
Proof. intros H. assert (F : Forall (fun d => d_kind d = KStoreConst /\ d_const d = VBool true) (all_decls (tabulate key_table))) by (vm_compute; repeat constructor). rewrite Forall_forall in F. exact (F d H). Qed.
Lemma key_handlers : forallb (fun h => forallb (fun nc => if String.eqb (fst nc) "key" then String.eqb (snd nc) "RHEL5_Key" else true) (fst (snd h))) handlers = true.
Proof. vm_compute. reflexivity. Qed.
Lemma key_of v cm dm c : In (v, (cm, dm)) handlers -> In ("key", c) cm -> c = "RHEL5_Key".
Proof.
  intros Hv Hc. pose proof key_handlers as T. rewrite forallb_forall in T. specialize (T _ Hv). cbn [fst snd] in T. rewrite forallb_forall in T. specialize (T _ Hc). cbn [fst snd] in T.
  change (String.eqb "key" "key") with true in T. now apply String.eqb_eq in T.
Qed.
Lemma word_read w : startswith w "-" = false -> exists ns, parse_known_args (build key_table) None [w] = Ok (ns, [w]) /\ assoc "skip" ns = Some (VBool false).
Proof.
  intros H. destruct w as [|x w]; [eexists; split; vm_compute; reflexivity|]. assert (X : Ascii.eqb "-" x = false). { destruct w; cbn [startswith] in H; rewrite andb_true_r in H; exact H. }
  assert (Y : Ascii.eqb x "-" = false) by (rewrite Ascii.eqb_sym; exact X).
  eexists. split.
  { cbv -[String.eqb Ascii.eqb]. rewrite ?X, ?Y. destruct (String.eqb_spec (String x w) "--") as [E|E]; [injection E as -> _; discriminate X|]. reflexivity. }
  reflexivity.
Qed.
Lemma skip_read : exists ns, parse_known_args (build key_table) None ["--skip"] = Ok (ns, []) /\ assoc "skip" ns = Some (VBool true).
Proof. eexists. split; vm_compute; reflexivity. Qed.
Local Opaque comes_from method_of table_of removed_of data_str new_attrs init_of parse_flow marked_b strict reads names_ok used_classes parse_code build own_parse inits check_table tabulate flag gives.
Local Ltac step_all := repeat (first [progress (change (String.eqb "self" "self") with true) | progress (change (String.eqb "_t1" "self") with false) | progress (change (String.eqb "retval" "self") with false) |
  progress (change (String.eqb "extra" "self") with false) | progress (change (String.eqb "ns" "self") with false) |
  rewrite assoc_put_eq | progress cbv iota | progress cbn [bind find_attr to_val bin un py_is py_add py_str is_none p_truthy truthy negb]]).
Local Transparent gives.
Lemma key_skip args ln ns r : parse_known_args (build (table_of "RHEL5_Key")) ln args = Ok (ns, r) ->
  assoc "skip" ns = Some (VBool (key_skips args)) /\ key_words args = r /\ NoDup (map fst ns) /\ assoc "key" ns = None.
Proof.
  intros P. destruct key_parts as (_ & _ & _ & _ & T & Ct). pose proof (line_values_any _ _ _ _ _ P) as L. pose proof (line_ns _ _ _ _ _ _ _ _ Ct P) as N.
  split; [|split; [|split]].
  - destruct (proj1 (N "skip")) as (w & A & V). { rewrite T. apply key_dest. }
    rewrite A. f_equal. unfold key_skips, gives. rewrite L, A. rewrite T in V. destruct V as [->|(d & Id & Dd & Pr)].
    + rewrite (proj2 key_dest). reflexivity.
    + destruct (key_decls d Id) as [X1 X2]. destruct Pr as [[_ E]|(K & _)]; [|rewrite X1 in K; discriminate K]. rewrite X2 in E. rewrite E. reflexivity.
  - unfold key_words. rewrite (up_parse_known_args ln None _ args _ P). reflexivity.
  - exact (known_dict _ _ _ _ _ P).
  - apply (proj2 (N "key")). rewrite T. vm_compute. intuition discriminate.
Qed.
Local Opaque gives.
Lemma key_run C a ns ex b : parse_known_args (c_parser C) (line_of a) (c_args C) = Ok (ns, ex) -> assoc "skip" ns = Some (VBool b) -> NoDup (map fst ns) ->
  (b = true -> run C (SBlock "_r" [] key_code) [] a = (put "key" (VInt (-99)) (set_to_obj ns a), Ok PSelf)) /\
  (forall w, b = false -> ex = [w] -> startswith w "-" = false -> run C (SBlock "_r" [] key_code) [] a = (put "key" (VStr w) (set_to_obj ns a), Ok PSelf)) /\
  (b = false -> (forall w, ex = [w] -> startswith w "-" = true) -> exists z, run C (SBlock "_r" [] key_code) [] a = (set_to_obj ns a, Err z)).
Proof.
  intros P A D. assert (Sk : assoc "skip" (set_to_obj ns a) = Some (VBool b)) by (rewrite set_to_obj_overlay by exact D; unfold overlay; rewrite A; reflexivity).
  rewrite !run_block. unfold key_code. cbn [exec]. rewrite P. rewrite assoc_put_ne by discriminate. rewrite assoc_put_eq. unfold set_to. change (String.eqb "self" "self") with true. cbv iota.
  unfold key_end, self_at. cbn [exec eval]. step_all. rewrite Sk. step_all. repeat split.
  - intros ->. reflexivity.
  - intros w -> -> W. cbn. rewrite W. reflexivity.
  - intros -> F. destruct ex as [|w [|w' ex]].
    + cbn. eauto.
    + cbn. rewrite (F w eq_refl). cbn. eauto.
    + cbn [py_len Datatypes.length bind]. step_all. replace (py_eq (VInt (Z.of_nat (S (S (Datatypes.length ex))))) (VInt 1)) with false; [cbn; eauto|]. symmetry. cbn [py_eq]. apply Z.eqb_neq. lia.
Qed.
Lemma key_written rest a d k : assoc "key" a = Some (key_value k) -> cl_str (class_model (cmd_class rest) "RHEL5_Key") a d = key_text k.
Proof.
  intros H. destruct key_parts as (Pc & _ & B & M & _). rewrite (class_str rest _ _ _ a d Pc B M). unfold cmd_str. rewrite run_block. unfold key_str, self_at.
  cbn [exec bind_params map_res eval]. step_all. rewrite H. destruct k as [|[|x w]]; cbn [key_value key_text key_line]; step_all; try rewrite H; reflexivity.
Qed.

Lemma key_runs vw d args a : 
  (forall k, key_says args k -> exists a', run (parse_ctx "RHEL5_Key" vw d args) (SBlock "_r" [] key_code) [] a = (a', Ok PSelf)) /\
  (forall a' p, run (parse_ctx "RHEL5_Key" vw d args) (SBlock "_r" [] key_code) [] a = (a', Ok p) -> exists k, key_says args k /\ assoc "key" a' = Some (key_value k)).
Proof.
  destruct (parse_known_args (build (table_of "RHEL5_Key")) (line_of a) args) as [[ns ex]|z] eqn:P.
  - destruct (key_skip args _ ns ex P) as (A & W & D & _). destruct (key_run (parse_ctx "RHEL5_Key" vw d args) a ns ex (key_skips args) P A D) as (R1 & R2 & R3). split.
    + intros [|w]; cbn [key_says]; [intros K; eauto|]. intros (K1 & K2 & K3). rewrite W in K2. rewrite (R2 w K1 K2 K3). eauto.
    + intros a' p R. destruct (key_skips args) eqn:K.
      * rewrite (R1 eq_refl) in R. injection R as <- _. exists Skipped. split; [exact K|apply assoc_put_eq].
      * assert (E : exists w, ex = [w] /\ startswith w "-" = false).
        { destruct ex as [|w [|w' ex]].
          - destruct (R3 eq_refl) as [z Z]; [discriminate|]. rewrite R in Z. discriminate Z.
          - destruct (startswith w "-") eqn:Sw; [|eauto]. destruct (R3 eq_refl) as [z Z]; [intros w0 X; injection X as <-; exact Sw|]. rewrite R in Z. discriminate Z.
          - destruct (R3 eq_refl) as [z Z]; [discriminate|]. rewrite R in Z. discriminate Z. }
        destruct E as (w & E1 & E2). rewrite (R2 w eq_refl E1 E2) in R. injection R as <- _. exists (Key w). cbn [key_says key_value]. rewrite W. split; [auto|apply assoc_put_eq].
  - assert (P' : forall ns ex, parse_known_args (build (table_of "RHEL5_Key")) None args <> Ok (ns, ex)). { intros ns ex X. rewrite (up_parse_known_args None (line_of a) _ args _ X) in P. discriminate P. }
    split.
    + intros k K. exfalso. assert (W : key_words args = [] /\ key_skips args = false).
      { Local Transparent gives. unfold key_words, key_skips, gives, line_values. Local Opaque gives. destruct (parse_known_args (build (table_of "RHEL5_Key")) None args) as [[ns ex]|] eqn:E; [destruct (P' ns ex eq_refl)|auto]. }
      destruct W as [W1 W2]. destruct k; cbn [key_says] in K; [congruence|]. destruct K as (_ & K & _). congruence.
    + intros a' p R. rewrite run_block in R. unfold key_code in R. cbn [exec parse_ctx c_parser c_args] in R. rewrite P in R. discriminate R.
Qed.

(** ** The theorems *)

(** A key line is accepted, whatever came before it, if and only if it gives --skip or has
    exactly one word besides options, which does not begin with a dash. *)
Theorem C58_accepts : forall rest v cm dm c h line args ln,
  In (v, (cm, dm)) handlers -> In ("key", c) cm -> used rest cm dm h ->
  (snd (handle_command h line ("key" :: args) ln) = None <-> exists k, key_says args k).
Proof.
  intros rest v cm dm c h line args ln Hv Hc U. pose proof (key_of v cm dm c Hv Hc) as ->. destruct key_parts as (Pc & O & _). split.
  - intros N. destruct (handle_command h line ("key" :: args) ln) as [h1 r1] eqn:E. cbn [snd] in N. subst r1.
    destruct (block_accepted rest v cm dm h _ _ _ line args ln h1 Hv Hc U Pc O E) as (q & vw & a' & d' & p & Sq & R & J). destruct (proj2 (key_runs _ _ _ _) _ _ R) as (k & K & _). eauto.
  - intros [k K]. apply (block_taken rest v cm dm h _ _ _ line args ln Hv Hc U Pc O). intros vw d a Ha. exact (proj1 (key_runs vw d args a) k K).
Qed.
Print Assumptions C58_accepts.

(** After an accepted line the key is what that line says, whatever came before, and that is
    what is written. *)
Theorem C58_key : forall rest v cm dm c h line args ln h1,
  In (v, (cm, dm)) handlers -> In ("key", c) cm -> used rest cm dm h ->
  handle_command h line ("key" :: args) ln = (h1, None) ->
  exists k o, key_says args k /\ served h1 "key" = Some o /\
    assoc "key" (o_attrs o) = Some (key_value k) /\ o_str o = key_text k.
Proof.
  intros rest v cm dm c h line args ln h1 Hv Hc U E. pose proof (key_of v cm dm c Hv Hc) as ->. destruct key_parts as (Pc & O & _).
  destruct (block_accepted rest v cm dm h _ _ _ line args ln h1 Hv Hc U Pc O E) as (q & vw & a' & d' & p & Sq & R & J). destruct (proj2 (key_runs _ _ _ _) _ _ R) as (k & K & A).
  exists k. eexists. split; [exact K|]. split; [exact (J _ Hc)|]. split; [exact A|]. unfold o_str. cbn [o_class o_attrs o_data]. now apply key_written.
Qed.
Print Assumptions C58_key.

Lemma key_kept vw d args a a' z : run (parse_ctx "RHEL5_Key" vw d args) (SBlock "_r" [] key_code) [] a = (a', Err z) -> assoc "key" a' = assoc "key" a.
Proof.
  intros R. destruct (parse_known_args (build (table_of "RHEL5_Key")) (line_of a) args) as [[ns ex]|y] eqn:P.
  - destruct (key_skip args _ ns ex P) as (A & W & D & N). destruct (key_run (parse_ctx "RHEL5_Key" vw d args) a ns ex (key_skips args) P A D) as (R1 & R2 & R3).
    assert (K : assoc "key" (set_to_obj ns a) = assoc "key" a) by (rewrite set_to_obj_overlay by exact D; unfold overlay; now rewrite N).
    destruct (key_skips args); [rewrite (R1 eq_refl) in R; discriminate R|].
    assert (E : forall w, ex = [w] -> startswith w "-" = true). { intros w E1. destruct (startswith w "-") eqn:Sw; [reflexivity|]. rewrite (R2 w eq_refl E1 Sw) in R. discriminate R. }
    destruct (R3 eq_refl E) as [z' Z]. rewrite Z in R. injection R as <- _. exact K.
  - rewrite run_block in R. unfold key_code in R. cbn [exec parse_ctx c_parser c_args] in R. rewrite P in R. injection R as <- _. reflexivity.
Qed.
Lemma key_same_text rest a b d e : assoc "key" a = assoc "key" b -> cl_str (class_model (cmd_class rest) "RHEL5_Key") a d = cl_str (class_model (cmd_class rest) "RHEL5_Key") b e.
Proof.
  intros H. destruct key_parts as (Pc & _ & B & M & _). rewrite (class_str rest _ _ _ a d Pc B M), (class_str rest _ _ _ b e Pc B M). unfold cmd_str. rewrite !run_block. unfold key_str, self_at.
  cbn [exec bind_params map_res eval]. step_all. rewrite H. destruct (assoc "key" b) as [w|]; step_all; [|reflexivity].
  destruct (py_eq w (VInt (-99))); step_all; [reflexivity|]. destruct (truthy w); step_all; [|reflexivity]. destruct (py_str w); reflexivity.
Qed.

(** A refused line leaves the key and what is written as they were. *)
Theorem C58_refused : forall rest v cm dm c h line args ln h1 e q,
  In (v, (cm, dm)) handlers -> In ("key", c) cm -> used rest cm dm h -> served h "key" = Some q ->
  handle_command h line ("key" :: args) ln = (h1, Some e) ->
  exists o, served h1 "key" = Some o /\ assoc "key" (o_attrs o) = assoc "key" (o_attrs q) /\ o_str o = o_str q.
Proof.
  intros rest v cm dm c h line args ln h1 e q Hv Hc U Sq0 E. pose proof (key_of v cm dm c Hv Hc) as ->. destruct key_parts as (Pc & O & _).
  destruct (line_cases rest v cm dm Hv h "key" "RHEL5_Key" line args ln U Hc) as (q' & vw & a' & d' & Sq & Cq & Vd & P & J). rewrite Sq0 in Sq. injection Sq as <-. rewrite E in J, P. cbn [fst snd] in J, P.
  rewrite (class_parse rest _ _ Pc O) in P. unfold cmd_parse in P.
  destruct (run (parse_ctx "RHEL5_Key" vw (o_data q) args) (SBlock "_r" [] key_code) [] (stamp "key" line ln (o_attrs q))) as [a2 [p2|e2]] eqn:R.
  - exfalso. destruct (proj2 (key_runs _ _ _ _) _ _ R) as (k & K & _). pose proof (proj2 (C58_accepts rest v cm dm _ h line args ln Hv Hc U) (ex_intro _ k K)) as N. rewrite E in N. discriminate N.
  - destruct P as (-> & -> & _). assert (K : assoc "key" a2 = assoc "key" (o_attrs q)). { rewrite (key_kept _ _ _ _ _ _ R). unfold stamp. now rewrite 4!assoc_put_ne by discriminate. }
    eexists. split; [rewrite (J "key" _ Hc), eqb_refl_s; reflexivity|]. cbn [o_attrs]. split; [exact K|]. unfold o_str. cbn [o_class o_attrs o_data]. rewrite Cq. now apply key_same_text.
Qed.
Print Assumptions C58_refused.

(** The line says only one thing. *)
Lemma key_one args k k' : key_says args k -> key_says args k' -> k = k'.
Proof. destruct k, k'; cbn [key_says]; try congruence; [intros ? (? & _); congruence|intros (? & _) ?; congruence|]. intros (_ & A & _) (_ & B & _). congruence. Qed.
Lemma key_reads k : match k with Skipped => True | Key w => bare w /\ startswith w "-" = false end ->
  key_says match k with Skipped => ["--skip"] | Key w => [w] end k.
Proof.
  destruct key_parts as (_ & _ & _ & _ & T & _). destruct k as [|w]; cbn [key_says].
  - intros _. destruct skip_read as (ns & E & A). rewrite <- T in E. destruct (key_skip _ _ _ _ E) as (B & _). congruence.
  - intros [_ W]. destruct (word_read w W) as (ns & E & A). rewrite <- T in E. destruct (key_skip _ _ _ _ E) as (B & C & _). split; [congruence|auto].
Qed.

(** The written line is read again, by a handler with any history, and says the same, if
    the word needs no quotes. *)
Theorem C58_round : forall rest v cm dm c h line ln k,
  In (v, (cm, dm)) handlers -> In ("key", c) cm -> used rest cm dm h ->
  match k with Skipped => True | Key w => bare w /\ startswith w "-" = false end ->
  exists l args o, key_text k = (l ++ nl)%string /\ unbroken l = true /\ shlex_split true l = Ok ("key" :: args) /\
    snd (handle_command h line ("key" :: args) ln) = None /\
    served (fst (handle_command h line ("key" :: args) ln)) "key" = Some o /\
    assoc "key" (o_attrs o) = Some (key_value k) /\ o_str o = key_text k.
Proof.
  intros rest v cm dm c h line ln k Hv Hc U Hk. pose proof (key_reads k Hk) as K. set (args := match k with Skipped => ["--skip"] | Key w => [w] end) in *.
  pose proof (proj2 (C58_accepts rest v cm dm c h line args ln Hv Hc U) (ex_intro _ k K)) as N.
  destruct (handle_command h line ("key" :: args) ln) as [h1 r1] eqn:E. cbn [snd] in N. subst r1.
  destruct (C58_key rest v cm dm c h line args ln h1 Hv Hc U E) as (k' & o & K' & So & A & T). rewrite (key_one args k' k K' K) in A, T.
  exists (key_line k), args, o. rewrite E. cbn [fst snd].
  assert (B : Forall bare ("key" :: args)). { constructor; [apply bare_spec; vm_compute; reflexivity|]. subst args. destruct k as [|w]; (constructor; [|constructor]); [apply bare_spec; vm_compute; reflexivity|apply Hk]. }
  assert (L : key_line k = join " " ("key" :: args)) by (subst args; destruct k; reflexivity).
  split. { destruct k as [|[|x w]]; [reflexivity| |reflexivity]. destruct Hk as [[X _] _]. congruence. }
  rewrite L. split; [now apply words_unbroken|]. split; [apply words_split; [exact B|discriminate]|]. auto.
Qed.
Print Assumptions C58_round.

Local Transparent comes_from method_of table_of removed_of data_str new_attrs init_of parse_flow marked_b strict reads names_ok used_classes parse_code build own_parse inits check_table tabulate flag gives.
(** A key with a blank is accepted in quotes and written without them, and the written line
    is refused; an empty key is accepted and not written. *)
Theorem C58_quotes_refuted :
  texts_after RHEL5 [["key"; "a b"]] "key" = Some ([true], Some ("key a b" ++ nl)%string) /\
  shlex_split true "key a b" = Ok ["key"; "a"; "b"] /\
  texts_after RHEL5 [["key"; "a"; "b"]] "key" = Some ([false], Some "") /\
  texts_after RHEL5 [["key"; ""]] "key" = Some ([true], Some "").
Proof. repeat split; vm_compute; reflexivity. Qed.
Print Assumptions C58_quotes_refuted.
Example C58_examples :
  texts_after RHEL5 [["key"; "--skip"]; ["key"; "abc"]] "key" = Some ([true; true], Some ("key abc" ++ nl)%string) /\
  texts_after RHEL5 [["key"; "abc"]; ["key"; "--skip"]] "key" = Some ([true; true], Some ("key --skip" ++ nl)%string) /\
  texts_after RHEL6 [["key"; "abc"]; ["key"]; ["key"; "-x"]] "key" = Some ([true; false; false], Some ("key abc" ++ nl)%string) /\
  key_says ["abc"] (Key "abc") /\ key_says ["--skip"; "a"; "b"] Skipped.
Proof. repeat split; vm_compute; reflexivity. Qed.
