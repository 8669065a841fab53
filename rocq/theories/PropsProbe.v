(** * C49: deviceprobe *)

From Verif Require Import PyStrFacts Shlex ArgParseFacts HandlerFacts ClassModel PropsHandler PropsClass PyText.
From Verif Require Import HandlerSpec ParserSpec Parser ArgSpec ArgDecl PropsArgs PropsStorage NsFacts NsRange ArgTable PyFlowFacts PyClass CmdFacts CmdFlow CmdLines CmdStrict RoundSpec PyWordsFacts CmdRound PropsRound PropsStore PropsRepo NamedFacts PropsNamed.
From Verif Require ShlexFacts.
From Coq Require Import Lia.
From Verif Require Import Value.
Local Open Scope string_scope.
Local Open Scope list_scope.
Local Arguments Ascii.eqb : simpl never.
Local Arguments String.eqb : simpl never.

(** ** Specification *)

(** What is written for the words [s], joined by blanks. *)
Definition probe_text (s : string) : string := if String.eqb s "" then "" else ("deviceprobe " ++ s ++ nl)%string.

(** ** The class (commands/deviceprobe.py:25-46) *)

Definition probe_code : stmt := SSeq (SAttr "self" "deviceprobe" (EBin BJoin (EConst (VStr " ")) EArgs)) (SReturn (EVar "self")).
Definition probe_str : stmt :=
  SSeq (SBlock "_t1" [] (SReturn (EConst (VStr "")))) (SSeq (SAssign "retval" (EVar "_t1"))
    (SSeq (SIf (self_at "deviceprobe") (SAssign "retval" (EBin BAdd (EVar "retval") (EBin BAdd (EBin BAdd (EConst (VStr "deviceprobe ")) (EUn UStr (self_at "deviceprobe"))) (EConst (VStr nl))))) SPass)
      (SReturn (EVar "retval")))).
Lemma probe_parts : parse_code "FC3_DeviceProbe" = Some (SBlock "_r" [] probe_code) /\ own_parse "FC3_DeviceProbe" = true /\ based (comes_from "FC3_DeviceProbe" "__str__") = false /\
  method_of "FC3_DeviceProbe" "__str__" [] = Some (SBlock "_r" [] probe_str).
Proof. repeat split; vm_compute; reflexivity. Qed.
Lemma probe_handlers : forallb (fun h => forallb (fun nc => if String.eqb (fst nc) "deviceprobe" && Z.ltb (fst h) RHEL8 then String.eqb (snd nc) "FC3_DeviceProbe" else true) (fst (snd h))) handlers = true.
Proof. vm_compute. reflexivity. Qed.
Lemma probe_of v cm dm c : In (v, (cm, dm)) handlers -> In ("deviceprobe", c) cm -> (v < RHEL8)%Z -> c = "FC3_DeviceProbe".
Proof.
  intros Hv Hc L. pose proof probe_handlers as T. rewrite forallb_forall in T. specialize (T _ Hv). cbn [fst snd] in T. rewrite forallb_forall in T. specialize (T _ Hc). cbn [fst snd] in T.
  change (String.eqb "deviceprobe" "deviceprobe") with true in T. rewrite (proj2 (Z.ltb_lt _ _) L) in T. cbn [andb] in T. now apply String.eqb_eq in T.
Qed.
Local Opaque comes_from method_of table_of removed_of data_str new_attrs init_of parse_flow marked_b strict reads names_ok used_classes parse_code build own_parse inits check_table tabulate flag gives.

Local Ltac step_all := repeat (first [progress (change (String.eqb "self" "self") with true) | progress (change (String.eqb "_t1" "self") with false) | progress (change (String.eqb "retval" "self") with false) |
  rewrite assoc_put_eq | progress cbv iota | progress cbn [bind find_attr to_val bin un py_is py_add py_str is_none p_truthy truthy negb]]).
Lemma probe_run C a : run C (SBlock "_r" [] probe_code) [] a = (put "deviceprobe" (VStr (join " " (c_args C))) a, Ok PSelf).
Proof. rewrite run_block. reflexivity. Qed.
Lemma probe_written rest a d s : assoc "deviceprobe" a = Some (VStr s) -> cl_str (class_model (cmd_class rest) "FC3_DeviceProbe") a d = probe_text s.
Proof.
  intros H. destruct probe_parts as (Pc & _ & B & M). rewrite (class_str rest _ _ _ a d Pc B M). unfold cmd_str. rewrite run_block. unfold probe_str, self_at.
  cbn [exec bind_params map_res eval]. step_all. rewrite H. step_all. unfold probe_text. destruct s as [|x s]; cbn [String.eqb].
  - step_all. reflexivity.
  - reflexivity.
Qed.
Lemma words_split ws : Forall bare ws -> ws <> [] -> shlex_split true (join " " ws) = Ok ws.
Proof.
  intros B N. set (f := fun w : string => [ShlexFacts.Bare w]). 
  assert (T : map ShlexFacts.word_text (map f ws) = ws). { rewrite map_map. rewrite <- (map_id ws) at 2. apply map_ext. intros w. unfold f, ShlexFacts.word_text. cbn [map concat_all ShlexFacts.frag_text]. apply app_nil_r_s. }
  assert (V : map ShlexFacts.word_val (map f ws) = ws). { rewrite map_map. rewrite <- (map_id ws) at 2. apply map_ext. intros w. unfold f, ShlexFacts.word_val. cbn [map concat_all ShlexFacts.frag_val]. apply app_nil_r_s. }
  pose proof (ShlexFacts.split_words true (map f ws) "") as S. rewrite T, V, app_nil_r_s in S. rewrite S.
  - change (shlex_split true "") with (Ok (@nil string)). cbn [bind]. now rewrite app_nil_r.
  - rewrite forallb_forall. intros x Hx. apply in_map_iff in Hx as (w & <- & Hw). rewrite Forall_forall in B. apply B in Hw. pose proof (proj1 (bare_spec w) Hw) as P. unfold plain_text in P. apply andb_prop in P as [P0 P].
    assert (Bc : forall s, all_chars plain_char s = true -> all_chars (ShlexFacts.bare_char true) s = true).
    { induction s as [|c s IH]; [reflexivity|]. cbn [all_chars]. intros H. apply andb_prop in H as [H1 H2]. rewrite (IH H2), andb_true_r. apply plain_char_spec in H1 as (E1 & E2 & E3 & E4 & _).
      unfold ShlexFacts.bare_char. rewrite E1, E2, E3, E4. reflexivity. }
    unfold f, ShlexFacts.word_ok. cbn [forallb ShlexFacts.frag_ok]. rewrite (Bc w P). unfold ShlexFacts.word_text. cbn [map concat_all ShlexFacts.frag_text]. rewrite app_nil_r_s. destruct w; [destruct Hw; congruence|reflexivity].
  - intros X. apply N. now apply map_eq_nil in X.
  - reflexivity.
Qed.
Lemma words_unbroken ws : Forall bare ws -> unbroken (join " " ws) = true.
Proof.
  induction ws as [|w ws IH]; [reflexivity|]. intros B. inversion B as [|? ? B1 B2]; subst. apply bare_spec in B1. specialize (IH B2). destruct ws as [|w' ws]; [exact (plain_text_no_lf w B1)|].
  change (join " " (w :: w' :: ws)) with (w ++ " " ++ join " " (w' :: ws))%string. rewrite !unbroken_app, IH, (plain_text_no_lf w B1). reflexivity.
Qed.

(** ** The theorems *)

(** A deviceprobe line is always accepted, whatever came before it: the setting is its words
    joined by blanks, every other setting is as it was, and that is what is written. *)
Theorem C49_deviceprobe : forall rest v cm dm c h line args ln,
  In (v, (cm, dm)) handlers -> In ("deviceprobe", c) cm -> (v < RHEL8)%Z -> used rest cm dm h ->
  exists q o, served h "deviceprobe" = Some q /\
    snd (handle_command h line ("deviceprobe" :: args) ln) = None /\
    served (fst (handle_command h line ("deviceprobe" :: args) ln)) "deviceprobe" = Some o /\
    assoc "deviceprobe" (o_attrs o) = Some (VStr (join " " args)) /\
    (forall k, ~ In k ["deviceprobe"; "currentCmd"; "currentLine"; "lineno"; "seen"] -> assoc k (o_attrs o) = assoc k (o_attrs q)) /\
    o_str o = probe_text (join " " args).
Proof.
  intros rest v cm dm c h line args ln Hv Hc L U. pose proof (probe_of v cm dm c Hv Hc L) as ->. destruct probe_parts as (Pc & O & _).
  assert (N : snd (handle_command h line ("deviceprobe" :: args) ln) = None).
  { apply (block_taken rest v cm dm h _ _ _ line args ln Hv Hc U Pc O). intros vw d a Ha. eexists. apply probe_run. }
  destruct (handle_command h line ("deviceprobe" :: args) ln) as [h1 r1] eqn:E. cbn [fst snd] in *. subst r1.
  destruct (block_accepted rest v cm dm h _ _ _ line args ln h1 Hv Hc U Pc O E) as (q & vw & a' & d' & p & Sq & R & J).
  rewrite probe_run in R. cbn [parse_ctx c_args] in R. injection R as <- _.
  exists q, (mkObj (class_model (cmd_class rest) "FC3_DeviceProbe") (put "deviceprobe" (VStr (join " " args)) (stamp "deviceprobe" line ln (o_attrs q))) d'). cbn [o_attrs].
  split; [exact Sq|]. split; [reflexivity|]. split; [exact (J _ Hc)|]. split; [apply assoc_put_eq|]. split.
  - intros k Hk. cbn [In] in Hk. rewrite assoc_put_ne by (intros X; apply Hk; auto). unfold stamp. rewrite !assoc_put_ne by (intros X; apply Hk; auto 10). reflexivity.
  - unfold o_str. cbn [o_class o_attrs o_data]. apply probe_written. apply assoc_put_eq.
Qed.
Print Assumptions C49_deviceprobe.

(** If its words are bare words joined by blanks, the written line, read by a handler of any
    version with the command, gives the same setting and the same text. *)
Theorem C49_deviceprobe_round : forall rest v cm dm c h line ln ws,
  In (v, (cm, dm)) handlers -> In ("deviceprobe", c) cm -> (v < RHEL8)%Z -> used rest cm dm h ->
  Forall bare ws -> ws <> [] ->
  exists l o, probe_text (join " " ws) = (l ++ nl)%string /\ unbroken l = true /\ shlex_split true l = Ok ("deviceprobe" :: ws) /\
    snd (handle_command h line ("deviceprobe" :: ws) ln) = None /\
    served (fst (handle_command h line ("deviceprobe" :: ws) ln)) "deviceprobe" = Some o /\
    assoc "deviceprobe" (o_attrs o) = Some (VStr (join " " ws)) /\ o_str o = probe_text (join " " ws).
Proof.
  intros rest v cm dm c h line ln ws Hv Hc L U B N. destruct (C49_deviceprobe rest v cm dm c h line ws ln Hv Hc L U) as (q & o & _ & A & So & Oa & _ & Ot).
  assert (D : bare "deviceprobe"). { apply bare_spec. vm_compute. reflexivity. }
  assert (Jn : join " " ("deviceprobe" :: ws) = ("deviceprobe " ++ join " " ws)%string) by (destruct ws; [congruence|reflexivity]).
  exists (join " " ("deviceprobe" :: ws)), o. split; [|split; [|split]].
  - rewrite Jn. unfold probe_text. destruct (String.eqb_spec (join " " ws) "") as [X|X].
    + exfalso. pose proof (words_split ws B N) as S. rewrite X in S. cbn in S. injection S as <-. congruence.
    + now rewrite app_assoc_s.
  - apply words_unbroken. auto.
  - apply words_split; [auto|discriminate].
  - auto.
Qed.
Print Assumptions C49_deviceprobe_round.

Local Transparent comes_from method_of table_of removed_of data_str new_attrs init_of parse_flow marked_b strict reads names_ok used_classes parse_code build own_parse inits check_table tabulate flag gives.
(** The condition on the words is needed: two blanks in quotes are kept but written without
    quotes, and the written line is read as words with one blank between them; a quote that
    was itself quoted makes the written line unreadable. *)
Theorem C49_deviceprobe_refuted :
  texts_after F28 [["deviceprobe"; "a  b"]] "deviceprobe" = Some ([true], Some (probe_text "a  b")) /\
  shlex_split true "deviceprobe a  b" = Ok ["deviceprobe"; "a"; "b"] /\
  texts_after F28 [["deviceprobe"; "a"; "b"]] "deviceprobe" = Some ([true], Some (probe_text "a b")) /\
  texts_after F28 [["deviceprobe"; "it's"]] "deviceprobe" = Some ([true], Some (probe_text "it's")) /\
  (forall ws, shlex_split true "deviceprobe it's" <> Ok ws).
Proof. repeat split; try (vm_compute; reflexivity). intros ws. vm_compute. discriminate. Qed.
Print Assumptions C49_deviceprobe_refuted.
Example C49_deviceprobe_examples :
  texts_after F28 [["deviceprobe"; "x"]; ["deviceprobe"; "--a"; "b"]] "deviceprobe" = Some ([true; true], Some ("deviceprobe --a b" ++ nl)%string) /\
  texts_after F28 [["deviceprobe"; "x"]; ["deviceprobe"]] "deviceprobe" = Some ([true; true], Some "").
Proof. split; vm_compute; reflexivity. Qed.
