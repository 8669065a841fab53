(** * C52: flattening what was flattened *)

From Verif Require Import Tools ToolsFacts PropsTools.
From Verif Require Import PyStrFacts ParserLines PreFacts ArgParseFacts HandlerFacts ClassModel PropsHandler PropsClass HandlerSpec ParserSpec WholeSpec PropsFile.
From Verif Require Import PropsStorage PyClass PyText CmdFacts CmdLines RoundSpec CmdRound PropsRound CmdFile PropsWhole.
From Verif Require Import PyStr Value.
Local Open Scope string_scope.
Local Open Scope list_scope.

(** What a reading takes that fails at every include line does not depend on files or directories. *)
Lemma closed_takes C dispatch cf cf' n s st st' d :
  cf_followIncludes cf = true -> cf_errorsAreFatal cf = true -> cf_version cf' = cf_version cf -> cf_unknownSectionIsFatal cf' = cf_unknownSectionIsFatal cf ->
  readKickstartFromString C dispatch cf 0 s st = (st', None) ->
  exists d', readKickstartFromString C dispatch cf' n s (set_dirs C d st) = (set_dirs C d' st', None).
Proof.
  intros A F V U H. unfold readKickstartFromString in *. change (reset C (set_dirs C d st)) with (set_dirs C d (reset C st)).
  assert (I : takes_i C (handle_include C cf (read_kickstart C dispatch cf 0)) (handle_include C cf' (read_kickstart C dispatch cf' n))).
  { intros g s0 d0. unfold handle_include. rewrite A. cbn. discriminate. }
  pose proof (machine_takes C dispatch dispatch cf cf' ltac:(auto) F V U _ _ I (2 * List.length (splitlines s ++ [""]) + 2) (splitlines s ++ [""]) 0 (reset C st) d) as M.
  unfold run_string in *. rewrite H in M. exact (M eq_refl).
Qed.

(** ksflatten of a file that holds the text of a handler of [built] with sections that can be written writes that text again. The
    rest of the property, for every handler, is missing. *)
Theorem C52_again_partial : forall rest v pyks platform version cm dm G h s new_commands fuel can_open o w,
  In (v, (cm, dm)) handlers -> (F8 <= v)%Z -> absent rest cm ->
  WholeSpec.one_line pyks = true -> platform_name platform -> WholeSpec.one_line version = true ->
  built rest cm dm G h -> file_sections v s ->
  makeVersion (fo_version o) = Ok v -> new_commands v = start rest cm dm -> fo_kscfg o <> "" -> fo_output o = None ->
  let text := handler_str pyks version v platform h s in
  w_load w (fo_kscfg o) = Some text ->
  ksflatten handler handle_command new_commands
    (fun u st => Ok (handler_str pyks version u (ks_platform handler st) (ks_cmds handler st) (ks_sec handler st))) fuel can_open o w
  = (ToScreen text, Ok 0%N).
Proof.
  intros rest v pyks platform version cm dm G h s new_commands fuel can_open o w Hv H8 Ab Hp Hpl Hve B Fs Mv Nc Nk No text Ld.
  destruct (C39_whole_partial rest (tool_config v true true w) 0 pyks platform version cm dm G h s Hv H8 eq_refl Ab Hp Hpl Hve B Fs) as (st & R & _ & _ & _ & _ & T).
  cbn [cf_version tool_config] in R, T. fold text in R, T.
  apply C52_writes. destruct (read_as_text handler handle_command (tool_config v true true w) fuel (fo_kscfg o) text (parser_of handler new_commands v) Ld) as [d Ed].
  destruct (closed_takes handler handle_command (tool_config v true true w) (tool_config v true true w) fuel text _ _ d eq_refl eq_refl eq_refl eq_refl R) as [d' E].
  assert (P : parser_of handler new_commands v = new_parser handler (start rest cm dm) no_sections_yet "") by (unfold parser_of; rewrite Nc; reflexivity).
  rewrite P in Ed. rewrite E in Ed. exists v, (set_dirs handler d' st), text. rewrite P. split; [exact Nk|]. split; [exact Mv|]. split; [exact Ed|]. split; [|rewrite No; reflexivity].
  cbn [set_dirs ks_platform ks_cmds ks_sec]. now rewrite T.
Qed.
Print Assumptions C52_again_partial.
(** The handler of the example for C39 meets the hypotheses. *)
Example C52_again_example : exists new_commands, makeVersion (VerStr "F34") = Ok F34 /\ new_commands F34 = start demo_rest (fst maps_34) (snd maps_34) /\
  In (F34, maps_34) handlers /\ absent demo_rest (fst maps_34) /\ built demo_rest (fst maps_34) (snd maps_34) ["F12_Group"; "FC6_NFS"] whole_2.
Proof. exists (fun _ => start demo_rest (fst maps_34) (snd maps_34)). split; [vm_compute; reflexivity|]. split; [reflexivity|]. exact C39_whole_example. Qed.
