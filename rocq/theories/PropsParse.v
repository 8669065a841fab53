(** * Properties of parsing: C11 - C15

    [C], [dispatch]: any handler and what it does with a command line.  [n] bounds
    the nesting of includes. *)

From Verif Require Import PyStrFacts ShlexFacts PreFacts ArgParseFacts Parser ParserFacts ParserSpec ParserRel ParserLines ParserRun ParserPaste.
From Verif Require Import Value.
Local Open Scope string_scope.
Local Open Scope list_scope.

Local Arguments String.eqb : simpl never.

(** A handler for the examples: it keeps the words of the commands; [bad] fails. *)
Definition demo (c : list (list string)) (line : string) (ws : list string) (ln : N)
  : list (list string) * option exn :=
  match ws with
  | "bad" :: _ => (c, Some (KSParseError (Some ln) "bad"))
  | _ => (c ++ [ws], None)
  end.
Definition demo_config (fatal : bool) : config :=
  mkConfig F34 true fatal true true "/" (fun f => String.eqb f "/inc.ks")
    (fun f => if String.eqb f "/inc.ks" then Some ("vnc" ++ nl ++ "%pre" ++ nl ++ "ls" ++ nl ++ "%end" ++ nl)%string else None).
Definition demo_start : kstate (list (list string)) :=
  new_parser _ [] (mkSH [] new_packages []) "".

Lemma demo_labels L : labels_only L eq demo.
Proof.
  intros c c' line args a b -> HL. unfold demo.
  destruct args as [|w args]; [split; simpl; auto|].
  destruct (String.eqb_spec w "bad") as [->|Hw]; [split; simpl; auto|].
  assert (E : forall A (x y : A), match w with "bad" => x | _ => y end = y).
  { intros A x y. repeat (destruct w as [|[[|] [|] [|] [|] [|] [|] [|] [|]] w]; try reflexivity). congruence. }
  rewrite !E. split; simpl; auto.
Qed.

(** ** C11 *)

(** Comment lines and blank lines [c] in the command part change nothing except
    that the lines below them are numbered differently. *)
Theorem C11_comments_inert : forall C (dispatch : C -> string -> list string -> N -> C * option exn) cf n R A c B st,
  let L a b := a = b \/ a = (b + N.of_nat (length (splitlines c)))%N in
  labels_only L R dispatch -> (forall x, R x x) ->
  complete A = true -> complete c = true \/ B = "" ->
  forallb inert (splitlines c) = true ->
  command_part dispatch cf n A st ->
  same_result L R
    (readKickstartFromString C dispatch cf n (A ++ c ++ B) st)
    (readKickstartFromString C dispatch cf n (A ++ B) st).
Proof.
  intros C dispatch cf n R A c B st L HD HR HA Hc Hin Hcp.
  rewrite !read_string_run, (splitlines_app A (c ++ B)), (splitlines_app A B) by auto.
  assert (E : splitlines (c ++ B)%string = splitlines c ++ splitlines B).
  { destruct Hc as [Hc| ->]; [apply splitlines_app; auto|]. rewrite app_nil_r_s, app_nil_r. reflexivity. }
  rewrite E, <- !app_assoc. rewrite !(run_lines_app _ _ _ _ (splitlines A)).
  destruct (run_lines C dispatch cf _ None (splitlines A) 0 (reset C st)) as [s1 [[[m ln]|]|e]] eqn:EA.
  - pose proof (command_part_mode _ _ _ _ _ _ _ _ _ Hcp EA) as ->.
    rewrite run_lines_app, run_inert; auto; [|apply splitlines_nonempty].
    apply shifted; auto.
    + intros x; left; reflexivity.
    + intros a b [->| ->]; [left|right]; lia.
    + right; reflexivity.
  - apply same_result_refl; auto. intros x; left; reflexivity.
  - apply same_result_refl; auto. intros x; left; reflexivity.
Qed.
Print Assumptions C11_comments_inert.

(** The hypotheses are met, with a section before the comment. *)
Example C11_example :
  let A := ("vnc" ++ nl ++ "%pre" ++ nl ++ "ls" ++ nl ++ "%end" ++ nl)%string in
  let c := ("  # note" ++ nl ++ nl)%string in
  complete A = true /\ complete c = true /\ forallb inert (splitlines c) = true /\
  command_part demo (demo_config true) 5 A demo_start /\
  labels_only (fun a b => a = b \/ a = (b + N.of_nat (length (splitlines c)))%N) eq demo /\
  snd (readKickstartFromString _ demo (demo_config true) 5 (A ++ c ++ "bad" ++ nl) demo_start)
    = Some (KSParseError (Some 7%N) "bad") /\
  snd (readKickstartFromString _ demo (demo_config true) 5 (A ++ "bad" ++ nl) demo_start)
    = Some (KSParseError (Some 5%N) "bad").
Proof.
  cbv zeta. do 3 (split; [vm_compute; reflexivity|]). split.
  { right. split; [vm_compute; discriminate|]. intros l. vm_compute. discriminate. }
  split; [apply demo_labels|]. split; vm_compute; reflexivity.
Qed.

(** ** C12 *)

(** Parsing a text of command lines (and comments and blank lines) executes the
    commands one by one, up to the first failure. *)
Theorem C12_in_order : forall C (dispatch : C -> string -> list string -> N -> C * option exn) cf n s st,
  cf_errorsAreFatal cf = true ->
  forallb (fun l => is_command l || blank l || comment l) (splitlines s) = true ->
  let r := readKickstartFromString C dispatch cf n s st in
  let x := execute dispatch (commands_from 0 (splitlines s)) (ks_cmds C st) in
  ks_cmds C (fst r) = fst x /\ snd r = snd x /\
  ks_sec C (fst r) = ks_sec C st /\ ks_sections C (fst r) = ks_sections C st /\
  (snd x = None -> ks_platform C (fst r) = platform_of (splitlines s) (ks_platform C st) /\
                   ks_errors C (fst r) = ks_errors C st).
Proof.
  intros C dispatch cf n s st HF Hs r x. subst r x. rewrite read_string_run, run_lines_app.
  pose proof (run_commands_fatal C dispatch cf (handle_include C cf (read_kickstart C dispatch cf n)) HF (splitlines s) 0
     (reset C st) Hs (splitlines_nonempty s) eq_refl) as H.
  change (ks_cmds C (reset C st)) with (ks_cmds C st) in H.
  destruct (execute dispatch (commands_from 0 (splitlines s)) (ks_cmds C st)) as [c [e|]].
  - destruct H as [p ->]. simpl. repeat split; auto; discriminate.
  - rewrite H. simpl. repeat split; auto.
Qed.
Print Assumptions C12_in_order.

(** Every text, whatever sections it has between its commands: if it is accepted,
    exactly the command lines outside of the sections were executed, in order. *)
Theorem C12_between_sections : forall C (dispatch : C -> string -> list string -> N -> C * option exn) cf n s st st',
  cf_errorsAreFatal cf = true -> (F8 <= cf_version cf)%Z ->
  stands_alone cf (splitlines s) -> forallb plain_marker (splitlines s) = true ->
  readKickstartFromString C dispatch cf n s st = (st', None) ->
  execute dispatch (commands_outside None 0 (splitlines s)) (ks_cmds C st) = (ks_cmds C st', None).
Proof.
  intros C dispatch cf n s st st' HF H8 Hal Hm.
  rewrite read_string_run, run_lines_app.
  set (j := if cf_followIncludes cf then (fun (f : string) (st : kstate C) => (st, @None exn))
            else handle_include C cf (read_kickstart C dispatch cf n)).
  assert (E : run_lines C dispatch cf (handle_include C cf (read_kickstart C dispatch cf n)) None (splitlines s) 0 (reset C st)
            = run_lines C dispatch cf j None (splitlines s) 0 (reset C st)).
  { unfold j. destruct (cf_followIncludes cf) eqn:Ef; [|reflexivity].
    destruct Hal as [Hal|Hal]; [congruence|]. apply run_noinc; auto. }
  assert (Hk : hook_keeps C j).
  { unfold j. destruct (cf_followIncludes cf) eqn:Ef; [intros f st0; reflexivity|apply include_keeps; auto]. }
  assert (Hc : hook_closed C j).
  { unfold j. destruct (cf_followIncludes cf) eqn:Ef; [intros f st0; auto|apply include_off_closed; auto]. }
  assert (Hd : hook_deep C cf j).
  { unfold j. destruct (cf_followIncludes cf) eqn:Ef; [intros f st0; apply deeper_refl; auto|apply include_deep]. }
  rewrite E.
  pose proof (run_lines_deep C dispatch cf j Hd (splitlines s) None 0 (reset C st)) as Dp.
  destruct (run_lines C dispatch cf j None (splitlines s) 0 (reset C st)) as [s1 [x|e]] eqn:Er; [|discriminate].
  pose proof Er as Er2. apply Z.leb_le in H8.
  apply (run_outside C dispatch cf j Hc) in Er2 as [_ B]; auto;
    [|apply splitlines_nonempty|intros _; reflexivity|left; exact H8].
  apply run_lines_open in Er as [-> _]; auto;
    [|apply splitlines_nonempty|intros _; reflexivity|left; exact H8].
  rewrite end_of_input; auto.
  - destruct (section_after None (splitlines s)); [discriminate|].
    cbn [outcome]. intros H; injection H as <-. apply B; auto.
  - destruct Dp as [_ Dp]. apply Dp. reflexivity.
Qed.
Print Assumptions C12_between_sections.

Example C12_example :
  let s := ("vnc" ++ nl ++ "#x" ++ nl ++ "%pre" ++ nl ++ "ls" ++ nl ++ "%end" ++ nl ++ "text --non 'a b'" ++ nl)%string in
  stands_alone (demo_config true) (splitlines s) /\ forallb plain_marker (splitlines s) = true /\
  snd (readKickstartFromString _ demo (demo_config true) 5 s demo_start) = None /\
  commands_outside None 0 (splitlines s)
    = [(("vnc" ++ nl)%string, ["vnc"], 1%N); (("text --non 'a b'" ++ nl)%string, ["text"; "--non"; "a b"], 6%N)].
Proof. cbv zeta. repeat split; try (vm_compute; reflexivity). right. vm_compute. reflexivity. Qed.

(** ** C13 *)

(** Once a line has failed nothing that follows it matters. *)
Theorem C13_later_lines : forall C (dispatch : C -> string -> list string -> N -> C * option exn) cf n A B st s1 e,
  complete A = true ->
  parse_lines dispatch cf n 0 (splitlines A) (reset C st) = (s1, Some e) ->
  readKickstartFromString C dispatch cf n (A ++ B) st = (s1, Some e).
Proof.
  intros C dispatch cf n A B st s1 e HA. unfold parse_lines. rewrite state_machine_run by (unfold weight; simpl; lia).
  rewrite read_string_run, splitlines_app, <- app_assoc, run_lines_app by auto.
  destruct (run_lines C dispatch cf _ None (splitlines A) 0 (reset C st)) as [s2 [x|e2]]; cbn [outcome]; [discriminate|].
  auto.
Qed.
Print Assumptions C13_later_lines.

(** A command that fails in a text that was fine so far: its error is raised, the
    lines [A] before it have taken effect, the lines [B] after it have none; the
    dispatcher was told the line's number. *)
Theorem C13_first_error : forall C (dispatch : C -> string -> list string -> N -> C * option exn) cf n A line B st s1 ws c e,
  cf_errorsAreFatal cf = true -> (F8 <= cf_version cf)%Z ->
  complete A = true -> splitlines line = [line] -> complete line = true ->
  readKickstartFromString C dispatch cf n A st = (s1, None) -> ks_state C s1 = None ->
  command_words line = Some ws ->
  dispatch (ks_cmds C s1) line ws (N.of_nat (length (splitlines A)) + 1)%N = (c, Some e) ->
  readKickstartFromString C dispatch cf n (A ++ line ++ B) st = (count_error C (set_cmds C c s1), Some e).
Proof.
  intros C dispatch cf n A line B st s1 ws c e HF H8 HA Hl1 Hl2 HrA Hst Hw Hd.
  rewrite read_string_run, run_lines_app in HrA.
  rewrite read_string_run, splitlines_app, splitlines_app, Hl1 by auto.
  rewrite <- app_assoc. cbn [app]. rewrite run_lines_app.
  pose proof (run_lines_deep C dispatch cf _ (include_deep C dispatch cf n) (splitlines A) None 0 (reset C st)) as Dp.
  pose proof (run_lines_count C dispatch cf (handle_include C cf (read_kickstart C dispatch cf n)) (splitlines A) None 0 (reset C st)
     (splitlines_nonempty A)) as Hcount.
  destruct (run_lines C dispatch cf _ None (splitlines A) 0 (reset C st)) as [s2 [[[m ln]|]|e2]] eqn:EA; [| |discriminate].
  - apply Z.leb_le in H8. rewrite end_of_input in HrA; auto; [|destruct Dp as [_ Dp]; apply Dp; reflexivity].
    destruct m; [discriminate|]. injection HrA as ->. specialize (Hcount _ _ eq_refl) as ->. rewrite N.add_0_l.
    cbn [run_lines]. rewrite steps_eq. cbn [step]. rewrite (sm_command _ _ _ _ _ _ _ _ Hw Hst), Hd, HF. reflexivity.
  - exfalso. eapply run_lines_no_stop; [apply (splitlines_nonempty A)|exact EA].
Qed.
Print Assumptions C13_first_error.

Example C13_example :
  let A := ("vnc" ++ nl ++ "# note" ++ nl ++ "text" ++ nl)%string in
  let r := readKickstartFromString _ demo (demo_config true) 5 (A ++ "bad x" ++ nl ++ "skipx" ++ nl) demo_start in
  complete A = true /\ snd (readKickstartFromString _ demo (demo_config true) 5 A demo_start) = None /\
  command_words ("bad x" ++ nl) = Some ["bad"; "x"] /\
  ks_cmds _ (fst r) = [["vnc"]; ["text"]] /\ snd r = Some (KSParseError (Some 4%N) "bad").
Proof. cbv zeta. repeat split; vm_compute; reflexivity. Qed.

(** Every failing text: there is a first failing line; the error is that line's and
    so is the number it carries (if it has one), and the state is the one reached
    there.  The alternative is a section still open where the text ends, reported
    with the number of the last line. *)
Theorem C13_reported_line : forall C (dispatch : C -> string -> list string -> N -> C * option exn) cf n s st s1 e,
  reports_line dispatch -> stands_alone cf (splitlines s) -> (F8 <= cf_version cf)%Z ->
  readKickstartFromString C dispatch cf n s st = (s1, Some e) ->
  (exists pre line post s0, splitlines s = pre ++ line :: post /\
     parse_lines dispatch cf n 0 pre (reset C st) = (s0, None) /\
     parse_lines dispatch cf n 0 (pre ++ [line]) (reset C st) = (s1, Some e) /\
     forall k t, e = KSParseError (Some k) t -> k = (N.of_nat (length pre) + 1)%N)
  \/ (parse_lines dispatch cf n 0 (splitlines s) (reset C st) = (s1, None) /\
      e = KSParseError (Some (N.of_nat (length (splitlines s)))) "section does not end with %end").
Proof.
  intros C dispatch cf n s st s1 e HD Hal H8. unfold parse_lines.
  rewrite read_string_run, run_lines_app.
  assert (P : forall lines, state_machine C dispatch cf (2 * length lines + 2)
     (handle_include C cf (read_kickstart C dispatch cf n)) lines 0 (reset C st)
     = outcome C (run_lines C dispatch cf (handle_include C cf (read_kickstart C dispatch cf n)) None lines 0 (reset C st))).
  { intros lines. apply state_machine_run. unfold weight; simpl; lia. }
  rewrite P. set (i := handle_include C cf (read_kickstart C dispatch cf n)) in *.
  assert (Hi : forall l, In l (splitlines s) -> l <> "" /\ hook_silent C i l).
  { intros l Hl. split; [eapply splitlines_nonempty; eauto|]. destruct Hal as [Hal|Hal].
    - left. intros f st0. unfold i, handle_include. rewrite Hal. reflexivity.
    - right. rewrite forallb_forall in Hal. apply Hal in Hl. apply negb_true_iff in Hl. exact Hl. }
  pose proof (run_lines_both C dispatch cf i (splitlines s) None 0 (reset C st) (splitlines_nonempty s)) as Hb.
  pose proof (run_lines_deep C dispatch cf i (include_deep C dispatch cf n) (splitlines s) None 0 (reset C st)) as Dp.
  destruct (run_lines C dispatch cf i None (splitlines s) 0 (reset C st)) as [s2 [[[m l]|]|x]] eqn:E; [|contradiction|].
  - subst l. rewrite N.add_0_l. rewrite end_of_input; [|destruct Dp as [_ Dp]; apply Dp; reflexivity|apply Z.leb_le; exact H8].
    destruct m; [|discriminate]. cbn [outcome]. intros H; injection H as <- <-. right. auto.
  - cbn [outcome]. intros H; injection H as <- <-. left.
    apply run_lines_failing in E as (pre & l & post & s0 & m0 & E1 & E2 & E3 & E4); auto.
    exists pre, l, post, s0. rewrite !P, E2, E3. repeat split; auto.
Qed.
Print Assumptions C13_reported_line.

Lemma demo_reports : reports_line demo.
Proof.
  intros c line ws n c' k t. unfold demo. destruct ws as [|w ws]; [discriminate|].
  destruct (String.eqb_spec w "bad") as [->|Hw]; [intros H; injection H as _ <- _; auto|].
  assert (E : forall A (x y : A), match w with "bad" => x | _ => y end = y).
  { intros A x y. repeat (destruct w as [|[[|] [|] [|] [|] [|] [|] [|] [|]] w]; try reflexivity). congruence. }
  rewrite E. discriminate.
Qed.

(** ** C14 *)

(** With errorsAreFatal off every command is executed, whatever happens to the
    others, and the errors are counted; parsing itself does not fail. *)
Theorem C14_all_lines : forall C (dispatch : C -> string -> list string -> N -> C * option exn) cf n s st,
  cf_errorsAreFatal cf = false ->
  forallb (fun l => is_command l || blank l || comment l) (splitlines s) = true ->
  let r := readKickstartFromString C dispatch cf n s st in
  let x := execute_all dispatch (commands_from 0 (splitlines s)) (ks_cmds C st) in
  snd r = None /\ ks_cmds C (fst r) = fst x /\ ks_errors C (fst r) = (ks_errors C st + snd x)%N /\
  ks_sec C (fst r) = ks_sec C st /\ ks_platform C (fst r) = platform_of (splitlines s) (ks_platform C st).
Proof.
  intros C dispatch cf n s st HF Hs r x. subst r x. rewrite read_string_run, run_lines_app.
  pose proof (run_commands_all C dispatch cf (handle_include C cf (read_kickstart C dispatch cf n)) HF (splitlines s) 0
     (reset C st) Hs (splitlines_nonempty s) eq_refl) as H.
  change (ks_cmds C (reset C st)) with (ks_cmds C st) in H.
  destruct (execute_all dispatch (commands_from 0 (splitlines s)) (ks_cmds C st)) as [c k].
  rewrite H. simpl. repeat split; auto.
Qed.
Print Assumptions C14_all_lines.

(** The count is the number of failing command lines: a line fails if the
    dispatcher raises for it in the state left by the lines before it. *)
Theorem C14_count : forall C (dispatch : C -> string -> list string -> N -> C * option exn) cmds c,
  snd (execute_all dispatch cmds c) =
  N.of_nat (length (filter (fun k =>
    match nth_error cmds k with
    | Some (l, ws, n) => match snd (dispatch (fst (execute_all dispatch (firstn k cmds) c)) l ws n) with
                         | Some _ => true | None => false end
    | None => false
    end) (seq 0 (length cmds)))).
Proof.
  intros C dispatch. induction cmds as [|[[l ws] n] cmds IH]; intros c; [reflexivity|].
  cbn [length seq filter nth_error firstn execute_all].
  assert (F : forall (p q : nat -> bool) a k, (forall x, p (S x) = q x) ->
     length (filter p (seq (S a) k)) = length (filter q (seq a k))).
  { intros p q a k H. revert a. induction k as [|k IHk]; intros a; [reflexivity|]. cbn [seq filter]. rewrite H.
    destruct (q a); cbn [length]; rewrite IHk; reflexivity. }
  destruct (dispatch c l ws n) as [c1 e] eqn:E. cbn [fst].
  specialize (IH c1). destruct (execute_all dispatch cmds c1) as [c2 k] eqn:E2. cbn [snd] in *. subst k.
  rewrite E. cbn [snd].
  match goal with |- context [length (filter ?q (seq 0 ?m))] => match goal with |- context [filter ?p (seq 1 ?m)] =>
    pose proof (F p q 0 m) as G end end.
  assert (G' := G (fun x => ltac:(cbn [nth_error firstn execute_all]; rewrite E;
     destruct (nth_error cmds x) as [[[? ?] ?]|]; auto;
     destruct (execute_all dispatch (firstn x cmds) c1); reflexivity))).
  destruct e; cbn [length]; rewrite G'; lia.
Qed.
Print Assumptions C14_count.

Example C14_example :
  let s := ("vnc" ++ nl ++ "bad" ++ nl ++ "text" ++ nl ++ "bad 2" ++ nl)%string in
  let r := readKickstartFromString _ demo (demo_config false) 5 s demo_start in
  forallb (fun l => is_command l || blank l || comment l) (splitlines s) = true /\
  snd r = None /\ ks_errors _ (fst r) = 2%N /\ ks_cmds _ (fst r) = [["vnc"]; ["text"]].
Proof. cbv zeta. repeat split; vm_compute; reflexivity. Qed.

(** A misquoted line, or a line whose first word is empty, ends the parsing even
    when errors are not fatal. *)
Theorem C14_misquoted_refuted : exists s r,
  readKickstartFromString _ demo (demo_config false) 5 s demo_start = r /\
  snd r = Some ValueError /\ ks_errors _ (fst r) = 0%N /\ ks_cmds _ (fst r) = [].
Proof.
  exists ("text 'a" ++ nl ++ "vnc" ++ nl)%string. eexists. split; [reflexivity|]. repeat split; vm_compute; reflexivity.
Qed.
Print Assumptions C14_misquoted_refuted.
Theorem C14_empty_word_refuted : exists s r,
  readKickstartFromString _ demo (demo_config false) 5 s demo_start = r /\
  snd r = Some IndexError /\ ks_errors _ (fst r) = 0%N /\ ks_cmds _ (fst r) = [].
Proof.
  exists ("'' a" ++ nl ++ "vnc" ++ nl)%string. eexists. split; [reflexivity|]. repeat split; vm_compute; reflexivity.
Qed.
Print Assumptions C14_empty_word_refuted.

(** ** C15 *)

(** An include line in the command part is the same as the lines of the file in its
    place, up to line numbers.  [l] is the include line, [s] the file's contents. *)
Theorem C15_paste : forall C (dispatch : C -> string -> list string -> N -> C * option exn) cf n R A l more B f s st,
  labels_only (fun _ _ => True) R dispatch -> (forall x, R x x) ->
  cf_followIncludes cf = true -> cf_missingIncludeIsFatal cf = true ->
  position_free cf -> closed_files cf ->
  cf_load cf f = Some s -> f <> "" ->
  splitlines l = [l] -> complete l = true ->
  blank l || comment l = false -> shlex_split true l = Ok ("%include" :: f :: more) ->
  complete A = true -> closed_text (cf_version cf) A = true ->
  complete s = true \/ B = "" ->
  snd (readKickstartFromString C dispatch cf (S n) (A ++ l ++ B) st) <> Some OutOfFuel ->
  same_result (fun _ _ => True) R
    (readKickstartFromString C dispatch cf (S n) (A ++ s ++ B) st)
    (readKickstartFromString C dispatch cf (S n) (A ++ l ++ B) st).
Proof.
  intros C dispatch cf n R A l more B f s st HD HR Hfol Hfat Hpos Hcl Hload Hf Hl1 Hl2 Hb Hs HA HcA HcB.
  rewrite !read_string_run, (splitlines_app A (l ++ B)), (splitlines_app A (s ++ B)), (splitlines_app l B), Hl1 by auto.
  assert (E : splitlines (s ++ B)%string = splitlines s ++ splitlines B).
  { destruct HcB as [Hc| ->]; [apply splitlines_app; auto|]. rewrite app_nil_r_s, app_nil_r. reflexivity. }
  rewrite E, <- !app_assoc. cbn [app]. rewrite !(run_lines_app _ _ _ _ (splitlines A)).
  destruct (closed_may cf A HcA) as (H1 & H2 & H3 & H4).
  pose proof (run_lines_deep C dispatch cf _ (include_deep C dispatch cf (S n)) (splitlines A) None 0 (reset C st)) as Dp.
  destruct (run_lines C dispatch cf _ None (splitlines A) 0 (reset C st)) as [s1 [x|e]] eqn:EA.
  - apply run_lines_open in EA as [-> Hg]; auto; [|apply include_closed; auto|intros _; reflexivity].
    rewrite H4 in *. intros Hfuel. eapply paste; eauto.
    + destruct Dp as [_ Dp]. apply Dp. reflexivity.
    + intros X. apply Hfuel.
      destruct (run_lines C dispatch cf _ None (l :: splitlines B ++ [""]) _ s1) as [s2 [y|e2]]; simpl in *; congruence.
  - intros _. apply same_result_refl; auto.
Qed.
Print Assumptions C15_paste.

Definition inc_config : config :=
  mkConfig F34 true true true true "/" (fun f => String.eqb f "/inc.ks" || String.eqb f "inc.ks")
    (fun f => if String.eqb f "/inc.ks" || String.eqb f "inc.ks"
              then Some ("vnc" ++ nl ++ "%pre" ++ nl ++ "ls" ++ nl ++ "%end" ++ nl)%string else None).

Lemma ends_with_has c p g : ends_with_char c p = true -> has_char c (p ++ g) = true.
Proof.
  induction p as [|a p IH]; [discriminate|]. cbn [append ends_with_char has_char any_char].
  unfold has_char in *. cbn [any_char]. destruct p as [|b p].
  - intros H. apply Ascii.eqb_eq in H. subst. rewrite Ascii.eqb_refl. reflexivity.
  - intros H. rewrite IH by exact H. apply orb_true_r.
Qed.

Lemma inc_position_free : position_free inc_config.
Proof.
  intros d g. unfold path_join. cbn [cf_exists inc_config].
  destruct (startswith g "/"); [auto|].
  assert (K : forall p, p = "" \/ ends_with_char SLASH p = true ->
     String.eqb (p ++ g) "/inc.ks" || String.eqb (p ++ g) "inc.ks" = true ->
     String.eqb g "/inc.ks" || String.eqb g "inc.ks" = true).
  { intros p [->|Hp] H; [exact H|]. apply orb_true_iff in H as [H|H]; apply String.eqb_eq in H.
    - destruct p as [|c p]; [discriminate|]. cbn [append] in H. injection H as -> H.
      destruct p as [|c p]; [cbn [append] in H; subst; reflexivity|].
      apply (ends_with_has SLASH (String c p) g) in Hp. rewrite H in Hp. discriminate.
    - apply (ends_with_has SLASH p g) in Hp. rewrite H in Hp. discriminate. }
  destruct (String.eqb d "") eqn:Ed; [apply String.eqb_eq in Ed; subst; apply K; auto|].
  destruct (ends_with_char SLASH d) eqn:Es; cbn [orb]; [apply K; auto|].
  rewrite <- app_assoc_s. apply K. right. clear.
  induction d as [|a d IH]; [reflexivity|]. cbn [append]. destruct d; [reflexivity|]. exact IH.
Qed.

Example C15_example :
  let A := ("text" ++ nl)%string in
  let l := ("%include /inc.ks # more" ++ nl)%string in
  let B := ("skipx" ++ nl)%string in
  position_free inc_config /\ closed_files inc_config /\
  splitlines l = [l] /\ complete l = true /\ blank l || comment l = false /\
  shlex_split true l = Ok ["%include"; "/inc.ks"] /\ complete A = true /\
  closed_text (cf_version inc_config) A = true /\
  let r := readKickstartFromString _ demo inc_config 5 (A ++ l ++ B) demo_start in
  snd r = None /\ ks_cmds _ (fst r) = [["text"]; ["vnc"]; ["skipx"]] /\ length (sh_scripts (ks_sec _ (fst r))) = 1.
Proof.
  cbv zeta. split; [exact inc_position_free|]. split.
  { intros f s. cbn [cf_load inc_config]. destruct (String.eqb f "/inc.ks" || String.eqb f "inc.ks"); [|discriminate].
    intros H; injection H as <-. vm_compute; reflexivity. }
  repeat split; vm_compute; reflexivity.
Qed.

(** With followIncludes off an include line does nothing, in the command part and
    in sections alike. *)
Theorem C15_not_followed : forall C (dispatch : C -> string -> list string -> N -> C * option exn) cf n R A l B f m1 m2 st,
  let L a b := a = b \/ a = (b + 1)%N in
  labels_only L R dispatch -> (forall x, R x x) ->
  cf_followIncludes cf = false ->
  splitlines l = [l] -> complete l = true -> complete A = true ->
  blank l || comment l = false -> f <> "" ->
  shlex_split true l = Ok ("%include" :: f :: m1) -> shlex_split false l = Ok ("%include" :: f :: m2) ->
  first_word_is "%include" (Ok (split_ws l)) = true ->
  same_result L R
    (readKickstartFromString C dispatch cf n (A ++ l ++ B) st)
    (readKickstartFromString C dispatch cf n (A ++ B) st).
Proof.
  intros C dispatch cf n R A l B f m1 m2 st L HD HR Hfol Hl1 Hl2 HA Hb Hf Ht Hff Hw.
  assert (Lr : forall x, L x x) by (intros; left; reflexivity).
  rewrite !read_string_run, (splitlines_app A (l ++ B)), (splitlines_app A B), (splitlines_app l B), Hl1 by auto.
  rewrite <- !app_assoc. cbn [app]. rewrite !(run_lines_app _ _ _ _ (splitlines A)).
  set (i := handle_include C cf (read_kickstart C dispatch cf n)).
  assert (Hi : forall f st, i f st = (st, None)).
  { intros g s0. unfold i, handle_include. rewrite Hfol. reflexivity. }
  destruct (run_lines C dispatch cf i None (splitlines A) 0 (reset C st)) as [s1 [[[m ln]|]|e]];
    try (apply same_result_refl; auto; fail).
  assert (S : step C dispatch cf i m l ln s1 = (s1, Ok (Go m (ln + 1)%N))).
  { assert (Hl : String.eqb l "" = false) by (apply String.eqb_neq; intros ->; discriminate).
    destruct m as [m|]; cbn [step].
    - unfold rs_step. rewrite Hl, ibc_eq, Hb. cbn [andb].
      destruct (split_ws l) as [|w ws] eqn:Ew; [discriminate|].
      cbn [first_word_is] in Hw. apply String.eqb_eq in Hw. subst w.
      destruct (split_ws_first _ _ _ Ew) as (c & w & r & E1 & E2 & _). injection E1 as <- _.
      rewrite E2, startswith_cons, startswith_nil. cbn [andb Ascii.eqb Bool.eqb].
      change (mem "%include" ["%end"; "%include"]) with true. rewrite andb_false_r. cbv iota.
      rewrite Hff. change (String.eqb "%include" "%end") with false. change (String.eqb "%include" "%include") with true.
      cbv iota. rewrite Hi. destruct f; [congruence|reflexivity].
    - unfold sm_step. rewrite Hl, ibc_eq, Hb, Ht. change (String.eqb "%include" "%include") with true.
      cbv iota. rewrite Hi. destruct f; [congruence|reflexivity]. }
  cbn [run_lines]. rewrite steps_eq, S.
  apply shifted; auto.
  - intros a b [->| ->]; [left|right]; lia.
  - right; reflexivity.
Qed.
Print Assumptions C15_not_followed.

(** In a section an include is not a paste: leading comment and blank lines of the
    file are missing from the script. *)
Definition script_config : config :=
  mkConfig F34 true true true true "/" (fun f => String.eqb f "/inc.ks")
    (fun f => if String.eqb f "/inc.ks" then Some ("# c" ++ nl ++ "ls" ++ nl)%string else None).
Definition bodies {C} (r : kstate C * option exn) : list string := map sc_script (sh_scripts (ks_sec C (fst r))).
Theorem C15_script_body_refuted : exists A B f s,
  cf_load script_config f = Some s /\
  let r := readKickstartFromString _ demo script_config 5 (A ++ "%include " ++ f ++ nl ++ B) demo_start in
  let r' := readKickstartFromString _ demo script_config 5 (A ++ s ++ B) demo_start in
  snd r = None /\ snd r' = None /\ bodies r <> bodies r'.
Proof.
  exists ("%pre" ++ nl)%string, ("%end" ++ nl)%string, "/inc.ks". eexists. split; [reflexivity|].
  cbv zeta. split; [vm_compute; reflexivity|]. split; [vm_compute; reflexivity|]. vm_compute. discriminate.
Qed.
Print Assumptions C15_script_body_refuted.

(** A relative name in the included file is looked up in that file's directory
    first: position_free is needed. *)
Definition nested_config : config :=
  mkConfig F34 true true true true "/" (fun f => mem f ["/d/a.ks"; "/d/b.ks"])
    (fun f => if String.eqb f "/d/a.ks" then Some ("%include b.ks" ++ nl)%string
              else if String.eqb f "/d/b.ks" then Some ("vnc" ++ nl)%string else None).
Theorem C15_relative_names_refuted : exists f s,
  cf_load nested_config f = Some s /\ closed_files nested_config /\
  snd (readKickstartFromString _ demo nested_config 5 ("%include " ++ f ++ nl) demo_start) = None /\
  snd (readKickstartFromString _ demo nested_config 5 s demo_start) <> None.
Proof.
  exists "/d/a.ks". eexists. split; [reflexivity|]. split; [|split; [vm_compute; reflexivity|vm_compute; discriminate]].
  intros f s. cbn [cf_load nested_config]. destruct (String.eqb f "/d/a.ks"); [intros H; injection H as <-; vm_compute; reflexivity|].
  destruct (String.eqb f "/d/b.ks"); [intros H; injection H as <-; vm_compute; reflexivity|discriminate].
Qed.
Print Assumptions C15_relative_names_refuted.

(** With missingIncludeIsFatal off, every error of the included file is swallowed
    together with the rest of that file. *)
Definition lax_config : config :=
  mkConfig F34 true true false true "/" (fun f => String.eqb f "/inc.ks")
    (fun f => if String.eqb f "/inc.ks" then Some ("bad" ++ nl ++ "vnc" ++ nl)%string else None).
Theorem C15_missing_not_fatal_refuted : exists f s,
  cf_load lax_config f = Some s /\
  let r := readKickstartFromString _ demo lax_config 5 ("%include " ++ f ++ nl) demo_start in
  let r' := readKickstartFromString _ demo lax_config 5 s demo_start in
  snd r = None /\ ks_cmds _ (fst r) = [] /\ snd r' = Some (KSParseError (Some 1%N) "bad").
Proof.
  exists "/inc.ks". eexists. split; [reflexivity|]. cbv zeta. repeat split; vm_compute; reflexivity.
Qed.
Print Assumptions C15_missing_not_fatal_refuted.
