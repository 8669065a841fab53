(** * C39: whole files *)

From Verif Require Import PyStrFacts ShlexFacts PreFacts ArgParseFacts ArgLineFacts Parser ParserFacts ParserSpec ParserRel ParserLines ParserRun SectSpec SectFacts.
From Verif Require Import PropsParse PropsSect PropsPkgText PkgTextSpec PkgTextFacts WholeSpec.
From Coq Require Import Lia.
From Verif Require Import Value.
Local Open Scope string_scope.
Local Open Scope list_scope.
Local Arguments String.eqb : simpl never.

(** ** Scripts *)

Lemma ends_nl s : ends_with_char LF (s ++ nl)%string = true.
Proof. induction s as [|c s IH]; [reflexivity|]. cbn [append]. destruct s; [reflexivity|]. exact IH. Qed.
Lemma rewritten_str ver ln s : script_str ver (rewritten ln s) = script_str ver s.
Proof.
  unfold script_str, rewritten, terminated, script_header. cbn [sc_script sc_interp sc_inChroot sc_logfile sc_errorOnFail sc_type].
  destruct (ends_with_char LF (sc_script s)) eqn:E; [now rewrite E|].
  rewrite ends_nl. cbv iota. rewrite !app_assoc_s. reflexivity.
Qed.
Lemma same_scripts_str ver l l' : same_scripts l l' ->
  concat_all (map (script_str ver) l') = concat_all (map (script_str ver) l).
Proof. induction 1 as [|s s' l l' [ln ->] _ IH]; [reflexivity|]. cbn [map concat_all]. now rewrite rewritten_str, IH. Qed.

(** [s2] differs from [s1] at most in the scripts. *)
Definition more_scripts {C} (new : list script) (s1 s2 : kstate C) : Prop :=
  ks_cmds C s2 = ks_cmds C s1 /\ ks_platform C s2 = ks_platform C s1 /\ ks_errors C s2 = ks_errors C s1 /\
  sh_scripts (ks_sec C s2) = sh_scripts (ks_sec C s1) ++ new /\
  sh_packages (ks_sec C s2) = sh_packages (ks_sec C s1) /\ sh_nulls (ks_sec C s2) = sh_nulls (ks_sec C s1) /\
  (has_packages s1 -> has_packages s2).

Lemma scripts_read : forall C (dispatch : C -> string -> list string -> N -> C * option exn) cf n st l A s1,
  (F8 <= cf_version cf)%Z -> has_read dispatch cf n st A s1 -> (forall k, pending k "" s1) -> Forall (writable (known s1)) l ->
  exists s2 new, has_read dispatch cf n st (A ++ concat_all (map (script_str (cf_version cf)) l)) s2 /\
    more_scripts new s1 s2 /\ same_scripts l new.
Proof.
  intros C dispatch cf n st l. induction l as [|s l IH]; intros A s1 H8 HA Hp Hl.
  - exists s1, []. cbn [map concat_all]. rewrite app_nil_r_s. split; [exact HA|]. split; [|constructor].
    unfold more_scripts. rewrite app_nil_r. tauto.
  - inversion Hl as [|? ? Hc Hl']; subst.
    destruct (C19_script_round_trip C dispatch cf n st A s1 s H8 HA (Hp _) Hc) as (s2 & R & S & O & P).
    assert (HA2 : has_read dispatch cf n st (A ++ script_str (cf_version cf) s)%string s2).
    { split; [|split; [exact R|exact S]]. unfold script_str. pose proof H8 as H8'. apply Z.leb_le in H8'. rewrite H8'.
      rewrite <- !app_assoc_s. apply complete_nl. }
    destruct (IH (A ++ script_str (cf_version cf) s)%string s2) as (s3 & new & R3 & M3 & F3); auto.
    + intros k. destruct O as (_ & _ & _ & _ & _ & _ & _ & O).
      destruct (string_dec (kind_name k) (kind_name (sc_type s))) as [E|E].
      * assert (k = sc_type s) as -> by (destruct k, (sc_type s); auto; discriminate). exact P.
      * destruct (Hp k) as (t & a & Q). exists t, a. rewrite O by exact E. exact Q.
    + destruct O as (_ & _ & _ & _ & _ & _ & -> & _). exact Hl'.
    + exists s3. eexists. cbn [map concat_all]. rewrite <- app_assoc_s. split; [exact R3|].
      destruct O as (O1 & O2 & O3 & O4 & O5 & O6 & O7 & O8). destruct M3 as (M1 & M2 & M3 & M4 & M5 & M6 & M7).
      split; [|constructor; [eauto|exact F3]]. unfold more_scripts. rewrite M1, M2, M3, M4, M5, M6, O1, O2, O3, O4, O5, O6.
      rewrite <- app_assoc. do 6 (split; [reflexivity|]). intros (t & Hp'). apply M7. exists t. rewrite O8; [exact Hp'|].
      destruct (sc_type s); discriminate.
Qed.

(** ** The command part *)

Lemma comment_line x : one_line x = true -> splitlines ("#" ++ x ++ nl)%string = [("#" ++ x ++ nl)%string].
Proof. intros H. apply (single_line ("#" ++ x)%string). exact H. Qed.
Lemma comment_words x : command_words ("#" ++ x)%string = None.
Proof.
  unfold command_words. replace (comment ("#" ++ x)) with true; [rewrite orb_true_r; reflexivity|].
  symmetry. unfold comment. change (lstrip ("#" ++ x)) with ("#" ++ x)%string. apply startswith_app.
Qed.

Lemma commands_from_app a b k : commands_from k (a ++ b) = commands_from k a ++ commands_from (k + N.of_nat (length a)) b.
Proof.
  revert k. induction a as [|l a IH]; intros k; [cbn [app length commands_from]; now rewrite N.add_0_r|].
  cbn [app commands_from length]. rewrite IH. replace (k + 1 + N.of_nat (length a))%N with (k + N.of_nat (S (length a)))%N by lia.
  destruct (command_words l); reflexivity.
Qed.
Lemma platform_of_app a b p : platform_of (a ++ b) p = platform_of b (platform_of a p).
Proof. revert p. induction a as [|l a IH]; intros p; [reflexivity|]. cbn [app platform_of]. apply IH. Qed.

(** A line that is a comment is no command. *)
Lemma inert_simple l : is_command l || inert l = true -> is_command l || blank l || comment l = true /\ platform_comment l = false.
Proof.
  unfold inert, is_command. destruct (platform_comment l) eqn:P; [|rewrite andb_true_r, orb_assoc; auto].
  rewrite andb_false_r, orb_false_r. intros H. exfalso. unfold platform_comment in P.
  apply startswith_spec in P as [t ->].
  change ("#platform=" ++ t)%string with ("#" ++ ("platform=" ++ t))%string in H. rewrite comment_words in H. discriminate.
Qed.

Definition head_lines (pyks platform version : string) : list string :=
  ("# Generated by pykickstart v" ++ pyks ++ nl)%string ::
  (if String.eqb platform "" then [] else [("#platform=" ++ platform ++ nl)%string]) ++ [("#version=" ++ version ++ nl)%string].
Definition head_text (pyks platform version : string) : string :=
  ("# Generated by pykickstart v" ++ pyks ++ nl
   ++ (if String.eqb platform "" then "" else "#platform=" ++ platform ++ nl)
   ++ "#version=" ++ version ++ nl)%string.

Lemma head_split pyks platform version : one_line pyks = true -> one_line platform = true -> one_line version = true ->
  splitlines (head_text pyks platform version) = head_lines pyks platform version /\ complete (head_text pyks platform version) = true.
Proof.
  intros H1 H2 H3. unfold head_text, head_lines. split.
  - change ("# Generated by pykickstart v" ++ pyks ++ nl ++ (if String.eqb platform "" then "" else "#platform=" ++ platform ++ nl) ++ "#version=" ++ version ++ nl)%string
      with (("# Generated by pykickstart v" ++ pyks ++ nl ++ ((if String.eqb platform "" then "" else "#platform=" ++ platform ++ nl) ++ ("#version=" ++ version ++ nl)))%string).
    rewrite <- (app_assoc_s pyks), <- (app_assoc_s "# Generated by pykickstart v").
    rewrite splitlines_app by (rewrite <- app_assoc_s; apply complete_nl).
    replace (splitlines ("# Generated by pykickstart v" ++ pyks ++ nl)%string) with [("# Generated by pykickstart v" ++ pyks ++ nl)%string]
      by (symmetry; apply (comment_line (" Generated by pykickstart v" ++ pyks)); unfold one_line in *; rewrite all_chars_app, H1; reflexivity).
    cbn [app]. f_equal. destruct (String.eqb platform "").
    + apply (comment_line ("version=" ++ version)). unfold one_line in *. rewrite all_chars_app, H3. reflexivity.
    + rewrite splitlines_app by (rewrite <- app_assoc_s; apply complete_nl).
      f_equal; [apply (comment_line ("platform=" ++ platform))|apply (comment_line ("version=" ++ version))];
        unfold one_line in *; rewrite all_chars_app; [rewrite H2|rewrite H3]; reflexivity.
  - rewrite <- !app_assoc_s. apply complete_nl.
Qed.

Lemma strip_nl s : strip s = s -> strip (s ++ nl)%string = s.
Proof.
  intros H. destruct (strip_spec s) as [E|E]; [rewrite H in E; subst; reflexivity|].
  rewrite H in E. unfold stripped in E. apply andb_true_iff in E as [E1 E2]. destruct s as [|c r]; [discriminate|].
  assert (L : lstrip (String c r ++ nl) = (String c r ++ nl)%string) by (apply lstrip_by_head; exact E1).
  unfold strip. rewrite L. unfold rstrip. rewrite rstrip_by_app_all by reflexivity. apply rstrip_by_last, E2.
Qed.
Lemma head_commands pyks platform version k : commands_from k (head_lines pyks platform version) = [].
Proof.
  unfold head_lines. cbn [commands_from].
  change ("# Generated by pykickstart v" ++ pyks ++ nl)%string with ("#" ++ (" Generated by pykickstart v" ++ pyks ++ nl))%string.
  rewrite comment_words. destruct (String.eqb platform ""); cbn [app commands_from].
  - change ("#version=" ++ version ++ nl)%string with ("#" ++ ("version=" ++ version ++ nl))%string. now rewrite comment_words.
  - change ("#platform=" ++ platform ++ nl)%string with ("#" ++ ("platform=" ++ platform ++ nl))%string.
    change ("#version=" ++ version ++ nl)%string with ("#" ++ ("version=" ++ version ++ nl))%string. now rewrite !comment_words.
Qed.
Lemma head_platform pyks platform version : platform_name platform -> platform_of (head_lines pyks platform version) "" = platform.
Proof.
  intros [_ H]. unfold head_lines. cbn [platform_of].
  change (platform_comment ("# Generated by pykickstart v" ++ pyks ++ nl)%string) with false. cbv iota.
  destruct (String.eqb platform "") eqn:E; cbn [app platform_of].
  - apply String.eqb_eq in E. now subst.
  - change (platform_comment ("#version=" ++ version ++ nl)%string) with false.
    change (platform_comment ("#platform=" ++ platform ++ nl)%string) with (startswith (platform ++ nl)%string ""). rewrite startswith_nil. cbv iota.
    change (drop 10 ("#platform=" ++ platform ++ nl)%string) with (platform ++ nl)%string. now apply strip_nl.
Qed.
Lemma comment_true x : comment ("#" ++ x)%string = true.
Proof. unfold comment. change (lstrip ("#" ++ x)) with ("#" ++ x)%string. apply startswith_app. Qed.
Lemma head_simple pyks platform version : forallb (fun l => is_command l || blank l || comment l) (head_lines pyks platform version) = true.
Proof.
  apply forallb_forall. intros l Hl. unfold head_lines in Hl.
  assert (exists x, l = ("#" ++ x)%string) as [x ->].
  { destruct Hl as [<-|Hl]; [eexists; reflexivity|]. apply in_app_or in Hl as [Hl|[<-|[]]]; [|eexists; reflexivity].
    destruct (String.eqb platform ""); [now destruct Hl|]. destruct Hl as [<-|[]]. eexists; reflexivity. }
  rewrite comment_true. apply orb_true_r.
Qed.

(** The file up to the scripts. *)
Lemma commands_part cf n pyks platform version T (h0 h2 : handler) : cf_errorsAreFatal cf = true -> (F8 <= cf_version cf)%Z ->
  one_line pyks = true -> platform_name platform -> one_line version = true -> command_text T ->
  execute handle_command (commands_from (N.of_nat (length (head_lines pyks platform version))) (splitlines T)) h0 = (h2, None) ->
  has_read handle_command cf n (new_parser handler h0 no_sections_yet "") (head_text pyks platform version ++ T)
    (set_platform handler platform (set_cmds handler h2 (new_parser handler h0 no_sections_yet ""))).
Proof.
  intros HF H8 Hp Hpl Hv [Hc Ht] E.
  destruct (head_split pyks platform version Hp (proj1 Hpl) Hv) as [Hs Hh].
  apply has_read_run; auto.
  split. { apply complete_app; auto. }
  split; [reflexivity|].
  rewrite splitlines_app, Hs by exact Hh.
  assert (Hsimple : forallb (fun l => is_command l || blank l || comment l) (head_lines pyks platform version ++ splitlines T) = true).
  { rewrite forallb_app, head_simple. apply forallb_forall. intros l Hl. apply inert_simple. rewrite forallb_forall in Ht. now apply Ht. }
  pose proof (run_commands_fatal handler handle_command cf (handle_include handler cf (read_kickstart handler handle_command cf n)) HF
    (head_lines pyks platform version ++ splitlines T) 0 (reset handler (new_parser handler h0 no_sections_yet "")) Hsimple) as R.
  rewrite commands_from_app, head_commands in R. cbn [app] in R. rewrite N.add_0_l in R.
  change (ks_cmds handler (reset handler (new_parser handler h0 no_sections_yet ""))) with h0 in R. rewrite E in R.
  rewrite R; [|intros l Hl; apply in_app_or in Hl as [Hl|Hl]; [rewrite <- Hs in Hl|]; eapply splitlines_nonempty; eauto|reflexivity].
  rewrite N.add_0_l. f_equal.
  assert (Pl : platform_of (head_lines pyks platform version ++ splitlines T) "" = platform).
  { rewrite platform_of_app, head_platform by exact Hpl.
    revert Ht. generalize (splitlines T). intros l. induction l as [|x l IH]; intros Ht; [reflexivity|].
    cbn [forallb platform_of] in *. apply andb_prop in Ht as [Hx Ht]. destruct (inert_simple x Hx) as [_ ->]. auto. }
  change (ks_platform handler (reset handler (new_parser handler h0 no_sections_yet ""))) with "". rewrite Pl. reflexivity.
Qed.

Theorem C39_file_partial : forall cf n pyks platform version h s h0 h2,
  cf_errorsAreFatal cf = true -> (F8 <= cf_version cf)%Z ->
  one_line pyks = true -> platform_name platform -> one_line version = true ->
  command_text (commands_str h) -> file_sections (cf_version cf) s ->
  execute handle_command (commands_from (if String.eqb platform "" then 2 else 3) (splitlines (commands_str h))) h0 = (h2, None) ->
  commands_str h2 = commands_str h ->
  let text := handler_str pyks version (cf_version cf) platform h s in
  exists st, readKickstartFromString handler handle_command cf n text (new_parser handler h0 no_sections_yet "") = (st, None) /\
    ks_cmds handler st = h2 /\ ks_platform handler st = platform /\ same_scripts (sh_scripts s) (sh_scripts (ks_sec handler st)) /\
    (packages_str (cf_version cf) (sh_packages s) <> "" -> sh_packages (ks_sec handler st) = as_read (sh_packages s)) /\
    handler_str pyks version (cf_version cf) (ks_platform handler st) (ks_cmds handler st) (ks_sec handler st) = text.
Proof.
  intros cf n pyks platform version h s h0 h2 HF H8 Hp Hpl Hv Ht (Hsc & Hnu & Hpk) E Es text.
  assert (E' : execute handle_command (commands_from (N.of_nat (length (head_lines pyks platform version))) (splitlines (commands_str h))) h0 = (h2, None)).
  { unfold head_lines. destruct (String.eqb platform ""); exact E. }
  pose proof (commands_part cf n pyks platform version (commands_str h) h0 h2 HF H8 Hp Hpl Hv Ht E') as R1.
  set (st0 := new_parser handler h0 no_sections_yet "") in *.
  set (s1 := set_platform handler platform (set_cmds handler h2 st0)) in *.
  destruct (scripts_read handler handle_command cf n st0 (sh_scripts s) _ s1 H8 R1) as (s2 & new & R2 & (M1 & M2 & M3 & M4 & M5 & M6 & M7) & F2);
    [intros k; apply (new_pending handler h0 no_sections_yet "" k)|exact Hsc|].
  assert (Te : text = (((head_text pyks platform version ++ commands_str h) ++ concat_all (map (script_str (cf_version cf)) (sh_scripts s)))
                 ++ packages_str (cf_version cf) (sh_packages s))%string).
  { unfold text, handler_str, head_text. rewrite Hnu. rewrite !app_assoc_s. reflexivity. }
  assert (Same : forall st, ks_cmds handler st = h2 -> ks_platform handler st = platform -> same_scripts (sh_scripts s) (sh_scripts (ks_sec handler st)) ->
    sh_nulls (ks_sec handler st) = [] ->
    packages_str (cf_version cf) (sh_packages (ks_sec handler st)) = packages_str (cf_version cf) (sh_packages s) ->
    handler_str pyks version (cf_version cf) (ks_platform handler st) (ks_cmds handler st) (ks_sec handler st) = text).
  { intros st Q1 Q2 Q3 Q4 Q5. unfold text, handler_str. now rewrite Q1, Q2, Q4, Hnu, Q5, Es, (same_scripts_str _ _ _ Q3). }
  cbn [sh_scripts no_sections_yet ks_sec new_parser app] in M4.
  assert (Q3 : same_scripts (sh_scripts s) (sh_scripts (ks_sec handler s2))) by (rewrite M4; exact F2).
  destruct (String.eqb (packages_str (cf_version cf) (sh_packages s)) "") eqn:Ep.
  - apply String.eqb_eq in Ep. exists s2. rewrite Te, Ep, app_nil_r_s. split; [apply R2|]. split; [exact M1|]. split; [exact M2|].
    split; [exact Q3|]. split; [congruence|].
    rewrite Ep, app_nil_r_s in Te. rewrite <- Te. apply Same; auto. rewrite M5. rewrite Ep. reflexivity.
  - apply String.eqb_neq in Ep. destruct Hpk as [|(P1 & P2 & P3)]; [contradiction|].
    destruct (C25_round_trip handler handle_command cf n st0 _ s2 (sh_packages s) (conj R2 (or_introl H8))) as (s3 & R3 & S3 & (O1 & O2 & O3 & O4 & _) & _); auto.
    { apply M7. eexists; reflexivity. }
    exists s3. rewrite Te. split; [exact R3|]. split; [rewrite O1; exact M1|]. split; [rewrite O2; exact M2|].
    split; [rewrite O4; exact Q3|]. split; [rewrite O4; reflexivity|]. rewrite <- Te. apply Same.
    + rewrite O1; exact M1.
    + rewrite O2; exact M2.
    + rewrite O4; exact Q3.
    + rewrite O4. cbn [sh_nulls]. rewrite M6. reflexivity.
    + rewrite O4. cbn [sh_packages]. now apply C25_same_text.
Qed.
Print Assumptions C39_file_partial.

From Verif Require Import HandlerFacts ClassModel PropsClass PropsStorage CmdFacts.
From Verif Require Import Value.

(** The handler for the version [v] after some lines. *)
Definition after_lines (v : Z) (l : list (string * list string * N)) : option (handler * option exn) :=
  match find (fun h => Z.eqb (fst h) v) handlers with
  | Some (_, (cm, dm)) => Some (execute handle_command l (start demo_rest cm dm))
  | None => None
  end.
Definition text_of_lines (v : Z) (l : list (string * list string * N)) : option string :=
  match after_lines v l with Some (h, None) => Some (commands_str h) | _ => None end.

(** A Fedora 34 file with commands, a script and packages. *)
Definition demo_lines : list (string * list string * N) :=
  [("zerombr", ["zerombr"], 1%N); ("nfs --server=s --dir=/d", ["nfs"; "--server=s"; "--dir=/d"], 2%N); ("user --name=u", ["user"; "--name=u"], 3%N)].
Definition demo_text : string :=
  ("user --name=u" ++ nl ++ "# Use NFS installation media" ++ nl ++ "nfs --server=s --dir=/d" ++ nl
   ++ "# System bootloader configuration" ++ nl ++ "bootloader --location=none" ++ nl ++ "# Clear the Master Boot Record" ++ nl ++ "zerombr" ++ nl)%string.
Definition demo_packages : packages :=
  mkPackages true false false None ["emacs"] [] false [] false false ["vim"] None false false None None true.
Definition demo_script : script := mkScript "echo '%end' # x" "/usr/bin/perl" false (Some 7%N) (Some "/tmp/log") true Post.
Example C39_example :
  text_of_lines F34 demo_lines = Some demo_text /\ command_text demo_text /\ text_of_lines F34 (commands_from 2 (splitlines demo_text)) = Some demo_text /\
  file_sections F34 (mkSH [demo_script] demo_packages []).
Proof.
  split; [lazy; reflexivity|]. split; [split; lazy; reflexivity|]. split; [lazy; reflexivity|].
  split; [|split; [reflexivity|right]].
  - constructor; [|constructor]. repeat split; try (vm_compute; reflexivity); discriminate.
  - split; [|split].
    + unfold fits. cbn. repeat split; intros; try discriminate; try (destruct H; congruence).
    + split; [repeat constructor|]. split; [repeat constructor; intros []|]. split; [repeat constructor|]. split; [repeat constructor; intros []|].
      split; [intros x [<-|[]] [H|[]]; discriminate|]. split; [constructor|]. split; [constructor|]. split; [constructor|discriminate].
    + split; [intros g []|discriminate].
Qed.
