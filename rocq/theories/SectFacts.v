(** * Lemmas about sections *)

From Verif Require Import PyStrFacts ShlexFacts PreFacts ArgParseFacts ArgLineFacts ArgDeclFacts Parser ParserFacts ParserSpec ParserRel ParserLines ParserRun SectSpec.
From Verif Require Import Value.
Local Open Scope string_scope.
Local Open Scope list_scope.

Local Arguments String.eqb : simpl never.

(** ** Script headers *)

Ltac split_given ws := repeat match goal with |- context [last_given ?n ws] => destruct (last_given n ws) end; reflexivity.

Definition header_ns (k : skind) (e : bool) (i : string) (l : option string) (c : bool) : attrs :=
  [("errorOnFail", VBool e); ("interpreter", VStr i); ("log", match l with Some s => VStr s | None => VNone end)]
  ++ (if is_post k then [("nochroot", VBool c)] else []).

Lemma run_header k ws : forallb (header_word k) ws = true -> forall e i l c seen,
  exists seen', run_words (script_parser k) ws (header_ns k e i l c) seen =
    Some (header_ns k (e || has_flag "--erroronfail" ws)
            (match last_given ["--interpreter"] ws with Some v => v | None => i end)
            (match last_given ["--log"; "--logfile"] ws with Some v => Some v | None => l end)
            (c || has_flag "--nochroot" ws), seen').
Proof.
  induction ws as [|w ws IH]; intros Hw e i l c seen.
  { exists seen. cbn [run_words last_given has_flag existsb]. rewrite !orb_false_r. reflexivity. }
  cbn [forallb] in Hw. apply andb_true_iff in Hw as [Hw Hws].
  assert (S : forall e' i' l' c', (exists seen1, run_words (script_parser k) (w :: ws) (header_ns k e i l c) seen
      = run_words (script_parser k) ws (header_ns k e' i' l' c') seen1) ->
    e' || has_flag "--erroronfail" ws = e || has_flag "--erroronfail" (w :: ws) ->
    match last_given ["--interpreter"] ws with Some v => v | None => i' end
      = match last_given ["--interpreter"] (w :: ws) with Some v => v | None => i end ->
    match last_given ["--log"; "--logfile"] ws with Some v => Some v | None => l' end
      = match last_given ["--log"; "--logfile"] (w :: ws) with Some v => Some v | None => l end ->
    c' || has_flag "--nochroot" ws = c || has_flag "--nochroot" (w :: ws) ->
    exists seen', run_words (script_parser k) (w :: ws) (header_ns k e i l c) seen =
    Some (header_ns k (e || has_flag "--erroronfail" (w :: ws))
            (match last_given ["--interpreter"] (w :: ws) with Some v => v | None => i end)
            (match last_given ["--log"; "--logfile"] (w :: ws) with Some v => Some v | None => l end)
            (c || has_flag "--nochroot" (w :: ws)), seen')).
  { intros e' i' l' c' [seen1 ->] <- <- <- <-. apply IH. exact Hws. }
  clear IH. destruct w as [o|o v]; cbn [header_word] in Hw.
  - apply orb_true_iff in Hw as [Hw|Hw].
    + apply String.eqb_eq in Hw. subst o. apply (S true i l c).
      * destruct k; eexists; reflexivity.
      * cbn [has_flag existsb]. change (String.eqb "--erroronfail" "--erroronfail") with true. rewrite orb_true_r. reflexivity.
      * cbn [last_given]. split_given ws.
      * cbn [last_given]. split_given ws.
      * reflexivity.
    + apply andb_true_iff in Hw as [Hp Hw]. apply String.eqb_eq in Hw. subst o. apply (S e i l true).
      * destruct k; try discriminate. eexists; reflexivity.
      * reflexivity.
      * cbn [last_given]. split_given ws.
      * cbn [last_given]. split_given ws.
      * cbn [has_flag existsb]. change (String.eqb "--nochroot" "--nochroot") with true. rewrite orb_true_r. reflexivity.
  - unfold mem in Hw. cbn [existsb] in Hw. rewrite orb_false_r in Hw.
    apply orb_true_iff in Hw as [Hw|Hw]; [|apply orb_true_iff in Hw as [Hw|Hw]]; apply String.eqb_eq in Hw; subst o.
    + apply (S e v l c).
      * destruct k; eexists; reflexivity.
      * reflexivity.
      * cbn [last_given]. change (mem "--interpreter" ["--interpreter"]) with true. cbv iota. split_given ws.
      * cbn [last_given]. change (mem "--interpreter" ["--log"; "--logfile"]) with false. cbv iota. split_given ws.
      * reflexivity.
    + apply (S e i (Some v) c).
      * destruct k; eexists; reflexivity.
      * reflexivity.
      * cbn [last_given]. change (mem "--log" ["--interpreter"]) with false. cbv iota. split_given ws.
      * cbn [last_given]. change (mem "--log" ["--log"; "--logfile"]) with true. cbv iota. split_given ws.
      * reflexivity.
    + apply (S e i (Some v) c).
      * destruct k; eexists; reflexivity.
      * reflexivity.
      * cbn [last_given]. change (mem "--logfile" ["--interpreter"]) with false. cbv iota. split_given ws.
      * cbn [last_given]. change (mem "--logfile" ["--log"; "--logfile"]) with true. cbv iota. split_given ws.
      * reflexivity.
Qed.

Lemma script_actions_plain k a : In a (p_actions (script_parser k)) -> a_required a = false /\ settled a.
Proof.
  assert (P : forall x, (x = VStr "/bin/sh" \/ x = VNone \/ exists b, x = VBool b) -> forall d, x = VStr d -> ty_str d = Ok (VStr d)).
  { intros x _ d _. reflexivity. }
  destruct k; cbn in a; simpl; intros H;
  repeat (destruct H as [<-|H]); try destruct H; (split; [reflexivity|intros d Hd; reflexivity]).
Qed.

Lemma script_header_parse k ln ws : forallb (header_word k) ws = true ->
  parse_args (script_parser k) ln (map text ws) =
  Ok (header_ns k (has_flag "--erroronfail" ws)
        (match last_given ["--interpreter"] ws with Some v => v | None => "/bin/sh" end)
        (last_given ["--log"; "--logfile"] ws) (has_flag "--nochroot" ws)).
Proof.
  intros H. destruct (run_header k ws H false "/bin/sh" None false []) as [seen R].
  eapply parse_words with (seen := seen).
  - apply build_table_ok, script_table_sane.
  - destruct k; reflexivity.
  - intros a Ha. right. eapply script_actions_plain; eauto.
  - assert (E : init_ns (p_actions (script_parser k)) = header_ns k false "/bin/sh" None false) by (destruct k; reflexivity).
    rewrite E, R. do 2 f_equal. destruct (last_given ["--log"; "--logfile"] ws); reflexivity.
Qed.

(** ** Blank texts *)

Lemma all_chars_app f a b : all_chars f (a ++ b)%string = all_chars f a && all_chars f b.
Proof. induction a as [|c a IH]; [reflexivity|]. cbn [append all_chars]. rewrite IH, andb_assoc. reflexivity. Qed.

Lemma blank_concat l : blank (concat_all l) = forallb blank l.
Proof. induction l as [|x l IH]; [reflexivity|]. cbn [concat_all forallb]. unfold blank in *. rewrite all_chars_app, IH. reflexivity. Qed.

Lemma blank_join l : blank (join " " l) = forallb blank l.
Proof.
  induction l as [|x l IH]; [reflexivity|]. destruct l as [|y l]; [cbn; rewrite andb_true_r; reflexivity|].
  cbn [forallb]. cbn [forallb] in IH. rewrite <- IH. unfold blank. change (join " " (x :: y :: l)) with (x ++ " " ++ join " " (y :: l))%string.
  rewrite !all_chars_app. reflexivity.
Qed.

Lemma strip_blank s : String.eqb (strip s) "" = blank s.
Proof.
  unfold blank. destruct (all_chars is_space s) eqn:E.
  - apply String.eqb_eq, strip_nil, E.
  - apply String.eqb_neq. rewrite strip_nil. congruence.
Qed.

Lemma finalize_blank l : String.eqb (strip (join " " l)) "" = blank (concat_all l).
Proof. rewrite strip_blank, blank_join, blank_concat. reflexivity. Qed.

Lemma concat_all_app a b : concat_all (a ++ b) = (concat_all a ++ concat_all b)%string.
Proof. induction a as [|x a IH]; [reflexivity|]. cbn [app concat_all]. rewrite IH, app_assoc_s. reflexivity. Qed.

(** ** Section bodies *)

Section Bodies.
Variable C : Type.
Variable dispatch : C -> string -> list string -> N -> C * option exn.
Variable cf : config.
Notation kstate := (kstate C).
Implicit Types st : kstate.
Notation run := (run_lines C dispatch cf).

Lemma put_put {A} n (a b : A) l : put n b (put n a l) = put n b l.
Proof.
  induction l as [|[k v] l IH]; cbn [put]; [rewrite String.eqb_refl; reflexivity|].
  destruct (String.eqb n k) eqn:E; cbn [put]; rewrite E; [reflexivity|]. rewrite IH. reflexivity.
Qed.
Lemma put_id {A} n (a : A) l : assoc n l = Some a -> put n a l = l.
Proof.
  induction l as [|[k v] l IH]; cbn [put assoc]; [discriminate|].
  destruct (String.eqb n k) eqn:E; [intros H; injection H as ->; reflexivity|]. intros H. rewrite IH; auto.
Qed.

Lemma body_line_spec known line : body_line known line = true ->
  line <> "" /\ match split_ws line with [] => True | w :: _ => mem w ("%end" :: "%include" :: known) = false end.
Proof.
  unfold body_line. intros H. apply andb_true_iff in H as [H1 H2]. apply negb_true_iff, String.eqb_neq in H2.
  split; auto. destruct (split_ws line); auto. apply negb_true_iff in H1. exact H1.
Qed.

Lemma has_key_mem {A} n (l : list (string * A)) : has_key n l = mem n (map fst l).
Proof.
  unfold has_key. induction l as [|[k v] l IH]; [reflexivity|]. cbn [assoc map fst mem existsb].
  unfold mem in *. cbn [existsb]. destruct (String.eqb n k); [reflexivity|exact IH].
Qed.

(** A body line is handed to the section object as it is. *)
Lemma rs_body i n line ln st : all_lines C n st = true -> body_line (known st) line = true ->
  rs_step C cf i n line ln st =
  match call_line C n line st with
  | (st, Some e) => (st, Err e)
  | (st, None) => (st, Ok (Go (Some n) (ln + 1)%N))
  end.
Proof.
  intros Ha Hb. apply body_line_spec in Hb as [Hl Hb]. unfold rs_step.
  apply String.eqb_neq in Hl. rewrite Hl. cbn [andb]. rewrite Ha, andb_false_r.
  destruct (startswith (lstrip line) "%") eqn:Ep; [|reflexivity].
  destruct (split_ws line) as [|w ws] eqn:Ew.
  { exfalso. destruct (lstrip line) as [|c r] eqn:El; [discriminate|]. rewrite startswith_cons in Ep.
    apply andb_true_iff in Ep as [Ep _]. apply Ascii.eqb_eq in Ep. subst c.
    rewrite <- split_ws_lstrip, El in Ew. destruct (split_ws_head "%" r eq_refl) as (? & ? & E). congruence. }
  unfold mem in Hb. cbn [existsb] in Hb. apply orb_false_iff in Hb as [H1 Hb]. apply orb_false_iff in Hb as [H2 Hb].
  unfold valid_state. rewrite has_key_mem. unfold known, mem in Hb. unfold mem. rewrite Hb.
  cbn [negb existsb]. rewrite H1, H2. reflexivity.
Qed.

(** The lines of a script section. *)
Definition add_lines_to (n : string) (k : skind) (t : N) (a : scriptacc) (lines : list string) st : kstate :=
  set_section C n (SScript k t (mkSacc (sa_interp a) (sa_log a) (sa_errorOnFail a) (sa_lineno a) (sa_chroot a)
                                  (sa_body a ++ lines))) (ks_sec C st) st.

Lemma script_body i n k t lines : forall a ln st,
  assoc n (ks_sections C st) = Some (SScript k t a) ->
  forallb (body_line (known st)) lines = true ->
  run i (Some n) lines ln st =
    (add_lines_to n k t a lines st, Ok (Some (Some n, (ln + N.of_nat (length lines))%N))).
Proof.
  induction lines as [|l lines IH]; intros a ln st Ho Hb.
  { cbn [run_lines length]. rewrite N.add_0_r. unfold add_lines_to, set_section. rewrite app_nil_r. do 2 f_equal.
    destruct st, a; cbn in *. rewrite put_id; auto. }
  cbn [forallb] in Hb. apply andb_true_iff in Hb as [Hb Hbs].
  cbn [run_lines]. rewrite steps_eq. cbn [step]. rewrite rs_body; auto; [|unfold all_lines; rewrite Ho; reflexivity].
  unfold call_line. rewrite Ho. cbn [sec_handleLine].
  assert (K : known (set_section C n (SScript k t (script_handleLine l a)) (ks_sec C st) st) = known st).
  { unfold known, set_section. cbn. rewrite map_fst_put. unfold has_key. rewrite Ho. reflexivity. }
  rewrite (IH (script_handleLine l a)).
  - f_equal; [|cbn [length]; do 3 f_equal; lia].
    unfold add_lines_to, set_section, script_handleLine. cbn. rewrite put_put, <- app_assoc. reflexivity.
  - unfold set_section. cbn. rewrite assoc_put, String.eqb_refl. reflexivity.
  - rewrite K. exact Hbs.
Qed.

Lemma end_not_blank e : end_line e = true -> blank e || comment e = false.
Proof.
  intros H. apply end_line_spec in H as (ws & x & E & _).
  destruct (split_ws_first _ _ _ E) as (c & w & r & E1 & E2 & _). injection E1 as <- _.
  assert (B : blank e = false).
  { destruct (blank e) eqn:B; auto. unfold blank in B. apply lstrip_by_nil in B. unfold lstrip in E2. congruence. }
  rewrite B. unfold comment. rewrite E2, startswith_cons, startswith_nil. reflexivity.
Qed.

(** An %end line. *)
Lemma rs_end i n e ln st : end_line e = true ->
  rs_step C cf i n e ln st =
  match finalize C n st with
  | (st, Some x) => (st, Err x)
  | (st, None) => (st, Ok (Go None (ln + 1)%N))
  end.
Proof.
  intros He. pose proof (end_not_blank _ He) as Hb. pose proof He as He'.
  apply end_line_spec in He' as (ws & x & E & Es).
  destruct (split_ws_first _ _ _ E) as (c & w & r & E1 & E2 & _). injection E1 as <- _.
  unfold rs_step.
  assert (Hl : String.eqb e "" = false) by (apply String.eqb_neq; intros ->; discriminate).
  rewrite Hl. cbn [andb]. rewrite ibc_eq, Hb. cbn [andb]. rewrite E2, startswith_cons, startswith_nil.
  change (Ascii.eqb "%" "%" && true) with true. cbv iota. rewrite E.
  change (mem "%end" ["%end"; "%include"]) with true. rewrite andb_false_r. cbv iota. rewrite Es.
  change (String.eqb "%end" "%end") with true. reflexivity.
Qed.

Lemma kind_name_marker k : exists r, kind_name k = String "%" r /\
  String.eqb (kind_name k) "%include" = false /\ String.eqb (kind_name k) "%ksappend" = false.
Proof. destruct k; eexists; repeat split; reflexivity. Qed.

(** The accumulator after a header. *)
Definition acc_after (k : skind) (ws : list oword) (ln : N) (a : scriptacc) : scriptacc :=
  mkSacc (match last_given ["--interpreter"] ws with Some v => v | None => "/bin/sh" end)
    (last_given ["--log"; "--logfile"] ws) (has_flag "--erroronfail" ws) (Some ln)
    (if is_post k then negb (has_flag "--nochroot" ws) else sa_chroot a) (sa_body a).

Lemma sm_header i k ws h ln st t a : header_line k ws h -> ks_state C st = None ->
  assoc (kind_name k) (ks_sections C st) = Some (SScript k t a) ->
  sm_step C dispatch cf i h ln st =
  (set_section C (kind_name k) (SScript k (t + 1) (acc_after k ws (ln + 1)%N a)) (ks_sec C st)
     (set_state C (Some (kind_name k)) st), Ok (Go (Some (kind_name k)) (ln + 1)%N)).
Proof.
  intros (_ & _ & Hb & Hs & Hw) Hst Ho. unfold sm_step.
  assert (Hl : String.eqb h "" = false) by (apply String.eqb_neq; intros ->; discriminate).
  rewrite Hl, ibc_eq, Hb, Hs. destruct (kind_name_marker k) as (r & Ek & E1 & E2). rewrite E1, Hst, E2.
  assert (Hv : valid_state C st (kind_name k) = true) by (unfold valid_state, has_key; rewrite Ho; reflexivity).
  rewrite Hv. destruct (kind_name k) as [|c r'] eqn:E; [discriminate|]. injection Ek as -> ->.
  change (Ascii.eqb "%" "%") with true. cbn [negb andb]. cbv iota zeta.
  unfold call_header. cbn [ks_sections set_state]. rewrite Ho. cbn [sec_handleHeader].
  unfold script_handleHeader. cbn [tl]. rewrite script_header_parse by exact Hw. cbn [try_func]. do 4 f_equal.
  unfold acc_after. destruct (last_given ["--log"; "--logfile"] ws); destruct k; reflexivity.
Qed.

Lemma finalize_script k t a st : assoc (kind_name k) (ks_sections C st) = Some (SScript k t a) ->
  finalize C (kind_name k) st =
  (set_state C None
     (set_section C (kind_name k)
       (SScript k t (if blank (concat_all (sa_body a)) then a else reset_script k))
       (mkSH (sh_scripts (ks_sec C st) ++
              if blank (concat_all (sa_body a)) then []
              else [mkScript (concat_all (sa_body a)) (sa_interp a) (sa_chroot a) (sa_lineno a) (sa_log a) (sa_errorOnFail a) k])
          (sh_packages (ks_sec C st)) (sh_nulls (ks_sec C st))) st), None).
Proof.
  intros Ho. unfold finalize. rewrite Ho. cbn [sec_finalize]. unfold script_finalize. rewrite finalize_blank.
  destruct (blank (concat_all (sa_body a))); reflexivity.
Qed.

(** The parser at the end of a text. *)
Lemma has_read_run n st A s1 : (F8 <= cf_version cf)%Z ->
  has_read dispatch cf n st A s1 <->
  complete A = true /\ ks_state C s1 = None /\
  run (handle_include C cf (read_kickstart C dispatch cf n)) None (splitlines A) 0 (reset C st)
    = (s1, Ok (Some (None, N.of_nat (length (splitlines A))))).
Proof.
  intros H8. unfold has_read. rewrite read_string_run, run_lines_app.
  set (i := handle_include C cf (read_kickstart C dispatch cf n)).
  pose proof (run_lines_both C dispatch cf i (splitlines A) None 0 (reset C st) (splitlines_nonempty A)) as Hb.
  pose proof (run_lines_deep C dispatch cf i (include_deep C dispatch cf n) (splitlines A) None 0 (reset C st)) as Dp.
  destruct (run i None (splitlines A) 0 (reset C st)) as [s2 [[[m l]|]|x]] eqn:E; [|contradiction|].
  - subst l. rewrite N.add_0_l.
    rewrite end_of_input; [|destruct Dp as [_ Dp]; apply Dp; reflexivity|apply Z.leb_le; exact H8].
    destruct m; cbn [outcome]; split.
    + intros (_ & ? & _). discriminate.
    + intros (_ & _ & ?). discriminate.
    + intros (? & H & ?). injection H as ->. auto.
    + intros (? & ? & H). injection H as ->. auto.
  - cbn [outcome]. split; [intros (_ & ? & _); discriminate|intros (_ & _ & ?); discriminate].
Qed.

Lemma complete_splitlines_cons h : splitlines h = [h] -> h <> "".
Proof. intros E. apply (splitlines_nonempty h). rewrite E. simpl; auto. Qed.

(** One script section. *)
Lemma script_section n st A s1 k ws h b e w :
  (F8 <= cf_version cf)%Z -> has_read dispatch cf n st A s1 -> pending k w s1 ->
  header_line k ws h -> script_text (known s1) b -> closing_line e ->
  exists s2, readKickstartFromString C dispatch cf n (A ++ h ++ b ++ e) st = (s2, None) /\ ks_state C s2 = None /\
    if blank (w ++ b)%string then only_adds k [] s1 s2 /\ pending k (w ++ b)%string s2
    else only_adds k [described k ws (N.of_nat (length (splitlines A)) + 1) (w ++ b)%string] s1 s2 /\ pending k "" s2.
Proof.
  intros H8 HA (t & a & Ho & Hw & Hc) Hh [Hb1 Hb2] [He1 He2].
  apply has_read_run in HA as (HA & Hst & R); auto.
  rewrite read_string_run, (splitlines_app A) by auto.
  assert (Hh' := Hh). destruct Hh' as (Hh1 & Hh2 & _).
  rewrite (splitlines_app h), (splitlines_app b), Hh1, He1 by auto.
  pose proof (run_lines_deep C dispatch cf _ (include_deep C dispatch cf n) (splitlines A) None 0 (reset C st)) as Dp.
  rewrite R in Dp. destruct Dp as [_ Dp]. specialize (Dp eq_refl). cbn [fst] in Dp. change (ks_depth C (reset C st)) with 0%N in Dp.
  set (i := handle_include C cf (read_kickstart C dispatch cf n)) in *.
  rewrite <- app_assoc, run_lines_app, R. cbn [app]. cbn [run_lines]. rewrite steps_eq. cbn [step].
  rewrite (sm_header _ _ _ _ _ _ _ _ Hh Hst Ho). cbv iota.
  set (ln := (N.of_nat (length (splitlines A)) + 1)%N).
  set (sh := set_section C (kind_name k) (SScript k (t + 1) (acc_after k ws ln a)) (ks_sec C s1) (set_state C (Some (kind_name k)) s1)).
  assert (Osh : assoc (kind_name k) (ks_sections C sh) = Some (SScript k (t + 1) (acc_after k ws ln a))).
  { unfold sh, set_section. cbn. rewrite assoc_put, String.eqb_refl. reflexivity. }
  assert (Ksh : known sh = known s1).
  { unfold sh, known, set_section. cbn. rewrite map_fst_put. unfold has_key. rewrite Ho. reflexivity. }
  rewrite <- app_assoc, run_lines_app.
  rewrite (script_body i _ k (t + 1) (splitlines b) (acc_after k ws ln a)); [|exact Osh|rewrite Ksh; exact Hb2].
  cbn [app run_lines]. rewrite steps_eq. cbn [step]. rewrite rs_end by exact He2.
  set (sb := add_lines_to (kind_name k) k (t + 1) (acc_after k ws ln a) (splitlines b) sh).
  set (ab := mkSacc (sa_interp (acc_after k ws ln a)) (sa_log (acc_after k ws ln a)) (sa_errorOnFail (acc_after k ws ln a))
     (sa_lineno (acc_after k ws ln a)) (sa_chroot (acc_after k ws ln a)) (sa_body (acc_after k ws ln a) ++ splitlines b)).
  assert (Osb : assoc (kind_name k) (ks_sections C sb) = Some (SScript k (t + 1) ab)).
  { unfold sb, add_lines_to, set_section. cbn. rewrite assoc_put, String.eqb_refl. reflexivity. }
  rewrite (finalize_script _ _ _ _ Osb). cbv iota.
  assert (Eb : concat_all (sa_body ab) = (w ++ b)%string).
  { unfold ab. cbn [sa_body acc_after]. rewrite concat_all_app, Hw, splitlines_concat. reflexivity. }
  rewrite Eb.
  eexists. split.
  { rewrite steps_eq. cbn [step sm_step]. change (String.eqb "" "") with true. cbn [outcome]. reflexivity. }
  split; [reflexivity|].
  assert (Hother : forall o h2 m, m <> kind_name k ->
     assoc m (ks_sections C (set_state C None (set_section C (kind_name k) o h2 sb))) = assoc m (ks_sections C s1)).
  { intros o h2 m Hm. unfold sb, sh, add_lines_to, set_section, set_state. cbn. rewrite !assoc_put.
    apply String.eqb_neq in Hm. rewrite Hm. reflexivity. }
  assert (Hkn : forall o h2, known (set_state C None (set_section C (kind_name k) o h2 sb)) = known s1).
  { intros o h2. rewrite <- Ksh. unfold sb, add_lines_to, known, set_section, set_state. cbn [ks_sections].
    rewrite !map_fst_put, !has_key_put, String.eqb_refl. cbn [orb]. unfold has_key. rewrite Osh. reflexivity. }
  destruct (blank (w ++ b)%string) eqn:Ebl.
  - split.
    + unfold only_adds. rewrite Hkn. split; [reflexivity|]. split; [reflexivity|]. split; [reflexivity|].
      split; [cbn; rewrite app_nil_r; reflexivity|]. split; [reflexivity|]. split; [reflexivity|]. split; [reflexivity|].
      intros m Hm. apply Hother; auto.
    + exists (t + 1)%N, ab. split; [unfold set_state, set_section; cbn; rewrite assoc_put, String.eqb_refl; reflexivity|].
      split; [exact Eb|]. unfold ab. cbn. destruct Hc as [Hc|Hc]; [left; exact Hc|]. destruct (is_post k); auto.
  - split.
    + unfold only_adds. rewrite Hkn. split; [reflexivity|]. split; [reflexivity|]. split; [reflexivity|].
      split.
      { cbn. f_equal. f_equal. unfold described. f_equal. destruct Hc as [Hc|Hc].
        - rewrite Hc. reflexivity.
        - destruct (is_post k); [reflexivity|exact Hc]. }
      split; [reflexivity|]. split; [reflexivity|]. split; [reflexivity|].
      intros m Hm. apply Hother; auto.
    + exists (t + 1)%N, (reset_script k). split; [unfold set_state, set_section; cbn; rewrite assoc_put, String.eqb_refl; reflexivity|].
      split; [reflexivity|]. destruct k; cbn; auto.
Qed.

End Bodies.

(** ** Unknown sections *)

Section Null.
Variable C : Type.
Variable dispatch : C -> string -> list string -> N -> C * option exn.
Variable cf : config.
Notation kstate := (kstate C).
Implicit Types st : kstate.
Notation run := (run_lines C dispatch cf).

Lemma null_body i n a lines : forall b ln st,
  assoc n (ks_sections C st) = Some (SNull a b) ->
  forallb (body_line (known st)) lines = true ->
  run i (Some n) lines ln st =
    (set_section C n (SNull a (b ++ lines)) (ks_sec C st) st, Ok (Some (Some n, (ln + N.of_nat (length lines))%N))).
Proof.
  induction lines as [|l lines IH]; intros b ln st Ho Hb.
  { cbn [run_lines length]. rewrite N.add_0_r. unfold set_section. rewrite app_nil_r. do 2 f_equal.
    destruct st; cbn in *. rewrite put_id; auto. }
  cbn [forallb] in Hb. apply andb_true_iff in Hb as [Hb Hbs].
  cbn [run_lines]. rewrite steps_eq. cbn [step]. rewrite rs_body; auto; [|unfold all_lines; rewrite Ho; reflexivity].
  unfold call_line. rewrite Ho. cbn [sec_handleLine].
  assert (K : known (set_section C n (SNull a (b ++ [l])) (ks_sec C st) st) = known st).
  { unfold known, set_section. cbn. rewrite map_fst_put. unfold has_key. rewrite Ho. reflexivity. }
  rewrite (IH (b ++ [l])).
  - f_equal; [|cbn [length]; do 3 f_equal; lia].
    unfold set_section. cbn. rewrite put_put, <- app_assoc. reflexivity.
  - unfold set_section. cbn. rewrite assoc_put, String.eqb_refl. reflexivity.
  - rewrite K. exact Hbs.
Qed.

(** The header of a section that is kept: registered as such, or unknown. *)
Definition keeps (name : string) st : Prop :=
  assoc name (ks_sections C st) = Some (SNull [] []) \/
  (assoc name (ks_sections C st) = None /\ cf_unknownSectionIsFatal cf = false).

Lemma sm_null i name args h ln st : section_line name args h -> ks_state C st = None -> keeps name st ->
  sm_step C dispatch cf i h ln st =
  (set_section C name (SNull (name :: args) []) (ks_sec C st) (set_state C (Some name) st),
   Ok (Go (Some name) (ln + 1)%N)).
Proof.
  intros (_ & _ & Hb & Hs & Hp & N1 & N2) Hst Hk. unfold sm_step.
  assert (Hl : String.eqb h "" = false) by (apply String.eqb_neq; intros ->; discriminate).
  apply String.eqb_neq in N1, N2.
  rewrite Hl, ibc_eq, Hb, Hs, N1, Hst, N2. destruct name as [|c r]; [discriminate|].
  rewrite startswith_cons, startswith_nil, andb_true_r in Hp. apply Ascii.eqb_eq in Hp. subst c.
  change (Ascii.eqb "%" "%") with true. cbv iota zeta.
  unfold valid_state, has_key. destruct Hk as [Hk|[Hk Hf]].
  - rewrite Hk. cbn [negb andb]. unfold call_header. cbn [ks_sections set_state]. rewrite Hk. reflexivity.
  - rewrite Hk, Hf. cbn [negb andb]. unfold call_header. unfold set_section at 1. unfold set_state at 1. cbn [ks_sections].
    rewrite assoc_put, String.eqb_refl. cbn [sec_handleHeader try_func].
    unfold set_section, set_state. cbn. rewrite put_put. reflexivity.
Qed.

Lemma null_section n st A s1 name args h b e :
  (F8 <= cf_version cf)%Z -> has_read dispatch cf n st A s1 -> keeps name s1 ->
  section_line name args h -> script_text (name :: known s1) b -> closing_line e ->
  exists s2, readKickstartFromString C dispatch cf n (A ++ h ++ b ++ e) st = (s2, None) /\ ks_state C s2 = None /\
    ks_sec C s2 = mkSH (sh_scripts (ks_sec C s1)) (sh_packages (ks_sec C s1))
                    (sh_nulls (ks_sec C s1) ++ [null_text (name :: args) (splitlines b)]) /\
    ks_cmds C s2 = ks_cmds C s1 /\ ks_platform C s2 = ks_platform C s1 /\ ks_errors C s2 = ks_errors C s1 /\
    assoc name (ks_sections C s2) = Some (SNull [] []) /\
    forall m, m <> name -> assoc m (ks_sections C s2) = assoc m (ks_sections C s1).
Proof.
  intros H8 HA Hk Hh [Hb1 Hb2] [He1 He2].
  apply has_read_run in HA as (HA & Hst & R); auto.
  rewrite read_string_run, (splitlines_app A) by auto.
  assert (Hh' := Hh). destruct Hh' as (Hh1 & Hh2 & _).
  rewrite (splitlines_app h), (splitlines_app b), Hh1, He1 by auto.
  set (i := handle_include C cf (read_kickstart C dispatch cf n)) in *.
  rewrite <- app_assoc, run_lines_app, R. cbn [app]. cbn [run_lines]. rewrite steps_eq. cbn [step].
  rewrite (sm_null _ _ _ _ _ _ Hh Hst Hk). cbv iota.
  set (sh := set_section C name (SNull (name :: args) []) (ks_sec C s1) (set_state C (Some name) s1)).
  assert (Osh : assoc name (ks_sections C sh) = Some (SNull (name :: args) [])).
  { unfold sh, set_section. cbn. rewrite assoc_put, String.eqb_refl. reflexivity. }
  assert (Kb : forallb (body_line (known sh)) (splitlines b) = true).
  { rewrite forallb_forall in *. intros l Hl. specialize (Hb2 l Hl). unfold body_line in *.
    apply andb_true_iff in Hb2 as [H1 H2]. rewrite H2, andb_true_r. destruct (split_ws l) as [|w ws]; auto.
    apply negb_true_iff in H1. apply negb_true_iff.
    assert (Kn : known sh = if has_key name (ks_sections C s1) then known s1 else known s1 ++ [name]).
    { unfold sh, known, set_section. cbn. rewrite map_fst_put. reflexivity. }
    rewrite Kn. unfold mem in *. cbn [existsb] in *. apply orb_false_iff in H1 as [H1 H3]. apply orb_false_iff in H3 as [H3 H4].
    apply orb_false_iff in H4 as [H4 H5]. rewrite H1, H3. cbn [orb].
    destruct (has_key name (ks_sections C s1)); auto. rewrite existsb_app, H5. cbn [existsb orb]. rewrite H4. reflexivity. }
  rewrite <- app_assoc, run_lines_app. rewrite (null_body i name (name :: args) (splitlines b) []); auto.
  cbn [app run_lines]. rewrite steps_eq. cbn [step]. rewrite rs_end by exact He2.
  unfold finalize. unfold set_section at 1. cbn [ks_sections]. rewrite assoc_put, String.eqb_refl. cbn [sec_finalize].
  cbv iota. eexists. split.
  { rewrite steps_eq. cbn [step sm_step]. change (String.eqb "" "") with true. cbn [outcome]. reflexivity. }
  split; [reflexivity|]. split; [reflexivity|]. split; [reflexivity|]. split; [reflexivity|]. split; [reflexivity|].
  split; [unfold set_section, set_state; cbn; rewrite assoc_put, String.eqb_refl; reflexivity|].
  intros m Hm. unfold sh, set_section, set_state. cbn. rewrite !assoc_put. apply String.eqb_neq in Hm. rewrite Hm. reflexivity.
Qed.

Lemma null_text_kept name args b : null_text (name :: args) (splitlines b) = kept name args (splitlines b).
Proof.
  unfold null_text, kept. destruct (splitlines b) as [|l lines] eqn:E; [reflexivity|].
  assert (J : String.eqb (join nl (l :: lines)) "" = false).
  { apply String.eqb_neq. intros H. assert (l <> "") by (apply (splitlines_nonempty b); rewrite E; simpl; auto).
    destruct lines; cbn [join] in H; [congruence|]. destruct l; [congruence|]. discriminate. }
  rewrite J. rewrite !app_assoc_s. reflexivity.
Qed.

End Null.

(** ** Written scripts *)

Lemma single_line x : all_chars (fun c => negb (is_linebreak c)) x = true -> splitlines (x ++ nl)%string = [(x ++ nl)%string].
Proof.
  induction x as [|c x IH]; [reflexivity|]. cbn [all_chars append splitlines]. intros H.
  apply andb_true_iff in H as [H1 H2]. apply negb_true_iff in H1. rewrite H1, IH; auto.
Qed.

Definition written_words (s : script) : list oword :=
  (if negb (String.eqb (sc_interp s) "/bin/sh") then [OVal "--interpreter" (sc_interp s)] else []) ++
  (if is_post (sc_type s) && negb (sc_inChroot s) then [OFlag "--nochroot"] else []) ++
  (match sc_logfile s with Some f => [OVal "--logfile" f] | None => [] end) ++
  (if sc_errorOnFail s then [OFlag "--erroronfail"] else []).

Lemma join_space_cons a l : join " " (a :: l) = (a ++ concat_all (map (fun x => " " ++ x) l))%string.
Proof.
  revert a. induction l as [|b l IH]; intros a; [cbn; rewrite app_nil_r_s; reflexivity|].
  change (join " " (a :: b :: l)) with (a ++ " " ++ join " " (b :: l))%string. rewrite IH. cbn [map concat_all].
  rewrite !app_assoc_s. reflexivity.
Qed.

Lemma script_header_words s : sc_interp s <> "" ->
  script_header s = (nl ++ join " " (kind_name (sc_type s) :: map text (written_words s)))%string.
Proof.
  intros Hi. unfold script_header. apply String.eqb_neq in Hi. rewrite Hi. cbn [negb]. rewrite andb_true_r.
  rewrite join_space_cons. unfold written_words. rewrite !map_app. 
  repeat (rewrite map_app || rewrite concat_all_app). f_equal. f_equal.
  f_equal; [destruct (negb (String.eqb (sc_interp s) "/bin/sh")); cbn [map text concat_all]; rewrite ?app_nil_r_s; reflexivity|].
  f_equal; [destruct (is_post (sc_type s) && negb (sc_inChroot s)); reflexivity|].
  f_equal; [destruct (sc_logfile s); cbn [map text concat_all]; rewrite ?app_nil_r_s; reflexivity|].
  destruct (sc_errorOnFail s); reflexivity.
Qed.

Lemma plain_bare c : plain_char c = true -> bare_char true c = true.
Proof.
  intros H. assert (X : implb (plain_char c) (bare_char true c) = true).
  { apply (forall_ascii (fun c => implb (plain_char c) (bare_char true c))). vm_compute; reflexivity. }
  rewrite H in X. exact X.
Qed.
Lemma plain_no_break c : plain_char c = true -> negb (is_linebreak c) = true.
Proof.
  intros H. assert (X : implb (plain_char c) (negb (is_linebreak c)) = true).
  { apply (forall_ascii (fun c => implb (plain_char c) (negb (is_linebreak c)))). vm_compute; reflexivity. }
  rewrite H in X. exact X.
Qed.
Lemma all_chars_impl f g s : (forall c, f c = true -> g c = true) -> all_chars f s = true -> all_chars g s = true.
Proof.
  intros H. induction s as [|c s IH]; [auto|]. cbn [all_chars]. intros E. apply andb_true_iff in E as [E1 E2].
  rewrite (H _ E1), IH; auto.
Qed.

Lemma written_plain s : plain_text (sc_interp s) = true ->
  (match sc_logfile s with Some f => plain_text f = true | None => True end) ->
  forallb (fun x => plain_text x && negb (String.eqb x "")) (kind_name (sc_type s) :: map text (written_words s)) = true.
Proof.
  intros Hi Hl. cbn [forallb]. apply andb_true_iff; split; [destruct (sc_type s); reflexivity|].
  unfold written_words. rewrite !map_app, !forallb_app.
  repeat (apply andb_true_iff; split).
  - destruct (negb _); [|reflexivity]. cbn [map text forallb]. rewrite andb_true_r. apply andb_true_iff; split; [|reflexivity].
    unfold plain_text in *. rewrite !all_chars_app, Hi. reflexivity.
  - destruct (is_post _ && _); reflexivity.
  - destruct (sc_logfile s); [|reflexivity]. cbn [map text forallb]. rewrite andb_true_r. apply andb_true_iff; split; [|reflexivity].
    unfold plain_text in *. rewrite !all_chars_app, Hl. reflexivity.
  - destruct (sc_errorOnFail s); reflexivity.
Qed.

Lemma split_plain l tail : forallb (fun x => plain_text x && negb (String.eqb x "")) l = true -> l <> [] ->
  all_chars lex_white tail = true -> shlex_split true (join " " l ++ tail)%string = Ok l.
Proof.
  intros H Hn Ht.
  assert (E : map word_text (map (fun x => [Bare x]) l) = l).
  { rewrite map_map. clear. induction l as [|x l IH]; [reflexivity|]. cbn [map]. rewrite IH. unfold word_text. cbn.
    rewrite app_nil_r_s. reflexivity. }
  assert (V : map word_val (map (fun x => [Bare x]) l) = l).
  { rewrite map_map. clear. induction l as [|x l IH]; [reflexivity|]. cbn [map]. rewrite IH. unfold word_val. cbn.
    rewrite app_nil_r_s. reflexivity. }
  rewrite <- E at 1. rewrite split_words.
  - rewrite split_all_white by exact Ht. cbn [bind]. rewrite V, app_nil_r. reflexivity.
  - rewrite forallb_forall in *. intros w Hw. apply in_map_iff in Hw as (x & <- & Hx). specialize (H x Hx).
    apply andb_true_iff in H as [H1 H2]. unfold word_ok, word_text. cbn. rewrite app_nil_r_s, andb_true_r. rewrite H2, andb_true_r.
    eapply all_chars_impl; [|exact H1]. apply plain_bare.
  - destruct l; [congruence|discriminate].
  - destruct tail as [|c r]; [reflexivity|]. cbn [all_chars] in Ht. apply andb_true_iff in Ht as [Ht _]. cbn. rewrite Ht. reflexivity.
Qed.

Lemma join_no_break l : forallb (fun x => plain_text x && negb (String.eqb x "")) l = true ->
  all_chars (fun c => negb (is_linebreak c)) (join " " l) = true.
Proof.
  intros H. destruct l as [|a l]; [reflexivity|]. rewrite join_space_cons. cbn [forallb] in H.
  apply andb_true_iff in H as [H1 H2]. apply andb_true_iff in H1 as [H1 _].
  rewrite all_chars_app. apply andb_true_iff; split.
  { eapply all_chars_impl; [|exact H1]. apply plain_no_break. }
  clear a H1. induction l as [|b l IH]; [reflexivity|]. cbn [forallb map concat_all] in *.
  apply andb_true_iff in H2 as [H1 H2]. apply andb_true_iff in H1 as [H1 _].
  rewrite !all_chars_app, IH by exact H2. rewrite andb_true_r. cbn [all_chars].
  rewrite (all_chars_impl _ _ _ plain_no_break H1). reflexivity.
Qed.

Lemma written_header_line s : plain_text (sc_interp s) = true ->
  (match sc_logfile s with Some f => plain_text f = true | None => True end) ->
  header_line (sc_type s) (written_words s) (join " " (kind_name (sc_type s) :: map text (written_words s)) ++ nl).
Proof.
  intros Hi Hl. pose proof (written_plain s Hi Hl) as W. set (k := sc_type s) in *. set (ws := written_words s) in *.
  assert (P : exists r, (join " " (kind_name k :: map text ws) ++ nl)%string = String "%" r).
  { rewrite join_space_cons. destruct k; cbn; eauto. }
  split; [apply single_line, join_no_break, W|]. split.
  { unfold complete. apply orb_true_iff. right. generalize (join " " (kind_name k :: map text ws)). clear.
    induction s as [|c s IH]; [reflexivity|]. cbn [append]. destruct s; [reflexivity|]. exact IH. }
  split.
  { destruct P as [r ->]. reflexivity. }
  split; [apply split_plain; [exact W|discriminate|reflexivity]|].
  unfold ws, written_words. rewrite !forallb_app.
  repeat (apply andb_true_iff; split).
  - destruct (negb _); reflexivity.
  - fold k. destruct (is_post k && negb (sc_inChroot s)) eqn:E; [|reflexivity]. apply andb_true_iff in E as [E _].
    cbn. rewrite E. reflexivity.
  - destruct (sc_logfile s); reflexivity.
  - destruct (sc_errorOnFail s); [|reflexivity]. reflexivity.
Qed.

Lemma described_written s ln b : (sc_type s <> Post -> sc_inChroot s = false) ->
  described (sc_type s) (written_words s) ln b =
  mkScript b (sc_interp s) (sc_inChroot s) (Some ln) (sc_logfile s) (sc_errorOnFail s) (sc_type s).
Proof.
  intros Hc. unfold described, written_words.
  destruct (String.eqb_spec (sc_interp s) "/bin/sh") as [E|E]; cbn [negb];
  destruct (is_post (sc_type s)) eqn:Ep; [|rewrite Hc by (intros X; rewrite X in Ep; discriminate)| |rewrite Hc by (intros X; rewrite X in Ep; discriminate)];
  destruct (sc_inChroot s), (sc_logfile s), (sc_errorOnFail s); cbv -[sc_interp sc_type]; congruence.
Qed.

Lemma complete_nl s : complete (s ++ nl)%string = true.
Proof.
  unfold complete. apply orb_true_iff. right.
  induction s as [|c s IH]; [reflexivity|]. cbn [append]. destruct s; [reflexivity|]. exact IH.
Qed.

(** ** Lines of kept sections *)

Definition lf_line (l : string) : Prop := exists x, l = (x ++ nl)%string /\ all_chars (fun c => negb (is_linebreak c)) x = true.

Lemma lf_lines b : complete b = true -> all_chars (fun c => negb (is_linebreak c) || Ascii.eqb c LF) b = true ->
  Forall lf_line (splitlines b).
Proof.
  induction b as [|c b IH]; [constructor|]. cbn [all_chars]. intros Hc H. apply andb_true_iff in H as [H1 H2].
  assert (Hb : b <> "" -> complete b = true).
  { intros Hn. unfold complete in *. cbn [ends_with_char] in Hc. destruct b; [congruence|]. exact Hc. }
  destruct (is_linebreak c) eqn:E.
  - cbn [negb orb] in H1. apply Ascii.eqb_eq in H1. subst c.
    change (String LF b) with (nl ++ b)%string. rewrite splitlines_app by reflexivity. constructor.
    + exists "". split; reflexivity.
    + destruct b; [constructor|]. apply IH; [apply Hb; discriminate|exact H2].
  - destruct b as [|d b].
    { unfold complete in Hc. cbn in Hc. apply Ascii.eqb_eq in Hc. subst c. discriminate. }
    specialize (IH (Hb ltac:(discriminate)) H2).
    cbn [splitlines]. rewrite E. cbn [splitlines] in IH.
    destruct (splitlines (String d b)) as [|l r] eqn:El.
    { exfalso. pose proof (splitlines_concat (String d b)) as X. rewrite El in X. discriminate. }
    cbn [splitlines] in El. rewrite El in *.
    inversion IH as [|? ? (x & -> & Hx) Hr]; subst. constructor; [|exact Hr].
    exists (String c x). split; [reflexivity|]. cbn [all_chars]. rewrite E, Hx. reflexivity.
Qed.

Lemma visible_joined l lines : Forall lf_line (l :: lines) ->
  filter (fun l => negb (blank l)) (splitlines ((join nl (l :: lines) ++ nl) ++ "%end")) =
  filter (fun l => negb (blank l)) ((l :: lines) ++ ["%end"]).
Proof.
  revert l. induction lines as [|m lines IH]; intros l H; inversion H as [|? ? Hl Hr]; subst; destruct Hl as (x & -> & Hx).
  - change (join nl [(x ++ nl)%string]) with (x ++ nl)%string. rewrite app_assoc_s.
    rewrite splitlines_app by apply complete_nl. rewrite single_line by exact Hx. rewrite !filter_app. reflexivity.
  - change (join nl ((x ++ nl)%string :: m :: lines)) with ((x ++ nl) ++ nl ++ join nl (m :: lines))%string.
    rewrite !app_assoc_s. rewrite <- (app_assoc_s x). rewrite splitlines_app by apply complete_nl.
    rewrite (splitlines_app nl) by reflexivity. rewrite single_line by exact Hx.
    rewrite <- app_assoc_s. change ((((x ++ nl)%string :: m :: lines) ++ ["%end"])) with ([(x ++ nl)%string] ++ ((m :: lines) ++ ["%end"])).
    rewrite (filter_app _ [_] (_ ++ ["%end"])). rewrite filter_app. f_equal.
    rewrite <- IH by exact Hr. rewrite filter_app. reflexivity.
Qed.
