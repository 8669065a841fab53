(** * C53: ksshell *)

From Verif Require Import Tools ToolsFacts PyStrFacts ShlexFacts PreFacts ParserSpec ParserFacts ParserLines ParserRun WholeSpec PropsParse PropsFile PkgFacts HandlerFacts ArgParseFacts PropsTools.
From Verif Require SectFacts VersionFacts.
From Coq Require Import Lia.
From Verif Require Import Value.
Local Open Scope string_scope.
Local Open Scope list_scope.
Local Arguments String.eqb : simpl never.
Local Arguments Ascii.eqb : simpl never.

(** ** A line with and without its newline *)

Lemma lex_nl s : forall st tok q ws, lex true s st tok q = Ok ws -> lex true (s ++ nl) st tok q = Ok ws.
Proof.
  assert (E : forall tok q (r r' : res (list string)) ws, (forall x, r = Ok x -> r' = Ok x) -> emit tok q r = Ok ws -> emit tok q r' = Ok ws).
  { intros tok q r r' ws H. unfold emit. destruct (_ && _); [apply H|]. destruct r as [x|e]; cbn [bind]; [|discriminate]. now rewrite (H x eq_refl). }
  induction s as [|c s IH]; intros st tok q ws H.
  - destruct st as [| |qc|b|]; cbn in H |- *; try discriminate H; exact H.
  - cbn [append lex] in *. destruct st as [| |qc|[b|]|].
    + destruct (lex_white c); [auto|]. destruct (true && Ascii.eqb c HASH); [auto|]. destruct (Ascii.eqb c BSLASH); [auto|]. destruct (lex_quote c); auto.
    + destruct (lex_white c); [exact (E _ _ _ _ _ (IH _ _ _) H)|]. destruct (true && Ascii.eqb c HASH); [exact (E _ _ _ _ _ (IH _ _ _) H)|]. destruct (lex_quote c); [auto|]. destruct (Ascii.eqb c BSLASH); auto.
    + destruct (Ascii.eqb c qc); [auto|]. destruct (_ && _); auto.
    + destruct (_ && _); auto.
    + auto.
    + destruct (Ascii.eqb c LF); auto.
Qed.
Lemma blank_nl l : blank (l ++ nl)%string = blank l.
Proof. unfold blank. induction l as [|c l IH]; [reflexivity|]. cbn [append all_chars]. now rewrite IH. Qed.
Lemma startswith_nl_hash l : startswith (l ++ nl)%string "#" = startswith l "#".
Proof. destruct l as [|c l]; [reflexivity|]. cbn [append]. unfold startswith. cbn. destruct (Ascii.eqb "#" c); [|reflexivity]. now destruct l. Qed.
Lemma comment_nl l : comment (l ++ nl)%string = comment l.
Proof.
  unfold comment, lstrip. induction l as [|c l IH]; [reflexivity|]. cbn [append lstrip_by]. destruct (is_space c); [exact IH|]. exact (startswith_nl_hash (String c l)).
Qed.
Lemma words_nl l ws : command_words l = Some ws -> command_words (l ++ nl)%string = Some ws.
Proof.
  unfold command_words. rewrite blank_nl, comment_nl. destruct (_ || _); [discriminate|]. destruct (shlex_split true l) as [x|e] eqn:E; [|discriminate].
  unfold shlex_split in *. now rewrite (lex_nl _ _ _ _ _ E).
Qed.
Lemma rstrip_nl l : rstrip (l ++ nl)%string = rstrip l.
Proof. unfold rstrip. induction l as [|c l IH]; [reflexivity|]. cbn [append rstrip_by]. now rewrite IH. Qed.
Lemma strip_nl l : strip (l ++ nl)%string = strip l.
Proof.
  unfold strip, lstrip. induction l as [|c l IH]; [reflexivity|]. cbn [append lstrip_by]. destruct (is_space c); [exact IH|].
  exact (rstrip_nl (String c l)).
Qed.
Lemma drop_nl n l : n <= String.length l -> drop n (l ++ nl)%string = (drop n l ++ nl)%string.
Proof. revert l. induction n as [|n IH]; intros [|c l] H; cbn in *; try reflexivity; [lia|]. apply IH. lia. Qed.
Lemma startswith_nl l p : has_char LF p = false -> startswith (l ++ nl)%string p = startswith l p.
Proof.
  unfold startswith. revert l. induction p as [|c p IH]; intros l H; [now rewrite !prefix_nil || (destruct l; reflexivity)|].
  unfold has_char in H. cbn [any_char] in H. apply orb_false_iff in H as [Hc H]. destruct l as [|d l].
  - cbn. rewrite (proj2 (Ascii.eqb_neq _ _)); [reflexivity|]. intros ->. now rewrite Ascii.eqb_refl in Hc.
  - cbn [append]. cbn. destruct (Ascii.eqb c d); [|reflexivity]. apply IH. exact H.
Qed.
Lemma platform_nl l : platform_comment (l ++ nl)%string = platform_comment l /\ (platform_comment l = true -> strip (drop 10 (l ++ nl)) = strip (drop 10 l)).
Proof.
  unfold platform_comment. split; [now apply startswith_nl|]. intros H. apply startswith_spec in H as [t ->].
  rewrite drop_nl by (cbn; lia). apply strip_nl.
Qed.
Lemma line_alone l : one_line l = true -> splitlines l = if String.eqb l "" then [] else [l].
Proof.
  induction l as [|c l IH]; [reflexivity|]. unfold one_line in *. cbn [all_chars]. intros H. apply andb_prop in H as [Hc H]. apply negb_true_iff in Hc.
  change (String.eqb (String c l) "") with false. cbv iota. cbn [splitlines]. rewrite Hc, (IH H). destruct l; reflexivity.
Qed.

Section Shell.
Variable C : Type.
Variable dispatch : C -> string -> list string -> N -> C * option exn.
Variable new_commands : Z -> C.
Notation shell_lines := (shell_lines C dispatch new_commands).
Notation shell_line := (shell_line C dispatch new_commands).
Notation cmds s := (ks_cmds C (sl_parser C s)).
Notation errs s := (ks_errors C (sl_parser C s)).

(** A line that ksshell gives to the parser and that is a command, blank or a comment. *)
Definition typed (l : string) : bool := one_line l && negb (startswith l ".") && (is_command l || blank l || comment l).
(** The commands of typed lines: each is the first line of a text of its own. *)
Fixpoint typed_commands (lines : list string) : list (string * list string * N) :=
  match lines with
  | [] => []
  | l :: r => match command_words l with Some ws => (l, ws, 1%N) :: typed_commands r | None => typed_commands r end
  end.

Lemma commands_alone l : one_line l = true -> commands_from 0 (splitlines l) = match command_words l with Some ws => [(l, ws, 1%N)] | None => [] end.
Proof. intros H. rewrite (line_alone l H). destruct (String.eqb_spec l "") as [->|N]; [reflexivity|]. cbn. now destruct (command_words l). Qed.
Lemma platform_alone l p : one_line l = true -> platform_of (splitlines l) p = if platform_comment l then strip (drop 10 l) else p.
Proof. intros H. rewrite (line_alone l H). destruct (String.eqb_spec l "") as [->|N]; reflexivity. Qed.
Lemma execute_all_app cs ds c : execute_all dispatch (cs ++ ds) c =
  (fst (execute_all dispatch ds (fst (execute_all dispatch cs c))), snd (execute_all dispatch cs c) + snd (execute_all dispatch ds (fst (execute_all dispatch cs c))))%N.
Proof.
  revert c. induction cs as [|[[l ws] n] cs IH]; intros c; [cbn; now destruct (execute_all dispatch ds c)|].
  cbn [app execute_all]. destruct (dispatch c l ws n) as [c1 e]. rewrite IH. destruct (execute_all dispatch cs c1) as [c2 k]. cbn [fst snd].
  destruct (execute_all dispatch ds c2) as [c3 k']. cbn [fst snd]. f_equal. destruct e; lia.
Qed.

(** Every typed line is executed, whatever happened to the lines before it; the shell goes on. *)
Theorem C53_lines fuel v w lines s : forallb typed lines = true ->
  exists s', shell_lines fuel v w lines s = (s', None) /\
    cmds s' = fst (execute_all dispatch (typed_commands lines) (cmds s)) /\
    errs s' = (errs s + snd (execute_all dispatch (typed_commands lines) (cmds s)))%N /\
    ks_sec C (sl_parser C s') = ks_sec C (sl_parser C s) /\ ks_platform C (sl_parser C s') = platform_of lines (ks_platform C (sl_parser C s)) /\
    sl_cleared C s' = sl_cleared C s.
Proof.
  revert s. induction lines as [|l lines IH]; intros s H.
  { exists s. cbn. rewrite N.add_0_r. repeat split. }
  cbn [forallb] in H. apply andb_prop in H as [Hl H]. unfold typed in Hl. apply andb_prop in Hl as [Hl Hc]. apply andb_prop in Hl as [Ho Hd]. apply negb_true_iff in Hd.
  cbn [Tools.shell_lines]. unfold Tools.shell_line. rewrite Hd.
  assert (F : forallb (fun l => is_command l || blank l || comment l) (splitlines l) = true).
  { rewrite (line_alone l Ho). destruct (String.eqb l ""); [reflexivity|]. cbn [forallb]. now rewrite Hc. }
  destruct (C14_all_lines C dispatch (tool_config v true false w) fuel l (sl_parser C s) eq_refl F) as (A & B & E & S & P).
  destruct (readKickstartFromString C dispatch (tool_config v true false w) fuel l (sl_parser C s)) as [st [e|]]; [discriminate|]. cbn [fst snd] in *.
  destruct (IH (mkShell C st (sl_cleared C s)) H) as (s' & R & B' & E' & S' & P' & Cl). exists s'. split; [exact R|]. cbn [sl_parser sl_cleared] in *.
  rewrite (commands_alone l Ho) in B, E. rewrite (platform_alone l _ Ho) in P.
  assert (X : typed_commands (l :: lines) = match command_words l with Some ws => [(l, ws, 1%N)] | None => [] end ++ typed_commands lines) by (cbn [typed_commands]; destruct (command_words l); reflexivity).
  rewrite X, execute_all_app. cbn [fst snd]. rewrite <- B. cbn [platform_of]. rewrite <- P. repeat split; auto; [|congruence]. rewrite E', E. lia.
Qed.

(** After .clear the commands are those of a new handler that has executed the lines typed since. *)
Theorem C53_clear fuel v w before after s s1 : shell_lines fuel v w before s = (s1, None) -> (forall l r, In l before -> split_ws l <> ".quit" :: r) ->
  forallb typed after = true ->
  exists s', shell_lines fuel v w (before ++ ".clear" :: after) s = (s', None) /\
    cmds s' = fst (execute_all dispatch (typed_commands after) (new_commands v)) /\
    ks_platform C (sl_parser C s') = platform_of after "" /\
    sl_cleared C s' = Some nothing_read.
Proof.
  intros H Q T. revert s H. induction before as [|l before IH]; intros s H.
  - cbn in H. injection H as <-. cbn [app Tools.shell_lines]. change (shell_line fuel v w ".clear" s) with (clear C new_commands v s, Tools.Go).
    cbv iota beta. destruct (C53_lines fuel v w after (clear C new_commands v s) T) as (s' & R & B & _ & _ & P & Cl).
    exists s'. repeat split; assumption.
  - cbn [app Tools.shell_lines] in *. assert (Qb : forall l r, In l before -> split_ws l <> ".quit" :: r) by (intros m r I; apply Q; right; exact I).
    assert (Ql : snd (shell_line fuel v w l s) <> Quit).
    { intros X. unfold Tools.shell_line in X. destruct (startswith l ".").
      - destruct (split_ws l) as [|p ps] eqn:Sp; [discriminate|]. destruct (String.eqb p ".clear"); [discriminate|]. destruct (String.eqb_spec p ".quit") as [->|]; [|discriminate].
        exact (Q l ps (or_introl eq_refl) Sp).
      - destruct (readKickstartFromString C dispatch _ fuel l _) as [st [e|]]; [|discriminate]. cbn in X. destruct (is_ks_error e); discriminate. }
    destruct (shell_line fuel v w l s) as [s2 [| |e]]; cbn [snd] in *; [auto|contradiction|discriminate].
Qed.

(** The commands of the file that holds the lines. *)
Lemma file_lines lines : forallb typed lines = true -> splitlines (concat_all (map (fun l => (l ++ nl)%string) lines)) = map (fun l => (l ++ nl)%string) lines.
Proof.
  induction lines as [|l lines IH]; [reflexivity|]. cbn [forallb map concat_all]. intros H. apply andb_prop in H as [Hl H]. unfold typed in Hl. apply andb_prop in Hl as [Hl _]. apply andb_prop in Hl as [Ho _].
  rewrite splitlines_app by (unfold complete; rewrite ends_nl; apply orb_true_r). rewrite (SectFacts.single_line l Ho), (IH H). reflexivity.
Qed.
Lemma typed_simple lines : forallb typed lines = true -> forallb (fun l => is_command l || blank l || comment l) (map (fun l => (l ++ nl)%string) lines) = true.
Proof.
  intros H. apply forallb_forall. intros x I. apply in_map_iff in I as (l & <- & I). rewrite forallb_forall in H. specialize (H l I). unfold typed in H. apply andb_prop in H as [_ H].
  rewrite blank_nl, comment_nl. unfold is_command in *. destruct (command_words l) as [ws|] eqn:E; [now rewrite (words_nl l ws E)|]. cbn [orb] in H.
  destruct (blank l), (comment l); try discriminate H; destruct (command_words (l ++ nl)); reflexivity.
Qed.
Lemma file_platform lines p : platform_of (map (fun l => (l ++ nl)%string) lines) p = platform_of lines p.
Proof.
  revert p. induction lines as [|l lines IH]; intros p; [reflexivity|]. cbn [map platform_of]. rewrite IH. f_equal. destruct (platform_nl l) as [-> E]. destruct (platform_comment l); [auto|reflexivity].
Qed.

(** The handler does not look at the text of a line but for blanks at its end, and uses the number only as a
    label: on states related by [R] the same words have related results. *)
Definition words_only (R : C -> C -> Prop) : Prop := forall c c' line args n n', R c c' ->
  R (fst (dispatch c line args n)) (fst (dispatch c' (line ++ nl)%string args n')) /\
  (snd (dispatch c line args n) = None <-> snd (dispatch c' (line ++ nl)%string args n') = None).

Lemma same_commands R lines : words_only R -> forallb typed lines = true -> forall k c c', R c c' ->
  R (fst (execute_all dispatch (typed_commands lines) c)) (fst (execute_all dispatch (commands_from k (map (fun l => (l ++ nl)%string) lines)) c')) /\
  snd (execute_all dispatch (typed_commands lines) c) = snd (execute_all dispatch (commands_from k (map (fun l => (l ++ nl)%string) lines)) c').
Proof.
  intros W. induction lines as [|l lines IH]; intros H k c c' Rc; [cbn; auto|]. cbn [forallb] in H. apply andb_prop in H as [Hl H]. unfold typed in Hl. apply andb_prop in Hl as [_ Hl].
  cbn [map typed_commands commands_from]. unfold is_command in Hl. destruct (command_words l) as [ws|] eqn:E.
  - rewrite (words_nl l ws E). cbn [execute_all]. destruct (W c c' l ws 1%N (k + 1)%N Rc) as [A B].
    destruct (dispatch c l ws 1) as [c1 e1], (dispatch c' (l ++ nl)%string ws (k + 1)) as [c2 e2]. cbn [fst snd] in A, B. destruct (IH H (k + 1)%N c1 c2 A) as [A' B'].
    destruct (execute_all dispatch (typed_commands lines) c1) as [c3 n3], (execute_all dispatch (commands_from (k + 1) _) c2) as [c4 n4]. cbn [fst snd] in *. split; [exact A'|]. subst n4.
    destruct e1, e2; try reflexivity; exfalso; destruct B as [B1 B2]; [specialize (B2 eq_refl)|specialize (B1 eq_refl)]; discriminate.
  - assert (E' : command_words (l ++ nl)%string = None).
    { unfold command_words. rewrite blank_nl, comment_nl. cbn [orb] in Hl. rewrite Hl. reflexivity. }
    rewrite E'. apply IH; assumption.
Qed.

(** Typing the lines one after the other is reading the file that holds them, with errors that are not fatal: the commands are related,
    the number of errors, the platform and the sections are the same. *)
Theorem C53_as_file (R : C -> C -> Prop) fuel n v w lines s st cf : words_only R -> forallb typed lines = true ->
  cf_errorsAreFatal cf = false -> R (cmds s) (ks_cmds C st) -> errs s = ks_errors C st -> ks_platform C (sl_parser C s) = ks_platform C st -> ks_sec C (sl_parser C s) = ks_sec C st ->
  let r := readKickstartFromString C dispatch cf n (concat_all (map (fun l => (l ++ nl)%string) lines)) st in
  exists s', shell_lines fuel v w lines s = (s', None) /\ snd r = None /\
    R (cmds s') (ks_cmds C (fst r)) /\ errs s' = ks_errors C (fst r) /\ ks_platform C (sl_parser C s') = ks_platform C (fst r) /\ ks_sec C (sl_parser C s') = ks_sec C (fst r).
Proof.
  intros W T F Rc Re Rp Rs r. destruct (C53_lines fuel v w lines s T) as (s' & E & B & N & S & P & _).
  assert (F' : forallb (fun l => is_command l || blank l || comment l) (splitlines (concat_all (map (fun l => (l ++ nl)%string) lines))) = true) by (rewrite (file_lines lines T); exact (typed_simple lines T)).
  destruct (C14_all_lines C dispatch cf n _ st F F') as (A1 & A2 & A3 & A4 & A5). fold r in A1, A2, A3, A4, A5. rewrite (file_lines lines T) in A2, A3, A5.
  destruct (same_commands R lines W T 0 (cmds s) (ks_cmds C st) Rc) as [X Y].
  exists s'. split; [exact E|]. split; [exact A1|]. rewrite B, N, S, P, A2, A3, A4, A5, Re, Rp, Rs, Y. rewrite file_platform. repeat split; auto.
Qed.
End Shell.
Print Assumptions C53_lines.
Print Assumptions C53_clear.
Print Assumptions C53_as_file.

(** ** Completion *)

(** While the first word is typed, the candidates are the commands and internal commands that begin with what was typed. *)
Theorem C53_first_word : forall cs line b e x, strip (take b line) = "" -> split_ws line <> [] ->
  In x (matches cs line b e) <-> In x (map fst cs) /\ startswith x (take (e - b) (drop b line)) = true.
Proof.
  intros cs line b e x H N. unfold matches. destruct (split_ws line) as [|p ps]; [contradiction|]. rewrite H. rewrite orb_true_r.
  destruct (String.eqb_spec (take (e - b) (drop b line)) "") as [E|E]; [rewrite E|rewrite filter_In; reflexivity].
  split; [intros I; split; [exact I|apply startswith_nil]|tauto].
Qed.
Print Assumptions C53_first_word.
(** Later words: the options of the command that begin with what was typed; nothing for an unknown command. *)
Theorem C53_later_word : forall cs line b e x p ps, b <> 0 -> strip (take b line) <> "" -> split_ws line = p :: ps ->
  In x (matches cs line b e) <-> (exists l, assoc p cs = Some l /\ In x l) /\ startswith x (take (e - b) (drop b line)) = true.
Proof.
  intros cs line b e x p ps Nb N E. unfold matches. rewrite E. destruct (Nat.eqb_spec b 0); [contradiction|]. destruct (String.eqb_spec (strip (take b line)) ""); [contradiction|]. cbn [orb].
  destruct (assoc p cs) as [l|]; [|split; [intros []|intros [[l [X _]] _]; discriminate]].
  destruct (String.eqb_spec (take (e - b) (drop b line)) "") as [Ew|Ew].
  - rewrite Ew. split; [intros I; split; [eauto|apply startswith_nil]|]. intros [[l' [X I]] _]. now injection X as <-.
  - rewrite filter_In. split; [intros [I S]; eauto|]. intros [[l' [X I]] S]. injection X as <-. auto.
Qed.
Print Assumptions C53_later_word.
(** An empty line offers every command once in the order of the names. *)
Theorem C53_empty_line : forall cs line b e, split_ws line = [] ->
  Permutation.Permutation (matches cs line b e) (map fst cs) /\ Sorted.StronglySorted leS (matches cs line b e).
Proof. intros cs line b e H. unfold matches. rewrite H. split; [symmetry; apply sort_str_perm|apply sort_str_sorted]. Qed.
Print Assumptions C53_empty_line.
(** Asked for 0, 1, 2, ... the completer gives the candidates one after another, and then no more. *)
Theorem C53_one_by_one : forall cs line b e, exists k,
  map (complete_word cs line b e) (seq 0 k) = map Some (matches cs line b e) /\ forall i, k <= i -> complete_word cs line b e i = None.
Proof.
  intros cs line b e. unfold complete_word. generalize (matches cs line b e). intros l. exists (List.length l). split; [|intros i; apply nth_error_None].
  induction l as [|x l IH]; [reflexivity|]. cbn [List.length seq map nth_error]. f_equal. rewrite <- seq_shift, map_map. exact IH.
Qed.
Print Assumptions C53_one_by_one.
(** The commands that are offered are those of the handler and the three of the shell; the options are those of the command's parser. *)
Lemma fold_put {A} (g : string -> A -> A) ops : forall d x, NoDup (map fst ops) ->
  assoc x (fold_left (fun d c => put (fst c) (g (fst c) (snd c)) d) ops d) = match assoc x ops with Some l => Some (g x l) | None => assoc x d end.
Proof.
  induction ops as [|[c l] ops IH]; intros d x N; [reflexivity|]. cbn [fold_left map fst snd] in *. inversion N as [|? ? Nc N']; subst. rewrite IH by exact N'. cbn [assoc].
  destruct (String.eqb_spec x c) as [->|Nx].
  - destruct (assoc c ops) as [l'|] eqn:E; [|apply assoc_put_eq]. exfalso. apply Nc. apply VersionFacts.assoc_In in E. exact (in_map fst _ _ E).
  - destruct (assoc x ops); [reflexivity|]. now apply assoc_put_ne.
Qed.
Lemma offers ops c : NoDup (map fst ops) -> assoc c (completer ops) =
  if mem c internal_commands then Some [] else match assoc c ops with Some l => Some (if startswith c "." then [] else l) | None => None end.
Proof.
  intros N. unfold completer.
  assert (X : fold_left (fun d c => put c [] d) internal_commands (fold_left (fun d c0 => put (fst c0) (if startswith (fst c0) "." then [] else snd c0) d) ops []) =
    fold_left (fun d c => put (fst c) (snd c) d) (map (fun c => (c, @nil string)) internal_commands) (fold_left (fun d c0 => put (fst c0) (if startswith (fst c0) "." then [] else snd c0) d) ops [])) by reflexivity.
  rewrite X, (fold_put (fun _ l => l)) by (repeat constructor; cbn; intuition discriminate).
  assert (Y : assoc c (map (fun c => (c, @nil string)) internal_commands) = if mem c internal_commands then Some [] else None).
  { unfold internal_commands, mem. cbn. destruct (String.eqb_spec c ".clear"), (String.eqb_spec c ".show"), (String.eqb_spec c ".quit"); reflexivity. }
  rewrite Y. destruct (mem c internal_commands); [reflexivity|]. rewrite (fold_put (fun c l => if startswith c "." then [] else l)) by exact N. destruct (assoc c ops); reflexivity.
Qed.
Theorem C53_offers : forall ops c x, NoDup (map fst ops) -> (forall n, In n (map fst ops) -> startswith n "." = false) ->
  (In c (map fst (completer ops)) <-> In c (map fst ops) \/ In c [".clear"; ".show"; ".quit"]) /\
  ((exists l, assoc c (completer ops) = Some l /\ In x l) <-> exists l, In (c, l) ops /\ In x l).
Proof.
  intros ops c x N D. pose proof (offers ops c N) as O.
  assert (K : forall {A} k (d : list (string * A)), In k (map fst d) <-> assoc k d <> None).
  { intros A k d. induction d as [|[j a] d IH]; cbn; [split; [tauto|congruence]|]. destruct (String.eqb_spec k j) as [->|Nk]; [split; [discriminate|auto]|]. rewrite <- IH. split; [intros [X|X]; [congruence|exact X]|auto]. }
  assert (M : In c [".clear"; ".show"; ".quit"] <-> mem c internal_commands = true) by (symmetry; apply mem_In).
  split.
  - rewrite (K _ c (completer ops)), (K _ c ops), O, M. destruct (mem c internal_commands); [split; [auto|discriminate]|]. destruct (assoc c ops); split; try discriminate; auto; [left; discriminate|]. intros [X|X]; congruence.
  - assert (U : forall l, In (c, l) ops -> assoc c ops = Some l).
    { clear - N. induction ops as [|[j a] d IH]; intros l I; [destruct I|]. cbn [map fst] in N. inversion N; subst. cbn [assoc]. destruct I as [I|I].
      - injection I as -> ->. now rewrite String.eqb_refl.
      - destruct (String.eqb_spec c j) as [->|]; [exfalso; apply H1; exact (in_map fst _ _ I)|auto]. }
    rewrite O. split.
    + intros (l & E & I). destruct (mem c internal_commands); [injection E as <-; destruct I|]. destruct (assoc c ops) as [l'|] eqn:A; [|discriminate]. injection E as <-.
      apply VersionFacts.assoc_In in A. rewrite (D c (in_map fst _ _ A)) in I. eauto.
    + intros (l & I & Ix). pose proof (D c (in_map fst _ _ I)) as Dc. cbn [fst] in Dc. rewrite (U l I), Dc. destruct (mem c internal_commands) eqn:E; [|eauto].
      exfalso. assert (E2 := proj2 M eq_refl). clear E M. rename E2 into E. cbn in E. destruct E as [<-|[<-|[<-|[]]]]; discriminate Dc.
Qed.
Print Assumptions C53_offers.

(** ** A session *)
Definition demo_shell : shell (list (list string)) := mkShell _ (parser_of _ demo_new F34) None.
Lemma demo_line c l l' a n n' : fst (demo c l a n) = fst (demo c l' a n') /\ (snd (demo c l a n) = None <-> snd (demo c l' a n') = None).
Proof. unfold demo. repeat match goal with |- context [match ?x with _ => _ end] => destruct x end; cbn [fst snd]; split; try reflexivity; split; intros; discriminate. Qed.
Definition demo_lines : list string := ["text"; "bad"; "  # note"; "lang 'en US'"; ""; "#platform=x"].
Example C53_example : forallb typed demo_lines = true /\ words_only _ demo eq /\
  fst (shell_lines _ demo demo_new 5 F34 (demo_world []) demo_lines demo_shell) <> demo_shell /\
  matches (completer [("text", ["-h"; "--help"; "--non-interactive"]); ("timezone", ["--utc"])]) "t" 0 1 = ["text"; "timezone"] /\
  matches (completer [("text", ["-h"; "--help"; "--non-interactive"]); ("timezone", ["--utc"])]) " text --n" 6 9 = ["--non-interactive"].
Proof.
  split; [vm_compute; reflexivity|]. split; [|split; [intros H; apply (f_equal (fun s => ks_errors _ (sl_parser _ s))) in H; vm_compute in H; discriminate|vm_compute; auto]].
  intros c c' line args n n' <-. exact (demo_line c line (line ++ nl)%string args n n').
Qed.
(** "A line that is refused leaves the shell running" fails for a line with an open quote. *)
Theorem C53_quotes_refuted : exists line s, snd (shell_lines _ demo demo_new 5 F34 (demo_world []) [line] s) = Some ValueError.
Proof. exists "lang 'en", demo_shell. vm_compute. reflexivity. Qed.
Print Assumptions C53_quotes_refuted.
