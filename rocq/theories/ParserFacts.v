(** * The parser's two loops as one pass over the lines

    [run_lines] reads a list of lines one by one, in the loop of _stateMachine
    (mode [None]) or in the loop of _readSection (mode [Some n]).  It equals
    [state_machine] and, being structurally recursive, is what the proofs use. *)

From Verif Require Import PyStrFacts ShlexFacts ArgParseFacts Parser.
From Verif Require Import Value.
Local Open Scope string_scope.
Local Open Scope list_scope.

Definition mode := option string.
Inductive next := Stop | Go (m : mode) (ln : N) | Again (m : mode) (ln : N).

Section Run.
Variable C : Type.
Variable dispatch : C -> string -> list string -> N -> C * option exn.
Variable cf : config.
Notation kstate := (kstate C).
Notation finalize := (finalize C).
Notation call_line := (call_line C).
Notation call_header := (call_header C cf).
Notation all_lines := (all_lines C).
Notation valid_state := (valid_state C).
Notation try_func := (try_func C cf).
Notation special_comments := (special_comments C).
Notation read_section := (read_section C cf).
Notation state_machine := (state_machine C dispatch cf).
Notation ks_state := (ks_state C). Notation ks_depth := (ks_depth C). Notation ks_cmds := (ks_cmds C).
Notation ks_sec := (ks_sec C). Notation ks_sections := (ks_sections C).
Notation set_state := (set_state C). Notation set_section := (set_section C). Notation set_cmds := (set_cmds C).
Implicit Types st : kstate.

Definition hook := string -> kstate -> kstate * option exn.

Definition rs_step (include : hook) (n line : string) (ln : N) (st : kstate) : kstate * res next :=
  let eof := String.eqb line "" && N.eqb (ks_depth st) 0 in
  if eof && (F8 <=? cf_version cf)%Z then
    (st, Err (KSParseError (Some ln) "section does not end with %end"))
  else
  let '(st, e) := if eof then finalize n st else (st, None) in
  match e with
  | Some e => (st, Err e)
  | None =>
  let ln := (ln + 1)%N in
  let go := Ok (Go (Some n) ln) in
  let handle st :=
    match call_line n line st with
    | (st, Some e) => (st, Err e)
    | (st, None) => (st, go)
    end in
  if is_blank_or_comment line && negb (all_lines n st) then (st, go)
  else if startswith (lstrip line) "%" then
    match split_ws line with
    | [] => (st, Err IndexError)
    | possible :: _ =>
        if negb (valid_state st possible) && negb (mem possible ["%end"; "%include"]) then handle st
        else match shlex_split false line with
        | Err e => (st, Err e)
        | Ok args =>
            match args with
            | [] => (st, go)
            | a0 :: more =>
                if String.eqb a0 "%end" then
                  match finalize n st with
                  | (st, Some e) => (st, Err e)
                  | (st, None) => (st, Ok (Go None ln))
                  end
                else if String.eqb a0 "%include" then
                  match more with
                  | [] | "" :: _ => (st, Err (KSParseError (Some ln) "include"))
                  | f :: _ =>
                      match include f st with
                      | (st, Some e) => (st, Err e)
                      | (st, None) => (st, go)
                      end
                  end
                else if String.eqb a0 "%ksappend" then (st, go)
                else if valid_state st a0 then
                  if (F8 <=? cf_version cf)%Z then
                    (st, Err (KSParseError (Some ln) "section does not end with %end"))
                  else match finalize n st with
                       | (st, Some e) => (st, Err e)
                       | (st, None) => (st, Ok (Again None (ln - 1)%N))
                       end
                else (st, go)
            end
        end
    end
  else handle st
  end.

Definition sm_step (include : hook) (line : string) (ln : N) (st : kstate) : kstate * res next :=
  if String.eqb line "" then (st, Ok Stop)
  else
  let ln := (ln + 1)%N in
  let go := Ok (Go None ln) in
  if is_blank_or_comment line then (special_comments line st, go)
  else match shlex_split true line with
  | Err e => (st, Err e)
  | Ok [] => (st, Err IndexError)
  | Ok ((a0 :: more) as args) =>
      if String.eqb a0 "%include" then
        match more with
        | [] | "" :: _ => (st, Err (KSParseError (Some ln) "include"))
        | f :: _ =>
            match include f st with
            | (st, Some e) => (st, Err e)
            | (st, None) => (st, go)
            end
        end
      else match ks_state st with
      | None =>
          if String.eqb a0 "%ksappend" then (st, go)
          else match a0 with
          | "" => (st, Err IndexError)
          | String c _ =>
              if Ascii.eqb c "%" then
                if negb (valid_state st a0) && cf_unknownSectionIsFatal cf then
                  (st, Err (KSParseError (Some ln) "unknown section"))
                else
                  let st := if valid_state st a0 then st
                            else set_section a0 (SNull [] []) (ks_sec st) st in
                  match try_func (call_header a0 ln args (set_state (Some a0) st)) with
                  | (st, Some e) => (st, Err e)
                  | (st, None) => (st, Ok (Go (Some a0) ln))
                  end
              else
                match try_func (let '(c, e) := dispatch (ks_cmds st) line args ln in
                                (set_cmds c st, e)) with
                | (st, Some e) => (st, Err e)
                | (st, None) => (st, go)
                end
          end
      | Some n =>
          if (0 <? ks_depth st)%N then (st, Ok (Again (Some n) (ln - 1)%N))
          else (st, go)
      end
  end.

Definition step (include : hook) (m : mode) line ln st : kstate * res next :=
  match m with None => sm_step include line ln st | Some n => rs_step include n line ln st end.

(** A line may be put back at most twice: an included file's first line of an open
    section, which before F8 may be a section header. *)
Fixpoint steps (k : nat) (include : hook) (m : mode) (line : string) (ln : N) (st : kstate)
  : kstate * res (option (mode * N)) :=
  match k with
  | O => (st, Err OutOfFuel)
  | S k =>
      match step include m line ln st with
      | (st, Err e) => (st, Err e)
      | (st, Ok Stop) => (st, Ok None)
      | (st, Ok (Go m ln)) => (st, Ok (Some (m, ln)))
      | (st, Ok (Again m ln)) => steps k include m line ln st
      end
  end.

(** [Ok None]: the empty line was met. *)
Fixpoint run_lines (include : hook) (m : mode) (lines : list string) (ln : N) (st : kstate)
  : kstate * res (option (mode * N)) :=
  match lines with
  | [] => (st, Ok (Some (m, ln)))
  | line :: rest =>
      match steps 3 include m line ln st with
      | (st, Ok (Some (m, ln))) => run_lines include m rest ln st
      | r => r
      end
  end.

Definition outcome {A} (r : kstate * res A) : kstate * option exn :=
  match r with (st, Ok _) => (st, None) | (st, Err e) => (st, Some e) end.

Lemma finalize_none n st st' e : finalize n st = (st', e) -> e = None -> ks_state st' = None.
Proof.
  unfold Parser.finalize. destruct (assoc n (Parser.ks_sections C st)); [|intros H; injection H; congruence].
  destruct (sec_finalize s (Parser.ks_sec C st)). intros H; injection H as <- <-. reflexivity.
Qed.

Lemma rs_step_again include n line ln st st' m ln' :
  rs_step include n line ln st = (st', Ok (Again m ln')) -> m = None /\ ks_state st' = None /\ ln' = ln.
Proof.
  unfold rs_step.
  destruct (String.eqb line "" && N.eqb (ks_depth st) 0 && (F8 <=? cf_version cf)%Z); [discriminate|].
  destruct (if String.eqb line "" && N.eqb (ks_depth st) 0 then finalize n st else (st, None)) as [s1 [e|]]; [discriminate|].
  destruct (is_blank_or_comment line && negb (all_lines n s1)); [discriminate|].
  destruct (startswith (lstrip line) "%"); [|destruct (call_line n line s1) as [? [?|]]; discriminate].
  destruct (split_ws line); [discriminate|].
  destruct (negb (valid_state s1 s) && _); [destruct (call_line n line s1) as [? [?|]]; discriminate|].
  destruct (shlex_split false line) as [[|a0 more]|]; try discriminate.
  destruct (String.eqb a0 "%end"); [destruct (finalize n s1) as [? [?|]]; discriminate|].
  destruct (String.eqb a0 "%include").
  { destruct more as [|[|? ?] ?]; try discriminate. destruct (include _ s1) as [? [?|]]; discriminate. }
  destruct (String.eqb a0 "%ksappend"); [discriminate|].
  destruct (valid_state s1 a0); [|discriminate].
  destruct (F8 <=? cf_version cf)%Z; [discriminate|].
  destruct (finalize n s1) as [s2 [e|]] eqn:F; [discriminate|].
  intros H; injection H as <- <- <-. split; [reflexivity|]. split; [eapply finalize_none; eauto|].
  apply N.add_sub.
Qed.

Lemma sm_step_again include line ln st st' m ln' :
  sm_step include line ln st = (st', Ok (Again m ln')) ->
  exists n, m = Some n /\ ks_state st = Some n /\ st' = st /\ ln' = ln.
Proof.
  unfold sm_step. destruct (String.eqb line ""); [discriminate|].
  destruct (is_blank_or_comment line); [discriminate|].
  destruct (shlex_split true line) as [[|a0 more]|]; try discriminate.
  destruct (String.eqb a0 "%include").
  { destruct more as [|[|? ?] ?]; try discriminate. destruct (include _ st) as [? [?|]]; discriminate. }
  destruct (ks_state st) as [n|] eqn:E.
  { destruct (0 <? ks_depth st)%N; [|discriminate]. intros H; injection H as <- <- <-.
    exists n; repeat split; auto. apply N.add_sub. }
  destruct (String.eqb a0 "%ksappend"); [discriminate|].
  destruct a0 as [|c r]; [discriminate|].
  destruct (Ascii.eqb c "%").
  - destruct (negb (valid_state st (String c r)) && cf_unknownSectionIsFatal cf); [discriminate|].
    match goal with |- context [try_func ?x] => destruct (try_func x) as [? [?|]] end; discriminate.
  - match goal with |- context [try_func ?x] => destruct (try_func x) as [? [?|]] end; discriminate.
Qed.

Lemma steps_eq k include m line ln st : steps (S k) include m line ln st =
  match step include m line ln st with
  | (st, Err e) => (st, Err e)
  | (st, Ok Stop) => (st, Ok None)
  | (st, Ok (Go m ln)) => (st, Ok (Some (m, ln)))
  | (st, Ok (Again m ln)) => steps k include m line ln st
  end.
Proof. reflexivity. Qed.

Lemma steps_cmd k include line ln st : ks_state st = None -> steps (S k) include None line ln st = steps 1 include None line ln st.
Proof.
  intros H. cbn [steps step].
  destruct (sm_step include line ln st) as [s1 [[|m l|m l]|e]] eqn:E; try reflexivity.
  apply sm_step_again in E as (n & _ & E & _). congruence.
Qed.

Lemma steps_sec k include n line ln st : steps (S (S k)) include (Some n) line ln st = steps 2 include (Some n) line ln st.
Proof.
  rewrite !steps_eq. destruct (step include (Some n) line ln st) as [s1 [[|m l|m l]|e]] eqn:E; try reflexivity.
  apply rs_step_again in E as (-> & E & ->). apply (steps_cmd k _ _ _ _ E).
Qed.

(** _readSection, followed by _stateMachine on what is left. *)
Lemma read_section_run include n lines : forall ln st,
  match read_section include n lines ln st with
  | (st', Err e) => run_lines include (Some n) lines ln st = (st', Err e)
  | (st', Ok (rest, ln')) =>
      (rest = [] /\ run_lines include (Some n) lines ln st = (st', Ok (Some (Some n, ln')))) \/
      (run_lines include (Some n) lines ln st = run_lines include None rest ln' st' /\
       ks_state st' = None /\ length rest <= length lines) \/
      (run_lines include (Some n) lines ln st = run_lines include None rest ln' st' /\
       length rest < length lines)
  end.
Proof.
  induction lines as [|line rest IH]; intros ln st; [left; auto|].
  set (G := fun x : kstate * res (list string * N) =>
     match x with
     | (st', Err e) => run_lines include (Some n) (line :: rest) ln st = (st', Err e)
     | (st', Ok (rest0, ln')) =>
         (rest0 = [] /\ run_lines include (Some n) (line :: rest) ln st = (st', Ok (Some (Some n, ln')))) \/
         (run_lines include (Some n) (line :: rest) ln st = run_lines include None rest0 ln' st' /\
          ks_state st' = None /\ length rest0 <= length (line :: rest)) \/
         (run_lines include (Some n) (line :: rest) ln st = run_lines include None rest0 ln' st' /\
          length rest0 < length (line :: rest))
     end).
  change (G (read_section include n (line :: rest) ln st)).
  assert (R : run_lines include (Some n) (line :: rest) ln st =
    match steps 3 include (Some n) line ln st with
    | (st, Ok (Some (m, ln))) => run_lines include m rest ln st
    | r => r
    end) by reflexivity.
  assert (Hgo : forall s1, rs_step include n line ln st = (s1, Ok (Go (Some n) (ln + 1)%N)) ->
                G (read_section include n rest (ln + 1) s1)).
  { intros s1 E. unfold G. rewrite R. cbn [steps step]. rewrite E.
    specialize (IH (ln + 1)%N s1). destruct (read_section include n rest (ln + 1) s1) as [s2 [[r l]|e]]; [|exact IH].
    destruct IH as [IH|[(A & B & D)|(A & B)]]; [left; exact IH|right; left|right; right]; repeat split; simpl; auto; lia. }
  assert (Herr : forall s1 e, rs_step include n line ln st = (s1, Err e) -> G (s1, Err e)).
  { intros s1 e E. unfold G. rewrite R. cbn [steps step]. rewrite E. reflexivity. }
  assert (Hend : forall s1, rs_step include n line ln st = (s1, Ok (Go None (ln + 1)%N)) -> G (s1, Ok (rest, (ln + 1)%N))).
  { intros s1 E. unfold G. rewrite R. cbn [steps step]. rewrite E. right; right. simpl; auto. }
  assert (Hput : forall s1, rs_step include n line ln st = (s1, Ok (Again None (ln + 1 - 1)%N)) -> ks_state s1 = None ->
                 G (s1, Ok (line :: rest, (ln + 1 - 1)%N))).
  { intros s1 E S1. unfold G. rewrite R, steps_eq. cbn [step]. rewrite E, (steps_cmd 1 _ _ _ _ S1).
    right; left. split; [|auto]. cbn [run_lines]. rewrite (steps_cmd 2 _ _ _ _ S1). reflexivity. }
  clearbody G. unfold rs_step in Hgo, Herr, Hend, Hput. cbn [Parser.read_section].
  destruct (String.eqb line "" && N.eqb (ks_depth st) 0) eqn:Eeof.
  all: cbn [andb] in *.
  1: destruct (F8 <=? cf_version cf)%Z eqn:E8; [apply Herr; reflexivity|].
  1: destruct (finalize n st) as [s1 [e|]]; [apply Herr; reflexivity|].
  2: remember st as s1 eqn:Es1.
  2: destruct (F8 <=? cf_version cf)%Z eqn:E8.
  all: destruct (is_blank_or_comment line && negb (all_lines n s1)); [apply Hgo; reflexivity|].
  all: destruct (startswith (lstrip line) "%");
       [|destruct (call_line n line s1) as [s2 [e|]]; [apply Herr; reflexivity|apply Hgo; reflexivity]].
  all: destruct (split_ws line); [apply Herr; reflexivity|].
  all: destruct (negb (valid_state s1 s) && _);
       [destruct (call_line n line s1) as [s2 [e|]]; [apply Herr; reflexivity|apply Hgo; reflexivity]|].
  all: destruct (shlex_split false line) as [[|a0 more]|]; [apply Hgo; reflexivity| |apply Herr; reflexivity].
  all: destruct (String.eqb a0 "%end");
       [destruct (finalize n s1) as [s2 [e|]] eqn:F; [apply Herr; reflexivity|apply Hend; reflexivity]|].
  all: destruct (String.eqb a0 "%include");
       [destruct more as [|[|? ?] ?]; [apply Herr; reflexivity|apply Herr; reflexivity|];
        destruct (include _ s1) as [s2 [e|]]; [apply Herr; reflexivity|apply Hgo; reflexivity]|].
  all: destruct (String.eqb a0 "%ksappend"); [apply Hgo; reflexivity|].
  all: destruct (valid_state s1 a0); [|apply Hgo; reflexivity].
  all: try (apply Herr; reflexivity).
  all: destruct (finalize n s1) as [s2 [e|]] eqn:F;
       [apply Herr; reflexivity|apply Hput; [reflexivity|eapply finalize_none; eauto]].
Qed.

(** Iterations needed. *)
Definition weight (lines : list string) (st : kstate) : nat :=
  2 * length lines + match ks_state st with None => 0 | Some _ => 1 end.

Lemma state_machine_run include : forall fuel lines ln st,
  weight lines st < fuel ->
  state_machine fuel include lines ln st = outcome (run_lines include None lines ln st).
Proof.
  induction fuel as [|fuel IH]; intros lines ln st Hw; [lia|].
  destruct lines as [|line rest]; [reflexivity|].
  destruct line as [|c0 line0].
  { cbn [Parser.state_machine run_lines steps step sm_step outcome]. reflexivity. }
  remember (String c0 line0) as line eqn:El.
  assert (Hne : String.eqb line "" = false) by (subst; reflexivity).
  assert (IHgo : forall s1, state_machine fuel include rest (ln + 1) s1
                            = outcome (run_lines include None rest (ln + 1) s1)).
  { intros s1. apply IH. unfold weight in *. cbn [length] in Hw. destruct (ks_state s1); lia. }
  assert (R : run_lines include None (line :: rest) ln st =
    match steps 3 include None line ln st with
    | (st, Ok (Some (m, ln))) => run_lines include m rest ln st
    | r => r
    end) by reflexivity.
  assert (Hgo : forall s1, sm_step include line ln st = (s1, Ok (Go None (ln + 1)%N)) ->
     state_machine fuel include rest (ln + 1) s1 = outcome (run_lines include None (line :: rest) ln st)).
  { intros s1 E. rewrite R. cbn [steps step]. rewrite E. apply IHgo. }
  assert (Herr : forall s1 e, sm_step include line ln st = (s1, Err e) ->
     (s1, Some e) = outcome (run_lines include None (line :: rest) ln st)).
  { intros s1 e E. rewrite R. cbn [steps step]. rewrite E. reflexivity. }
  assert (Hsec : forall s1 n r l, 
     (l = (ln + 1)%N /\ r = rest /\ sm_step include line ln st = (s1, Ok (Go (Some n) (ln + 1)%N))) \/
     (l = (ln + 1 - 1)%N /\ r = line :: rest /\ ks_state s1 = Some n /\ s1 = st /\
      sm_step include line ln st = (s1, Ok (Again (Some n) (ln + 1 - 1)%N))) ->
     match read_section include n r l s1 with
     | (st, Err e) => (st, Some e)
     | (st, Ok (rest, lineno)) => state_machine fuel include rest lineno st
     end = outcome (run_lines include None (line :: rest) ln st)).
  { intros s1 n r l Hc.
    assert (E : run_lines include None (line :: rest) ln st = run_lines include (Some n) r l s1).
    { rewrite R. destruct Hc as [(-> & -> & E)|(-> & -> & _ & _ & E)].
      - cbn [steps step]. rewrite E. reflexivity.
      - cbn [run_lines]. rewrite (steps_sec 1), steps_eq. cbn [step]. rewrite E. reflexivity. }
    rewrite E. pose proof (read_section_run include n r l s1) as H.
    destruct (read_section include n r l s1) as [s2 [[r2 l2]|e]]; [|rewrite H; reflexivity].
    assert (Hr : length r2 <= length (line :: rest) /\ ks_state s2 = None \/ length r2 < length (line :: rest) \/
                 r2 = [] ) .
    { destruct H as [(-> & _)|[(_ & A & B)|(_ & A)]]; [auto| |];
      destruct Hc as [(_ & -> & _)|(_ & -> & _)]; simpl in *; (left; split; [lia|auto]; fail) || (right; left; lia). }
    destruct H as [(-> & H)|H].
    { rewrite H. destruct fuel as [|fuel']; [|reflexivity].
      exfalso. unfold weight in Hw. cbn [length] in Hw. lia. }
    assert (H' : run_lines include (Some n) r l s1 = run_lines include None r2 l2 s2) by tauto.
    rewrite H'. apply IH. unfold weight in *. cbn [length] in *.
    destruct Hc as [(_ & -> & _)|(_ & -> & Hs & -> & _)].
    - assert (length r2 <= length rest).
      { destruct H as [(_ & _ & A)|(_ & A)]; lia. }
      destruct (ks_state s2); lia.
    - rewrite Hs in Hw. destruct H as [(_ & A & B)|(_ & B)].
      + rewrite A. cbn [length] in B. lia.
      + cbn [length] in B. destruct (ks_state s2); lia. }
  unfold sm_step in Hgo, Herr, Hsec. rewrite Hne in Hgo, Herr, Hsec.
  assert (U : state_machine (S fuel) include (line :: rest) ln st =
    let lineno := (ln + 1)%N in
          if is_blank_or_comment line then
            state_machine fuel include rest lineno (special_comments line st)
          else match shlex_split true line with
          | Err e => (st, Some e)
          | Ok [] => (st, Some IndexError)
          | Ok ((a0 :: more) as args) =>
              if String.eqb a0 "%include" then
                match more with
                | [] | "" :: _ => (st, Some (KSParseError (Some lineno) "include"))
                | f :: _ =>
                    match include f st with
                    | (st, Some e) => (st, Some e)
                    | (st, None) => state_machine fuel include rest lineno st
                    end
                end
              else match ks_state st with
              | None =>
                  if String.eqb a0 "%ksappend" then state_machine fuel include rest lineno st
                  else match a0 with
                  | "" => (st, Some IndexError)
                  | String c _ =>
                      if Ascii.eqb c "%" then
                        if negb (valid_state st a0) && cf_unknownSectionIsFatal cf then
                          (st, Some (KSParseError (Some lineno) "unknown section"))
                        else
                          let st := if valid_state st a0 then st
                                    else set_section a0 (SNull [] []) (ks_sec st) st in
                          match try_func (call_header a0 lineno args (set_state (Some a0) st)) with
                          | (st, Some e) => (st, Some e)
                          | (st, None) =>
                              match read_section include a0 rest lineno st with
                              | (st, Err e) => (st, Some e)
                              | (st, Ok (rest, lineno)) => state_machine fuel include rest lineno st
                              end
                          end
                      else
                        match try_func (let '(c, e) := dispatch (ks_cmds st) line args lineno in
                                        (set_cmds c st, e)) with
                        | (st, Some e) => (st, Some e)
                        | (st, None) => state_machine fuel include rest lineno st
                        end
                  end
              | Some n =>
                  if (0 <? ks_depth st)%N then
                    match read_section include n (line :: rest) (lineno - 1) st with
                    | (st, Err e) => (st, Some e)
                    | (st, Ok (rest, lineno)) => state_machine fuel include rest lineno st
                    end
                  else state_machine fuel include rest lineno st
              end
          end) by (subst line; reflexivity).
  rewrite U. cbv zeta. clear U.
  destruct (is_blank_or_comment line); [apply Hgo; reflexivity|].
  destruct (shlex_split true line) as [[|a0 more]|e]; [apply Herr; reflexivity| |apply Herr; reflexivity].
  destruct (String.eqb a0 "%include").
  { destruct more as [|[|c r] more]; [apply Herr; reflexivity|apply Herr; reflexivity|].
    destruct (include (String c r) st) as [s1 [e|]]; [apply Herr; reflexivity|apply Hgo; reflexivity]. }
  destruct (ks_state st) as [n|] eqn:Es.
  - destruct (0 <? ks_depth st)%N; [|apply Hgo; reflexivity].
    apply Hsec. right. repeat split; auto.
  - destruct (String.eqb a0 "%ksappend"); [apply Hgo; reflexivity|].
    destruct a0 as [|c r]; [apply Herr; reflexivity|].
    destruct (Ascii.eqb c "%").
    + destruct (negb (valid_state st (String c r)) && cf_unknownSectionIsFatal cf); [apply Herr; reflexivity|].
      match goal with |- context [try_func ?x] => destruct (try_func x) as [s1 [e|]] end; [apply Herr; reflexivity|].
      apply Hsec. left. repeat split; auto.
    + match goal with |- context [try_func ?x] => destruct (try_func x) as [s1 [e|]] end;
      [apply Herr; reflexivity|apply Hgo; reflexivity].
Qed.

(** The fuel of [run_string] suffices. *)
Lemma run_string_run include s st :
  run_string C dispatch cf include s st = outcome (run_lines include None (splitlines s ++ [""]) 0 st).
Proof.
  unfold run_string. apply state_machine_run. unfold weight. destruct (ks_state st); lia.
Qed.

Lemma run_lines_app include A : forall B m ln st,
  run_lines include m (A ++ B) ln st =
  match run_lines include m A ln st with
  | (st, Ok (Some (m, ln))) => run_lines include m B ln st
  | r => r
  end.
Proof.
  induction A as [|line A IH]; intros B m ln st; [reflexivity|].
  cbn [app run_lines]. destruct (steps 3 include m line ln st) as [s1 [[[m1 l1]|]|e]]; auto.
Qed.

End Run.
