(** * Specification vocabulary for parsing (C11 - C20)

    [C] and [dispatch] stand for any handler: see Parser.v. *)

From Verif Require Import Parser.
From Verif Require Import Value.
Local Open Scope string_scope.
Local Open Scope list_scope.

(** ** The same up to line numbers

    [L n m] tells which line numbers correspond to each other. *)

Definition same_lineno (L : N -> N -> Prop) (a b : option N) : Prop :=
  match a, b with
  | Some n, Some m => L n m
  | None, None => True
  | _, _ => False
  end.

(** The same exception. *)
Definition same_exn (L : N -> N -> Prop) (e e' : exn) : Prop :=
  match e, e' with
  | KSParseError a t, KSParseError b u => same_lineno L a b /\ t = u
  | KSError a t, KSError b u => same_lineno L a b /\ t = u
  | _, _ => e = e'
  end.
Definition same_outcome (L : N -> N -> Prop) (e e' : option exn) : Prop :=
  match e, e' with
  | None, None => True
  | Some x, Some y => same_exn L x y
  | _, _ => False
  end.

Definition same_script (L : N -> N -> Prop) (s s' : script) : Prop :=
  same_lineno L (sc_lineno s) (sc_lineno s') /\
  sc_script s = sc_script s' /\ sc_interp s = sc_interp s' /\ sc_inChroot s = sc_inChroot s' /\
  sc_logfile s = sc_logfile s' /\ sc_errorOnFail s = sc_errorOnFail s' /\ sc_type s = sc_type s'.

Definition same_scriptacc (L : N -> N -> Prop) (a a' : scriptacc) : Prop :=
  same_lineno L (sa_lineno a) (sa_lineno a') /\
  sa_interp a = sa_interp a' /\ sa_log a = sa_log a' /\ sa_errorOnFail a = sa_errorOnFail a' /\
  sa_chroot a = sa_chroot a' /\ sa_body a = sa_body a'.

Definition same_object (L : N -> N -> Prop) (o o' : secobj) : Prop :=
  match o, o' with
  | SScript k t a, SScript k' t' a' => k = k' /\ t = t' /\ same_scriptacc L a a'
  | o, o' => o = o'
  end.
Definition same_section (L : N -> N -> Prop) (x y : string * secobj) : Prop :=
  fst x = fst y /\ same_object L (snd x) (snd y).

Definition same_sechandler (L : N -> N -> Prop) (h h' : sechandler) : Prop :=
  Forall2 (same_script L) (sh_scripts h) (sh_scripts h') /\
  sh_packages h = sh_packages h' /\ sh_nulls h = sh_nulls h'.

(** The same parser, its handler's commands being the same in the sense of [R].
    (The remembered directories of included files are left out: they only matter
    while a file is being read.) *)
Definition same_parser {C} (L : N -> N -> Prop) (R : C -> C -> Prop) (st st' : kstate C) : Prop :=
  R (ks_cmds C st) (ks_cmds C st') /\ same_sechandler L (ks_sec C st) (ks_sec C st') /\
  ks_platform C st = ks_platform C st' /\ ks_state C st = ks_state C st' /\
  ks_errors C st = ks_errors C st' /\
  Forall2 (same_section L) (ks_sections C st) (ks_sections C st').

(** The same result of parsing. *)
Definition same_result {C} (L : N -> N -> Prop) (R : C -> C -> Prop) (r r' : kstate C * option exn) : Prop :=
  same_parser L R (fst r) (fst r') /\ same_outcome L (snd r) (snd r').

(** The handler only uses line numbers to label objects and errors: a command line
    executed in corresponding states has corresponding results. *)
Definition labels_only {C} (L : N -> N -> Prop) (R : C -> C -> Prop)
  (dispatch : C -> string -> list string -> N -> C * option exn) : Prop :=
  forall c c' line args n n', R c c' -> L n n' ->
    R (fst (dispatch c line args n)) (fst (dispatch c' line args n')) /\
    same_outcome L (snd (dispatch c line args n)) (snd (dispatch c' line args n')).

(** ** Lines *)

Definition blank (line : string) : bool := all_chars is_space line.
Definition comment (line : string) : bool := startswith (lstrip line) "#".
Definition platform_comment (line : string) : bool := startswith line "#platform=".
(** A line that says nothing. *)
Definition inert (line : string) : bool := (blank line || comment line) && negb (platform_comment line).

(** A text consisting of complete lines. *)
Definition complete (s : string) : bool := String.eqb s "" || ends_with_char LF s.

(** The words of a command line: [None] for lines that are blank, comments,
    misquoted, or begin with a percent sign or with an empty word. *)
Definition command_words (line : string) : option (list string) :=
  if blank line || comment line then None
  else match shlex_split true line with
       | Ok (String c w :: ws) => if Ascii.eqb c "%" then None else Some (String c w :: ws)
       | _ => None
       end.
Definition is_command (line : string) : bool :=
  match command_words line with Some _ => true | None => false end.

(** The commands of a list of lines, with their line numbers. *)
Fixpoint commands_from (k : N) (lines : list string) : list (string * list string * N) :=
  match lines with
  | [] => []
  | l :: r => match command_words l with
              | Some ws => (l, ws, (k + 1)%N) :: commands_from (k + 1) r
              | None => commands_from (k + 1) r
              end
  end.

(** Executing commands one after the other: until the first error ... *)
Fixpoint execute {C} (dispatch : C -> string -> list string -> N -> C * option exn)
  (cmds : list (string * list string * N)) (c : C) : C * option exn :=
  match cmds with
  | [] => (c, None)
  | (l, ws, n) :: r =>
      match dispatch c l ws n with
      | (c', None) => execute dispatch r c'
      | (c', Some e) => (c', Some e)
      end
  end.
(** ... or all of them, counting the errors. *)
Fixpoint execute_all {C} (dispatch : C -> string -> list string -> N -> C * option exn)
  (cmds : list (string * list string * N)) (c : C) : C * N :=
  match cmds with
  | [] => (c, 0%N)
  | (l, ws, n) :: r =>
      let '(c', e) := dispatch c l ws n in
      let '(c'', k) := execute_all dispatch r c' in
      (c'', match e with None => k | Some _ => k + 1 end)%N
  end.

(** The platform named last. *)
Fixpoint platform_of (lines : list string) (pl : string) : string :=
  match lines with
  | [] => pl
  | l :: r => platform_of r (if platform_comment l then strip (drop 10 l) else pl)
  end.

(** ** Parsing part of a text: lines numbered from [k + 1] *)

Definition parse_lines {C} (dispatch : C -> string -> list string -> N -> C * option exn) (cf : config)
  (n : nat) (k : N) (lines : list string) (st : kstate C) : kstate C * option exn :=
  state_machine C dispatch cf (2 * length lines + 2)
    (handle_include C cf (read_kickstart C dispatch cf n)) lines k st.

(** ** Sections *)

(** A line that is part of a section's body whatever it says: it does not begin
    with %end, %include or the name of a known section. *)
Definition body_line (known : list string) (line : string) : bool :=
  match split_ws line with
  | w :: _ => negb (mem w ("%end" :: "%include" :: known))
  | [] => true
  end && negb (String.eqb line "").

(** A line that closes a section. *)
Definition end_line (line : string) : bool :=
  match split_ws line, shlex_split false line with
  | w :: _, Ok (a :: _) => String.eqb w "%end" && String.eqb a "%end"
  | _, _ => false
  end.

(** Which section is open after a line, given the section that is open before it:
    in the command part a line whose first word begins with % opens the section of
    that name, in a section an %end line closes it. *)
Definition open_after (sec : option string) (line : string) : option string :=
  match sec with
  | None =>
      if blank line || comment line then None
      else match shlex_split true line with
           | Ok (String c w :: _) =>
               if Ascii.eqb c "%" && negb (mem (String c w) ["%include"; "%ksappend"])
               then Some (String c w) else None
           | _ => None
           end
  | Some n => if end_line line then None else Some n
  end.
Definition section_after (sec : option string) (lines : list string) : option string :=
  fold_left open_after lines sec.

(** Lines that begin with a percent sign write their first word without quoting. *)
Definition plain_marker (line : string) : bool :=
  match split_ws line with
  | w :: _ => negb (startswith w "%") || all_chars (fun c => negb (lex_quote c) && negb (Ascii.eqb c BSLASH)) w
  | [] => true
  end.

(** No line of the text opens a section. *)
Definition no_sections (s : string) : bool :=
  forallb (fun l => match open_after None l with None => true | Some _ => false end) (splitlines s).
(** Every section of the text is closed.  Before F8 a section may also be ended by
    the next one or by the end of the file; texts for those versions only count as
    closed if they have no sections. *)
Definition closed_text (ver : Z) (s : string) : bool :=
  forallb plain_marker (splitlines s) &&
  if (F8 <=? ver)%Z then match section_after None (splitlines s) with None => true | Some _ => false end
  else no_sections s.

(** The command lines outside of sections, with their line numbers. *)
Fixpoint commands_outside (sec : option string) (k : N) (lines : list string)
  : list (string * list string * N) :=
  match lines with
  | [] => []
  | l :: r =>
      let rest := commands_outside (open_after sec l) (k + 1) r in
      match sec, command_words l with
      | None, Some ws => (l, ws, (k + 1)%N) :: rest
      | _, _ => rest
      end
  end.
(** A line that includes another file. *)
Definition first_word_is (w : string) (r : res (list string)) : bool :=
  match r with Ok (x :: _) => String.eqb x w | _ => false end.
Definition is_include (line : string) : bool :=
  first_word_is "%include" (shlex_split true line) || first_word_is "%include" (shlex_split false line).
(** The text does not look at other files. *)
Definition stands_alone (cf : config) (lines : list string) : Prop :=
  cf_followIncludes cf = false \/ forallb (fun l => negb (is_include l)) lines = true.

(** The text after [A] is in the command part: [A] opens no section, or (from F8
    on, where open sections are errors) does not end in an open section. *)
Definition command_part {C} (dispatch : C -> string -> list string -> N -> C * option exn) (cf : config)
  (n : nat) (A : string) (st : kstate C) : Prop :=
  no_sections A = true \/
  ((F8 <= cf_version cf)%Z /\
   forall l, snd (readKickstartFromString C dispatch cf n A st)
             <> Some (KSParseError l "section does not end with %end")).

(** The handler's errors are labelled with the line number it was given. *)
Definition reports_line {C} (dispatch : C -> string -> list string -> N -> C * option exn) : Prop :=
  forall c line ws n c' k t, dispatch c line ws n = (c', Some (KSParseError (Some k) t)) -> k = n.
