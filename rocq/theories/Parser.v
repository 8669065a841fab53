(** * KickstartParser of pykickstart/parser.py:519-848

    The handler's command objects are abstract here: [C] is their state and
    [dispatch c line args lineno] is what handleCommand does with it
    (parser.py:578-587: handler.currentLine = line; handler.dispatcher(args,
    lineno)) - the new state and the exception raised, if any.  The theorems about
    the parser hold for every [C] and [dispatch]; Handler.v supplies the real
    dispatcher.

    Functions return the state together with the exception, because the state at an
    exception is observable.  The state of _stateMachine called [STATE_COMMANDS] is
    [None], a section name [Some _]; STATE_END is never assigned.  self._line is
    always assigned before it is used and is a parameter here. *)

From Verif Require Export Sections.
From Verif Require Import Value.
Local Open Scope string_scope.
Local Open Scope list_scope.

(** ** Paths (CPython 3.11 Lib/posixpath.py) *)

(** posixpath.join of two parts. *)
Definition path_join (a b : string) : string :=
  if startswith b "/" then b
  else if String.eqb a "" || ends_with_char SLASH a then (a ++ b)%string
  else (a ++ "/" ++ b)%string.
(** posixpath.dirname. *)
Fixpoint upto_last_slash (s : string) : string :=
  match s with
  | "" => ""
  | String c r => if has_char SLASH s then String c (upto_last_slash r) else ""
  end.
Definition dirname (s : string) : string :=
  let head := upto_last_slash s in
  if all_chars (Ascii.eqb SLASH) head then head else rstrip_by (Ascii.eqb SLASH) head.
(** posixpath.abspath. *)
Definition abspath (cwd s : string) : string :=
  normpath (if startswith s "/" then s else path_join cwd s).

(** ** The parser object *)

(** The constructor's options, handler.version, and the outside world: os.getcwd(),
    os.path.exists, load_to_str ([None]: KickstartError). *)
Record config := mkConfig {
  cf_version : Z;
  cf_followIncludes : bool; cf_errorsAreFatal : bool;
  cf_missingIncludeIsFatal : bool; cf_unknownSectionIsFatal : bool;
  cf_cwd : string; cf_exists : string -> bool; cf_load : string -> option string }.

Section Parser.
Variable C : Type.
Variable dispatch : C -> string -> list string -> N -> C * option exn.
Variable cf : config.

(** The attributes of the parser and of its handler that change while parsing.
    [ks_depth] is _includeDepth, [ks_dirs] currentdir, [ks_sections] _sections. *)
Record kstate := mkKs {
  ks_cmds : C; ks_sec : sechandler; ks_platform : string;
  ks_state : option string; ks_depth : N; ks_errors : N;
  ks_dirs : list (N * string); ks_sections : list (string * secobj) }.

(** parser.py:519-565 for a handler with commands [c], scripts, package selection
    and kept sections [h] and platform [pl]. *)
Definition new_parser (c : C) (h : sechandler) (pl : string) : kstate :=
  mkKs c h pl None 0 0 [] setup_sections.

Definition set_cmds c st := mkKs c (ks_sec st) (ks_platform st) (ks_state st) (ks_depth st) (ks_errors st) (ks_dirs st) (ks_sections st).
Definition set_platform p st := mkKs (ks_cmds st) (ks_sec st) p (ks_state st) (ks_depth st) (ks_errors st) (ks_dirs st) (ks_sections st).
Definition set_state s st := mkKs (ks_cmds st) (ks_sec st) (ks_platform st) s (ks_depth st) (ks_errors st) (ks_dirs st) (ks_sections st).
Definition set_depth d st := mkKs (ks_cmds st) (ks_sec st) (ks_platform st) (ks_state st) d (ks_errors st) (ks_dirs st) (ks_sections st).
Definition count_error st := mkKs (ks_cmds st) (ks_sec st) (ks_platform st) (ks_state st) (ks_depth st) (ks_errors st + 1) (ks_dirs st) (ks_sections st).
Definition set_dirs d st := mkKs (ks_cmds st) (ks_sec st) (ks_platform st) (ks_state st) (ks_depth st) (ks_errors st) d (ks_sections st).
(** The section object called [n] and the handler are changed by one of its
    methods. *)
Definition set_section n o h st :=
  mkKs (ks_cmds st) h (ks_platform st) (ks_state st) (ks_depth st) (ks_errors st) (ks_dirs st)
    (put n o (ks_sections st)).

(** parser.py:567-570 (_reset). *)
Definition reset st := set_depth 0 (set_state None st).

(** parser.py:685-687 (_validState). *)
Definition valid_state (st : kstate) (n : string) : bool := has_key n (ks_sections st).

(** parser.py:703-704 (_isBlankOrComment). *)
Definition is_blank_or_comment (line : string) : bool :=
  isspace line || String.eqb line "" || startswith (lstrip line) "#".

(** parser.py:611-618 (_handleSpecialComments). *)
Definition special_comments (line : string) (st : kstate) : kstate :=
  match ks_state st with
  | Some _ => st
  | None => if startswith line "#platform=" then set_platform (strip (drop 10 line)) st else st
  end.

(** parser.py:689-701 (_tryFunc) around a function that gave [r]. *)
Definition try_func (r : kstate * option exn) : kstate * option exn :=
  match r with
  | (st, None) => (st, None)
  | (st, Some e) => (count_error st, if cf_errorsAreFatal cf then Some e else None)
  end.

(** Methods of the section object registered as [n].  (The lookup cannot fail: see
    ParserFacts.) *)
Definition call_header (n : string) (lineno : N) (args : list string) (st : kstate) : kstate * option exn :=
  match assoc n (ks_sections st) with
  | None => (st, Some KeyError)
  | Some o => let '(o', h', e) := sec_handleHeader (cf_version cf) lineno args o (ks_sec st) in
              (set_section n o' h' st, e)
  end.
Definition call_line (n : string) (line : string) (st : kstate) : kstate * option exn :=
  match assoc n (ks_sections st) with
  | None => (st, Some KeyError)
  | Some o => let '(o', h', e) := sec_handleLine line o (ks_sec st) in
              (set_section n o' h' st, e)
  end.
(** parser.py:603-609 (_finalize). *)
Definition finalize (n : string) (st : kstate) : kstate * option exn :=
  match assoc n (ks_sections st) with
  | None => (st, Some KeyError)
  | Some o => let '(o', h') := sec_finalize o (ks_sec st) in
              (set_state None (set_section n o' h' st), None)
  end.
Definition all_lines (n : string) (st : kstate) : bool :=
  match assoc n (ks_sections st) with Some o => allLines o | None => false end.

(** parser.py:620-683 (_readSection) for the section called [n]; [include] is
    _handleInclude.  The result is what is left in the line iterator and the line
    number. *)
Fixpoint read_section (include : string -> kstate -> kstate * option exn) (n : string)
  (lines : list string) (lineno : N) (st : kstate) : kstate * res (list string * N) :=
  match lines with
  | [] => (st, Ok ([], lineno))
  | line :: rest =>
      let eof := String.eqb line "" && N.eqb (ks_depth st) 0 in
      if eof && (F8 <=? cf_version cf)%Z then
        (st, Err (KSParseError (Some lineno) "section does not end with %end"))
      else
      let '(st, e) := if eof then finalize n st else (st, None) in
      match e with
      | Some e => (st, Err e)
      | None =>
      let lineno := (lineno + 1)%N in
      let handle st :=
        match call_line n line st with
        | (st, Some e) => (st, Err e)
        | (st, None) => read_section include n rest lineno st
        end in
      if is_blank_or_comment line && negb (all_lines n st) then
        read_section include n rest lineno st
      else if startswith (lstrip line) "%" then
        match split_ws line with
        | [] => (st, Err IndexError)
        | possible :: _ =>
            if negb (valid_state st possible) && negb (mem possible ["%end"; "%include"]) then
              handle st
            else match shlex_split false line with
            | Err e => (st, Err e)
            | Ok args =>
                match args with
                | [] => read_section include n rest lineno st
                | a0 :: more =>
                    if String.eqb a0 "%end" then
                      match finalize n st with
                      | (st, Some e) => (st, Err e)
                      | (st, None) => (st, Ok (rest, lineno))
                      end
                    else if String.eqb a0 "%include" then
                      match more with
                      | [] | "" :: _ => (st, Err (KSParseError (Some lineno) "include"))
                      | f :: _ =>
                          match include f st with
                          | (st, Some e) => (st, Err e)
                          | (st, None) => read_section include n rest lineno st
                          end
                      end
                    else if String.eqb a0 "%ksappend" then read_section include n rest lineno st
                    else if valid_state st a0 then
                      if (F8 <=? cf_version cf)%Z then
                        (st, Err (KSParseError (Some lineno) "section does not end with %end"))
                      else match finalize n st with
                           | (st, Some e) => (st, Err e)
                           | (st, None) => (st, Ok (line :: rest, (lineno - 1)%N))
                           end
                    else read_section include n rest lineno st
                end
            end
        end
      else handle st
      end
  end.

(** parser.py:724-790 (_stateMachine).  [fuel] bounds the number of iterations;
    an iteration that does not consume a line is followed by one that does
    ([state_machine_fuel] in ParserFacts). *)
Fixpoint state_machine (fuel : nat) (include : string -> kstate -> kstate * option exn)
  (lines : list string) (lineno : N) (st : kstate) : kstate * option exn :=
  match fuel with
  | O => (st, Some OutOfFuel)
  | S fuel =>
      match lines with
      | [] | "" :: _ => (st, None)
      | line :: rest =>
          let lineno := (lineno + 1)%N in
          if is_blank_or_comment line then
            state_machine fuel include rest lineno (special_comments line st)
          else match shlex_split true line with
          | Err e => (st, Some e)
          | Ok [] => (st, Some IndexError)
          | Ok ((a0 :: more) as args) =>
              if String.eqb a0 "%include" then
                match more with
                | [] | "" :: _ => (st, Some (KSParseError (Some lineno) "include"))
                | f :: _ =>
                    match include f st with
                    | (st, Some e) => (st, Some e)
                    | (st, None) => state_machine fuel include rest lineno st
                    end
                end
              else match ks_state st with
              | None =>
                  if String.eqb a0 "%ksappend" then state_machine fuel include rest lineno st
                  else match a0 with
                  | "" => (st, Some IndexError)
                  | String c _ =>
                      if Ascii.eqb c "%" then
                        if negb (valid_state st a0) && cf_unknownSectionIsFatal cf then
                          (st, Some (KSParseError (Some lineno) "unknown section"))
                        else
                          let st := if valid_state st a0 then st
                                    else set_section a0 (SNull [] []) (ks_sec st) st in
                          match try_func (call_header a0 lineno args (set_state (Some a0) st)) with
                          | (st, Some e) => (st, Some e)
                          | (st, None) =>
                              match read_section include a0 rest lineno st with
                              | (st, Err e) => (st, Some e)
                              | (st, Ok (rest, lineno)) => state_machine fuel include rest lineno st
                              end
                          end
                      else
                        match try_func (let '(c, e) := dispatch (ks_cmds st) line args lineno in
                                        (set_cmds c st, e)) with
                        | (st, Some e) => (st, Some e)
                        | (st, None) => state_machine fuel include rest lineno st
                        end
                  end
              | Some n =>
                  if (0 <? ks_depth st)%N then
                    match read_section include n (line :: rest) (lineno - 1) st with
                    | (st, Err e) => (st, Some e)
                    | (st, Ok (rest, lineno)) => state_machine fuel include rest lineno st
                    end
                  else state_machine fuel include rest lineno st
              end
          end
      end
  end.

(** parser.py:792-801 (readKickstartFromString without _reset). *)
Definition run_string (include : string -> kstate -> kstate * option exn) (s : string) (st : kstate)
  : kstate * option exn :=
  let lines := splitlines s ++ [""] in
  state_machine (2 * length lines + 2) include lines 0 st.

(** parser.py:706-722 (_handleInclude); [read] is readKickstart with reset=False. *)
Definition handle_include (read : string -> kstate -> kstate * option exn) (f : string) (st : kstate)
  : kstate * option exn :=
  if negb (cf_followIncludes cf) then (st, None)
  else match read f (set_depth (ks_depth st + 1) st) with
       | (st, Some e) =>
           if is_ks_error e && negb (cf_missingIncludeIsFatal cf)
           then (set_depth (ks_depth st - 1) st, None) else (st, Some e)
       | (st, None) => (set_depth (ks_depth st - 1) st, None)
       end.

Fixpoint dir_at (d : N) (l : list (N * string)) : option string :=
  match l with
  | [] => None
  | (k, v) :: r => if N.eqb d k then Some v else dir_at d r
  end.

(** parser.py:803-822: the path tried for [f] and the directory remembered. *)
Definition resolve_path (f : string) (st : kstate) : string :=
  if cf_exists cf f then f
  else if N.eqb (ks_depth st) 0 then f
  else match dir_at (ks_depth st - 1) (ks_dirs st) with
       | Some d => if cf_exists cf (path_join d f) then path_join d f else f
       | None => f
       end.
Definition remember_dir (f : string) (st : kstate) : kstate :=
  let cd := dirname f in
  set_dirs ((ks_depth st, if startswith cd "/" then cd else abspath (cf_cwd cf) cd) :: ks_dirs st) st.

(** parser.py:803-828 (readKickstart with reset=False).  [n] bounds the depth of
    nested includes, the Python interpreter's recursion limit does the same. *)
Fixpoint read_kickstart (n : nat) (f : string) (st : kstate) : kstate * option exn :=
  match n with
  | O => (st, Some OutOfFuel)
  | S n =>
      let f := resolve_path f st in
      let st := remember_dir f st in
      match cf_load cf f with
      | None => (st, Some (KSError (Some 0%N) "input-load"))
      | Some s => run_string (handle_include (read_kickstart n)) s st
      end
  end.

(** The public entry points, with reset=True. *)
Definition readKickstartFromString (n : nat) (s : string) (st : kstate) : kstate * option exn :=
  run_string (handle_include (read_kickstart n)) s (reset st).
Definition readKickstart (n : nat) (f : string) (st : kstate) : kstate * option exn :=
  read_kickstart (S n) f (reset st).

End Parser.
