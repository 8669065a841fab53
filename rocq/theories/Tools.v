(** * The command line tools: tools/ksvalidator.py, tools/ksflatten.py, tools/ksshell.py

    The options of the tools are taken as parsed (by argparse).  What the tools print for people is not modelled
    but for which kind of message it is.  As in Parser.v the handler's commands are abstract: [C] is their
    state and [dispatch] what handleCommand does.  ksvalidator turns warnings into errors
    (ksvalidator.py:99-100), so its [dispatch] is another one than that of ksflatten and ksshell. *)

From Verif Require Import Version Preprocess.
From Verif Require Export Parser.
From Verif Require Import Value.
Local Open Scope string_scope.
Local Open Scope list_scope.

(** ** makeVersion *)

(** handlers/*.py (line 24 or 26 of each): the module, its class, and the attribute [version] of the class. *)
Definition handler_modules : list (string * (string * Z)) :=
  [("fc3", ("FC3Handler", FC3)); ("fc4", ("FC4Handler", FC4)); ("fc5", ("FC5Handler", FC5)); ("fc6", ("FC6Handler", FC6));
   ("f7", ("F7Handler", F7)); ("f8", ("F8Handler", F8)); ("f9", ("F9Handler", F9)); ("f10", ("F10Handler", F10));
   ("f11", ("F11Handler", F11)); ("f12", ("F12Handler", F12)); ("f13", ("F13Handler", F13)); ("f14", ("F14Handler", F14));
   ("f15", ("F15Handler", F15)); ("f16", ("F16Handler", F16)); ("f17", ("F17Handler", F17)); ("f18", ("F18Handler", F18));
   ("f19", ("F19Handler", F19)); ("f20", ("F20Handler", F20)); ("f21", ("F21Handler", F21)); ("f22", ("F22Handler", F22));
   ("f23", ("F23Handler", F23)); ("f24", ("F24Handler", F24)); ("f25", ("F25Handler", F25)); ("f26", ("F26Handler", F26));
   ("f27", ("F27Handler", F27)); ("f28", ("F28Handler", F28)); ("f29", ("F29Handler", F29)); ("f30", ("F30Handler", F30));
   ("f31", ("F31Handler", F31)); ("f32", ("F32Handler", F32)); ("f33", ("F33Handler", F33)); ("f34", ("F34Handler", F34));
   ("rhel3", ("RHEL3Handler", RHEL3)); ("rhel4", ("RHEL4Handler", RHEL4)); ("rhel5", ("RHEL5Handler", RHEL5));
   ("rhel6", ("RHEL6Handler", RHEL6)); ("rhel7", ("RHEL7Handler", RHEL7)); ("rhel8", ("RHEL8Handler", RHEL8))].
(** version.py:215-223 (makeVersion).  The result is the version of the new handler. *)
Definition makeVersion (a : version_arg) : res Z :=
  do c <- returnClassForVersion (map (fun m => (fst m, fst (snd m))) handler_modules) a ;;
  match assoc c (map snd handler_modules) with Some v => Ok v | None => Err TypeError end.

(** ** Files *)

(** The outside world as the tools find it: os.getcwd(), os.path.exists, load_to_str, and the names that
    tempfile chooses for new files. *)
Record world := mkWorld {
  w_cwd : string; w_exists : string -> bool; w_load : string -> option string;
  w_dir : string; w_file : string }.
(** The same after a file with the text [s] was made at [p]. *)
Definition with_file (p s : string) (w : world) : world :=
  mkWorld (w_cwd w) (fun q => String.eqb q p || w_exists w q) (fun q => if String.eqb q p then Some s else w_load w q) (w_dir w) (w_file w).
(** parser.py:528-529 (KickstartParser.__init__), the two options no tool gives. *)
Definition tool_config (v : Z) (follow fatal : bool) (w : world) : config :=
  mkConfig v follow fatal true true (w_cwd w) (w_exists w) (w_load w).

(** What is printed. *)
Inductive said :=
| Help | Versions (l : list string) | Usage | CannotRead | BadVersion | Silent | ParseProblem (e : exn) | KickstartProblem (e : exn) | GeneralProblem (e : exn).

(** ** ksvalidator *)

Record vopts := mkVopts {
  vo_ksfile : option string; vo_firsterror : bool; vo_follow : bool; vo_list : bool; vo_help : bool; vo_version : version_arg }.

(** ksvalidator.py:38-48 (cleanup) on the list of temporary files and directories there are. *)
Definition cleanup (dest : string) (fn : option string) (tmp : list string) : list string :=
  filter (fun p => negb (String.eqb p dest || startswith p (dest ++ "/") || match fn with Some f => String.eqb p f | None => false end)) tmp.

(** ksvalidator.py:108-118: the except clauses. KickstartDeprecationWarning is not an exception of this model: a dispatcher that
    turns warnings into errors raises one of the other exceptions, with the same exit status. *)
Definition complaint (e : exn) : said :=
  match e with
  | KSParseError _ _ => ParseProblem e
  | KSError _ _ | KSVersionError _ => KickstartProblem e
  | _ => GeneralProblem e
  end.

Section Tools.
Variable C : Type.
Variable dispatch : C -> string -> list string -> N -> C * option exn.
(** The commands of a new handler of a version. *)
Variable new_commands : Z -> C.
(** The handler as text: str of the handler with the version and the state of the parser, or what it raises. *)
Variable handler_text : Z -> kstate C -> res string.
Definition nothing_read : sechandler := mkSH [] new_packages [].
Definition parser_of (v : Z) : kstate C := new_parser C (new_commands v) nothing_read "".

(** ksvalidator.py:50-118 (main).  [fetch f] is what load_to_file does with the location: the text it
    has copied, or the exception.  The result is the temporary files and directories that are left, and the exit
    value with the message, or the exception that escapes.  [fuel] bounds the depth of includes. *)
Definition ksvalidator (fuel : nat) (fetch : string -> res string) (o : vopts) (w : world) : list string * res (N * said) :=
  if vo_help o then ([], Ok (0%N, Help))
  else if vo_list o then ([], Ok (0%N, Versions (sort_str (map fst versionMap))))
  else match vo_ksfile o with
  | None | Some "" => ([], Ok (1%N, Usage))
  | Some f =>
      let dir := w_dir w in
      let tmp := [dir] in
      match fetch f with
      | Err e => if is_ks_error e then (cleanup dir None tmp, Ok (1%N, CannotRead)) else (tmp, Err e)
      | Ok s =>
          let ks := path_join dir "ks.cfg" in
          let tmp := ks :: tmp in
          let w1 := with_file ks s w in
          match makeVersion (vo_version o) with
          | Err (KSVersionError _) => (cleanup dir None tmp, Ok (1%N, BadVersion))
          | Err e => (tmp, Err e)
          | Ok v =>
              match preprocessKickstart (w_load w1) ks with
              | Err e => (cleanup dir None tmp, Ok (1%N, complaint e))
              | Ok None => (cleanup dir None tmp, Ok (1%N, complaint TypeError))
              | Ok (Some t) =>
                  let tmp := w_file w :: tmp in
                  let w2 := with_file (w_file w) t w1 in
                  match readKickstart C dispatch (tool_config v (vo_follow o) (vo_firsterror o) w2) fuel (w_file w) (parser_of v) with
                  | (st, None) => (cleanup dir (Some (w_file w)) tmp, Ok (ks_errors C st, Silent))
                  | (st, Some e) => (cleanup dir (Some (w_file w)) tmp, Ok (1%N, complaint e))
                  end
              end
          end
      end
  end.
(** ksvalidator.py:120-124: sys.exit with an integer; the system keeps the lowest eight bits. *)
Definition exit_status (n : N) : N := N.modulo n 256.

(** ** ksflatten *)

Record fopts := mkFopts { fo_kscfg : string; fo_version : version_arg; fo_output : option string }.
(** Where the text goes. *)
Inductive written := ToFile (f s : string) | ToScreen (s : string) | Nowhere.

(** ksflatten.py:44-76 (main).  [can_open] tells whether the output file can be opened for writing. An
    exception that is neither a KickstartError nor an IOError escapes.  The file is opened, and emptied, before the
    text is made. *)
Definition ksflatten (fuel : nat) (can_open : string -> bool) (o : fopts) (w : world) : written * res N :=
  if String.eqb (fo_kscfg o) "" then (Nowhere, Ok 1%N)
  else match makeVersion (fo_version o) with
  | Err (KSVersionError _) => (Nowhere, Ok 1%N)
  | Err e => (Nowhere, Err e)
  | Ok v =>
      match readKickstart C dispatch (tool_config v true true w) fuel (fo_kscfg o) (parser_of v) with
      | (_, Some e) => if is_ks_error e then (Nowhere, Ok 1%N) else (Nowhere, Err e)
      | (st, None) =>
          match fo_output o with
          | Some "" | None => match handler_text v st with Ok s => (ToScreen s, Ok 0%N) | Err e => (Nowhere, Err e) end
          | Some f =>
              if can_open f
              then match handler_text v st with Ok s => (ToFile f s, Ok 0%N) | Err e => (ToFile f "", Err e) end
              else (Nowhere, Ok 1%N)
          end
      end
  end.

(** ** ksshell *)

(** The shell between two lines: the parser, and after .clear the sections and the platform of the new
    handler.  ClearCommand (ksshell.py:60-63) gives the parser a new handler, but the section
    objects of the parser keep the old one, so that sections go to the handler that is not shown. *)
Record shell := mkShell { sl_parser : kstate C; sl_cleared : option sechandler }.
(** ksshell.py:60-63. *)
Definition clear (v : Z) (s : shell) : shell :=
  let st := sl_parser s in
  mkShell (set_platform C "" (set_cmds C (new_commands v) st)) (Some nothing_read).
(** What a line does: goes on, ends the shell, or ends it with an exception. *)
Inductive turn := Go | Quit | Crash (e : exn).
(** ksshell.py:213-233: one line of input.  The first word of a line that begins with a dot is looked up; a word of
    white space cannot begin with a dot.  .show is taken to be able to print the handler. *)
Definition shell_line (fuel : nat) (v : Z) (w : world) (line : string) (s : shell) : shell * turn :=
  if startswith line "." then
    match split_ws line with
    | p :: _ => if String.eqb p ".clear" then (clear v s, Go) else if String.eqb p ".quit" then (s, Quit) else (s, Go)
    | [] => (s, Go)
    end
  else match readKickstartFromString C dispatch (tool_config v true false w) fuel line (sl_parser s) with
       | (st, None) => (mkShell st (sl_cleared s), Go)
       | (st, Some e) => (mkShell st (sl_cleared s), if is_ks_error e then Go else Crash e)
       end.
(** ksshell.py:203-233: the loop, until the input ends. *)
Fixpoint shell_lines (fuel : nat) (v : Z) (w : world) (lines : list string) (s : shell) : shell * option exn :=
  match lines with
  | [] => (s, None)
  | l :: r =>
      match shell_line fuel v w l s with
      | (s, Go) => shell_lines fuel v w r s
      | (s, Quit) => (s, None)
      | (s, Crash e) => (s, Some e)
      end
  end.
(** ksshell.py:235-240: the handler that is written at the end. *)
Definition shell_text (v : Z) (s : shell) : res string :=
  let st := sl_parser s in
  handler_text v (match sl_cleared s with
                  | None => st
                  | Some h => mkKs C (ks_cmds C st) h (ks_platform C st) (ks_state C st) (ks_depth C st) (ks_errors C st) (ks_dirs C st) (ks_sections C st)
                  end).
End Tools.

(** ** Completion in ksshell *)

(** ksshell.py:77-99 (KickstartCompleter): the words offered for each command; [ops] are the option strings of the
    commands that have an option parser.  Internal commands begin with a dot and have none. *)
Definition internal_commands : list string := [".clear"; ".show"; ".quit"].
Definition completer (ops : list (string * list string)) : list (string * list string) :=
  fold_left (fun d c => put c [] d) internal_commands
    (fold_left (fun d c => put (fst c) (if startswith (fst c) "." then [] else snd c) d) ops []).
(** ksshell.py:101-124 (_init_matches) for the line and the bounds of the word that is completed. *)
Definition matches (cs : list (string * list string)) (line : string) (b e : nat) : list string :=
  let word := take (e - b) (drop b line) in
  match split_ws line with
  | [] => sort_str (map fst cs)
  | p :: _ =>
      let found := if Nat.eqb b 0 || String.eqb (strip (take b line)) "" then Some (map fst cs) else assoc p cs in
      match found with
      | None => []
      | Some l => if String.eqb word "" then l else filter (fun x => startswith x word) l
      end
  end.
(** ksshell.py:126-142 (complete), asked for state 0, 1, 2, ... *)
Definition complete_word (cs : list (string * list string)) (line : string) (b e state : nat) : option string := nth_error (matches cs line b e) state.
