(** * Python's shlex module (CPython 3.11, Lib/shlex.py), as pykickstart uses it

    [shlex.split(s, comments)] runs the lexer in POSIX mode with
    [whitespace_split = True] (Lib/shlex.py:305-315); callers are
    pykickstart/parser.py:653 (no comments) and :745 ([comments=True]).
    [quote] (Lib/shlex.py:323-336) is used as [pipes.quote] by
    pykickstart/commands/realm.py. *)

From Verif Require Export Value.
Local Open Scope string_scope.

(** The lexer's [state] attribute: ' ', 'a', a quote character, or the escape
    character together with [escapedstate] (Lib/shlex.py:133-254, read_token).
    [LComment] stands for the effect of [instream.readline()]: characters are
    skipped up to and including the next line feed. *)
Inductive lstate :=
| LSpace
| LWord
| LQuote (q : ascii)
| LEscape (back : option ascii)   (* None: escapedstate = 'a' *)
| LComment.

Definition lex_white (c : ascii) : bool :=
  Ascii.eqb c SP || Ascii.eqb c TAB || Ascii.eqb c CR || Ascii.eqb c LF.
Definition lex_quote (c : ascii) : bool := Ascii.eqb c SQUOTE || Ascii.eqb c DQUOTE.
Definition HASH : ascii := "#"%char.

(** Emit the current token if it is non-empty or was quoted
    (Lib/shlex.py: "if self.token or (self.posix and quoted): break"). *)
Definition emit (tok : string) (quoted : bool) (rest : res (list string)) : res (list string) :=
  if String.eqb tok "" && negb quoted then rest
  else do l <- rest ;; Ok (tok :: l).

(** One call of [list(lexer)]: Lib/shlex.py:133-254 (read_token), :294-299
    (__next__).  [tok] is [self.token], [quoted] the local of that name. *)
Fixpoint lex (comments : bool) (s : string) (st : lstate) (tok : string) (quoted : bool)
  : res (list string) :=
  match s with
  | "" =>
      match st with
      | LSpace | LComment => Ok []
      | LWord => emit tok quoted (Ok [])
      | LQuote _ => Err ValueError          (* No closing quotation *)
      | LEscape _ => Err ValueError         (* No escaped character *)
      end
  | String c r =>
      match st with
      | LComment =>
          if Ascii.eqb c LF then lex comments r LSpace tok quoted
          else lex comments r LComment tok quoted
      | LSpace =>
          if lex_white c then lex comments r LSpace tok quoted
          else if comments && Ascii.eqb c HASH then lex comments r LComment tok quoted
          else if Ascii.eqb c BSLASH then lex comments r (LEscape None) tok quoted
          else if lex_quote c then lex comments r (LQuote c) tok quoted
          else lex comments r LWord (String c "") quoted
      | LWord =>
          if lex_white c then emit tok quoted (lex comments r LSpace "" false)
          else if comments && Ascii.eqb c HASH then
                 emit tok quoted (lex comments r LComment "" false)
          else if lex_quote c then lex comments r (LQuote c) tok quoted
          else if Ascii.eqb c BSLASH then lex comments r (LEscape None) tok quoted
          else lex comments r LWord (tok ++ String c "") quoted
      | LQuote q =>
          if Ascii.eqb c q then lex comments r LWord tok true
          else if Ascii.eqb c BSLASH && Ascii.eqb q DQUOTE then
                 lex comments r (LEscape (Some q)) tok true
          else lex comments r (LQuote q) (tok ++ String c "") true
      | LEscape None => lex comments r LWord (tok ++ String c "") quoted
      | LEscape (Some q) =>
          if negb (Ascii.eqb c BSLASH) && negb (Ascii.eqb c q)
          then lex comments r (LQuote q) (tok ++ String BSLASH (String c "")) quoted
          else lex comments r (LQuote q) (tok ++ String c "") quoted
      end
  end.

(** [shlex.split(s, comments=...)]. *)
Definition shlex_split (comments : bool) (s : string) : res (list string) :=
  lex comments s LSpace "" false.

(** Characters that need no quoting: [\w@%+=:,./-] with re.ASCII
    (Lib/shlex.py:323). *)
Definition shell_safe (c : ascii) : bool :=
  let n := cp c in
  (((97 <=? n) && (n <=? 122)) || ((65 <=? n) && (n <=? 90)) || is_digit c
   || (n =? 95) || (n =? 64) || (n =? 37) || (n =? 43) || (n =? 61)
   || (n =? 58) || (n =? 44) || (n =? 46) || (n =? 47) || (n =? 45))%N%bool.

(** [shlex.quote] / [pipes.quote]. *)
Definition quote (s : string) : string :=
  match s with
  | "" => "''"
  | _ => if all_chars shell_safe s then s
         else String SQUOTE (replace_char SQUOTE ("'""'""'") s ++ String SQUOTE "")
  end.
