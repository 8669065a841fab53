(** * How a line is written as words

    The quoting rules of a POSIX shell, as far as kickstart lines follow them: an unquoted
    character stands for itself, a backslash makes the next character stand for itself,
    everything between single quotes stands for itself, and between double quotes a
    backslash is only special before a backslash or a double quote.  Nothing here refers
    to the model of the lexer. *)

From Verif Require Export PyStr.
Local Open Scope string_scope.
Local Open Scope list_scope.

Definition glue (l : list string) : string := fold_right append "" l.
Definition blank (c : ascii) : Prop := In c [SP; TAB; CR; LF].

(** One character between double quotes: written as it is, or after a backslash. *)
Inductive inner := Plain (c : ascii) | Slashed (c : ascii).
Definition inner_ok (i : inner) : Prop :=
  match i with Plain c => c <> DQUOTE /\ c <> BSLASH | Slashed _ => True end.
Definition inner_text (i : inner) : string :=
  match i with Plain c => String c "" | Slashed c => String BSLASH (String c "") end.
Definition inner_means (i : inner) : string :=
  match i with
  | Plain c => String c ""
  | Slashed c => if Ascii.eqb c BSLASH || Ascii.eqb c DQUOTE then String c "" else String BSLASH (String c "")
  end.

(** A piece of a word. *)
Inductive piece :=
| Bare (c : ascii)
| Escaped (c : ascii)
| Single (s : string)
| Double (l : list inner).
Definition piece_ok (comments : bool) (p : piece) : Prop :=
  match p with
  | Bare c => ~ blank c /\ ~ In c [SQUOTE; DQUOTE; BSLASH] /\ (comments = true -> c <> "#"%char)
  | Escaped _ => True
  | Single s => has_char SQUOTE s = false
  | Double l => Forall inner_ok l
  end.
Definition piece_text (p : piece) : string :=
  match p with
  | Bare c => String c ""
  | Escaped c => String BSLASH (String c "")
  | Single s => String SQUOTE (s ++ String SQUOTE "")
  | Double l => String DQUOTE (glue (map inner_text l) ++ String DQUOTE "")
  end%string.
Definition piece_means (p : piece) : string :=
  match p with Bare c | Escaped c => String c "" | Single s => s | Double l => glue (map inner_means l) end.
Definition word_text (w : list piece) : string := glue (map piece_text w).
Definition word_means (w : list piece) : string := glue (map piece_means w).

(** What may follow a word: nothing, a blank, or a comment. *)
Definition word_ends (comments : bool) (s : string) : Prop :=
  match s with "" => True | String c _ => blank c \/ (comments = true /\ c = "#"%char) end.

(** [reads comments s ws]: the text [s] is the words [ws].  With [comments], an unquoted
    [#] starts a comment that goes to the end of the line. *)
Inductive reads (comments : bool) : string -> list string -> Prop :=
| R_end : reads comments "" []
| R_blank c s ws : blank c -> reads comments s ws -> reads comments (String c s) ws
| R_comment t s ws : comments = true -> has_char LF t = false -> reads comments s ws ->
    reads comments (String "#" (t ++ String LF s)) ws
| R_last_comment t : comments = true -> has_char LF t = false -> reads comments (String "#" t) []
| R_word w s ws : w <> [] -> Forall (piece_ok comments) w -> word_ends comments s -> reads comments s ws ->
    reads comments (word_text w ++ s) (word_means w :: ws).
