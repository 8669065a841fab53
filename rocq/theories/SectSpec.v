(** * Specification vocabulary for sections (C16 - C20) *)

From Verif Require Export ArgSpec Parser ParserSpec.
From Verif Require Import Value.
Local Open Scope string_scope.
Local Open Scope list_scope.

(** ** Script headers *)

(** The options of a script header, values attached: which words are allowed. *)
Definition header_word (k : skind) (w : oword) : bool :=
  match w with
  | OFlag o => String.eqb o "--erroronfail" || (is_post k && String.eqb o "--nochroot")
  | OVal o _ => mem o ["--interpreter"; "--log"; "--logfile"]
  end.
(** The last value given for one of the names. *)
Fixpoint last_given (names : list string) (ws : list oword) : option string :=
  match ws with
  | [] => None
  | w :: r => match last_given names r, w with
              | Some v, _ => Some v
              | None, OVal o v => if mem o names then Some v else None
              | None, OFlag _ => None
              end
  end.
Definition has_flag (o : string) (ws : list oword) : bool :=
  existsb (fun w => match w with OFlag x => String.eqb x o | OVal _ _ => false end) ws.

(** The script a header and a body describe, for a header in line [ln]. *)
Definition described (k : skind) (ws : list oword) (ln : N) (body : string) : script :=
  mkScript body
    (match last_given ["--interpreter"] ws with Some v => v | None => "/bin/sh" end)
    (is_post k && negb (has_flag "--nochroot" ws))
    (Some ln)
    (last_given ["--log"; "--logfile"] ws)
    (has_flag "--erroronfail" ws)
    k.

(** [h] is a header line of a section of kind [k] with these options. *)
Definition header_line (k : skind) (ws : list oword) (h : string) : Prop :=
  splitlines h = [h] /\ complete h = true /\ blank h || comment h = false /\
  shlex_split true h = Ok (kind_name k :: map text ws) /\ forallb (header_word k) ws = true.

(** [e] is an %end line. *)
Definition closing_line (e : string) : Prop :=
  splitlines e = [e] /\ end_line e = true.

(** [b] is the text of a script as far as the parser is concerned. *)
Definition script_text (known : list string) (b : string) : Prop :=
  complete b = true /\ forallb (body_line known) (splitlines b) = true.

(** ** The parser between sections *)

Definition known {C} (st : kstate C) : list string := map fst (ks_sections C st).

(** The section object of kind [k] is registered under its name; [w] is left over
    from earlier sections with blank bodies. *)
Definition pending {C} (k : skind) (w : string) (st : kstate C) : Prop :=
  exists t a, assoc (kind_name k) (ks_sections C st) = Some (SScript k t a) /\
    concat_all (sa_body a) = w /\ (is_post k = true \/ sa_chroot a = false).

(** The parser has read a text without failing and is back in the command part. *)
Definition has_read {C} (dispatch : C -> string -> list string -> N -> C * option exn) (cf : config) (n : nat)
  (st : kstate C) (A : string) (s1 : kstate C) : Prop :=
  complete A = true /\ readKickstartFromString C dispatch cf n A st = (s1, None) /\ ks_state C s1 = None.

(** [s2] differs from [s1] at most in the scripts, which are those of [s1] and
    [new]; section objects other than the one of kind [k] are as before. *)
Definition only_adds {C} (k : skind) (new : list script) (s1 s2 : kstate C) : Prop :=
  ks_cmds C s2 = ks_cmds C s1 /\ ks_platform C s2 = ks_platform C s1 /\ ks_errors C s2 = ks_errors C s1 /\
  sh_scripts (ks_sec C s2) = sh_scripts (ks_sec C s1) ++ new /\
  sh_packages (ks_sec C s2) = sh_packages (ks_sec C s1) /\ sh_nulls (ks_sec C s2) = sh_nulls (ks_sec C s1) /\
  known s2 = known s1 /\
  forall n, n <> kind_name k -> assoc n (ks_sections C s2) = assoc n (ks_sections C s1).

(** ** Unknown sections *)

(** A line that begins a section called [n] with these words. *)
Definition section_line (n : string) (args : list string) (h : string) : Prop :=
  splitlines h = [h] /\ complete h = true /\ blank h || comment h = false /\
  shlex_split true h = Ok (n :: args) /\ startswith n "%" = true /\
  n <> "%include" /\ n <> "%ksappend".

(** What is kept of a section: the words of its header, its lines, and %end,
    separated by newlines. *)
Definition kept (n : string) (args lines : list string) : string :=
  (join " " (n :: args) ++ nl ++ (match lines with [] => "" | _ => join nl lines ++ nl end) ++ "%end")%string.

(** ** Written scripts *)

(** Characters that stand for themselves everywhere. *)
Definition plain_char (c : ascii) : bool :=
  negb (is_space c) && negb (is_linebreak c) &&
  negb (Ascii.eqb c SQUOTE) && negb (Ascii.eqb c DQUOTE) && negb (Ascii.eqb c BSLASH) && negb (Ascii.eqb c HASH).
Definition plain_text (s : string) : bool := all_chars plain_char s.

(** The script with its text ending in a newline, and with another line number. *)
Definition terminated (s : string) : string := if ends_with_char LF s then s else (s ++ nl)%string.
Definition rewritten (ln : N) (s : script) : script :=
  mkScript (terminated (sc_script s)) (sc_interp s) (sc_inChroot s) (Some ln) (sc_logfile s) (sc_errorOnFail s) (sc_type s).

(** Scripts that a kickstart file can express. *)
Definition writable (known : list string) (s : script) : Prop :=
  plain_text (sc_interp s) = true /\ sc_interp s <> "" /\
  (match sc_logfile s with Some f => plain_text f = true | None => True end) /\
  (sc_type s <> Post -> sc_inChroot s = false) /\
  blank (sc_script s) = false /\
  forallb (body_line known) (splitlines (terminated (sc_script s))) = true.
