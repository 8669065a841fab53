(** * Python string operations used by pykickstart

    Strings are Coq [string]s whose characters are code points 0..255, that is
    the Latin-1 range of Python's [str]; on that range every function below is
    the CPython 3.11 method named in its comment (exception: [upper], see
    there).  Code points above 255 are outside the model. *)

From Coq Require Export String Ascii List Bool Arith NArith ZArith Lia.
From Coq Require Import DecimalString.
Export ListNotations.
Local Open Scope string_scope.

(** Code point of a character. *)
Definition cp (c : ascii) : N := N_of_ascii c.

(** [str.isspace] for one character (Latin-1 part): used by [strip], [split()]
    and [isspace].  Code points 9-13, 28-32, 0x85 and 0xA0. *)
Definition is_space (c : ascii) : bool :=
  let n := cp c in
  ((9 <=? n) && (n <=? 13))%N || ((28 <=? n) && (n <=? 32))%N
  || (n =? 133)%N || (n =? 160)%N.

(** The line boundaries of [str.splitlines] (Latin-1 part):
    \n \v \f \r \x1c \x1d \x1e \x85. *)
Definition is_linebreak (c : ascii) : bool :=
  let n := cp c in
  ((10 <=? n) && (n <=? 13))%N || ((28 <=? n) && (n <=? 30))%N || (n =? 133)%N.

Definition LF : ascii := "010"%char.
Definition CR : ascii := "013"%char.
Definition TAB : ascii := "009"%char.
Definition SP : ascii := " "%char.
Definition DQUOTE : ascii := """"%char.
Definition SQUOTE : ascii := "'"%char.
Definition BSLASH : ascii := "\"%char.
Definition nl : string := String LF "".

(** [s.lstrip(...)]: drop leading characters satisfying [p]. *)
Fixpoint lstrip_by (p : ascii -> bool) (s : string) : string :=
  match s with
  | "" => ""
  | String c r => if p c then lstrip_by p r else s
  end.

(** [s.rstrip(...)]. *)
Fixpoint rstrip_by (p : ascii -> bool) (s : string) : string :=
  match s with
  | "" => ""
  | String c r =>
      match rstrip_by p r with
      | "" => if p c then "" else String c ""
      | r' => String c r'
      end
  end.

Definition lstrip (s : string) : string := lstrip_by is_space s.
Definition rstrip (s : string) : string := rstrip_by is_space s.
(** [s.strip()]. *)
Definition strip (s : string) : string := rstrip (lstrip s).
(** [s.strip(chars)] with a single character. *)
Definition strip_char (c : ascii) (s : string) : string :=
  rstrip_by (Ascii.eqb c) (lstrip_by (Ascii.eqb c) s).

Fixpoint all_chars (p : ascii -> bool) (s : string) : bool :=
  match s with
  | "" => true
  | String c r => p c && all_chars p r
  end.

Fixpoint any_char (p : ascii -> bool) (s : string) : bool :=
  match s with
  | "" => false
  | String c r => p c || any_char p r
  end.

(** [c in s] for a one-character string [c]. *)
Definition has_char (c : ascii) (s : string) : bool := any_char (Ascii.eqb c) s.

(** [s.isspace()]: non-empty and all white space. *)
Definition isspace (s : string) : bool :=
  match s with "" => false | _ => all_chars is_space s end.

(** [s.startswith(p)]. *)
Fixpoint startswith (s p : string) : bool :=
  match p, s with
  | "", _ => true
  | String a p', String b s' => Ascii.eqb a b && startswith s' p'
  | String _ _, "" => false
  end.

Fixpoint str_rev_app (s acc : string) : string :=
  match s with "" => acc | String c r => str_rev_app r (String c acc) end.
Definition str_rev (s : string) : string := str_rev_app s "".

(** [s.endswith("\n")] and generally for one character. *)
Fixpoint ends_with_char (c : ascii) (s : string) : bool :=
  match s with
  | "" => false
  | String x "" => Ascii.eqb x c
  | String _ r => ends_with_char c r
  end.

(** [s[n:]] and [s[:n]] for n >= 0. *)
Fixpoint drop (n : nat) (s : string) : string :=
  match n, s with
  | O, _ => s
  | S n', String _ r => drop n' r
  | S _, "" => ""
  end.
Fixpoint take (n : nat) (s : string) : string :=
  match n, s with
  | O, _ => ""
  | S n', String c r => String c (take n' r)
  | S _, "" => ""
  end.

(** [s.split(c)] for a one-character separator: always at least one item. *)
Fixpoint split_char (c : ascii) (s : string) : list string :=
  match s with
  | "" => [""]
  | String x r =>
      if Ascii.eqb c x then "" :: split_char c r
      else match split_char c r with
           | h :: t => String x h :: t
           | [] => [String x ""]
           end
  end.

(** [s.split()]: maximal runs of non-white-space characters. *)
Fixpoint split_ws (s : string) : list string :=
  match s with
  | "" => []
  | String c r =>
      if is_space c then split_ws r
      else match r with
           | "" => [String c ""]
           | String d _ =>
               if is_space d then String c "" :: split_ws r
               else match split_ws r with
                    | h :: t => String c h :: t
                    | [] => [String c ""]
                    end
           end
  end.

(** [s.partition(c)]: (before, separator found, after). *)
Fixpoint partition_char (c : ascii) (s : string) : string * bool * string :=
  match s with
  | "" => ("", false, "")
  | String x r =>
      if Ascii.eqb c x then ("", true, r)
      else let '(b, f, a) := partition_char c r in (String x b, f, a)
  end.

(** [s.splitlines(True)]: lines with their terminators kept; "\r\n" is one
    terminator. *)
Fixpoint splitlines (s : string) : list string :=
  match s with
  | "" => []
  | String c r =>
      if is_linebreak c then
        match r with
        | String d r' =>
            if Ascii.eqb c CR && Ascii.eqb d LF
            then String c (String d "") :: splitlines r'
            else String c "" :: splitlines r
        | "" => [String c ""]
        end
      else match splitlines r with
           | h :: t => String c h :: t
           | [] => [String c ""]
           end
  end.

(** [sep.join(l)]. *)
Fixpoint join (sep : string) (l : list string) : string :=
  match l with
  | [] => ""
  | [x] => x
  | x :: r => x ++ sep ++ join sep r
  end.

(** ["".join(l)]. *)
Fixpoint concat_all (l : list string) : string :=
  match l with [] => "" | x :: r => x ++ concat_all r end.

(** [s.replace(c, t)] for a one-character [c]. *)
Fixpoint replace_char (c : ascii) (t : string) (s : string) : string :=
  match s with
  | "" => ""
  | String x r => if Ascii.eqb c x then t ++ replace_char c t r
                  else String x (replace_char c t r)
  end.

(** [str.lower] on one code point (Latin-1: A-Z and 0xC0-0xDE without 0xD7). *)
Definition lower_char (c : ascii) : ascii :=
  let n := cp c in
  if (((65 <=? n) && (n <=? 90)) || ((192 <=? n) && (n <=? 222) && negb (n =? 215)))%N
  then ascii_of_N (n + 32) else c.
Fixpoint lower (s : string) : string :=
  match s with "" => "" | String c r => String (lower_char c) (lower r) end.

(** [str.upper] on one code point.  Simplification: 0xB5, 0xDF and 0xFF are left
    unchanged (in Python they map outside Latin-1 or to two characters); [upper]
    is only used to look up keys that contain none of these. *)
Definition upper_char (c : ascii) : ascii :=
  let n := cp c in
  if (((97 <=? n) && (n <=? 122)) || ((224 <=? n) && (n <=? 254) && negb (n =? 247)))%N
  then ascii_of_N (n - 32) else c.
Fixpoint upper (s : string) : string :=
  match s with "" => "" | String c r => String (upper_char c) (upper r) end.

(** Comparison of strings by code points ([<] and [<=] on [str]). *)
Fixpoint str_leb (s t : string) : bool :=
  match s, t with
  | "", _ => true
  | String _ _, "" => false
  | String a s', String b t' =>
      if (cp a <? cp b)%N then true
      else if (cp b <? cp a)%N then false
      else str_leb s' t'
  end.
Definition str_ltb (s t : string) : bool := negb (str_leb t s).

(** Membership of a string in a list ([x in lst]). *)
Definition mem (x : string) (l : list string) : bool := existsb (String.eqb x) l.

(** Decimal digits ([\d] and the digits of [int()]; Latin-1 has only 0-9). *)
Definition is_digit (c : ascii) : bool := ((48 <=? cp c) && (cp c <=? 57))%N.
Definition digit_val (c : ascii) : N := (cp c - 48)%N.

(** The digits part of [int(s)] after the sign: digits, single underscores
    allowed between digits. [prev] tells whether the previous character was a
    digit. *)
Fixpoint digits_val (prev : bool) (acc : N) (s : string) : option N :=
  match s with
  | "" => if prev then Some acc else None
  | String c r =>
      if is_digit c then digits_val true (10 * acc + digit_val c)%N r
      else if Ascii.eqb c "_"%char then
             if prev then digits_val false acc r else None
           else None
  end.

(** [int(s)]: surrounding white space, optional sign, digits.  [None] models
    ValueError. *)
Definition py_int (s : string) : option Z :=
  match strip s with
  | "" => None
  | String c r =>
      if Ascii.eqb c "-"%char then option_map (fun n => (- Z.of_N n)%Z) (digits_val false 0 r)
      else if Ascii.eqb c "+"%char then option_map Z.of_N (digits_val false 0 r)
      else option_map Z.of_N (digits_val false 0 (String c r))
  end.

(** ["%d" % z] and [str(z)]. *)
Definition str_of_N (n : N) : string := NilZero.string_of_uint (N.to_uint n).
Definition str_of_Z (z : Z) : string :=
  match z with
  | Z0 => "0"
  | Zpos p => str_of_N (Npos p)
  | Zneg p => String "-"%char (str_of_N (Npos p))
  end.

(** Insertion into / sorting of a list of strings ([sorted], [list.sort] on
    strings; stability is irrelevant because equal strings are equal). *)
Fixpoint insert_str (x : string) (l : list string) : list string :=
  match l with
  | [] => [x]
  | y :: r => if str_leb x y then x :: l else y :: insert_str x r
  end.
Fixpoint sort_str (l : list string) : list string :=
  match l with [] => [] | x :: r => insert_str x (sort_str r) end.
