(** * Specification vocabulary for C10 and C40 *)

From Verif Require Import Value.
Local Open Scope string_scope.
Local Open Scope list_scope.

(** A line asks for another file when its first characters, blanks aside, are
    %ksappend; the file's name is what follows the first blank, up to the next
    one. *)
Definition is_ksappend (l : string) : bool := startswith (strip l) "%ksappend".
Definition ksappend_file (l : string) : option string := nth_error (split_char SP (strip l)) 1.

(** What a line stands for, if it can be had. *)
Definition stands_for (load : string -> option string) (l : string) : option string :=
  if is_ksappend l then
    match ksappend_file l with None => None | Some f => load f end
  else Some l.

(** An observer of the put-back iterator: asks for the next line, or puts one back. *)
Inductive op := Next | Put (s : string).

(** A sequence to which lines can be put back, as a list. *)
Fixpoint list_run (ops : list op) (lines : list string) : list (option string) * list string :=
  match ops with
  | [] => ([], lines)
  | Put s :: ops' => list_run ops' (s :: lines)
  | Next :: ops' =>
      match lines with
      | [] => let '(out, l) := list_run ops' [] in (None :: out, l)
      | x :: r => let '(out, l) := list_run ops' r in (Some x :: out, l)
      end
  end.

(** Only non-empty lines are put back, and never two without taking one in
    between: [held] tells whether a line has been put back and not taken. *)
Fixpoint disciplined (held : bool) (ops : list op) : bool :=
  match ops with
  | [] => true
  | Next :: r => disciplined false r
  | Put s :: r => negb held && negb (String.eqb s "") && disciplined true r
  end.
