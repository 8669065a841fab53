(** * Specification vocabulary for package selections (C21 - C26) *)

From Coq Require Import Sorted.
From Verif Require Import Packages.
From Verif Require Import Value.
Local Open Scope string_scope.
Local Open Scope list_scope.

(** Strictly increasing, hence without duplicates. *)
Definition strictly_sorted (l : list string) : Prop :=
  StronglySorted (fun a b => str_ltb a b = true) l.

(** ** What a line of the section says *)

(** A plain word selects a package, one with a minus sign deselects it; lines about
    groups and environments mention no package. *)
Definition mention (line : string) : option (bool * string) :=
  match strip line with
  | "" => None
  | String c r =>
      if Ascii.eqb c "@" then None
      else if Ascii.eqb c "-" then
        match r with
        | "" => None
        | String d _ => if Ascii.eqb d "@" then None else Some (false, r)
        end
      else Some (true, String c r)
  end.

(** The last mention of a package in a sequence of lines. *)
Fixpoint last_mention (x : string) (lines : list string) : option bool :=
  match lines with
  | [] => None
  | l :: r =>
      match last_mention x r with
      | Some b => Some b
      | None => match mention l with
                | Some (b, y) => if String.eqb x y then Some b else None
                | None => None
                end
      end
  end.

(** Group lines.  The words after the at sign are the group's name and possibly
    options; options are spelled out. *)
Definition group_option (w : string) : bool := mem w ["--nodefaults"; "--optional"].
Definition group_words (rest : string) : bool :=
  forallb (fun w => group_option w || negb (startswith w "-")) (split_ws rest).

Inductive gevent := Included (name : string) (i : ginclude) | Excluded (name : string).

Definition group_event (line : string) : option gevent :=
  let s := strip line in
  if startswith s "@^" then None
  else if startswith s "@" then
    let ws := split_ws (drop 1 s) in
    let name := join " " (filter (fun w => negb (group_option w)) ws) in
    match mem "--nodefaults" ws, mem "--optional" ws with
    | true, true => None
    | true, false => Some (Included name GRequired)
    | false, true => Some (Included name GAll)
    | false, false => Some (Included name GDefault)
    end
  else if startswith s "-@" then Some (Excluded (drop 2 s))
  else None.

(** A line about groups whose options are spelled out, or not about groups. *)
Definition proper_group_line (line : string) : bool :=
  let s := strip line in
  if startswith s "@" && negb (startswith s "@^") then group_words (drop 1 s) else true.

(** How a group stands after a sequence of events: the options of its first
    inclusion after its last exclusion. *)
Definition group_step (g : string) (cur : option ginclude) (line : string) : option ginclude :=
  match group_event line with
  | Some (Included n i) =>
      if String.eqb g n then match cur with None => Some i | Some j => Some j end else cur
  | Some (Excluded n) => if String.eqb g n then None else cur
  | None => cur
  end.
Definition group_standing (g : string) (lines : list string) : option ginclude :=
  fold_left (group_step g) lines None.

(** Names of excluded groups, in order. *)
Definition exclusions (lines : list string) : list string :=
  flat_map (fun l => match group_event l with Some (Excluded n) => [n] | _ => [] end) lines.

(** A caret in front marks an environment. *)
Definition no_caret (g : string) : bool := negb (startswith g "^").

(** Environment lines. *)
Definition selects (line e : string) : Prop := strip line = ("@^" ++ e)%string.
Definition deselects (line e : string) : Prop := strip line = ("-@^" ++ e)%string.

(** The lines of a section, handed over one by one. *)
Definition add_each (lines : list string) (p : packages) : packages :=
  fold_left (fun p l => fst (packages_add [l] p)) lines p.
