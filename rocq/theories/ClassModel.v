(** * Inheritance: which class a method comes from

    Python's method resolution order, computed on the class table, and the handlers
    of the versions with their deprecated and removed commands. *)

From Verif Require Export Handler ClassTable HandlerMaps.
From Verif Require Import Value.
Local Open Scope string_scope.
Local Open Scope list_scope.

(** The C3 linearization of the language (type.mro): the merge takes the first head
    that is in no tail.  [fuel] bounds the length of the result. *)
Definition tails_of (l : list (list string)) : list (list string) :=
  map (fun s => match s with [] => [] | _ :: t => t end) l.
Fixpoint good_head (all : list (list string)) (l : list (list string)) : option string :=
  match l with
  | [] => None
  | [] :: r => good_head all r
  | (h :: _) :: r => if existsb (mem h) (tails_of all) then good_head all r else Some h
  end.
Definition drop_head (h : string) (s : list string) : list string :=
  match s with x :: t => if String.eqb h x then t else s | [] => [] end.
Fixpoint merge (fuel : nat) (l : list (list string)) : option (list string) :=
  match fuel with
  | O => None
  | S fuel =>
      if forallb (fun s => match s with [] => true | _ => false end) l then Some []
      else match good_head l l with
           | None => None
           | Some h => option_map (cons h) (merge fuel (map (drop_head h) l))
           end
  end.
Definition find_classdef (c : string) : option classdef := find (fun k => String.eqb (k_name k) c) classes.

(** A class that is not in the table (KickstartObject, ko.py) has no bases. *)
Fixpoint mro (fuel : nat) (c : string) : option (list string) :=
  match fuel with
  | O => None
  | S fuel =>
      match find_classdef c with
      | None => Some [c]
      | Some k =>
          let up := map (mro fuel) (k_bases k) in
          if existsb (fun r => match r with None => true | Some _ => false end) up then None
          else option_map (cons c)
                 (merge 60 (map (fun r => match r with Some l => l | None => [] end) up ++ [k_bases k]))
      end
  end.

(** The class whose body of [m] runs for an instance of [c]. *)
Fixpoint lookup (m : string) (l : list string) : option (string * body) :=
  match l with
  | [] => None
  | c :: r =>
      match find_classdef c with
      | Some k => match assoc m (k_methods k) with Some b => Some (c, b) | None => lookup m r end
      | None => lookup m r
      end
  end.
Fixpoint resolve (fuel : nat) (c m : string) : option string :=
  match fuel with
  | O => None
  | S fuel =>
      match mro 40 c with
      | None => None
      | Some l => match lookup m l with
                  | Some (k, Own) => Some k
                  | Some (_, Calls b) => resolve fuel b m
                  | None => None
                  end
      end
  end.
Definition comes_from (c m : string) : string := match resolve 10 c m with Some k => k | None => "" end.

(** base.py:218-221 (DeprecatedCommand.parse; the warning is not modelled), 214-216
    (__str__), 205-207 (dataList). *)
Definition deprecated_parse (v : view) (a : attrs) (d : list data) (args : list string)
  : attrs * list data * res (option data) := (a, d, Ok None).
(** base.py:250-252 (RemovedCommand.parse). *)
Definition removed_parse (v : view) (a : attrs) (d : list data) (args : list string)
  : attrs * list data * res (option data) :=
  (a, d, Err (KSParseError (match get "lineno" a with VInt z => Some (Z.to_N z) | _ => None end) "removed")).
(** base.py:131-135 (KickstartCommand.parse). *)
Definition abstract_parse (v : view) (a : attrs) (d : list data) (args : list string)
  : attrs * list data * res (option data) := (a, d, Err TypeError).

(** The class [c] of the table.  What the base classes in base.py define is modelled
    here, everything else is taken from [other c]. *)
Definition from_base {A} (c m : string) (dep rem abs x : A) : A :=
  let k := comes_from c m in
  if String.eqb k "DeprecatedCommand" then dep
  else if String.eqb k "RemovedCommand" then rem
  else if String.eqb k "KickstartCommand" then abs
  else x.
Definition class_model (other : string -> cclass) (c : string) : cclass :=
  let o := other c in
  mkClass c
    (from_base c "__init__" (base_attrs VNone) (base_attrs VNone) (base_attrs (VInt 0)) (cl_init o))
    (from_base c "dataList" false false false (cl_list o))
    (cl_removed o)
    (from_base c "parse" deprecated_parse removed_parse abstract_parse (cl_parse o))
    (from_base c "__str__" (fun _ _ => "") (fun _ _ => "") (fun _ _ => "") (cl_str o)).

(** The command map of a handler (base.py:525-527, handlers/control.py). *)
Definition version_map (other : string -> cclass) (cm : list (string * string)) : list (string * cclass) :=
  map (fun nc => (fst nc, class_model other (snd nc))) cm.
