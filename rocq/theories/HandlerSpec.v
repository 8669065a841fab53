(** * What the theorems about handlers say

    Commands of a handler are identified by the names used in kickstart files. *)

From Coq Require Export Sorting.Sorted.
From Verif Require Export Handler.
From Verif Require Import Value.
Local Open Scope string_scope.
Local Open Scope list_scope.

(** [handler.commands[n]]: its identity, and the object. *)
Definition identity (h : handler) (n : string) : option nat :=
  match assoc n (h_commands h) with Some r => r | None => None end.
Definition served (h : handler) (n : string) : option cmdobj :=
  match identity h n with Some i => obj_at h i | None => None end.

(** A command map as a dictionary, its classes, and the names that share a class. *)
Definition is_dict {A} (m : list (string * A)) : Prop := NoDup (map fst m).
Definition one_class_per_name (m : list (string * cclass)) : Prop :=
  forall n k n' k', In (n, k) m -> In (n', k') m -> cl_name k = cl_name k' -> k = k'.
Definition own_attribute (m : list (string * cclass)) : Prop :=
  forall n k n' k', In (n, k) m -> In (n', k') m -> attr_name (cl_name k) = attr_name (cl_name k') -> cl_name k = cl_name k'.
Definition unaliased (m : list (string * cclass)) (n : string) : Prop :=
  forall k n' k', In (n, k) m -> In (n', k') m -> cl_name k = cl_name k' -> n' = n.

(** The priority of a class is that of its new instances. *)
Definition cl_prio (k : cclass) : option Z := o_prio (new_obj k).

(** Order of output: priority, then class name. *)
Definition written_before (a b : cmdobj) : Prop :=
  exists p q, cl_prio (o_class a) = Some p /\ cl_prio (o_class b) = Some q /\
    ((p < q)%Z \/ (p = q /\ str_ltb (o_name a) (o_name b) = true)).

(** What can happen to a handler after it is made: a command line is handled, its
    exception ignored; a command is reset; keyword arguments are assigned through the
    attribute of a command. *)
Inductive hop :=
| HLine (line : string) (args : list string) (ln : N)
| HReset (n : string)
| HCall (attr : string) (kwargs : attrs).

(** [handler.ATTR(kwargs)] *)
Definition call_attr (attr : string) (kwargs : attrs) (h : handler) : handler :=
  match assoc attr (h_attrs h) with
  | Some (Some i) => match obj_at h i with Some o => set_obj i (call_command kwargs o) h | None => h end
  | _ => h
  end.
Definition do_op (h : handler) (o : hop) : handler :=
  match o with
  | HLine l a n => fst (handle_command h l a n)
  | HReset n => fst (reset_command n h)
  | HCall a kw => call_attr a kw h
  end.
(** Only commands without aliases are reset. *)
Definition op_ok (m : list (string * cclass)) (o : hop) : Prop :=
  match o with HReset n => In n (map fst m) /\ unaliased m n | _ => True end.

(** The handlers in use: made from a map, then changed by any such operations. *)
Definition in_use (m : list (string * cclass)) (h : handler) : Prop :=
  exists dm ops, Forall (op_ok m) ops /\ h = fold_left do_op ops (build_handler m dm).
