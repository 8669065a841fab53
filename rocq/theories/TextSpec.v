(** * Specification vocabulary for the text-level properties

    Plain definitions used in the statements of the theorems about option value
    types and versions.  Nothing here refers to the model. *)

From Verif Require Export PyStr.
Local Open Scope string_scope.

(** Paths as lists of components: what a sequence of components means when one
    walks from the root, given the directories entered so far (innermost
    first). *)
Fixpoint walk (comps : list string) (here : list string) : list string :=
  match comps with
  | [] => here
  | c :: r =>
      if String.eqb c "" then walk r here
      else if String.eqb c "." then walk r here
      else if String.eqb c ".." then walk r (tl here)
      else walk r (c :: here)
  end.

Definition components (p : string) : list string := split_char "/" p.

Definition plain_component (c : string) : Prop :=
  c <> "" /\ c <> "." /\ c <> ".." /\ has_char "/" c = false.

(** [c] is the letter [w] in lower or upper case, or exactly [w]. *)
Definition same_letter (c w : ascii) : Prop :=
  c = w \/ (97 <= cp w <= 122 /\ cp c + 32 = cp w)%N.

Fixpoint case_variant (s w : string) : Prop :=
  match s, w with
  | "", "" => True
  | String c s', String d w' => same_letter c d /\ case_variant s' w'
  | _, _ => False
  end.

(** An item of a comma separated list. *)
Definition item (s : string) : Prop :=
  s <> "" /\ strip s = s /\ has_char "," s = false.
