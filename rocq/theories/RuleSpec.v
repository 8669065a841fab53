(** * Rules about the values of a command

    The constraints the documentation puts on the options of a command, as conditions on
    the values its attributes have.  Nothing here refers to how a command checks them. *)

From Verif Require Export Value.
From Verif Require Import Version.
Local Open Scope string_scope.
Local Open Scope list_scope.

(** A number; True and False count as 1 and 0, as they do in Python. *)
Definition number (v : value) : option Z :=
  match v with VInt z => Some z | VBool true => Some 1%Z | VBool false => Some 0%Z | _ => None end.

(** What can be said of an attribute: it is set (not None, not False, not 0 and not
    empty); it is None; it is this string; it is this number; it begins with this string,
    or with one of these; it is one of these strings. *)
Inductive cond :=
| Set_ (k : string)
| Absent (k : string)
| Text (k s : string)
| Number (k : string) (z : Z)
| Starts (k s : string)
| StartsAny (k : string) (l : list string)
| Among (k : string) (l : list string).
Definition is_so (g : string -> value) (c : cond) : Prop :=
  match c with
  | Set_ k => truthy (g k) = true
  | Absent k => g k = VNone
  | Text k s => g k = VStr s
  | Number k z => number (g k) = Some z
  | Starts k s => exists t, g k = VStr (s ++ t)
  | StartsAny k l => exists s t, g k = VStr (s ++ t) /\ In s l
  | Among k l => exists s, g k = VStr s /\ In s l
  end.

(** A rule: these conditions (true or false as marked) do not come together; the attribute
    is None or a number from [lo] to [hi]. *)
Inductive rule :=
| Never (l : list (cond * bool))
| Range (k : string) (lo : Z) (hi : option Z).
Definition obeys (g : string -> value) (r : rule) : Prop :=
  match r with
  | Never l => ~ forall c b, In (c, b) l -> if b : bool then is_so g c else ~ is_so g c
  | Range k lo hi => g k = VNone \/
      exists z, number (g k) = Some z /\ (lo <= z)%Z /\ match hi with Some h => (z <= h)%Z | None => True end
  end.

Definition not_both (k j : string) : rule := Never [(Set_ k, true); (Set_ j, true)].
Definition needs (k j : string) : rule := Never [(Set_ k, true); (Set_ j, false)].
(** One of the attributes is set. *)
Definition one_of (l : list string) : rule := Never (map (fun k => (Set_ k, false)) l).
Definition never (k s : string) : rule := Never [(Text k s, true)].
(** When [k] is set it is one of [l]. *)
Definition within (k : string) (l : list string) : rule := Never [(Set_ k, true); (Among k l, false)].

(** The attributes a rule is about. *)
Definition about (c : cond) : string :=
  match c with Set_ k | Absent k | Text k _ | Number k _ | Starts k _ | StartsAny k _ | Among k _ => k end.
Definition concerns (r : rule) : list string :=
  match r with Never l => map (fun cb => about (fst cb)) l | Range k _ _ => [k] end.
