(** * Exceptions, dynamic values and attribute dictionaries *)

From Verif Require Export PyStr.
Local Open Scope string_scope.

(** Python exceptions that the modelled code can raise.  Texts are not
    modelled: [tag] names the check that failed.  [KSParseError], [KSError] and
    [KSVersionError] are KickstartParseError, KickstartError and
    KickstartVersionError (pykickstart/errors.py:58-105); the line number is the
    [lineno] attribute, [None] when it was not passed.  [OutOfFuel] is not a
    Python exception: it marks recursion that did not end within the fuel. *)
Inductive exn :=
| KSParseError (line : option N) (tag : string)
| KSError (line : option N) (tag : string)
| KSVersionError (tag : string)
| ValueError
| IndexError
| KeyError
| AttributeError
| TypeError
| AssertionError
| OutOfFuel.

(** [except KickstartError] catches these. *)
Definition is_ks_error (e : exn) : bool :=
  match e with
  | KSParseError _ _ | KSError _ _ | KSVersionError _ => true
  | _ => false
  end.

Inductive res (A : Type) :=
| Ok (a : A)
| Err (e : exn).
Arguments Ok {A} a.
Arguments Err {A} e.

Definition bind {A B} (x : res A) (f : A -> res B) : res B :=
  match x with Ok a => f a | Err e => Err e end.
Notation "'do' x <- e1 ;; e2" := (bind e1 (fun x => e2))
  (at level 60, x pattern, e1 at level 59, right associativity).
Definition guard {A} (b : bool) (e : exn) (k : res A) : res A :=
  if b then Err e else k.

Fixpoint map_res {A B} (f : A -> res B) (l : list A) : res (list B) :=
  match l with
  | [] => Ok []
  | x :: r => do y <- f x ;; do ys <- map_res f r ;; Ok (y :: ys)
  end.

(** Dynamic values that occur as attributes of command and data objects and in
    argparse namespaces.  [VStrs] is a list of strings, [VPairs] a list of
    pairs of strings (network team slaves, tables of names), [VCodes] a dictionary
    from names to integer constants. *)
Inductive value :=
| VNone
| VBool (b : bool)
| VInt (z : Z)
| VStr (s : string)
| VStrs (l : list string)
| VPairs (l : list (string * string))
| VCodes (l : list (string * Z)).

(** Truth value of a Python object ([bool(v)]). *)
Definition truthy (v : value) : bool :=
  match v with
  | VNone => false
  | VBool b => b
  | VInt z => negb (Z.eqb z 0)
  | VStr s => negb (String.eqb s "")
  | VStrs l => match l with [] => false | _ => true end
  | VPairs l => match l with [] => false | _ => true end
  | VCodes l => match l with [] => false | _ => true end
  end.

Fixpoint list_eqb {A} (eqb : A -> A -> bool) (l m : list A) : bool :=
  match l, m with
  | [], [] => true
  | x :: l', y :: m' => eqb x y && list_eqb eqb l' m'
  | _, _ => false
  end.

(** [==] between values.  (Python also has [True == 1]; no modelled code
    compares a bool with an int.) *)
Definition value_eqb (v w : value) : bool :=
  match v, w with
  | VNone, VNone => true
  | VBool a, VBool b => Bool.eqb a b
  | VInt a, VInt b => Z.eqb a b
  | VStr a, VStr b => String.eqb a b
  | VStrs a, VStrs b => list_eqb String.eqb a b
  | VPairs a, VPairs b =>
      list_eqb (fun p q => String.eqb (fst p) (fst q) && String.eqb (snd p) (snd q)) a b
  | VCodes a, VCodes b =>
      list_eqb (fun p q => String.eqb (fst p) (fst q) && Z.eqb (snd p) (snd q)) a b
  | _, _ => false
  end.

Definition is_none (v : value) : bool := match v with VNone => true | _ => false end.

(** Attribute dictionaries ([vars(obj)], argparse.Namespace): insertion ordered,
    one entry per key. *)
Definition attrs := list (string * value).

Fixpoint assoc {A} (k : string) (l : list (string * A)) : option A :=
  match l with
  | [] => None
  | (k', v) :: r => if String.eqb k k' then Some v else assoc k r
  end.

(** [hasattr(o, k)]. *)
Definition has_key {A} (k : string) (l : list (string * A)) : bool :=
  match assoc k l with Some _ => true | None => false end.

(** [setattr(o, k, v)] / [d[k] = v]: overwrite in place or append. *)
Fixpoint put {A} (k : string) (v : A) (l : list (string * A)) : list (string * A) :=
  match l with
  | [] => [(k, v)]
  | (k', w) :: r => if String.eqb k k' then (k', v) :: r else (k', w) :: put k v r
  end.

(** [del d[k]]. *)
Fixpoint del {A} (k : string) (l : list (string * A)) : list (string * A) :=
  match l with
  | [] => []
  | (k', w) :: r => if String.eqb k k' then del k r else (k', w) :: del k r
  end.

(** [getattr(o, k, None)]. *)
Definition get (k : string) (l : attrs) : value :=
  match assoc k l with Some v => v | None => VNone end.
