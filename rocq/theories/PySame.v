(** * Whether two lines that give the same values are handled alike

    A parse method is run twice: on a line, and on another line whose options give the
    same values, except that an option with an initial value may be given with that value
    in one line and left out in the other.  PySameFacts.v shows that a method that passes
    this check then does the same. *)

From Verif Require Import PyCheck.
From Verif Require Import Value.
Local Open Scope string_scope.
Local Open Scope list_scope.

(** Two values are the same, or both are true, or both false. *)
Inductive lev := LSame | LTruth.
(** Attributes that are not compared: they hold the text of the line. *)
Definition line_notes : list string := ["currentCmd"; "currentLine"].

Section Same.
(** The variables that hold namespaces, or the words parse_known_args left over. *)
Variable N : list string.
(** The attributes the namespaces may differ in, and whether their initial value is
    false. *)
Variable A : list (string * bool).
(** Whether the values are stored on the command itself, or else the name of the data
    class the method makes. *)
Variable onself : bool.
Variable kind : string.
(** Whether the second line has no words after the command name. *)
Variable noargs : bool.

Definition read (ns : bool) (k : string) : option lev :=
  if ns then match assoc k A with Some true => Some LTruth | Some false => None | None => Some LSame end
  else if mem k line_notes then None else Some LSame.
Definition holder (x : expr) : option bool :=
  match x with EVar y => if String.eqb y "self" then Some false else Some (mem y N) | _ => None end.
Fixpoint rel_x (x : expr) : option lev :=
  match x with
  | EConst _ => Some LSame
  | EVar y => if (if String.eqb y "self" then negb onself else mem y N) then None else Some LSame
  | EAttr y k => match holder y with Some b => read b k | None => None end
  | EHas y k => match holder y with Some b => if mem k line_notes then None else Some LSame | None => None end
  | EGet y k d => match holder y, rel_x d with Some b, Some LSame => read b k | _, _ => None end
  | EUn o y => match rel_x y with
               | Some LSame => Some LSame
               | Some LTruth => match o with UNot | UBool => Some LSame | _ => None end
               | None => None
               end
  | EBin _ y z => match rel_x y, rel_x z with Some LSame, Some LSame => Some LSame | _, _ => None end
  | EAnd y z | EOr y z => match rel_x y, rel_x z with
                          | Some LSame, Some l => Some l
                          | Some LTruth, Some _ => Some LTruth
                          | _, _ => None
                          end
  | ESeen _ | EHandlerHas _ | EDataNames _ => Some LSame
  | ENew k => if negb onself && String.eqb k kind then Some LSame else None
  | EUsed y z => match rel_x y, holder z with Some LSame, Some true => if forallb snd A then Some LSame else None | _, _ => None end
  | EArgs | EDataStr _ | ENoKw => None
  end.
Definition same_x (x : expr) : bool := match rel_x x with Some LSame => true | _ => false end.
Definition any_x (x : expr) : bool := match rel_x x with Some _ => true | _ => false end.
Definition fixed (k : string) : bool := negb (has_key k A).
Definition plain_var (x : string) : bool := negb (mem x N).
(** [if args:] and [if len(args) > 0:]. *)
Definition given_words (x : expr) : bool :=
  match x with
  | EArgs => true
  | EBin BGt (EUn ULen EArgs) (EConst (VInt 0)) => true
  | _ => false
  end.
(** [if extra:]. *)
Definition left_over (x : expr) : bool :=
  match x with EVar y => negb (String.eqb y "self") && mem y N | _ => false end.
(** The statement ends with an exception. *)
Fixpoint raises (s : stmt) : bool :=
  match s with
  | SRaise _ _ => true
  | SSeq s t => raises s || match s with SAssign _ _ | SPass => raises t | _ => false end
  | _ => false
  end.
Fixpoint rel_s (s : stmt) : bool :=
  match s with
  | SPass | SRaise _ _ | STypeError | SBreak | SCall _ _ _ _ => true
  | SSeq s t => rel_s s && rel_s t
  | SAssign x y => same_x y && plain_var x
  | SAttr x k y => same_x y && fixed k
  | SDel _ k => fixed k
  | SAppend x y => same_x y && plain_var x
  | SPartition x y z _ w => same_x w && (plain_var x && plain_var y && plain_var z)
  | SParse n => mem n N
  | SSetTo n x => mem n N && (if String.eqb x "self" then onself else true)
  | SIf c s t => (any_x c && (rel_s s && rel_s t)) || ((noargs && given_words c || left_over c) && raises s && rel_s t)
  | SFor x y s => same_x y && (plain_var x && rel_s s)
  | SForPairs x y w s => same_x w && (plain_var x && plain_var y && rel_s s)
  | SForData _ _ => false
  | SAssert y => any_x y
  | SReturn y => same_x y
  | SDelRemoved l => forallb fixed l
  | SBlock x ps s => forallb (fun p => same_x (snd p) && plain_var (fst p)) ps && (plain_var x && rel_s s)
  | SParseKnown n x => mem n N && mem x N
  end.
End Same.
Fixpoint parse_vars (s : stmt) : list string :=
  match s with
  | SSeq s t | SIf _ s t => parse_vars s ++ parse_vars t
  | SParse n => [n]
  | SParseKnown n x => [n; x]
  | SFor _ _ s | SForPairs _ _ _ s | SForData _ s | SBlock _ _ s => parse_vars s
  | _ => []
  end.
