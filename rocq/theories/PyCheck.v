(** * What holds after a method of MiniPy

    An analysis of statements: it follows which expressions are known to be true or
    false.  [check F s] are the facts known after [s] when [F] is known before, for the
    three ways [s] can end without an exception.  The analysis is part of the proofs,
    not of the model; PyCheckFacts.v shows that what it finds holds. *)

From Verif Require Export MiniPy.
From Verif Require Import Value.
Local Open Scope string_scope.
Local Open Scope list_scope.

Definition value_eq_dec (v w : value) : {v = w} + {v <> w}.
Proof. repeat (decide equality). Defined.
Definition expr_eq_dec (x y : expr) : {x = y} + {x <> y}.
Proof. decide equality; try apply string_dec; try apply value_eq_dec; decide equality. Defined.

(** ** What a statement writes *)

Record writes := mkWrites { w_vars : list string; w_attrs : list string; w_all : bool }.
Definition w_none : writes := mkWrites [] [] false.
Definition w_join (v w : writes) : writes :=
  mkWrites (w_vars v ++ w_vars w) (w_attrs v ++ w_attrs w) (w_all v || w_all w).
Definition w_var (l : list string) : writes := mkWrites l [] false.
Fixpoint writes_of (s : stmt) : writes :=
  match s with
  | SSeq s t | SIf _ s t => w_join (writes_of s) (writes_of t)
  | SAssign x _ | SAppend x _ | SParse x => w_var [x]
  | SParseKnown x y => w_var [x; y]
  | SPartition x y z _ _ => w_var [x; y; z]
  | SAttr _ a _ | SDel _ a => mkWrites [] [a] false
  | SSetTo _ _ | SDelRemoved _ => mkWrites [] [] true
  | SFor x _ s => w_join (w_var [x]) (writes_of s)
  | SForPairs x y _ s => w_join (w_var [x; y]) (writes_of s)
  | SForData x s => w_join (w_var [x]) (writes_of s)
  | SBlock x _ s => mkWrites [x] (w_attrs (writes_of s)) (w_all (writes_of s))
  | _ => w_none
  end.

(** The value of the expression does not depend on what is written. *)
Fixpoint stable (w : writes) (x : expr) : bool :=
  match x with
  | EConst _ | EArgs | ESeen _ | EHandlerHas _ | ENew _ | EDataNames _ | ENoKw => true
  | EVar y => String.eqb y "self" || negb (mem y (w_vars w))
  | EAttr y a | EHas y a => stable w y && negb (w_all w) && negb (mem a (w_attrs w))
  | EGet y a d => stable w y && negb (w_all w) && negb (mem a (w_attrs w)) && stable w d
  | EUn _ y => stable w y
  | EBin _ y z | EAnd y z | EOr y z => stable w y && stable w z
  | EDataStr _ | EUsed _ _ => false
  end.

(** ** Facts *)

(** The expression has a value, and its truth is [b]. *)
Definition claim := (expr * bool)%type.
Definition facts := list claim.
Definition same_fact (f g : claim) : bool :=
  (if expr_eq_dec (fst f) (fst g) then true else false) && Bool.eqb (snd f) (snd g).
Definition known (F : facts) (f : claim) : bool := existsb (same_fact f) F.
(** The union, without repetitions. *)
Definition add (F G : facts) : facts :=
  fold_left (fun F f => if known F f then F else f :: F) G F.
Definition both (F G : facts) : facts := filter (known G) F.
Definition keep (w : writes) (F : facts) : facts := filter (fun f => stable w (fst f)) F.

(** [y] replaced by the variable [z]. *)
Fixpoint rename (y z : string) (x : expr) : expr :=
  match x with
  | EVar v => if String.eqb v y then EVar z else x
  | EAttr d a => EAttr (rename y z d) a
  | EGet d a e => EGet (rename y z d) a (rename y z e)
  | EHas d a => EHas (rename y z d) a
  | EUn o d => EUn o (rename y z d)
  | EBin o d e => EBin o (rename y z d) (rename y z e)
  | EAnd d e => EAnd (rename y z d) (rename y z e)
  | EOr d e => EOr (rename y z d) (rename y z e)
  | EDataStr d => EDataStr (rename y z d)
  | EUsed d e => EUsed (rename y z d) (rename y z e)
  | _ => x
  end.
(** The variables are among [l]. *)
Fixpoint vars_in (l : list string) (x : expr) : bool :=
  match x with
  | EVar v => mem v l
  | EAttr d _ | EHas d _ | EUn _ d | EDataStr d => vars_in l d
  | EGet d _ e | EBin _ d e | EAnd d e | EOr d e | EUsed d e => vars_in l d && vars_in l e
  | _ => true
  end.
Definition renamed (y z : string) (F : facts) : facts := map (fun f => (rename y z (fst f), snd f)) F.
Definition over (l : list string) (F : facts) : facts := filter (fun f => vars_in l (fst f)) F.

(** The truth of an expression, if it is known. *)
Fixpoint truth (F : facts) (x : expr) : option bool :=
  if known F (x, true) then Some true
  else if known F (x, false) then Some false
  else match x with
       | EConst v => Some (truthy v)
       | EUn UNot y => option_map negb (truth F y)
       | EUn UBool y => truth F y
       | EAnd y z => match truth F y with
                     | Some false => Some false
                     | Some true => truth F z
                     | None => match truth F z with Some false => Some false | _ => None end
                     end
       | EOr y z => match truth F y with
                    | Some true => Some true
                    | Some false => truth F z
                    | None => match truth F z with Some true => Some true | _ => None end
                    end
       | _ => None
       end.
Definition learn (F : facts) (x y : expr) : facts :=
  match truth F x with Some b => [(y, b)] | None => [] end.

(** Facts about the variable [x], which is not self. *)
Definition named (x : string) (F : facts) : facts := if String.eqb x "self" then [] else F.

(** ** Statements *)

(** [None]: the statement does not end this way.  The facts about a returned value are
    about the variable "_ret". *)
Record ends := mkEnds { en_next : option facts; en_break : option facts; en_return : option facts }.
Definition no_end : ends := mkEnds None None None.
Definition next (F : facts) : ends := mkEnds (Some F) None None.
Definition join_facts (F G : option facts) : option facts :=
  match F, G with
  | Some F, Some G => Some (both F G)
  | Some F, None => Some F
  | None, G => G
  end.
Definition falsified (f : claim) : expr := if snd f then EUn UNot (fst f) else fst f.

(** After [if c: s else: t]: the facts common to both branches, and what is new in one
    branch under its condition. *)
Definition new_in (F G : facts) : facts := filter (fun f => negb (known F f)) G.
Definition after_if (w : writes) (c : expr) (F G H : facts) : facts :=
  add (both G H)
     (if stable w c
      then map (fun f => (EAnd c (falsified f), false)) (new_in F G)
           ++ map (fun f => (EAnd (EUn UNot c) (falsified f), false)) (new_in F H)
      else []).
Definition join_if (w : writes) (c : expr) (F : facts) (G H : option facts) : option facts :=
  match G, H with
  | Some G, Some H => Some (after_if w c F G H)
  | Some G, None => Some G
  | None, H => H
  end.

Definition return_facts (F : facts) (x : expr) : facts :=
  add (learn F x (EVar "_ret"))
    match x with
    | EVar y => add (over ["self"] F) (renamed y "_ret" (over [y] F))
    | _ => over ["self"] F
    end.

Fixpoint check (F : facts) (s : stmt) : ends :=
  let F' := keep (writes_of s) F in
  match s with
  | SPass => next F
  | SSeq s t =>
      let a := check F s in
      match en_next a with
      | None => a
      | Some G => let b := check G t in
                  mkEnds (en_next b) (join_facts (en_break a) (en_break b))
                    (join_facts (en_return a) (en_return b))
      end
  | SAssign x y =>
      next (add F' (named x (learn F y (EVar x) ++ match y with EVar z => renamed z x F' | _ => [] end)))
  | SAttr x a y => next (add F' (learn F y (EAttr (EVar x) a)))
  | SDel _ _ | SAppend _ _ | SPartition _ _ _ _ _ | SParse _ | SParseKnown _ _ | SSetTo _ _ | SDelRemoved _ => next F'
  | SIf c s t =>
      let w := w_join (writes_of s) (writes_of t) in
      match truth F c with
      | Some true => check ((c, true) :: F) s
      | Some false => check ((c, false) :: F) t
      | None =>
          let a := check ((c, true) :: F) s in
          let b := check ((c, false) :: F) t in
          mkEnds (join_if w c F (en_next a) (en_next b))
            (join_facts (en_break a) (en_break b))
            (join_facts (en_return a) (en_return b))
      end
  | SFor _ _ s | SForPairs _ _ _ s | SForData _ s => mkEnds (Some F') None (en_return (check F' s))
  | SRaise _ _ | STypeError | SCall _ _ _ _ => no_end
  | SAssert y => next ((y, true) :: F)
  | SReturn y => mkEnds None None (Some (return_facts F y))
  | SBreak => mkEnds None (Some F) None
  | SBlock x ps s =>
      let a := check (over ["self"] F) s in
      let out := join_facts (option_map (over ["self"]) (en_next a)) (option_map (over ["self"]) (en_break a)) in
      match join_facts out (option_map (fun G => add (over ["self"] G) (named x (renamed "_ret" x (over ["self"; "_ret"] G)))) (en_return a)) with
      | None => no_end
      | Some G => next (add F' G)
      end
  end.
