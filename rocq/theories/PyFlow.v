(** * Where the attributes come from

    An analysis of the parse methods: which attributes of the command, or of the data
    object it makes, are those of the parsed namespace.  Like PyCheck.v it is part of
    the proofs, not of the model; PyFlowFacts.v shows that what it finds holds. *)

From Verif Require Export PyCheck.
From Verif Require Import Value.
Local Open Scope string_scope.
Local Open Scope list_scope.

(** What is known of a variable: it holds a plain value; self; the namespace, with other
    attributes [W] perhaps changed; a new data object of the class the handler has for
    [k], perhaps changed in [W]; one on which the namespace was set. *)
Inductive hold :=
| HVal
| HSelf
| HNs (W : list string)
| HNew (k : string) (W : list string)
| HSet (k : string) (W : list string).
(** What is known of self: as before, perhaps changed in [W]; with the namespace set;
    nothing. *)
Inductive own := OKeep (W : list string) | OSet (W : list string) | OAny.
Record ast := mkAst { av : list (string * option hold); ao : own }.

Definition uni (V W : list string) : list string := V ++ filter (fun x => negb (mem x V)) W.
Definition look (x : string) (l : list (string * option hold)) : option hold :=
  match assoc x l with Some h => h | None => None end.

Definition taint_h (l : list string) (h : hold) : hold :=
  match h with
  | HVal | HSelf => h
  | HNs W => HNs (uni W l)
  | HNew k W => HNew k (uni W l)
  | HSet k W => HSet k (uni W l)
  end.
Definition taint_o (l : list string) (o : own) : own :=
  match o with OKeep W => OKeep (uni W l) | OSet W => OSet (uni W l) | OAny => OAny end.
Definition set_own (Wn : list string) (o : own) : own :=
  match o with OKeep W | OSet W => OSet (uni W Wn) | OAny => OAny end.

Definition join_h (g h : option hold) : option hold :=
  match g, h with
  | Some HVal, Some HVal => Some HVal
  | Some HSelf, Some HSelf => Some HSelf
  | Some (HNs V), Some (HNs W) => Some (HNs (uni V W))
  | Some (HNew k V), Some (HNew l W) => if String.eqb k l then Some (HNew k (uni V W)) else None
  | Some (HSet k V), Some (HSet l W) => if String.eqb k l then Some (HSet k (uni V W)) else None
  | _, _ => None
  end.
Definition join_o (o p : own) : own :=
  match o, p with
  | OKeep V, OKeep W => OKeep (uni V W)
  | OSet V, OSet W => OSet (uni V W)
  | _, _ => OAny
  end.
Definition join_a (A B : ast) : ast :=
  mkAst (map (fun xh => (fst xh, join_h (snd xh) (look (fst xh) (av B)))) (av A)) (join_o (ao A) (ao B)).
Definition join_opt {A} (f : A -> A -> A) (x y : option A) : option A :=
  match x, y with
  | Some a, Some b => Some (f a b)
  | Some a, None => Some a
  | None, y => y
  end.
Definition join_r (x y : option hold * own) : option hold * own := (join_h (fst x) (fst y), join_o (snd x) (snd y)).

Definition ahold (A : ast) (x : expr) : option hold :=
  match x with
  | EVar y => if String.eqb y "self" then Some HSelf else look y (av A)
  | ENew k => Some (HNew k [])
  | EConst _ | EArgs | EAttr _ _ | EHas _ _ | EUn _ _ | EBin _ _ _ | ESeen _ | EHandlerHas _ | EDataStr _ | EDataNames _ | EUsed _ _ => Some HVal
  | EGet _ _ _ | EAnd _ _ | EOr _ _ | ENoKw => None
  end.
Definition bind_a (x : string) (h : option hold) (A : ast) : ast := mkAst (put x h (av A)) (ao A).

(** Attributes that are set to the first item of another one: [x.q = ns.p[0]] for a pair
    [(q, p)] makes [q] known again on [x]. *)
Definition pair_keys (D : list (string * string)) : list string := flat_map (fun qp => [fst qp; snd qp]) D.
Definition without (a : string) (W : list string) : list string := filter (fun k => negb (String.eqb k a)) W.
Definition derives (D : list (string * string)) (A : ast) (a : string) (y : expr) : bool :=
  match y with
  | EBin BIndex (EAttr (EVar m) p) (EConst (VInt 0%Z)) =>
      negb (String.eqb m "self") &&
      match look m (av A) with
      | Some (HNs W) => negb (mem p W) && existsb (fun qp => String.eqb (fst qp) a && String.eqb (snd qp) p) D
      | _ => false
      end
  | _ => false
  end.
Definition clean_o (a : string) (o : own) : own := match o with OSet W => OSet (without a W) | _ => o end.
Definition clean (x a : string) (A : ast) : ast :=
  if String.eqb x "self" then mkAst (av A) (clean_o a (ao A))
  else match look x (av A) with
       | Some (HSet k W) => bind_a x (Some (HSet k (without a W))) A
       | Some HSelf => mkAst (av A) (clean_o a (ao A))
       | _ => A
       end.

(** How a statement ends: by the next one, a break or a return; and what is known of self
    when an exception leaves it. *)
Record aends := mkAends { f_next : option ast; f_break : option ast; f_ret : option (option hold * own); f_raise : own }.
Definition a_next (A B : ast) : aends := mkAends (Some B) None None (ao A).
Definition a_none (o : own) : aends := mkAends None None None o.

(** [x.a] is set or deleted. *)
Definition touch (x a : string) (A : ast) : ast :=
  if String.eqb x "self" then mkAst (av A) (taint_o [a] (ao A))
  else match look x (av A) with
       | None | Some HSelf => mkAst (put x (look x (av A)) (av A)) (taint_o [a] (ao A))
       | Some h => bind_a x (Some (taint_h [a] h)) A
       end.

Definition set_a (Wn : list string) (x : string) (A : ast) : ast :=
  if String.eqb x "self" then mkAst (av A) (set_own Wn (ao A))
  else match look x (av A) with
       | Some HSelf => mkAst (av A) (set_own Wn (ao A))
       | Some (HNew k W) | Some (HSet k W) => bind_a x (Some (HSet k (uni W Wn))) A
       | _ => mkAst (put x None (av A)) OAny
       end.

(** What a loop leaves. *)
Definition blur (w : writes) (A : ast) : ast :=
  if w_all w then mkAst [] OAny
  else mkAst (map (fun xh => (fst xh, if mem (fst xh) (w_vars w) then None else option_map (taint_h (w_attrs w)) (snd xh))) (av A))
         (taint_o (w_attrs w) (ao A)).
Fixpoint can_return (s : stmt) : bool :=
  match s with
  | SSeq s t | SIf _ s t => can_return s || can_return t
  | SFor _ _ s | SForPairs _ _ _ s | SForData _ s => can_return s
  | SReturn _ => true
  | _ => false
  end.
Definition a_loop (w : writes) (s : stmt) (A : ast) : aends :=
  let B := blur w A in
  mkAends (Some B) None (if can_return s then Some (None, ao B) else None) (ao B).

Fixpoint flow (D : list (string * string)) (A : ast) (s : stmt) : aends :=
  match s with
  | SPass | SAssert _ => a_next A A
  | SSeq s t =>
      let a := flow D A s in
      match f_next a with
      | None => a
      | Some B => let b := flow D B t in
                  mkAends (f_next b) (join_opt join_a (f_break a) (f_break b)) (join_opt join_r (f_ret a) (f_ret b)) (join_o (f_raise a) (f_raise b))
      end
  | SAssign x y => a_next A (bind_a x (ahold A y) A)
  | SAttr x a y => a_next A (if derives D A a y then clean x a (touch x a A) else touch x a A)
  | SDel x a => a_next A (touch x a A)
  | SAppend x _ => a_next A (bind_a x (Some HVal) A)
  | SPartition x y z _ _ => a_next A (bind_a z (Some HVal) (bind_a y (Some HVal) (bind_a x (Some HVal) A)))
  | SParse ns => a_next A (bind_a ns (Some (HNs [])) A)
  | SParseKnown ns extra => a_next A (bind_a extra (Some HVal) (bind_a ns (Some (HNs [])) A))
  | SSetTo ns x =>
      match look ns (av A) with
      | Some (HNs Wn) => a_next A (set_a (uni Wn (pair_keys D)) x A)
      | _ => a_next A (mkAst (put x None (av A)) OAny)
      end
  | SIf _ s t =>
      let a := flow D A s in let b := flow D A t in
      mkAends (join_opt join_a (f_next a) (f_next b)) (join_opt join_a (f_break a) (f_break b)) (join_opt join_r (f_ret a) (f_ret b)) (join_o (ao A) (join_o (f_raise a) (f_raise b)))
  | SFor x _ t => a_loop (w_join (w_var [x]) (writes_of t)) t A
  | SForPairs x y _ t => a_loop (w_join (w_var [x; y]) (writes_of t)) t A
  | SForData x t => a_loop (w_join (w_var [x]) (writes_of t)) t A
  | SRaise _ _ | STypeError | SCall _ _ _ _ => a_none (ao A)
  | SReturn y => mkAends None None (Some (ahold A y, ao A)) (ao A)
  | SBreak => mkAends None (Some A) None (ao A)
  | SDelRemoved l => a_next A (mkAst (av A) (taint_o l (ao A)))
  | SBlock x ps s =>
      let a := flow D (mkAst (map (fun xe => (fst xe, ahold A (snd xe))) ps) (ao A)) s in
      let plain := option_map (fun B => (Some HVal, ao B)) in
      match join_opt join_r (join_opt join_r (plain (f_next a)) (plain (f_break a))) (f_ret a) with
      | None => a_none (join_o (ao A) (f_raise a))
      | Some (h, o) => mkAends (Some (mkAst (put x h (av A)) o)) None None (join_o (ao A) (f_raise a))
      end
  end.
