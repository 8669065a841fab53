(** * What a __str__ method writes

    Runs a __str__ method with the attributes of the object left unknown: the text becomes
    a rope, a list of literal texts and attribute values, with parts that depend on
    conditions on the attributes.  Like PyCheck.v this is part of the proofs, not of the
    model; PyTextFacts.v shows that the text of the rope is what the method gives. *)

From Verif Require Import PyStrFacts.
From Verif Require Export PyCheck.
From Verif Require Import Value.
Local Open Scope string_scope.
Local Open Scope list_scope.

(** ** Ropes *)

(** How a value is written: a string as it is; "%s"; "%d"; lower(); upper(); with a
    backslash before each [c]. *)
Inductive mode := MStr | MAny | MDec | MLow | MUp | MEsc (c : ascii).
Inductive bit :=
| TLit (s : string)
| TVal (m : mode) (k : string)
| TJoin (sep k : string)
| TIf (g : expr) (a b : list bit).

Definition mode_text (m : mode) (v : value) : option string :=
  match m, v with
  | MAny, _ => match py_str v with Ok s => Some s | Err _ => None end
  | MDec, _ => match py_dec v with Ok s => Some s | Err _ => None end
  | MStr, VStr s => Some s
  | MLow, VStr s => Some (lower s)
  | MUp, VStr s => Some (upper s)
  | MEsc c, VStr s => Some (replace_char c (String BSLASH (String c EmptyString)) s)
  | _, _ => None
  end.

Definition mode_dec (m n : mode) : {m = n} + {m <> n}.
Proof. decide equality. apply ascii_dec. Defined.
Fixpoint bit_eqb (x y : bit) : bool :=
  match x, y with
  | TLit s, TLit t => String.eqb s t
  | TVal m k, TVal n j => (if mode_dec m n then true else false) && String.eqb k j
  | TJoin s k, TJoin t j => String.eqb s t && String.eqb k j
  | TIf g a b, TIf h c d =>
      let eqs := fix eqs (p q : list bit) : bool :=
        match p, q with [], [] => true | u :: p', v :: q' => bit_eqb u v && eqs p' q' | _, _ => false end in
      (if expr_eq_dec g h then true else false) && eqs a c && eqs b d
  | _, _ => false
  end.
Fixpoint bits_eqb (p q : list bit) : bool :=
  match p, q with [], [] => true | u :: p', v :: q' => bit_eqb u v && bits_eqb p' q' | _, _ => false end.

Definition NL : string := String LF "".
(** A literal text, a final line feed apart. *)
Definition lit (s : string) : list bit :=
  if String.eqb s "" then []
  else if ends_with_char LF s
       then (let t := take (String.length s - 1) s in if String.eqb t "" then [TLit NL] else [TLit t; TLit NL])
       else [TLit s].
Fixpoint literal (r : list bit) : option string :=
  match r with
  | [] => Some ""
  | TLit s :: r' => match literal r' with Some t => Some (s ++ t)%string | None => None end
  | _ => None
  end.
Definition has_lit (r : list bit) : bool :=
  existsb (fun b => match b with TLit s => negb (String.eqb s "") | _ => false end) r.
(** A text without line boundaries. *)
Definition unbroken (s : string) : bool := all_chars (fun c => negb (is_linebreak c)) s.
Fixpoint bit_nl (b : bit) : bool :=
  match b with
  | TLit s | TJoin s _ => negb (unbroken s)
  | TVal _ _ => false
  | TIf _ a b => existsb bit_nl a || existsb bit_nl b
  end.

(** The text ends, or starts, with a character that is not blank, or is empty; [r] is
    what is known of what stands before.  The values of the attributes [calm false] do not end
    with a blank; those of [calm true] are not empty either. *)
Definition inked (c : ascii) : bool := negb (is_space c).
Fixpoint solid_bit (calm : bool -> string -> bool) (r : bool) (b : bit) : bool :=
  match b with
  | TLit s => last_ok inked s
  | TVal m k => if r then calm false k else match m with MAny => calm true k | _ => false end
  | TJoin _ k => r && calm false k
  | TIf _ x y => r && fold_left (solid_bit calm) x true && fold_left (solid_bit calm) y true
  end.
Definition solid calm (r : list bit) : bool := fold_left (solid_bit calm) r true.
Definition front (r : list bit) : bool :=
  match r with [] => true | TLit s :: _ => head_ok inked s | _ => false end.

(** strip(), rstrip() and [:-1]. *)
Fixpoint rchop_rev (r : list bit) : list bit :=
  match r with
  | TLit s :: rest => let t := rstrip s in if String.eqb t "" then rchop_rev rest else TLit t :: rest
  | _ => r
  end.
Definition rchop calm (r : list bit) : option (list bit) :=
  let x := rev (rchop_rev (rev r)) in if solid calm x then Some x else None.
Definition cut_nl (a : list bit) : option (list bit) :=
  match rev a with TLit s :: r => if String.eqb s NL then Some (rev r) else None | _ => None end.

(** The words two texts start with. *)
Fixpoint common_text (s t : string) : string :=
  match s, t with String c s', String d t' => if Ascii.eqb c d then String c (common_text s' t') else "" | _, _ => "" end.
Fixpoint blank_at (s : string) : option nat :=
  match s with
  | "" => None
  | String c r => match blank_at r with Some n => Some (S n) | None => if Ascii.eqb c SP then Some 0 else None end
  end.
Fixpoint common (a b : list bit) : list bit * list bit * list bit :=
  match a, b with
  | x :: a', y :: b' =>
      if bit_eqb x y then let '(p, u, v) := common a' b' in (x :: p, u, v)
      else match x, y with
           | TLit s, TLit t =>
               match blank_at (common_text s t) with
               | Some (S n) => ([TLit (take (S n) s)], TLit (drop (S n) s) :: a', TLit (drop (S n) t) :: b')
               | _ => ([], a, b)
               end
           | _, _ => ([], a, b)
           end
  | _, _ => ([], a, b)
  end.
(** One rope for two, depending on [g]; [None] when they differ in line feeds. *)
Definition one_line (g : expr) (u v : list bit) : option (list bit) :=
  if existsb bit_nl u || existsb bit_nl v then None else Some [TIf g u v].
Definition merge_rope (g : expr) (a b : list bit) : option (list bit) :=
  let '(p, u, v) := common a b in
  match u, v with
  | [], [] => Some p
  | _, _ => match cut_nl u, cut_nl v with
            | Some u', Some v' => option_map (fun x => p ++ x ++ [TLit NL]) (one_line g u' v')
            | _, _ => option_map (fun x => p ++ x) (one_line g u v)
            end
  end.

(** ** Symbolic values and outcomes *)

Inductive sval := SvRope (r : list bit) | SvAttr (k : string) | SvConst (v : value).
Definition senv := list (string * sval).

(** What a condition depends on: an expression over the attributes, or whether the text
    in the variable [y] is not empty. *)
Inductive gcond := CExp (e : expr) | CText (r : list bit).
Inductive gres := GKnown (b : bool) | GExp (g : expr) | GText (pos : bool) (y : string) (r : list bit).
Inductive sout :=
| ONx (F : facts) (e : senv)
| OBk (F : facts) (e : senv)
| ORt (F : facts) (v : sval)
| OIf (c : gcond) (a b : sout).

(** The expression reads only the object. *)
Fixpoint selfonly (x : expr) : bool :=
  match x with
  | EConst _ => true
  | EVar y => String.eqb y "self"
  | EAttr y _ | EHas y _ | EUn _ y => selfonly y
  | EBin _ y z | EAnd y z | EOr y z => selfonly y && selfonly z
  | _ => false
  end.
Definition is_self (x : expr) : bool := match x with EVar y => String.eqb y "self" | _ => false end.

Section Run.
Variable K : list (string * value).          (* attributes whose value is known *)
Variable here : string -> option bool.       (* whether the object has the attribute *)
Variable calm : bool -> string -> bool.      (* attributes that do not end with a blank *)

(** *** Expressions *)

Fixpoint red (x : expr) : expr :=
  match x with
  | EAttr y k => if is_self y then match assoc k K with Some v => EConst v | None => x end else x
  | EHas y k => if is_self y then match here k with Some b => EConst (VBool b) | None => x end else x
  | EUn o y => match red y with
               | EConst v => match un o v with Ok w => EConst w | Err _ => EUn o (EConst v) end
               | y' => EUn o y'
               end
  | EBin o y z => match red y, red z with
                  | EConst v, EConst w => match bin o v w with Ok u => EConst u | Err _ => EBin o (EConst v) (EConst w) end
                  | y', z' => EBin o y' z'
                  end
  | EAnd y z => match red y with EConst v => if truthy v then red z else EConst v | y' => EAnd y' (red z) end
  | EOr y z => match red y with EConst v => if truthy v then EConst v else red z | y' => EOr y' (red z) end
  | _ => x
  end.

Fixpoint subst (e : senv) (x : expr) : expr :=
  match x with
  | EVar y => if String.eqb y "self" then x
              else match assoc y e with
                   | Some (SvConst v) => EConst v
                   | Some (SvAttr k) => EAttr (EVar "self") k
                   | Some (SvRope r) => match literal r with Some s => EConst (VStr s) | None => x end
                   | None => x
                   end
  | EUn o y => EUn o (subst e y)
  | EBin o y z => EBin o (subst e y) (subst e z)
  | EAnd y z => EAnd (subst e y) (subst e z)
  | EOr y z => EOr (subst e y) (subst e z)
  | _ => x
  end.

Definition leaf (e : senv) (x : expr) : option gres :=
  match x with
  | EConst v => Some (GKnown (truthy v))
  | EVar y => match (if String.eqb y "self" then None else assoc y e) with
              | Some (SvRope r) => if has_lit r then Some (GKnown true) else Some (GText true y r)
              | _ => None
              end
  | EBin BNe (EVar y) (EConst (VStr "")) =>
              match (if String.eqb y "self" then None else assoc y e) with
              | Some (SvRope r) => if has_lit r then Some (GKnown true) else Some (GText true y r)
              | _ => None
              end
  | _ => if selfonly x then Some (GExp x) else None
  end.
Fixpoint cond (F : facts) (e : senv) (x : expr) : option gres :=
  match (if selfonly x then truth F x else None) with
  | Some b => Some (GKnown b)
  | None =>
  match x with
  | EUn UNot y => match cond F e y with
                  | Some (GKnown b) => Some (GKnown (negb b))
                  | Some (GExp g) => Some (GExp (EUn UNot g))
                  | Some (GText b y r) => Some (GText (negb b) y r)
                  | None => None
                  end
  | EUn UBool y => cond F e y
  | EAnd y z => match cond F e y with
                | Some (GKnown true) => cond F e z
                | Some (GKnown false) => Some (GKnown false)
                | Some (GExp g) =>
                    match cond F e z with
                    | Some (GKnown b) => Some (if b then GExp g else GKnown false)
                    | Some (GExp h) => Some (GExp (EAnd g h))
                    | _ => None
                    end
                | _ => None
                end
  | EOr y z => match cond F e y with
                | Some (GKnown false) => cond F e z
                | Some (GKnown true) => Some (GKnown true)
                | Some (GExp g) =>
                    match cond F e z with
                    | Some (GKnown b) => Some (if b then GKnown true else GExp g)
                    | Some (GExp h) => Some (GExp (EOr g h))
                    | _ => None
                    end
                | _ => None
                end
  | _ => leaf e x
  end end.

Definition as_rope (v : sval) : option (list bit) :=
  match v with SvRope r => Some r | SvAttr k => Some [TVal MStr k] | SvConst _ => None end.
Definition of_value (v : value) : sval := match v with VStr s => SvRope (lit s) | _ => SvConst v end.
Definition of_text (v : res string) : option sval := match v with Ok s => Some (SvRope (lit s)) | Err _ => None end.
Definition sun (o : unop) (v : sval) : option sval :=
  match o, v with
  | UStr, SvRope r => Some (SvRope r)
  | UStr, SvAttr k => Some (SvRope [TVal MAny k])
  | UStr, SvConst v => of_text (py_str v)
  | UDec, SvAttr k => Some (SvRope [TVal MDec k])
  | UDec, SvConst v => of_text (py_dec v)
  | ULower, SvAttr k => Some (SvRope [TVal MLow k])
  | UUpper, SvAttr k => Some (SvRope [TVal MUp k])
  | UStrip, SvRope r => if front r then option_map SvRope (rchop calm r) else None
  | URstrip, SvRope r => option_map SvRope (rchop calm r)
  | UChop, SvRope r => option_map SvRope (cut_nl r)
  | _, _ => None
  end.
Definition sbin (o : binop) (v w : sval) : option sval :=
  match o, v, w with
  | BAdd, SvRope r, _ => match as_rope w with Some t => Some (SvRope (r ++ t)) | None => None end
  | BAdd, _, SvRope t => match as_rope v with Some r => Some (SvRope (r ++ t)) | None => None end
  | BJoin, SvRope r, SvAttr k => match literal r with Some s => Some (SvRope [TJoin s k]) | None => None end
  | BEscape, SvAttr k, SvRope r => match literal r with Some (String c "") => Some (SvRope [TVal (MEsc c) k]) | _ => None end
  | _, _, _ => None
  end.
Fixpoint sx (e : senv) (x : expr) : option sval :=
  match x with
  | EConst v => Some (of_value v)
  | EVar y => if String.eqb y "self" then None else assoc y e
  | EAttr y k => if is_self y then Some (match assoc k K with Some v => of_value v | None => SvAttr k end) else None
  | EUn o y => match sx e y with Some v => sun o v | None => None end
  | EBin o y z => match sx e y, sx e z with Some v, Some w => sbin o v w | _, _ => None end
  | _ => None
  end.

(** *** Statements *)

Definition sval_eqb (v w : sval) : bool :=
  match v, w with
  | SvRope r, SvRope t => bits_eqb r t
  | SvAttr k, SvAttr j => String.eqb k j
  | SvConst v, SvConst w => if value_eq_dec v w then true else false
  | _, _ => false
  end.
Definition merge_val (g : expr) (v w : sval) : option sval :=
  if sval_eqb v w then Some v
  else match v, w with SvRope r, SvRope t => option_map SvRope (merge_rope g r t) | _, _ => None end.
Fixpoint merge_env (g : expr) (d e : senv) : option senv :=
  match d with
  | [] => Some []
  | (k, v) :: d' =>
      match merge_env g d' e, assoc k e with
      | Some m, None => Some m
      | Some m, Some w => match merge_val g v w with Some u => Some ((k, u) :: m) | None => None end
      | None, _ => None
      end
  end.
Definition mk_if (F : facts) (g : expr) (a b : sout) : sout :=
  match a, b with
  | ONx _ d, ONx _ e => match merge_env g d e with Some m => ONx F m | None => OIf (CExp g) a b end
  | _, _ => OIf (CExp g) a b
  end.

(** Going on from the places where the run falls through. *)
Fixpoint and_then (o : sout) (f : facts -> senv -> option sout) : option sout :=
  match o with
  | ONx F e => f F e
  | OIf c a b => match and_then a f, and_then b f with Some x, Some y => Some (OIf c x y) | _, _ => None end
  | _ => Some o
  end.
Fixpoint end_loop (o : sout) : sout :=
  match o with
  | OBk F e => ONx F e
  | OIf c a b => OIf c (end_loop a) (end_loop b)
  | _ => o
  end.
(** The variable [x] gets what the block returns. *)
Fixpoint end_block (x : string) (e : senv) (F0 : facts) (o : sout) : sout :=
  match o with
  | ONx F _ | OBk F _ => ONx F (put x (SvConst VNone) e)
  | ORt F v => ONx F (put x v e)
  | OIf (CExp g) a b => mk_if F0 g (end_block x e F0 a) (end_block x e F0 b)
  | OIf c a b => OIf c (end_block x e F0 a) (end_block x e F0 b)
  end.
Fixpoint unroll {A} (body : A -> facts -> senv -> option sout) (l : list A) (o : sout) : option sout :=
  match l with
  | [] => Some (end_loop o)
  | i :: r => match and_then o (body i) with Some o' => unroll body r o' | None => None end
  end.

Fixpoint sexec (s : stmt) (F : facts) (e : senv) : option sout :=
  match s with
  | SPass => Some (ONx F e)
  | SSeq s t => match sexec s F e with Some o => and_then o (sexec t) | None => None end
  | SAssign x y => match sx e y with Some v => Some (ONx F (put x v e)) | None => None end
  | SIf c s t =>
      match cond F e (red (subst e c)) with
      | Some (GKnown true) => sexec s F e
      | Some (GKnown false) => sexec t F e
      | Some (GExp g) =>
          match sexec s ((g, true) :: F) e, sexec t ((g, false) :: F) e with
          | Some a, Some b => Some (mk_if F g a b)
          | _, _ => None
          end
      | Some (GText b y r) =>
          let e' := put y (SvRope []) e in
          if b
          then match sexec s F e, sexec t F e' with Some p, Some q => Some (OIf (CText r) p q) | _, _ => None end
          else match sexec t F e, sexec s F e' with Some p, Some q => Some (OIf (CText r) p q) | _, _ => None end
      | None => None
      end
  | SForPairs x y w t =>
      match red (subst e w) with
      | EConst (VPairs l) =>
          unroll (fun i F e => sexec t F (put y (of_value (VStr (snd i))) (put x (of_value (VStr (fst i))) e))) l (ONx F e)
      | EConst (VCodes l) =>
          unroll (fun i F e => sexec t F (put y (SvConst (VInt (snd i))) (put x (of_value (VStr (fst i))) e))) l (ONx F e)
      | _ => None
      end
  | SReturn y => match sx e y with Some v => Some (ORt F v) | None => None end
  | SBreak => Some (OBk F e)
  | SBlock x [] s => match sexec s F [] with Some o => Some (end_block x e F o) | None => None end
  | _ => None
  end.
End Run.

(** The ropes a run ends with, with what is known then; the empty ones left out. *)
Fixpoint leaves (o : sout) : option (list (facts * list bit)) :=
  match o with
  | ORt F (SvRope r) => Some (match r with [] => [] | _ => [(F, r)] end)
  | OIf _ a b => match leaves a, leaves b with Some x, Some y => Some (x ++ y) | _, _ => None end
  | _ => None
  end.
