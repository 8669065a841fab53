(** * Whether the words a __str__ method writes give its attributes back

    For a table of options, the initial attributes of an object and the words written, the
    check goes through all kinds of values the options can have stored.  PyRoundFacts.v
    shows that it suffices. *)

From Verif Require Import PyStrFacts ArgSpec ArgParseFacts.
From Verif Require Export PyWords ArgTable PyWordsFacts.
From Verif Require Import Value.
Local Open Scope string_scope.
Local Open Scope list_scope.

(** ** Kinds of values *)

(** One value; a plain text that the type [t] of an option leaves as it is; a positive
    number except some; a list of plain texts without commas; the object does not have the
    attribute. *)
Inductive aval := AConst (v : value) | AWord (t : argty) | APos (ex : list Z) | AWords | AGone.
Definition argty_dec (x y : argty) : {x = y} + {x <> y}.
Proof. decide equality; try apply string_dec; try apply bool_dec; apply list_eq_dec; decide equality; try apply string_dec; apply Z.eq_dec. Defined.
Definition fixes (t : argty) (s : string) : bool := match ty_fun t s with Ok (VStr u) => String.eqb u s | _ => false end.
Definition aval_dec (x y : aval) : {x = y} + {x <> y}.
Proof. decide equality; [apply value_eq_dec|apply argty_dec|]. apply list_eq_dec, Z.eq_dec. Defined.
Definition plain_item_text (s : string) : bool := plain_text s && negb (has_char "," s).
Definition gam (x : aval) (v : value) : bool :=
  match x, v with
  | AConst w, _ => if value_eq_dec w v then true else false
  | AWord t, VStr s => plain_text s && fixes t s
  | APos ex, VInt z => Z.ltb 0 z && negb (existsb (Z.eqb z) ex)
  | AWords, VStrs (s :: l) => forallb plain_item_text (s :: l)
  | _, _ => false
  end.

(** An attribute the object does not have counts as None. *)
Definition norm (x : aval) : aval := match x with AGone => AConst VNone | _ => x end.
Definition gone (x : aval) : aval := match x with AConst VNone => AGone | _ => x end.

(** What an option can store, and what an attribute can be. *)
Definition of_decl (d : decl) : list aval :=
  match d_kind d with
  | KStoreConst => [AConst (d_const d)]
  | KStore =>
    match d_nargs d with
    | NOne => match d_choices d with
      | Some l => map (fun s => AConst (VStr s)) l
      | None => match d_type d with
        | (TStr | TMount | TDrop _) as t => [AWord t]
        | TInt => [AConst (VInt 0); APos []]
        | TBool => [AConst (VBool true); AConst (VBool false)]
        | TComma | TPorts => [AWords]
        | TTeam => []
        | TName _ m => map (fun kv => AConst (VStr (snd kv))) m
        | TCode m => map (fun kv => AConst (VInt (snd kv))) m
        end end
    | _ => [AWords] end
  | _ => [AWords]
  end.
Definition decls_for (T : tab) (k : string) : list (decl * nat) := filter (fun x => String.eqb k (d_dest (fst x))) (t_acts T).
(** The value of an attribute whose option stored [v]. *)
Definition laid (init : attrs) (k : string) (v : value) : value := match v with VNone => get k init | _ => v end.
Definition start_value (T : tab) (init : attrs) (k : string) : value := laid init k (tab_default (t_acts T) k).
Definition must (T : tab) (k : string) : bool := existsb (fun x => d_required (fst x)) (decls_for T k).
(** A number is either one of those given or none of them. *)
Definition numbers (l : list aval) : list Z := flat_map (fun x => match x with AConst (VInt z) => [z] | _ => [] end) l.
Definition refine (ex : list Z) (x : aval) : aval := match x with APos _ => APos ex | _ => x end.
Definition avals (T : tab) (init : attrs) (k : string) : list aval :=
  let l := (if must T k then [] else [AConst (start_value T init k)]) ++ flat_map (fun x => of_decl (fst x)) (decls_for T k) in
  nodup aval_dec (map (refine (numbers l)) l).

(** ** Conditions *)

Definition atruth (v : aval) : bool := match v with AConst v => truthy v | _ => true end.
Definition alpha := list (string * aval).
Definition never_eq (x : aval) (v : value) : bool :=
  match x, v with
  | AWord _, VStr s => negb (plain_text s)
  | AWord _, _ => true
  | APos ex, VInt z => Z.leb z 0 || existsb (Z.eqb z) ex
  | APos _, VBool b => negb b
  | APos _, _ => true
  | AWords, VStrs [] => true
  | AWords, VStrs _ => false
  | AWords, _ => true
  | AConst w, v => false
  | AGone, _ => false
  end.
Definition abin (o : binop) (x y : aval) : option aval :=
  match x, y with
  | AConst v, AConst w => match bin o v w with Ok u => Some (AConst u) | Err _ => None end
  | _, AConst w =>
      match o with
      | BEq => if never_eq x w then Some (AConst (VBool false)) else None
      | BNe => if never_eq x w then Some (AConst (VBool true)) else None
      | BIs => match w with VNone => Some (AConst (VBool false)) | _ => None end
      | BIsNot => match w with VNone => Some (AConst (VBool true)) | _ => None end
      | BGt => match x, w with APos _, VInt 0 => Some (AConst (VBool true)) | _, _ => None end
      | BLt => match x, w with APos _, VInt 0 => Some (AConst (VBool false)) | _, _ => None end
      | BGe => match x, w with APos _, VInt 0 => Some (AConst (VBool true)) | _, _ => None end
      | _ => None
      end
  | AConst v, AWord _ => match o, v with
                       | BIn, VStr s => if String.eqb s "#" then Some (AConst (VBool false)) else None
                       | _, _ => None end
  | _, _ => None
  end.
Definition aun (o : unop) (x : aval) : option aval :=
  match o, x with
  | UNot, _ => Some (AConst (VBool (negb (atruth x))))
  | UBool, _ => Some (AConst (VBool (atruth x)))
  | _, AConst v => match un o v with Ok w => Some (AConst w) | Err _ => None end
  | UStr, AWord t => Some (AWord t)
  | ULen, AWord _ | ULen, AWords => Some (APos [])
  | _, _ => None
  end.
Fixpoint aeval (al : alpha) (x : expr) : option aval :=
  match x with
  | EConst v => Some (AConst v)
  | EAttr y k => if is_self y then assoc k al else None
  | EHas y k => if is_self y then match assoc k al with
                                  | Some AGone => Some (AConst (VBool false))
                                  | Some (AConst VNone) | None => None
                                  | Some _ => Some (AConst (VBool true))
                                  end else None
  | EUn o y => match aeval al y with Some v => aun o v | None => None end
  | EBin o y z => match aeval al y, aeval al z with Some v, Some w => abin o v w | _, _ => None end
  | EAnd y z => match aeval al y with Some v => if atruth v then aeval al z else Some v | None => None end
  | EOr y z => match aeval al y with Some v => if atruth v then Some v else aeval al z | None => None end
  | _ => None
  end.
Definition aask (al : alpha) (x : expr) : option bool := option_map atruth (aeval al x).

Fixpoint attrs_of (x : expr) : list string :=
  match x with
  | EAttr _ k | EHas _ k => [k]
  | EUn _ y => attrs_of y
  | EBin _ y z | EAnd y z | EOr y z => attrs_of y ++ attrs_of z
  | _ => []
  end.

(** ** Words *)

(** A word, with the conditions it stands under, the innermost first. *)
Definition path := list (expr * bool).
Fixpoint flat (p : path) (i : item) : list (path * list wpiece) :=
  match i with
  | IWord w => [(p, w)]
  | IIf g a b => flat_map (flat ((g, true) :: p)) a ++ flat_map (flat ((g, false) :: p)) b
  end.

Inductive sword := WFlag (o : string) | WVal (o : string) (v : wpiece).
(** [pos] stands for the name of the positional argument. *)
Definition sword_of (pos : string) (w : list wpiece) : option sword :=
  match w with
  | [PLit s] => let '(o, e, v) := partition_char "=" s in if String.eqb o pos then None else Some (if e : bool then WVal o (PLit v) else WFlag s)
  | [PLit s; v] => let '(o, e, r) := partition_char "=" s in if (e : bool) && String.eqb r "" && negb (String.eqb o pos) then Some (WVal o v) else None
  | [PVal m k] => Some (WVal pos (PVal m k))
  | _ => None
  end.
Definition sname (w : sword) : string := match w with WFlag o | WVal o _ => o end.
Definition sattrs (w : sword) : list string :=
  match w with WVal _ (PVal _ k) | WVal _ (PJoin _ k) => [k] | _ => [] end.

(** What a word stores: one value, or the attribute [k]. *)
Inductive nval := NConst (v : value) | NAttr (k : string).
Definition const_given (x : decl) (s : string) : option nval :=
  match given (act (x, 0)) (OVal "" s) with Some v => Some (NConst v) | None => None end.
Definition stores (x : decl) (al : alpha) (w : sword) : option nval :=
  match w, d_kind x, d_nargs x with
  | WFlag _, KStoreConst, NInt 0 => Some (NConst (d_const x))
  | WVal _ (PLit s), KStore, NOne => const_given x s
  | WVal _ (PVal m k), KStore, NOne =>
      match assoc k al with
      | Some (AConst VNone) => None
      | Some (AConst c) => match mode_text m c with Some s => if plain_text s then const_given x s else None | None => None end
      | Some (AWord t) =>
          match m, d_choices x with
          | (MStr | MAny), None => if argty_dec (d_type x) TStr then Some (NAttr k) else if argty_dec (d_type x) t then Some (NAttr k) else None
          | MEsc c, None => if argty_dec (d_type x) TStr then (if plain_char c then None else Some (NAttr k)) else None
          | _, _ => None
          end
      | Some (APos _) => match m, d_type x, d_choices x with (MAny | MDec), TInt, None => Some (NAttr k) | _, _, _ => None end
      | _ => None
      end
  | WVal _ (PJoin sep k), KStore, NOne =>
      match assoc k al with
      | Some AWords => match d_type x, d_choices x with TComma, None => if String.eqb sep "," then Some (NAttr k) else None | _, _ => None end
      | _ => None
      end
  | _, _, _ => None
  end.

Fixpoint products (l : list (string * list aval)) : list alpha :=
  match l with
  | [] => [[]]
  | (k, vs) :: r => let p := products r in flat_map (fun v => map (cons (k, v)) p) vs
  end.
Fixpoint active (al : alpha) (p : path) : option bool :=
  match p with
  | [] => Some true
  | gb :: p => match active al p with
               | Some true => match aask al (fst gb) with Some b => Some (Bool.eqb b (snd gb)) | None => None end
               | r => r
               end
  end.
Definition possible (F : facts) (al : alpha) : bool :=
  forallb (fun f => match aask al (fst f) with Some b => Bool.eqb b (snd f) | None => true end) F.

(** ** The check *)

Section Check.
Variable T : tab.
Variable init : attrs.
Variable F : facts.
(** An option that is only written when a condition holds. *)
Variable needs : list (string * expr).
(** The name that stands for the positional argument. *)
Variable pos : string.
(** The attributes that are not only set by options. *)
Variable sets : list string.

Definition dests : list string := nodup string_dec (map (fun x => d_dest (fst x)) (t_acts T)).
Definition needed (al : alpha) : bool :=
  forallb (fun n => match assoc (fst n) al, aask al (snd n) with
                    | Some v, Some false =>
                        must T (fst n) || if aval_dec (norm v) (AConst (start_value T init (fst n))) then true else false
                    | _, _ => true end) needs.
Definition tword := (path * sword * (decl * nat))%type.
Fixpoint final (al : alpha) (ws : list tword) : option (list (nval * nat)) :=
  match ws with
  | [] => Some []
  | (p, w, x) :: r =>
      match active al p with
      | None => None
      | Some false => final al r
      | Some true => match stores (fst x) al w, final al r with
                     | Some n, Some l => Some ((n, snd x) :: l)
                     | _, _ => None
                     end
      end
  end.
Definition latest (l : list (nval * nat)) : option nval := fold_left (fun _ n => Some (fst n)) l None.
Definition matches (d : string) (al : alpha) (cur : option nval) : bool :=
  match cur, option_map norm (assoc d al) with
  | Some (NAttr k), Some (AConst _) => false
  | Some (NAttr k), Some _ => String.eqb k d
  | Some (NConst v), Some (AConst w) => if value_eq_dec (laid init d v) w then true else false
  | None, Some (AConst w) => if value_eq_dec (start_value T init d) w then true else false
  | _, _ => false
  end.
Definition relevant (d : string) (ws : list tword) : list string :=
  let base := nodup string_dec (d :: flat_map (fun pw => let '(p, w, x) := pw in flat_map (fun gb => attrs_of (fst gb)) p ++ sattrs w) ws) in
  let nd := flat_map (fun n => if mem (fst n) base then attrs_of (snd n) else []) needs in
  nodup string_dec (base ++ nd).
Definition known_attrs (M : list string) : bool := let ds := dests in forallb (fun k => mem k ds) M.
Definition all_alphas (M : list string) : list alpha := products (map (fun k => (k, if has_key k init || mem k sets then avals T init k else map gone (avals T init k))) M).
Definition check_dest (ws : list tword) (d : string) : bool :=
  let mine := filter (fun pw => String.eqb d (d_dest (fst (snd pw)))) ws in
  let M := relevant d mine in
  let req := filter (fun x => d_required (fst x)) (decls_for T d) in
  if negb (known_attrs M) then false else
  forallb (fun al => negb (possible F al && needed al) ||
     match final al mine with
     | Some l => matches d al (latest l) && forallb (fun x => existsb (fun n => Nat.eqb (snd n) (snd x)) l) req
     | None => false
     end) (all_alphas M).
Fixpoint table (ws : list (path * list wpiece)) : option (list tword) :=
  match ws with
  | [] => Some []
  | (p, w) :: r =>
      match sword_of pos w with
      | Some s => match assoc (sname s) (t_map T), table r with
                  | Some x, Some l => Some ((p, s, x) :: l)
                  | _, _ => None
                  end
      | None => None
      end
  end.
(** The first word is the name of the command. *)
Definition check_items (names : list string) (items : list item) : bool :=
  match items with
  | IWord [PLit n] :: items =>
      mem n names &&
      match table (flat_map (flat []) items) with
      | None => false
      | Some tw => let ds := dests in forallb (fun pw => mem (d_dest (fst (snd pw))) ds) tw && forallb (check_dest tw) ds &&
                   Nat.leb (List.length (filter (fun pw => String.eqb (sname (snd (fst pw))) pos) tw)) 1
      end
  | _ => false
  end.
(** No values go with what is known. *)
Definition impossible : bool :=
  let M := nodup string_dec (flat_map (fun f => attrs_of (fst f)) F) in
  if Nat.leb (List.length M) 4 then (if known_attrs M then forallb (fun al => negb (possible F al && needed al)) (all_alphas M) else false) else false.
Definition check_leaf (names : list string) (r : list bit) : bool :=
  if match line_items r with Some items => check_items names items | None => false end then true else impossible.
End Check.
