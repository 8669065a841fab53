(** * The part of Python the command classes are written in

    The methods __init__, parse, __str__ and _getArgsAsStr of the classes in
    pykickstart/commands/*.py use a small part of the language: assignments to local
    variables and attributes, if, for over lists, string building, and raise.  This file
    gives that part a syntax and an interpreter.  The programs themselves are in
    CmdCode.v, written from the text of the classes by tools/gen_commands.py.

    Simplifications: exceptions carry a tag instead of a text and building the text is
    not evaluated; warnings are left out; so are the [if data in self.dataList()] tests
    that only decide whether to warn.  Objects are values: no two variables of these
    methods name the same object, except self. *)

From Verif Require Export Handler ArgDecl.
From Verif Require Import Value.
Local Open Scope string_scope.
Local Open Scope list_scope.

(** ** Values *)

(** What a variable can hold: a value; the command (or data) object whose method runs; a
    namespace or keyword dictionary; a data object. *)
Inductive pval :=
| PV (v : value)
| PSelf
| PNs (a : attrs)
| PObj (d : data).

Definition p_truthy (p : pval) : bool := match p with PV v => truthy v | _ => true end.
Definition to_val (p : pval) : res value := match p with PV v => Ok v | _ => Err TypeError end.

(** True and False are the integers 1 and 0 in comparisons and arithmetic. *)
Definition as_int (v : value) : option Z :=
  match v with VInt z => Some z | VBool b => Some (if b then 1 else 0)%Z | _ => None end.

(** [v == w]. *)
Definition py_eq (v w : value) : bool :=
  match as_int v, as_int w with
  | Some a, Some b => Z.eqb a b
  | _, _ => value_eqb v w
  end.
(** [v is w], for None, booleans and small integers. *)
Definition py_is (v w : value) : bool := value_eqb v w.

(** [a in b] for strings. *)
Fixpoint contains (a b : string) : bool :=
  startswith b a || match b with String _ r => contains a r | EmptyString => false end.

(** [v in w]. *)
Definition py_in (v w : value) : res bool :=
  match w, v with
  | VStrs l, VStr s => Ok (mem s l)
  | VStrs _, _ => Ok false
  | VStr t, VStr s => Ok (contains s t)
  | VStr _, _ => Err TypeError
  | VPairs l, VStr s => Ok (has_key s l)
  | VCodes l, VStr s => Ok (has_key s l)
  | VPairs _, _ | VCodes _, _ => Ok false
  | _, _ => Err TypeError
  end.

(** [str(v)] and ["%s" % v].  A list is never formatted by the modelled code
    except in the texts of exceptions. *)
Definition py_str (v : value) : res string :=
  match v with
  | VNone => Ok "None"
  | VBool b => Ok (if b then "True" else "False")
  | VInt z => Ok (str_of_Z z)
  | VStr s => Ok s
  | _ => Err TypeError
  end.
(** ["%d" % v]. *)
Definition py_dec (v : value) : res string :=
  match as_int v with Some z => Ok (str_of_Z z) | None => Err TypeError end.

Definition py_len (v : value) : res nat :=
  match v with
  | VStr s => Ok (String.length s)
  | VStrs l => Ok (length l)
  | VPairs l => Ok (length l)
  | VCodes l => Ok (length l)
  | _ => Err TypeError
  end.

(** [v + w]. *)
Definition py_add (v w : value) : res value :=
  match v, w with
  | VStr s, VStr t => Ok (VStr (s ++ t))
  | VStrs l, VStrs m => Ok (VStrs (l ++ m))
  | _, _ => match as_int v, as_int w with
            | Some a, Some b => Ok (VInt (a + b))
            | _, _ => Err TypeError
            end
  end.

(** [v[i]] on a list of strings; -1 is the last element. *)
Definition py_index (v w : value) : res value :=
  match v, w with
  | VStrs l, VInt i =>
      match (if Z.ltb i 0
             then (if Nat.ltb (length l) (Z.to_nat (- i)) then None
                   else nth_error l (length l - Z.to_nat (- i)))
             else nth_error l (Z.to_nat i)) with
      | Some s => Ok (VStr s)
      | None => Err IndexError
      end
  | _, _ => Err TypeError
  end.

(** [v[n:]]. *)
Definition py_from (v w : value) : res value :=
  match v, w with
  | VStrs l, VInt n => Ok (VStrs (skipn (Z.to_nat n) l))
  | VStr s, VInt n => Ok (VStr (drop (Z.to_nat n) s))
  | _, _ => Err TypeError
  end.

(** [v[:-1]]. *)
Definition py_chop (v : value) : res value :=
  match v with
  | VStrs l => Ok (VStrs (removelast l))
  | VStr s => Ok (VStr (take (String.length s - 1) s))
  | _ => Err TypeError
  end.

Definition py_cmp (f : Z -> Z -> bool) (v w : value) : res bool :=
  match as_int v, as_int w with
  | Some a, Some b => Ok (f a b)
  | _, _ => Err TypeError
  end.

(** [list(set(l))]: the elements without repetition.  (Python's order is arbitrary;
    here it is the order of first occurrence.) *)
Fixpoint distinct (l : list string) : list string :=
  match l with
  | [] => []
  | x :: r => x :: filter (fun y => negb (String.eqb x y)) (distinct r)
  end.

(** network.py:919-959 (validate_network_interface_name); true when it gives a
    message.  MIN_VLAN_ID and MAX_VLAN_ID are 0 and 4095 (network.py:31-32). *)
Definition bad_interface_name (s : string) : bool :=
  let '(vlan, dot, id) := partition_char "." s in
  if dot && (String.eqb vlan "vlan" || match py_int id with None => true | Some _ => false end) then true
  else
    let first := if dot : bool then py_int id else None in
    if startswith s "vlan"
    then match py_int (drop 4 s) with
         | None => true
         | Some n => negb (Z.leb 0 n && Z.leb n 4095)
         end
    else match first with
         | None => false
         | Some n => negb (Z.leb 0 n && Z.leb n 4095)
         end.

(** ** Expressions *)

Inductive unop :=
| UNot                    (* not e *)
| UStr                    (* str(e), "%s" % e *)
| UDec                    (* "%d" % e *)
| ULen                    (* len(e) *)
| UStrip | URstrip | ULower | UUpper   (* e.strip(), ... *)
| UInt                    (* int(e) *)
| UBool                   (* bool(e) *)
| UMount                  (* options.mountpoint(e) *)
| UChop                   (* e[:-1] *)
| UDashed                 (* any(arg for arg in e if arg.startswith("-")) *)
| UDistinct               (* list(set(e)) *)
| USingle                 (* [e] *)
| UBadName                (* validate_network_interface_name(e) *)
| USeconds.               (* [b for (a, b) in e] *)

Inductive binop :=
| BAdd                    (* d + e *)
| BEq | BNe | BLt | BLe | BGt | BGe
| BIs | BIsNot | BIn | BNotIn
| BIndex                  (* d[e] *)
| BFrom                   (* d[e:] *)
| BSplit                  (* e.split(d) *)
| BJoin                   (* d.join(e) *)
| BStarts                 (* d.startswith(e), e a string or a tuple of strings *)
| BInValues               (* d in e.values() *)
| BUnion                  (* a dictionary updated with another one *)
| BEscape.                (* d.replace(e, "\\" + e) *)

Inductive expr :=
| EConst (v : value)
| EVar (x : string)
| EArgs                                (* the parameter args of parse *)
| EAttr (e : expr) (a : string)        (* e.a *)
| EGet (e : expr) (a : string) (d : expr)   (* getattr(e, "a", d), kwargs.get("a", d) *)
| EHas (e : expr) (a : string)         (* hasattr(e, "a") *)
| EUn (o : unop) (e : expr)
| EBin (o : binop) (d e : expr)
| EAnd (d e : expr)
| EOr (d e : expr)
| ESeen (c : string)                   (* self.handler.c.seen *)
| EHandlerHas (c : string)             (* hasattr(self.handler, "c") *)
| ENew (c : string)                    (* self.handler.c() *)
| EDataStr (e : expr)                  (* e.__str__(), e a data object *)
| EDataNames (a : string)              (* [d.a for d in self.dataList()] *)
| EUsed (e ns : expr)                  (* [opt for attr, opt in e if getattr(ns, attr, None)] *)
| ENoKw.                               (* {} as keyword arguments *)

Definition env := list (string * pval).

(** What the methods read besides self and their variables: what they can see of the
    handler, the data list of the command, the arguments, the option table of the
    command (self.op), the attributes of a new data object of a class, and the __str__
    of data objects. *)
Record ctx := mkCtx {
  c_view : view;
  c_list : list data;
  c_args : list string;
  c_parser : parser;
  c_new : string -> attrs;
  c_str : data -> res string }.

Definition find_attr (self : attrs) (p : pval) (a : string) : option value :=
  match p with
  | PSelf => assoc a self
  | PNs n => assoc a n
  | PObj d => assoc a (d_attrs d)
  | PV _ => None
  end.

Definition as_string (v : value) : res string := match v with VStr s => Ok s | _ => Err TypeError end.
Definition as_list (v : value) : res (list string) := match v with VStrs l => Ok l | _ => Err TypeError end.

Definition un (o : unop) (v : value) : res value :=
  match o with
  | UNot => Ok (VBool (negb (truthy v)))
  | UStr => do s <- py_str v ;; Ok (VStr s)
  | UDec => do s <- py_dec v ;; Ok (VStr s)
  | ULen => do n <- py_len v ;; Ok (VInt (Z.of_nat n))
  | UStrip => do s <- as_string v ;; Ok (VStr (strip s))
  | URstrip => do s <- as_string v ;; Ok (VStr (rstrip s))
  | ULower => do s <- as_string v ;; Ok (VStr (lower s))
  | UUpper => do s <- as_string v ;; Ok (VStr (upper s))
  | UInt => match v with
            | VStr s => match py_int s with Some z => Ok (VInt z) | None => Err ValueError end
            | _ => match as_int v with Some z => Ok (VInt z) | None => Err TypeError end
            end
  | UBool => Ok (VBool (truthy v))
  | UMount => do s <- as_string v ;; Ok (VStr (mountpoint s))
  | UChop => py_chop v
  | UDashed => do l <- as_list v ;; Ok (VBool (existsb (fun s => startswith s "-") l))
  | UDistinct => do l <- as_list v ;; Ok (VStrs (distinct l))
  | USingle => do s <- as_string v ;; Ok (VStrs [s])
  | UBadName => match v with
                | VStr s => Ok (VBool (bad_interface_name s))
                | _ => Err AttributeError
                end
  | USeconds => match v with VPairs l => Ok (VStrs (map snd l)) | _ => Err TypeError end
  end.

Definition vbool (r : res bool) : res value := do b <- r ;; Ok (VBool b).
Definition starts_any (s : string) (l : list string) : bool := existsb (startswith s) l.

Definition bin (o : binop) (v w : value) : res value :=
  match o with
  | BAdd => py_add v w
  | BEq => Ok (VBool (py_eq v w))
  | BNe => Ok (VBool (negb (py_eq v w)))
  | BLt => vbool (py_cmp Z.ltb v w)
  | BLe => vbool (py_cmp Z.leb v w)
  | BGt => vbool (py_cmp Z.gtb v w)
  | BGe => vbool (py_cmp Z.geb v w)
  | BIs => Ok (VBool (py_is v w))
  | BIsNot => Ok (VBool (negb (py_is v w)))
  | BIn => vbool (py_in v w)
  | BNotIn => vbool (do b <- py_in v w ;; Ok (negb b))
  | BIndex => py_index v w
  | BFrom => py_from v w
  | BSplit => do d <- as_string v ;;
              match w, d with
              | VStr s, String c EmptyString => Ok (VStrs (split_char c s))
              | VStr _, _ => Err TypeError
              | _, _ => Err AttributeError
              end
  | BJoin => do d <- as_string v ;; do l <- as_list w ;; Ok (VStr (join d l))
  | BStarts => match v, w with
               | VStr s, VStr p => Ok (VBool (startswith s p))
               | VStr s, VStrs l => Ok (VBool (starts_any s l))
               | VStr _, _ => Err TypeError
               | _, _ => Err AttributeError
               end
  | BInValues => match w with
                 | VCodes l => Ok (VBool (existsb (fun kv => py_eq v (VInt (snd kv))) l))
                 | _ => Err TypeError
                 end
  | BUnion => match v, w with
              | VPairs l, VPairs m => Ok (VPairs (fold_left (fun d kv => put (fst kv) (snd kv) d) m l))
              | VCodes l, VCodes m => Ok (VCodes (fold_left (fun d kv => put (fst kv) (snd kv) d) m l))
              | _, _ => Err TypeError
              end
  | BEscape => match v, w with
               | VStr s, VStr (String c EmptyString) =>
                   Ok (VStr (replace_char c (String BSLASH (String c EmptyString)) s))
               | _, _ => Err TypeError
               end
  end.

Fixpoint eval (c : ctx) (self : attrs) (e : env) (x : expr) : res pval :=
  match x with
  | EConst v => Ok (PV v)
  | EVar y => if String.eqb y "self" then Ok PSelf
              else match assoc y e with Some p => Ok p | None => Err AttributeError end
  | EArgs => Ok (PV (VStrs (c_args c)))
  | EAttr y a =>
      do p <- eval c self e y ;;
      match find_attr self p a with Some v => Ok (PV v) | None => Err AttributeError end
  | EGet y a d =>
      do p <- eval c self e y ;;
      match find_attr self p a with Some v => Ok (PV v) | None => eval c self e d end
  | EHas y a =>
      do p <- eval c self e y ;;
      Ok (PV (VBool (match find_attr self p a with Some _ => true | None => false end)))
  | EUn UNot y => do p <- eval c self e y ;; Ok (PV (VBool (negb (p_truthy p))))
  | EUn o y => do p <- eval c self e y ;; do v <- to_val p ;; do w <- un o v ;; Ok (PV w)
  | EBin o y z =>
      do p <- eval c self e y ;; do v <- to_val p ;;
      do q <- eval c self e z ;; do w <- to_val q ;;
      do r <- bin o v w ;; Ok (PV r)
  | EAnd y z => do p <- eval c self e y ;; if p_truthy p then eval c self e z else Ok p
  | EOr y z => do p <- eval c self e y ;; if p_truthy p then Ok p else eval c self e z
  | ESeen n => match seen_in (c_view c) n with Some b => Ok (PV (VBool b)) | None => Err AttributeError end
  | EHandlerHas n => Ok (PV (VBool (match seen_in (c_view c) n with Some _ => true | None => false end)))
  | ENew n => match assoc n (v_data (c_view c)) with
              | Some k => Ok (PObj (mkData k (c_new c k)))
              | None => Err AttributeError
              end
  | EDataStr y =>
      do p <- eval c self e y ;;
      match p with PObj d => do s <- c_str c d ;; Ok (PV (VStr s)) | _ => Err TypeError end
  | EDataNames a =>
      do l <- map_res (fun d => match get a (d_attrs d) with VStr s => Ok s | _ => Err TypeError end) (c_list c) ;;
      Ok (PV (VStrs l))
  | EUsed y z =>
      do p <- eval c self e y ;; do v <- to_val p ;;
      do q <- eval c self e z ;;
      match v with
      | VPairs l => Ok (PV (VStrs (map snd (filter (fun ao =>
          match find_attr self q (fst ao) with Some w => truthy w | None => false end) l))))
      | _ => Err TypeError
      end
  | ENoKw => Ok (PNs [])
  end.

(** ** Statements *)

(** Where a called method is looked up: in a named class, in the classes after a named
    one (super), or from the class of the object. *)
Inductive target := TClass (c : string) | TSuper (c : string) | TSelf.

Inductive stmt :=
| SPass
| SSeq (s t : stmt)
| SAssign (x : string) (e : expr)
| SAttr (x a : string) (e : expr)             (* x.a = e *)
| SDel (x a : string)                         (* del x.a *)
| SAppend (x : string) (e : expr)             (* x.append(e) *)
| SPartition (x y z sep : string) (e : expr)  (* x, y, z = e.partition(sep) *)
| SParse (ns : string)                        (* ns = self.op.parse_args(args, self.lineno) *)
| SParseKnown (ns extra : string)             (* ns, extra = self.op.parse_known_args(...) *)
| SSetTo (ns x : string)                      (* self.set_to_obj(ns, x) *)
| SIf (c : expr) (s t : stmt)
| SFor (x : string) (e : expr) (s : stmt)     (* for x in e: s *)
| SForPairs (x y : string) (e : expr) (s : stmt)
| SForData (x : string) (s : stmt)            (* for x in self.dataList(): s *)
| SRaise (line : bool) (tag : string)         (* raise KickstartParseError(..[, lineno=self.lineno]) *)
| STypeError                                  (* raise TypeError(..) *)
| SAssert (e : expr)
| SReturn (e : expr)
| SBreak
| SDelRemoved (l : list string)               (* self.deleteRemovedAttrs() *)
| SCall (x : string) (t : target) (m : string) (params : list (string * expr))
| SBlock (x : string) (params : list (string * expr)) (s : stmt).

Inductive outcome :=
| ONext (e : env) (self : attrs)
| OBreak (e : env) (self : attrs)
| OReturn (p : pval) (self : attrs)
| ORaise (x : exn) (self : attrs).

Definition line_of (self : attrs) : option N :=
  match get "lineno" self with VInt z => Some (Z.to_N z) | _ => None end.

(** [x.a = v]: the state of x lives in the variable, except that of self. *)
Definition set_on (x a : string) (v : value) (e : env) (self : attrs) : outcome :=
  if String.eqb x "self" then ONext e (put a v self)
  else match assoc x e with
       | Some PSelf => ONext e (put a v self)
       | Some (PNs n) => ONext (put x (PNs (put a v n)) e) self
       | Some (PObj d) => ONext (put x (PObj (mkData (d_class d) (put a v (d_attrs d)))) e) self
       | _ => ORaise AttributeError self
       end.
Definition del_on (x a : string) (e : env) (self : attrs) : outcome :=
  if String.eqb x "self" then ONext e (del a self)
  else match assoc x e with
       | Some PSelf => ONext e (del a self)
       | Some (PNs n) => ONext (put x (PNs (del a n)) e) self
       | Some (PObj d) => ONext (put x (PObj (mkData (d_class d) (del a (d_attrs d)))) e) self
       | _ => ORaise AttributeError self
       end.
(** base.py:162-184 (set_to_self, set_to_obj). *)
Definition set_to (ns : attrs) (x : string) (e : env) (self : attrs) : outcome :=
  if String.eqb x "self" then ONext e (set_to_obj ns self)
  else match assoc x e with
       | Some PSelf => ONext e (set_to_obj ns self)
       | Some (PObj d) => ONext (put x (PObj (mkData (d_class d) (set_to_obj ns (d_attrs d)))) e) self
       | _ => ORaise AttributeError self
       end.

Definition with_val (r : res pval) (self : attrs) (k : value -> outcome) : outcome :=
  match r with
  | Ok (PV v) => k v
  | Ok _ => ORaise TypeError self
  | Err x => ORaise x self
  end.

(** A for loop over [l]; break ends it. *)
Fixpoint loop {A} (body : A -> env -> attrs -> outcome) (l : list A) (e : env) (self : attrs) : outcome :=
  match l with
  | [] => ONext e self
  | x :: r => match body x e self with
              | ONext e' self' => loop body r e' self'
              | OBreak e' self' => ONext e' self'
              | o => o
              end
  end.

Definition bind_params (c : ctx) (self : attrs) (e : env) (l : list (string * expr)) : res env :=
  map_res (fun xe => do p <- eval c self e (snd xe) ;; Ok (fst xe, p)) l.

Fixpoint exec (c : ctx) (s : stmt) (e : env) (self : attrs) : outcome :=
  match s with
  | SPass => ONext e self
  | SSeq s t => match exec c s e self with ONext e' self' => exec c t e' self' | o => o end
  | SAssign x y => match eval c self e y with Ok p => ONext (put x p e) self | Err z => ORaise z self end
  | SAttr x a y => with_val (eval c self e y) self (fun v => set_on x a v e self)
  | SDel x a => del_on x a e self
  | SAppend x y =>
      with_val (eval c self e y) self (fun v =>
        match v, assoc x e with
        | VStr s, Some (PV (VStrs l)) => ONext (put x (PV (VStrs (l ++ [s]))) e) self
        | _, _ => ORaise TypeError self
        end)
  | SPartition x y z sep w =>
      with_val (eval c self e w) self (fun v =>
        match v, sep with
        | VStr s, String ch EmptyString =>
            let '(b, found, a) := partition_char ch s in
            ONext (put z (PV (VStr a)) (put y (PV (VStr (if found : bool then sep else ""))) (put x (PV (VStr b)) e))) self
        | _, _ => ORaise TypeError self
        end)
  | SParse ns =>
      match parse_args (c_parser c) (line_of self) (c_args c) with
      | Ok n => ONext (put ns (PNs n) e) self
      | Err z => ORaise z self
      end
  | SParseKnown ns extra =>
      match parse_known_args (c_parser c) (line_of self) (c_args c) with
      | Ok (n, r) => ONext (put extra (PV (VStrs r)) (put ns (PNs n) e)) self
      | Err z => ORaise z self
      end
  | SSetTo ns x => match assoc ns e with Some (PNs n) => set_to n x e self | _ => ORaise TypeError self end
  | SIf y s t =>
      match eval c self e y with
      | Ok p => if p_truthy p then exec c s e self else exec c t e self
      | Err z => ORaise z self
      end
  | SFor x y s =>
      with_val (eval c self e y) self (fun v =>
        match v with
        | VStrs l => loop (fun i e self => exec c s (put x (PV (VStr i)) e) self) l e self
        | _ => ORaise TypeError self
        end)
  | SForPairs x y w s =>
      with_val (eval c self e w) self (fun v =>
        match v with
        | VPairs l => loop (fun i e self => exec c s (put y (PV (VStr (snd i))) (put x (PV (VStr (fst i))) e)) self) l e self
        | VCodes l => loop (fun i e self => exec c s (put y (PV (VInt (snd i))) (put x (PV (VStr (fst i))) e)) self) l e self
        | _ => ORaise TypeError self
        end)
  | SForData x s => loop (fun d e self => exec c s (put x (PObj d) e) self) (c_list c) e self
  | SRaise true tag => ORaise (KSParseError (line_of self) tag) self
  | SRaise false tag => ORaise (KSParseError None tag) self
  | STypeError => ORaise TypeError self
  | SAssert y =>
      match eval c self e y with
      | Ok p => if p_truthy p then ONext e self else ORaise AssertionError self
      | Err z => ORaise z self
      end
  | SReturn y => match eval c self e y with Ok p => OReturn p self | Err z => ORaise z self end
  | SBreak => OBreak e self
  | SDelRemoved l => ONext e (delete_removed l self)
  | SCall _ _ _ _ => ORaise TypeError self
  | SBlock x ps s =>
      match bind_params c self e ps with
      | Err z => ORaise z self
      | Ok e0 =>
          match exec c s e0 self with
          | ONext _ self' | OBreak _ self' => ONext (put x (PV VNone) e) self'
          | OReturn p self' => ONext (put x p e) self'
          | ORaise z self' => ORaise z self'
          end
      end
  end.
