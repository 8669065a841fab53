(** * The command classes, from their methods

    Looks up the methods of a class along its method resolution order (ClassModel.v),
    replaces calls by the bodies of the methods called, and makes from __init__, parse
    and __str__ the records that the handler model works with. *)

From Verif Require Export ClassModel CmdTables CmdCode.
From Verif Require Import Value.
Local Open Scope string_scope.
Local Open Scope list_scope.

(** ** The base classes *)

(** base.py:92-99 and base.py:587-588; ko.py:35-36 and base.py:596-598; base.py:131-135;
    base.py:197-221; base.py:229-252.  The checks against instances of the abstract
    classes are left out, as is the attribute handler. *)
Definition base_code : list (string * list (string * method)) :=
  [("KickstartCommand",
     [("__init__", mkMethod [("writePriority", Some (VInt 0)); ("kwargs", None)]
         (steps [SAttr "self" "writePriority" (EVar "writePriority");
               SAttr "self" "currentCmd" (str "");
               SAttr "self" "currentLine" (str "");
               SAttr "self" "lineno" (EConst (VInt 0));
               SAttr "self" "seen" (EConst (VBool false))]));
      ("__str__", mkMethod [] (SReturn (str "")));
      ("parse", mkMethod [] STypeError);
      ("dataClass", mkMethod [] (SReturn (EConst VNone)))]);
   ("DeprecatedCommand",
     [("__init__", mkMethod [("writePriority", Some VNone); ("kwargs", None)]
         (SCall "_t1" (TClass "KickstartCommand") "__init__"
            [("writePriority", EVar "writePriority"); ("kwargs", EVar "kwargs")]));
      ("__str__", mkMethod [] (SReturn (str "")));
      ("parse", mkMethod [] SPass);
      ("dataClass", mkMethod [] (SReturn (EConst VNone)))]);
   ("RemovedCommand",
     [("__init__", mkMethod [("writePriority", Some VNone); ("kwargs", None)]
         (SCall "_t1" (TClass "KickstartCommand") "__init__"
            [("writePriority", EVar "writePriority"); ("kwargs", EVar "kwargs")]));
      ("__str__", mkMethod [] (SReturn (str "")));
      ("parse", mkMethod [] (SRaise true "removed"));
      ("dataClass", mkMethod [] (SReturn (EConst VNone)))]);
   ("BaseData",
     [("__init__", mkMethod [("kwargs", None)] (SAttr "self" "lineno" (EConst (VInt 0))));
      ("__str__", mkMethod [] (SReturn (str "")))])].

(** ** Calls *)

(** [None] also when the search meets a class outside the tables. *)
Fixpoint find_method (m : string) (l : list string) : option method :=
  match l with
  | [] => None
  | c :: r => match assoc c (base_code ++ code) with
              | Some ms => match assoc m ms with Some x => Some x | None => find_method m r end
              | None => None
              end
  end.
Definition mro_of (c : string) : list string := match mro 40 c with Some l => l | None => [] end.
Fixpoint after (c : string) (l : list string) : list string :=
  match l with [] => [] | x :: r => if String.eqb c x then r else after c r end.

(** The classes searched for a called method; [self] is the resolution order of the
    class of the object. *)
Definition search (self : list string) (t : target) : list string :=
  match t with TClass c => mro_of c | TSuper c => after c self | TSelf => self end.

(** The parameters of a call: given, or the default; keyword arguments that are not
    given are none.  ( *args is not modelled: no class is made with more positional
    arguments than it has parameters.) *)
Definition fill_params (given : list (string * expr)) (ps : list (string * option value))
  : option (list (string * expr)) :=
  fold_right (fun p r =>
    match r with
    | None => None
    | Some r =>
        match assoc (fst p) given, snd p with
        | Some e, _ => Some ((fst p, e) :: r)
        | None, Some v => Some ((fst p, EConst v) :: r)
        | None, None => if String.eqb (fst p) "kwargs" then Some ((fst p, ENoKw) :: r) else None
        end
    end) (Some []) ps.

Definition lift2 {A B C} (f : A -> B -> C) (x : option A) (y : option B) : option C :=
  match x, y with Some a, Some b => Some (f a b) | _, _ => None end.

Section Expand.
Variable call : string -> target -> string -> list (string * expr) -> option stmt.
Variable removed : list string.
Fixpoint expand_with (s : stmt) : option stmt :=
  match s with
  | SSeq s t => lift2 SSeq (expand_with s) (expand_with t)
  | SIf c s t => lift2 (SIf c) (expand_with s) (expand_with t)
  | SFor x e s => option_map (SFor x e) (expand_with s)
  | SForPairs x y e s => option_map (SForPairs x y e) (expand_with s)
  | SForData x s => option_map (SForData x) (expand_with s)
  | SBlock x ps s => option_map (SBlock x ps) (expand_with s)
  | SDelRemoved _ => Some (SDelRemoved removed)
  | SCall x t m ps => call x t m ps
  | _ => Some s
  end.
End Expand.

(** The statement with every call replaced by the body it runs; [None] when a method is
    not in the tables or the fuel, a bound on the nesting of calls, is used up. *)
Fixpoint expand (fuel : nat) (self removed : list string) (s : stmt) : option stmt :=
  match fuel with
  | O => None
  | S fuel =>
      expand_with (fun x t m ps =>
        match find_method m (search self t) with
        | None => None
        | Some k => match fill_params ps (m_params k), expand fuel self removed (m_body k) with
                    | Some ps, Some s => Some (SBlock x ps s)
                    | _, _ => None
                    end
        end) removed s
  end.

Definition removed_of (c : string) : list string :=
  match assoc c removed_attrs with Some l => l | None => [] end.

(** The body of [obj.m(ps)] for an object of class [c]; the result is left in "_r". *)
Definition method_of (c m : string) (ps : list (string * expr)) : option stmt :=
  expand 40 (mro_of c) (removed_of c) (SCall "_r" TSelf m ps).

(** ** Objects *)

Definition no_view : view := mkView [] [].
Definition no_ctx : ctx := mkCtx no_view [] [] empty_parser (fun _ => []) (fun _ => Err TypeError).

(** The object after a method, and what the method gives. *)
Definition run (c : ctx) (s : stmt) (e : env) (self : attrs) : attrs * res pval :=
  match exec c s e self with
  | ONext e' self' => (self', match assoc "_r" e' with Some p => Ok p | None => Err TypeError end)
  | OBreak _ self' => (self', Err TypeError)
  | OReturn p self' => (self', Ok p)
  | ORaise x self' => (self', Err x)
  end.

(** [C( **kwargs)]. *)
Definition new_attrs (c : string) (kwargs : attrs) : res attrs :=
  match method_of c "__init__" [("kwargs", EVar "kwargs")] with
  | None => Err TypeError
  | Some s => let '(a, r) := run no_ctx s [("kwargs", PNs kwargs)] [] in do _ <- r ;; Ok a
  end.
Definition init_of (c : string) : attrs := match new_attrs c [] with Ok a => a | Err _ => [] end.

(** self.op: the option table made by the first _getParser of the resolution order.
    Python makes it during __init__; the functions and lists it refers to are the
    attributes of the finished object. *)
Fixpoint find_table (l : list string) : option (attrs -> list tableop) :=
  match l with
  | [] => None
  | c :: r => match assoc c tables with Some t => Some t | None => find_table r end
  end.
Definition table_of (c : string) : list tableop :=
  match find_table (mro_of c) with Some t => t (init_of c) | None => [] end.

(** [str(d)] for a data object. *)
Definition data_str (d : data) : res string :=
  match method_of (d_class d) "__str__" [] with
  | None => Err TypeError
  | Some s =>
      do p <- snd (run no_ctx s [] (d_attrs d)) ;;
      match p with PV (VStr t) => Ok t | _ => Err TypeError end
  end.

Definition parse_ctx (c : string) (v : view) (l : list data) (args : list string) : ctx :=
  mkCtx v l args (build (table_of c)) init_of data_str.

(** obj.parse(args): the data object, or [None] for the command itself or None. *)
Definition cmd_parse (c : string) (s : stmt) (v : view) (a : attrs) (l : list data) (args : list string)
  : attrs * list data * res (option data) :=
  let '(a', r) := run (parse_ctx c v l args) s [] a in
  (a', l, do p <- r ;; Ok (match p with PObj d => Some d | _ => None end)).

(** str(obj). *)
Definition cmd_str (c : string) (s : stmt) (a : attrs) (l : list data) : res string :=
  do p <- snd (run (parse_ctx c no_view l []) s [] a) ;;
  match p with PV (VStr t) => Ok t | _ => Err TypeError end.

(** The command class [c], from the three methods; a class outside the tables comes from
    [rest].  [cl_str] has no room for an exception: it is "" when __str__ raises one. *)
Definition cmd_class (rest : string -> cclass) (c : string) : cclass :=
  match method_of c "__init__" [], method_of c "parse" [], method_of c "__str__" [] with
  | Some _, Some p, Some t =>
      mkClass c (init_of c) (mem c list_classes) (removed_of c) (cmd_parse c p)
        (fun a l => match cmd_str c t a l with Ok x => x | Err _ => "" end)
  | _, _, _ => rest c
  end.
