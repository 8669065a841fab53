(** * Declaring options the way KSOptionParser.add_argument does

    A [decl] is one add_argument call; tables are built from a list of calls.  The
    help, metavar and version keywords only serve documentation. *)

From Verif Require Export ArgParse Options.
From Verif Require Import Value.
Local Open Scope string_scope.
Local Open Scope list_scope.

(** firewall.py:84-93 (firewall_port_cb). *)
Definition port_list (s : string) : list string :=
  map (fun p => let p := strip p in if has_char ":" p then p else (p ++ ":tcp")%string)
      (split_char "," s).

(** network.py:618-655 (teamslaves_cb): the value is split at single quotes; device
    lists and configurations alternate. *)
Fixpoint pair_up (l : list string) : list (string * string) :=
  match l with
  | d :: c :: r => (d, c) :: pair_up r
  | _ => []
  end.
Definition even_parts (l : list string) : list string :=
  if Nat.even (length l) then l
  else if String.eqb (last l "") "" then removelast l else l ++ [""].
Definition slave_group (dc : string * string) : list (string * string) :=
  let devs := split_char "," (strip_char "," (fst dc)) in
  map (fun d => (d, "")) (removelast devs) ++ [(last devs "", snd dc)].
Definition team_slaves (s : string) : list (string * string) :=
  match s with
  | "" => []
  | _ => flat_map slave_group (pair_up (even_parts (split_char SQUOTE s)))
  end.

(** The functions used as [type=] by the modelled tables: none or str; int;
    ksboolean; commaSplit; mountpoint (options.py); device_cb (raid.py:338-342) and
    part_cb (partition.py:322-326), which drop a prefix; firewall_port_cb;
    teamslaves_cb; level_cb (btrfs.py:125-129 with lower(), raid.py:344-348 with
    upper()), a dictionary of names; _type_cb (autopart.py:281-285) and _when_cb
    (snapshot.py:86-91), dictionaries of constants.  The last three raise
    KickstartParseError with the line number of the command; [ValueError] becomes the
    same exception in [get_value]. *)
Inductive argty :=
| TStr | TInt | TBool | TComma | TMount
| TDrop (prefix : string) | TPorts | TTeam
| TName (up : bool) (m : list (string * string))
| TCode (m : list (string * Z)).

Definition ty_fun (t : argty) (s : string) : res value :=
  match t with
  | TStr => ty_str s
  | TInt => ty_int s
  | TBool => ty_bool s
  | TComma => ty_comma s
  | TMount => ty_mount s
  | TDrop p => Ok (VStr (if startswith s p then drop (String.length p) s else s))
  | TPorts => Ok (VStrs (port_list s))
  | TTeam => Ok (VPairs (team_slaves s))
  | TName up m =>
      match assoc (if up then upper s else lower s) m with Some t => Ok (VStr t) | None => Err ValueError end
  | TCode m => match assoc (lower s) m with Some z => Ok (VInt z) | None => Err ValueError end
  end.

Record decl := mkDecl {
  d_opts : list string; d_dest : string; d_kind : akind; d_nargs : nargs_t;
  d_const : value; d_default : value; d_type : argty; d_choices : option (list string);
  d_required : bool; d_deprecated : bool }.

Definition action_of (d : decl) (i : nat) : action :=
  mkAction i (d_opts d) (d_dest d) (d_kind d) (d_nargs d) (d_const d) (d_default d)
    (ty_fun (d_type d)) (d_choices d) (d_required d) (d_deprecated d).

(** op.add_argument / op.remove_argument calls, in order. *)
Inductive tableop := OpAdd (d : decl) | OpRemove (o : string).

Definition apply_op (p : parser) (o : tableop) : parser :=
  match o with
  | OpAdd d => add_argument p (action_of d)
  | OpRemove o => remove_argument p o
  end.
Definition build (ops : list tableop) : parser := fold_left apply_op ops empty_parser.

(** The common shapes: action="store_true", action="store_false", a stored value. *)
Definition flag (opts : list string) (dest : string) (dflt : value) : decl :=
  mkDecl opts dest KStoreConst (NInt 0) (VBool true) dflt TStr None false false.
Definition flag_off (opts : list string) (dest : string) (dflt : value) : decl :=
  mkDecl opts dest KStoreConst (NInt 0) (VBool false) dflt TStr None false false.
Definition stored (opts : list string) (dest : string) (t : argty) (dflt : value) : decl :=
  mkDecl opts dest KStore NOne VNone dflt t None false false.
Definition deprecate (d : decl) : decl :=
  mkDecl (d_opts d) (d_dest d) (d_kind d) (d_nargs d) (d_const d) (d_default d) (d_type d)
    (d_choices d) (d_required d) true.
Definition require (d : decl) : decl :=
  mkDecl (d_opts d) (d_dest d) (d_kind d) (d_nargs d) (d_const d) (d_default d) (d_type d)
    (d_choices d) true (d_deprecated d).
Definition choose (l : list string) (d : decl) : decl :=
  mkDecl (d_opts d) (d_dest d) (d_kind d) (d_nargs d) (d_const d) (d_default d) (d_type d)
    (Some l) (d_required d) (d_deprecated d).
