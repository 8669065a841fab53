(** * Command objects and KickstartHandler of pykickstart/base.py

    Python classes are records: what the model needs of a command class is its
    name, the attributes of a new instance, whether it keeps a list of data
    objects, and its parse and __str__ methods.  Concrete classes are in the files
    Cmd*.v; everything here holds for any classes. *)

From Verif Require Export Sections.
From Verif Require Import Value.
Local Open Scope string_scope.
Local Open Scope list_scope.

(** A BaseData instance (base.py:572-619): class name and instance attributes, lineno
    among them. *)
Record data := mkData { d_class : string; d_attrs : attrs }.

(** What a parse method can see of its handler: [self.handler.NAME.seen] for the names
    in [watched] ([None]: the handler has no attribute NAME, an AttributeError unless
    guarded by hasattr) and the data classes [self.handler.NAMEData].  (grep handler in
    commands/: parse methods use nothing else of it, and none changes it.) *)
Definition watched : list string := ["autopart"; "partition"; "raid"; "volgroup"; "logvol"; "mount"; "reqpart"].
Record view := mkView { v_seen : list (string * option bool); v_data : list (string * string) }.
Definition seen_in (v : view) (n : string) : option bool :=
  match assoc n (v_seen v) with Some r => r | None => None end.

(** A subclass of KickstartCommand (base.py:59-189).  [cl_init] are the instance
    attributes after __init__, with writePriority, currentCmd, currentLine, lineno and
    seen (base.py:92-99).  [cl_list]: dataList() is not None.  [cl_parse] gives the
    attributes and data list afterwards, and the exception, or the data object
    returned, if any ([None]: the command itself, or nothing). *)
Record cclass := mkClass {
  cl_name : string;
  cl_init : attrs;
  cl_list : bool;
  cl_removed : list string;
  cl_parse : view -> attrs -> list data -> list string -> attrs * list data * res (option data);
  cl_str : attrs -> list data -> string }.

(** base.py:92-99, with the writePriority given to __init__. *)
Definition base_attrs (prio : value) : attrs :=
  [("writePriority", prio); ("currentCmd", VStr ""); ("currentLine", VStr "");
   ("lineno", VInt 0); ("seen", VBool false)].

Record cmdobj := mkObj { o_class : cclass; o_attrs : attrs; o_data : list data }.
Definition new_obj (k : cclass) : cmdobj := mkObj k (cl_init k) [].
Definition o_name (o : cmdobj) : string := cl_name (o_class o).
Definition o_seen (o : cmdobj) : bool := truthy (get "seen" (o_attrs o)).
Definition o_str (o : cmdobj) : string := cl_str (o_class o) (o_attrs o) (o_data o).
(** writePriority: an integer, or None. *)
Definition o_prio (o : cmdobj) : option Z :=
  match get "writePriority" (o_attrs o) with VInt z => Some z | _ => None end.

(** ** The handler *)

(** Objects are shared between the dictionaries of the handler, so they live in a
    heap: [h_objs], indexed by identity.  [h_attrs] are the attributes added by
    _setCommand, [h_dataclasses] those added by registerData; the other attributes of
    the handler are fixed and have other names.  [None] as a command is a masked
    command. *)
Record handler := mkHandler {
  h_objs : list cmdobj;
  h_commands : list (string * option nat);
  h_attrs : list (string * option nat);
  h_order : list (Z * list nat);
  h_dataclasses : list (string * string);
  h_line : string }.

(** base.py:268-292 (__init__). *)
Definition empty_handler : handler := mkHandler [] [] [] [] [] "".

Definition obj_at (h : handler) (i : nat) : option cmdobj := nth_error (h_objs h) i.
Definition name_at (h : handler) (i : nat) : string :=
  match obj_at h i with Some o => o_name o | None => "" end.

Fixpoint replace_nth {A} (i : nat) (x : A) (l : list A) : list A :=
  match l, i with
  | [], _ => []
  | _ :: r, O => x :: r
  | y :: r, S i' => y :: replace_nth i' x r
  end.
Definition set_obj (i : nat) (o : cmdobj) (h : handler) : handler :=
  mkHandler (replace_nth i o (h_objs h)) (h_commands h) (h_attrs h) (h_order h) (h_dataclasses h) (h_line h).

(** base.py:310-329 (_insertSorted), comparing the names of the classes. *)
Fixpoint insert_sorted (nm : nat -> string) (i : nat) (l : list nat) : list nat :=
  match l with
  | [] => [i]
  | j :: r =>
      if str_ltb (nm j) (nm i) then j :: insert_sorted nm i r
      else if String.eqb (nm i) (nm j) then i :: r
      else i :: l
  end.

(** The dictionary _writeOrder, keyed by priority. *)
Fixpoint order_insert (nm : nat -> string) (p : Z) (i : nat) (l : list (Z * list nat)) : list (Z * list nat) :=
  match l with
  | [] => [(p, [i])]
  | (q, m) :: r => if Z.eqb p q then (q, insert_sorted nm i m) :: r else (q, m) :: order_insert nm p i r
  end.

(** base.py:331-343: the attribute under which the handler shows a command. *)
Definition attr_name (cls : string) : string :=
  let '(_, found, rest) := partition_char "_"%char cls in
  lower (if found : bool then rest else cls).

(** base.py:331-351 (_setCommand) for a new object [o], which gets the next
    identity. *)
Definition set_command (o : cmdobj) (h : handler) : handler :=
  let i := length (h_objs h) in
  let objs := h_objs h ++ [o] in
  let nm j := match nth_error objs j with Some o => o_name o | None => "" end in
  mkHandler objs (h_commands h) (put (attr_name (o_name o)) (Some i) (h_attrs h))
    (match o_prio o with Some p => order_insert nm p i (h_order h) | None => h_order h end)
    (h_dataclasses h) (h_line h).

Definition set_commands c h :=
  mkHandler (h_objs h) c (h_attrs h) (h_order h) (h_dataclasses h) (h_line h).
Definition set_line l h :=
  mkHandler (h_objs h) (h_commands h) (h_attrs h) (h_order h) (h_dataclasses h) l.

(** base.py:363-369: the first command whose object has a class of that name.  (The
    class of None is NoneType.) *)
Fixpoint find_class (h : handler) (n : string) (cmds : list (string * option nat)) : option nat :=
  match cmds with
  | [] => None
  | (_, Some i) :: r => if String.eqb (name_at h i) n then Some i else find_class h n r
  | (_, None) :: r => find_class h n r
  end.

(** base.py:353-374 (registerCommand). *)
Definition register_command (h : handler) (nk : string * cclass) : handler :=
  let (n, k) := nk in
  match find_class h (cl_name k) (h_commands h) with
  | Some i => set_commands (put n (Some i) (h_commands h)) h
  | None => let i := length (h_objs h) in
            let h := set_command (new_obj k) h in
            set_commands (put n (Some i) (h_commands h)) h
  end.

(** base.py:376-378 (registerData). *)
Definition register_data (h : handler) (nd : string * string) : handler :=
  mkHandler (h_objs h) (h_commands h) (h_attrs h) (h_order h)
    (put (fst nd) (snd nd) (h_dataclasses h)) (h_line h).

(** Dictionary update: [d.update(e)]. *)
Definition dict_update {A} (d e : list (string * A)) : list (string * A) :=
  fold_left (fun m kv => put (fst kv) (snd kv) m) e d.

(** base.py:523-553 (_registerCommands); [default] and [ddefault] are the maps of
    handlers/control.py for the handler's version. *)
Definition chosen {A} (default mapping updates : list (string * A)) : list (string * A) :=
  dict_update (match mapping with [] => default | _ => mapping end) updates.
Definition build_handler (cmap : list (string * cclass)) (dmap : list (string * string)) : handler :=
  fold_left register_data dmap (fold_left register_command cmap empty_handler).
Definition new_handler default ddefault mapping dmapping updates dupdates : handler :=
  build_handler (chosen default mapping updates) (chosen ddefault dmapping dupdates).

(** base.py:380-395 (resetCommand).  For a masked command the new "object" is None:
    an attribute nonetype is made and looking up its writePriority fails. *)
Definition reset_command (n : string) (h : handler) : handler * option exn :=
  match assoc n (h_commands h) with
  | None => (h, Some KeyError)
  | Some None =>
      (mkHandler (h_objs h) (h_commands h) (put "nonetype" None (h_attrs h)) (h_order h)
         (h_dataclasses h) (h_line h), Some AttributeError)
  | Some (Some i) =>
      match obj_at h i with
      | None => (h, Some AttributeError)   (* no such identity: never happens *)
      | Some o =>
          let j := length (h_objs h) in
          let h := set_command (new_obj (o_class o)) h in
          (set_commands (put n (Some j) (h_commands h)) h, None)
      end
  end.

(** What parse methods see of the handler. *)
Definition attr_obj (h : handler) (n : string) : option cmdobj :=
  match assoc n (h_attrs h) with
  | Some (Some i) => obj_at h i
  | _ => None
  end.
Definition view_of (h : handler) : view :=
  mkView (map (fun n => (n, option_map o_seen (attr_obj h n))) watched) (h_dataclasses h).

(** base.py:412-415: the attributes set before parse is called. *)
Definition stamp (cmd line : string) (ln : N) (a : attrs) : attrs :=
  put "seen" (VBool true) (put "lineno" (VInt (Z.of_N ln))
    (put "currentLine" (VStr line) (put "currentCmd" (VStr cmd) a))).

(** base.py:397-429 (dispatcher). *)
Definition dispatcher (h : handler) (args : list string) (ln : N) : handler * option exn :=
  match args with
  | [] => (h, Some IndexError)
  | cmd :: rest =>
      match assoc cmd (h_commands h) with
      | None => (h, Some (KSParseError (Some ln) "unknown command"))
      | Some None => (h, None)
      | Some (Some i) =>
          match obj_at h i with
          | None => (h, Some AttributeError)   (* no such identity: never happens *)
          | Some o =>
              let a := stamp cmd (h_line h) ln (o_attrs o) in
              let h1 := set_obj i (mkObj (o_class o) a (o_data o)) h in
              match cl_parse (o_class o) (view_of h1) a (o_data o) rest with
              | (a', d', Err e) => (set_obj i (mkObj (o_class o) a' d') h1, Some e)
              | (a', d', Ok r) =>
                  let d'' := match r with
                             | Some x => if cl_list (o_class o) then d' ++ [x] else d'
                             | None => d'
                             end in
                  (set_obj i (mkObj (o_class o) a' d'') h1, None)
              end
          end
      end
  end.

(** parser.py:578-587 (handleCommand). *)
Definition handle_command (h : handler) (line : string) (args : list string) (ln : N)
  : handler * option exn :=
  dispatcher (set_line line h) args ln.

(** base.py:555-563 (maskAllExcept). *)
Definition mask_all_except (keep : list string) (h : handler) : handler :=
  mkHandler (h_objs h)
    (map (fun c => if mem (fst c) keep then c else (fst c, None)) (h_commands h))
    (h_attrs h) [] (h_dataclasses h) (h_line h).

(** base.py:565-567 (hasCommand), for names that are not attributes every handler
    has. *)
Definition has_command (n : string) (h : handler) : bool :=
  has_key n (h_attrs h) || has_key n (h_dataclasses h).

(** ** Output *)

(** [lst.sort()] on the priorities. *)
Fixpoint insert_prio (x : Z * list nat) (l : list (Z * list nat)) : list (Z * list nat) :=
  match l with
  | [] => [x]
  | y :: r => if (fst x <=? fst y)%Z then x :: l else y :: insert_prio x r
  end.
Fixpoint sort_prio (l : list (Z * list nat)) : list (Z * list nat) :=
  match l with [] => [] | x :: r => insert_prio x (sort_prio r) end.

Definition str_at (h : handler) (i : nat) : string :=
  match obj_at h i with Some o => o_str o | None => "" end.

(** base.py:294-308 (KickstartHandler.__str__). *)
Definition commands_str (h : handler) : string :=
  concat_all (map (fun pl => concat_all (map (str_at h) (snd pl))) (sort_prio (h_order h))).

(** base.py:496-521 (BaseHandler.__str__); [pyks] is pykickstart.__version__ and
    [version] what versionToString gives for the handler's version. *)
Definition handler_str (pyks version : string) (ver : Z) (platform : string) (h : handler) (s : sechandler) : string :=
  ("# Generated by pykickstart v" ++ pyks ++ nl
   ++ (if String.eqb platform "" then "" else "#platform=" ++ platform ++ nl)
   ++ "#version=" ++ version ++ nl
   ++ commands_str h
   ++ concat_all (map (script_str ver) (sh_scripts s))
   ++ (match sh_nulls s with [] => "" | l => nl ++ concat_all l end)
   ++ packages_str ver (sh_packages s))%string.

(** ** Attributes *)

(** base.py:108-122 and base.py:601-613 (__call__), on the instance attributes; the
    attributes of the class are not modelled.  A command first sets seen. *)
Fixpoint call_attrs (removed : list string) (kwargs a : attrs) : attrs :=
  match kwargs with
  | [] => a
  | (k, v) :: r =>
      call_attrs removed r (if mem k removed then a else if has_key k a then put k v a else a)
  end.
Definition call_command (kwargs : attrs) (o : cmdobj) : cmdobj :=
  mkObj (o_class o) (call_attrs (cl_removed (o_class o)) kwargs (put "seen" (VBool true) (o_attrs o))) (o_data o).

(** base.py:154-160 (deleteRemovedAttrs). *)
Definition delete_removed (removed : list string) (a : attrs) : attrs :=
  fold_left (fun a k => del k a) (filter (fun k => has_key k a) removed) a.

(** base.py:175-184 (set_to_obj). *)
Fixpoint set_to_obj (ns a : attrs) : attrs :=
  match ns with
  | [] => a
  | (k, v) :: r => set_to_obj r (if is_none v then a else put k v a)
  end.
