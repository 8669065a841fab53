(** * The installation method proxy (pykickstart/commands/method.py)

    The method command stores nothing itself: it reads and writes the attributes of the
    commands cdrom, harddrive, nfs, url, ... of its handler. *)

From Verif Require Export Handler ClassModel.
From Verif Require Import Value.
Local Open Scope string_scope.
Local Open Scope list_scope.

(** The attribute [_methods] of the classes that define it (method.py:33, 125, 131). *)
Definition fc3_methods : list string := ["cdrom"; "harddrive"; "nfs"; "url"].
Definition f19_methods : list string := fc3_methods ++ ["liveimg"].
Definition rhel7_methods : list string := f19_methods ++ ["hmc"].
Definition method_lists : list (string * list string) :=
  [("FC3_Method", fc3_methods); ("F19_Method", f19_methods); ("RHEL7_Method", rhel7_methods)].
Fixpoint first_list (l : list string) : list string :=
  match l with
  | [] => []
  | c :: r => match assoc c method_lists with Some m => m | None => first_list r end
  end.
(** [c._methods], looked up along the inheritance order. *)
Definition methods_of (c : string) : list string := match mro 40 c with Some l => first_list l | None => [] end.

(** method.py:30-31 (internals). *)
Definition internals : list string := ["method"; "writePriority"; "currentCmd"; "currentLine"; "handler"; "lineno"; "seen"].

(** [getattr(self.handler, m)]: the command behind an attribute of the handler. *)
Definition command_at (h : handler) (m : string) : res (nat * cmdobj) :=
  match assoc m (h_attrs h) with
  | Some (Some i) => match obj_at h i with Some o => Ok (i, o) | None => Err AttributeError end
  | _ => Err AttributeError
  end.

(** [setattr(command, k, v)]. *)
Definition set_attr (i : nat) (o : cmdobj) (k : string) (v : value) (h : handler) : handler :=
  set_obj i (mkObj (o_class o) (put k v (o_attrs o)) (o_data o)) h.

(** method.py:35-38 (_clear_seen). *)
Fixpoint clear_seen (ms : list string) (h : handler) : handler * option exn :=
  match ms with
  | [] => (h, None)
  | m :: r =>
      match command_at h m with
      | Ok (i, o) => clear_seen r (set_attr i o "seen" (VBool false) h)
      | Err e => (h, Some e)
      end
  end.

(** method.py:40-50 (_get_command). *)
Definition get_command (ms : list string) (h : handler) (m : value) : res (nat * cmdobj) :=
  match m with
  | VNone => if mem "url" ms then command_at h "url" else Err AttributeError
  | VStr s => if mem s ms then command_at h s else Err AttributeError
  | _ => Err AttributeError
  end.

(** method.py:52-59 (the property method). *)
Fixpoint get_method (ms : list string) (h : handler) : res value :=
  match ms with
  | [] => Ok VNone
  | m :: r =>
      do io <- command_at h m ;;
      if o_seen (snd io) then Ok (VStr m) else get_method r h
  end.

(** method.py:61-69 (its setter). *)
Definition set_method (ms : list string) (v : value) (h : handler) : handler * option exn :=
  match clear_seen ms h with
  | (h1, Some e) => (h1, Some e)
  | (h1, None) =>
      if is_none v then (h1, None)
      else match get_command ms h1 v with
           | Ok (i, o) => (set_attr i o "seen" (VBool true) h1, None)
           | Err e => (h1, Some e)
           end
  end.

(** Names Python finds in the usual places besides the instance: the methods and class
    attributes of FC3_Method, KickstartCommand, KickstartObject and object (method.py:25-105,
    base.py:59-189, ko.py).  Their values are not modelled. *)
Definition class_level : list string :=
  ["removedKeywords"; "removedAttrs"; "internals"; "_methods"; "_clear_seen"; "_get_command"; "_getParser"; "parse"; "dataList";
   "dataClass"; "deleteRemovedAttrs"; "set_to_self"; "_setToSelf"; "set_to_obj"; "_setToObj"; "handler"].
Definition dunder (n : string) : bool := startswith n "__".

(** Reading [method.NAME]: the property, the instance attributes ([self] is the identity of
    the method command), else __getattr__ (method.py:71-84).  [None]: not modelled. *)
Definition read_attr (ms : list string) (self : nat) (h : handler) (n : string) : option (res value) :=
  if mem n class_level || dunder n then None
  else if String.eqb n "method" then Some (get_method ms h)
  else match obj_at h self with
       | None => Some (Err AttributeError)   (* no such identity: never happens *)
       | Some s =>
           match assoc n (o_attrs s) with
           | Some v => Some (Ok v)
           | None =>
               Some (do m <- get_method ms h ;;
                     do io <- get_command ms h m ;;
                     match assoc n (o_attrs (snd io)) with Some v => Ok v | None => Err AttributeError end)
           end
       end.

(** [method.NAME = v]: __setattr__ (method.py:86-101).  The attributes of the class of the
    selected command are not modelled. *)
Definition write_attr (ms : list string) (self : nat) (n : string) (v : value) (h : handler) : handler * option exn :=
  if String.eqb n "method" then set_method ms v h
  else if mem n internals then
    match obj_at h self with
    | Some s => (set_attr self s n v h, None)
    | None => (h, Some AttributeError)   (* no such identity: never happens *)
    end
  else
    match (do m <- get_method ms h ;; get_command ms h m) with
    | Err e => (h, Some e)
    | Ok (i, o) =>
        match assoc n (o_attrs o) with
        | None => (h, Some AttributeError)
        | Some _ => (set_attr i o n v h, None)
        end
    end.

(** base.py:108-122 (__call__) for the method command: its removedAttrs is empty
    (method.py:26), and hasattr means that reading succeeds. *)
Fixpoint method_call_loop (ms : list string) (self : nat) (kwargs : attrs) (h : handler) : handler * option exn :=
  match kwargs with
  | [] => (h, None)
  | (k, v) :: r =>
      match read_attr ms self h k with
      | Some (Ok _) => match write_attr ms self k v h with
                       | (h1, None) => method_call_loop ms self r h1
                       | (h1, Some e) => (h1, Some e)
                       end
      | _ => method_call_loop ms self r h
      end
  end.
Definition method_call (ms : list string) (self : nat) (kwargs : attrs) (h : handler) : handler * option exn :=
  match obj_at h self with
  | Some s => method_call_loop ms self kwargs (set_attr self s "seen" (VBool true) h)
  | None => (h, Some AttributeError)   (* no such identity: never happens *)
  end.
