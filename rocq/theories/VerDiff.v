(** * tools/ksverdiff.py: what differs between two versions of the syntax *)

From Verif Require Import ArgParse ArgDecl PyClass ClassModel HandlerMaps Version Tools.
From Verif Require Import Value.
Local Open Scope string_scope.
Local Open Scope list_scope.

(** isinstance(obj, base) for an object of the class [c]. *)
Definition is_a (base c : string) : bool := match mro 40 c with Some l => mem base l | None => false end.

(** The classes of the command maps whose objects have no attribute [op]: no __init__ that runs for them assigns it
    (tools/list_op.py lists them).  The Method classes are among them, see [op_class]. *)
Definition no_op : list string :=
  ["F10_Monitor"; "F14_Interactive"; "F15_Interactive"; "F18_Monitor"; "F19_Realm"; "F20_Upgrade"; "F24_Device"; "F24_DmRaid";
   "F24_MultiPath"; "F28_Authconfig"; "F28_Authselect"; "F28_Hmc"; "F29_DeviceProbe"; "F29_Install"; "F29_Upgrade"; "F34_AutoStep";
   "F34_Device"; "F34_DeviceProbe"; "F34_DmRaid"; "F34_Install"; "F34_MultiPath"; "F7_LangSupport"; "F7_Mouse"; "FC3_Authconfig";
   "FC3_AutoPart"; "FC3_Cdrom"; "FC3_DeviceProbe"; "FC3_Mouse"; "FC3_Reboot"; "FC4_Lilo"; "FC4_LiloCheck"; "FC5_LangSupport";
   "RHEL7_Hmc"; "RHEL8_BTRFS"].

(** commands/method.py:71-83 (__getattr__): an attribute that a Method object does not have is that of the command it stands for,
    which is url in a new handler (method.py:40-50, 53-59).  So [op] of the command method is [op] of url. *)
Definition op_class (cm : list (string * string)) (n c : string) : string :=
  if String.eqb n "method" then match assoc "url" cm with Some u => u | None => c end else c.
(** ksverdiff.py:95: hasattr(cmd, "op"). *)
Definition has_op (cm : list (string * string)) (n c : string) : bool := negb (mem (op_class cm n c) no_op).

(** ksverdiff.py:35-36 (getOptSet).  A set is a list without repetitions.  FC6_MultiPath has no table in this model and so
    no options here; no other class of multipath has [op], so that its options are in no list in the code either. *)
Definition first_string (a : action) : string := match a_opts a with o :: _ => o | [] => "" end.
Definition getOptSet (l : list action) : list string := nodup string_dec (map first_string l).
Definition options (cm : list (string * string)) (n c : string) : list action := p_actions (build (table_of (op_class cm n c))).

(** The difference of sets. *)
Definition without (a b : list string) : list string := filter (fun x => negb (mem x b)) a.

Record changes := mkChanges { ch_command : string; ch_added : list string; ch_deprecated : list string; ch_removed : list string }.
Record difference := mkDifference {
  df_removed : list string; df_deprecated : list string; df_added : list string; df_options : list changes }.

(** ksverdiff.py:69-71, 74-82, 85: the command sets and the lists of commands. *)
Definition served_by (cm : list (string * string)) (n : string) (p : string -> bool) : bool :=
  match assoc n cm with Some c => p c | None => false end.
Definition both (cf ct : list (string * string)) : list string := filter (fun n => mem n (map fst ct)) (map fst cf).
Definition removed_commands (cf ct : list (string * string)) : list string :=
  sort_str (filter (fun n => served_by ct n (is_a "RemovedCommand") && negb (served_by cf n (is_a "RemovedCommand"))) (both cf ct)
            ++ without (map fst cf) (map fst ct)).
Definition deprecated_commands (cf ct : list (string * string)) : list string :=
  sort_str (filter (fun n => served_by ct n (is_a "DeprecatedCommand") && negb (served_by ct n (is_a "RemovedCommand"))) (both cf ct)).
Definition added_commands (cf ct : list (string * string)) : list string := sort_str (without (map fst ct) (map fst cf)).

(** ksverdiff.py:88-103: the options of one command of both versions; None: the continue of line 96. *)
Definition changes_of (cf ct : list (string * string)) (n : string) : option changes :=
  match assoc n cf, assoc n ct with
  | Some c, Some c' =>
      if has_op cf n c && has_op ct n c' then
        let from := options cf n c in
        let to := options ct n c' in
        Some (mkChanges n (sort_str (without (getOptSet to) (getOptSet from)))
                          (sort_str (getOptSet (filter a_deprecated to)))
                          (sort_str (without (getOptSet from) (getOptSet to))))
      else None
  | _, _ => None
  end.
Fixpoint keep_some {A} (l : list (option A)) : list A :=
  match l with [] => [] | Some x :: r => x :: keep_some r | None :: r => keep_some r end.
(** ksverdiff.py:69-115. *)
Definition verdiff (cf ct : list (string * string)) : difference :=
  mkDifference (removed_commands cf ct) (deprecated_commands cf ct) (added_commands cf ct)
               (keep_some (map (changes_of cf ct) (sort_str (both cf ct)))).

(** ksverdiff.py:38-41 (printList) and 73-115: the lines that are printed.  The texts are the untranslated ones. *)
Definition printList (l : list string) : list string := join " " l :: match l with [] => [] | _ => [""] end.
Definition print_some (head : string) (l : list string) : list string := match l with [] => [] | _ => head :: printList l end.
Definition print_changes (t : string) (c : changes) : list string :=
  print_some ("The following options were added to the " ++ ch_command c ++ " command in " ++ t ++ ":") (ch_added c)
  ++ print_some ("The following options were deprecated from the " ++ ch_command c ++ " command in " ++ t ++ ":") (ch_deprecated c)
  ++ print_some ("The following options were removed from the " ++ ch_command c ++ " command in " ++ t ++ ":") (ch_removed c).
Definition printed (t : string) (d : difference) : list string :=
  ("The following commands were removed in " ++ t ++ ":")%string :: printList (df_removed d)
  ++ ("The following commands were deprecated in " ++ t ++ ":")%string :: printList (df_deprecated d)
  ++ ("The following commands were added in " ++ t ++ ":")%string :: printList (df_added d)
  ++ flat_map (print_changes t) (df_options d).

(** What the tool prints and its exit status. *)
Inductive told := Names (l : list string) | NeedTwo | Unsupported (e : exn) | Compared (l : list string).
Definition the_handler (v : Z) : option (list (string * string)) :=
  option_map (fun x => fst (snd x)) (find (fun x => Z.eqb (fst x) v) handlers).
(** ksverdiff.py:43-117 (main), for parsed options. *)
Definition ksverdiff (from to : option string) (listversions : bool) : res (told * Z) :=
  if listversions then Ok (Names (sort_str (map fst versionMap)), 0%Z)
  else match from, to with
       | Some f, Some t =>
           if String.eqb f "" || String.eqb t "" then Ok (NeedTwo, 1%Z)
           else match (do a <- makeVersion (VerStr f) ;; do b <- makeVersion (VerStr t) ;; Ok (a, b)) with
                | Ok (a, b) => match the_handler a, the_handler b with
                               | Some cf, Some ct => Ok (Compared (printed t (verdiff cf ct)), 0%Z)
                               | _, _ => Err AttributeError
                               end
                | Err e => match e with KSVersionError _ => Ok (Unsupported e, 1%Z) | _ => Err e end
                end
       | _, _ => Ok (NeedTwo, 1%Z)
       end.
