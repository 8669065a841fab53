(** * The realm command (pykickstart/commands/realm.py)

    The translator leaves realm.py out because of [getopt]; this is the class by hand.
    It can be given to the handlers as [rest "F19_Realm"]. *)

From Verif Require Export Shlex Handler ClassModel.
From Verif Require Import Value.
Local Open Scope string_scope.
Local Open Scope list_scope.

(** The options of realm.py:55-60 (the short options are ""). *)
Definition realm_longs : list string :=
  ["client-software="; "server-software="; "membership-software="; "one-time-password="; "no-password"; "computer-ou="].

(** [opt[:-1]]. *)
Fixpoint chop (s : string) : string :=
  match s with
  | EmptyString => ""
  | String c EmptyString => ""
  | String c r => String c (chop r)
  end.

(** Lib/getopt.py:174-194 (long_has_args); [None]: GetoptError. *)
Definition long_has_args (opt : string) (longs : list string) : option (bool * string) :=
  let ps := filter (fun o => startswith o opt) longs in
  match ps with
  | [] => None
  | u :: more =>
      if mem opt ps then Some (false, opt)
      else if mem (opt ++ "=")%string ps then Some (true, opt)
      else match more with
           | [] => if ends_with_char "="%char u then Some (true, chop u) else Some (false, u)
           | _ :: _ => None
           end
  end.

(** Lib/getopt.py:56-95 (getopt without short options), 151-169 (do_longs); every short
    option raises (do_shorts, 196-218).  [None]: GetoptError. *)
Fixpoint getopt (longs : list string) (args : list string) : option (list (string * string) * list string) :=
  match args with
  | [] => Some ([], [])
  | a :: r =>
      if startswith a "-" && negb (String.eqb a "-") then
        if String.eqb a "--" then Some ([], r)
        else if startswith a "--" then
          let '(opt, has_eq, optarg) := partition_char "="%char (drop 2 a) in
          match long_has_args opt longs with
          | None => None
          | Some (true, name) =>
              if has_eq
              then match getopt longs r with Some (os, rem) => Some ((("--" ++ name)%string, optarg) :: os, rem) | None => None end
              else match r with
                   | [] => None
                   | v :: r' => match getopt longs r' with Some (os, rem) => Some ((("--" ++ name)%string, v) :: os, rem) | None => None end
                   end
          | Some (false, name) =>
              if has_eq then None
              else match getopt longs r with Some (os, rem) => Some ((("--" ++ name)%string, "") :: os, rem) | None => None end
          end
        else None
      else Some ([], args)
  end.

(** realm.py:37-41 (__init__). *)
Definition realm_init : attrs :=
  base_attrs (VInt 0) ++ [("join_realm", VNone); ("join_args", VStrs []); ("discover_options", VStrs [])].

(** realm.py:72-77. *)
Definition discoverable : list string := ["--client-software"; "--server-software"; "--membership-software"].
Definition discover (opts : list (string * string)) : list string :=
  map (fun o => (fst o ++ "=" ++ snd o)%string) (filter (fun o => mem (fst o) discoverable) opts).

(** realm.py:54-77 (_parseJoin): the three attributes. *)
Definition parse_join (ln : option N) (args : list string) : res (string * list string * list string) :=
  match getopt realm_longs args with
  | None => Err (KSParseError ln "Invalid realm arguments: %s")
  | Some (opts, [r]) => Ok (r, args, discover opts)
  | Some (_, _) => Err (KSParseError ln "Specify only one realm to join")
  end.

(** realm.py:42-52 (_parseArguments). *)
Definition parse_arguments (a : attrs) (s : string) : res (string * list string * list string) :=
  let ln := match get "lineno" a with VInt z => Some (Z.to_N z) | _ => None end in
  if truthy (get "join_realm" a) then Err (KSParseError ln "The realm command 'join' should only be specified once")
  else
    do args <- shlex_split false s ;;
    match args with
    | [] => Err (KSParseError ln "Missing realm command arguments")
    | c :: r => if String.eqb c "join" then parse_join ln r else Err (KSParseError ln "Unsupported realm '%s' command")
    end.

(** realm.py:99-101 (parse): the rest of the line after the name of the command, whatever
    the words are. *)
Definition text_of (a : attrs) : string :=
  match get "currentLine" a, get "currentCmd" a with
  | VStr l, VStr c => strip (drop (String.length c) l)
  | _, _ => ""
  end.
Definition realm_parse (v : view) (a : attrs) (d : list data) (args : list string) : attrs * list data * res (option data) :=
  match parse_arguments a (text_of a) with
  | Ok (r, js, ds) => (put "discover_options" (VStrs ds) (put "join_args" (VStrs js) (put "join_realm" (VStr r) a)), d, Ok None)
  | Err e => (a, d, Err e)
  end.

(** realm.py:79-97 (_getCommandsAsStrings, __str__). *)
Definition realm_str (a : attrs) (d : list data) : string :=
  match get "join_args" a with
  | VStrs (x :: l) => ("# Realm or domain membership" ++ nl ++ "realm join " ++ join " " (map quote (x :: l)) ++ nl)%string
  | _ => ""
  end.

Definition realm_class : cclass := mkClass "F19_Realm" realm_init false [] realm_parse realm_str.
