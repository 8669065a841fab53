(** * Python's argparse engine (CPython 3.11, Lib/argparse.py) and KSOptionParser

    Everything a command's option table goes through.  Line numbers "argparse:"
    refer to CPython 3.11 Lib/argparse.py, "options.py:" to
    pykickstart/options.py.

    Simplifications: option strings are assumed to begin with "--" (true of every
    table in the repository, see the generated tables), so the single-dash
    branches of _get_option_tuples and consume_optional (clusters such as -xyz)
    are left out; mutually exclusive groups, sub-parsers, SUPPRESS, REMAINDER and
    prefix files are not used by pykickstart and are left out; [nargs] other than
    those in [nargs_t] do not occur. *)

From Verif Require Export Value.
Local Open Scope string_scope.

(** argparse action classes: _StoreAction (_StoreTrue/_StoreFalse are [KStoreConst]
    with a boolean constant), _StoreConstAction, _AppendAction,
    _AppendConstAction (argparse:958-1090), ExtendAction and ExtendConstAction
    (options.py:105-117). *)
Inductive akind := KStore | KStoreConst | KAppend | KAppendConst | KExtend | KExtendConst.

(** [nargs]: None, an integer, '?', '*', '+'. *)
Inductive nargs_t := NOne | NInt (n : nat) | NOpt | NStar | NPlus.

(** argparse.Action plus the attributes KSOptionParser.add_argument adds
    (options.py:239-242).  [a_id] is the object's identity.  [a_type] is the
    conversion function: ValueError and TypeError stand for what argparse turns
    into a usage error. *)
Record action := mkAction {
  a_id : nat;
  a_opts : list string;             (* option_strings; [] for positionals *)
  a_dest : string;
  a_kind : akind;
  a_nargs : nargs_t;
  a_const : value;
  a_default : value;
  a_type : string -> res value;
  a_choices : option (list string);
  a_required : bool;
  a_deprecated : bool
}.

(** argparse.ArgumentParser: [_actions] and [_option_string_actions]; the
    counter gives fresh identities. *)
Record parser := mkParser {
  p_actions : list action;
  p_optmap : list (string * action);
  p_next : nat
}.
Definition empty_parser : parser := mkParser [] [] 0.

(** ** Building tables *)

(** argparse:1663-1676 (_handle_conflict_resolve) on one conflicting option
    string: remove it from the old action; drop the action if no string is
    left.  (argparse:1488-1495 _check_conflict looks the old action up in
    [_option_string_actions].) *)
Definition strip_opt (o : string) (a : action) : action :=
  mkAction (a_id a) (filter (fun x => negb (String.eqb o x)) (a_opts a)) (a_dest a) (a_kind a)
    (a_nargs a) (a_const a) (a_default a) (a_type a) (a_choices a) (a_required a) (a_deprecated a).

Definition resolve_one (p : parser) (o : string) : parser :=
  match assoc o (p_optmap p) with
  | None => p
  | Some old =>
      mkParser
        (flat_map (fun a => if Nat.eqb (a_id a) (a_id old)
                            then match a_opts (strip_opt o a) with
                                 | [] => []
                                 | _ => [strip_opt o a]
                                 end
                            else [a]) (p_actions p))
        (del o (p_optmap p)) (p_next p)
  end.

(** KSOptionParser.add_argument (options.py:191-243) with conflict_handler
    "resolve" (options.py:165): the candidate search only edits help texts. *)
Definition add_argument (p : parser) (mk : nat -> action) : parser :=
  let a := mk (p_next p) in
  let p1 := fold_left resolve_one (a_opts a) p in
  mkParser (p_actions p1 ++ [a])%list
    (fold_left (fun m o => put o a m) (a_opts a) (p_optmap p1)) (S (p_next p)).

(** KSOptionParser.remove_argument (options.py:245-258): the first action that
    has the option string is removed from [_actions]; only the named string is
    popped from [_option_string_actions]. *)
Fixpoint remove_first_action (o : string) (l : list action) : list action :=
  match l with
  | [] => []
  | a :: r => if mem o (a_opts a) then r else a :: remove_first_action o r
  end.
Definition remove_argument (p : parser) (o : string) : parser :=
  if existsb (fun a => mem o (a_opts a)) (p_actions p)
  then mkParser (remove_first_action o (p_actions p)) (del o (p_optmap p)) (p_next p)
  else p.

(** ** Classifying words: argparse:2245-2300 (_parse_optional) *)

(** The pattern letter of a word: 'A', '-', or 'O' with its option tuple (action,
    explicit argument). *)
Inductive cls :=
| CA
| CDash
| CO (a : option action) (explicit : option string).

Definition is_co (c : cls) : bool := match c with CO _ _ => true | _ => false end.

(** [_negative_number_matcher]: ^-\d+$|^-\d*\.\d+$ (argparse:1394); [$] also
    matches before one trailing newline. *)
Definition chop_nl (s : string) : string :=
  if ends_with_char LF s then take (String.length s - 1) s else s.
Fixpoint span_digits (s : string) : string * string :=
  match s with
  | "" => ("", "")
  | String c r => if is_digit c then let '(a, b) := span_digits r in (String c a, b) else ("", s)
  end.
Definition nonempty_digits (s : string) : bool :=
  match s with "" => false | _ => all_chars is_digit s end.
Definition negative_number (s : string) : bool :=
  match chop_nl s with
  | String "-" r =>
      nonempty_digits r ||
      match span_digits r with
      | (_, String "." r') => nonempty_digits r'
      | _ => false
      end
  | _ => false
  end.

Definition DASH : ascii := "-"%char.
Definition EQUALS : ascii := "="%char.

(** argparse:2302-2345 (_get_option_tuples), double-dash branch. *)
Definition option_tuples (p : parser) (s : string) : list (action * option string) :=
  let '(pre, sep, v) := partition_char EQUALS s in
  map (fun kv => (snd kv, if sep : bool then Some v else None))
      (filter (fun kv => startswith (fst kv) pre) (p_optmap p)).

Definition ap_error {A} (ln : option N) (tag : string) : res A := Err (KSParseError ln tag).

Definition parse_optional (p : parser) (ln : option N) (s : string) : res cls :=
  match s with
  | "" => Ok CA
  | String c r =>
      if negb (Ascii.eqb c DASH) then Ok CA
      else match assoc s (p_optmap p) with
      | Some a => Ok (CO (Some a) None)
      | None =>
        match r with
        | "" => Ok CA
        | String d _ =>
          let '(o, sep, v) := partition_char EQUALS s in
          match (if sep : bool then assoc o (p_optmap p) else None) with
          | Some a => Ok (CO (Some a) (Some v))
          | None =>
            match (if Ascii.eqb d DASH then option_tuples p s else []) with
            | _ :: _ :: _ => ap_error ln "ambiguous option"
            | [(a, v)] => Ok (CO (Some a) v)
            | [] =>
                if negative_number s then Ok CA
                else if has_char SP s then Ok CA
                else Ok (CO None None)
            end
          end
        end
      end
  end.

(** argparse:1928-1958: the pattern of the whole line. *)
Fixpoint classify (p : parser) (ln : option N) (args : list string)
  : res (list (string * cls)) :=
  match args with
  | [] => Ok []
  | s :: r =>
      if String.eqb s "--" then Ok ((s, CDash) :: map (fun x => (x, CA)) r)
      else do c <- parse_optional p ln s ;;
           do l <- classify p ln r ;; Ok ((s, c) :: l)
  end.

(** KSOptionParser._parse_optional (options.py:174-189): the words that name a
    deprecated option; one warning is issued for each. *)
Definition deprecated_used (p : parser) (ln : option N) (args : list string) : list string :=
  match classify p ln args with
  | Err _ => []
  | Ok l => map fst (filter (fun sc => match snd sc with
                                       | CO (Some a) _ => a_deprecated a
                                       | _ => false
                                       end) l)
  end.

(** ** Values *)

(** argparse:2519-2543 (_get_value). *)
Definition get_value (ln : option N) (a : action) (s : string) : res value :=
  match a_type a s with
  | Ok v => Ok v
  | Err ValueError | Err TypeError => ap_error ln "invalid value"
  | Err e => Err e
  end.

(** argparse:2545-2551 (_check_value). *)
Definition check_value (ln : option N) (a : action) (v : value) : res value :=
  match a_choices a with
  | None => Ok v
  | Some l => match v with
              | VStr s => if mem s l then Ok v else ap_error ln "invalid choice"
              | _ => ap_error ln "invalid choice"
              end
  end.

Definition get_checked ln a s : res value := do v <- get_value ln a s ;; check_value ln a v.

Fixpoint remove_first (x : string) (l : list string) : list string :=
  match l with
  | [] => []
  | y :: r => if String.eqb x y then r else y :: remove_first x r
  end.

(** Lists of converted values: all actions of pykickstart that make lists convert
    to strings. *)
Fixpoint strs_of (l : list value) : res (list string) :=
  match l with
  | [] => Ok []
  | VStr s :: r => do t <- strs_of r ;; Ok (s :: t)
  | _ :: _ => Err TypeError
  end.
Definition get_list ln a (args : list string) : res value :=
  do l <- map_res (get_value ln a) args ;;
  do l' <- map_res (check_value ln a) l ;;
  do s <- strs_of l' ;; Ok (VStrs s).

(** argparse:2459-2517 (_get_values). *)
Definition get_values (ln : option N) (a : action) (args0 : list string) : res value :=
  let positional := match a_opts a with [] => true | _ => false end in
  let args := if positional then remove_first "--" args0 else args0 in
  match args, a_nargs a with
  | [], NOpt =>
      match (if positional then a_default a else a_const a) with
      | VStr s => get_checked ln a s
      | v => Ok v
      end
  | [], NStar =>
      if positional then
        check_value ln a (match a_default a with VNone => VStrs [] | v => v end)
      else get_list ln a args
  | [s], NOne | [s], NOpt => get_checked ln a s
  | _, _ => get_list ln a args
  end.

(** ** Actions *)

Definition as_strs (v : value) : res (list string) :=
  match v with VNone => Ok [] | VStrs l => Ok l | _ => Err TypeError end.
Definition as_str (v : value) : res string :=
  match v with VStr s => Ok s | _ => Err TypeError end.

(** The __call__ methods: argparse:980-1090, options.py:105-117. *)
Definition call_action (a : action) (v : value) (ns : attrs) : res attrs :=
  let d := a_dest a in
  match a_kind a with
  | KStore => Ok (put d v ns)
  | KStoreConst => Ok (put d (a_const a) ns)
  | KAppend => do l <- as_strs (get d ns) ;; do s <- as_str v ;; Ok (put d (VStrs (l ++ [s])%list) ns)
  | KAppendConst =>
      do l <- as_strs (get d ns) ;; do s <- as_str (a_const a) ;; Ok (put d (VStrs (l ++ [s])%list) ns)
  | KExtend =>
      match get d ns with
      | VNone => Ok (put d v ns)
      | VStrs l => match v with VStrs m => Ok (put d (VStrs (l ++ m)%list) ns) | _ => Err TypeError end
      | _ => Err TypeError
      end
  | KExtendConst =>
      match get d ns with
      | VNone => Ok (put d (a_const a) ns)
      | _ => match a_const a, v with
             | VStrs l, VStrs m => Ok (put d (VStrs (l ++ m)%list) ns)
             | _, _ => Err TypeError
             end
      end
  end.

(** The local state of _parse_known_args (argparse:1960-1962, 2043, 2067). *)
Record pstate := mkPstate {
  s_ns : attrs;
  s_seen : list nat;
  s_extras : list string;
  s_pos : list action
}.

(** argparse:1964-1982 (take_action). *)
Definition take_action (ln : option N) (a : action) (args : list string) (st : pstate)
  : res pstate :=
  do v <- get_values ln a args ;;
  do ns <- call_action a v (s_ns st) ;;
  Ok (mkPstate ns (a_id a :: s_seen st) (s_extras st) (s_pos st)).

(** ** Matching words to actions *)

(** _match_argument for optionals (argparse:2205-2225, patterns :2347-2390 with
    '-' removed): how many of the following words belong to the option. *)
Fixpoint leading_args (l : list cls) : nat :=
  match l with CA :: r => S (leading_args r) | _ => 0 end.
Definition match_optional (n : nargs_t) (l : list cls) : option nat :=
  match n with
  | NOne => if Nat.leb 1 (leading_args l) then Some 1 else None
  | NInt k => if Nat.leb k (leading_args l) then Some k else None
  | NOpt => Some (Nat.min 1 (leading_args l))
  | NStar => Some (leading_args l)
  | NPlus => if Nat.leb 1 (leading_args l) then Some (leading_args l) else None
  end.

(** argparse:1984-2040 (consume_optional). *)
Definition consume_optional (ln : option N) (s : string) (oa : option action)
  (explicit : option string) (rest : list (string * cls)) (st : pstate)
  : res (pstate * list (string * cls)) :=
  match oa with
  | None => Ok (mkPstate (s_ns st) (s_seen st) (s_extras st ++ [s])%list (s_pos st), rest)
  | Some a =>
      match explicit with
      | Some x =>
          match match_optional (a_nargs a) [CA] with
          | Some 1 => do st' <- take_action ln a [x] st ;; Ok (st', rest)
          | _ => ap_error ln "ignored explicit argument"
          end
      | None =>
          match match_optional (a_nargs a) (map snd rest) with
          | Some k => do st' <- take_action ln a (map fst (firstn k rest)) st ;;
                      Ok (st', skipn k rest)
          | None => ap_error ln "expected argument"
          end
      end
  end.

(** Words the pattern of a positional can span (argparse:2347-2385). *)
Definition count_args (l : list cls) : nat :=
  length (filter (fun c => match c with CA => true | _ => false end) l).
Definition pos_accepts (n : nargs_t) (l : list cls) : bool :=
  negb (existsb is_co l) &&
  match n with
  | NOne => Nat.eqb (count_args l) 1
  | NInt k => Nat.eqb (count_args l) k
  | NOpt => Nat.leb (count_args l) 1
  | NStar => true
  | NPlus => Nat.leb 1 (count_args l)
  end.

(** The greedy backtracking match of the concatenated patterns
    (argparse:2227-2243): longest first for each positional. *)
Fixpoint match_positionals (ns : list nargs_t) (l : list cls) : option (list nat) :=
  match ns with
  | [] => Some []
  | n :: r =>
      (fix try_len (k : nat) : option (list nat) :=
         match (if pos_accepts n (firstn k l)
                then match match_positionals r (skipn k l) with
                     | Some ks => Some (k :: ks)
                     | None => None
                     end
                else None) with
         | Some ks => Some ks
         | None => match k with O => None | S k' => try_len k' end
         end) (length l)
  end.

(** _match_arguments_partial: drop positionals from the end until it matches. *)
Fixpoint match_partial_upto (i : nat) (ns : list nargs_t) (l : list cls) : list nat :=
  match i with
  | O => []
  | S i' => match match_positionals (firstn i ns) l with
            | Some ks => ks
            | None => match_partial_upto i' ns l
            end
  end.
Definition match_partial (ns : list nargs_t) (l : list cls) : list nat :=
  match_partial_upto (length ns) ns l.

(** argparse:2047-2064 (consume_positionals). *)
Fixpoint take_positionals (ln : option N) (acts : list action) (counts : list nat)
  (rest : list (string * cls)) (st : pstate) : res (pstate * list (string * cls)) :=
  match acts, counts with
  | a :: acts', k :: counts' =>
      do st' <- take_action ln a (map fst (firstn k rest)) st ;;
      take_positionals ln acts' counts' (skipn k rest) st'
  | _, _ => Ok (st, rest)
  end.
Definition consume_positionals (ln : option N) (rest : list (string * cls)) (st : pstate)
  : res (pstate * list (string * cls)) :=
  let counts := match_partial (map a_nargs (s_pos st)) (map snd rest) in
  do sr <- take_positionals ln (s_pos st) counts rest st ;;
  let st' := fst sr in
  Ok (mkPstate (s_ns st') (s_seen st') (s_extras st') (skipn (length counts) (s_pos st')), snd sr).

Fixpoint span_nonopt (l : list (string * cls)) : list (string * cls) * list (string * cls) :=
  match l with
  | [] => ([], [])
  | (s, c) :: r => if is_co c then ([], l)
                   else let '(a, b) := span_nonopt r in ((s, c) :: a, b)
  end.

(** argparse:2066-2108: the main loop.  [fuel] bounds the number of iterations;
    every iteration consumes a word, so the length of the line suffices
    ([parse_loop_fuel] in ArgParseFacts). *)
Fixpoint parse_loop (fuel : nat) (ln : option N) (rest : list (string * cls)) (st : pstate)
  : res pstate :=
  match fuel with
  | O => Err OutOfFuel
  | S f =>
      if existsb (fun sc => is_co (snd sc)) rest then
        match rest with
        | (s, CO oa e) :: r =>
            do sr <- consume_optional ln s oa e r st ;; parse_loop f ln (snd sr) (fst sr)
        | _ =>
            do sr <- consume_positionals ln rest st ;;
            let '(st', rest') := sr in
            if Nat.ltb (length rest') (length rest) then parse_loop f ln rest' st'
            else let '(pre, r) := span_nonopt rest' in
                 parse_loop f ln r (mkPstate (s_ns st') (s_seen st')
                                      (s_extras st' ++ map fst pre)%list (s_pos st'))
        end
      else
        do sr <- consume_positionals ln rest st ;;
        let '(st', rest') := sr in
        Ok (mkPstate (s_ns st') (s_seen st') (s_extras st' ++ map fst rest')%list (s_pos st'))
  end.

(** argparse:2110-2133: required actions, conversion of string defaults. *)
Fixpoint finish (ln : option N) (acts : list action) (seen : list nat) (missing : bool) (ns : attrs)
  : res attrs :=
  match acts with
  | [] => if missing then ap_error ln "required" else Ok ns
  | a :: r =>
      if existsb (Nat.eqb (a_id a)) seen then finish ln r seen missing ns
      else if a_required a then finish ln r seen true ns
      else match a_default a with
           | VStr d =>
               if has_key (a_dest a) ns && value_eqb (get (a_dest a) ns) (VStr d) then
                 do v <- get_value ln a d ;; finish ln r seen missing (put (a_dest a) v ns)
               else finish ln r seen missing ns
           | _ => finish ln r seen missing ns
           end
  end.

(** argparse:1886-1891: defaults of all actions, first action per dest. *)
Definition init_ns (acts : list action) : attrs :=
  fold_left (fun ns a => if has_key (a_dest a) ns then ns else put (a_dest a) (a_default a) ns)
            acts [].

(** argparse:1877-1912, options.py:278-282 (parse_known_args). *)
Definition parse_known_args (p : parser) (ln : option N) (args : list string)
  : res (attrs * list string) :=
  do l <- classify p ln args ;;
  let pos := filter (fun a => match a_opts a with [] => true | _ => false end) (p_actions p) in
  do st <- parse_loop (S (length l)) ln l (mkPstate (init_ns (p_actions p)) [] [] pos) ;;
  do ns <- finish ln (p_actions p) (s_seen st) false (s_ns st) ;;
  Ok (ns, s_extras st).

(** argparse:1870-1875, options.py:272-276 (parse_args). *)
Definition parse_args (p : parser) (ln : option N) (args : list string) : res attrs :=
  do r <- parse_known_args p ln args ;;
  match snd r with
  | [] => Ok (fst r)
  | _ => ap_error ln "unrecognized arguments"
  end.
