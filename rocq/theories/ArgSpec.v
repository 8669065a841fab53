(** * Specification vocabulary for option lines (C02 - C04)

    What an option table and an option word are, and what a line of option words
    means, without reference to the way argparse scans a line. *)

From Verif Require Export ArgParse.
From Verif Require Import Value.
Local Open Scope string_scope.
Local Open Scope list_scope.

(** An option name: two dashes, at least one more character, no equals sign. *)
Definition option_name (o : string) : bool :=
  startswith o "--" && negb (String.eqb o "--") && negb (has_char "=" o).

(** A positional has no option strings. *)
Definition is_positional (a : action) : bool := match a_opts a with [] => true | _ => false end.

(** All option strings of the table are option names and stand for options. *)
Definition table_ok (p : parser) : bool :=
  forallb (fun kv => option_name (fst kv) && negb (is_positional (snd kv))) (p_optmap p).

(** The declared option called [o]. *)
Definition option_of (p : parser) (o : string) : option action := assoc o (p_optmap p).

Definition positionals (p : parser) : list action := filter is_positional (p_actions p).

(** A string default must be a fixed point of the option's type, so that argparse's
    conversion of unused defaults is invisible. *)
Definition settled (a : action) : Prop :=
  forall d, a_default a = VStr d -> a_type a d = Ok (VStr d).

(** The words of an option line: a flag, or an option with its value attached. *)
Inductive oword := OFlag (name : string) | OVal (name value : string).

Definition text (w : oword) : string :=
  match w with OFlag o => o | OVal o v => (o ++ "=" ++ v)%string end.
Definition name (w : oword) : string := match w with OFlag o => o | OVal o _ => o end.

Definition allowed (a : action) (s : string) : bool :=
  match a_choices a with None => true | Some l => mem s l end.

(** The value a word hands to its option: the converted value, or the list with
    the one converted value for options that collect lists. *)
Definition given (a : action) (w : oword) : option value :=
  match w, a_nargs a with
  | OFlag _, NInt 0 => Some (VStrs [])
  | OVal _ s, NOne | OVal _ s, NOpt =>
      match a_type a s with
      | Ok (VStr t) => if allowed a t then Some (VStr t) else None
      | Ok v => match a_choices a with None => Some v | Some _ => None end
      | Err _ => None
      end
  | OVal _ s, NInt 1 | OVal _ s, NStar | OVal _ s, NPlus =>
      match a_type a s with
      | Ok (VStr t) => if allowed a t then Some (VStrs [t]) else None
      | _ => None
      end
  | _, _ => None
  end.

(** What the option makes of it, given the value its destination has so far. *)
Definition update (a : action) (v cur : value) : option value :=
  match a_kind a, v, a_const a, cur with
  | KStore, _, _, _ => Some v
  | KStoreConst, _, c, _ => Some c
  | KAppend, VStr s, _, VNone => Some (VStrs [s])
  | KAppend, VStr s, _, VStrs l => Some (VStrs (l ++ [s]))
  | KAppendConst, _, VStr s, VNone => Some (VStrs [s])
  | KAppendConst, _, VStr s, VStrs l => Some (VStrs (l ++ [s]))
  | KExtend, _, _, VNone => Some v
  | KExtend, VStrs m, _, VStrs l => Some (VStrs (l ++ m))
  | KExtendConst, _, c, VNone => Some c
  | KExtendConst, VStrs m, VStrs l, VStrs _ => Some (VStrs (l ++ m))
  | _, _, _, _ => None
  end.

(** A line's meaning: the value of every destination. *)
Definition meaning := string -> value.

(** Before the line: the default of the first option declared for the
    destination. *)
Fixpoint declared (acts : list action) (d : string) : value :=
  match acts with
  | [] => VNone
  | a :: r => if String.eqb d (a_dest a) then a_default a else declared r d
  end.

Definition set (m : meaning) (d : string) (v : value) : meaning :=
  fun x => if String.eqb x d then v else m x.

(** One word. *)
Definition read_word (p : parser) (m : meaning) (w : oword) : option meaning :=
  match option_of p (name w) with
  | None => None
  | Some a => match given a w with
              | None => None
              | Some v => match update a v (m (a_dest a)) with
                          | None => None
                          | Some v' => Some (set m (a_dest a) v')
                          end
              end
  end.

(** All words, left to right; [None] if a word is not known to the table, has a
    value its option does not take, or lacks one it needs. *)
Fixpoint read_words (p : parser) (m : meaning) (ws : list oword) : option meaning :=
  match ws with
  | [] => Some m
  | w :: r => match read_word p m w with None => None | Some m' => read_words p m' r end
  end.
Definition line_meaning (p : parser) (ws : list oword) : option meaning :=
  read_words p (declared (p_actions p)) ws.

(** The destination a word writes. *)
Definition writes (p : parser) (w : oword) (d : string) : Prop :=
  exists a, option_of p (name w) = Some a /\ a_dest a = d.

(** Rearranging a line: neighbouring words that write different destinations
    trade places, any number of times. *)
Inductive reorder (p : parser) : list oword -> list oword -> Prop :=
| reorder_refl ws : reorder p ws ws
| reorder_swap l w1 w2 r ws :
    (forall d, ~ (writes p w1 d /\ writes p w2 d)) ->
    reorder p (l ++ w2 :: w1 :: r) ws ->
    reorder p (l ++ w1 :: w2 :: r) ws.

(** The name part of a word of a line: what stands before its first equals
    sign. *)
Definition name_part (w : string) : string := fst (fst (partition_char "=" w)).

(** [w] spells [o]: exactly or as an abbreviation. *)
Definition spells (w o : string) : bool := startswith o (name_part w).

(** ** Failures *)

(** The conversion functions of the table fail the way argparse expects, or with a
    parse error for this line. *)
Definition fails_properly (ln : option N) (a : action) : Prop :=
  forall s e, a_type a s = Err e ->
    e = ValueError \/ e = TypeError \/ exists t, e = KSParseError ln t.

Definition converts_to_strings (a : action) : Prop :=
  forall s v, a_type a s = Ok v -> exists t, v = VStr t.
Definition converts_to_lists (a : action) : Prop :=
  forall s v, a_type a s = Ok v -> exists t, v = VStrs t.

Definition collects (k : akind) : bool :=
  match k with KStore | KStoreConst => false | _ => true end.
Definition is_list_value (v : value) : bool :=
  match v with VNone | VStrs _ => true | _ => false end.

(** The declaration of one option makes sense: options that take several words
    convert each to a string, as do positionals; options that append have string values and those
    that extend have list values. *)
Definition declared_properly (ln : option N) (a : action) : Prop :=
  fails_properly ln a /\
  (is_positional a = true -> converts_to_strings a /\ a_kind a = KStore) /\
  match a_nargs a with NOne | NOpt => True | NInt 0 => True | _ => converts_to_strings a end /\
  match a_kind a with
  | KStore | KStoreConst => True
  | KAppend => a_nargs a = NOne /\ converts_to_strings a /\ is_list_value (a_default a) = true
  | KAppendConst => a_nargs a = NInt 0 /\ (exists s, a_const a = VStr s) /\ is_list_value (a_default a) = true
  | KExtend => ((a_nargs a = NOne /\ converts_to_lists a /\ a_choices a = None) \/ a_nargs a = NStar \/ a_nargs a = NPlus)
               /\ is_list_value (a_default a) = true
  | KExtendConst => a_nargs a = NInt 0 /\ (exists l, a_const a = VStrs l) /\ is_list_value (a_default a) = true
  end.

(** ... and options that collect lists do not share their destination with options
    that store other values. *)
Definition all_actions (p : parser) : list action := p_actions p ++ map snd (p_optmap p).
Definition well_declared (ln : option N) (p : parser) : Prop :=
  (forall a, In a (all_actions p) -> declared_properly ln a) /\
  (forall a b, In a (all_actions p) -> In b (all_actions p) ->
     collects (a_kind a) = true -> a_dest b = a_dest a -> collects (a_kind b) = true).
