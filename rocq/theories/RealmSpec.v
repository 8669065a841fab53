(** * The arguments of realm join, said without the code *)

From Verif Require Export Value.
From Coq Require Import String List.
Import ListNotations.
Local Open Scope string_scope.
Local Open Scope list_scope.

(** The options of [realm join] and whether they take a value. *)
Definition realm_options : list (string * bool) :=
  [("client-software", true); ("server-software", true); ("membership-software", true);
   ("one-time-password", true); ("no-password", false); ("computer-ou", true)].
(** The options that also say how to look for the realm. *)
Definition finding : list string := ["client-software"; "server-software"; "membership-software"].

(** [p] is the beginning of the name of one option, [o], only. *)
Definition means (p o : string) : Prop :=
  (exists r, o = (p ++ r)%string) /\ forall o' b r, In (o', b) realm_options -> o' = (p ++ r)%string -> o' = o.
Definition finds (o v : string) (ds : list string) : list string :=
  if in_dec string_dec o finding then ("--" ++ o ++ "=" ++ v)%string :: ds else ds.
(** A word that begins with a dash and is not only a dash. *)
Definition dashed (a : string) : Prop := exists r, a = ("-" ++ r)%string /\ r <> "".

(** [joins args r ds]: the words [args] are options, then the name [r] of one realm; [ds]
    are the options among them that say how to look for it, in their order. *)
Inductive joins : list string -> string -> list string -> Prop :=
  | join_name r : ~ dashed r -> joins [r] r []
  | join_dashes r : joins ["--"; r] r []
  | join_flag p o args r ds : In (o, false) realm_options -> means p o -> p <> "" -> has_char "="%char p = false ->
      joins args r ds -> joins (("--" ++ p)%string :: args) r ds
  | join_equals p o v args r ds : In (o, true) realm_options -> means p o -> has_char "="%char p = false ->
      joins args r ds -> joins (("--" ++ p ++ "=" ++ v)%string :: args) r (finds o v ds)
  | join_next p o v args r ds : In (o, true) realm_options -> means p o -> p <> "" -> has_char "="%char p = false ->
      joins args r ds -> joins (("--" ++ p)%string :: v :: args) r (finds o v ds).
