(** * Option value types of pykickstart/options.py *)

From Verif Require Export Value.
Local Open Scope string_scope.

(** options.py:57-58 (commaSplit). *)
Definition comma_split (s : string) : list string :=
  filter (fun v => negb (String.eqb v "")) (map strip (split_char "," s)).

(** options.py:60-69 (ksboolean); ArgumentTypeError is modelled as [ValueError],
    argparse treats both the same way.  The AttributeError branch needs a
    non-string argument and is unreachable from argparse. *)
Definition ksboolean (s : string) : res bool :=
  if mem (lower s) ["on"; "yes"; "true"; "1"] then Ok true
  else if mem (lower s) ["off"; "no"; "false"; "0"] then Ok false
  else Err ValueError.

Notation SLASH := "/"%char.

(** The component loop of posixpath.normpath (CPython 3.11 Lib/posixpath.py:
    343-374); [acc] is [new_comps] reversed, [slashes] tells whether the path
    is absolute. *)
Fixpoint norm_comps (slashes : bool) (comps acc : list string) : list string :=
  match comps with
  | [] => rev acc
  | c :: r =>
      if String.eqb c "" || String.eqb c "." then norm_comps slashes r acc
      else if negb (String.eqb c "..")
              || (negb slashes && match acc with [] => true | _ => false end)
              || (match acc with t :: _ => String.eqb t ".." | [] => false end)
           then norm_comps slashes r (c :: acc)
           else match acc with
                | _ :: acc' => norm_comps slashes r acc'
                | [] => norm_comps slashes r []
                end
  end.

(** posixpath.normpath. *)
Definition normpath (p : string) : string :=
  if String.eqb p "" then "."
  else
    let abs := startswith p "/" in
    let lead := if abs then
                  if startswith p "//" && negb (startswith p "///") then "//" else "/"
                else "" in
    let r := lead ++ join "/" (norm_comps abs (split_char SLASH p) []) in
    if String.eqb r "" then "." else r.

(** options.py:71-75 (mountpoint). *)
Definition mountpoint (s : string) : string :=
  if startswith s "/" then normpath s else s.

(** The [type=] functions of argument tables. *)
Definition ty_str (s : string) : res value := Ok (VStr s).
Definition ty_int (s : string) : res value :=
  match py_int s with Some z => Ok (VInt z) | None => Err ValueError end.
Definition ty_bool (s : string) : res value := do b <- ksboolean s ;; Ok (VBool b).
Definition ty_comma (s : string) : res value := Ok (VStrs (comma_split s)).
Definition ty_mount (s : string) : res value := Ok (VStr (mountpoint s)).
