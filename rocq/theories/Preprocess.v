(** * %ksappend preprocessing and the put-back iterator of pykickstart/parser.py *)

From Verif Require Export Value.
Local Open Scope string_scope.
Local Open Scope list_scope.

(** load_to_str (load.py:35-63): [None] models the KickstartError raised when the
    file or URL cannot be read.  Encoding errors are outside the model. *)
Definition loader := string -> option string.

(** parser.py:61-106 (_preprocessStateMachine).  The result is the text before
    encoding: the code accumulates the UTF-8 encoding of the same text.  A failing
    line discards what was accumulated, so accumulating from the right is the same. *)
Fixpoint preprocess_lines (load : loader) (lineno : N) (lines : list string) : res string :=
  match lines with
  | [] => Ok ""
  | l :: rest =>
      if String.eqb l "" then Ok ""
      else
        let n := (lineno + 1)%N in
        let ll := strip l in
        if negb (startswith ll "%ksappend") then
          do t <- preprocess_lines load n rest ;; Ok (l ++ t)%string
        else
          match split_char SP ll with
          | _ :: ksurl :: _ =>
              match load ksurl with
              | None => Err (KSError (Some n) "ksappend-load")
              | Some contents =>
                  do t <- preprocess_lines load n rest ;; Ok (contents ++ t)%string
              end
          | _ => Err (KSParseError (Some n) "ksappend-url")
          end
  end.

(** parser.py:108-115. *)
Definition preprocessFromStringToString (load : loader) (s : string) : res string :=
  preprocess_lines load 0 (splitlines s ++ [""]).

(** parser.py:117-128. *)
Definition preprocessKickstartToString (load : loader) (f : string) : res string :=
  match load f with
  | None => Err (KSError (Some 0%N) "input-load")
  | Some contents => preprocess_lines load 0 (splitlines contents)
  end.

(** parser.py:130-145 and 147-162: the result is the content of the new temporary
    file, [None] when no file is made because the text is empty.  The name of the
    file is not modelled. *)
Definition preprocessFromString (load : loader) (s : string) : res (option string) :=
  do t <- preprocessFromStringToString load s ;;
  Ok (if String.eqb t "" then None else Some t).
Definition preprocessKickstart (load : loader) (f : string) : res (option string) :=
  do t <- preprocessKickstartToString load f ;;
  Ok (if String.eqb t "" then None else Some t).

(** parser.py:164-184 (PutBackIterator): the one-line buffer and the lines not yet
    delivered. *)
Record pbi := mkPbi { pb_buf : option string; pb_rest : list string }.

(** parser.py:165-167. *)
Definition pb_new (lines : list string) : pbi := mkPbi None lines.
(** parser.py:172-173. *)
Definition pb_put (s : string) (i : pbi) : pbi := mkPbi (Some s) (pb_rest i).
(** parser.py:175-181: the buffer is used when it is truthy, that is neither None
    nor the empty string.  [None] is StopIteration. *)
Definition pb_next (i : pbi) : option string * pbi :=
  match pb_buf i with
  | Some (String c s) => (Some (String c s), mkPbi None (pb_rest i))
  | _ => match pb_rest i with
         | [] => (None, i)
         | l :: r => (Some l, mkPbi (pb_buf i) r)
         end
  end.
