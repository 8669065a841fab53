(** * The words of a written line

    Splits a rope of PyText.v into the words a kickstart reader sees: literal texts are
    read with the quoting rules of WordSpec.v, the values of attributes are taken to be
    plain texts without blanks or quotes, and a part that depends on a condition gives
    whole words. *)

From Verif Require Import PyStrFacts.
From Verif Require Export PyText.
From Verif Require Import Value.
Local Open Scope string_scope.
Local Open Scope list_scope.

Inductive wpiece := PLit (s : string) | PVal (m : mode) (k : string) | PJoin (sep k : string).
Inductive item := IWord (w : list wpiece) | IIf (g : expr) (a b : list item).

(** Where the reader is: the word begun (its pieces reversed), whether the last word must
    not go on, and the quotes around. *)
Inductive quoting := QNo | QSingle | QDouble.
Record wst := mkW { w_cur : option (list wpiece); w_glued : bool; w_q : quoting }.
Definition unquoted (st : wst) : bool := match w_q st with QNo => true | _ => false end.
Definition add_char (c : ascii) (w : list wpiece) : list wpiece :=
  match w with PLit s :: r => PLit (s ++ String c "")%string :: r | _ => PLit (String c "") :: w end.
Definition open_w (st : wst) : option (list wpiece) :=
  match w_cur st with Some w => Some w | None => if w_glued st then None else Some [] end.
Definition lexb (c : ascii) : bool := existsb (Ascii.eqb c) [SP; TAB; CR; LF].
Definition closed (st : wst) : list item := match w_cur st with Some w => [IWord (rev w)] | None => [] end.
Definition glued (st : wst) : bool := match w_cur st with Some _ => true | None => w_glued st end.

Fixpoint wlit (s : string) (st : wst) : option (list item * wst) :=
  match s with
  | "" => Some ([], st)
  | String c r =>
      match w_q st with
      | QDouble =>
        match w_cur st with
        | None => None
        | Some w =>
            if Ascii.eqb c DQUOTE then wlit r (mkW (Some w) false QNo)
            else if Ascii.eqb c BSLASH then None
            else wlit r (mkW (Some (add_char c w)) false QDouble)
        end
      | QSingle =>
        match w_cur st with
        | None => None
        | Some w =>
            if Ascii.eqb c SQUOTE then wlit r (mkW (Some w) false QNo)
            else wlit r (mkW (Some (add_char c w)) false QSingle)
        end
      | QNo =>
        if lexb c then
          match wlit r (mkW None false QNo) with
          | Some (l, st') => Some (closed st ++ l, st')
          | None => None
          end
        else match open_w st with
             | None => None
             | Some w =>
                 if Ascii.eqb c DQUOTE then wlit r (mkW (Some w) false QDouble)
                 else if Ascii.eqb c SQUOTE then wlit r (mkW (Some w) false QSingle)
                 else if Ascii.eqb c BSLASH || Ascii.eqb c HASH then None
                 else wlit r (mkW (Some (add_char c w)) false QNo)
             end
      end
  end.
Definition wvalue (p : wpiece) (st : wst) : option (list item * wst) :=
  match open_w st with Some w => Some ([], mkW (Some (p :: w)) false (w_q st)) | None => None end.
Fixpoint wbit (b : bit) (st : wst) : option (list item * wst) :=
  match b with
  | TLit s => wlit s st
  | TVal m k => wvalue (PVal m k) st
  | TJoin s k => wvalue (PJoin s k) st
  | TIf g a b =>
      let go := fix go (l : list bit) (st : wst) : option (list item * wst) :=
        match l with
        | [] => Some ([], st)
        | b :: r => match wbit b st with
                    | Some (x, st) => match go r st with Some (y, st) => Some (x ++ y, st) | None => None end
                    | None => None
                    end
        end in
      if unquoted st then
        match go a (mkW None (glued st) QNo), go b (mkW None (glued st) QNo) with
        | Some (x, s1), Some (y, s2) =>
            if unquoted s1 && unquoted s2
            then Some (closed st ++ [IIf g (x ++ closed s1) (y ++ closed s2)], mkW None (glued s1 || glued s2) QNo)
            else None
        | _, _ => None
        end
      else None
  end.
Fixpoint wrope (l : list bit) (st : wst) : option (list item * wst) :=
  match l with
  | [] => Some ([], st)
  | b :: r => match wbit b st with
              | Some (x, st) => match wrope r st with Some (y, st) => Some (x ++ y, st) | None => None end
              | None => None
              end
  end.

(** The comment lines before the command: literal lines that are empty or start with #
    and name no platform. *)
Fixpoint line_end (s : string) : option (string * string) :=
  match s with
  | "" => None
  | String c r => if Ascii.eqb c LF then Some ("", r) else match line_end r with Some (u, t) => Some (String c u, t) | None => None end
  end.
Definition comment_ok (u : string) : bool := unbroken u && negb (startswith (u ++ NL) "platform=").
Definition more (s : string) (r : list bit) : list bit := if String.eqb s "" then r else TLit s :: r.
Fixpoint drop_comments (n : nat) (l : list bit) : list bit :=
  match n with
  | O => l
  | S n =>
      match l with
      | TLit (String c s) :: r =>
          if Ascii.eqb c HASH then
            match line_end s with
            | Some (u, t) => if comment_ok u then drop_comments n (more t r) else l
            | None => match r with TLit t :: r' => if String.eqb t NL && comment_ok s then drop_comments n r' else l | _ => l end
            end
          else if Ascii.eqb c LF then drop_comments n (more s r)
          else l
      | _ => l
      end
  end.
Definition line_items (r : list bit) : option (list item) :=
  match cut_nl (drop_comments 20 r) with
  | Some l =>
      if existsb bit_nl l then None
      else match wrope l (mkW None false QNo) with
           | Some (x, st) => if unquoted st then Some (x ++ closed st) else None
           | None => None
           end
  | None => None
  end.
