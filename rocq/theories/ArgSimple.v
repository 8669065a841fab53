(** * Lines for tables whose options store values

    For options that store a value or a constant the meaning of a line has a simple
    form: the last word that writes a destination decides. *)

From Verif Require Import PyStrFacts ArgSpec ArgParseFacts ArgLineFacts.
From Verif Require Import Value.
Local Open Scope string_scope.
Local Open Scope list_scope.

(** What a word writes, where. *)
Definition effect (p : parser) (w : oword) : option (string * value) :=
  match option_of p (name w) with
  | None => None
  | Some a =>
      match given a w, a_kind a with
      | Some v, KStore => Some (a_dest a, v)
      | Some _, KStoreConst => Some (a_dest a, a_const a)
      | _, _ => None
      end
  end.
Definition readable (p : parser) (w : oword) : bool :=
  match effect p w with Some _ => true | None => false end.
Fixpoint last_write (p : parser) (ws : list oword) (d : string) : option value :=
  match ws with
  | [] => None
  | w :: r => match last_write p r d, effect p w with
              | Some v, _ => Some v
              | None, Some (d', v) => if String.eqb d d' then Some v else None
              | None, None => None
              end
  end.

Lemma simple_words p ws : forall m, forallb (readable p) ws = true ->
  exists m', read_words p m ws = Some m' /\ forall d, m' d = match last_write p ws d with Some v => v | None => m d end.
Proof.
  induction ws as [|w ws IH]; intros m H; [exists m; auto|].
  cbn [forallb] in H. apply andb_true_iff in H as [H1 H2]. cbn [read_words last_write]. unfold read_word, readable, effect in *.
  destruct (option_of p (name w)) as [a|]; [|discriminate]. destruct (given a w) as [v|]; [|discriminate].
  assert (S : forall v', update a v (m (a_dest a)) = Some v' ->
    (match a_kind a with KStore => Some (a_dest a, v) | KStoreConst => Some (a_dest a, a_const a) | _ => None end) = Some (a_dest a, v') ->
    exists m', match (match update a v (m (a_dest a)) with None => None | Some v' => Some (set m (a_dest a) v') end) with
                 | None => None | Some m' => read_words p m' ws end = Some m' /\
      forall d, m' d = match (match last_write p ws d, (match a_kind a with KStore => Some (a_dest a, v) | KStoreConst => Some (a_dest a, a_const a) | _ => None end) with
                              | Some v, _ => Some v
                              | None, Some (d', v) => if String.eqb d d' then Some v else None
                              | None, None => None end) with Some v => v | None => m d end).
  { intros v' -> ->. destruct (IH (set m (a_dest a) v') H2) as (m' & -> & Hm). exists m'. split; [reflexivity|].
    intros d. rewrite Hm. destruct (last_write p ws d); [reflexivity|]. unfold set. destruct (String.eqb d (a_dest a)); reflexivity. }
  unfold update in *. destruct (a_kind a); try discriminate; eapply S; reflexivity.
Qed.

(** The parser's answer on a line of readable words. *)
Lemma simple_line p ln ws :
  table_ok p = true -> positionals p = [] ->
  (forall a, In a (p_actions p) -> settled a) ->
  (forall a, In a (p_actions p) -> a_required a = true ->
     exists w b, In w ws /\ option_of p (name w) = Some b /\ a_id b = a_id a) ->
  forallb (readable p) ws = true ->
  exists ns, parse_args p ln (map text ws) = Ok ns /\
    forall d, get d ns = match last_write p ws d with Some v => v | None => declared (p_actions p) d end.
Proof.
  intros Ht Hp Hs Hr H. destruct (simple_words p ws (declared (p_actions p)) H) as (m & E & Hm).
  destruct (parse_line p ln ws m Ht Hp Hs Hr E) as (ns & R & G). exists ns. split; [exact R|].
  intros d. rewrite G. apply Hm.
Qed.
