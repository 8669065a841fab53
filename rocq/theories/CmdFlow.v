(** * What the parse methods of the command classes do with a line *)

From Coq Require Import Lia.
From Verif Require Import PyStrFacts ArgParseFacts ArgErrFacts HandlerFacts ClassModel PropsHandler PropsClass.
From Verif Require Import HandlerSpec ParserSpec NsFacts PyCheck PyCheckFacts PyKeep PyClass CmdFacts PyFlow PyFlowFacts.
From Verif Require Import Value.
Local Open Scope string_scope.
Local Open Scope list_scope.
Local Arguments Ascii.eqb : simpl never.
Local Arguments String.eqb : simpl never.
Local Opaque comes_from method_of table_of removed_of data_str new_attrs init_of.

(** The values the option table of the class [c] gives for the words [args]. *)
Definition line_values (c : string) (args : list string) : option attrs :=
  match parse_known_args (build (table_of c)) None args with Ok (n, _) => Some n | Err _ => None end.

Lemma line_values_any c args ln n r : parse_known_args (build (table_of c)) ln args = Ok (n, r) -> line_values c args = Some n.
Proof. intros H. unfold line_values. rewrite (up_parse_known_args ln None _ args _ H). reflexivity. Qed.
Lemma line_values_dict c args n : line_values c args = Some n -> NoDup (map fst n).
Proof. unfold line_values. destruct (parse_known_args _ _ _) as [[m r]|] eqn:E; [|discriminate]. intros H. injection H as <-. eapply known_dict; eauto. Qed.

(** What the analysis says of parse: what it gives, and what is known of the command
    afterwards and after an exception. *)
Definition word_flow (D : list (string * string)) (c : string) : option (hold * own * own) :=
  if own_parse c
  then match parse_code c with
       | Some s => let f := flow D (mkAst [] (OKeep [])) s in
                   match f_next f, f_break f, f_ret f with
                   | Some A, None, None => match look "_r" (av A) with
                                           | Some h => Some (h, ao A, f_raise f)
                                           | None => None
                                           end
                   | _, _, _ => None
                   end
       | None => None
       end
  else None.

Definition parse_flow (c : string) : option (hold * own * own) := word_flow [] c.

(** A namespace in which the attribute [q] has the first item of the list in [p], for
    the pair [(q, p)]. *)
Definition lowered (D : list (string * string)) (n : attrs) : attrs :=
  match D with
  | [(q, p)] => match assoc p n with
                | Some u => match bin BIndex u (VInt 0) with Ok w => put q w (del p n) | Err _ => n end
                | None => n
                end
  | _ => n
  end.
Lemma lowered_off D n k : mem k (pair_keys D) = false -> assoc k (lowered D n) = assoc k n.
Proof.
  unfold lowered. destruct D as [|[q p] [|]]; try reflexivity. cbn [pair_keys flat_map fst snd app]. intros M.
  destruct (assoc p n) as [u|]; [|reflexivity]. destruct (bin BIndex u (VInt 0)) as [w|]; [|reflexivity].
  cbn in M. apply orb_false_iff in M as [M1 M]. apply orb_false_iff in M as [M2 _]. rewrite assoc_put, assoc_del, M1, M2. reflexivity.
Qed.
Lemma index_not_none u w : bin BIndex u (VInt 0) = Ok w -> is_none w = false.
Proof.
  cbn [bin]. destruct u; intros H; try discriminate.
  all: cbn in H; try (repeat match type of H with context [match ?y with _ => _ end] => destruct y; try discriminate end); try (injection H as <-); try reflexivity.
Qed.

Section Line.
Variable rest : string -> cclass.
Variables (c : string) (v : view) (a a' : attrs) (l d' : list data) (args : list string).

(** The namespace of the line, if there is one. *)
Definition values_or_none : attrs := match line_values c args with Some n => n | None => [] end.

Lemma cmd_flows D s : (List.length D <= 1)%nat -> flows (parse_ctx c v l args) values_or_none (lowered D values_or_none) a (flow D (mkAst [] (OKeep [])) s) (exec (parse_ctx c v l args) s [] a).
Proof.
  intros HD. apply flow_sound.
  - intros k Hk. now apply lowered_off.
  - intros q p u w Hin Hp Hw. split; [|eapply index_not_none; exact Hw]. destruct D as [|[q' p'] [|]]; [destruct Hin| |cbn in HD; Lia.lia].
    destruct Hin as [Hin|[]]. injection Hin as -> ->. cbn [lowered]. rewrite Hp, Hw, assoc_put, eqb_refl_s. reflexivity.
  - unfold values_or_none. destruct (line_values c args) eqn:E; [eapply line_values_dict; eauto|constructor].
  - intros ln n r H. cbn [parse_ctx c_parser c_args] in H. apply line_values_any in H. unfold values_or_none. rewrite H. reflexivity.
  - split; [intros x h L; discriminate|]. intros k _. reflexivity.
Qed.
Lemma good_values : good (parse_ctx c v l args) values_or_none -> line_values c args = Some values_or_none.
Proof. intros (ln & r & H). cbn [parse_ctx c_parser c_args] in H. eapply line_values_any; eauto. Qed.

(** A line that is accepted, and one that is not. *)
Lemma word_ends D r h o o' : (List.length D <= 1)%nat -> word_flow D c = Some (h, o, o') ->
  cl_parse (class_model (cmd_class rest) c) v a l args = (a', d', r) ->
  d' = l /\ match r with
            | Ok x => exists p, x = (match p with PObj d => Some d | _ => None end) /\
                sat_h (parse_ctx c v l args) values_or_none (lowered D values_or_none) h p /\ sat_o (parse_ctx c v l args) values_or_none (lowered D values_or_none) a o a'
            | Err _ => sat_o (parse_ctx c v l args) values_or_none (lowered D values_or_none) a o' a'
            end.
Proof.
  intros HD. unfold word_flow. destruct (own_parse c) eqn:O; [|discriminate]. destruct (parse_code c) as [s|] eqn:E; [|discriminate].
  cbv zeta. rewrite (class_parse rest c s E O). unfold cmd_parse, run. pose proof (cmd_flows D s HD) as F.
  destruct (f_next (flow _ _ s)) as [A|] eqn:Fn; [|discriminate]. destruct (f_break (flow _ _ s)) eqn:Fb; [discriminate|].
  destruct (f_ret (flow _ _ s)) eqn:Fr; [discriminate|]. destruct (look "_r" (av A)) as [g|] eqn:L; [|discriminate].
  intros H P. injection H as <- <- <-.
  destruct (exec (parse_ctx c v l args) s [] a) as [e1 s1|e1 s1|p s1|x s1]; cbn [flows bind] in *.
  - rewrite Fn in F. destruct F as [F1 F2]. destruct (F1 _ g L) as (q & Eq & Hq). rewrite Eq in P. cbn [bind] in P. injection P as <- <- <-. eauto.
  - rewrite Fb in F. destruct F.
  - rewrite Fr in F. destruct F.
  - injection P as <- <- <-. auto.
Qed.

Lemma line_ends r h o o' : parse_flow c = Some (h, o, o') ->
  cl_parse (class_model (cmd_class rest) c) v a l args = (a', d', r) ->
  d' = l /\ match r with
            | Ok x => exists p, x = (match p with PObj d => Some d | _ => None end) /\
                sat_h (parse_ctx c v l args) values_or_none values_or_none h p /\ sat_o (parse_ctx c v l args) values_or_none values_or_none a o a'
            | Err _ => sat_o (parse_ctx c v l args) values_or_none values_or_none a o' a'
            end.
Proof. intros H. apply (word_ends []); [cbn; Lia.lia|exact H]. Qed.

(** parse stores the values of the line on the command, except perhaps the attributes
    [W], which it sets itself. *)
Definition stores_on_self (W : list string) : bool :=
  match parse_flow c with
  | Some (HSelf, OSet V, _) => forallb (fun k => mem k W) V
  | _ => false
  end.
Lemma stores_on_self_sound W r : stores_on_self W = true ->
  cl_parse (class_model (cmd_class rest) c) v a l args = (a', d', Ok r) ->
  d' = l /\ r = None /\ exists n, line_values c args = Some n /\ forall k, mem k W = false -> assoc k a' = overlay k n a.
Proof.
  unfold stores_on_self. destruct (parse_flow c) as [[[h o] o']|] eqn:E; [|discriminate].
  intros H P. destruct (line_ends (Ok r) h o o' E P) as (-> & p & -> & R1 & R2).
  destruct h; try discriminate. destruct o as [|V|]; try discriminate. destruct R2 as [G R2]. cbn [sat_h] in R1. subst p.
  split; [reflexivity|]. split; [reflexivity|]. exists values_or_none. split; [now apply good_values|].
  intros k Hk. apply R2. destruct (mem k V) eqn:M; [|reflexivity]. rewrite forallb_forall in H. apply mem_In in M. rewrite (H _ M) in Hk. discriminate.
Qed.

(** parse makes a data object of the class the handler has for [kind], stores the values
    of the line on it, except perhaps the attributes [W], and leaves the command alone. *)
Definition makes_data (kind : string) (W : list string) : bool :=
  match parse_flow c with
  | Some (HSet k V, OKeep [], OKeep []) => String.eqb k kind && forallb (fun k => mem k W) V
  | _ => false
  end.
Lemma makes_data_ok kind W r : makes_data kind W = true ->
  cl_parse (class_model (cmd_class rest) c) v a l args = (a', d', Ok r) ->
  d' = l /\ (forall k, assoc k a' = assoc k a) /\
  exists d n, r = Some d /\ assoc kind (v_data v) = Some (d_class d) /\ line_values c args = Some n /\
    forall k, mem k W = false -> assoc k (d_attrs d) = overlay k n (init_of (d_class d)).
Proof.
  unfold makes_data. destruct (parse_flow c) as [[[h o] o']|] eqn:E; [|discriminate].
  intros H P. destruct (line_ends (Ok r) h o o' E P) as (-> & p & -> & R1 & R2).
  destruct h as [| | | |k V]; try discriminate. destruct o as [[]| |]; try discriminate. destruct o' as [[]| |]; try discriminate.
  apply andb_prop in H as [Ek HW]. apply String.eqb_eq in Ek. subst k.
  destruct R1 as (G & d & -> & Dc & R1).
  split; [reflexivity|]. split; [intros k; now apply R2|]. exists d, values_or_none. split; [reflexivity|]. split; [exact Dc|].
  split; [now apply good_values|]. intros k Hk. apply R1. destruct (mem k V) eqn:M; [|reflexivity].
  rewrite forallb_forall in HW. apply mem_In in M. rewrite (HW _ M) in Hk. discriminate.
Qed.
Lemma makes_data_err kind W x : makes_data kind W = true ->
  cl_parse (class_model (cmd_class rest) c) v a l args = (a', d', Err x) ->
  d' = l /\ forall k, assoc k a' = assoc k a.
Proof.
  unfold makes_data. destruct (parse_flow c) as [[[h o] o']|] eqn:E; [|discriminate].
  intros H P. destruct (line_ends (Err x) h o o' E P) as (-> & R).
  destruct h as [| | | |k V]; try discriminate. destruct o as [[]| |]; try discriminate. destruct o' as [[]| |]; try discriminate.
  split; [reflexivity|]. intros j. now apply R.
Qed.
End Line.
