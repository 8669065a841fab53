(** * Words a command does not know *)

From Verif Require Import PyStrFacts ArgParseFacts ArgErrFacts HandlerFacts ClassModel PropsHandler PropsClass.
From Verif Require Import HandlerSpec ParserSpec ArgSpec NsFacts ArgDeclFacts ArgTable PyCheck PyCheckFacts PyKeep PyClass CmdFacts PyFlow PyFlowFacts CmdFlow PyStrict.
From Verif Require Import Value.
Local Open Scope string_scope.
Local Open Scope list_scope.
Local Arguments Ascii.eqb : simpl never.
Local Arguments String.eqb : simpl never.
Local Opaque comes_from method_of table_of removed_of data_str new_attrs init_of.

(** ** What parse_known_args leaves *)

Lemma ploop_kept ln w : forall n L st st', length L <= n ->
  ploop ln L st = Ok st' -> (exists e, In (w, CO None e) L) \/ In w (s_extras st) -> In w (s_extras st').
Proof.
  induction n as [|n IH]; intros L st st' Hn H Hu.
  { destruct L; [|simpl in Hn; lia]. rewrite ploop_end in H by reflexivity.
    apply bind_ok in H as ([s1 r] & H1 & H). injection H as <-. cbn [s_extras fst snd].
    destruct Hu as [(e & [])|Hu]. apply in_or_app. left. apply consume_positionals_extras in H1. congruence. }
  destruct (first_option L) as [HL|(A & s & oa & e & B & -> & HA)].
  - rewrite ploop_end in H by exact HL.
    apply bind_ok in H as ([s1 r] & H1 & H). injection H as <-. cbn [s_extras fst snd].
    destruct Hu as [(e & Hu)|Hu]; [exfalso; apply (unknown_not_co _ HL); exists w, e; exact Hu|].
    apply in_or_app. left. apply consume_positionals_extras in H1. congruence.
  - rewrite app_length in Hn. simpl in Hn. destruct A as [|x A].
    + cbn [app] in *. rewrite ploop_co in H. apply bind_ok in H as ([s1 r] & H1 & H). cbn [fst snd] in H.
      pose proof (consume_optional_len _ _ _ _ _ _ _ _ H1) as Hl. eapply IH; [|exact H|]; [simpl in *; lia|].
      unfold consume_optional in H1. destruct oa as [a|].
      * assert (Hu' : (exists e, In (w, CO None e) B) \/ In w (s_extras st)).
        { destruct Hu as [(e' & [Hu|Hu])|Hu]; [discriminate|left; exists e'; exact Hu|right; exact Hu]. }
        destruct e as [v|].
        -- destruct (match_optional _ _) as [[|[|?]]|]; try discriminate.
           apply bind_ok in H1 as (s2 & H1 & H2). injection H2 as <- <-.
           rewrite (take_action_extras _ _ _ _ _ H1). exact Hu'.
        -- destruct (match_optional (a_nargs a) (map snd B)) as [k|] eqn:Em; [|discriminate].
           apply bind_ok in H1 as (s2 & H1 & H2). injection H2 as <- <-.
           rewrite (take_action_extras _ _ _ _ _ H1). destruct Hu' as [(e' & Hu')|Hu']; [left|right; exact Hu'].
           apply match_optional_le in Em. exists e'. clear - Hu' Em. revert k Em. induction B as [|[s c] B IHB]; intros k Hk; [destruct Hu'|].
           destruct k as [|k]; [exact Hu'|]. destruct c as [| |oa e]; simpl in Hk; try lia. cbn [skipn]. apply IHB; [|lia].
           destruct Hu' as [Hu'|Hu']; [discriminate|exact Hu'].
      * injection H1 as <- <-. cbn [s_extras]. destruct Hu as [(e' & [Hu|Hu])|Hu].
        -- injection Hu as -> _. right. apply in_or_app. right. now left.
        -- left. exists e'. exact Hu.
        -- right. apply in_or_app. now left.
    + assert (Hu' : (exists e0, In (w, CO None e0) ((s, CO oa e) :: B)) \/ In w (s_extras st)).
      { destruct Hu as [(e' & Hu)|Hu]; [|right; exact Hu]. apply in_app_or in Hu as [Hu|Hu]; [|left; exists e'; exact Hu].
        exfalso. apply (unknown_not_co _ HA). exists w, e'. exact Hu. }
      rewrite ploop_chunk in H by (assumption || discriminate).
      apply bind_ok in H as ([s1 r] & H1 & H). cbn [fst snd] in H.
      pose proof (consume_positionals_extras _ _ _ _ _ H1) as He.
      destruct (Nat.ltb_spec (length r) (length (x :: A))) as [Hlt|Hge].
      * eapply IH; [|exact H|]; [rewrite app_length; simpl in *; lia|].
        rewrite He. destruct Hu' as [(e' & Hu')|Hu']; [left|right; exact Hu'].
        exists e'. apply in_or_app. right. exact Hu'.
      * eapply IH; [|exact H|]; [simpl in *; lia|]. cbn [s_extras]. rewrite He.
        destruct Hu' as [Hu'|Hu']; [left; exact Hu'|right; apply in_or_app; left; exact Hu'].
Qed.

Lemma unknown_left p ln l w r n x :
  table_ok p = true -> ~ In "--" l ->
  startswith w "--" = true -> w <> "--" -> has_char SP w = false ->
  (forall o a, In (o, a) (p_optmap p) -> spells w o = false) ->
  parse_known_args p ln (l ++ w :: r) = Ok (n, x) -> In w x.
Proof.
  intros Ht Hl Hw Hn Hs Hu. rewrite parse_known_args_ploop, classify_app by exact Hl.
  cbn [classify]. rewrite (parse_optional_unknown p ln w) by assumption.
  destruct (String.eqb w "--") eqn:E; [apply String.eqb_eq in E; congruence|]. cbn [bind].
  destruct (classify p ln l) as [L|e]; cbn [bind]; [|discriminate].
  destruct (classify p ln r) as [R|e]; cbn [bind]; [|discriminate].
  destruct (ploop ln _ _) as [st|e] eqn:Ep; cbn [bind]; [|discriminate].
  assert (He : In w (s_extras st)).
  { eapply ploop_kept; [apply le_n|exact Ep|]. left. exists None. apply in_or_app. right. left. reflexivity. }
  destruct (finish _ _ _ _ _) as [m|]; cbn [bind]; [|discriminate]. intros H. injection H as <- <-. exact He.
Qed.
Lemma required_left p ln args a n x :
  table_ok p = true -> In a (p_actions p) -> a_required a = true -> is_positional a = false ->
  NoDup (map a_id (p_actions p)) ->
  (forall w o b, In w args -> In (o, b) (p_optmap p) -> a_id b = a_id a -> spells w o = false) ->
  parse_known_args p ln args = Ok (n, x) -> False.
Proof.
  intros Ht Ha Hr Hpos Hnd Hw. rewrite parse_known_args_ploop.
  destruct (classify p ln args) as [L|e] eqn:Ec; cbn [bind]; [|discriminate].
  match goal with |- context [ploop ln L ?s] => set (st0 := s) end.
  pose proof (ploop_seen ln L st0) as Hs.
  destruct (ploop ln L st0) as [st|e]; cbn [bind]; [|discriminate].
  destruct (finish_missing ln (p_actions p) (s_seen st) false (s_ns st)) as (e & He).
  { right. exists a. split; [exact Ha|]. split; [exact Hr|]. intros Hi. apply Hs in Hi.
    destruct Hi as [[]|[(s & b & y & Hin & Hb)|(b & Hin & Hb)]].
    - eapply classify_in in Ec as [Hs' Hp]; eauto; try discriminate.
      eapply parse_optional_unspelled in Hp as (o & Ho & Hsp); eauto.
      rewrite (Hw s o b Hs' Ho Hb) in Hsp. discriminate.
    - subst st0. simpl in Hin. apply filter_In in Hin as [Hin Hop].
      assert (b = a).
      { clear - Hnd Hin Ha Hb. induction (p_actions p) as [|y l IH]; [destruct Hin|].
        inversion Hnd as [|? ? Hy Hl]; subst. destruct Hin as [->|Hin], Ha as [->|Ha]; auto.
        - destruct Hy. apply in_map_iff. exists a. auto.
        - destruct Hy. apply in_map_iff. exists b. auto. }
      subst b. unfold is_positional in Hpos. rewrite Hpos in Hop. discriminate. }
  rewrite He. cbn [bind]. discriminate.
Qed.

(** ** The command classes *)

Definition strict (c : string) : bool :=
  own_parse c && match parse_code c with
                 | Some s => match left_of LNo s with
                             | mkLends (Some LNone) None None => true
                             | _ => false
                             end
                 | None => false
                 end.
Lemma strict_sound rest c v a l args a' d' r : strict c = true ->
  cl_parse (class_model (cmd_class rest) c) v a l args = (a', d', Ok r) ->
  args = [] \/ exists ln n x, parse_known_args (build (table_of c)) ln args = Ok (n, x) /\ existsb (fun s => startswith s "-") x = false.
Proof.
  unfold strict. intros H P. apply andb_prop in H as [O H]. destruct (parse_code c) as [s|] eqn:E; [|discriminate].
  rewrite (class_parse rest c s E O) in P. unfold cmd_parse, run in P.
  pose proof (left_of_sound (parse_ctx c v l args) s LNo [] a I) as F.
  destruct (left_of LNo s) as [[[| |]|] [|] [|]]; try discriminate.
  destruct (exec (parse_ctx c v l args) s [] a) as [e1 s1|e1 s1|p s1|x s1]; cbn [leaves lopt l_next l_break l_ret lsat] in F.
  - exact F.
  - destruct F.
  - destruct F as [? []].
  - cbn [bind] in P. discriminate.
Qed.

(** The table has been read when the line is accepted. *)
Definition reads (c : string) : bool :=
  match parse_flow c with
  | Some (_, OSet _, _) | Some (HSet _ _, _, _) => true
  | _ => false
  end.
Lemma reads_sound rest c v a l args a' d' r : reads c = true ->
  cl_parse (class_model (cmd_class rest) c) v a l args = (a', d', Ok r) -> exists n, line_values c args = Some n.
Proof.
  unfold reads. destruct (parse_flow c) as [[[h o] o']|] eqn:E; [|discriminate]. intros H P.
  destruct (line_ends rest c v a a' l d' args (Ok r) h o o' E P) as (_ & p & _ & R1 & R2).
  exists (values_or_none c args). apply (good_values c v l args).
  destruct o as [|V|].
  - destruct h; try discriminate. apply R1.
  - apply R2.
  - destruct h; try discriminate. apply R1.
Qed.

(** ** Tables *)

(** Actions have their own numbers. *)
Lemma build_ids ops : NoDup (map a_id (p_actions (build ops))).
Proof.
  rewrite build_tabulate. cbn [real p_actions]. rewrite map_map. change (fun x => a_id (act x)) with (@snd decl nat).
  unfold tabulate.
  assert (R : forall l t, NoDup (map snd (t_acts t)) -> Forall (fun x => snd x < t_next t) (t_acts t) ->
    let u := fold_left tab_resolve l t in NoDup (map snd (t_acts u)) /\ Forall (fun x => snd x < t_next t) (t_acts u)).
  { induction l as [|o l IH]; intros t H1 H2; [split; assumption|]. cbn [fold_left].
    assert (N : t_next (tab_resolve t o) = t_next t) by (unfold tab_resolve; destruct (assoc o (t_map t)); reflexivity).
    cbv zeta in IH. specialize (IH (tab_resolve t o)). rewrite N in IH. apply IH; unfold tab_resolve; destruct (assoc o (t_map t)) as [old|]; auto; cbn [t_acts].
    - clear IH N H2. induction (t_acts t) as [|x r IHr]; [constructor|]. cbn [flat_map map] in *. inversion H1 as [|? ? Hx Hr]; subst.
      assert (I : forall y, In y (map snd (flat_map (fun a => if Nat.eqb (snd a) (snd old)
                                then match d_opts (strip_decl o (fst a)) with [] => [] | _ => [(strip_decl o (fst a), snd a)] end
                                else [a]) r)) -> In y (map snd r)).
      { intros y Hy. apply in_map_iff in Hy as (z & <- & Hz). apply in_flat_map in Hz as (w & Hw & Hz). apply in_map_iff. exists w. split; [|exact Hw].
        destruct (Nat.eqb (snd w) (snd old)); [destruct (d_opts (strip_decl o (fst w))); [destruct Hz|]|]; destruct Hz as [<-|[]]; reflexivity. }
      rewrite map_app. destruct (Nat.eqb (snd x) (snd old)); [destruct (d_opts (strip_decl o (fst x)))|]; cbn [map app snd]; auto; constructor; auto.
    - rewrite Forall_forall in *. intros z Hz. apply in_flat_map in Hz as (w & Hw & Hz). specialize (H2 w Hw).
      destruct (Nat.eqb (snd w) (snd old)); [destruct (d_opts (strip_decl o (fst w))); [destruct Hz|]|]; destruct Hz as [<-|[]]; exact H2. }
  assert (G : forall t, NoDup (map snd (t_acts t)) -> Forall (fun x => snd x < t_next t) (t_acts t) -> NoDup (map snd (t_acts (fold_left tab_op ops t)))).
  { induction ops as [|[d|o] ops IH]; intros t H1 H2; cbn [fold_left tab_op]; [exact H1| |].
    - destruct (R (d_opts d) t H1 H2) as [R1 R2]. cbv zeta in *. apply IH; unfold tab_add; cbn [t_acts t_next].
      + rewrite map_app. cbn [map snd].
        assert (X : NoDup (t_next t :: map snd (t_acts (fold_left tab_resolve (d_opts d) t)))).
        { constructor; [|exact R1]. intros Hi. apply in_map_iff in Hi as (y & E & Hy). rewrite Forall_forall in R2. specialize (R2 y Hy). lia. }
        eapply Permutation.Permutation_NoDup; [|exact X]. apply Permutation.Permutation_cons_append.
      + apply Forall_app. split; [|constructor; [cbn; lia|constructor]]. eapply Forall_impl; [|exact R2]. cbn. lia.
    - apply IH; unfold tab_remove; destruct (existsb _ (t_acts t)); auto; cbn [t_acts t_next].
      + clear H2. induction (t_acts t) as [|x r IHr]; [constructor|]. cbn [tab_remove_first map] in *. inversion H1 as [|? ? Hx Hr]; subst.
        destruct (mem o (d_opts (fst x))); [assumption|]. cbn [map]. constructor; [|auto]. intros Hi. apply Hx. clear - Hi.
        induction r as [|y r IH]; [exact Hi|]. cbn [tab_remove_first map] in *. destruct (mem o (d_opts (fst y))); cbn [map] in Hi; [now right|]. destruct Hi as [Hi|Hi]; [now left|right; auto].
      + rewrite Forall_forall in *. intros z Hz. apply H2. clear - Hz. induction (t_acts t) as [|y r IH]; [exact Hz|].
        cbn [tab_remove_first] in Hz. destruct (mem o (d_opts (fst y))); [now right|]. destruct Hz as [Hz|Hz]; [now left|right; auto]. }
  apply G; constructor.
Qed.

Definition names_ok (ops : list tableop) : bool := forallb (fun d => forallb option_name (d_opts d)) (decls ops).
Lemma names_table_ok ops : names_ok ops = true -> table_ok (build ops) = true.
Proof.
  unfold names_ok. intros H. rewrite forallb_forall in H. unfold build.
  assert (G : forall ops p, (forall d, In d (decls ops) -> forallb option_name (d_opts d) = true) -> table_ok p = true ->
              table_ok (fold_left apply_op ops p) = true).
  { induction ops0 as [|[d|o] ops0 IH]; intros p Hd Hp; simpl; auto.
    - apply IH; [intros x Hx; apply Hd; simpl; auto|]. apply add_argument_ok; auto. apply Hd; simpl; auto.
    - apply IH; [intros x Hx; apply Hd; simpl; auto|]. apply remove_argument_ok; auto. }
  apply G; auto.
Qed.
Lemma required_decl ops a : In a (p_actions (build ops)) -> a_required a = true -> is_positional a = false ->
  exists d, In d (decls ops) /\ d_required d = true /\ no_opts d = false.
Proof.
  intros Ha R P. destruct (build_from ops a) as (d & Hd & F); [unfold all_actions; apply in_or_app; now left|].
  destruct F as (_ & _ & _ & _ & _ & _ & _ & F8 & F9). exists d. split; [exact Hd|]. split; congruence.
Qed.

(** ** Data lists *)

Definition keeps_list (c : string) : bool :=
  match parse_code c with Some _ => negb (based (ClassModel.comes_from c "dataList")) && mem c list_classes | None => false end.
Lemma keeps_list_ok rest c : keeps_list c = true -> cl_list (class_model (cmd_class rest) c) = true.
Proof.
  unfold keeps_list. destruct (parse_code c) eqn:E; [|discriminate]. intros H. apply andb_prop in H as [H1 H2].
  apply negb_true_iff in H1. change (cl_list (class_model (cmd_class rest) c)) with (from_base c "dataList" false false false (cl_list (cmd_class rest c))).
  rewrite (from_base_not c "dataList" _ _ _ _ H1). revert E. unfold parse_code, cmd_class.
  generalize (method_of c "__init__" []) (method_of c "parse" []) (method_of c "__str__" []). intros [i|] [p|] [t|] E; try discriminate. exact H2.
Qed.
