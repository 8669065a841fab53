(** * C41: the password of rootpw *)

From Verif Require Import PyStrFacts ArgParseFacts HandlerFacts ClassModel PropsHandler PropsClass.
From Verif Require Import HandlerSpec ParserSpec Parser ArgSpec ArgDecl PropsStorage NsFacts ArgTable PyFlowFacts PyClass CmdFacts CmdFlow CmdLines CmdStrict RoundSpec CmdRound PropsRound PropsStore PropsRepo.
From Verif Require Import Value.
Local Open Scope string_scope.
Local Open Scope list_scope.
Local Arguments Ascii.eqb : simpl never.
Local Arguments String.eqb : simpl never.

(** ** The classes *)

Definition rootpw_code (x : expr) : stmt :=
  SBlock "_r" [] (SSeq (SParseKnown "ns" "extra")
    (SSeq (SIf (EUn UNot x) (SRaise true "rootpw")
            (SIf (EVar "extra") (SRaise true "Unexpected arguments to %(command)s command: %(options)s") SPass))
    (SSeq (SSetTo "ns" "self") (SReturn (EVar "self"))))).
Definition with_password : expr := EAttr (EVar "ns") "password".
Definition or_lock : expr := EOr with_password (EAttr (EVar "ns") "lock").
Definition rootpw_classes : list (string * expr) := [("FC3_RootPw", with_password); ("F8_RootPw", with_password); ("F18_RootPw", or_lock)].
Lemma rootpw_codes : Forall (fun e => own_parse (fst e) = true /\ parse_code (fst e) = Some (rootpw_code (snd e))) rootpw_classes.
Proof. unfold rootpw_classes. repeat (apply Forall_cons || apply Forall_nil); cbn [fst snd]; (split; vm_compute; reflexivity). Qed.
Lemma rootpw_handlers : forallb (fun h => forallb (fun nc => negb (String.eqb (fst nc) "rootpw") ||
    (if Z.leb F18 (fst h) then mem (snd nc) ["F18_RootPw"] else mem (snd nc) ["FC3_RootPw"; "F8_RootPw"])) (fst (snd h))) handlers = true.
Proof. vm_compute. reflexivity. Qed.
Local Opaque comes_from method_of table_of removed_of data_str new_attrs init_of parse_flow marked_b strict reads names_ok used_classes parse_code build own_parse inits check_table.

(** What is read from the line and is not empty is stored. *)
Lemma stored n a k w : NoDup (map fst n) -> assoc k n = Some w -> truthy w = true -> truthy (get k (set_to_obj n a)) = true.
Proof. intros ND A T. unfold get. rewrite set_to_obj_overlay by exact ND. unfold overlay. rewrite A. destruct w; cbn [is_none]; first [exact T|discriminate]. Qed.

Lemma rootpw_run c x vw d args a a' p : In (c, x) rootpw_classes ->
  run (parse_ctx c vw d args) (rootpw_code x) [] a = (a', Ok p) ->
  truthy (get "password" a') = true \/ (x = or_lock /\ truthy (get "lock" a') = true).
Proof.
  intros Hc R. unfold run, rootpw_code in R. cbn [exec bind_params map_res] in R.
  change (c_parser (parse_ctx c vw d args)) with (build (table_of c)) in R. change (c_args (parse_ctx c vw d args)) with args in R.
  destruct (parse_known_args (build (table_of c)) (line_of a) args) as [[n r]|z] eqn:P; [|discriminate].
  pose proof (line_values_any c args _ n r P) as L. pose proof (line_values_dict c args n L) as Nd.
  match type of R with context [put "extra" ?y (put "ns" ?w ?e)] => set (e2 := put "extra" y (put "ns" w e)) in R;
    assert (R1 : assoc "ns" e2 = Some w) by (unfold e2; rewrite assoc_put_ne by discriminate; apply assoc_put_eq);
    assert (R2 : assoc "extra" e2 = Some y) by (unfold e2; apply assoc_put_eq); clearbody e2 end.
  assert (X : exists b, eval (parse_ctx c vw d args) a e2 (EUn UNot x) = Ok (PV (VBool b)) /\
     (b = false -> truthy (get "password" (set_to_obj n a)) = true \/ (x = or_lock /\ truthy (get "lock" (set_to_obj n a)) = true)) \/
     exists z, eval (parse_ctx c vw d args) a e2 (EUn UNot x) = Err z).
  { assert (W : (x = with_password \/ x = or_lock)) by (destruct Hc as [E|[E|[E|[]]]]; injection E as _ <-; auto).
    destruct W as [->| ->]; unfold or_lock, with_password; cbn [eval find_attr]; change (String.eqb "ns" "self") with false; cbv iota; rewrite R1; cbn [bind find_attr];
      (destruct (assoc "password" n) as [w|] eqn:A; cbn [bind to_val un]; [|exists true; right; eauto]).
    - exists (negb (truthy w)). left. split; [reflexivity|]. intros T. apply negb_false_iff in T. left. eapply stored; eassumption.
    - cbn [p_truthy]. destruct (truthy w) eqn:T; cbn [bind to_val un].
      + exists (negb (truthy w)). left. split; [reflexivity|]. intros _. left. eapply stored; eassumption.
      + destruct (assoc "lock" n) as [u|] eqn:B; cbn [bind to_val un]; [|exists true; right; eauto].
        exists (negb (truthy u)). left. split; [reflexivity|]. intros U. apply negb_false_iff in U. right. split; [reflexivity|]. eapply stored; eassumption. }
  destruct X as (b & [(E & F)|(z & E)]); rewrite E in R; [|discriminate]. cbn [bind p_truthy truthy] in R. destruct b; [discriminate|]. specialize (F eq_refl).
  cbn [eval] in R. change (String.eqb "extra" "self") with false in R. cbv iota in R. rewrite R2 in R. cbn [bind] in R.
  match type of R with context [if ?y then _ else _] => destruct y end; [discriminate|].
  rewrite R1 in R. unfold set_to in R. change (String.eqb "self" "self") with true in R. cbv iota in R. cbn [bind] in R. injection R as <- _. exact F.
Qed.

(** ** The theorem *)

(** After an accepted rootpw line, whatever came before it, there is a password, or, from
    F18 on, the account is locked. *)
Theorem C41_rootpw : forall rest v cm dm c h line args ln h1 o,
  In (v, (cm, dm)) handlers -> In ("rootpw", c) cm -> used rest cm dm h ->
  handle_command h line ("rootpw" :: args) ln = (h1, None) -> served h1 "rootpw" = Some o ->
  truthy (get "password" (o_attrs o)) = true \/ ((F18 <= v)%Z /\ truthy (get "lock" (o_attrs o)) = true).
Proof.
  intros rest v cm dm c h line args ln h1 o Hv Hc U E So.
  assert (X : exists x, In (c, x) rootpw_classes /\ (x = or_lock -> (F18 <= v)%Z)).
  { pose proof rootpw_handlers as T. rewrite forallb_forall in T. specialize (T _ Hv). cbn [fst snd] in T. rewrite forallb_forall in T. specialize (T _ Hc). cbn [fst snd] in T.
    change (String.eqb "rootpw" "rootpw") with true in T. cbn [negb orb] in T. destruct (Z.leb F18 v) eqn:V; apply mem_In in T.
    - destruct T as [<-|[]]. exists or_lock. split; [cbn; tauto|]. intros _. now apply Z.leb_le.
    - exists with_password. split; [destruct T as [<-|[<-|[]]]; cbn; tauto|discriminate]. }
  destruct X as (x & Hx & Vx). pose proof rootpw_codes as UC. rewrite Forall_forall in UC. specialize (UC _ Hx). cbn [fst snd] in UC. destruct UC as (O & Pc).
  destruct (line_cases rest v cm dm Hv h "rootpw" c line args ln U Hc) as (q & vw & a' & d' & Sq & Cq & Vd & P & J).
  pose proof (J "rootpw" c Hc) as J0. rewrite E in J0, P. cbn [fst snd] in J0, P. rewrite eqb_refl_s in J0.
  destruct (cl_parse (class_model (cmd_class rest) c) vw (stamp "rootpw" line ln (o_attrs q)) (o_data q) args) as [[a1 d1] [y|e]] eqn:Q; [|destruct P as (_ & _ & P); discriminate].
  destruct P as (-> & -> & _). rewrite (class_parse rest c _ Pc O) in Q. unfold cmd_parse in Q.
  destruct (run (parse_ctx c vw (o_data q) args) (rootpw_code x) [] (stamp "rootpw" line ln (o_attrs q))) as [a2 [p2|e2]] eqn:R; [|discriminate].
  injection Q as <- _ _. rewrite J0 in So. injection So as <-. cbn [o_attrs].
  destruct (rootpw_run c x vw (o_data q) args _ a2 p2 Hx R) as [A|[B C]]; [now left|right; auto].
Qed.
Print Assumptions C41_rootpw.

(** It therefore meets the condition that C38 puts on it. *)
Theorem C41_rootpw_case : forall rest v cm dm h line args ln h1 o,
  In (v, (cm, dm)) handlers -> In ("rootpw", "F18_RootPw") cm -> used rest cm dm h ->
  handle_command h line ("rootpw" :: args) ln = (h1, None) -> served h1 "rootpw" = Some o ->
  forall L, assoc "F18_RootPw" cases = Some L -> exists l, In l L /\ forall k b, In (k, b) l -> truthy (get k (o_attrs o)) = b.
Proof.
  intros rest v cm dm h line args ln h1 o Hv Hc U E So L HL. pose proof (C41_rootpw rest v cm dm _ h line args ln h1 o Hv Hc U E So) as X.
  change (assoc "F18_RootPw" cases) with (Some [[("password", true)]; [("password", false); ("lock", true)]]) in HL. injection HL as <-.
  destruct (truthy (get "password" (o_attrs o))) eqn:T.
  - exists [("password", true)]. split; [now left|]. intros k b [H|[]]. injection H as <- <-. exact T.
  - destruct X as [X|[_ X]]; [discriminate|]. exists [("password", false); ("lock", true)]. split; [right; now left|].
    intros k b [H|[H|[]]]; injection H as <- <-; assumption.
Qed.
Print Assumptions C41_rootpw_case.

Local Transparent comes_from method_of table_of removed_of data_str new_attrs init_of parse_flow marked_b strict reads names_ok used_classes parse_code build own_parse inits check_table.
Example C41_rootpw_example :
  accepts F34 [["rootpw"; "--lock"]] = Some true /\ accepts F34 [["rootpw"; "--iscrypted"]] = Some false /\ accepts F17 [["rootpw"; "--lock"]] = Some false /\ accepts F17 [["rootpw"; "--lock"; "x"]] = Some true.
Proof. repeat split; lazy; reflexivity. Qed.
