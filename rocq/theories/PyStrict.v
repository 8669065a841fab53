(** * What becomes of words the option table does not know

    An analysis of the parse methods: on which paths a line is only accepted if
    parse_known_args left no word that starts with a dash.  Like PyCheck.v it is part of
    the proofs, not of the model. *)

From Verif Require Import PyStrFacts ArgParseFacts ArgErrFacts NsFacts PyCheckFacts PyFlow.
From Verif Require Import Value.
Local Open Scope string_scope.
Local Open Scope list_scope.
Local Arguments Ascii.eqb : simpl never.
Local Arguments String.eqb : simpl never.

(** Nothing is known; the variable [x] holds what parse_known_args left; nothing with a
    dash was left, or there were no words. *)
Inductive left_over := LNo | LHold (x : string) | LNone.

Definition drop_l (xs : list string) (A : left_over) : left_over :=
  match A with LHold y => if mem y xs then LNo else A | _ => A end.
Definition join_l (A B : left_over) : left_over :=
  match A, B with
  | LNone, LNone => LNone
  | LHold x, LHold y => if String.eqb x y then LHold x else LNo
  | _, _ => LNo
  end.
(** After the test [y] came out true, or false. *)
Definition when_true (A : left_over) (y : expr) : left_over :=
  match A, y with
  | LHold x, EUn UNot (EVar z) => if String.eqb x z then LNone else A
  | _, _ => A
  end.
Definition when_false (A : left_over) (y : expr) : left_over :=
  match A, y with
  | _, EArgs | _, EBin BGt (EUn ULen EArgs) (EConst (VInt 0)) => LNone
  | LHold x, EVar z => if String.eqb x z && negb (String.eqb x "self") then LNone else A
  | LHold x, EUn UDashed (EVar z) => if String.eqb x z && negb (String.eqb x "self") then LNone else A
  | LHold x, EBin BGt (EUn ULen (EVar z)) (EConst (VInt 0)) => if String.eqb x z && negb (String.eqb x "self") then LNone else A
  | _, _ => A
  end.
Record lends := mkLends { l_next : option left_over; l_break : option left_over; l_ret : option left_over }.
Definition only (A : left_over) : left_over := match A with LNone => LNone | _ => LNo end.

Fixpoint left_of (A : left_over) (s : stmt) : lends :=
  match s with
  | SPass | SAssert _ | SDelRemoved _ => mkLends (Some A) None None
  | SSeq s t =>
      let a := left_of A s in
      match l_next a with
      | None => a
      | Some B => let b := left_of B t in
                  mkLends (l_next b) (join_opt join_l (l_break a) (l_break b)) (join_opt join_l (l_ret a) (l_ret b))
      end
  | SAssign x _ | SAttr x _ _ | SDel x _ | SAppend x _ | SSetTo _ x => mkLends (Some (drop_l [x] A)) None None
  | SPartition x y z _ _ => mkLends (Some (drop_l [x; y; z] A)) None None
  | SParse _ => mkLends (Some LNone) None None
  | SParseKnown _ extra => mkLends (Some (match A with LNone => LNone | _ => LHold extra end)) None None
  | SIf y s t =>
      let a := left_of (when_true A y) s in let b := left_of (when_false A y) t in
      mkLends (join_opt join_l (l_next a) (l_next b)) (join_opt join_l (l_break a) (l_break b)) (join_opt join_l (l_ret a) (l_ret b))
  | SFor _ _ _ | SForPairs _ _ _ _ | SForData _ _ => mkLends (Some (only A)) None (Some (only A))
  | SRaise _ _ | STypeError | SCall _ _ _ _ => mkLends None None None
  | SReturn _ => mkLends None None (Some A)
  | SBreak => mkLends None (Some A) None
  | SBlock x _ s =>
      let a := left_of (only A) s in
      let all := join_opt join_l (join_opt join_l (option_map only (l_next a)) (option_map only (l_break a))) (option_map only (l_ret a)) in
      match all with
      | None => mkLends None None None
      | Some LNone => mkLends (Some LNone) None None
      | Some _ => mkLends (Some (drop_l [x] A)) None None
      end
  end.

Section Left.
Variable c : ctx.

(** Some call of parse_known_args left no word with a dash, or there are no words. *)
Definition none_left : Prop := c_args c = [] \/ exists ln n r, parse_known_args (c_parser c) ln (c_args c) = Ok (n, r) /\
  existsb (fun s => startswith s "-") r = false.
Definition lsat (A : left_over) (e : env) : Prop :=
  match A with
  | LNo => True
  | LHold x => exists ln n r, parse_known_args (c_parser c) ln (c_args c) = Ok (n, r) /\ assoc x e = Some (PV (VStrs r))
  | LNone => none_left
  end.
Definition lopt (A : option left_over) (e : env) : Prop := match A with Some A => lsat A e | None => False end.
Definition leaves (f : lends) (o : outcome) : Prop :=
  match o with
  | ONext e _ => lopt (l_next f) e
  | OBreak e _ => lopt (l_break f) e
  | OReturn _ _ => exists e, lopt (l_ret f) e
  | ORaise _ _ => True
  end.

Lemma join_l_l A B e : lsat A e -> lsat (join_l A B) e.
Proof. destruct A as [|x|], B as [|y|]; cbn [join_l lsat]; auto. destruct (String.eqb x y); cbn [lsat]; auto. Qed.
Lemma join_l_r A B e : lsat B e -> lsat (join_l A B) e.
Proof. destruct A as [|x|], B as [|y|]; cbn [join_l lsat]; auto. destruct (String.eqb_spec x y) as [->|]; cbn [lsat]; auto. Qed.
Lemma lopt_l A B e : lopt A e -> lopt (join_opt join_l A B) e.
Proof. destruct A, B; cbn; auto using join_l_l; tauto. Qed.
Lemma lopt_r A B e : lopt B e -> lopt (join_opt join_l A B) e.
Proof. destruct A, B; cbn; auto using join_l_r; tauto. Qed.
Lemma only_sat A e e' : lsat A e -> lsat (only A) e'.
Proof. destruct A; cbn; auto. Qed.
Lemma drop_put x p A e : lsat A e -> lsat (drop_l [x] A) (put x p e).
Proof.
  destruct A as [|y|]; cbn [drop_l lsat]; auto. intros (ln & n & r & H & E). unfold mem. cbn [existsb]. rewrite orb_false_r.
  destruct (String.eqb_spec y x) as [->|Ne]; cbn [lsat]; [exact I|]. exists ln, n, r. split; [exact H|]. rewrite assoc_put_ne; auto.
Qed.
Lemma drop_same xs A e : lsat A e -> lsat (drop_l xs A) e.
Proof. destruct A as [|y|]; cbn [drop_l lsat]; auto. intros H. destruct (mem y xs); [exact I|exact H]. Qed.

Lemma when_true_sound A y self e p : lsat A e -> eval c self e y = Ok p -> p_truthy p = true -> lsat (when_true A y) e.
Proof.
  destruct A as [|x|]; try (destruct y; exact (fun H _ _ => H)).
  destruct y as [v|z| |z b|z b d|z b|o z|o z w|z w|z w|n|n|n|z|b|z w|]; try exact (fun H _ _ => H).
  destruct o; try exact (fun H _ _ => H). destruct z as [v|z| |z b|z b d|z b|o z|o z w|z w|z w|n|n|n|z|b|z w|]; try exact (fun H _ _ => H).
  unfold when_true. destruct (String.eqb_spec x z) as [<-|]; [|exact (fun H _ _ => H)].
  intros (ln & n & r & H & E) V T. cbn [eval] in V. destruct (String.eqb x "self"); cbn [bind] in V.
  - injection V as <-. discriminate.
  - rewrite E in V. cbn [bind] in V. injection V as <-. cbn in T. destruct r; [|discriminate]. right. exists ln, n, []. auto.
Qed.
Lemma no_args_sound y self e p : eval c self e y = Ok p -> p_truthy p = false ->
  match y with EArgs | EBin BGt (EUn ULen EArgs) (EConst (VInt 0)) => none_left | _ => True end.
Proof.
  intros V T. destruct y as [v|z| |z b|z b d|z b|o z|o z w|z w|z w|n|n|n|z|b|z w|]; try exact I.
  - cbn [eval] in V. injection V as <-. cbn in T. left. destruct (c_args c); [reflexivity|discriminate].
  - destruct o; try exact I. destruct z as [v|z| |z b|z b d|z b|o z|o z w1|z w1|z w1|n|n|n|z|b|z w1|]; try exact I.
    destruct o; try exact I. destruct z as [v|z| |z b|z b d|z b|o z|o z w1|z w1|z w1|n|n|n|z|b|z w1|]; try exact I.
    destruct w as [v|w| |w b|w b d|w b|o w|o w w1|w w1|w w1|n|n|n|w|b|w w1|]; try exact I.
    destruct v; try exact I. destruct z; try exact I. cbn in V. injection V as <-. cbn in T. left. destruct (c_args c); [reflexivity|discriminate].
Qed.
Lemma when_false_sound A y self e p : lsat A e -> eval c self e y = Ok p -> p_truthy p = false -> lsat (when_false A y) e.
Proof.
  intros HA V T. pose proof (no_args_sound y self e p V T) as Q. revert HA V T.
  destruct y as [v|z| |z b|z b d|z b|o z|o z w|z w|z w|n|n|n|z|b|z w|]; try (destruct A; exact (fun H _ _ => H)).
  - destruct A as [|x|]; try exact (fun H _ _ => H). unfold when_false. destruct (String.eqb_spec x z) as [<-|]; [|exact (fun H _ _ => H)].
    destruct (String.eqb x "self") eqn:Es; [exact (fun H _ _ => H)|].
    intros (ln & n & r & H & E) V T. cbn [eval] in V. rewrite Es, E in V. injection V as <-. cbn in T. destruct r; [|discriminate]. right. exists ln, n, []. auto.
  - destruct A; exact (fun _ _ _ => Q).
  - destruct A as [|x|]; try exact (fun H _ _ => H). destruct o; try exact (fun H _ _ => H). destruct z as [v|z| |z b|z b d|z b|o z|o z w|z w|z w|n|n|n|z|b|z w|]; try exact (fun H _ _ => H).
    unfold when_false. destruct (String.eqb_spec x z) as [<-|]; [|exact (fun H _ _ => H)].
    destruct (String.eqb x "self") eqn:Es; [exact (fun H _ _ => H)|].
    intros (ln & n & r & H & E) V T. cbn [eval] in V. rewrite Es, E in V. cbn in V. injection V as <-. cbn in T. right. exists ln, n, r. auto.
  - destruct o; try (destruct A; exact (fun H _ _ => H)). destruct z as [v|z| |z b|z b d|z b|o z|o z w1|z w1|z w1|n|n|n|z|b|z w1|]; try (destruct A; exact (fun H _ _ => H)).
    destruct o; try (destruct A; exact (fun H _ _ => H)). destruct z as [v|z| |z b|z b d|z b|o z|o z w1|z w1|z w1|n|n|n|z|b|z w1|]; try (destruct A; exact (fun H _ _ => H)).
    + destruct A as [|x|]; try (destruct w as [[]| | | | | | | | | | | | | | | |]; try exact (fun H _ _ => H); destruct z0; exact (fun H _ _ => H)).
      destruct w as [v|w| |w b|w b d|w b|o w|o w w1|w w1|w w1|n|n|n|w|b|w w1|]; try exact (fun H _ _ => H).
      destruct v; try exact (fun H _ _ => H). destruct z0; try exact (fun H _ _ => H).
      unfold when_false. destruct (String.eqb_spec x z) as [<-|]; [|exact (fun H _ _ => H)].
      destruct (String.eqb x "self") eqn:Es; [exact (fun H _ _ => H)|].
      intros (ln & n & r & H & E) V T. cbn [eval] in V. rewrite Es, E in V. cbn in V. injection V as <-. cbn in T. destruct r; [|discriminate]. right. exists ln, n, []. auto.
    + destruct w as [v|w| |w b|w b d|w b|o w|o w w1|w w1|w w1|n|n|n|w|b|w w1|]; try (destruct A; exact (fun H _ _ => H)).
      destruct v; try (destruct A; exact (fun H _ _ => H)). destruct z; try (destruct A; exact (fun H _ _ => H)). destruct A; exact (fun _ _ _ => Q).
Qed.

Lemma loop_keeps {X} (body : X -> env -> attrs -> outcome) (P : Prop) : P ->
  forall l e self, match loop body l e self with OBreak _ _ => False | _ => P end.
Proof.
  intros HP l. induction l as [|x l IH]; intros e self; cbn [loop]; [exact HP|]. destruct (body x e self); try exact HP; apply IH.
Qed.

Lemma left_of_sound s : forall A e self, lsat A e -> leaves (left_of A s) (exec c s e self).
Proof.
  induction s as [|s1 IH1 s2 IH2|x y|x b y|x b|x y|x y z sep w|ns|ns extra|ns x|y s1 IH1 s2 IH2|x y s IH|x y w s IH|x s IH|line tag| |y|y| |l|x t m ps|x ps s IH];
    intros A e self H; cbn [exec left_of].
  - exact H.
  - specialize (IH1 A e self H). destruct (exec c s1 e self) as [e1 a1|e1 a1|p a1|z a1]; cbn [leaves] in IH1.
    + destruct (l_next (left_of A s1)) as [B|]; [|destruct IH1]. cbn [lopt] in IH1. specialize (IH2 B e1 a1 IH1).
      destruct (exec c s2 e1 a1); cbn [leaves l_next l_break l_ret] in *; auto using lopt_r. destruct IH2 as [e2 H2]. exists e2. now apply lopt_r.
    + destruct (l_next (left_of A s1)) as [B|]; cbn [leaves l_break]; auto using lopt_l.
    + destruct (l_next (left_of A s1)) as [B|]; cbn [leaves l_ret]; auto. destruct IH1 as [e2 H2]. exists e2. now apply lopt_l.
    + destruct (l_next (left_of A s1)); exact I.
  - destruct (eval c self e y) as [p|]; [|exact I]. cbn [leaves l_next lopt]. now apply drop_put.
  - unfold with_val. destruct (eval c self e y) as [[v| |n|d]|]; try exact I. unfold set_on.
    destruct (String.eqb x "self"); [now apply drop_same|]. destruct (assoc x e) as [[v'| |n|d]|]; try exact I; cbn [leaves l_next lopt]; auto using drop_same, drop_put.
  - unfold del_on. destruct (String.eqb x "self"); [now apply drop_same|]. destruct (assoc x e) as [[v'| |n|d]|]; try exact I; cbn [leaves l_next lopt]; auto using drop_same, drop_put.
  - unfold with_val. destruct (eval c self e y) as [[v| |n|d]|]; try exact I. destruct v; try exact I.
    destruct (assoc x e) as [[[]| | |]|]; try exact I. cbn [leaves l_next lopt]. now apply drop_put.
  - unfold with_val. destruct (eval c self e w) as [[v| |n|d]|]; try exact I. destruct v; try exact I.
    destruct sep as [|ch [|]]; try exact I. destruct (partition_char ch s) as [[b f] r]. cbn [leaves l_next lopt].
    destruct A as [|u|]; cbn [drop_l lsat] in *; auto. destruct (mem u [x; y; z]) eqn:M; cbn [lsat]; [exact I|]. destruct H as (ln & n & r' & H & E).
    exists ln, n, r'. split; [exact H|]. unfold mem in M. cbn [existsb] in M. apply orb_false_iff in M as [M1 M]. apply orb_false_iff in M as [M2 M]. apply orb_false_iff in M as [M3 _].
    rewrite !assoc_put, M1, M2, M3. exact E.
  - unfold parse_args. destruct (parse_known_args _ _ _) as [[n r]|] eqn:E; cbn [bind]; [|exact I]. cbn [fst snd]. destruct r; [|exact I].
    cbn [leaves l_next lopt lsat]. right. exists (line_of self), n, []. auto.
  - destruct (parse_known_args _ _ _) as [[n r]|] eqn:E; [|exact I]. cbn [leaves l_next lopt]. destruct A as [|u|]; cbn [lsat]; [| |exact H]; exists (line_of self), n, r; split; auto; apply assoc_put_eq.
  - destruct (assoc ns e) as [[v| |n|d]|]; try exact I. unfold set_to. destruct (String.eqb x "self"); [now apply drop_same|].
    destruct (assoc x e) as [[v'| |n'|d]|]; try exact I; cbn [leaves l_next lopt]; auto using drop_same, drop_put.
  - destruct (eval c self e y) as [p|] eqn:E; [|exact I]. destruct (p_truthy p) eqn:T.
    + specialize (IH1 (when_true A y) e self (when_true_sound A y self e p H E T)).
      destruct (exec c s1 e self); cbn [leaves l_next l_break l_ret] in *; auto using lopt_l. destruct IH1 as [e2 H2]. exists e2. now apply lopt_l.
    + specialize (IH2 (when_false A y) e self (when_false_sound A y self e p H E T)).
      destruct (exec c s2 e self); cbn [leaves l_next l_break l_ret] in *; auto using lopt_r. destruct IH2 as [e2 H2]. exists e2. now apply lopt_r.
  - unfold with_val. destruct (eval c self e y) as [[v| |n|d]|]; try exact I. destruct v; try exact I.
    match goal with |- leaves _ (loop ?b ?l e self) => pose proof (loop_keeps b (lsat (only A) e) (only_sat A e e H) l e self) as K; destruct (loop b l e self) end; cbn [leaves l_next l_ret l_break lopt]; try exact I; [|destruct K|eauto].
    eapply only_sat; eauto.
  - unfold with_val. destruct (eval c self e w) as [[v| |n|d]|]; try exact I. destruct v; try exact I;
    match goal with |- leaves _ (loop ?b ?l e self) => pose proof (loop_keeps b (lsat (only A) e) (only_sat A e e H) l e self) as K; destruct (loop b l e self) end; cbn [leaves l_next l_ret l_break lopt]; try exact I; try (destruct K; fail); eauto; eapply only_sat; eauto.
  - match goal with |- leaves _ (loop ?b ?l e self) => pose proof (loop_keeps b (lsat (only A) e) (only_sat A e e H) l e self) as K; destruct (loop b l e self) end; cbn [leaves l_next l_ret l_break lopt]; try exact I; [|destruct K|eauto].
    eapply only_sat; eauto.
  - destruct line; exact I.
  - exact I.
  - destruct (eval c self e y) as [p|]; [|exact I]. destruct (p_truthy p); [exact H|exact I].
  - destruct (eval c self e y) as [p|]; [|exact I]. exists e. exact H.
  - exact H.
  - exact H.
  - exact I.
  - destruct (bind_params c self e ps) as [e0|]; [|exact I]. specialize (IH (only A) e0 self (only_sat A e e0 H)).
    set (f := left_of (only A) s) in *. cbv zeta.
    set (all := join_opt join_l (join_opt join_l (option_map only (l_next f)) (option_map only (l_break f))) (option_map only (l_ret f))).
    assert (G : forall X e1, lopt X e1 -> forall e2, lopt (option_map only X) e2).
    { intros [X|] e1 H1 e2; [|destruct H1]. cbn [lopt option_map] in *. eapply only_sat; eauto. }
    assert (Q : match exec c s e0 self with ORaise _ _ => True | _ => exists e1, lopt all e1 end).
    { unfold all. destruct (exec c s e0 self) as [e1 a1|e1 a1|p a1|z a1]; cbn [leaves] in IH; try exact I.
      - exists e1. apply lopt_l, lopt_l. eapply G; eauto.
      - exists e1. apply lopt_l, lopt_r. eapply G; eauto.
      - destruct IH as [e1 H1]. exists e1. apply lopt_r. eapply G; eauto. }
    destruct all as [[|u|]|]; destruct (exec c s e0 self); cbn [leaves l_next lopt]; try exact I; auto using drop_put; destruct Q as [e2 Q]; cbn [lopt lsat] in Q; try exact Q; destruct Q.
Qed.
End Left.
