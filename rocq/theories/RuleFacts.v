(** * Rules from facts

    What [check] finds about the object a method gives, or about the command itself, is
    enough for a rule when the opposite of the rule contradicts one of the facts. *)

From Verif Require Export RuleSpec ClassModel PyClass CmdFacts CmdFlow PyCheckFacts.
From Verif Require Import PyStrFacts Value.
Local Open Scope string_scope.
Local Open Scope list_scope.
Local Arguments String.eqb : simpl never.
Local Arguments expr_eq_dec : simpl never.

(** ** The truth of an expression under assumptions that may lack a value *)

Definition presumed (c : ctx) (self : attrs) (e : env) (f : claim) : Prop :=
  forall p, eval c self e (fst f) = Ok p -> p_truthy p = snd f.

Definition opposite (o : binop) : option binop :=
  match o with BNe => Some BEq | BNotIn => Some BIn | BIsNot => Some BIs | _ => None end.
Fixpoint guess (A : facts) (x : expr) : option bool :=
  if known A (x, true) then Some true
  else if known A (x, false) then Some false
  else match x with
       | EConst v => Some (truthy v)
       | EUn UNot y => option_map negb (guess A y)
       | EUn UBool y => guess A y
       | EBin o y z => match opposite o with
                       | Some o' => if known A (EBin o' y z, true) then Some false
                                    else if known A (EBin o' y z, false) then Some true else None
                       | None => None
                       end
       | EAnd y z => match guess A y with
                     | Some false => Some false
                     | Some true => guess A z
                     | None => match guess A z with Some false => Some false | _ => None end
                     end
       | EOr y z => match guess A y with
                    | Some true => Some true
                    | Some false => guess A z
                    | None => match guess A z with Some true => Some true | _ => None end
                    end
       | _ => None
       end.

Lemma opposite_bin o o' v w x : opposite o = Some o' -> bin o v w = Ok x ->
  exists b, bin o' v w = Ok (VBool b) /\ x = VBool (negb b).
Proof.
  destruct o; intros H; try discriminate; injection H as <-; cbn [bin].
  - intros [= <-]. eauto.
  - intros [= <-]. eauto.
  - unfold vbool. destruct (py_in v w) as [b|]; cbn [bind]; [|discriminate]. intros [= <-]. eauto.
Qed.

Lemma guess_sound c s e A x : (forall f, In f A -> presumed c s e f) ->
  forall b p, guess A x = Some b -> eval c s e x = Ok p -> p_truthy p = b.
Proof.
  intros H.
  assert (K : forall x b p, known A (x, b) = true -> eval c s e x = Ok p -> p_truthy p = b).
  { intros y b p Y E. apply known_in in Y. exact (H _ Y p E). }
  induction x as [v|y| |y IH a|y IH a d IHd|y IH a|o y IH|o y IHy z IHz|y IHy z IHz|y IHy z IHz|n|n|n|y IH|a|y IHy z IHz|];
    intros b p; cbn [guess];
    (match goal with |- context [known A (?x, true)] => destruct (known A (x, true)) eqn:E1 end;
     [intros [= <-]; eapply K; eassumption|]);
    (match goal with |- context [known A (?x, false)] => destruct (known A (x, false)) eqn:E2 end;
     [intros [= <-]; eapply K; eassumption|]); try discriminate.
  - intros [= <-] [= <-]. reflexivity.
  - destruct o; try discriminate.
    + intros T E. cbn [eval] in E. destruct (guess A y) as [b'|]; [|discriminate].
      destruct (eval c s e y) as [q|]; [|discriminate]. simpl in *. injection E as <-. injection T as <-.
      simpl. rewrite (IH b' q); reflexivity.
    + intros T E. cbn [eval] in E.
      destruct (eval c s e y) as [q|]; [|discriminate]. simpl in *.
      destruct q as [v| | |]; try discriminate. simpl in E. injection E as <-. simpl.
      exact (IH b (PV v) T eq_refl).
  - destruct (opposite o) as [o'|] eqn:O; [|discriminate]. intros T E. cbn [eval] in E.
    destruct (eval c s e y) as [q|] eqn:Ey; [|discriminate]. cbn [bind] in E. destruct (to_val q) as [v|] eqn:Tq; [|discriminate]. cbn [bind] in E.
    destruct (eval c s e z) as [r|] eqn:Ez; [|discriminate]. cbn [bind] in E. destruct (to_val r) as [w|] eqn:Tr; [|discriminate]. cbn [bind] in E.
    destruct (bin o v w) as [x|] eqn:B; [|discriminate]. cbn [bind] in E. injection E as <-.
    destruct (opposite_bin o o' v w x O B) as (d & B' & ->).
    assert (E : eval c s e (EBin o' y z) = Ok (PV (VBool d))).
    { cbn [eval]. rewrite Ey. cbn [bind]. rewrite Tq. cbn [bind]. rewrite Ez. cbn [bind]. rewrite Tr. cbn [bind]. rewrite B'. reflexivity. }
    destruct (known A (EBin o' y z, true)) eqn:K1.
    { injection T as <-. rewrite <- (negb_involutive false). cbn [negb]. pose proof (K _ _ _ K1 E) as X. cbn in X |- *. now subst d. }
    destruct (known A (EBin o' y z, false)) eqn:K2; [|discriminate]. injection T as <-.
    pose proof (K _ _ _ K2 E) as X. cbn in X |- *. now subst d.
  - intros T E. cbn [eval] in E. destruct (eval c s e y) as [q|]; [|discriminate]. simpl in E.
    destruct (guess A y) as [[|]|].
    + rewrite (IHy true q) in E by reflexivity. eauto.
    + rewrite (IHy false q) in E by reflexivity. injection E as <-. injection T as <-. apply IHy; reflexivity.
    + destruct (guess A z) as [[|]|]; try discriminate. injection T as <-.
      destruct (p_truthy q) eqn:Q; [eauto|]. injection E as <-. exact Q.
  - intros T E. cbn [eval] in E. destruct (eval c s e y) as [q|]; [|discriminate]. simpl in E.
    destruct (guess A y) as [[|]|].
    + rewrite (IHy true q) in E by reflexivity. injection E as <-. injection T as <-. apply IHy; reflexivity.
    + rewrite (IHy false q) in E by reflexivity. eauto.
    + destruct (guess A z) as [[|]|]; try discriminate. injection T as <-.
      destruct (p_truthy q) eqn:Q; [|eauto]. injection E as <-. exact Q.
Qed.

(** ** Rules *)

(** The condition as an expression about the object in [x]. *)
Definition cond_expr (x : string) (c : cond) : expr :=
  match c with
  | Set_ k => EAttr (EVar x) k
  | Absent k => EBin BIs (EAttr (EVar x) k) (EConst VNone)
  | Text k s => EBin BEq (EAttr (EVar x) k) (EConst (VStr s))
  | Number k z => EBin BEq (EAttr (EVar x) k) (EConst (VInt z))
  | Starts k s => EBin BStarts (EAttr (EVar x) k) (EConst (VStr s))
  | StartsAny k l => EBin BStarts (EAttr (EVar x) k) (EConst (VStrs l))
  | Among k l => EBin BIn (EAttr (EVar x) k) (EConst (VStrs l))
  end.
Definition low (x k : string) (lo : Z) : list expr :=
  [EAnd (EBin BIsNot (EAttr (EVar x) k) (EConst VNone)) (EBin BLt (EAttr (EVar x) k) (EConst (VInt lo)))].
Definition high (x k : string) (lo hi : Z) : list expr :=
  [EAnd (EBin BIsNot (EAttr (EVar x) k) (EConst VNone))
     (EOr (EBin BLt (EAttr (EVar x) k) (EConst (VInt lo))) (EBin BGt (EAttr (EVar x) k) (EConst (VInt hi))));
   EAnd (EBin BIsNot (EAttr (EVar x) k) (EConst VNone))
     (EUn UNot (EAnd (EBin BLt (EConst (VInt (lo - 1))) (EAttr (EVar x) k)) (EBin BLt (EAttr (EVar x) k) (EConst (VInt (hi + 1))))))].
Definition implied (x : string) (F : facts) (r : rule) : bool :=
  match r with
  | Never l => let A := map (fun cb => (cond_expr x (fst cb), snd cb)) l in
               existsb (fun f => match guess A (fst f) with Some b => negb (Bool.eqb b (snd f)) | None => false end) F
  | Range k lo None => existsb (fun y => known F (y, false)) (low x k lo)
  | Range k lo (Some hi) => existsb (fun y => known F (y, false)) (high x k lo hi)
  end.

Section Rules.
Variables (c : ctx) (self : attrs) (e : env) (x : string) (g : string -> value).
Hypothesis Hx : forall k p, eval c self e (EAttr (EVar x) k) = Ok p -> p = PV (g k).

Lemma number_int v : number v = as_int v.
Proof. now destruct v as [| [] | | | | |]. Qed.

Lemma eq_number v z : py_eq v (VInt z) = true <-> number v = Some z.
Proof.
  rewrite number_int. unfold py_eq. cbn [as_int]. destruct (as_int v) as [y|] eqn:E.
  - rewrite Z.eqb_eq. split; congruence.
  - split; [|discriminate]. destruct v; try discriminate; cbn; discriminate.
Qed.
Lemma eq_text v s : py_eq v (VStr s) = true <-> v = VStr s.
Proof.
  unfold py_eq. cbn [as_int]. destruct v; cbn; try (split; discriminate). rewrite String.eqb_eq. split; congruence.
Qed.

Lemma eval_bin o y z : eval c self e (EBin o y z) =
  (do p <- eval c self e y ;; do v <- to_val p ;; do q <- eval c self e z ;; do w <- to_val q ;; do r <- bin o v w ;; Ok (PV r)).
Proof. reflexivity. Qed.
Lemma attr_bin o k w p : eval c self e (EBin o (EAttr (EVar x) k) (EConst w)) = Ok p -> exists r, bin o (g k) w = Ok r /\ p = PV r.
Proof.
  rewrite eval_bin. intros H. pose proof (Hx k) as K.
  destruct (eval c self e (EAttr (EVar x) k)) as [q|]; [|discriminate]. rewrite (K q eq_refl) in H. cbn [bind to_val eval] in H.
  destruct (bin o (g k) w) as [r|]; [|discriminate]. cbn [bind] in H. injection H as <-. eauto.
Qed.
Lemma bin_attr o k w p : eval c self e (EBin o (EConst w) (EAttr (EVar x) k)) = Ok p -> exists r, bin o w (g k) = Ok r /\ p = PV r.
Proof.
  rewrite eval_bin. intros H. pose proof (Hx k) as K.
  destruct (eval c self e (EAttr (EVar x) k)) as [q|]; [|cbn in H; discriminate]. rewrite (K q eq_refl) in H. cbn [bind to_val eval] in H.
  destruct (bin o w (g k)) as [r|]; [|discriminate]. cbn [bind] in H. injection H as <-. eauto.
Qed.

Lemma bool_iff (b : bool) (P : Prop) (d : bool) : (b = true <-> P) -> (if d then P else ~ P) -> b = d.
Proof. destruct b, d; intuition congruence. Qed.

Lemma cond_presumed k b : (if b : bool then is_so g k else ~ is_so g k) -> presumed c self e (cond_expr x k, b).
Proof.
  intros H p. cbn [fst snd]. destruct k as [k|k|k s|k z|k s|k l|k l]; cbn [cond_expr is_so] in *.
  - intros E. rewrite (Hx k p E). cbn [p_truthy]. eapply bool_iff; [reflexivity|exact H].
  - intros E. apply attr_bin in E as (r & B & ->). cbn [bin] in B. injection B as <-. cbn [p_truthy truthy]. eapply bool_iff; [|exact H].
    unfold py_is. destruct (g k); cbn; split; congruence.
  - intros E. apply attr_bin in E as (r & B & ->). cbn [bin] in B. injection B as <-. cbn [p_truthy truthy]. eapply bool_iff; [apply eq_text|exact H].
  - intros E. apply attr_bin in E as (r & B & ->). cbn [bin] in B. injection B as <-. cbn [p_truthy truthy]. eapply bool_iff; [apply eq_number|exact H].
  - intros E. apply attr_bin in E as (r & B & ->). cbn [bin] in B. destruct (g k) as [| | |t| | |]; try discriminate. injection B as <-.
    cbn [p_truthy truthy]. eapply bool_iff; [|exact H]. rewrite startswith_spec. split; intros (u & U); exists u; congruence.
  - intros E. apply attr_bin in E as (r & B & ->). cbn [bin] in B. destruct (g k) as [| | |t| | |]; try discriminate. injection B as <-.
    cbn [p_truthy truthy]. eapply bool_iff; [|exact H]. unfold starts_any. rewrite existsb_exists. split.
    + intros (u & I & U). apply startswith_spec in U as (w & ->). eauto.
    + intros (u & w & U & I). exists u. split; [exact I|]. apply startswith_spec. exists w. congruence.
  - intros E. apply attr_bin in E as (r & B & ->). cbn [bin] in B. unfold vbool in B.
    destruct (g k) as [| | |t| | |]; cbn [py_in bind] in B; injection B as <-; cbn [p_truthy truthy];
      (eapply bool_iff; [|exact H]); try (split; [discriminate|intros (u & U & _); discriminate]).
    rewrite mem_In. split; [eauto|]. intros (u & U & I). congruence.
Qed.

(** None, or not below [lo] and not above [hi]. *)
Lemma is_none k p : eval c self e (EBin BIsNot (EAttr (EVar x) k) (EConst VNone)) = Ok p -> p_truthy p = false -> g k = VNone.
Proof.
  intros E T. apply attr_bin in E as (r & B & ->). cbn [bin] in B. injection B as <-. cbn [p_truthy truthy] in T.
  apply negb_false_iff in T. unfold py_is in T. destruct (g k); now try discriminate T.
Qed.
Lemma cmp_attr o (f : Z -> Z -> bool) k z p : (forall v w, bin o v w = vbool (py_cmp f v w)) ->
  eval c self e (EBin o (EAttr (EVar x) k) (EConst (VInt z))) = Ok p -> exists y, number (g k) = Some y /\ p_truthy p = f y z.
Proof.
  intros Hf E. apply attr_bin in E as (r & B & ->). rewrite Hf in B. unfold vbool, py_cmp in B. rewrite number_int. cbn [as_int] in B.
  destruct (as_int (g k)) as [y|]; cbn [bind] in B; [|discriminate]. injection B as <-. exists y. auto.
Qed.
Lemma attr_cmp o (f : Z -> Z -> bool) k z p : (forall v w, bin o v w = vbool (py_cmp f v w)) ->
  eval c self e (EBin o (EConst (VInt z)) (EAttr (EVar x) k)) = Ok p -> exists y, number (g k) = Some y /\ p_truthy p = f z y.
Proof.
  intros Hf E. apply bin_attr in E as (r & B & ->). rewrite Hf in B. unfold vbool, py_cmp in B. rewrite number_int. cbn [as_int] in B.
  destruct (as_int (g k)) as [y|]; cbn [bind] in B; [|discriminate]. injection B as <-. exists y. auto.
Qed.

Lemma and_false y z : holds c self e (EAnd y z, false) ->
  exists p, eval c self e y = Ok p /\ (p_truthy p = false \/ holds c self e (z, false)).
Proof.
  intros (p & E & T). cbn [fst snd eval] in E, T. destruct (eval c self e y) as [q|] eqn:Ey; [|discriminate]. cbn [bind] in E. exists q. split; [reflexivity|].
  destruct (p_truthy q) eqn:Q; [|auto]. right. exists p. auto.
Qed.
Lemma or_false y z : holds c self e (EOr y z, false) -> holds c self e (y, false) /\ holds c self e (z, false).
Proof.
  intros (p & E & T). cbn [fst snd eval] in E, T. destruct (eval c self e y) as [q|] eqn:Ey; [|discriminate]. cbn [bind] in E.
  destruct (p_truthy q) eqn:Q.
  - injection E as <-. congruence.
  - split; [exists q; auto|exists p; auto].
Qed.
Lemma and_true y z : holds c self e (EAnd y z, true) -> holds c self e (y, true) /\ holds c self e (z, true).
Proof.
  intros (p & E & T). cbn [fst snd eval] in E, T. destruct (eval c self e y) as [q|] eqn:Ey; [|discriminate]. cbn [bind] in E.
  destruct (p_truthy q) eqn:Q.
  - split; [exists q; auto|exists p; auto].
  - injection E as <-. congruence.
Qed.
Lemma not_false y : holds c self e (EUn UNot y, false) -> holds c self e (y, true).
Proof.
  intros (p & E & T). cbn [fst snd eval] in E, T. destruct (eval c self e y) as [q|] eqn:Ey; [|discriminate]. cbn [bind] in E.
  injection E as <-. cbn [p_truthy truthy] in T. apply negb_false_iff in T. exists q. auto.
Qed.

Lemma implied_sound F r : all_hold c self e F -> implied x F r = true -> obeys g r.
Proof.
  intros H I. destruct r as [l|k lo hi].
  - cbn [implied obeys] in *. apply existsb_exists in I as (f & If & G). intros N.
    destruct (guess _ (fst f)) as [b|] eqn:E; [|discriminate]. destruct (H f If) as (p & Ep & T).
    pose proof (guess_sound c self e (map (fun cb => (cond_expr x (fst cb), snd cb)) l) (fst f)) as S.
    assert (P : forall f0, In f0 (map (fun cb => (cond_expr x (fst cb), snd cb)) l) -> presumed c self e f0).
    { intros f0 I0. apply in_map_iff in I0 as ((k0 & b0) & <- & I0). apply cond_presumed. now apply N. }
    specialize (S P b p E Ep). rewrite S in T. subst b. destruct (snd f); discriminate.
  - assert (K : forall y, known F (y, false) = true -> holds c self e (y, false)) by (intros y Y; apply H; now apply known_in).
    cbn [obeys]. destruct hi as [hi|]; cbn [implied low high existsb] in I.
    + rewrite orb_false_r in I. apply orb_prop in I as [I|I]; apply K in I; apply and_false in I as (p & E & [T|I]);
        try (left; eapply is_none; eassumption); right.
      * apply or_false in I as [(q & Eq & Tq) (q' & Eq' & Tq')]. cbn [fst snd] in *.
        apply (cmp_attr BLt Z.ltb) in Eq as (y & Ny & Ty); [|reflexivity]. apply (cmp_attr BGt Z.gtb) in Eq' as (y' & Ny' & Ty'); [|reflexivity].
        rewrite Ny in Ny'. injection Ny' as <-. exists y. split; [exact Ny|]. rewrite Ty in Tq. rewrite Ty' in Tq'. rewrite Z.gtb_ltb in Tq'. apply Z.ltb_ge in Tq, Tq'. auto.
      * apply not_false in I. apply and_true in I as [(q & Eq & Tq) (q' & Eq' & Tq')]. cbn [fst snd] in *.
        apply (attr_cmp BLt Z.ltb) in Eq as (y & Ny & Ty); [|reflexivity]. apply (cmp_attr BLt Z.ltb) in Eq' as (y' & Ny' & Ty'); [|reflexivity].
        rewrite Ny in Ny'. injection Ny' as <-. exists y. split; [exact Ny|]. rewrite Ty in Tq. rewrite Ty' in Tq'. apply Z.ltb_lt in Tq, Tq'. lia.
    + rewrite orb_false_r in I. apply K in I. apply and_false in I as (p & E & [T|I]); [left; eapply is_none; eassumption|right].
      destruct I as (q & Eq & Tq). cbn [fst snd] in *. apply (cmp_attr BLt Z.ltb) in Eq as (y & Ny & Ty); [|reflexivity].
      exists y. split; [exact Ny|]. split; [|exact I]. rewrite Ty in Tq. now apply Z.ltb_ge in Tq.
Qed.
End Rules.

(** A rule depends on the attributes it is about. *)
Lemma obeys_ext g h r : (forall k, In k (concerns r) -> g k = h k) -> obeys g r -> obeys h r.
Proof.
  destruct r as [l|k lo hi]; cbn [concerns obeys].
  - intros E N H. apply N. intros c b I. specialize (H c b I). assert (K : g (about c) = h (about c)).
    { apply E. apply in_map_iff. exists (c, b). auto. }
    destruct c; cbn [is_so about] in *; rewrite K; exact H.
  - intros E. rewrite (E k); auto. now left.
Qed.

(** ** What holds after an accepted line *)

(** The facts known when the method parse of [c] gives its result. *)
Definition parse_facts (c : string) : option facts :=
  if own_parse c
  then match parse_code c with
       | Some s => let a := check [] s in
                   match en_next a, en_break a, en_return a with Some F, None, None => Some F | _, _, _ => None end
       | None => None
       end
  else None.
Definition all_implied (x : string) (F : option facts) (R : list rule) : bool :=
  match F with Some F => forallb (implied x F) R | None => false end.
Definition grants (x c : string) (R : list rule) : bool := all_implied x (parse_facts c) R.

Lemma grants_facts rest x c R v a l args a' d' r : grants x c R = true ->
  cl_parse (class_model (cmd_class rest) c) v a l args = (a', d', Ok r) ->
  exists e F p, all_hold (parse_ctx c v l args) a' e F /\ forallb (implied x F) R = true /\ assoc "_r" e = Some p /\
    r = match p with PObj d => Some d | _ => None end.
Proof.
  unfold grants, parse_facts, all_implied. intros G P. destruct (own_parse c) eqn:O; [|discriminate]. destruct (parse_code c) as [s|] eqn:E; [|discriminate].
  rewrite (class_parse rest c s E O) in P. unfold cmd_parse, run in P. cbv zeta in G.
  pose proof (check_sound (parse_ctx c v l args) s [] [] a (all_nil _ _ _)) as K. unfold checked in K.
  destruct (en_next (check [] s)) as [F|]; [|discriminate]. destruct (en_break (check [] s)); [discriminate|]. destruct (en_return (check [] s)); [discriminate|].
  destruct (exec (parse_ctx c v l args) s [] a) as [e1 s1|e1 s1|p s1|x1 s1]; cbn [bind] in P; try discriminate.
  - destruct (assoc "_r" e1) as [p|] eqn:A; cbn [bind] in P; [|discriminate]. injection P as <- <- <-. exists e1, F, p. auto.
  - destruct K.
Qed.

(** The object made for the line obeys the rules. *)
Lemma grants_data rest c R v a l args a' d' d r : grants "_r" c R = true ->
  cl_parse (class_model (cmd_class rest) c) v a l args = (a', d', Ok (Some d)) -> In r R -> obeys (fun k => get k (d_attrs d)) r.
Proof.
  intros G P I. destruct (grants_facts rest "_r" c R v a l args a' d' _ G P) as (e & F & p & H & Im & Er & Ep).
  rewrite forallb_forall in Im. specialize (Im r I). destruct p as [w| |n|d0]; try discriminate. injection Ep as <-.
  eapply implied_sound; [|exact H|exact Im]. intros k p. cbn [eval bind]. replace (String.eqb "_r" "self") with false by reflexivity. rewrite Er. cbn [bind find_attr].
  destruct (assoc k (d_attrs d)) as [w|] eqn:A; [|discriminate]. intros [= <-]. unfold get. rewrite A. reflexivity.
Qed.

(** The command obeys the rules. *)
Lemma grants_self rest c R v a l args a' d' x r : grants "self" c R = true ->
  cl_parse (class_model (cmd_class rest) c) v a l args = (a', d', Ok x) -> In r R -> obeys (fun k => get k a') r.
Proof.
  intros G P I. destruct (grants_facts rest "self" c R v a l args a' d' _ G P) as (e & F & p & H & Im & _).
  rewrite forallb_forall in Im. specialize (Im r I).
  eapply implied_sound; [|exact H|exact Im]. intros k q. cbn [eval bind]. rewrite String.eqb_refl. cbn [bind find_attr].
  destruct (assoc k a') as [w|] eqn:A; [|discriminate]. intros [= <-]. unfold get. rewrite A. reflexivity.
Qed.
