(** * Attributes that a method leaves alone *)

From Verif Require Import PyStrFacts ArgParseFacts ArgErrFacts NsFacts PyCheck PyCheckFacts PyClass.
From Verif Require Import Value.
Local Open Scope string_scope.
Local Open Scope list_scope.

(** The statement does not name the attribute in an assignment or a deletion. *)
Fixpoint keeps (a : string) (s : stmt) : bool :=
  match s with
  | SSeq s t | SIf _ s t => keeps a s && keeps a t
  | SAttr _ b _ | SDel _ b => negb (String.eqb a b)
  | SDelRemoved l => negb (mem a l)
  | SFor _ _ s | SForPairs _ _ _ s | SForData _ s | SBlock _ _ s => keeps a s
  | _ => true
  end.

Section Keep.
Variables (c : ctx) (a : string).
Hypothesis parsed : forall ln n r, parse_known_args (c_parser c) ln (c_args c) = Ok (n, r) -> has_key a n = false.

(** No namespace has the attribute. *)
Definition lacks (p : pval) : Prop := match p with PNs n => has_key a n = false | _ => True end.
Definition env_lacks (e : env) : Prop := forall x p, assoc x e = Some p -> lacks p.

Lemma env_lacks_put x p e : lacks p -> env_lacks e -> env_lacks (put x p e).
Proof.
  intros H He y q Hy. rewrite assoc_put in Hy. destruct (String.eqb y x); [injection Hy as <-; exact H|eauto].
Qed.

Lemma eval_lacks self e : env_lacks e -> forall x p, eval c self e x = Ok p -> lacks p.
Proof.
  intros He x. induction x as [v|y| |y IHy b|y IHy b d IHd|y IHy b|o y IHy|o y IHy z IHz|y IHy z IHz|y IHy z IHz|n|n|n|y IHy|b|y IHy z IHz|];
    intros p H; cbn [eval] in H.
  - injection H as <-. exact I.
  - destruct (String.eqb y "self"); [injection H as <-; exact I|]. destruct (assoc y e) eqn:E; [|discriminate]. injection H as <-. eauto.
  - injection H as <-. exact I.
  - apply bind_ok in H as (q & _ & H). destruct (find_attr self q b); [|discriminate]. injection H as <-. exact I.
  - apply bind_ok in H as (q & _ & H). destruct (find_attr self q b); [injection H as <-; exact I|eauto].
  - apply bind_ok in H as (q & _ & H). injection H as <-. exact I.
  - assert (G : exists w, p = PV w).
    { destruct o; apply bind_ok in H as (q & _ & H);
      try (apply bind_ok in H as (v & _ & H); apply bind_ok in H as (w & _ & H)); injection H as <-; eauto. }
    destruct G as [w ->]. exact I.
  - apply bind_ok in H as (q & _ & H). apply bind_ok in H as (v & _ & H). apply bind_ok in H as (q' & _ & H).
    apply bind_ok in H as (w & _ & H). apply bind_ok in H as (r & _ & H). injection H as <-. exact I.
  - apply bind_ok in H as (q & Hq & H). destruct (p_truthy q); [eauto|]. injection H as <-. eauto.
  - apply bind_ok in H as (q & Hq & H). destruct (p_truthy q); [|eauto]. injection H as <-. eauto.
  - destruct (seen_in _ _); [|discriminate]. injection H as <-. exact I.
  - injection H as <-. exact I.
  - destruct (assoc _ _); [|discriminate]. injection H as <-. exact I.
  - apply bind_ok in H as (q & _ & H). destruct q; try discriminate. apply bind_ok in H as (s & _ & H). injection H as <-. exact I.
  - apply bind_ok in H as (q & _ & H). injection H as <-. exact I.
  - apply bind_ok in H as (q & _ & H). apply bind_ok in H as (v & _ & H). apply bind_ok in H as (q' & _ & H).
    destruct v; try discriminate. injection H as <-. exact I.
  - injection H as <-. reflexivity.
Qed.

Definition kept (self : attrs) (o : outcome) : Prop :=
  match o with
  | ONext e s | OBreak e s => env_lacks e /\ assoc a s = assoc a self
  | OReturn p s => lacks p /\ assoc a s = assoc a self
  | ORaise _ s => assoc a s = assoc a self
  end.

Lemma kept_trans self self' o : assoc a self' = assoc a self -> kept self' o -> kept self o.
Proof. intros E. destruct o; cbn [kept]; rewrite E; auto. Qed.

Lemma loop_kept {A} (body : A -> env -> attrs -> outcome) :
  (forall x e self, env_lacks e -> kept self (body x e self)) ->
  forall l e self, env_lacks e -> kept self (loop body l e self).
Proof.
  intros HB l. induction l as [|x l IH]; intros e self He; cbn [loop]; [split; auto|].
  pose proof (HB x e self He) as H. destruct (body x e self) as [e' s'|e' s'|p s'|z s']; try exact H.
  destruct H as [He' Hs']. eapply kept_trans; [exact Hs'|]. auto.
Qed.

Lemma set_to_obj_other n : forall self, has_key a n = false -> assoc a (set_to_obj n self) = assoc a self.
Proof.
  induction n as [|[k v] n IH]; intros self H; [reflexivity|]. cbn [set_to_obj]. unfold has_key in *. cbn [assoc] in H.
  destruct (String.eqb a k) eqn:E; [discriminate|]. rewrite IH by exact H. destruct (is_none v); [reflexivity|].
  rewrite assoc_put, E. reflexivity.
Qed.

Lemma delete_removed_other l self : mem a l = false -> assoc a (delete_removed l self) = assoc a self.
Proof.
  unfold delete_removed. intros H.
  assert (G : forall m (s : attrs), (forall k, In k m -> In k l) -> assoc a (fold_left (fun a k => del k a) m s) = assoc a s).
  { induction m as [|k m IH]; intros s Hm; [reflexivity|]. cbn [fold_left]. rewrite IH by (intros; apply Hm; now right).
    apply assoc_del_ne. intros ->. assert (X : mem k l = true) by (apply existsb_exists; exists k; split; [apply Hm; now left|apply eqb_refl_s]).
    congruence. }
  apply G. intros k Hk. apply filter_In in Hk. tauto.
Qed.

Lemma bind_params_lacks self e ps e0 : env_lacks e -> bind_params c self e ps = Ok e0 -> env_lacks e0.
Proof.
  intros He. revert e0. induction ps as [|[x y] ps IH]; intros e0 H; cbn [bind_params map_res] in H.
  - injection H as <-. intros x p Hx. discriminate.
  - apply bind_ok in H as (xp & H1 & H). apply bind_ok in H1 as (p & H1 & H2). injection H2 as <-.
    apply bind_ok in H as (r & H3 & H). injection H as <-. intros z q Hz. cbn [fst snd assoc] in Hz.
    destruct (String.eqb z x); [injection Hz as <-; eapply eval_lacks; eauto|]. eapply IH; eauto.
Qed.

Lemma set_on_kept x b v e self : String.eqb a b = false -> env_lacks e -> kept self (set_on x b v e self).
Proof.
  intros H He. assert (HP : forall n : attrs, assoc a (put b v n) = assoc a n) by (intros; rewrite assoc_put, H; reflexivity).
  unfold set_on. destruct (String.eqb x "self"); [split; auto|].
  destruct (assoc x e) as [[w| |n|d]|] eqn:E; cbn [kept]; auto.
  - split; [|reflexivity]. apply env_lacks_put; [|exact He]. specialize (He x _ E). cbn [lacks] in *. rewrite has_key_put, H. exact He.
  - split; [|reflexivity]. apply env_lacks_put; [exact I|exact He].
Qed.
Lemma del_on_kept x b e self : String.eqb a b = false -> env_lacks e -> kept self (del_on x b e self).
Proof.
  intros H He. assert (Hne : a <> b) by (intros ->; rewrite eqb_refl_s in H; discriminate).
  unfold del_on. destruct (String.eqb x "self"); [split; auto; now apply assoc_del_ne|].
  destruct (assoc x e) as [[w| |n|d]|] eqn:E; cbn [kept]; auto.
  - split; auto. now apply assoc_del_ne.
  - split; [|reflexivity]. apply env_lacks_put; [|exact He]. specialize (He x _ E). cbn [lacks] in *. unfold has_key in *. rewrite assoc_del_ne; assumption.
  - split; [|reflexivity]. apply env_lacks_put; [exact I|exact He].
Qed.

Theorem exec_keeps s : forall e self, keeps a s = true -> env_lacks e -> kept self (exec c s e self).
Proof.
  induction s as [|s1 IH1 s2 IH2|x y|x b y|x b|x y|x y z sep w|ns|ns extra|ns x|y s1 IH1 s2 IH2|x y s IH|x y w s IH|x s IH|line tag| |y|y| |l|x t m ps|x ps s IH];
    intros e self HK He; cbn [exec]; cbn [keeps] in HK.
  - split; auto.
  - apply andb_prop in HK as [K1 K2]. pose proof (IH1 e self K1 He) as H. destruct (exec c s1 e self); try exact H.
    destruct H as [H1 H2]. eapply kept_trans; [exact H2|]. auto.
  - destruct (eval c self e y) eqn:E; cbn [kept]; auto. split; auto. apply env_lacks_put; [eapply eval_lacks; eauto|exact He].
  - unfold with_val. destruct (eval c self e y) as [[v| |n|d]|]; cbn [kept]; auto. apply set_on_kept; [|exact He]. now apply negb_true_iff.
  - apply del_on_kept; [|exact He]. now apply negb_true_iff.
  - unfold with_val. destruct (eval c self e y) as [[v| |n|d]|]; cbn [kept]; auto. destruct v; cbn [kept]; auto.
    destruct (assoc x e) as [[[]| | |]|]; cbn [kept]; auto. split; auto. apply env_lacks_put; [exact I|exact He].
  - unfold with_val. destruct (eval c self e w) as [[v| |n|d]|]; cbn [kept]; auto. destruct v; cbn [kept]; auto.
    destruct sep as [|ch [|]]; cbn [kept]; auto. destruct (partition_char ch s) as [[b f] r]. cbn [kept]. split; auto.
    repeat (apply env_lacks_put; [exact I|]). exact He.
  - destruct (parse_args (c_parser c) (line_of self) (c_args c)) as [n|z] eqn:E; cbn [kept]; auto. split; auto.
    apply env_lacks_put; [|exact He]. unfold parse_args in E. apply bind_ok in E as ([n1 r] & E1 & E). cbn [fst snd] in E.
    destruct r; [|discriminate]. injection E as <-. eapply parsed; eauto.
  - destruct (parse_known_args (c_parser c) (line_of self) (c_args c)) as [[n r]|z] eqn:E; cbn [kept]; auto. split; auto.
    apply env_lacks_put; [exact I|]. apply env_lacks_put; [|exact He]. eapply parsed; eauto.
  - destruct (assoc ns e) as [[v| |n|d]|] eqn:E; cbn [kept]; auto. unfold set_to. pose proof (He ns _ E) as Hn. cbn [lacks] in Hn.
    destruct (String.eqb x "self"); [split; auto; now apply set_to_obj_other|].
    destruct (assoc x e) as [[v| |n'|d]|] eqn:E'; cbn [kept]; auto.
    + split; auto. now apply set_to_obj_other.
    + split; auto. apply env_lacks_put; [exact I|exact He].
  - apply andb_prop in HK as [K1 K2]. destruct (eval c self e y) as [p|]; cbn [kept]; auto. destruct (p_truthy p); auto.
  - unfold with_val. destruct (eval c self e y) as [[v| |n|d]|]; cbn [kept]; auto. destruct v; cbn [kept]; auto.
    apply loop_kept; [|exact He]. intros i e0 s0 H0. apply IH; [exact HK|]. apply env_lacks_put; [exact I|exact H0].
  - unfold with_val. destruct (eval c self e w) as [[v| |n|d]|]; cbn [kept]; auto. destruct v; cbn [kept]; auto;
    (apply loop_kept; [|exact He]; intros i e0 s0 H0; apply IH; [exact HK|]; repeat (apply env_lacks_put; [exact I|]); exact H0).
  - apply loop_kept; [|exact He]. intros i e0 s0 H0. apply IH; [exact HK|]. apply env_lacks_put; [exact I|exact H0].
  - destruct line; cbn [kept]; auto.
  - cbn [kept]; auto.
  - destruct (eval c self e y) as [p|]; cbn [kept]; auto. destruct (p_truthy p); cbn [kept]; auto.
  - destruct (eval c self e y) as [p|] eqn:E; cbn [kept]; auto. split; auto. eapply eval_lacks; eauto.
  - split; auto.
  - split; auto. apply delete_removed_other. now apply negb_true_iff.
  - cbn [kept]; auto.
  - destruct (bind_params c self e ps) as [e0|] eqn:E; cbn [kept]; auto. pose proof (IH e0 self HK (bind_params_lacks _ _ _ _ He E)) as H.
    destruct (exec c s e0 self) as [e' s'|e' s'|p s'|z s']; cbn [kept] in *; try exact H;
    (destruct H as [H1 H2]; split; [|exact H2]; apply env_lacks_put; [try exact I; exact H1|exact He]).
Qed.
End Keep.
