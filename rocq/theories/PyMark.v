(** * The line number of data objects

    An analysis of the parse methods: which variables hold a data object whose lineno is
    that of the command.  Like PyCheck.v it is part of the proofs, not of the model. *)

From Verif Require Import PyStrFacts ArgParseFacts ArgErrFacts NsFacts PyCheck PyCheckFacts PyKeep PyClass.
From Verif Require Import Value.
Local Open Scope string_scope.
Local Open Scope list_scope.

Definition both (M N : list string) : list string := filter (fun x => mem x N) M.
Definition joined (x y : option (list string)) : option (list string) :=
  match x, y with Some M, Some N => Some (both M N) | Some M, None => Some M | None, y => y end.
(** The variables known where the statement ends by the next one, and by a break; whether
    what it returns has the line number. *)
Definition mends := (option (list string) * option (list string) * bool)%type.

(** If the value is a data object it has the line number. *)
Fixpoint marked_e (M : list string) (x : expr) : bool :=
  match x with
  | EVar y => String.eqb y "self" || mem y M
  | ENew _ => false
  | EGet _ _ d => marked_e M d
  | EAnd y z | EOr y z => marked_e M y && marked_e M z
  | _ => true
  end.
Definition own_lineno (y : expr) : bool :=
  match y with EAttr (EVar s) a => String.eqb s "self" && String.eqb a "lineno" | _ => false end.
Definition inside (M N : list string) : bool := forallb (fun x => mem x N) M.
Definition within (M : list string) (o : option (list string)) : bool := match o with Some N => inside M N | None => true end.
Definition common (M : list string) (o : option (list string)) : list string := match o with Some N => both M N | None => M end.
Definition m_loop (f : list string -> option mends) (M : list string) : option mends :=
  match f M with
  | None => None
  | Some (n, b, _) =>
      let M1 := common (common M n) b in
      match f M1 with
      | Some (n1, b1, t1) => if within M1 n1 && within M1 b1 then Some (Some M1, None, t1) else None
      | None => None
      end
  end.
Fixpoint mark (M : list string) (s : stmt) : option mends :=
  match s with
  | SPass | SAppend _ _ | SPartition _ _ _ _ _ | SParse _ | SParseKnown _ _ | SSetTo _ _ | SAssert _ => Some (Some M, None, true)
  | SSeq s t =>
      match mark M s with
      | Some (Some M1, b, k) => match mark M1 t with Some (n, b', k') => Some (n, joined b b', k && k') | None => None end
      | r => r
      end
  | SAssign x y => Some (Some (if marked_e M y then x :: M else filter (fun z => negb (String.eqb x z)) M), None, true)
  | SAttr x a y => if String.eqb a "lineno" then (if own_lineno y then Some (Some (if String.eqb x "self" then M else x :: M), None, true) else None) else Some (Some M, None, true)
  | SDel _ a => if String.eqb a "lineno" then None else Some (Some M, None, true)
  | SDelRemoved l => if mem "lineno" l then None else Some (Some M, None, true)
  | SIf _ s t =>
      match mark M s, mark M t with
      | Some (n, b, k), Some (n', b', k') => Some (joined n n', joined b b', k && k')
      | _, _ => None
      end
  | SFor x _ s => m_loop (fun M => mark (x :: M) s) M
  | SForPairs x y _ s => m_loop (fun M => mark (x :: y :: M) s) M
  | SForData x s => m_loop (fun M => mark (filter (fun z => negb (String.eqb x z)) M) s) (filter (fun z => negb (String.eqb x z)) M)
  | SRaise _ _ | STypeError | SCall _ _ _ _ => Some (None, None, true)
  | SReturn y => Some (None, None, marked_e M y)
  | SBreak => Some (None, Some M, true)
  | SBlock x ps s =>
      let M0 := map fst (filter (fun p => forallb (fun q => negb (String.eqb (fst p) (fst q)) || marked_e M (snd q)) ps) ps) in
      match mark M0 s with Some (_, _, k) => Some (Some (if k then x :: M else filter (fun z => negb (String.eqb x z)) M), None, true) | None => None end
  end.

Section Mark.
Variables (c : ctx) (L : value).
Hypothesis parsed : forall ln n r, parse_known_args (c_parser c) ln (c_args c) = Ok (n, r) -> has_key "lineno" n = false.

Definition clean_ns (p : pval) : Prop := match p with PNs n => forall v, In ("lineno", v) n -> v = L | _ => True end.
Definition marked (p : pval) : Prop := match p with PObj d => assoc "lineno" (d_attrs d) = Some L | _ => True end.
Definition env_clean (e : env) : Prop := forall x p, assoc x e = Some p -> clean_ns p.
Definition env_marked (M : list string) (e : env) : Prop := forall x p, In x M -> assoc x e = Some p -> marked p.
Definition state_ok (M : list string) (e : env) (self : attrs) : Prop := env_clean e /\ env_marked M e /\ assoc "lineno" self = Some L.

Lemma env_clean_put x p e : clean_ns p -> env_clean e -> env_clean (put x p e).
Proof. intros H He y q Hy. rewrite assoc_put in Hy. destruct (String.eqb y x); [injection Hy as <-; exact H|eauto]. Qed.
Lemma env_marked_put M x p e : marked p -> env_marked M e -> env_marked (x :: M) (put x p e).
Proof.
  intros H He y q Hy A. rewrite assoc_put in A. destruct (String.eqb_spec y x) as [->|N]; [injection A as <-; exact H|].
  destruct Hy as [->|Hy]; [contradiction|]. eauto.
Qed.
Lemma env_marked_sub M N e : (forall x, In x M -> In x N) -> env_marked N e -> env_marked M e.
Proof. intros H He x p Hx. apply He. auto. Qed.
Lemma env_marked_over M x p e : env_marked M e -> env_marked (filter (fun z => negb (String.eqb x z)) M) (put x p e).
Proof.
  intros He y q Hy A. apply filter_In in Hy as [Hy N]. apply negb_true_iff in N. rewrite assoc_put, String.eqb_sym, N in A. eauto.
Qed.
Lemma state_sub M N e s : (forall x, In x M -> In x N) -> state_ok N e s -> state_ok M e s.
Proof. intros H (A & B & C). split; [exact A|]. split; [exact (env_marked_sub M N e H B)|exact C]. Qed.

Lemma eval_marked self e M : env_clean e -> env_marked M e -> forall x p, eval c self e x = Ok p -> clean_ns p /\ (marked_e M x = true -> marked p).
Proof.
  intros He Hm x. induction x as [v|y| |y IHy b|y IHy b d IHd|y IHy b|o y IHy|o y IHy z IHz|y IHy z IHz|y IHy z IHz|n|n|n|y IHy|b|y IHy z IHz|];
    intros p H; cbn [eval] in H; cbn [marked_e].
  - injection H as <-. split; [exact I|intros _; exact I].
  - destruct (String.eqb y "self") eqn:Ey; [injection H as <-; split; [exact I|intros _; exact I]|]. destruct (assoc y e) eqn:E; [|discriminate]. injection H as <-.
    split; [eauto|]. cbn [orb]. intros My. apply mem_In in My. eauto.
  - injection H as <-. split; [exact I|intros _; exact I].
  - apply bind_ok in H as (q & _ & H). destruct (find_attr self q b); [|discriminate]. injection H as <-. split; [exact I|intros _; exact I].
  - apply bind_ok in H as (q & _ & H). destruct (find_attr self q b); [injection H as <-; split; [exact I|intros _; exact I]|eauto].
  - apply bind_ok in H as (q & _ & H). injection H as <-. split; [exact I|intros _; exact I].
  - assert (G : exists w, p = PV w).
    { destruct o; apply bind_ok in H as (q & _ & H);
      try (apply bind_ok in H as (v & _ & H); apply bind_ok in H as (w & _ & H)); injection H as <-; eauto. }
    destruct G as [w ->]. split; [exact I|intros _; exact I].
  - apply bind_ok in H as (q & _ & H). apply bind_ok in H as (v & _ & H). apply bind_ok in H as (q' & _ & H).
    apply bind_ok in H as (w & _ & H). apply bind_ok in H as (r & _ & H). injection H as <-. split; [exact I|intros _; exact I].
  - apply bind_ok in H as (q & Hq & H). destruct (IHy _ Hq) as [A B]. destruct (p_truthy q).
    + destruct (IHz _ H) as [A' B']. split; [exact A'|]. intros X. apply andb_prop in X as [_ X]. auto.
    + injection H as <-. split; [exact A|]. intros X. apply andb_prop in X as [X _]. auto.
  - apply bind_ok in H as (q & Hq & H). destruct (IHy _ Hq) as [A B]. destruct (p_truthy q).
    + injection H as <-. split; [exact A|]. intros X. apply andb_prop in X as [X _]. auto.
    + destruct (IHz _ H) as [A' B']. split; [exact A'|]. intros X. apply andb_prop in X as [_ X]. auto.
  - destruct (seen_in _ _); [|discriminate]. injection H as <-. split; [exact I|intros _; exact I].
  - injection H as <-. split; [exact I|intros _; exact I].
  - destruct (assoc _ _); [|discriminate]. injection H as <-. split; [exact I|discriminate].
  - apply bind_ok in H as (q & _ & H). destruct q; try discriminate. apply bind_ok in H as (s & _ & H). injection H as <-. split; [exact I|intros _; exact I].
  - apply bind_ok in H as (q & _ & H). injection H as <-. split; [exact I|intros _; exact I].
  - apply bind_ok in H as (q & _ & H). apply bind_ok in H as (v & _ & H). apply bind_ok in H as (q' & _ & H).
    destruct v; try discriminate. injection H as <-. split; [exact I|intros _; exact I].
  - injection H as <-. split; [intros v []|intros _; exact I].
Qed.

Definition ended (r : mends) (o : outcome) : Prop :=
  match o with
  | ONext e s => match fst (fst r) with Some M => state_ok M e s | None => False end
  | OBreak e s => match snd (fst r) with Some M => state_ok M e s | None => False end
  | OReturn p s => clean_ns p /\ (snd r = true -> marked p) /\ assoc "lineno" s = Some L
  | ORaise _ s => assoc "lineno" s = Some L
  end.

Lemma both_l M N x : In x (both M N) -> In x M.
Proof. unfold both. intros H. apply filter_In in H. tauto. Qed.
Lemma both_r M N x : In x (both M N) -> In x N.
Proof. unfold both. intros H. apply filter_In in H as [_ H]. now apply mem_In. Qed.
Lemma inside_In M N : inside M N = true -> forall x, In x M -> In x N.
Proof. unfold inside. rewrite forallb_forall. intros H x Hx. apply mem_In. auto. Qed.
Lemma common_sub M o x : In x (common M o) -> In x M.
Proof. destruct o; cbn [common]; [apply both_l|auto]. Qed.
Lemma ended_l n b k n' b' k' o : ended (n, b, k) o -> ended (joined n n', joined b b', k && k') o.
Proof.
  destruct o as [e s|e s|p s|x s]; cbn [ended fst snd]; auto.
  - destruct n as [M|]; [|contradiction]. destruct n' as [N|]; cbn [joined]; [|auto]. apply state_sub. apply both_l.
  - destruct b as [M|]; [|contradiction]. destruct b' as [N|]; cbn [joined]; [|auto]. apply state_sub. apply both_l.
  - intros (A & B & C). split; [exact A|]. split; [|exact C]. intros X. apply andb_prop in X as [X _]. auto.
Qed.
Lemma ended_r n b k n' b' k' o : ended (n', b', k') o -> ended (joined n n', joined b b', k && k') o.
Proof.
  destruct o as [e s|e s|p s|x s]; cbn [ended fst snd]; auto.
  - destruct n' as [N|]; [|contradiction]. destruct n as [M|]; cbn [joined]; [|auto]. apply state_sub. apply both_r.
  - destruct b' as [N|]; [|contradiction]. destruct b as [M|]; cbn [joined]; [|auto]. apply state_sub. apply both_r.
  - intros (A & B & C). split; [exact A|]. split; [|exact C]. intros X. apply andb_prop in X as [_ X]. auto.
Qed.

Lemma loop_ended {A} (body : A -> env -> attrs -> outcome) f M r :
  (forall M' r' x e s, f M' = Some r' -> state_ok M' e s -> ended r' (body x e s)) ->
  m_loop f M = Some r -> forall l e s, state_ok M e s -> ended r (loop body l e s).
Proof.
  intros HB H l e s St. unfold m_loop in H. destruct (f M) as [[[n b] t]|]; [|discriminate]. set (M1 := common (common M n) b) in *.
  destruct (f M1) as [[[n1 b1] t1]|] eqn:E; [|discriminate]. destruct (within M1 n1 && within M1 b1) eqn:W; [|discriminate]. injection H as <-.
  apply andb_prop in W as [W1 W2].
  assert (S1 : state_ok M1 e s) by (apply (state_sub M1 M); [|exact St]; intros x Hx; eapply common_sub, common_sub, Hx).
  clear St. revert e s S1. induction l as [|x l IH]; intros e s S1; cbn [loop]; [exact S1|].
  pose proof (HB M1 (n1, b1, t1) x e s E S1) as X. destruct (body x e s) as [e' s'|e' s'|p s'|z s']; cbn [ended fst snd] in *; auto.
  - destruct n1 as [N|]; [|contradiction]. apply IH. exact (state_sub M1 N e' s' (inside_In M1 N W1) X).
  - destruct b1 as [N|]; [|contradiction]. exact (state_sub M1 N e' s' (inside_In M1 N W2) X).
Qed.
Lemma set_to_lineno n : (forall v, In ("lineno", v) n -> v = L) -> forall a, assoc "lineno" a = Some L -> assoc "lineno" (set_to_obj n a) = Some L.
Proof.
  induction n as [|[k v] n IH]; intros H a Ha; [exact Ha|]. cbn [set_to_obj]. apply IH; [intros w Hw; apply H; now right|].
  destruct (is_none v); [exact Ha|]. rewrite assoc_put. destruct (String.eqb_spec "lineno" k) as [<-|]; [|exact Ha]. f_equal. apply H. now left.
Qed.
Lemma In_put {A} k (v : A) k' v' n : In (k', v') (put k v n) -> (k', v') = (k, v) \/ In (k', v') n.
Proof.
  induction n as [|[x y] n IH]; cbn [put]; [intros [H|[]]; auto|]. destruct (String.eqb_spec k x) as [->|].
  - intros [H|H]; [auto|right; now right].
  - intros [H|H]; [right; now left|]. destruct (IH H) as [E|E]; [auto|right; now right].
Qed.
Lemma In_del {A} k e (n : list (string * A)) : In e (del k n) -> In e n.
Proof. induction n as [|[x y] n IH]; cbn [del]; [auto|]. destruct (String.eqb k x); [intros H; right; auto|]. intros [H|H]; [now left|right; auto]. Qed.
Lemma lacks_clean n : has_key "lineno" n = false -> forall v, In ("lineno", v) n -> v = L.
Proof.
  intros H v Hv. exfalso. unfold has_key in H. induction n as [|[x y] n IH]; [destruct Hv|]. cbn [assoc] in H. destruct (String.eqb_spec "lineno" x) as [<-|N]; [discriminate|].
  destruct Hv as [E|Hv]; [congruence|auto].
Qed.
Lemma own_lineno_eval self e y p : own_lineno y = true -> assoc "lineno" self = Some L -> eval c self e y = Ok p -> p = PV L.
Proof.
  intros H Hs E. destruct y as [| | |y a| | | | | | | | | | | | |]; try discriminate. destruct y as [|y| | | | | | | | | | | | | | |]; try discriminate.
  cbn [own_lineno] in H. apply andb_prop in H as [H1 H2]. apply String.eqb_eq in H2 as ->. cbn [eval] in E. rewrite H1 in E. cbn [bind find_attr] in E. rewrite Hs in E. now injection E as <-.
Qed.
Lemma set_on_lineno M x e self : state_ok M e self -> ended (Some (if String.eqb x "self" then M else x :: M), None, true) (set_on x "lineno" L e self).
Proof.
  intros (Ce & Me & Se). assert (P : forall a : attrs, assoc "lineno" (put "lineno" L a) = Some L) by (intros; now rewrite assoc_put, eqb_refl_s).
  unfold set_on. destruct (String.eqb x "self"); [cbn [ended fst]; split; [exact Ce|]; split; [exact Me|apply P]|].
  assert (K : forall p, assoc x e = Some p -> marked p -> env_marked (x :: M) e).
  { intros p Hp Mp y q [<-|Hy] A; [congruence|eauto]. }
  destruct (assoc x e) as [[w| |n|d]|] eqn:E; cbn [ended fst snd]; auto.
  - split; [exact Ce|]. split; [exact (K _ eq_refl I)|apply P].
  - split; [|split; [|exact Se]].
    + apply env_clean_put; [|exact Ce]. intros w Hw. apply In_put in Hw as [Hw|Hw]; [congruence|]. exact (Ce x _ E w Hw).
    + apply env_marked_put; [exact I|exact Me].
  - split; [|split; [|exact Se]].
    + apply env_clean_put; [exact I|exact Ce].
    + apply env_marked_put; [apply P|exact Me].
Qed.
Lemma keep_put M x p e : (forall q, assoc x e = Some q -> In x M -> marked q -> marked p) -> assoc x e <> None -> env_marked M e -> env_marked M (put x p e).
Proof.
  intros H Hx Me y q Hy A. rewrite assoc_put in A. destruct (String.eqb_spec y x) as [->|]; [|eauto]. injection A as <-.
  destruct (assoc x e) as [r|] eqn:E; [|contradiction]. exact (H r eq_refl Hy (Me x r Hy E)).
Qed.
Lemma set_on_other M x a v e self : String.eqb a "lineno" = false -> state_ok M e self -> ended (Some M, None, true) (set_on x a v e self).
Proof.
  intros Na (Ce & Me & Se). assert (P : forall n : attrs, assoc "lineno" (put a v n) = assoc "lineno" n) by (intros; rewrite assoc_put, String.eqb_sym, Na; reflexivity).
  unfold set_on. destruct (String.eqb x "self"); [cbn [ended fst]; split; [exact Ce|]; split; [exact Me|now rewrite P]|].
  destruct (assoc x e) as [[w| |n|d]|] eqn:E; cbn [ended fst snd]; auto.
  - split; [exact Ce|]. split; [exact Me|now rewrite P].
  - split; [|split; [|exact Se]].
    + apply env_clean_put; [|exact Ce]. intros w Hw. apply In_put in Hw as [Hw|Hw]; [injection Hw as Hw _; subst a; discriminate|]. exact (Ce x _ E w Hw).
    + apply keep_put; [intros; exact I|congruence|exact Me].
  - split; [|split; [|exact Se]].
    + apply env_clean_put; [exact I|exact Ce].
    + apply keep_put; [|congruence|exact Me]. intros q Hq _ Mq. rewrite E in Hq. injection Hq as <-. cbn [marked d_attrs] in *. now rewrite P.
Qed.
Lemma del_on_other M x a e self : String.eqb a "lineno" = false -> state_ok M e self -> ended (Some M, None, true) (del_on x a e self).
Proof.
  intros Na (Ce & Me & Se). assert (P : forall n : attrs, assoc "lineno" (del a n) = assoc "lineno" n).
  { intros n. apply assoc_del_ne. intros <-. discriminate. }
  unfold del_on. destruct (String.eqb x "self"); [cbn [ended fst]; split; [exact Ce|]; split; [exact Me|now rewrite P]|].
  destruct (assoc x e) as [[w| |n|d]|] eqn:E; cbn [ended fst snd]; auto.
  - split; [exact Ce|]. split; [exact Me|now rewrite P].
  - split; [|split; [|exact Se]].
    + apply env_clean_put; [|exact Ce]. intros w Hw. apply In_del in Hw. exact (Ce x _ E w Hw).
    + apply keep_put; [intros; exact I|congruence|exact Me].
  - split; [|split; [|exact Se]].
    + apply env_clean_put; [exact I|exact Ce].
    + apply keep_put; [|congruence|exact Me]. intros q Hq _ Mq. rewrite E in Hq. injection Hq as <-. cbn [marked d_attrs] in *. now rewrite P.
Qed.
Lemma put_plain M x v e : env_marked M e -> env_marked M (put x (PV v) e).
Proof. intros Me. eapply env_marked_sub; [|apply env_marked_put; [exact I|exact Me]]. intros y; now right. Qed.
Lemma put_pair M x y v w e : env_marked M e -> env_marked (x :: y :: M) (put y (PV w) (put x (PV v) e)).
Proof.
  intros Me. apply (env_marked_sub _ (y :: x :: M)); [intros z [E|[E|E]]; [right; left|left|right; right]; exact E|].
  apply env_marked_put; [exact I|]. apply env_marked_put; [exact I|exact Me].
Qed.
Lemma block_ok (k : bool) M x p e self : clean_ns p -> (k = true -> marked p) -> state_ok M e self ->
  state_ok (if k then x :: M else filter (fun z => negb (String.eqb x z)) M) (put x p e) self.
Proof.
  intros Cp Mp (Ce & Me & Se). split; [now apply env_clean_put|]. split; [|exact Se]. destruct k; [apply env_marked_put; auto|now apply env_marked_over].
Qed.
Lemma delete_lineno l self : mem "lineno" l = false -> assoc "lineno" (delete_removed l self) = assoc "lineno" self.
Proof. exact (delete_removed_other c "lineno" parsed l self). Qed.
Lemma params_ok self e M ps : env_clean e -> env_marked M e -> forall e0, bind_params c self e ps = Ok e0 ->
  env_clean e0 /\ forall x p, assoc x e0 = Some p -> (forall q, In q ps -> fst q = x -> marked_e M (snd q) = true) -> marked p.
Proof.
  intros Ce Me. induction ps as [|[x y] ps IH]; intros e0 H; cbn [bind_params map_res] in H.
  - injection H as <-. split; [intros x p Hx; discriminate|intros x p Hx; discriminate].
  - apply bind_ok in H as (xp & H1 & H). apply bind_ok in H1 as (p & H1 & H2). injection H2 as <-.
    apply bind_ok in H as (r & H3 & H). injection H as <-. cbn [fst snd] in *. destruct (IH r H3) as [C1 M1]. destruct (eval_marked self e M Ce Me y p H1) as [Cp Mp]. split.
    + intros z q Hz. cbn [assoc] in Hz. destruct (String.eqb z x); [injection Hz as <-; exact Cp|exact (C1 z q Hz)].
    + intros z q Hz Hq. cbn [assoc] in Hz. destruct (String.eqb_spec z x) as [->|].
      * injection Hz as <-. apply Mp. exact (Hq (x, y) (or_introl eq_refl) eq_refl).
      * apply (M1 z q Hz). intros u Hu. apply Hq. now right.
Qed.

Theorem mark_sound s : forall M r e self, mark M s = Some r -> state_ok M e self -> ended r (exec c s e self).
Proof.
  induction s as [|s1 IH1 s2 IH2|x y|x b y|x b|x y|x y z sep w|ns|ns extra|ns x|y s1 IH1 s2 IH2|x y s IH|x y w s IH|x s IH|line tag| |y|y| |l|x t m ps|x ps s IH];
    intros M r e self HK St; cbn [exec]; cbn [mark] in HK; pose proof St as (Ce & Me & Se).
  - injection HK as <-. exact St.
  - destruct (mark M s1) as [[[[M1|] b] k]|] eqn:E1; [| |discriminate].
    + destruct (mark M1 s2) as [[[n b'] k']|] eqn:E2; [|discriminate]. injection HK as <-. pose proof (IH1 M _ e self E1 St) as H.
      destruct (exec c s1 e self) as [e' s'|e' s'|p s'|z s']; cbn [ended fst snd] in H.
      * pose proof (ended_r None b k n b' k' _ (IH2 M1 _ e' s' E2 H)) as X. exact X.
      * cbn [ended snd]. destruct b as [Mb|]; [|contradiction]. destruct b' as [N|]; cbn [joined]; [|exact H]. exact (state_sub _ Mb e' s' (both_l Mb N) H).
      * destruct H as (A & B & C). split; [exact A|]. split; [|exact C]. intros X. apply andb_prop in X as [X _]. auto.
      * exact H.
    + injection HK as <-. pose proof (IH1 M _ e self E1 St) as H. destruct (exec c s1 e self) as [e' s'|e' s'|p s'|z s']; cbn [ended fst snd] in *; auto; contradiction.
  - injection HK as <-. destruct (eval c self e y) as [p|z] eqn:E; [|exact Se]. destruct (eval_marked self e M Ce Me y p E) as [Cp Mp].
    cbn [ended fst]. split; [now apply env_clean_put|]. split; [|exact Se]. destruct (marked_e M y); [apply env_marked_put; auto|now apply env_marked_over].
  - unfold with_val. destruct (String.eqb b "lineno") eqn:Eb.
    + apply String.eqb_eq in Eb as ->. destruct (own_lineno y) eqn:Ey; [|discriminate]. injection HK as <-. destruct (eval c self e y) as [p|z] eqn:E; [|exact Se].
      rewrite (own_lineno_eval self e y p Ey Se E). now apply set_on_lineno.
    + injection HK as <-. destruct (eval c self e y) as [[v| |n|d]|z]; try exact Se. now apply set_on_other.
  - destruct (String.eqb b "lineno") eqn:Eb; [discriminate|]. injection HK as <-. now apply del_on_other.
  - injection HK as <-. unfold with_val. destruct (eval c self e y) as [[v| |n|d]|]; try exact Se. destruct v; try exact Se.
    destruct (assoc x e) as [[[]| | |]|]; try exact Se. cbn [ended fst]. split; [apply env_clean_put; [exact I|exact Ce]|]. split; [now apply put_plain|exact Se].
  - injection HK as <-. unfold with_val. destruct (eval c self e w) as [[v| |n|d]|]; try exact Se. destruct v; try exact Se.
    destruct sep as [|ch [|]]; try exact Se. destruct (partition_char ch s) as [[b f] r]. cbn [ended fst].
    split; [repeat (apply env_clean_put; [exact I|]); exact Ce|]. split; [repeat apply put_plain; exact Me|exact Se].
  - injection HK as <-. destruct (parse_args (c_parser c) (line_of self) (c_args c)) as [n|z] eqn:E; [|exact Se]. cbn [ended fst].
    unfold parse_args in E. apply bind_ok in E as ([n1 r] & E1 & E). cbn [fst snd] in E. destruct r; [|discriminate]. injection E as <-.
    split; [apply env_clean_put; [exact (lacks_clean _ (parsed _ _ _ E1))|exact Ce]|]. split; [|exact Se].
    eapply env_marked_sub; [|apply env_marked_put; [exact I|exact Me]]. intros u; now right.
  - injection HK as <-. destruct (parse_known_args (c_parser c) (line_of self) (c_args c)) as [[n r]|z] eqn:E; [|exact Se]. cbn [ended fst].
    split; [apply env_clean_put; [exact I|]; apply env_clean_put; [exact (lacks_clean _ (parsed _ _ _ E))|exact Ce]|]. split; [|exact Se].
    apply put_plain. eapply env_marked_sub; [|apply env_marked_put; [exact I|exact Me]]. intros u; now right.
  - injection HK as <-. destruct (assoc ns e) as [[v| |n|d]|] eqn:E; try exact Se. pose proof (Ce ns _ E) as Hn. cbn [clean_ns] in Hn. unfold set_to.
    destruct (String.eqb x "self"); [cbn [ended fst]; split; [exact Ce|]; split; [exact Me|now apply set_to_lineno]|].
    destruct (assoc x e) as [[v| |n'|d]|] eqn:E'; try exact Se; cbn [ended fst].
    + split; [exact Ce|]. split; [exact Me|now apply set_to_lineno].
    + split; [apply env_clean_put; [exact I|exact Ce]|]. split; [|exact Se]. apply keep_put; [|congruence|exact Me].
      intros q Hq _ Mq. rewrite E' in Hq. injection Hq as <-. cbn [marked d_attrs] in *. now apply set_to_lineno.
  - destruct (mark M s1) as [[[n b] k]|] eqn:E1; [|discriminate]. destruct (mark M s2) as [[[n' b'] k']|] eqn:E2; [|discriminate]. injection HK as <-.
    destruct (eval c self e y) as [p|]; [|exact Se]. destruct (p_truthy p); [apply ended_l; exact (IH1 M _ e self E1 St)|apply ended_r; exact (IH2 M _ e self E2 St)].
  - assert (Ss : ended r (ORaise TypeError self)) by exact Se. unfold with_val. destruct (eval c self e y) as [[v| |n|d]|]; try exact Se. destruct v; try exact Se.
    eapply (loop_ended _ _ M r); [|exact HK|exact St]. intros M' r' i e0 s0 H0 (C0 & M0 & S0). eapply IH; [exact H0|].
    split; [apply env_clean_put; [exact I|exact C0]|]. split; [apply env_marked_put; [exact I|exact M0]|exact S0].
  - unfold with_val. destruct (eval c self e w) as [[v| |n|d]|]; try exact Se. destruct v; try exact Se;
    (eapply (loop_ended _ _ M r); [|exact HK|exact St]; intros M' r' i e0 s0 H0 (C0 & M0 & S0); eapply IH; [exact H0|];
     split; [repeat (apply env_clean_put; [exact I|]); exact C0|]; split; [apply put_pair; exact M0|exact S0]).
  - eapply (loop_ended _ _ _ r); [|exact HK|].
    + intros M' r' i e0 s0 H0 (C0 & M0 & S0). eapply IH; [exact H0|]. split; [apply env_clean_put; [exact I|exact C0]|]. split; [now apply env_marked_over|exact S0].
    + apply (state_sub _ M); [|exact St]. intros u Hu. apply filter_In in Hu. tauto.
  - injection HK as <-. destruct line; exact Se.
  - injection HK as <-. exact Se.
  - injection HK as <-. destruct (eval c self e y) as [p|]; [|exact Se]. destruct (p_truthy p); [exact St|exact Se].
  - injection HK as <-. destruct (eval c self e y) as [p|] eqn:E; [|exact Se].
    destruct (eval_marked self e M Ce Me y p E) as [Cp Mp]. cbn [ended]. auto.
  - injection HK as <-. exact St.
  - destruct (mem "lineno" l) eqn:El; [discriminate|]. injection HK as <-. cbn [ended fst]. split; [exact Ce|]. split; [exact Me|]. now rewrite delete_lineno.
  - injection HK as <-. exact Se.
  - set (M0 := map fst (filter (fun p => forallb (fun q => negb (String.eqb (fst p) (fst q)) || marked_e M (snd q)) ps) ps)) in *.
    destruct (mark M0 s) as [[[n0 b0] k]|] eqn:E0; [|discriminate]. injection HK as <-. destruct (bind_params c self e ps) as [e0|] eqn:E; [|exact Se].
    destruct (params_ok self e M ps Ce Me e0 E) as [C0 P0].
    assert (S0 : state_ok M0 e0 self).
    { split; [exact C0|]. split; [|exact Se]. intros u p Hu Hp. apply (P0 u p Hp). intros q Hq Eq. subst M0. apply in_map_iff in Hu as (v & Ev & Hv).
      apply filter_In in Hv as [_ Hv]. rewrite forallb_forall in Hv. specialize (Hv q Hq). rewrite Ev, Eq, eqb_refl_s in Hv. exact Hv. }
    pose proof (IH M0 _ e0 self E0 S0) as H. destruct (exec c s e0 self) as [e' s'|e' s'|p s'|z s']; cbn [ended fst snd] in *.
    + destruct n0 as [N|]; [|contradiction]. destruct H as (_ & _ & H). apply block_ok; [exact I|intros _; exact I|exact (conj Ce (conj Me H))].
    + destruct b0 as [N|]; [|contradiction]. destruct H as (_ & _ & H). apply block_ok; [exact I|intros _; exact I|exact (conj Ce (conj Me H))].
    + destruct H as (H1 & H2 & H3). apply block_ok; [exact H1|exact H2|exact (conj Ce (conj Me H3))].
    + exact H.
Qed.
End Mark.
