(** * Facts about %packages headers *)

From Coq Require Import Lia.
From Verif Require Import PyStrFacts ArgParseFacts ArgLineFacts ArgErrFacts ArgDeclFacts ArgSimple ArgTable ParserRel PkgHeadSpec.
From Verif Require Import Value.
Local Open Scope string_scope.
Local Open Scope list_scope.

Local Arguments String.eqb : simpl never.

Definition thresholds : list Z := [F7; F9; RHEL6; F18; F21; RHEL7; F22; F24; F32].
Definition reps : list Z := 0%Z :: thresholds.

Ltac tryrep S r :=
  apply (S r); [unfold reps, thresholds; cbn [In]; tauto|let t := fresh in let Ht := fresh in intros t Ht; unfold thresholds in Ht; cbn [In] in Ht;
    repeat (destruct Ht as [<-|Ht]; [unfold F7, F9, RHEL6, F18, F21, RHEL7, F22, F24, F32 in *; lia|]); destruct Ht..].

(** Versions between two thresholds agree. *)
Lemma rep ver : exists r, In r reps /\ forall t, In t thresholds -> (ver <? t)%Z = (r <? t)%Z.
Proof.
  assert (S : forall r, In r reps ->
    (forall t, In t thresholds -> (t <= r)%Z -> (t <= ver)%Z) ->
    (forall t, In t thresholds -> (r < t)%Z -> (ver < t)%Z) ->
    exists r, In r reps /\ forall t, In t thresholds -> (ver <? t)%Z = (r <? t)%Z).
  { intros r Hr H1 H2. exists r. split; [exact Hr|]. intros t Ht. specialize (H1 t Ht). specialize (H2 t Ht).
    destruct (Z.ltb_spec ver t), (Z.ltb_spec r t); auto; lia. }
  destruct (Z.ltb_spec ver F7); [tryrep S 0%Z|].
  destruct (Z.ltb_spec ver F9); [tryrep S F7|].
  destruct (Z.ltb_spec ver RHEL6); [tryrep S F9|].
  destruct (Z.ltb_spec ver F18); [tryrep S RHEL6|].
  destruct (Z.ltb_spec ver F21); [tryrep S F18|].
  destruct (Z.ltb_spec ver RHEL7); [tryrep S F21|].
  destruct (Z.ltb_spec ver F22); [tryrep S RHEL7|].
  destruct (Z.ltb_spec ver F24); [tryrep S F22|].
  destruct (Z.ltb_spec ver F32); [tryrep S F24|].
  tryrep S F32.
Qed.

Lemma leb_ltb a b : (a <=? b)%Z = negb (b <? a)%Z.
Proof. destruct (Z.leb_spec a b), (Z.ltb_spec b a); auto; lia. Qed.

Section Same.
Variables ver r : Z.
Hypothesis same : forall t, In t thresholds -> (ver <? t)%Z = (r <? t)%Z.
Local Ltac same_all same :=
  rewrite (same F7), (same F9), (same RHEL6), (same F18), (same F21), (same RHEL7), (same F22), (same F24), (same F32)
    by (unfold thresholds; cbn [In]; tauto).

Lemma same_table : packages_table ver = packages_table r.
Proof. unfold packages_table. same_all same. reflexivity. Qed.
Lemma same_defined w : defined_in ver w = defined_in r w.
Proof.
  unfold defined_in. destruct (assoc (name w) header_options) as [[[k s] u]|] eqn:E; [|reflexivity].
  apply assoc_In_pair in E. unfold header_options in E. cbn [In] in E.
  repeat (destruct E as [E|E]; [injection E as _ <- <- <-; unfold within; rewrite ?leb_ltb;
    rewrite ?(same F7), ?(same F9), ?(same RHEL6), ?(same F18), ?(same F21), ?(same RHEL7), ?(same F22), ?(same F24), ?(same F32)
      by (unfold thresholds; cbn [In]; tauto); reflexivity|]). destruct E.
Qed.
End Same.

(** What each option writes. *)
Definition writes_to : list (string * string) :=
  [("--excludedocs", "excludedocs"); ("--ignoremissing", "ignoremissing"); ("--ignoredeps", "resolveDeps");
   ("--resolvedeps", "resolveDeps"); ("--default", "defaultPackages"); ("--instLangs", "instLangs");
   ("--inst-langs", "instLangs"); ("--nobase", "nobase"); ("--multilib", "multiLib"); ("--nocore", "nocore");
   ("--timeout", "timeout"); ("--retries", "retries"); ("--excludeWeakdeps", "excludeWeakdeps");
   ("--exclude-weakdeps", "excludeWeakdeps"); ("--ignorebroken", "ignorebroken")].
Definition dest_of (w : oword) : string := match assoc (name w) writes_to with Some d => d | None => "" end.
Definition value_of (w : oword) : value :=
  match w with
  | OFlag o => VBool (negb (String.eqb o "--ignoredeps"))
  | OVal o v => if mem o ["--timeout"; "--retries"] then match py_int v with Some z => VInt z | None => VNone end else VStr v
  end.

Definition expected_decl (o : string) : decl :=
  match assoc o header_options with
  | Some (HFlag, _, _) =>
      if String.eqb o "--ignoredeps" then flag_off [] "" VNone else flag [] "" VNone
  | Some (HText, _, _) => stored [] "" TStr VNone
  | _ => stored [] "" TInt VNone
  end.
Definition decl_like (o : string) (d : decl) : bool :=
  let e := expected_decl o in
  String.eqb (d_dest d) (match assoc o writes_to with Some d => d | None => "" end) &&
  match d_kind d, d_kind e with KStore, KStore => true | KStoreConst, KStoreConst => value_eqb (d_const d) (d_const e) | _, _ => false end &&
  match d_nargs d, d_nargs e with NOne, NOne => true | NInt 0, NInt 0 => true | _, _ => false end &&
  match d_type d, d_type e with TStr, TStr => true | TInt, TInt => true | _, _ => false end &&
  match d_choices d with None => true | Some _ => false end.
Lemma effects_rep : forallb (fun r => forallb (fun o =>
   negb (within r (snd (fst (snd o))) (snd (snd o))) ||
   match assoc (fst o) (t_map (tabulate (packages_table r))) with Some x => decl_like (fst o) (fst x) | None => false end) header_options) reps = true.
Proof. vm_compute. reflexivity. Qed.

Lemma effect_rep r w : In r reps -> proper_word w = true -> defined_in r w = true ->
  effect (packages_parser r) w = Some (dest_of w, value_of w).
Proof.
  intros Hr Hp Hd. unfold packages_parser. rewrite effect_build. unfold tab_effect.
  pose proof effects_rep as X. rewrite forallb_forall in X. specialize (X _ Hr). rewrite forallb_forall in X.
  unfold proper_word, defined_in in *.
  destruct (assoc (name w) header_options) as [[[k s] u]|] eqn:E; [|discriminate].
  specialize (X _ (assoc_In_pair _ _ _ E)). cbn [fst snd] in X. rewrite Hd in X. cbn [negb orb] in X.
  destruct (assoc (name w) (t_map (tabulate (packages_table r)))) as [[d i]|]; [|discriminate]. cbn [fst] in X.
  unfold decl_like in X. repeat (apply andb_true_iff in X as [X ?X1]). apply String.eqb_eq in X. fold (dest_of w) in X.
  unfold act, given. cbn [fst snd a_nargs a_type a_choices action_of].
  unfold expected_decl in *. rewrite E in *. clear Hd Hr. rewrite X.
  destruct (d_choices d) eqn:Ec; [discriminate|].
  assert (Al : forall x, allowed (action_of d i) x = true) by (intros x; unfold allowed; cbn [a_choices action_of]; rewrite Ec; reflexivity).
  apply assoc_In_pair in E. unfold header_options in E. cbn [In] in E.
  destruct w as [o|o v]; cbn [name] in E, X3, X2, X1, X0; 
  repeat (destruct E as [E|E]; [injection E as <- <- <- <-; try discriminate Hp|]); try destruct E.
  all: match goal with H : context [String.eqb ?a ?b] |- _ => change (String.eqb a b) with false in *; change (String.eqb a b) with true in * | _ => idtac end.
  all: cbn [stored flag flag_off d_kind d_nargs d_type d_const] in *.
  all: destruct (d_kind d); try discriminate X3; try discriminate X2; destruct (d_nargs d) as [|[|]| | |]; try discriminate;
       destruct (d_type d); try discriminate; cbn [ty_fun]; try reflexivity.
  all: try (unfold value_of; destruct (d_const d) as [|[]| | | | |]; try discriminate; reflexivity).
  all: try (unfold ty_str; rewrite Al; reflexivity).
  all: apply andb_true_iff in Hp as [_ Hp]; unfold ty_int, value_of; destruct (py_int v); [reflexivity|discriminate].
Qed.

Definition unspelled (r : Z) (o : string) : bool :=
  forallb (fun x => negb (startswith x o)) (map fst (t_map (tabulate (packages_table r)))).
Lemma unspelled_rep : forallb (fun r => forallb (fun o => within r (snd (fst (snd o))) (snd (snd o)) || unspelled r (fst o)) header_options) reps = true.
Proof. vm_compute. reflexivity. Qed.
Lemma names_rep : forallb (fun o => option_name (fst o) && negb (has_char SP (fst o))) header_options = true.
Proof. vm_compute. reflexivity. Qed.

Lemma proper_in w : proper_word w = true -> exists k s u, In (name w, (k, s, u)) header_options /\
  assoc (name w) header_options = Some (k, s, u).
Proof.
  unfold proper_word. intros H. destruct (assoc (name w) header_options) as [[[k s] u]|] eqn:E; [|discriminate].
  exists k, s, u. split; [apply assoc_In_pair, E|reflexivity].
Qed.

Lemma has_char_app c a b : has_char c (a ++ b)%string = has_char c a || has_char c b.
Proof. unfold has_char. induction a as [|x a IH]; [reflexivity|]. cbn [append any_char]. rewrite IH, orb_assoc. reflexivity. Qed.

Lemma undefined_rep r w ln l rest : In r reps -> proper_word w = true -> defined_in r w = false -> forallb proper_word l = true ->
  exists t, parse_args (packages_parser r) ln (map text l ++ text w :: rest) = Err (KSParseError ln t).
Proof.
  intros Hr Hp Hd Hl. assert (Hp' := Hp). apply proper_in in Hp' as (k & s & u & Hin & Ha).
  pose proof names_rep as Nr. rewrite forallb_forall in Nr. specialize (Nr _ Hin). cbn [fst] in Nr. apply andb_true_iff in Nr as [N1 N2].
  apply negb_true_iff in N2. destruct (option_name_spec _ N1) as (c & z & En & Eq).
  assert (Np : name_part (text w) = name w).
  { unfold name_part. destruct w as [o|o v]; cbn [text name] in *; [rewrite partition_char_none by exact Eq; reflexivity|].
    change ("=" ++ v)%string with (String "=" v). rewrite partition_char_app by exact Eq. reflexivity. }
  assert (Tk : table_ok (packages_parser r) = true) by apply build_table_ok, packages_table_sane.
  edestruct (unknown_rejected (packages_parser r) ln (map text l) (text w) rest) as (e & He).
  - exact Tk.
  - intros H. apply in_map_iff in H as (x & Hx & Hi). rewrite forallb_forall in Hl. apply Hl, proper_in in Hi as (k' & s' & u' & Hi & _).
    pose proof names_rep as Nx. rewrite forallb_forall in Nx. specialize (Nx _ Hi). cbn [fst] in Nx. apply andb_true_iff in Nx as [Nx _].
    destruct (option_name_spec _ Nx) as (c' & z' & En' & _). destruct x as [o|o v]; cbn [text name] in *; rewrite En' in Hx; discriminate.
  - destruct w as [o|o v]; cbn [text name] in *; rewrite En; reflexivity.
  - destruct w as [o|o v]; cbn [text name] in *; rewrite En; discriminate.
  - destruct w as [o|o v]; cbn [text name] in *; [exact N2|]. rewrite !has_char_app, N2. unfold proper_word in Hp. cbn [name] in Hp.
    rewrite Ha in Hp. destruct k; [discriminate| |apply andb_true_iff in Hp as [Hp _]]; apply negb_true_iff in Hp; rewrite Hp; reflexivity.
  - intros o a Hoa. unfold spells. rewrite Np. pose proof unspelled_rep as Ur. rewrite forallb_forall in Ur. specialize (Ur _ Hr).
    rewrite forallb_forall in Ur. specialize (Ur _ Hin). cbn [fst snd] in Ur. unfold defined_in in Hd. rewrite Ha in Hd. rewrite Hd in Ur.
    cbn [orb] in Ur. unfold unspelled in Ur. rewrite forallb_forall in Ur. apply negb_true_iff, Ur. rewrite <- optmap_names. apply (in_map fst _ _ Hoa).
  - exists (match e with KSParseError _ t => t | _ => "" end). rewrite He. f_equal.
    destruct (build_perr ln (packages_table r) _ e (packages_table_sane r) He) as (t & ->). reflexivity.
Qed.

(** ** Accepted headers *)

Lemma last_write_spec p ws d : (forall w, In w ws -> effect p w = Some (dest_of w, value_of w)) ->
  last_write p ws d = fold_right (fun w acc => match acc with Some v => Some v | None => if String.eqb d (dest_of w) then Some (value_of w) else None end) None ws.
Proof.
  induction ws as [|w ws IH]; intros H; [reflexivity|]. cbn [last_write fold_right].
  rewrite (H w) by (simpl; auto). rewrite IH by (intros x Hx; apply H; simpl; auto).
  destruct (fold_right _ None ws); reflexivity.
Qed.

Definition the_write ws d : option value :=
  fold_right (fun w acc => match acc with Some v => Some v | None => if String.eqb d (dest_of w) then Some (value_of w) else None end) None ws.

Ltac each_option Hp :=
  unfold proper_word in Hp;
  match type of Hp with context [assoc (name ?w) header_options] =>
    let E := fresh "E" in
    destruct (assoc (name w) header_options) as [[[? ?] ?]|] eqn:E; [|discriminate Hp];
    apply assoc_In_pair in E; unfold header_options in E; cbn [In] in E;
    destruct w as [?o|?o ?v]; cbn [name] in E;
    repeat (destruct E as [E|E]; [injection E as <- <- <- <-; try discriminate Hp|]); try destruct E
  end.

Lemma flag_write o d ws : forallb proper_word ws = true ->
  (o, d) = ("--excludedocs", "excludedocs") \/ (o, d) = ("--ignoremissing", "ignoremissing") \/
  (o, d) = ("--default", "defaultPackages") \/ (o, d) = ("--nobase", "nobase") \/
  (o, d) = ("--multilib", "multiLib") \/ (o, d) = ("--nocore", "nocore") \/ (o, d) = ("--ignorebroken", "ignorebroken") ->
  the_write ws d = if has_flag o ws then Some (VBool true) else None.
Proof.
  intros Hw Ho. induction ws as [|w ws IH]; [reflexivity|]. cbn [forallb] in Hw. apply andb_true_iff in Hw as [Hp Hw].
  unfold the_write in *. cbn [fold_right]. rewrite IH by exact Hw. unfold has_flag. cbn [existsb].
  fold (has_flag o ws). destruct (has_flag o ws); [rewrite orb_true_r; reflexivity|]. rewrite orb_false_r.
  each_option Hp; repeat (destruct Ho as [Ho|Ho]; [injection Ho as -> ->; reflexivity|]); injection Ho as -> ->; reflexivity.
Qed.

Lemma weak_write ws : forallb proper_word ws = true ->
  the_write ws "excludeWeakdeps" = if has_flag "--excludeWeakdeps" ws || has_flag "--exclude-weakdeps" ws then Some (VBool true) else None.
Proof.
  intros Hw. induction ws as [|w ws IH]; [reflexivity|]. cbn [forallb] in Hw. apply andb_true_iff in Hw as [Hp Hw].
  unfold the_write in *. cbn [fold_right]. rewrite IH by exact Hw. unfold has_flag. cbn [existsb].
  fold (has_flag "--excludeWeakdeps" ws). fold (has_flag "--exclude-weakdeps" ws).
  destruct (has_flag "--excludeWeakdeps" ws); [rewrite !orb_true_r; reflexivity|].
  destruct (has_flag "--exclude-weakdeps" ws); [rewrite !orb_true_r; reflexivity|]. rewrite !orb_false_r. cbn [orb].
  each_option Hp; reflexivity.
Qed.

Lemma text_write ws : forallb proper_word ws = true ->
  the_write ws "instLangs" = match last_given ["--instLangs"; "--inst-langs"] ws with Some v => Some (VStr v) | None => None end.
Proof.
  intros Hw. induction ws as [|w ws IH]; [reflexivity|]. cbn [forallb] in Hw. apply andb_true_iff in Hw as [Hp Hw].
  unfold the_write in *. cbn [fold_right last_given]. rewrite IH by exact Hw.
  destruct (last_given _ ws); [reflexivity|]. each_option Hp; reflexivity.
Qed.

Lemma number_write o d ws : forallb proper_word ws = true ->
  (o, d) = ("--timeout", "timeout") \/ (o, d) = ("--retries", "retries") ->
  match the_write ws d with Some (VInt z) => Some z | _ => None end = number (last_given [o] ws) /\
  (the_write ws d = None \/ exists z, the_write ws d = Some (VInt z)).
Proof.
  intros Hw Ho. assert (X : the_write ws d = match last_given [o] ws with Some s => option_map VInt (py_int s) | None => None end /\
     match last_given [o] ws with Some s => py_int s <> None | None => True end).
  { induction ws as [|w ws IH]; [split; [reflexivity|exact I]|]. cbn [forallb] in Hw. apply andb_true_iff in Hw as [Hp Hw].
    destruct (IH Hw) as [IH1 IH2]. unfold the_write in *. cbn [fold_right last_given]. rewrite IH1.
    destruct (last_given [o] ws) as [s|]; [destruct (py_int s); [split; [reflexivity|discriminate]|congruence]|].
    each_option Hp; destruct Ho as [Ho|Ho]; injection Ho as -> ->; cbn [name] in *;
    try (split; [reflexivity|exact I]);
    apply andb_true_iff in Hp as [_ Hp]; destruct (py_int v) as [z|] eqn:Ev; try discriminate.
    all: cbv -[py_int]; rewrite ?Ev; split; congruence. }
  destruct X as [X1 X2]. rewrite X1. unfold number. destruct (last_given [o] ws) as [s|]; [|auto].
  destruct (py_int s); [cbn [option_map]; eauto|congruence].
Qed.

Lemma tables_rep : forallb (fun r => no_positionals (packages_table r) && defaults_ok (packages_table r) &&
  forallb (fun x => negb (d_required (fst x))) (t_acts (tabulate (packages_table r)))) reps = true.
Proof. vm_compute. reflexivity. Qed.
Lemma header_plain r : In r reps -> positionals (packages_parser r) = [] /\
  forall a, In a (p_actions (packages_parser r)) -> a_required a = false /\ settled a.
Proof.
  intros Hr. pose proof tables_rep as X. rewrite forallb_forall in X. specialize (X _ Hr).
  repeat (apply andb_true_iff in X as [X ?X1]). split; [apply no_positionals_ok, X|].
  intros a Ha. split; [|eapply defaults_ok_settled; eauto].
  unfold packages_parser in Ha. rewrite build_tabulate in Ha. cbn [real p_actions] in Ha. apply in_map_iff in Ha as (x & <- & Hx).
  rewrite forallb_forall in X1. apply negb_true_iff, (X1 x Hx).
Qed.

Definition dests : list string := ["excludedocs"; "ignoremissing"; "defaultPackages"; "nobase"; "multiLib"; "nocore"; "ignorebroken"; "excludeWeakdeps"].
Lemma declared_rep : forallb (fun r =>
  forallb (fun d => negb (truthy (tab_default (t_acts (tabulate (packages_table r))) d))) dests &&
  forallb (fun d => value_eqb (tab_default (t_acts (tabulate (packages_table r))) d) VNone) ["instLangs"; "timeout"; "retries"]) reps = true.
Proof. vm_compute. reflexivity. Qed.
Lemma header_declared r : In r reps ->
  forallb (fun d => negb (truthy (declared (p_actions (packages_parser r)) d))) dests = true /\
  (forall d, In d ["instLangs"; "timeout"; "retries"] -> declared (p_actions (packages_parser r)) d = VNone).
Proof.
  intros Hr. pose proof declared_rep as X. rewrite forallb_forall in X. specialize (X _ Hr). apply andb_true_iff in X as [X1 X2].
  rewrite forallb_forall in X1, X2. unfold packages_parser. split.
  - apply forallb_forall. intros d Hd. rewrite declared_build. auto.
  - intros d Hd. rewrite declared_build. specialize (X2 d Hd). destruct (tab_default _ d); try discriminate; reflexivity.
Qed.

Lemma header_parse r ln ws : In r reps -> forallb proper_word ws = true -> forallb (defined_in r) ws = true ->
  exists ns, parse_args (packages_parser r) ln (map text ws) = Ok ns /\
   (forall o d, (o, d) = ("--excludedocs", "excludedocs") \/ (o, d) = ("--ignoremissing", "ignoremissing") \/
     (o, d) = ("--default", "defaultPackages") \/ (o, d) = ("--nobase", "nobase") \/
     (o, d) = ("--multilib", "multiLib") \/ (o, d) = ("--nocore", "nocore") \/ (o, d) = ("--ignorebroken", "ignorebroken") ->
     truthy (get d ns) = has_flag o ws) /\
   truthy (get "excludeWeakdeps" ns) = has_flag "--excludeWeakdeps" ws || has_flag "--exclude-weakdeps" ws /\
   get "instLangs" ns = match last_given ["--instLangs"; "--inst-langs"] ws with Some v => VStr v | None => VNone end /\
   int_attr "timeout" ns = number (last_given ["--timeout"] ws) /\ int_attr "retries" ns = number (last_given ["--retries"] ws).
Proof.
  intros Hr Hp Hd.
  assert (He : forall w, In w ws -> effect (packages_parser r) w = Some (dest_of w, value_of w)).
  { intros w Hw. rewrite forallb_forall in Hp, Hd. apply effect_rep; auto. }
  destruct (simple_line (packages_parser r) ln ws) as (ns & R & G).
  - apply build_table_ok, packages_table_sane.
  - apply (header_plain r Hr).
  - intros a Ha. apply (header_plain r Hr); exact Ha.
  - intros a Ha Hq. destruct (header_plain r Hr) as [_ X]. destruct (X a Ha). congruence.
  - apply forallb_forall. intros w Hw. unfold readable. rewrite He; auto.
  - exists ns. split; [exact R|].
    assert (G' : forall d, get d ns = match the_write ws d with Some v => v | None => declared (p_actions (packages_parser r)) d end).
    { intros d. rewrite G, last_write_spec by exact He. reflexivity. }
    destruct (header_declared r Hr) as [D1 D2]. rewrite forallb_forall in D1.
    split; [|split; [|split; [|split]]].
    + intros o d Ho. rewrite G', (flag_write o d ws Hp Ho). destruct (has_flag o ws); [reflexivity|].
      apply negb_true_iff, D1. unfold dests. cbn [In].
      repeat (destruct Ho as [Ho|Ho]; [injection Ho as -> ->; tauto|]); injection Ho as -> ->; tauto.
    + rewrite G', weak_write by exact Hp. destruct (_ || _); [reflexivity|]. apply negb_true_iff, D1. unfold dests. cbn [In]. tauto.
    + rewrite G', text_write by exact Hp. destruct (last_given _ ws); [reflexivity|]. apply D2. cbn [In]. tauto.
    + unfold int_attr. destruct (number_write "--timeout" "timeout" ws Hp (or_introl eq_refl)) as [<- [X|[z X]]]; rewrite G', X;
      [rewrite D2 by (cbn [In]; tauto)|]; reflexivity.
    + unfold int_attr. destruct (number_write "--retries" "retries" ws Hp (or_intror eq_refl)) as [<- [X|[z X]]]; rewrite G', X;
      [rewrite D2 by (cbn [In]; tauto)|]; reflexivity.
Qed.

Lemma defined_flag r o ws since until : assoc o header_options = Some (HFlag, since, until) -> forallb (defined_in r) ws = true ->
  within r since until = false -> has_flag o ws = false.
Proof.
  intros Ha Hd Hw. destruct (has_flag o ws) eqn:E; [|reflexivity]. unfold has_flag in E. apply existsb_exists in E as (w & Hin & E).
  destruct w as [x|]; [|discriminate]. apply String.eqb_eq in E. subst x. rewrite forallb_forall in Hd. apply Hd in Hin.
  unfold defined_in in Hin. cbn [name] in Hin. rewrite Ha, Hw in Hin. discriminate.
Qed.

Lemma defined_text r names ws since until k :
  (forall o, In o names -> assoc o header_options = Some (k, since, until)) -> forallb (defined_in r) ws = true ->
  within r since until = false -> last_given names ws = None.
Proof.
  intros Ha Hd Hw. induction ws as [|w ws IH]; [reflexivity|]. cbn [forallb] in Hd. apply andb_true_iff in Hd as [Hd Hds].
  cbn [last_given]. rewrite IH by exact Hds. destruct w as [|o v]; [reflexivity|]. destruct (mem o names) eqn:E; [|reflexivity].
  unfold mem in E. apply existsb_exists in E as (y & Hy & E). apply String.eqb_eq in E. subst y.
  unfold defined_in in Hd. cbn [name] in Hd. rewrite (Ha _ Hy), Hw in Hd. discriminate.
Qed.

Lemma header_accepts ver ln ws p : forallb proper_word ws = true -> forallb (defined_in ver) ws = true ->
  packages_handleHeader ver ln ("%packages" :: map text ws) p =
    if contradictory ws
    then (fst (packages_handleHeader ver ln ("%packages" :: map text ws) p),
          Some (KSParseError (Some ln) (if has_flag "--nobase" ws then "default-nobase" else "default-nocore")))
    else (header_effect ver ws p, None).
Proof.
  intros Hp Hd. destruct (rep ver) as (r & Hr & Hs).
  assert (Hd' : forallb (defined_in r) ws = true).
  { rewrite forallb_forall in *. intros w Hw. rewrite <- (same_defined ver r Hs). auto. }
  destruct (header_parse r (Some ln) ws Hr Hp Hd') as (ns & R & F & W & L & T & Q).
  unfold packages_handleHeader. cbn [tl]. unfold packages_parser in *. rewrite (same_table ver r Hs), R.
  unfold packages_header, header_effect, contradictory.
  rewrite (F _ _ (or_introl eq_refl)).
  rewrite (F "--ignoremissing" "ignoremissing") by tauto. rewrite (F "--default" "defaultPackages") by tauto.
  rewrite (F "--nobase" "nobase") by tauto. rewrite (F "--multilib" "multiLib") by tauto.
  rewrite (F "--nocore" "nocore") by tauto. rewrite (F "--ignorebroken" "ignorebroken") by tauto.
  rewrite W, T, Q. unfold opt_attr. rewrite L. clear F W T Q L R.
  assert (B : forall o s, assoc o header_options = Some (HFlag, Some s, None) -> (ver <? s)%Z = true -> has_flag o ws = false).
  { intros o s Ha Hv. eapply (defined_flag ver); eauto. unfold within. rewrite leb_ltb, Hv. reflexivity. }
  assert (Bb : (ver <? RHEL6)%Z = true -> has_flag "--nobase" ws = false).
  { intros Hv. eapply (defined_flag ver); eauto; [reflexivity|]. unfold within. rewrite leb_ltb, Hv. reflexivity. }
  assert (Bl : (ver <? F9)%Z = true -> last_given ["--instLangs"; "--inst-langs"] ws = None).
  { intros Hv. eapply (defined_text ver); eauto; [intros o [<-|[<-|[]]]; reflexivity|]. unfold within. rewrite leb_ltb, Hv. reflexivity. }
  rewrite !leb_ltb. destruct (Z.ltb_spec ver F7).
  { assert (Hlt : forall t, In t thresholds -> (ver <? t)%Z = true).
    { intros t Ht. apply Z.ltb_lt. unfold thresholds in Ht. cbn [In] in Ht.
      repeat (destruct Ht as [<-|Ht]; [unfold F7, F9, RHEL6, F18, F21, RHEL7, F22, F24, F32 in *; lia|]). destruct Ht. }
    unfold thresholds in Hlt.
    rewrite (B "--default" F7), Bl, !Hlt by (first [reflexivity|apply Hlt; cbn [In]; tauto|cbn [In]; tauto]). reflexivity. }
  destruct (Z.ltb_spec ver F9).
  { assert (Hlt : forall t, In t [F9; RHEL6; F18; F21; RHEL7; F24; F32] -> (ver <? t)%Z = true).
    { intros t Ht. apply Z.ltb_lt. cbn [In] in Ht.
      repeat (destruct Ht as [<-|Ht]; [unfold F7, F9, RHEL6, F18, F21, RHEL7, F22, F24, F32 in *; lia|]). destruct Ht. }
    rewrite (B "--nocore" F21), Bb, Bl, !Hlt by (first [reflexivity|apply Hlt; cbn [In]; tauto|cbn [In]; tauto]).
    rewrite andb_false_r. destruct (has_flag "--default" ws); reflexivity. }
  destruct (Z.ltb_spec ver RHEL6).
  { assert (Hlt : forall t, In t [RHEL6; F18; F21; RHEL7; F24; F32] -> (ver <? t)%Z = true).
    { intros t Ht. apply Z.ltb_lt. cbn [In] in Ht.
      repeat (destruct Ht as [<-|Ht]; [unfold F7, F9, RHEL6, F18, F21, RHEL7, F22, F24, F32 in *; lia|]). destruct Ht. }
    rewrite (B "--nocore" F21), Bb, !Hlt by (first [reflexivity|apply Hlt; cbn [In]; tauto|cbn [In]; tauto]).
    rewrite andb_false_r. destruct (has_flag "--default" ws), (last_given ["--instLangs"; "--inst-langs"] ws); reflexivity. }
  destruct (Z.ltb_spec ver F18).
  { assert (Hlt : forall t, In t [F18; F21; RHEL7; F24; F32] -> (ver <? t)%Z = true).
    { intros t Ht. apply Z.ltb_lt. cbn [In] in Ht.
      repeat (destruct Ht as [<-|Ht]; [unfold F7, F9, RHEL6, F18, F21, RHEL7, F22, F24, F32 in *; lia|]). destruct Ht. }
    rewrite (B "--nocore" F21), !Hlt by (first [reflexivity|apply Hlt; cbn [In]; tauto|cbn [In]; tauto]). rewrite orb_false_r.
    destruct (has_flag "--default" ws), (has_flag "--nobase" ws), (last_given ["--instLangs"; "--inst-langs"] ws); reflexivity. }
  destruct (Z.ltb_spec ver F21).
  { assert (Hlt : forall t, In t [F21; RHEL7; F24; F32] -> (ver <? t)%Z = true).
    { intros t Ht. apply Z.ltb_lt. cbn [In] in Ht.
      repeat (destruct Ht as [<-|Ht]; [unfold F7, F9, RHEL6, F18, F21, RHEL7, F22, F24, F32 in *; lia|]). destruct Ht. }
    rewrite (B "--nocore" F21), !Hlt by (first [reflexivity|apply Hlt; cbn [In]; tauto|cbn [In]; tauto]). rewrite orb_false_r.
    destruct (has_flag "--default" ws), (has_flag "--nobase" ws), (last_given ["--instLangs"; "--inst-langs"] ws); reflexivity. }
  destruct (Z.ltb_spec ver RHEL7).
  { assert (Hlt : forall t, In t [RHEL7; F24; F32] -> (ver <? t)%Z = true).
    { intros t Ht. apply Z.ltb_lt. cbn [In] in Ht.
      repeat (destruct Ht as [<-|Ht]; [unfold F7, F9, RHEL6, F18, F21, RHEL7, F22, F24, F32 in *; lia|]). destruct Ht. }
    rewrite !Hlt by (first [reflexivity|apply Hlt; cbn [In]; tauto|cbn [In]; tauto]).
    destruct (has_flag "--default" ws), (has_flag "--nobase" ws), (has_flag "--nocore" ws), (last_given ["--instLangs"; "--inst-langs"] ws); reflexivity. }
  destruct (Z.ltb_spec ver F24).
  { assert (Hlt : forall t, In t [F24; F32] -> (ver <? t)%Z = true).
    { intros t Ht. apply Z.ltb_lt. cbn [In] in Ht.
      repeat (destruct Ht as [<-|Ht]; [unfold F7, F9, RHEL6, F18, F21, RHEL7, F22, F24, F32 in *; lia|]). destruct Ht. }
    rewrite !Hlt by (first [reflexivity|apply Hlt; cbn [In]; tauto|cbn [In]; tauto]).
    destruct (has_flag "--default" ws), (has_flag "--nobase" ws), (has_flag "--nocore" ws), (last_given ["--instLangs"; "--inst-langs"] ws); reflexivity. }
  destruct (Z.ltb_spec ver F32);
  destruct (has_flag "--default" ws), (has_flag "--nobase" ws), (has_flag "--nocore" ws), (last_given ["--instLangs"; "--inst-langs"] ws); reflexivity.
Qed.

Lemma header_undefined ver ln ws p : forallb proper_word ws = true -> forallb (defined_in ver) ws = false ->
  exists t, packages_handleHeader ver ln ("%packages" :: map text ws) p = (p, Some (KSParseError (Some ln) t)).
Proof.
  intros Hp Hd. destruct (rep ver) as (r & Hr & Hs).
  assert (X : exists l w rest, ws = l ++ w :: rest /\ defined_in ver w = false).
  { clear Hp. induction ws as [|w ws IH]; [discriminate|]. cbn [forallb] in Hd. destruct (defined_in ver w) eqn:E.
    - destruct (IH Hd) as (l & x & rest & -> & H). exists (w :: l), x, rest. auto.
    - exists [], w, ws. auto. }
  destruct X as (l & w & rest & -> & Hw). rewrite forallb_app in Hp. cbn [forallb] in Hp.
  apply andb_true_iff in Hp as [Hl Hp]. apply andb_true_iff in Hp as [Hp _].
  rewrite (same_defined ver r Hs) in Hw.
  destruct (undefined_rep r w (Some ln) l (map text rest) Hr Hp Hw Hl) as (t & E). exists t.
  unfold packages_handleHeader. cbn [tl]. unfold packages_parser in *. rewrite (same_table ver r Hs), map_app. cbn [map]. rewrite E. reflexivity.
Qed.
