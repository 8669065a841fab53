(** * C50 to C52: making a handler, ksvalidator and ksflatten *)

From Verif Require Import Tools ToolsFacts VersionFacts ParserSpec ParserFacts ParserRun Preprocess PreSpec PreFacts PropsPre PropsParse.
From Verif Require HandlerMaps.
From Coq Require Import Lia.
From Verif Require Import PyStrFacts Value.
Local Open Scope string_scope.
Local Open Scope list_scope.
Local Arguments String.eqb : simpl never.
Local Arguments Ascii.eqb : simpl never.

(** ** C50: makeVersion *)

Definition make_check : bool := forallb (fun v => match makeVersion (VerInt v) with Ok w => Z.eqb w v | Err _ => false end) (map snd versionMap).
Lemma make_checked : make_check = true.
Proof. vm_compute. reflexivity. Qed.
Lemma make_each v : In v (map snd versionMap) -> makeVersion (VerInt v) = Ok v.
Proof.
  intros I. pose proof (proj1 (forallb_forall _ _) make_checked v I) as K. cbv beta in K.
  destruct (makeVersion (VerInt v)) as [u|]; [|discriminate K]. apply Z.eqb_eq in K. now rewrite K.
Qed.
Lemma string_listed v b m : versionToString v b = Ok m -> In v (map snd versionMap) \/ v = DEVEL.
Proof.
  unfold versionToString. destruct (_ && _) eqn:E; [intros _; right; apply andb_prop in E as [_ E]; now apply Z.eqb_eq|]. intros H. left. apply find_version_sound in H. exact (in_map snd _ _ H).
Qed.
Lemma string_refused v b e : versionToString v b = Err e -> exists t, e = KSVersionError t.
Proof.
  unfold versionToString. destruct (_ && _); [discriminate|]. destruct (find_version_total v versionMap) as [[x E]|[t E]]; rewrite E; [discriminate|]. intros H. injection H as <-. eauto.
Qed.
Lemma devel_listed : In DEVEL (map snd versionMap).
Proof. vm_compute. tauto. Qed.
Local Opaque versionToString assoc versionMap handler_modules.
Lemma make_int v w : makeVersion (VerInt v) = Ok w <-> w = v /\ In v (map snd versionMap).
Proof.
  split.
  - intros H. assert (I : In v (map snd versionMap)).
    { unfold makeVersion, returnClassForVersion, bind in H. destruct (versionToString v true) as [s|e] eqn:E; [|discriminate].
      destruct (string_listed _ _ _ E) as [I| ->]; [exact I|exact devel_listed]. }
    rewrite (make_each v I) in H. injection H as H. auto.
  - intros [-> I]. exact (make_each v I).
Qed.

Lemma py_int_letter c r : is_space c = false -> is_digit c = false -> Ascii.eqb c "-" = false -> Ascii.eqb c "+" = false -> Ascii.eqb c "_" = false ->
  py_int (String c r) = None.
Proof.
  intros S D M P U. unfold py_int, strip, rstrip, lstrip.
  assert (L : lstrip_by is_space (String c r) = String c r) by (cbn [lstrip_by]; now rewrite S).
  rewrite L. cbn [rstrip_by]. rewrite S. destruct (rstrip_by is_space r); rewrite M, P; cbn [digits_val]; rewrite D, U; reflexivity.
Qed.
Lemma upper_lower_char c : upper_char (lower_char c) = upper_char c.
Proof.
  assert (X : Ascii.eqb (upper_char (lower_char c)) (upper_char c) = true).
  { apply (forall_ascii (fun c => Ascii.eqb (upper_char (lower_char c)) (upper_char c))). vm_compute; reflexivity. }
  now apply Ascii.eqb_eq in X.
Qed.
Lemma upper_lower s : upper (lower s) = upper s.
Proof. induction s as [|c s IH]; simpl; [auto|]. rewrite upper_lower_char, IH; auto. Qed.

Definition of_module (m : string) : option Z :=
  match assoc m (map (fun m => (fst m, fst (snd m))) handler_modules) with Some c => assoc c (map snd handler_modules) | None => None end.
Lemma make_name s : py_int s = None -> makeVersion (VerStr s) =
  match stringToVersion s with Err e => Err e | Ok _ => match of_module (lower s) with Some v => Ok v | None => makeVersion (VerStr s) end end.
Proof.
  intros H. destruct (stringToVersion s) as [v|e] eqn:E.
  - destruct (of_module (lower s)) as [w|] eqn:O; [|reflexivity]. unfold makeVersion, returnClassForVersion, bind. rewrite H, E.
    unfold of_module in O. destruct (assoc (lower s) _) as [c|]; [|discriminate]. rewrite O. reflexivity.
  - unfold makeVersion, returnClassForVersion, bind. rewrite H, E. reflexivity.
Qed.
Local Transparent assoc versionMap handler_modules.
Definition names_check : bool :=
  forallb (fun m => if String.eqb (fst m) "DEVEL" then true else
    match assoc (fst m) versionMap, of_module (lower (fst m)), fst m with
    | Some v, Some w, String c r => Z.eqb v (snd m) && Z.eqb w (snd m) && (Ascii.eqb c "F" || Ascii.eqb c "R")
    | _, _, _ => false end) versionMap.
Definition modules_check : bool :=
  forallb (fun m => match of_module (fst m) with Some v => existsb (fun x => String.eqb (fst x) (upper (fst m)) && Z.eqb (snd x) v && negb (String.eqb (fst x) "DEVEL")) versionMap | None => false end) handler_modules.
Lemma names_ok n v : In (n, v) versionMap -> n <> "DEVEL" -> assoc n versionMap = Some v /\ of_module (lower n) = Some v /\ exists c r, n = String c r /\ (c = "F" \/ c = "R")%char.
Proof.
  intros I N. assert (K : names_check = true) by (vm_compute; reflexivity). unfold names_check in K. rewrite forallb_forall in K. specialize (K _ I). cbn [fst snd] in K.
  destruct (String.eqb_spec n "DEVEL") as [E|_]; [contradiction|]. destruct (assoc n versionMap) as [a|]; [|discriminate]. destruct (of_module (lower n)) as [b|]; [|discriminate].
  destruct n as [|c r]; [discriminate|]. apply andb_prop in K as [K K3]. apply andb_prop in K as [K1 K2]. apply Z.eqb_eq in K1, K2. subst. repeat split. exists c, r. split; [reflexivity|].
  apply orb_prop in K3 as [K3|K3]; apply Ascii.eqb_eq in K3; auto.
Qed.
Lemma assoc_map_key {A B} (f : string * A -> B) k (l : list (string * A)) b : assoc k (map (fun m => (fst m, f m)) l) = Some b -> In k (map fst l).
Proof. intros H. apply assoc_In in H. apply in_map_iff in H as ([x y] & E & I). injection E as <- _. apply in_map_iff. exists (x, y). auto. Qed.
Lemma modules_ok m v : of_module m = Some v -> In (upper m, v) versionMap /\ upper m <> "DEVEL".
Proof.
  intros H. assert (I : In m (map fst handler_modules)).
  { unfold of_module in H. destruct (assoc m _) as [c|] eqn:E; [|discriminate]. exact (assoc_map_key _ _ _ _ E). }
  assert (K : modules_check = true) by (vm_compute; reflexivity). unfold modules_check in K. rewrite forallb_forall in K.
  apply in_map_iff in I as (x & Ex & I). specialize (K _ I). rewrite Ex, H in K. apply existsb_exists in K as ([a b] & J & K). cbn [fst snd] in K.
  apply andb_prop in K as [K K3]. apply andb_prop in K as [K1 K2]. apply String.eqb_eq in K1. apply Z.eqb_eq in K2. apply negb_true_iff, String.eqb_neq in K3. subst. auto.
Qed.

(** A handler is made from the name of a version in any case of letters, but not from DEVEL, and from its number. *)
Theorem C50_string s v : makeVersion (VerStr s) = Ok v <->
  (exists n, In (n, v) versionMap /\ n <> "DEVEL" /\ upper s = n) \/ (py_int s = Some v /\ In v (map snd versionMap)).
Proof.
  destruct (py_int s) as [z|] eqn:P.
  - assert (E : makeVersion (VerStr s) = makeVersion (VerInt z)) by (unfold makeVersion, returnClassForVersion, bind; now rewrite P).
    rewrite E, make_int. split; [intros [-> I]; auto|]. intros [(n & I & N & U)|[Q I]]; [|injection Q as ->; auto].
    exfalso. destruct (names_ok n v I N) as (_ & _ & c & r & En & Hc). destruct s as [|a s]; [discriminate|]. cbn [upper] in U.
    assert (W : upper_char a = c) by congruence. clear - P W Hc.
    assert (X : forall a, (if Ascii.eqb (upper_char a) "F" || Ascii.eqb (upper_char a) "R" then negb (is_space a) && negb (is_digit a) && negb (Ascii.eqb a "-") && negb (Ascii.eqb a "+") && negb (Ascii.eqb a "_") else true) = true).
    { intros b. apply (forall_ascii (fun a => if Ascii.eqb (upper_char a) "F" || Ascii.eqb (upper_char a) "R" then negb (is_space a) && negb (is_digit a) && negb (Ascii.eqb a "-") && negb (Ascii.eqb a "+") && negb (Ascii.eqb a "_") else true)). vm_compute; reflexivity. }
    specialize (X a). rewrite W in X. assert (Y : Ascii.eqb c "F" || Ascii.eqb c "R" = true) by (destruct Hc; subst; reflexivity). rewrite Y in X.
    repeat (apply andb_prop in X as [X ?]). rewrite py_int_letter in P by (now apply negb_true_iff). discriminate.
  - split.
    + intros H. left. unfold makeVersion, returnClassForVersion, bind in H. rewrite P in H. destruct (stringToVersion s) as [u|]; [|discriminate].
      assert (O : of_module (lower s) = Some v). { unfold of_module. destruct (assoc (lower s) _) as [c|]; [|discriminate]. destruct (assoc c _); [|discriminate]. congruence. }
      destruct (modules_ok _ _ O) as [I N]. rewrite upper_lower in I, N. exists (upper s). auto.
    + intros [(n & I & N & U)|[Q _]]; [|discriminate]. destruct (names_ok n v I N) as (A & O & _).
      rewrite (make_name s P). unfold stringToVersion. rewrite U, A. rewrite <- (lower_upper s), U, O. reflexivity.
Qed.
Print Assumptions C50_string.
(** From the constant of a version, a handler of that version. *)
Theorem C50_constant v w : makeVersion (VerInt v) = Ok w <-> w = v /\ In v (map snd versionMap).
Proof. apply make_int. Qed.
Print Assumptions C50_constant.
(** Anything else is refused with KickstartVersionError. *)
Theorem C50_refused a e : makeVersion a = Err e -> exists t, e = KSVersionError t.
Proof.
  assert (D : forall s e, of_module s = None -> (do c <- match assoc s (map (fun m => (fst m, fst (snd m))) handler_modules) with Some c => Ok c | None => unsupported end ;;
     match assoc c (map snd handler_modules) with Some v => Ok v | None => Err TypeError end) = Err e -> exists t, e = KSVersionError t).
  { intros s e0 O H. destruct (assoc s _) as [c|] eqn:A; [|unfold bind, unsupported in H; injection H as <-; eauto].
    exfalso. assert (I : In s (map fst handler_modules)) by exact (assoc_map_key _ _ _ _ A).
    assert (K : modules_check = true) by (vm_compute; reflexivity). unfold modules_check in K. rewrite forallb_forall in K.
    apply in_map_iff in I as (x & Ex & I). specialize (K _ I). rewrite Ex, O in K. discriminate. }
  assert (B : forall s e, (do c <- match assoc s (map (fun m => (fst m, fst (snd m))) handler_modules) with Some c => Ok c | None => unsupported end ;;
     match assoc c (map snd handler_modules) with Some v => Ok v | None => Err TypeError end) = Err e -> exists t, e = KSVersionError t).
  { intros s e0 H. destruct (of_module s) as [v|] eqn:O; [|exact (D s e0 O H)]. unfold of_module in O. unfold bind in H. destruct (assoc s _) as [c|]; [|discriminate]. rewrite O in H. discriminate. }
  unfold makeVersion, returnClassForVersion. intros H. destruct a as [z|s].
  - destruct (versionToString z true) as [m|x] eqn:E; [exact (B _ _ H)|]. unfold bind in H. injection H as <-. exact (string_refused _ _ _ E).
  - destruct (py_int s) as [z|].
    + destruct (versionToString z true) as [m|x] eqn:E; [exact (B _ _ H)|]. unfold bind in H. injection H as <-. exact (string_refused _ _ _ E).
    + destruct (stringToVersion s) as [m|x] eqn:E; [exact (B _ _ H)|]. unfold bind in H. injection H as <-. destruct (stringToVersion_total s) as [[y F]|[t F]]; rewrite F in E; [discriminate|]. injection E as <-. eauto.
Qed.
Print Assumptions C50_refused.
(** The handler that is made is one of those whose commands are modelled. *)
Definition made_check : bool := forallb (fun v => existsb (fun h => Z.eqb (fst h) v) HandlerMaps.handlers) (map snd versionMap).
Lemma made_checked : made_check = true.
Proof. vm_compute. reflexivity. Qed.
Theorem C50_has_commands a v : makeVersion a = Ok v -> exists cm dm, In (v, (cm, dm)) HandlerMaps.handlers.
Proof.
  intros H. assert (I : In v (map snd versionMap)).
  { destruct a as [z|s]; [apply C50_constant in H as [-> H]; exact H|]. apply C50_string in H as [(n & I & _)|[_ I]]; [exact (in_map snd _ _ I)|exact I]. }
  pose proof (proj1 (forallb_forall _ _) made_checked v I) as K. cbv beta in K. apply existsb_exists in K as ([u [cm dm]] & J & E). apply Z.eqb_eq in E. cbn [fst] in E. subst u. eauto.
Qed.
Print Assumptions C50_has_commands.
(** The versions written with a number: an input of [C50_string]. *)
Example C50_example : makeVersion (VerStr "rHel7") = Ok RHEL7 /\ makeVersion (VerStr " 19100 ") = Ok RHEL7 /\ makeVersion (VerInt RHEL7) = Ok RHEL7.
Proof. vm_compute. auto. Qed.
(** stringToVersion, the -l option of ksvalidator and the default of makeVersion all know names that makeVersion refuses. *)
Theorem C50_names_refuted : exists s v, stringToVersion s = Ok v /\ In (s, v) versionMap /\ makeVersion (VerStr s) = Err (KSVersionError "Unsupported version specified").
Proof. exists "DEVEL", F34. vm_compute. auto. Qed.
Print Assumptions C50_names_refuted.
Theorem C50_long_names_refuted : exists s v, stringToVersion s = Ok v /\ makeVersion (VerStr s) = Err (KSVersionError "Unsupported version specified").
Proof. exists "Fedora 34", F34. vm_compute. auto. Qed.
Print Assumptions C50_long_names_refuted.

(** ** C51: ksvalidator *)

Lemma tool_strictly v follow b w : tool_config v follow b w = strictly b (tool_config v follow true w).
Proof. reflexivity. Qed.
Lemma with_file_load p s w : w_load (with_file p s w) p = Some s.
Proof. cbn. now rewrite String.eqb_refl. Qed.
Lemma pre_ok load f r : preprocessKickstart load f = Ok r <-> exists t, preprocessKickstartToString load f = Ok t /\ (r = None /\ t = "" \/ r = Some t /\ t <> "").
Proof.
  unfold preprocessKickstart. destruct (preprocessKickstartToString load f) as [t|e]; cbn [bind].
  - destruct (String.eqb_spec t "") as [->|N]; split.
    + intros H. injection H as <-. exists "". auto.
    + intros (t & E & [[-> _]|[_ X]]); [reflexivity|]. injection E as <-. contradiction.
    + intros H. injection H as <-. exists t. auto.
    + intros (u & E & [[_ X]|[-> _]]); injection E as <-; [contradiction|reflexivity].
  - split; [discriminate|]. intros (t & X & _). discriminate.
Qed.
(** The text read from the string [s] where the file would be read. *)
Lemma read_as_text C dispatch cf n f s st : cf_load cf f = Some s ->
  exists d, readKickstart C dispatch cf n f st = readKickstartFromString C dispatch cf n s (set_dirs C d st).
Proof. intros L. rewrite read_top, L. eexists. unfold readKickstartFromString. reflexivity. Qed.

Section Validator.
Variable C : Type.
Variable dispatch : C -> string -> list string -> N -> C * option exn.
Variable new_commands : Z -> C.
Notation parser_of := (parser_of C new_commands).
Notation ksvalidator := (ksvalidator C dispatch new_commands).

(** The world when ksvalidator preprocesses the copy of the file, and when it reads the result. *)
Definition copy (w : world) : string := path_join (w_dir w) "ks.cfg".
Definition copied (s : string) (w : world) : world := with_file (copy w) s w.
Definition preprocessed (s t : string) (w : world) : world := with_file (w_file w) t (copied s w).

(** The exit value is 0 exactly when the file could be copied, the version is known, the preprocessed text
    is not empty and reading it with fatal errors raises nothing.  Whether -e was given makes no difference. *)
Theorem C51_accepts fuel fetch o w : vo_help o = false -> vo_list o = false ->
  (exists m, snd (ksvalidator fuel fetch o w) = Ok (0%N, m)) <->
  exists f s v t st, vo_ksfile o = Some f /\ f <> "" /\ fetch f = Ok s /\ makeVersion (vo_version o) = Ok v /\
    preprocessKickstartToString (w_load (copied s w)) (copy w) = Ok t /\ t <> "" /\
    readKickstart C dispatch (tool_config v (vo_follow o) true (preprocessed s t w)) fuel (w_file w) (parser_of v) = (st, None).
Proof.
  intros Hh Hl. unfold Tools.ksvalidator. rewrite Hh, Hl. split.
  - intros (m & H). destruct (vo_ksfile o) as [[|c f]|] eqn:Ef; [discriminate| |discriminate]. remember (String c f) as g eqn:Eg. cbv zeta in H.
    destruct (fetch g) as [s|e] eqn:Es; [|destruct (is_ks_error e); discriminate].
    destruct (makeVersion (vo_version o)) as [v|e] eqn:Ev; [|destruct e; discriminate].
    fold (copy w) in H. fold (copied s w) in H.
    destruct (preprocessKickstart (w_load (copied s w)) (copy w)) as [[t|]|e] eqn:Ep; [|discriminate|discriminate].
    apply pre_ok in Ep as (t' & Ep & [[X _]|[X Hn]]); [discriminate|]. injection X as <-. fold (preprocessed s t w) in H.
    destruct (readKickstart C dispatch (tool_config v (vo_follow o) (vo_firsterror o) (preprocessed s t w)) fuel (w_file w) (parser_of v)) as [st [e|]] eqn:Er; [discriminate|].
    cbn [snd] in H. injection H as He _. exists g, s, v, t, st. repeat split; auto; [rewrite Eg; discriminate|].
    destruct (vo_firsterror o); [exact Er|]. rewrite tool_strictly in Er |- *. apply strict_and_lenient; [reflexivity|]. split; [exact Er|]. rewrite He. reflexivity.
  - intros (f & s & v & t & st & Ef & Nf & Es & Ev & Ep & Nt & Er). rewrite Ef. destruct f as [|c f]; [contradiction|]. rewrite Es, Ev. cbv zeta.
    fold (copy w). fold (copied s w). assert (P : preprocessKickstart (w_load (copied s w)) (copy w) = Ok (Some t)) by (apply pre_ok; exists t; auto). rewrite P.
    fold (preprocessed s t w). rewrite tool_strictly in Er. apply (strict_and_lenient C dispatch (tool_config v (vo_follow o) true (preprocessed s t w))) in Er as [Er Ee]; [|reflexivity].
    destruct (vo_firsterror o).
    + assert (R := proj2 (strict_and_lenient C dispatch (tool_config v (vo_follow o) true (preprocessed s t w)) fuel (w_file w) (parser_of v) st eq_refl) (conj Er Ee)).
      rewrite <- tool_strictly in R. rewrite R. rewrite Ee. eexists. reflexivity.
    + rewrite <- tool_strictly in Er. rewrite Er, Ee. eexists. reflexivity.
Qed.

(** In terms of the text alone, for a file without %ksappend lines that is checked without -i or has no
    %include lines: neither the directories nor the other files matter. *)
Theorem C51_text fuel fetch o w f s cf n : vo_help o = false -> vo_list o = false ->
  vo_ksfile o = Some f -> f <> "" -> fetch f = Ok s ->
  forallb (fun l => negb (is_ksappend l)) (splitlines s) = true ->
  (vo_follow o = false /\ cf_followIncludes cf = false) \/ forallb (fun l => negb (is_include l)) (splitlines s) = true ->
  makeVersion (vo_version o) = Ok (cf_version cf) -> cf_errorsAreFatal cf = true -> cf_unknownSectionIsFatal cf = true ->
  (exists m, snd (ksvalidator fuel fetch o w) = Ok (0%N, m)) <->
  s <> "" /\ snd (readKickstartFromString C dispatch cf n s (parser_of (cf_version cf))) = None.
Proof.
  intros Hh Hl Hf Nf Hs Hk Hi Hv Ffat Funk. rewrite (C51_accepts fuel fetch o w Hh Hl).
  assert (P : preprocessKickstartToString (w_load (copied s w)) (copy w) = Ok s).
  { apply C10_file. exists s, (splitlines s). split; [apply with_file_load|]. split; [now apply stands_for_plain|]. symmetry. apply splitlines_concat. }
  split.
  - intros (f' & s' & v & t & st & Ef & _ & Es & Ev & Ep & Nt & Er). assert (f' = f) by congruence. subst f'. assert (s' = s) by congruence. subst s'. assert (t = s) by congruence. subst t.
    assert (v = cf_version cf) by congruence. subst v. split; [exact Nt|].
    destruct (read_as_text C dispatch (tool_config (cf_version cf) (vo_follow o) true (preprocessed s s w)) fuel (w_file w) s (parser_of (cf_version cf))) as [d E]; [apply with_file_load|].
    rewrite E in Er. destruct (text_takes C dispatch dispatch (tool_config (cf_version cf) (vo_follow o) true (preprocessed s s w)) cf fuel n s _ _ [] ltac:(auto) eq_refl eq_refl Funk Hi Er) as [d' R].
    change (set_dirs C [] (set_dirs C d (parser_of (cf_version cf)))) with (parser_of (cf_version cf)) in R. rewrite R. reflexivity.
  - intros [Nt Er]. destruct (readKickstartFromString C dispatch cf n s (parser_of (cf_version cf))) as [st [e|]] eqn:E; [discriminate|].
    destruct (read_as_text C dispatch (tool_config (cf_version cf) (vo_follow o) true (preprocessed s s w)) fuel (w_file w) s (parser_of (cf_version cf))) as [d Ed]; [apply with_file_load|].
    assert (Hi' : (cf_followIncludes cf = false /\ cf_followIncludes (tool_config (cf_version cf) (vo_follow o) true (preprocessed s s w)) = false) \/ forallb (fun l => negb (is_include l)) (splitlines s) = true) by (cbn; tauto).
    destruct (text_takes C dispatch dispatch cf (tool_config (cf_version cf) (vo_follow o) true (preprocessed s s w)) n fuel s _ _ d ltac:(auto) Ffat eq_refl (eq_sym Funk) Hi' E) as [d' R].
    rewrite R in Ed. exists f, s, (cf_version cf), s, (set_dirs C d' st). repeat split; auto.
Qed.

(** Without -e, for a file of commands, blank lines and comments: the exit value is the number of lines that are refused. *)
Theorem C51_counts fuel fetch o w f s v : vo_help o = false -> vo_list o = false ->
  vo_ksfile o = Some f -> f <> "" -> fetch f = Ok s -> s <> "" ->
  vo_firsterror o = false -> makeVersion (vo_version o) = Ok v ->
  forallb (fun l => negb (is_ksappend l)) (splitlines s) = true ->
  forallb (fun l => is_command l || blank l || comment l) (splitlines s) = true ->
  snd (ksvalidator fuel fetch o w) = Ok (snd (execute_all dispatch (commands_from 0 (splitlines s)) (new_commands v)), Silent).
Proof.
  intros Hh Hl Hf Nf Hs Ns He Hv K Hc. unfold Tools.ksvalidator. rewrite Hh, Hl, Hf. destruct f as [|c f]; [contradiction|]. rewrite Hs, Hv. cbv zeta.
  fold (copy w). fold (copied s w).
  assert (P : preprocessKickstart (w_load (copied s w)) (copy w) = Ok (Some s)).
  { apply pre_ok. exists s. split; [|auto]. apply C10_file. exists s, (splitlines s). split; [apply with_file_load|]. split; [now apply stands_for_plain|]. symmetry. apply splitlines_concat. }
  rewrite P. fold (preprocessed s s w). rewrite He.
  destruct (read_as_text C dispatch (tool_config v (vo_follow o) false (preprocessed s s w)) fuel (w_file w) s (parser_of v)) as [d Ed]; [apply with_file_load|].
  pose proof (C14_all_lines C dispatch (tool_config v (vo_follow o) false (preprocessed s s w)) fuel s (set_dirs C d (parser_of v)) eq_refl Hc) as (A & _ & B & _).
  rewrite Ed. destruct (readKickstartFromString C dispatch _ fuel s _) as [st [e|]]; [discriminate|]. cbn [fst snd] in *. rewrite B. reflexivity.
Qed.

(** Whatever happens to the file, the temporary directory, the copy and the preprocessed file are gone when ksvalidator
    returns.  An exception that escapes comes from copying the file. *)
Theorem C51_cleans_up fuel fetch o w left r : w_dir w <> "" -> ends_with_char "/" (w_dir w) = false ->
  ksvalidator fuel fetch o w = (left, r) ->
  (left = [] /\ exists n m, r = Ok (n, m)) \/ (exists f e, vo_ksfile o = Some f /\ fetch f = Err e /\ is_ks_error e = false /\ r = Err e).
Proof.
  intros Nd Ed. unfold Tools.ksvalidator.
  destruct (vo_help o); [intros H; apply pair_equal_spec in H as [<- <-]; left; eauto|]. destruct (vo_list o); [intros H; apply pair_equal_spec in H as [<- <-]; left; eauto|].
  destruct (vo_ksfile o) as [[|c f]|]; [intros H; apply pair_equal_spec in H as [<- <-]; left; eauto| |intros H; apply pair_equal_spec in H as [<- <-]; left; eauto].
  remember (String c f) as g eqn:Eg. clear Eg c f. cbv zeta. fold (copy w).
  assert (S : startswith (copy w) (w_dir w ++ "/") = true).
  { unfold copy, path_join. change (startswith "ks.cfg" "/") with false. rewrite Ed. destruct (String.eqb_spec (w_dir w) ""); [contradiction|]. cbn [orb].
    apply startswith_spec. exists "ks.cfg". now rewrite app_assoc_s. }
  assert (K : forall fn, cleanup (w_dir w) fn [copy w; w_dir w] = []).
  { intros fn. unfold cleanup. cbn [filter]. rewrite S, String.eqb_refl. rewrite orb_true_r. reflexivity. }
  destruct (fetch g) as [s|e] eqn:Es.
  2:{ destruct (is_ks_error e) eqn:Ee; intros H; apply pair_equal_spec in H as [<- <-].
      - left. split; [|eauto]. unfold cleanup. cbn [filter]. rewrite String.eqb_refl. reflexivity.
      - right. exists g, e. auto. }
  destruct (makeVersion (vo_version o)) as [v|e] eqn:Ev.
  2:{ destruct (C50_refused _ _ Ev) as [t ->]. intros H; apply pair_equal_spec in H as [<- <-]. left. rewrite K. eauto. }
  destruct (preprocessKickstart _ _) as [[t|]|e]; [|intros H; apply pair_equal_spec in H as [<- <-]; left; rewrite K; eauto..].
  assert (K3 : cleanup (w_dir w) (Some (w_file w)) [w_file w; copy w; w_dir w] = []).
  { unfold cleanup. cbn [filter]. rewrite S, !String.eqb_refl, !orb_true_r. reflexivity. }
  destruct (readKickstart C dispatch _ fuel (w_file w) _) as [st [e|]]; intros H; apply pair_equal_spec in H as [<- <-]; left; rewrite K3; eauto.
Qed.
End Validator.
Print Assumptions C51_accepts.
Print Assumptions C51_text.
Print Assumptions C51_counts.
Print Assumptions C51_cleans_up.

(** A world with a few files, and the commands of a new handler for the examples. *)
Definition demo_world (files : list (string * string)) : world :=
  mkWorld "/home" (fun p => has_key p files) (fun p => assoc p files) "/tmp/dir" "/tmp/ks.new".
Definition demo_new (v : Z) : list (list string) := [].
Definition demo_fetch (files : list (string * string)) (f : string) : res string :=
  match assoc f files with Some s => Ok s | None => Err (KSError (Some 0%N) "input-load") end.
Definition plain_opts (f : string) : vopts := mkVopts (Some f) false false false false (VerStr "F34").
Definition two_bad : string := "# a file" ++ nl ++ "bad" ++ nl ++ "good one" ++ nl ++ "bad 2" ++ nl.
Definition none_bad : string := "# a file" ++ nl ++ "good one" ++ nl ++ "%packages" ++ nl ++ "vim" ++ nl ++ "%end" ++ nl.
Example C51_example :
  ksvalidator _ demo demo_new 5 (demo_fetch [("/a", two_bad)]) (plain_opts "/a") (demo_world [("/a", two_bad)]) = ([], Ok (2%N, Silent)) /\
  ksvalidator _ demo demo_new 5 (demo_fetch [("/a", none_bad)]) (plain_opts "/a") (demo_world [("/a", none_bad)]) = ([], Ok (0%N, Silent)) /\
  forallb (fun l => is_command l || blank l || comment l) (splitlines two_bad) = true /\
  forallb (fun l => negb (is_ksappend l)) (splitlines two_bad) = true /\ forallb (fun l => negb (is_include l)) (splitlines none_bad) = true.
Proof. vm_compute. auto. Qed.

(** "The exit status is 0 only if the file is correct" fails: 256 refused lines are reported as success. *)
Fixpoint times (n : nat) (s : string) : string := match n with O => "" | S n => s ++ times n s end.
Theorem C51_exit_status_refuted : exists s n, snd (ksvalidator _ demo demo_new 5 (demo_fetch [("/a", s)]) (plain_opts "/a") (demo_world [("/a", s)])) = Ok (n, Silent) /\
  n <> 0%N /\ exit_status n = 0%N.
Proof. exists (times 256 ("bad" ++ nl)), 256%N. vm_compute. repeat split; discriminate. Qed.
Print Assumptions C51_exit_status_refuted.
(** "A file that can be read without errors is accepted" fails for the empty file, which is refused with a general error. *)
Theorem C51_empty_refuted : exists s w, snd (ksvalidator _ demo demo_new 5 (demo_fetch [("/a", s)]) (plain_opts "/a") w) = Ok (1%N, GeneralProblem TypeError) /\
  snd (readKickstartFromString _ demo (tool_config F34 false true w) 5 s (parser_of _ demo_new F34)) = None.
Proof. exists "", (demo_world []). vm_compute. auto. Qed.
Print Assumptions C51_empty_refuted.
(** With -i, "a file that can be read where it is is accepted" fails: an included file beside the file is not found, since the copy is
    read. *)
Theorem C51_beside_refuted : exists files, 
  snd (readKickstart _ demo (tool_config F34 true true (demo_world files)) 5 "/etc/ks.cfg" (parser_of _ demo_new F34)) = None /\
  snd (ksvalidator _ demo demo_new 5 (demo_fetch files) (mkVopts (Some "/etc/ks.cfg") true true false false (VerStr "F34")) (demo_world files)) = Ok (1%N, KickstartProblem (KSError (Some 0%N) "input-load")).
Proof. exists [("/etc/ks.cfg", ("%include more.ks" ++ nl)%string); ("/etc/more.ks", ("good" ++ nl)%string)]. vm_compute. auto. Qed.
Print Assumptions C51_beside_refuted.
(** "Every version that -l lists can be given to -v" fails for DEVEL. *)
Theorem C51_list_refuted : exists s l, snd (ksvalidator _ demo demo_new 5 (demo_fetch []) (mkVopts None false false true false (VerInt F34)) (demo_world [])) = Ok (0%N, Versions l) /\ In s l /\
  snd (ksvalidator _ demo demo_new 5 (demo_fetch [("/a", none_bad)]) (mkVopts (Some "/a") false false false false (VerStr s)) (demo_world [])) = Ok (1%N, BadVersion).
Proof. exists "DEVEL", (sort_str (map fst versionMap)). vm_compute. auto 10. Qed.
Print Assumptions C51_list_refuted.

(** ** C52: ksflatten *)

Section Flatten.
Variable C : Type.
Variable dispatch : C -> string -> list string -> N -> C * option exn.
Variable new_commands : Z -> C.
Variable handler_text : Z -> kstate C -> res string.
Notation parser_of := (parser_of C new_commands).
Notation ksflatten := (ksflatten C dispatch new_commands handler_text).

(** The exit value is 0 exactly when the version is known, the file with its includes is read without an error, the
    handler can be written and the output file, if one is named, can be opened; then the text of the handler is what is written, once. *)
Theorem C52_writes fuel can_open o w out : ksflatten fuel can_open o w = (out, Ok 0%N) <->
  exists v st t, fo_kscfg o <> "" /\ makeVersion (fo_version o) = Ok v /\
    readKickstart C dispatch (tool_config v true true w) fuel (fo_kscfg o) (parser_of v) = (st, None) /\ handler_text v st = Ok t /\
    match fo_output o with
    | None => out = ToScreen t
    | Some f => if String.eqb f "" then out = ToScreen t else can_open f = true /\ out = ToFile f t
    end.
Proof.
  unfold Tools.ksflatten. destruct (String.eqb_spec (fo_kscfg o) "") as [Ek|Nk].
  { split; [discriminate|]. intros (v & st & t & N & _). contradiction. }
  split.
  - destruct (makeVersion (fo_version o)) as [v|e] eqn:Ev; [|destruct e; discriminate].
    destruct (readKickstart C dispatch _ fuel _ _) as [st [e|]] eqn:Er; [destruct (is_ks_error e); discriminate|].
    destruct (fo_output o) as [[|c f]|].
    + destruct (handler_text v st) as [t|e] eqn:Et; [|discriminate]. intros H. injection H as <-. exists v, st, t. repeat split; auto.
    + destruct (can_open (String c f)) eqn:Eo; [|discriminate]. destruct (handler_text v st) as [t|e] eqn:Et; [|discriminate]. intros H. injection H as <-. exists v, st, t. repeat split; auto.
    + destruct (handler_text v st) as [t|e] eqn:Et; [|discriminate]. intros H. injection H as <-. exists v, st, t. repeat split; auto.
  - intros (v & st & t & _ & Ev & Er & Et & H). rewrite Ev, Er. destruct (fo_output o) as [[|c f]|].
    + rewrite Et. change (String.eqb "" "") with true in H. cbv iota in H. now subst.
    + change (String.eqb (String c f) "") with false in H. cbv iota in H. destruct H as [-> ->]. rewrite Et. reflexivity.
    + rewrite Et. now subst.
Qed.
(** A file that cannot be read, or a version that is not known, leaves the output as it was; so does an output file that cannot be
    opened.  Only a handler that cannot be written leaves an emptied file. *)
Theorem C52_untouched fuel can_open o w out r : ksflatten fuel can_open o w = (out, r) -> r <> Ok 0%N ->
  out = Nowhere \/
  exists v st f e, readKickstart C dispatch (tool_config v true true w) fuel (fo_kscfg o) (parser_of v) = (st, None) /\ handler_text v st = Err e /\ r = Err e /\
    fo_output o = Some f /\ out = ToFile f "".
Proof.
  unfold Tools.ksflatten. intros H R. destruct (String.eqb (fo_kscfg o) ""); [injection H as <- <-; auto|].
  destruct (makeVersion (fo_version o)) as [v|e]; [|destruct e; injection H as <- <-; auto].
  destruct (readKickstart C dispatch _ fuel _ _) as [st [e|]] eqn:Er; [destruct (is_ks_error e); injection H as <- <-; auto|].
  destruct (fo_output o) as [[|c f]|].
  - destruct (handler_text v st); injection H as <- <-; [contradiction|auto].
  - destruct (can_open _); [|injection H as <- <-; auto]. destruct (handler_text v st) as [t|e] eqn:Et; injection H as <- <-; [contradiction|].
    right. exists v, st, (String c f), e. auto.
  - destruct (handler_text v st); injection H as <- <-; [contradiction|auto].
Qed.
(** The exit value of a failure is 1, unless an exception other than KickstartError escapes. *)
Theorem C52_value fuel can_open o w n : snd (ksflatten fuel can_open o w) = Ok n -> n = 0%N \/ n = 1%N.
Proof.
  unfold Tools.ksflatten. destruct (String.eqb (fo_kscfg o) ""); [intros H; injection H as <-; auto|].
  destruct (makeVersion (fo_version o)) as [v|e]; [|destruct e; intros H; try discriminate H; injection H as <-; auto].
  destruct (readKickstart C dispatch _ fuel _ _) as [st [e|]]; [destruct (is_ks_error e); intros H; try discriminate H; injection H as <-; auto|].
  destruct (fo_output o) as [[|c f]|]; [destruct (handler_text v st)|destruct (can_open _); [destruct (handler_text v st)|]|destruct (handler_text v st)]; intros H; try discriminate H; injection H as <-; auto.
Qed.

(** What ksvalidator accepts ksflatten reads: the file has neither %ksappend nor %include lines, and [strict], which
    turns warnings into errors, accepts no line that [dispatch] refuses and does with it the same. *)
Theorem C52_validated strict fuel fuel' fetch vo w can_open o s v :
  (forall c l a k c1, strict c l a k = (c1, None) -> dispatch c l a k = (c1, None)) ->
  vo_help vo = false -> vo_list vo = false -> vo_ksfile vo = Some (fo_kscfg o) -> fo_kscfg o <> "" -> fetch (fo_kscfg o) = Ok s -> w_load w (fo_kscfg o) = Some s ->
  vo_version vo = fo_version o -> makeVersion (fo_version o) = Ok v ->
  forallb (fun l => negb (is_ksappend l)) (splitlines s) = true -> forallb (fun l => negb (is_include l)) (splitlines s) = true ->
  fo_output o = None ->
  (exists m, snd (Tools.ksvalidator C strict new_commands fuel fetch vo w) = Ok (0%N, m)) ->
  exists st, readKickstart C dispatch (tool_config v true true w) fuel' (fo_kscfg o) (parser_of v) = (st, None) /\
    snd (readKickstartFromString C strict (tool_config v true true w) fuel s (parser_of v)) = None /\
    forall t, handler_text v st = Ok t -> ksflatten fuel' can_open o w = (ToScreen t, Ok 0%N).
Proof.
  intros T Hh Hl Hf Nf Hs Ld Ve Hv Hk Hi Ho Acc.
  apply (C51_text C strict new_commands fuel fetch vo w (fo_kscfg o) s (tool_config v true true w) fuel Hh Hl Hf Nf Hs Hk (or_intror Hi)) in Acc as [Ns Acc];
    [|cbn; rewrite Ve; exact Hv|reflexivity|reflexivity]. cbn [cf_version tool_config] in Acc.
  destruct (readKickstartFromString C strict (tool_config v true true w) fuel s (parser_of v)) as [st0 [e|]] eqn:E; [discriminate|].
  destruct (read_as_text C dispatch (tool_config v true true w) fuel' (fo_kscfg o) s (parser_of v) Ld) as [d Ed].
  destruct (text_takes C strict dispatch (tool_config v true true w) (tool_config v true true w) fuel fuel' s _ _ d T eq_refl eq_refl eq_refl (or_intror Hi) E) as [d' R].
  rewrite R in Ed. exists (set_dirs C d' st0). split; [exact Ed|]. split; [reflexivity|]. intros t Et. apply C52_writes. exists v, (set_dirs C d' st0), t. rewrite Ho. auto.
Qed.
End Flatten.
Print Assumptions C52_writes.
Print Assumptions C52_untouched.
Print Assumptions C52_value.
Print Assumptions C52_validated.
(** A dispatcher that refuses one command more, as turning warnings into errors does, and a file both take. *)
Definition demo_strict (c : list (list string)) (line : string) (ws : list string) (ln : N) : list (list string) * option exn :=
  if mem "old" ws then (c, Some (KSParseError (Some ln) "deprecated")) else demo c line ws ln.
Definition demo_text (v : Z) (st : kstate (list (list string))) : res string := Ok (join " " (map (join "+") (ks_cmds _ st))).
Example C52_example : (forall c l a k c1, demo_strict c l a k = (c1, None) -> demo c l a k = (c1, None)) /\
  ksvalidator _ demo_strict demo_new 5 (demo_fetch [("/a", none_bad)]) (plain_opts "/a") (demo_world [("/a", none_bad)]) = ([], Ok (0%N, Silent)) /\
  ksflatten _ demo demo_new demo_text 5 (fun _ => true) (mkFopts "/a" (VerStr "F34") (Some "/out")) (demo_world [("/a", none_bad)]) = (ToFile "/out" "good+one", Ok 0%N) /\
  ksflatten _ demo demo_new demo_text 5 (fun _ => true) (mkFopts "/a" (VerStr "F34") (Some "/out")) (demo_world [("/a", two_bad)]) = (Nowhere, Ok 1%N).
Proof.
  split; [|vm_compute; auto]. intros c l a k c1. unfold demo_strict. destruct (mem "old" a); [discriminate|auto].
Qed.
