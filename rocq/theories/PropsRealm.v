(** * C49: commands that keep the text of their line *)

From Verif Require Import PyStrFacts ShlexFacts VersionFacts ArgParseFacts HandlerFacts ClassModel PropsHandler PropsClass HandlerSpec ParserSpec NsFacts.
From Verif Require Import PyCheck PyCheckFacts PyKeep PyClass CmdFacts CmdLines Realm RealmSpec RealmFacts.
From Verif Require PropsPlace.
From Coq Require Import Lia.
From Verif Require Import Value.
Local Open Scope string_scope.
Local Open Scope list_scope.
Local Arguments Ascii.eqb : simpl never.
Local Arguments String.eqb : simpl never.

(** ** Specification *)

(** What the object of realm says: nothing, or the realm [r], the words after [join] and
    the options that say how to look for it. *)
Definition no_realm (o : cmdobj) : Prop :=
  assoc "join_realm" (o_attrs o) = Some VNone /\ assoc "join_args" (o_attrs o) = Some (VStrs []) /\ assoc "discover_options" (o_attrs o) = Some (VStrs []).
Definition in_realm (o : cmdobj) (r : string) (ws ds : list string) : Prop :=
  assoc "join_realm" (o_attrs o) = Some (VStr r) /\ assoc "join_args" (o_attrs o) = Some (VStrs ws) /\ assoc "discover_options" (o_attrs o) = Some (VStrs ds).
Definition same_realm (o o' : cmdobj) : Prop :=
  forall k, In k ["join_realm"; "join_args"; "discover_options"] -> assoc k (o_attrs o') = assoc k (o_attrs o).
(** The words of the text [t] after the name of the command. *)
Definition words_of (t : string) (ws : list string) : Prop := shlex_split false (strip t) = Ok ws.

(** ** The class *)

Lemma realm_based : based (comes_from "F19_Realm" "parse") = false /\ based (comes_from "F19_Realm" "__str__") = false /\
  based (comes_from "F19_Realm" "__init__") = false /\ parse_code "F19_Realm" = None.
Proof. vm_compute. auto. Qed.
(** Only the command realm has the class. *)
Lemma realm_named : forallb (fun h => forallb (fun nc => negb (String.eqb (snd nc) "F19_Realm") || String.eqb (fst nc) "realm") (fst (snd h))) handlers = true.
Proof. vm_compute. reflexivity. Qed.

Local Opaque comes_from method_of table_of removed_of data_str new_attrs init_of.
Section Realm.
Variable rest : string -> cclass.
Variables (v : Z) (cm dm : list (string * string)).
Hypothesis Hv : In (v, (cm, dm)) handlers.
Hypothesis Hr : rest "F19_Realm" = realm_class.
Hypothesis Hn : In ("realm", "F19_Realm") cm.
Notation used := (used rest cm dm).
Notation cls := (class_model (cmd_class rest) "F19_Realm").

Lemma realm_rest : cmd_class rest "F19_Realm" = realm_class.
Proof.
  rewrite <- Hr. destruct realm_based as (_ & _ & _ & P). unfold parse_code in P. unfold cmd_class.
  destruct (method_of "F19_Realm" "__init__" []), (method_of "F19_Realm" "parse" []), (method_of "F19_Realm" "__str__" []); try reflexivity. discriminate.
Qed.
Lemma realm_cl_parse : cl_parse cls = realm_parse.
Proof. rewrite class_model_parse, (from_base_not _ _ _ _ _ _ (proj1 realm_based)), realm_rest. reflexivity. Qed.
Lemma realm_cl_str : cl_str cls = realm_str.
Proof.
  change (cl_str cls) with (from_base "F19_Realm" "__str__" (fun (_ : attrs) (_ : list data) => "") (fun _ _ => "") (fun _ _ => "") (cl_str (cmd_class rest "F19_Realm"))).
  rewrite (from_base_not _ _ _ _ _ _ (proj1 (proj2 realm_based))), realm_rest. reflexivity.
Qed.
Lemma realm_cl_init : cl_init cls = realm_init.
Proof.
  change (cl_init cls) with (from_base "F19_Realm" "__init__" (base_attrs VNone) (base_attrs VNone) (base_attrs (VInt 0)) (cl_init (cmd_class rest "F19_Realm"))).
  rewrite (from_base_not _ _ _ _ _ _ (proj1 (proj2 (proj2 realm_based)))), realm_rest. reflexivity.
Qed.

Lemma text_stamp line ln a t : line = ("realm" ++ t)%string -> text_of (stamp "realm" line ln a) = strip t.
Proof. 
  intros ->. unfold text_of, get. assert (E1 : assoc "currentLine" (stamp "realm" ("realm" ++ t) ln a) = Some (VStr ("realm" ++ t))) by (unfold stamp; rewrite !assoc_put; reflexivity).
  assert (E2 : assoc "currentCmd" (stamp "realm" ("realm" ++ t) ln a) = Some (VStr "realm")) by (unfold stamp; rewrite !assoc_put; reflexivity).
  rewrite E1, E2. now rewrite (drop_app "realm" t).
Qed.
Lemma stamp_other k c line ln a : ~ In k ["currentCmd"; "currentLine"; "lineno"; "seen"] -> assoc k (stamp c line ln a) = assoc k a.
Proof.
  intros N. unfold stamp. rewrite !assoc_put. cbn [In] in N.
  repeat match goal with |- context [String.eqb k ?x] => destruct (String.eqb_spec k x) as [->|_]; [exfalso; apply N; tauto|] end. reflexivity.
Qed.

Lemma assoc_realm a : forall r ws ds k, In k ["join_realm"; "join_args"; "discover_options"] ->
  assoc k (put "discover_options" (VStrs ds) (put "join_args" (VStrs ws) (put "join_realm" (VStr r) a))) =
  Some (if String.eqb k "join_realm" then VStr r else if String.eqb k "join_args" then VStrs ws else VStrs ds).
Proof. intros r ws ds k I. rewrite !assoc_put. destruct I as [<-|[<-|[<-|[]]]]; reflexivity. Qed.
Lemma in_realm_put a r ws ds c l : in_realm (mkObj c (put "discover_options" (VStrs ds) (put "join_args" (VStrs ws) (put "join_realm" (VStr r) a))) l) r ws ds.
Proof. unfold in_realm. cbn [o_attrs]. rewrite !assoc_realm by (cbn; tauto). auto. Qed.

(** The object of realm in a handler that read any lines. *)
Lemma realm_state h : used h -> exists o, served h "realm" = Some o /\ o_class o = cls /\ (no_realm o \/ exists r ws ds, in_realm o r ws ds /\ joins ws r ds).
Proof.
  intros (ops & F & ->). induction ops as [|op ops IH] using rev_ind.
  - cbn [fold_left]. eexists. split; [apply (start_served rest v cm dm Hv "realm" "F19_Realm" Hn)|]. split; [reflexivity|]. left.
    unfold no_realm. cbn [new_obj o_attrs]. rewrite realm_cl_init. repeat split.
  - apply Forall_app in F as [F1 F2]. destruct (IH F1) as (o & So & Co & Inv). rewrite fold_left_app. cbn [fold_left].
    set (h := fold_left do_op ops (start rest cm dm)) in *. assert (U : used h) by (exists ops; auto).
    inversion F2 as [|? ? Hop _]; subst. destruct op as [line ws ln| |]; try contradiction. cbn [do_op].
    destruct ws as [|m args]; [exists o; auto|]. destruct (assoc m cm) as [d|] eqn:Em.
    + pose proof (assoc_In _ _ _ Em) as Hm. destruct (line_cases rest v cm dm Hv h m d line args ln U Hm) as (o1 & vw & a' & d' & S1 & C1 & _ & P & J).
      rewrite (J "realm" "F19_Realm" Hn). destruct (String.eqb_spec "F19_Realm" d) as [<-|Ne]; [|exists o; auto].
      assert (o1 = o).
      { assert (served h "realm" = served h m) by (exact (PropsPlace.served_alias rest v cm dm h "realm" m "F19_Realm" Hv U Hn Hm)). congruence. }
      subst o1. eexists. split; [reflexivity|]. split; [reflexivity|]. rewrite realm_cl_parse in P. unfold realm_parse in P.
      assert (Keep : a' = stamp m line ln (o_attrs o) -> no_realm (mkObj cls a' d') \/ exists r ws ds, in_realm (mkObj cls a' d') r ws ds /\ joins ws r ds).
      { intros ->. unfold no_realm, in_realm. cbn [o_attrs]. rewrite !stamp_other by (cbn; intuition discriminate). exact Inv. }
      destruct (parse_arguments (stamp m line ln (o_attrs o)) (text_of (stamp m line ln (o_attrs o)))) as [[[r js] ds]|e] eqn:Q; [|apply Keep, P].
      destruct P as (-> & _). right. exists r, js, ds. split; [apply in_realm_put|].
      unfold parse_arguments in Q. destruct (truthy _); [discriminate|]. destruct (shlex_split _ _) as [[|c ws]|]; try discriminate. cbn [bind] in Q.
      destruct (String.eqb c "join"); [|discriminate]. apply parse_join_spec in Q as [-> Q]. exact Q.
    + assert (A : forall d, ~ In (m, d) cm). { intros d Hd. apply (In_dict cm (dict_cm rest v cm dm Hv)) in Hd. congruence. }
      exists o. rewrite (proj2 (line_unknown rest cm dm h m line args ln U A)). auto.
Qed.

(** The line of realm. *)
Lemma realm_line h t args ln : used h -> let hl := handle_command h ("realm" ++ t) ("realm" :: args) ln in
  exists o o', served h "realm" = Some o /\ served (fst hl) "realm" = Some o' /\ o_class o' = cls /\
    ((snd hl = None /\ (no_realm o \/ exists ws ds, in_realm o "" ws ds) /\ exists ws r ds, words_of t ("join" :: ws) /\ joins ws r ds /\ in_realm o' r ws ds) \/
     (snd hl <> None /\ same_realm o o' /\
      ~ ((no_realm o \/ exists ws ds, in_realm o "" ws ds) /\ exists ws r ds, words_of t ("join" :: ws) /\ joins ws r ds))).
Proof.
  intros U hl. destruct (realm_state h U) as (o & So & Co & Inv).
  destruct (line_cases rest v cm dm Hv h "realm" "F19_Realm" ("realm" ++ t) args ln U Hn) as (o1 & vw & a' & d' & S1 & C1 & _ & P & J).
  fold hl in P, J. assert (o1 = o) by congruence. subst o1. exists o. eexists. split; [exact So|]. split; [rewrite (J "realm" "F19_Realm" Hn), eqb_refl_s; reflexivity|].
  split; [reflexivity|]. rewrite realm_cl_parse in P. unfold realm_parse in P. rewrite (text_stamp ("realm" ++ t) ln (o_attrs o) t eq_refl) in P.
  assert (Free : truthy (get "join_realm" (stamp "realm" ("realm" ++ t) ln (o_attrs o))) = false <-> (no_realm o \/ exists ws ds, in_realm o "" ws ds)).
  { unfold get. rewrite stamp_other by (cbn; intuition discriminate). destruct Inv as [N|(r & ws & ds & I & _)].
    - rewrite (proj1 N). split; auto.
    - rewrite (proj1 I). cbn [truthy]. split.
      + intros E. right. exists ws, ds. destruct r; [exact I|discriminate].
      + intros [N|(ws' & ds' & I')]; [destruct N as (N & _); rewrite (proj1 I) in N; discriminate|]. destruct I' as (I' & _). rewrite (proj1 I) in I'. injection I' as ->. reflexivity. }
  unfold parse_arguments in P. destruct (truthy (get "join_realm" (stamp "realm" ("realm" ++ t) ln (o_attrs o)))).
  { right. destruct P as (-> & -> & E). rewrite E. split; [discriminate|]. split; [|intros [X _]; apply Free in X; discriminate].
    intros k Hk. cbn [o_attrs]. apply stamp_other. intros X. cbn in Hk, X. intuition (subst; discriminate). }
  assert (Bad : forall e, a' = stamp "realm" ("realm" ++ t) ln (o_attrs o) -> snd hl = Some e -> (~ exists ws r ds, words_of t ("join" :: ws) /\ joins ws r ds) ->
     snd hl <> None /\ same_realm o (mkObj cls a' d') /\
     ~ ((no_realm o \/ exists ws ds, in_realm o "" ws ds) /\ exists ws r ds, words_of t ("join" :: ws) /\ joins ws r ds)).
  { intros e -> -> X. split; [discriminate|]. split; [|intros [_ Y]; exact (X Y)]. intros k Hk. cbn [o_attrs]. apply stamp_other. intros Y. cbn in Hk, Y. intuition (subst; discriminate). }
  unfold words_of in *. destruct (shlex_split false (strip t)) as [[|c ws]|e] eqn:Sp; cbn [bind] in P.
  - right. destruct P as (Pa & _ & E). apply (Bad _ Pa E). intros (ws & r & ds & X & _). discriminate.
  - destruct (String.eqb_spec c "join") as [->|Nj].
    + destruct (parse_join _ ws) as [[[r js] ds]|e] eqn:Q.
      * left. destruct P as (-> & _ & E). apply parse_join_spec in Q as [-> Q]. split; [exact E|]. split; [now apply Free|]. exists ws, r, ds.
        split; [reflexivity|]. split; [exact Q|]. apply in_realm_put.
      * right. destruct P as (Pa & _ & E). apply (Bad _ Pa E). intros (ws2 & r & ds & X & Y). injection X as <-.
        rewrite (proj2 (parse_join_spec _ ws r ws ds) (conj eq_refl Y)) in Q. discriminate.
    + right. destruct P as (Pa & _ & E). apply (Bad _ Pa E). intros (ws2 & r & ds & X & Y). injection X as -> _. now apply Nj.
  - right. destruct P as (Pa & _ & E). apply (Bad _ Pa E). intros (ws2 & r & ds & X & Y). discriminate.
Qed.
Lemma realm_str_in o r ws ds : o_class o = cls -> in_realm o r ws ds -> ws <> [] ->
  o_str o = ("# Realm or domain membership" ++ nl ++ "realm join " ++ join " " (map quote ws) ++ nl)%string.
Proof.
  intros C (_ & I & _) Nw. unfold o_str. rewrite C, realm_cl_str. unfold realm_str, get. rewrite I. destruct ws; [contradiction|reflexivity].
Qed.
Lemma realm_str_no o : o_class o = cls -> no_realm o -> o_str o = "".
Proof. intros C (_ & I & _). unfold o_str. rewrite C, realm_cl_str. unfold realm_str, get. now rewrite I. Qed.
End Realm.

Lemma joins_some ws r ds : joins ws r ds -> ws <> [].
Proof. intros []; discriminate. Qed.
Lemma joins_one ws r ds r' ds' : joins ws r ds -> joins ws r' ds' -> r = r' /\ ds = ds'.
Proof.
  intros J K. apply joins_getopt in J as (os & E & <-). apply joins_getopt in K as (os' & E' & <-). rewrite E in E'. injection E' as -> ->. auto.
Qed.

Lemma safe_solid c : shell_safe c = true -> is_space c = false.
Proof. destruct c as [[] [] [] [] [] [] [] []]; vm_compute; congruence. Qed.
Lemma quote_last s : last_ok (fun c => negb (is_space c)) (quote s) = true.
Proof.
  unfold quote. destruct s as [|c s]; [reflexivity|]. destruct (all_chars shell_safe (String c s)) eqn:E.
  - assert (X : stripped (String c s) = true) by (apply (stripped_all shell_safe); [apply safe_solid|discriminate|exact E]).
    unfold stripped in X. apply andb_prop in X. tauto.
  - change (String SQUOTE (replace_char SQUOTE "'""'""'" (String c s) ++ String SQUOTE ""))%string with (String SQUOTE (replace_char SQUOTE "'""'""'" (String c s)) ++ String SQUOTE "")%string.
    now rewrite last_ok_app by discriminate.
Qed.
Lemma quoted_last ws : ws <> [] -> last_ok (fun c => negb (is_space c)) (join " " (map quote ws)) = true.
Proof.
  intros N. destruct ws as [|w ws]; [contradiction|]. clear N. revert w. induction ws as [|x ws IH]; intros w; [apply quote_last|].
  change (join " " (map quote (w :: x :: ws))) with (quote w ++ " " ++ join " " (map quote (x :: ws)))%string.
  rewrite last_ok_app by discriminate. rewrite last_ok_app; [apply IH|].
  cbn [map join]. intros E. destruct ws; cbn [map] in E; [|apply app_eq_nil_s in E as [E _]]; exact (quote_nonempty x E).
Qed.
Lemma written_words ws tail : all_chars is_space tail = true -> words_of (" join " ++ join " " (map quote ws) ++ tail) ("join" :: ws).
Proof.
  intros Ht. unfold words_of. destruct ws as [|w ws].
  - assert (E : strip (" join " ++ join " " (map quote []) ++ tail) = "join").
    { cbn [map join append]. unfold strip, rstrip, lstrip. change (String " "%char (String "j"%char (String "o"%char (String "i"%char (String "n"%char (String " "%char tail))))))%string with (" " ++ "join" ++ " " ++ tail)%string.
      rewrite lstrip_by_app_all by reflexivity. rewrite lstrip_by_head by reflexivity.
      rewrite rstrip_by_app_all; [reflexivity|]. cbn [append all_chars]. exact Ht. }
    rewrite E. reflexivity.
  - assert (E : strip (" join " ++ join " " (map quote (w :: ws)) ++ tail) = join " " (map quote ("join" :: w :: ws))).
    { change (" join " ++ join " " (map quote (w :: ws)) ++ tail)%string with (" " ++ ("join" ++ " " ++ join " " (map quote (w :: ws)) ++ tail))%string.
      change (join " " (map quote ("join" :: w :: ws))) with ("join" ++ " " ++ join " " (map quote (w :: ws)))%string.
      unfold strip, rstrip, lstrip. rewrite lstrip_by_app_all by reflexivity. rewrite lstrip_by_head by reflexivity.
      rewrite <- !app_assoc_s. rewrite rstrip_by_app_all by exact Ht. apply rstrip_by_last. rewrite !app_assoc_s, last_ok_app by discriminate. rewrite last_ok_app.
      - apply quoted_last. discriminate.
      - intros E. pose proof (quoted_last (w :: ws)) as Q. rewrite E in Q. specialize (Q ltac:(discriminate)). discriminate. }
    rewrite E. rewrite <- (app_nil_r_s (join " " _)). apply split_quoted. reflexivity.
Qed.

(** ** The theorems about realm *)

(** In a handler that read any lines, the object of realm says nothing, or a realm with words
    and options that belong together. *)
Theorem C49_realm_state : forall rest v cm dm h,
  In (v, (cm, dm)) handlers -> In ("realm", "F19_Realm") cm -> rest "F19_Realm" = realm_class -> used rest cm dm h ->
  exists o, served h "realm" = Some o /\ (no_realm o \/ exists r ws ds, in_realm o r ws ds /\ joins ws r ds).
Proof.
  intros rest v cm dm h Hv Hn Hr U. destruct (realm_state rest v cm dm Hv Hr Hn h U) as (o & So & _ & I). eauto.
Qed.
Print Assumptions C49_realm_state.

(** A line [realm] and a text is accepted exactly when no realm (with a name) was joined and
    the words of the text are [join], options and one name; then the object says what
    the words say, and otherwise it says what it said before. *)
Theorem C49_realm_line : forall rest v cm dm h t args ln,
  In (v, (cm, dm)) handlers -> In ("realm", "F19_Realm") cm -> rest "F19_Realm" = realm_class -> used rest cm dm h ->
  let hl := handle_command h ("realm" ++ t) ("realm" :: args) ln in
  exists o o', served h "realm" = Some o /\ served (fst hl) "realm" = Some o' /\
    (snd hl = None <-> (no_realm o \/ exists ws ds, in_realm o "" ws ds) /\ exists ws r ds, words_of t ("join" :: ws) /\ joins ws r ds) /\
    (forall ws r ds, snd hl = None -> words_of t ("join" :: ws) -> joins ws r ds -> in_realm o' r ws ds) /\
    (snd hl <> None -> same_realm o o').
Proof.
  intros rest v cm dm h t args ln Hv Hn Hr U hl.
  destruct (realm_line rest v cm dm Hv Hr Hn h t args ln U) as (o & o' & So & So' & _ & K). fold hl in So', K. exists o, o'. split; [exact So|]. split; [exact So'|].
  destruct K as [(E & F & ws & r & ds & W & J & I)|(E & Sm & N)].
  - split; [split; [intros _; split; [exact F|]; exists ws, r, ds; auto|auto]|]. split; [|congruence].
    intros ws2 r2 ds2 _ W2 J2. unfold words_of in *. rewrite W in W2. injection W2 as <-. destruct (joins_one _ _ _ _ _ J J2) as [-> ->]. exact I.
  - split; [split; [congruence|intros X; contradiction]|]. split; [congruence|auto].
Qed.
Print Assumptions C49_realm_line.

(** Once a realm with a name was joined, every further line of realm is refused and changes
    nothing of it. *)
Theorem C49_realm_once : forall rest v cm dm h o r ws ds t args ln,
  In (v, (cm, dm)) handlers -> In ("realm", "F19_Realm") cm -> rest "F19_Realm" = realm_class -> used rest cm dm h ->
  served h "realm" = Some o -> in_realm o r ws ds -> r <> "" ->
  let hl := handle_command h ("realm" ++ t) ("realm" :: args) ln in
  snd hl <> None /\ exists o', served (fst hl) "realm" = Some o' /\ in_realm o' r ws ds.
Proof.
  intros rest v cm dm h o r ws ds t args ln Hv Hn Hr U So I Nr hl.
  destruct (C49_realm_line rest v cm dm h t args ln Hv Hn Hr U) as (o1 & o' & So1 & So' & A & _ & B). fold hl in So', A, B.
  assert (o1 = o) by congruence. subst o1. assert (E : snd hl <> None).
  { intros E. apply A in E as [[N|(ws2 & ds2 & I2)] _].
    - destruct N as (N & _). destruct I as (I & _). congruence.
    - destruct I as (I & _), I2 as (I2 & _). rewrite I in I2. injection I2 as ->. now apply Nr. }
  split; [exact E|]. exists o'. split; [exact So'|]. specialize (B E). destruct I as (I1 & I2 & I3). unfold in_realm.
  rewrite !B by (cbn; tauto). auto.
Qed.
Print Assumptions C49_realm_once.

(** What is written for realm is a remark and a line; the words of the line are [realm], [join]
    and the words that were given.  A handler (of any version with the command) that joined
    no realm accepts the line, and its object then says the same and is written the same. *)
Theorem C49_realm_written : forall rest v cm dm h o,
  In (v, (cm, dm)) handlers -> In ("realm", "F19_Realm") cm -> rest "F19_Realm" = realm_class -> used rest cm dm h -> served h "realm" = Some o ->
  (no_realm o -> o_str o = "") /\
  forall r ws ds, in_realm o r ws ds -> exists line,
    o_str o = ("# Realm or domain membership" ++ nl ++ line ++ nl)%string /\
    shlex_split true line = Ok ("realm" :: "join" :: ws) /\
    forall v2 cm2 dm2 h2 o2 tail ln, In (v2, (cm2, dm2)) handlers -> In ("realm", "F19_Realm") cm2 -> used rest cm2 dm2 h2 ->
      served h2 "realm" = Some o2 -> no_realm o2 -> all_chars is_space tail = true ->
      let hl := handle_command h2 (line ++ tail) ("realm" :: "join" :: ws) ln in
      snd hl = None /\ exists o', served (fst hl) "realm" = Some o' /\ in_realm o' r ws ds /\ o_str o' = o_str o.
Proof.
  intros rest v cm dm h o Hv Hn Hr U So. destruct (realm_state rest v cm dm Hv Hr Hn h U) as (o1 & So1 & Co & Inv). assert (o1 = o) by congruence. subst o1.
  split; [intros N; now apply (realm_str_no rest Hr o Co)|]. intros r ws ds I.
  assert (J : joins ws r ds).
  { destruct Inv as [N|(r2 & ws2 & ds2 & I2 & J)]; [destruct N as (N & _), I as (I & _); congruence|].
    destruct I as (E1 & E2 & E3), I2 as (F1 & F2 & F3). rewrite F1 in E1. rewrite F2 in E2. rewrite F3 in E3. injection E1 as ->. injection E2 as ->. injection E3 as ->. exact J. }
  pose proof (joins_some _ _ _ J) as Nw.
  exists ("realm join " ++ join " " (map quote ws))%string. split; [|split].
  - rewrite (realm_str_in rest Hr o r ws ds Co I Nw), !app_assoc_s. reflexivity.
  - rewrite <- (app_nil_r_s (_ ++ _)). change (("realm join " ++ join " " (map quote ws)) ++ "")%string with (("realm join " ++ join " " (map quote ws)) ++ "")%string.
    assert (E : ("realm join " ++ join " " (map quote ws))%string = join " " (map quote ("realm" :: "join" :: ws))) by (destruct ws; [contradiction|reflexivity]).
    rewrite E. now apply split_quoted.
  - intros v2 cm2 dm2 h2 o2 tail ln Hv2 Hn2 U2 So2 N2 Ht hl.
    assert (El : (("realm join " ++ join " " (map quote ws)) ++ tail)%string = ("realm" ++ (" join " ++ join " " (map quote ws) ++ tail))%string) by (rewrite app_assoc_s; reflexivity).
    unfold hl. rewrite El.
    destruct (realm_line rest v2 cm2 dm2 Hv2 Hr Hn2 h2 (" join " ++ join " " (map quote ws) ++ tail) ("join" :: ws) ln U2) as (o1 & o' & S1 & S2 & C2 & K).
    assert (o1 = o2) by congruence. subst o1. pose proof (written_words ws tail Ht) as W.
    destruct K as [(E & _ & ws2 & r2 & ds2 & W2 & J2 & I2)|(_ & _ & X)]; [|exfalso; apply X; split; [now left|]; eauto].
    split; [exact E|]. exists o'. split; [exact S2|]. unfold words_of in *. rewrite W in W2. injection W2 as <-. destruct (joins_one _ _ _ _ _ J J2) as [<- <-].
    split; [exact I2|]. now rewrite (realm_str_in rest Hr o' r ws ds C2 I2 Nw), (realm_str_in rest Hr o r ws ds Co I Nw).
Qed.
Print Assumptions C49_realm_written.

(** ** auth, authconfig and authselect *)

(** The classes, their setting and the name they write. *)
Definition kept_lines : list (string * (string * string)) :=
  [("FC3_Authconfig", ("authconfig", "auth")); ("F28_Authconfig", ("authconfig", "auth")); ("F28_Authselect", ("authselect", "authselect"))].
Local Transparent comes_from method_of table_of removed_of data_str new_attrs init_of.
Definition keep_line (k : string) : stmt :=
  SSeq (SAttr "self" k (EUn UStrip (EBin BFrom (EAttr (EVar "self") "currentLine") (EUn ULen (EAttr (EVar "self") "currentCmd"))))) (SReturn (EVar "self")).
Definition keep_code (k : string) (direct : bool) : stmt :=
  SBlock "_r" [] (if direct then keep_line k else SSeq (SBlock "_t1" [] (keep_line k)) (SReturn (EVar "_t1"))).
Definition kept_str (k w : string) : stmt :=
  SBlock "_r" [] (SSeq (SBlock "_t1" [] (SReturn (EConst (VStr ""))))
    (SSeq (SAssign "retval" (EVar "_t1"))
      (SSeq (SIf (EAttr (EVar "self") k)
         (SAssign "retval" (EBin BAdd (EVar "retval") (EBin BAdd (EBin BAdd (EConst (VStr ("# System authorization information" ++ nl ++ w ++ " ")%string)) (EUn UStr (EAttr (EVar "self") k))) (EConst (VStr nl)))))
         SPass) (SReturn (EVar "retval"))))).
Lemma kept_codes : Forall (fun e => own_parse (fst e) = true /\ based (comes_from (fst e) "__str__") = false /\
  (parse_code (fst e) = Some (keep_code (fst (snd e)) true) \/ parse_code (fst e) = Some (keep_code (fst (snd e)) false)) /\
  method_of (fst e) "__str__" [] = Some (kept_str (fst (snd e)) (snd (snd e)))) kept_lines.
Proof.
  unfold kept_lines. repeat (apply Forall_cons || apply Forall_nil); cbn [fst snd];
    (split; [vm_compute; reflexivity|]; split; [vm_compute; reflexivity|]; split; [|vm_compute; reflexivity]).
  - left. vm_compute. reflexivity.
  - right. vm_compute. reflexivity.
  - left. vm_compute. reflexivity.
Qed.
(** The names: what is written names the same class, and the settings are not notes of the line. *)
Lemma kept_names : forallb (fun h => forallb (fun nc => match assoc (snd nc) kept_lines with
    | Some (k, w) => match assoc w (fst (snd h)) with Some c => String.eqb c (snd nc) | None => false end
    | None => true end) (fst (snd h))) handlers = true.
Proof. vm_compute. reflexivity. Qed.
Local Opaque comes_from method_of table_of removed_of data_str new_attrs init_of.
Lemma self_self : String.eqb "self" "self" = true. Proof. reflexivity. Qed.
Lemma keep_line_run C k e a n line : assoc "currentLine" a = Some (VStr line) -> assoc "currentCmd" a = Some (VStr n) ->
  exec C (keep_line k) e a = OReturn PSelf (put k (VStr (strip (drop (String.length n) line))) a).
Proof.
  intros E1 E2. unfold keep_line. cbn [exec eval bind]. rewrite self_self. cbn [bind find_attr]. rewrite E1, E2.
  cbn [bind to_val un bin py_len py_from as_string with_val]. rewrite Znat.Nat2Z.id. unfold set_on. rewrite self_self. cbn [exec eval]. reflexivity.
Qed.
Lemma keep_run C k b a n line : assoc "currentLine" a = Some (VStr line) -> assoc "currentCmd" a = Some (VStr n) ->
  run C (keep_code k b) [] a = (put k (VStr (strip (drop (String.length n) line))) a, Ok PSelf).
Proof.
  intros E1 E2. unfold run, keep_code. destruct b; cbn [exec bind_params map_res]; rewrite (keep_line_run C k _ a n line E1 E2); reflexivity.
Qed.
Lemma kept_run C k w a s : assoc k a = Some (VStr s) ->
  snd (run C (kept_str k w) [] a) = Ok (PV (VStr (if String.eqb s "" then "" else "# System authorization information" ++ nl ++ w ++ " " ++ s ++ nl)%string)).
Proof.
  intros E. unfold run, kept_str. set (HD := ("# System authorization information" ++ nl ++ w ++ " ")%string). cbn [exec bind_params map_res eval bind].
  rewrite self_self. cbn [bind find_attr]. 
  match goal with |- context [put "_t1" ?p ?e] => set (e1 := put "_t1" p e) end.
  assert (R1 : assoc "_t1" e1 = Some (PV (VStr ""))) by (unfold e1; now rewrite assoc_put).
  change (String.eqb "_t1" "self") with false. cbv iota. rewrite R1, E. 
  set (e2 := put "retval" (PV (VStr "")) e1).
  assert (R2 : assoc "retval" e2 = Some (PV (VStr ""))) by (unfold e2; now rewrite assoc_put).
  cbn [p_truthy truthy]. destruct (String.eqb s "") eqn:Es; cbn [negb].
  - cbn [exec eval]. change (String.eqb "retval" "self") with false. cbv iota. rewrite R2. reflexivity.
  - cbn [exec eval bind]. change (String.eqb "retval" "self") with false. cbv iota. rewrite R2. cbn [bind to_val]. rewrite ?self_self. cbn [bind find_attr]. rewrite ?E.
    cbn [bind to_val un py_str bin py_add]. change (String.eqb "retval" "self") with false. cbv iota. rewrite assoc_put. cbn [append]. unfold HD. rewrite !app_assoc_s. reflexivity.
Qed.

Lemma stamp_texts n line ln a : assoc "currentLine" (stamp n line ln a) = Some (VStr line) /\ assoc "currentCmd" (stamp n line ln a) = Some (VStr n).
Proof. unfold stamp. rewrite !assoc_put. auto. Qed.
Lemma kept_parse rest c k w vw a d args n line : In (c, (k, w)) kept_lines -> assoc "currentLine" a = Some (VStr line) -> assoc "currentCmd" a = Some (VStr n) ->
  cl_parse (class_model (cmd_class rest) c) vw a d args = (put k (VStr (strip (drop (String.length n) line))) a, d, Ok None).
Proof.
  intros I E1 E2. pose proof kept_codes as K. rewrite Forall_forall in K. specialize (K _ I). cbn [fst snd] in K. destruct K as (O & _ & P & _).
  assert (Pc : exists b, parse_code c = Some (keep_code k b)) by (destruct P; eauto). destruct Pc as [b Pc].
  rewrite (class_parse rest c _ Pc O). unfold cmd_parse. rewrite (keep_run _ k b a n line E1 E2). reflexivity.
Qed.
Lemma kept_cl_str rest c k w a s : In (c, (k, w)) kept_lines -> assoc k a = Some (VStr s) -> forall d,
  cl_str (class_model (cmd_class rest) c) a d = (if String.eqb s "" then "" else "# System authorization information" ++ nl ++ w ++ " " ++ s ++ nl)%string.
Proof.
  intros I E d. pose proof kept_codes as K. rewrite Forall_forall in K. specialize (K _ I). cbn [fst snd] in K. destruct K as (_ & B & P & M).
  assert (Pc : exists b, parse_code c = Some (keep_code k b)) by (destruct P; eauto). destruct Pc as [b Pc].
  change (cl_str (class_model (cmd_class rest) c) a d) with
    (from_base c "__str__" (fun (_ : attrs) (_ : list data) => "") (fun _ _ => "") (fun _ _ => "") (cl_str (cmd_class rest c)) a d).
  rewrite (from_base_not _ _ _ _ _ _ B). unfold cmd_class. unfold parse_code in Pc. rewrite M in *.
  destruct (method_of c "__init__" []) as [i|], (method_of c "parse" []) as [p|]; try discriminate. cbn [cl_str].
  unfold cmd_str. rewrite (kept_run _ k w a s E). reflexivity.
Qed.
Lemma strip_blanks a s b : all_chars is_space a = true -> all_chars is_space b = true -> strip (a ++ strip s ++ b) = strip s.
Proof.
  intros Ha Hb. destruct (strip_spec s) as [->|S].
  - cbn [append]. apply strip_nil. rewrite all_chars_app, Ha, Hb. reflexivity.
  - rewrite <- (strip_stripped (strip s) S) at 2. unfold strip at 1, rstrip, lstrip. rewrite lstrip_by_app_all by exact Ha. unfold stripped in S. apply andb_prop in S as [S1 S2].
    rewrite lstrip_by_head; [|rewrite head_ok_app; [exact S1|intros E; rewrite E in S1; discriminate]]. rewrite rstrip_by_app_all by exact Hb.
    unfold strip at 2, rstrip, lstrip. rewrite (lstrip_by_head _ _ S1). reflexivity.
Qed.

(** A line of auth, authconfig or authselect is accepted whatever is in it; the setting is the text
    after the name, without the blanks around it, and nothing else changes besides the notes of
    the line.  It is written as a remark and a line with this text, and not when there is
    no text. *)
Theorem C49_kept_line : forall rest v cm dm n c k w h t args ln,
  In (v, (cm, dm)) handlers -> In (n, c) cm -> In (c, (k, w)) kept_lines -> used rest cm dm h ->
  let hl := handle_command h (n ++ t) (n :: args) ln in
  snd hl = None /\ exists o o', served h n = Some o /\ served (fst hl) n = Some o' /\
    assoc k (o_attrs o') = Some (VStr (strip t)) /\ o_data o' = o_data o /\
    (forall x, x <> k -> ~ In x ["currentCmd"; "currentLine"; "lineno"; "seen"] -> assoc x (o_attrs o') = assoc x (o_attrs o)) /\
    (strip t = "" -> o_str o' = "") /\
    (strip t <> "" -> o_str o' = ("# System authorization information" ++ nl ++ w ++ " " ++ strip t ++ nl)%string).
Proof.
  intros rest v cm dm n c k w h t args ln Hv Hn I U hl.
  destruct (line_cases rest v cm dm Hv h n c (n ++ t) args ln U Hn) as (o & vw & a' & d' & So & _ & _ & P & J). fold hl in P, J.
  destruct (stamp_texts n (n ++ t) ln (o_attrs o)) as [T1 T2].
  rewrite (kept_parse rest c k w vw _ _ args n (n ++ t) I T1 T2), drop_app in P. destruct P as (-> & -> & E).
  split; [exact E|]. exists o. eexists. split; [exact So|]. split; [rewrite (J n c Hn), eqb_refl_s; reflexivity|]. cbn [o_attrs o_data].
  split; [apply assoc_put_eq|]. split; [reflexivity|]. split; [|split].
  - intros x Nx Nn. rewrite assoc_put_ne by exact Nx. now apply stamp_other.
  - intros Et. unfold o_str. cbn [o_class o_attrs o_data]. rewrite (kept_cl_str rest c k w _ (strip t) I (assoc_put_eq _ _ _)). now rewrite Et.
  - intros Et. unfold o_str. cbn [o_class o_attrs o_data]. rewrite (kept_cl_str rest c k w _ (strip t) I (assoc_put_eq _ _ _)). apply String.eqb_neq in Et. now rewrite Et.
Qed.
Print Assumptions C49_kept_line.

(** The written line names a command of the same class; read by any handler that has it for this class,
    it gives the same setting and is written the same. *)
Theorem C49_kept_again : forall rest v cm dm n c k w h t args ln,
  In (v, (cm, dm)) handlers -> In (n, c) cm -> In (c, (k, w)) kept_lines -> used rest cm dm h ->
  In (w, c) cm /\
  forall v2 cm2 dm2 h2 tail args2 ln2, In (v2, (cm2, dm2)) handlers -> In (w, c) cm2 -> used rest cm2 dm2 h2 -> all_chars is_space tail = true ->
    let hl := handle_command h (n ++ t) (n :: args) ln in
    let hl2 := handle_command h2 ((w ++ " " ++ strip t) ++ tail) (w :: args2) ln2 in
    snd hl2 = None /\ exists o o2, served (fst hl) n = Some o /\ served (fst hl2) w = Some o2 /\
      assoc k (o_attrs o2) = assoc k (o_attrs o) /\ o_str o2 = o_str o.
Proof.
  intros rest v cm dm n c k w h t args ln Hv Hn I U. split.
  - pose proof kept_names as K. rewrite forallb_forall in K. specialize (K _ Hv). cbn [fst snd] in K. rewrite forallb_forall in K. specialize (K _ Hn). cbn [fst snd] in K.
    assert (A : assoc c kept_lines = Some (k, w)) by (destruct I as [I|[I|[I|[]]]]; injection I as <- <- <-; reflexivity).
    rewrite A in K. destruct (assoc w cm) as [d|] eqn:Aw; [|discriminate]. apply String.eqb_eq in K as ->. now apply assoc_In.
  - intros v2 cm2 dm2 h2 tail args2 ln2 Hv2 Hw U2 Ht hl hl2.
    destruct (C49_kept_line rest v cm dm n c k w h t args ln Hv Hn I U) as (_ & o & o1 & _ & S1 & A1 & _ & _ & B1 & D1). fold hl in S1.
    destruct (C49_kept_line rest v2 cm2 dm2 w c k w h2 (" " ++ strip t ++ tail) args2 ln2 Hv2 Hw I U2) as (E2 & p & o2 & _ & S2 & A2 & _ & _ & B2 & D2).
    assert (El : ((w ++ " " ++ strip t) ++ tail)%string = (w ++ " " ++ strip t ++ tail)%string) by now rewrite !app_assoc_s.
    unfold hl2. rewrite El. split; [exact E2|]. exists o1, o2. split; [exact S1|]. split; [exact S2|].
    rewrite strip_blanks in A2, B2, D2 by (reflexivity || exact Ht). split; [congruence|].
    destruct (string_dec (strip t) "") as [E|Ne]; [rewrite B1, B2 by exact E|rewrite D1, D2 by exact Ne]; reflexivity.
Qed.
Print Assumptions C49_kept_again.

(** ** Findings and examples *)
Local Transparent comes_from method_of table_of removed_of data_str new_attrs init_of.
Definition realm_rest_demo (c : string) : cclass := if String.eqb c "F19_Realm" then realm_class else mkClass c [] false [] abstract_parse (fun _ _ => "").
Definition demo_lines (ls : list (string * list string)) : option (list bool * option (value * value * value * string)) :=
  match find (fun h => Z.eqb (fst h) F34) handlers with
  | Some (_, (cm, dm)) =>
      let step := fun st l => let hl := handle_command (fst st) (fst l) (snd l) 1 in (fst hl, snd st ++ [match snd hl with None => true | _ => false end]) in
      let st := fold_left step ls (start realm_rest_demo cm dm, []) in
      Some (snd st, match served (fst st) "realm" with
                    | Some o => Some (get "join_realm" (o_attrs o), get "join_args" (o_attrs o), get "discover_options" (o_attrs o), o_str o)
                    | None => None
                    end)
  | None => None
  end.
Example C49_example : demo_lines [("realm join --client-software=sssd --comp 'a b' example.com", ["realm"]); ("realm join other.com", ["realm"])] =
  Some ([true; false], Some (VStr "example.com", VStrs ["--client-software=sssd"; "--comp"; "a b"; "example.com"], VStrs ["--client-software=sssd"],
    ("# Realm or domain membership" ++ nl ++ "realm join --client-software=sssd --comp 'a b' example.com" ++ nl)%string)).
Proof. vm_compute. reflexivity. Qed.
Example C49_joins : joins ["--client-software=sssd"; "--comp"; "a b"; "example.com"] "example.com" ["--client-software=sssd"].
Proof.
  change ["--client-software=sssd"] with (finds "client-software" "sssd" (finds "computer-ou" "a b" [])).
  apply (join_equals "client-software" "client-software" "sssd"); [cbn; tauto|apply means_starts|reflexivity|apply (join_next "comp" "computer-ou" "a b"); [cbn; tauto|apply means_starts|discriminate|reflexivity|apply join_name]].
  1-2: split; [vm_compute; reflexivity|]; intros o' I S; cbn in I; repeat (destruct I as [<-|I]; [first [reflexivity|vm_compute in S; discriminate]|]); contradiction.
  intros (r & E & _). discriminate.
Qed.
(** A realm without a name can be joined again. *)
Theorem C49_empty_name_refuted : demo_lines [("realm join ''", ["realm"]); ("realm join other.com", ["realm"])] =
  Some ([true; true], Some (VStr "other.com", VStrs ["other.com"], VStrs [], ("# Realm or domain membership" ++ nl ++ "realm join other.com" ++ nl)%string)).
Proof. vm_compute. reflexivity. Qed.
Print Assumptions C49_empty_name_refuted.
(** The text is cut off the line by the length of the name: a line that begins with blanks is
    refused, and so is one with a remark after it. *)
Theorem C49_line_refuted : demo_lines [("  realm join example.com", ["realm"; "join"; "example.com"]); ("realm join example.com # remark", ["realm"; "join"; "example.com"])] =
  Some ([false; false], Some (VNone, VStrs [], VStrs [], "")).
Proof. vm_compute. reflexivity. Qed.
Print Assumptions C49_line_refuted.
