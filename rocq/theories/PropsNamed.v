(** * C57: commands known under several names *)

From Verif Require Import PyStrFacts Shlex ArgParseFacts HandlerFacts ClassModel PropsHandler PropsClass PyText.
From Verif Require Import HandlerSpec ParserSpec Parser ArgSpec ArgDecl PropsStorage NsFacts NsRange ArgTable PyFlowFacts PyClass CmdFacts CmdFlow CmdLines CmdStrict RoundSpec CmdRound PropsRound PropsStore PropsRepo NamedFacts.
From Coq Require Import Lia.
From Verif Require Import Value.
Local Open Scope string_scope.
Local Open Scope list_scope.
Local Arguments Ascii.eqb : simpl never.
Local Arguments String.eqb : simpl never.

(** ** Specification *)

(** What the names say: how the installation ends, and how it is displayed (constants.py:30-32, 57-59). *)
Definition ending (v : Z) (n : string) : option Z :=
  match n with "reboot" => Some 1%Z | "shutdown" | "poweroff" => Some 2%Z | "halt" => if Z.leb F18 v then Some 0%Z else None | _ => None end.
Definition display (n : string) : option Z :=
  match n with "cmdline" => Some 0%Z | "graphical" => Some 1%Z | "text" => Some 2%Z | _ => None end.
(** Whether the line gives the switch stored in [k]. *)
Definition flag (c k : string) (args : list string) : bool := match gives c k args with Some (VBool true) => true | _ => false end.
(** The switches of the version. *)
Definition switch (v from_v : Z) (c k : string) (args : list string) : bool := if Z.leb from_v v then flag c k args else false.
(** How they are written: a remark, and a line. *)
Definition word_of (b : bool) (w : string) : list string := if b then [w] else [].
Definition ending_remark (z : Z) : string :=
  if Z.eqb z 1 then "# Reboot after installation" else if Z.eqb z 2 then "# Shutdown after installation" else "# Halt after installation".
Definition ending_words (z : Z) (eject kexec : bool) : list string :=
  (if Z.eqb z 1 then "reboot" else if Z.eqb z 2 then "shutdown" else "halt") :: word_of eject "--eject" ++ word_of kexec "--kexec".
Definition display_remark (z : Z) : string := if Z.eqb z 1 then "# Use graphical install" ++ nl else if Z.eqb z 2 then "# Use text mode install" ++ nl else "".
Definition display_words (z : Z) (quiet : bool) : list string :=
  (if Z.eqb z 1 then "graphical" else if Z.eqb z 2 then "text" else "cmdline") :: word_of quiet "--non-interactive".
Definition line_text (ws : list string) : string := String.concat " " ws.
Definition end_text (z : Z) (j x : bool) : string := (ending_remark z ++ nl ++ line_text (ending_words z j x) ++ nl)%string.
Definition show_text (z : Z) (q : bool) : string := (display_remark z ++ line_text (display_words z q) ++ nl)%string.

(** ** The classes *)

Definition ending_names : list string := ["reboot"; "shutdown"; "poweroff"; "halt"].
Definition display_names : list string := ["cmdline"; "graphical"; "text"].
Definition self_at (k : string) : expr := EAttr (EVar "self") k.
Definition end_code0 : stmt :=
  SSeq (SIf (EBin BEq (self_at "currentCmd") (EConst (VStr "reboot"))) (SAttr "self" "action" (EConst (VInt 1)))
    (SIf (EBin BIn (self_at "currentCmd") (EConst (VStrs ["shutdown"; "poweroff"]))) (SAttr "self" "action" (EConst (VInt 2))) SPass)) (SReturn (EVar "self")).
Definition end_code1 : stmt :=
  SSeq (SBlock "_t1" [] end_code0) (SSeq (SParse "ns") (SSeq (SSetTo "ns" "self") (SReturn (EVar "self")))).
Definition end_code2 : stmt :=
  SSeq (SBlock "_t1" [] end_code1)
    (SSeq (SIf (EBin BEq (self_at "currentCmd") (EConst (VStr "halt"))) (SAttr "self" "action" (EConst (VInt 0))) SPass) (SReturn (EVar "self"))).
Definition show_code1 : stmt :=
  SSeq (SParse "ns") (SSeq (SSetTo "ns" "self")
    (SSeq (SIf (EBin BEq (self_at "currentCmd") (EConst (VStr "cmdline"))) (SAttr "self" "displayMode" (EConst (VInt 0)))
      (SIf (EBin BEq (self_at "currentCmd") (EConst (VStr "graphical"))) (SAttr "self" "displayMode" (EConst (VInt 1)))
      (SIf (EBin BEq (self_at "currentCmd") (EConst (VStr "text"))) (SAttr "self" "displayMode" (EConst (VInt 2))) (SRaise true "Unknown command %s")))) (SReturn (EVar "self")))).
Definition show_code2 : stmt :=
  SSeq (SBlock "_t1" [] show_code1)
    (SSeq (SIf (EAnd (EBin BEq (self_at "currentCmd") (EConst (VStr "cmdline"))) (self_at "nonInteractive"))
      (SRaise true "Kickstart command cmdline does not support --non-interactive parameter") SPass) (SReturn (EVar "self"))).
Definition end_classes : list (string * stmt) := [("FC3_Reboot", end_code0); ("FC6_Reboot", end_code1); ("F18_Reboot", end_code2); ("F23_Reboot", end_code2)].
Definition show_classes : list (string * stmt) := [("FC3_DisplayMode", show_code1); ("F26_DisplayMode", show_code2)].
(** A switch: False unless it is given, True then. *)
Definition switch_ok (T : tab) (k : string) : bool :=
  match tab_default (t_acts T) k with VBool false => true | _ => false end &&
  forallb (fun d => negb (String.eqb (d_dest d) k) || match d_kind d, d_const d with KStoreConst, VBool true => true | _, _ => false end) (all_decls T).
Definition class_ok (main : string) (e : string * stmt) : bool :=
  own_parse (fst e) && check_table (tabulate (table_of (fst e))) (init_of (fst e)) [] [] (table_of (fst e)) &&
  forallb (fun k => negb (mem k (PyRound.dests (tabulate (table_of (fst e)))))) ["currentCmd"; "lineno"; "action"; "displayMode"] &&
  forallb (switch_ok (tabulate (table_of (fst e)))) (PyRound.dests (tabulate (table_of (fst e)))) &&
  negb (based (comes_from (fst e) "__str__")) && match method_of (fst e) "__str__" [] with Some t => plain_s (main :: PyRound.dests (tabulate (table_of (fst e)))) t | None => false end.
Lemma end_ok : forallb (class_ok "action") end_classes = true.
Proof. vm_compute. reflexivity. Qed.
Lemma show_ok : forallb (class_ok "displayMode") show_classes = true.
Proof. vm_compute. reflexivity. Qed.
Lemma named_codes : Forall (fun e => parse_code (fst e) = Some (SBlock "_r" [] (snd e))) (end_classes ++ show_classes).
Proof. repeat (apply Forall_cons || apply Forall_nil); cbn [fst snd]; vm_compute; reflexivity. Qed.

Definition end_class (v : Z) : string := if Z.ltb v FC6 then "FC3_Reboot" else if Z.ltb v F18 then "FC6_Reboot" else if Z.ltb v F23 then "F18_Reboot" else "F23_Reboot".
Definition show_class (v : Z) : string := if Z.ltb v F26 then "FC3_DisplayMode" else "F26_DisplayMode".
Lemma named_handlers : forallb (fun h => forallb (fun nc => (negb (mem (fst nc) ending_names) || String.eqb (snd nc) (end_class (fst h))) &&
    (negb (mem (fst nc) display_names) || String.eqb (snd nc) (show_class (fst h)))) (fst (snd h))) handlers = true.
Proof. vm_compute. reflexivity. Qed.
Lemma end0_dests : PyRound.dests (tabulate (table_of "FC3_Reboot")) = [].
Proof. vm_compute. reflexivity. Qed.
Lemma end1_dests : PyRound.dests (tabulate (table_of "FC6_Reboot")) = ["eject"].
Proof. vm_compute. reflexivity. Qed.
Lemma end2_dests : PyRound.dests (tabulate (table_of "F18_Reboot")) = ["eject"].
Proof. vm_compute. reflexivity. Qed.
Lemma end3_dests : PyRound.dests (tabulate (table_of "F23_Reboot")) = ["eject"; "kexec"].
Proof. vm_compute. reflexivity. Qed.
Lemma show1_dests : PyRound.dests (tabulate (table_of "FC3_DisplayMode")) = [].
Proof. vm_compute. reflexivity. Qed.
Lemma show2_dests : PyRound.dests (tabulate (table_of "F26_DisplayMode")) = ["nonInteractive"].
Proof. vm_compute. reflexivity. Qed.

(** The texts, and the lines read again. *)
Definition bools : list bool := [false; true].
Definition has (c k : string) : bool := mem k (PyRound.dests (tabulate (table_of c))).
Definition made (main : string) (z : Z) (l : list (string * bool)) (c : string) : attrs :=
  (main, VInt z) :: map (fun kb => (fst kb, VBool (snd kb))) (filter (fun kb => has c (fst kb)) l).
Definition text_is (c : string) (a : attrs) (s : string) : bool :=
  match method_of c "__str__" [] with Some t => match cmd_str c t a [] with Ok x => String.eqb x s | Err _ => false end | None => false end.
Definition words_read (ws : list string) : bool := match shlex_split true (line_text ws) with Ok l => if list_eq_dec string_dec l ws then true else false | Err _ => false end.
Definition args_read (c : string) (args : list string) (l : list (string * bool)) : bool :=
  match parse_known_args (build (table_of c)) None args with Ok (_, []) => forallb (fun kb => Bool.eqb (flag c (fst kb) args) (snd kb)) l | _ => false end.
Lemma end_texts : forallb (fun e => forallb (fun z => forallb (fun j => forallb (fun x =>
    (Z.eqb z 0 && negb (mem (fst e) ["F18_Reboot"; "F23_Reboot"])) ||
    (let j' := j && has (fst e) "eject" in let x' := x && has (fst e) "kexec" in
     text_is (fst e) (made "action" z [("eject", j); ("kexec", x)] (fst e)) (ending_remark z ++ nl ++ line_text (ending_words z j' x') ++ nl) && words_read (ending_words z j' x') &&
     unbroken (line_text (ending_words z j' x')) && args_read (fst e) (tl (ending_words z j' x')) [("eject", j'); ("kexec", x')])) bools) bools) [0; 1; 2]%Z) end_classes = true.
Proof. vm_compute. reflexivity. Qed.
Lemma show_texts : forallb (fun e => forallb (fun z => forallb (fun q =>
    (let q' := q && has (fst e) "nonInteractive" in
     text_is (fst e) (made "displayMode" z [("nonInteractive", q)] (fst e)) (display_remark z ++ line_text (display_words z q') ++ nl) && words_read (display_words z q') &&
     unbroken (line_text (display_words z q')) && args_read (fst e) (tl (display_words z q')) [("nonInteractive", q')])) bools) [0; 1; 2]%Z) show_classes = true.
Proof. vm_compute. reflexivity. Qed.
Local Opaque comes_from method_of table_of removed_of data_str new_attrs init_of parse_flow marked_b strict reads names_ok used_classes parse_code build own_parse inits check_table tabulate.

(** ** What the methods do *)

Section Run.
Variables (C : ctx).
Lemma cond_eq a e n m : assoc "currentCmd" a = Some (VStr n) -> eval C a e (EBin BEq (self_at "currentCmd") (EConst (VStr m))) = Ok (PV (VBool (String.eqb n m))).
Proof. intros H. unfold self_at. cbn [eval]. change (String.eqb "self" "self") with true. cbv iota. cbn [bind find_attr]. rewrite H. reflexivity. Qed.
Lemma cond_in a e n l : assoc "currentCmd" a = Some (VStr n) -> eval C a e (EBin BIn (self_at "currentCmd") (EConst (VStrs l))) = Ok (PV (VBool (mem n l))).
Proof. intros H. unfold self_at. cbn [eval]. change (String.eqb "self" "self") with true. cbv iota. cbn [bind find_attr]. rewrite H. reflexivity. Qed.
Definition early (n : string) (a : attrs) : attrs := if String.eqb n "reboot" then put "action" (VInt 1) a else if mem n ["shutdown"; "poweroff"] then put "action" (VInt 2) a else a.
Lemma set_main e a k z : exec C (SAttr "self" k (EConst (VInt z))) e a = ONext e (put k (VInt z) a).
Proof. reflexivity. Qed.
Lemma run0 a e n : assoc "currentCmd" a = Some (VStr n) -> exec C end_code0 e a = OReturn PSelf (early n a).
Proof.
  intros H. unfold end_code0. cbn [exec]. rewrite (cond_eq _ _ n _ H), (cond_in _ _ n _ H). cbn [p_truthy truthy]. unfold early.
  destruct (String.eqb n "reboot"); [reflexivity|]. destruct (mem n ["shutdown"; "poweroff"]); reflexivity.
Qed.
Lemma early_line n a : line_of (early n a) = line_of a.
Proof. unfold early, line_of, get. destruct (String.eqb n "reboot"); [|destruct (mem n ["shutdown"; "poweroff"])]; rewrite ?assoc_put_ne by discriminate; reflexivity. Qed.
Lemma early_other n a k : k <> "action" -> assoc k (early n a) = assoc k a.
Proof. intros Ne. unfold early. destruct (String.eqb n "reboot"); [|destruct (mem n ["shutdown"; "poweroff"])]; rewrite ?assoc_put_ne by exact Ne; reflexivity. Qed.
Lemma run1 a e n : assoc "currentCmd" a = Some (VStr n) ->
  exec C end_code1 e a = match parse_args (c_parser C) (line_of a) (c_args C) with Ok ns => OReturn PSelf (set_to_obj ns (early n a)) | Err z => ORaise z (early n a) end.
Proof.
  intros H. unfold end_code1. cbn [exec bind_params map_res]. rewrite (run0 _ _ n H), early_line. destruct (parse_args (c_parser C) (line_of a) (c_args C)) as [ns|z]; [|reflexivity].
  rewrite assoc_put_eq. unfold set_to. change (String.eqb "self" "self") with true. reflexivity.
Qed.
Definition late (n : string) (a : attrs) : attrs := if String.eqb n "halt" then put "action" (VInt 0) a else a.
Lemma run2 a e n : assoc "currentCmd" a = Some (VStr n) ->
  (forall ns, parse_args (c_parser C) (line_of a) (c_args C) = Ok ns -> NoDup (map fst ns) /\ assoc "currentCmd" ns = None) ->
  exec C end_code2 e a = match parse_args (c_parser C) (line_of a) (c_args C) with Ok ns => OReturn PSelf (late n (set_to_obj ns (early n a))) | Err z => ORaise z (early n a) end.
Proof.
  intros H N. unfold end_code2. change (exec C (SSeq (SBlock "_t1" [] end_code1) ?t) e a) with (match exec C (SBlock "_t1" [] end_code1) e a with ONext e' s' => exec C t e' s' | o => o end).
  cbn [exec bind_params map_res]. rewrite (run1 _ _ n H). destruct (parse_args (c_parser C) (line_of a) (c_args C)) as [ns|z]; [|reflexivity].
  destruct (N ns eq_refl) as [ND Nc]. rewrite (cond_eq _ _ n).
  - cbn [p_truthy truthy]. unfold late. destruct (String.eqb n "halt"); reflexivity.
  - rewrite set_to_obj_overlay by exact ND. unfold overlay. rewrite Nc, early_other by discriminate. exact H.
Qed.
Lemma show1 a e n z : assoc "currentCmd" a = Some (VStr n) -> display n = Some z ->
  (forall ns, parse_args (c_parser C) (line_of a) (c_args C) = Ok ns -> NoDup (map fst ns) /\ assoc "currentCmd" ns = None) ->
  exec C show_code1 e a = match parse_args (c_parser C) (line_of a) (c_args C) with Ok ns => OReturn PSelf (put "displayMode" (VInt z) (set_to_obj ns a)) | Err x => ORaise x a end.
Proof.
  intros H D N. unfold show_code1. cbn [exec]. destruct (parse_args (c_parser C) (line_of a) (c_args C)) as [ns|x]; [|reflexivity].
  destruct (N ns eq_refl) as [ND Nc]. rewrite assoc_put_eq. unfold set_to. change (String.eqb "self" "self") with true. cbv iota.
  rewrite !(cond_eq _ _ n) by (rewrite set_to_obj_overlay by exact ND; unfold overlay; now rewrite Nc). cbn [p_truthy truthy].
  destruct (String.eqb_spec n "cmdline") as [E|E1]; [subst n; injection D as <-; reflexivity|].
  destruct (String.eqb_spec n "graphical") as [E|E2]; [subst n; injection D as <-; reflexivity|].
  destruct (String.eqb_spec n "text") as [E|E3]; [subst n; injection D as <-; reflexivity|].
  exfalso. revert D. unfold display. repeat (match goal with |- context [match ?x with _ => _ end] => destruct x end; try discriminate; try congruence).
Qed.
Lemma show2 a e n z : assoc "currentCmd" a = Some (VStr n) -> display n = Some z ->
  (forall ns, parse_args (c_parser C) (line_of a) (c_args C) = Ok ns -> NoDup (map fst ns) /\ assoc "currentCmd" ns = None) ->
  exec C show_code2 e a = match parse_args (c_parser C) (line_of a) (c_args C) with
    | Ok ns => let a2 := put "displayMode" (VInt z) (set_to_obj ns a) in
        if String.eqb n "cmdline" then
          match assoc "nonInteractive" a2 with
          | Some w => if truthy w then ORaise (KSParseError (line_of a2) "Kickstart command cmdline does not support --non-interactive parameter") a2 else OReturn PSelf a2
          | None => ORaise AttributeError a2
          end
        else OReturn PSelf a2
    | Err x => ORaise x a end.
Proof.
  intros H D N. unfold show_code2. change (exec C (SSeq (SBlock "_t1" [] show_code1) ?t) e a) with (match exec C (SBlock "_t1" [] show_code1) e a with ONext e' s' => exec C t e' s' | o => o end).
  cbn [exec bind_params map_res]. rewrite (show1 _ _ n z H D N). destruct (parse_args (c_parser C) (line_of a) (c_args C)) as [ns|x]; [|reflexivity]. destruct (N ns eq_refl) as [ND Nc].
  set (a2 := put "displayMode" (VInt z) (set_to_obj ns a)). assert (H2 : assoc "currentCmd" a2 = Some (VStr n)).
  { unfold a2. rewrite assoc_put_ne by discriminate. rewrite set_to_obj_overlay by exact ND. unfold overlay. now rewrite Nc. }
  clearbody a2. match goal with |- context [eval C a2 ?e (EAnd ?x ?y)] => change (eval C a2 e (EAnd x y)) with (do p <- eval C a2 e x ;; if p_truthy p then eval C a2 e y else Ok p) end.
  rewrite (cond_eq _ _ n _ H2). cbn [bind p_truthy truthy]. destruct (String.eqb n "cmdline"); [|reflexivity].
  unfold self_at. cbn [eval]. change (String.eqb "self" "self") with true. cbv iota. cbn [bind find_attr]. destruct (assoc "nonInteractive" a2) as [w|]; [|reflexivity]. cbn [p_truthy]. now destruct (truthy w).
Qed.
End Run.

(** ** The switches of a line *)

Lemma class_parts main e l : forallb (class_ok main) l = true -> In e l ->
  own_parse (fst e) = true /\ check_table (tabulate (table_of (fst e))) (init_of (fst e)) [] [] (table_of (fst e)) = true /\
  (forall k, In k ["currentCmd"; "lineno"; "action"; "displayMode"] -> ~ In k (PyRound.dests (tabulate (table_of (fst e))))) /\
  (forall k, In k (PyRound.dests (tabulate (table_of (fst e)))) -> switch_ok (tabulate (table_of (fst e))) k = true) /\
  based (comes_from (fst e) "__str__") = false /\ exists t, method_of (fst e) "__str__" [] = Some t /\ plain_s (main :: PyRound.dests (tabulate (table_of (fst e)))) t = true.
Proof.
  intros F I. rewrite forallb_forall in F. specialize (F e I). unfold class_ok in F. repeat (apply andb_prop in F as [F ?]).
  rewrite forallb_forall in *. split; [assumption|]. split; [assumption|]. split; [|split; [assumption|split; [now apply negb_true_iff|]]].
  - intros k Hk D. match goal with X : forall x, In x ["currentCmd"; _; _; _] -> _ |- _ => specialize (X k Hk); apply negb_true_iff in X end. apply mem_In in D. congruence.
  - destruct (method_of (fst e) "__str__" []) as [t|]; [|discriminate]. eauto.
Qed.
Lemma line_switches main e l args n r ln : forallb (class_ok main) l = true -> In e l -> parse_known_args (build (table_of (fst e))) ln args = Ok (n, r) ->
  NoDup (map fst n) /\ (forall k, In k ["currentCmd"; "lineno"; "action"; "displayMode"] -> assoc k n = None) /\
  forall k, In k (PyRound.dests (tabulate (table_of (fst e)))) -> assoc k n = Some (VBool (flag (fst e) k args)).
Proof.
  intros F I P. destruct (class_parts main e l F I) as (_ & Ct & No & Sw & _). pose proof (line_values_any _ _ _ _ _ P) as L. pose proof (line_ns _ _ _ _ _ _ _ _ Ct P) as NS.
  split; [eapply line_values_dict; exact L|]. split; [intros k Hk; exact (proj2 (NS k) (No k Hk))|].
  intros k Hk. destruct (proj1 (NS k) Hk) as (w & A & V). unfold flag, gives. rewrite L, A. specialize (Sw k Hk). unfold switch_ok in Sw. apply andb_prop in Sw as [S1 S2]. rewrite forallb_forall in S2.
  destruct V as [->|(d & Id & Dd & Pr)].
  - destruct (tab_default (t_acts (tabulate (table_of (fst e)))) k) as [|[]| | | | |]; try discriminate. reflexivity.
  - specialize (S2 d Id). rewrite Dd, eqb_refl_s in S2. cbn [negb orb] in S2. destruct Pr as [[Kd ->]|[Kd _]]; rewrite Kd in S2; [|discriminate].
    destruct (d_const d) as [|[]| | | | |]; try discriminate. reflexivity.
Qed.

Lemma run_block C s a : run C (SBlock "_r" [] s) [] a = match exec C s [] a with OReturn p a' => (a', Ok p) | ONext _ a' | OBreak _ a' => (a', Ok (PV VNone)) | ORaise z a' => (a', Err z) end.
Proof. unfold run. cbn [exec bind_params map_res]. destruct (exec C s [] a); cbn [put assoc]; reflexivity. Qed.
Definition ends (c n : string) : option Z :=
  if String.eqb n "reboot" then Some 1%Z else if mem n ["shutdown"; "poweroff"] then Some 2%Z else if String.eqb n "halt" then (if mem c ["F18_Reboot"; "F23_Reboot"] then Some 0%Z else None) else None.
Notation dests_of c := (PyRound.dests (tabulate (table_of c))).

Lemma end_effect c s vw d args a n a' p : In (c, s) end_classes -> In n ending_names -> assoc "currentCmd" a = Some (VStr n) ->
  run (parse_ctx c vw d args) (SBlock "_r" [] s) [] a = (a', Ok p) ->
  assoc "action" a' = match ends c n with Some z => Some (VInt z) | None => assoc "action" a end /\
  forall k, In k (dests_of c) -> assoc k a' = Some (VBool (flag c k args)).
Proof.
  intros Hc Hn H R. rewrite run_block in R.
  assert (E0 : forall b, assoc "action" (early n b) = match ends "FC3_Reboot" n with Some z => Some (VInt z) | None => assoc "action" b end).
  { intros b. unfold early, ends. destruct (String.eqb n "reboot"); [apply assoc_put_eq|]. destruct (mem n ["shutdown"; "poweroff"]); [apply assoc_put_eq|]. now destruct (String.eqb n "halt"). }
  assert (Sw : forall ns ln, parse_args (build (table_of c)) ln args = Ok ns -> NoDup (map fst ns) /\ (forall k, In k ["currentCmd"; "lineno"; "action"; "displayMode"] -> assoc k ns = None) /\
     forall k, In k (dests_of c) -> assoc k ns = Some (VBool (flag c k args))).
  { intros ns ln P. apply args_known in P as [r P]. exact (line_switches "action" (c, s) end_classes args ns r ln end_ok Hc P). }
  assert (St : forall ns b ln, parse_args (build (table_of c)) ln args = Ok ns -> assoc "action" (set_to_obj ns b) = assoc "action" b /\
     forall k, In k (dests_of c) -> assoc k (set_to_obj ns b) = Some (VBool (flag c k args))).
  { intros ns b ln P. destruct (Sw ns ln P) as (ND & Nn & Y). split; [|intros k Hk]; rewrite set_to_obj_overlay by exact ND; unfold overlay; [rewrite (Nn "action") by (cbn; tauto); reflexivity|].
    now rewrite (Y k Hk). }
  assert (Na : ~ In "action" (dests_of c)). { destruct (class_parts "action" (c, s) end_classes end_ok Hc) as (_ & _ & No & _). apply No. cbn; tauto. }
  destruct Hc as [E|[E|[E|[E|[]]]]]; injection E as <- <-.
  - rewrite (run0 _ _ _ n H) in R. injection R as <- _. split; [apply E0|]. intros k Hk. rewrite end0_dests in Hk. destruct Hk.
  - rewrite (run1 _ _ _ n H) in R. cbn [parse_ctx c_parser c_args] in R. destruct (parse_args (build (table_of "FC6_Reboot")) (line_of a) args) as [ns|] eqn:P; [|discriminate]. injection R as <- _.
    destruct (St ns (early n a) _ P) as [S1 S2]. split; [rewrite S1; apply E0|exact S2].
  - assert (R2 := run2 (parse_ctx "F18_Reboot" vw d args) a [] n H). cbn [parse_ctx c_parser c_args] in R2. rewrite R2 in R by (intros ns P; destruct (Sw ns _ P) as (ND & Nn & _); split; [exact ND|apply Nn; cbn; tauto]).
    destruct (parse_args (build (table_of "F18_Reboot")) (line_of a) args) as [ns|] eqn:P; [|discriminate]. injection R as <- _. destruct (St ns (early n a) _ P) as [S1 S2].
    unfold late. split.
    + specialize (E0 a). unfold ends in *. destruct Hn as [<-|[<-|[<-|[<-|[]]]]]; try (change (String.eqb _ "halt") with false; cbv iota; rewrite S1, E0; reflexivity). apply assoc_put_eq.
    + intros k Hk. assert (Nk : k <> "action") by (intros X; apply Na; rewrite <- X; exact Hk). destruct (String.eqb n "halt"); rewrite ?assoc_put_ne by exact Nk; exact (S2 k Hk).
  - assert (R2 := run2 (parse_ctx "F23_Reboot" vw d args) a [] n H). cbn [parse_ctx c_parser c_args] in R2. rewrite R2 in R by (intros ns P; destruct (Sw ns _ P) as (ND & Nn & _); split; [exact ND|apply Nn; cbn; tauto]).
    destruct (parse_args (build (table_of "F23_Reboot")) (line_of a) args) as [ns|] eqn:P; [|discriminate]. injection R as <- _. destruct (St ns (early n a) _ P) as [S1 S2].
    unfold late. split.
    + specialize (E0 a). unfold ends in *. destruct Hn as [<-|[<-|[<-|[<-|[]]]]]; try (change (String.eqb _ "halt") with false; cbv iota; rewrite S1, E0; reflexivity). apply assoc_put_eq.
    + intros k Hk. assert (Nk : k <> "action") by (intros X; apply Na; rewrite <- X; exact Hk). destruct (String.eqb n "halt"); rewrite ?assoc_put_ne by exact Nk; exact (S2 k Hk).
Qed.
Lemma known_parse p ln args n : parse_known_args p None args = Ok (n, []) -> parse_args p ln args = Ok n.
Proof. intros H. unfold parse_args. rewrite (up_parse_known_args None ln p args _ H). reflexivity. Qed.
Lemma end_accept c s vw d args a n ns : In (c, s) end_classes -> assoc "currentCmd" a = Some (VStr n) -> parse_known_args (build (table_of c)) None args = Ok (ns, []) ->
  exists a', run (parse_ctx c vw d args) (SBlock "_r" [] s) [] a = (a', Ok PSelf).
Proof.
  intros Hc H K. rewrite run_block.
  destruct (line_switches "action" (c, s) end_classes args ns [] None end_ok Hc K) as (ND & Nn & _). pose proof (known_parse _ (line_of a) _ _ K) as P.
  destruct Hc as [E|[E|[E|[E|[]]]]]; injection E as <- <-.
  - rewrite (run0 _ _ _ n H). eauto.
  - rewrite (run1 _ _ _ n H). cbn [parse_ctx c_parser c_args]. rewrite P. eauto.
  - assert (R2 := run2 (parse_ctx "F18_Reboot" vw d args) a [] n H). cbn [parse_ctx c_parser c_args] in R2. rewrite R2 by (intros ns' P'; rewrite P in P'; injection P' as <-; split; [exact ND|apply Nn; cbn; tauto]). rewrite P. eauto.
  - assert (R2 := run2 (parse_ctx "F23_Reboot" vw d args) a [] n H). cbn [parse_ctx c_parser c_args] in R2. rewrite R2 by (intros ns' P'; rewrite P in P'; injection P' as <-; split; [exact ND|apply Nn; cbn; tauto]). rewrite P. eauto.
Qed.

Lemma quiet_before args ns r ln : parse_known_args (build (table_of "FC3_DisplayMode")) ln args = Ok (ns, r) -> flag "FC3_DisplayMode" "nonInteractive" args = false.
Proof.
  intros Q. destruct (class_parts "displayMode" ("FC3_DisplayMode", show_code1) show_classes show_ok) as (_ & Ct & _); [cbn; tauto|].
  pose proof (line_ns _ _ _ _ _ _ _ _ Ct Q "nonInteractive") as [_ X]. apply line_values_any in Q. unfold flag, gives. rewrite Q. cbn [fst] in X. rewrite X; [reflexivity|]. rewrite show1_dests. intros [].
Qed.
Local Opaque flag gives.
Lemma show_effect c s vw d args a n z a' p : In (c, s) show_classes -> display n = Some z -> assoc "currentCmd" a = Some (VStr n) ->
  run (parse_ctx c vw d args) (SBlock "_r" [] s) [] a = (a', Ok p) ->
  assoc "displayMode" a' = Some (VInt z) /\ (forall k, In k (dests_of c) -> assoc k a' = Some (VBool (flag c k args))) /\ (n = "cmdline" -> flag c "nonInteractive" args = false).
Proof.
  intros Hc Hn H R. rewrite run_block in R.
  assert (Sw : forall ns ln, parse_args (build (table_of c)) ln args = Ok ns -> NoDup (map fst ns) /\ (forall k, In k ["currentCmd"; "lineno"; "action"; "displayMode"] -> assoc k ns = None) /\
     forall k, In k (dests_of c) -> assoc k ns = Some (VBool (flag c k args))).
  { intros ns ln P. apply args_known in P as [r P]. exact (line_switches "displayMode" (c, s) show_classes args ns r ln show_ok Hc P). }
  assert (Na : ~ In "displayMode" (dests_of c)). { destruct (class_parts "displayMode" (c, s) show_classes show_ok Hc) as (_ & _ & No & _). apply No. cbn; tauto. }
  assert (St : forall ns b ln, parse_args (build (table_of c)) ln args = Ok ns ->
     forall k, In k (dests_of c) -> assoc k (put "displayMode" (VInt z) (set_to_obj ns b)) = Some (VBool (flag c k args))).
  { intros ns b ln P k Hk. destruct (Sw ns ln P) as (ND & Nn & Y). rewrite assoc_put_ne by (intros X; apply Na; rewrite <- X; exact Hk). rewrite set_to_obj_overlay by exact ND. unfold overlay. now rewrite (Y k Hk). }
  assert (N : forall ns, parse_args (build (table_of c)) (line_of a) args = Ok ns -> NoDup (map fst ns) /\ assoc "currentCmd" ns = None).
  { intros ns P. destruct (Sw ns _ P) as (ND & Nn & _). split; [exact ND|apply Nn; cbn; tauto]. }
  destruct Hc as [E|[E|[]]]; injection E as <- <-.
  - assert (R1 := show1 (parse_ctx "FC3_DisplayMode" vw d args) a [] n z H Hn). cbn [parse_ctx c_parser c_args] in R1. rewrite R1 in R by exact N.
    destruct (parse_args (build (table_of "FC3_DisplayMode")) (line_of a) args) as [ns|] eqn:P; [|discriminate]. injection R as <- _.
    split; [apply assoc_put_eq|]. split; [exact (St ns a _ P)|]. intros _. apply args_known in P as [r P]. exact (quiet_before args ns r _ P).
  - assert (R1 := show2 (parse_ctx "F26_DisplayMode" vw d args) a [] n z H Hn). cbn [parse_ctx c_parser c_args] in R1. rewrite R1 in R by exact N. clear R1.
    destruct (parse_args (build (table_of "F26_DisplayMode")) (line_of a) args) as [ns|] eqn:P; [|discriminate]. cbv zeta in R.
    assert (I : In "nonInteractive" (dests_of "F26_DisplayMode")). { rewrite show2_dests. cbn; tauto. }
    rewrite (St ns a _ P "nonInteractive" I) in R. remember (flag "F26_DisplayMode" "nonInteractive" args) as fl eqn:F. symmetry in F. destruct (String.eqb_spec n "cmdline") as [En|En].
    + cbn [truthy] in R. destruct fl.
      { cbv iota beta in R. apply pair_equal_spec in R as [_ R]. discriminate R. }
      injection R as <- _. split; [apply assoc_put_eq|]. split; [|auto]. exact (St ns a _ P).
    + injection R as <- _. split; [apply assoc_put_eq|]. split; [exact (St ns a _ P)|congruence].
Qed.
Lemma show_accept c s vw d args a n z ns : In (c, s) show_classes -> display n = Some z -> assoc "currentCmd" a = Some (VStr n) -> parse_known_args (build (table_of c)) None args = Ok (ns, []) ->
  (n = "cmdline" -> flag c "nonInteractive" args = false) ->
  exists a', run (parse_ctx c vw d args) (SBlock "_r" [] s) [] a = (a', Ok PSelf).
Proof.
  intros Hc Hn H K F. rewrite run_block.
  destruct (line_switches "displayMode" (c, s) show_classes args ns [] None show_ok Hc K) as (ND & Nn & Y). pose proof (known_parse _ (line_of a) _ _ K) as P.
  assert (N : forall ns', parse_args (build (table_of c)) (line_of a) args = Ok ns' -> NoDup (map fst ns') /\ assoc "currentCmd" ns' = None).
  { intros ns' P'. rewrite P in P'. injection P' as <-. split; [exact ND|apply Nn; cbn; tauto]. }
  destruct Hc as [E|[E|[]]]; injection E as <- <-.
  - assert (R1 := show1 (parse_ctx "FC3_DisplayMode" vw d args) a [] n z H Hn). cbn [parse_ctx c_parser c_args] in R1. rewrite R1, P by exact N. eauto.
  - assert (R1 := show2 (parse_ctx "F26_DisplayMode" vw d args) a [] n z H Hn). cbn [parse_ctx c_parser c_args] in R1. rewrite R1, P by exact N. cbv zeta.
    assert (I : In "nonInteractive" (dests_of "F26_DisplayMode")). { rewrite show2_dests. cbn; tauto. }
    rewrite assoc_put_ne by discriminate. rewrite set_to_obj_overlay by exact ND. unfold overlay. cbn [fst] in Y. rewrite (Y "nonInteractive" I). cbn [is_none truthy].
    destruct (String.eqb_spec n "cmdline") as [En|En]; [rewrite (F En)|]; eauto.
Qed.

(** ** Lines of a handler *)

Lemma named_class v cm dm n c : In (v, (cm, dm)) handlers -> In (n, c) cm -> (In n ending_names -> c = end_class v) /\ (In n display_names -> c = show_class v).
Proof.
  intros Hv Hc. pose proof named_handlers as T. rewrite forallb_forall in T. specialize (T _ Hv). cbn [fst snd] in T. rewrite forallb_forall in T. specialize (T _ Hc). cbn [fst snd] in T.
  apply andb_prop in T as [T1 T2]. split; intros I; apply mem_In in I; rewrite I in *; cbn [negb orb] in *; now apply String.eqb_eq.
Qed.
Lemma named_lists : forallb (fun h => (negb (existsb (fun nc => mem (fst nc) ending_names) (fst (snd h))) ||
      forallb (fun w => existsb (fun nc => String.eqb (fst nc) w) (fst (snd h))) ["reboot"; "shutdown"; "halt"]) &&
    (negb (existsb (fun nc => mem (fst nc) display_names) (fst (snd h))) ||
      forallb (fun w => existsb (fun nc => String.eqb (fst nc) w) (fst (snd h))) display_names)) handlers = true.
Proof. vm_compute. reflexivity. Qed.
Lemma named_there v cm dm n c w : In (v, (cm, dm)) handlers -> In (n, c) cm ->
  (In n ending_names -> In w ["reboot"; "shutdown"; "halt"] -> In (w, c) cm) /\ (In n display_names -> In w display_names -> In (w, c) cm).
Proof.
  intros Hv Hc. pose proof named_lists as T. rewrite forallb_forall in T. specialize (T _ Hv). cbn [fst snd] in T. apply andb_prop in T as [T1 T2]. split; intros I Iw.
  - assert (X : existsb (fun nc : string * string => mem (fst nc) ending_names) cm = true) by (apply existsb_exists; exists (n, c); split; [exact Hc|now apply mem_In]).
    rewrite X in T1. cbn [negb orb] in T1. rewrite forallb_forall in T1. specialize (T1 w Iw). apply existsb_exists in T1 as ([w' c'] & I' & E). cbn [fst] in E. apply String.eqb_eq in E. subst w'.
    rewrite (proj1 (named_class v cm dm n c Hv Hc) I). rewrite <- (proj1 (named_class v cm dm w c' Hv I')); [exact I'|]. destruct Iw as [<-|[<-|[<-|[]]]]; cbn; tauto.
  - assert (X : existsb (fun nc : string * string => mem (fst nc) display_names) cm = true) by (apply existsb_exists; exists (n, c); split; [exact Hc|now apply mem_In]).
    rewrite X in T2. cbn [negb orb] in T2. rewrite forallb_forall in T2. specialize (T2 w Iw). apply existsb_exists in T2 as ([w' c'] & I' & E). cbn [fst] in E. apply String.eqb_eq in E. subst w'.
    rewrite (proj2 (named_class v cm dm n c Hv Hc) I). rewrite <- (proj2 (named_class v cm dm w c' Hv I')); [exact I'|exact Iw].
Qed.
Lemma end_class_in v : exists s, In (end_class v, s) end_classes.
Proof. unfold end_class. destruct (Z.ltb v FC6); [|destruct (Z.ltb v F18); [|destruct (Z.ltb v F23)]]; eexists; cbn; eauto 6. Qed.
Lemma show_class_in v : exists s, In (show_class v, s) show_classes.
Proof. unfold show_class. destruct (Z.ltb v F26); eexists; cbn; eauto 6. Qed.
Lemma ending_in v n z : ending v n = Some z -> In n ending_names /\ ends (end_class v) n = Some z /\ In z [0; 1; 2]%Z /\ (z = 0%Z -> mem (end_class v) ["F18_Reboot"; "F23_Reboot"] = true).
Proof.
  intros D. unfold ends. destruct (String.eqb_spec n "reboot") as [->|E1]; [injection D as <-; cbn; repeat split; auto; discriminate|].
  destruct (String.eqb_spec n "shutdown") as [->|E2]; [injection D as <-; cbn; repeat split; auto; discriminate|].
  destruct (String.eqb_spec n "poweroff") as [->|E3]; [injection D as <-; cbn; repeat split; auto; discriminate|].
  destruct (String.eqb_spec n "halt") as [->|E4].
  - cbn in D. destruct (Z.leb_spec F18 v) as [L|L]; [|discriminate]. injection D as <-.
    assert (M : mem (end_class v) ["F18_Reboot"; "F23_Reboot"] = true).
    { unfold end_class. rewrite (proj2 (Z.ltb_ge v FC6)) by (unfold FC6, F18 in *; lia). rewrite (proj2 (Z.ltb_ge v F18)) by lia. destruct (Z.ltb v F23); reflexivity. }
    rewrite M. cbn; tauto.
  - exfalso. revert D. unfold ending. repeat (match goal with |- context [match ?x with _ => _ end] => destruct x end; try discriminate; try congruence).
Qed.
Lemma display_in n z : display n = Some z -> In n display_names /\ In z [0; 1; 2]%Z /\ (z = 0%Z <-> n = "cmdline").
Proof.
  intros D. destruct (String.eqb_spec n "cmdline") as [->|E1]; [injection D as <-; cbn; tauto|].
  destruct (String.eqb_spec n "graphical") as [->|E2]; [injection D as <-; cbn; repeat split; auto; discriminate|].
  destruct (String.eqb_spec n "text") as [->|E3]; [injection D as <-; cbn; repeat split; auto; discriminate|].
  exfalso. revert D. unfold display. repeat (match goal with |- context [match ?x with _ => _ end] => destruct x end; try discriminate; try congruence).
Qed.
Lemma has_eject v : has (end_class v) "eject" = Z.leb FC6 v.
Proof.
  unfold has, end_class. destruct (Z.ltb_spec v FC6) as [A|A]; [rewrite end0_dests; symmetry; apply Z.leb_gt; exact A|].
  rewrite (proj2 (Z.leb_le FC6 v) A). destruct (Z.ltb v F18); [rewrite end1_dests; reflexivity|]. destruct (Z.ltb v F23); [rewrite end2_dests|rewrite end3_dests]; reflexivity.
Qed.
Lemma has_kexec v : has (end_class v) "kexec" = Z.leb F23 v.
Proof.
  unfold has, end_class. destruct (Z.ltb_spec v FC6) as [A|A]; [rewrite end0_dests; symmetry; apply Z.leb_gt; unfold FC6, F23 in *; lia|].
  destruct (Z.ltb_spec v F18) as [B|B]; [rewrite end1_dests; symmetry; apply Z.leb_gt; unfold F18, F23 in *; lia|].
  destruct (Z.ltb_spec v F23) as [D|D]; [rewrite end2_dests; symmetry; apply Z.leb_gt; exact D|]. rewrite end3_dests. symmetry. apply Z.leb_le. exact D.
Qed.
Lemma has_quiet v : has (show_class v) "nonInteractive" = Z.leb F26 v.
Proof.
  unfold has, show_class. destruct (Z.ltb_spec v F26) as [A|A]; [rewrite show1_dests; symmetry; apply Z.leb_gt; exact A|]. rewrite show2_dests. symmetry. apply Z.leb_le. exact A.
Qed.
Lemma stamp_name n line ln a : assoc "currentCmd" (stamp n line ln a) = Some (VStr n).
Proof. unfold stamp. rewrite 3!assoc_put_ne by discriminate. apply assoc_put_eq. Qed.
Lemma block_accepted rest v cm dm h n c s line args ln h1 : In (v, (cm, dm)) handlers -> In (n, c) cm -> used rest cm dm h -> parse_code c = Some (SBlock "_r" [] s) -> own_parse c = true ->
  handle_command h line (n :: args) ln = (h1, None) ->
  exists q vw a' d' p, served h n = Some q /\ run (parse_ctx c vw (o_data q) args) (SBlock "_r" [] s) [] (stamp n line ln (o_attrs q)) = (a', Ok p) /\
    forall m, In (m, c) cm -> served h1 m = Some (mkObj (class_model (cmd_class rest) c) a' d').
Proof.
  intros Hv Hc U Pc O E.
  destruct (line_cases rest v cm dm Hv h n c line args ln U Hc) as (q & vw & a' & d' & Sq & Cq & Vd & P & J). rewrite E in J, P. cbn [fst snd] in J, P.
  destruct (cl_parse (class_model (cmd_class rest) c) vw (stamp n line ln (o_attrs q)) (o_data q) args) as [[a1 d1] [y|e]] eqn:Q; [|destruct P as (_ & _ & P); discriminate P].
  rewrite (class_parse rest c _ Pc O) in Q. unfold cmd_parse in Q.
  destruct (run (parse_ctx c vw (o_data q) args) (SBlock "_r" [] s) [] (stamp n line ln (o_attrs q))) as [a2 [p2|e2]] eqn:R; [|discriminate Q].
  apply pair_equal_spec in Q as [Q _]. apply pair_equal_spec in Q as [Q _]. destruct P as (Ea & Ed & _). subst a1 a'.
  exists q, vw, a2, d', p2. split; [exact Sq|]. split; [exact R|]. intros m Hm. rewrite (J m c Hm), eqb_refl_s. reflexivity.
Qed.
Lemma block_taken rest v cm dm h n c s line args ln : In (v, (cm, dm)) handlers -> In (n, c) cm -> used rest cm dm h -> parse_code c = Some (SBlock "_r" [] s) -> own_parse c = true ->
  (forall vw d a, assoc "currentCmd" a = Some (VStr n) -> exists a', run (parse_ctx c vw d args) (SBlock "_r" [] s) [] a = (a', Ok PSelf)) ->
  snd (handle_command h line (n :: args) ln) = None.
Proof.
  intros Hv Hc U Pc O T.
  destruct (line_cases rest v cm dm Hv h n c line args ln U Hc) as (q & vw & a' & d' & Sq & Cq & Vd & P & J). 
  rewrite (class_parse rest c _ Pc O) in P. unfold cmd_parse in P.
  destruct (T vw (o_data q) (stamp n line ln (o_attrs q))) as (a2 & R). { apply stamp_name. }
  rewrite R in P. cbn [bind] in P. exact (proj2 (proj2 P)).
Qed.

Lemma named_code c s : In (c, s) (end_classes ++ show_classes) -> parse_code c = Some (SBlock "_r" [] s).
Proof. intros Is. pose proof named_codes as Pc. rewrite Forall_forall in Pc. exact (Pc _ Is). Qed.
Lemma text_is_str c t a s : method_of c "__str__" [] = Some t -> text_is c a s = true -> cmd_str c t a [] = Ok s.
Proof. intros M T. unfold text_is in T. rewrite M in T. destruct (cmd_str c t a []); [|discriminate]. apply String.eqb_eq in T. now subst. Qed.
Lemma has_in c k : has c k = true <-> In k (dests_of c).
Proof. unfold has. split; intros H; now apply mem_In. Qed.
Lemma made_action c main z l : assoc main (made main z l c) = Some (VInt z).
Proof. unfold made. cbn [assoc]. now rewrite eqb_refl_s. Qed.
Lemma end_case v z j x : In z [0; 1; 2]%Z -> (z = 0%Z -> mem (end_class v) ["F18_Reboot"; "F23_Reboot"] = true) ->
  let j' := j && has (end_class v) "eject" in let x' := x && has (end_class v) "kexec" in
  text_is (end_class v) (made "action" z [("eject", j); ("kexec", x)] (end_class v)) (end_text z j' x') = true /\ words_read (ending_words z j' x') = true /\
  unbroken (line_text (ending_words z j' x')) = true /\ args_read (end_class v) (tl (ending_words z j' x')) [("eject", j'); ("kexec", x')] = true.
Proof.
  intros Hz H0 j' x'. destruct (end_class_in v) as [s Is]. pose proof end_texts as T. rewrite forallb_forall in T. specialize (T _ Is). cbn [fst] in T.
  rewrite forallb_forall in T. specialize (T z Hz). rewrite forallb_forall in T. specialize (T j ltac:(destruct j; cbn; tauto)). rewrite forallb_forall in T. specialize (T x ltac:(destruct x; cbn; tauto)).
  apply orb_prop in T as [T|T]. { apply andb_prop in T as [T1 T2]. apply Z.eqb_eq in T1. rewrite (H0 T1) in T2. discriminate T2. }
  fold j' x' in T. apply andb_prop in T as [T T4]. apply andb_prop in T as [T T3]. apply andb_prop in T as [T1 T2]. unfold end_text. auto.
Qed.
Lemma show_case v z q : In z [0; 1; 2]%Z ->
  let q' := q && has (show_class v) "nonInteractive" in
  text_is (show_class v) (made "displayMode" z [("nonInteractive", q)] (show_class v)) (show_text z q') = true /\ words_read (display_words z q') = true /\
  unbroken (line_text (display_words z q')) = true /\ args_read (show_class v) (tl (display_words z q')) [("nonInteractive", q')] = true.
Proof.
  intros Hz q'. destruct (show_class_in v) as [s Is]. pose proof show_texts as T. rewrite forallb_forall in T. specialize (T _ Is). cbn [fst] in T.
  rewrite forallb_forall in T. specialize (T z Hz). rewrite forallb_forall in T. specialize (T q ltac:(destruct q; cbn; tauto)).
  fold q' in T. apply andb_prop in T as [T T4]. apply andb_prop in T as [T T3]. apply andb_prop in T as [T1 T2]. unfold show_text. auto.
Qed.
Lemma named_text rest main l c s a d z (ks : list (string * bool)) txt : forallb (class_ok main) l = true -> In (c, s) l -> In (c, s) (end_classes ++ show_classes) ->
  assoc main a = Some (VInt z) -> (forall k, In k (dests_of c) -> assoc k a = assoc k (made main z ks c)) -> ~ In main (dests_of c) ->
  text_is c (made main z ks c) txt = true -> cl_str (class_model (cmd_class rest) c) a d = txt.
Proof.
  intros Ok I I' Am Ks Nm T. pose proof named_codes as Pc. rewrite Forall_forall in Pc. specialize (Pc _ I'). cbn [fst snd] in Pc.
  destruct (class_parts main (c, s) l Ok I) as (_ & _ & _ & _ & Bs & t & Mt & Pt). cbn [fst] in *.
  rewrite (class_str rest c _ t a d Pc Bs Mt). rewrite (plain_str c t _ a (made main z ks c) d [] Pt).
  - now rewrite (text_is_str c t _ txt Mt T).
  - intros k [<-|Hk]; [rewrite made_action; exact Am|exact (Ks k Hk)].
Qed.
Lemma end_made c z args k s : In (c, s) end_classes -> In k (dests_of c) -> assoc k (made "action" z [("eject", flag c "eject" args); ("kexec", flag c "kexec" args)] c) = Some (VBool (flag c k args)).
Proof.
  intros I Hk. unfold made, has. destruct I as [E|[E|[E|[E|[]]]]]; injection E as <- <-; rewrite ?end0_dests, ?end1_dests, ?end2_dests, ?end3_dests in *.
  - destruct Hk.
  - destruct Hk as [<-|[]]. reflexivity.
  - destruct Hk as [<-|[]]. reflexivity.
  - destruct Hk as [<-|[<-|[]]]; reflexivity.
Qed.
Lemma show_made c z args k s : In (c, s) show_classes -> In k (dests_of c) -> assoc k (made "displayMode" z [("nonInteractive", flag c "nonInteractive" args)] c) = Some (VBool (flag c k args)).
Proof.
  intros I Hk. unfold made, has. destruct I as [E|[E|[]]]; injection E as <- <-; rewrite ?show1_dests, ?show2_dests in *.
  - destruct Hk.
  - destruct Hk as [<-|[]]. reflexivity.
Qed.

(** ** The theorems *)

(** After an accepted reboot, shutdown, poweroff or, from F18 on, halt line, whatever came
    before it, all of these names stand for the same object, which has what the last line
    says and writes it. *)
Theorem C57_ending : forall rest v cm dm n c z h line args ln h1,
  In (v, (cm, dm)) handlers -> In (n, c) cm -> ending v n = Some z -> used rest cm dm h ->
  handle_command h line (n :: args) ln = (h1, None) ->
  let eject := switch v FC6 c "eject" args in
  let kexec := switch v F23 c "kexec" args in
  exists o, (forall m c', In m ending_names -> In (m, c') cm -> served h1 m = Some o) /\
    assoc "action" (o_attrs o) = Some (VInt z) /\
    ((FC6 <= v)%Z -> assoc "eject" (o_attrs o) = Some (VBool eject)) /\
    ((F23 <= v)%Z -> assoc "kexec" (o_attrs o) = Some (VBool kexec)) /\
    o_str o = end_text z eject kexec.
Proof.
  intros rest v cm dm n c z h line args ln h1 Hv Hc Hz U E eject kexec.
  destruct (ending_in v n z Hz) as (Hn & He & Iz & Z0). pose proof (proj1 (named_class v cm dm n c Hv Hc) Hn) as Cc. destruct (end_class_in v) as [s Is]. rewrite <- Cc in Is, He.
  assert (I' : In (c, s) (end_classes ++ show_classes)) by (apply in_or_app; now left).
  destruct (class_parts "action" (c, s) end_classes end_ok Is) as (O & _ & No & _). cbn [fst] in O, No.
  destruct (block_accepted rest v cm dm h n c s line args ln h1 Hv Hc U (named_code c s I') O E) as (q & vw & a' & d' & p & Sq & R & J).
  destruct (end_effect c s vw (o_data q) args _ n a' p Is Hn (stamp_name _ _ _ _) R) as [A K]. rewrite He in A.
  exists (mkObj (class_model (cmd_class rest) c) a' d'). cbn [o_attrs]. split; [|split; [exact A|split; [|split]]].
  - intros m c' Hm Im. apply J. pose proof (proj1 (named_class v cm dm m c' Hv Im) Hm) as C'. rewrite Cc, <- C'. exact Im.
  - intros V. unfold eject, switch. rewrite (proj2 (Z.leb_le _ _) V). apply K. apply has_in. rewrite Cc, has_eject. now apply Z.leb_le.
  - intros V. unfold kexec, switch. rewrite (proj2 (Z.leb_le _ _) V). apply K. apply has_in. rewrite Cc, has_kexec. now apply Z.leb_le.
  - unfold o_str. cbn [o_class o_attrs o_data]. apply (named_text rest "action" end_classes c s a' d' z [("eject", flag c "eject" args); ("kexec", flag c "kexec" args)]).
    + exact end_ok.
    + exact Is.
    + exact I'.
    + exact A.
    + intros k Hk. rewrite (end_made c z args k s Is Hk). exact (K k Hk).
    + apply No. cbn; tauto.
    + destruct (end_case v z (flag c "eject" args) (flag c "kexec" args) Iz Z0) as (T & _). rewrite has_eject, has_kexec in T. rewrite <- Cc in T.
      unfold eject, kexec, switch. destruct (Z.leb FC6 v), (Z.leb F23 v); rewrite ?andb_true_r, ?andb_false_r in T; exact T.
Qed.
Print Assumptions C57_ending.

(** That text, read again in the same version, whatever came before, says the same. *)
Theorem C57_ending_round : forall rest v cm dm n c z eject kexec h line ln,
  In (v, (cm, dm)) handlers -> In (n, c) cm -> ending v n = Some z -> used rest cm dm h ->
  (eject = true -> (FC6 <= v)%Z) -> (kexec = true -> (F23 <= v)%Z) ->
  exists w args o, unbroken (line_text (ending_words z eject kexec)) = true /\
    shlex_split true (line_text (ending_words z eject kexec)) = Ok (w :: args) /\
    snd (handle_command h line (w :: args) ln) = None /\
    served (fst (handle_command h line (w :: args) ln)) n = Some o /\
    assoc "action" (o_attrs o) = Some (VInt z) /\
    ((FC6 <= v)%Z -> assoc "eject" (o_attrs o) = Some (VBool eject)) /\
    ((F23 <= v)%Z -> assoc "kexec" (o_attrs o) = Some (VBool kexec)) /\
    o_str o = end_text z eject kexec.
Proof.
  intros rest v cm dm n c z j x h line ln Hv Hc Hz U Vj Vx.
  destruct (ending_in v n z Hz) as (Hn & He & Iz & Z0). pose proof (proj1 (named_class v cm dm n c Hv Hc) Hn) as Cc. destruct (end_class_in v) as [s Is]. rewrite <- Cc in Is, He.
  assert (I' : In (c, s) (end_classes ++ show_classes)) by (apply in_or_app; now left).
  destruct (class_parts "action" (c, s) end_classes end_ok Is) as (O & _ & No & _). cbn [fst] in O, No.
  destruct (end_case v z j x Iz Z0) as (_ & W & Ub & Ar). rewrite has_eject, has_kexec in W, Ub, Ar. rewrite <- Cc in *.
  assert (Ej : j && Z.leb FC6 v = j) by (destruct j; [rewrite (proj2 (Z.leb_le _ _) (Vj eq_refl))|]; reflexivity).
  assert (Ex : x && Z.leb F23 v = x) by (destruct x; [rewrite (proj2 (Z.leb_le _ _) (Vx eq_refl))|]; reflexivity).
  rewrite Ej, Ex in W, Ub, Ar. unfold words_read in W. destruct (shlex_split true (line_text (ending_words z j x))) as [ws|] eqn:Sh; [|discriminate W]. destruct (list_eq_dec string_dec ws (ending_words z j x)) as [Ew|]; [|discriminate W]. subst ws.
  set (w := if Z.eqb z 1 then "reboot" else if Z.eqb z 2 then "shutdown" else "halt").
  set (args := tl (ending_words z j x)) in *. assert (Ww : ending_words z j x = w :: args) by reflexivity.
  assert (Hw : ending v w = Some z).
  { destruct Iz as [<-|[<-|[<-|[]]]]; cbn; try reflexivity. specialize (Z0 eq_refl). destruct (Z.leb_spec F18 v) as [|L]; [reflexivity|]. exfalso. rewrite Cc in Z0. unfold end_class in Z0.
    rewrite (proj2 (Z.ltb_lt v F18) L) in Z0. destruct (Z.ltb v FC6); discriminate Z0. }
  assert (Iw : In w ["reboot"; "shutdown"; "halt"]) by (unfold w; destruct (Z.eqb z 1); [|destruct (Z.eqb z 2)]; cbn; tauto).
  pose proof (proj1 (named_there v cm dm n c w Hv Hc) Hn Iw) as Hcw.
  unfold args_read in Ar. destruct (parse_known_args (build (table_of c)) None args) as [[ns [|r0 r]]|] eqn:K; try discriminate Ar.
  cbn [forallb fst snd] in Ar. apply andb_prop in Ar as [A1 A2]. apply andb_prop in A2 as [A2 _]. apply Bool.eqb_prop in A1, A2.
  assert (N : snd (handle_command h line (w :: args) ln) = None).
  { apply (block_taken rest v cm dm h w c s line args ln Hv Hcw U (named_code c s I') O). intros vw d a Ha. exact (end_accept c s vw d args a w ns Is Ha K). }
  destruct (handle_command h line (w :: args) ln) as [h1 r1] eqn:E. cbn [fst snd] in *. subst r1.
  destruct (C57_ending rest v cm dm w c z h line args ln h1 Hv Hcw Hw U E) as (o & So & Oa & Oj & Ox & Ot).
  assert (S1 : switch v FC6 c "eject" args = j). { unfold switch. rewrite A1. destruct (Z.leb FC6 v); [reflexivity|]. rewrite andb_false_r in Ej. exact Ej. }
  assert (S2 : switch v F23 c "kexec" args = x). { unfold switch. rewrite A2. destruct (Z.leb F23 v); [reflexivity|]. rewrite andb_false_r in Ex. exact Ex. }
  rewrite S1 in Oj, Ot. rewrite S2 in Ox, Ot.
  exists w, args, o. rewrite E. cbn [fst snd]. rewrite <- Ww. split; [exact Ub|]. split; [reflexivity|]. split; [reflexivity|]. split; [exact (So n c Hn Hc)|]. auto.
Qed.
Print Assumptions C57_ending_round.

(** The same for cmdline, graphical and text; cmdline is never taken with --non-interactive. *)
Theorem C57_display : forall rest v cm dm n c z h line args ln h1,
  In (v, (cm, dm)) handlers -> In (n, c) cm -> display n = Some z -> used rest cm dm h ->
  handle_command h line (n :: args) ln = (h1, None) ->
  let quiet := switch v F26 c "nonInteractive" args in
  (n = "cmdline" -> quiet = false) /\
  exists o, (forall m c', In m display_names -> In (m, c') cm -> served h1 m = Some o) /\
    assoc "displayMode" (o_attrs o) = Some (VInt z) /\
    ((F26 <= v)%Z -> assoc "nonInteractive" (o_attrs o) = Some (VBool quiet)) /\
    o_str o = show_text z quiet.
Proof.
  intros rest v cm dm n c z h line args ln h1 Hv Hc Hz U E quiet.
  destruct (display_in n z Hz) as (Hn & Iz & Z0). pose proof (proj2 (named_class v cm dm n c Hv Hc) Hn) as Cc. destruct (show_class_in v) as [s Is]. rewrite <- Cc in Is.
  assert (I' : In (c, s) (end_classes ++ show_classes)) by (apply in_or_app; now right).
  destruct (class_parts "displayMode" (c, s) show_classes show_ok Is) as (O & _ & No & _). cbn [fst] in O, No.
  destruct (block_accepted rest v cm dm h n c s line args ln h1 Hv Hc U (named_code c s I') O E) as (q & vw & a' & d' & p & Sq & R & J).
  destruct (show_effect c s vw (o_data q) args _ n z a' p Is Hz (stamp_name _ _ _ _) R) as (A & K & Q0).
  split. { intros En. unfold quiet, switch. rewrite (Q0 En). now destruct (Z.leb F26 v). }
  exists (mkObj (class_model (cmd_class rest) c) a' d'). cbn [o_attrs]. split; [|split; [exact A|split]].
  - intros m c' Hm Im. apply J. pose proof (proj2 (named_class v cm dm m c' Hv Im) Hm) as C'. rewrite Cc, <- C'. exact Im.
  - intros V. unfold quiet, switch. rewrite (proj2 (Z.leb_le _ _) V). apply K. apply has_in. rewrite Cc, has_quiet. now apply Z.leb_le.
  - unfold o_str. cbn [o_class o_attrs o_data]. apply (named_text rest "displayMode" show_classes c s a' d' z [("nonInteractive", flag c "nonInteractive" args)]).
    + exact show_ok.
    + exact Is.
    + exact I'.
    + exact A.
    + intros k Hk. rewrite (show_made c z args k s Is Hk). exact (K k Hk).
    + apply No. cbn; tauto.
    + destruct (show_case v z (flag c "nonInteractive" args) Iz) as (T & _). rewrite has_quiet in T. rewrite <- Cc in T.
      unfold quiet, switch. destruct (Z.leb F26 v); rewrite ?andb_true_r, ?andb_false_r in T; exact T.
Qed.
Print Assumptions C57_display.

Theorem C57_display_round : forall rest v cm dm n c z quiet h line ln,
  In (v, (cm, dm)) handlers -> In (n, c) cm -> display n = Some z -> used rest cm dm h ->
  (quiet = true -> (F26 <= v)%Z /\ n <> "cmdline") ->
  exists w args o, unbroken (line_text (display_words z quiet)) = true /\
    shlex_split true (line_text (display_words z quiet)) = Ok (w :: args) /\
    snd (handle_command h line (w :: args) ln) = None /\
    served (fst (handle_command h line (w :: args) ln)) n = Some o /\
    assoc "displayMode" (o_attrs o) = Some (VInt z) /\
    ((F26 <= v)%Z -> assoc "nonInteractive" (o_attrs o) = Some (VBool quiet)) /\
    o_str o = show_text z quiet.
Proof.
  intros rest v cm dm n c z j h line ln Hv Hc Hz U Vj.
  destruct (display_in n z Hz) as (Hn & Iz & Z0). pose proof (proj2 (named_class v cm dm n c Hv Hc) Hn) as Cc. destruct (show_class_in v) as [s Is]. rewrite <- Cc in Is.
  assert (I' : In (c, s) (end_classes ++ show_classes)) by (apply in_or_app; now right).
  destruct (class_parts "displayMode" (c, s) show_classes show_ok Is) as (O & _ & No & _). cbn [fst] in O, No.
  destruct (show_case v z j Iz) as (_ & W & Ub & Ar). rewrite has_quiet in W, Ub, Ar. rewrite <- Cc in *.
  assert (Ej : j && Z.leb F26 v = j) by (destruct j; [rewrite (proj2 (Z.leb_le _ _) (proj1 (Vj eq_refl)))|]; reflexivity).
  rewrite Ej in W, Ub, Ar. unfold words_read in W. destruct (shlex_split true (line_text (display_words z j))) as [ws|] eqn:Sh; [|discriminate W]. destruct (list_eq_dec string_dec ws (display_words z j)) as [Ew|]; [|discriminate W]. subst ws.
  set (w := if Z.eqb z 1 then "graphical" else if Z.eqb z 2 then "text" else "cmdline").
  set (args := tl (display_words z j)) in *. assert (Ww : display_words z j = w :: args) by reflexivity.
  assert (Hw : display w = Some z) by (destruct Iz as [<-|[<-|[<-|[]]]]; reflexivity).
  destruct (display_in w z Hw) as (Iw & _ & W0).
  pose proof (proj2 (named_there v cm dm n c w Hv Hc) Hn Iw) as Hcw.
  unfold args_read in Ar. destruct (parse_known_args (build (table_of c)) None args) as [[ns [|r0 r]]|] eqn:K; try discriminate Ar.
  cbn [forallb fst snd] in Ar. apply andb_prop in Ar as [A1 _]. apply Bool.eqb_prop in A1.
  assert (N : snd (handle_command h line (w :: args) ln) = None).
  { apply (block_taken rest v cm dm h w c s line args ln Hv Hcw U (named_code c s I') O). intros vw d a Ha. apply (show_accept c s vw d args a w z ns Is Hw Ha K).
    intros Ew. rewrite A1. destruct j; [|reflexivity]. exfalso. apply (proj2 (Vj eq_refl)). apply Z0. now apply W0. }
  destruct (handle_command h line (w :: args) ln) as [h1 r1] eqn:E. cbn [fst snd] in *. subst r1.
  destruct (C57_display rest v cm dm w c z h line args ln h1 Hv Hcw Hw U E) as (_ & o & So & Oa & Oj & Ot).
  assert (S1 : switch v F26 c "nonInteractive" args = j). { unfold switch. rewrite A1. destruct (Z.leb F26 v); [reflexivity|]. rewrite andb_false_r in Ej. exact Ej. }
  rewrite S1 in Oj, Ot.
  exists w, args, o. rewrite E. cbn [fst snd]. rewrite <- Ww. split; [exact Ub|]. split; [reflexivity|]. split; [reflexivity|]. split; [exact (So n c Hn Hc)|]. auto.
Qed.
Print Assumptions C57_display_round.

(** Before F18 a halt line is taken and changes nothing that is written: after "reboot" and
    then "halt" the text still says reboot. *)
Definition texts_after (v : Z) (l : list (list string)) (n : string) : option (list bool * option string) :=
  match find (fun h => Z.eqb (fst h) v) handlers with
  | Some (_, (cm, dm)) =>
      let r := fold_left (fun hb ws => let '(h, bs) := hb in let '(h', e) := handle_command h "" ws 1 in (h', app bs [match e with None => true | Some _ => false end])) l (start demo_rest cm dm, []) in
      Some (snd r, option_map o_str (served (fst r) n))
  | None => None
  end.
Local Transparent comes_from method_of table_of removed_of data_str new_attrs init_of parse_flow marked_b strict reads names_ok used_classes parse_code build own_parse inits check_table tabulate flag gives.
Theorem C57_halt_refuted :
  texts_after F17 [["reboot"]; ["halt"]] "halt" = Some ([true; true], Some (end_text 1 false false)) /\
  texts_after F18 [["reboot"]; ["halt"]] "halt" = Some ([true; true], Some (end_text 0 false false)).
Proof. split; vm_compute; reflexivity. Qed.
Print Assumptions C57_halt_refuted.
(** A refused line has its effect all the same: after "cmdline --non-interactive" the text
    is the line that was refused, and reading it is an error again. *)
Theorem C57_refused_refuted :
  texts_after F34 [["text"]; ["cmdline"; "--non-interactive"]] "text" = Some ([true; false], Some (show_text 0 true)) /\
  texts_after F34 [["cmdline"; "--non-interactive"]] "cmdline" = Some ([false], Some (show_text 0 true)).
Proof. split; vm_compute; reflexivity. Qed.
Print Assumptions C57_refused_refuted.

Example C57_examples :
  texts_after F34 [["halt"; "--eject"]; ["poweroff"; "--kexec"]] "reboot" = Some ([true; true], Some ("# Shutdown after installation" ++ nl ++ "shutdown --kexec" ++ nl)%string) /\
  texts_after F34 [["text"; "--non-interactive"]; ["graphical"]] "cmdline" = Some ([true; true], Some ("# Use graphical install" ++ nl ++ "graphical" ++ nl)%string) /\
  texts_after RHEL3 [["shutdown"; "--anything"]] "reboot" = Some ([true], Some (end_text 2 false false)) /\
  texts_after F34 [["reboot"; "--eject"; "--kexec"]] "halt" = Some ([true], Some (end_text 1 true true)).
Proof. repeat split; vm_compute; reflexivity. Qed.
