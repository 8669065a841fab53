(** * C55: the multipath command *)

From Verif Require Import PyStrFacts ArgParseFacts ArgSpec ArgLineFacts ArgLabelFacts ArgDeclFacts PropsArgs HandlerFacts ClassModel PropsHandler PropsClass HandlerSpec ParserSpec.
From Verif Require Import PyClass CmdFacts CmdLines Multipath.
From Verif Require PropsPlace.
From Coq Require Import Lia.
From Verif Require Import Value.
Local Open Scope string_scope.
Local Open Scope list_scope.
Local Arguments Ascii.eqb : simpl never.
Local Arguments String.eqb : simpl never.

(** ** Specification *)

(** An object of the command's list: a multipath device with its paths (device and rule), or a path that was put there by itself. *)
Inductive mpath := Group (n : string) (ps : list (string * string)) | Stray (dev rule : string).
Definition shows (d : data) (m : mpath) : Prop :=
  match m with
  | Group n ps => d_class d = "FC6_MultiPathData" /\ assoc "name" (d_attrs d) = Some (VStr n) /\ assoc "paths" (d_attrs d) = Some (VPairs ps)
  | Stray dev rule => d_class d = "FC6_MpPathData" /\ assoc "paths" (d_attrs d) = None /\
                      assoc "device" (d_attrs d) = Some (VStr dev) /\ assoc "rule" (d_attrs d) = Some (VStr rule)
  end.
(** The devices of all paths. *)
Definition devices (ms : list mpath) : list string := flat_map (fun m => match m with Group _ ps => map fst ps | Stray _ _ => [] end) ms.
Definition groups_only (ms : list mpath) : Prop := forall dev rule, ~ In (Stray dev rule) ms.
(** The words of a line give a name, a device and a rule. *)
Definition says (args : list string) (n dev rule : string) : Prop :=
  forall ln, exists ns, parse_args (build mp_table) ln args = Ok ns /\ get "name" ns = VStr n /\ get "device" ns = VStr dev /\ get "rule" ns = VStr rule.
(** The part of a name after its last slash. *)
Definition ends_in (n b : string) : Prop := has_char "/" b = false /\ (n = b \/ exists d, n = (d ++ "/" ++ b)%string).
(** No device but possibly the first has the name [b]. *)
Definition unnamed (b : string) (ms : list mpath) : Prop := forall ms1 ps ms2, ms = ms1 ++ Group b ps :: ms2 -> ms1 = [].
(** The line for a path, as it is written. *)
Definition path_line (n dev rule : string) : string := ("multipath --name=" ++ n ++ " --device=" ++ dev ++ " --rule=""" ++ rule ++ """" ++ nl)%string.
(** The list of multipath devices of a handler. *)
Definition multipaths (h : handler) (ms : list mpath) : Prop := exists o, served h "multipath" = Some o /\ Forall2 shows (o_data o) ms.
(** What stands in the file for the command. *)
Definition multipath_text (h : handler) (t : string) : Prop := exists o, served h "multipath" = Some o /\ o_str o = t.

(** ** The class *)

Lemma mp_based : based (comes_from "FC6_MultiPath" "parse") = false /\ based (comes_from "FC6_MultiPath" "__str__") = false /\
  based (comes_from "FC6_MultiPath" "__init__") = false /\ based (comes_from "FC6_MultiPath" "dataList") = false /\ parse_code "FC6_MultiPath" = None.
Proof. vm_compute. auto. Qed.
Lemma mp_data_class : forallb (fun h => forallb (fun nc => if String.eqb (snd nc) "FC6_MultiPath" then match assoc "MultiPathData" (snd (snd h)) with Some k => String.eqb k "FC6_MultiPathData" | None => false end else true) (fst (snd h))) handlers = true.
Proof. vm_compute. reflexivity. Qed.

(** ** The list *)

Lemma last_nonnil {A} (x y : A) l : l <> [] -> last (x :: l) y = last l y.
Proof. destruct l; [congruence|reflexivity]. Qed.
Lemma last_part_of n b : ends_in n b -> last_part n = b.
Proof.
  intros [H [->|[d ->]]]; unfold last_part.
  - now rewrite split_char_none.
  - induction d as [|x d IH].
    + cbn [append split_char]. rewrite eqb_refl_a. rewrite split_char_none by exact H. reflexivity.
    + cbn [append split_char] in *. destruct (Ascii.eqb "/" x).
      * rewrite last_nonnil; [exact IH|apply split_char_nonnil].
      * remember (split_char "/" (d ++ String "/" b)) as l eqn:El. destruct l as [|h t]; [exfalso; symmetry in El; exact (split_char_nonnil _ _ El)|].
        destruct t as [|h' t]; [|exact IH]. exfalso.
        assert (Jl : join "/" (split_char "/" (d ++ String "/" b)) = (d ++ String "/" b)%string) by apply join_split_char.
        rewrite <- El in Jl. cbn [join] in Jl. pose proof (split_char_no "/" (d ++ String "/" b)) as No. rewrite <- El in No. inversion No as [|? ? Nh _].
        rewrite Jl, has_char_app in Nh. apply orb_false_iff in Nh as [_ Nh]. cbn in Nh. discriminate.
Qed.
Lemma last_part_ends n : ends_in n (last_part n).
Proof.
  unfold last_part. split.
  - pose proof (split_char_no "/" n) as F. pose proof (split_char_nonnil "/" n) as N. induction F as [|x l Hx F IH]; [contradiction|].
    destruct l as [|y l]; [exact Hx|]. rewrite last_nonnil by discriminate. apply IH. discriminate.
  - pose proof (join_split_char "/" n) as J. pose proof (split_char_nonnil "/" n) as N. remember (split_char "/" n) as l eqn:El. clear El. subst n. induction l as [|x l IH]; [contradiction|].
    destruct l as [|y l]; [left; reflexivity|]. rewrite last_nonnil by discriminate. right. destruct IH as [E|[d E]]; [discriminate| |].
    + exists x. rewrite <- E. reflexivity.
    + exists (x ++ "/" ++ d)%string. change (join "/" (x :: y :: l)) with (x ++ "/" ++ join "/" (y :: l))%string. rewrite E, !app_assoc_s. reflexivity.
Qed.

Lemma devices_app a b : devices (a ++ b) = devices a ++ devices b.
Proof. apply flat_map_app. Qed.
(** The search of parse. *)
Lemma scan_shows ln dev mp l ms : Forall2 shows l ms -> forall x parent,
  (groups_only ms -> ~ In dev (devices ms) ->
    (mp_scan ln dev mp l x parent = Ok parent /\ (forall ps, ~ In (Group mp ps) ms)) \/
    exists ms1 ps ms2, ms = ms1 ++ Group mp ps :: ms2 /\ (forall ps, ~ In (Group mp ps) ms2) /\ mp_scan ln dev mp l x parent = Ok (Some (x + List.length ms1))) /\
  (groups_only ms -> In dev (devices ms) -> exists m, mp_scan ln dev mp l x parent = Err (KSParseError ln m)) /\
  (~ groups_only ms -> exists e, mp_scan ln dev mp l x parent = Err e) /\
  (forall r, mp_scan ln dev mp l x parent = Ok r -> groups_only ms /\ ~ In dev (devices ms)).
Proof.
  induction 1 as [|d m l ms Sd F IH]; intros x parent; cbn [mp_scan].
  - repeat split.
    + intros _ _. left. split; [reflexivity|]. intros ps [].
    + intros _ [].
    + intros N. exfalso. apply N. intros a b [].
    + intros a b [].
    + intros [].
  - destruct m as [n ps|dv rl].
    + destruct Sd as (_ & En & Ep). rewrite En, Ep.
      assert (Gx : groups_only (Group n ps :: ms) <-> groups_only ms).
      { unfold groups_only. cbn [In]. split; intros G a b; [intros I; apply (G a b); auto|intros [E|I]; [discriminate|exact (G a b I)]]. }
      destruct (mem dev (map fst ps)) eqn:M.
      * apply mem_In in M. repeat split.
        -- intros _ N. exfalso. apply N. cbn [devices flat_map]. apply in_or_app. auto.
        -- intros _ _. eexists. reflexivity.
        -- intros _. eexists. reflexivity.
        -- discriminate.
        -- discriminate.
      * assert (M' : ~ In dev (map fst ps)) by (intros I; apply mem_In in I; congruence).
        assert (Dx : In dev (devices (Group n ps :: ms)) <-> In dev (devices ms)).
        { cbn [devices flat_map]. rewrite in_app_iff. unfold devices. tauto. }
        assert (Dx0 : groups_only ms /\ ~ In dev (devices ms) -> groups_only (Group n ps :: ms) /\ ~ In dev (devices (Group n ps :: ms))) by (rewrite Gx, Dx; auto).
        specialize (IH (S x) (if String.eqb n mp then Some x else parent)). destruct IH as (I1 & I2 & I3 & I4).
        split; [|split; [rewrite Gx, Dx; exact I2|split; [rewrite Gx; exact I3|intros r0 E0; apply Dx0, (I4 r0), E0]]].
        rewrite Gx, Dx. intros G N. destruct (I1 G N) as [[E No]|(ms1 & qs & ms2 & -> & No & E)].
        -- rewrite E. destruct (String.eqb_spec n mp) as [->|Ne].
           ++ right. exists [], ps, ms. split; [reflexivity|]. split; [exact No|]. cbn. f_equal. f_equal. lia.
           ++ left. split; [reflexivity|]. intros qs [Q|Q]; [congruence|]. exact (No qs Q).
        -- right. exists (Group n ps :: ms1), qs, ms2. split; [reflexivity|]. split; [exact No|]. rewrite E. cbn. f_equal. f_equal. lia.
    + destruct Sd as (_ & Ep & _). rewrite Ep. repeat split.
      * intros G. exfalso. apply (G dv rl). left. reflexivity.
      * intros G. exfalso. apply (G dv rl). left. reflexivity.
      * intros _. eexists. reflexivity.
      * discriminate.
      * discriminate.
Qed.
Lemma add_shows p ms1 : forall l n ps ms2, Forall2 shows l (ms1 ++ Group n ps :: ms2) ->
  Forall2 shows (mp_add (List.length ms1) p l) (ms1 ++ Group n (ps ++ [p]) :: ms2).
Proof.
  induction ms1 as [|m ms1 IH]; intros l n ps ms2 F; inversion F as [|d ? r ? Sd F']; subst; cbn [app List.length mp_add].
  - constructor; [|exact F']. destruct Sd as (Ec & En & Ep). rewrite Ep. split; [exact Ec|]. cbn [d_attrs]. rewrite assoc_put_ne, assoc_put_eq by discriminate. auto.
  - constructor; [exact Sd|]. now apply IH.
Qed.
Lemma data_text l ms : Forall2 shows l ms -> map mp_data_str l = map (fun m => match m with
  | Group n ps => concat_all (map (fun p => path_line n (fst p) (snd p)) ps)
  | Stray dev rule => (" --device=" ++ dev ++ " --rule=""" ++ rule ++ """")%string
  end) ms.
Proof.
  induction 1 as [|d m l ms Sd F IH]; [reflexivity|]. cbn [map]. rewrite IH. f_equal. unfold mp_data_str, get. destruct m as [n ps|dev rule].
  - destruct Sd as (-> & -> & ->). change (String.eqb "FC6_MultiPathData" "FC6_MpPathData") with false. cbv iota. f_equal. apply map_ext. intros [dev rule].
    unfold path_line, path_text. cbn [fst snd]. rewrite !app_assoc_s. reflexivity.
  - destruct Sd as (-> & _ & -> & ->). rewrite eqb_refl_s. reflexivity.
Qed.

Local Opaque comes_from method_of table_of removed_of data_str new_attrs init_of handlers.
Section Multipath.
Variable rest : string -> cclass.
Variables (v : Z) (cm dm : list (string * string)).
Hypothesis Hv : In (v, (cm, dm)) handlers.
Hypothesis Hr : rest "FC6_MultiPath" = mp_class.
Hypothesis Hn : In ("multipath", "FC6_MultiPath") cm.
Notation used := (used rest cm dm).
Notation cls := (class_model (cmd_class rest) "FC6_MultiPath").

Lemma mp_rest : cmd_class rest "FC6_MultiPath" = mp_class.
Proof.
  rewrite <- Hr. destruct mp_based as (_ & _ & _ & _ & P). unfold parse_code in P. unfold cmd_class.
  destruct (method_of "FC6_MultiPath" "__init__" []), (method_of "FC6_MultiPath" "parse" []), (method_of "FC6_MultiPath" "__str__" []); try reflexivity. discriminate.
Qed.
Lemma mp_cl_parse : cl_parse cls = mp_parse.
Proof. rewrite class_model_parse, (from_base_not _ _ _ _ _ _ (proj1 mp_based)), mp_rest. reflexivity. Qed.
Lemma mp_cl_str : cl_str cls = mp_str.
Proof.
  change (cl_str cls) with (from_base "FC6_MultiPath" "__str__" (fun (_ : attrs) (_ : list data) => "") (fun _ _ => "") (fun _ _ => "") (cl_str (cmd_class rest "FC6_MultiPath"))).
  rewrite (from_base_not _ _ _ _ _ _ (proj1 (proj2 mp_based))), mp_rest. reflexivity.
Qed.
Lemma mp_cl_list : cl_list cls = true.
Proof.
  change (cl_list cls) with (from_base "FC6_MultiPath" "dataList" false false false (cl_list (cmd_class rest "FC6_MultiPath"))).
  rewrite (from_base_not _ _ _ _ _ _ (proj1 (proj2 (proj2 (proj2 mp_based))))), mp_rest. reflexivity.
Qed.
Lemma the_data : assoc "MultiPathData" dm = Some "FC6_MultiPathData".
Proof.
  pose proof (proj1 (forallb_forall _ _) mp_data_class _ Hv) as K. cbn [fst snd] in K. pose proof (proj1 (forallb_forall _ _) K _ Hn) as K1. cbn [fst snd] in K1.
  rewrite eqb_refl_s in K1. destruct (assoc "MultiPathData" dm) as [k|]; [|discriminate]. apply String.eqb_eq in K1. now subst.
Qed.

(** ** Lines *)

Lemma stamp_ln m line ln a : (match get "lineno" (stamp m line ln a) with VInt z => Some (Z.to_N z) | _ => None end) = Some ln.
Proof. unfold get, stamp. rewrite !assoc_put. change (String.eqb "lineno" "seen") with false. rewrite eqb_refl_s. cbv iota. now rewrite N2Z.id. Qed.

(** What parse makes of the list. *)
Lemma parse_shows vw m line ln a0 d args ms : Forall2 shows d ms -> assoc "MultiPathData" (v_data vw) = Some "FC6_MultiPathData" ->
  match mp_parse vw (stamp m line ln a0) d args with
  | (_, d1, Err e) => Forall2 shows d1 ms /\
      (forall n dev rule, says args n dev rule -> ~ groups_only ms \/ In dev (devices ms)) /\
      (forall n dev rule, says args n dev rule -> groups_only ms -> In dev (devices ms) -> exists t, e = KSParseError (Some ln) t)
  | (_, d1, Ok r) => exists n dev rule x, r = Some x /\ says args n dev rule /\ groups_only ms /\ ~ In dev (devices ms) /\
      ((unnamed (last_part n) ms /\ Forall2 shows (d1 ++ [x]) (ms ++ [Group n [(dev, rule)]])) \/
       exists ms1 ps ms2, ms = ms1 ++ Group (last_part n) ps :: ms2 /\ ms1 <> [] /\ (forall ps, ~ In (Group (last_part n) ps) ms2) /\
         Forall2 shows (d1 ++ [x]) (ms1 ++ Group (last_part n) (ps ++ [(dev, rule)]) :: ms2 ++ [Stray dev rule]))
  end.
Proof.
  intros F Ed. unfold mp_parse. rewrite stamp_ln. 
  destruct (parse_args (build mp_table) (Some ln) args) as [ns|e] eqn:Ep.
  2:{ split; [exact F|]. split; intros n dev rule Hs; destruct (Hs (Some ln)) as (ns & E & _); congruence. }
  assert (Same : forall n dev rule, says args n dev rule -> get "name" ns = VStr n /\ get "device" ns = VStr dev /\ get "rule" ns = VStr rule).
  { intros n dev rule Hs. destruct (Hs (Some ln)) as (ns' & E & K). rewrite Ep in E. injection E as <-. exact K. }
  assert (Bad : forall e (P : Prop), (forall n dev rule, get "name" ns = VStr n -> get "device" ns = VStr dev -> get "rule" ns = VStr rule -> False) ->
    Forall2 shows d ms /\ (forall n dev rule, says args n dev rule -> ~ groups_only ms \/ In dev (devices ms)) /\
      (forall n dev rule, says args n dev rule -> groups_only ms -> In dev (devices ms) -> exists t, e = KSParseError (Some ln) t)).
  { intros e P No. split; [exact F|]. split; intros n dev rule Hs; exfalso; destruct (Same _ _ _ Hs) as (A & B & C); exact (No _ _ _ A B C). }
  destruct (get "name" ns) as [| | |n| | |] eqn:E1; try (apply (Bad _ True); intros; congruence).
  destruct (get "device" ns) as [| | |dev| | |] eqn:E2; try (apply (Bad _ True); intros; congruence).
  destruct (get "rule" ns) as [| | |rule| | |] eqn:E3; try (apply (Bad _ True); intros; congruence). clear Bad.
  assert (Hs : says args n dev rule).
  { intros l. pose proof (parse_args_sim (Some ln) l (build mp_table) args) as Q. rewrite Ep in Q. cbn [rsim] in Q.
    destruct (parse_args (build mp_table) l args) as [ns'|]; [|contradiction]. subst ns'. exists ns. auto. }
  destruct (scan_shows (Some ln) dev (last_part n) d ms F 0 None) as (I1 & I2 & I3 & I4).
  destruct (mp_scan (Some ln) dev (last_part n) d 0 None) as [r|e] eqn:Em.
  - destruct (I4 r eq_refl) as [G N]. destruct (I1 G N) as [[E No]|(ms1 & ps & ms2 & Ems & No & E)]; injection E as ->.
    + rewrite Ed. exists n, dev, rule. eexists. split; [reflexivity|]. split; [exact Hs|]. split; [exact G|]. split; [exact N|]. left.
      split; [intros ms1 ps ms2 ->; exfalso; apply (No ps), in_elt|]. apply Forall2_app; [exact F|]. repeat constructor.
    + destruct ms1 as [|m0 ms1].
      * cbn [List.length Nat.add]. rewrite Ed. exists n, dev, rule. eexists. split; [reflexivity|]. split; [exact Hs|]. split; [exact G|]. split; [exact N|]. left.
        split; [|apply Forall2_app; [exact F|]; repeat constructor]. subst ms. intros [|m1 ms1] ps' ms3 Q; [reflexivity|]. exfalso. cbn [app] in Q. injection Q as _ Q. subst ms2. apply (No ps'), in_elt.
      * cbn [List.length Nat.add]. exists n, dev, rule. eexists. split; [reflexivity|]. split; [exact Hs|]. split; [exact G|]. split; [exact N|]. right.
        exists (m0 :: ms1), ps, ms2. split; [exact Ems|]. split; [discriminate|]. split; [exact No|].
        change (S (List.length ms1)) with (List.length (m0 :: ms1)). rewrite app_comm_cons, app_assoc. apply Forall2_app; [apply add_shows; now rewrite <- Ems|]. repeat constructor.
  - split; [exact F|]. split.
    + intros n' dev' rule' Hs'. destruct (Same _ _ _ Hs') as (A & B & C). injection B as <-. destruct (in_dec string_dec dev (devices ms)) as [|N]; [auto|]. left.
      intros G. destruct (I1 G N) as [[E _]|(? & ? & ? & _ & _ & E)]; congruence.
    + intros n' dev' rule' Hs' G I. destruct (Same _ _ _ Hs') as (A & B & C). injection B as <-. destruct (I2 G I) as [t E]. exists t. congruence.
Qed.
(** One line of multipath. *)
Lemma mp_line h m line args ln o ms : used h -> In (m, "FC6_MultiPath") cm -> served h "multipath" = Some o -> Forall2 shows (o_data o) ms ->
  let hl := handle_command h line (m :: args) ln in exists o', served (fst hl) "multipath" = Some o' /\ o_class o' = cls /\
    match snd hl with
    | Some e => Forall2 shows (o_data o') ms /\
        (forall n dev rule, says args n dev rule -> ~ groups_only ms \/ In dev (devices ms)) /\
        (forall n dev rule, says args n dev rule -> groups_only ms -> In dev (devices ms) -> exists t, e = KSParseError (Some ln) t)
    | None => exists n dev rule, says args n dev rule /\ groups_only ms /\ ~ In dev (devices ms) /\
        ((unnamed (last_part n) ms /\ Forall2 shows (o_data o') (ms ++ [Group n [(dev, rule)]])) \/
         exists ms1 ps ms2, ms = ms1 ++ Group (last_part n) ps :: ms2 /\ ms1 <> [] /\ (forall ps, ~ In (Group (last_part n) ps) ms2) /\
           Forall2 shows (o_data o') (ms1 ++ Group (last_part n) (ps ++ [(dev, rule)]) :: ms2 ++ [Stray dev rule]))
    end.
Proof.
  intros U Hm So F hl. destruct (line_cases rest v cm dm Hv h m "FC6_MultiPath" line args ln U Hm) as (o1 & vw & a' & d' & S1 & C1 & Ed & P & J).
  assert (o1 = o).
  { assert (served h "multipath" = served h m) by (exact (PropsPlace.served_alias rest v cm dm h "multipath" m "FC6_MultiPath" Hv U Hn Hm)). congruence. }
  subst o1. fold hl in P, J. eexists. split; [rewrite (J "multipath" "FC6_MultiPath" Hn), eqb_refl_s; reflexivity|]. split; [reflexivity|]. cbn [o_data].
  rewrite mp_cl_parse, mp_cl_list in P. assert (Ed' : assoc "MultiPathData" (v_data vw) = Some "FC6_MultiPathData") by (rewrite Ed; apply the_data).
  pose proof (parse_shows vw m line ln (o_attrs o) (o_data o) args ms F Ed') as Q.
  destruct (mp_parse vw (stamp m line ln (o_attrs o)) (o_data o) args) as [[a1 d1] [r|e]].
  - destruct P as (-> & -> & ->). destruct Q as (n & dev & rule & x & -> & Q). exists n, dev, rule. exact Q.
  - destruct P as (-> & -> & ->). exact Q.
Qed.

Lemma mp_state h : used h -> exists o ms, served h "multipath" = Some o /\ o_class o = cls /\ Forall2 shows (o_data o) ms /\ NoDup (devices ms).
Proof.
  intros (ops & F & ->). induction ops as [|op ops IH] using rev_ind.
  - cbn [fold_left]. eexists _, []. split; [apply (start_served rest v cm dm Hv "multipath" "FC6_MultiPath" Hn)|]. repeat split; constructor.
  - apply Forall_app in F as [F1 F2]. destruct (IH F1) as (o & ms & So & Co & Sh & Nd). rewrite fold_left_app. cbn [fold_left].
    set (h := fold_left do_op ops (start rest cm dm)) in *. assert (U : used h) by (exists ops; auto).
    inversion F2 as [|? ? Hop _]; subst. destruct op as [line ws ln| |]; try contradiction. cbn [do_op].
    destruct ws as [|m args]; [exists o, ms; auto|]. destruct (assoc m cm) as [d|] eqn:Em.
    + pose proof (assoc_In _ _ _ Em) as Hm. destruct (String.eqb_spec "FC6_MultiPath" d) as [<-|Ne].
      * destruct (mp_line h m line args ln o ms U Hm So Sh) as (o' & So' & Co' & Q). destruct (snd (handle_command h line (m :: args) ln)) as [e|].
        -- exists o', ms. split; [exact So'|]. split; [exact Co'|]. split; [apply Q|exact Nd].
        -- destruct Q as (n & dev & rule & _ & _ & N & [[_ Q]|(ms1 & ps & ms2 & -> & _ & _ & Q)]); eexists o', _; (split; [exact So'|]); (split; [exact Co'|]); (split; [exact Q|]).
           ++ rewrite devices_app. cbn [devices flat_map map fst app]. apply (Permutation.Permutation_NoDup (Permutation.Permutation_cons_append _ _)). constructor; assumption.
           ++ rewrite devices_app in *. cbn [devices flat_map] in *. fold (devices (ms2 ++ [Stray dev rule])). fold (devices ms2) in *. rewrite devices_app, map_app. cbn [devices flat_map map fst app]. rewrite app_nil_r.
              rewrite <- app_assoc. cbn [app]. rewrite app_assoc. apply NoDup_Add with (a := dev) (l := (devices ms1 ++ map fst ps) ++ devices ms2); [apply Add_app|].
              rewrite <- app_assoc. auto.
      * destruct (line_cases rest v cm dm Hv h m d line args ln U Hm) as (o1 & vw & a' & d' & S1 & C1 & _ & P & J).
        rewrite (J "multipath" "FC6_MultiPath" Hn). rewrite (proj2 (String.eqb_neq _ _) Ne). exists o, ms. auto.
    + assert (A : forall d, ~ In (m, d) cm). { intros d Hd. apply (In_dict cm (dict_cm rest v cm dm Hv)) in Hd. congruence. }
      exists o, ms. rewrite (proj2 (line_unknown rest cm dm h m line args ln U A)). auto.
Qed.

Lemma shows_same d m m' : shows d m -> shows d m' -> m = m'.
Proof.
  destruct m as [n ps|dv rl], m' as [n' ps'|dv' rl']; cbn [shows].
  - intros (_ & A & B) (_ & A' & B'). congruence.
  - intros (_ & _ & B) (_ & B' & _). congruence.
  - intros (_ & B & _) (_ & _ & B'). congruence.
  - intros (_ & _ & A & B) (_ & _ & A' & B'). congruence.
Qed.
Lemma multipaths_same h ms ms' : multipaths h ms -> multipaths h ms' -> ms = ms'.
Proof.
  intros (o & So & F) (o' & So' & F'). assert (o' = o) by congruence. subst o'. clear So So'. revert ms' F'. induction F as [|d m l ms Sd F IH]; intros ms' F'; inversion F'; subst; [reflexivity|].
  f_equal; [eapply shows_same; eauto|auto].
Qed.

(** ** C55 *)

(** Whatever was read, the object holds multipath devices and paths by themselves, and no device is a path of two of them, or twice of one. *)
Theorem C55_state h : used h -> exists ms, multipaths h ms /\ NoDup (devices ms).
Proof. intros U. destruct (mp_state h U) as (o & ms & So & _ & F & N). exists ms. split; [exists o; auto|exact N]. Qed.

(** A line for a device that is already a path is refused, at its line, and changes nothing. *)
Theorem C55_repeated h line args ln ms n dev rule : used h -> multipaths h ms -> groups_only ms -> says args n dev rule -> In dev (devices ms) ->
  exists t, snd (handle_command h line ("multipath" :: args) ln) = Some (KSParseError (Some ln) t) /\ multipaths (fst (handle_command h line ("multipath" :: args) ln)) ms.
Proof.
  intros U (o & So & F) G Hs I. destruct (mp_line h "multipath" line args ln o ms U Hn So F) as (o' & So' & _ & Q).
  destruct (snd (handle_command h line ("multipath" :: args) ln)) as [e|].
  - destruct Q as (F' & _ & E). destruct (E n dev rule Hs G I) as [t ->]. exists t. split; [reflexivity|]. exists o'. auto.
  - destruct Q as (n' & dev' & rule' & Hs' & _ & N & _). exfalso. apply N. destruct (Hs None) as (ns & E & _ & D & _). destruct (Hs' None) as (ns' & E' & _ & D' & _).
    rewrite E in E'. injection E' as <-. rewrite D in D'. injection D' as <-. exact I.
Qed.

(** A line whose name, without what comes before its last slash, is the name of no device of the list, except perhaps the first, begins a device. *)
Theorem C55_begins h line args ln ms n b dev rule : used h -> multipaths h ms -> groups_only ms -> says args n dev rule -> ~ In dev (devices ms) ->
  ends_in n b -> unnamed b ms ->
  snd (handle_command h line ("multipath" :: args) ln) = None /\ multipaths (fst (handle_command h line ("multipath" :: args) ln)) (ms ++ [Group n [(dev, rule)]]).
Proof.
  intros U (o & So & F) G Hs N Eb Hu. apply last_part_of in Eb. subst b. destruct (mp_line h "multipath" line args ln o ms U Hn So F) as (o' & So' & _ & Q).
  destruct (snd (handle_command h line ("multipath" :: args) ln)) as [e|].
  - destruct Q as (_ & E & _). destruct (E n dev rule Hs); contradiction.
  - destruct Q as (n' & dev' & rule' & Hs' & _ & _ & Q). destruct (Hs None) as (ns & E & A1 & A2 & A3). destruct (Hs' None) as (ns' & E' & B1 & B2 & B3).
    rewrite E in E'. injection E' as <-. rewrite A1 in B1. rewrite A2 in B2. rewrite A3 in B3. injection B1 as <-. injection B2 as <-. injection B3 as <-.
    split; [reflexivity|]. exists o'. split; [exact So'|]. destruct Q as [[_ Q]|(ms1 & ps & ms2 & E1 & Ne & _ & _)]; [exact Q|]. exfalso. exact (Ne (Hu _ _ _ E1)).
Qed.

(** Otherwise it joins the last device of that name, and stands behind the list once more. *)
Theorem C55_joins h line args ln ms1 ps ms2 n b dev rule : used h -> let ms := ms1 ++ Group b ps :: ms2 in multipaths h ms -> groups_only ms ->
  says args n dev rule -> ~ In dev (devices ms) -> ends_in n b -> ms1 <> [] -> (forall ps, ~ In (Group b ps) ms2) ->
  snd (handle_command h line ("multipath" :: args) ln) = None /\
  multipaths (fst (handle_command h line ("multipath" :: args) ln)) (ms1 ++ Group b (ps ++ [(dev, rule)]) :: ms2 ++ [Stray dev rule]).
Proof.
  intros U ms (o & So & F) G Hs N Eb Ne No. apply last_part_of in Eb. subst b. destruct (mp_line h "multipath" line args ln o ms U Hn So F) as (o' & So' & _ & Q).
  destruct (snd (handle_command h line ("multipath" :: args) ln)) as [e|].
  - destruct Q as (_ & E & _). destruct (E n dev rule Hs); contradiction.
  - destruct Q as (n' & dev' & rule' & Hs' & _ & _ & Q). destruct (Hs None) as (ns & E & A1 & A2 & A3). destruct (Hs' None) as (ns' & E' & B1 & B2 & B3).
    rewrite E in E'. injection E' as <-. rewrite A1 in B1. rewrite A2 in B2. rewrite A3 in B3. injection B1 as <-. injection B2 as <-. injection B3 as <-.
    split; [reflexivity|]. exists o'. split; [exact So'|]. destruct Q as [[Hu _]|(ms1' & ps' & ms2' & E1 & _ & No' & Q)]; [exfalso; apply Ne; exact (Hu ms1 ps ms2 eq_refl)|].
    assert (K : ms1 = ms1' /\ ps = ps' /\ ms2 = ms2').
    { subst ms. clear - E1 No No'. revert ms1' E1. induction ms1 as [|x ms1 IH]; intros [|y ms1'] E1; cbn [app] in E1.
      - injection E1 as -> ->. auto.
      - injection E1 as _ E1. exfalso. apply (No ps'). rewrite E1. apply in_elt.
      - injection E1 as _ E1. exfalso. apply (No' ps). rewrite <- E1. apply in_elt.
      - injection E1 as -> E1. destruct (IH _ E1) as (-> & -> & ->). auto. }
    destruct K as (<- & <- & <-). exact Q.
Qed.

(** An accepted line gives the three values, for a device that is no path yet; and no path stands in the list by itself. *)
Theorem C55_accepted h line args ln ms : used h -> multipaths h ms -> snd (handle_command h line ("multipath" :: args) ln) = None ->
  groups_only ms /\ exists n dev rule, says args n dev rule /\ ~ In dev (devices ms).
Proof.
  intros U (o & So & F) E. destruct (mp_line h "multipath" line args ln o ms U Hn So F) as (o' & So' & _ & Q). rewrite E in Q.
  destruct Q as (n & dev & rule & Hs & G & N & _). split; [exact G|]. exists n, dev, rule. auto.
Qed.

(** A line in which no word names one of the three options, nor abbreviates it, is refused at its line. *)
Theorem C55_missing h line args ln o : used h -> In o ["--name"; "--device"; "--rule"] -> (forall w, In w args -> spells w o = false) ->
  exists t, snd (handle_command h line ("multipath" :: args) ln) = Some (KSParseError (Some ln) t).
Proof.
  intros U Io No. destruct (line_cases rest v cm dm Hv h "multipath" "FC6_MultiPath" line args ln U Hn) as (q & vw & a' & d' & S1 & C1 & Ed & P & J).
  rewrite mp_cl_parse in P. unfold mp_parse in P.
  assert (L : match get "lineno" (stamp "multipath" line ln (o_attrs q)) with VInt z => Some (Z.to_N z) | _ => None end = Some ln).
  { unfold get, stamp. rewrite assoc_put_ne by discriminate. rewrite assoc_put_eq. now rewrite N2Z.id. }
  rewrite L in P.
  assert (X : exists t, parse_args (build mp_table) (Some ln) args = Err (KSParseError (Some ln) t)).
  { assert (A : exists a, In a (p_actions (build mp_table)) /\ is_positional a = false /\ a_required a = true /\ forall o' b, In (o', b) (p_optmap (build mp_table)) -> a_id b = a_id a -> o' = o).
    { destruct Io as [<-|[<-|[<-|[]]]].
      - eexists. split; [left; reflexivity|]. split; [reflexivity|]. split; [reflexivity|]. intros o' b [H|[H|[H|[]]]] E; injection H as <- <-; first [reflexivity|discriminate E].
      - eexists. split; [right; left; reflexivity|]. split; [reflexivity|]. split; [reflexivity|]. intros o' b [H|[H|[H|[]]]] E; injection H as <- <-; first [reflexivity|discriminate E].
      - eexists. split; [right; right; left; reflexivity|]. split; [reflexivity|]. split; [reflexivity|]. intros o' b [H|[H|[H|[]]]] E; injection H as <- <-; first [reflexivity|discriminate E]. }
    destruct A as (a & Ia & Pa & Ra & Oa). apply (C03_missing_required (build mp_table) (Some ln) args a).
    - reflexivity.
    - apply build_well_declared. reflexivity.
    - cbn. repeat constructor; cbn; intuition discriminate.
    - exact Ia.
    - exact Pa.
    - exact Ra.
    - intros w o' b Iw Ib E. rewrite (Oa o' b Ib E). exact (No w Iw). }
  destruct X as [t X]. rewrite X in P. exists t. exact (proj2 (proj2 P)).
Qed.

(** A refused line, and a line of another command, change nothing. *)
Theorem C55_unchanged h line m args ln ms : used h -> multipaths h ms ->
  snd (handle_command h line (m :: args) ln) <> None \/ ~ In (m, "FC6_MultiPath") cm ->
  multipaths (fst (handle_command h line (m :: args) ln)) ms.
Proof.
  intros U (o & So & F) H. destruct (assoc m cm) as [d|] eqn:Em.
  - pose proof (assoc_In _ _ _ Em) as Hm. destruct (String.eqb_spec "FC6_MultiPath" d) as [<-|Ne].
    + destruct H as [H|H]; [|contradiction]. destruct (mp_line h m line args ln o ms U Hm So F) as (o' & So' & _ & Q).
      destruct (snd (handle_command h line (m :: args) ln)) as [e|]; [|contradiction]. exists o'. split; [exact So'|apply Q].
    + destruct (line_cases rest v cm dm Hv h m d line args ln U Hm) as (o1 & vw & a' & d' & S1 & C1 & _ & P & J). exists o.
      rewrite (J "multipath" "FC6_MultiPath" Hn). rewrite (proj2 (String.eqb_neq _ _) Ne). auto.
  - assert (A : forall d, ~ In (m, d) cm). { intros d Hd. apply (In_dict cm (dict_cm rest v cm dm Hv)) in Hd. congruence. }
    exists o. rewrite (proj2 (line_unknown rest cm dm h m line args ln U A)). auto.
Qed.

(** The text: for every device of the list a line for every one of its paths. *)
Theorem C55_text h ms : used h -> multipaths h ms -> multipath_text h (concat_all (map (fun m => match m with
  | Group n ps => concat_all (map (fun p => path_line n (fst p) (snd p)) ps)
  | Stray dev rule => (" --device=" ++ dev ++ " --rule=""" ++ rule ++ """")%string
  end) ms)).
Proof.
  intros U (o & So & F). exists o. split; [exact So|]. destruct (mp_state h U) as (o' & _ & So' & Co & _). assert (o' = o) by congruence. subst o'.
  unfold o_str. rewrite Co, mp_cl_str. unfold mp_str. now rewrite (data_text _ _ F).
Qed.

(** Lines that name different devices (for a name without slash: the name of no line before it but possibly the first) are written back line by line,
    with any other lines between them. *)
Definition unjoined (ts : list (string * string * string)) : Prop :=
  forall before n dev rule later b, ts = before ++ (n, dev, rule) :: later -> ends_in n b -> ~ In b (map (fun t => fst (fst t)) (tl before)).
Theorem C55_file cmds h ts : execute handle_command cmds (start rest cm dm) = (h, None) ->
  Forall2 (fun args t => says args (fst (fst t)) (snd (fst t)) (snd t)) (lines_for cm "FC6_MultiPath" cmds) ts -> unjoined ts ->
  multipaths h (map (fun t => Group (fst (fst t)) [(snd (fst t), snd t)]) ts) /\
  multipath_text h (concat_all (map (fun t => path_line (fst (fst t)) (snd (fst t)) (snd t)) ts)).
Proof.
  intros E F Un. assert (K : used h /\ multipaths h (map (fun t => Group (fst (fst t)) [(snd (fst t), snd t)]) ts)).
  { assert (G : forall done h0, used h0 -> multipaths h0 (map (fun t => Group (fst (fst t)) [(snd (fst t), snd t)]) done) ->
      forall cmds ts, execute handle_command cmds h0 = (h, None) ->
      Forall2 (fun args t => says args (fst (fst t)) (snd (fst t)) (snd t)) (lines_for cm "FC6_MultiPath" cmds) ts -> unjoined (done ++ ts) ->
      used h /\ multipaths h (map (fun t => Group (fst (fst t)) [(snd (fst t), snd t)]) (done ++ ts))).
    2:{ apply (G [] (start rest cm dm)) with (cmds := cmds); auto; [exists []; split; [constructor|reflexivity]|]. eexists. split; [apply (start_served rest v cm dm Hv "multipath" "FC6_MultiPath" Hn)|]. constructor. }
    clear cmds ts E F Un. intros done h0 U0 M0 cmds. revert done h0 U0 M0. induction cmds as [|[[line ws] ln] cmds IH]; intros done h0 U0 M0 ts E F Un.
    { cbn in F. inversion F; subst. rewrite app_nil_r in *. cbn [execute] in E. injection E as <-. auto. }
    cbn [execute] in E. destruct (handle_command h0 line ws ln) as [h1 [e|]] eqn:Eh; [discriminate|].
    assert (U1 : used h1) by (replace h1 with (fst (handle_command h0 line ws ln)) by (now rewrite Eh); now apply used_step).
    unfold lines_for in F. cbn [flat_map fst snd] in F. fold (lines_for cm "FC6_MultiPath" cmds) in F. destruct ws as [|m args].
    { cbn [handle_command] in Eh. cbn [app] in F. apply (IH done h1 U1); auto. destruct M0 as (o & So & Fo). exists o. split; [|exact Fo]. replace h1 with (fst (handle_command h0 line [] ln)) by (now rewrite Eh). exact So. }
    destruct (assoc m cm) as [d|] eqn:Em; [destruct (String.eqb_spec "FC6_MultiPath" d) as [<-|Ne]|].
    - cbn [app] in F. inversion F as [|? t ? ts' Ht F']; subst. destruct t as [[n dev] rule]. cbn [fst snd] in Ht.
      apply (assoc_In _ _ _) in Em. destruct M0 as (o & So & Fo). pose proof (mp_line h0 m line args ln o _ U0 Em So Fo) as Q. cbv zeta in Q. rewrite Eh in Q. cbn [fst snd] in Q.
      destruct Q as (o' & So' & _ & n' & dev' & rule' & Hs' & _ & _ & Q). destruct (Ht None) as (ns & E1 & A1 & A2 & A3). destruct (Hs' None) as (ns' & E' & B1 & B2 & B3).
      rewrite E1 in E'. injection E' as <-. rewrite A1 in B1. rewrite A2 in B2. rewrite A3 in B3. injection B1 as <-. injection B2 as <-. injection B3 as <-.
      replace (done ++ (n, dev, rule) :: ts') with ((done ++ [(n, dev, rule)]) ++ ts') in * by (rewrite <- app_assoc; reflexivity).
      apply (IH (done ++ [(n, dev, rule)]) h1 U1); auto. exists o'. split; [exact So'|]. rewrite map_app. destruct Q as [[_ Q]|(ms1 & ps & ms2 & E2 & Ne & _ & _)]; [exact Q|].
      exfalso. apply (Un done n dev rule ts' (last_part n)); [now rewrite <- app_assoc|apply last_part_ends|].
      destruct done as [|t0 done]; [destruct ms1; discriminate|]. destruct ms1 as [|m1 ms1]; [contradiction|]. cbn [map app] in E2. injection E2 as _ E2. cbn [tl].
      assert (I : In (Group (last_part n) ps) (map (fun t : string * string * string => Group (fst (fst t)) [(snd (fst t), snd t)]) done)) by (rewrite E2; apply in_elt).
      apply in_map_iff in I as (t & Et & It). injection Et as Et _. rewrite <- Et. exact (in_map (fun t => fst (fst t)) _ _ It).
    - cbn [app] in F. apply (IH done h1 U1); auto. replace h1 with (fst (handle_command h0 line (m :: args) ln)) by (now rewrite Eh). apply C55_unchanged; auto.
      right. intros Hd. apply (In_dict cm (dict_cm rest v cm dm Hv)) in Hd. congruence.
    - cbn [app] in F. apply (IH done h1 U1); auto. replace h1 with (fst (handle_command h0 line (m :: args) ln)) by (now rewrite Eh). apply C55_unchanged; auto.
      right. intros Hd. apply (In_dict cm (dict_cm rest v cm dm Hv)) in Hd. congruence. }
  destruct K as [U M]. split; [exact M|]. apply (C55_text h _ U) in M. rewrite map_map in M. erewrite map_ext; [exact M|]. intros t. cbn [map concat_all fst snd]. now rewrite app_nil_r_s.
Qed.

(** ** Findings *)

(** Once a path stands in the list by itself no line of multipath is accepted any more. *)
Theorem C55_stuck_refuted h line args ln ms dev rule : used h -> multipaths h ms -> In (Stray dev rule) ms ->
  snd (handle_command h line ("multipath" :: args) ln) <> None.
Proof. intros U M I E. destruct (C55_accepted h line args ln ms U M E) as [G _]. exact (G _ _ I). Qed.

(** The second path of the device that was named first begins a device of its own, of the same name. *)
Theorem C55_second_refuted h line args ln n dev rule dev' rule' : used h -> has_char "/" n = false -> dev <> dev' -> multipaths h [Group n [(dev, rule)]] -> says args n dev' rule' ->
  multipaths (fst (handle_command h line ("multipath" :: args) ln)) [Group n [(dev, rule)]; Group n [(dev', rule')]].
Proof.
  intros U Hs Ne M Hy. apply (C55_begins h line args ln [Group n [(dev, rule)]] n n dev' rule' U M); auto.
  - intros a b [E|[]]. discriminate.
  - cbn. intros [E|[]]. congruence.
  - split; [exact Hs|auto].
  - intros [|x ms1] ps ms2 E; [reflexivity|]. cbn [app] in E. injection E as _ E. destruct ms1; discriminate.
Qed.
End Multipath.

(** The words of a line. *)
Theorem C55_words n dev rule : says ["--name=" ++ n; "--device=" ++ dev; "--rule=" ++ rule]%string n dev rule.
Proof.
  intros ln. destruct (C02_line_means (build mp_table) ln [OVal "--name" n; OVal "--device" dev; OVal "--rule" rule]
    (set (set (set (declared (p_actions (build mp_table))) "name" (VStr n)) "device" (VStr dev)) "rule" (VStr rule))) as (ns & E & M).
  - reflexivity.
  - reflexivity.
  - intros a Ha d Hd. cbn in Ha. repeat (destruct Ha as [<-|Ha]; [cbn in Hd; discriminate|]). contradiction.
  - intros a Ha _. cbn in Ha. destruct Ha as [<-|[<-|[<-|[]]]].
    + exists (OVal "--name" n). eexists. split; [cbn; auto|]. split; reflexivity.
    + exists (OVal "--device" dev). eexists. split; [cbn; auto|]. split; reflexivity.
    + exists (OVal "--rule" rule). eexists. split; [cbn; auto|]. split; reflexivity.
  - reflexivity.
  - exists ns. split; [exact E|]. rewrite !M. split; [reflexivity|]. split; reflexivity.
Qed.

Print Assumptions C55_state.
Print Assumptions C55_repeated.
Print Assumptions C55_begins.
Print Assumptions C55_joins.
Print Assumptions C55_accepted.
Print Assumptions C55_missing.
Print Assumptions C55_unchanged.
Print Assumptions C55_text.
Print Assumptions C55_file.
Print Assumptions C55_stuck_refuted.
Print Assumptions C55_second_refuted.
Print Assumptions C55_words.

(** ** Examples *)
Local Transparent comes_from method_of table_of removed_of data_str new_attrs init_of handlers.
Definition mp_rest_demo (c : string) : cclass := if String.eqb c "FC6_MultiPath" then mp_class else mkClass c [] false [] abstract_parse (fun _ _ => "").
Definition mp_maps : list (string * string) * list (string * string) :=
  match find (fun h => Z.eqb (fst h) F7) handlers with Some (_, x) => x | None => ([], []) end.
Lemma mp_maps_in : In (F7, mp_maps) handlers /\ In ("multipath", "FC6_MultiPath") (fst mp_maps) /\ mp_rest_demo "FC6_MultiPath" = mp_class.
Proof.
  split; [unfold handlers; repeat (first [left; reflexivity|right])|]. split; [apply assoc_In; vm_compute; reflexivity|reflexivity].
Qed.
Definition mp_demo (ls : list (list string)) : list bool * option string :=
  let step := fun st l => let hl := handle_command (fst st) "" ("multipath" :: l) 1 in (fst hl, snd st ++ [match snd hl with None => true | _ => false end]) in
  let st := fold_left step ls (start mp_rest_demo (fst mp_maps) (snd mp_maps), []) in
  (snd st, match served (fst st) "multipath" with Some o => Some (o_str o) | None => None end).
(** Two devices, and a device that is named twice. *)
Example C55_example : mp_demo [["--name=mpatha"; "--device=/dev/sda"; "--rule=failover"]; ["--rule"; "multibus"; "--name"; "/dev/mapper/mpathb"; "--device"; "/dev/sdb"]; ["--name=mpathc"; "--device=/dev/sda"; "--rule=x"]] =
  ([true; true; false], Some (path_line "mpatha" "/dev/sda" "failover" ++ path_line "/dev/mapper/mpathb" "/dev/sdb" "multibus")%string).
Proof. vm_compute. reflexivity. Qed.
(** The second path of a device that is not the first is written at the end of the text once more, without a line of its own, and then no further line is accepted. *)
Theorem C55_stray_refuted : mp_demo [["--name=a"; "--device=1"; "--rule=r"]; ["--name=b"; "--device=2"; "--rule=r"]; ["--name=b"; "--device=3"; "--rule=s"]; ["--name=c"; "--device=4"; "--rule=r"]] =
  ([true; true; true; false], Some (path_line "a" "1" "r" ++ path_line "b" "2" "r" ++ path_line "b" "3" "s" ++ " --device=3 --rule=""s""")%string).
Proof. vm_compute. reflexivity. Qed.
Print Assumptions C55_stray_refuted.
(** A name with a slash is never found again: each path is a device. *)
Theorem C55_slash_refuted : mp_demo [["--name=a"; "--device=1"; "--rule=r"]; ["--name=/x/b"; "--device=2"; "--rule=r"]; ["--name=/x/b"; "--device=3"; "--rule=s"]] =
  ([true; true; true], Some (path_line "a" "1" "r" ++ path_line "/x/b" "2" "r" ++ path_line "/x/b" "3" "s")%string).
Proof. vm_compute. reflexivity. Qed.
Print Assumptions C55_slash_refuted.
(** The hypotheses of [C55_file] for three lines, with others between them in the first part (the classes given to this example accept no other lines, so they are left out of the run). *)
Definition mp_three : list (string * string * string) := [("a", "1", "r"); ("b", "2", "r"); ("/x/c", "3", "s")].
Definition mp_words (t : string * string * string) : list string := ["--name=" ++ fst (fst t); "--device=" ++ snd (fst t); "--rule=" ++ snd t]%string.
Definition mp_cmds : list (string * list string * N) :=
  flat_map (fun t => [(""%string, "multipath" :: mp_words t, 1%N); (""%string, ["network"], 2%N)]) mp_three.
Example C55_file_example : Forall2 (fun args t => says args (fst (fst t)) (snd (fst t)) (snd t)) (lines_for (fst mp_maps) "FC6_MultiPath" mp_cmds) mp_three /\ unjoined mp_three /\
  snd (execute handle_command (filter (fun c => mem "multipath" (snd (fst c))) mp_cmds) (start mp_rest_demo (fst mp_maps) (snd mp_maps))) = None.
Proof.
  split; [|split; [|vm_compute; reflexivity]].
  - replace (lines_for (fst mp_maps) "FC6_MultiPath" mp_cmds) with (map mp_words mp_three) by (vm_compute; reflexivity).
    repeat (constructor; [apply C55_words|]). constructor.
  - intros before n dev rule later b E H. unfold mp_three in E. destruct before as [|x [|y [|z before]]]; cbn [app] in E.
    + intros [].
    + intros [].
    + injection E as _ <- <- _ _ _. cbn. intros [<-|[]]. apply last_part_of in H. vm_compute in H. discriminate.
    + injection E as _ _ _ E. destruct before; discriminate.
Qed.
Example C55_missing_case : (forall w, In w ["--name=a"; "--device=1"] -> spells w "--rule" = false) /\ fst (mp_demo [["--name=a"; "--device=1"]; ["--name=a"; "--device=1"; "--rule=r"]]) = [false; true].
Proof. split; [intros w [<-|[<-|[]]]; reflexivity|vm_compute; reflexivity]. Qed.
