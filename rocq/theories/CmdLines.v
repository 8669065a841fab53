(** * A command line, for all commands of the handler *)

From Verif Require Import PyStrFacts ArgParseFacts ArgErrFacts HandlerFacts ClassModel PropsHandler PropsClass.
From Verif Require Import HandlerSpec ParserSpec NsFacts PyCheck PyCheckFacts PyKeep PyClass CmdFacts PyFlow PyFlowFacts CmdFlow.
From Verif Require Import Value.
Local Open Scope string_scope.
Local Open Scope list_scope.
Local Arguments Ascii.eqb : simpl never.
Local Arguments String.eqb : simpl never.
Local Opaque comes_from method_of table_of removed_of data_str new_attrs init_of.

(** The data classes of the handlers are dictionaries. *)
Lemma data_dicts : forallb (fun h => PropsClass.distinct (map fst (snd (snd h)))) handlers = true.
Proof. vm_compute. reflexivity. Qed.
Lemma data_dict v cm dm : In (v, (cm, dm)) handlers -> is_dict dm.
Proof. intros H. pose proof data_dicts as D. rewrite forallb_forall in D. apply D in H. now apply distinct_NoDup. Qed.
Lemma put_all_assoc (dm : list (string * string)) : is_dict dm -> forall d k,
  assoc k (fold_left (fun d nd => put (fst nd) (snd nd) d) dm d) = match assoc k dm with Some c => Some c | None => assoc k d end.
Proof.
  induction dm as [|[x c] dm IH]; intros D d k; [reflexivity|]. inversion D as [|? ? Hx D']; subst. cbn [fold_left fst snd map assoc] in *.
  rewrite IH by exact D'. destruct (String.eqb_spec k x) as [->|Ne].
  - assert (N : assoc x dm = None) by now apply assoc_none. rewrite N. apply assoc_put_eq.
  - destruct (assoc k dm); [reflexivity|]. now apply assoc_put_ne.
Qed.

Section Lines.
Variable rest : string -> cclass.
Variables (v : Z) (cm dm : list (string * string)).
Hypothesis Hv : In (v, (cm, dm)) handlers.
Notation used := (used rest cm dm).
Notation cls c := (class_model (cmd_class rest) c).

Lemma start_served n c : In (n, c) cm -> served (start rest cm dm) n = Some (new_obj (cls c)).
Proof.
  intros H. unfold start. apply C27_instances; [eapply version_dict; eauto|apply version_one|now apply version_in].
Qed.

Lemma used_data h k : used h -> assoc k (h_dataclasses h) = assoc k dm.
Proof.
  intros (ops & F & ->). assert (E : h_dataclasses (fold_left do_op ops (start rest cm dm)) = h_dataclasses (start rest cm dm)).
  { revert F. generalize (start rest cm dm). induction ops as [|o ops IH]; intros s F; [reflexivity|]. cbn [fold_left]. inversion F; subst.
    rewrite IH by assumption. destruct o; try contradiction. unfold do_op, handle_command, dispatcher. destruct args as [|x args]; [reflexivity|].
    destruct (assoc x _) as [[i|]|]; try reflexivity. destruct (obj_at _ i); [|reflexivity]. cbv zeta.
    destruct (cl_parse _ _ _ _ _) as [[? ?] []]; reflexivity. }
  rewrite E. unfold start. rewrite (proj1 (build_data _ dm)). rewrite put_all_assoc by (eapply data_dict; eauto).
  destruct (assoc k dm); reflexivity.
Qed.

(** Two names are served by the same object exactly when they have the same class. *)
Lemma same_object h n c m d i j : used h -> In (n, c) cm -> In (m, d) cm ->
  assoc n (h_commands h) = Some (Some i) -> assoc m (h_commands h) = Some (Some j) -> (i = j <-> c = d).
Proof.
  intros U Hn Hm Ei Ej. destruct (C27_shared (version_map (cmd_class rest) cm) h n (cls c) m (cls d)) as (i' & j' & o1 & o2 & Hi & Hj & E & _).
  - eapply version_dict; eauto.
  - now apply (used_in_use rest cm dm).
  - now apply version_in.
  - now apply version_in.
  - unfold identity in Hi, Hj. rewrite Ei in Hi. rewrite Ej in Hj. injection Hi as <-. injection Hj as <-. exact E.
Qed.

(** What a command line changes: the object that serves its command. *)
Lemma line_cases h m d line args ln : used h -> In (m, d) cm ->
  exists o vw a' d', served h m = Some o /\ o_class o = cls d /\
    (forall k, assoc k (v_data vw) = assoc k dm) /\
    (match cl_parse (cls d) vw (stamp m line ln (o_attrs o)) (o_data o) args with
     | (a1, d1, Err e) => a' = a1 /\ d' = d1 /\ snd (handle_command h line (m :: args) ln) = Some e
     | (a1, d1, Ok r) => a' = a1 /\ d' = match r with
                                        | Some x => if cl_list (cls d) then d1 ++ [x] else d1
                                        | None => d1
                                        end /\ snd (handle_command h line (m :: args) ln) = None
     end) /\
    (forall n c, In (n, c) cm -> served (fst (handle_command h line (m :: args) ln)) n =
       if String.eqb c d then Some (mkObj (cls d) a' d') else served h n).
Proof.
  intros U Hm. destruct (used_served rest v cm dm Hv h m d U Hm) as (i & o & Ei & Eo & So & Co).
  destruct (dispatch_cases h line m args ln i o Ei Eo) as (a' & d' & P & J).
  eexists o, _, a', d'. split; [exact So|]. split; [exact Co|]. split; [|split].
  2: { rewrite Co in P. exact P. }
  - intros k. cbn [view_of v_data]. exact (used_data h k U).
  - intros n c Hn. destruct (used_served rest v cm dm Hv h n c U Hn) as (j & p & Ej & Ep & Sp & Cp).
    assert (Ej' : assoc n (h_commands (fst (handle_command h line (m :: args) ln))) = Some (Some j)).
    { rewrite (proj1 (used_commands rest cm dm _ (used_step rest cm dm h line (m :: args) ln U))), <- (proj1 (used_commands rest cm dm h U)). exact Ej. }
    unfold served at 1, identity. rewrite Ej', J. rewrite Sp. pose proof (same_object h n c m d j i U Hn Hm Ej Ei) as Q.
    destruct (Nat.eqb_spec j i) as [E|Ne].
    + apply Q in E as ->. rewrite eqb_refl_s, Co. reflexivity.
    + destruct (String.eqb_spec c d) as [E|]; [apply Q in E; contradiction|]. exact Ep.
Qed.

(** A line that names no command of the version. *)
Lemma line_unknown h m line args ln : used h -> (forall d, ~ In (m, d) cm) ->
  snd (handle_command h line (m :: args) ln) <> None /\ forall n, served (fst (handle_command h line (m :: args) ln)) n = served h n.
Proof.
  intros U N. assert (E : assoc m (h_commands h) = None).
  { destruct (assoc m (h_commands h)) as [k|] eqn:Ek; [|reflexivity]. exfalso. apply used_commands in U as [Uc _].
    rewrite Uc in Ek. apply skeleton_names in Ek. destruct (assoc m cm) as [c|] eqn:A; [|contradiction]. apply assoc_In in A. exact (N _ A). }
  unfold handle_command, dispatcher. cbn [set_line h_commands]. rewrite E. cbn [snd fst]. split; [discriminate|]. reflexivity.
Qed.

(** The words after the command name, of the lines for a class, in a sequence of
    lines. *)
Definition lines_for (c : string) (cmds : list (string * list string * N)) : list (list string) :=
  flat_map (fun x => match snd (fst x) with
                     | m :: args => match assoc m cm with
                                    | Some d => if String.eqb c d then [args] else []
                                    | None => []
                                    end
                     | [] => []
                     end) cmds.
Lemma dict_cm : is_dict cm.
Proof. pose proof (version_dict (cmd_class rest) _ _ _ Hv) as D. unfold is_dict, version_map in *. rewrite map_map in D. exact D. Qed.

(** Following one attribute, or anything else of the objects, through a sequence of
    accepted lines: [f] is what a line does to it. *)
Lemma run_lines {X} n c (val : cmdobj -> X) (f : X -> list string -> X) :
  In (n, c) cm ->
  (forall m vw line ln o args a' d' r, In (m, c) cm -> o_class o = cls c -> (forall k, assoc k (v_data vw) = assoc k dm) ->
     cl_parse (cls c) vw (stamp m line ln (o_attrs o)) (o_data o) args = (a', d', Ok r) ->
     val (mkObj (cls c) a' (match r with Some x => if cl_list (cls c) then d' ++ [x] else d' | None => d' end)) = f (val o) args) ->
  forall cmds h h' o, used h -> execute handle_command cmds h = (h', None) -> served h n = Some o ->
  used h' /\ exists o', served h' n = Some o' /\ val o' = fold_left f (lines_for c cmds) (val o).
Proof.
  intros Hn HF. induction cmds as [|[[l ws] ln] cmds IH]; intros h h' o U E S; cbn [execute] in E.
  - injection E as <-. eauto.
  - pose proof (used_step rest cm dm h l ws ln U) as U1.
    assert (A : snd (handle_command h l ws ln) = None -> exists o1, served (fst (handle_command h l ws ln)) n = Some o1 /\
      val o1 = fold_left f (match ws with m :: args => match assoc m cm with Some d => if String.eqb c d then [args] else [] | None => [] end | [] => [] end) (val o)).
    { intros Q. destruct ws as [|m args]; [exists o; auto|]. destruct (assoc m cm) as [d|] eqn:Am.
      - apply assoc_In in Am. destruct (line_cases h m d l args ln U Am) as (p & vw & a' & d' & Sp & Cp & V & P & J).
        rewrite (J n c Hn). destruct (String.eqb_spec c d) as [<-|]; [|exists o; auto].
        eexists; split; [reflexivity|]. cbn [fold_left].
        assert (p = o) as ->.
        { destruct (used_served rest v cm dm Hv h n c U Hn) as (i & q & Ei & Eq & Sq & _).
          destruct (used_served rest v cm dm Hv h m c U Am) as (j & q' & Ej & Eq' & Sq' & _).
          pose proof (same_object h n c m c i j U Hn Am Ei Ej) as X0. assert (i = j) by now apply X0. subst j. congruence. }
        destruct (cl_parse (cls c) vw (stamp m l ln (o_attrs o)) (o_data o) args) as [[a1 d1] [r|e]] eqn:Ep.
        + destruct P as (-> & -> & _). exact (HF m vw l ln o args a1 d1 r Am Cp V Ep).
        + destruct P as (_ & _ & P). congruence.
      - destruct (line_unknown h m l args ln U) as [W _]; [|contradiction]. intros d Hd. apply (In_dict _ dict_cm) in Hd. congruence. }
    destruct (handle_command h l ws ln) as [h1 [e|]]; [discriminate|]. cbn [fst snd] in *.
    destruct (A eq_refl) as (o1 & S1 & V1). destruct (IH h1 h' o1 U1 E S1) as (U2 & o2 & S2 & V2).
    split; [exact U2|]. exists o2. split; [exact S2|]. rewrite V2, V1. unfold lines_for. cbn [flat_map fst snd]. rewrite fold_left_app. reflexivity.
Qed.
End Lines.
