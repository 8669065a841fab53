(** * C48: where a command and its data came from *)

From Verif Require Import PyStrFacts ArgParseFacts ArgErrFacts HandlerFacts ClassModel PropsHandler PropsClass HandlerSpec ParserSpec NsFacts.
From Verif Require Import PyKeep PyClass CmdFacts CmdFlow CmdLines PropsStorage PropsStore PropsRound PyMark.
From Verif Require PropsInit PropsPlace.
From Verif Require Import Value.
Local Open Scope string_scope.
Local Open Scope list_scope.
Local Arguments String.eqb : simpl never.

(** ** What a line leaves behind *)

(** A command line: its text, its words and its number. *)
Definition cline := (string * list string * N)%type.
(** The lines go to the handler one after the other; a line that is refused is passed over. *)
Fixpoint feed (h : handler) (ls : list cline) : handler :=
  match ls with [] => h | (line, ws, ln) :: r => feed (fst (handle_command h line ws ln)) r end.
(** The command object says it was given by this line. *)
Definition given_by (o : cmdobj) (n line : string) (ln : N) : Prop :=
  assoc "currentCmd" (o_attrs o) = Some (VStr n) /\ assoc "currentLine" (o_attrs o) = Some (VStr line) /\
  assoc "lineno" (o_attrs o) = Some (VInt (Z.of_N ln)) /\ assoc "seen" (o_attrs o) = Some (VBool true).
(** It says it was not given at all. *)
Definition not_given (o : cmdobj) : Prop :=
  assoc "currentCmd" (o_attrs o) = Some (VStr "") /\ assoc "currentLine" (o_attrs o) = Some (VStr "") /\
  assoc "lineno" (o_attrs o) = Some (VInt 0) /\ assoc "seen" (o_attrs o) = Some (VBool false).
(** The line names a command of class [c]. *)
Definition names_class (cm : list (string * string)) (c : string) (l : cline) : bool :=
  match snd (fst l) with n :: _ => match assoc n cm with Some d => String.eqb d c | None => false end | [] => false end.
(** The lines of the class, and the last one. *)
Definition lines_of (cm : list (string * string)) (c : string) (ls : list cline) : list cline := filter (names_class cm c) ls.
Fixpoint last_of (ls : list cline) : option cline :=
  match ls with [] => None | l :: r => match last_of r with Some x => Some x | None => Some l end end.
(** [a] is [b] without some of its members. *)
Inductive picked {A} : list A -> list A -> Prop :=
| pick_none : picked [] []
| pick_take x a b : picked a b -> picked (x :: a) (x :: b)
| pick_leave x a b : picked a b -> picked a (x :: b).
Definition line_number (d : data) : option value := assoc "lineno" (d_attrs d).
(** The two commands outside the model. *)
Definition outside : list string := ["FC6_MultiPath"; "F19_Realm"].

(** ** What the methods do *)

Definition notes_kept (c : string) : bool :=
  if based (comes_from c "parse") then true else
  match parse_code c with
  | Some s =>
      let ds := dests (table_of c) in
      if forallb (fun k => negb (mem k ds)) ["lineno"; "currentCmd"; "currentLine"; "seen"] && forallb (fun k => keeps k s) ["currentCmd"; "currentLine"; "seen"]
      then match mark [] s with Some (n, _, k) => k && match n with Some M => mem "_r" M | None => true end | None => false end
      else false
  | None => false
  end.
Definition in_tables (c : string) : bool :=
  if based (comes_from c "__init__") then true
  else match method_of c "__init__" [], method_of c "parse" [], method_of c "__str__" [] with Some _, Some _, Some _ => true | _, _, _ => false end.
Definition unmarked (a : attrs) : bool :=
  match assoc "currentCmd" a, assoc "currentLine" a, assoc "lineno" a, assoc "seen" a with
  | Some (VStr ""), Some (VStr ""), Some (VInt 0), Some (VBool false) => true
  | _, _, _, _ => false
  end.
Definition starts_unmarked (c : string) : bool :=
  if based (comes_from c "__init__") then true else if in_tables c then unmarked (init_of c) else false.
Definition others : list string := filter (fun c => negb (mem c outside)) used_classes.
Lemma others_kept : forallb notes_kept others = true.
Proof. vm_compute. reflexivity. Qed.
Lemma others_start : forallb starts_unmarked others = true.
Proof. vm_compute. reflexivity. Qed.
Lemma base_unmarked p : unmarked (base_attrs p) = true.
Proof. reflexivity. Qed.
Lemma unmarked_ok o : unmarked (o_attrs o) = true -> not_given o.
Proof.
  intros H. unfold unmarked in H. unfold not_given. destruct (assoc "currentCmd" (o_attrs o)) as [[| | |[]| | |]|]; try discriminate.
  destruct (assoc "currentLine" (o_attrs o)) as [[| | |[]| | |]|]; try discriminate.
  destruct (assoc "lineno" (o_attrs o)) as [[| |[]| | | |]|]; try discriminate.
  destruct (assoc "seen" (o_attrs o)) as [[|[]| | | | |]|]; try discriminate. auto.
Qed.
Lemma others_in v cm dm n c : In (v, (cm, dm)) handlers -> In (n, c) cm -> ~ In c outside -> In c others.
Proof.
  intros Hv Hc Ho. unfold others. apply filter_In. split.
  - unfold used_classes. apply PropsInit.distinct_has. apply in_flat_map. exists (v, (cm, dm)). split; [exact Hv|]. apply in_map_iff. exists (n, c). auto.
  - apply negb_true_iff. now apply mem_false.
Qed.
Local Opaque comes_from method_of table_of removed_of data_str new_attrs init_of used_classes others mark.

Lemma start_unmarked rest c : starts_unmarked c = true -> not_given (new_obj (class_model (cmd_class rest) c)).
Proof.
  intros H. apply unmarked_ok. cbn [new_obj o_attrs].
  change (cl_init (class_model (cmd_class rest) c)) with
      (from_base c "__init__" (base_attrs VNone) (base_attrs VNone) (base_attrs (VInt 0)) (cl_init (cmd_class rest c))).
  unfold starts_unmarked in H. destruct (based (comes_from c "__init__")) eqn:B.
  - unfold based in B. apply mem_In in B. unfold from_base. cbv zeta. destruct B as [<-|[<-|[<-|[]]]]; reflexivity.
  - rewrite (from_base_not c "__init__" _ _ _ _ B). unfold in_tables in H. rewrite B in H. unfold cmd_class.
    destruct (method_of c "__init__" []); [|discriminate]. destruct (method_of c "parse" []); [|discriminate]. destruct (method_of c "__str__" []); [|discriminate]. exact H.
Qed.

(** What parse leaves: the notes, the list, and the number of the line in what it makes. *)
Lemma parse_notes rest c v a l args a' d' r L : notes_kept c = true -> assoc "lineno" a = Some L ->
  cl_parse (class_model (cmd_class rest) c) v a l args = (a', d', r) ->
  (forall k, In k ["currentCmd"; "currentLine"; "lineno"; "seen"] -> assoc k a' = assoc k a) /\ d' = l /\
  forall d, r = Ok (Some d) -> line_number d = Some L.
Proof.
  unfold notes_kept. intros H HL P. destruct (based (comes_from c "parse")) eqn:B.
  - rewrite class_model_parse in P. unfold based in B. apply mem_In in B. unfold from_base in P. cbv zeta in P.
    destruct B as [B|[B|[B|[]]]]; rewrite <- B in P; cbn -[get] in P; injection P as <- <- <-; (split; [auto|]; split; [reflexivity|discriminate]).
  - destruct (parse_code c) as [s|] eqn:E; [|discriminate]. cbv zeta in H. destruct (forallb _ _ && forallb _ _) eqn:K; [|discriminate].
    apply andb_prop in K as [K1 K2]. rewrite forallb_forall in K1, K2.
    assert (O : own_parse c = true) by (unfold own_parse; now rewrite B).
    assert (PK : forall k, In k ["currentCmd"; "currentLine"; "seen"] -> parse_keeps k c = true).
    { intros k Hk. unfold parse_keeps. rewrite O, E, (K2 k Hk). rewrite K1; [reflexivity|]. destruct Hk as [<-|[<-|[<-|[]]]]; vm_compute; tauto. }
    pose proof P as P0. rewrite (class_parse rest c s E O) in P. unfold cmd_parse, run in P.
    destruct (mark [] s) as [[[n b] k]|] eqn:Em; [|discriminate]. apply andb_prop in H as [-> H].
    assert (X : ended L (n, b, true) (exec (parse_ctx c v l args) s [] a)).
    { apply (mark_sound (parse_ctx c v l args) L) with (M := []).
      - intros ln n0 r0 Hn. destruct (has_key "lineno" n0) eqn:Hk; [|reflexivity]. exfalso. cbn [parse_ctx c_parser c_args] in Hn.
        apply (known_dests _ _ _ _ _ _ Hn) in Hk. specialize (K1 "lineno" (or_introl eq_refl)). apply negb_true_iff in K1. apply mem_false in K1. contradiction.
      - exact Em.
      - split; [intros x p Hx; discriminate|]. split; [intros x p Hx; destruct Hx|exact HL]. }
    assert (G : assoc "lineno" a' = Some L /\ d' = l /\ forall d, r = Ok (Some d) -> line_number d = Some L).
    { clear P0. destruct (exec (parse_ctx c v l args) s [] a) as [e' s'|e' s'|p s'|x s']; cbn [ended fst snd] in X; injection P as <- <- <-.
      - destruct n as [M|]; [|contradiction]. destruct X as (_ & Xm & Xs). split; [exact Xs|]. split; [reflexivity|]. intros d Hd.
        destruct (assoc "_r" e') as [p|] eqn:Ee; [|discriminate]. cbn [bind] in Hd. destruct p; try discriminate. injection Hd as ->.
        apply mem_In in H. exact (Xm "_r" _ H Ee).
      - destruct b as [M|]; [|contradiction]. destruct X as (_ & _ & Xs). split; [exact Xs|]. split; [reflexivity|discriminate].
      - destruct X as (_ & Xm & Xs). split; [exact Xs|]. split; [reflexivity|]. intros d Hd. cbn [bind] in Hd. destruct p; try discriminate. injection Hd as ->. exact (Xm eq_refl).
      - split; [exact X|]. split; [reflexivity|discriminate]. }
    split; [|exact (proj2 G)]. intros k [<-|[<-|[<-|[<-|[]]]]];
      try (refine (parse_keeps_sound rest _ c v a l args a' d' r (PK _ _) P0); vm_compute; tauto). rewrite HL. exact (proj1 G).
Qed.

Lemma stamp_notes m line ln a : assoc "currentCmd" (stamp m line ln a) = Some (VStr m) /\ assoc "currentLine" (stamp m line ln a) = Some (VStr line) /\
  assoc "lineno" (stamp m line ln a) = Some (VInt (Z.of_N ln)) /\ assoc "seen" (stamp m line ln a) = Some (VBool true).
Proof. unfold stamp. rewrite !assoc_put. auto. Qed.
Lemma feed_app h a b : feed h (a ++ b) = feed (feed h a) b.
Proof. revert h. induction a as [|[[line ws] ln] a IH]; intros h; cbn [app feed]; auto. Qed.
Lemma last_app a x : last_of (a ++ [x]) = Some x.
Proof. induction a as [|y a IH]; cbn [app last_of]; [reflexivity|]. now rewrite IH. Qed.
Lemma picked_app {A} (a a' b b' : list A) : picked a a' -> picked b b' -> picked (a ++ b) (a' ++ b').
Proof. intros H K. induction H; cbn [app]; [exact K| |]; now constructor. Qed.

Section Lines.
Variable rest : string -> cclass.
Variables (v : Z) (cm dm : list (string * string)).
Hypothesis Hv : In (v, (cm, dm)) handlers.
Notation used := (used rest cm dm).

Lemma feed_used h ls : used h -> used (feed h ls).
Proof. revert h. induction ls as [|[[line ws] ln] ls IH]; intros h U; cbn [feed]; [exact U|]. apply IH. now apply used_step. Qed.

(** The object of [m] after its line. *)
Lemma marked_line h m c line args ln : used h -> In (m, c) cm -> ~ In c outside ->
  exists o a' new, served h m = Some o /\ given_by (mkObj (class_model (cmd_class rest) c) a' (o_data o ++ new)) m line ln /\ length new <= 1 /\
    (forall d, In d new -> line_number d = Some (VInt (Z.of_N ln))) /\
    forall n d, In (n, d) cm -> served (fst (handle_command h line (m :: args) ln)) n =
       if String.eqb d c then Some (mkObj (class_model (cmd_class rest) c) a' (o_data o ++ new)) else served h n.
Proof.
  intros U Hm Ho. destruct (line_cases rest v cm dm Hv h m c line args ln U Hm) as (o & vw & a' & d' & So & _ & _ & P & J).
  pose proof (others_in v cm dm m c Hv Hm Ho) as I. pose proof others_kept as K. rewrite forallb_forall in K. specialize (K c I).
  destruct (stamp_notes m line ln (o_attrs o)) as (S1 & S2 & S3 & S4).
  destruct (cl_parse (class_model (cmd_class rest) c) vw (stamp m line ln (o_attrs o)) (o_data o) args) as [[a1 d1] r] eqn:Q.
  destruct (parse_notes rest c vw _ _ args a1 d1 r (VInt (Z.of_N ln)) K S3 Q) as (N & -> & D).
  exists o, a'. assert (Ea : a' = a1) by (destruct r; apply P). subst a1.
  assert (G : forall l, given_by (mkObj (class_model (cmd_class rest) c) a' l) m line ln).
  { intros l. unfold given_by. cbn [o_attrs]. rewrite !N by (vm_compute; tauto). auto. }
  assert (X : exists new, d' = o_data o ++ new /\ length new <= 1 /\ forall d, In d new -> line_number d = Some (VInt (Z.of_N ln))).
  { destruct r as [[x|]|e]; destruct P as (_ & -> & _).
    - destruct (cl_list _); [|exists []; rewrite app_nil_r; repeat split; auto; intros ? []].
      exists [x]. split; [reflexivity|]. split; [auto|]. intros d [<-|[]]. now apply D.
    - exists []. rewrite app_nil_r. repeat split; auto. intros ? [].
    - exists []. rewrite app_nil_r. repeat split; auto. intros ? []. }
  destruct X as (new & -> & L1 & L2). exists new. auto 8.
Qed.
End Lines.

(** ** The theorems *)

(** After a line of a command, accepted or not, the command's object records the command
    as written, the text of the line and its number, and is marked as seen; the line adds
    at most one object to the command's list, and that object records the number. *)
Theorem C48_line : forall rest v cm dm n c h line args ln,
  In (v, (cm, dm)) handlers -> In (n, c) cm -> ~ In c outside -> used rest cm dm h ->
  exists o o' new, served h n = Some o /\ served (fst (handle_command h line (n :: args) ln)) n = Some o' /\
    given_by o' n line ln /\ o_data o' = o_data o ++ new /\ length new <= 1 /\
    forall d, In d new -> line_number d = Some (VInt (Z.of_N ln)).
Proof.
  intros rest v cm dm n c h line args ln Hv Hn Ho U.
  destruct (marked_line rest v cm dm Hv h n c line args ln U Hn Ho) as (o & a' & new & So & G & L1 & L2 & J).
  eexists o, _, new. split; [exact So|]. split; [rewrite (J n c Hn), eqb_refl_s; reflexivity|]. split; [exact G|]. auto.
Qed.
Print Assumptions C48_line.

(** After any lines from the start, the object of a command records the last line that
    named it, and says it was not given when there is none; the objects of its list have
    the numbers of lines that named it, in the order of the lines. *)
Theorem C48_file : forall rest v cm dm n c ls,
  In (v, (cm, dm)) handlers -> In (n, c) cm -> ~ In c outside ->
  exists o, served (feed (start rest cm dm) ls) n = Some o /\
    match last_of (lines_of cm c ls) with
    | Some (line, ws, ln) => exists m args, ws = m :: args /\ given_by o m line ln
    | None => not_given o
    end /\
    picked (map line_number (o_data o)) (map (fun l => Some (VInt (Z.of_N (snd l)))) (lines_of cm c ls)).
Proof.
  intros rest v cm dm n c ls Hv Hn Ho. pose proof (others_in v cm dm n c Hv Hn Ho) as I.
  induction ls as [|[[line ws] ln] ls IH] using rev_ind.
  - cbn [feed lines_of filter last_of map]. eexists. split; [apply (start_served rest v cm dm Hv n c Hn)|].
    split; [|constructor]. pose proof others_start as S. rewrite forallb_forall in S. exact (start_unmarked rest c (S c I)).
  - destruct IH as (o & So & N & P). rewrite feed_app. cbn [feed]. unfold lines_of in *. rewrite filter_app, map_app. cbn [filter map].
    set (h := feed (start rest cm dm) ls) in *. assert (U : used rest cm dm h) by (apply feed_used, used_start).
    assert (Same : names_class cm c (line, ws, ln) = false -> served (fst (handle_command h line ws ln)) n = Some o ->
      exists o0, served (fst (handle_command h line ws ln)) n = Some o0 /\
        match last_of (filter (names_class cm c) ls ++ (if names_class cm c (line, ws, ln) then [(line, ws, ln)] else [])) with
        | Some (line0, ws0, ln0) => exists m args, ws0 = m :: args /\ given_by o0 m line0 ln0
        | None => not_given o0
        end /\
        picked (map line_number (o_data o0)) (map (fun l => Some (VInt (Z.of_N (snd l)))) (filter (names_class cm c) ls) ++
          map (fun l : cline => Some (VInt (Z.of_N (snd l)))) (if names_class cm c (line, ws, ln) then [(line, ws, ln)] else []))).
    { intros -> S. exists o. rewrite app_nil_r. cbn [map]. rewrite app_nil_r. auto. }
    destruct ws as [|m args]; [apply Same; [reflexivity|exact So]|].
    destruct (assoc m cm) as [d|] eqn:Em.
    + pose proof (assoc_In _ _ _ Em) as Hm. destruct (String.eqb_spec d c) as [->|Ne].
      * destruct (marked_line rest v cm dm Hv h m c line args ln U Hm Ho) as (o1 & a' & new & S1 & G & L1 & L2 & J).
        assert (E : names_class cm c (line, m :: args, ln) = true) by (unfold names_class; cbn [fst snd]; rewrite Em; apply eqb_refl_s).
        rewrite E, last_app. eexists. split; [rewrite (J n c Hn), eqb_refl_s; reflexivity|]. split; [eauto|]. cbn [o_data].
        assert (o1 = o).
        { assert (served h n = served h m) by (exact (PropsPlace.served_alias rest v cm dm h n m c Hv U Hn Hm)). congruence. }
        subst o1. rewrite map_app. apply picked_app; [exact P|]. destruct new as [|x [|y new]]; cbn [map].
        -- apply pick_leave. constructor.
        -- rewrite (L2 x (or_introl eq_refl)). cbn [snd]. apply pick_take. constructor.
        -- cbn in L1. exfalso. inversion L1 as [|? L3]. inversion L3.
      * apply Same; [unfold names_class; cbn [fst snd]; rewrite Em; now apply String.eqb_neq|].
        destruct (line_cases rest v cm dm Hv h m d line args ln U Hm) as (o1 & vw & a' & d' & _ & _ & _ & _ & J).
        rewrite (J n c Hn). destruct (String.eqb_spec c d) as [->|]; [contradiction|exact So].
    + apply Same; [unfold names_class; cbn [fst snd]; now rewrite Em|].
      assert (A : forall d, ~ In (m, d) cm). { intros d Hd. apply (In_dict cm (dict_cm rest v cm dm Hv)) in Hd. congruence. }
      now rewrite (proj2 (line_unknown rest cm dm h m line args ln U A)).
Qed.
Print Assumptions C48_file.

Local Transparent comes_from method_of table_of removed_of data_str new_attrs init_of used_classes others mark.
Definition demo_feed : list cline :=
  [("repo --name=a --baseurl=x", ["repo"; "--name=a"; "--baseurl=x"], 3%N); ("repo --name=b", ["repo"; "--bogus"], 5%N);
   ("lang C", ["lang"; "C"], 6%N); ("repo --name=b --baseurl=y", ["repo"; "--name=b"; "--baseurl=y"], 8%N)].
Definition demo_numbers : option (list (option value) * option value * option value) :=
  match find (fun h => Z.eqb (fst h) F34) handlers with
  | Some (_, (cm, dm)) => match served (feed (start demo_rest cm dm) demo_feed) "repo", served (feed (start demo_rest cm dm) demo_feed) "lang" with
                     | Some o, Some p => Some (map line_number (o_data o), assoc "lineno" (o_attrs o), assoc "lineno" (o_attrs p))
                     | _, _ => None
                     end
  | None => None
  end.
Example C48_example : demo_numbers = Some ([Some (VInt 3); Some (VInt 8)], Some (VInt 8), Some (VInt 6)).
Proof. vm_compute. reflexivity. Qed.
