(** * C39: files of commands *)

From Verif Require Import PyStrFacts Shlex ParserLines PreFacts ArgParseFacts HandlerFacts ClassModel PropsHandler PropsClass HandlerSpec ParserSpec WholeSpec PropsFile.
From Verif Require Import PropsStorage PyClass PyText PyWordsFacts PyCheckFacts CmdFacts CmdLines RoundSpec CmdRound PropsRound PyLine CmdPlace PropsPlace CmdFile.
From Verif Require PropsRealm ShlexFacts.
From Coq Require Import Lia.
From Verif Require Import PyStr Value.
Local Open Scope string_scope.
Local Open Scope list_scope.
Local Arguments Ascii.eqb : simpl never.
Local Arguments String.eqb : simpl never.

(** ** Handlers made by lines that can be written again *)

(** [built G h]: the handler [h] is the one of the version after accepted lines of the commands of
    the classes [G], where C38 speaks about each of the lines: the commands that store the options
    of a line are given once, and what is stored can be written (see [RoundSpec.writable])
    and has a text.  Commands that exclude each other are not given together.  The commands that keep
    the text of their line (C49: auth, authconfig, authselect) can be given again and again, with any text
    that has words and is not broken into lines. *)
Section Built.
Variable rest : string -> cclass.
Variables (cm dm : list (string * string)).
Definition apart_from (G : list string) (n c : string) : Prop := forall m d, In (m, d) cm -> In d G -> d = c \/ apart m n.
Inductive built : list string -> handler -> Prop :=
| built_new : built [] (start rest cm dm)
| built_command G h line n nm c args ln h1 o : built G h -> In (n, c) cm -> In c (listed nm round_commands) -> ~ In c G -> apart_from G n c ->
    handle_command h line (n :: args) ln = (h1, None) -> served h1 n = Some o ->
    RoundSpec.writable nm c c args (o_attrs o) -> o_str o <> "" -> built (c :: G) h1
| built_data G h line n nm c args ln h1 o o1 d s : built G h -> In (n, c) cm -> In (c, d_class d) (listed nm round_data) -> apart_from G n c ->
    handle_command h line (n :: args) ln = (h1, None) -> served h n = Some o -> served h1 n = Some o1 -> o_data o1 = o_data o ++ [d] ->
    RoundSpec.writable nm c (d_class d) args (d_attrs d) -> data_str d = Ok s -> s <> "" -> built (c :: G) h1
| built_text G h n c k w t ws args ln h1 : built G h -> In (n, c) cm -> In (c, (k, w)) PropsRealm.kept_lines ->
    handle_command h (n ++ t) (n :: args) ln = (h1, None) -> strip t <> "" -> unbroken (strip t) = true -> shlex_split true (strip t) = Ok ws -> built (c :: G) h1.
End Built.

(** ** Commands that were not given *)

Definition inert_text_b (T : string) : bool := complete T && forallb inert (splitlines T).
Definition boots : list string :=
  ["F8_Bootloader"; "F12_Bootloader"; "RHEL6_Bootloader"; "F14_Bootloader"; "F15_Bootloader"; "F17_Bootloader"; "F18_Bootloader"; "F19_Bootloader"; "RHEL7_Bootloader";
   "F21_Bootloader"; "RHEL8_Bootloader"; "F29_Bootloader"; "F34_Bootloader"].
Definition boot_line : string := "bootloader --location=none".
Definition boot_text : string := ("# System bootloader configuration" ++ NL ++ boot_line ++ NL)%string.
Definition old_boots : list string := ["FC3_Bootloader"; "FC4_Bootloader"; "RHEL5_Bootloader"; "FC3_Lilo"].
Definition str_with (P : parser) (c : string) (a : attrs) : res string :=
  match method_of c "__str__" [] with Some t => text_res (snd (run (mkCtx no_view [] [] P init_of data_str) t [] a)) | None => Err TypeError end.
Definition fresh_ok (P : parser) (c : string) : bool :=
  based (comes_from c "__str__") || inits c && match str_with P c (init_of c) with Ok s => inert_text_b s | Err _ => true end.
Lemma fresh_texts P : forallb (fun e => mem (fst e) unmodelled || forallb (fun c => mem c old_boots || mem c boots || fresh_ok P c) (snd e)) classes_of = true.
Proof. vm_compute. reflexivity. Qed.
Definition boot_ok (c : string) : Prop := own_parse c = true /\ inits c = true /\ based (comes_from c "__str__") = false /\ (forall P, str_with P c (init_of c) = Ok boot_text) /\
  forall P V, match parse_code c with
  | Some st => match run (mkCtx V [] ["--location=none"] (build (table_of c)) init_of data_str) st [] (stamp "bootloader" "" 0 (init_of c)) with
               | (a, Ok PSelf) => str_with P c a = Ok boot_text
               | _ => False
               end
  | None => False
  end.
Lemma boots_ok : Forall boot_ok boots.
Proof. unfold boots. repeat (apply Forall_cons || apply Forall_nil); (do 3 (split; [vm_compute; reflexivity|]); split; [intros P; vm_compute; reflexivity|intros P V; vm_compute; reflexivity]). Qed.
Definition boots_named (h : Z * (list (string * string) * list (string * string))) : bool :=
  Z.ltb (fst h) F8 || forallb (fun nc => negb (mem (snd nc) old_boots) && (negb (mem (snd nc) boots) || match assoc "bootloader" (fst (snd h)) with Some c => String.eqb c (snd nc) | None => false end)) (fst (snd h)).
Lemma boots_names : forallb boots_named handlers = true.
Proof. vm_compute. reflexivity. Qed.
Definition apart_classes : bool :=
  forallb (fun e => forallb (fun c => negb (existsb (fun e' => existsb (fun p => String.eqb (fst p) c) (snd e')) round_data)) (snd e)) round_commands.
Lemma apart_classes_ok : apart_classes = true.
Proof. vm_compute. reflexivity. Qed.
Lemma round_apart c nm nm' t : In c (listed nm round_commands) -> ~ In (c, t) (listed nm' round_data).
Proof.
  intros H H'. destruct (in_round_data nm' _ H') as (l' & Hl' & Hp). unfold listed in H. destruct (assoc nm round_commands) as [l|] eqn:A; [|destruct H]. apply assoc_In in A.
  pose proof apart_classes_ok as K. unfold apart_classes in K. rewrite forallb_forall in K. specialize (K _ A). cbn [snd] in K. rewrite forallb_forall in K. specialize (K _ H).
  apply negb_true_iff in K. enough (X : existsb (fun e' => existsb (fun p => String.eqb (fst p) c) (snd e')) round_data = true) by congruence.
  apply existsb_exists. exists (nm', l'). split; [exact Hl'|]. apply existsb_exists. exists (c, t). split; [exact Hp|]. apply eqb_refl_s.
Qed.
(** The commands of C38 are written. *)
Definition prio_ok (c : string) : bool := inits c && match get "writePriority" (init_of c) with VInt _ => true | _ => false end.
Lemma prios_ok : forallb (fun e => prio_ok (fst (snd e))) rounds = true.
Proof. vm_compute. reflexivity. Qed.
Definition kept_class_ok (e : string * (string * string)) : bool :=
  prio_ok (fst e) && negb (mem (snd (snd e)) unmodelled) && name_like (snd (snd e)) && negb (mem (snd (snd e)) storage)
  && match asked (fst e) with [] => true | _ => false end
  && negb (existsb (fun r => existsb (fun p => String.eqb (fst p) (fst e)) (snd r)) round_data)
  && negb (existsb (fun r => mem (fst e) (snd r)) round_commands).
Lemma kept_classes_ok : forallb kept_class_ok PropsRealm.kept_lines = true.
Proof. vm_compute. reflexivity. Qed.
Lemma apart_sym n m : apart n m -> apart m n.
Proof. intros [A B]. split; assumption. Qed.
Lemma apart_off n m : ~ In n storage -> apart n m.
Proof.
  intros H. split; intros I; [|exact H]. exfalso. apply H. destruct I as [<-|[<-|[]]]; cbn; auto.
Qed.
Local Opaque parse_code comes_from method_of movable init_of table_of data_str based own_parse inits build.

Section Version.
Variable rest : string -> cclass.
Variables (v : Z) (cm dm : list (string * string)).
Hypothesis Hv : In (v, (cm, dm)) handlers.
Notation used := (used rest cm dm).
Notation start := (start rest cm dm).
Notation cls c := (class_model (cmd_class rest) c).
Notation fresh c := (new_obj (class_model (cmd_class rest) c)).
Notation ready := (ready rest cm dm).
Notation runs := (runs rest cm dm).
Notation good := (good rest cm dm).
Notation listing := (listing rest cm dm).
Notation quiet := (quiet rest cm dm).

Lemma of_classes n c : In (n, c) cm -> exists l, In (n, l) classes_of /\ In c l.
Proof.
  intros Hn. pose proof versions_ok as V. rewrite forallb_forall in V. specialize (V _ Hv). unfold version_ok in V. cbn [fst snd] in V.
  apply andb_prop in V as [V _]. apply andb_prop in V as [V _]. rewrite forallb_forall in V. specialize (V _ Hn). cbn [fst snd] in V.
  destruct (assoc n classes_of) as [l|] eqn:E; [|discriminate]. apply assoc_In in E. apply mem_In in V. eauto.
Qed.
Lemma str_run c st a : parse_code c = Some st -> based (comes_from c "__str__") = false ->
  cl_str (cls c) a [] = match str_with (build (table_of c)) c a with Ok s => s | Err _ => "" end.
Proof.
  intros Pc B. pose proof (parse_code_str c st Pc) as N. unfold str_with. destruct (method_of c "__str__" []) as [t|] eqn:M; [|contradiction].
  rewrite (class_str rest c st t a [] Pc B M). reflexivity.
Qed.
Lemma based_str c a l : based (comes_from c "__str__") = true -> cl_str (cls c) a l = "".
Proof.
  rewrite class_model_str. unfold from_base. Local Transparent based. unfold based. unfold mem. cbn [existsb].
  destruct (String.eqb (comes_from c "__str__") "DeprecatedCommand"); [reflexivity|].
  destruct (String.eqb (comes_from c "__str__") "RemovedCommand"); [reflexivity|].
  destruct (String.eqb (comes_from c "__str__") "KickstartCommand"); [reflexivity|discriminate].
Qed.
Hypothesis H8 : (F8 <= v)%Z.
Hypothesis Unm : forall n c, In (n, c) cm -> In n unmodelled -> o_str (fresh c) = "".
Lemma new_boots n c : In (n, c) cm -> mem c old_boots = false /\ (mem c boots = true -> In ("bootloader", c) cm).
Proof.
  intros Hn. pose proof boots_names as B. rewrite forallb_forall in B. specialize (B _ Hv). unfold boots_named in B. cbn [fst snd] in B.
  apply orb_prop in B as [B|B]; [apply Z.ltb_lt in B; lia|]. rewrite forallb_forall in B. specialize (B _ Hn). cbn [snd] in B. apply andb_prop in B as [B1 B2].
  apply negb_true_iff in B1. split; [exact B1|]. intros M. rewrite M in B2. cbn [negb orb] in B2. destruct (assoc "bootloader" cm) as [d|] eqn:A; [|discriminate].
  apply String.eqb_eq in B2 as ->. now apply assoc_In.
Qed.
Lemma fresh_inert n c : In (n, c) cm -> mem c boots = true \/ complete (o_str (fresh c)) = true /\ forallb inert (splitlines (o_str (fresh c))) = true.
Proof.
  intros Hn. destruct (in_dec string_dec n unmodelled) as [I|I]; [right; rewrite (Unm n c Hn I); split; reflexivity|].
  destruct (of_classes n c Hn) as (l & Hl & Hc). pose proof (fresh_texts (build (table_of c))) as F. rewrite forallb_forall in F. specialize (F _ Hl). cbn [fst snd] in F.
  apply orb_prop in F as [F|F]; [apply mem_In in F; contradiction|]. rewrite forallb_forall in F. specialize (F _ Hc). rewrite (proj1 (new_boots n c Hn)) in F. cbn [orb] in F.
  apply orb_prop in F as [F|F]; [now left|right]. unfold fresh_ok in F. unfold o_str. cbn [new_obj o_class o_attrs o_data].
  destruct (based (comes_from c "__str__")) eqn:B; [rewrite (based_str c _ _ B); split; reflexivity|]. cbn [orb] in F. apply andb_prop in F as [F1 F2].
  destruct (movable_code _ _ (moved_movable v cm dm Hv n c Hn I)) as [st Pc]. rewrite (class_init rest c st Pc F1), (str_run c st _ Pc B).
  destruct (str_with (build (table_of c)) c (init_of c)) as [s|]; [|split; reflexivity]. unfold inert_text_b in F2. now apply andb_prop in F2.
Qed.

(** The line written for a bootloader that was not given. *)
Lemma boot_words : shlex_split true boot_line = Ok ["bootloader"; "--location=none"].
Proof. vm_compute. reflexivity. Qed.
Lemma boot_block : command_text boot_text /\ forall k, exists k', commands_from k (splitlines boot_text) = [((boot_line ++ NL)%string, ["bootloader"; "--location=none"], k')].
Proof.
  change boot_text with (("# System bootloader configuration" ++ NL) ++ boot_line ++ NL)%string. apply block; [|vm_compute; reflexivity|exact boot_words|vm_compute; reflexivity].
  apply (remarks_line " System bootloader configuration" ""); [vm_compute; reflexivity|vm_compute; reflexivity|constructor].
Qed.
Lemma boot_asked c : In ("bootloader", c) cm -> asked c = [].
Proof.
  intros Hn. destruct (asked c) eqn:E; [reflexivity|]. exfalso.
  assert (S : In "bootloader" storage). { apply (moved_asking v cm dm Hv "bootloader" c Hn); [|rewrite E; discriminate]. intros I. repeat destruct I as [I|I]; try discriminate. destruct I. }
  repeat destruct S as [S|S]; try discriminate. destruct S.
Qed.
Lemma boot_runs c : In ("bootloader", c) cm -> mem c boots = true -> runs c boot_text (fun o => o_str o = boot_text).
Proof.
  intros Hn Mb h k (U & F & Q). destruct (proj2 boot_block k) as [k' ->]. cbn [execute].
  apply mem_In in Mb. pose proof boots_ok as B. rewrite Forall_forall in B. destruct (B c Mb) as (Ow & In_ & Bs & _ & B2). clear B.
  destruct (line_cases rest v cm dm Hv h "bootloader" c (boot_line ++ NL) ["--location=none"] k' U Hn) as (o & vw & a' & d' & S0 & Co & Vd & P & J).
  specialize (B2 (build (table_of c)) vw). destruct (parse_code c) as [st|] eqn:Pc; [|contradiction].
  rewrite (F "bootloader" Hn) in S0. injection S0 as <-. cbn [new_obj o_attrs o_data o_class] in P. rewrite (class_init rest c st Pc In_) in P.
  destruct (run (mkCtx vw [] ["--location=none"] (build (table_of c)) init_of data_str) st [] (stamp "bootloader" "" 0 (init_of c))) as [a [[]|]] eqn:R; try contradiction.
  assert (E1 : cl_parse (cls c) vw (stamp "bootloader" "" 0 (init_of c)) [] ["--location=none"] = (a, [], Ok None)).
  { rewrite (class_parse rest c st Pc Ow). unfold cmd_parse, parse_ctx. rewrite R. reflexivity. }
  assert (Mv : movable ["currentLine"; "lineno"] c = true).
  { apply (moved_movable v cm dm Hv "bootloader" c Hn). intros I. repeat destruct I as [I|I]; try discriminate. destruct I. }
  assert (Al : attrs_l ["currentLine"; "lineno"] (stamp "bootloader" "" 0 (init_of c)) (stamp "bootloader" (boot_line ++ NL) k' (init_of c))).
  { apply attrs_stamp; [|apply attrs_l_refl]. split; [now right|]. split; left; reflexivity. }
  destruct (parse_l rest ["currentLine"; "lineno"] c vw vw _ _ [] [] _ _ _ _ eq_refl Mv (fun _ => eq_refl) (fun _ _ => eq_refl) Al (Forall2_nil _) E1) as (b' & r' & E2 & _ & A2 & O2).
  rewrite E2 in P. destruct r' as [x|]; [destruct O2|]. destruct P as (-> & -> & P).
  destruct (handle_command h (boot_line ++ NL) ["bootloader"; "--location=none"] k') as [h1 e] eqn:E. cbn [fst snd] in P, J. subst e.
  exists h1, (mkObj (cls c) b' []). split; [reflexivity|]. split; [|split; [|split]].
  - pose proof (used_step rest cm dm h (boot_line ++ NL)%string ["bootloader"; "--location=none"] k' U) as X. now rewrite E in X.
  - unfold o_str. cbn [o_class o_attrs o_data].
    rewrite <- (str_l rest c st a b' [] [] Pc); [|apply (attrs_l_more ["currentLine"; "lineno"]); [|exact A2]|constructor].
    + rewrite (str_run c st a Pc Bs). now rewrite B2.
    + intros x Hx. apply mem_In in Hx. apply mem_In. destruct Hx as [<-|[<-|[]]]; cbn; auto.
  - intros n Hn'. now rewrite (J n c Hn'), eqb_refl_s.
  - intros m d Hm Nd. rewrite (J m d Hm). apply String.eqb_neq in Nd. now rewrite Nd.
Qed.

(** Commands that are not asked about. *)
Lemma quiet_apart h m c : used h -> In (m, c) cm -> ~ In m unmodelled ->
  (forall n d, In (n, d) cm -> served h n = Some (fresh d) \/ apart n m) -> quiet h c.
Proof.
  intros U Hm Nu A q Hq Wq.
  assert (St : used start) by (exists []; split; [constructor|reflexivity]).
  assert (Sm : In m storage). { apply (moved_asking v cm dm Hv m c Hm Nu). intros E. rewrite E in Hq. destruct Hq. }
  assert (G : forall K k, (forall d, apart k m -> In k K -> In (k, d) cm -> False) -> In k K -> given_alike h start k).
  { intros K k X Hk. unfold given_alike. destruct (assoc k cm) as [d|] eqn:Ak.
    - apply assoc_In in Ak. destruct (A k d Ak) as [-> |Ap]; [now rewrite (start_served rest v cm dm Hv k d Ak)|]. exfalso. exact (X d Ap Hk Ak).
    - assert (N : forall g, used g -> served g k = None).
      { intros g Ug. unfold served, identity. rewrite (proj1 (used_commands rest cm dm g Ug)). destruct (assoc k (h_commands (skeleton cm))) as [j|] eqn:Ek; [|reflexivity].
        exfalso. apply skeleton_names in Ek. congruence. }
      now rewrite (N h U), (N start St). }
  destruct (in_dec string_dec m layouts) as [I|I].
  - apply (given_asked rest v cm dm Hv watched storage h start q); [cbn; auto|exact U|exact St| |exact Wq]. intros k Sk. apply (G storage k); [|exact Sk].
    intros d [_ Ap] Hk _. exact (Ap I Hk).
  - apply (given_asked rest v cm dm Hv layouts layouts h start q); [cbn; auto|exact U|exact St| |exact (moved_more v cm dm Hv m c q Hm Nu I Hq)].
    intros k Sk. apply (G layouts k); [|exact Sk]. intros d [Ap _] Hk _. exact (Ap Hk Sm).
Qed.
Lemma apart_alias n n' c m : In (n, c) cm -> In (n', c) cm -> apart m n -> apart m n'.
Proof.
  intros Hn Hn' [A B]. split.
  - intros I J. apply (A I). exact (closed_as v cm dm Hv storage n' n c (or_intror (or_introl eq_refl)) Hn' Hn J).
  - intros I. apply B. exact (closed_as v cm dm Hv layouts n' n c (or_introl eq_refl) Hn' Hn I).
Qed.

(** ** What was given can be given again *)

(** A name for the class of a command of C38. *)
Lemma round_name nm c t n : In (nm, (c, t)) rounds -> In (n, c) cm -> In (nm, c) cm /\ ~ In nm unmodelled.
Proof.
  intros H Hn. destruct (round_parts nm c t v cm dm n H Hv Hn) as (_ & _ & _ & Hm). split; [exact Hm|].
  pose proof rounds_names as RN. rewrite forallb_forall in RN. specialize (RN _ H). unfold round_named in RN. cbn [fst] in RN. apply andb_prop in RN as [Nu _].
  apply negb_true_iff in Nu. now apply mem_not in Nu.
Qed.
Definition kept_text (c : string) (o : cmdobj) : Prop := exists k w t ws, In (c, (k, w)) PropsRealm.kept_lines /\
  strip t <> "" /\ unbroken (strip t) = true /\ shlex_split true (strip t) = Ok ws /\ o_data o = [] /\
  attrs_l all_places (put k (VStr (strip t)) (stamp "" "" 0 (init_of c))) (o_attrs o).
Definition entry (c : string) (o : cmdobj) : Prop :=
  (exists nm, In c (listed nm round_commands)) /\ good c o \/ (exists nm t, In (c, t) (listed nm round_data)) /\ listing c o \/ kept_text c o.

(** Commands that keep their text. *)
Lemma line_frame h n c line args ln h1 : used h -> In (n, c) cm -> handle_command h line (n :: args) ln = (h1, None) ->
  used h1 /\ forall m d, In (m, d) cm -> d <> c -> served h1 m = served h m.
Proof.
  intros U Hn E. split; [pose proof (used_step rest cm dm h line (n :: args) ln U) as X; now rewrite E in X|]. intros m d Hm Nd.
  destruct (line_cases rest v cm dm Hv h n c line args ln U Hn) as (o & vw & a' & d' & _ & _ & _ & _ & J). rewrite E in J. cbn [fst] in J.
  rewrite (J m d Hm). apply String.eqb_neq in Nd. now rewrite Nd.
Qed.
Lemma kept_named n c k w : In (n, c) cm -> In (c, (k, w)) PropsRealm.kept_lines ->
  In (w, c) cm /\ ~ In w unmodelled /\ name_like w = true /\ ~ In w storage /\ asked c = [] /\ prio_ok c = true /\
  (forall nm t, ~ In (c, t) (listed nm round_data)) /\ forall nm, ~ In c (listed nm round_commands).
Proof.
  intros Hn I. pose proof PropsRealm.kept_names as K. rewrite forallb_forall in K. specialize (K _ Hv). cbn [fst snd] in K. rewrite forallb_forall in K. specialize (K _ Hn). cbn [fst snd] in K.
  assert (A : assoc c PropsRealm.kept_lines = Some (k, w)) by (destruct I as [I|[I|[I|[]]]]; injection I as <- <- <-; reflexivity). rewrite A in K.
  destruct (assoc w cm) as [d|] eqn:Aw; [|discriminate]. apply String.eqb_eq in K as ->. split; [now apply assoc_In|].
  pose proof kept_classes_ok as C. rewrite forallb_forall in C. specialize (C _ I). unfold kept_class_ok in C. cbn [fst snd] in C.
  apply andb_prop in C as [C C7]. apply andb_prop in C as [C C6]. apply andb_prop in C as [C C5]. apply andb_prop in C as [C C4]. apply andb_prop in C as [C C3]. apply andb_prop in C as [C1 C2].
  apply negb_true_iff in C2, C4, C6, C7. apply mem_not in C2, C4. repeat (split; [assumption|]). split; [destruct (asked c); [reflexivity|discriminate]|]. split; [exact C1|].
  split.
  2: { intros nm X. unfold listed in X. destruct (assoc nm round_commands) as [l|] eqn:Al; [|destruct X]. apply assoc_In in Al.
       enough (Y : existsb (fun r => mem c (snd r)) round_commands = true) by congruence. apply existsb_exists. exists (nm, l). split; [exact Al|now apply mem_In]. }
  intros nm t X. destruct (in_round_data nm _ X) as (l & Hl & Hp). enough (Y : existsb (fun r => existsb (fun p => String.eqb (fst p) c) (snd r)) round_data = true) by congruence.
  apply existsb_exists. exists (nm, l). split; [exact Hl|]. apply existsb_exists. exists (c, t). split; [exact Hp|]. apply eqb_refl_s.
Qed.
Lemma kept_one c p q : In (c, p) PropsRealm.kept_lines -> In (c, q) PropsRealm.kept_lines -> p = q.
Proof. intros [X|[X|[X|[]]]] [Y|[Y|[Y|[]]]]; injection X as E <-; injection Y as F <-; subst c; try reflexivity; discriminate. Qed.
Lemma kept_read h n c k w t args ln : used h -> In (n, c) cm -> In (c, (k, w)) PropsRealm.kept_lines ->
  exists h1 o, handle_command h (n ++ t) (n :: args) ln = (h1, None) /\ served h n = Some o /\
    served h1 n = Some (mkObj (cls c) (put k (VStr (strip t)) (stamp n (n ++ t) ln (o_attrs o))) (o_data o)).
Proof.
  intros U Hn I. destruct (line_cases rest v cm dm Hv h n c (n ++ t) args ln U Hn) as (o & vw & a' & d' & So & _ & _ & P & J).
  destruct (PropsRealm.stamp_texts n (n ++ t) ln (o_attrs o)) as [T1 T2].
  rewrite (PropsRealm.kept_parse rest c k w vw _ _ args n (n ++ t) I T1 T2), VersionFacts.drop_app in P. destruct P as (-> & -> & E).
  destruct (handle_command h (n ++ t) (n :: args) ln) as [h1 e]. cbn [fst snd] in E, J. subst e. exists h1, o. split; [reflexivity|]. split; [exact So|].
  now rewrite (J n c Hn), eqb_refl_s.
Qed.
Lemma kept_over c k s a n line ln s' : attrs_l all_places (put k s (stamp "" "" 0 (init_of c))) a ->
  attrs_l all_places (put k s' (stamp "" "" 0 (init_of c))) (put k s' (stamp n line ln a)).
Proof.
  intros [H1 H2]. unfold stamp in *. split; intros j.
  - intros Mj. specialize (H1 j Mj). rewrite !assoc_put in *. destruct (String.eqb j k); [reflexivity|]. destruct (String.eqb j "seen"); [reflexivity|].
    assert (N : forall x, mem x all_places = true -> String.eqb j x = false) by (intros x Mx; destruct (String.eqb_spec j x) as [Ej|]; [rewrite Ej in Mj; congruence|reflexivity]).
    rewrite !N in * by reflexivity. exact H1.
  - specialize (H2 j). rewrite !assoc_put in *. destruct (String.eqb j k); [split; discriminate|]. destruct (String.eqb j "seen"); [split; discriminate|].
    destruct (String.eqb j "lineno"); [split; discriminate|]. destruct (String.eqb j "currentLine"); [split; discriminate|]. destruct (String.eqb j "currentCmd"); [split; discriminate|]. exact H2.
Qed.
Lemma kept_new c k n line ln s : attrs_l all_places (put k s (stamp "" "" 0 (init_of c))) (put k s (stamp n line ln (init_of c))).
Proof.
  apply attrs_put_or; [|now right]. apply attrs_stamp; [|apply attrs_l_refl]. split; [now left|]. split; now left.
Qed.
Lemma kept_code c k w : In (c, (k, w)) PropsRealm.kept_lines -> exists st, parse_code c = Some st.
Proof. intros I. pose proof PropsRealm.kept_codes as K. rewrite Forall_forall in K. destruct (K _ I) as (_ & _ & P & _). cbn [fst snd] in P. destruct P; eauto. Qed.
Lemma kept_fresh n c k w : In (n, c) cm -> In (c, (k, w)) PropsRealm.kept_lines -> o_attrs (fresh c) = init_of c /\ o_data (fresh c) = [].
Proof.
  intros Hn I. destruct (kept_code c k w I) as [st Pc]. destruct (kept_named n c k w Hn I) as (_ & _ & _ & _ & _ & P & _). unfold prio_ok in P. apply andb_prop in P as [P _].
  split; [|reflexivity]. cbn [new_obj o_attrs]. exact (class_init rest c st Pc P).
Qed.
Lemma kept_good n c o : In (n, c) cm -> o_class o = cls c -> kept_text c o -> good c o /\ exists nm, In (nm, c) cm /\ ~ In nm unmodelled.
Proof.
  intros Hn Co (k & w & t & ws & I & Ne & Ub & Sx & Do & Ao). destruct (kept_named n c k w Hn I) as (Hw & Nu & Nl & _). split; [|eauto].
  assert (Ak : assoc k (o_attrs o) = Some (VStr (strip t))).
  { destruct Ao as [H _]. rewrite <- H; [now rewrite assoc_put, eqb_refl_s|]. destruct I as [X|[X|[X|[]]]]; injection X as <- <- <-; reflexivity. }
  assert (Eo : o_str o = (("# System authorization information" ++ NL) ++ (w ++ " " ++ strip t) ++ NL)%string).
  { unfold o_str. rewrite Co, (PropsRealm.kept_cl_str rest c k w _ _ I Ak). apply String.eqb_neq in Ne. rewrite Ne. now rewrite !app_assoc_s. }
  assert (Sw : shlex_split true (w ++ " " ++ strip t) = Ok (w :: ws)).
  { assert (E : ShlexFacts.word_ok true [ShlexFacts.Bare w] = true) by (destruct I as [X|[X|[X|[]]]]; injection X as <- <- <-; vm_compute; reflexivity).
    pose proof (ShlexFacts.split_word true [ShlexFacts.Bare w] (" " ++ strip t) E eq_refl) as X. change (" " ++ strip t)%string with (String " " (strip t)) in X. rewrite (ShlexFacts.split_white true " " _ eq_refl), Sx in X.
    cbn [ShlexFacts.word_text ShlexFacts.word_val ShlexFacts.frag_text ShlexFacts.frag_val map concat_all bind] in X. change (" " ++ strip t)%string with (String " " (strip t)).
    destruct I as [Y|[Y|[Y|[]]]]; injection Y as <- <- <-; exact X. }
  assert (Uw : unbroken (w ++ " " ++ strip t) = true).
  { destruct I as [X|[X|[X|[]]]]; injection X as <- <- <-; exact Ub. }
  assert (R : remarks ("# System authorization information" ++ NL)).
  { apply (remarks_line " System authorization information" ""); [vm_compute; reflexivity|vm_compute; reflexivity|constructor]. }
  destruct (block _ _ w ws R Uw Sw Nl) as [CT CF]. unfold good. rewrite Eo. split; [exact CT|].
  intros h k0 (U & F & Q). destruct (CF k0) as [k' ->]. cbn [execute].
  assert (El : ((w ++ " " ++ strip t) ++ NL)%string = (w ++ " " ++ strip t ++ NL)%string) by now rewrite !app_assoc_s. rewrite El.
  destruct (kept_read h w c k w (" " ++ strip t ++ NL) ws k' U Hw I) as (h1 & o0 & E & S0 & S1). rewrite E.
  destruct (kept_fresh n c k w Hn I) as [Fa Fd]. rewrite (F w Hw) in S0. injection S0 as <-. rewrite Fa, Fd in S1.
  rewrite PropsRealm.strip_blanks in S1 by reflexivity.
  destruct (line_frame h w c _ ws k' h1 U Hw E) as [U1 Fr].
  exists h1. eexists. split; [reflexivity|]. split; [exact U1|]. split; [|split; [|exact Fr]].
  2: { intros m Hm. rewrite (served_alias rest v cm dm h1 m w c Hv U1 Hm Hw). exact S1. }
  split; [exact Co|]. cbn [o_attrs o_data]. rewrite Do. split; [|constructor]. eapply attrs_l_trans; [apply attrs_l_sym; exact Ao|]. apply kept_new.
Qed.
Definition kept (G : list string) (h : handler) : Prop := used h /\
  (forall n c, In (n, c) cm -> ~ In c G /\ served h n = Some (fresh c) \/ In c G /\ exists o, served h n = Some o /\ entry c o) /\
  (forall n c m d, In (n, c) cm -> In (m, d) cm -> In c G -> In d G -> c = d \/ apart n m).

Lemma kept_step G h n c line args ln h1 o : kept G h -> In (n, c) cm -> apart_from cm G n c -> handle_command h line (n :: args) ln = (h1, None) ->
  served h1 n = Some o -> entry c o -> kept (c :: G) h1.
Proof.
  intros (U & Sv & Ap) Hn Af E So En. destruct (line_frame h n c line args ln h1 U Hn E) as [U1 Fr]. split; [exact U1|]. split.
  - intros m d Hm. destruct (string_dec d c) as [->|Nd].
    + right. split; [now left|]. exists o. split; [|exact En]. now rewrite (served_alias rest v cm dm h1 m n c Hv U1 Hm Hn).
    + rewrite (Fr m d Hm Nd). destruct (Sv m d Hm) as [[N S]|[I S]]; [left|right]; (split; [|exact S]); cbn; [|auto]. intros [X|X]; [now apply Nd|contradiction].
  - assert (A : forall n' m d, In (n', c) cm -> In (m, d) cm -> In d G -> d = c \/ apart m n').
    { intros n' m d Hn' Hm Hd. destruct (Af m d Hm Hd) as [X|X]; [now left|right]. exact (apart_alias n n' c m Hn Hn' X). }
    intros n1 c1 m d Hn1 Hm [<-|I1] [<-|I2]; [now left| | |].
    + destruct (A n1 m d Hn1 Hm I2) as [X|X]; [now left|right; now apply apart_sym].
    + now apply A.
    + exact (Ap n1 c1 m d Hn1 Hm I1 I2).
Qed.
Lemma built_kept G h : built rest cm dm G h -> kept G h.
Proof.
  induction 1 as [|G h line n nm c args ln h1 o B IH Hn Hc Nc Af E So W Ne|G h line n nm c args ln h1 o o1 d s B IH Hn Hc Af E S0 S1 D W Ds Ne|G h n c k w t ws args ln h1 B IH Hn I E Ne Ub Sx].
  - split; [exists []; split; [constructor|reflexivity]|]. split; [|intros n c m d _ _ []]. intros n c Hn. left. split; [intros []|]. exact (start_served rest v cm dm Hv n c Hn).
  - pose proof IH as (U & Sv & Ap). destruct (round_name nm c c n (in_commands nm c Hc) Hn) as [Hm Nu].
    assert (S0 : served h n = Some (fresh c)). { destruct (Sv n c Hn) as [[_ S]|[I _]]; [exact S|contradiction]. }
    apply (kept_step G h n c line args ln h1 o IH Hn Af E So). left. split; [eauto|].
    refine (self_good rest v cm dm Hv h n nm c line args ln h1 o U Hn Hc S0 _ E So W Ne).
    apply (quiet_apart h nm c U Hm Nu). intros m d Hd. destruct (Sv m d Hd) as [[_ S]|[I _]]; [now left|right].
    destruct (Af m d Hd I) as [->|X]; [contradiction|]. exact (apart_alias n nm c m Hn Hm X).
  - pose proof IH as (U & Sv & Ap). destruct (round_name nm c (d_class d) n (proj1 (in_data nm _ Hc)) Hn) as [Hm Nu].
    apply (kept_step G h n c line args ln h1 o1 IH Hn Af E S1). right. left. split; [eauto|].
    assert (Qh : quiet h c).
    { apply (quiet_apart h nm c U Hm Nu). intros m x Hx. destruct (Sv m x Hx) as [[_ S]|[I _]]; [now left|right].
      destruct (Af m x Hx I) as [->|X]; [|exact (apart_alias n nm c m Hn Hm X)]. pose proof (data_name nm _ Hc) as Ly.
      split; [|contradiction]. intros L. exfalso. apply Ly. exact (closed_as v cm dm Hv layouts m nm c (or_introl eq_refl) Hx Hm L). }
    refine (data_listing rest v cm dm Hv h n nm c line args ln h1 o o1 d s U Hn Hc S0 _ Qh E S1 D W Ds Ne).
    destruct (Sv n c Hn) as [[_ S]|(_ & o' & S & En)]; rewrite S0 in S; injection S as ->; [now apply listing_new|].
    destruct En as [[[nm' X] _]|[[_ L]|(k & w & t & ws & I & _)]]; [|exact L|]; exfalso; [exact (round_apart c nm' nm (d_class d) X Hc)|].
    destruct (kept_named n c k w Hn I) as (_ & _ & _ & _ & _ & _ & N & _). exact (N nm (d_class d) Hc).
  - pose proof IH as (U & Sv & Ap). destruct (kept_named n c k w Hn I) as (Hw & _ & _ & Ns & _ & _ & Nd & Nc). destruct (kept_read h n c k w t args ln U Hn I) as (h1' & o & E' & S0 & S1).
    rewrite E in E'. injection E' as <-.
    assert (Af : apart_from cm G n c). { intros m d Hm Hd. right. exact (apart_alias w n c m Hw Hn (apart_sym _ _ (apart_off w m Ns))). }
    apply (kept_step G h n c _ args ln h1 _ IH Hn Af E S1). right. right. exists k, w, t, ws. repeat (split; [assumption|]). cbn [o_data o_attrs].
    destruct (kept_fresh n c k w Hn I) as [Fa Fd]. destruct (Sv n c Hn) as [[_ S]|(_ & o' & S & En)]; rewrite S0 in S; injection S as ->.
    + rewrite Fa, Fd. split; [reflexivity|]. apply kept_new.
    + destruct En as [[[nm X] _]|[[(nm & t' & X) _]|(k' & w' & t' & ws' & I' & _ & _ & _ & D' & A')]]; [|destruct (Nd nm t' X)|].
      * destruct (Nc nm X).
      * split; [exact D'|]. assert ((k', w') = (k, w)) as X by (exact (kept_one c _ _ I' I)). injection X as -> ->. exact (kept_over c k _ _ n _ ln _ A').
Qed.

(** ** Reading the commands again *)
Definition again (G : list string) (c : string) (a o : cmdobj) : Prop := o_str o = o_str a /\ (In c G -> obj_l a o) /\ (~ In c G -> ~ In c boots -> o = a).
Lemma class_of h n c o : used h -> In (n, c) cm -> served h n = Some o -> o_class o = cls c.
Proof. intros U Hn S. destruct (used_served rest v cm dm Hv h n c U Hn) as (i & p & _ & _ & Sp & Cp). rewrite S in Sp. now injection Sp as ->. Qed.
Lemma kept_part G h n c a : kept G h -> In (n, c) cm -> served h n = Some a ->
  (~ In c G /\ mem c boots = false /\ a = fresh c /\ complete (o_str a) = true /\ forallb inert (splitlines (o_str a)) = true) \/
  ((In c G \/ mem c boots = true) /\ command_text (o_str a) /\ runs c (o_str a) (again G c a) /\
   exists nm, In (nm, c) cm /\ ~ In nm unmodelled /\ (~ In c G -> nm = "bootloader")).
Proof.
  intros (U & Sv & Ap) Hn Sa. destruct (Sv n c Hn) as [[N S]|(I & o & S & En)]; rewrite Sa in S; injection S as ->.
  - destruct (mem c boots) eqn:Mb.
    + right. destruct (new_boots n c Hn) as [_ Hb]. specialize (Hb Mb).
      assert (T : o_str (fresh c) = boot_text).
      { pose proof boots_ok as B. rewrite Forall_forall in B. pose proof Mb as Ib. apply mem_In in Ib. destruct (B c Ib) as (Ow & In_ & Bs & B1 & B2). clear B.
        specialize (B2 (build (table_of c)) no_view). unfold o_str. cbn [new_obj o_class o_attrs o_data].
        destruct (parse_code c) as [st|] eqn:Pc; [|contradiction]. rewrite (class_init rest c st Pc In_), (str_run c st _ Pc Bs), B1. reflexivity. }
      rewrite T. split; [now right|]. split; [exact (proj1 boot_block)|]. split.
      * intros h' k R. destruct (boot_runs c Hb Mb h' k R) as (h1 & o & E & U1 & K & F & Fr). exists h1, o. repeat (split; [assumption|]). split; [|auto]. split; [congruence|]. split; [contradiction|]. intros _ X. apply mem_In in Mb. contradiction.
      * exists "bootloader". split; [exact Hb|]. split; [|reflexivity]. intros I. repeat destruct I as [I|I]; try discriminate. destruct I.
    + left. destruct (fresh_inert n c Hn) as [X|[X Y]]; [congruence|]. auto.
  - right. assert (Gd : good c o /\ exists nm, In (nm, c) cm /\ ~ In nm unmodelled).
    { destruct En as [[[nm X] Gd]|[[(nm & t & X) L]|K]].
      - split; [exact Gd|]. exists nm. exact (round_name nm c c n (in_commands nm c X) Hn).
      - split; [exact (listing_good rest v cm dm Hv n nm c t h o U Hn Sa X L)|]. exists nm. exact (round_name nm c t n (proj1 (in_data nm (c, t) X)) Hn).
      - exact (kept_good n c o Hn (class_of h n c o U Hn Sa) K). }
    destruct Gd as [[CT Rn] (nm & Hm & Nu)]. split; [now left|]. split; [exact CT|]. split.
    + intros h' k R. destruct (Rn h' k R) as (h1 & o1 & E & U1 & K & F & Fr). exists h1, o1. repeat (split; [assumption|]). split; [|auto]. split; [|split; [auto|contradiction]].
      destruct (movable_code _ _ (moved_movable v cm dm Hv nm c Hm Nu)) as [st Pc]. symmetry. apply (same_str rest o o1 c st Pc); [|exact K]. exact (class_of h n c o U Hn Sa).
    + exists nm. split; [exact Hm|]. split; [exact Nu|]. contradiction.
Qed.

Lemma replay G h l : kept G h -> StronglySorted written_before l -> (forall a, In a l -> exists n c, In (n, c) cm /\ served h n = Some a) ->
  forall h' k, used h' -> (forall n c a, In (n, c) cm -> In a l -> served h n = Some a -> served h' n = Some (fresh c)) ->
  (forall n c, In (n, c) cm -> served h' n = Some (fresh c) \/ In c G \/ mem c boots = true) ->
  command_text (concat_all (map o_str l)) /\
  exists h2, execute handle_command (commands_from k (splitlines (concat_all (map o_str l)))) h' = (h2, None) /\ used h2 /\
    (forall n c a, In (n, c) cm -> In a l -> served h n = Some a -> exists o, served h2 n = Some o /\ again G c a o) /\
    (forall n c, In (n, c) cm -> (forall a, In a l -> served h n <> Some a) -> served h2 n = served h' n).
Proof.
  intros Kp So. induction So as [|a r Sr IH Fa]; intros Is h' k U' F' O'.
  - split; [split; reflexivity|]. exists h'. split; [reflexivity|]. split; [exact U'|]. split; [intros n c a _ []|reflexivity].
  - cbn [map concat_all]. destruct (Is a (or_introl eq_refl)) as (n & c & Hn & Sa).
    assert (Na : ~ In a r). { intros I. rewrite Forall_forall in Fa. exact (written_before_irrefl a (Fa a I)). }
    pose proof Kp as (U & Sv & Ap).
    assert (Al : forall m, In (m, c) cm -> served h m = Some a) by (intros m Hm; now rewrite (served_alias rest v cm dm h m n c Hv U Hm Hn)).
    assert (Nd : forall m d b, In (m, d) cm -> In b r -> served h m = Some b -> d <> c) by (intros m d b Hm Hb Sb ->; rewrite (Al m Hm) in Sb; injection Sb as ->; contradiction).
    assert (Hm : forall m d, In (m, d) cm -> served h m = Some a -> d = c).
    { intros m d Hm Sm. pose proof (class_of h m d a U Hm Sm) as X. pose proof (class_of h n c a U Hn Sa) as Y. rewrite X in Y. apply (f_equal cl_name) in Y. exact Y. }
    destruct (kept_part G h n c a Kp Hn Sa) as [(Nc & Mb & -> & C & I)|(Oc & CT & Rn & nm & Hnm & Nu & Bn)].
    + (* not given, and nothing to read *)
      destruct (IH (fun b Hb => Is b (or_intror Hb)) h' (k + N.of_nat (length (splitlines (o_str (fresh c)))))%N U') as (CT2 & h2 & E2 & U2 & A2 & B2).
      { intros m d b Hd Hb. apply F'; [exact Hd|now right]. }
      { exact O'. }
      pose proof (inert_text _ C I) as CT. split; [now apply command_text_app|]. exists h2. rewrite from_app by exact CT. rewrite (inert_from _ I). cbn [app]. split; [exact E2|]. split; [exact U2|]. split.
      * intros m d b Hd [<-|Hb] Sb; [|now apply A2]. assert (d = c) as -> by (now apply (Hm m)).
        exists (fresh c). split; [|split; [reflexivity|split; [contradiction|reflexivity]]]. rewrite (B2 m c Hd); [apply (F' m c (fresh c)); auto; now left|]. intros b Hb X. apply (Nd m c b Hd Hb X). reflexivity.
      * intros m d Hd X. apply (B2 m d Hd). intros b Hb. apply X. now right.
    + assert (Rd : ready h' c).
      { split; [exact U'|]. split; [intros m Hm'; apply (F' m c a); auto; now left|]. apply (quiet_apart h' nm c U' Hnm Nu). intros m d Hd.
        destruct (O' m d Hd) as [X|[X|X]]; [now left| |].
        - destruct Oc as [Oc|Oc].
          + destruct (Ap m d nm c Hd Hnm X Oc) as [->|Y]; [left; apply (F' m c a); auto; now left|now right].
          + destruct (in_dec string_dec c G) as [Ic|Ic]; [destruct (Ap m d nm c Hd Hnm X Ic) as [->|Y]; [left; apply (F' m c a); auto; now left|now right]|].
            right. rewrite (Bn Ic). apply apart_sym, apart_off. intros Y. repeat destruct Y as [Y|Y]; try discriminate. destruct Y.
        - right. destruct (new_boots m d Hd) as [_ Hb]. specialize (Hb X). apply apart_sym. apply (apart_alias "bootloader" m d nm Hb Hd). apply apart_sym, apart_off.
          intros Y. repeat destruct Y as [Y|Y]; try discriminate. destruct Y. }
      destruct (Rn h' k Rd) as (h1 & o & E1 & U1 & K & F1 & Fr1).
      destruct (IH (fun b Hb => Is b (or_intror Hb)) h1 (k + N.of_nat (length (splitlines (o_str a))))%N U1) as (CT2 & h2 & E2 & U2 & A2 & B2).
      { intros m d b Hd Hb Sb. rewrite (Fr1 m d Hd (Nd m d b Hd Hb Sb)). apply (F' m d b); auto. now right. }
      { intros m d Hd. destruct (string_dec d c) as [->|N]; [now right|]. rewrite (Fr1 m d Hd N). now apply O'. }
      split; [now apply command_text_app|]. exists h2. rewrite from_app by exact CT. rewrite execute_app, E1. split; [exact E2|]. split; [exact U2|]. split.
      * intros m d b Hd [<-|Hb] Sb; [|now apply A2]. assert (d = c) as -> by (now apply (Hm m)).
        exists o. split; [|exact K]. rewrite (B2 m c Hd); [now apply F1|]. intros b Hb X. apply (Nd m c b Hd Hb X). reflexivity.
      * intros m d Hd X. rewrite (B2 m d Hd) by (intros b Hb; apply X; now right). apply (Fr1 m d Hd). intros ->. apply (X a (or_introl eq_refl)). now apply Al.
Qed.

(** ** C39 *)
Lemma entry_prio h n c o : used h -> In (n, c) cm -> served h n = Some o -> entry c o -> cl_prio (o_class o) <> None.
Proof.
  intros U Hn So En. assert (R : prio_ok c = true /\ exists nm, In (nm, c) cm /\ ~ In nm unmodelled).
  { assert (Y : forall nm t, In (nm, (c, t)) rounds -> prio_ok c = true /\ exists nm, In (nm, c) cm /\ ~ In nm unmodelled).
    { intros nm t R. split; [|exists nm; exact (round_name nm c t n R Hn)]. pose proof prios_ok as P. rewrite forallb_forall in P. exact (P _ R). }
    destruct En as [[[nm X] _]|[[(nm & t & X) _]|(k & w & t & ws & I & _)]]; [exact (Y nm c (in_commands nm c X))|exact (Y nm t (proj1 (in_data nm (c, t) X)))|].
    destruct (kept_named n c k w Hn I) as (Hw & Nu & _ & _ & _ & P & _). eauto. }
  destruct R as (P & nm & Hm & Nu). destruct (movable_code _ _ (moved_movable v cm dm Hv nm c Hm Nu)) as [st Pc]. unfold prio_ok in P. apply andb_prop in P as [P1 P2].
  rewrite (class_of h n c o U Hn So). unfold cl_prio, o_prio. cbn [new_obj o_attrs]. rewrite (class_init rest c st Pc P1).
  destruct (get "writePriority" (init_of c)); discriminate.
Qed.

Lemma kept_again G h k : kept G h -> command_text (commands_str h) /\
  exists h2, execute handle_command (commands_from k (splitlines (commands_str h))) start = (h2, None) /\ used h2 /\ commands_str h2 = commands_str h /\
    forall n c, In (n, c) cm -> (In c G -> exists o o2, served h n = Some o /\ served h2 n = Some o2 /\ obj_l o o2) /\ (~ In c G -> ~ In c boots -> served h2 n = served h n).
Proof.
  intros Kp. pose proof Kp as (U & Sv & Ap). rewrite (commands_str_written h).
  pose proof (version_dict (cmd_class rest) _ _ _ Hv) as D. pose proof (in_use_inv _ _ D (used_in_use rest cm dm h U)) as I.
  assert (Wi : forall a, In a (written h) <-> (exists n, served h n = Some a) /\ cl_prio (o_class a) <> None) by (exact (written_in _ h I D)).
  assert (Is : forall a, In a (written h) -> exists n c, In (n, c) cm /\ served h n = Some a).
  { intros a Ha. apply Wi in Ha as [(n & Sn) _]. pose proof Sn as Sn'. unfold served, identity in Sn'. rewrite (proj1 (used_commands rest cm dm h U)) in Sn'.
    destruct (assoc n (h_commands (skeleton cm))) as [j|] eqn:Ek; [|discriminate]. pose proof (skeleton_names cm n _ Ek) as Nn. destruct (assoc n cm) as [c|] eqn:Ac; [|congruence]. exists n, c. split; [now apply assoc_In|exact Sn]. }
  assert (St : used start) by (exists []; split; [constructor|reflexivity]).
  destruct (replay G h (written h) Kp (written_sorted _ h I) Is start k St) as (CT & h2 & E2 & U2 & A2 & B2).
  { intros n c a Hn _ _. exact (start_served rest v cm dm Hv n c Hn). }
  { intros n c Hn. left. exact (start_served rest v cm dm Hv n c Hn). }
  split; [exact CT|]. exists h2. split; [exact E2|]. split; [exact U2|].
  rewrite <- (commands_str_written h). split.
  - unfold commands_str.
    assert (O : h_order h2 = h_order h) by (now rewrite <- (sh_order _ _ (used_shape rest cm dm h U)), <- (sh_order _ _ (used_shape rest cm dm h2 U2))).
    rewrite O. f_equal. apply map_ext_in. intros [p l] Hp. cbn [snd]. f_equal. apply map_ext_in. intros i Hi.
    destruct (inv_order _ _ I p l (Permutation.Permutation_in _ (Permutation.Permutation_sym (sort_prio_perm _)) Hp)) as [_ Li]. destruct (Li i Hi) as [(n & En) (o & Eo & Pr)].
    assert (So : served h n = Some o) by (unfold served, identity; now rewrite En).
    assert (Wo : In o (written h)) by (apply Wi; split; [eauto|congruence]). pose proof En as Ek. rewrite (proj1 (used_commands rest cm dm h U)) in Ek.
    pose proof (skeleton_names cm n _ Ek) as Nn. destruct (assoc n cm) as [c|] eqn:Ac; [|congruence]. apply assoc_In in Ac.
    destruct (A2 n c o Ac Wo So) as (o2 & S2 & [X _]). unfold served, identity in S2. rewrite (proj1 (used_commands rest cm dm h2 U2)), Ek in S2.
    unfold str_at. now rewrite Eo, S2.
  - intros n c Hn. split.
    + intros Ic. destruct (Sv n c Hn) as [[N _]|(_ & o & So & En)]; [contradiction|]. exists o.
      assert (Wo : In o (written h)) by (apply Wi; split; [eauto|exact (entry_prio h n c o U Hn So En)]).
      destruct (A2 n c o Hn Wo So) as (o2 & S2 & (_ & X & _)). exists o2. auto.
    + intros Nc Nb. destruct (Sv n c Hn) as [[_ S0]|[X _]]; [|contradiction].
      destruct (cl_prio (cls c)) as [p|] eqn:Pr.
      * assert (Wo : In (fresh c) (written h)) by (apply Wi; split; [eauto|cbn [new_obj o_class]; congruence]).
        destruct (A2 n c _ Hn Wo S0) as (o2 & S2 & (_ & _ & X)). rewrite S2, S0. f_equal. now apply X.
      * rewrite (B2 n c Hn); [rewrite S0; exact (start_served rest v cm dm Hv n c Hn)|]. intros a Ha Sa. rewrite S0 in Sa. injection Sa as <-. apply Wi in Ha as [_ Ha]. apply Ha. exact Pr.
Qed.
End Version.

(** Write a handler made by lines of the commands of C38, and read the commands of the file with a new
    handler: there is no error, the new handler writes the same text, what was given has the same settings,
    and what was not given is as it was.  (The bootloader is written with a location even if it was
    not given, see [boot_text].) *)
Definition absent (rest : string -> cclass) (cm : list (string * string)) : Prop :=
  forall n c, In (n, c) cm -> In n unmodelled -> o_str (new_obj (class_model (cmd_class rest) c)) = "".
Theorem C39_commands_partial : forall rest v cm dm G h k,
  In (v, (cm, dm)) handlers -> (F8 <= v)%Z -> absent rest cm -> built rest cm dm G h ->
  command_text (commands_str h) /\
  exists h2, execute handle_command (commands_from k (splitlines (commands_str h))) (start rest cm dm) = (h2, None) /\ commands_str h2 = commands_str h /\
    forall n c, In (n, c) cm ->
      (In c G -> exists o o2, served h n = Some o /\ served h2 n = Some o2 /\ same_settings o o2) /\
      (~ In c G -> ~ In c boots -> served h2 n = served h n).
Proof.
  intros rest v cm dm G h k Hv H8 Ab B. destruct (kept_again rest v cm dm Hv H8 Ab G h k (built_kept rest v cm dm Hv G h B)) as (CT & h2 & E & _ & S & A).
  split; [exact CT|]. exists h2. split; [exact E|]. split; [exact S|]. intros n c Hn. destruct (A n c Hn) as [A1 A2]. split; [|exact A2].
  intros Ic. destruct (A1 Ic) as (o & o2 & S1 & S2 & R). exists o, o2. split; [exact S1|]. split; [exact S2|]. now apply same_l.
Qed.
Print Assumptions C39_commands_partial.

(** The same for the whole file. *)
Theorem C39_whole_partial : forall rest cf n pyks platform version cm dm G h s,
  In (cf_version cf, (cm, dm)) handlers -> (F8 <= cf_version cf)%Z -> cf_errorsAreFatal cf = true -> absent rest cm ->
  WholeSpec.one_line pyks = true -> platform_name platform -> WholeSpec.one_line version = true ->
  built rest cm dm G h -> file_sections (cf_version cf) s ->
  let text := handler_str pyks version (cf_version cf) platform h s in
  exists st, readKickstartFromString handler handle_command cf n text (new_parser handler (start rest cm dm) no_sections_yet "") = (st, None) /\
    ks_platform handler st = platform /\ same_scripts (sh_scripts s) (sh_scripts (ks_sec handler st)) /\
    (packages_str (cf_version cf) (sh_packages s) <> "" -> sh_packages (ks_sec handler st) = as_read (sh_packages s)) /\
    (forall n c, In (n, c) cm ->
      (In c G -> exists o o2, served h n = Some o /\ served (ks_cmds handler st) n = Some o2 /\ same_settings o o2) /\
      (~ In c G -> ~ In c boots -> served (ks_cmds handler st) n = served h n)) /\
    handler_str pyks version (cf_version cf) (ks_platform handler st) (ks_cmds handler st) (ks_sec handler st) = text.
Proof.
  intros rest cf n pyks platform version cm dm G h s Hv H8 HF Ab Hp Hpl Hve B Fs text.
  destruct (C39_commands_partial rest _ cm dm G h (if String.eqb platform "" then 2 else 3)%N Hv H8 Ab B) as (CT & h2 & E & S & A).
  destruct (C39_file_partial cf n pyks platform version h s (start rest cm dm) h2 HF H8 Hp Hpl Hve CT Fs E S) as (st & R & C & P & Sc & Pk & T).
  exists st. rewrite C. rewrite C in T. repeat (split; [assumption|]). exact T.
Qed.
Print Assumptions C39_whole_partial.

(** A Fedora 34 handler with an nfs line and a group line. *)
Definition maps_34 : list (string * string) * list (string * string) :=
  Eval vm_compute in match find (fun h => Z.eqb (fst h) F34) handlers with Some (_, m) => m | None => ([], []) end.
Definition whole_1 : handler := fst (handle_command (start demo_rest (fst maps_34) (snd maps_34)) "" ["nfs"; "--server=s"; "--dir=/d"] 1).
Definition whole_2 : handler := fst (handle_command whole_1 "" ["group"; "--name=g"; "--gid=7"] 1).
Lemma served_attrs h n (x : attrs * list data * string) : option_map (fun o => (o_attrs o, o_data o, o_str o)) (served h n) = Some x ->
  exists o, served h n = Some o /\ o_attrs o = fst (fst x) /\ o_data o = snd (fst x) /\ o_str o = snd x.
Proof. destruct (served h n) as [o|]; [|discriminate]. intros E. injection E as <-. exists o. auto. Qed.
Lemma surjective_pairing_none {A B} (x : A * option B) : snd x = None -> x = (fst x, None).
Proof. destruct x as [a b]. cbn. now intros ->. Qed.
Lemma whole_1_line : handle_command (start demo_rest (fst maps_34) (snd maps_34)) "" ["nfs"; "--server=s"; "--dir=/d"] 1 = (whole_1, None).
Proof. refine (surjective_pairing_none _ _). vm_compute. reflexivity. Qed.
Lemma whole_2_line : handle_command whole_1 "" ["group"; "--name=g"; "--gid=7"] 1 = (whole_2, None).
Proof. refine (surjective_pairing_none _ _). vm_compute. reflexivity. Qed.
Example C39_whole_example :
  In (F34, maps_34) handlers /\ absent demo_rest (fst maps_34) /\ built demo_rest (fst maps_34) (snd maps_34) ["F12_Group"; "FC6_NFS"] whole_2.
Proof.
  split; [|split].
  - assert (X : find (fun h => Z.eqb (fst h) F34) handlers = Some (F34, maps_34)) by (vm_compute; reflexivity). exact (proj1 (find_some _ _ X)).
  - intros n c Hn Nu.
    assert (X : forallb (fun p => negb (mem (fst p) unmodelled) || String.eqb (o_str (new_obj (class_model (cmd_class demo_rest) (snd p)))) "") (fst maps_34) = true) by (vm_compute; reflexivity).
    rewrite forallb_forall in X. specialize (X _ Hn). cbn [fst snd] in X. apply mem_In in Nu. rewrite Nu in X. now apply String.eqb_eq in X.
  - destruct (served_attrs whole_1 "nfs" (demo_nfs, [], ("# Use NFS installation media" ++ NL ++ "nfs --server=s --dir=/d" ++ NL)%string)) as (o & So & Ao & _ & To); [vm_compute; reflexivity|].
    cbn [fst snd] in Ao, To.
    destruct (served_attrs whole_2 "group" (match served whole_2 "group" with Some p => o_attrs p | None => [] end, [mkData "F12_GroupData" demo_group], ("group --name=g --gid=7" ++ NL)%string)) as (p & Sp & _ & Dp & _); [vm_compute; reflexivity|].
    destruct (served_attrs whole_1 "group" (match served whole_1 "group" with Some p => o_attrs p | None => [] end, [], "")) as (q & Sq & _ & Dq & _); [vm_compute; reflexivity|]. cbn [fst snd] in Dp, Dq.
    destruct C38_example_command as (_ & Ic & _ & W & _). destruct C38_example_data as (Id & _ & Wd & Td).
    eapply (built_data _ _ _ ["FC6_NFS"] whole_1 "" "group" "group" "F12_Group" ["--name=g"; "--gid=7"] 1 whole_2 q p (mkData "F12_GroupData" demo_group)); [|vm_compute; tauto|exact Id| | |exact Sq|exact Sp|now rewrite Dp, Dq|exact Wd|exact Td|discriminate].
    + eapply (built_command _ _ _ [] (start demo_rest (fst maps_34) (snd maps_34)) "" "nfs" "nfs" "FC6_NFS" ["--server=s"; "--dir=/d"] 1 whole_1 o); [apply built_new|vm_compute; tauto|exact Ic|intros []|intros m d _ []| |exact So|now rewrite Ao|rewrite To; discriminate].
      exact whole_1_line.
    + intros m d Hm [<-|[]]. right. apply apart_sym, apart_off. intros X. cbn in X. intuition discriminate.
    + exact whole_2_line.
Qed.

(** And with an authselect line after these. *)
Definition whole_3 : handler := fst (handle_command whole_2 ("authselect" ++ (" select sssd  with-fingerprint" ++ NL)) ["authselect"; "select"; "sssd"; "with-fingerprint"] 3).
Lemma whole_3_line : handle_command whole_2 ("authselect" ++ (" select sssd  with-fingerprint" ++ NL)) ["authselect"; "select"; "sssd"; "with-fingerprint"] 3 = (whole_3, None).
Proof. refine (surjective_pairing_none _ _). vm_compute. reflexivity. Qed.
Example C39_text_example : built demo_rest (fst maps_34) (snd maps_34) ["F28_Authselect"; "F12_Group"; "FC6_NFS"] whole_3.
Proof.
  destruct C39_whole_example as (_ & _ & B).
  refine (built_text _ _ _ _ _ "authselect" "F28_Authselect" "authselect" "authselect" (" select sssd  with-fingerprint" ++ NL) ["select"; "sssd"; "with-fingerprint"] _ 3 _ B _ _ whole_3_line _ _ _).
  - vm_compute. tauto.
  - vm_compute. tauto.
  - discriminate.
  - reflexivity.
  - reflexivity.
Qed.
