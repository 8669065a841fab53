(** * C38: what is written reads back as the same data *)

From Verif Require Import PyStrFacts Shlex ArgParseFacts HandlerFacts ClassModel PropsHandler PropsClass.
From Verif Require Import HandlerSpec ParserSpec PropsStorage NsFacts ArgTable PyClass PyTextFacts PyWordsFacts PySame CmdFacts CmdFlow CmdLines RoundSpec CmdRound.
From Verif Require Import Value.
Local Open Scope string_scope.
Local Open Scope list_scope.
Local Arguments Ascii.eqb : simpl never.
Local Arguments String.eqb : simpl never.

(** ** The commands *)

(** The classes that store the options of a line on themselves, by the command they
    write. *)
Definition round_commands : list (string * list string) :=
  [("autopart", ["FC3_AutoPart"; "F9_AutoPart"; "RHEL6_AutoPart"; "F12_AutoPart"; "F16_AutoPart"; "F17_AutoPart"; "F18_AutoPart"; "F20_AutoPart"; "RHEL7_AutoPart"; "F21_AutoPart"; "F23_AutoPart"; "F26_AutoPart"; "RHEL8_AutoPart"; "F29_AutoPart"]);
   ("autostep", ["FC3_AutoStep"]);
   ("bootloader", ["RHEL5_Bootloader"; "FC4_Bootloader"; "F8_Bootloader"; "F12_Bootloader"; "RHEL6_Bootloader"; "F14_Bootloader"; "F15_Bootloader"; "F17_Bootloader"; "F18_Bootloader"; "F19_Bootloader"; "RHEL7_Bootloader"; "F21_Bootloader"; "RHEL8_Bootloader"; "F29_Bootloader"; "F34_Bootloader"]);
   ("cdrom", ["FC3_Cdrom"]); ("clearpart", ["FC3_ClearPart"; "F17_ClearPart"; "RHEL7_ClearPart"; "F21_ClearPart"; "F28_ClearPart"]);
   ("eula", ["F20_Eula"]); ("harddrive", ["FC3_HardDrive"; "F33_HardDrive"]); ("hmc", ["RHEL7_Hmc"; "F28_Hmc"]);
   ("ignoredisk", ["FC3_IgnoreDisk"; "F8_IgnoreDisk"; "F29_IgnoreDisk"; "F34_IgnoreDisk"]); ("interactive", ["FC3_Interactive"]); ("lang", ["FC3_Lang"; "F19_Lang"]); ("lilocheck", ["FC3_LiloCheck"]);
   ("liveimg", ["F19_Liveimg"]); ("logging", ["FC6_Logging"; "F34_Logging"]); ("mediacheck", ["FC4_MediaCheck"]); ("monitor", ["FC3_Monitor"; "FC6_Monitor"]);
   ("nfs", ["FC3_NFS"; "FC6_NFS"]); ("reqpart", ["RHEL7_ReqPart"; "F23_ReqPart"]); ("rescue", ["F10_Rescue"]); ("rootpw", ["FC3_RootPw"; "F8_RootPw"; "F18_RootPw"]); ("selinux", ["FC3_SELinux"]);
   ("services", ["FC6_Services"]); ("skipx", ["FC3_SkipX"]); ("timezone", ["FC3_Timezone"; "FC6_Timezone"; "F23_Timezone"]); ("unsupported_hardware", ["RHEL6_UnsupportedHardware"]);
   ("url", ["FC3_Url"; "F13_Url"; "RHEL6_Url"; "F14_Url"; "F18_Url"; "RHEL8_Url"; "F27_Url"; "F30_Url"]); ("vnc", ["FC3_Vnc"]); ("xconfig", ["FC3_XConfig"; "FC6_XConfig"; "F9_XConfig"; "F14_XConfig"]);
   ("zerombr", ["F9_ZeroMbr"]); ("zipl", ["RHEL8_Zipl"; "F32_Zipl"])].
Definition round_data : list (string * list (string * string)) :=
  [("fcoe", [("F12_Fcoe", "F12_FcoeData"); ("F13_Fcoe", "RHEL7_FcoeData"); ("RHEL7_Fcoe", "RHEL7_FcoeData"); ("F13_Fcoe", "F13_FcoeData"); ("RHEL8_Fcoe", "RHEL8_FcoeData"); ("F28_Fcoe", "F28_FcoeData")]);
   ("group", [("F12_Group", "F12_GroupData")]);
   ("iscsi", [("FC6_Iscsi", "FC6_IscsiData"); ("RHEL6_Iscsi", "RHEL6_IscsiData"); ("F10_Iscsi", "F10_IscsiData"); ("F17_Iscsi", "F17_IscsiData")]);
   ("logvol", [("FC3_LogVol", "FC3_LogVolData"); ("RHEL5_LogVol", "RHEL5_LogVolData"); ("FC4_LogVol", "FC4_LogVolData"); ("F9_LogVol", "F9_LogVolData"); ("F12_LogVol", "F12_LogVolData"); ("RHEL6_LogVol", "RHEL6_LogVolData"); ("F14_LogVol", "F14_LogVolData"); ("F15_LogVol", "F15_LogVolData"); ("F15_LogVol", "F17_LogVolData"); ("F17_LogVol", "F17_LogVolData"); ("F18_LogVol", "F18_LogVolData"); ("F18_LogVol", "F20_LogVolData"); ("F20_LogVol", "F20_LogVolData"); ("RHEL7_LogVol", "RHEL7_LogVolData"); ("F21_LogVol", "F21_LogVolData"); ("F23_LogVol", "F23_LogVolData"); ("RHEL8_LogVol", "RHEL8_LogVolData"); ("F29_LogVol", "F29_LogVolData")]);
   ("network", [("FC3_Network", "RHEL4_NetworkData"); ("FC3_Network", "FC3_NetworkData"); ("RHEL4_Network", "RHEL4_NetworkData"); ("FC4_Network", "FC4_NetworkData"); ("RHEL5_Network", "FC6_NetworkData"); ("FC6_Network", "FC6_NetworkData"); ("F8_Network", "F8_NetworkData"); ("RHEL6_Network", "RHEL6_NetworkData"); ("F9_Network", "F8_NetworkData"); ("F16_Network", "F16_NetworkData"); ("F18_Network", "F16_NetworkData"); ("F19_Network", "F19_NetworkData"); ("F20_Network", "F20_NetworkData"); ("F21_Network", "F21_NetworkData"); ("RHEL7_Network", "RHEL7_NetworkData"); ("F22_Network", "F22_NetworkData"); ("F24_Network", "F22_NetworkData"); ("F25_Network", "F25_NetworkData"); ("F27_Network", "F27_NetworkData")]);
   ("part", [("FC3_Partition", "FC3_PartData"); ("RHEL5_Partition", "RHEL5_PartData"); ("FC4_Partition", "FC4_PartData"); ("F9_Partition", "F9_PartData"); ("F11_Partition", "F11_PartData"); ("F12_Partition", "F12_PartData"); ("RHEL6_Partition", "RHEL6_PartData"); ("F14_Partition", "F14_PartData"); ("F14_Partition", "F17_PartData"); ("F17_Partition", "F17_PartData"); ("F18_Partition", "F18_PartData"); ("RHEL7_Partition", "RHEL7_PartData"); ("F20_Partition", "F18_PartData"); ("F23_Partition", "F23_PartData"); ("RHEL8_Partition", "RHEL8_PartData"); ("F29_Partition", "F29_PartData"); ("F34_Partition", "F29_PartData")]);
   ("repo", [("FC6_Repo", "FC6_RepoData"); ("F8_Repo", "F8_RepoData"); ("F11_Repo", "F11_RepoData"); ("F13_Repo", "F13_RepoData"); ("RHEL6_Repo", "RHEL6_RepoData"); ("F14_Repo", "F14_RepoData"); ("F15_Repo", "F15_RepoData"); ("RHEL7_Repo", "RHEL7_RepoData"); ("F21_Repo", "F21_RepoData"); ("RHEL8_Repo", "RHEL8_RepoData"); ("F27_Repo", "F27_RepoData"); ("F30_Repo", "F30_RepoData"); ("F33_Repo", "F30_RepoData")]);
   ("timesource", [("F33_Timesource", "F33_TimesourceData")]);
   ("user", [("FC6_User", "FC6_UserData"); ("F8_User", "F8_UserData"); ("F12_User", "F12_UserData"); ("F19_User", "F19_UserData"); ("F24_User", "F19_UserData")]);
   ("zfcp", [("FC3_ZFCP", "FC3_ZFCPData"); ("F14_ZFCP", "F14_ZFCPData")])].

(** ** The checks *)

Definition rounds : list (string * (string * string)) :=
  flat_map (fun p => map (fun c => (fst p, (c, c))) (snd p)) round_commands ++ flat_map (fun p => map (fun q => (fst p, q)) (snd p)) round_data.
Lemma rounds_ok : forallb (fun p => check_round (fst (snd p)) (snd (snd p)) (fst p)) rounds = true.
Proof. vm_compute. reflexivity. Qed.
(** The classes that start with the attributes of KickstartCommand. *)
Definition simple : list string := ["FC3_Cdrom"; "RHEL7_Hmc"; "F28_Hmc"].
Definition inits (c : string) : bool := negb (based (comes_from c "__init__")) || mem c simple.
Definition on_self (c t : string) : bool :=
  if String.eqb c t then inits c && match mode_of c with Some (onself, _, _) => onself | None => false end else true.
Lemma rounds_steady : forallb (fun p => steady (snd (snd p)) && on_self (fst (snd p)) (snd (snd p))) rounds = true.
Proof. vm_compute. reflexivity. Qed.
(** The name written is a name of the class. *)
Definition named (cm : list (string * string)) (p : string * (string * string)) : bool :=
  match assoc (fst p) cm with
  | Some c => String.eqb c (fst (snd p))
  | None => false
  end || forallb (fun q => negb (String.eqb (snd q) (fst (snd p)))) cm.
Lemma rounds_named : forallb (fun h => forallb (named (fst (snd h))) rounds) handlers = true.
Proof. vm_compute. reflexivity. Qed.
(** No class of one list is in the other. *)
Lemma rounds_apart : forallb (fun p => forallb (fun q => negb (String.eqb (fst q) (snd q))) (snd p)) round_data = true.
Proof. vm_compute. reflexivity. Qed.
Lemma in_commands nm c : In c (listed nm round_commands) -> In (nm, (c, c)) rounds.
Proof.
  unfold listed. destruct (assoc nm round_commands) as [l|] eqn:E; [|intros []]. intros H. apply assoc_In in E. unfold rounds. apply in_or_app. left.
  apply in_flat_map. exists (nm, l). split; [exact E|]. cbn [fst snd]. apply in_map_iff. eauto.
Qed.
Lemma in_data nm p : In p (listed nm round_data) -> In (nm, p) rounds /\ fst p <> snd p.
Proof.
  unfold listed. destruct (assoc nm round_data) as [l|] eqn:E; [|intros []]. intros H. apply assoc_In in E. split.
  - unfold rounds. apply in_or_app. right. apply in_flat_map. exists (nm, l). split; [exact E|]. cbn [fst snd]. apply in_map_iff. eauto.
  - pose proof rounds_apart as A. rewrite forallb_forall in A. apply A in E. cbn [snd] in E. rewrite forallb_forall in E. apply E in H. apply negb_true_iff in H. now apply String.eqb_neq.
Qed.
Lemma round_parts nm c t v cm dm n : In (nm, (c, t)) rounds -> In (v, (cm, dm)) handlers -> In (n, c) cm ->
  check_round c t nm = true /\ steady t = true /\ on_self c t = true /\ In (nm, c) cm.
Proof.
  intros H Hv Hn. pose proof rounds_ok as A. rewrite forallb_forall in A. apply A in H as A1. pose proof rounds_steady as B. rewrite forallb_forall in B. apply B in H as B1.
  cbn [fst snd] in A1, B1. apply andb_prop in B1 as [B1 B2]. split; [exact A1|]. do 2 (split; [assumption|]).
  pose proof rounds_named as D. rewrite forallb_forall in D. apply D in Hv. cbn [fst snd] in Hv. rewrite forallb_forall in Hv. apply Hv in H. unfold named in H. cbn [fst snd] in H.
  apply orb_prop in H as [H|H].
  - destruct (assoc nm cm) as [c'|] eqn:E; [|discriminate]. apply String.eqb_eq in H. subst c'. now apply assoc_In in E.
  - rewrite forallb_forall in H. apply H in Hn. cbn [snd] in Hn. now rewrite String.eqb_refl in Hn.
Qed.
Lemma simple_init c : In c simple -> comes_from c "__init__" = "KickstartCommand" /\ init_of c = base_attrs (VInt 0).
Proof. intros [<-|[<-|[<-|[]]]]; split; vm_compute; reflexivity. Qed.
Local Opaque comes_from method_of table_of removed_of data_str new_attrs init_of mode_of.
Lemma class_init rest c st : parse_code c = Some st -> inits c = true -> cl_init (class_model (cmd_class rest) c) = init_of c.
Proof.
  intros E I. change (cl_init (class_model (cmd_class rest) c)) with
      (from_base c "__init__" (base_attrs VNone) (base_attrs VNone) (base_attrs (VInt 0)) (cl_init (cmd_class rest c))).
  unfold inits in I. apply orb_prop in I as [B|M].
  - apply negb_true_iff in B. rewrite (from_base_not c "__init__" _ _ _ _ B). revert E. unfold parse_code, cmd_class.
    destruct (method_of c "__init__" []); [|discriminate]. destruct (method_of c "parse" []); [|discriminate]. destruct (method_of c "__str__" []); [|discriminate]. reflexivity.
  - apply mem_In in M. destruct (simple_init c M) as [K ->]. unfold from_base. now rewrite K.
Qed.
Lemma on_self_same c : on_self c c = true -> inits c = true /\ exists kind W, mode_of c = Some (true, kind, W).
Proof.
  unfold on_self. rewrite String.eqb_refl. intros H. apply andb_prop in H as [H1 H2]. split; [exact H1|].
  destruct (mode_of c) as [[[[] kind] W]|]; try discriminate. eauto.
Qed.

(** ** The two lines *)

(** What both handlers show to the command. *)
Lemma same_view h i o o' line line' : obj_at h i <> None -> o_seen o = o_seen o' ->
  view_of (set_obj i o (set_line line h)) = view_of (set_obj i o' (set_line line' h)).
Proof.
  intros Hi E. unfold view_of. cbn [set_obj set_line h_dataclasses]. f_equal. apply map_ext. intros k. f_equal.
  unfold attr_obj. change (h_attrs (set_obj i o (set_line line h))) with (h_attrs h). change (h_attrs (set_obj i o' (set_line line' h))) with (h_attrs h).
  destruct (assoc k (h_attrs h)) as [[j|]|]; [|reflexivity|reflexivity]. destruct (Nat.eq_dec i j) as [<-|Ne].
  - destruct (obj_at h i) as [q|] eqn:Q; [|contradiction]. rewrite !(obj_at_set_eq i q); [cbn [option_map]; now rewrite E|exact Q|exact Q].
  - now rewrite !obj_at_set_ne by exact Ne.
Qed.

(** The objects agree, but for the name and the text of the line. *)
Definition alike (a b : attrs) : Prop := forall k, ~ In k ["currentCmd"; "currentLine"] -> assoc k a = assoc k b.
Lemma not_noted k : mem k line_notes = false -> ~ In k ["currentCmd"; "currentLine"].
Proof. intros H I. apply mem_In in I. unfold line_notes in H. congruence. Qed.
Lemma noted k : ~ In k ["currentCmd"; "currentLine"] -> mem k line_notes = false.
Proof. intros H. destruct (mem k line_notes) eqn:E; [|reflexivity]. apply mem_In in E. contradiction. Qed.

Section Lines.
Variable rest : string -> cclass.
Variables (v : Z) (cm dm : list (string * string)).
Hypothesis Hv : In (v, (cm, dm)) handlers.
Notation used := (used rest cm dm).
Notation cls c := (class_model (cmd_class rest) c).

Lemma stamp_alike n line n' line' ln a k : mem k line_notes = false -> assoc k (stamp n' line' ln a) = assoc k (stamp n line ln a).
Proof.
  intros H. unfold stamp. rewrite !assoc_put. destruct (String.eqb k "seen"); [reflexivity|]. destruct (String.eqb k "lineno"); [reflexivity|].
  unfold line_notes, mem in H. cbn [existsb] in H. apply orb_false_iff in H as [H1 H2]. apply orb_false_iff in H2 as [H2 _].
  rewrite (proj2 (String.eqb_neq k "currentLine")), (proj2 (String.eqb_neq k "currentCmd")); [reflexivity| |]; now apply String.eqb_neq.
Qed.

(** Two lines for the same command, in the same handler. *)
Lemma two_lines h n nm c ln : used h -> In (n, c) cm -> In (nm, c) cm ->
  exists o vw, served h n = Some o /\ o_class o = cls c /\
   (forall m ws l, m = n \/ m = nm ->
     exists a' d', (match cl_parse (cls c) vw (stamp m l ln (o_attrs o)) (o_data o) ws with
       | (a1, d1, Err e) => a' = a1 /\ d' = d1 /\ snd (handle_command h l (m :: ws) ln) = Some e
       | (a1, d1, Ok r) => a' = a1 /\ d' = match r with
                                          | Some x => if cl_list (cls c) then d1 ++ [x] else d1
                                          | None => d1
                                          end /\ snd (handle_command h l (m :: ws) ln) = None
       end) /\
     forall k d, In (k, d) cm -> served (fst (handle_command h l (m :: ws) ln)) k = if String.eqb d c then Some (mkObj (cls c) a' d') else served h k).
Proof.
  intros U Hn Hm. destruct (used_served rest v cm dm Hv h n c U Hn) as (i & o & Ei & Eo & So & Co).
  destruct (used_served rest v cm dm Hv h nm c U Hm) as (j & o' & Ej & Eo' & So' & Co').
  assert (j = i) as -> by (symmetry; now apply (same_object rest v cm dm Hv h n c nm c i j U Hn Hm Ei Ej)).
  assert (o' = o) as -> by congruence.
  exists o, (view_of (set_obj i (mkObj (o_class o) (stamp n "" ln (o_attrs o)) (o_data o)) (set_line "" h))). split; [exact So|]. split; [exact Co|].
  intros m ws l Hw.
  assert (Em : assoc m (h_commands h) = Some (Some i)) by (destruct Hw as [->| ->]; assumption).
  assert (Hmc : In (m, c) cm) by (destruct Hw as [->| ->]; assumption).
  assert (Vw : view_of (set_obj i (mkObj (o_class o) (stamp n "" ln (o_attrs o)) (o_data o)) (set_line "" h)) =
               view_of (set_obj i (mkObj (o_class o) (stamp m l ln (o_attrs o)) (o_data o)) (set_line l h))).
  { apply same_view; [congruence|]. unfold o_seen, get. cbn [o_attrs]. now rewrite !stamp_seen. }
  rewrite Vw. destruct (dispatch_cases h l m ws ln i o Em Eo) as (a' & d' & P & J). exists a', d'. split; [rewrite Co in P; rewrite Co; exact P|].
  intros k d Hk. destruct (used_served rest v cm dm Hv h k d U Hk) as (q & p & Eq & Ep & Sp & Cp).
  assert (Eq' : assoc k (h_commands (fst (handle_command h l (m :: ws) ln))) = Some (Some q)).
  { rewrite (proj1 (used_commands rest cm dm _ (used_step rest cm dm h l (m :: ws) ln U))), <- (proj1 (used_commands rest cm dm h U)). exact Eq. }
  unfold served at 1, identity. rewrite Eq', J, Sp. pose proof (same_object rest v cm dm Hv h k d m c q i U Hk Hmc Eq Em) as Q.
  destruct (Nat.eqb_spec q i) as [E|Ne].
  - apply Q in E as ->. rewrite eqb_refl_s, Co. reflexivity.
  - destruct (String.eqb_spec d c) as [E|]; [apply Q in E; contradiction|]. exact Ep.
Qed.
End Lines.

(** ** The property *)

(** For every version and every handler of the version, a command of the list that no
    line has used yet, and any accepted line for it: if the values now stored can be
    written and the command has a text, the text is a line of the same command, perhaps
    after comments; read in the place of the first line it is accepted, and all values
    of the command and its text are the same as before. *)
Theorem C38_command_partial rest v cm dm h n nm c line args ln h1 o :
  In (v, (cm, dm)) handlers -> used rest cm dm h -> In (n, c) cm -> In c (listed nm round_commands) ->
  served h n = Some (new_obj (class_model (cmd_class rest) c)) ->
  handle_command h line (n :: args) ln = (h1, None) -> served h1 n = Some o ->
  writable nm c c args (o_attrs o) -> o_str o <> "" ->
  exists remark text args', o_str o = (remark ++ text ++ NL)%string /\ remarks remark /\ unbroken text = true /\
    shlex_split true text = Ok (nm :: args') /\
    forall line', exists h2 o2, handle_command h line' (nm :: args') ln = (h2, None) /\ served h2 n = Some o2 /\
      alike (o_attrs o2) (o_attrs o) /\ o_data o2 = o_data o /\ o_str o2 = o_str o /\
      forall m d, In (m, d) cm -> d <> c -> served h2 m = served h1 m.
Proof.
  intros Hv U Hn Hc S0 E S1 W Ne. destruct (round_parts nm c c v cm dm n (in_commands nm c Hc) Hv Hn) as (CR & St & OS & Hm).
  destruct (on_self_same c OS) as (Bi & kind & w & Mo).
  destruct (check_round_parts c c nm CR) as (onself & kind' & w' & st & b & m & F & Mo' & Pc & Ms & Bo & Pf & Os & Ct & Cp & Cs & Cw & Nch).
  rewrite Mo in Mo'. injection Mo' as <- <- <-. destruct (Os eq_refl) as [_ Bs].
  destruct (two_lines rest v cm dm Hv h n nm c ln U Hn Hm) as (o0 & vw & So & Co & T0).
  rewrite S0 in So. injection So as <-. cbn [o_class o_attrs o_data new_obj] in T0.
  destruct (T0 n args line) as (a' & d' & P & J); [now left|]. rewrite E in P, J. cbn [fst snd] in P, J.
  destruct (cl_parse (class_model (cmd_class rest) c) vw (stamp n line ln (cl_init (class_model (cmd_class rest) c))) [] args) as [[a1 d1] [r|z]] eqn:P1; [|destruct P as (_ & _ & P); discriminate].
  destruct P as (-> & -> & _). pose proof (J n c Hn) as Jn. rewrite eqb_refl_s in Jn. rewrite S1 in Jn. injection Jn as ->. cbn [o_attrs o_data o_class] in *.
  unfold o_str in *. cbn [o_attrs o_data o_class] in *.
  destruct (first_run rest c vw _ [] args a1 d1 r _ _ true kind w Mo Cw Ct P1) as (-> & NS & FS & FD & _).
  destruct (FS eq_refl) as (-> & _). clear FS FD.
  pose proof (class_init rest c st Pc Bi) as Ci.
  destruct (round_class c c nm rest vw (stamp n line ln (cl_init (class_model (cmd_class rest) c))) [] args a1 [] None a1 (cl_str (class_model (cmd_class rest) c) a1 []) CR) as (com & text & ws & E1 & E2 & E3 & E4 & Again).
  { intros _. split; [|apply stamp_seen]. intros k Sk. rewrite Ci. apply stamp_other. intros I. apply mem_In in I. unfold stamped in Sk. unfold notes in I. revert I Sk. cbn [mem existsb].
    repeat rewrite orb_false_r. intros I Sk. revert I Sk. repeat (destruct (String.eqb k _)); cbn; congruence. }
  { exact P1. }
  { split; reflexivity. }
  { exact W. }
  { exact Ne. }
  exists com, text, ws. do 4 (split; [assumption|]). intros line'.
  destruct (Again (stamp nm line' ln (cl_init (class_model (cmd_class rest) c)))) as (b' & r' & P2 & Al & Sr); [intros k Hk; now apply stamp_alike|].
  destruct (T0 nm ws line') as (a2 & d2 & Q & K); [now right|]. rewrite P2 in Q. destruct r'; [destruct Sr|]. destruct Q as (-> & -> & Q).
  destruct (handle_command h line' (nm :: ws) ln) as [h2 e2]. cbn [fst snd] in Q, K. subst e2.
  eexists h2, _. split; [reflexivity|]. split; [rewrite (K n c Hn), eqb_refl_s; reflexivity|]. cbn [o_attrs o_data o_class]. split; [intros k Hk; apply Al; now apply noted|].
  split; [reflexivity|]. split; [apply (steady_class rest c st a1 b' []); auto|].
  intros m0 d Hd Nd. rewrite (K m0 d Hd), (J m0 d Hd). destruct (String.eqb_spec d c); [contradiction|reflexivity].
Qed.
Print Assumptions C38_command_partial.

(** The same for the commands that keep a list of objects, at any time: the new object
    of a line, if its values can be written, has a text that is a line of the same
    command; read in the place of the first line it makes an object with the same values
    and the same text. *)
Theorem C38_data_partial rest v cm dm h n nm c line args ln h1 o o1 d s :
  In (v, (cm, dm)) handlers -> used rest cm dm h -> In (n, c) cm -> In (c, d_class d) (listed nm round_data) ->
  served h n = Some o -> handle_command h line (n :: args) ln = (h1, None) ->
  served h1 n = Some o1 -> o_data o1 = o_data o ++ [d] ->
  writable nm c (d_class d) args (d_attrs d) -> data_str d = Ok s -> s <> "" ->
  exists remark text args', s = (remark ++ text ++ NL)%string /\ remarks remark /\ unbroken text = true /\
    shlex_split true text = Ok (nm :: args') /\
    forall line', exists h2 o2 e, handle_command h line' (nm :: args') ln = (h2, None) /\ served h2 n = Some o2 /\
      o_data o2 = o_data o ++ [e] /\ d_class e = d_class d /\ (forall k, assoc k (d_attrs e) = assoc k (d_attrs d)) /\ data_str e = Ok s /\
      alike (o_attrs o2) (o_attrs o1) /\
      forall m k, In (m, k) cm -> k <> c -> served h2 m = served h1 m.
Proof.
  intros Hv U Hn Hc S0 E S1 D1 W Ds Ne. destruct (in_data nm _ Hc) as [Hr Nt]. cbn [fst snd] in Nt.
  destruct (round_parts nm c (d_class d) v cm dm n Hr Hv Hn) as (CR & St & OS & Hm). clear Hr Hc.
  destruct (check_round_parts c (d_class d) nm CR) as (onself & kind & w & st & b & m & F & Mo & Pc & Ms & Bo & Pf & Os & Ct & Cp & Cs & Cw & Nch).
  destruct onself; [destruct (Os eq_refl) as [X _]; contradiction|]. clear Os.
  destruct (two_lines rest v cm dm Hv h n nm c ln U Hn Hm) as (o0 & vw & So & Co & T0).
  rewrite S0 in So. injection So as <-.
  destruct (T0 n args line) as (a' & d' & P & J); [now left|]. rewrite E in P, J. cbn [fst snd] in P, J.
  destruct (cl_parse (class_model (cmd_class rest) c) vw (stamp n line ln (o_attrs o)) (o_data o) args) as [[a1 d1] [r|z]] eqn:P1; [|destruct P as (_ & _ & P); discriminate].
  destruct P as (-> & Ed & _). pose proof (J n c Hn) as Jn. rewrite eqb_refl_s in Jn. rewrite S1 in Jn. injection Jn as ->. cbn [o_attrs o_data o_class] in *. rewrite Ed in D1, J. clear Ed S1 d'.
  destruct (first_run rest c vw _ (o_data o) args a1 d1 r _ _ false kind w Mo Cw Ct P1) as (-> & NS & FS & FD & _).
  destruct (FD eq_refl) as (d0 & -> & _ & _). clear FS FD.
  assert (L : d0 = d /\ cl_list (class_model (cmd_class rest) c) = true).
  { destruct (cl_list (class_model (cmd_class rest) c)).
    - apply app_inv_head in D1. injection D1 as ->. auto.
    - exfalso. apply (f_equal (@List.length data)) in D1. rewrite app_length in D1. cbn [List.length] in D1. rewrite Nat.add_1_r in D1. now apply n_Sn in D1. }
  destruct L as [-> Ll]. rewrite Ll in *.
  destruct (round_class c (d_class d) nm rest vw (stamp n line ln (o_attrs o)) (o_data o) args a1 (o_data o) (Some d) (d_attrs d) s CR) as (com & text & ws & E1 & E2 & E3 & E4 & Again).
  { intros X. symmetry in X. contradiction. }
  { exact P1. }
  { repeat split; auto. }
  { exact W. }
  { exact Ne. }
  exists com, text, ws. do 4 (split; [assumption|]). intros line'.
  destruct (Again (stamp nm line' ln (o_attrs o))) as (b' & r' & P2 & Al & Sr); [intros k Hk; now apply stamp_alike|].
  destruct (T0 nm ws line') as (a2 & d2 & Q & K); [now right|]. rewrite P2 in Q. destruct r' as [e|]; [|destruct Sr]. destruct Sr as [Sc Sa]. destruct Q as (-> & -> & Q).
  destruct (handle_command h line' (nm :: ws) ln) as [h2 e2]. cbn [fst snd] in Q, K. subst e2.
  eexists h2, _, e. split; [reflexivity|]. split; [rewrite (K n c Hn), eqb_refl_s; reflexivity|]. cbn [o_attrs o_data o_class]. split; [reflexivity|].
  split; [now symmetry|]. split; [intros k; now rewrite (Sa k)|]. split; [apply (steady_data d e s); auto|].
  split; [intros k Hk; apply Al; now apply noted|].
  intros m0 k Hd Nd. rewrite (K m0 k Hd), (J m0 k Hd). destruct (String.eqb_spec k c); [contradiction|reflexivity].
Qed.
Print Assumptions C38_data_partial.
Local Transparent comes_from method_of table_of removed_of data_str new_attrs init_of mode_of.

(** ** Examples *)

(** The object a line makes in a new handler: the attributes, the new data and the text. *)
Definition first_line (v : Z) (ws : list string) : option (option exn * option (attrs * list data * string)) :=
  match find (fun h => Z.eqb (fst h) v) handlers, ws with
  | Some (_, (cm, dm)), n :: _ =>
      let r := handle_command (start demo_rest cm dm) "" ws 1 in
      Some (snd r, option_map (fun o => (o_attrs o, o_data o, o_str o)) (served (fst r) n))
  | _, _ => None
  end.
Definition attrs_after (v : Z) (ws : list string) : attrs :=
  match first_line v ws with Some (_, Some (a, _, _)) => a | _ => [] end.
Definition text_after (v : Z) (ws : list string) : option string :=
  match first_line v ws with Some (None, Some (_, _, s)) => Some s | _ => None end.
Definition data_after (v : Z) (ws : list string) : attrs :=
  match first_line v ws with Some (_, Some (_, d :: _, _)) => d_attrs d | _ => [] end.

Definition demo_nfs : attrs := Eval lazy in attrs_after F34 ["nfs"; "--server=s"; "--dir=/d"].
Definition demo_group : attrs := Eval lazy in data_after F34 ["group"; "--name=g"; "--gid=7"].

(** Values that can be written, as a computation. *)
Definition is_option_b (c k : string) : bool := existsb (fun d => String.eqb (d_dest d) k) (options c).
Definition is_required_b (c k : string) : bool := existsb (fun d => String.eqb (d_dest d) k && d_required d) (options c).
Definition met_b (x : attrs) (n : need) : bool :=
  match n with
  | When k => truthy (get k x)
  | Unless k => negb (truthy (get k x))
  | WhenBoth k j => truthy (get k x) && truthy (get j x)
  | Never => false
  end.
Definition same_v (v w : value) : bool := if value_eq_dec v w then true else false.
Definition begins (v : value) (p : string) : bool := match v with VStr s => startswith s p | _ => false end.
Definition writable_b (n c t : string) (args : list string) (x : attrs) : bool :=
  forallb (fun d => let k := d_dest d in (negb (is_required_b c k) && same_v (get k x) (left_out c t k)) || tidy_b (get k x)) (options c) &&
  forallb (fun kg => let k := fst kg in
             negb (is_option_b c k && forallb (is_option_b c) (need_attrs (snd kg))) || is_required_b c k || met_b x (snd kg) || same_v (get k x) (left_out c t k)) (written_if n c) &&
  forallb (fun k => negb (is_option_b c k) || same_v (get k x) (line_gives c t k args)) (listed n changed) &&
  forallb (fun d => match d_opts d with [] => negb (begins (get (word_attr (d_dest d)) x) "-") | _ => true end) (map fst (t_acts (tabulate (table_of c)))) &&
  forallb (fun d => match d_type d with TDrop p => negb (begins (get (d_dest d) x) p) | _ => true end) (declared_by c) &&
  match assoc c cases with Some L => existsb (fun l => forallb (fun kb => Bool.eqb (truthy (get (fst kb) x)) (snd kb)) l) L | None => true end.
Lemma is_option_ok c k : is_option c k <-> is_option_b c k = true.
Proof.
  unfold is_option, is_option_b. rewrite existsb_exists. split; intros (d & Hd & E); exists d; (split; [exact Hd|]); [subst k; apply String.eqb_refl|now apply String.eqb_eq].
Qed.
Lemma is_required_ok c k : is_required c k <-> is_required_b c k = true.
Proof.
  unfold is_required, is_required_b. rewrite existsb_exists. split.
  - intros (d & Hd & E & R). exists d. split; [exact Hd|]. subst k. rewrite String.eqb_refl. exact R.
  - intros (d & Hd & E). apply andb_prop in E as [E R]. apply String.eqb_eq in E. eauto.
Qed.
Lemma same_v_ok v w : same_v v w = true -> v = w.
Proof. unfold same_v. now destruct (value_eq_dec v w). Qed.
Lemma met_ok x n : met_b x n = true -> met x n.
Proof. destruct n; cbn; auto; try discriminate; [apply negb_true_iff|]. intros H. now apply andb_prop in H. Qed.
Lemma writable_ok n c t args x : writable_b n c t args x = true -> writable n c t args x.
Proof.
  unfold writable_b. intros H. apply andb_prop in H as [H H6]. apply andb_prop in H as [H H5]. apply andb_prop in H as [H H4]. apply andb_prop in H as [H H3]. apply andb_prop in H as [H1 H2].
  rewrite forallb_forall in H1, H2, H3, H4, H5. split; [|split; [|split; [|split; [|split]]]].
  - intros k (d & Hd & <-). apply H1 in Hd. cbv zeta in Hd. apply orb_prop in Hd as [Hd|Hd]; [left|right; now apply tidy_spec]. apply andb_prop in Hd as [A B]. apply negb_true_iff in A.
    split; [|now apply same_v_ok]. intros R. apply is_required_ok in R. congruence.
  - intros k g Hk O N R M. apply H2 in Hk. cbv zeta in Hk. cbn [fst snd] in Hk. apply orb_prop in Hk as [Hk|Hk]; [|now apply same_v_ok]. exfalso.
    apply orb_prop in Hk as [Hk|Hk]; [|now apply M, met_ok]. apply orb_prop in Hk as [Hk|Hk]; [|now apply R, is_required_ok].
    apply is_option_ok in O. rewrite O in Hk. cbn [andb] in Hk. apply negb_true_iff, not_true_iff_false in Hk. apply Hk. apply forallb_forall. intros j Hj. now apply is_option_ok, N.
  - intros k Hk O. apply H3 in Hk. apply is_option_ok in O. rewrite O in Hk. now apply same_v_ok.
  - intros d s Hd E G. apply H4 in Hd. rewrite E, G in Hd. now apply negb_true_iff in Hd.
  - intros d p s Hd E G. apply H5 in Hd. rewrite E, G in Hd. now apply negb_true_iff in Hd.
  - intros L E. rewrite E in H6. apply existsb_exists in H6 as (l & Hl & H6). exists l. split; [exact Hl|]. intros k b Hk. rewrite forallb_forall in H6. apply H6 in Hk. now apply Bool.eqb_prop.
Qed.

Example C38_example_command :
  option_map (fun h => assoc "nfs" (fst (snd h))) (find (fun h => Z.eqb (fst h) F34) handlers) = Some (Some "FC6_NFS") /\ In "FC6_NFS" (listed "nfs" round_commands) /\
  attrs_after F34 ["nfs"; "--server=s"; "--dir=/d"] = demo_nfs /\ writable "nfs" "FC6_NFS" "FC6_NFS" ["--server=s"; "--dir=/d"] demo_nfs /\
  text_after F34 ["nfs"; "--server=s"; "--dir=/d"] = Some ("# Use NFS installation media" ++ NL ++ "nfs --server=s --dir=/d" ++ NL)%string.
Proof.
  split; [lazy; reflexivity|]. split; [right; left; reflexivity|]. split; [lazy; reflexivity|]. split; [|lazy; reflexivity].
  apply writable_ok. vm_compute. reflexivity.
Qed.
Example C38_example_data :
  In ("F12_Group", "F12_GroupData") (listed "group" round_data) /\ data_after F34 ["group"; "--name=g"; "--gid=7"] = demo_group /\
  writable "group" "F12_Group" "F12_GroupData" ["--name=g"; "--gid=7"] demo_group /\
  data_str (mkData "F12_GroupData" demo_group) = Ok ("group --name=g --gid=7" ++ NL)%string.
Proof.
  split; [left; reflexivity|]. split; [lazy; reflexivity|]. split; [|lazy; reflexivity].
  apply writable_ok. vm_compute. reflexivity.
Qed.
(** A line with a word that is not an option. *)
Definition part_words : list string := ["part"; "--fstype=ext4"; "/home"; "--size"; "500"; "--ondrive=sda"; "--encrypted"; "--passphrase=p"].
Definition demo_part : attrs := Eval lazy in data_after F34 part_words.
Example C38_example_word :
  In ("F34_Partition", "F29_PartData") (listed "part" round_data) /\ data_after F34 part_words = demo_part /\
  writable "part" "F34_Partition" "F29_PartData" (tl part_words) demo_part /\
  data_str (mkData "F29_PartData" demo_part) = Ok ("part /home --fstype=""ext4"" --ondisk=sda --size=500 --encrypted --passphrase=""p""" ++ NL)%string.
Proof.
  split; [vm_compute; tauto|]. split; [lazy; reflexivity|]. split; [|lazy; reflexivity].
  apply writable_ok. vm_compute. reflexivity.
Qed.

(** A url with a metalink, a locked account without a password, and a language with others. *)
Definition demo_url : attrs := Eval lazy in attrs_after F34 ["url"; "--metalink=http://m"; "--noverifyssl"].
Definition demo_rootpw : attrs := Eval lazy in attrs_after F34 ["rootpw"; "--lock"].
Definition demo_lang : attrs := Eval lazy in attrs_after F34 ["lang"; "cs_CZ"; "--addsupport=de,fr"].
Example C38_example_cases :
  attrs_after F34 ["url"; "--metalink=http://m"; "--noverifyssl"] = demo_url /\
  text_after F34 ["url"; "--metalink=http://m"; "--noverifyssl"] = Some ("# Use network installation" ++ NL ++ "url --metalink=""http://m"" --noverifyssl" ++ NL)%string /\
  In "F30_Url" (listed "url" round_commands) /\ writable "url" "F30_Url" "F30_Url" ["--metalink=http://m"; "--noverifyssl"] demo_url /\
  attrs_after F34 ["rootpw"; "--lock"] = demo_rootpw /\ text_after F34 ["rootpw"; "--lock"] = Some ("#Root password" ++ NL ++ "rootpw --lock" ++ NL)%string /\
  In "F18_RootPw" (listed "rootpw" round_commands) /\ writable "rootpw" "F18_RootPw" "F18_RootPw" ["--lock"] demo_rootpw /\
  attrs_after F34 ["lang"; "cs_CZ"; "--addsupport=de,fr"] = demo_lang /\
  text_after F34 ["lang"; "cs_CZ"; "--addsupport=de,fr"] = Some ("# System language" ++ NL ++ "lang cs_CZ --addsupport=de,fr" ++ NL)%string /\
  In "F19_Lang" (listed "lang" round_commands) /\ writable "lang" "F19_Lang" "F19_Lang" ["cs_CZ"; "--addsupport=de,fr"] demo_lang.
Proof.
  split; [lazy; reflexivity|]. split; [lazy; reflexivity|]. split; [apply mem_In; vm_compute; reflexivity|]. split; [apply writable_ok; vm_compute; reflexivity|].
  split; [lazy; reflexivity|]. split; [lazy; reflexivity|]. split; [apply mem_In; vm_compute; reflexivity|]. split; [apply writable_ok; vm_compute; reflexivity|].
  split; [lazy; reflexivity|]. split; [lazy; reflexivity|]. split; [apply mem_In; vm_compute; reflexivity|]. apply writable_ok; vm_compute; reflexivity.
Qed.

(** Values are lost when the needs of [writable] are not met: the uid 0 of a user is not
    written. *)
Theorem C38_refuted : exists v,
  text_after v ["user"; "--name=u"; "--uid=0"] = Some ("user --name=u" ++ NL)%string /\
  assoc "uid" (data_after v ["user"; "--name=u"; "--uid=0"]) = Some (VInt 0) /\
  assoc "uid" (data_after v ["user"; "--name=u"]) = Some VNone.
Proof. exists F34. repeat split; lazy; reflexivity. Qed.
Print Assumptions C38_refuted.
(** The same with a locked account: without a password the text does not say that it would be encrypted. *)
Theorem C38_lock_refuted : exists v,
  text_after v ["rootpw"; "--lock"; "--iscrypted"] = Some ("#Root password" ++ NL ++ "rootpw --lock" ++ NL)%string /\
  assoc "isCrypted" (attrs_after v ["rootpw"; "--lock"; "--iscrypted"]) = Some (VBool true) /\
  assoc "isCrypted" (attrs_after v ["rootpw"; "--lock"]) = Some (VBool false).
Proof. exists F34. repeat split; lazy; reflexivity. Qed.
Print Assumptions C38_lock_refuted.
