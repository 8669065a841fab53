(** * C33, C03: where the values of a line go *)

From Verif Require Import PyStrFacts ArgParseFacts HandlerFacts ClassModel PropsHandler PropsClass.
From Verif Require Import HandlerSpec ParserSpec Parser ArgSpec ArgDecl PropsArgs PropsParse PropsStorage NsFacts ArgDeclFacts ArgTable PyClass CmdFacts CmdFlow CmdLines CmdStrict.
From Verif Require Import Value.
Local Open Scope string_scope.
Local Open Scope list_scope.
Local Arguments Ascii.eqb : simpl never.
Local Arguments String.eqb : simpl never.

(** ** Specification *)

(** The command is neither deprecated nor removed. *)
Definition live (c : string) : Prop := ~ marked "DeprecatedCommand" c /\ ~ marked "RemovedCommand" c.

(** The commands that store options on themselves, each with the attributes its own code
    sets besides. *)
Definition storing : list (string * list string) :=
  [("autopart", ["autopart"; "lvm"]); ("autostep", ["autostep"]);
   ("bootloader", ["password"; "isCrypted"; "_md5pass"; "useLilo"]); ("cdrom", []); ("clearpart", ["type"]);
   ("cmdline", ["displayMode"]); ("deviceprobe", ["deviceprobe"]); ("eula", []); ("firewall", []);
   ("firstboot", ["firstboot"]); ("graphical", ["displayMode"]); ("halt", ["action"]); ("harddrive", []); ("hmc", []);
   ("ignoredisk", ["ignoredisk"]); ("install", ["upgrade"; "root_device"]); ("interactive", ["interactive"]);
   ("iscsiname", ["iscsiname"; "iqn"]); ("key", ["key"]); ("keyboard", ["keyboard"; "_keyboard"; "kbd"]); ("lang", ["lang"]);
   ("langsupport", ["supported"]); ("lilo", ["useLilo"]); ("lilocheck", ["check"]); ("liveimg", []);
   ("logging", ["_level_provided"]); ("mediacheck", ["mediacheck"]); ("monitor", []); ("mouse", ["mouse"]); ("nfs", []);
   ("ostreesetup", ["remote"]); ("poweroff", ["action"]); ("reboot", ["action"]); ("reqpart", ["reqpart"]);
   ("rescue", ["rescue"]); ("rhsm", []); ("rootpw", []); ("selinux", []); ("services", []); ("shutdown", ["action"]);
   ("skipx", ["skipx"]); ("syspurpose", []); ("text", ["displayMode"]); ("timezone", ["timezone"; "ntpservers"]);
   ("unsupported_hardware", ["unsupported_hardware"]); ("updates", ["url"; "updates"]); ("upgrade", ["upgrade"; "root_device"]);
   ("url", []); ("vnc", ["enabled"; "host"; "port"; "_connect"]); ("xconfig", []); ("zerombr", ["zerombr"]); ("zipl", [])].

(** The value a line gives for an attribute: what the option table of the class makes of
    its words, unless that is None. *)
Definition gives (c k : string) (args : list string) : option value :=
  match line_values c args with
  | Some n => match assoc k n with
              | Some v => if is_none v then None else Some v
              | None => None
              end
  | None => None
  end.
(** The last line that gives one decides. *)
Definition last_given (c k : string) (lines : list (list string)) (before : option value) : option value :=
  fold_left (fun x args => match gives c k args with Some v => Some v | None => x end) lines before.

(** ** The classes *)

Definition storing_ok (c : string) (own : list string) : bool :=
  match parse_flow c with
  | Some (PyFlow.HSelf, PyFlow.OSet V, _) => forallb (fun k => mem k own) V
  | Some (PyFlow.HSelf, PyFlow.OKeep V, _) => forallb (fun k => mem k own) (V ++ dests (table_of c))
  | _ => false
  end.
Definition live_b (c : string) : bool := negb (marked_b "DeprecatedCommand" c) && negb (marked_b "RemovedCommand" c).
Lemma live_spec c : live c -> live_b c = true.
Proof.
  unfold live, live_b. intros [H1 H2]. destruct (marked_b "DeprecatedCommand" c) eqn:E1; [destruct H1; now apply marked_spec|].
  destruct (marked_b "RemovedCommand" c) eqn:E2; [destruct H2; now apply marked_spec|]. reflexivity.
Qed.
(** The classes of the commands [storing]; each is examined once. *)
Definition stored : list (string * list string) :=
  fold_left (fun l h => fold_left (fun l nc => match assoc (fst nc) storing with
                                               | Some own => if has_key (snd nc) l then l else (snd nc, own) :: l
                                               | None => l
                                               end) (fst (snd h)) l) handlers [].
Lemma stored_checked : forallb (fun x => negb (live_b (fst x)) || storing_ok (fst x) (snd x)) stored = true.
Proof. vm_compute. reflexivity. Qed.
Definition lists_eqb (l m : list string) : bool := if list_eq_dec string_dec l m then true else false.
Definition all_stored (l : list (string * list string)) : bool :=
  forallb (fun h => forallb (fun nc => match assoc (fst nc) storing with
                                       | Some own => match assoc (snd nc) l with Some o => lists_eqb o own | None => false end
                                       | None => true
                                       end) (fst (snd h))) handlers.
Lemma all_stored_checked : all_stored stored = true.
Proof. vm_compute. reflexivity. Qed.
Local Opaque comes_from method_of table_of removed_of data_str new_attrs init_of parse_flow marked_b stored.
Lemma storing_class l v cm dm n c own : forallb (fun x => negb (live_b (fst x)) || storing_ok (fst x) (snd x)) l = true -> all_stored l = true ->
  In (v, (cm, dm)) handlers -> In (n, c) cm -> assoc n storing = Some own -> live c -> storing_ok c own = true.
Proof.
  unfold all_stored. intros S A Hv Hc Hn Hl. rewrite forallb_forall in A. specialize (A _ Hv). cbn [fst snd] in A.
  rewrite forallb_forall in A. specialize (A _ Hc). cbn [fst snd] in A. rewrite Hn in A. destruct (assoc c l) as [o|] eqn:E; [|discriminate].
  unfold lists_eqb in A. destruct (list_eq_dec string_dec o own) as [->|]; [|discriminate].
  rewrite forallb_forall in S. apply assoc_In, S in E. cbn [fst snd] in E. rewrite (live_spec c Hl) in E. cbn [negb orb] in E. exact E.
Qed.

Lemma storing_parse rest c own v a l args a' d' r k : storing_ok c own = true -> ~ In k own ->
  cl_parse (class_model (cmd_class rest) c) v a l args = (a', d', Ok r) ->
  assoc k a' = match gives c k args with Some x => Some x | None => assoc k a end.
Proof.
  intros S Hk P. assert (Mk : mem k own = false) by (destruct (mem k own) eqn:M; [apply mem_In in M; contradiction|reflexivity]).
  unfold storing_ok in S. destruct (parse_flow c) as [[[[] []] o']|] eqn:E; try discriminate.
  - destruct (line_ends rest c v a a' l d' args (Ok r) _ _ _ E P) as (_ & p & _ & _ & R). cbn [PyFlowFacts.sat_o] in R.
    rewrite forallb_forall in S. assert (N : ~ In k (W ++ dests (table_of c))) by (intros Hi; apply S in Hi; congruence).
    rewrite R; [|destruct (mem k W) eqn:M; [apply mem_In in M; destruct N; apply in_or_app; now left|reflexivity]].
    unfold gives. destruct (line_values c args) as [n|] eqn:L; [|reflexivity]. destruct (assoc k n) as [x|] eqn:A; [|reflexivity].
    exfalso. apply N. apply in_or_app. right. unfold line_values in L. destruct (parse_known_args _ _ _) as [[m q]|] eqn:Q; [|discriminate]. injection L as ->.
    eapply known_dests; [exact Q|]. unfold has_key. now rewrite A.
  - assert (S2 : stores_on_self c own = true) by (unfold stores_on_self; rewrite E; exact S).
    destruct (stores_on_self_sound rest c v a a' l d' args own r S2 P) as (_ & _ & n & L & R). rewrite (R k Mk).
    unfold gives. rewrite L. unfold PyFlowFacts.overlay. destruct (assoc k n) as [x|]; [|reflexivity]. destruct (is_none x); reflexivity.
Qed.

(** ** C33 *)

(** After any sequence of accepted command lines, an attribute of a command has the value
    given by the last of its lines that gave one, and its initial value if none did: an
    option that is not given again keeps its value.  Lines of the same command are those
    of all names the version has for it. *)
Theorem C33_last_given : forall rest v cm dm n c own k cmds h,
  In (v, (cm, dm)) handlers -> In (n, c) cm -> assoc n storing = Some own -> live c ->
  ~ In k own -> ~ In k notes ->
  execute handle_command cmds (build_handler (version_map (cmd_class rest) cm) dm) = (h, None) ->
  exists o0 o, served (build_handler (version_map (cmd_class rest) cm) dm) n = Some o0 /\ served h n = Some o /\
    assoc k (o_attrs o) = last_given c k (lines_for cm c cmds) (assoc k (o_attrs o0)).
Proof.
  intros rest v cm dm n c own k cmds h Hv Hc Hn Hl Hk Hnote E.
  pose proof (storing_class stored v cm dm n c own stored_checked all_stored_checked Hv Hc Hn Hl) as S.
  pose proof (start_served rest v cm dm Hv n c Hc) as S0.
  destruct (run_lines rest v cm dm Hv n c (fun o => assoc k (o_attrs o))
    (fun x args => match gives c k args with Some v => Some v | None => x end) Hc) with (cmds := cmds) (h := start rest cm dm) (h' := h) (o := new_obj (class_model (cmd_class rest) c)) as (_ & o & So & Vo).
  - intros m vw line ln o args a' d' r _ _ _ P. cbn [o_attrs]. rewrite (storing_parse rest c own _ _ _ _ _ _ _ k S Hk P).
    rewrite stamp_other by exact Hnote. reflexivity.
  - apply used_start.
  - exact E.
  - exact S0.
  - exists (new_obj (class_model (cmd_class rest) c)), o. split; [exact S0|]. split; [exact So|]. exact Vo.
Qed.
Print Assumptions C33_last_given.

(** What a line of option words gives: the last value given for the destination, or else
    the declared default (False for most flags), unless that is None. *)
Theorem C33_words : forall c k ws,
  table_plain (table_of c) = true -> required_given (table_of c) ws = true ->
  forallb (fun w => match tab_effect (tabulate (table_of c)) w with Some _ => true | None => false end) ws = true ->
  gives c k (map text ws) =
    let v := match tab_last (tabulate (table_of c)) ws k with
             | Some v => v
             | None => tab_default (t_acts (tabulate (table_of c))) k
             end in
    if is_none v then None else Some v.
Proof.
  intros c k ws H1 H2 H3. destruct (plain_line (table_of c) None ws H1 H2 H3) as (ns & P & G).
  unfold parse_args in P. apply bind_ok in P as ([n r] & P & Q). cbn [fst snd] in Q. destruct r; [|discriminate]. injection Q as ->.
  unfold gives, line_values. rewrite P. cbv zeta. rewrite <- G. unfold get. destruct (assoc k ns); [|reflexivity]. reflexivity.
Qed.
Print Assumptions C33_words.
Local Transparent comes_from method_of table_of removed_of data_str new_attrs init_of parse_flow marked_b stored.

(** A repeated line: [--noverifyssl] is not given again and goes back to its declared
    default, False, while [--url] keeps its value, although a method with a mirror list has no url. *)
Definition after (v : Z) (l : list (list string)) (n : string) (ks : list string) : option (list value) :=
  match find (fun h => Z.eqb (fst h) v) handlers with
  | Some (_, (cm, dm)) =>
      match execute handle_command (demo_lines l) (build_handler (version_map (cmd_class demo_rest) cm) dm) with
      | (h, None) => match served h n with Some o => Some (map (fun k => get k (o_attrs o)) ks) | None => None end
      | (_, Some _) => None
      end
  | None => None
  end.
Example C33_example :
  assoc "url" storing = Some [] /\ live "F30_Url" /\ table_plain (table_of "F30_Url") = true /\
  after F34 [["url"; "--url=http://a"; "--noverifyssl"]] "url" ["url"; "mirrorlist"; "noverifyssl"] = Some [VStr "http://a"; VNone; VBool true] /\
  after F34 [["url"; "--url=http://a"; "--noverifyssl"]; ["url"; "--mirrorlist"; "http://b"]] "url" ["url"; "mirrorlist"; "noverifyssl"]
    = Some [VStr "http://a"; VStr "http://b"; VBool false] /\
  gives "F30_Url" "noverifyssl" ["--mirrorlist"; "http://b"] = Some (VBool false) /\
  gives "F30_Url" "url" ["--mirrorlist"; "http://b"] = None.
Proof.
  split; [reflexivity|]. split.
  { split; intros H; apply marked_spec in H; vm_compute in H; discriminate. }
  repeat split; lazy; reflexivity.
Qed.

(** ** C03: unknown words *)

(** Commands that take their words as they are, or do not look at those they do not know:
    the second group, with versions. *)
Definition lenient (v : Z) (n : string) : Prop :=
  In n ["auth"; "authconfig"; "authselect"; "deviceprobe"; "key"; "volgroup"; "method"; "multipath"; "realm"] \/
  (In n ["halt"; "poweroff"; "reboot"; "shutdown"] /\ (v < FC6)%Z) \/ (n = "zerombr" /\ (v < F9)%Z).
(** The names of the options of a class. *)
Definition option_names (c : string) : list string := map fst (p_optmap (build (table_of c))).

Definition lenient_b (v : Z) (n : string) : bool :=
  mem n ["auth"; "authconfig"; "authselect"; "deviceprobe"; "key"; "volgroup"; "method"; "multipath"; "realm"] ||
  (mem n ["halt"; "poweroff"; "reboot"; "shutdown"] && Z.ltb v FC6) || (String.eqb n "zerombr" && Z.ltb v F9).
Lemma lenient_spec v n : ~ lenient v n -> lenient_b v n = false.
Proof.
  unfold lenient, lenient_b. intros H. apply orb_false_iff. split; [apply orb_false_iff; split|].
  - destruct (mem n _) eqn:E; [|reflexivity]. destruct H. left. now apply mem_In.
  - destruct (mem n _) eqn:E; [|reflexivity]. destruct (Z.ltb_spec v FC6); [|reflexivity]. destruct H. right. left. split; [now apply mem_In|assumption].
  - destruct (String.eqb_spec n "zerombr") as [->|]; [|reflexivity]. destruct (Z.ltb_spec v F9); [|reflexivity]. destruct H. right. right. auto.
Qed.
(** What the classes of the commands do, each examined once: unknown words are refused;
    names of options are options; the table is read unless nothing in it is required. *)
Definition used_classes : list string := MiniPy.distinct (flat_map (fun h => map snd (fst (snd h))) handlers).
Definition needs_nothing (ops : list tableop) : bool := forallb (fun d => negb (d_required d) || no_opts d) (decls ops).
Definition examine (c : string) : bool * bool :=
  let t := table_of c in (strict c && names_ok t, names_ok t && (reads c || needs_nothing t)).
Definition examined : list (string * (bool * bool)) := map (fun c => (c, examine c)) (filter live_b used_classes).
Definition words_checked (l : list (string * (bool * bool))) : bool :=
  forallb (fun h => forallb (fun nc => match assoc (snd nc) l with
                                       | Some (s, r) => (lenient_b (fst h) (fst nc) || s) && r
                                       | None => negb (live_b (snd nc))
                                       end) (fst (snd h))) handlers.
Lemma words_checked_ok : words_checked examined = true.
Proof. vm_compute. reflexivity. Qed.
Local Opaque comes_from method_of table_of removed_of data_str new_attrs init_of parse_flow marked_b strict reads names_ok used_classes.
Lemma examined_class v cm dm n c : words_checked examined = true -> In (v, (cm, dm)) handlers -> In (n, c) cm -> live c ->
  (lenient_b v n = false -> strict c = true) /\ names_ok (table_of c) = true /\ (reads c = true \/ needs_nothing (table_of c) = true).
Proof.
  unfold words_checked. intros W Hv Hc Hl. rewrite forallb_forall in W. specialize (W _ Hv). cbn [fst snd] in W.
  rewrite forallb_forall in W. specialize (W _ Hc). cbn [fst snd] in W. rewrite (live_spec c Hl) in W.
  destruct (assoc c examined) as [[s r]|] eqn:E; [|discriminate]. apply assoc_In in E. unfold examined in E. apply in_map_iff in E as (c' & E & _).
  unfold examine in E. cbv zeta in E. injection E as -> Es Er. apply andb_prop in W as [W1 W2]. subst s r. apply andb_prop in W2 as [N R].
  split; [|split; [exact N|now apply orb_prop in R]]. intros L. rewrite L in W1. cbn [orb] in W1. apply andb_prop in W1. tauto.
Qed.

(** A line with a double-dash word that is not (the beginning of) an option of the
    command is refused, whatever was read before. *)
Theorem C03_command_unknown : forall rest v cm dm n c h line l w r ln,
  In (v, (cm, dm)) handlers -> In (n, c) cm -> live c -> ~ lenient v n -> used rest cm dm h ->
  ~ In "--" l -> startswith w "--" = true -> w <> "--" -> has_char SP w = false ->
  (forall o, In o (option_names c) -> spells w o = false) ->
  snd (handle_command h line (n :: l ++ w :: r) ln) <> None.
Proof.
  intros rest v cm dm n c h line l w r ln Hv Hc Hl Hn U Hd Hw Hne Hs Ho E.
  destruct (examined_class v cm dm n c words_checked_ok Hv Hc Hl) as (S & N & _). specialize (S (lenient_spec v n Hn)).
  destruct (line_cases rest v cm dm Hv h n c line (l ++ w :: r) ln U Hc) as (o & vw & a' & d' & _ & _ & _ & P & _).
  destruct (cl_parse _ vw _ _ _) as [[a1 d1] [x|e]] eqn:Q; [|destruct P as (_ & _ & P); congruence].
  apply (strict_sound rest c _ _ _ _ _ _ _ S) in Q as [Q|(ln' & ns & y & Q & D)]; [now destruct l|].
  assert (I : In w y).
  { eapply unknown_left; [apply names_table_ok; exact N|exact Hd|exact Hw|exact Hne|exact Hs| |exact Q].
    intros o' a Hi. apply Ho. unfold option_names. apply in_map_iff. exists (o', a). auto. }
  assert (X : existsb (fun s => startswith s "-") y = true); [|congruence].
  apply existsb_exists. exists w. split; [exact I|]. apply startswith_spec in Hw as (t & ->). reflexivity.
Qed.
Print Assumptions C03_command_unknown.

(** A line without one of the command's required options is refused. *)
Theorem C03_command_missing : forall rest v cm dm n c h line args ln a,
  In (v, (cm, dm)) handlers -> In (n, c) cm -> live c -> used rest cm dm h ->
  In a (p_actions (build (table_of c))) -> is_positional a = false -> a_required a = true ->
  (forall w o b, In w args -> In (o, b) (p_optmap (build (table_of c))) -> a_id b = a_id a -> spells w o = false) ->
  snd (handle_command h line (n :: args) ln) <> None.
Proof.
  intros rest v cm dm n c h line args ln a Hv Hc Hl U Ha Hp Hr Hw E.
  destruct (examined_class v cm dm n c words_checked_ok Hv Hc Hl) as (_ & N & R).
  destruct (line_cases rest v cm dm Hv h n c line args ln U Hc) as (o & vw & a' & d' & _ & _ & _ & P & _).
  destruct (cl_parse _ vw _ _ _) as [[a1 d1] [x|e]] eqn:Q; [|destruct P as (_ & _ & P); congruence].
  destruct R as [R|R].
  - apply (reads_sound rest c _ _ _ _ _ _ _ R) in Q as (ns & Q). unfold line_values in Q.
    destruct (parse_known_args _ _ _) as [[m y]|] eqn:K; [|discriminate].
    refine (required_left _ None args a m y _ Ha Hr Hp (build_ids _) Hw K). apply names_table_ok. exact N.
  - destruct (required_decl _ a Ha Hr Hp) as (d & Hd & D1 & D2). unfold needs_nothing in R. rewrite forallb_forall in R. specialize (R d Hd).
    rewrite D1, D2 in R. discriminate.
Qed.
Print Assumptions C03_command_missing.

(** ** C03: nothing is recorded *)

(** The commands that make a data object for each line: the kind of the object, and the
    attributes of it that the command's own code sets besides the option table. *)
Definition recording : list (string * (string * list string)) :=
  [("btrfs", ("BTRFSData", ["lineno"; "preexist"; "format"; "mountpoint"; "devices"]));
   ("device", ("DeviceData", ["lineno"; "moduleName"])); ("dmraid", ("DmRaidData", ["lineno"; "name"]));
   ("driverdisk", ("DriverDiskData", ["lineno"; "partition"])); ("fcoe", ("FcoeData", ["lineno"]));
   ("group", ("GroupData", ["lineno"])); ("iscsi", ("IscsiData", ["lineno"]));
   ("logvol", ("LogVolData", ["lineno"; "mountpoint"; "preexist"])); ("module", ("ModuleData", ["lineno"]));
   ("mount", ("MountData", ["lineno"; "device"; "mount_point"; "format"; "reformat"]));
   ("network", ("NetworkData", ["lineno"; "bootProto"])); ("nvdimm", ("NvdimmData", ["lineno"; "action"]));
   ("part", ("PartData", ["lineno"; "mountpoint"])); ("partition", ("PartData", ["lineno"; "mountpoint"]));
   ("raid", ("RaidData", ["lineno"; "partitions"; "preexist"; "device"; "mountpoint"; "members"]));
   ("repo", ("RepoData", ["lineno"])); ("snapshot", ("SnapshotData", ["lineno"])); ("sshkey", ("SshKeyData", ["lineno"; "key"]));
   ("sshpw", ("SshPwData", ["lineno"; "password"])); ("timesource", ("TimesourceData", ["lineno"]));
   ("user", ("UserData", ["lineno"]));
   ("volgroup", ("VolGroupData", ["lineno"; "partitions"; "name"; "preexist"; "vgname"; "physvols"]));
   ("zfcp", ("ZFCPData", ["lineno"]))].
(** What the line says about an attribute: the value it gives, or else the one a new
    object of the data class has. *)
Definition line_says (c d k : string) (args : list string) : option value :=
  match gives c k args with Some v => Some v | None => assoc k (init_of d) end.
Definition records (c kind : string) (own : list string) : bool := makes_data c kind own && keeps_list c.
Local Transparent comes_from method_of table_of removed_of data_str new_attrs init_of parse_flow marked_b strict reads names_ok used_classes.
Definition recording_classes : list (string * (string * list string)) :=
  fold_left (fun l h => fold_left (fun l nc => match assoc (fst nc) recording with
                                               | Some x => if has_key (snd nc) l then l else (snd nc, x) :: l
                                               | None => l
                                               end) (fst (snd h)) l) handlers [].
Definition records_so (x : string * (string * list string)) : bool := records (fst x) (fst (snd x)) (snd (snd x)).
Definition recorders : list (string * (string * list string)) :=
  filter records_so (filter (fun x => live_b (fst x)) recording_classes).
Definition records_checked (l : list (string * (string * list string))) : bool :=
  forallb (fun h => forallb (fun nc => match assoc (fst nc) recording with
                                       | None => true
                                       | Some x => (String.eqb (fst nc) "device" && Z.ltb (fst h) F8) || negb (live_b (snd nc)) ||
                                                   match assoc (snd nc) l with
                                                   | Some y => String.eqb (fst y) (fst x) && lists_eqb (snd y) (snd x)
                                                   | None => false
                                                   end
                                       end) (fst (snd h))) handlers.
Lemma records_checked_ok : records_checked recorders = true.
Proof. vm_compute. reflexivity. Qed.
Local Opaque comes_from method_of table_of removed_of data_str new_attrs init_of parse_flow marked_b recording_classes makes_data keeps_list.
Lemma in_filter {A} (p : A -> bool) l x : In x (filter p l) -> p x = true.
Proof. intros H. now apply filter_In in H. Qed.
Lemma recorder_records c kind own : In (c, (kind, own)) recorders -> records c kind own = true.
Proof. unfold recorders. intros H. apply in_filter in H. exact H. Qed.
Local Opaque recorders.
Lemma recording_class v cm dm n c kind own : In (v, (cm, dm)) handlers -> In (n, c) cm -> In (n, (kind, own)) recording ->
  (n = "device" -> (F8 <= v)%Z) -> live c -> makes_data c kind own = true /\ keeps_list c = true.
Proof.
  intros Hv Hc Hn Hd Hl. pose proof records_checked_ok as R. unfold records_checked in R. rewrite forallb_forall in R. specialize (R _ Hv). cbn [fst snd] in R.
  rewrite forallb_forall in R. specialize (R _ Hc). cbn [fst snd] in R. rewrite (live_spec c Hl) in R.
  assert (N : assoc n recording = Some (kind, own)).
  { apply In_dict; [|exact Hn]. unfold is_dict. repeat constructor; cbn; intuition discriminate. }
  rewrite N in R.
  assert (D : String.eqb n "device" && Z.ltb v F8 = false).
  { destruct (String.eqb_spec n "device") as [E|]; [|reflexivity]. apply Hd in E. apply Z.ltb_ge in E. rewrite E. reflexivity. }
  rewrite D in R. cbn [negb orb] in R. destruct (assoc c recorders) as [[k o]|] eqn:E; [|discriminate]. apply assoc_In in E.
  apply recorder_records in E. cbn [fst snd] in R. apply andb_prop in R as [R1 R2]. apply String.eqb_eq in R1. subst k.
  unfold lists_eqb in R2. destruct (list_eq_dec string_dec o own) as [->|]; [|discriminate]. unfold records in E. now apply andb_prop in E.
Qed.

(** A line of such a command that is refused leaves the data and the attributes of every
    command as they were; only the notes about the current line are taken. *)
Theorem C03_refused_not_recorded : forall rest v cm dm n c h line args ln e m d kind own,
  In (v, (cm, dm)) handlers -> In (n, c) cm -> In (n, (kind, own)) recording -> (n = "device" -> (F8 <= v)%Z) -> live c -> used rest cm dm h ->
  snd (handle_command h line (n :: args) ln) = Some e -> In (m, d) cm ->
  exists o o', served h m = Some o /\ served (fst (handle_command h line (n :: args) ln)) m = Some o' /\
    o_data o' = o_data o /\ forall k, ~ In k notes -> assoc k (o_attrs o') = assoc k (o_attrs o).
Proof.
  intros rest v cm dm n c h line args ln e m d kind own Hv Hc Hn Hd Hl U E Hm.
  destruct (recording_class v cm dm n c kind own Hv Hc Hn Hd Hl) as (M & _).
  destruct (line_cases rest v cm dm Hv h n c line args ln U Hc) as (o & vw & a' & d' & So & Co & _ & P & J).
  rewrite (J m d Hm). destruct (used_served rest v cm dm Hv h m d U Hm) as (j & p & Ej & Ep & Sp & _).
  destruct (String.eqb_spec d c) as [->|]; [|exists p, p; rewrite Sp; auto].
  destruct (used_served rest v cm dm Hv h n c U Hc) as (i & q & Ei & Eq & Sq & _).
  assert (p = o) as ->.
  { pose proof (same_object rest v cm dm Hv h m c n c j i U Hm Hc Ej Ei) as X. assert (j = i) by now apply X. subst j. congruence. }
  exists o. eexists. split; [exact Sp|]. split; [reflexivity|]. cbn [o_data o_attrs].
  destruct (cl_parse _ vw _ _ _) as [[a1 d1] [x|e1]] eqn:Q.
  - destruct P as (_ & _ & P). congruence.
  - destruct P as (-> & -> & _). apply (makes_data_err rest c _ _ _ _ _ _ kind own e1 M) in Q as [-> Q]. split; [reflexivity|].
    intros k Hk. rewrite Q. now apply stamp_other.
Qed.
Print Assumptions C03_refused_not_recorded.

(** A line that is accepted adds exactly one data object to its command, of the class the
    version has for that kind, with what the line says as its attributes, and leaves
    everything else as it was. *)
Theorem C03_accepted_recorded_once : forall rest v cm dm n c h line args ln m d kind own,
  In (v, (cm, dm)) handlers -> In (n, c) cm -> In (n, (kind, own)) recording -> (n = "device" -> (F8 <= v)%Z) -> live c -> used rest cm dm h ->
  snd (handle_command h line (n :: args) ln) = None -> In (m, d) cm ->
  exists o o', served h m = Some o /\ served (fst (handle_command h line (n :: args) ln)) m = Some o' /\
    (forall k, ~ In k notes -> assoc k (o_attrs o') = assoc k (o_attrs o)) /\
    if String.eqb d c
    then exists x, o_data o' = o_data o ++ [x] /\ In (kind, d_class x) dm /\
           forall k, ~ In k own -> assoc k (d_attrs x) = line_says c (d_class x) k args
    else o' = o.
Proof.
  intros rest v cm dm n c h line args ln m d kind own Hv Hc Hn Hd Hl U E Hm.
  destruct (recording_class v cm dm n c kind own Hv Hc Hn Hd Hl) as (M & L).
  destruct (line_cases rest v cm dm Hv h n c line args ln U Hc) as (o & vw & a' & d' & So & Co & Vd & P & J).
  rewrite (J m d Hm). destruct (used_served rest v cm dm Hv h m d U Hm) as (j & p & Ej & Ep & Sp & _).
  destruct (String.eqb_spec d c) as [->|]; [|exists p, p; rewrite Sp; auto].
  destruct (used_served rest v cm dm Hv h n c U Hc) as (i & q & Ei & Eq & Sq & _).
  assert (p = o) as ->.
  { pose proof (same_object rest v cm dm Hv h m c n c j i U Hm Hc Ej Ei) as X. assert (j = i) by now apply X. subst j. congruence. }
  exists o. eexists. split; [exact Sp|]. split; [reflexivity|]. cbn [o_data o_attrs].
  destruct (cl_parse _ vw _ _ _) as [[a1 d1] [x|e1]] eqn:Q.
  - destruct P as (-> & -> & _). apply (makes_data_ok rest c _ _ _ _ _ _ kind own x M) in Q as (-> & Q & y & ns & -> & Dk & Ln & Dy).
    split; [intros k Hk; rewrite Q; now apply stamp_other|]. rewrite (keeps_list_ok rest c L). exists y. split; [reflexivity|].
    rewrite Vd in Dk. split; [now apply assoc_In|]. intros k Hk.
    rewrite Dy by (destruct (mem k own) eqn:E1; [destruct Hk; now apply mem_In|reflexivity]).
    unfold line_says, gives, PyFlowFacts.overlay. rewrite Ln. destruct (assoc k ns) as [w|]; [|reflexivity]. now destruct (is_none w).
  - destruct P as (_ & _ & P). congruence.
Qed.
Print Assumptions C03_accepted_recorded_once.
Local Transparent comes_from method_of table_of removed_of data_str new_attrs init_of parse_flow marked_b recording_classes recorders makes_data keeps_list.

Example C03_command_example :
  option_map (fun h => assoc "logvol" (fst (snd h))) (find (fun h => Z.eqb (fst h) F34) handlers) = Some (Some "F29_LogVol") /\ live "F29_LogVol" /\ ~ lenient F34 "logvol" /\ assoc "logvol" recording = Some ("LogVolData", ["lineno"; "mountpoint"; "preexist"]) /\
  forallb (fun o => negb (spells "--sise=100" o)) (option_names "F29_LogVol") = true /\
  accepts F34 [["logvol"; "/"; "--vgname=vg"; "--name"; "root"; "--size=100"]] = Some true /\
  accepts F34 [["logvol"; "/"; "--vgname=vg"; "--name"; "root"; "--sise=100"]] = Some false /\
  existsb (fun a => negb (is_positional a) && a_required a && String.eqb (a_dest a) "vgname") (p_actions (build (table_of "F29_LogVol"))) = true /\
  accepts F34 [["logvol"; "/"; "--name"; "root"; "--size=100"]] = Some false.
Proof.
  split; [lazy; reflexivity|]. split.
  { split; intros H; apply marked_spec in H; vm_compute in H; discriminate. }
  split; [intros L; vm_compute in L; intuition discriminate|]. split; [reflexivity|]. repeat split; lazy; reflexivity.
Qed.

(** The commands set apart do take words that are no options of theirs: [volgroup] in
    every version, where the word even becomes one of the physical volumes. *)
Definition bogus_volgroup : list (string * list string * N) := [("", ["volgroup"; "vg"; "--bogus"; "pv.1"], 1%N)].
Theorem C03_volgroup_refuted : forall v cm dm, In (v, (cm, dm)) handlers ->
  exists c h o, In ("volgroup", c) cm /\ (forall w, In w (option_names c) -> spells "--bogus" w = false) /\
    execute handle_command bogus_volgroup (build_handler (version_map (cmd_class demo_rest) cm) dm) = (h, None) /\
    served h "volgroup" = Some o /\ map (fun d => get "physvols" (d_attrs d)) (o_data o) = [VStrs ["--bogus"; "pv.1"]].
Proof.
  assert (A : forallb (fun h => match assoc "volgroup" (fst (snd h)) with
                                | Some c => forallb (fun w => negb (spells "--bogus" w)) (option_names c)
                                | None => false
                                end &&
                                match execute handle_command bogus_volgroup (build_handler (version_map (cmd_class demo_rest) (fst (snd h))) (snd (snd h))) with
                                | (h', None) => match served h' "volgroup" with
                                                | Some o => match map (fun d => get "physvols" (d_attrs d)) (o_data o) with
                                                            | [VStrs [a; b]] => String.eqb a "--bogus" && String.eqb b "pv.1"
                                                            | _ => false
                                                            end
                                                | None => false
                                                end
                                | _ => false
                                end) handlers = true) by (lazy; reflexivity).
  intros v cm dm Hv. rewrite forallb_forall in A. specialize (A _ Hv). cbn [fst snd] in A. apply andb_prop in A as [A B].
  destruct (assoc "volgroup" cm) as [c|] eqn:E; [|discriminate]. apply assoc_In in E. exists c.
  destruct (execute _ _ _) as [h [e|]] eqn:X; [discriminate|]. exists h. destruct (served h "volgroup") as [o|] eqn:S; [|discriminate]. exists o.
  split; [exact E|]. split.
  { rewrite forallb_forall in A. intros w Hw. specialize (A w Hw). now apply negb_true_iff in A. }
  split; [reflexivity|]. split; [reflexivity|].
  destruct (map _ (o_data o)) as [|[| | | |[|a [|b []]]| |] []]; try discriminate. apply andb_prop in B as [B1 B2].
  apply String.eqb_eq in B1, B2. now subst.
Qed.
Print Assumptions C03_volgroup_refuted.

(** And [key], [zerombr] and [reboot] in the versions named. *)
Theorem C03_lenient_refuted :
  accepts RHEL5 [["key"; "--skip"; "--bogus"]] = Some true /\ accepts F8 [["zerombr"; "--bogus"]] = Some true /\
  accepts FC5 [["reboot"; "--bogus"]] = Some true /\ accepts FC5 [["halt"; "--bogus"]] = Some true /\
  accepts F9 [["zerombr"; "--bogus"]] = Some false /\ accepts FC6 [["reboot"; "--bogus"]] = Some false.
Proof. repeat split; lazy; reflexivity. Qed.
Print Assumptions C03_lenient_refuted.
