(** * C37, C41: rules about the values of commands *)

From Verif Require Import PyStrFacts ArgParseFacts HandlerFacts ClassModel PropsHandler PropsClass.
From Verif Require Import HandlerSpec ParserSpec Parser ArgSpec ArgDecl PropsArgs PropsParse PropsStorage NsFacts ArgDeclFacts ArgTable PyClass CmdFacts CmdFlow CmdLines CmdStrict PropsStore.
From Verif Require Import RuleSpec RuleFacts.
From Verif Require Import Value.
Local Open Scope string_scope.
Local Open Scope list_scope.
Local Arguments Ascii.eqb : simpl never.
Local Arguments String.eqb : simpl never.

(** ** Specification: the rules of the storage commands, by version *)

Definition from (v w : Z) (l : list rule) : list rule := if Z.leb w v then l else [].
Definition before (v w : Z) (l : list rule) : list rule := if (v <? w)%Z then l else [].
Definition only (v w : Z) (l : list rule) : list rule := if Z.eqb v w then l else [].

(** Options for making a file system make no sense without making one. *)
Definition mkfs_rules : list rule := [Never [(Set_ "format", false); (Set_ "mkfsopts", true)]; not_both "fsprofile" "mkfsopts"].
Definition pbkdf_rules : list rule := [not_both "pbkdf_time" "pbkdf_iterations"].
Definition thin_rules : list rule :=
  [not_both "thin_volume" "thin_pool"; needs "thin_volume" "pool_name"; needs "chunk_size" "thin_pool"; needs "metadata_size" "thin_pool"].
Definition cache_rules : list rule :=
  flat_map (fun k => [not_both k "preexist"; not_both k "thin_volume"]) ["cache_size"; "cache_mode"; "cache_pvs"] ++
  [needs "cache_size" "cache_pvs"; needs "cache_pvs" "cache_size"; needs "cache_mode" "cache_size"; needs "cache_mode" "cache_pvs";
   within "cache_mode" ["writeback"; "writethrough"]].

Definition volgroup_rules (v : Z) : list rule :=
  let l := [Range "reserved_space" 0 None; Range "reserved_percent" 1 (Some 99%Z)] in from v F16 l ++ only v RHEL6 l.
Definition logvol_rules (v : Z) : list rule :=
  [one_of ["format"; "preexist"]] ++ from v F17 [needs "resize" "preexist"; needs "resize" "size"] ++
  from v F20 ([one_of ["preexist"; "percent"; "size"; "recommended"; "hibernation"]; Range "percent" 0 (Some 100%Z)] ++ thin_rules) ++ only v RHEL6 thin_rules ++
  from v F21 [not_both "size" "percent"] ++ from v F23 (mkfs_rules ++ cache_rules) ++ only v RHEL7 mkfs_rules ++
  from v RHEL8 pbkdf_rules ++ only v RHEL8 [never "fstype" "btrfs"].
Definition part_rules (v : Z) : list rule :=
  from v F17 [needs "resize" "onPart"; needs "resize" "size"] ++
  from v F20 [Never [(Text "fstype" "tmpfs", true); (Set_ "grow", true)]; Never [(Text "fstype" "tmpfs", true); (Number "maxSizeMB" 0, false)]] ++
  from v F23 mkfs_rules ++ only v RHEL7 mkfs_rules ++ from v RHEL8 pbkdf_rules ++
  only v RHEL8 [never "fstype" "btrfs"; Never [(Starts "mountpoint" "btrfs.", true)]].
Definition raid_rules (v : Z) : list rule :=
  [one_of ["preexist"; "level"]; Never [(Set_ "preexist", true); (Text "device" "", true)]] ++
  from v F23 mkfs_rules ++ only v RHEL7 mkfs_rules ++ from v RHEL8 pbkdf_rules ++ only v RHEL8 [never "fstype" "btrfs"].
Definition btrfs_rules (v : Z) : list rule :=
  let l := [not_both "preexist" "mkfsopts"; Never [(Set_ "format", false); (Set_ "mkfsopts", true)]] in
  [one_of ["devices"]; needs "subvol" "name"] ++ from v F23 l ++ only v RHEL7 l.
Definition storage_rules (n : string) (v : Z) : list rule :=
  match assoc n [("volgroup", volgroup_rules); ("logvol", logvol_rules); ("part", part_rules); ("partition", part_rules);
                 ("raid", raid_rules); ("btrfs", btrfs_rules)] with
  | Some f => f v
  | None => []
  end.

(** ** Specification: rules of commands that store options on themselves *)

Definition switch (k : string) (v : Z) : list rule := [one_of [k]].
Definition own_rules : list (string * (Z -> list rule)) :=
  [("harddrive", fun v => before v F33 [Never [(Absent "biospart", true); (Absent "partition", true)]; Never [(Absent "biospart", false); (Absent "partition", false)]]);
   ("logging", fun _ => [needs "port" "host"]);
   ("services", fun _ => [one_of ["disabled"; "enabled"]]);
   ("timezone", fun v => from v F18 [not_both "ntpservers" "nontp"]);
   ("autopart", fun v => [one_of ["autopart"]] ++ from v F21 [never "fstype" "btrfs"] ++ from v RHEL8 pbkdf_rules);
   ("ostreesetup", fun _ => [Never [(StartsAny "url" ["file:"; "http:"; "https:"], false)]]);
   ("eula", switch "agreed"); ("autostep", switch "autostep"); ("interactive", switch "interactive"); ("skipx", switch "skipx");
   ("zerombr", switch "zerombr"); ("mediacheck", switch "mediacheck"); ("rescue", switch "rescue"); ("reqpart", switch "reqpart");
   ("unsupported_hardware", switch "unsupported_hardware"); ("lilocheck", switch "check")].
Definition own_rules_of (n : string) (v : Z) : list rule := match assoc n own_rules with Some f => f v | None => [] end.

(** ** The classes *)

Definition storage_commands : list string := ["volgroup"; "logvol"; "part"; "partition"; "raid"; "btrfs"].
(** Each class is examined once. *)
Definition classes_of (l : list string) : list string :=
  filter live_b (MiniPy.distinct (flat_map (fun h => flat_map (fun nc => if mem (fst nc) l then [snd nc] else []) (fst (snd h))) handlers)).
Definition facts_for (l : list string) : list (string * option facts) := map (fun c => (c, parse_facts c)) (classes_of l).
Definition rules_checked (x : string) (l : list string) (R : string -> Z -> list rule) (T : list (string * option facts)) : bool :=
  forallb (fun h => forallb (fun nc => negb (mem (fst nc) l) ||
                                       match assoc (snd nc) T with
                                       | Some F => all_implied x F (R (fst nc) (fst h))
                                       | None => negb (live_b (snd nc))
                                       end) (fst (snd h))) handlers.
Lemma storage_checked_ok : rules_checked "_r" storage_commands storage_rules (facts_for storage_commands) = true.
Proof. vm_compute. reflexivity. Qed.

Lemma own_checked_ok : rules_checked "self" (map fst own_rules) own_rules_of (facts_for (map fst own_rules)) = true.
Proof. vm_compute. reflexivity. Qed.

Local Opaque comes_from method_of table_of removed_of data_str new_attrs init_of parse_flow marked_b parse_facts classes_of.
Lemma rules_class x l R v cm dm n c : rules_checked x l R (facts_for l) = true -> In (v, (cm, dm)) handlers -> In (n, c) cm -> In n l -> live c ->
  grants x c (R n v) = true.
Proof.
  unfold rules_checked. intros W Hv Hc Hn Hl. rewrite forallb_forall in W. specialize (W _ Hv). cbn [fst snd] in W.
  rewrite forallb_forall in W. specialize (W _ Hc). cbn [fst snd] in W. rewrite (proj2 (mem_In n l) Hn), (live_spec c Hl) in W. cbn [negb orb] in W.
  destruct (assoc c (facts_for l)) as [F|] eqn:E; [|discriminate]. apply assoc_In in E. unfold facts_for in E. apply in_map_iff in E as (c' & E & _).
  injection E as -> <-. exact W.
Qed.

Lemma storage_recording n : In n storage_commands -> exists kind own, In (n, (kind, own)) recording /\ n <> "device".
Proof.
  intros H. cbn [In storage_commands] in H.
  destruct H as [<-|[<-|[<-|[<-|[<-|[<-|[]]]]]]]; eexists; eexists; (split; [|discriminate]); cbn [In recording];
    repeat (first [left; reflexivity|right]).
Qed.

(** ** C37 *)

(** In a handler of any version, after any command lines, every object that a storage
    command has recorded obeys the rules of the version. *)
Theorem C37_recorded : forall rest v cm dm n c h o d r,
  In (v, (cm, dm)) handlers -> In (n, c) cm -> In n storage_commands -> live c -> used rest cm dm h ->
  served h n = Some o -> In d (o_data o) -> In r (storage_rules n v) -> obeys (fun k => get k (d_attrs d)) r.
Proof.
  intros rest v cm dm n c h o d r Hv Hc Hn Hl U. revert o d r.
  destruct (storage_recording n Hn) as (kind & own & Hr & Hd).
  destruct (recording_class v cm dm n c kind own Hv Hc Hr) as (M & L); [intros ->; contradiction|exact Hl|].
  pose proof (rules_class "_r" storage_commands storage_rules v cm dm n c storage_checked_ok Hv Hc Hn Hl) as G.
  destruct U as (ops & FO & ->). induction ops as [|op ops IH] using rev_ind.
  - intros o d r So Hin. cbn [fold_left] in So. rewrite (start_served rest v cm dm Hv n c Hc) in So. injection So as <-. destruct Hin.
  - apply Forall_app in FO as [FO Fo]. inversion Fo as [|? ? Hop _]; subst. destruct op as [line ws ln| |]; try contradiction.
    rewrite fold_left_app. cbn [fold_left do_op]. specialize (IH FO). set (h := fold_left do_op ops (start rest cm dm)) in *.
    assert (U : used rest cm dm h) by (exists ops; auto). intros o d r So Hin Hrule.
    destruct ws as [|m args].
    { exact (IH o d r So Hin Hrule). }
    destruct (assoc m cm) as [d0|] eqn:Am.
    + apply assoc_In in Am. destruct (line_cases rest v cm dm Hv h m d0 line args ln U Am) as (p & vw & a' & d' & Sp & Cp & Vd & P & J).
      rewrite (J n c Hc) in So. destruct (String.eqb_spec c d0) as [<-|]; [|exact (IH o d r So Hin Hrule)].
      injection So as <-. cbn [o_data] in Hin.
      assert (Sn : served h n = Some p).
      { destruct (used_served rest v cm dm Hv h n c U Hc) as (i & q & Ei & Eq & Sq & _).
        destruct (used_served rest v cm dm Hv h m c U Am) as (j & q' & Ej & Eq' & Sq' & _).
        pose proof (same_object rest v cm dm Hv h n c m c i j U Hc Am Ei Ej) as X. assert (i = j) by now apply X. subst j. congruence. }
      destruct (cl_parse _ vw _ _ _) as [[a1 d1] [x|e1]] eqn:Q.
      * destruct P as (-> & -> & _). pose proof Q as Q'. apply (makes_data_ok rest c _ _ _ _ _ _ kind own x M) in Q' as (-> & _ & y & ns & -> & _).
        rewrite (keeps_list_ok rest c L) in Hin. apply in_app_iff in Hin as [Hin|[<-|[]]]; [exact (IH p d r Sn Hin Hrule)|].
        exact (grants_data rest c _ _ _ _ _ _ _ _ r G Q Hrule).
      * destruct P as (-> & -> & _). apply (makes_data_err rest c _ _ _ _ _ _ kind own e1 M) in Q as (-> & _). exact (IH p d r Sn Hin Hrule).
    + destruct (line_unknown rest cm dm h m line args ln U) as [_ K].
      { intros d1 Hd1. apply (In_dict cm) in Hd1; [congruence|exact (dict_cm rest v cm dm Hv)]. }
      rewrite K in So. exact (IH o d r So Hin Hrule).
Qed.
Print Assumptions C37_recorded.

(** A line that breaks a rule is refused: what it says, with what a new object of the data
    class has for the options not given, does not obey. *)
Theorem C37_outside_refused : forall rest v cm dm n c h line args ln kind own k r,
  In (v, (cm, dm)) handlers -> In (n, c) cm -> In n storage_commands -> live c -> used rest cm dm h ->
  In (n, (kind, own)) recording -> assoc kind dm = Some k -> In r (storage_rules n v) -> (forall j, In j (concerns r) -> ~ In j own) ->
  ~ obeys (fun j => match line_says c k j args with Some w => w | None => VNone end) r ->
  snd (handle_command h line (n :: args) ln) <> None.
Proof.
  intros rest v cm dm n c h line args ln kind own k r Hv Hc Hn Hl U Hr Hk Hrule Hj Ho E. apply Ho.
  assert (Hd : n = "device" -> (F8 <= v)%Z).
  { intros ->. cbn in Hn. repeat (destruct Hn as [Hn|Hn]; [discriminate|]). destruct Hn. }
  destruct (C03_accepted_recorded_once rest v cm dm n c h line args ln n c kind own Hv Hc Hr Hd Hl U E Hc) as (o & o' & _ & So & _ & X).
  rewrite eqb_refl_s in X. destruct X as (x & Ex & Hx & Ax).
  pose proof (C37_recorded rest v cm dm n c _ o' x r Hv Hc Hn Hl (used_step rest cm dm h line (n :: args) ln U) So) as R.
  assert (I : In x (o_data o')) by (rewrite Ex; apply in_app_iff; right; now left). specialize (R I Hrule).
  assert (Dk : d_class x = k).
  { apply (In_dict dm) in Hx; [congruence|]. exact (data_dict v cm dm Hv). }
  eapply obeys_ext; [|exact R]. intros j J. cbn beta. unfold get. rewrite (Ax j (Hj j J)), Dk. reflexivity.
Qed.
Print Assumptions C37_outside_refused.

(** ** C41 *)

(** After an accepted line of a command that stores its options on itself, the command
    obeys the rules, whatever lines came before. *)
Theorem C41_accepted_obeys : forall rest v cm dm n c h line args ln r,
  In (v, (cm, dm)) handlers -> In (n, c) cm -> In n (map fst own_rules) -> live c -> used rest cm dm h ->
  snd (handle_command h line (n :: args) ln) = None -> In r (own_rules_of n v) ->
  exists o, served (fst (handle_command h line (n :: args) ln)) n = Some o /\ obeys (fun k => get k (o_attrs o)) r.
Proof.
  intros rest v cm dm n c h line args ln r Hv Hc Hn Hl U E Hr.
  pose proof (rules_class "self" (map fst own_rules) own_rules_of v cm dm n c own_checked_ok Hv Hc Hn Hl) as G.
  destruct (line_cases rest v cm dm Hv h n c line args ln U Hc) as (o & vw & a' & d' & So & Co & _ & P & J).
  rewrite (J n c Hc), eqb_refl_s. eexists. split; [reflexivity|]. cbn [o_attrs].
  destruct (cl_parse _ vw _ _ _) as [[a1 d1] [x|e1]] eqn:Q.
  - destruct P as (-> & _). exact (grants_self rest c _ _ _ _ _ _ _ x r G Q Hr).
  - destruct P as (_ & _ & P). congruence.
Qed.
Print Assumptions C41_accepted_obeys.
Local Transparent comes_from method_of table_of removed_of data_str new_attrs init_of parse_flow marked_b parse_facts classes_of.

Example C37_example :
  option_map (fun h => (assoc "logvol" (fst (snd h)), assoc "LogVolData" (snd (snd h)))) (find (fun h => Z.eqb (fst h) F34) handlers) =
    Some (Some "F29_LogVol", Some "F29_LogVolData") /\
  live "F29_LogVol" /\ In (Range "percent" 0 (Some 100%Z)) (storage_rules "logvol" F34) /\
  line_says "F29_LogVol" "F29_LogVolData" "percent" ["/"; "--vgname=vg"; "--name=a"; "--percent=101"] = Some (VInt 101) /\
  accepts F34 [["logvol"; "/"; "--vgname=vg"; "--name=a"; "--percent=101"]] = Some false /\
  accepts F34 [["logvol"; "/"; "--vgname=vg"; "--name=a"; "--percent=100"]] = Some true /\
  accepts F34 [["logvol"; "/"; "--vgname=vg"; "--name=a"; "--percent=10"; "--size=10"]] = Some false /\
  accepts F34 [["volgroup"; "vg"; "pv.1"; "--reserved-percent=0"]] = Some false /\
  accepts F34 [["volgroup"; "vg"; "pv.1"; "--reserved-percent=1"]] = Some true /\
  accepts F34 [["volgroup"; "vg"; "pv.1"; "--reserved-percent=99"]] = Some true /\
  accepts F34 [["volgroup"; "vg"; "pv.1"; "--reserved-percent=100"]] = Some false.
Proof.
  split; [lazy; reflexivity|]. split.
  { split; intros H; apply marked_spec in H; vm_compute in H; discriminate. }
  split; [vm_compute; tauto|]. repeat split; lazy; reflexivity.
Qed.

Example C41_example :
  option_map (fun h => assoc "logging" (fst (snd h))) (find (fun h => Z.eqb (fst h) F33) handlers) = Some (Some "FC6_Logging") /\ live "FC6_Logging" /\
  accepts F33 [["logging"; "--port=514"]] = Some false /\ accepts F33 [["logging"; "--host=h"; "--port=514"]] = Some true /\
  accepts F33 [["harddrive"; "--partition=sda1"; "--dir=/d"]] = Some true /\
  accepts RHEL8 [["harddrive"; "--partition=sda1"; "--biospart=80p1"; "--dir=/d"]] = Some false /\
  accepts F33 [["services"]] = Some false /\ accepts F33 [["services"; "--enabled=sshd"]] = Some true.
Proof.
  split; [lazy; reflexivity|]. split.
  { split; intros H; apply marked_spec in H; vm_compute in H; discriminate. }
  repeat split; lazy; reflexivity.
Qed.
