(** * Options and attributes: C46 *)

From Verif Require Import PyStrFacts ArgSpec ArgParseFacts ArgLineFacts ArgTable HandlerFacts ClassModel PropsHandler HandlerSpec ParserSpec PropsStorage PyClass CmdFacts CmdFlow CmdLines PropsClass PropsStore PropsPlace.
From Coq Require Import Ascii.
From Verif Require Import Value.
Local Open Scope string_scope.
Local Open Scope list_scope.
Local Arguments Ascii.eqb : simpl never.
Local Arguments String.eqb : simpl never.

(** ** What the theorems say *)

(** An option gives the attribute of its name, with [_] for [-] ... *)
Fixpoint underscored (s : string) : string :=
  match s with EmptyString => "" | String c r => String (if Ascii.eqb c "-"%char then "_"%char else c) (underscored r) end.
Definition undashed (o : string) : string :=
  match o with
  | String _ (String c r) => underscored (if Ascii.eqb c "-"%char then r else String c r)
  | _ => ""
  end.
(** ... except for these: [in_ a os] says that the options [os] give the attribute [a]. *)
Definition odd_option : Type := string * (string * (Z -> bool)).
Definition in_ (a : string) (os : list string) : list odd_option := map (fun o => (o, (a, fun _ => true))) os.
Definition while (p : Z -> bool) (a : string) (os : list string) : list odd_option := map (fun o => (o, (a, p))) os.
Definition before (w v : Z) : bool := Z.ltb v w.
Definition since (w v : Z) : bool := Z.leb w v.
Definition crypted : list odd_option := in_ "isCrypted" ["--iscrypted"; "--plaintext"].
Definition formatted : list odd_option := in_ "format" ["--noformat"] ++ in_ "preexist" ["--useexisting"] ++ in_ "mkfsopts" ["--mkfsoptions"].
Definition filesystem : list odd_option := formatted ++ in_ "fsopts" ["--fsoptions"] ++ while (before F9) "bytesPerInode" ["--bytes-per-inode"].
Definition partition : list odd_option :=
  filesystem ++ in_ "maxSizeMB" ["--maxsize"] ++ in_ "primOnly" ["--asprimary"] ++ in_ "disk" ["--ondisk"; "--ondrive"] ++
  in_ "onPart" ["--onpart"; "--usepart"] ++ in_ "fstype" ["--type"].
Definition boot : list odd_option := in_ "appendLine" ["--append"] ++ in_ "forceLBA" ["--lba32"] ++ in_ "linear" ["--nolinear"].
Definition display : list odd_option := in_ "nonInteractive" ["--non-interactive"].
Definition odd_options : list (string * list odd_option) :=
  [("autopart", while (before F17) "lvm" ["--nolvm"] ++ while (since F17) "type" ["--nolvm"]);
   ("bootloader", boot ++ crypted ++ in_ "bootDrive" ["--boot-drive"] ++ in_ "hvArgs" ["--hvargs"] ++
                  while (fun v => Z.eqb v RHEL6 || since F15 v) "_md5pass" ["--md5pass"]);
   ("btrfs", formatted ++ in_ "dataLevel" ["--data"] ++ in_ "metaDataLevel" ["--metadata"]);
   ("clearpart", in_ "type" ["--all"; "--linux"; "--none"] ++ in_ "initAll" ["--initlabel"] ++ in_ "devices" ["--list"]);
   ("cmdline", display); ("device", in_ "moduleOpts" ["--opts"]); ("dmraid", in_ "devices" ["--dev"]);
   ("eula", in_ "agreed" ["--accept"; "--accepted"; "--agree"]);
   ("firewall", in_ "enabled" ["--disable"; "--disabled"; "--enable"] ++ in_ "ports" ["--port"] ++ in_ "trusts" ["--trust"] ++
                in_ "services" ["--service"] ++ in_ "remove_services" ["--remove-service"] ++
                while (before F10) "ports" ["--ftp"; "--http"; "--smtp"; "--ssh"; "--telnet"] ++
                while (since F10) "services" ["--ftp"; "--http"; "--smtp"; "--ssh"]);
   ("firstboot", in_ "firstboot" ["--disable"; "--disabled"; "--enable"; "--enabled"; "--reconfig"]);
   ("graphical", display); ("ignoredisk", in_ "ignoredisk" ["--drives"] ++ in_ "onlyuse" ["--only-use"]);
   ("iscsi", in_ "password_in" ["--reverse-password"] ++ in_ "user_in" ["--reverse-user"]);
   ("keyboard", in_ "switch_options" ["--switch"] ++ in_ "vc_keymap" ["--vckeymap"] ++ in_ "x_layouts" ["--xlayouts"]);
   ("langsupport", in_ "deflang" ["--default"]); ("lilo", boot);
   ("logvol", filesystem ++ in_ "maxSizeMB" ["--maxsize"] ++ in_ "chunk_size" ["--chunksize"] ++ in_ "cache_mode" ["--cachemode"] ++ in_ "cache_pvs" ["--cachepvs"] ++
              in_ "cache_size" ["--cachesize"] ++ in_ "metadata_size" ["--metadatasize"] ++ in_ "pool_name" ["--poolname"] ++
              in_ "thin_volume" ["--thin"] ++ in_ "thin_pool" ["--thinpool"]);
   ("module", in_ "enable" ["--disable"]); ("monitor", in_ "probe" ["--noprobe"]);
   ("mount", in_ "mkfs_opts" ["--mkfsoptions"] ++ in_ "mount_opts" ["--mountoptions"]);
   ("network", in_ "bootProto" ["--bootproto"] ++ in_ "activate" ["--no-activate"]);
   ("part", partition); ("partition", partition); ("raid", filesystem ++ in_ "chunk_size" ["--chunksize"]);
   ("reqpart", in_ "addBoot" ["--add-boot"]); ("rhsm", in_ "activation_keys" ["--activation-key"]); ("rootpw", crypted);
   ("selinux", in_ "selinux" ["--disabled"; "--enforcing"; "--permissive"]); ("sshpw", crypted); ("syspurpose", in_ "addons" ["--addon"]);
   ("text", display); ("timezone", in_ "isUtc" ["--utc"]); ("user", crypted); ("vnc", while (since FC6) "_connect" ["--connect"]);
   ("volgroup", formatted);
   ("xconfig", while (before FC6) "noProbe" ["--noprobe"] ++ in_ "startX" ["--startxonboot"] ++ while (before F10) "videoRam" ["--videoram"]);
   ("zipl", in_ "secure_boot" ["--force-secure-boot"; "--no-secure-boot"])].
Definition attribute (v : Z) (n o : string) : string :=
  match find (fun e => String.eqb (fst e) o && snd (snd e) v) (match assoc n odd_options with Some l => l | None => [] end) with
  | Some e => fst (snd e)
  | None => undashed o
  end.

(** ** The tables *)

(** The options of each class and where their values go. *)
Definition targets (c : string) : list (string * string) := map (fun kv => (fst kv, d_dest (fst (snd kv)))) (t_map (tabulate (table_of c))).
Definition class_targets := Eval vm_compute in map (fun e => (fst e, map (fun c => (c, targets c)) (snd e))) classes_of.
Definition pairs_eqb (l m : list (string * string)) : bool :=
  Nat.eqb (List.length l) (List.length m) && forallb (fun p => String.eqb (fst (fst p)) (fst (snd p)) && String.eqb (snd (fst p)) (snd (snd p))) (combine l m).
Lemma targets_ok : forallb (fun e => forallb (fun ct => pairs_eqb (targets (fst ct)) (snd ct)) (snd e)) class_targets = true.
Proof. vm_compute. reflexivity. Qed.
Definition named_ok (h : Z * (list (string * string) * list (string * string))) : bool :=
  forallb (fun nc =>
    match assoc (fst nc) class_targets with
    | Some l => match assoc (snd nc) l with
                | Some t => let odd := filter (fun e => snd (snd e) (fst h)) (match assoc (fst nc) odd_options with Some x => x | None => [] end) in
                    forallb (fun od => String.eqb (snd od) (match find (fun e => String.eqb (fst e) (fst od)) odd with Some e => fst (snd e) | None => undashed (fst od) end)) t
                | None => false
                end
    | None => false
    end) (fst (snd h)).
Lemma all_named : forallb named_ok handlers = true.
Proof. vm_compute. reflexivity. Qed.

Lemma targets_in o d i c : assoc o (t_map (tabulate (table_of c))) = Some (d, i) -> In (o, d_dest d) (targets c).
Proof. intros E. unfold targets. apply in_map_iff. exists (o, (d, i)). split; [reflexivity|]. now apply assoc_In. Qed.
Local Opaque table_of targets.
Lemma pairs_eqb_spec l m : pairs_eqb l m = true -> l = m.
Proof.
  unfold pairs_eqb. intros H. apply andb_prop in H as [L H]. apply Nat.eqb_eq in L. revert m L H. induction l as [|[a b] l IH]; intros [|[x y] m] L H; try discriminate; [reflexivity|].
  cbn [combine forallb fst snd] in H. apply andb_prop in H as [H1 H2]. apply andb_prop in H1 as [Ha Hb]. apply String.eqb_eq in Ha. apply String.eqb_eq in Hb. subst. f_equal. apply IH; [now injection L|exact H2].
Qed.
Lemma find_filter {A} (p q : A -> bool) l : find (fun e => q e && p e) l = find q (filter p l).
Proof. induction l as [|x l IH]; cbn [find filter]; [reflexivity|]. destruct (p x); [rewrite andb_true_r; cbn [find]; now rewrite IH|]. now rewrite andb_false_r. Qed.

(** ** C46 *)

(** Every option of every command of every version has its value in the attribute
    [attribute] says. *)
Theorem C46_named : forall v cm dm n c o a,
  In (v, (cm, dm)) handlers -> In (n, c) cm -> option_of (build (table_of c)) o = Some a -> a_dest a = attribute v n o.
Proof.
  intros v cm dm n c o a Hv Hc Ho. rewrite option_of_build in Ho. destruct (assoc o (t_map (tabulate (table_of c)))) as [[d i]|] eqn:E; [|discriminate].
  injection Ho as <-. change (a_dest (act (d, i))) with (d_dest d).
  pose proof all_named as A. rewrite forallb_forall in A. specialize (A _ Hv). unfold named_ok in A. cbn [fst snd] in A. rewrite forallb_forall in A. specialize (A _ Hc). cbn [fst snd] in A.
  destruct (assoc n class_targets) as [l|] eqn:L; [|discriminate]. destruct (assoc c l) as [t|] eqn:T; [|discriminate].
  pose proof targets_ok as K. rewrite forallb_forall in K. specialize (K _ (assoc_In _ _ _ L)). cbn [fst snd] in K. rewrite forallb_forall in K. specialize (K _ (assoc_In _ _ _ T)). cbn [fst snd] in K.
  apply pairs_eqb_spec in K. cbv zeta in A. rewrite forallb_forall in A. specialize (A (o, d_dest d)).
  assert (I : In (o, d_dest d) t).
  { rewrite <- K. exact (targets_in o d i c E). }
  specialize (A I). cbn [fst snd] in A. apply String.eqb_eq in A. unfold attribute. rewrite find_filter. exact A.
Qed.
Print Assumptions C46_named.

(** The value an option gives, when no later option of the line gives the same attribute. *)
Lemma last_app t ws1 r k x : tab_last t r k = Some x -> tab_last t (ws1 ++ r) k = Some x.
Proof. induction ws1 as [|w ws1 IH]; intros H; [exact H|]. cbn [app tab_last]. now rewrite (IH H). Qed.
Lemma last_none t ws k : (forall w, In w ws -> forall d x, tab_effect t w = Some (d, x) -> d <> k) -> tab_last t ws k = None.
Proof.
  induction ws as [|w ws IH]; intros H; [reflexivity|]. cbn [tab_last]. rewrite IH by (intros w' Hw; apply H; now right).
  destruct (tab_effect t w) as [[d x]|] eqn:E; [|reflexivity]. destruct (String.eqb_spec k d) as [->|]; [|reflexivity]. exfalso. exact (H w (or_introl eq_refl) d x E eq_refl).
Qed.
Lemma gives_last v cm dm n c ws1 w ws2 a x :
  In (v, (cm, dm)) handlers -> In (n, c) cm -> table_plain (table_of c) = true -> required_given (table_of c) (ws1 ++ w :: ws2) = true ->
  (forall w', In w' (ws1 ++ w :: ws2) -> tab_effect (tabulate (table_of c)) w' <> None) ->
  option_of (build (table_of c)) (name w) = Some a -> a_kind a = KStore -> given a w = Some x -> x <> VNone ->
  (forall w', In w' ws2 -> attribute v n (name w') <> attribute v n (name w)) ->
  gives c (attribute v n (name w)) (map text (ws1 ++ w :: ws2)) = Some x.
Proof.
  intros Hv Hc P R F Ho Hk Hg Hx Hl. pose proof (C46_named v cm dm n c (name w) a Hv Hc Ho) as N.
  rewrite (C33_words c _ _ P R).
  - rewrite (last_app _ ws1 (w :: ws2) _ x).
    + destruct x; try reflexivity. congruence.
    + cbn [tab_last]. rewrite last_none.
      * unfold tab_effect. rewrite option_of_build in Ho. destruct (assoc (name w) (t_map (tabulate (table_of c)))) as [y|] eqn:E; [|discriminate]. injection Ho as <-.
        rewrite Hg. change (a_kind (act y)) with (d_kind (fst y)) in Hk. rewrite Hk. change (d_dest (fst y)) with (a_dest (act y)). now rewrite N, eqb_refl_s.
      * intros w' Hw d z E. specialize (Hl w' Hw). unfold tab_effect in E. destruct (assoc (name w') (t_map (tabulate (table_of c)))) as [y|] eqn:A; [|discriminate].
        assert (Ho' : option_of (build (table_of c)) (name w') = Some (act y)) by (now rewrite option_of_build, A).
        pose proof (C46_named v cm dm n c (name w') _ Hv Hc Ho') as N'. change (a_dest (act y)) with (d_dest (fst y)) in N'.
        destruct (given (act y) w'); [|discriminate]. destruct (d_kind (fst y)); try discriminate; injection E as <- _; congruence.
  - apply forallb_forall. intros w' Hw. specialize (F w' Hw). destruct (tab_effect _ w'); [reflexivity|congruence].
Qed.

(** In an accepted line of options, the value given to an option is the value of its
    attribute afterwards: on the command, ... *)
Theorem C46_stored : forall rest v cm dm n c own h line ws1 w ws2 ln h1 a x,
  In (v, (cm, dm)) handlers -> In (n, c) cm -> assoc n storing = Some own -> live c -> used rest cm dm h ->
  table_plain (table_of c) = true -> required_given (table_of c) (ws1 ++ w :: ws2) = true ->
  (forall w', In w' (ws1 ++ w :: ws2) -> tab_effect (tabulate (table_of c)) w' <> None) ->
  option_of (build (table_of c)) (name w) = Some a -> a_kind a = KStore -> given a w = Some x -> x <> VNone ->
  (forall w', In w' ws2 -> attribute v n (name w') <> attribute v n (name w)) ->
  ~ In (attribute v n (name w)) (own ++ notes) ->
  handle_command h line (n :: map text (ws1 ++ w :: ws2)) ln = (h1, None) ->
  exists o, served h1 n = Some o /\ assoc (attribute v n (name w)) (o_attrs o) = Some x.
Proof.
  intros rest v cm dm n c own h line ws1 w ws2 ln h1 a x Hv Hc Hn Hl U P R F Ho Hk Hg Hx Hw Hi E.
  pose proof (gives_last v cm dm n c ws1 w ws2 a x Hv Hc P R F Ho Hk Hg Hx Hw) as G. rewrite in_app_iff in Hi.
  pose proof (storing_class stored v cm dm n c own stored_checked all_stored_checked Hv Hc Hn Hl) as S.
  destruct (line_cases rest v cm dm Hv h n c line (map text (ws1 ++ w :: ws2)) ln U Hc) as (o & vw & a' & d' & So & Co & _ & Q & J).
  pose proof (J n c Hc) as X. rewrite E, eqb_refl_s in X. cbn [fst] in X. eexists. split; [exact X|]. cbn [o_attrs].
  rewrite E in Q. cbn [snd] in Q. destruct (cl_parse _ vw _ _ _) as [[a1 d1] [y|e1]] eqn:T.
  - destruct Q as (-> & _). rewrite (storing_parse rest c own _ _ _ _ _ _ _ (attribute v n (name w)) S) by (try exact T; tauto). now rewrite G.
  - destruct Q as (_ & _ & Q). discriminate.
Qed.
Print Assumptions C46_stored.

(** ... or on the data object the line makes. *)
Theorem C46_recorded : forall rest v cm dm n c kind own h line ws1 w ws2 ln h1 a x,
  In (v, (cm, dm)) handlers -> In (n, c) cm -> In (n, (kind, own)) recording -> (n = "device" -> (F8 <= v)%Z) -> live c -> used rest cm dm h ->
  table_plain (table_of c) = true -> required_given (table_of c) (ws1 ++ w :: ws2) = true ->
  (forall w', In w' (ws1 ++ w :: ws2) -> tab_effect (tabulate (table_of c)) w' <> None) ->
  option_of (build (table_of c)) (name w) = Some a -> a_kind a = KStore -> given a w = Some x -> x <> VNone ->
  (forall w', In w' ws2 -> attribute v n (name w') <> attribute v n (name w)) ->
  ~ In (attribute v n (name w)) own ->
  handle_command h line (n :: map text (ws1 ++ w :: ws2)) ln = (h1, None) ->
  exists o l d, served h1 n = Some o /\ o_data o = l ++ [d] /\ assoc (attribute v n (name w)) (d_attrs d) = Some x.
Proof.
  intros rest v cm dm n c kind own h line ws1 w ws2 ln h1 a x Hv Hc Hn Hd Hl U P R F Ho Hk Hg Hx Hw Hi E.
  pose proof (gives_last v cm dm n c ws1 w ws2 a x Hv Hc P R F Ho Hk Hg Hx Hw) as G.
  assert (E' : snd (handle_command h line (n :: map text (ws1 ++ w :: ws2)) ln) = None) by (now rewrite E).
  destruct (C03_accepted_recorded_once rest v cm dm n c h line _ ln n c kind own Hv Hc Hn Hd Hl U E' Hc) as (o & o' & _ & So & _ & X).
  rewrite eqb_refl_s in X. destruct X as (d & Ed & _ & Ad). rewrite E in So. exists o', (o_data o), d. split; [exact So|]. split; [exact Ed|].
  rewrite (Ad _ Hi). unfold line_says. now rewrite G.
Qed.
Print Assumptions C46_recorded.

(** A stored and a recorded value. *)
Local Transparent table_of.
Example C46_example :
  attribute F34 "url" "--mirrorlist" = "mirrorlist" /\ attribute F34 "volgroup" "--reserved-percent" = "reserved_percent" /\
  attribute F34 "part" "--ondisk" = "disk" /\ attribute FC6 "firewall" "--ssh" = "ports" /\ attribute F34 "firewall" "--ssh" = "services" /\
  table_plain (table_of "F30_Url") = true /\ required_given (table_of "F30_Url") [OVal "--mirrorlist" "http://b"; OFlag "--noverifyssl"] = true /\
  forallb (fun w => match tab_effect (tabulate (table_of "F30_Url")) w with Some _ => true | None => false end) [OVal "--mirrorlist" "http://b"; OFlag "--noverifyssl"] = true /\
  after F34 [["url"; "--mirrorlist"; "http://b"; "--noverifyssl"]] "url" ["mirrorlist"] = Some [VStr "http://b"] /\
  table_plain (table_of "F12_Group") = true /\ required_given (table_of "F12_Group") [OVal "--name" "g"; OVal "--gid" "7"] = true /\
  accepts F34 [["group"; "--name"; "g"; "--gid"; "7"]] = Some true.
Proof. repeat (split; [lazy; reflexivity|]). lazy; reflexivity. Qed.
