(** * Property theorems C01, C05 - C09 (words, option values, versions) *)

From Verif Require Import Shlex ShlexFacts Options OptionsFacts Version VersionFacts TextSpec WordFacts.
Local Open Scope string_scope.

(** ** C01: quoted words survive tokenisation *)

(** For all lists of words and both settings of the tokeniser (commands are
    tokenised with comments, section headers without): quoting each word, joining
    with blanks, and a trailing run of white space gives back the words. *)
Theorem C01_quote_split : forall (comments : bool) (words : list string) (tail : string),
  all_chars lex_white tail = true ->
  shlex_split comments (join " " (map quote words) ++ tail) = Ok words.
Proof. exact split_quoted. Qed.
Print Assumptions C01_quote_split.

Example C01_hypothesis : all_chars lex_white (nl ++ "  ") = true.
Proof. reflexivity. Qed.
Example C01_case : shlex_split true (join " " (map quote ["a b"; ""; "it's"; "# no"; "x\y"]) ++ nl)
                   = Ok ["a b"; ""; "it's"; "# no"; "x\y"].
Proof. vm_compute. reflexivity. Qed.

(** ** C05: comma lists *)

Theorem C05_join_then_split : forall l, Forall item l -> comma_split (join "," l) = l.
Proof. exact comma_split_join. Qed.
Print Assumptions C05_join_then_split.

Theorem C05_items_clean : forall s, Forall item (comma_split s).
Proof. exact comma_split_items. Qed.
Print Assumptions C05_items_clean.

(** The result, piece by piece: each piece between commas contributes its stripped
    text, blank pieces contribute nothing. *)
Theorem C05_piecewise : forall piece rest, has_char "," piece = false ->
  comma_split (piece ++ "," ++ rest) =
  (if String.eqb (strip piece) "" then comma_split rest else strip piece :: comma_split rest).
Proof. exact comma_split_cons. Qed.
Print Assumptions C05_piecewise.

Example C05_hypothesis : Forall item ["sda"; "a b"].
Proof. repeat constructor; simpl; congruence. Qed.
Example C05_case : comma_split " sda,, a b ,	" = ["sda"; "a b"].
Proof. vm_compute. reflexivity. Qed.

(** ** C06: mount points *)

Theorem C06_idempotent : forall s, mountpoint (mountpoint s) = mountpoint s.
Proof. exact mountpoint_idem. Qed.
Print Assumptions C06_idempotent.

Theorem C06_relative_unchanged : forall s, startswith s "/" = false -> mountpoint s = s.
Proof. intros s H. unfold mountpoint. rewrite H. reflexivity. Qed.
Print Assumptions C06_relative_unchanged.

(** An absolute path becomes one or two slashes followed by plain components. *)
Theorem C06_absolute_shape : forall s, startswith s "/" = true ->
  exists lead comps, mountpoint s = lead ++ join "/" comps
    /\ (lead = "/" \/ lead = "//") /\ Forall plain_component comps.
Proof.
  intros s H. exists (abs_lead s), (norm_comps true (split_char SLASH s) []).
  split; [exact (mountpoint_abs_eq s H)|]. split; [|exact (mountpoint_abs_shape s H)].
  unfold abs_lead. destruct (_ && _); auto.
Qed.
Print Assumptions C06_absolute_shape.

(** ... and leads to the same directory as the original spelling. *)
Theorem C06_same_place : forall s, startswith s "/" = true ->
  walk (components (mountpoint s)) [] = walk (components s) [].
Proof.
  intros s H. destruct (components_mountpoint s H) as (k & -> & Hk).
  assert (P : Forall plain_component (rev (walk (components s) []))).
  { rewrite <- norm_comps_walk; [exact (mountpoint_abs_shape s H)|constructor|apply split_char_no]. }
  assert (W : walk (match walk (components s) [] with [] => [""] | w => rev w end) []
              = walk (components s) []).
  { destruct (walk (components s) []) as [|c w] eqn:E; [reflexivity|].
    rewrite walk_plain by exact P. rewrite rev_involutive, app_nil_r. reflexivity. }
  destruct Hk as [-> | ->]; exact W.
Qed.
Print Assumptions C06_same_place.

Example C06_case : mountpoint "//usr/./lib/../share//" = "//usr/share"
  /\ mountpoint "/../boot/efi/" = "/boot/efi" /\ mountpoint "pv.01/../x" = "pv.01/../x".
Proof. vm_compute. auto. Qed.

(** ** C07: boolean option values *)

Theorem C07_true : forall s,
  ksboolean s = Ok true <-> Exists (case_variant s) ["on"; "yes"; "true"; "1"].
Proof. exact ksboolean_true. Qed.
Print Assumptions C07_true.

Theorem C07_false : forall s,
  ksboolean s = Ok false <-> Exists (case_variant s) ["off"; "no"; "false"; "0"].
Proof. exact ksboolean_false. Qed.
Print Assumptions C07_false.

Theorem C07_rejected : forall s,
  ~ Exists (case_variant s) ["on"; "yes"; "true"; "1"; "off"; "no"; "false"; "0"] ->
  ksboolean s = Err ValueError.
Proof. exact ksboolean_other. Qed.
Print Assumptions C07_rejected.

Example C07_case : ksboolean "YeS" = Ok true /\ ksboolean "OFF" = Ok false /\ ksboolean "2" = Err ValueError.
Proof. vm_compute. auto. Qed.
Example C07_hypothesis :
  ~ Exists (case_variant "enabled") ["on"; "yes"; "true"; "1"; "off"; "no"; "false"; "0"].
Proof.
  intros H. apply Exists_exists in H as (w & Hw & Hc). simpl in Hw.
  repeat destruct Hw as [<-|Hw]; simpl in Hc; tauto.
Qed.

(** ** C08: version names and numbers *)

(** [versions] of the specification: the supported version numbers. *)
Definition supported (v : Z) : Prop :=
  In v [900; 1000; 1100; 2000; 3000; 4000; 4100; 5000; 6000; 7000; 8000; 9000; 10000; 11000;
        11100; 12000; 13000; 14000; 15000; 16000; 17000; 18000; 19000; 19100; 20000; 21000;
        22000; 23000; 24000; 25000; 26000; 26100; 27000; 30000; 31000; 32000; 33000; 34000]%Z.

Lemma supported_versionMap v : supported v <-> In v (map snd versionMap).
Proof.
  split; intros H.
  - assert (C : forallb (fun z => existsb (Z.eqb z) (map snd versionMap))
      [900; 1000; 1100; 2000; 3000; 4000; 4100; 5000; 6000; 7000; 8000; 9000; 10000; 11000;
        11100; 12000; 13000; 14000; 15000; 16000; 17000; 18000; 19000; 19100; 20000; 21000;
        22000; 23000; 24000; 25000; 26000; 26100; 27000; 30000; 31000; 32000; 33000; 34000]%Z = true)
      by (vm_compute; reflexivity).
    pose proof (proj1 (forallb_forall _ _) C v H) as X.
    apply existsb_exists in X as (y & Hy & X). apply Z.eqb_eq in X; subst; exact Hy.
  - assert (C : forallb (fun z => existsb (Z.eqb z)
      [900; 1000; 1100; 2000; 3000; 4000; 4100; 5000; 6000; 7000; 8000; 9000; 10000; 11000;
        11100; 12000; 13000; 14000; 15000; 16000; 17000; 18000; 19000; 19100; 20000; 21000;
        22000; 23000; 24000; 25000; 26000; 26100; 27000; 30000; 31000; 32000; 33000; 34000]%Z)
      (map snd versionMap) = true) by (vm_compute; reflexivity).
    pose proof (proj1 (forallb_forall _ _) C v H) as X.
    apply existsb_exists in X as (y & Hy & X). apply Z.eqb_eq in X; subst; exact Hy.
Qed.

Theorem C08_number_name_number : forall v skipDevel, supported v ->
  exists s, versionToString v skipDevel = Ok s /\ stringToVersion s = Ok v.
Proof. intros v b H. apply version_roundtrip, supported_versionMap, H. Qed.
Print Assumptions C08_number_name_number.

Theorem C08_unsupported_number : forall v skipDevel, ~ supported v ->
  exists t, versionToString v skipDevel = Err (KSVersionError t).
Proof. intros v b H. apply versionToString_unsupported. intros X; apply H, supported_versionMap, X. Qed.
Print Assumptions C08_unsupported_number.

Theorem C08_name_total : forall s,
  (exists v, stringToVersion s = Ok v /\ supported v)
  \/ exists t, stringToVersion s = Err (KSVersionError t).
Proof.
  intros s. destruct (stringToVersion_total s) as [(v & Hv)|H]; [left|right; exact H].
  exists v; split; [exact Hv|]. apply supported_versionMap, (stringToVersion_sound s), Hv.
Qed.
Print Assumptions C08_name_total.

Theorem C08_case_insensitive : forall s t, upper s = upper t -> stringToVersion s = stringToVersion t.
Proof. exact stringToVersion_case. Qed.
Print Assumptions C08_case_insensitive.

(** Long Fedora names: any text between the product name and the release. *)
Theorem C08_fedora_names : forall f x d,
  lower f = "fedora" -> has_char LF x = false -> d <> "" -> all_chars is_digit d = true ->
  stringToVersion (f ++ x ++ " " ++ d) =
  match assoc ("FC" ++ d) versionMap with
  | Some v => Ok v
  | None => match assoc ("F" ++ d) versionMap with Some v => Ok v | None => unsupported end
  end.
Proof. exact stringToVersion_fedora. Qed.
Print Assumptions C08_fedora_names.

(** Long RHEL names: the minor release is ignored. *)
Theorem C08_rhel_names : forall f x d r,
  lower f = "red hat enterprise linux" -> has_char LF x = false ->
  d <> "" -> all_chars is_digit d = true ->
  (match r with "" => true | String c _ => Ascii.eqb c "."%char end) = true ->
  all_chars dot_or_digit r = true ->
  stringToVersion (f ++ x ++ " " ++ d ++ r) =
  match assoc ("RHEL" ++ d) versionMap with Some v => Ok v | None => unsupported end.
Proof. exact stringToVersion_rhel. Qed.
Print Assumptions C08_rhel_names.

Theorem C08_DEVEL_largest : forall v, supported v -> (v <= DEVEL)%Z.
Proof. intros v H. apply DEVEL_largest, supported_versionMap, H. Qed.
Print Assumptions C08_DEVEL_largest.

Example C08_case :
  versionToString RHEL6 false = Ok "RHEL6" /\ stringToVersion "rhel6" = Ok RHEL6
  /\ stringToVersion "Fedora Core 6" = Ok FC6 /\ stringToVersion "FEDORA release 20" = Ok F20
  /\ stringToVersion "Red Hat Enterprise Linux Server 7.4" = Ok RHEL7
  /\ (exists t, stringToVersion "Fedora 2" = Err (KSVersionError t)).
Proof. vm_compute. eauto 8. Qed.
Example C08_unsupported_hyp : ~ supported 5001.
Proof. unfold supported; cbn; intuition congruence. Qed.

(** ** C09: the version of a file *)

Theorem C09_first_version_line : forall text,
  versionFromFile text =
  match find (fun l => startswith l "#version=") (splitlines text) with
  | None => Ok DEVEL
  | Some l => stringToVersion (rstrip (drop 9 l))
  end.
Proof. intros text. exact (version_of_lines_find (splitlines text)). Qed.
Print Assumptions C09_first_version_line.

Example C09_case :
  versionFromFile ("lang en" ++ nl ++ " #version=F7" ++ nl ++ "#version=RHEL5 " ++ nl ++ "#version=F9" ++ nl)
  = Ok RHEL5.
Proof. vm_compute. reflexivity. Qed.

(** ** C42: words and quoting *)

(** A line is split into words exactly as the quoting rules of [WordSpec.v] say. *)
Theorem C42_words : forall (comments : bool) (s : string) (ws : list string),
  shlex_split comments s = Ok ws <-> reads comments s ws.
Proof.
  intros cm s ws. unfold shlex_split. split; [|apply reads_lex].
  intros H. apply lex_grammar in H as [H _]. now apply H.
Qed.
Print Assumptions C42_words.

(** A text that the rules give no meaning (an open quote, a final backslash) is an error. *)
Theorem C42_unreadable : forall (comments : bool) (s : string),
  (forall ws, ~ reads comments s ws) -> shlex_split comments s = Err ValueError.
Proof.
  intros cm s H. destruct (shlex_split cm s) as [ws|e] eqn:E.
  - apply C42_words in E. destruct (H ws E).
  - unfold shlex_split in E. apply lex_err in E. now subst e.
Qed.
Print Assumptions C42_unreadable.

Example C42_example :
  reads true ("a" ++ "\" ++ " b'c d'" ++ " ""x\""y\z"" # e" ++ nl) ["a bc d"; "x""y\z"] /\ (forall ws, ~ reads true "a 'b" ws).
Proof.
  split; [apply C42_words; reflexivity|]. intros ws H. apply C42_words in H. discriminate.
Qed.
