(** * Specification: data that can be written and read again (C38) *)

From Verif Require Import PyStr ArgDecl ArgTable PyClass CmdFlow.
From Verif Require Import Value.
Local Open Scope string_scope.
Local Open Scope list_scope.

(** A text that needs no quotes: it is not empty and has no blanks, quotes, backslashes
    or number signs. *)
Definition bare (s : string) : Prop :=
  s <> "" /\ forall c, In c (list_ascii_of_string s) -> is_space c = false /\ ~ In c ["'"; """"; "\"; "#"]%char.
(** A value that can stand on a line: a text without special characters, a number that is
    not negative, a list of such texts without commas, True or False. *)
Definition tidy (v : value) : Prop :=
  match v with
  | VStr s => bare s
  | VInt z => (0 <= z)%Z
  | VStrs l => l <> [] /\ forall s, In s l -> bare s /\ has_char "," s = false
  | VBool _ => True
  | VNone | VPairs _ | VCodes _ => False
  end.

(** The attribute that the word of a line that is not an option goes to: the mount point
    is called "mntpoint" by the parser and "mountpoint" by the object. *)
Definition word_attr (p : string) : string := if String.eqb p "mntpoint" then "mountpoint" else p.
(** The word as an option with that attribute; options are themselves. *)
Definition as_option (d : decl) : decl :=
  match d_opts d with
  | [] => mkDecl [("--" ++ d_dest d)%string] (word_attr (d_dest d)) (d_kind d) NOne (d_const d) (d_default d) (d_type d) (d_choices d) (d_required d) (d_deprecated d)
  | _ => d
  end.
(** The options of a class, by destination, and the required ones; the word that is not an
    option is one of them. *)
Definition options (c : string) : list decl := map (fun x => as_option (fst x)) (t_acts (tabulate (table_of c))).
(** All declarations, those of the second names of an option too. *)
Definition declared_by (c : string) : list decl := options c ++ map (fun kx => fst (snd kx)) (t_map (tabulate (table_of c))).
Definition is_option (c k : string) : Prop := exists d, In d (options c) /\ d_dest d = k.
Definition is_required (c k : string) : Prop := exists d, In d (options c) /\ d_dest d = k /\ d_required d = true.
(** The value of the attribute [k] when no option for it is given: the default of the
    option, or what a new object of the class [t] has when that is None. *)
Definition left_out (c t k : string) : value :=
  match tab_default (t_acts (tabulate (table_of c))) k with VNone => get k (init_of t) | v => v end.
(** The value the words of a line give for the attribute [k]. *)
Definition line_gives (c t k : string) (args : list string) : value :=
  match line_values c args with
  | Some n => match get k n with VNone => get k (init_of t) | v => v end
  | None => get k (init_of t)
  end.

(** ** Options that are not always written *)

(** When an option is written: when an attribute is set, when it is not set, when two are
    set; never. *)
Inductive need := When (k : string) | Unless (k : string) | WhenBoth (k j : string) | Never.
Definition met (x : attrs) (n : need) : Prop :=
  match n with
  | When k => truthy (get k x) = true
  | Unless k => truthy (get k x) = false
  | WhenBoth k j => truthy (get k x) = true /\ truthy (get j x) = true
  | Never => False
  end.
(** The attributes of a need are options of the class. *)
Definition need_attrs (n : need) : list string :=
  match n with When k | Unless k => [k] | WhenBoth k j => [k; j] | Never => [] end.

(** For each command, or class, the options its __str__ leaves out in some cases, and when
    it does write them. *)
Definition written_when : list (string * list (string * need)) :=
  [("autopart", map (fun k => (k, When "encrypted")) ["passphrase"; "escrowcert"; "cipher"; "luks_version"; "pbkdf"; "pbkdf_memory"; "pbkdf_time"; "pbkdf_iterations"]
                ++ [("backuppassphrase", WhenBoth "encrypted" "escrowcert"); ("linear", Never)]);
   ("bootloader", map (fun k => (k, Unless "disabled"))
                    ["appendLine"; "location"; "password"; "upgrade"; "driveorder"; "timeout"; "default"; "isCrypted"; "extlinux"; "leavebootorder"; "boot_drive"; "bootDrive"; "nombr"; "sdboot"]
                  ++ map (fun k => (k, Never)) ["_md5pass"; "linear"; "lba32"; "nonInteractive"]);
   ("group", [("gid", When "gid")]);
   ("ignoredisk", [("onlyuse", Unless "ignoredisk"); ("onlyuse", Unless "interactive"); ("ignoredisk", Unless "interactive")]);
   ("lilo", [("linear", Never)]);
   ("F34_Logging", [("level", Never)]);
   ("logvol", map (fun k => (k, When "encrypted")) ["passphrase"; "escrowcert"; "cipher"; "luks_version"; "pbkdf"; "pbkdf_memory"; "pbkdf_time"; "pbkdf_iterations"]
              ++ [("backuppassphrase", WhenBoth "encrypted" "escrowcert"); ("size", When "size"); ("bytesPerInode", When "bytesPerInode"); ("pool_name", When "thin_volume");
                  ("chunk_size", When "chunk_size"); ("metadata_size", When "thin_pool"); ("metadata_size", When "metadata_size"); ("bytes_per_inode", Never)]);
   ("part", map (fun k => (k, When "encrypted")) ["passphrase"; "escrowcert"; "cipher"; "luks_version"; "pbkdf"; "pbkdf_memory"; "pbkdf_time"; "pbkdf_iterations"]
            ++ [("backuppassphrase", WhenBoth "encrypted" "escrowcert"); ("size", When "size"); ("bytesPerInode", When "bytesPerInode"); ("bytes_per_inode", Never)]);
   ("repo", [("mirrorlist", Unless "baseurl"); ("cost", When "cost"); ("ignoregroups", When "ignoregroups")]);
   ("rescue", [("nonInteractive", Never)]);
   ("rootpw", [("isCrypted", When "password")]);
   ("url", [("mirrorlist", Unless "url"); ("metalink", Unless "url"); ("metalink", Unless "mirrorlist")]);
   ("user", [("uid", When "uid"); ("gid", When "gid")]);
   ("vnc", [("port", When "host"); ("_connect", Never)]);
   ("FC6_XConfig", map (fun k => (k, Never)) ["card"; "hsync"; "monitor"; "noprobe"; "vsync"]);
   ("F9_XConfig", map (fun k => (k, Never)) ["card"; "hsync"; "monitor"; "noprobe"; "vsync"]);
   ("F14_XConfig", map (fun k => (k, Never)) ["card"; "hsync"; "monitor"; "noprobe"; "vsync"]);
   ("F14_ZFCP", [("scsiid", Never); ("scsilun", Never)])].
(** The options whose value the command may change before storing it. *)
Definition changed : list (string * list string) :=
  [("bootloader", ["password"; "isCrypted"; "_md5pass"]); ("clearpart", ["type"]); ("logvol", ["preexist"]); ("network", ["bootProto"])].
(** For some classes what the attributes of a command are set: a url has one source; a root
    password is given, or the account is locked. *)
Definition cases : list (string * list (list (string * bool))) :=
  let urls2 := [[("url", true); ("mirrorlist", false)]; [("url", false); ("mirrorlist", true)]] in
  let urls3 := [[("url", true); ("mirrorlist", false); ("metalink", false)]; [("url", false); ("mirrorlist", true); ("metalink", false)];
                [("url", false); ("mirrorlist", false); ("metalink", true)]] in
  [("F18_Url", urls2); ("RHEL8_Url", urls3); ("F27_Url", urls3); ("F30_Url", urls3);
   ("F18_RootPw", [[("password", true)]; [("password", false); ("lock", true)]]); ("FC6_Logging", [[("level", true)]])].
Definition listed {X} (n : string) (l : list (string * list X)) : list X := match assoc n l with Some r => r | None => [] end.

Definition written_if (n c : string) : list (string * need) := listed n written_when ++ listed c written_when.

(** The attributes [x] of an object of the class [t], recorded from a line of the command
    [n] of the class [c] with the words [args], can be written: each option was left out
    or has a tidy value; an option that is not written was left out; what the command
    may change was not changed; the word that is not an option does not begin with a dash;
    it is one of the cases of the class; and a value from which a prefix is dropped does not begin with it once more. *)
Definition writable (n c t : string) (args : list string) (x : attrs) : Prop :=
  (forall k, is_option c k -> (~ is_required c k /\ get k x = left_out c t k) \/ tidy (get k x)) /\
  (forall k g, In (k, g) (written_if n c) -> is_option c k -> (forall j, In j (need_attrs g) -> is_option c j) ->
     ~ is_required c k -> ~ met x g -> get k x = left_out c t k) /\
  (forall k, In k (listed n changed) -> is_option c k -> get k x = line_gives c t k args) /\
  (forall d s, In d (map fst (t_acts (tabulate (table_of c)))) -> d_opts d = [] -> get (word_attr (d_dest d)) x = VStr s -> startswith s "-" = false) /\
  (forall d p s, In d (declared_by c) -> d_type d = TDrop p -> get (d_dest d) x = VStr s -> startswith s p = false) /\
  (forall L, assoc c cases = Some L -> exists l, In l L /\ forall k b, In (k, b) l -> truthy (get k x) = b).
