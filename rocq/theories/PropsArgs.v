(** * C02 - C04: option lines

    The vocabulary (tables, option words, the meaning of a line) is in ArgSpec.v;
    the model of the argument parser is in ArgParse.v. *)

From Verif Require Import ArgSpec ArgParseFacts ArgLineFacts ArgErrFacts Options.
From Verif Require Import Value.
Local Open Scope string_scope.
Local Open Scope list_scope.

(** A table for the examples: a required and an optional value, a flag, a number,
    a list, and an option that shares its destination with another one. *)
Definition ex_table : parser :=
  let opt o d ty req i := mkAction i [o] d KStore NOne VNone VNone ty None req false in
  let p := add_argument empty_parser (opt "--url" "url" ty_str true) in
  let p := add_argument p (opt "--proxy" "proxy" ty_str false) in
  let p := add_argument p (opt "--port" "port" ty_int false) in
  let p := add_argument p (fun i => mkAction i ["--noverifyssl"] "noverifyssl" KStoreConst (NInt 0) (VBool true) (VBool false) ty_str None false false) in
  let p := add_argument p (fun i => mkAction i ["--pkg"] "pkgs" KAppend NOne VNone VNone ty_str None false false) in
  add_argument p (opt "--mirror" "url" ty_str false).

Ltac in_cases := simpl; intros a Ha;
  repeat match type of Ha with _ \/ _ => destruct Ha as [<-|Ha] | False => destruct Ha end.

(** ** C02 *)

(** A line of known option words is accepted, and every destination gets the value
    the line means: words are read left to right, starting from the declared
    defaults. *)
Theorem C02_line_means : forall p ln ws m,
  table_ok p = true -> positionals p = [] ->
  (forall a, In a (p_actions p) -> settled a) ->
  (forall a, In a (p_actions p) -> a_required a = true ->
     exists w b, In w ws /\ option_of p (name w) = Some b /\ a_id b = a_id a) ->
  line_meaning p ws = Some m ->
  exists ns, parse_args p ln (map text ws) = Ok ns /\ forall d, get d ns = m d.
Proof. exact parse_line. Qed.
Print Assumptions C02_line_means.

(** The last word that writes a destination decides (options with a value). *)
Theorem C02_last_value_wins : forall p ln ws1 w ws2 a v ns,
  table_ok p = true -> positionals p = [] ->
  (forall a, In a (p_actions p) -> settled a) ->
  (forall a, In a (p_actions p) -> a_required a = true ->
     exists w' b, In w' (ws1 ++ w :: ws2) /\ option_of p (name w') = Some b /\ a_id b = a_id a) ->
  line_meaning p (ws1 ++ w :: ws2) <> None ->
  option_of p (name w) = Some a -> a_kind a = KStore -> given a w = Some v ->
  (forall w', In w' ws2 -> ~ writes p w' (a_dest a)) ->
  parse_args p ln (map text (ws1 ++ w :: ws2)) = Ok ns ->
  get (a_dest a) ns = v.
Proof.
  intros p ln ws1 w ws2 a v ns Ht Hp Hs Hr Hm Ho Hk Hg Hl H.
  destruct (line_meaning p (ws1 ++ w :: ws2)) as [m|] eqn:E; [|congruence].
  destruct (parse_line p ln _ m Ht Hp Hs Hr E) as (ns' & H' & Hd). rewrite H' in H. injection H as <-.
  rewrite Hd. exact (last_word_wins p ws1 w ws2 a v m E Ho Hk Hg Hl).
Qed.
Print Assumptions C02_last_value_wins.

(** ... and for flags, whose value is the declared constant. *)
Theorem C02_last_flag_wins : forall p ln ws1 w ws2 a v ns,
  table_ok p = true -> positionals p = [] ->
  (forall a, In a (p_actions p) -> settled a) ->
  (forall a, In a (p_actions p) -> a_required a = true ->
     exists w' b, In w' (ws1 ++ w :: ws2) /\ option_of p (name w') = Some b /\ a_id b = a_id a) ->
  line_meaning p (ws1 ++ w :: ws2) <> None ->
  option_of p (name w) = Some a -> a_kind a = KStoreConst -> given a w = Some v ->
  (forall w', In w' ws2 -> ~ writes p w' (a_dest a)) ->
  parse_args p ln (map text (ws1 ++ w :: ws2)) = Ok ns ->
  get (a_dest a) ns = a_const a.
Proof.
  intros p ln ws1 w ws2 a v ns Ht Hp Hs Hr Hm Ho Hk Hg Hl H.
  destruct (line_meaning p (ws1 ++ w :: ws2)) as [m|] eqn:E; [|congruence].
  destruct (parse_line p ln _ m Ht Hp Hs Hr E) as (ns' & H' & Hd). rewrite H' in H. injection H as <-.
  rewrite Hd. exact (last_flag_wins p ws1 w ws2 a v m E Ho Hk Hg Hl).
Qed.
Print Assumptions C02_last_flag_wins.

(** A destination no word writes has its declared default. *)
Theorem C02_default : forall p ln ws d ns,
  table_ok p = true -> positionals p = [] ->
  (forall a, In a (p_actions p) -> settled a) ->
  (forall a, In a (p_actions p) -> a_required a = true ->
     exists w b, In w ws /\ option_of p (name w) = Some b /\ a_id b = a_id a) ->
  line_meaning p ws <> None ->
  (forall w, In w ws -> ~ writes p w d) ->
  parse_args p ln (map text ws) = Ok ns ->
  get d ns = declared (p_actions p) d.
Proof.
  intros p ln ws d ns Ht Hp Hs Hr Hm Hw H.
  destruct (line_meaning p ws) as [m|] eqn:E; [|congruence].
  destruct (parse_line p ln _ m Ht Hp Hs Hr E) as (ns' & H' & Hd). rewrite H' in H. injection H as <-.
  rewrite Hd. exact (read_words_other p d ws _ m Hw E).
Qed.
Print Assumptions C02_default.

(** Words that write different destinations can be reordered. *)
Theorem C02_reorder : forall p ln ws ws',
  reorder p ws ws' ->
  table_ok p = true -> positionals p = [] ->
  (forall a, In a (p_actions p) -> settled a) ->
  (forall a, In a (p_actions p) -> a_required a = true ->
     exists w b, In w ws /\ option_of p (name w) = Some b /\ a_id b = a_id a) ->
  line_meaning p ws <> None ->
  exists ns ns', parse_args p ln (map text ws) = Ok ns /\ parse_args p ln (map text ws') = Ok ns'
    /\ forall d, get d ns = get d ns'.
Proof.
  intros p ln ws ws' R Ht Hp Hs Hr Hm.
  destruct (line_meaning p ws) as [m|] eqn:E; [|congruence].
  pose proof (reorder_meaning p ws ws' R) as S. rewrite E in S.
  destruct (line_meaning p ws') as [m'|] eqn:E'; [|destruct S].
  destruct (parse_line p ln ws m Ht Hp Hs Hr E) as (ns & H & Hd).
  destruct (parse_line p ln ws' m' Ht Hp Hs) as (ns' & H' & Hd'); [|exact E'|].
  - intros a Ha Hq. destruct (Hr a Ha Hq) as (w & b & Hin & Hrest). exists w, b. split; [|exact Hrest].
    apply (reorder_in p ws ws' w R). exact Hin.
  - exists ns, ns'. split; [exact H|]. split; [exact H'|]. intros d. rewrite Hd, Hd'. apply S.
Qed.
Print Assumptions C02_reorder.

(** The hypotheses hold of the example table and a line with repetitions. *)
Definition ex_line : list oword :=
  [OVal "--port" "80"; OVal "--url" "http://a=b"; OFlag "--noverifyssl"; OVal "--pkg" "x";
   OVal "--mirror" "http://c"; OVal "--port" "-7"; OVal "--pkg" "y z"].
Example C02_case_table : table_ok ex_table = true /\ positionals ex_table = [].
Proof. split; vm_compute; reflexivity. Qed.
Example C02_case_settled : forall a, In a (p_actions ex_table) -> settled a.
Proof. in_cases; intros d H; discriminate. Qed.
Example C02_case_required : forall a, In a (p_actions ex_table) -> a_required a = true ->
  exists w b, In w ex_line /\ option_of ex_table (name w) = Some b /\ a_id b = a_id a.
Proof.
  in_cases; intros Hr; try discriminate. exists (OVal "--url" "http://a=b"). eexists.
  split; [simpl; auto|]. split; vm_compute; reflexivity.
Qed.
Example C02_case : exists ns, parse_args ex_table (Some 3%N) (map text ex_line) = Ok ns /\
  map (fun d => get d ns) ["url"; "proxy"; "port"; "noverifyssl"; "pkgs"] =
  [VStr "http://c"; VNone; VInt (-7); VBool true; VStrs ["x"; "y z"]].
Proof. eexists. vm_compute. split; reflexivity. Qed.
Example C02_case_meaning : line_meaning ex_table ex_line <> None.
Proof. vm_compute. discriminate. Qed.
Example C02_case_reorder : reorder ex_table
  [OVal "--port" "80"; OVal "--url" "u"; OFlag "--noverifyssl"]
  [OVal "--url" "u"; OVal "--port" "80"; OFlag "--noverifyssl"].
Proof.
  apply (reorder_swap ex_table [] _ _ [OFlag "--noverifyssl"]); [|constructor].
  intros d [(a & Ha & Hd) (b & Hb & Hd')]. vm_compute in Ha, Hb. injection Ha as <-. injection Hb as <-.
  simpl in *. congruence.
Qed.

(** ** C03 *)

(** A double-dash word (not the bare separator, and not after one) whose name is
    neither an option of the table nor an abbreviation of one makes the line fail
    with a parse error that carries the line number. *)
Theorem C03_unknown_option : forall p ln l w r,
  table_ok p = true -> well_declared ln p ->
  ~ In "--" l -> startswith w "--" = true -> w <> "--" -> has_char SP w = false ->
  (forall o, In o (map fst (p_optmap p)) -> spells w o = false) ->
  exists t, parse_args p ln (l ++ w :: r) = Err (KSParseError ln t).
Proof.
  intros p ln l w r Ht Hw Hl Hs Hn Hsp Hsome.
  destruct (unknown_rejected p ln l w r Ht Hl Hs Hn Hsp
              (fun o a Hin => Hsome o (in_map fst _ _ Hin))) as (e & He).
  destruct (parse_args_perr p ln _ e Ht Hw He) as (t & ->). eauto.
Qed.
Print Assumptions C03_unknown_option.

(** A line without a required option fails the same way. *)
Theorem C03_missing_required : forall p ln args a,
  table_ok p = true -> well_declared ln p ->
  NoDup (map a_id (p_actions p)) -> In a (p_actions p) ->
  is_positional a = false -> a_required a = true ->
  (forall w o b, In w args -> In (o, b) (p_optmap p) -> a_id b = a_id a -> spells w o = false) ->
  exists t, parse_args p ln args = Err (KSParseError ln t).
Proof.
  intros p ln args a Ht Hw Hnd Ha Hp Hr Hno.
  destruct (required_missing p ln args a Ht Ha Hr Hp Hnd Hno) as (e & He).
  destruct (parse_args_perr p ln _ e Ht Hw He) as (t & ->). eauto.
Qed.
Print Assumptions C03_missing_required.

(** In fact every way a line can fail is a parse error with the line number. *)
Theorem C03_failures_are_parse_errors : forall p ln args e,
  table_ok p = true -> well_declared ln p ->
  parse_args p ln args = Err e -> exists t, e = KSParseError ln t.
Proof. exact parse_args_perr. Qed.
Print Assumptions C03_failures_are_parse_errors.

(** The restriction to words without blanks is needed: argparse takes an unknown
    word with a blank in it for a positional argument. *)
Theorem C03_unknown_with_blank_refuted : exists p w ns,
  table_ok p = true /\ startswith w "--" = true /\
  (forall o, In o (map fst (p_optmap p)) -> spells w o = false) /\
  parse_args p (Some 1%N) [w] = Ok ns /\ get "where" ns = VStr w.
Proof.
  exists (add_argument empty_parser (fun i => mkAction i [] "where" KStore NOne VNone VNone ty_str None true false)),
    "--no such", [("where", VStr "--no such")].
  repeat split; try (vm_compute; reflexivity). intros o [].
Qed.
Print Assumptions C03_unknown_with_blank_refuted.

Lemma ex_ty_str_fails ln i o d k n c v ch r dp :
  fails_properly ln (mkAction i o d k n c v ty_str ch r dp).
Proof. intros s e H. discriminate. Qed.
Lemma ex_well_declared ln : well_declared ln ex_table.
Proof.
  split.
  - unfold all_actions. in_cases; (split; [|split; [discriminate|split; [exact I|]]]); simpl;
      try exact I; try (apply ex_ty_str_fails).
    all: try (intros s e H; simpl in H; unfold ty_int in H; destruct (py_int s); [discriminate|];
              injection H as <-; auto).
    all: repeat split; auto; intros s v H; injection H as <-; eauto.
  - intros a b Ha Hb. revert b Hb. pattern a. revert a Ha. in_cases; simpl; intros b Hb Hc; try discriminate;
      revert b Hb; in_cases; simpl; auto; discriminate.
Qed.

Example C03_case_unknown : table_ok ex_table = true /\
  (forall o, In o (map fst (p_optmap ex_table)) -> spells "--prox1=3" o = false) /\
  (exists t, parse_args ex_table (Some 9%N) ["--url=x"; "--prox1=3"] = Err (KSParseError (Some 9%N) t)) /\
  (exists ns, parse_args ex_table (Some 9%N) ["--url=x"; "--prox=3"] = Ok ns).
Proof.
  split; [reflexivity|]. split; [|split; vm_compute; eauto].
  simpl. intros o Ho. repeat destruct Ho as [<-|Ho]; try (vm_compute; reflexivity). destruct Ho.
Qed.
Example C03_case_required : NoDup (map a_id (p_actions ex_table)) /\
  (exists a, In a (p_actions ex_table) /\ is_positional a = false /\ a_required a = true) /\
  (exists t, parse_args ex_table (Some 9%N) ["--proxy=x"; "--mirror=y"] = Err (KSParseError (Some 9%N) t)).
Proof.
  split; [vm_compute; repeat constructor; simpl; intuition congruence|].
  split; [eexists; split; [left; reflexivity|split; reflexivity]|]. vm_compute. eauto.
Qed.

(** ** C04 *)

(** Attaching the value with an equals sign or giving it as the next word makes no
    difference: same namespace, same remaining words, same failure. *)
Theorem C04_value_attached_or_separate : forall p ln l o v r a,
  table_ok p = true -> option_of p o = Some a -> takes_one a ->
  startswith v "-" = false -> ~ In "--" l ->
  parse_known_args p ln (l ++ o :: v :: r) = parse_known_args p ln (l ++ (o ++ "=" ++ v)%string :: r).
Proof. exact value_join. Qed.
Print Assumptions C04_value_attached_or_separate.

Corollary C04_whole_line : forall p ln l o v r a,
  table_ok p = true -> option_of p o = Some a -> takes_one a ->
  startswith v "-" = false -> ~ In "--" l ->
  parse_args p ln (l ++ o :: v :: r) = parse_args p ln (l ++ (o ++ "=" ++ v)%string :: r).
Proof.
  intros p ln l o v r a Ht Ho Ha Hv Hl. unfold parse_args. rewrite (value_join p ln l o v r a Ht Ho Ha Hv Hl). reflexivity.
Qed.
Print Assumptions C04_whole_line.

(** The restriction on the value is needed. *)
Theorem C04_dash_value_refuted : exists p l o v r a,
  table_ok p = true /\ option_of p o = Some a /\ takes_one a /\ ~ In "--" l /\
  parse_args p (Some 1%N) (l ++ o :: v :: r) <> parse_args p (Some 1%N) (l ++ (o ++ "=" ++ v)%string :: r).
Proof.
  exists ex_table, ["--url=x"], "--proxy", "-p", []. eexists.
  split; [reflexivity|]. split; [vm_compute; reflexivity|]. split; [left; reflexivity|].
  split; [simpl; intros [H|[]]; discriminate|]. vm_compute. intros H. discriminate.
Qed.
Print Assumptions C04_dash_value_refuted.

Example C04_case : exists ns,
  parse_args ex_table (Some 1%N) ["--port"; "80"; "--url"; "x y"; "--pkg=1"] = Ok ns /\
  parse_args ex_table (Some 1%N) ["--port=80"; "--url=x y"; "--pkg"; "1"] = Ok ns /\
  exists a, option_of ex_table "--port" = Some a /\ takes_one a.
Proof. eexists. split; [|split]; [vm_compute; reflexivity..|]. eexists. split; [reflexivity|left; reflexivity]. Qed.
