(** * Facts about tokenisation: lines made of bare and quoted fragments *)

From Verif Require Export Shlex PyStrFacts.
Local Open Scope string_scope.

(** A written word is a sequence of fragments: characters written as they are,
    text between double quotes, text between single quotes. *)
Inductive frag :=
| Bare (s : string)
| DQ (s : string)
| SQ (s : string).

Definition frag_text (f : frag) : string :=
  match f with
  | Bare s => s
  | DQ s => String DQUOTE (s ++ String DQUOTE "")
  | SQ s => String SQUOTE (s ++ String SQUOTE "")
  end.
Definition frag_val (f : frag) : string := match f with Bare s | DQ s | SQ s => s end.
Definition frag_quoted (f : frag) : bool := match f with Bare _ => false | _ => true end.

Definition bare_char (cm : bool) (c : ascii) : bool :=
  negb (lex_white c) && negb (lex_quote c) && negb (Ascii.eqb c BSLASH)
  && negb (cm && Ascii.eqb c HASH).
Definition dq_char (c : ascii) : bool := negb (Ascii.eqb c DQUOTE) && negb (Ascii.eqb c BSLASH).
Definition sq_char (c : ascii) : bool := negb (Ascii.eqb c SQUOTE).

Definition frag_ok (cm : bool) (f : frag) : bool :=
  match f with
  | Bare s => all_chars (bare_char cm) s
  | DQ s => all_chars dq_char s
  | SQ s => all_chars sq_char s
  end.

Definition word := list frag.
Definition word_text (w : word) : string := concat_all (map frag_text w).
Definition word_val (w : word) : string := concat_all (map frag_val w).
Definition word_ok (cm : bool) (w : word) : bool :=
  forallb (frag_ok cm) w && negb (String.eqb (word_text w) "").

Lemma lex_bare cm s r tok q :
  all_chars (bare_char cm) s = true ->
  lex cm (s ++ r) LWord tok q = lex cm r LWord (tok ++ s) q.
Proof.
  revert tok; induction s as [|c s IH]; intros tok; simpl; [rewrite app_nil_r_s; auto|].
  intros H; apply andb_true_iff in H as [Hc Hs].
  unfold bare_char in Hc. repeat (apply andb_true_iff in Hc as [Hc ?]).
  repeat match goal with H : negb _ = true |- _ => apply negb_true_iff in H; rewrite H end.
  rewrite IH by auto. rewrite app_assoc_s; reflexivity.
Qed.

Lemma lex_in_dq cm s r tok q :
  all_chars dq_char s = true ->
  lex cm (s ++ String DQUOTE r) (LQuote DQUOTE) tok q
  = lex cm r LWord (tok ++ s) true.
Proof.
  revert tok q; induction s as [|c s IH]; intros tok q; cbn [append lex].
  - rewrite eqb_refl_a, app_nil_r_s; auto.
  - cbn [all_chars]. intros H; apply andb_true_iff in H as [Hc Hs].
    unfold dq_char in Hc; apply andb_true_iff in Hc as [H1 H2].
    apply negb_true_iff in H1; apply negb_true_iff in H2. rewrite H1, H2. cbn [andb].
    rewrite IH by auto. rewrite app_assoc_s; reflexivity.
Qed.

Lemma lex_in_sq cm s r tok q :
  all_chars sq_char s = true ->
  lex cm (s ++ String SQUOTE r) (LQuote SQUOTE) tok q
  = lex cm r LWord (tok ++ s) true.
Proof.
  revert tok q; induction s as [|c s IH]; intros tok q; cbn [append lex].
  - rewrite eqb_refl_a, app_nil_r_s; auto.
  - cbn [all_chars]. intros H; apply andb_true_iff in H as [Hc Hs].
    unfold sq_char in Hc. apply negb_true_iff in Hc. rewrite Hc.
    change (Ascii.eqb SQUOTE DQUOTE) with false. rewrite andb_false_r.
    rewrite IH by auto. rewrite app_assoc_s; reflexivity.
Qed.

Lemma lex_frag cm f r tok q :
  frag_ok cm f = true ->
  lex cm (frag_text f ++ r) LWord tok q
  = lex cm r LWord (tok ++ frag_val f) (q || frag_quoted f).
Proof.
  destruct f as [s|s|s]; cbn [frag_ok frag_text frag_val frag_quoted]; intros H.
  - rewrite orb_false_r. apply lex_bare; auto.
  - rewrite app_cons_s, app_assoc_s, app_cons_s. cbn [append].
    cbn [lex]. change (lex_white DQUOTE) with false. change (Ascii.eqb DQUOTE HASH) with false.
    rewrite andb_false_r. change (lex_quote DQUOTE) with true. cbv iota.
    rewrite lex_in_dq, orb_true_r by auto. reflexivity.
  - rewrite app_cons_s, app_assoc_s, app_cons_s. cbn [append].
    cbn [lex]. change (lex_white SQUOTE) with false. change (Ascii.eqb SQUOTE HASH) with false.
    rewrite andb_false_r. change (lex_quote SQUOTE) with true. cbv iota.
    rewrite lex_in_sq, orb_true_r by auto. reflexivity.
Qed.

Lemma lex_frags cm w r tok q :
  forallb (frag_ok cm) w = true ->
  lex cm (word_text w ++ r) LWord tok q
  = lex cm r LWord (tok ++ word_val w) (q || existsb frag_quoted w).
Proof.
  unfold word_text, word_val. revert tok q; induction w as [|f w IH]; intros tok q; simpl.
  - rewrite app_nil_r_s, orb_false_r; auto.
  - intros H; apply andb_true_iff in H as [Hf Hw].
    rewrite app_assoc_s, lex_frag, IH by auto. rewrite app_assoc_s, orb_assoc; reflexivity.
Qed.

(** A token may begin here: neither white space nor a comment character. *)
Definition starts_word (cm : bool) (s : string) : bool :=
  head_ok (fun c => negb (lex_white c) && negb (cm && Ascii.eqb c HASH)) s.

Lemma lex_space_word cm s :
  starts_word cm s = true -> lex cm s LSpace "" false = lex cm s LWord "" false.
Proof.
  destruct s as [|c s]; [discriminate|]. unfold starts_word, head_ok; intros H.
  apply andb_true_iff in H as [H1 H2]. apply negb_true_iff in H1; apply negb_true_iff in H2.
  cbn [lex]. rewrite H1, H2. destruct (lex_quote c) eqn:E; [|reflexivity].
  destruct (Ascii.eqb c BSLASH) eqn:E'; [|reflexivity].
  apply eqb_true_a in E'; subst; discriminate.
Qed.

Lemma starts_word_app cm a b : starts_word cm a = true -> starts_word cm (a ++ b) = true.
Proof. destruct a; simpl; [discriminate|auto]. Qed.

Lemma word_starts cm w : word_ok cm w = true -> starts_word cm (word_text w) = true.
Proof.
  unfold word_ok. intros H; apply andb_true_iff in H as [H Hn].
  apply negb_true_iff, String.eqb_neq in Hn.
  induction w as [|f w IH]; [contradiction|].
  cbn [forallb] in H; apply andb_true_iff in H as [Hf Hw].
  unfold word_text in *; cbn [map concat_all] in *.
  destruct f as [s|s|s]; cbn [frag_text frag_ok] in *.
  - destruct s as [|c s]; [cbn [append] in *; auto|].
    cbn [append all_chars] in *. apply andb_true_iff in Hf as [Hc _].
    unfold starts_word, head_ok. unfold bare_char in Hc.
    repeat (apply andb_true_iff in Hc as [Hc ?]). rewrite Hc; auto.
  - rewrite app_cons_s. unfold starts_word, head_ok.
    change (lex_white DQUOTE) with false. change (Ascii.eqb DQUOTE HASH) with false.
    rewrite andb_false_r; reflexivity.
  - rewrite app_cons_s. unfold starts_word, head_ok.
    change (lex_white SQUOTE) with false. change (Ascii.eqb SQUOTE HASH) with false.
    rewrite andb_false_r; reflexivity.
Qed.

Lemma word_emits w : word_text w <> "" ->
  (String.eqb (word_val w) "" && negb (existsb frag_quoted w)) = false.
Proof.
  unfold word_text, word_val. intros Hn.
  induction w as [|f w IH]; [contradiction|]. cbn [map concat_all existsb] in *.
  destruct f as [s|s|s]; cbn [frag_text frag_val frag_quoted] in *.
  - destruct s as [|c s]; [cbn [append] in *; auto|]. reflexivity.
  - rewrite andb_false_r; reflexivity.
  - rewrite andb_false_r; reflexivity.
Qed.

(** The rest of the line after a word. *)
Definition ends_word (cm : bool) (s : string) : bool :=
  match s with
  | "" => true
  | String c _ => lex_white c || (cm && Ascii.eqb c HASH)
  end.

Lemma lex_after_word cm tail tok q :
  ends_word cm tail = true -> (String.eqb tok "" && negb q) = false ->
  lex cm tail LWord tok q = do l <- shlex_split cm tail ;; Ok (tok :: l).
Proof.
  unfold shlex_split. intros He Ht. destruct tail as [|c tail].
  - simpl. unfold emit. rewrite Ht. reflexivity.
  - cbn [lex]. unfold ends_word in He. unfold emit. rewrite Ht.
    destruct (lex_white c) eqn:Ec; [reflexivity|]. simpl in He. rewrite He. reflexivity.
Qed.

Lemma split_word cm w tail :
  word_ok cm w = true -> ends_word cm tail = true ->
  shlex_split cm (word_text w ++ tail) = do l <- shlex_split cm tail ;; Ok (word_val w :: l).
Proof.
  intros Hw Ht. unfold shlex_split at 1.
  rewrite lex_space_word by (apply starts_word_app, word_starts; auto).
  pose proof Hw as Hw'. unfold word_ok in Hw'. apply andb_true_iff in Hw' as [Hf Hn].
  apply negb_true_iff, String.eqb_neq in Hn.
  rewrite lex_frags by auto. simpl orb. simpl append.
  apply lex_after_word; [auto|apply word_emits; auto].
Qed.

Lemma split_white cm c s : lex_white c = true -> shlex_split cm (String c s) = shlex_split cm s.
Proof. unfold shlex_split; cbn [lex]; intros ->; reflexivity. Qed.

Lemma split_all_white cm s : all_chars lex_white s = true -> shlex_split cm s = Ok [].
Proof.
  induction s as [|c s IH]; [reflexivity|]. cbn [all_chars]; intros H.
  apply andb_true_iff in H as [Hc Hs]. rewrite split_white by auto. auto.
Qed.

Lemma lex_comment s tok q : has_char LF s = false -> lex true s LComment tok q = Ok [].
Proof.
  unfold has_char. induction s as [|c s IH]; [reflexivity|]. cbn [any_char lex]; intros H.
  apply orb_false_iff in H as [Hc Hs]. rewrite Ascii.eqb_sym in Hc. rewrite Hc; auto.
Qed.

(** A comment up to the end of the line. *)
Lemma split_comment s : has_char LF s = false -> shlex_split true (String HASH s) = Ok [].
Proof.
  intros H. unfold shlex_split. cbn [lex].
  change (lex_white HASH) with false. change (Ascii.eqb HASH HASH) with true. cbv iota.
  cbn [andb]. apply lex_comment; auto.
Qed.

Lemma split_words cm ws tail :
  forallb (word_ok cm) ws = true -> ws <> [] -> ends_word cm tail = true ->
  shlex_split cm (join " " (map word_text ws) ++ tail)
  = do l <- shlex_split cm tail ;; Ok (map word_val ws ++ l)%list.
Proof.
  intros Hw Hn Ht. induction ws as [|w ws IH]; [contradiction|].
  cbn [forallb] in Hw; apply andb_true_iff in Hw as [H1 H2].
  destruct ws as [|w' ws].
  - cbn [map join app]. apply split_word; auto.
  - cbn [map]. rewrite join_cons, app_assoc_s.
    rewrite split_word; [|auto|reflexivity].
    cbn [append]. rewrite split_white by reflexivity.
    cbn [map] in IH. rewrite IH; [|auto|discriminate]. 
    destruct (shlex_split cm tail); reflexivity.
Qed.

(** ** [quote] writes a word *)

Fixpoint sq_pieces (l : list string) : word :=
  match l with
  | [] => []
  | [x] => [SQ x]
  | x :: r => SQ x :: DQ (String SQUOTE "") :: sq_pieces r
  end.

Definition quote_word (s : string) : word :=
  match s with
  | "" => [SQ ""]
  | _ => if all_chars shell_safe s then [Bare s] else sq_pieces (split_char SQUOTE s)
  end.

Lemma safe_bare cm c : shell_safe c = true -> bare_char cm c = true.
Proof.
  intros H.
  assert (X : implb (shell_safe c) (bare_char true c) = true).
  { apply (forall_ascii (fun c => implb (shell_safe c) (bare_char true c))). vm_compute; reflexivity. }
  rewrite H in X; simpl in X. unfold bare_char in *.
  repeat (apply andb_true_iff in X as [X ?]).
  destruct cm; repeat (apply andb_true_iff; split); auto.
Qed.

Lemma sq_pieces_val l : word_val (sq_pieces l) = join (String SQUOTE "") l.
Proof.
  unfold word_val. induction l as [|x l IH]; [reflexivity|].
  destruct l as [|y l].
  - simpl. apply app_nil_r_s.
  - rewrite join_cons, <- IH. cbn [sq_pieces map concat_all frag_val]. reflexivity.
Qed.

Lemma sq_pieces_ok cm l :
  Forall (fun s => has_char SQUOTE s = false) l -> forallb (frag_ok cm) (sq_pieces l) = true.
Proof.
  assert (A : forall s, has_char SQUOTE s = false -> all_chars sq_char s = true).
  { intros s H. unfold has_char in H; rewrite any_all, negb_false_iff in H.
    rewrite <- H. apply all_chars_ext. intros c; unfold sq_char. rewrite Ascii.eqb_sym; auto. }
  induction l as [|x l IH]; intros H; [reflexivity|]. inversion H; subst.
  destruct l as [|y l].
  - cbn. rewrite A by auto. reflexivity.
  - change (sq_pieces (x :: y :: l)) with (SQ x :: DQ (String SQUOTE "") :: sq_pieces (y :: l)).
    cbn [forallb]. rewrite IH by auto. cbn [frag_ok]. rewrite A by auto. reflexivity.
Qed.

Lemma sq_pieces_text s :
  word_text (sq_pieces (split_char SQUOTE s))
  = String SQUOTE (replace_char SQUOTE "'""'""'" s ++ String SQUOTE "").
Proof.
  unfold word_text. induction s as [|c s IH]; [reflexivity|].
  cbn [split_char replace_char].
  destruct (Ascii.eqb SQUOTE c) eqn:E.
  - pose proof (split_char_nonnil SQUOTE s).
    destruct (split_char SQUOTE s) as [|h t] eqn:Es; [contradiction|].
    change (sq_pieces ("" :: h :: t)) with (SQ "" :: DQ (String SQUOTE "") :: sq_pieces (h :: t)).
    cbn [map concat_all]. rewrite IH. reflexivity.
  - destruct (split_char SQUOTE s) as [|h t] eqn:Es; [exfalso; eapply split_char_nonnil; eauto|].
    destruct t as [|h' t].
    + cbn [sq_pieces map concat_all frag_text] in *.
      injection IH as IH. rewrite app_cons_s. cbn [append]. do 2 f_equal. exact IH.
    + change (sq_pieces (String c h :: h' :: t)) with
        (SQ (String c h) :: DQ (String SQUOTE "") :: sq_pieces (h' :: t)).
      change (sq_pieces (h :: h' :: t)) with
        (SQ h :: DQ (String SQUOTE "") :: sq_pieces (h' :: t)) in IH.
      cbn [map concat_all frag_text append] in *. injection IH as IH. do 2 f_equal. exact IH.
Qed.

Lemma quote_word_text s : word_text (quote_word s) = quote s.
Proof.
  unfold quote_word, quote. destruct s as [|c s]; [reflexivity|].
  destruct (all_chars shell_safe (String c s)).
  - unfold word_text; cbn [map concat_all frag_text]; apply app_nil_r_s.
  - apply sq_pieces_text.
Qed.

Lemma quote_word_val s : word_val (quote_word s) = s.
Proof.
  unfold quote_word. destruct s as [|c s]; [reflexivity|].
  destruct (all_chars shell_safe (String c s)).
  - unfold word_val; cbn [map concat_all frag_val]; apply app_nil_r_s.
  - rewrite sq_pieces_val. apply join_split_char.
Qed.

Lemma quote_nonempty s : quote s <> "".
Proof.
  unfold quote. destruct s; [discriminate|]. destruct (all_chars _ _); discriminate.
Qed.

Lemma quote_word_ok cm s : word_ok cm (quote_word s) = true.
Proof.
  unfold word_ok. rewrite quote_word_text.
  apply andb_true_iff; split.
  2:{ apply negb_true_iff, String.eqb_neq, quote_nonempty. }
  unfold quote_word. destruct s as [|c s]; [reflexivity|].
  destruct (all_chars shell_safe (String c s)) eqn:E.
  - unfold forallb, frag_ok. rewrite (all_chars_impl _ _ _ (safe_bare cm) E). reflexivity.
  - apply sq_pieces_ok, split_char_no.
Qed.

Lemma split_quoted cm ws tail :
  all_chars lex_white tail = true ->
  shlex_split cm (join " " (map quote ws) ++ tail) = Ok ws.
Proof.
  intros Ht. destruct ws as [|w ws].
  - cbn [map join append]. apply split_all_white; auto.
  - assert (E : map quote (w :: ws) = map word_text (map quote_word (w :: ws))).
    { rewrite map_map. apply map_ext. intros; symmetry; apply quote_word_text. }
    rewrite E, split_words.
    + rewrite (split_all_white cm tail Ht). cbn [bind].
      rewrite app_nil_r, map_map. f_equal.
      rewrite (map_ext _ (fun x => x) quote_word_val). apply map_id.
    + apply forallb_forall. intros x Hx. apply in_map_iff in Hx as (y & <- & _).
      apply quote_word_ok.
    + discriminate.
    + destruct tail as [|c t]; [reflexivity|]. simpl in *.
      apply andb_true_iff in Ht as [-> _]; reflexivity.
Qed.
