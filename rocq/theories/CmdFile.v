(** * Written commands as lines of a file *)

From Verif Require Import PyStrFacts Shlex ParserLines PreFacts ArgParseFacts HandlerFacts ClassModel PropsHandler PropsClass HandlerSpec ParserSpec WholeSpec PropsFile.
From Verif Require Import PropsStorage PyClass PyText PyWordsFacts PyCheckFacts SectFacts CmdFacts CmdLines RoundSpec CmdRound PropsRound PyLine CmdPlace PropsPlace.
From Coq Require Import Lia.
From Verif Require Import PyStr Value.
Local Open Scope string_scope.
Local Open Scope list_scope.
Local Arguments Ascii.eqb : simpl never.
Local Arguments String.eqb : simpl never.

(** ** The words of a line with its newline *)

Lemma emit_nl tok q r ws : emit tok q r = Ok ws -> forall r', (forall l, r = Ok l -> r' = Ok l) -> emit tok q r' = Ok ws.
Proof.
  unfold emit. destruct (String.eqb tok "" && negb q); intros H r' R; [now apply R|].
  destruct r as [l|]; [|discriminate]. now rewrite (R l eq_refl).
Qed.
Lemma lex_nl k s : forall st tok q ws, lex k s st tok q = Ok ws -> lex k (s ++ NL) st tok q = Ok ws.
Proof.
  induction s as [|c s IH]; intros st tok q ws H.
  - cbn [append]. destruct st as [| |x|[x|]|]; cbn [lex] in H |- *; try discriminate; auto.
  - rewrite app_cons_s. destruct st as [| |x|[x|]|]; cbn [lex] in H |- *;
      repeat match goal with |- context [if ?b then _ else _] => destruct b end; auto;
      (eapply emit_nl; [exact H|]; intros l Hl; now apply IH).
Qed.

(** A word begins with the characters read so far. *)
Lemma lex_head k s : forall st c t q ws, st <> LSpace -> st <> LComment -> lex k s st (String c t) q = Ok ws -> exists w r, ws = String c w :: r.
Proof.
  assert (E : forall c t q r ws, emit (String c t) q r = Ok ws -> exists w l, ws = String c w :: l).
  { intros c t q r ws. unfold emit. cbn [String.eqb andb]. destruct r; [|discriminate]. cbn [bind]. intros H. injection H as <-. eauto. }
  induction s as [|x s IH]; intros st c t q ws N1 N2 H.
  - destruct st as [| |y|[y|]|]; cbn [lex] in H; try discriminate; try congruence. eapply E; eauto.
  - destruct st as [| |y|[y|]|]; cbn [lex] in H; try congruence;
      repeat match type of H with context [if ?b then _ else _] => destruct b end;
      try (eapply E; exact H); rewrite ?app_cons_s in H; (eapply IH; [| |exact H]; discriminate).
Qed.

Lemma comment_rest s : unbroken s = true -> forall tok q, lex true s LComment tok q = Ok [].
Proof.
  unfold unbroken. induction s as [|c s IH]; intros H tok q; [reflexivity|]. cbn [all_chars] in H. apply andb_prop in H as [H1 H2]. cbn [lex].
  destruct (Ascii.eqb c LF) eqn:E; [apply eqb_true_a in E; subst c; discriminate|]. now apply IH.
Qed.
Lemma lex_white_space c : lex_white c = true -> is_space c = true.
Proof.
  unfold lex_white. intros H. repeat (apply orb_prop in H as [H|H]); apply eqb_true_a in H; subst c; reflexivity.
Qed.
(** The first word of a line that is not a comment. *)
Lemma words_head s c w ws : unbroken s = true -> is_space c = false -> lex true s LSpace "" false = Ok (String c w :: ws) -> blank s = false /\ comment s = false.
Proof.
  unfold unbroken, blank, comment, lstrip. intros U Nc. revert U. induction s as [|x s IH]; intros U H; [discriminate|]. cbn [all_chars] in U. apply andb_prop in U as [U1 U2].
  cbn [lex] in H. cbn [all_chars lstrip_by]. destruct (lex_white x) eqn:W.
  - rewrite (lex_white_space x W). cbn [andb]. apply IH; assumption.
  - cbn [andb] in H. destruct (Ascii.eqb x HASH) eqn:X; [rewrite comment_rest in H by exact U2; discriminate|].
    destruct (is_space x) eqn:S.
    + exfalso.
      assert (L : Ascii.eqb x BSLASH = false /\ lex_quote x = false).
      { destruct x as [b0 b1 b2 b3 b4 b5 b6 b7]. destruct b0, b1, b2, b3, b4, b5, b6, b7; cbn in S; try discriminate S; split; reflexivity. }
      destruct L as [L1 L2]. rewrite L1, L2 in H. destruct (lex_head true s LWord x "" false _ ltac:(discriminate) ltac:(discriminate) H) as (w' & r & E).
      injection E as -> -> ->. congruence.
    + split; [reflexivity|]. cbn [startswith]. change "#"%char with HASH. rewrite Ascii.eqb_sym in X. rewrite X. reflexivity.
Qed.

Definition name_like (n : string) : bool := match n with String c _ => negb (is_space c) && negb (Ascii.eqb c "%") | "" => false end.
Lemma command_line text nm ws : unbroken text = true -> shlex_split true text = Ok (nm :: ws) -> name_like nm = true -> command_words (text ++ NL) = Some (nm :: ws).
Proof.
  intros U H N. destruct nm as [|c w]; [discriminate|]. cbn [name_like] in N. apply andb_prop in N as [N1 N2]. apply negb_true_iff in N1, N2.
  destruct (words_head text c w ws U N1 H) as [B C]. unfold command_words, shlex_split in *. rewrite (lex_nl true text LSpace "" false _ H), N2.
  assert (B' : blank (text ++ NL) = false) by (unfold blank in *; now rewrite all_chars_app, B).
  rewrite B'. assert (C' : comment (text ++ NL) = comment text).
  { clear -B. unfold blank, comment, lstrip in *. induction text as [|x s IH]; [discriminate|]. rewrite app_cons_s. cbn [all_chars lstrip_by] in *.
    destruct (is_space x); [apply IH, B|]. cbn [startswith]. now rewrite !startswith_nil. }
  rewrite C', C. reflexivity.
Qed.

(** ** Remarks *)

Lemma unbroken_line s : unbroken s = true -> splitlines (s ++ NL)%string = [(s ++ NL)%string].
Proof. intros H. apply (single_line s). exact H. Qed.
Lemma remarks_inert r : remarks r -> complete r = true /\ forallb inert (splitlines r) = true.
Proof.
  induction 1 as [|s _ [C I]|t s U P _ [C I]].
  - split; reflexivity.
  - change (String LF s) with (NL ++ s)%string. split; [apply complete_app; [reflexivity|exact C]|].
    rewrite splitlines_app by reflexivity. rewrite forallb_app, I. reflexivity.
  - replace (String "#" (t ++ String LF s)) with ((String "#" t ++ NL) ++ s)%string by (rewrite app_assoc_s, app_cons_s; reflexivity).
    assert (C' : complete (String "#" t ++ NL) = true) by apply complete_nl.
    split; [now apply complete_app|]. rewrite splitlines_app by exact C'. rewrite forallb_app, I, andb_true_r.
    rewrite unbroken_line by (unfold unbroken in *; cbn [all_chars]; exact U). cbn [forallb]. rewrite andb_true_r. unfold inert.
    change (String "#" t ++ NL)%string with ("#" ++ (t ++ NL))%string. rewrite comment_true, orb_true_r. cbn [andb].
    unfold platform_comment. change ("#" ++ (t ++ NL))%string with (String "#" (t ++ NL)). change "#platform=" with (String "#" "platform="). cbn [startswith] in P |- *. rewrite P. reflexivity.
Qed.
Lemma inert_words l : inert l = true -> command_words l = None.
Proof. unfold inert, command_words. intros H. apply andb_prop in H as [H _]. now rewrite H. Qed.
Lemma inert_from l : forallb inert l = true -> forall k, commands_from k l = [].
Proof.
  induction l as [|x l IH]; intros H k; [reflexivity|]. cbn [forallb] in H. apply andb_prop in H as [H1 H2]. cbn [commands_from]. rewrite (inert_words x H1). auto.
Qed.
Lemma inert_text T : complete T = true -> forallb inert (splitlines T) = true -> command_text T.
Proof.
  intros C I. split; [exact C|]. rewrite forallb_forall in *. intros l Hl. rewrite (I l Hl). apply orb_true_r.
Qed.
Lemma command_text_app S T : command_text S -> command_text T -> command_text (S ++ T).
Proof. intros [C1 F1] [C2 F2]. split; [now apply complete_app|]. rewrite splitlines_app by exact C1. now rewrite forallb_app, F1, F2. Qed.
(** The lines of two texts one after the other. *)
Lemma from_app S T k : command_text S -> commands_from k (splitlines (S ++ T)) = commands_from k (splitlines S) ++ commands_from (k + N.of_nat (length (splitlines S))) (splitlines T).
Proof. intros [C _]. rewrite splitlines_app by exact C. apply commands_from_app. Qed.

(** One written command: remarks and a line. *)
Lemma block r text nm ws : remarks r -> unbroken text = true -> shlex_split true text = Ok (nm :: ws) -> name_like nm = true ->
  command_text (r ++ text ++ NL) /\ forall k, exists k', commands_from k (splitlines (r ++ text ++ NL)) = [((text ++ NL)%string, nm :: ws, k')].
Proof.
  intros R U H N. destruct (remarks_inert r R) as [C I]. pose proof (command_line text nm ws U H N) as W.
  assert (T : command_text (text ++ NL)).
  { split; [apply complete_nl|]. rewrite unbroken_line by exact U. cbn [forallb]. unfold is_command. now rewrite W. }
  split; [apply command_text_app; [now apply inert_text|exact T]|].
  intros k. eexists. rewrite from_app by (now apply inert_text). rewrite (inert_from _ I). cbn [app]. rewrite unbroken_line by exact U. cbn [commands_from]. rewrite W. reflexivity.
Qed.

(** ** Attributes that are not deleted *)

Fixpoint stays (a : string) (s : stmt) : bool :=
  match s with
  | SSeq s t | SIf _ s t => stays a s && stays a t
  | SDel _ b => negb (String.eqb a b)
  | SDelRemoved l => negb (mem a l)
  | SFor _ _ s | SForPairs _ _ _ s | SForData _ s | SBlock _ _ s => stays a s
  | _ => true
  end.
Definition ends (o : MiniPy.outcome) : attrs := match o with ONext _ s | OBreak _ s | OReturn _ s | ORaise _ s => s end.
Lemma delete_removed_same a l self : mem a l = false -> assoc a (delete_removed l self) = assoc a self.
Proof.
  unfold delete_removed. intros H.
  assert (G : forall m (s : attrs), (forall k, In k m -> In k l) -> assoc a (fold_left (fun a k => del k a) m s) = assoc a s).
  { induction m as [|k m IH]; intros s Hm; [reflexivity|]. cbn [fold_left]. rewrite IH by (intros; apply Hm; now right).
    apply assoc_del_ne. intros ->. assert (X : mem k l = true) by (apply existsb_exists; exists k; split; [apply Hm; now left|apply eqb_refl_s]).
    congruence. }
  apply G. intros k Hk. apply filter_In in Hk. tauto.
Qed.
Section Stay.
Variables (c : ctx) (a : string).
Definition stayed (self : attrs) (o : MiniPy.outcome) : Prop := has_key a self = true -> has_key a (ends o) = true.
Lemma has_put k v (n : attrs) : has_key a n = true -> has_key a (put k v n) = true.
Proof. intros H. rewrite has_key_put. destruct (String.eqb a k); auto. Qed.
Lemma has_set_to n : forall self, has_key a self = true -> has_key a (set_to_obj n self) = true.
Proof. induction n as [|[k v] n IH]; intros self H; [exact H|]. cbn [set_to_obj]. apply IH. destruct (is_none v); [exact H|now apply has_put]. Qed.
Lemma has_del b (n : attrs) : String.eqb a b = false -> has_key a n = true -> has_key a (del b n) = true.
Proof. intros E H. unfold has_key in *. rewrite assoc_del_ne; [exact H|]. intros ->. rewrite eqb_refl_s in E. discriminate. Qed.
Lemma loop_stayed {A} (body : A -> env -> attrs -> MiniPy.outcome) : (forall x e self, stayed self (body x e self)) -> forall l e self, stayed self (loop body l e self).
Proof.
  intros HB l. induction l as [|x l IH]; intros e self; cbn [loop]; [intros H; exact H|].
  pose proof (HB x e self) as H. unfold stayed in *. intros Ha. specialize (H Ha). destruct (body x e self) as [e' s'|e' s'|p s'|z s']; cbn [ends] in *; auto.
Qed.
Lemma exec_stays s : forall e self, stays a s = true -> stayed self (exec c s e self).
Proof.
  induction s as [|s1 IH1 s2 IH2|x y|x b y|x b|x y|x y z sep w|ns|ns extra|ns x|y s1 IH1 s2 IH2|x y s IH|x y w s IH|x s IH|line tag| |y|y| |l|x t m ps|x ps s IH];
    intros e self HK; cbn [exec]; cbn [stays] in HK.
  - intros H; exact H.
  - apply andb_prop in HK as [K1 K2]. intros Ha. pose proof (IH1 e self K1 Ha) as H. destruct (exec c s1 e self) as [e' s'|e' s'|p s'|z s']; cbn [ends] in *; auto. now apply IH2.
  - intros Ha. destruct (eval c self e y); exact Ha.
  - intros Ha. unfold with_val. destruct (eval c self e y) as [[v| |n|d]|]; cbn [ends]; auto. unfold set_on. destruct (String.eqb x "self"); [now apply has_put|].
    destruct (assoc x e) as [[w| |n|d]|]; cbn [ends]; auto. now apply has_put.
  - apply negb_true_iff in HK. intros Ha. unfold del_on. destruct (String.eqb x "self"); [now apply has_del|].
    destruct (assoc x e) as [[w| |n|d]|]; cbn [ends]; auto. now apply has_del.
  - intros Ha. unfold with_val. destruct (eval c self e y) as [[v| |n|d]|]; cbn [ends]; auto. destruct v; cbn [ends]; auto. destruct (assoc x e) as [[[]| | |]|]; cbn [ends]; auto.
  - intros Ha. unfold with_val. destruct (eval c self e w) as [[v| |n|d]|]; cbn [ends]; auto. destruct v; cbn [ends]; auto.
    destruct sep as [|ch [|]]; cbn [ends]; auto. destruct (partition_char ch s) as [[b f] r]. exact Ha.
  - intros Ha. destruct (parse_args (c_parser c) (line_of self) (c_args c)) as [n|z]; exact Ha.
  - intros Ha. destruct (parse_known_args (c_parser c) (line_of self) (c_args c)) as [[n r]|z]; exact Ha.
  - intros Ha. destruct (assoc ns e) as [[v| |n|d]|]; cbn [ends]; auto. unfold set_to. destruct (String.eqb x "self"); [now apply has_set_to|].
    destruct (assoc x e) as [[v| |n'|d]|]; cbn [ends]; auto. now apply has_set_to.
  - apply andb_prop in HK as [K1 K2]. intros Ha. destruct (eval c self e y) as [p|]; [|exact Ha]. destruct (p_truthy p); [now apply IH1|now apply IH2].
  - intros Ha. unfold with_val. destruct (eval c self e y) as [[v| |n|d]|]; cbn [ends]; auto. destruct v; cbn [ends]; auto. apply loop_stayed; [|exact Ha]. intros i e0 s0. now apply IH.
  - intros Ha. unfold with_val. destruct (eval c self e w) as [[v| |n|d]|]; cbn [ends]; auto. destruct v; cbn [ends]; auto; (apply loop_stayed; [|exact Ha]; intros i e0 s0; now apply IH).
  - apply loop_stayed. intros i e0 s0. now apply IH.
  - destruct line; intros Ha; exact Ha.
  - intros Ha; exact Ha.
  - intros Ha. destruct (eval c self e y) as [p|]; [|exact Ha]. destruct (p_truthy p); exact Ha.
  - intros Ha. destruct (eval c self e y); exact Ha.
  - intros Ha; exact Ha.
  - apply negb_true_iff in HK. intros Ha. cbn [ends]. unfold has_key in *. rewrite (delete_removed_same a l self HK). exact Ha.
  - intros Ha; exact Ha.
  - intros Ha. destruct (bind_params c self e ps) as [e0|]; [|exact Ha]. pose proof (IH e0 self HK Ha) as H.
    destruct (exec c s e0 self) as [e' s'|e' s'|p s'|z s']; cbn [ends] in *; exact H.
Qed.
Lemma run_stays s e self : stays a s = true -> has_key a self = true -> has_key a (fst (run c s e self)) = true.
Proof. intros K H. pose proof (exec_stays s e self K H) as E. unfold run. destruct (exec c s e self); exact E. Qed.
End Stay.

(** ** The text of a list of data *)

Definition list_body (x : string) : stmt := SAssign "retval" (EBin BAdd (EVar "retval") (EDataStr (EVar x))).
(** for x in the list: retval += str(x), with a heading if there is one. *)
Definition list_stmt (x h : string) : stmt :=
  SBlock "_r" [] (SSeq (SAssign "retval" (EConst (VStr "")))
    (SSeq (SForData x (list_body x))
      (if String.eqb h "" then SReturn (EVar "retval")
       else SIf (EVar "retval") (SReturn (EBin BAdd (EConst (VStr h)) (EVar "retval"))) (SReturn (EConst (VStr "")))))).
Definition headed (h t : string) : string := if String.eqb t "" then "" else (h ++ t)%string.

Lemma list_step k x d s e self t : x <> "retval" -> x <> "self" -> c_str k d = Ok s -> assoc "retval" e = Some (PV (VStr t)) ->
  exec k (list_body x) (put x (PObj d) e) self = ONext (put "retval" (PV (VStr (t ++ s))) (put x (PObj d) e)) self.
Proof.
  intros N1 N2 H E. unfold list_body. cbn [exec eval]. rewrite !assoc_put, eqb_refl_s. rewrite (proj2 (String.eqb_neq "retval" x)) by congruence.
  rewrite (proj2 (String.eqb_neq x "self")) by congruence. change (String.eqb "retval" "self") with false. cbv iota. rewrite E. cbn [bind to_val]. rewrite H. reflexivity.
Qed.
Lemma list_loop k x l self : x <> "retval" -> x <> "self" -> forall ss e t, Forall2 (fun d s => c_str k d = Ok s) l ss -> assoc "retval" e = Some (PV (VStr t)) ->
  exists e', loop (fun d e self => exec k (list_body x) (put x (PObj d) e) self) l e self = ONext e' self /\
    assoc "retval" e' = Some (PV (VStr (t ++ concat_all ss))).
Proof.
  intros N1 N2 ss e t F. revert e t. induction F as [|d s l ss H F IH]; intros e t E.
  - exists e. cbn [loop concat_all]. rewrite app_nil_r_s. auto.
  - cbn [loop]. rewrite (list_step k x d s e self t N1 N2 H E).
    destruct (IH (put "retval" (PV (VStr (t ++ s))) (put x (PObj d) e)) (t ++ s)%string) as (e' & L & A).
    { rewrite assoc_put, eqb_refl_s. reflexivity. }
    exists e'. split; [exact L|]. rewrite A. cbn [concat_all]. now rewrite app_assoc_s.
Qed.
Lemma list_run k x h self ss : x <> "retval" -> x <> "self" -> Forall2 (fun d s => c_str k d = Ok s) (c_list k) ss ->
  run k (list_stmt x h) [] self = (self, Ok (PV (VStr (headed h (concat_all ss))))).
Proof.
  intros N1 N2 F. unfold run, list_stmt. cbn [exec bind_params map_res eval].
  destruct (list_loop k x (c_list k) self N1 N2 ss [("retval", PV (VStr ""))] "" F eq_refl) as (e' & L & A).
  change (put "retval" (PV (VStr "")) []) with [("retval", PV (VStr ""))]. rewrite L. cbn [append] in A.
  unfold headed. destruct (String.eqb_spec h "") as [->|Nh].
  - cbn [exec eval]. change (String.eqb "retval" "self") with false. cbv iota. rewrite A. destruct (String.eqb_spec (concat_all ss) "") as [->|]; reflexivity.
  - cbn [exec eval]. change (String.eqb "retval" "self") with false. cbv iota. rewrite A. cbn [p_truthy truthy].
    destruct (String.eqb_spec (concat_all ss) "") as [->|N]; [reflexivity|]. reflexivity.
Qed.
(** ** Tables *)

(** The variable and the heading of the __str__ of the commands with lists. *)
Definition list_texts : list (string * string * list string) :=
  [(("fcoe", ("")%string), ["F12_Fcoe"; "RHEL7_Fcoe"; "F13_Fcoe"; "RHEL8_Fcoe"; "F28_Fcoe"]);
   (("user", ("")%string), ["F12_Group"; "FC6_User"; "F8_User"; "F12_User"; "F19_User"; "F24_User"]);
   (("iscsi", ("")%string), ["FC6_Iscsi"; "RHEL6_Iscsi"; "F10_Iscsi"; "F17_Iscsi"]);
   (("nic", ("# Network information" ++ NL)%string), ["FC3_Network"; "RHEL4_Network"; "FC4_Network"; "RHEL5_Network"; "FC6_Network"; "F8_Network"; "RHEL6_Network"; "F9_Network"; "F16_Network"; "F18_Network"; "F19_Network"; "F20_Network"; "F21_Network"; "RHEL7_Network"; "F22_Network"; "F24_Network"; "F25_Network"; "F27_Network"]);
   (("repo", ("")%string), ["FC6_Repo"; "F8_Repo"; "F11_Repo"; "F13_Repo"; "RHEL6_Repo"; "F14_Repo"; "F15_Repo"; "RHEL7_Repo"; "F21_Repo"; "RHEL8_Repo"; "F27_Repo"; "F30_Repo"; "F33_Repo"]);
   (("timesource_command", ("")%string), ["F33_Timesource"]);
   (("zfcp", ("")%string), ["FC3_ZFCP"; "F14_ZFCP"]);
   (("part", ("# Disk partitioning information" ++ NL)%string), ["FC3_Partition"; "RHEL5_Partition"; "FC4_Partition"; "F9_Partition"; "F11_Partition"; "F12_Partition"; "RHEL6_Partition"; "F14_Partition"; "F17_Partition"; "F18_Partition"; "RHEL7_Partition"; "F20_Partition"; "F23_Partition"; "RHEL8_Partition"; "F29_Partition"; "F34_Partition"]);
   (("part", ("")%string), ["FC3_LogVol"; "RHEL5_LogVol"; "FC4_LogVol"; "F9_LogVol"; "F12_LogVol"; "RHEL6_LogVol"; "F14_LogVol"; "F15_LogVol"; "F17_LogVol"; "F18_LogVol"; "F20_LogVol"; "RHEL7_LogVol"; "F21_LogVol"; "F23_LogVol"; "RHEL8_LogVol"; "F29_LogVol"])].
Definition list_ok (x h c : string) : Prop := method_of c "__str__" [] = Some (list_stmt x h) /\ based (comes_from c "__str__") = false.
Lemma lists_ok : Forall (fun e => Forall (list_ok (fst (fst e)) (snd (fst e))) (snd e)) list_texts.
Proof. unfold list_texts. repeat (apply Forall_cons || apply Forall_nil); (split; vm_compute; reflexivity). Qed.
Lemma lists_apart : Forall (fun e => fst (fst e) <> "retval" /\ fst (fst e) <> "self" /\ remarks (snd (fst e))) list_texts.
Proof.
  unfold list_texts. repeat (apply Forall_cons || apply Forall_nil); cbn [fst snd]; (split; [discriminate|]; split; [discriminate|]); try (apply remarks_none).
  - apply (remarks_line " Network information" ""); [reflexivity|reflexivity|apply remarks_none].
  - apply (remarks_line " Disk partitioning information" ""); [reflexivity|reflexivity|apply remarks_none].
Qed.
Lemma data_listed : forallb (fun e => forallb (fun p => existsb (fun t => mem (fst p) (snd t)) list_texts) (snd e)) round_data = true.
Proof. vm_compute. reflexivity. Qed.
Definition stay_ok (c : string) : bool := own_parse c && match parse_code c with Some st => stays "currentCmd" st && stays "currentLine" st | None => false end.
Lemma rounds_stay : forallb (fun e => stay_ok (fst (snd e))) rounds = true.
Proof. vm_compute. reflexivity. Qed.
Lemma data_quiet : forallb (fun e => negb (mem (fst e) layouts)) round_data = true.
Proof. vm_compute. reflexivity. Qed.
Local Opaque parse_code comes_from method_of movable init_of table_of data_str.

(** ** Reading what was written *)

Section Version.
Variable rest : string -> cclass.
Variables (v : Z) (cm dm : list (string * string)).
Hypothesis Hv : In (v, (cm, dm)) handlers.
Notation used := (used rest cm dm).
Notation start := (start rest cm dm).
Notation cls c := (class_model (cmd_class rest) c).
Notation fresh c := (new_obj (class_model (cmd_class rest) c)).

Definition quiet (h : handler) (c : string) : Prop := forall q, In q (asked c) -> mem q watched = true -> given_as h q = given_as start q.
Definition ready (h : handler) (c : string) : Prop := used h /\ (forall n, In (n, c) cm -> served h n = Some (fresh c)) /\ quiet h c.
(** The lines of the text make the object of the class [c] one with [K] and leave other
    commands alone. *)
Definition runs (c T : string) (K : cmdobj -> Prop) : Prop := forall h k, ready h c -> exists h' o,
  execute handle_command (commands_from k (splitlines T)) h = (h', None) /\ used h' /\ K o /\ (forall n, In (n, c) cm -> served h' n = Some o) /\
  (forall m d, In (m, d) cm -> d <> c -> served h' m = served h m).

Lemma runs_inert c T (K : cmdobj -> Prop) : forallb inert (splitlines T) = true -> K (fresh c) -> runs c T K.
Proof.
  intros I HK h k (U & F & Q). exists h, (fresh c). rewrite (inert_from _ I). cbn [execute]. auto 6.
Qed.
Lemma runs_remarks c r T K : remarks r -> runs c T K -> runs c (r ++ T) K.
Proof.
  intros R H h k Rd. destruct (remarks_inert r R) as [C I]. rewrite from_app by (now apply inert_text). rewrite (inert_from _ I). cbn [app]. now apply H.
Qed.

(** The places of a line are recorded. *)
Lemma stamp_has k n line ln a : In k ["currentCmd"; "currentLine"] -> has_key k (stamp n line ln a) = true.
Proof.
  intros H. unfold has_key, stamp. rewrite !assoc_put. destruct H as [<-|[<-|[]]]; reflexivity.
Qed.
Lemma line_has h n c line args ln h1 o k : used h -> In (n, c) cm -> stay_ok c = true -> handle_command h line (n :: args) ln = (h1, None) -> served h1 n = Some o ->
  In k ["currentCmd"; "currentLine"] -> has_key k (o_attrs o) = true.
Proof.
  intros U Hn St E So Hk. unfold stay_ok in St. apply andb_prop in St as [Ow St]. destruct (parse_code c) as [st|] eqn:Pc; [|discriminate]. apply andb_prop in St as [S1 S2].
  destruct (line_cases rest v cm dm Hv h n c line args ln U Hn) as (o0 & vw & a' & d' & S0 & Co & _ & P & J). rewrite E in P, J. cbn [fst snd] in P, J.
  specialize (J n c Hn). rewrite eqb_refl_s, So in J. injection J as ->. cbn [o_attrs].
  rewrite (class_parse rest c st Pc Ow) in P. unfold cmd_parse in P.
  assert (Sk : stays k st = true) by (destruct Hk as [<-|[<-|[]]]; assumption).
  pose proof (run_stays (parse_ctx c vw (o_data o0) args) k st [] (stamp n line ln (o_attrs o0)) Sk (stamp_has k n line ln _ Hk)) as X.
  destruct (run _ st [] _) as [x [p|z]]; cbn [bind] in P; destruct P as (-> & _); exact X.
Qed.
Lemma alike_l a b : alike a b -> (forall k, In k ["currentCmd"; "currentLine"] -> has_key k a = true /\ has_key k b = true) -> attrs_l all_places a b.
Proof.
  intros A H. split.
  - intros k Hk. apply A. intros I. apply mem_not in Hk. apply Hk. destruct I as [<-|[<-|[]]]; cbn; auto.
  - intros k. destruct (in_dec string_dec k ["currentCmd"; "currentLine"]) as [I|I].
    + destruct (H k I) as [H1 H2]. unfold has_key in *. destruct (assoc k a), (assoc k b); try discriminate. split; discriminate.
    + rewrite (A k I). reflexivity.
Qed.

(** ** The commands of C38 *)

Definition round_named (e : string * (string * string)) : bool := negb (mem (fst e) unmodelled) && name_like (fst e).
Lemma rounds_names : forallb round_named rounds = true.
Proof. vm_compute. reflexivity. Qed.
Definition good (c : string) (o : cmdobj) : Prop := command_text (o_str o) /\ runs c (o_str o) (obj_l o).

Lemma self_good h n nm c line args ln h1 o : used h -> In (n, c) cm -> In c (listed nm round_commands) ->
  served h n = Some (fresh c) -> quiet h c -> handle_command h line (n :: args) ln = (h1, None) -> served h1 n = Some o ->
  RoundSpec.writable nm c c args (o_attrs o) -> o_str o <> "" -> good c o.
Proof.
  intros U Hn Hc S0 Q E S1 W Ne.
  destruct (C38_command_partial rest v cm dm h n nm c line args ln h1 o Hv U Hn Hc S0 E S1 W Ne) as (r & text & ws & Et & R & Ub & Sx & Again).
  destruct (round_parts nm c c v cm dm n (in_commands nm c Hc) Hv Hn) as (_ & _ & _ & Hm).
  pose proof rounds_names as RN. rewrite forallb_forall in RN. specialize (RN _ (in_commands nm c Hc)). unfold round_named in RN. cbn [fst] in RN. apply andb_prop in RN as [Nu Nl].
  apply negb_true_iff in Nu. apply mem_not in Nu.
  pose proof rounds_stay as St. rewrite forallb_forall in St. specialize (St _ (in_commands nm c Hc)). cbn [fst snd] in St.
  destruct (block r text nm ws R Ub Sx Nl) as [CT CF]. unfold good. rewrite Et. split; [exact CT|].
  intros h' k (U' & F' & Q'). destruct (CF k) as [k' ->]. destruct (Again (text ++ NL)%string) as (h2 & o2 & E2 & S2 & Al & Ed & Es & _). cbn [execute].
  pose proof (moved_movable v cm dm Hv nm c Hm Nu) as Mv. destruct (line_placed nm nm (text ++ NL) (text ++ NL) ln k' c Mv (or_introl eq_refl) (or_introl eq_refl)) as (P & P1 & P2 & P3 & P4).
  rewrite (served_alias rest v cm dm h n nm c Hv U Hn Hm) in S0.
  destruct (line_moves rest v cm dm Hv P h h' nm nm c (text ++ NL) (text ++ NL) ws ln k' h2 _ _ U U' Hm Hm P1 P2 P3 P4 S0 (F' nm Hm) (obj_l_refl _)) as (h1' & o1 & o1' & E' & T1 & T1' & R1 & _ & Fr); [|exact E2|].
  { intros q Hq Wq. now rewrite (Q q Hq Wq), (Q' q Hq Wq). }
  rewrite E'. exists h1', o1'. split; [reflexivity|].
  assert (U2 : used h2) by (pose proof (used_step rest cm dm h (text ++ NL)%string (nm :: ws) ln U) as X; now rewrite E2 in X).
  assert (U1' : used h1') by (pose proof (used_step rest cm dm h' (text ++ NL)%string (nm :: ws) k' U') as X; now rewrite E' in X).
  assert (U1 : used h1) by (pose proof (used_step rest cm dm h line (n :: args) ln U) as X; now rewrite E in X).
  split; [exact U1'|]. split; [|split; [|exact Fr]].
  - rewrite <- (served_alias rest v cm dm h2 n nm c Hv U2 Hn Hm), S2 in T1. injection T1 as <-. eapply obj_l_trans; [|exact R1]. clear R1.
    destruct (used_served rest v cm dm Hv h1 n c U1 Hn) as (i & p & _ & _ & Sp & Cp). rewrite S1 in Sp. injection Sp as <-.
    destruct (used_served rest v cm dm Hv h2 n c U2 Hn) as (j & p & _ & _ & Sp & Cp2). rewrite S2 in Sp. injection Sp as <-.
    split; [congruence|]. split; [|rewrite Ed; clear; induction (o_data o); constructor; auto using data_l_refl].
    apply attrs_l_sym. apply alike_l; [exact Al|]. intros x Hx. split.
    + rewrite (served_alias rest v cm dm h2 n nm c Hv U2 Hn Hm) in S2. exact (line_has h nm c _ ws ln h2 o2 x U Hm St E2 S2 Hx).
    + exact (line_has h n c _ args ln h1 o x U Hn St E S1 Hx).
  - intros m Hm'. rewrite (served_alias rest v cm dm h1' m nm c Hv U1' Hm' Hm). exact T1'.
Qed.

(** The same for the commands that keep lists. *)
Definition texts (o : cmdobj) (ss : list string) : Prop := Forall2 (fun d s => data_str d = Ok s) (o_data o) ss /\ Forall (fun s => s <> "" /\ command_text s) ss.
Definition listing (c : string) (o : cmdobj) : Prop := exists ss, texts o ss /\ runs c (concat_all ss) (obj_l o).
Lemma listing_new c : o_data (fresh c) = [] -> listing c (fresh c).
Proof. intros H. exists []. split; [split; [rewrite H|]; constructor|]. apply runs_inert; [reflexivity|apply obj_l_refl]. Qed.
Lemma texts_command ss : Forall (fun s => s <> "" /\ command_text s) ss -> command_text (concat_all ss).
Proof. induction 1 as [|s ss [_ H] _ IH]; [split; reflexivity|]. cbn [concat_all]. now apply command_text_app. Qed.
Lemma in_round_data nm p : In p (listed nm round_data) -> exists l, In (nm, l) round_data /\ In p l.
Proof. unfold listed. destruct (assoc nm round_data) as [l|] eqn:A; [|intros []]. intros H. apply assoc_In in A. eauto. Qed.
Lemma data_name nm p : In p (listed nm round_data) -> ~ In nm layouts.
Proof.
  intros H. destruct (in_round_data nm p H) as (l & Hl & _). pose proof data_quiet as DQ. rewrite forallb_forall in DQ. specialize (DQ _ Hl). cbn [fst] in DQ.
  apply negb_true_iff in DQ. now apply mem_not.
Qed.
Lemma apart_self nm : ~ In nm layouts -> apart nm nm.
Proof. intros N. split; intros H; contradiction. Qed.

Lemma data_listing h n nm c line args ln h1 o o1 d s : used h -> In (n, c) cm -> In (c, d_class d) (listed nm round_data) ->
  served h n = Some o -> listing c o -> quiet h c -> handle_command h line (n :: args) ln = (h1, None) -> served h1 n = Some o1 -> o_data o1 = o_data o ++ [d] ->
  RoundSpec.writable nm c (d_class d) args (d_attrs d) -> data_str d = Ok s -> s <> "" -> listing c o1.
Proof.
  intros U Hn Hc S0 (ss & [T1 T2] & Rn) Qh E S1 D1 W Ds Ne.
  destruct (C38_data_partial rest v cm dm h n nm c line args ln h1 o o1 d s Hv U Hn Hc S0 E S1 D1 W Ds Ne) as (r & text & ws & Et & R & Ub & Sx & Again).
  destruct (in_data nm _ Hc) as [Hr _]. destruct (round_parts nm c (d_class d) v cm dm n Hr Hv Hn) as (_ & _ & _ & Hm).
  pose proof rounds_names as RN. rewrite forallb_forall in RN. specialize (RN _ Hr). unfold round_named in RN. cbn [fst] in RN. apply andb_prop in RN as [Nu Nl].
  apply negb_true_iff in Nu. apply mem_not in Nu.
  pose proof rounds_stay as St. rewrite forallb_forall in St. specialize (St _ Hr). cbn [fst snd] in St.
  pose proof (data_name nm _ Hc) as Ly.
  destruct (block r text nm ws R Ub Sx Nl) as [CT CF]. rewrite <- Et in CT, CF.
  exists (ss ++ [s]). split.
  { split; [rewrite D1; apply Forall2_app; [exact T1|constructor; [exact Ds|constructor]]|]. apply Forall_app. split; [exact T2|]. constructor; [auto|constructor]. }
  intros h' k Rd. destruct (Rn h' k Rd) as (h2' & o' & E' & U' & L' & F' & Fr'). rewrite concat_all_app. cbn [concat_all]. rewrite app_nil_r_s.
  rewrite from_app by (now apply texts_command). rewrite execute_app, E'.
  match goal with |- context [commands_from ?x (splitlines s)] => destruct (CF x) as [k' ->] end.
  destruct (Again (text ++ NL)%string) as (h2 & o2 & e & E2 & S2 & D2 & Ce & Ae & Se & Al & _). cbn [execute].
  pose proof (moved_movable v cm dm Hv nm c Hm Nu) as Mv. destruct (line_placed nm nm (text ++ NL) (text ++ NL) ln k' c Mv (or_introl eq_refl) (or_introl eq_refl)) as (P & P1 & P2 & P3 & P4).
  rewrite (served_alias rest v cm dm h n nm c Hv U Hn Hm) in S0.
  destruct (line_moves rest v cm dm Hv P h h2' nm nm c (text ++ NL) (text ++ NL) ws ln k' h2 _ _ U U' Hm Hm P1 P2 P3 P4 S0 (F' nm Hm) L') as (h1' & q & q' & E3 & V1 & V1' & R1 & _ & Fr); [|exact E2|].
  { intros q Hq Wq. destruct Rd as (Ur & _ & Qr). rewrite (Qh q Hq Wq), <- (Qr q Hq Wq).
    apply (apart_asks rest v cm dm Hv h' h2' nm c nm c q Ur U' Hm Hm Nu (apart_self nm Ly) Fr' Hq Wq). }
  rewrite E3. exists h1', q'. split; [reflexivity|].
  assert (U2 : used h2) by (pose proof (used_step rest cm dm h (text ++ NL)%string (nm :: ws) ln U) as X; now rewrite E2 in X).
  assert (U1' : used h1') by (pose proof (used_step rest cm dm h2' (text ++ NL)%string (nm :: ws) k' U') as X; now rewrite E3 in X).
  assert (U1 : used h1) by (pose proof (used_step rest cm dm h line (n :: args) ln U) as X; now rewrite E in X).
  split; [exact U1'|]. split; [|split].
  - rewrite <- (served_alias rest v cm dm h2 n nm c Hv U2 Hn Hm), S2 in V1. injection V1 as <-. eapply obj_l_trans; [|exact R1]. clear R1.
    destruct (used_served rest v cm dm Hv h1 n c U1 Hn) as (i & p & _ & _ & Sp & Cp). rewrite S1 in Sp. injection Sp as <-.
    destruct (used_served rest v cm dm Hv h2 n c U2 Hn) as (j & p & _ & _ & Sp & Cp2). rewrite S2 in Sp. injection Sp as <-.
    split; [congruence|]. split.
    + apply attrs_l_sym. apply alike_l; [exact Al|]. intros x Hx. split.
      * rewrite (served_alias rest v cm dm h2 n nm c Hv U2 Hn Hm) in S2. exact (line_has h nm c _ ws ln h2 o2 x U Hm St E2 S2 Hx).
      * exact (line_has h n c _ args ln h1 o1 x U Hn St E S1 Hx).
    + rewrite D1, D2. apply Forall2_app; [clear; induction (o_data o); constructor; auto using data_l_refl|]. constructor; [|constructor].
      split; [now symmetry|]. split; [intros x _; now rewrite Ae|]. intros x. rewrite Ae. reflexivity.
  - intros m Hm'. rewrite (served_alias rest v cm dm h1' m nm c Hv U1' Hm' Hm). exact V1'.
  - intros m x Hx Nx. rewrite (Fr m x Hx Nx). exact (Fr' m x Hx Nx).
Qed.
Lemma listing_good n nm c t h o : used h -> In (n, c) cm -> served h n = Some o -> In (c, t) (listed nm round_data) -> listing c o -> good c o.
Proof.
  intros U Hn So Hc (ss & [T1 T2] & Rn). destruct (in_round_data nm _ Hc) as (l & Hl & Hp).
  pose proof data_listed as DL. rewrite forallb_forall in DL. specialize (DL _ Hl). cbn [snd] in DL. rewrite forallb_forall in DL. specialize (DL _ Hp). cbn [fst] in DL.
  apply existsb_exists in DL as ([[x hd] cs] & Hx & Mx). cbn [snd] in Mx. apply mem_In in Mx.
  pose proof lists_ok as LO. rewrite Forall_forall in LO. specialize (LO _ Hx). cbn [fst snd] in LO. rewrite Forall_forall in LO. destruct (LO c Mx) as [Ms Bs].
  pose proof lists_apart as LA. rewrite Forall_forall in LA. destruct (LA _ Hx) as (N1 & N2 & Rm). cbn [fst snd] in N1, N2, Rm.
  destruct (in_data nm _ Hc) as [Hr _]. pose proof rounds_stay as St. rewrite forallb_forall in St. specialize (St _ Hr). cbn [fst snd] in St.
  unfold stay_ok in St. apply andb_prop in St as [_ St]. destruct (parse_code c) as [st|] eqn:Pc; [|discriminate].
  assert (Et : o_str o = headed hd (concat_all ss)).
  { destruct (used_served rest v cm dm Hv h n c U Hn) as (i & p & _ & _ & Sp & Cp). rewrite So in Sp. injection Sp as <-. unfold o_str. rewrite Cp.
    rewrite (class_str rest c st _ _ _ Pc Bs Ms). unfold cmd_str. rewrite (list_run (parse_ctx c no_view (o_data o) []) x hd (o_attrs o) ss N1 N2 T1). reflexivity. }
  unfold good. rewrite Et. unfold headed. destruct (String.eqb_spec (concat_all ss) "") as [E0|N0].
  - split; [split; reflexivity|]. rewrite E0 in Rn. exact Rn.
  - split; [|now apply runs_remarks]. destruct (remarks_inert hd Rm) as [C I]. apply command_text_app; [now apply inert_text|now apply texts_command].
Qed.
End Version.
