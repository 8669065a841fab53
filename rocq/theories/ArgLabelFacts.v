(** * The line number given to the argument parser only labels its errors *)

From Verif Require Import ArgParse ArgParseFacts.
From Verif Require Import Value.
Local Open Scope string_scope.
Local Open Scope list_scope.

Section Label.
Variables ln ln' : option N.

(** The same result, errors of this line carrying their own number. *)
Definition rsim {A} (r r' : res A) : Prop :=
  match r, r' with
  | Ok a, Ok b => a = b
  | Err e, Err e' => e = e' \/ exists t, e = KSParseError ln t /\ e' = KSParseError ln' t
  | _, _ => False
  end.

Lemma rsim_refl {A} (r : res A) : rsim r r.
Proof. destruct r; simpl; auto. Qed.
Lemma rsim_ap {A} t : @rsim A (ap_error ln t) (ap_error ln' t).
Proof. simpl. right; eauto. Qed.
Lemma rsim_bind {A B} (x y : res A) (f g : A -> res B) :
  rsim x y -> (forall a, x = Ok a -> rsim (f a) (g a)) -> rsim (bind x f) (bind y g).
Proof. destruct x as [a|e], y as [b|e']; simpl; try tauto. intros <- H; auto. Qed.

Hint Resolve rsim_refl rsim_ap : core.

Ltac go := repeat first
  [ apply rsim_refl | apply rsim_ap
  | match goal with |- rsim (match ?x with _ => _ end) _ => destruct x end ].

Lemma get_value_sim a s : rsim (get_value ln a s) (get_value ln' a s).
Proof. unfold get_value. destruct (a_type a s) as [v|[]]; auto. Qed.

Lemma check_value_sim a v : rsim (check_value ln a v) (check_value ln' a v).
Proof. unfold check_value. destruct (a_choices a); auto. destruct v; auto. destruct (mem s l); auto. Qed.

Lemma get_checked_sim a s : rsim (get_checked ln a s) (get_checked ln' a s).
Proof. apply rsim_bind; [apply get_value_sim|]. intros v _; apply check_value_sim. Qed.

Lemma map_res_sim {A B} (f g : A -> res B) l : (forall x, rsim (f x) (g x)) -> rsim (map_res f l) (map_res g l).
Proof.
  intros H; induction l as [|x l IH]; [simpl; auto|]. cbn [map_res].
  apply rsim_bind; [apply H|]. intros y _. apply rsim_bind; [exact IH|]. intros; auto.
Qed.

Lemma get_list_sim a args : rsim (get_list ln a args) (get_list ln' a args).
Proof.
  unfold get_list. apply rsim_bind; [apply map_res_sim, get_value_sim|]. intros l _.
  apply rsim_bind; [apply map_res_sim, check_value_sim|]. intros; auto.
Qed.

Lemma get_values_sim a args : rsim (get_values ln a args) (get_values ln' a args).
Proof.
  unfold get_values. set (pos := match a_opts a with [] => true | _ => false end).
  destruct (if pos then remove_first "--" args else args) as [|s [|s2 r]].
  - destruct (a_nargs a); try apply get_list_sim.
    + destruct (if pos then a_default a else a_const a); auto using get_checked_sim.
    + destruct pos; [apply check_value_sim|apply get_list_sim].
  - destruct (a_nargs a); auto using get_checked_sim, get_list_sim.
  - destruct (a_nargs a); auto using get_checked_sim, get_list_sim.
Qed.

Lemma take_action_sim a args st : rsim (take_action ln a args st) (take_action ln' a args st).
Proof. unfold take_action. apply rsim_bind; [apply get_values_sim|]. intros; auto. Qed.

Lemma consume_optional_sim s oa e rest st :
  rsim (consume_optional ln s oa e rest st) (consume_optional ln' s oa e rest st).
Proof.
  unfold consume_optional. destruct oa as [a|]; auto. destruct e as [x|].
  - destruct (match_optional (a_nargs a) [CA]) as [[|[|?]]|]; auto.
    apply rsim_bind; [apply take_action_sim|auto].
  - destruct (match_optional (a_nargs a) (map snd rest)); auto.
    apply rsim_bind; [apply take_action_sim|auto].
Qed.

Lemma take_positionals_sim acts : forall counts rest st,
  rsim (take_positionals ln acts counts rest st) (take_positionals ln' acts counts rest st).
Proof.
  induction acts as [|a acts IH]; intros [|k counts] rest st; simpl; auto.
  apply rsim_bind; [apply take_action_sim|]. intros; apply IH.
Qed.

Lemma consume_positionals_sim rest st : rsim (consume_positionals ln rest st) (consume_positionals ln' rest st).
Proof. unfold consume_positionals. apply rsim_bind; [apply take_positionals_sim|auto]. Qed.

Lemma parse_loop_sim : forall fuel rest st, rsim (parse_loop fuel ln rest st) (parse_loop fuel ln' rest st).
Proof.
  induction fuel as [|fuel IH]; intros rest st; [simpl; auto|]. rewrite !parse_loop_S.
  destruct (existsb (fun sc => is_co (snd sc)) rest).
  - assert (X : rsim
      (do sr <- consume_positionals ln rest st ;;
            let '(st', rest') := sr in
            if Nat.ltb (length rest') (length rest) then parse_loop fuel ln rest' st'
            else let '(pre, r) := span_nonopt rest' in
                 parse_loop fuel ln r (mkPstate (s_ns st') (s_seen st')
                                      (s_extras st' ++ map fst pre)%list (s_pos st')))
      (do sr <- consume_positionals ln' rest st ;;
            let '(st', rest') := sr in
            if Nat.ltb (length rest') (length rest) then parse_loop fuel ln' rest' st'
            else let '(pre, r) := span_nonopt rest' in
                 parse_loop fuel ln' r (mkPstate (s_ns st') (s_seen st')
                                      (s_extras st' ++ map fst pre)%list (s_pos st')))).
    { apply rsim_bind; [apply consume_positionals_sim|]. intros [st' rest'] _.
      destruct (Nat.ltb (length rest') (length rest)); [apply IH|].
      destruct (span_nonopt rest'). apply IH. }
    destruct rest as [|[s [| |oa e]] rest]; try exact X.
    apply rsim_bind; [apply consume_optional_sim|]. intros; apply IH.
  - apply rsim_bind; [apply consume_positionals_sim|]. intros [? ?] _; auto.
Qed.

Lemma finish_sim acts : forall seen missing ns, rsim (finish ln acts seen missing ns) (finish ln' acts seen missing ns).
Proof.
  induction acts as [|a acts IH]; intros seen missing ns; cbn [finish]; [destruct missing; auto|].
  destruct (existsb (Nat.eqb (a_id a)) seen); auto. destruct (a_required a); auto.
  destruct (a_default a); auto. destruct (has_key (a_dest a) ns && _); auto.
  apply rsim_bind; [apply get_value_sim|auto].
Qed.

Lemma parse_optional_sim p s : rsim (parse_optional p ln s) (parse_optional p ln' s).
Proof.
  unfold parse_optional. destruct s as [|c r]; auto. destruct (negb (Ascii.eqb c DASH)); auto.
  destruct (assoc (String c r) (p_optmap p)); auto. destruct r as [|d r]; auto.
  destruct (partition_char EQUALS (String c (String d r))) as [[o sep] v].
  destruct (if sep then assoc o (p_optmap p) else None); auto.
  destruct (if Ascii.eqb d DASH then option_tuples p (String c (String d r)) else []) as [|[a x] [|? ?]]; auto.
Qed.

Lemma classify_sim p args : rsim (classify p ln args) (classify p ln' args).
Proof.
  induction args as [|s args IH]; cbn [classify]; auto. destruct (String.eqb s "--"); auto.
  apply rsim_bind; [apply parse_optional_sim|]. intros c _. apply rsim_bind; auto.
Qed.

Lemma parse_known_args_sim p args : rsim (parse_known_args p ln args) (parse_known_args p ln' args).
Proof.
  unfold parse_known_args. apply rsim_bind; [apply classify_sim|]. intros l _.
  apply rsim_bind; [apply parse_loop_sim|]. intros st _.
  apply rsim_bind; [apply finish_sim|auto].
Qed.

Lemma parse_args_sim p args : rsim (parse_args p ln args) (parse_args p ln' args).
Proof.
  unfold parse_args. apply rsim_bind; [apply parse_known_args_sim|]. intros [ns ex] _. simpl.
  destruct ex; auto.
Qed.

End Label.
