(** * Handlers with their own commands: C45 *)

From Verif Require Import PyStrFacts ArgParseFacts HandlerFacts HandlerSpec PropsHandler.
From Verif Require Import Value.
Local Open Scope string_scope.
Local Open Scope list_scope.

(** What a handler is asked to use for a name: an update if there is one, else the map
    given instead of the default one, else - if that map is empty or missing - the map
    of the version. *)
Definition wanted {A} (default mapping updates : list (string * A)) (n : string) : option A :=
  match assoc n updates with
  | Some k => Some k
  | None => match mapping with [] => assoc n default | _ => assoc n mapping end
  end.

Lemma update_assoc {A} (e d : list (string * A)) n : is_dict e -> assoc n (dict_update d e) = match assoc n e with Some k => Some k | None => assoc n d end.
Proof.
  unfold dict_update, is_dict. revert d. induction e as [|[x k] e IH]; intros d D; cbn [fold_left assoc]; [reflexivity|].
  inversion D as [|? ? Nx De]; subst. rewrite IH by exact De. cbn [fst snd]. rewrite assoc_put. destruct (String.eqb_spec n x) as [->|]; [|reflexivity].
  now rewrite (proj2 (assoc_none x e) Nx).
Qed.
Lemma put_dict {A} n (k : A) d : is_dict d -> is_dict (put n k d).
Proof.
  unfold is_dict. induction d as [|[x y] d IH]; intros D; cbn [put map fst].
  - repeat constructor. intros [].
  - inversion D as [|? ? Nx Dd]; subst. destruct (String.eqb_spec n x) as [->|Ne]; cbn [map fst]; constructor; auto.
    intros I. apply Nx. clear -I Ne. induction d as [|[a b] d IH]; cbn [put map fst] in *.
    + destruct I as [I|[]]. congruence.
    + destruct (String.eqb_spec n a) as [->|]; cbn [map fst] in I; [exact I|]. destruct I as [I|I]; [now left|right; auto].
Qed.
Lemma update_dict {A} (e d : list (string * A)) : is_dict d -> is_dict (dict_update d e).
Proof. unfold dict_update. revert d. induction e as [|x e IH]; intros d D; cbn [fold_left]; auto. apply IH. now apply put_dict. Qed.
Lemma chosen_wanted {A} (default mapping updates : list (string * A)) n : is_dict updates -> assoc n (chosen default mapping updates) = wanted default mapping updates n.
Proof. intros D. unfold chosen, wanted. rewrite update_assoc by exact D. destruct mapping; reflexivity. Qed.
Lemma chosen_dict {A} (default mapping updates : list (string * A)) : is_dict default -> is_dict mapping -> is_dict (chosen default mapping updates).
Proof. intros D M. apply update_dict. destruct mapping; assumption. Qed.

(** Every name is served by a new instance of the class wanted for it, and no other name
    is a command. *)
Theorem C45_commands : forall default mapping updates ddefault dmapping dupdates n,
  is_dict default -> is_dict mapping -> is_dict updates ->
  (forall n k n' k', wanted default mapping updates n = Some k -> wanted default mapping updates n' = Some k' -> cl_name k = cl_name k' -> k = k') ->
  let h := new_handler default ddefault mapping dmapping updates dupdates in
  match wanted default mapping updates n with
  | Some k => served h n = Some (new_obj k)
  | None => assoc n (h_commands h) = None
  end.
Proof.
  intros default mapping updates ddefault dmapping dupdates n D M U O h. pose proof (chosen_dict default mapping updates D M) as C.
  destruct (wanted default mapping updates n) as [k|] eqn:W; rewrite <- (chosen_wanted _ _ _ n U) in W.
  - apply C27_instances; auto.
    + intros a x b y Ha Hb. apply (In_dict _ C) in Ha. apply (In_dict _ C) in Hb. rewrite chosen_wanted in Ha, Hb by exact U. eauto.
    + now apply assoc_In.
  - apply (C27_only_registered (chosen default mapping updates)); auto.
    + exists (chosen ddefault dmapping dupdates), []. split; [constructor|reflexivity].
    + intros I. apply assoc_key in I as [k I]. congruence.
Qed.
Print Assumptions C45_commands.

(** The same of the data classes. *)
Theorem C45_data : forall default mapping updates ddefault dmapping dupdates n,
  is_dict ddefault -> is_dict dmapping -> is_dict dupdates ->
  assoc n (h_dataclasses (new_handler default ddefault mapping dmapping updates dupdates)) = wanted ddefault dmapping dupdates n.
Proof.
  intros default mapping updates ddefault dmapping dupdates n D M U. unfold new_handler. rewrite (proj1 (build_data _ _)).
  rewrite <- (chosen_wanted _ _ _ n U). set (l := chosen ddefault dmapping dupdates). pose proof (chosen_dict ddefault dmapping dupdates D M) as C. fold l in C.
  change (assoc n (dict_update [] l) = assoc n l). rewrite update_assoc by exact C. destruct (assoc n l); reflexivity.
Qed.
Print Assumptions C45_data.

(** A replaced command, a new one and one that is kept. *)
Example C45_example :
  let h := new_handler toys [("PartData", "D")] [] [] [("autopart", toy "My_AutoPart" (VInt 5)); ("mine", toy "My_Mine" (VInt 7))] [("PartData", "E")] in
  (option_map o_name (served h "autopart"), option_map o_name (served h "mine"), option_map o_name (served h "text"), assoc "PartData" (h_dataclasses h)) =
    (Some "My_AutoPart", Some "My_Mine", Some "F26_DisplayMode", Some "E") /\
  served (new_handler toys [] [("mine", toy "My_Mine" (VInt 7))] [] [] []) "text" = None.
Proof. split; vm_compute; reflexivity. Qed.
