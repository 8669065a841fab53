(** * Methods that read a few attributes and change nothing

    A __str__ that consists of assignments to variables, conditions and returns gives the
    same text for two objects with the same values in the attributes it reads. *)

From Verif Require Export MiniPy PyClass.
From Verif Require Import PyStrFacts Value.
Local Open Scope string_scope.
Local Open Scope list_scope.
Local Arguments String.eqb : simpl never.

Fixpoint plain_e (K : list string) (x : expr) : bool :=
  match x with
  | EConst _ => true
  | EVar y => negb (String.eqb y "self")
  | EAttr (EVar y) k => String.eqb y "self" && mem k K
  | EUn _ y => plain_e K y
  | EBin _ y z | EAnd y z | EOr y z => plain_e K y && plain_e K z
  | _ => false
  end.
Fixpoint plain_s (K : list string) (s : stmt) : bool :=
  match s with
  | SPass => true
  | SSeq s t => plain_s K s && plain_s K t
  | SAssign _ y => plain_e K y
  | SReturn y => plain_e K y
  | SIf y s t => plain_e K y && plain_s K s && plain_s K t
  | SBlock _ [] s => plain_s K s
  | _ => false
  end.
Definition on_self_of (a : attrs) (o : outcome) : outcome :=
  match o with ONext e _ => ONext e a | OBreak e _ => OBreak e a | OReturn p _ => OReturn p a | ORaise x _ => ORaise x a end.

Section Two.
Variables (C D : ctx) (K : list string) (a b : attrs).
Hypothesis H : forall k, In k K -> assoc k a = assoc k b.
Lemma plain_eval e x : plain_e K x = true -> eval C a e x = eval D b e x.
Proof.
  induction x as [v|y| |y IH k|y IH k d IHd|y IH k|o y IH|o y IHy z IHz|y IHy z IHz|y IHy z IHz|n|n|n|y IH|k|y IHy z IHz|]; intros P; try discriminate; try reflexivity.
  - destruct y; try discriminate. cbn [plain_e] in P. apply andb_prop in P as [P1 P2]. apply String.eqb_eq in P1. subst. apply mem_In in P2.
    cbn [eval]. change (String.eqb "self" "self") with true. cbv iota. cbn [bind find_attr]. now rewrite (H k P2).
  - cbn [plain_e] in P. specialize (IH P). destruct o; cbn [eval]; now rewrite IH.
  - cbn [plain_e] in P. apply andb_prop in P as [P1 P2]. cbn [eval]. rewrite (IHy P1). destruct (eval D b e y) as [p|]; [|reflexivity]. cbn [bind]. now rewrite (IHz P2).
  - cbn [plain_e] in P. apply andb_prop in P as [P1 P2]. cbn [eval]. rewrite (IHy P1). destruct (eval D b e y) as [p|]; [|reflexivity]. cbn [bind]. now rewrite (IHz P2).
  - cbn [plain_e] in P. apply andb_prop in P as [P1 P2]. cbn [eval]. rewrite (IHy P1). destruct (eval D b e y) as [p|]; [|reflexivity]. cbn [bind]. now rewrite (IHz P2).
Qed.
Lemma plain_exec s : plain_s K s = true -> forall e, exec C s e a = on_self_of a (exec D s e b) /\ exec D s e b = on_self_of b (exec D s e b).
Proof.
  induction s as [|s1 IHs1 s2 IHs2|x y| | | | | | | |y s1 IHs1 s2 IHs2| | | | | | |y| | | |x ps s IHs]; intros P; try discriminate; intros e0.
  - split; reflexivity.
  - cbn [plain_s] in P. apply andb_prop in P as [P1 P2]. cbn [exec]. destruct (IHs1 P1 e0) as [A B]. rewrite A. destruct (exec D s1 e0 b) as [e' w|e' w|p w|z w]; cbn [on_self_of] in *; try (split; [reflexivity|exact B]).
    injection B as Bx. subst w. apply IHs2. exact P2.
  - cbn [plain_s] in P. cbn [exec]. rewrite (plain_eval _ _ P). destruct (eval D b e0 y); split; reflexivity.
  - cbn [plain_s] in P. apply andb_prop in P as [P P3]. apply andb_prop in P as [P1 P2]. cbn [exec]. rewrite (plain_eval _ _ P1). destruct (eval D b e0 y) as [p|]; [|split; reflexivity]. destruct (p_truthy p); auto.
  - cbn [plain_s] in P. cbn [exec]. rewrite (plain_eval _ _ P). destruct (eval D b e0 y); split; reflexivity.
  - destruct ps; [|discriminate]. cbn [plain_s] in P. cbn [exec bind_params map_res]. destruct (IHs P []) as [A B]. rewrite A. destruct (exec D s [] b) as [e' w|e' w|p w|z w]; cbn [on_self_of] in *; injection B as By; subst w; split; reflexivity.
Qed.
Lemma plain_run s : plain_s K s = true -> snd (run C s [] a) = snd (run D s [] b).
Proof.
  intros P. unfold run. destruct (plain_exec s P []) as [A B]. rewrite A. destruct (exec D s [] b); reflexivity.
Qed.
End Two.

(** The text of a class from the values of the attributes it reads. *)
Lemma plain_str c t K a b l m : plain_s K t = true -> (forall k, In k K -> assoc k a = assoc k b) -> cmd_str c t a l = cmd_str c t b m.
Proof. intros P H. unfold cmd_str. now rewrite (plain_run _ (parse_ctx c no_view m []) K a b H t P). Qed.
