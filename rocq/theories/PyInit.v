(** * What __init__ does with keyword arguments

    An __init__ is run on values that may stand for a keyword argument: a constant,
    [kwargs.get(k, d)], or one of two such values.  The result is the list of attributes of
    the new object, each with the value it gets from the keyword arguments. *)

From Verif Require Import PyStrFacts PyClass.
From Verif Require Import Value.
Local Open Scope string_scope.
Local Open Scope list_scope.

Inductive sval :=
| SConst (v : value)
| SGet (k : string) (d : sval)            (* kwargs.get(k, d) *)
| SEither (x y : sval).                   (* x or y *)
Inductive spval := SV (x : sval) | SKw | SNoKw.     (* a value, kwargs, {} *)

Section Den.
Variable kw : attrs.
Fixpoint den (x : sval) : value :=
  match x with
  | SConst v => v
  | SGet k d => match assoc k kw with Some v => v | None => den d end
  | SEither x y => if truthy (den x) then den x else den y
  end.
Definition pden (p : spval) : pval := match p with SV x => PV (den x) | SKw => PNs kw | SNoKw => PNs [] end.
Definition aden (l : list (string * sval)) : attrs := map (fun e => (fst e, den (snd e))) l.
Definition eden (l : list (string * spval)) : env := map (fun e => (fst e, pden (snd e))) l.
End Den.

(** [None]: not of this kind. *)
Fixpoint seval (self : list (string * sval)) (e : list (string * spval)) (x : expr) : option spval :=
  match x with
  | EConst v => Some (SV (SConst v))
  | EVar y => if String.eqb y "self" then None else assoc y e
  | EAttr (EVar y) a => if String.eqb y "self" then option_map SV (assoc a self) else None
  | EGet y a d =>
      match seval self e y, seval self e d with
      | Some SKw, Some (SV v) => Some (SV (SGet a v))
      | Some SNoKw, Some p => Some p
      | _, _ => None
      end
  | EOr y z => match seval self e y, seval self e z with
               | Some (SV x), Some (SV w) => Some (SV (SEither x w))
               | _, _ => None
               end
  | EBin o y z => match seval self e y, seval self e z with
                  | Some (SV (SConst v)), Some (SV (SConst w)) => match bin o v w with Ok r => Some (SV (SConst r)) | Err _ => None end
                  | _, _ => None
                  end
  | ENoKw => Some SNoKw
  | _ => None
  end.
Definition sparams (self : list (string * sval)) (e : list (string * spval)) : list (string * expr) -> option (list (string * spval)) :=
  fix go l := match l with
              | [] => Some []
              | (x, y) :: r => match seval self e y, go r with Some p, Some r => Some ((x, p) :: r) | _, _ => None end
              end.
Fixpoint sexec (s : stmt) (e : list (string * spval)) (self : list (string * sval)) : option (list (string * spval) * list (string * sval)) :=
  match s with
  | SPass => Some (e, self)
  | SSeq s t => match sexec s e self with Some (e', self') => sexec t e' self' | None => None end
  | SAssign x y => match seval self e y with Some p => Some (put x p e, self) | None => None end
  | SAttr x a y => if String.eqb x "self" then match seval self e y with Some (SV v) => Some (e, put a v self) | _ => None end else None
  | SDelRemoved l => Some (e, fold_left (fun a k => del k a) (filter (fun k => has_key k self) l) self)
  | SBlock x ps s =>
      match sparams self e ps with
      | Some e0 => match sexec s e0 self with Some (_, self') => Some (put x (SV (SConst VNone)) e, self') | None => None end
      | None => None
      end
  | _ => None
  end.

(** The attributes of a new object of the class. *)
Definition made_attrs (c : string) : option (list (string * sval)) :=
  match method_of c "__init__" [("kwargs", EVar "kwargs")] with
  | None => None
  | Some s => match sexec s [("kwargs", SKw)] [] with
              | Some (e, self) => if has_key "_r" e then Some self else None
              | None => None
              end
  end.

(** ** Soundness *)

Lemma assoc_map {A B} (f : A -> B) k l : assoc k (map (fun e => (fst e, f (snd e))) l) = option_map f (assoc k l).
Proof. induction l as [|[x y] l IH]; [reflexivity|]. cbn [map fst snd assoc]. destruct (String.eqb k x); [reflexivity|exact IH]. Qed.
Lemma put_map {A B} (f : A -> B) k v l : map (fun e => (fst e, f (snd e))) (put k v l) = put k (f v) (map (fun e => (fst e, f (snd e))) l).
Proof.
  induction l as [|[x y] l IH]; [reflexivity|]. cbn [map fst snd put]. destruct (String.eqb k x); [reflexivity|]. cbn [map fst snd]. now rewrite IH.
Qed.
Lemma del_map {A B} (f : A -> B) k l : map (fun e => (fst e, f (snd e))) (del k l) = del k (map (fun e => (fst e, f (snd e))) l).
Proof.
  induction l as [|[x y] l IH]; [reflexivity|]. cbn [map fst snd del]. destruct (String.eqb k x); [exact IH|]. cbn [map fst snd]. now rewrite IH.
Qed.

Section Sound.
Variables (c : ctx) (kw : attrs).
Notation aden := (aden kw).
Notation eden := (eden kw).
Notation pden := (pden kw).

Lemma seval_sound x : forall self e p, seval self e x = Some p -> eval c (aden self) (eden e) x = Ok (pden p).
Proof.
  induction x as [v|y| |y IHy b|y IHy b d IHd|y IHy b|o y IHy|o y IHy z IHz|y IHy z IHz|y IHy z IHz|n|n|n|y IHy|b|y IHy z IHz|];
    intros self e p H; cbn [seval] in H; try discriminate.
  - injection H as <-. reflexivity.
  - cbn [eval]. destruct (String.eqb y "self"); [discriminate|]. unfold PyInit.eden. rewrite (assoc_map pden), H. reflexivity.
  - destruct y as [|y| | | | | | | | | | | | | | |]; try discriminate. destruct (String.eqb y "self") eqn:E; [|discriminate].
    destruct (assoc b self) as [v|] eqn:A; [|discriminate]. injection H as <-. cbn [eval bind]. rewrite E. cbn [bind find_attr].
    unfold PyInit.aden. rewrite (assoc_map (den kw)), A. reflexivity.
  - destruct (seval self e y) as [[| |]|] eqn:Ey; try discriminate; destruct (seval self e d) as [q|] eqn:Ed; try discriminate;
      cbn [eval]; rewrite (IHy _ _ _ Ey); cbn [bind PyInit.pden find_attr].
    + destruct q as [v| |]; try discriminate. injection H as <-. pose proof (IHd _ _ _ Ed) as D. cbn [PyInit.pden den]. destruct (assoc b kw); [reflexivity|exact D].
    + injection H as <-. cbn [assoc]. exact (IHd _ _ _ Ed).
  - destruct (seval self e y) as [[[v| |]| |]|] eqn:Ey; try discriminate; destruct (seval self e z) as [[[w| |]| |]|] eqn:Ez; try discriminate.
    destruct (bin o v w) as [r|] eqn:B; [|discriminate]. injection H as <-.
    cbn [eval]. rewrite (IHy _ _ _ Ey). cbn [bind PyInit.pden to_val]. rewrite (IHz _ _ _ Ez). cbn [bind PyInit.pden to_val den]. rewrite B. reflexivity.
  - destruct (seval self e y) as [[x| |]|] eqn:Ey; try discriminate; destruct (seval self e z) as [[w| |]|] eqn:Ez; try discriminate.
    injection H as <-. cbn [eval]. rewrite (IHy _ _ _ Ey). cbn [bind PyInit.pden p_truthy den]. destruct (truthy (den kw x)); [reflexivity|].
    rewrite (IHz _ _ _ Ez). reflexivity.
  - injection H as <-. reflexivity.
Qed.
Lemma sparams_sound self e ps : forall e0, sparams self e ps = Some e0 -> bind_params c (aden self) (eden e) ps = Ok (eden e0).
Proof.
  induction ps as [|[x y] ps IH]; intros e0 H; cbn [sparams] in H.
  - injection H as <-. reflexivity.
  - fold (sparams self e) in H. destruct (seval self e y) as [p|] eqn:E; [|discriminate]. destruct (sparams self e ps) as [r|] eqn:F; [|discriminate]. injection H as <-.
    unfold bind_params in *. cbn [map_res fst snd]. rewrite (seval_sound _ _ _ _ E). cbn [bind]. rewrite (IH _ eq_refl). reflexivity.
Qed.
Lemma has_key_aden k l : has_key k (aden l) = has_key k l.
Proof. unfold has_key, PyInit.aden. rewrite (assoc_map (den kw)). destruct (assoc k l); reflexivity. Qed.
Lemma sexec_sound s : forall e self e' self', sexec s e self = Some (e', self') -> exec c s (eden e) (aden self) = ONext (eden e') (aden self').
Proof.
  induction s as [|s1 IH1 s2 IH2|x y|x b y|x b|x y|x y z sep w|ns|ns extra|ns x|y s1 IH1 s2 IH2|x y s IH|x y w s IH|x s IH|line tag| |y|y| |l|x t m ps|x ps s IH];
    intros e self e' self' H; cbn [sexec] in H; try discriminate.
  - injection H as <- <-. reflexivity.
  - destruct (sexec s1 e self) as [[e1 self1]|] eqn:E; [|discriminate]. cbn [exec]. rewrite (IH1 _ _ _ _ E). now apply IH2.
  - destruct (seval self e y) as [p|] eqn:E; [|discriminate]. injection H as <- <-. cbn [exec]. rewrite (seval_sound _ _ _ _ E).
    unfold PyInit.eden. now rewrite (put_map pden).
  - destruct (String.eqb x "self") eqn:X; [|discriminate]. destruct (seval self e y) as [[v| |]|] eqn:E; try discriminate. injection H as <- <-.
    cbn [exec]. rewrite (seval_sound _ _ _ _ E). cbn [with_val PyInit.pden]. unfold set_on. rewrite X. unfold PyInit.aden. now rewrite (put_map (den kw)).
  - injection H as <- <-. cbn [exec]. unfold delete_removed. f_equal. rewrite (filter_ext _ (fun k => has_key k self)) by (intros; apply has_key_aden).
    generalize (filter (fun k => has_key k self) l). intros m. revert self. induction m as [|k m IHm]; intros self; [reflexivity|].
    cbn [fold_left]. rewrite <- IHm. f_equal. unfold PyInit.aden. symmetry. apply (del_map (den kw)).
  - destruct (sparams self e ps) as [e0|] eqn:P; [|discriminate]. destruct (sexec s e0 self) as [[e1 self1]|] eqn:E; [|discriminate]. injection H as <- <-.
    cbn [exec]. rewrite (sparams_sound _ _ _ _ P), (IH _ _ _ _ E). unfold PyInit.eden. rewrite (put_map pden). reflexivity.
Qed.
End Sound.

Lemma made_new c l kw : made_attrs c = Some l -> new_attrs c kw = Ok (aden kw l).
Proof.
  unfold made_attrs, new_attrs. destruct (method_of c "__init__" [("kwargs", EVar "kwargs")]) as [s|]; [|discriminate].
  destruct (sexec s [("kwargs", SKw)] []) as [[e self]|] eqn:E; [|discriminate]. destruct (has_key "_r" e) eqn:R; [|discriminate]. intros H. injection H as <-.
  unfold run. pose proof (sexec_sound no_ctx kw s _ _ _ _ E) as X. change (eden kw [("kwargs", SKw)]) with [("kwargs", PNs kw)] in X. change (aden kw []) with (@nil (string * value)) in X. rewrite X.
  unfold has_key in R. unfold eden. rewrite (assoc_map (pden kw)). destruct (assoc "_r" e); [reflexivity|discriminate].
Qed.
