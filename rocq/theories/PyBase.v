(** Python base semantics used by every model file: exceptions as values,
    insertion-ordered dictionaries, strings (8-bit characters). *)
From Coq Require Export String Ascii ZArith Bool Lia List.
Export ListNotations.
Open Scope string_scope.
Open Scope list_scope.

(** Exception classes raised (or propagated from numpy/scipy/pandas) by the code. *)
Inductive exn :=
| ValueError | TypeError | KeyError | IndexError | AttributeError | NameError
| UnboundLocalError | NotImplementedError | RuntimeError | OverflowError
| OSError | FileNotFoundError | AssertionError | ModuleNotFoundError | GenericException
| EOFError.

Definition exn_eq_dec : forall a b : exn, {a = b} + {a <> b}.
Proof. decide equality. Defined.

(** [except C] clauses: does an exception of class [e] match handler class [h]?
    (only the subclass relations that matter: FileNotFoundError < OSError = IOError,
    UnboundLocalError < NameError). *)
Definition catches (h e : exn) : bool :=
  match h, e with
  | OSError, FileNotFoundError => true
  | NameError, UnboundLocalError => true
  | _, _ => if exn_eq_dec h e then true else false
  end.

Inductive res (A : Type) : Type :=
| Ok (a : A)
| Raise (e : exn).
Arguments Ok {A} a.
Arguments Raise {A} e.

Definition bind {A B} (m : res A) (f : A -> res B) : res B :=
  match m with Ok a => f a | Raise e => Raise e end.

Notation "'do' x <- m ; f" := (bind m (fun x => f))
  (at level 200, x name, m at level 100, f at level 200, right associativity).
Notation "'do_' m ; f" := (bind m (fun _ => f))
  (at level 200, m at level 100, f at level 200, right associativity).

Definition is_ok {A} (m : res A) : bool := match m with Ok _ => true | Raise _ => false end.

(** sequencing over a list, left to right, stopping at the first exception *)
Fixpoint map_res {A B} (f : A -> res B) (l : list A) : res (list B) :=
  match l with
  | [] => Ok []
  | x :: r => do y <- f x; do ys <- map_res f r; Ok (y :: ys)
  end.

(** ** Dictionaries with string keys, in insertion order *)
Definition dict (V : Type) := list (string * V).

Fixpoint dget {V} (d : dict V) (k : string) : option V :=
  match d with
  | [] => None
  | (k', v) :: r => if String.eqb k k' then Some v else dget r k
  end.

Definition dhas {V} (d : dict V) (k : string) : bool :=
  match dget d k with Some _ => true | None => false end.

(** d[k] : KeyError when absent *)
Definition dlookup {V} (d : dict V) (k : string) : res V :=
  match dget d k with Some v => Ok v | None => Raise KeyError end.

(** d[k] = v : overwrites in place, otherwise appends *)
Fixpoint dset {V} (d : dict V) (k : string) (v : V) : dict V :=
  match d with
  | [] => [(k, v)]
  | (k', v') :: r => if String.eqb k k' then (k', v) :: r else (k', v') :: dset r k v
  end.

Fixpoint ddel {V} (d : dict V) (k : string) : dict V :=
  match d with
  | [] => []
  | (k', v') :: r => if String.eqb k k' then r else (k', v') :: ddel r k
  end.

Definition dkeys {V} (d : dict V) : list string := map fst d.

Definition smem (k : string) (l : list string) : bool := existsb (String.eqb k) l.

(** position of the first element satisfying a test *)
Fixpoint find_idx {A} (f : A -> bool) (l : list A) : option nat :=
  match l with
  | [] => None
  | x :: r => if f x then Some 0 else option_map S (find_idx f r)
  end.

(** ** Basic facts *)
Lemma smem_In k l : smem k l = true <-> In k l.
Proof.
  unfold smem; rewrite existsb_exists; split.
  - intros [x [Hin Heq]]. apply String.eqb_eq in Heq. now subst.
  - intros H. exists k. split; [exact H | apply String.eqb_refl].
Qed.

Lemma smem_not_In k l : smem k l = false <-> ~ In k l.
Proof.
  rewrite <- smem_In. destruct (smem k l); split; congruence.
Qed.

Lemma dget_dset_same {V} (d : dict V) k v : dget (dset d k v) k = Some v.
Proof.
  induction d as [|[k' v'] r IH]; cbn [dset dget].
  - now rewrite String.eqb_refl.
  - destruct (String.eqb k k') eqn:E; cbn [dget]; rewrite E; auto.
Qed.

Lemma dget_dset_other {V} (d : dict V) k k' v : k <> k' -> dget (dset d k v) k' = dget d k'.
Proof.
  intros Hne. induction d as [|[k0 v0] r IH]; cbn [dset dget].
  - destruct (String.eqb k' k) eqn:E; [apply String.eqb_eq in E; congruence | reflexivity].
  - destruct (String.eqb k k0) eqn:E; cbn [dget].
    + apply String.eqb_eq in E; subst k0.
      destruct (String.eqb k' k) eqn:E'; [apply String.eqb_eq in E'; congruence | reflexivity].
    + destruct (String.eqb k' k0); auto.
Qed.

Lemma dget_In {V} (d : dict V) k v : dget d k = Some v -> In (k, v) d.
Proof.
  induction d as [|[k' v'] r IH]; cbn [dget]; [discriminate|].
  destruct (String.eqb k k') eqn:E.
  - intros H; inversion H; subst. apply String.eqb_eq in E; subst. now left.
  - intros H; right; auto.
Qed.

Lemma dget_None_keys {V} (d : dict V) k : dget d k = None <-> ~ In k (dkeys d).
Proof.
  induction d as [|[k' v'] r IH]; cbn [dget dkeys map fst].
  - split; [intros _ []|reflexivity].
  - destruct (String.eqb k k') eqn:E.
    + apply String.eqb_eq in E; subst. split; [discriminate|]. intros H; exfalso; apply H; now left.
    + rewrite IH. apply String.eqb_neq in E. split.
      * intros H [H1|H1]; [congruence|contradiction].
      * intros H H1; apply H; now right.
Qed.

Lemma map_res_ok {A B} (f : A -> res B) (g : A -> B) l :
  (forall x, In x l -> f x = Ok (g x)) -> map_res f l = Ok (map g l).
Proof.
  induction l as [|x r IH]; intros H; [reflexivity|].
  cbn [map_res map]. rewrite (H x (or_introl eq_refl)). cbn [bind].
  rewrite IH; [reflexivity|]. intros y Hy; apply H; now right.
Qed.

Lemma map_res_length {A B} (f : A -> res B) l l' :
  map_res f l = Ok l' -> length l' = length l.
Proof.
  revert l'; induction l as [|x r IH]; cbn [map_res]; intros l' H.
  - now inversion H.
  - destruct (f x); cbn [bind] in H; [|discriminate].
    destruct (map_res f r); cbn [bind] in H; [|discriminate].
    inversion H; subst. cbn [length]. f_equal. now apply IH.
Qed.

Lemma map_res_nth {A B} (f : A -> res B) l l' i x :
  map_res f l = Ok l' -> nth_error l i = Some x ->
  exists y, f x = Ok y /\ nth_error l' i = Some y.
Proof.
  revert l' i; induction l as [|z r IH]; intros l' i H Hn.
  - destruct i; discriminate.
  - cbn [map_res] in H.
    destruct (f z) eqn:Ez; cbn [bind] in H; [|discriminate].
    destruct (map_res f r) eqn:Er; cbn [bind] in H; [|discriminate].
    inversion H; subst. destruct i as [|i]; cbn [nth_error] in *.
    + inversion Hn; subst. eauto.
    + eapply IH; eauto.
Qed.

Lemma map_res_ext {A B} (f g : A -> res B) l :
  (forall x, In x l -> f x = g x) -> map_res f l = map_res g l.
Proof.
  induction l as [|x r IH]; intros H; [reflexivity|].
  cbn [map_res]. rewrite (H x (or_introl eq_refl)).
  destruct (g x); [|reflexivity]. cbn [bind]. rewrite IH; [reflexivity|].
  intros y Hy; apply H; now right.
Qed.

Lemma Forall2_len {A B} (P : A -> B -> Prop) l l' : Forall2 P l l' -> length l = length l'.
Proof. induction 1; cbn; congruence. Qed.
