(** Specification vocabulary for linear mixing in double precision *)
From Coq Require Import List Reals ZArith.
From Flocq Require Import Core BinarySingleNaN.
From Verif Require Import FloatSpec FloatTableSpec.
Import ListNotations.
Open Scope R_scope.

Definition double := binary_float 53 1024.
(** a complex number with parts [x] and [y], exactly *)
Definition exactly2 (x y : R) (z : double * double) : Prop := exactly x (fst z) /\ exactly y (snd z).
(** finite parts, at most 2^1000 *)
Definition moderate (x : double) : Prop := is_finite x = true /\ Rabs (B2R x) <= 2 ^ 1000.
Definition moderate2 (z : double * double) : Prop := moderate (fst z) /\ moderate (snd z).
(** [y] is the mixture (1-f)a + f b up to four roundings of the two shares and the smallest doubles *)
Definition mixed (f a b y : R) : Prop :=
  Rabs (y - ((1 - f) * a + f * b)) <= 4 * half_ulp * (Rabs ((1 - f) * a) + Rabs (f * b)) + / 2 ^ 1073.
(** wavelengths that can be tabulated: at least two, finite, no two equal *)
Definition tabulable (ws : list double) : Prop :=
  (2 <= length ws)%nat /\ Forall (fun w => is_finite w = true) ws /\ NoDup (map B2R ws).
(** the interpolation routine gives back the second column at the numbers of the first, for every
    table that can be made *)
Definition exact_at_knots (lib : list (double * double) -> double -> double) : Prop :=
  forall rows, tabulable (map fst rows) -> exact_at_rows lib rows.
