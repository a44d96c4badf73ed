(** Specification vocabulary for the permittivity in double precision *)
From Coq Require Import List Reals ZArith.
From Flocq Require Import Core BinarySingleNaN.
From Verif Require Import FloatSpec.
Import ListNotations.
Open Scope R_scope.

(** parts of a refractive index whose square does not overflow: at most 2^500 *)
Definition squarable (z : binary_float 53 1024 * binary_float 53 1024) : Prop :=
  (is_finite (fst z) = true /\ Rabs (B2R (fst z)) <= 2 ^ 500) /\ (is_finite (snd z) = true /\ Rabs (B2R (snd z)) <= 2 ^ 500).
(** [e] is the permittivity (n + ik)^2 = (n^2 - k^2) + i 2nk for z = n + ik: the error of the real part is at most 2.001
    roundings of n^2 + k^2, that of the imaginary part one rounding of 2nk, and the smallest doubles *)
Definition square_of (z e : binary_float 53 1024 * binary_float 53 1024) : Prop :=
  let n := B2R (fst z) in let k := B2R (snd z) in
  is_finite (fst e) = true /\ is_finite (snd e) = true /\
  Rabs (B2R (fst e) - (n * n - k * k)) <= (2 + / 1000) * half_ulp * (n * n + k * k) + / 2 ^ 1073 /\
  Rabs (B2R (snd e) - 2 * n * k) <= half_ulp * Rabs (2 * n * k) + / 2 ^ 1073.
