(** Specification vocabulary for double precision: Flocq's rounding function, no model helpers *)
From Coq Require Import String List Reals ZArith.
From Flocq Require Import Core BinarySingleNaN.
Import ListNotations.
Open Scope R_scope.

(** the double next to a real number (ties to even, 53 bits, smallest exponent -1074) *)
Definition nearest_double (x : R) : R := round radix2 (FLT_exp (-1074) 53) ZnearestE x.
(** the float that Python makes of a number written as [x] *)
Definition written (x : R) (f : binary_float 53 1024) : Prop := is_finite f = true /\ B2R f = nearest_double x.
(** the float has the value [x] exactly *)
Definition exactly (x : R) (f : binary_float 53 1024) : Prop := is_finite f = true /\ B2R f = x.

(** (type, unit, decimals that convert_to keeps, largest number of such decimals): for instance
    up to 900 nm in steps of 1e-12 nm *)
Definition safe_decimals : list (string * string * nat * Z) :=
  [("wavelength", "nm", 12%nat, 9 * 10 ^ 14);      (* 900 nm *)
   ("wavelength", "um", 9%nat, 9 * 10 ^ 14);       (* 0.9 m *)
   ("wavelength", "cm", 5%nat, 9 * 10 ^ 14);       (* 90000 km *)
   ("wavelength", "a", 13%nat, 9 * 10 ^ 14);       (* 90 angstrom *)
   ("energy", "ev", 9%nat, 7 * 10 ^ 14)]%string%Z.  (* 700 keV *)

(** relative error of one rounding *)
Definition half_ulp : R := / 2 ^ 53.
