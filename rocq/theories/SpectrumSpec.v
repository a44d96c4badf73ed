(** Specification vocabulary for spectra: documented names, the physics of the
    conversions, decimal rounding.  Independent of the model (only strings and reals). *)
From Coq Require Import String List Reals ZArith.
From Verif Require Import PyBase XReal.
Import ListNotations.
Open Scope R_scope.

(** docs/source/spectrum.rst and Spectrum.UNIT_TYPES: (type, canonical unit, spellings) *)
Definition doc_units : list (string * string * list string) :=
  [("wavelength", "m", ["meter"; "metre"; "m"]);
   ("wavelength", "cm", ["centimeter"; "centimetre"; "cm"]);
   ("wavelength", "um", ["micrometer"; "micrometre"; "um"]);
   ("wavelength", "nm", ["nanometer"; "nanometre"; "nm"]);
   ("wavelength", "a", ["a"; "angstrom"]);
   ("frequency", "hz", ["hertz"; "hz"]);
   ("energy", "ev", ["electronvolt"; "ev"]);
   ("angularfrequency", "1/s", ["1/s"; "rad/s"]);
   ("wavenumber", "1/cm", ["1/cm"])]%string.

(** [u] is a documented (lower-case) spelling of the unit [canon] of type [t] *)
Definition documented (t u canon : string) : Prop :=
  exists spellings, In (t, canon, spellings) doc_units /\ In u spellings.

Definition speed_of_light : R := 299792458.                              (* m/s *)
Definition planck : R := 6.62607015 / 10 ^ 34.                           (* J s *)
Definition elementary_charge : R := 1.602176634 / 10 ^ 19.               (* C *)

(** vacuum wavelength in metres of the spectral value [x] *)
Inductive wavelength_m : string -> string -> R -> R -> Prop :=
| wl_m x : wavelength_m "wavelength" "m" x x
| wl_cm x : wavelength_m "wavelength" "cm" x (x / 100)
| wl_um x : wavelength_m "wavelength" "um" x (x / 10 ^ 6)
| wl_nm x : wavelength_m "wavelength" "nm" x (x / 10 ^ 9)
| wl_a x : wavelength_m "wavelength" "a" x (x / 10 ^ 10)
| wl_hz x : wavelength_m "frequency" "hz" x (speed_of_light / x)
| wl_ev x : wavelength_m "energy" "ev" x
              (planck * speed_of_light / (elementary_charge * x))
| wl_rads x : wavelength_m "angularfrequency" "1/s" x (2 * PI * speed_of_light / x)
| wl_icm x : wavelength_m "wavenumber" "1/cm" x (2 * PI / x / 100).  (* angular wavenumber, cm -> m *)

(** number of decimals kept when converting to a unit; None: not rounded *)
Definition doc_decimals (canon : string) : option nat :=
  match find (fun p => String.eqb (fst p) canon)
          [("cm", 5%nat); ("um", 9%nat); ("nm", 12%nat); ("a", 13%nat); ("ev", 9%nat)]%string with
  | Some p => Some (snd p) | None => None end.

Definition reciprocal_type (t : string) : Prop :=
  In t ["frequency"; "energy"; "angularfrequency"; "wavenumber"]%string.

(** [y] is [x] rounded to [d] decimals, ties to even *)
Definition rounds_to (d : nat) (x y : R) : Prop :=
  exists n : Z, y = IZR n / 10 ^ d /\ Rabs (y - x) <= / 2 * / 10 ^ d /\
                (Rabs (y - x) = / 2 * / 10 ^ d -> Z.even n = true).

(** [y] is [x] rounded as documented for the unit *)
Definition rounds_for (canon : string) (x y : R) : Prop :=
  match doc_decimals canon with Some d => rounds_to d x y | None => y = x end.

(** [x] lies between the smallest and largest element of [range] *)
Definition within_hull (range : list xr) (x : xr) : Prop :=
  (exists a, In a range /\ xle a x = true) /\ (exists b, In b range /\ xle x b = true).

(** magnitudes (of a wavelength in metres) that array conversion to type [t] resolves *)
Definition resolvable (t : string) (x : xr) : Prop :=
  reciprocal_type t ->
  match x with
  | Fin r => (if String.eqb t "wavenumber" then / 10 ^ 6 else / 10 ^ 8) < Rabs r \/ r = 0
  | _ => True
  end.

(** the in-place requests that follow each other in a program *)
Definition requests := list (string * string).
