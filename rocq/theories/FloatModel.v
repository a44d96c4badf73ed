(** Second model of src/dispersion/spectrum.py, in binary64 arithmetic (SpectrumModel.v computes
    with exact real numbers). Every operation rounds to nearest-even as IEEE 754 demands of
    Python and numpy; infinities, NaN, overflow, underflow and signed zeros are those of Flocq's
    binary_float. The tables of names are shared with SpectrumModel.v. *)
From Coq Require Import Reals.
From Flocq Require Import Core BinarySingleNaN.
From Verif Require Import PyBase PyStr SpectrumModel.
Open Scope string_scope.
Open Scope list_scope.

(** ** numbers *)
Definition prec53 : Prec_gt_0 53 := eq_refl.
Definition emax1024 : Prec_lt_emax 53 1024 := eq_refl.
Definition float := binary_float 53 1024.
Definition fmul : float -> float -> float := @Bmult 53 1024 prec53 emax1024 mode_NE.
Definition fdiv : float -> float -> float := @Bdiv 53 1024 prec53 emax1024 mode_NE.
(** np.rint *)
Definition frint : float -> float := @Bnearbyint 53 1024 emax1024 mode_NE.
Definition finf : float := B754_infinity false.
Definition feq : float -> float -> bool := @Beqb 53 1024.
Definition flt : float -> float -> bool := @Bltb 53 1024.
Definition fle : float -> float -> bool := @Bleb 53 1024.
Definition fabs : float -> float := @Babs 53 1024.
(** the double next to m * 2^e *)
Definition dyadic (m e : Z) : float := @binary_normalize 53 1024 prec53 emax1024 mode_NE m e false.
(** numpy's conversion of an integer to a double *)
Definition of_Z (z : Z) : float := dyadic z 0.
(** the literals 1eN with N <= 22 (exact) and 1e-N (the quotient of two exact numbers is rounded
    once, so it is the double next to 10^-N) *)
Definition lit_pos (n : Z) : float := of_Z (10 ^ n).
Definition lit_neg (n : Z) : float := fdiv (of_Z 1) (of_Z (10 ^ n)).
(** scipy.constants.c, h, e (CODATA 2018) and np.pi: the doubles next to 299792458,
    6.62607015e-34, 1.602176634e-19 and pi *)
Definition f_c : float := of_Z 299792458.
Definition f_h : float := dyadic 7747209898635537 (-163).
Definition f_e : float := dyadic 6655181362828883 (-115).
Definition f_pi : float := dyadic 7074237752028440 (-51).

(** numpy.round(x, decimals=d) of a double, d >= 0: multiply by 10^d, np.rint, divide by 10^d *)
Definition np_round (d : Z) (x : float) : float := fdiv (frint (fmul x (lit_pos d))) (lit_pos d).

(** np.isclose(x, 0.0): |x - 0.0| <= 1e-8 + 1e-5*|0.0| (false for infinities and NaN);
    np.isclose(x, np.inf): only +inf itself *)
Definition f_isclose_zero (x : float) : bool := fle (fabs x) (lit_neg 8).
Definition f_isclose_inf (x : float) : bool := feq x finf.

(** ** values: a float, a float array, an integer array (lists and tuples as in SpectrumModel) *)
Inductive fvals := FS (x : float) | FA (l : list float) | FI (l : list Z).
Definition felems (v : fvals) : list float :=
  match v with FS x => [x] | FA l => l | FI l => map of_Z l end.
Definition fmap (f : float -> float) (v : fvals) : fvals :=
  match v with FS x => FS (f x) | FA l => FA (map f l) | FI l => FA (map f (felems (FI l))) end.

(** spectrum.py:35-45 safe_inverse_scalar *)
Definition f_inverse_scalar (x : float) : float :=
  if feq x (of_Z 0) then finf
  else if feq x finf then of_Z 0
  else fdiv (of_Z 1) x.
(** spectrum.py:21-33 safe_inverse_array, one element *)
Definition f_inverse_elem (x : float) : float :=
  if f_isclose_zero x then finf
  else if f_isclose_inf x then of_Z 0
  else fdiv (of_Z 1) x.
(** spectrum.py:10-33 safe_inverse (integer arrays: see SpectrumModel.safe_inverse) *)
Definition f_safe_inverse (v : fvals) : res fvals :=
  match v with
  | FS x => Ok (FS (f_inverse_scalar x))
  | FA l => Ok (FA (map f_inverse_elem l))
  | FI _ => Raise OverflowError
  end.

(** spectrum.py:62, 130 constants.h*constants.c/(constants.e), and 74, 138 2*np.pi*constants.c *)
Definition f_hce : float := fdiv (fmul f_h f_c) f_e.
Definition f_2pi : float := fmul (of_Z 2) f_pi.
Definition f_2pic : float := fmul f_2pi f_c.

(** spectrum.py:47-54 *)
Definition f_frequency_to_standard (unit : string) (v : fvals) : res fvals :=
  if negb (String.eqb unit "hz") then Raise NotImplementedError
  else do inv <- f_safe_inverse v; Ok (fmap (fmul f_c) inv).
(** spectrum.py:57-64 *)
Definition f_energy_to_standard (unit : string) (v : fvals) : res fvals :=
  if negb (String.eqb unit "ev") then Raise NotImplementedError
  else do inv <- f_safe_inverse v; Ok (fmap (fmul f_hce) inv).
(** spectrum.py:67-75 *)
Definition f_ang_freq_to_standard (unit : string) (v : fvals) : res fvals :=
  if negb (String.eqb unit "1/s") then Raise NotImplementedError
  else do inv <- f_safe_inverse v; Ok (fmap (fmul f_2pic) inv).
(** spectrum.py:78-85: 2*np.pi*inverse*1e-2 *)
Definition f_wavenumber_to_standard (unit : string) (v : fvals) : res fvals :=
  if negb (String.eqb unit "1/cm") then Raise NotImplementedError
  else do inv <- f_safe_inverse v; Ok (fmap (fun x => fmul (fmul f_2pi x) (lit_neg 2)) inv).
(** spectrum.py:88-100 *)
Definition f_wavelength_to_standard (unit : string) (v : fvals) : res fvals :=
  if String.eqb unit "nm" then Ok (fmap (fun x => fmul x (lit_neg 9)) v)
  else if String.eqb unit "cm" then Ok (fmap (fun x => fmul x (lit_neg 2)) v)
  else if String.eqb unit "um" then Ok (fmap (fun x => fmul x (lit_neg 6)) v)
  else if String.eqb unit "a" then Ok (fmap (fun x => fmul x (lit_neg 10)) v)
  else Ok v.

(** spectrum.py:102-114 *)
Definition f_to_wavelength (unit : string) (v : fvals) : res fvals :=
  if String.eqb unit "m" then Ok v
  else if String.eqb unit "cm" then Ok (fmap (fun x => np_round 5 (fmul x (lit_pos 2))) v)
  else if String.eqb unit "nm" then Ok (fmap (fun x => np_round 12 (fmul x (lit_pos 9))) v)
  else if String.eqb unit "um" then Ok (fmap (fun x => np_round 9 (fmul x (lit_pos 6))) v)
  else if String.eqb unit "a" then Ok (fmap (fun x => np_round 13 (fmul x (lit_pos 10))) v)
  else Raise UnboundLocalError.
(** spectrum.py:116-122 *)
Definition f_to_frequency (unit : string) (v : fvals) : res fvals :=
  if negb (String.eqb unit "hz") then Raise NotImplementedError
  else do inv <- f_safe_inverse v; Ok (fmap (fmul f_c) inv).
(** spectrum.py:124-130 *)
Definition f_to_energy (unit : string) (v : fvals) : res fvals :=
  if negb (String.eqb unit "ev") then Raise NotImplementedError
  else do inv <- f_safe_inverse v; Ok (fmap (fun x => np_round 9 (fmul f_hce x)) inv).
(** spectrum.py:132-138 *)
Definition f_to_ang_freq (unit : string) (v : fvals) : res fvals :=
  if negb (String.eqb unit "1/s") then Raise NotImplementedError
  else do inv <- f_safe_inverse v; Ok (fmap (fmul f_2pic) inv).
(** spectrum.py:140-146 *)
Definition f_to_wavenumber (unit : string) (v : fvals) : res fvals :=
  if negb (String.eqb unit "1/cm") then Raise NotImplementedError
  else do inv <- f_safe_inverse (fmap (fun x => fmul x (lit_neg 2)) v); Ok (fmap (fmul f_2pi) inv).

Record fspectrum := mkFsp { fp_type : string; fp_unit : string; fp_values : fvals; fp_std : fvals }.

(** spectrum.py:280-295 convert_from, with 270-278 standardise_values *)
Definition f_standardise (stype unit : string) (v : fvals) : res fvals :=
  if String.eqb stype "wavelength" && String.eqb unit "m" then Ok v
  else if negb (dhas SPECTRUM_TYPES stype) then Raise ValueError
  else if String.eqb stype "frequency" then f_frequency_to_standard unit v
  else if String.eqb stype "energy" then f_energy_to_standard unit v
  else if String.eqb stype "angularfrequency" then f_ang_freq_to_standard unit v
  else if String.eqb stype "wavenumber" then f_wavenumber_to_standard unit v
  else if String.eqb stype "wavelength" then f_wavelength_to_standard unit v
  else Raise KeyError.
(** spectrum.py:308-314 the dispatch of convert_to *)
Definition f_to_dispatch (stype unit : string) (v : fvals) : res fvals :=
  if String.eqb stype "frequency" then f_to_frequency unit v
  else if String.eqb stype "energy" then f_to_energy unit v
  else if String.eqb stype "angularfrequency" then f_to_ang_freq unit v
  else if String.eqb stype "wavenumber" then f_to_wavenumber unit v
  else if String.eqb stype "wavelength" then f_to_wavelength unit v
  else Raise KeyError.
(** spectrum.py:179-195 __init__ (values that are a float or an array) *)
Definition f_spectrum (v : fvals) (spectrum_type unit : string) : res fspectrum :=
  let stype := lower spectrum_type in
  if negb (dhas SPECTRUM_TYPES stype) then Raise ValueError
  else do u <- standardise_unit stype (lower unit);
       do std <- f_standardise stype u v; Ok (mkFsp stype u v std).
(** spectrum.py:297-321 convert_to with in_place=False *)
Definition f_convert_to (s : fspectrum) (spectrum_type unit : string) : res fvals :=
  let stype := lower spectrum_type in
  if negb (dhas SPECTRUM_TYPES stype) then Raise ValueError
  else do u <- standardise_unit stype unit; f_to_dispatch stype u (fp_std s).

(** np.min, np.max: NaN if there is one, ValueError for an empty array *)
Definition f_min2 (a b : float) : float := if is_nan a then a else if is_nan b then b else if flt b a then b else a.
Definition f_max2 (a b : float) : float := if is_nan a then a else if is_nan b then b else if flt a b then b else a.
Definition f_reduce (f : float -> float -> float) (l : list float) : res float :=
  match l with [] => Raise ValueError | x :: r => Ok (fold_left f r x) end.
(** spectrum.py:221-245 contains *)
Definition f_contains (self other : fspectrum) : res bool :=
  do ov <- f_convert_to other (fp_type self) (fp_unit self);
  do other_min <- f_reduce f_min2 (felems ov);
  do other_max <- f_reduce f_max2 (felems ov);
  do self_min <- f_reduce f_min2 (felems (fp_values self));
  do self_max <- f_reduce f_max2 (felems (fp_values self));
  if flt other_min self_min || flt self_max other_max then
    do_ display_string (fp_unit self); Raise ValueError
  else Ok true.
