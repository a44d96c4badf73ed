(** The linear effective medium (material.py:909-946) in binary64 arithmetic (EffectiveModel.v computes with
    exact numbers), on top of FloatTableModel.v. What get_permittivity of the two constituents
    returns is an argument. Not modelled: what is left of the spectrum object after an error. *)
From Coq Require Import Reals.
From Flocq Require Import Core BinarySingleNaN.
From Verif Require Import PyBase PyStr SpectrumModel FloatModel FloatTableModel.
Open Scope string_scope.
Open Scope list_scope.

(** numpy's product of a complex number and a float: the product with x+0j *)
Definition f_cscale (z : float * float) (x : float) : float * float :=
  (fsub (fmul (fst z) x) (fmul (snd z) (of_Z 0)), fadd (fmul (fst z) (of_Z 0)) (fmul (snd z) x)).
(** the sum of two complex numbers *)
Definition f_cadd (z w : float * float) : float * float := (fadd (fst z) (fst w), fadd (snd z) (snd w)).
(** material.py:941, one sample: eps_base*(1-frac) + eps_incl*frac *)
Definition f_simple_mix (f : float) (z w : float * float) : float * float :=
  f_cadd (f_cscale z (fsub (of_Z 1) f)) (f_cscale w f).
(** the same for arrays; numpy raises ValueError for arrays of different lengths (broadcasting of
    arrays of length one is left out: both come from the same spectrum) *)
Definition f_simple_vals (f : float) (e1 e2 : fcvals) : res (list (float * float)) :=
  match e1, e2 with
  | FCS z, FCS w => Ok [f_simple_mix f z w]
  | FCA l, FCA m => if Nat.eqb (length l) (length m) then Ok (map (fun p => f_simple_mix f (fst p) (snd p)) (combine l m)) else Raise ValueError
  | FCS z, FCA m => Ok (map (f_simple_mix f z) m)
  | FCA l, FCS w => Ok (map (fun z => f_simple_mix f z w) l)
  end.

(** material.py:494-519 _spec_data_from_table on a table with two columns *)
Definition f_spec_data (rows : list (float * float)) (type unit : string) : res fdata :=
  match rows with
  | [(x, y)] => do r <- f_spectrum (FA [x; x]) type unit; Ok (FConst type unit r y)
  | _ => f_table rows type unit
  end.

Section Library.
Variable lib : list (float * float) -> float -> float.

(** material.py:620-664 get_permittivity of a material with name 'eps' and separate real and
    imaginary data, given a Spectrum *)
Definition f_get_eps (m : fdata * fdata) (s : fspectrum) : res fcvals :=
  do re <- f_evaluate lib (fst m) s;
  do im <- f_evaluate lib (snd m) s;
  Ok (f_combine re im).
End Library.

(** material.py:911-927 __init__ and 938-946 create_effective_data of Simple, with the 'eps' branch of
    _process_table (453-491) for the defaults wavelength and m: the data of the medium, and the
    caller's spectrum afterwards (spectrum.py:315-319) *)
Definition f_simple (p1 p2 : fspectrum -> res fcvals) (s : fspectrum) (frac : float) : res ((fdata * fdata) * fspectrum) :=
  if flt frac (of_Z 0) || flt (of_Z 1) frac then Raise ValueError
  else
    do e1 <- p1 s;
    do e2 <- p2 s;
    do e <- f_simple_vals frac e1 e2;
    do v <- f_convert_to s "wavelength" "m";
    let s' := mkFsp "wavelength" "m" v (fp_std s) in
    do_ (if Nat.eqb (length (felems v)) (length e) then Ok tt else Raise ValueError);
    do a <- f_spec_data (combine (felems v) (map fst e)) "wavelength" "m";
    do b <- f_spec_data (combine (felems v) (map snd e)) "wavelength" "m";
    Ok ((a, b), s').
