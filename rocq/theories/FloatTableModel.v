(** Tabulated and constant spectral data and get_nk_data in binary64 arithmetic (SpectralModel.v and
    MaterialModel.v compute with exact real numbers), on top of FloatModel.v.
    The value that scipy computes between two rows is an argument: [lib rows x]. *)
From Coq Require Import Reals.
From Flocq Require Import Core BinarySingleNaN.
From Verif Require Import PyBase PyStr SpectrumModel FloatModel.
Open Scope string_scope.
Open Scope list_scope.

Definition fadd : float -> float -> float := @Bplus 53 1024 prec53 emax1024 mode_NE.
Definition fsub : float -> float -> float := @Bminus 53 1024 prec53 emax1024 mode_NE.

(** spectral_data.py:85-94 Constant, 199-216 Interpolation: type and unit as given by the caller,
    the valid range, and the constant or the two columns *)
Inductive fdata :=
| FConst (type unit : string) (range : fspectrum) (c : float)
| FTable (type unit : string) (range : fspectrum) (rows : list (float * float)).

(** interp1d (spectral_data.py:213-216): fewer than two rows or two equal abscissae raise ValueError
    (as in SpectralModel.interp1d_check) *)
Fixpoint f_dup (l : list float) : bool :=
  match l with [] => false | x :: r => existsb (feq x) r || f_dup r end.
Definition f_interp1d_check (rows : list (float * float)) : res unit :=
  if (length rows <? 2)%nat then Raise ValueError
  else if f_dup (map fst rows) then Raise ValueError else Ok tt.

(** spectral_data.py:202-216 Interpolation.__init__, interpolate_data *)
Definition f_table (rows : list (float * float)) (type unit : string) : res fdata :=
  do mn <- f_reduce f_min2 (map fst rows);
  do mx <- f_reduce f_max2 (map fst rows);
  do r <- f_spectrum (FA [mn; mx]) type unit;
  do_ f_interp1d_check rows;
  Ok (FTable type unit r rows).

(** spectral_data.py:88-94 Constant.__init__ with its default range (0, np.inf) in metres *)
Definition f_constant (c : float) : res fdata :=
  do r <- f_spectrum (FA [of_Z 0; finf]) "wavelength" "m"; Ok (FConst "wavelength" "m" r c).

Section Library.
Variable lib : list (float * float) -> float -> float.

(** interp1d.__call__ at one number: outside of the rows ValueError (bounds_error), else the value
    scipy computes *)
Definition f_point (rows : list (float * float)) (x : float) : res float :=
  do mn <- f_reduce f_min2 (map fst rows);
  do mx <- f_reduce f_max2 (map fst rows);
  if flt x mn || flt mx x then Raise ValueError else Ok (lib rows x).
Fixpoint f_points (rows : list (float * float)) (l : list float) : res (list float) :=
  match l with [] => Ok [] | x :: r => do y <- f_point rows x; do ys <- f_points rows r; Ok (y :: ys) end.

(** spectral_data.py:96-101 Constant.evaluate, 218-223 Interpolation.evaluate *)
Definition f_evaluate (d : fdata) (s : fspectrum) : res fvals :=
  match d with
  | FConst _ _ r c =>
      do_ f_contains r s;
      match fp_values s with
      | FS _ => Ok (FS c)
      | v => Ok (FA (map (fun _ => fmul c (of_Z 1)) (felems v)))
      end
  | FTable type unit r rows =>
      do_ f_contains r s;
      do v <- f_convert_to s type unit;
      match v with
      | FS x => do y <- f_point rows x; Ok (FS y)
      | _ => do ys <- f_points rows (felems v); Ok (FA ys)
      end
  end.

(** ** material.py:573-618 get_nk_data of a material with name 'nk' and separate real and imaginary data *)
(** complex numbers: (real part, imaginary part); 1j*x is the product (0+1j)*(x+0j) *)
Definition f_imaginary (x : float) : float * float :=
  (fsub (fmul (of_Z 0) x) (fmul (of_Z 1) (of_Z 0)), fadd (fmul (of_Z 0) (of_Z 0)) (fmul (of_Z 1) x)).
(** real + imag: the sum of (r+0j) and a complex number *)
Definition f_complex (r i : float) : float * float :=
  let z := f_imaginary i in (fadd r (fst z), fadd (of_Z 0) (snd z)).
Inductive fcvals := FCS (z : float * float) | FCA (l : list (float * float)).
Definition f_combine (re im : fvals) : fcvals :=
  match re, im with
  | FS r, FS i => FCS (f_complex r i)
  | _, _ => FCA (map (fun p => f_complex (fst p) (snd p)) (combine (felems re) (felems im)))
  end.
Definition f_get_nk (real imag : fdata) (v : fvals) (type unit : string) : res fcvals :=
  do s <- f_spectrum v type unit;
  do re <- f_evaluate real s;
  do im <- f_evaluate imag s;
  Ok (f_combine re im).
End Library.
