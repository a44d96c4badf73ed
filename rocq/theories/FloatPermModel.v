(** get_permittivity of an n/k material in binary64 arithmetic, on top of FloatTableModel.v *)
From Coq Require Import Reals.
From Flocq Require Import Core BinarySingleNaN.
From Verif Require Import PyBase PyStr SpectrumModel FloatModel FloatTableModel.
Open Scope string_scope.
Open Scope list_scope.

(** np.power(z, 2) of a complex number: numpy computes integer powers by multiplication, the square as
    the product (ar*br - ai*bi, ar*bi + ai*br) with itself *)
Definition f_csquare (z : float * float) : float * float :=
  (fsub (fmul (fst z) (fst z)) (fmul (snd z) (snd z)), fadd (fmul (fst z) (snd z)) (fmul (snd z) (fst z))).
Definition f_square_vals (v : fcvals) : fcvals := match v with FCS z => FCS (f_csquare z) | FCA l => FCA (map f_csquare l) end.

Section Library.
Variable lib : list (float * float) -> float -> float.
(** material.py:644-664 get_permittivity of a material with name 'nk' and separate real and imaginary
    data, given numbers *)
Definition f_get_permittivity (real imag : fdata) (v : fvals) (type unit : string) : res fcvals :=
  do s <- f_spectrum v type unit;
  do re <- f_evaluate lib real s;
  do im <- f_evaluate lib imag s;
  Ok (f_square_vals (f_combine re im)).
End Library.
