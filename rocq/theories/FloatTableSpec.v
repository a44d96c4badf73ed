(** Specification vocabulary for tables in double precision *)
From Coq Require Import List Reals ZArith.
From Flocq Require Import Core BinarySingleNaN.
From Verif Require Import FloatSpec.
Import ListNotations.
Open Scope R_scope.

(** a two-column table whose first column is written with [decimals] decimals: row i has the abscissa
    ks_i / 10^decimals; the abscissae are positive, at most K / 10^decimals, and differ *)
Definition decimal_table (decimals : nat) (K : Z) (ks : list Z) (rows : list (binary_float 53 1024 * binary_float 53 1024)) : Prop :=
  Forall2 (fun k row => (0 < k <= K)%Z /\ written (IZR k / 10 ^ decimals) (fst row)) ks rows /\
  NoDup ks /\ (2 <= length ks)%nat.

(** the interpolation routine gives back the second column at the numbers of the first *)
Definition exact_at_rows (lib : list (binary_float 53 1024 * binary_float 53 1024) -> binary_float 53 1024 -> binary_float 53 1024)
    (rows : list (binary_float 53 1024 * binary_float 53 1024)) : Prop :=
  forall x y, In (x, y) rows -> lib rows x = y.
