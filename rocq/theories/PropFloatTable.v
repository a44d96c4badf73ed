(** C98: tables in double precision *)
From Coq Require Import Reals Lra Lia ZArith.
From Flocq Require Import Core BinarySingleNaN.
From Verif Require Import PyBase PyStr XReal SpectrumModel SpectrumSpec FloatModel FloatSpec FloatTableModel FloatTableSpec FloatProofs FloatConvProofs FloatRangeProofs FloatCheckProofs FloatTableProofs FloatThms.
From Verif Require Import FloatTableThms.
Open Scope R_scope. Open Scope string_scope. Open Scope list_scope.

(** C98: asked for one of its own numbers, a table answers with the value of that row *)
Theorem C98_own_points : forall lib type unit decimals K ks (rows : list (float * float)),
  In (type, unit, decimals, K) safe_decimals -> decimal_table decimals K ks rows -> exact_at_rows lib rows ->
  exists table, f_table rows type unit = Ok table /\
    forall x y, In (x, y) rows -> exists s, f_spectrum (FS x) type unit = Ok s /\ f_evaluate lib table s = Ok (FS y).
Proof. exact C98_own_points_l. Qed.
Print Assumptions C98_own_points.

(** C98: any other number written in the unit of the table: between the smallest and the largest
    abscissa the interpolation routine is asked for exactly that number, outside the request is refused *)
Theorem C98_between : forall lib type unit decimals K ks rows table k f,
  In (type, unit, decimals, K) safe_decimals -> decimal_table decimals K ks rows -> f_table rows type unit = Ok table ->
  (0 < k <= K)%Z -> written (IZR k / 10 ^ decimals) f ->
  exists s, f_spectrum (FS f) type unit = Ok s /\
   ((exists a, In a ks /\ (a <= k)%Z) /\ (exists b, In b ks /\ (k <= b)%Z) -> f_evaluate lib table s = Ok (FS (lib rows f))) /\
   (~ ((exists a, In a ks /\ (a <= k)%Z) /\ (exists b, In b ks /\ (k <= b)%Z)) ->
      f_evaluate lib table s = Raise (if String.eqb unit "cm" then KeyError else ValueError)).
Proof. exact C98_between_l. Qed.
Print Assumptions C98_between.

(** C98: the same for an array of wavelengths of the table, in any order and with repetitions *)
Theorem C98_arrays : forall lib unit decimals K ks (rows : list (float * float)) table,
  In ("wavelength", unit, decimals, K) safe_decimals -> decimal_table decimals K ks rows -> exact_at_rows lib rows ->
  f_table rows "wavelength" unit = Ok table ->
  forall chosen : list (float * float), chosen <> [] -> incl chosen rows ->
    exists s, f_spectrum (FA (map fst chosen)) "wavelength" unit = Ok s /\ f_evaluate lib table s = Ok (FA (map snd chosen)).
Proof. exact C98_arrays_l. Qed.
Print Assumptions C98_arrays.

(** C98: in metres nothing is converted, and no restriction on the abscissae is needed *)
Theorem C98_metres : forall lib (rows : list (float * float)),
  (2 <= length rows)%nat -> (forall x y, In (x, y) rows -> is_finite x = true) -> NoDup (map (fun r => B2R (fst r)) rows) -> exact_at_rows lib rows ->
  exists table, f_table rows "wavelength" "m" = Ok table /\
    (forall x y, In (x, y) rows -> exists s, f_spectrum (FS x) "wavelength" "m" = Ok s /\ f_evaluate lib table s = Ok (FS y)) /\
    (forall chosen : list (float * float), chosen <> [] -> incl chosen rows ->
       exists s, f_spectrum (FA (map fst chosen)) "wavelength" "m" = Ok s /\ f_evaluate lib table s = Ok (FA (map snd chosen))).
Proof. exact C98_metres_l. Qed.
Print Assumptions C98_metres.

(** C98: get_nk_data of a material with tables of n and k in the same unit returns, at a number that is
    tabulated in both, exactly the two tabulated numbers *)
Theorem C98_nk : forall lib type unit decimals K ks js n_rows k_rows,
  In (type, unit, decimals, K) safe_decimals -> decimal_table decimals K ks n_rows -> decimal_table decimals K js k_rows ->
  exact_at_rows lib n_rows -> exact_at_rows lib k_rows ->
  exists real imag, f_table n_rows type unit = Ok real /\ f_table k_rows type unit = Ok imag /\
    forall x n k, In (x, n) n_rows -> In (x, k) k_rows -> is_finite n = true -> is_finite k = true ->
      exists z, f_get_nk lib real imag (FS x) type unit = Ok (FCS z) /\ exactly (B2R n) (fst z) /\ exactly (B2R k) (snd z).
Proof. exact C98_nk_l. Qed.
Print Assumptions C98_nk.

(** C98: arrays of wavelengths of a table with columns n and k *)
Theorem C98_nk_arrays : forall lib unit decimals K ks (rows : list (float * float * float)),
  In ("wavelength", unit, decimals, K) safe_decimals ->
  decimal_table decimals K ks (map (fun r => (fst (fst r), snd (fst r))) rows) ->
  exact_at_rows lib (map (fun r => (fst (fst r), snd (fst r))) rows) -> exact_at_rows lib (map (fun r => (fst (fst r), snd r)) rows) ->
  exists real imag, f_table (map (fun r => (fst (fst r), snd (fst r))) rows) "wavelength" unit = Ok real /\
    f_table (map (fun r => (fst (fst r), snd r)) rows) "wavelength" unit = Ok imag /\
    forall chosen : list (float * float * float), chosen <> [] -> incl chosen rows -> (forall x n k, In (x, n, k) chosen -> is_finite n = true /\ is_finite k = true) ->
      exists zs, f_get_nk lib real imag (FA (map (fun r => fst (fst r)) chosen)) "wavelength" unit = Ok (FCA zs) /\
        Forall2 (fun r z => exactly (B2R (snd (fst r))) (fst z) /\ exactly (B2R (snd r)) (snd z)) chosen zs.
Proof. exact C98_nk_arrays_l. Qed.
Print Assumptions C98_nk_arrays.

(** C98: a material with a table of n only (k is the constant 0 with its default range) *)
Theorem C98_n_only : forall lib type unit decimals K ks (rows : list (float * float)) c,
  In (type, unit, decimals, K) safe_decimals -> decimal_table decimals K ks rows -> exact_at_rows lib rows -> is_finite c = true ->
  exists real imag, f_table rows type unit = Ok real /\ f_constant c = Ok imag /\
    (forall x n, In (x, n) rows -> is_finite n = true ->
      exists z, f_get_nk lib real imag (FS x) type unit = Ok (FCS z) /\ exactly (B2R n) (fst z) /\ exactly (B2R c) (snd z)) /\
    (forall chosen : list (float * float), type = "wavelength" -> chosen <> [] -> incl chosen rows -> (forall x n, In (x, n) chosen -> is_finite n = true) ->
      exists zs, f_get_nk lib real imag (FA (map fst chosen)) type unit = Ok (FCA zs) /\
        Forall2 (fun r z => exactly (B2R (snd r)) (fst z) /\ exactly (B2R c) (snd z)) chosen zs).
Proof. exact C98_n_only_l. Qed.
Print Assumptions C98_n_only.

(** C98: outside of the safe numbers this fails. A table that ends at 2049.3 nm, at 300.6 angstrom or at
    27 THz refuses its own last abscissa, whatever the values and the interpolation routine *)
Theorem C98_last_refuted : forall lib type unit m n b y1 y2,
  In (type, unit, m, n, b) [("wavelength", "nm", 400, 20493, 10); ("wavelength", "a", 100, 3006, 10); ("frequency", "hz", 10 ^ 12, 27 * 10 ^ 12, 1)]%Z ->
  exists lo hi table s, written (IZR m) lo /\ written (IZR n / IZR b) hi /\
    f_table [(lo, y1); (hi, y2)] type unit = Ok table /\ f_spectrum (FS hi) type unit = Ok s /\ f_evaluate lib table s = Raise ValueError.
Proof. exact C98_last_refuted_l. Qed.
Print Assumptions C98_last_refuted.

(** C98: inside of a table the routine is then asked for a neighbouring number instead of the row's own *)
Theorem C98_inner_refuted : forall lib y1 y2 y3,
  exists lo x hi g table s, written 400 lo /\ written (20493 / 10) x /\ written 3000 hi /\
    f_table [(lo, y1); (x, y2); (hi, y3)] "wavelength" "nm" = Ok table /\ f_spectrum (FS x) "wavelength" "nm" = Ok s /\
    f_evaluate lib table s = Ok (FS (lib [(lo, y1); (x, y2); (hi, y3)] g)) /\ B2R x < B2R g.
Proof. exact C98_inner_refuted_l. Qed.
Print Assumptions C98_inner_refuted.

(** a routine that looks the abscissa up (scipy's order-1 spline is exact at its knots), and a table of
    400, 546.074 and 800.5 nm with columns n and k: C98_nk applies to it *)
Definition look_up (rows : list (float * float)) (x : float) : float :=
  match find (fun r => feq (fst r) x) rows with Some r => snd r | None => of_Z 0 end.
Definition three_rows (y1 y2 y3 : float) : list (float * float) :=
  [(of_Z 400, y1); (fdiv (of_Z 546074) (of_Z 1000), y2); (fdiv (of_Z 8005) (of_Z 10), y3)].
Lemma three_exact : forall y1 y2 y3, exact_at_rows look_up (three_rows y1 y2 y3).
Proof.
  intros y1 y2 y3 x y [E|[E|[E|[]]]]; pose proof (f_equal fst E) as E1; pose proof (f_equal snd E) as E2; cbn [fst snd] in E1, E2; rewrite <- E1, <- E2; clear E E1 E2; unfold look_up, three_rows; cbn [find fst snd].
  - replace (feq (of_Z 400) (of_Z 400)) with true by (vm_compute; reflexivity). reflexivity.
  - replace (feq (of_Z 400) (fdiv (of_Z 546074) (of_Z 1000))) with false by (vm_compute; reflexivity).
    replace (feq (fdiv (of_Z 546074) (of_Z 1000)) (fdiv (of_Z 546074) (of_Z 1000))) with true by (vm_compute; reflexivity). reflexivity.
  - replace (feq (of_Z 400) (fdiv (of_Z 8005) (of_Z 10))) with false by (vm_compute; reflexivity).
    replace (feq (fdiv (of_Z 546074) (of_Z 1000)) (fdiv (of_Z 8005) (of_Z 10))) with false by (vm_compute; reflexivity).
    replace (feq (fdiv (of_Z 8005) (of_Z 10)) (fdiv (of_Z 8005) (of_Z 10))) with true by (vm_compute; reflexivity). reflexivity.
Qed.
Lemma three_decimal : forall y1 y2 y3, decimal_table 12 (9 * 10 ^ 14) [400 * 10 ^ 12; 546074 * 10 ^ 9; 8005 * 10 ^ 11]%Z (three_rows y1 y2 y3).
Proof.
  intros y1 y2 y3. split; [|split].
  - constructor; [|constructor; [|constructor; [|constructor]]]; (split; [vm_compute; intuition congruence|]); cbn [fst].
    + replace (IZR (400 * 10 ^ 12) / 10 ^ 12) with 400 by (simpl; lra). apply (written_integer 400). vm_compute. intuition congruence.
    + replace (IZR (546074 * 10 ^ 9) / 10 ^ 12) with (546074 / 1000) by (simpl; lra). apply (written_quotient 546074 1000); vm_compute; intuition congruence.
    + replace (IZR (8005 * 10 ^ 11) / 10 ^ 12) with (8005 / 10) by (simpl; lra). apply (written_quotient 8005 10); vm_compute; intuition congruence.
  - repeat constructor; cbn [In]; vm_compute; intuition congruence.
  - cbn. lia.
Qed.
Example C98_instance : exists real imag,
  f_table (three_rows (of_Z 1) (of_Z 2) (of_Z 3)) "wavelength" "nm" = Ok real /\
  f_table (three_rows (of_Z 4) (of_Z 5) (of_Z 6)) "wavelength" "nm" = Ok imag /\
  exists z, f_get_nk look_up real imag (FS (fdiv (of_Z 8005) (of_Z 10))) "wavelength" "nm" = Ok (FCS z) /\ exactly 3 (fst z) /\ exactly 6 (snd z).
Proof.
  destruct (C98_nk look_up "wavelength" "nm" 12 (9 * 10 ^ 14) _ _ _ _ (or_introl eq_refl)
     (three_decimal (of_Z 1) (of_Z 2) (of_Z 3)) (three_decimal (of_Z 4) (of_Z 5) (of_Z 6)) (three_exact _ _ _) (three_exact _ _ _)) as (real & imag & E1 & E2 & P).
  exists real, imag. split; [exact E1|]. split; [exact E2|].
  destruct (of_Z_ok 3) as [A A']; [vm_compute; congruence|]. destruct (of_Z_ok 6) as [B B']; [vm_compute; congruence|].
  destruct (P _ _ _ (or_intror (or_intror (or_introl eq_refl))) (or_intror (or_intror (or_introl eq_refl))) A' B') as (z & E & F & G).
  exists z. split; [exact E|]. rewrite A in F. rewrite B in G. split; assumption.
Qed.
(** the array (800.5, 400, 800.5) nm of that table, with k = 0 *)
Example C98_arrays_instance : exists real imag zs,
  f_table (three_rows (of_Z 1) (of_Z 2) (of_Z 3)) "wavelength" "nm" = Ok real /\ f_constant (of_Z 0) = Ok imag /\
  f_get_nk look_up real imag (FA [fdiv (of_Z 8005) (of_Z 10); of_Z 400; fdiv (of_Z 8005) (of_Z 10)]) "wavelength" "nm" = Ok (FCA zs) /\ length zs = 3%nat.
Proof.
  destruct (of_Z_ok 0) as [_ A']; [vm_compute; congruence|].
  destruct (C98_n_only look_up "wavelength" "nm" 12 (9 * 10 ^ 14) _ _ (of_Z 0) (or_introl eq_refl) (three_decimal (of_Z 1) (of_Z 2) (of_Z 3)) (three_exact _ _ _) A') as (real & imag & E1 & E2 & _ & P).
  destruct (P [(fdiv (of_Z 8005) (of_Z 10), of_Z 3); (of_Z 400, of_Z 1); (fdiv (of_Z 8005) (of_Z 10), of_Z 3)] eq_refl) as (zs & E & F).
  - discriminate.
  - intros r [<-|[<-|[<-|[]]]]; unfold three_rows; cbn [In]; tauto.
  - intros x n [Q|[Q|[Q|[]]]]; apply (f_equal snd) in Q; cbn [snd] in Q; rewrite <- Q; apply of_Z_ok; vm_compute; congruence.
  - exists real, imag, zs. split; [exact E1|]. split; [exact E2|]. split; [exact E|].
    inversion F as [|? ? ? ? _ F1]; subst. inversion F1 as [|? ? ? ? _ F2]; subst. inversion F2 as [|? ? ? ? _ F3]; subst. inversion F3; subst. reflexivity.
Qed.
