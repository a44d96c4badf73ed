(** C105: the permittivity in double precision *)
From Coq Require Import Reals Lra Lia ZArith.
From Flocq Require Import Core BinarySingleNaN.
From Verif Require Import PyBase PyStr XReal SpectrumModel SpectrumSpec FloatModel FloatSpec FloatTableModel FloatTableSpec FloatProofs FloatCheckProofs FloatTableProofs FloatThms FloatTableThms FloatMixProofs FloatPermModel FloatPermSpec FloatPermProofs.
From Verif Require Import FloatPermThms.
Open Scope R_scope. Open Scope string_scope. Open Scope list_scope.

(** C105: for every request that get_nk_data answers, get_permittivity answers with the squares, number by
    number, up to the errors of [square_of] *)
Theorem C105_square : forall lib real imag v type unit,
  (forall z, f_get_nk lib real imag v type unit = Ok (FCS z) -> squarable z ->
     exists e, f_get_permittivity lib real imag v type unit = Ok (FCS e) /\ square_of z e) /\
  (forall zs, f_get_nk lib real imag v type unit = Ok (FCA zs) -> Forall squarable zs ->
     exists es, f_get_permittivity lib real imag v type unit = Ok (FCA es) /\ Forall2 square_of zs es).
Proof. exact C105_square_l. Qed.
Print Assumptions C105_square.

(** C105: the two methods refuse the same requests with the same error *)
Theorem C105_errors : forall lib real imag v type unit e,
  f_get_permittivity lib real imag v type unit = Raise e <-> f_get_nk lib real imag v type unit = Raise e.
Proof. exact C105_errors_l. Qed.
Print Assumptions C105_errors.

(** C105: without absorption the permittivity is the double next to n^2, with imaginary part exactly 0;
    with absorption and n >= 0 the imaginary part is never negative *)
Theorem C105_passive : forall lib real imag v type unit,
  let passive := fun (z e : float * float) =>
    (B2R (snd z) = 0 -> B2R (fst e) = nearest_double (B2R (fst z) * B2R (fst z)) /\ B2R (snd e) = 0) /\
    (0 <= B2R (fst z) -> 0 <= B2R (snd z) -> 0 <= B2R (snd e)) in
  (forall z, f_get_nk lib real imag v type unit = Ok (FCS z) -> squarable z ->
     exists e, f_get_permittivity lib real imag v type unit = Ok (FCS e) /\ passive z e) /\
  (forall zs, f_get_nk lib real imag v type unit = Ok (FCA zs) -> Forall squarable zs ->
     exists es, f_get_permittivity lib real imag v type unit = Ok (FCA es) /\ Forall2 passive zs es).
Proof. exact C105_passive_l. Qed.
Print Assumptions C105_passive.

(** C105: a material with tables of n and k: at a wavelength that is tabulated in both, get_permittivity gives the
    square of the tabulated refractive index *)
Theorem C105_tables : forall lib type unit decimals K ks js n_rows k_rows,
  In (type, unit, decimals, K) safe_decimals -> decimal_table decimals K ks n_rows -> decimal_table decimals K js k_rows ->
  exact_at_rows lib n_rows -> exact_at_rows lib k_rows ->
  exists real imag, f_table n_rows type unit = Ok real /\ f_table k_rows type unit = Ok imag /\
    forall x n k, In (x, n) n_rows -> In (x, k) k_rows -> squarable (n, k) ->
      exists e, f_get_permittivity lib real imag (FS x) type unit = Ok (FCS e) /\ square_of (n, k) e.
Proof. exact C105_tables_l. Qed.
Print Assumptions C105_tables.

(** C105: the same for an array of tabulated wavelengths of a table with columns n and k *)
Theorem C105_tables_arrays : forall lib unit decimals K ks (rows : list (float * float * float)),
  In ("wavelength", unit, decimals, K) safe_decimals ->
  decimal_table decimals K ks (map (fun r => (fst (fst r), snd (fst r))) rows) ->
  exact_at_rows lib (map (fun r => (fst (fst r), snd (fst r))) rows) -> exact_at_rows lib (map (fun r => (fst (fst r), snd r)) rows) ->
  exists real imag, f_table (map (fun r => (fst (fst r), snd (fst r))) rows) "wavelength" unit = Ok real /\
    f_table (map (fun r => (fst (fst r), snd r)) rows) "wavelength" unit = Ok imag /\
    forall chosen : list (float * float * float), chosen <> [] -> incl chosen rows -> (forall x n k, In (x, n, k) chosen -> squarable (n, k)) ->
      exists es, f_get_permittivity lib real imag (FA (map (fun r => fst (fst r)) chosen)) "wavelength" unit = Ok (FCA es) /\
        Forall2 (fun r e => square_of (snd (fst r), snd r) e) chosen es.
Proof. exact C105_tables_arrays_l. Qed.
Print Assumptions C105_tables_arrays.

(** C105: the error bound of the real part cannot be relative to n^2 - k^2: there are n and k below 2 whose
    permittivity gets a real part that is wrong by 49 percent *)
Theorem C105_relative_refuted : forall lib, exists n k real imag e,
  is_finite n = true /\ is_finite k = true /\ 1 < B2R k < B2R n /\ B2R n < 2 /\ f_constant n = Ok real /\ f_constant k = Ok imag /\
  f_get_permittivity lib real imag (FS (of_Z 500)) "wavelength" "nm" = Ok (FCS e) /\
  let exact := B2R n * B2R n - B2R k * B2R k in 0 < exact /\ Rabs (B2R (fst e) - exact) > 49 / 100 * exact.
Proof. exact C105_relative_refuted_l. Qed.
Print Assumptions C105_relative_refuted.

(** a routine that looks the abscissa up, and a table of 400, 546.074 and 800.5 nm *)
Definition look_up (rows : list (float * float)) (x : float) : float :=
  match find (fun r => feq (fst r) x) rows with Some r => snd r | None => of_Z 0 end.
Definition three_rows (y1 y2 y3 : float) : list (float * float) :=
  [(of_Z 400, y1); (fdiv (of_Z 546074) (of_Z 1000), y2); (fdiv (of_Z 8005) (of_Z 10), y3)].
Lemma three_exact : forall y1 y2 y3, exact_at_rows look_up (three_rows y1 y2 y3).
Proof.
  intros y1 y2 y3 x y [E|[E|[E|[]]]]; pose proof (f_equal fst E) as E1; pose proof (f_equal snd E) as E2; cbn [fst snd] in E1, E2; rewrite <- E1, <- E2; clear E E1 E2; unfold look_up, three_rows; cbn [find fst snd].
  - replace (feq (of_Z 400) (of_Z 400)) with true by (vm_compute; reflexivity). reflexivity.
  - replace (feq (of_Z 400) (fdiv (of_Z 546074) (of_Z 1000))) with false by (vm_compute; reflexivity).
    replace (feq (fdiv (of_Z 546074) (of_Z 1000)) (fdiv (of_Z 546074) (of_Z 1000))) with true by (vm_compute; reflexivity). reflexivity.
  - replace (feq (of_Z 400) (fdiv (of_Z 8005) (of_Z 10))) with false by (vm_compute; reflexivity).
    replace (feq (fdiv (of_Z 546074) (of_Z 1000)) (fdiv (of_Z 8005) (of_Z 10))) with false by (vm_compute; reflexivity).
    replace (feq (fdiv (of_Z 8005) (of_Z 10)) (fdiv (of_Z 8005) (of_Z 10))) with true by (vm_compute; reflexivity). reflexivity.
Qed.
Lemma three_decimal : forall y1 y2 y3, decimal_table 12 (9 * 10 ^ 14) [400 * 10 ^ 12; 546074 * 10 ^ 9; 8005 * 10 ^ 11]%Z (three_rows y1 y2 y3).
Proof.
  intros y1 y2 y3. split; [|split].
  - constructor; [|constructor; [|constructor; [|constructor]]]; (split; [vm_compute; intuition congruence|]); cbn [fst].
    + replace (IZR (400 * 10 ^ 12) / 10 ^ 12) with 400 by (simpl; lra). apply (written_integer 400). vm_compute. intuition congruence.
    + replace (IZR (546074 * 10 ^ 9) / 10 ^ 12) with (546074 / 1000) by (simpl; lra). apply (written_quotient 546074 1000); vm_compute; intuition congruence.
    + replace (IZR (8005 * 10 ^ 11) / 10 ^ 12) with (8005 / 10) by (simpl; lra). apply (written_quotient 8005 10); vm_compute; intuition congruence.
  - repeat constructor; cbn [In]; vm_compute; intuition congruence.
  - cbn. lia.
Qed.
(** n = 3 and k = 6 at 800.5 nm *)
Example C105_instance : exists real imag e,
  f_table (three_rows (of_Z 1) (of_Z 2) (of_Z 3)) "wavelength" "nm" = Ok real /\
  f_table (three_rows (of_Z 4) (of_Z 5) (of_Z 6)) "wavelength" "nm" = Ok imag /\
  f_get_permittivity look_up real imag (FS (fdiv (of_Z 8005) (of_Z 10))) "wavelength" "nm" = Ok (FCS e) /\ square_of (of_Z 3, of_Z 6) e.
Proof.
  destruct (C105_tables look_up "wavelength" "nm" 12 (9 * 10 ^ 14) _ _ _ _ (or_introl eq_refl)
     (three_decimal (of_Z 1) (of_Z 2) (of_Z 3)) (three_decimal (of_Z 4) (of_Z 5) (of_Z 6)) (three_exact _ _ _) (three_exact _ _ _)) as (real & imag & E1 & E2 & P).
  exists real, imag.
  destruct (of_Z_ok 3) as [A A']; [vm_compute; congruence|]. destruct (of_Z_ok 6) as [B B']; [vm_compute; congruence|].
  assert (forall v, 0 <= v <= 6 -> Rabs v <= 2 ^ 500) as Sm.
  { intros v V. assert (1 <= 2 ^ 490) by (apply pow_R1_Rle; lra). assert (2 ^ 500 = 2 ^ 490 * 1024) as -> by (replace 500%nat with (490 + 10)%nat by reflexivity; rewrite pow_add; f_equal; simpl; lra).
    rewrite Rabs_pos_eq by lra. lra. }
  destruct (P _ _ _ (or_intror (or_intror (or_introl eq_refl))) (or_intror (or_intror (or_introl eq_refl)))) as (e & E & F).
  - split; split; cbn [fst snd]; [exact A'|rewrite A; apply Sm; lra|exact B'|rewrite B; apply Sm; lra].
  - exists e. split; [exact E1|]. split; [exact E2|]. split; [exact E|exact F].
Qed.

Definition both_rows : list (float * float * float) :=
  [(of_Z 400, of_Z 1, of_Z 4); (fdiv (of_Z 546074) (of_Z 1000), of_Z 2, of_Z 5); (fdiv (of_Z 8005) (of_Z 10), of_Z 3, of_Z 6)].
Lemma small_squarable : forall a b, (0 <= a <= 6)%Z -> (0 <= b <= 6)%Z -> squarable (of_Z a, of_Z b).
Proof.
  assert (forall a, (0 <= a <= 6)%Z -> is_finite (of_Z a) = true /\ Rabs (B2R (of_Z a)) <= 2 ^ 500) as P.
  { intros a Ha. destruct (of_Z_ok a) as [A A']; [apply Z.le_trans with 6%Z; [lia|vm_compute; congruence]|]. split; [exact A'|]. rewrite A.
    assert (0 <= IZR a <= 6) as V by (split; apply IZR_le; lia).
    assert (1 <= 2 ^ 490) by (apply pow_R1_Rle; lra). assert (2 ^ 500 = 2 ^ 490 * 1024) as -> by (replace 500%nat with (490 + 10)%nat by reflexivity; rewrite pow_add; f_equal; simpl; lra).
    rewrite Rabs_pos_eq by lra. lra. }
  intros a b A B. split; cbn [fst snd]; apply P; assumption.
Qed.
(** all three wavelengths in one request *)
Example C105_arrays_instance : exists real imag es,
  f_get_permittivity look_up real imag (FA (map (fun r => fst (fst r)) both_rows)) "wavelength" "nm" = Ok (FCA es) /\
  Forall2 (fun r e => square_of (snd (fst r), snd r) e) both_rows es.
Proof.
  destruct (C105_tables_arrays look_up "nm" 12 (9 * 10 ^ 14) _ both_rows (or_introl eq_refl)
     (three_decimal (of_Z 1) (of_Z 2) (of_Z 3)) (three_exact _ _ _) (three_exact _ _ _)) as (real & imag & _ & _ & P).
  exists real, imag. apply P; [discriminate|apply incl_refl|].
  intros x n k [E|[E|[E|[]]]]; pose proof (f_equal (fun r => snd (fst r)) E) as E1; pose proof (f_equal snd E) as E2; cbn [fst snd] in E1, E2; rewrite <- E1, <- E2; apply small_squarable; lia.
Qed.
