(** C105: the permittivity in double precision *)
From Coq Require Import Reals Lra Lia ZArith.
From Flocq Require Import Core BinarySingleNaN.
From Verif Require Import PyBase PyStr XReal SpectrumModel SpectrumSpec FloatModel FloatSpec FloatTableModel FloatTableSpec FloatProofs FloatCheckProofs FloatTableProofs FloatThms FloatTableThms FloatMixProofs FloatPermModel FloatPermSpec FloatPermProofs.
Open Scope R_scope. Open Scope string_scope. Open Scope list_scope.

Lemma permittivity_of lib real imag v type unit z : f_get_nk lib real imag v type unit = Ok z -> f_get_permittivity lib real imag v type unit = Ok (f_square_vals z).
Proof.
  unfold f_get_nk, f_get_permittivity. destruct (f_spectrum v type unit) as [s|]; cbn [bind]; [|discriminate].
  destruct (f_evaluate lib real s) as [re|]; cbn [bind]; [|discriminate]. destruct (f_evaluate lib imag s) as [im|]; cbn [bind]; [|discriminate]. now intros [= <-].
Qed.

Lemma C105_square_l : forall lib real imag v type unit,
  (forall z, f_get_nk lib real imag v type unit = Ok (FCS z) -> squarable z ->
     exists e, f_get_permittivity lib real imag v type unit = Ok (FCS e) /\ square_of z e) /\
  (forall zs, f_get_nk lib real imag v type unit = Ok (FCA zs) -> Forall squarable zs ->
     exists es, f_get_permittivity lib real imag v type unit = Ok (FCA es) /\ Forall2 square_of zs es).
Proof.
  intros lib real imag v type unit. split.
  - intros z H S. exists (f_csquare z). rewrite (permittivity_of _ _ _ _ _ _ _ H). split; [reflexivity|]. now apply square_ok.
  - intros zs H S. exists (map f_csquare zs). rewrite (permittivity_of _ _ _ _ _ _ _ H). split; [reflexivity|]. clear H. induction S; constructor; [now apply square_ok|assumption].
Qed.

Lemma permittivity_of_error lib real imag v type unit e : f_get_nk lib real imag v type unit = Raise e -> f_get_permittivity lib real imag v type unit = Raise e.
Proof.
  unfold f_get_nk, f_get_permittivity. destruct (f_spectrum v type unit) as [s|]; cbn [bind]; [|congruence].
  destruct (f_evaluate lib real s) as [re|]; cbn [bind]; [|congruence]. destruct (f_evaluate lib imag s) as [im|]; cbn [bind]; [discriminate|congruence].
Qed.

Lemma C105_errors_l : forall lib real imag v type unit e,
  f_get_permittivity lib real imag v type unit = Raise e <-> f_get_nk lib real imag v type unit = Raise e.
Proof.
  intros lib real imag v type unit e. split; [|apply permittivity_of_error]. intros H. destruct (f_get_nk lib real imag v type unit) as [z|e'] eqn:E.
  - apply permittivity_of in E. rewrite E in H. discriminate.
  - apply permittivity_of_error in E. rewrite E in H. congruence.
Qed.

Lemma C105_passive_l : forall lib real imag v type unit,
  let passive := fun (z e : float * float) =>
    (B2R (snd z) = 0 -> B2R (fst e) = nearest_double (B2R (fst z) * B2R (fst z)) /\ B2R (snd e) = 0) /\
    (0 <= B2R (fst z) -> 0 <= B2R (snd z) -> 0 <= B2R (snd e)) in
  (forall z, f_get_nk lib real imag v type unit = Ok (FCS z) -> squarable z ->
     exists e, f_get_permittivity lib real imag v type unit = Ok (FCS e) /\ passive z e) /\
  (forall zs, f_get_nk lib real imag v type unit = Ok (FCA zs) -> Forall squarable zs ->
     exists es, f_get_permittivity lib real imag v type unit = Ok (FCA es) /\ Forall2 passive zs es).
Proof.
  intros lib real imag v type unit passive.
  assert (forall z, squarable z -> passive z (f_csquare z)) as P.
  { intros z Sz. split; [intros Z; exact (square_transparent z Sz Z)|intros A B; exact (square_passive z Sz A B)]. }
  split.
  - intros z H S. exists (f_csquare z). rewrite (permittivity_of _ _ _ _ _ _ _ H). split; [reflexivity|]. exact (P z S).
  - intros zs H S. exists (map f_csquare zs). rewrite (permittivity_of _ _ _ _ _ _ _ H). split; [reflexivity|]. clear H. induction S as [|z zs Sz S IH]; constructor; [exact (P z Sz)|assumption].
Qed.

Lemma square_of_ext (z w e : binary_float 53 1024 * binary_float 53 1024) : B2R (fst z) = B2R (fst w) -> B2R (snd z) = B2R (snd w) -> square_of z e -> square_of w e.
Proof. intros A B. unfold square_of. rewrite A, B. exact (fun h => h). Qed.

Lemma C105_tables_l : forall lib type unit decimals K ks js n_rows k_rows,
  In (type, unit, decimals, K) safe_decimals -> decimal_table decimals K ks n_rows -> decimal_table decimals K js k_rows ->
  exact_at_rows lib n_rows -> exact_at_rows lib k_rows ->
  exists real imag, f_table n_rows type unit = Ok real /\ f_table k_rows type unit = Ok imag /\
    forall x n k, In (x, n) n_rows -> In (x, k) k_rows -> squarable (n, k) ->
      exists e, f_get_permittivity lib real imag (FS x) type unit = Ok (FCS e) /\ square_of (n, k) e.
Proof.
  intros lib type unit decimals K ks js n_rows k_rows Sf T1 T2 X1 X2. destruct (C98_nk_l lib type unit decimals K ks js n_rows k_rows Sf T1 T2 X1 X2) as (real & imag & E1 & E2 & H).
  exists real, imag. split; [exact E1|]. split; [exact E2|]. intros x n k In1 In2 [[F1 M1] [F2 M2]]. cbn [fst snd] in F1, M1, F2, M2.
  destruct (H x n k In1 In2 F1 F2) as (z & E & [Z1 Z2] & [Z3 Z4]). exists (f_csquare z). rewrite (permittivity_of _ _ _ _ _ _ _ E). split; [reflexivity|].
  assert (squarable z) as Sz by (split; split; [exact Z1|exact (eq_ind_r (fun r => Rabs r <= 2 ^ 500) M1 Z2)|exact Z3|exact (eq_ind_r (fun r => Rabs r <= 2 ^ 500) M2 Z4)]).
  exact (square_of_ext z (n, k) (f_csquare z) Z2 Z4 (square_ok z Sz)).
Qed.

Lemma C105_tables_arrays_l : forall lib unit decimals K ks (rows : list (float * float * float)),
  In ("wavelength", unit, decimals, K) safe_decimals ->
  decimal_table decimals K ks (map (fun r => (fst (fst r), snd (fst r))) rows) ->
  exact_at_rows lib (map (fun r => (fst (fst r), snd (fst r))) rows) -> exact_at_rows lib (map (fun r => (fst (fst r), snd r)) rows) ->
  exists real imag, f_table (map (fun r => (fst (fst r), snd (fst r))) rows) "wavelength" unit = Ok real /\
    f_table (map (fun r => (fst (fst r), snd r)) rows) "wavelength" unit = Ok imag /\
    forall chosen : list (float * float * float), chosen <> [] -> incl chosen rows -> (forall x n k, In (x, n, k) chosen -> squarable (n, k)) ->
      exists es, f_get_permittivity lib real imag (FA (map (fun r => fst (fst r)) chosen)) "wavelength" unit = Ok (FCA es) /\
        Forall2 (fun r e => square_of (snd (fst r), snd r) e) chosen es.
Proof.
  intros lib unit decimals K ks rows Sf T X1 X2. destruct (C98_nk_arrays_l lib unit decimals K ks rows Sf T X1 X2) as (real & imag & E1 & E2 & H).
  exists real, imag. split; [exact E1|]. split; [exact E2|]. intros chosen Ne Inc Sq.
  destruct (H chosen Ne Inc) as (zs & E & F); [intros x n k I; destruct (Sq x n k I) as [[A _] [B _]]; exact (conj A B)|].
  exists (map f_csquare zs). rewrite (permittivity_of _ _ _ _ _ _ _ E). split; [reflexivity|]. clear E H Ne Inc E1 E2.
  induction F as [|[[x n] k] z chosen zs [[Z1 Z2] [Z3 Z4]] F IH]; constructor; [|apply IH; intros x' n' k' I; exact (Sq x' n' k' (or_intror I))].
  destruct (Sq x n k (or_introl eq_refl)) as [[F1 M1] [F2 M2]]. cbn [fst snd] in *.
  assert (squarable z) as Sz by (split; split; [exact Z1|exact (eq_ind_r (fun r => Rabs r <= 2 ^ 500) M1 Z2)|exact Z3|exact (eq_ind_r (fun r => Rabs r <= 2 ^ 500) M2 Z4)]).
  exact (square_of_ext z (n, k) (f_csquare z) Z2 Z4 (square_ok z Sz)).
Qed.

(** n and k are neighbouring doubles, about 1.9986 *)
Definition close_n : float := fdiv (of_Z 9000967756334855) (of_Z 4503599627370496).
Definition close_k : float := fdiv (of_Z 9000967756334854) (of_Z 4503599627370496).
Lemma over_2_52 m : (Z.abs m < 2 ^ 53)%Z -> B2R (fdiv (of_Z m) (of_Z 4503599627370496)) = IZR m / 4503599627370496 /\ fin (fdiv (of_Z m) (of_Z 4503599627370496)).
Proof.
  intros M. destruct (of_Z_ok m) as [A A']; [lia|]. destruct (of_Z_ok 4503599627370496) as [B B']; [vm_compute; congruence|].
  assert (rnd (IZR m / 4503599627370496) = IZR m / 4503599627370496) as G.
  { apply rnd_generic. apply generic_format_FLT.
      exists (Float radix2 m (-52)); cbn [Fnum Fexp]; [unfold F2R; cbn; lra|change (radix2 ^ 53)%Z with (2 ^ 53)%Z; lia|lia]. }
  destruct (div_ok (of_Z m) (of_Z 4503599627370496)) as [D D'].
  - rewrite B. lra.
  - rewrite A, B, G. apply Rle_lt_trans with (bpow radix2 53); [|apply bpow_lt; lia].
    unfold Rdiv. rewrite Rabs_mult, (Rabs_pos_eq (/ _)) by lra. rewrite <- abs_IZR. apply IZR_lt in M. change (IZR (2 ^ 53)) with (bpow radix2 53) in M. pose proof (bpow_gt_0 radix2 53). lra.
  - rewrite A, B, G in D. split; [exact D|]. exact (eq_trans D' A').
Qed.
Definition close_check (lib : list (float * float) -> float -> float) : bool :=
  match f_constant close_n, f_constant close_k with
  | Ok a, Ok b => match f_get_permittivity lib a b (FS (of_Z 500)) "wavelength" "nm" with
                  | Ok (FCS e) => is_finite (fst e) && feq (fst e) (fdiv (of_Z 2) (of_Z 4503599627370496))
                  | _ => false end
  | _, _ => false end.
Lemma close_ok lib : close_check lib = true.
Proof. vm_compute. reflexivity. Qed.

Lemma C105_relative_refuted_l : forall lib, exists n k real imag e,
  is_finite n = true /\ is_finite k = true /\ 1 < B2R k < B2R n /\ B2R n < 2 /\ f_constant n = Ok real /\ f_constant k = Ok imag /\
  f_get_permittivity lib real imag (FS (of_Z 500)) "wavelength" "nm" = Ok (FCS e) /\
  let exact := B2R n * B2R n - B2R k * B2R k in 0 < exact /\ Rabs (B2R (fst e) - exact) > 49 / 100 * exact.
Proof.
  intros lib. exists close_n, close_k. pose proof (close_ok lib) as C. unfold close_check in C.
  destruct (f_constant close_n) as [a|]; [|discriminate C]. destruct (f_constant close_k) as [b|]; [|discriminate C].
  destruct (f_get_permittivity lib a b (FS (of_Z 500)) "wavelength" "nm") as [[e|?]|] eqn:E; try discriminate C.
  apply andb_prop in C. destruct C as [C1 C2]. exists a, b, e.
  destruct (over_2_52 9000967756334855) as [N N']; [vm_compute; congruence|]. destruct (over_2_52 9000967756334854) as [K K']; [vm_compute; congruence|]. destruct (over_2_52 2) as [T T']; [vm_compute; congruence|].
  rewrite feq_ok in C2 by assumption. rewrite T in C2. pose proof (Req_bool_spec (B2R (fst e)) (2 / 4503599627370496)) as Q. rewrite C2 in Q. inversion Q as [Q'|]. clear Q.
  change (B2R close_n = 9000967756334855 / 4503599627370496) in N. change (B2R close_k = 9000967756334854 / 4503599627370496) in K.
  split; [exact N'|]. split; [exact K'|]. cbv zeta. rewrite N, K, Q'. split; [lra|]. split; [lra|]. split; [reflexivity|]. split; [reflexivity|]. split; [exact E|]. split; [lra|].
  rewrite Rabs_left; lra.
Qed.
