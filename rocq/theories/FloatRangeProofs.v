(** Accuracy, monotonicity and range checks in binary64 *)
From Coq Require Import Reals Lra Lia ZArith.
From Flocq Require Import Core BinarySingleNaN Relative.
From Verif Require Import PyBase PyStr XReal SpectrumModel SpectrumSpec FloatModel FloatSpec FloatProofs FloatConvProofs.
Open Scope R_scope.

(** ** accuracy *)
Ltac numr := unfold speed_of_light, planck, elementary_charge in *; lra.
Lemma inv_bounds : forall a b x, a <= x <= b -> 0 < a -> / b <= / x <= / a.
Proof. intros. split; apply Rinv_le; lra. Qed.
Lemma prod_bounds : forall a b c d x y, a <= x <= b -> c <= y <= d -> 0 <= a -> 0 <= c -> a * c <= x * y <= b * d.
Proof. intros. split; apply Rmult_le_compat; lra. Qed.
Lemma weak : forall n m x f, (n <= m)%nat -> near n x f -> near m x f.
Proof. intros n m x f H (A & B & C). split; auto. split; auto. eapply rel_weaken; eauto. Qed.

Lemma acc_from : forall t u f w, wavelength_m t u (B2R f) w -> is_finite f = true ->
  / 10 ^ 40 <= B2R f <= 10 ^ 40 -> near 6 w (from_u u f) /\ / 10 ^ 65 <= w <= 10 ^ 65.
Proof.
  intros t u f w H F B. set (x := B2R f) in *.
  assert (N : near 0 x f) by (apply near_self; [auto|fold x; lra]). clearbody x.
  assert (I : near 1 (/ x) (f_inverse_scalar f)) by (apply (near_inverse 0); [lia|simpl; lra|auto]).
  pose proof (inv_bounds _ _ _ B ltac:(lra)) as IB.
  destruct H; cbn [from_u String.eqb Ascii.eqb Bool.eqb andb].
  - split; [apply (weak 0); auto; lia|lra].
  - change 100 with (IZR (10 ^ 2)). split; [|simpl; lra]. apply (weak 2); [lia|].
    apply (near_mul 0 1); [lia| |auto|apply near_lit_neg; lia]. num_rng; simpl; lra.
  - replace (10 ^ 6) with (IZR (10 ^ 6)) by (simpl; lra). split; [|simpl; lra]. apply (weak 2); [lia|].
    apply (near_mul 0 1); [lia| |auto|apply near_lit_neg; lia]. num_rng; simpl; lra.
  - replace (10 ^ 9) with (IZR (10 ^ 9)) by (simpl; lra). split; [|simpl; lra]. apply (weak 2); [lia|].
    apply (near_mul 0 1); [lia| |auto|apply near_lit_neg; lia]. num_rng; simpl; lra.
  - replace (10 ^ 10) with (IZR (10 ^ 10)) by (simpl; lra). split; [|simpl; lra]. apply (weak 2); [lia|].
    apply (near_mul 0 1); [lia| |auto|apply near_lit_neg; lia]. num_rng; simpl; lra.
  - assert (Q : / 10 ^ 65 <= speed_of_light * / x <= 10 ^ 65) by numr.
    split; [|exact Q]. apply (weak 2); [lia|].
    apply (near_mul 0 1); [lia| |apply near_c|auto]. num_rng; simpl; lra.
  - assert (E : planck * speed_of_light / (elementary_charge * x) = hce * / x).
    { unfold hce. field. split; [lra|]. unfold elementary_charge. lra. }
    rewrite E. pose proof hce_bounds as HB.
    pose proof (prod_bounds _ _ _ _ _ _ HB IB ltac:(lra) ltac:(lra)) as Q.
    assert (Q' : / 10 ^ 65 <= hce * / x <= 10 ^ 65) by lra.
    split; [|exact Q']. apply (near_mul 4 1); [lia| |apply near_hce|auto]. num_rng; simpl; lra.
  - pose proof PI_close as PB.
    assert (CB : 10 ^ 9 <= 2 * PI * speed_of_light <= 10 ^ 10) by numr.
    pose proof (prod_bounds _ _ _ _ _ _ CB IB ltac:(lra) ltac:(lra)) as Q.
    assert (Q' : / 10 ^ 65 <= 2 * PI * speed_of_light * / x <= 10 ^ 65) by lra.
    split; [|exact Q']. apply (weak 5); [lia|]. apply (near_mul 3 1); [lia| |apply near_2pic|auto]. num_rng; simpl; lra.
  - pose proof PI_close as PB. assert (CB : 1 <= 2 * PI <= 10) by lra.
    pose proof (prod_bounds _ _ _ _ _ _ CB IB ltac:(lra) ltac:(lra)) as Q.
    assert (Q' : / 10 ^ 65 <= 2 * PI / x / 100 <= 10 ^ 65) by (unfold Rdiv at 1 2 3 4; lra).
    split; [|exact Q'].
    replace (2 * PI / x / 100) with (2 * PI * / x * / IZR (10 ^ 2)) by (simpl; field; lra).
    apply (near_mul 4 1); [lia| |apply (near_mul 2 1); [lia| |apply near_2pi|auto]|apply near_lit_neg; lia].
    + num_rng; simpl; lra.
    + num_rng; simpl; lra.
Qed.

Lemma near_hull : forall n x f, (n <= 1000)%nat -> near n x f -> / 2 * x <= B2R f <= 2 * x.
Proof. intros n x f H (_ & P & Q). eapply near_range; eauto. Qed.
Lemma acc_raw : forall t u y w g n, wavelength_m t u y w -> u <> "1/cm"%string -> 0 < y -> (n <= 20)%nat ->
  near n w g -> / 10 ^ 65 <= w <= 10 ^ 65 -> near (n + 6) y (to_raw u g) /\ / 10 ^ 80 <= y <= 10 ^ 80.
Proof.
  intros t u y w g n H Hu Y Hn N B.
  pose proof (inv_bounds _ _ _ B ltac:(lra)) as IB.
  assert (I : near (S n) (/ w) (f_inverse_scalar g)) by (apply near_inverse; [lia|simpl; lra|auto]).
  destruct H; cbn [to_raw String.eqb Ascii.eqb Bool.eqb andb].
  - split; [apply (weak n); auto; lia|lra].
  - split; [|lra]. apply (weak (S (n + 0))); [lia|].
    replace x with (x / 100 * IZR (10 ^ 2)) by (simpl; lra). apply near_mul; [lia| |auto|apply near_lit_pos; lia].
    num_rng; simpl; lra.
  - split; [|lra]. apply (weak (S (n + 0))); [lia|].
    replace x with (x / 10 ^ 6 * IZR (10 ^ 6)) by (simpl; lra). apply near_mul; [lia| |auto|apply near_lit_pos; lia].
    num_rng; simpl; lra.
  - split; [|lra]. apply (weak (S (n + 0))); [lia|].
    replace x with (x / 10 ^ 9 * IZR (10 ^ 9)) by (simpl; lra). apply near_mul; [lia| |auto|apply near_lit_pos; lia].
    num_rng; simpl; lra.
  - split; [|lra]. apply (weak (S (n + 0))); [lia|].
    replace x with (x / 10 ^ 10 * IZR (10 ^ 10)) by (simpl; lra). apply near_mul; [lia| |auto|apply near_lit_pos; lia].
    num_rng; simpl; lra.
  - assert (E : x = speed_of_light * / (speed_of_light / x)) by (unfold speed_of_light; field; lra).
    set (w := speed_of_light / x) in *. clearbody w. rewrite E.
    assert (Q' : / 10 ^ 80 <= speed_of_light * / w <= 10 ^ 80) by numr.
    split; [|exact Q']. apply (weak (S (0 + S n))); [lia|].
    apply near_mul; [lia| |apply near_c|auto]. num_rng; simpl; lra.
  - assert (E : x = hce * / (planck * speed_of_light / (elementary_charge * x))).
    { unfold hce. unfold planck, speed_of_light, elementary_charge. field. lra. }
    set (w := planck * speed_of_light / (elementary_charge * x)) in *. clearbody w. rewrite E. pose proof hce_bounds as HB.
    pose proof (prod_bounds _ _ _ _ _ _ HB IB ltac:(lra) ltac:(lra)) as Q.
    assert (Q' : / 10 ^ 80 <= hce * / w <= 10 ^ 80) by lra.
    split; [|exact Q']. replace (n + 6)%nat with (S (4 + S n)) by lia.
    apply near_mul; [lia| |apply near_hce|auto]. num_rng; simpl; lra.
  - pose proof PI_close as PB.
    assert (E : x = 2 * PI * speed_of_light * / (2 * PI * speed_of_light / x)) by (unfold speed_of_light; field; lra).
    assert (CB : 10 ^ 9 <= 2 * PI * speed_of_light <= 10 ^ 10) by numr.
    set (w := 2 * PI * speed_of_light / x) in *. clearbody w. rewrite E.
    pose proof (prod_bounds _ _ _ _ _ _ CB IB ltac:(lra) ltac:(lra)) as Q.
    assert (Q' : / 10 ^ 80 <= 2 * PI * speed_of_light * / w <= 10 ^ 80) by lra.
    split; [|exact Q']. apply (weak (S (3 + S n))); [lia|].
    apply near_mul; [lia| |apply near_2pic|auto]. num_rng; simpl; lra.
  - congruence.
Qed.
(** the wavenumber conversion: 10^4 times too large (C03) *)
Lemma acc_icm : forall y w g n, wavelength_m "wavenumber" "1/cm" y w -> 0 < y -> (n <= 20)%nat ->
  near n w g -> / 10 ^ 65 <= w <= 10 ^ 65 -> near (n + 6) (10 ^ 4 * y) (to_raw "1/cm" g).
Proof.
  intros y w g n H Y Hn N B. inversion H; subst; clear H.
  pose proof PI_close as PB.
  cbn [to_raw String.eqb Ascii.eqb Bool.eqb andb].
  assert (S1 : near (S (n + 1)) (2 * PI / y / 100 * / IZR (10 ^ 2)) (fmul g (lit_neg 2))).
  { apply near_mul; [lia| |auto|apply near_lit_neg; lia]. num_rng; simpl; lra. }
  assert (E : 10 ^ 4 * y = 2 * PI * / (2 * PI / y / 100 * / IZR (10 ^ 2))) by (simpl; field; split; lra).
  rewrite E. set (v := 2 * PI / y / 100 * / IZR (10 ^ 2)) in *.
  assert (VB : / 10 ^ 70 <= v <= 10 ^ 70) by (unfold v; simpl IZR; simpl Z.pow; lra).
  pose proof (inv_bounds _ _ _ VB ltac:(lra)) as IB. clearbody v.
  assert (I : near (S (S (n + 1))) (/ v) (f_inverse_scalar (fmul g (lit_neg 2)))) by (apply near_inverse; [lia|simpl; lra|auto]).
  replace (n + 6)%nat with (S (2 + (S (S (n + 1))))) by lia.
  apply near_mul; [lia| |apply near_2pi|auto].
  pose proof (prod_bounds 1 10 _ _ (2 * PI) (/ v) ltac:(lra) IB ltac:(lra) ltac:(lra)) as Q. num_rng; simpl; lra.
Qed.

Lemma np_round_err : forall n d y z, (n <= 60)%nat -> (0 <= d <= 13)%Z -> / 10 ^ 80 <= y <= 10 ^ 80 -> near n y z ->
  is_finite (np_round d z) = true /\
  Rabs (B2R (np_round d z) - y) <= (/ 2 + / 1000) / IZR (10 ^ d) + (INR n + 3) * uu * y.
Proof.
  intros n d y z Hn Hd B N. pose proof (pow10_bounds d ltac:(lia)) as P. set (D := IZR (10 ^ d)) in *.
  assert (PD : D <= 10 ^ 13) by (unfold D; rewrite pow_IZR; apply IZR_le; change (Zpower_nat 10 13) with (10 ^ 13)%Z; apply Z.pow_le_mono_r; lia).
  assert (YD : / 10 ^ 80 <= y * D <= 10 ^ 93).
  { pose proof (prod_bounds _ _ 1 (10 ^ 13) y D B ltac:(lra) ltac:(lra) ltac:(lra)). lra. }
  assert (M : near (S (n + 0)) (y * D) (fmul z (lit_pos d))).
  { apply near_mul; [lia| |auto|apply near_lit_pos; lia]. split; [apply low_ok; simpl; lra|].
    apply Rle_trans with (10 ^ 93); [lra|]. rewrite pow_IZR. apply big. vm_compute. congruence. }
  replace (n + 0)%nat with n in M by lia.
  set (A := fmul z (lit_pos d)) in *. destruct M as (F & P0 & Hr). pose proof (rel_abs (S n) _ _ ltac:(lia) P0 Hr) as Ha.
  pose proof (rel_pos _ _ _ P0 Hr) as Ap.
  destruct (@Bnearbyint_correct 53 1024 emax1024 mode_NE A) as (E & E' & _).
  change (Bnearbyint mode_NE A) with (frint A) in *. rewrite F in E'.
  assert (E2 : B2R (frint A) = IZR (ZnearestE (B2R A))).
  { rewrite E. unfold round_mode, round, F2R, scaled_mantissa, cexp, FIX_exp. simpl Fnum. simpl Fexp. simpl bpow. now rewrite !Rmult_1_r. }
  clear E. pose proof (Znearest_half (fun x => negb (Z.even x)) (B2R A)) as Hh. rewrite <- E2 in Hh.
  set (r := ZnearestE (B2R A)) in *.
  assert (R0 : (0 <= r)%Z).
  { apply le_IZR. rewrite <- E2. apply Rabs_le_inv in Hh. destruct (Rle_or_lt 0 (B2R (frint A))) as [|Hneg]; auto.
    exfalso. assert (-1 < IZR r < 0) by (rewrite <- E2; lra). destruct H as [h1 h2]. apply (lt_IZR (-1)) in h1. apply (lt_IZR r 0) in h2. lia. }
  destruct (lit_pos_ok d ltac:(lia)) as [L L']. fold D in L.
  set (K := INR n) in *.
  assert (SK : INR (S n) = K + 1) by (unfold K; rewrite S_INR; auto). rewrite SK in Ha.
  assert (KB : 0 <= K <= 60).
  { unfold K. split; [apply pos_INR|]. replace 60 with (INR 60) by (rewrite INR_IZR_INZ; reflexivity). apply le_INR; auto. }
  apply Rabs_le_inv in Hh. apply Rabs_le_inv in Ha. pose proof uu_pos as Up. pose proof uu_small as Us.
  assert (G : is_finite (np_round d z) = true /\ Rabs (B2R (np_round d z) - IZR r / D) <= uu * (IZR r / D)).
  { unfold np_round. fold A. destruct (Z.eq_dec r 0) as [Z0|Z0].
    - destruct (div_ok (frint A) (lit_pos d)) as [Q Q'].
      + rewrite L. lra.
      + rewrite E2, Z0. unfold Rdiv. rewrite Rmult_0_l. unfold rnd. rewrite round_0 by apply valid_rnd_N. rewrite Rabs_R0. apply bpow_gt_0.
      + split; [congruence|]. rewrite Q, E2, Z0. unfold Rdiv. rewrite Rmult_0_l. unfold rnd. rewrite round_0 by apply valid_rnd_N.
        rewrite Rmult_0_l, Rminus_eq_0, Rabs_R0. lra.
    - assert (R1 : 1 <= IZR r) by (apply IZR_le; lia).
      assert (RB : / 10 ^ 13 <= IZR r / D <= 10 ^ 100).
      { assert (IZR r <= 10 ^ 99).
        { rewrite <- E2. assert ((K + 1 + / 1000) * uu * (y * D) <= 1 * (y * D)) by (apply Rmult_le_compat_r; [lra|]; apply Rle_trans with (62 * uu); [apply Rmult_le_compat_r; lra|lra]). lra. }
        assert (ID : / 10 ^ 13 <= / D <= 1) by (split; [apply Rinv_le; lra|rewrite <- Rinv_1; apply Rinv_le; lra]).
        pose proof (prod_bounds 1 (10 ^ 99) _ _ (IZR r) (/ D) ltac:(lra) ID ltac:(lra) ltac:(lra)). unfold Rdiv. lra. }
      assert (LB : bpow radix2 (-1022) <= IZR r / D).
      { apply Rle_trans with (bpow radix2 (-1000)); [apply bpow_le; lia|]. apply low_ok. simpl. lra. }
      destruct (div_ok (frint A) (lit_pos d)) as [Q Q'].
      + rewrite L. lra.
      + rewrite E2, L. apply in_range; auto. apply Rle_trans with (10 ^ 100); [lra|]. rewrite pow_IZR.
        apply Rle_trans with (bpow radix2 1000); [apply big; vm_compute; congruence|apply bpow_le; lia].
      + split; [congruence|]. rewrite Q, E2, L. apply rnd_pos_err; auto. }
  destruct G as [G1 G2]. split; auto. apply Rabs_le_inv in G2. rewrite E2 in Hh.
  assert (ID : 0 < / D) by (apply Rinv_0_lt_compat; lra).
  assert (T1 : Rabs (IZR r / D - B2R A / D) <= / 2 / D).
  { replace (IZR r / D - B2R A / D) with ((IZR r - B2R A) * / D) by (unfold Rdiv; ring). rewrite Rabs_mult, (Rabs_pos_eq (/ D)) by lra.
    unfold Rdiv. apply Rmult_le_compat_r; [lra|]. apply Rabs_le. lra. }
  assert (T2 : Rabs (B2R A / D - y) <= (K + 1 + / 1000) * uu * y).
  { replace (B2R A / D - y) with ((B2R A - y * D) * / D) by (field; lra). rewrite Rabs_mult, (Rabs_pos_eq (/ D)) by lra.
    apply Rle_trans with ((K + 1 + / 1000) * uu * (y * D) * / D); [apply Rmult_le_compat_r; [lra|]; apply Rabs_le; lra|].
    right. field. lra. }
  apply Rabs_le_inv in T1. apply Rabs_le_inv in T2.
  assert (T3 : IZR r / D <= y + / 2 / D + (K + 1 + / 1000) * uu * y) by lra.
  assert (KU : (K + 1 + / 1000) * uu <= / 1000) by (apply Rle_trans with (62 * uu); [apply Rmult_le_compat_r; lra|lra]).
  assert (T4 : (K + 1 + / 1000) * uu * y <= / 1000 * y) by (apply Rmult_le_compat_r; lra).
  assert (T5 : uu * (IZR r / D) <= uu * (y * (1 + / 1000)) + / 1000 * / D).
  { apply Rle_trans with (uu * (y * (1 + / 1000) + / 2 / D)); [apply Rmult_le_compat_l; lra|].
    rewrite Rmult_plus_distr_l. apply Rplus_le_compat_l. unfold Rdiv. 
    apply Rle_trans with (uu * / D); [apply Rmult_le_compat_l; lra|apply Rmult_le_compat_r; lra]. }
  assert (Uy : 0 < uu * y) by (apply Rmult_lt_0_compat; lra).
  apply Rabs_le. unfold Rdiv in *. split; lra.
Qed.
