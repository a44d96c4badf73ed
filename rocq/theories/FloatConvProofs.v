(** Conversions in binary64 *)
From Coq Require Import Reals Lra Lia ZArith Machin.
From Flocq Require Import Core BinarySingleNaN Relative.
From Verif Require Import PyBase PyStr XReal SpectrumModel SpectrumSpec FloatModel FloatSpec FloatProofs.
Open Scope R_scope.

Ltac inv_side :=
  solve [ left; apply Rinv_0_lt_compat; (lra || (apply IZR_lt; reflexivity))
        | apply Rinv_le; (lra || (apply IZR_lt; reflexivity))
        | rewrite <- Rinv_1; apply Rinv_le; lra ].
(** ** rounding to decimals *)
Lemma frint_ok : forall y k, Rabs (B2R y - IZR k) < / 2 -> B2R (frint y) = IZR k /\ is_finite (frint y) = is_finite y.
Proof.
  intros y k H. destruct (@Bnearbyint_correct 53 1024 emax1024 mode_NE y) as (A & B & _). split; auto.
  unfold frint. rewrite A. unfold round_mode, round, F2R, scaled_mantissa, cexp, FIX_exp. simpl Fnum. simpl Fexp. simpl bpow.
  rewrite !Rmult_1_r. now rewrite (Znearest_imp _ _ k H).
Qed.
Lemma pow10_bounds : forall d, (0 <= d <= 15)%Z -> 1 <= IZR (10 ^ d) <= IZR (10 ^ 15).
Proof.
  intros d H. split; apply IZR_le.
  - assert (0 < 10 ^ d)%Z by (apply Z.pow_pos_nonneg; lia). lia.
  - apply Z.pow_le_mono_r; lia.
Qed.
Lemma big : forall z, (z <= 2 ^ 1000)%Z -> IZR z <= bpow radix2 1000.
Proof. intros. change (bpow radix2 1000) with (IZR (2 ^ 1000)). apply IZR_le; auto. Qed.
Lemma small : forall x, / IZR (2 ^ 1000) <= x -> bpow radix2 (-1000) <= x.
Proof. intros x H. exact H. Qed.

Lemma np_round_exact : forall n d k z, (n < 100)%nat -> (0 <= d <= 15)%Z -> (0 < k <= 2 ^ 53)%Z ->
  (INR (S n) + / 1000) * uu * IZR k < / 2 ->
  near n (IZR k / IZR (10 ^ d)) z ->
  is_finite (np_round d z) = true /\ B2R (np_round d z) = rnd (IZR k / IZR (10 ^ d)).
Proof.
  intros n d k z Hn Hd Hk Hb N. pose proof (pow10_bounds d Hd) as P.
  assert (K : 1 <= IZR k <= IZR (2 ^ 53)) by (split; apply IZR_le; lia).
  assert (M : near (S (n + 0)) (IZR k / IZR (10 ^ d) * IZR (10 ^ d)) (fmul z (lit_pos d))).
  { apply near_mul; [lia| |auto|apply near_lit_pos; auto].
    replace (IZR k / IZR (10 ^ d) * IZR (10 ^ d)) with (IZR k) by (field; lra). split.
    - apply Rle_trans with 1; [|lra]. change 1 with (bpow radix2 0). apply bpow_le. lia.
    - apply big. apply Z.le_trans with (2 ^ 53)%Z; [lia|]. apply Z.pow_le_mono_r; lia. }
  replace (IZR k / IZR (10 ^ d) * IZR (10 ^ d)) with (IZR k) in M by (field; lra).
  replace (n + 0)%nat with n in M by lia.
  destruct M as (F & P0 & Hr). pose proof (rel_abs (S n) _ _ ltac:(lia) P0 Hr) as A.
  destruct (frint_ok (fmul z (lit_pos d)) k) as [E E']; [lra|].
  destruct (lit_pos_ok d Hd) as [L L'].
  unfold np_round. destruct (div_ok (frint (fmul z (lit_pos d))) (lit_pos d)) as [D D'].
  - rewrite L. lra.
  - rewrite E, L. apply in_range.
    + apply Rle_trans with (IZR k); [|apply Rle_trans with (bpow radix2 1000); [apply big|apply bpow_le; lia]].
      * unfold Rdiv. rewrite <- (Rmult_1_r (IZR k)) at 2. apply Rmult_le_compat_l; [lra|]. rewrite <- Rinv_1. apply Rinv_le; lra.
      * apply Z.le_trans with (2 ^ 53)%Z; [lia|]. apply Z.pow_le_mono_r; lia.
    + apply Rle_trans with (/ IZR (10 ^ 15)).
      * apply Rle_trans with (bpow radix2 (-53)); [apply bpow_le; lia|]. simpl. apply Rinv_le; lra.
      * unfold Rdiv. rewrite <- (Rmult_1_l (/ IZR (10 ^ 15))). apply Rmult_le_compat; try lra; inv_side.
  - rewrite D', E', D, E, L, F. auto.
Qed.

(** a written decimal is within one rounding *)
Lemma near_written : forall x f, bpow radix2 (-1022) <= x -> written x f -> near 1 x f.
Proof.
  intros x f H [A B]. split; [auto|]. pose proof (bpow_gt_0 radix2 (-1022)). split; [lra|].
  rewrite B. apply rnd_rel; auto.
Qed.
Lemma same_float : forall f g : float, is_finite f = true -> is_finite g = true -> 0 < B2R f -> B2R f = B2R g -> f = g.
Proof.
  intros f g A B P E. apply B2R_inj; auto.
  - destruct f; simpl in *; try discriminate; auto; lra.
  - rewrite E in P. destruct g; simpl in *; try discriminate; auto; lra.
Qed.

Ltac rng := split; [apply small|apply Rle_trans with (IZR (10 ^ 90)); [|apply big; vm_compute; congruence]].
Lemma decimal_bounds : forall k d, (0 < k <= 2 ^ 53)%Z -> (0 <= d <= 15)%Z ->
  / IZR (10 ^ 15) <= IZR k / IZR (10 ^ d) <= IZR (2 ^ 53).
Proof.
  intros k d Hk Hd. pose proof (pow10_bounds d Hd). assert (K : 1 <= IZR k <= IZR (2 ^ 53)) by (split; apply IZR_le; lia).
  unfold Rdiv. split.
  - rewrite <- (Rmult_1_l (/ IZR (10 ^ 15))). apply Rmult_le_compat; try lra; inv_side.
  - rewrite <- (Rmult_1_r (IZR (2 ^ 53))). apply Rmult_le_compat; try lra; inv_side.
Qed.
Lemma low_ok : forall x, / IZR (10 ^ 90) <= x -> bpow radix2 (-1000) <= x.
Proof.
  intros x H. apply Rle_trans with (/ IZR (10 ^ 90)); auto. replace (bpow radix2 (-1000)) with (/ IZR (2 ^ 1000)) by reflexivity.
  apply Rinv_le; [apply IZR_lt; reflexivity|]. apply IZR_le. vm_compute. congruence.
Qed.
Lemma high_ok : forall x, x <= IZR (10 ^ 90) -> x <= bpow radix2 1000.
Proof. intros x H. apply Rle_trans with (IZR (10 ^ 90)); auto. apply big. vm_compute. congruence. Qed.

(** own-unit round trip for a wavelength unit: d decimals, scale 10^p *)
Lemma wavelength_trip : forall d p k f, (0 <= d <= 13)%Z -> (0 <= p <= 10)%Z -> (0 < k <= 9 * 10 ^ 14)%Z ->
  written (IZR k / IZR (10 ^ d)) f ->
  np_round d (fmul (fmul f (lit_neg p)) (lit_pos p)) = f.
Proof.
  intros d p k f Hd Hp Hk W.
  assert (Hk2 : (0 < k <= 2 ^ 53)%Z) by (split; [lia|]; apply Z.le_trans with (9 * 10 ^ 14)%Z; [lia|vm_compute; congruence]).
  destruct (decimal_bounds k d Hk2 ltac:(lia)) as [L U].
  set (x := IZR k / IZR (10 ^ d)) in *.
  assert (Nf : near 1 x f).
  { apply near_written; auto. apply Rle_trans with (bpow radix2 (-1000)); [apply bpow_le; lia|]. apply low_ok.
    apply Rle_trans with (/ IZR (10 ^ 15)); auto. apply Rinv_le; [apply IZR_lt; reflexivity|apply IZR_le; vm_compute; congruence]. }
  pose proof (pow10_bounds p ltac:(lia)) as P.
  assert (P10 : IZR (10 ^ p) <= IZR (10 ^ 10)) by (apply IZR_le, Z.pow_le_mono_r; lia).
  assert (Xp : 0 < x) by (destruct Nf; tauto).
  assert (S1 : near 3 (x * / IZR (10 ^ p)) (fmul f (lit_neg p))).
  { apply (near_mul 1 1); [lia| |auto|apply near_lit_neg; lia]. split.
    - apply low_ok. apply Rle_trans with (/ IZR (10 ^ 15) * / IZR (10 ^ 10)).
      + rewrite <- Rinv_mult. rewrite <- mult_IZR.
        apply Rinv_le; [apply IZR_lt; reflexivity|apply IZR_le; vm_compute; congruence].
      + apply Rmult_le_compat; auto; inv_side.
    - apply high_ok. apply Rle_trans with (IZR (2 ^ 53) * 1).
      + apply Rmult_le_compat; auto; try lra; inv_side.
      + rewrite Rmult_1_r. apply IZR_le. vm_compute. congruence. }
  assert (S2 : near 4 x (fmul (fmul f (lit_neg p)) (lit_pos p))).
  { replace x with (x * / IZR (10 ^ p) * IZR (10 ^ p)) at 1 by (field; lra).
    apply (near_mul 3 0); [lia| |auto|apply near_lit_pos; lia].
    replace (x * / IZR (10 ^ p) * IZR (10 ^ p)) with x by (field; lra). split.
    - apply low_ok. apply Rle_trans with (/ IZR (10 ^ 15)); auto. apply Rinv_le; [apply IZR_lt; reflexivity|apply IZR_le; vm_compute; congruence].
    - apply high_ok. apply Rle_trans with (IZR (2 ^ 53)); auto. apply IZR_le. vm_compute. congruence. }
  assert (B : (INR 5 + / 1000) * uu * IZR k < / 2).
  { assert (IZR k <= IZR (9 * 10 ^ 14)) by (apply IZR_le; lia).
    replace (INR 5) with 5 by (simpl; lra). unfold uu. simpl in H. simpl pow. lra. }
  destruct (np_round_exact 4 d k _ ltac:(lia) ltac:(lia) Hk2 B S2) as [F E].
  symmetry. destruct W as [Wf We]. apply same_float; auto.
  - eapply near_pos; eauto.
  - rewrite E. exact We.
Qed.

(** ** the constants *)
Lemma dyadic_ok : forall m e, (Z.abs m < 2 ^ 53)%Z -> (-1074 <= e <= 900)%Z ->
  B2R (dyadic m e) = IZR m * bpow radix2 e /\ is_finite (dyadic m e) = true.
Proof.
  intros m e Hm He. pose proof (@binary_normalize_correct 53 1024 prec53 emax1024 mode_NE m e false) as C. cbv zeta in C.
  change (round radix2 (SpecFloat.fexp 53 1024) (round_mode mode_NE) (F2R (Float radix2 m e))) with (rnd (F2R (Float radix2 m e))) in C.
  rewrite rnd_generic in C.
  - rewrite Rlt_bool_true in C.
    + destruct C as (A & B & _). split; auto.
    + unfold F2R. simpl Fnum. simpl Fexp. rewrite Rabs_mult, <- abs_IZR, (Rabs_pos_eq (bpow radix2 e)) by (apply bpow_ge_0).
      apply Rlt_le_trans with (bpow radix2 53 * bpow radix2 e).
      * apply Rmult_lt_compat_r; [apply bpow_gt_0|]. change (bpow radix2 53) with (IZR (2 ^ 53)). apply IZR_lt; auto.
      * rewrite <- bpow_plus. apply bpow_le. lia.
  - apply generic_format_FLT. apply (FLT_spec radix2 (-1074) 53 _ (Float radix2 m e)); auto; simpl; lia.
Qed.
Lemma near_dyadic : forall m e x, (0 < m < 2 ^ 53)%Z -> (-1074 <= e <= 900)%Z -> 0 < x ->
  x * (1 - uu) <= IZR m * bpow radix2 e -> IZR m * bpow radix2 e * (1 - uu) <= x -> near 1 x (dyadic m e).
Proof.
  intros m e x Hm He Hx A B. destruct (dyadic_ok m e) as [E F]; [lia|lia|]. repeat split; auto; rewrite E, pow_1; auto.
Qed.
Lemma near_h : near 1 planck f_h.
Proof. apply near_dyadic; try (vm_compute; intuition congruence); unfold planck, uu; simpl bpow; simpl pow; lra. Qed.
Lemma near_e : near 1 elementary_charge f_e.
Proof. apply near_dyadic; try (vm_compute; intuition congruence); unfold elementary_charge, uu; simpl bpow; simpl pow; lra. Qed.
Lemma near_c : near 0 speed_of_light f_c.
Proof. apply (near_Z 299792458). vm_compute. intuition congruence. Qed.
Lemma PI_close : 3.1415926535897932 <= PI <= 3.1415926535897933.
Proof.
  pose proof (PI_2_3_7_ineq 8) as H.
  unfold tg_alt, PI_2_3_7_tg, Ratan_seq in H. simpl sum_f_R0 in H. simpl pow in H. simpl INR in H. lra.
Qed.
Lemma near_pi : near 1 PI f_pi.
Proof.
  pose proof PI_close. apply near_dyadic; try (vm_compute; intuition congruence); unfold uu; simpl bpow; simpl pow; lra.
Qed.
Definition hce : R := planck * speed_of_light / elementary_charge.
Lemma hce_bounds : / 10 ^ 6 <= hce <= 2 / 10 ^ 6.
Proof. unfold hce, planck, speed_of_light, elementary_charge. lra. Qed.
Ltac num_rng := split; [apply low_ok|apply high_ok].
Lemma near_hce : near 4 hce f_hce.
Proof.
  unfold f_hce, hce. apply (near_div 2 1); [lia| |apply (near_mul 1 0); [lia| |apply near_h|apply near_c]|apply near_e].
  - num_rng; unfold planck, speed_of_light, elementary_charge; lra.
  - num_rng; unfold planck, speed_of_light, elementary_charge; lra.
Qed.
Lemma near_2pi : near 2 (2 * PI) f_2pi.
Proof.
  pose proof PI_close. unfold f_2pi. apply (near_mul 0 1); [lia| |apply (near_Z 2); vm_compute; intuition congruence|apply near_pi].
  num_rng; lra.
Qed.
Lemma near_2pic : near 3 (2 * PI * speed_of_light) f_2pic.
Proof.
  pose proof PI_close. unfold f_2pic. apply (near_mul 2 0); [lia| |apply near_2pi|apply near_c].
  num_rng; unfold speed_of_light; lra.
Qed.

(** ** the conversions of a scalar, by canonical unit *)
Definition from_u (u : string) (x : float) : float :=
  if String.eqb u "cm" then fmul x (lit_neg 2) else if String.eqb u "um" then fmul x (lit_neg 6)
  else if String.eqb u "nm" then fmul x (lit_neg 9) else if String.eqb u "a" then fmul x (lit_neg 10)
  else if String.eqb u "hz" then fmul f_c (f_inverse_scalar x) else if String.eqb u "ev" then fmul f_hce (f_inverse_scalar x)
  else if String.eqb u "1/s" then fmul f_2pic (f_inverse_scalar x)
  else if String.eqb u "1/cm" then fmul (fmul f_2pi (f_inverse_scalar x)) (lit_neg 2) else x.
(** before rounding *)
Definition to_raw (u : string) (x : float) : float :=
  if String.eqb u "cm" then fmul x (lit_pos 2) else if String.eqb u "um" then fmul x (lit_pos 6)
  else if String.eqb u "nm" then fmul x (lit_pos 9) else if String.eqb u "a" then fmul x (lit_pos 10)
  else if String.eqb u "hz" then fmul f_c (f_inverse_scalar x) else if String.eqb u "ev" then fmul f_hce (f_inverse_scalar x)
  else if String.eqb u "1/s" then fmul f_2pic (f_inverse_scalar x)
  else if String.eqb u "1/cm" then fmul f_2pi (f_inverse_scalar (fmul x (lit_neg 2))) else x.
Definition to_u (u : string) (x : float) : float :=
  match doc_decimals u with Some d => np_round (Z.of_nat d) (to_raw u x) | None => to_raw u x end.
Lemma f_spectrum_scalar : forall t u x w f, wavelength_m t u x w ->
  f_spectrum (FS f) t u = Ok (mkFsp t u (FS f) (FS (from_u u f))).
Proof. intros t u x w f H. destruct H; reflexivity. Qed.
Lemma f_convert_scalar : forall t u x w s g, wavelength_m t u x w -> fp_std s = FS g ->
  f_convert_to s t u = Ok (FS (to_u u g)).
Proof. intros t u x w s g H E. destruct H; unfold f_convert_to; rewrite E; reflexivity. Qed.

Lemma pos_inverse : forall f, is_finite f = true -> 0 < B2R f -> f_inverse_scalar f = fdiv (of_Z 1) f.
Proof.
  intros f F P. unfold f_inverse_scalar. replace (feq f (of_Z 0)) with false.
  - replace (feq f finf) with false; auto. destruct f; try discriminate; reflexivity || (simpl in P; lra).
  - symmetry. unfold feq. rewrite Beqb_correct; auto. change (B2R (of_Z 0)) with 0. apply Req_bool_false. lra.
Qed.
Lemma near_inverse : forall n x f, (n <= 900)%nat -> / IZR (10 ^ 90) <= x <= IZR (10 ^ 90) -> near n x f ->
  near (S n) (/ x) (f_inverse_scalar f).
Proof.
  intros n x f Hn [L U] N. rewrite pos_inverse by (try apply N; eapply near_pos; eauto).
  replace (/ x) with (1 / x) by (unfold Rdiv; ring).
  assert (0 < / IZR (10 ^ 90)) by (apply Rinv_0_lt_compat, IZR_lt; reflexivity).
  apply (near_div 0 n); [lia| |apply (near_Z 1); vm_compute; intuition congruence|auto].
  unfold Rdiv. rewrite Rmult_1_l. num_rng.
  - apply Rinv_le; lra.
  - rewrite <- (Rinv_inv (IZR (10 ^ 90))). apply Rinv_le; lra.
Qed.

Lemma near_self : forall f : float, is_finite f = true -> 0 < B2R f -> near 0 (B2R f) f.
Proof. intros f F P. split; auto. split; auto. apply rel_refl. Qed.
(** own-unit round trip for electron volts *)
Lemma energy_trip : forall k f, (0 < k <= 7 * 10 ^ 14)%Z -> written (IZR k / IZR (10 ^ 9)) f ->
  to_u "ev" (from_u "ev" f) = f.
Proof.
  intros k f Hk W. change (to_u "ev" (from_u "ev" f)) with (np_round 9 (fmul f_hce (f_inverse_scalar (fmul f_hce (f_inverse_scalar f))))).
  assert (Hk2 : (0 < k <= 2 ^ 53)%Z) by (split; [lia|]; apply Z.le_trans with (7 * 10 ^ 14)%Z; [lia|vm_compute; congruence]).
  destruct (decimal_bounds k 9 Hk2 ltac:(lia)) as [L U].
  set (x := IZR k / IZR (10 ^ 9)) in *.
  assert (L2 : / IZR (10 ^ 90) <= x).
  { apply Rle_trans with (/ IZR (10 ^ 15)); auto. apply Rinv_le; [apply IZR_lt; reflexivity|apply IZR_le; vm_compute; congruence]. }
  assert (U2 : x <= IZR (10 ^ 90)) by (apply Rle_trans with (IZR (2 ^ 53)); auto; apply IZR_le; vm_compute; congruence).
  assert (Nf : near 1 x f).
  { apply near_written; auto. apply Rle_trans with (bpow radix2 (-1000)); [apply bpow_le; lia|]. apply low_ok; auto. }
  assert (Xp : 0 < x) by (destruct Nf; tauto).
  pose proof near_hce as Nh. destruct Nh as (Hf & Hp & Hr). destruct (near_range 4 _ _ ltac:(lia) Hp Hr) as [H1 H2].
  pose proof hce_bounds as HB. set (H := B2R f_hce) in *.
  assert (HL : / 2 * / 10 ^ 6 <= H) by lra. assert (HU : H <= 4 / 10 ^ 6) by lra. clear H1 H2 Hr Hp HB.
  assert (N0 : near 0 H f_hce) by (apply near_self; [auto|fold H; lra]). clearbody H.
  assert (I1 : near 2 (/ x) (f_inverse_scalar f)) by (apply near_inverse; [lia|auto|auto]).
  assert (X1 : / IZR (2 ^ 53) <= / x <= IZR (10 ^ 15)).
  { split; [apply Rinv_le; lra|]. rewrite <- (Rinv_inv (IZR (10 ^ 15))). apply Rinv_le; auto. apply Rinv_0_lt_compat, IZR_lt; reflexivity. }
  assert (B1 : / IZR (10 ^ 30) <= H * / x <= IZR (10 ^ 30)).
  { destruct X1 as [X1 X2]. split.
    - apply Rle_trans with (/ 2 * / 10 ^ 6 * / IZR (2 ^ 53)); [lra|]. apply Rmult_le_compat; lra.
    - apply Rle_trans with (4 / 10 ^ 6 * IZR (10 ^ 15)); [|lra]. apply Rmult_le_compat; try lra. }
  assert (S1 : near 3 (H * / x) (fmul f_hce (f_inverse_scalar f))).
  { apply (near_mul 0 2); auto; [lia|]. num_rng; lra. }
  assert (I2 : near 4 (/ (H * / x)) (f_inverse_scalar (fmul f_hce (f_inverse_scalar f)))).
  { apply near_inverse; [lia| |auto]. lra. }
  assert (S2 : near 5 x (fmul f_hce (f_inverse_scalar (fmul f_hce (f_inverse_scalar f))))).
  { replace x with (H * / (H * / x)) at 1 by (field; lra). apply (near_mul 0 4); auto; [lia|].
    replace (H * / (H * / x)) with x by (field; lra). num_rng; auto. }
  assert (B : (INR 6 + / 1000) * uu * IZR k < / 2).
  { assert (Q : IZR k <= IZR (7 * 10 ^ 14)) by (apply IZR_le; lia).
    replace (INR 6) with 6 by (simpl; lra). unfold uu. simpl in Q. simpl pow. lra. }
  destruct (np_round_exact 5 9 k _ ltac:(lia) ltac:(lia) Hk2 B S2) as [F E].
  symmetry. destruct W as [Wf We]. apply same_float; auto.
  - eapply near_pos; eauto.
  - rewrite E. exact We.
Qed.
Lemma round_trip : forall t u d K k f, In (t, u, d, K) safe_decimals -> (0 < k <= K)%Z ->
  written (IZR k / 10 ^ d) f -> to_u u (from_u u f) = f.
Proof.
  intros t u d K k f HI Hk W.
  assert (D : 10 ^ d = IZR (10 ^ Z.of_nat d)) by (rewrite pow_IZR; f_equal; rewrite Zpower_nat_Z || idtac; reflexivity).
  rewrite D in W.
  cbn [In safe_decimals] in HI. destruct HI as [Q|[Q|[Q|[Q|[Q|[]]]]]]; inversion Q; subst; clear Q.
  - apply (wavelength_trip 12 9 k); auto; lia.
  - apply (wavelength_trip 9 6 k); auto; lia.
  - apply (wavelength_trip 5 2 k); auto; lia.
  - apply (wavelength_trip 13 10 k); auto; lia.
  - apply (energy_trip k); auto.
Qed.
