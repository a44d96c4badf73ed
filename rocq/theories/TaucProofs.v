(** Proofs about the Tauc-Lorentz model. *)
From Verif Require Import PyBase PyStr XReal CNum SpectrumModel SpectrumSpec SpectrumProofs SpectralModel SpectralSpec SpectralProofs FormulaProofs.
Open Scope R_scope.
Open Scope list_scope.

Lemma atan_sum a b : 0 < a + b -> atan a + atan b = PI / 2 + atan ((a * b - 1) / (a + b)).
Proof.
  intros H. set (th := atan a + atan b).
  pose proof (atan_bound a) as Ba. pose proof (atan_bound b) as Bb.
  assert (Hpos : 0 < th).
  { unfold th. assert (atan (- a) < atan b) by (apply atan_increasing; lra).
    rewrite atan_opp in H0. lra. }
  assert (E : tan (th - PI / 2) = (a * b - 1) / (a + b)).
  { unfold tan. rewrite sin_minus, cos_minus, cos_PI2, sin_PI2. unfold th.
    rewrite sin_plus, cos_plus, !sin_atan, !cos_atan.
    assert (Qa : 0 < sqrt (1 + Rsqr a)) by (apply sqrt_lt_R0; pose proof (Rle_0_sqr a); lra).
    assert (Qb : 0 < sqrt (1 + Rsqr b)) by (apply sqrt_lt_R0; pose proof (Rle_0_sqr b); lra).
    set (sa := sqrt (1 + Rsqr a)) in *. set (sb := sqrt (1 + Rsqr b)) in *.
    replace ((a / sa * (1 / sb) + 1 / sa * (b / sb)) * 0 - (1 / sa * (1 / sb) - a / sa * (b / sb)) * 1)
      with ((a * b - 1) * (/ sa * / sb)) by (unfold Rdiv; ring).
    replace ((1 / sa * (1 / sb) - a / sa * (b / sb)) * 0 + (a / sa * (1 / sb) + 1 / sa * (b / sb)) * 1)
      with ((a + b) * (/ sa * / sb)) by (unfold Rdiv; ring).
    field. repeat split; lra. }
  rewrite <- E, atan_tan; unfold th in *; lra.
Qed.


Lemma zeta4_eq E0 C E : C ^ 2 <= 4 * E0 ^ 2 ->
  (E ^ 2 - (E0 ^ 2 - C ^ 2 / 2)) ^ 2 + sqrt (4 * E0 ^ 2 - C ^ 2) ^ 2 * C ^ 2 / 4
  = (E ^ 2 - E0 ^ 2) ^ 2 + C ^ 2 * E ^ 2.
Proof. intros H. rewrite pow2_sqrt by lra. field. Qed.

Lemma log_arg_pos E0 C Eg : 0 < Eg -> 0 < E0 -> 0 < C -> C ^ 2 <= 2 * E0 ^ 2 ->
  0 < E0 ^ 2 + Eg ^ 2 - sqrt (4 * E0 ^ 2 - C ^ 2) * Eg /\
  0 < E0 ^ 2 + Eg ^ 2 + sqrt (4 * E0 ^ 2 - C ^ 2) * Eg.
Proof.
  intros H1 H2 H3 H4. set (al := sqrt (4 * E0 ^ 2 - C ^ 2)).
  assert (Hc : 0 < C ^ 2) by (apply pow_lt; lra).
  assert (He : 0 < E0 ^ 2) by (apply pow_lt; lra).
  assert (Hg : 0 < Eg ^ 2) by (apply pow_lt; lra).
  assert (Ha : 0 <= al) by apply sqrt_pos.
  assert (Ha2 : al ^ 2 = 4 * E0 ^ 2 - C ^ 2) by (apply pow2_sqrt; lra).
  assert (Hm : 0 <= al * Eg) by (apply Rmult_le_pos; lra).
  assert (P : 0 < E0 ^ 2 + Eg ^ 2 + al * Eg) by lra.
  split; [|exact P].
  apply Rmult_lt_reg_r with (E0 ^ 2 + Eg ^ 2 + al * Eg); [exact P|]. rewrite Rmult_0_l.
  replace ((E0 ^ 2 + Eg ^ 2 - al * Eg) * (E0 ^ 2 + Eg ^ 2 + al * Eg))
    with ((E0 ^ 2 + Eg ^ 2) ^ 2 - al ^ 2 * Eg ^ 2) by ring.
  rewrite Ha2. replace ((E0 ^ 2 + Eg ^ 2) ^ 2 - (4 * E0 ^ 2 - C ^ 2) * Eg ^ 2)
    with ((E0 ^ 2 - Eg ^ 2) ^ 2 + C ^ 2 * Eg ^ 2) by ring.
  pose proof (pow2_ge_0 (E0 ^ 2 - Eg ^ 2)).
  assert (0 < C ^ 2 * Eg ^ 2) by (apply Rmult_lt_0_compat; lra). lra.
Qed.

Lemma xlog_fin x : 0 < x -> xlog (Fin x) = Fin (ln x).
Proof. intros H. cbn. destruct (Rlt_dec 0 x); [reflexivity|contradiction]. Qed.

Lemma xatan2_fin y x : 0 < x -> xatan2 (Fin y) (Fin x) = Fin (atan (y / x)).
Proof. intros H. cbn. destruct (Rlt_dec 0 x); [reflexivity|contradiction]. Qed.

Lemma tl_real_ok A E0 C Eg einf E : tl_dom E0 C Eg E ->
  tl_real (Fin A) (Fin E0) (Fin C) (Fin Eg) (Fin einf) (Fin E) = Fin (tl_eps1 A E0 C Eg einf E).
Proof.
  intros (HE & HN & HG & H0 & HC & HC2).
  assert (Hc : 0 < C ^ 2) by (apply pow_lt; lra).
  assert (He0 : 0 < E0 ^ 2) by (apply pow_lt; lra).
  destruct (log_arg_pos E0 C Eg HG H0 HC HC2) as [La Lb].
  pose proof (zeta4_eq E0 C E ltac:(lra)) as Z.
  unfold tl_real, tl_eps1. cbv zeta. unfold xsq, num.
  rewrite !xsq_fin, !xmul_fin, !xsub_fin.
  assert (H5 : 0.5 * C ^ 2 = C ^ 2 / 2) by lra. rewrite H5.
  rewrite !xsqrt_fin by lra.
  set (al := sqrt (4 * E0 ^ 2 - C ^ 2)) in *.
  rewrite !xsq_fin. rewrite pow2_sqrt by lra.
  set (g2 := E0 ^ 2 - C ^ 2 / 2) in *.
  rewrite !xsub_fin, !xsq_fin. rewrite !xmul_fin. cbn [xadd xopp].
  assert (H25 : (E ^ 2 - g2) ^ 2 + 0.25 * al ^ 2 * C ^ 2 = (E ^ 2 - g2) ^ 2 + al ^ 2 * C ^ 2 / 4) by lra.
  rewrite H25. set (z := (E ^ 2 - g2) ^ 2 + al ^ 2 * C ^ 2 / 4) in *.
  assert (Hal : 0 < al) by (apply sqrt_lt_R0; lra).
  assert (Hz : 0 < z).
  { rewrite Z. pose proof (pow2_ge_0 (E ^ 2 - E0 ^ 2)).
    assert (0 < C ^ 2 * E ^ 2) by (apply Rmult_lt_0_compat; [lra|apply pow_lt; lra]). lra. }
  pose proof PI_RGT_0 as HP.
  assert (HPz : 0 < PI * z) by (apply Rmult_lt_0_compat; lra).
  assert (HPza : 0 < PI * z * al) by (apply Rmult_lt_0_compat; lra).
  cbn [xmul xadd]. rewrite !xsub_fin. cbn [xadd xmul].
  assert (Habs : 0 < Rabs (E - Eg)) by (apply Rabs_pos_lt; lra).
  assert (Hs0 : 0 < (E0 ^ 2 - Eg ^ 2) ^ 2 + Eg ^ 2 * C ^ 2).
  { pose proof (pow2_ge_0 (E0 ^ 2 - Eg ^ 2)).
    assert (0 < Eg ^ 2 * C ^ 2) by (apply Rmult_lt_0_compat; [apply pow_lt; lra|lra]). lra. }
  assert (HPzaE : 0 < PI * z * al * E0) by (apply Rmult_lt_0_compat; lra).
  assert (HPzE : 0 < PI * z * E0) by (apply Rmult_lt_0_compat; lra).
  rewrite ?xsq_fin. cbn [xadd xmul xabs xopp].
  rewrite xsqrt_fin by lra.
  assert (HS : 0 < sqrt ((E0 ^ 2 - Eg ^ 2) ^ 2 + Eg ^ 2 * C ^ 2)) by now apply sqrt_lt_R0.
  repeat match goal with |- context [xdiv (Fin ?a) (Fin ?b)] => rewrite (xdiv_fin a b) by lra end.
  rewrite !xatan2_fin by lra. cbn [xatan xadd xmul].
  rewrite !xsub_fin. cbn [xadd].
  rewrite (xlog_fin ((E0 ^ 2 + Eg ^ 2 + al * Eg) / _)) by (apply Rdiv_lt_0_compat; assumption).
  rewrite (xlog_fin (Rabs (E - Eg) / (E + Eg))) by (apply Rdiv_lt_0_compat; lra).
  rewrite (xlog_fin (Rabs (E - Eg) * (E + Eg) / _))
    by (apply Rdiv_lt_0_compat; [apply Rmult_lt_0_compat; lra|assumption]).
  cbn [xmul xadd xopp].
  assert (P3 : atan ((al + 2 * Eg) / C) + atan ((al - 2 * Eg) / C)
             = PI / 2 + atan (2 * (g2 - Eg ^ 2) / (al * C))).
  { rewrite atan_sum.
    - do 2 f_equal.
      assert (Q : al ^ 2 = 4 * E0 ^ 2 - C ^ 2) by (unfold al; apply pow2_sqrt; lra).
      assert (X : (al + 2 * Eg) * (al - 2 * Eg) = 4 * E0 ^ 2 - C ^ 2 - 4 * Eg ^ 2) by (rewrite <- Q; ring).
      replace ((al + 2 * Eg) / C * ((al - 2 * Eg) / C)) with ((al + 2 * Eg) * (al - 2 * Eg) / C ^ 2)
        by (field; lra).
      rewrite X. unfold g2. field. split; [lra|]. lra.
    - replace ((al + 2 * Eg) / C + (al - 2 * Eg) / C) with (2 * al / C) by (field; lra).
      apply Rdiv_lt_0_compat; lra. }
  f_equal.
  rewrite P3.
  set (L1 := ln _). set (L2 := ln (Rabs (E - Eg) / (E + Eg))). set (L3 := ln (Rabs (E - Eg) * _ / _)).
  set (T3 := atan (2 * _ / _)).
  replace (-2 * Eg) with (- 2 * Eg) by ring.
  set (T1 := atan ((2 * Eg + al) / C)). set (T2 := atan _).
  assert (H05 : 0.5 = / 2) by lra. rewrite H05.
  clear - HE HG H0 HC HP Hz Hal. field. repeat split; lra.
Qed.

Lemma tl_imag_ok A E0 C Eg E : 0 < E -> 0 < C ->
  tl_imag (Fin A) (Fin E0) (Fin C) (Fin Eg) (Fin E) = Fin (tl_eps2 A E0 C Eg E).
Proof.
  intros HE HC. unfold tl_imag, tl_eps2. unfold xge, xle. cbn [xlt xeqb].
  destruct (Rle_dec Eg E) as [H|H].
  - assert (T : Rltb Eg E || Reqb Eg E = true).
    { apply orb_true_iff. destruct H; [left; now apply Rltb_true|right; now apply Reqb_true]. }
    rewrite T. unfold xsq, num. rewrite !xsq_fin, !xsub_fin, !xsq_fin. rewrite xdiv_fin by lra.
    cbn [xmul xadd].
    assert (0 < (E ^ 2 - E0 ^ 2) ^ 2 + C ^ 2 * E ^ 2).
    { pose proof (pow2_ge_0 (E ^ 2 - E0 ^ 2)).
      assert (0 < C ^ 2 * E ^ 2) by (apply Rmult_lt_0_compat; apply pow_lt; lra). lra. }
    rewrite xdiv_fin by lra. f_equal. field. split; lra.
  - assert (T : Rltb Eg E || Reqb Eg E = false).
    { apply orb_false_iff. split; [apply Rltb_false|apply Reqb_false]; lra. }
    rewrite T. assert (T2 : Rltb E Eg = true) by (apply Rltb_true; lra). rewrite T2. reflexivity.
Qed.

Lemma tl_eps2_nonneg A E0 C Eg E : 0 <= A -> 0 <= E0 -> 0 <= C -> 0 < E -> 0 <= tl_eps2 A E0 C Eg E.
Proof.
  intros HA H0 HC HE. unfold tl_eps2. destruct (Rle_dec Eg E); [|lra].
  assert (Hi : 0 < / E) by now apply Rinv_0_lt_compat.
  set (D := (E ^ 2 - E0 ^ 2) ^ 2 + C ^ 2 * E ^ 2).
  assert (HD : 0 <= D).
  { unfold D. pose proof (pow2_ge_0 (E ^ 2 - E0 ^ 2)).
    assert (0 <= C ^ 2 * E ^ 2) by (apply Rmult_le_pos; apply pow2_ge_0). lra. }
  apply Rmult_le_pos; [|lra]. apply Rmult_le_pos.
  - apply Rmult_le_pos; [|apply pow2_ge_0]. apply Rmult_le_pos; [apply Rmult_le_pos|]; lra.
  - destruct HD as [HD|<-]; [left; now apply Rinv_0_lt_compat|rewrite Rinv_0; lra].
Qed.

Lemma pt_tl_ok A E0 C Eg einf extra E : tl_dom E0 C Eg E ->
  pt_tauc_lorentz (map Fin [A; E0; C; Eg; einf] ++ extra) (Fin E)
  = Ok (CF (tl_eps1 A E0 C Eg einf E, tl_eps2 A E0 C Eg E)).
Proof.
  intros D. cbn [map app]. unfold pt_tauc_lorentz. pg. rewrite tl_real_ok by assumption.
  destruct D as (HE & _ & _ & _ & HC & _). rewrite tl_imag_ok by assumption.
  cbn [cx_of_xr cxmul cxadd cx2]. do 2 f_equal. apply C_eq; cbn; ring.
Qed.
Lemma short_tl p w : (length p < 5)%nat -> pt_tauc_lorentz p w = Raise IndexError.
Proof. intros H. destruct p as [|? [|? [|? [|? [|? p]]]]]; try reflexivity. cbn in H; lia. Qed.

(** overdamped below the resonance: the code takes the root of a negative number *)
Lemma pt_tl_nan A E0 C Eg einf extra E : 2 * E0 ^ 2 < C ^ 2 ->
  pt_tauc_lorentz (map Fin [A; E0; C; Eg; einf] ++ extra) (Fin E) = Ok CNan.
Proof.
  intros D. cbn [map app]. unfold pt_tauc_lorentz. pg.
  assert (N : tl_real (Fin A) (Fin E0) (Fin C) (Fin Eg) (Fin einf) (Fin E) = NaN).
  { unfold tl_real. cbv zeta. unfold xsq, num. rewrite !xsq_fin, !xmul_fin, !xsub_fin.
    assert (G : xsqrt (Fin (E0 ^ 2 - 0.5 * C ^ 2)) = NaN).
    { cbn [xsqrt]. destruct (Rlt_dec (E0 ^ 2 - 0.5 * C ^ 2) 0); [reflexivity|exfalso; lra]. }
    rewrite G. change (xpowz NaN 2) with (xpow NaN (Fin 2)). cbn [xpow].
    destruct (Req_EM_T 2 0); [exfalso; lra|].
    assert (A1 : forall a, xadd a NaN = NaN) by (destruct a; reflexivity).
    assert (A2 : forall a, xmul a NaN = NaN) by (destruct a; reflexivity).
    assert (A3 : forall a, xdiv a NaN = NaN) by (destruct a; reflexivity).
    assert (A4 : forall a, xmul NaN a = NaN) by (destruct a; reflexivity).
    assert (A5 : forall a, xadd NaN a = NaN) by (destruct a; reflexivity).
    assert (A6 : forall a, xdiv NaN a = NaN) by (destruct a; reflexivity).
    assert (A7 : forall a, xsub a NaN = NaN) by (destruct a; reflexivity).
    rewrite !A7. cbn [xpowz xpow]. destruct (Req_EM_T 2 0); [exfalso; lra|].
    repeat rewrite ?A1, ?A2, ?A3, ?A4, ?A5, ?A6, ?A7. reflexivity. }
  rewrite N. cbn [cx_of_xr cxadd cx2]. reflexivity.
Qed.
