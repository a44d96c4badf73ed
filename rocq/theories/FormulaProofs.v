(** Proofs about the fixed-size formulas. *)
From Verif Require Import PyBase PyStr XReal CNum SpectrumModel SpectrumSpec SpectrumProofs SpectralModel SpectralSpec SpectralProofs.
Open Scope R_scope.
Open Scope list_scope.

Lemma xpowz_1 x : x <> 0 -> xpowz (Fin x) (-1) = Fin (/ x).
Proof. intros H. rewrite xpowz_fin by assumption. f_equal. change (powerRZ x (-1)) with (/ (x ^ 1)). now rewrite pow_1. Qed.
Lemma xpowz_m2 x : x <> 0 -> xpowz (Fin x) (-2) = Fin (/ x ^ 2).
Proof. intros H. rewrite xpowz_fin by assumption. reflexivity. Qed.
Lemma xpowz_4 x : xpowz (Fin x) 4 = Fin (x ^ 4).
Proof. change 4%Z with (Z.of_nat 4). apply xpowz_fin_nat. lia. Qed.
Lemma xpowz_6 x : xpowz (Fin x) 6 = Fin (x ^ 6).
Proof. change 6%Z with (Z.of_nat 6). apply xpowz_fin_nat. lia. Qed.

Lemma pget_cons x l i : pget (x :: l) (S i) = pget l i.
Proof. reflexivity. Qed.
Lemma pget_0 x l : pget (x :: l) 0 = Ok x.
Proof. reflexivity. Qed.
Ltac pg := rewrite ?pget_cons, ?pget_0; cbn [bind].

Lemma pt_herzberger_ok c0 c1 c2 c3 c4 c5 extra w : w ^ 2 <> 0.028 ->
  pt_herzberger (map Fin [c0; c1; c2; c3; c4; c5] ++ extra) (Fin w)
  = Ok (Fin (herzberger c0 c1 c2 c3 c4 c5 w)).
Proof.
  intros H. cbn [map app]. unfold pt_herzberger. pg. rewrite xsq_fin. unfold num. rewrite xsub_fin.
  rewrite xpowz_1, xpowz_m2, xpowz_4, xpowz_6 by lra. cbn [xmul xadd]. unfold herzberger.
  do 2 f_equal. field. lra.
Qed.

Lemma short_herzberger p w : (length p < 6)%nat -> pt_herzberger p w = Raise IndexError.
Proof.
  intros H. destruct p as [|? [|? [|? [|? [|? [|? p]]]]]]; try reflexivity. cbn in H; lia.
Qed.

Lemma pt_exotic_ok c0 c1 c2 c3 c4 c5 extra w :
  w ^ 2 <> c2 -> (w - c4) ^ 2 + c5 <> 0 -> 0 <= exotic_sq_coded c0 c1 c2 c3 c4 c5 w ->
  pt_exotic (map Fin [c0; c1; c2; c3; c4; c5] ++ extra) (Fin w)
  = Ok (Fin (sqrt (exotic_sq_coded c0 c1 c2 c3 c4 c5 w))).
Proof.
  intros H1 H2 H3. cbn [map app]. unfold pt_exotic. pg. rewrite xsq_fin. rewrite !xsub_fin, xsq_fin.
  rewrite !xmul_fin. rewrite xdiv_fin by lra. cbn [xadd]. rewrite xdiv_fin by assumption. cbn [xadd].
  fold (exotic_sq_coded c0 c1 c2 c3 c4 c5 w). now rewrite xsqrt_fin.
Qed.

Lemma short_exotic p w : (length p < 6)%nat -> pt_exotic p w = Raise IndexError.
Proof.
  intros H. destruct p as [|? [|? [|? [|? [|? [|? p]]]]]]; try reflexivity. cbn in H; lia.
Qed.

(** what Retro computes from its right-hand side *)
Definition retro_coded (r : R) : R := r / (1 - r) + sqrt ((r / (1 - r)) ^ 2 + 1 / (1 - r)).

Lemma pt_retro_ok c0 c1 c2 c3 extra w :
  w ^ 2 <> c2 -> let r := retro_rhs c0 c1 c2 c3 w in r < 1 ->
  pt_retro (map Fin [c0; c1; c2; c3] ++ extra) (Fin w) = Ok (Fin (retro_coded r)).
Proof.
  intros H1 r Hr. cbn [map app]. unfold pt_retro. pg. rewrite xsq_fin, !xsub_fin, xmul_fin.
  rewrite xdiv_fin by lra. cbn [xadd xmul]. fold (retro_rhs c0 c1 c2 c3 w). fold r.
  unfold num. rewrite xsub_fin. cbn [xmul]. rewrite !xdiv_fin by lra. cbn [xmul]. rewrite xsq_fin, xsub_fin.
  assert (H5 : 0.5 = / 2) by lra. rewrite !H5.
  replace ((/ 2 * (-2 * r / (1 - r))) ^ 2 - -1 / (1 - r)) with ((r / (1 - r)) ^ 2 + 1 / (1 - r))
    by (field; lra).
  rewrite xsqrt_fin.
  - cbn [xadd]. unfold retro_coded. do 3 f_equal. replace (-0.5) with (- / 2) by lra. field. lra.
  - assert (0 < 1 / (1 - r)) by (apply Rdiv_lt_0_compat; lra). pose proof (pow2_ge_0 (r / (1 - r))). lra.
Qed.

Lemma short_retro p w : (length p < 4)%nat -> pt_retro p w = Raise IndexError.
Proof. intros H. destruct p as [|? [|? [|? [|? p]]]]; try reflexivity. cbn in H; lia. Qed.

Lemma retro_coded_root r : r < 1 -> let n := retro_coded r in
  0 < n /\ (1 - r) * n ^ 2 - 2 * r * n - 1 = 0.
Proof.
  intros Hr n. unfold n, retro_coded. set (a := r / (1 - r)). set (b := 1 / (1 - r)).
  assert (Hb : 0 < b) by (apply Rdiv_lt_0_compat; lra).
  assert (Hs : 0 < a ^ 2 + b) by (pose proof (pow2_ge_0 a); lra).
  set (q := sqrt (a ^ 2 + b)).
  assert (Hq : q ^ 2 = a ^ 2 + b) by (apply pow2_sqrt; lra).
  assert (Hq0 : 0 <= q) by apply sqrt_pos.
  split.
  - assert (Rabs a < q).
    { unfold q. rewrite <- sqrt_Rsqr_abs. apply sqrt_lt_1.
      - apply Rle_0_sqr. - lra. - unfold Rsqr. lra. }
    pose proof (Rle_abs (- a)). rewrite Rabs_Ropp in H0. lra.
  - assert (Ea : (1 - r) * a = r) by (unfold a; field; lra).
    assert (Eb : (1 - r) * b = 1) by (unfold b; field; lra).
    replace ((1 - r) * (a + q) ^ 2 - 2 * r * (a + q) - 1)
      with ((1 - r) * a ^ 2 + 2 * ((1 - r) * a) * q + (1 - r) * q ^ 2 - 2 * r * a - 2 * r * q - 1) by ring.
    rewrite Hq, Ea.
    replace ((1 - r) * a ^ 2 + 2 * r * q + (1 - r) * (a ^ 2 + b) - 2 * r * a - 2 * r * q - 1)
      with (2 * ((1 - r) * a) * a + (1 - r) * b - 2 * r * a - 1) by ring.
    rewrite Ea, Eb. ring.
Qed.

(** published: (n^2-1)/(n^2+2) = r; the coded value solves it only for r = 0 *)
Lemma retro_coded_wrong r : r < 1 -> r <> 0 ->
  let n := retro_coded r in (n ^ 2 - 1) / (n ^ 2 + 2) <> r.
Proof.
  intros Hr H0 n E. destruct (retro_coded_root r Hr) as [Hn Q]. fold n in Hn, Q.
  assert (P : 0 < n ^ 2 + 2) by (pose proof (pow2_ge_0 n); lra).
  assert (E2 : n ^ 2 - 1 = r * (n ^ 2 + 2)).
  { rewrite <- E. field. lra. }
  assert (E3 : 2 * r * (n - 1) = 0) by lra.
  assert (n = 1).
  { apply Rmult_integral in E3. destruct E3; lra. }
  rewrite H in E2. lra.
Qed.

Lemma retro_coded_zero : retro_coded 0 = 1.
Proof.
  unfold retro_coded. replace (0 / (1 - 0)) with 0 by field.
  replace (0 ^ 2 + 1 / (1 - 0)) with 1 by field. rewrite sqrt_1. ring.
Qed.

(** ** permittivity models *)
Lemma jloss_fin g e : j_loss (Fin g) (Fin e) = CF (0, g * e).
Proof. unfold j_loss. cbn. f_equal. apply C_eq; cbn; ring. Qed.

Lemma pair_neq0_l (a b : R) : a <> 0 -> (a, b) <> RtoC 0.
Proof. intros H E. injection E. intros; contradiction. Qed.
Lemma pair_neq0_r (a b : R) : b <> 0 -> (a, b) <> RtoC 0.
Proof. intros H E. injection E. intros; contradiction. Qed.

Lemma pt_drude_ok wp g extra e : e <> 0 ->
  pt_drude (map Fin [wp; g] ++ extra) (Fin e) = Ok (CF (drude wp g e)).
Proof.
  intros He. cbn [map app]. unfold pt_drude. pg. unfold xsq. rewrite !xsq_fin, jloss_fin.
  cbn [cx_of_xr]. unfold cxadd, cx2.
  replace (Cplus (RtoC (e ^ 2)) (0, g * e)) with ((e ^ 2, g * e) : CC) by (apply C_eq; cbn; ring).
  rewrite cxdiv_fin by (apply pair_neq0_l, pow_nonzero; assumption). reflexivity.
Qed.
Lemma short_drude p w : (length p < 2)%nat -> pt_drude p w = Raise IndexError.
Proof. intros H. destruct p as [|? [|? p]]; try reflexivity. cbn in H; lia. Qed.

Lemma Cconj_div (a : R) (z : CC) : z <> RtoC 0 -> Cconj (Cdiv (RtoC a) z) = Cdiv (RtoC a) (Cconj z).
Proof.
  intros Hz. unfold Cdiv. destruct z as [x y].
  assert (x ^ 2 + y ^ 2 <> 0).
  { intros E. apply Hz. assert (x = 0 /\ y = 0) as [-> ->]; [|reflexivity].
    pose proof (pow2_ge_0 x); pose proof (pow2_ge_0 y).
    split; apply Rsqr_0_uniq; unfold Rsqr; lra. }
  apply C_eq; unfold Cconj, Cmult, Cinv, RtoC; cbn [fst snd].
  - replace ((- y) ^ 2) with (y ^ 2) by ring. field. assumption.
  - replace ((- y) ^ 2) with (y ^ 2) by ring. field. assumption.
Qed.

Lemma pt_drude_lorentz_ok wp f w0 g extra e : w0 ^ 2 <> e ^ 2 \/ g * e <> 0 ->
  pt_drude_lorentz (map Fin [wp; f; w0; g] ++ extra) (Fin e) = Ok (CF (drude_lorentz wp f w0 g e)).
Proof.
  intros He. cbn [map app]. unfold pt_drude_lorentz. pg. unfold xsq. rewrite !xsq_fin, jloss_fin.
  rewrite xsub_fin, xmul_fin. cbn [cx_of_xr]. unfold cxadd at 2, cx2.
  replace (Cplus (RtoC (w0 ^ 2 - e ^ 2)) (0, g * e)) with ((w0 ^ 2 - e ^ 2, g * e) : CC)
    by (apply C_eq; cbn; ring).
  assert (N : (w0 ^ 2 - e ^ 2, g * e) <> RtoC 0).
  { destruct He; [apply pair_neq0_l; lra|now apply pair_neq0_r]. }
  rewrite cxdiv_fin by exact N. cbn [cxconj cx1]. rewrite Cconj_div by exact N. reflexivity.
Qed.
Lemma short_drude_lorentz p w : (length p < 4)%nat -> pt_drude_lorentz p w = Raise IndexError.
Proof. intros H. destruct p as [|? [|? [|? [|? p]]]]; try reflexivity. cbn in H; lia. Qed.

Lemma drude_im wp g e : 0 <= g -> 0 < e -> 0 <= snd (drude wp g e).
Proof.
  intros Hg He. unfold drude, Cdiv, Cminus, Cplus, Copp, Cmult, Cinv, RtoC. cbn [fst snd].
  set (D := (e ^ 2) ^ 2 + (g * e) ^ 2).
  assert (HD : 0 < D).
  { unfold D. pose proof (pow2_ge_0 (g * e)). assert (0 < e ^ 2) by (apply pow_lt; lra).
    assert (0 < (e ^ 2) ^ 2) by (apply pow_lt; lra). lra. }
  replace (0 + - (wp ^ 2 * (- (g * e) / D) + 0 * (e ^ 2 / D))) with (wp ^ 2 * (g * e) * / D)
    by (field; lra).
  apply Rmult_le_pos; [|left; now apply Rinv_0_lt_compat].
  apply Rmult_le_pos; [apply pow2_ge_0|]. apply Rmult_le_pos; lra.
Qed.

Lemma drude_lorentz_im wp f w0 g e : 0 <= g -> 0 <= f -> 0 < e -> 0 <= snd (drude_lorentz wp f w0 g e).
Proof.
  intros Hg Hf He. unfold drude_lorentz, Cdiv, Cminus, Cplus, Copp, Cmult, Cinv, RtoC. cbn [fst snd].
  set (D := (w0 ^ 2 - e ^ 2) ^ 2 + (- (g * e)) ^ 2).
  assert (HD : 0 <= D) by (unfold D; pose proof (pow2_ge_0 (w0 ^ 2 - e ^ 2));
     pose proof (pow2_ge_0 (- (g * e))); lra).
  replace (0 + (f * wp ^ 2 * (- - (g * e) / D) + 0 * ((w0 ^ 2 - e ^ 2) / D)))
    with (f * wp ^ 2 * (g * e) * / D) by (unfold Rdiv; ring).
  apply Rmult_le_pos.
  - apply Rmult_le_pos; [apply Rmult_le_pos; [lra|apply pow2_ge_0]|apply Rmult_le_pos; lra].
  - destruct HD as [HD|<-]; [left; now apply Rinv_0_lt_compat|rewrite Rinv_0; lra].
Qed.

Lemma drude_is_lorentz wp g e : e <> 0 -> drude_lorentz wp 1 0 g e = drude wp g e.
Proof.
  intros He. unfold drude_lorentz, drude, Cdiv, Cminus.
  assert (N : 0 < (e ^ 2) ^ 2 + (g * e) ^ 2).
  { pose proof (pow2_ge_0 (g * e)). assert (0 < e ^ 2).
    { assert (0 <= e ^ 2) by apply pow2_ge_0. assert (e ^ 2 <> 0) by now apply pow_nonzero. lra. }
    assert (0 < (e ^ 2) ^ 2) by (apply pow_lt; lra). lra. }
  apply C_eq; unfold Cplus, Copp, Cmult, Cinv, RtoC; cbn [fst snd].
  - replace ((0 ^ 2 - e ^ 2) ^ 2 + (- (g * e)) ^ 2) with ((e ^ 2) ^ 2 + (g * e) ^ 2) by ring. field. lra.
  - replace ((0 ^ 2 - e ^ 2) ^ 2 + (- (g * e)) ^ 2) with ((e ^ 2) ^ 2 + (g * e) ^ 2) by ring. field. lra.
Qed.

Lemma pt_fano_ok q er g extra e : g <> 0 ->
  pt_fano (map Fin [q; er; g] ++ extra) (Fin e) = Ok (Fin (fano q er g e)).
Proof.
  intros Hg. cbn [map app]. unfold pt_fano. pg. unfold num, xsq. rewrite xsub_fin, xmul_fin.
  rewrite xdiv_fin by assumption. cbn [xadd]. rewrite !xsq_fin. cbn [xadd].
  assert (P1 : 1 + q ^ 2 <> 0) by (pose proof (pow2_ge_0 q); lra).
  assert (P2 : (2 * (e - er) / g) ^ 2 + 1 <> 0) by (pose proof (pow2_ge_0 (2 * (e - er) / g)); lra).
  rewrite xdiv_fin by assumption. rewrite xmul_fin, xdiv_fin by assumption.
  do 2 f_equal. unfold fano. replace ((e - er) / (g / 2)) with (2 * (e - er) / g) by (field; lra).
  cbv zeta. set (x := 2 * (e - er) / g) in *. field. split; assumption.
Qed.
Lemma short_fano p w : (length p < 3)%nat -> pt_fano p w = Raise IndexError.
Proof. intros H. destruct p as [|? [|? [|? p]]]; try reflexivity. cbn in H; lia. Qed.

Lemma fano_bounds q er g e : 0 <= fano q er g e <= 1.
Proof.
  unfold fano. set (x := (e - er) / (g / 2)).
  assert (0 < (x ^ 2 + 1) * (1 + q ^ 2)).
  { pose proof (pow2_ge_0 x). pose proof (pow2_ge_0 q). apply Rmult_lt_0_compat; lra. }
  split.
  - apply Rmult_le_pos; [apply pow2_ge_0|left; now apply Rinv_0_lt_compat].
  - apply Rmult_le_reg_r with ((x ^ 2 + 1) * (1 + q ^ 2)); [assumption|].
    unfold Rdiv. rewrite Rmult_assoc, Rinv_l by lra.
    assert (0 <= (x * q - 1) ^ 2) by apply pow2_ge_0. lra.
Qed.
