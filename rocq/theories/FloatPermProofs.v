(** Lemmas about the permittivity in double precision *)
From Coq Require Import Reals Lra Lia ZArith.
From Flocq Require Import Core BinarySingleNaN Relative.
From Verif Require Import PyBase PyStr XReal SpectrumModel SpectrumSpec FloatModel FloatSpec FloatTableModel FloatProofs FloatCheckProofs FloatTableProofs FloatMixSpec FloatMixProofs FloatPermModel FloatPermSpec.
Open Scope R_scope. Open Scope string_scope. Open Scope list_scope.

Lemma prod_bound (a b : R) : Rabs a <= 2 ^ 500 -> Rabs b <= 2 ^ 500 -> Rabs (a * b) <= bpow radix2 1000.
Proof.
  intros A B. rewrite Rabs_mult. replace (bpow radix2 1000) with (2 ^ 500 * 2 ^ 500).
  - apply Rmult_le_compat; auto using Rabs_pos.
  - rewrite <- (bpow_pow 500). rewrite <- bpow_plus. reflexivity.
Qed.
Lemma sum_bound (a b : R) : Rabs a <= bpow radix2 1000 -> Rabs b <= bpow radix2 1000 -> Rabs (a + b) <= bpow radix2 1001.
Proof.
  intros A B. eapply Rle_trans; [apply Rabs_triang|]. replace (bpow radix2 1001) with (bpow radix2 1000 + bpow radix2 1000); [lra|].
  replace 1001%Z with (1 + 1000)%Z by reflexivity. rewrite bpow_plus. change (bpow radix2 1) with 2. lra.
Qed.
Lemma four_eta : / 2 ^ 1073 = 4 * eta0.
Proof. unfold eta0. replace 1075%nat with (2 + 1073)%nat by reflexivity. rewrite pow_add. field. Qed.
Lemma uu_1000 : uu <= / 1000000.
Proof. eapply Rle_trans; [apply uu_small|]. apply Rinv_le_contravar; [lra|]; simpl; lra. Qed.
#[local] Existing Instance prec53.
Lemma double_exact x : generic_format radix2 (FLT_exp (-1074) 53) x -> rnd (x + x) = x + x.
Proof.
  intros G. apply rnd_generic. replace (x + x) with (x * bpow radix2 1) by (change (bpow radix2 1) with 2; ring).
  destruct (FLT_format_generic radix2 (-1074) 53 x G) as [[m e] E M H]. cbn in M, H. rewrite E. apply generic_format_FLT.
  apply (FLT_spec _ _ _ _ (Float radix2 m (e + 1))); [|exact M|cbn; lia]. unfold F2R. cbn [Fnum Fexp]. rewrite bpow_plus. ring.
Qed.
Lemma square_ok (z : float * float) : squarable z -> square_of z (f_csquare z).
Proof.
  intros [[F1 M1] [F2 M2]]. unfold f_csquare. set (a := fst z) in *. set (b := snd z) in *. change (fin a) in F1. change (fin b) in F2.
  pose proof (prod_bound _ _ M1 M1) as Kaa. pose proof (prod_bound _ _ M2 M2) as Kbb. pose proof (prod_bound _ _ M1 M2) as Kab. pose proof (prod_bound _ _ M2 M1) as Kba.
  destruct (mul_fin a a F1 F1) as [A1 A2]; [apply (rnd_small _ 1000); [lia|exact Kaa]|]. destruct (mul_fin b b F2 F2) as [B1 B2]; [apply (rnd_small _ 1000); [lia|exact Kbb]|].
  destruct (mul_fin a b F1 F2) as [C1 C2]; [apply (rnd_small _ 1000); [lia|exact Kab]|]. destruct (mul_fin b a F2 F1) as [D1 D2]; [apply (rnd_small _ 1000); [lia|exact Kba]|].
  pose proof (rnd_abs_le _ 1000 ltac:(lia) Kaa) as La. pose proof (rnd_abs_le _ 1000 ltac:(lia) Kbb) as Lb. pose proof (rnd_abs_le _ 1000 ltac:(lia) Kab) as Lc. pose proof (rnd_abs_le _ 1000 ltac:(lia) Kba) as Ld.
  destruct (sub_ok _ _ A2 B2) as [R1 R2].
  { rewrite A1, B1. apply (rnd_small _ 1001); [lia|]. apply (sum_bound _ (- _)); [exact La|rewrite Rabs_Ropp; exact Lb]. }
  destruct (add_ok _ _ C2 D2) as [I1 I2].
  { rewrite C1, D1. apply (rnd_small _ 1001); [lia|]. apply sum_bound; assumption. }
  replace (B2R b * B2R a) with (B2R a * B2R b) in D1 by ring. rewrite C1, D1 in I1. rewrite double_exact in I1.
  2:{ unfold rnd. apply generic_format_round; [apply FLT_exp_valid; reflexivity|apply valid_rnd_N]. }
  unfold square_of. cbn [fst snd]. fold a b. split; [exact R2|]. split; [exact I2|].
  pose proof (rnd_err (B2R a * B2R a)) as Ea. pose proof (rnd_err (B2R b * B2R b)) as Eb. pose proof (rnd_err (B2R a * B2R b)) as Ec.
  pose proof (rnd_err (B2R (fmul a a) - B2R (fmul b b))) as Er. rewrite <- R1 in Er. rewrite <- A1 in Ea. rewrite <- B1 in Eb.
  change half_ulp with uu. rewrite four_eta. pose proof uu_pos as U0. pose proof uu_1000 as U1. pose proof eta_pos as N0.
  split.
  - clear - Ea Eb Er U0 U1 N0. revert Ea Eb Er. generalize (B2R (fsub (fmul a a) (fmul b b))), (B2R (fmul a a)), (B2R (fmul b b)). intros r p q Ea Eb Er.
    change (Rabs (r - (B2R a * B2R a - B2R b * B2R b)) <= (2 + / 1000) * uu * (B2R a * B2R a + B2R b * B2R b) + 4 * eta0).
    set (x := B2R a * B2R a) in *. set (y := B2R b * B2R b) in *. assert (0 <= x) as X by apply Rle_0_sqr. assert (0 <= y) as Y by apply Rle_0_sqr.
    rewrite (Rabs_pos_eq x) in Ea by exact X. rewrite (Rabs_pos_eq y) in Eb by exact Y. clearbody x y.
    set (v := uu * (x + y)). assert (uu * x + uu * y = v) as V by (unfold v; ring).
    assert (0 <= uu * x) by (apply Rmult_le_pos; lra). assert (0 <= uu * y) by (apply Rmult_le_pos; lra).
    replace ((2 + / 1000) * uu * (x + y)) with ((2 + / 1000) * v) by (unfold v; ring).
    assert (Rabs (p - q) <= x + y + v + 2 * eta0) as Bp.
    { replace (p - q) with ((p - x) - (q - y) + (x - y)) by ring. pose proof (Rabs_triang ((p - x) - (q - y)) (x - y)) as T1. pose proof (Rabs_triang (p - x) (- (q - y))) as T2. rewrite Rabs_Ropp in T2.
      assert (Rabs (x - y) <= x + y) by (apply Rabs_le; lra). unfold Rminus in *. lra. }
    assert (uu * Rabs (p - q) <= v + / 1000000 * v + / 1000000 * (2 * eta0)) as Bu.
    { eapply Rle_trans; [apply Rmult_le_compat_l; [lra|exact Bp]|]. replace (uu * (x + y + v + 2 * eta0)) with (v + uu * v + uu * (2 * eta0)) by (unfold v; ring).
      assert (0 <= v) by lra. assert (uu * v <= / 1000000 * v) by (apply Rmult_le_compat_r; lra). assert (uu * (2 * eta0) <= / 1000000 * (2 * eta0)) by (apply Rmult_le_compat_r; lra). lra. }
    replace (r - (x - y)) with ((r - (p - q)) + (p - x) + - (q - y)) by ring.
    pose proof (Rabs_triang ((r - (p - q)) + (p - x)) (- (q - y))) as T1. pose proof (Rabs_triang (r - (p - q)) (p - x)) as T2. rewrite Rabs_Ropp in T1. lra.
  - change (Rabs (B2R (fadd (fmul a b) (fmul b a)) - 2 * B2R a * B2R b) <= uu * Rabs (2 * B2R a * B2R b) + 4 * eta0). rewrite I1. replace (rnd (B2R a * B2R b) + rnd (B2R a * B2R b) - 2 * B2R a * B2R b) with (2 * (rnd (B2R a * B2R b) - B2R a * B2R b)) by ring.
    replace (2 * B2R a * B2R b) with (2 * (B2R a * B2R b)) by ring. rewrite !Rabs_mult, !(Rabs_pos_eq 2) by lra. rewrite <- Rabs_mult. lra.
Qed.
(** the exact cases *)
Lemma square_transparent (z : float * float) : squarable z -> B2R (snd z) = 0 ->
  B2R (fst (f_csquare z)) = rnd (B2R (fst z) * B2R (fst z)) /\ B2R (snd (f_csquare z)) = 0.
Proof.
  intros [[F1 M1] [F2 M2]] Z. unfold f_csquare. set (a := fst z) in *. set (b := snd z) in *. change (fin a) in F1. change (fin b) in F2. change (B2R b = 0) in Z. cbn [fst snd].
  destruct (mul_fin a a F1 F1) as [A1 A2]; [apply (rnd_small _ 1000); [lia|exact (prod_bound _ _ M1 M1)]|].
  destruct (zero_mul b b F2 F2 ltac:(rewrite Z; ring)) as [B1 B2]. destruct (zero_mul a b F1 F2 ltac:(rewrite Z; ring)) as [C1 C2]. destruct (zero_mul b a F2 F1 ltac:(rewrite Z; ring)) as [D1 D2].
  destruct (sub_zero _ _ A2 B2 B1) as [R1 _]. destruct (add_zero _ _ C2 D2 D1) as [I1 _]. split; [exact (eq_trans R1 A1)|exact (eq_trans I1 C1)].
Qed.
Lemma square_passive (z : float * float) : squarable z -> 0 <= B2R (fst z) -> 0 <= B2R (snd z) -> 0 <= B2R (snd (f_csquare z)).
Proof.
  intros [[F1 M1] [F2 M2]] P Q. unfold f_csquare. set (a := fst z) in *. set (b := snd z) in *. change (fin a) in F1. change (fin b) in F2. change (0 <= B2R a) in P. change (0 <= B2R b) in Q. cbn [fst snd].
  pose proof (prod_bound _ _ M1 M2) as Kab. pose proof (prod_bound _ _ M2 M1) as Kba.
  destruct (mul_fin a b F1 F2) as [C1 C2]; [apply (rnd_small _ 1000); [lia|exact Kab]|]. destruct (mul_fin b a F2 F1) as [D1 D2]; [apply (rnd_small _ 1000); [lia|exact Kba]|].
  pose proof (rnd_abs_le _ 1000 ltac:(lia) Kab) as Lc. pose proof (rnd_abs_le _ 1000 ltac:(lia) Kba) as Ld.
  destruct (add_ok _ _ C2 D2) as [I1 I2].
  { rewrite C1, D1. apply (rnd_small _ 1001); [lia|]. apply sum_bound; assumption. }
  assert (rnd 0 = 0) as R0 by (apply rnd_generic, generic_format_0).
  assert (forall x, 0 <= x -> 0 <= rnd x) as Pos by (intros x X; rewrite <- R0; now apply rnd_le).
  apply (eq_ind_r (fun v => 0 <= v)) with (2 := I1). apply Pos. rewrite C1, D1. apply Rplus_le_le_0_compat; apply Pos, Rmult_le_pos; assumption.
Qed.
