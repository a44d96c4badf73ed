(** Lemmas about linear mixing in double precision *)
From Coq Require Import Reals Lra Lia ZArith.
From Flocq Require Import Core BinarySingleNaN Relative Sterbenz.
From Verif Require Import PyBase PyStr XReal SpectrumModel SpectrumSpec FloatModel FloatSpec FloatTableModel FloatTableSpec FloatProofs FloatConvProofs FloatRangeProofs FloatCheckProofs FloatTableProofs FloatThms FloatTableThms FloatMixModel FloatMixSpec.
Open Scope R_scope. Open Scope string_scope. Open Scope list_scope.

Lemma bpow_pow n : bpow radix2 (Z.of_nat n) = 2 ^ n.
Proof. induction n as [|n IH]; [reflexivity|]. rewrite Nat2Z.inj_succ, <- Z.add_1_r, bpow_plus, IH. cbn [pow]. replace (bpow radix2 1) with 2 by reflexivity. ring. Qed.
Definition eta0 : R := / 2 ^ 1075.
Lemma eta_pos : 0 < eta0. Proof. apply Rinv_0_lt_compat, pow_lt. lra. Qed.
Lemma rnd_err x : Rabs (rnd x - x) <= uu * Rabs x + eta0.
Proof.
  destruct (error_N_FLT radix2 (-1074) 53 eq_refl (fun n => negb (Z.even n)) x) as (e & h & E & H & _ & Q). unfold rnd. rewrite Q.
  replace (x * (1 + e) + h - x) with (e * x + h) by ring. eapply Rle_trans; [apply Rabs_triang|]. rewrite Rabs_mult. apply Rplus_le_compat.
  - apply Rmult_le_compat_r; [apply Rabs_pos|]. eapply Rle_trans; [exact E|]. apply Req_le. unfold uu. rewrite <- (bpow_pow 53). rewrite <- bpow_opp. replace (/ 2) with (bpow radix2 (-1)) by (cbn; lra). rewrite <- bpow_plus. reflexivity.
  - eapply Rle_trans; [exact H|]. apply Req_le. unfold eta0. rewrite <- (bpow_pow 1075). rewrite <- bpow_opp. replace (/ 2) with (bpow radix2 (-1)) by (cbn; lra). rewrite <- bpow_plus. reflexivity.
Qed.
Lemma rnd_abs_le x e : (-1021 <= e)%Z -> Rabs x <= bpow radix2 e -> Rabs (rnd x) <= bpow radix2 e.
Proof. intros E H. apply abs_round_le_generic; [apply FLT_exp_valid; reflexivity|apply valid_rnd_N| |exact H]. apply generic_format_bpow. unfold FLT_exp. lia. Qed.
Lemma rnd_small x e : (-1021 <= e < 1024)%Z -> Rabs x <= bpow radix2 e -> Rabs (rnd x) < bpow radix2 1024.
Proof. intros [E E'] H. eapply Rle_lt_trans; [apply rnd_abs_le; eassumption|]. now apply bpow_lt. Qed.
Lemma add_ok a b : fin a -> fin b -> Rabs (rnd (B2R a + B2R b)) < bpow radix2 1024 -> B2R (fadd a b) = rnd (B2R a + B2R b) /\ fin (fadd a b).
Proof.
  intros A B H. pose proof (@Bplus_correct 53 1024 prec53 emax1024 mode_NE a b A B) as P.
  change (round radix2 (SpecFloat.fexp 53 1024) (round_mode mode_NE) (B2R a + B2R b)) with (rnd (B2R a + B2R b)) in P.
  rewrite Rlt_bool_true in P by exact H. destruct P as (P1 & P2 & _). split; [exact P1|exact P2].
Qed.
Lemma sub_ok a b : fin a -> fin b -> Rabs (rnd (B2R a - B2R b)) < bpow radix2 1024 -> B2R (fsub a b) = rnd (B2R a - B2R b) /\ fin (fsub a b).
Proof.
  intros A B H. pose proof (@Bminus_correct 53 1024 prec53 emax1024 mode_NE a b A B) as P.
  change (round radix2 (SpecFloat.fexp 53 1024) (round_mode mode_NE) (B2R a - B2R b)) with (rnd (B2R a - B2R b)) in P.
  rewrite Rlt_bool_true in P by exact H. destruct P as (P1 & P2 & _). split; [exact P1|exact P2].
Qed.
Lemma mul_fin a b : fin a -> fin b -> Rabs (rnd (B2R a * B2R b)) < bpow radix2 1024 -> B2R (fmul a b) = rnd (B2R a * B2R b) /\ fin (fmul a b).
Proof. intros A B H. destruct (mul_ok a b H) as [P Q]. split; [exact P|]. unfold fin in *. now rewrite Q, A, B. Qed.
Lemma zero_ok : B2R (of_Z 0) = 0 /\ fin (of_Z 0).
Proof. apply of_Z_ok. vm_compute; congruence. Qed.
Lemma one_ok : B2R (of_Z 1) = 1 /\ fin (of_Z 1).
Proof. apply of_Z_ok. vm_compute; congruence. Qed.

(** 1 - f is rounded with a relative error even for the smallest f *)
Lemma complement_ok f : fin f -> 0 <= B2R f <= 1 -> let c := fsub (of_Z 1) f in
  fin c /\ 0 <= B2R c <= 1 /\ Rabs (B2R c - (1 - B2R f)) <= uu * (1 - B2R f).
Proof.
  intros F B c. destruct one_ok as [O1 O2]. unfold c.
  assert (rnd 1 = 1) as R1 by (apply rnd_generic, (generic_Z 1); vm_compute; congruence).
  assert (rnd 0 = 0) as R0 by (apply rnd_generic, generic_format_0).
  assert (0 <= rnd (1 - B2R f) <= 1) as Bd.
  { split; [rewrite <- R0|rewrite <- R1]; apply rnd_le; lra. }
  destruct (sub_ok (of_Z 1) f O2 F) as [P Q].
  { rewrite O1. rewrite Rabs_pos_eq by lra. eapply Rle_lt_trans; [apply Bd|]. change 1 with (bpow radix2 0). now apply bpow_lt. }
  rewrite O1 in P. rewrite P. split; [exact Q|]. split; [exact Bd|].
  destruct (Rle_lt_dec (/ 2) (B2R f)) as [H|H].
  - rewrite rnd_generic.
    + replace (1 - B2R f - (1 - B2R f)) with 0 by ring. rewrite Rabs_R0. apply Rmult_le_pos; [apply Rlt_le, uu_pos|lra].
    + apply sterbenz; [apply FLT_exp_valid; reflexivity|apply FLT_exp_monotone|apply (generic_Z 1); vm_compute; congruence|apply (generic_format_B2R 53 1024 f)|lra].
  - apply rnd_pos_err. apply Rle_trans with (bpow radix2 (-1)); [apply bpow_le; lia|]. cbn. lra.
Qed.

(** one part of the mixture *)
Definition part (f a b : float) : float := fadd (fmul a (fsub (of_Z 1) f)) (fmul b f).
Lemma part_ok f a b : fin f -> 0 <= B2R f <= 1 -> moderate a -> moderate b ->
  fin (fmul a (fsub (of_Z 1) f)) /\ fin (fmul b f) /\ fin (part f a b) /\
  (Rabs (rnd (B2R (fmul a (fsub (of_Z 1) f)) + B2R (fmul b f))) < bpow radix2 1024) /\ mixed (B2R f) (B2R a) (B2R b) (B2R (part f a b)).
Proof.
  intros F B [Fa Ma] [Fb Mb]. destruct (complement_ok f F B) as (Fc & Bc & Ec). unfold part. set (c := fsub (of_Z 1) f) in *.
  rewrite <- (bpow_pow 1000) in Ma, Mb. change (Z.of_nat 1000) with 1000%Z in Ma, Mb.
  assert (Rabs (B2R a * B2R c) <= bpow radix2 1000) as K1.
  { rewrite Rabs_mult, (Rabs_pos_eq (B2R c)) by lra. rewrite <- (Rmult_1_r (bpow radix2 1000)). apply Rmult_le_compat; [apply Rabs_pos|lra|exact Ma|lra]. }
  assert (Rabs (B2R b * B2R f) <= bpow radix2 1000) as K2.
  { rewrite Rabs_mult, (Rabs_pos_eq (B2R f)) by lra. rewrite <- (Rmult_1_r (bpow radix2 1000)). apply Rmult_le_compat; [apply Rabs_pos|lra|exact Mb|lra]. }
  destruct (mul_fin a c Fa Fc) as [P1 P2]; [apply (rnd_small _ 1000); [lia|exact K1]|].
  destruct (mul_fin b f Fb F) as [Q1 Q2]; [apply (rnd_small _ 1000); [lia|exact K2]|].
  pose proof (rnd_abs_le _ 1000 ltac:(lia) K1) as L1. pose proof (rnd_abs_le _ 1000 ltac:(lia) K2) as L2. rewrite <- P1 in L1. rewrite <- Q1 in L2.
  assert (Rabs (rnd (B2R (fmul a c) + B2R (fmul b f))) < bpow radix2 1024) as S0.
  { apply (rnd_small _ 1001); [lia|]. eapply Rle_trans; [apply Rabs_triang|]. replace (bpow radix2 1001) with (bpow radix2 1000 + bpow radix2 1000); [lra|].
    replace 1001%Z with (1 + 1000)%Z by reflexivity. rewrite bpow_plus. change (bpow radix2 1) with 2. lra. }
  destruct (add_ok _ _ P2 Q2 S0) as [S1 S2].
  split; [exact P2|]. split; [exact Q2|]. split; [exact S2|]. split; [exact S0|]. unfold mixed. rewrite S1. clear S0.
  pose proof (rnd_err (B2R a * B2R c)) as E1. rewrite <- P1 in E1. pose proof (rnd_err (B2R b * B2R f)) as E2. rewrite <- Q1 in E2.
  pose proof (rnd_err (B2R (fmul a c) + B2R (fmul b f))) as E3.
  revert E1 E2 E3 Ec B Bc. generalize (B2R (fmul a c)), (B2R (fmul b f)), (B2R a), (B2R b), (B2R c), (B2R f). clear. intros p q a b c f E1 E2 E3 Ec B Bc.
  set (s := rnd (p + q)) in *. clearbody s.
  set (A := Rabs a * (1 - f)). set (D := Rabs b * f).
  assert (Rabs ((1 - f) * a) = A) as HA by (unfold A; rewrite Rabs_mult, Rabs_pos_eq by lra; ring).
  assert (Rabs (f * b) = D) as HD by (unfold D; rewrite Rabs_mult, Rabs_pos_eq by lra; ring).
  rewrite HA, HD. replace (Rabs (b * f)) with D in E2 by (rewrite <- HD; f_equal; ring).
  assert (0 <= A) as PA by (unfold A; apply Rmult_le_pos; [apply Rabs_pos|lra]). assert (0 <= D) as PD by (unfold D; apply Rmult_le_pos; [apply Rabs_pos|lra]).
  assert (Rabs (a * c - a * (1 - f)) <= uu * A) as E0.
  { replace (a * c - a * (1 - f)) with (a * (c - (1 - f))) by ring. rewrite Rabs_mult. replace (uu * A) with (Rabs a * (uu * (1 - f))) by (unfold A; ring). apply Rmult_le_compat_l; [apply Rabs_pos|exact Ec]. }
  pose proof uu_pos as U0. pose proof uu_small as U1. assert (uu <= / 1000) as U2 by (eapply Rle_trans; [exact U1|]; apply Rinv_le_contravar; [lra|]; simpl; lra). clear U1.
  pose proof eta_pos as N0.
  change half_ulp with uu. replace (/ 2 ^ 1073) with (4 * eta0).
  2:{ unfold eta0. replace 1075%nat with (2 + 1073)%nat by reflexivity. rewrite pow_add. field. }
  set (x := uu * A) in *. set (y := uu * D) in *. replace (4 * uu * (A + D)) with (4 * x + 4 * y) by (unfold x, y; ring).
  assert (0 <= x) as X0 by (unfold x; apply Rmult_le_pos; lra). assert (0 <= y) as Y0 by (unfold y; apply Rmult_le_pos; lra).
  assert (uu * x <= / 1000 * x) as X1 by (apply Rmult_le_compat_r; lra). assert (uu * y <= / 1000 * y) as Y1 by (apply Rmult_le_compat_r; lra).
  assert (uu * eta0 <= / 1000 * eta0) as N1 by (apply Rmult_le_compat_r; lra).
  assert (Rabs (a * c) <= A + x) as B1.
  { replace (a * c) with (a * (1 - f) + (a * c - a * (1 - f))) by ring. eapply Rle_trans; [apply Rabs_triang|]. replace (Rabs (a * (1 - f))) with A by (rewrite <- HA; f_equal; ring). lra. }
  assert (uu * Rabs (a * c) <= x + / 1000 * x) as B2 by (eapply Rle_trans; [apply Rmult_le_compat_l; [lra|exact B1]|]; rewrite Rmult_plus_distr_l; fold x; lra).
  assert (Rabs (p - a * (1 - f)) <= 2 * x + / 1000 * x + eta0) as EP.
  { replace (p - a * (1 - f)) with ((p - a * c) + (a * c - a * (1 - f))) by ring. eapply Rle_trans; [apply Rabs_triang|]. lra. }
  assert (Rabs (p + q) <= A + D + 2 * x + / 1000 * x + y + 2 * eta0) as BS.
  { replace (p + q) with ((p - a * (1 - f)) + (q - b * f) + ((1 - f) * a + f * b)) by ring. eapply Rle_trans; [apply Rabs_triang|]. pose proof (Rabs_triang ((1 - f) * a) (f * b)) as T1. pose proof (Rabs_triang (p - a * (1 - f)) (q - b * f)) as T2. rewrite HA, HD in T1. lra. }
  assert (uu * Rabs (p + q) <= x + y + / 1000 * (2 * x + / 1000 * x + y + 2 * eta0)) as B3.
  { eapply Rle_trans; [apply Rmult_le_compat_l; [lra|exact BS]|]. rewrite !Rmult_plus_distr_l. fold x y.
    replace (uu * (2 * x)) with (2 * (uu * x)) by ring. replace (uu * (/ 1000 * x)) with (/ 1000 * (uu * x)) by ring. replace (uu * (2 * eta0)) with (2 * (uu * eta0)) by ring. lra. }
  replace (s - ((1 - f) * a + f * b)) with ((s - (p + q)) + (p - a * (1 - f)) + (q - b * f)) by ring.
  pose proof (Rabs_triang (s - (p + q) + (p - a * (1 - f))) (q - b * f)) as T1. pose proof (Rabs_triang (s - (p + q)) (p - a * (1 - f))) as T2. lra.
Qed.
(** the products with the imaginary part 0 of the fraction *)
Lemma scale_ok z x : fin (fst z) -> fin (snd z) -> fin (fmul (fst z) x) -> fin (fmul (snd z) x) ->
  B2R (fst (f_cscale z x)) = B2R (fmul (fst z) x) /\ fin (fst (f_cscale z x)) /\ B2R (snd (f_cscale z x)) = B2R (fmul (snd z) x) /\ fin (snd (f_cscale z x)).
Proof.
  intros A B P Q. destruct zero_ok as [Z1 Z2]. unfold f_cscale. cbn [fst snd].
  destruct (zero_mul (snd z) (of_Z 0) B Z2 ltac:(rewrite Z1; apply Rmult_0_r)) as [C1 C2]. destruct (zero_mul (fst z) (of_Z 0) A Z2 ltac:(rewrite Z1; apply Rmult_0_r)) as [D1 D2].
  destruct (sub_zero _ _ P C2 C1) as [E1 E2]. destruct (add_zero_l _ _ D2 Q D1) as [F1 F2]. repeat split; assumption.
Qed.

(** one sample *)
Lemma mix_ok f (z w : float * float) : fin f -> 0 <= B2R f <= 1 -> moderate2 z -> moderate2 w ->
  fin (fst (f_simple_mix f z w)) /\ fin (snd (f_simple_mix f z w)) /\
  mixed (B2R f) (B2R (fst z)) (B2R (fst w)) (B2R (fst (f_simple_mix f z w))) /\ mixed (B2R f) (B2R (snd z)) (B2R (snd w)) (B2R (snd (f_simple_mix f z w))).
Proof.
  intros F B Mz Mw. assert (moderate (fst z)) as Mz1 by apply Mz. assert (moderate (snd z)) as Mz2 by apply Mz. assert (moderate (fst w)) as Mw1 by apply Mw. assert (moderate (snd w)) as Mw2 by apply Mw.
  destruct (part_ok f (fst z) (fst w) F B Mz1 Mw1) as (A1 & A2 & A3 & A4 & A5). destruct (part_ok f (snd z) (snd w) F B Mz2 Mw2) as (B1 & B2 & B3 & B4 & B5).
  destruct (scale_ok z (fsub (of_Z 1) f) (proj1 Mz1) (proj1 Mz2) A1 B1) as (C1 & C2 & C3 & C4). destruct (scale_ok w f (proj1 Mw1) (proj1 Mw2) A2 B2) as (D1 & D2 & D3 & D4).
  unfold f_simple_mix, f_cadd. cbn [fst snd].
  destruct (add_ok _ _ A1 A2 A4) as [E1 _]. destruct (add_ok _ _ B1 B2 B4) as [G1 _].
  destruct (add_ok _ _ C2 D2 ltac:(rewrite C1, D1; exact A4)) as [H1 H2]. destruct (add_ok _ _ C4 D4 ltac:(rewrite C3, D3; exact B4)) as [I1 I2].
  split; [exact H2|]. split; [exact I2|]. rewrite C1, D1 in H1. rewrite C3, D3 in I1. rewrite <- E1 in H1. rewrite <- G1 in I1. rewrite H1, I1. split; assumption.
Qed.
(** nothing of the second, or nothing of the first *)
Lemma mul_exact a c (v : float) : fin a -> fin c -> B2R a * B2R c = B2R v -> B2R (fmul a c) = B2R v /\ fin (fmul a c).
Proof.
  intros A C E. assert (rnd (B2R v) = B2R v) as G by (apply rnd_generic; apply (generic_format_B2R 53 1024 v)).
  destruct (mul_fin a c A C) as [P Q]; [rewrite E, G; apply (abs_B2R_lt_emax 53 1024 v)|]. split; [rewrite P, E; exact G|exact Q].
Qed.
Lemma mix_none f (z w : float * float) : exactly 0 f -> fin (fst z) -> fin (snd z) -> fin (fst w) -> fin (snd w) ->
  exactly2 (B2R (fst z)) (B2R (snd z)) (f_simple_mix f z w).
Proof.
  intros [Ff Ef] Z1 Z2 W1 W2. destruct zero_ok as [O1 O2]. destruct one_ok as [I1 I2].
  destruct (sub_zero (of_Z 1) f I2 Ff Ef) as [C1 C2]. rewrite I1 in C1.
  destruct (mul_exact (fst z) _ (fst z) Z1 C2 ltac:(rewrite C1; ring)) as [A1 A2]. destruct (mul_exact (snd z) _ (snd z) Z2 C2 ltac:(rewrite C1; ring)) as [B1 B2].
  destruct (mul_exact (fst w) f (of_Z 0) W1 Ff ltac:(rewrite Ef, O1; ring)) as [D1 D2]. destruct (mul_exact (snd w) f (of_Z 0) W2 Ff ltac:(rewrite Ef, O1; ring)) as [E1 E2].
  destruct (scale_ok z _ Z1 Z2 A2 B2) as (F1 & F2 & F3 & F4). destruct (scale_ok w f W1 W2 D2 E2) as (G1 & G2 & G3 & G4).
  destruct (add_zero _ _ F2 G2 ltac:(rewrite G1, D1; exact O1)) as [H1 H2]. destruct (add_zero _ _ F4 G4 ltac:(rewrite G3, E1; exact O1)) as [K1 K2].
  split; split; [exact H2|exact (eq_trans H1 (eq_trans F1 A1))|exact K2|exact (eq_trans K1 (eq_trans F3 B1))].
Qed.
Lemma mix_all f (z w : float * float) : exactly 1 f -> fin (fst z) -> fin (snd z) -> fin (fst w) -> fin (snd w) ->
  exactly2 (B2R (fst w)) (B2R (snd w)) (f_simple_mix f z w).
Proof.
  intros [Ff Ef] Z1 Z2 W1 W2. destruct zero_ok as [O1 O2]. destruct one_ok as [I1 I2].
  destruct (sub_ok (of_Z 1) f I2 Ff) as [C1 C2].
  { rewrite I1, Ef. replace (1 - 1) with 0 by ring. rewrite rnd_generic by apply generic_format_0. rewrite Rabs_R0. apply bpow_gt_0. }
  rewrite I1, Ef in C1. replace (1 - 1) with 0 in C1 by ring. rewrite rnd_generic in C1 by apply generic_format_0.
  destruct (mul_exact (fst z) _ (of_Z 0) Z1 C2 ltac:(rewrite C1, O1; ring)) as [A1 A2]. destruct (mul_exact (snd z) _ (of_Z 0) Z2 C2 ltac:(rewrite C1, O1; ring)) as [B1 B2].
  destruct (mul_exact (fst w) f (fst w) W1 Ff ltac:(rewrite Ef; ring)) as [D1 D2]. destruct (mul_exact (snd w) f (snd w) W2 Ff ltac:(rewrite Ef; ring)) as [E1 E2].
  destruct (scale_ok z _ Z1 Z2 A2 B2) as (F1 & F2 & F3 & F4). destruct (scale_ok w f W1 W2 D2 E2) as (G1 & G2 & G3 & G4).
  destruct (add_zero_l _ _ F2 G2 ltac:(rewrite F1, A1; exact O1)) as [H1 H2]. destruct (add_zero_l _ _ F4 G4 ltac:(rewrite F3, B1; exact O1)) as [K1 K2].
  split; split; [exact H2|exact (eq_trans H1 (eq_trans G1 D1))|exact K2|exact (eq_trans K1 (eq_trans G3 E1))].
Qed.

(** ** the medium *)
Lemma map_fst_combine {A B} (l : list A) (m : list B) : length l = length m -> map fst (combine l m) = l.
Proof. revert m. induction l as [|a l IH]; intros [|b m] L; cbn in *; try reflexivity; try discriminate. f_equal. apply IH. lia. Qed.
Lemma map_snd_combine {A B} (l : list A) (m : list B) : length l = length m -> map snd (combine l m) = m.
Proof. revert m. induction l as [|a l IH]; intros [|b m] L; cbn in *; try reflexivity; try discriminate. f_equal. apply IH. lia. Qed.
Lemma table_eval lib (ws ys : list float) s : exact_at_knots lib -> tabulable ws -> length ys = length ws -> fp_std s = FA ws ->
  exists d, f_spec_data (combine ws ys) "wavelength" "m" = Ok d /\ f_evaluate lib d s = Ok (FA ys).
Proof.
  intros K (L & F & N) E S. change (2 <= @length float ws)%nat in L. change (NoDup (@map float R (@B2R 53 1024) ws)) in N. change (Forall fin ws) in F. assert (map fst (combine ws ys) = ws) as M by (apply map_fst_combine; lia).
  assert (tabulable ws) as T0 by (repeat split; assumption). assert (exact_at_rows lib (combine ws ys)) as X by (apply K; exact (eq_ind_r tabulable T0 M)).
  assert (length (combine ws ys) = length ws) as Ln by (rewrite <- M at 2; now rewrite map_length).
  assert (combine ws ys <> []) as Nr by (intros Q; rewrite Q in Ln; cbn in Ln; lia).
  destruct (table_ok (combine ws ys) "wavelength" "m" "m" "wavelength") as (r & mn & mx & T & T1 & T2 & V & Fm & Fx & H).
  { lia. } { rewrite M. exact F. } { assert (map (fun r : float * float => @B2R 53 1024 (fst r)) (combine ws ys) = @map float R (@B2R 53 1024) ws) as N' by (rewrite <- M at 2; symmetry; apply map_map). exact (eq_ind_r (@NoDup R) N N'). } { intros mn mx. eexists. split; [reflexivity|]. repeat split. }
  exists (FTable "wavelength" "m" r (combine ws ys)). split.
  - unfold f_spec_data. rewrite T. destruct (combine ws ys) as [|[x y] [|]]; [reflexivity| |reflexivity]. cbn in Ln. lia.
  - replace ys with (map (lib (combine ws ys)) ws) at 2.
    + apply (eval_array lib (combine ws ys) "wavelength" "m" r mn mx s ws); rewrite ?M; auto.
      all: try (rewrite ?T1, ?T2; unfold f_convert_to; change (lower "wavelength") with "wavelength"; rewrite S; reflexivity).
      all: try (intros Q; rewrite Q in L; cbn in L; lia). all: try (intros x; apply own_in_hull). all: try (intros x Ix; apply own_in_hull; rewrite M; exact Ix). all: try (rewrite M; exact F). all: try (intros g; rewrite H; rewrite M; reflexivity).
    + rewrite <- M at 2. rewrite <- (map_snd_combine ws ys) at 3 by lia. rewrite map_map. apply map_ext_in. intros [x y] I. apply X. exact I.
Qed.
Lemma simple_ok lib p1 p2 s f (ws : list float) (z1 z2 : list (float * float)) : exact_at_knots lib -> fin f -> 0 <= B2R f <= 1 -> fp_std s = FA ws -> tabulable ws ->
  p1 s = Ok (FCA z1) -> p2 s = Ok (FCA z2) -> length z1 = length ws -> length z2 = length ws ->
  let mix := map (fun p => f_simple_mix f (fst p) (snd p)) (combine z1 z2) in
  exists m s', f_simple p1 p2 s f = Ok (m, s') /\ fp_std s' = FA ws /\ fp_values s' = FA ws /\ fp_type s' = "wavelength" /\ fp_unit s' = "m" /\
    forall t, fp_std t = FA ws -> f_get_eps lib m t = Ok (FCA (map (fun z => f_complex (fst z) (snd z)) mix)).
Proof.
  intros K F B S T P1 P2 L1 L2 mix. unfold f_simple. destruct zero_ok as [O1 O2]. destruct one_ok as [I1 I2].
  rewrite !flt_ok by assumption. rewrite O1, I1, !Rlt_bool_false by lra. cbn [orb]. rewrite P1. cbn [bind]. rewrite P2. cbn [bind f_simple_vals].
  replace (Nat.eqb (length z1) (length z2)) with true by (symmetry; apply Nat.eqb_eq; lia). cbn [bind]. fold mix.
  replace (f_convert_to s "wavelength" "m") with (Ok (FA ws) : res fvals) by (unfold f_convert_to; change (lower "wavelength") with "wavelength"; rewrite S; reflexivity). cbn [bind felems].
  assert (length mix = length ws) as Lm by (unfold mix; rewrite map_length, combine_length; lia).
  replace (Nat.eqb (length ws) (length mix)) with true by (symmetry; apply Nat.eqb_eq; lia). cbn [bind].
  destruct (table_eval lib ws (map fst mix) s K T ltac:(rewrite map_length; lia) S) as (a & Ea & _). destruct (table_eval lib ws (map snd mix) s K T ltac:(rewrite map_length; lia) S) as (b & Eb & _).
  rewrite Ea. cbn [bind]. rewrite Eb. cbn [bind]. do 2 eexists. split; [reflexivity|]. cbn. split; [exact S|]. do 3 (split; [reflexivity|]).
  intros t St.
  destruct (table_eval lib ws (map fst mix) t K T ltac:(rewrite map_length; lia) St) as (a' & Ea' & Va). destruct (table_eval lib ws (map snd mix) t K T ltac:(rewrite map_length; lia) St) as (b' & Eb' & Vb).
  rewrite Ea in Ea'. injection Ea' as <-. rewrite Eb in Eb'. injection Eb' as <-. unfold f_get_eps. cbn [fst snd]. rewrite Va. cbn [bind]. rewrite Vb. cbn [bind f_combine felems]. do 2 f_equal.
  clear. induction mix as [|z l IH]; [reflexivity|]. cbn [map combine fst snd]. now rewrite IH.
Qed.
Lemma mix_values f (z1 z2 : list (float * float)) (P : float * float -> float * float -> float * float -> Prop) : length z1 = length z2 ->
  (forall z w, In z z1 -> In w z2 -> P z w (f_complex (fst (f_simple_mix f z w)) (snd (f_simple_mix f z w)))) ->
  Forall2 (fun p e => P (fst p) (snd p) e) (combine z1 z2) (map (fun z => f_complex (fst z) (snd z)) (map (fun p => f_simple_mix f (fst p) (snd p)) (combine z1 z2))).
Proof.
  revert z2. induction z1 as [|z z1 IH]; intros [|w z2] L H; cbn in L; try discriminate; [constructor|]. cbn [combine map fst snd]. constructor.
  - cbn [fst snd]. apply H; left; reflexivity.
  - apply IH; [lia|]. intros a b Ia Ib. apply H; right; assumption.
Qed.
