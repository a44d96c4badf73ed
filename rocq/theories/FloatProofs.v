(** Lemmas about binary64 arithmetic on positive numbers *)
From Coq Require Import Reals Lra Lia ZArith.
From Flocq Require Import Core BinarySingleNaN Relative.
From Verif Require Import PyBase FloatModel.
Open Scope R_scope.

(** ** rounding *)
Definition rnd (x : R) : R := round radix2 (FLT_exp (-1074) 53) ZnearestE x.
Definition uu : R := / 2 ^ 53.
Lemma uu_pos : 0 < uu. Proof. unfold uu. apply Rinv_0_lt_compat, pow_lt. lra. Qed.
Lemma uu_small : uu <= / 10 ^ 15.
Proof. unfold uu. apply Rinv_le; [apply pow_lt; lra|]. lra. Qed.

Lemma rnd_pos_err : forall x, bpow radix2 (-1022) <= x -> Rabs (rnd x - x) <= uu * x.
Proof.
  intros x Hx. assert (0 < x) by (pose proof (bpow_gt_0 radix2 (-1022)); lra).
  pose proof (@relative_error_N_FLT radix2 (-1074) 53 eq_refl (fun x => negb (Z.even x)) x) as E.
  rewrite (Rabs_pos_eq x) in E by lra. specialize (E Hx).
  unfold rnd. unfold uu. change (- (53) + 1)%Z with (-52)%Z in E.
  replace (/ 2 * bpow radix2 (-52)) with (/ 2 ^ 53) in E; [exact E|].
  simpl bpow. simpl pow. lra.
Qed.
Lemma rnd_le : forall x y, x <= y -> rnd x <= rnd y.
Proof. intros. unfold rnd. apply round_le; auto; [apply FLT_exp_valid; easy| apply valid_rnd_N]. Qed.

(** ** relative closeness of positive numbers *)
Definition rel (n : nat) (x y : R) : Prop := x * (1 - uu) ^ n <= y /\ y * (1 - uu) ^ n <= x.
Lemma pw_pos : forall n, 0 < (1 - uu) ^ n.
Proof. intros. apply pow_lt. pose proof uu_small. lra. Qed.
Lemma pw_le1 : forall n, (1 - uu) ^ n <= 1.
Proof.
  induction n; simpl; [lra|]. pose proof (pw_pos n). pose proof uu_pos. pose proof uu_small.
  nra.
Qed.
Lemma pw_ge : forall n, 1 - INR n * uu <= (1 - uu) ^ n.
Proof.
  induction n; [simpl; lra|]. rewrite S_INR. simpl pow. pose proof (pw_le1 n). pose proof uu_pos. nra.
Qed.
Lemma pw_half : forall n, (n <= 1000)%nat -> / 2 <= (1 - uu) ^ n.
Proof.
  intros n H. apply le_INR in H. pose proof (pw_ge n). pose proof uu_small. pose proof uu_pos.
  replace (INR 1000) with 1000 in H by (rewrite INR_IZR_INZ; reflexivity).
  assert (INR n * uu <= 1000 * uu) by (apply Rmult_le_compat_r; lra). lra.
Qed.
Lemma rel_refl : forall x, rel 0 x x. Proof. intros; split; simpl; lra. Qed.
Lemma rel_sym : forall n x y, rel n x y -> rel n y x. Proof. intros n x y [A B]; split; auto. Qed.
Lemma rel_pos : forall n x y, 0 < x -> rel n x y -> 0 < y.
Proof. intros n x y H [A _]. pose proof (pw_pos n). assert (0 < x * (1 - uu) ^ n) by (apply Rmult_lt_0_compat; auto). lra. Qed.
Lemma rel_trans : forall n m x y z, rel n x y -> rel m y z -> rel (n + m) x z.
Proof.
  intros n m x y z [A B] [A' B']. pose proof (pw_pos n). pose proof (pw_pos m).
  unfold rel. rewrite pow_add. split; nra.
Qed.
Lemma rel_weaken : forall n m x y, (n <= m)%nat -> 0 < x -> rel n x y -> rel m x y.
Proof.
  intros n m x y H Hx Hr. pose proof (rel_pos _ _ _ Hx Hr) as Hy. destruct Hr as [A B].
  replace m with (n + (m - n))%nat by lia. unfold rel. rewrite pow_add.
  pose proof (pw_pos n). pose proof (pw_le1 (m - n)). pose proof (pw_pos (m - n)).
  assert (x * (1 - uu) ^ n > 0) by (apply Rmult_lt_0_compat; auto).
  assert (y * (1 - uu) ^ n > 0) by (apply Rmult_lt_0_compat; auto).
  split; rewrite <- Rmult_assoc; nra.
Qed.
Lemma rel_mult : forall n m a A b B, 0 < a -> 0 < b -> rel n a A -> rel m b B -> rel (n + m) (a * b) (A * B).
Proof.
  intros n m a A b B Ha Hb R1 R2. pose proof (rel_pos _ _ _ Ha R1). pose proof (rel_pos _ _ _ Hb R2).
  destruct R1 as [X Y], R2 as [X' Y']. pose proof (pw_pos n). pose proof (pw_pos m).
  unfold rel. rewrite pow_add. split.
  - replace (a * b * ((1 - uu) ^ n * (1 - uu) ^ m)) with ((a * (1 - uu) ^ n) * (b * (1 - uu) ^ m)) by ring.
    apply Rmult_le_compat; auto; apply Rlt_le, Rmult_lt_0_compat; auto.
  - replace (A * B * ((1 - uu) ^ n * (1 - uu) ^ m)) with ((A * (1 - uu) ^ n) * (B * (1 - uu) ^ m)) by ring.
    apply Rmult_le_compat; auto; apply Rlt_le, Rmult_lt_0_compat; auto.
Qed.
Lemma rel_inv : forall n a A, 0 < a -> rel n a A -> rel n (/ a) (/ A).
Proof.
  intros n a A Ha Hr. pose proof (rel_pos _ _ _ Ha Hr). destruct Hr as [X Y]. pose proof (pw_pos n).
  split.
  - apply Rmult_le_reg_r with A; auto. apply Rmult_le_reg_r with a; auto.
    replace (/ a * (1 - uu) ^ n * A * a) with (A * (1 - uu) ^ n) by (field; lra).
    replace (/ A * A * a) with a by (field; lra). lra.
  - apply Rmult_le_reg_r with A; auto. apply Rmult_le_reg_r with a; auto.
    replace (/ A * (1 - uu) ^ n * A * a) with (a * (1 - uu) ^ n) by (field; lra).
    replace (/ a * A * a) with A by (field; lra). lra.
Qed.
Lemma rel_div : forall n m a A b B, 0 < a -> 0 < b -> rel n a A -> rel m b B -> rel (n + m) (a / b) (A / B).
Proof. intros. unfold Rdiv. apply rel_mult; auto. apply Rinv_0_lt_compat; auto. apply rel_inv; auto. Qed.
Lemma rnd_rel : forall x, bpow radix2 (-1022) <= x -> rel 1 x (rnd x).
Proof.
  intros x Hx. pose proof (rnd_pos_err x Hx) as E. pose proof (bpow_gt_0 radix2 (-1022)).
  assert (E' : - (uu * x) <= rnd x - x <= uu * x) by (apply Rabs_le_inv; auto).
  pose proof uu_pos. pose proof uu_small. unfold rel. simpl. split; nra.
Qed.
(** from relative to absolute *)
Lemma rel_abs : forall n x y, (n <= 100)%nat -> 0 < x -> rel n x y -> Rabs (y - x) <= (INR n + / 1000) * uu * x.
Proof.
  intros n x y Hn Hx Hr. pose proof (rel_pos _ _ _ Hx Hr) as Hy. destruct Hr as [A B].
  pose proof (pw_ge n) as G. pose proof uu_pos. pose proof uu_small as Hu.
  apply le_INR in Hn. replace (INR 100) with 100 in Hn by (rewrite INR_IZR_INZ; reflexivity).
  pose proof (pos_INR n).
  set (k := INR n) in *.
  assert (K : k * uu <= 100 * uu) by (apply Rmult_le_compat_r; lra).
  assert (x * (1 - k * uu) <= y) by (apply Rle_trans with (x * (1 - uu) ^ n); [apply Rmult_le_compat_l; lra|lra]).
  assert (y * (1 - k * uu) <= x) by (apply Rle_trans with (y * (1 - uu) ^ n); [apply Rmult_le_compat_l; lra|lra]).
  assert (Q : (1 + (k + / 1000) * uu) * (1 - k * uu) >= 1).
  { assert ((k + / 1000) * uu * (k * uu) <= / 1000 * uu).
    { replace ((k + / 1000) * uu * (k * uu)) with (uu * ((k + / 1000) * (k * uu))) by ring.
      replace (/ 1000 * uu) with (uu * / 1000) by ring. apply Rmult_le_compat_l; [lra|].
      apply Rle_trans with (101 * (100 * uu)); [apply Rmult_le_compat; try lra|lra].
      apply Rmult_le_pos; lra. }
    lra. }
  apply Rabs_le. split.
  - assert (0 <= / 1000 * uu * x) by (apply Rmult_le_pos; lra). lra.
  - assert (y <= x * (1 + (k + / 1000) * uu)); [|lra].
    assert (P : 0 < 1 - k * uu) by lra.
    apply Rmult_le_reg_r with (1 - k * uu); auto.
    apply Rle_trans with x; auto.
    rewrite Rmult_assoc. rewrite <- (Rmult_1_r x) at 1. apply Rmult_le_compat_l; lra.
Qed.

(** ** the operations *)
Lemma in_range : forall x, x <= bpow radix2 1001 -> bpow radix2 (-1022) <= x -> Rabs (rnd x) < bpow radix2 1024.
Proof.
  intros x H L. pose proof (rnd_rel x L) as [A B]. pose proof (bpow_gt_0 radix2 (-1022)).
  pose proof (rel_pos 1 x (rnd x) ltac:(lra) (conj A B)). rewrite Rabs_pos_eq by lra.
  simpl in B. pose proof uu_small. pose proof uu_pos.
  assert (rnd x * / 2 <= x) by nra.
  assert (Q : bpow radix2 1001 * 2 < bpow radix2 1024).
  { change 2 with (bpow radix2 1). rewrite <- bpow_plus. apply bpow_lt. lia. }
  lra.
Qed.
Lemma mul_ok : forall a b, Rabs (rnd (B2R a * B2R b)) < bpow radix2 1024 ->
  B2R (fmul a b) = rnd (B2R a * B2R b) /\ is_finite (fmul a b) = is_finite a && is_finite b.
Proof.
  intros a b H. pose proof (@Bmult_correct 53 1024 prec53 emax1024 mode_NE a b) as C.
  change (round radix2 (SpecFloat.fexp 53 1024) (round_mode mode_NE) (B2R a * B2R b)) with (rnd (B2R a * B2R b)) in C.
  rewrite Rlt_bool_true in C by auto. destruct C as (C & F & _). split; auto.
Qed.
Lemma div_ok : forall a b, B2R b <> 0 -> Rabs (rnd (B2R a / B2R b)) < bpow radix2 1024 ->
  B2R (fdiv a b) = rnd (B2R a / B2R b) /\ is_finite (fdiv a b) = is_finite a.
Proof.
  intros a b Hb H. pose proof (@Bdiv_correct 53 1024 prec53 emax1024 mode_NE a b Hb) as C.
  change (round radix2 (SpecFloat.fexp 53 1024) (round_mode mode_NE) (B2R a / B2R b)) with (rnd (B2R a / B2R b)) in C.
  rewrite Rlt_bool_true in C by auto. destruct C as (C & F & _). split; auto.
Qed.
(** a finite positive double within n roundings of x *)
Definition near (n : nat) (x : R) (f : float) : Prop := is_finite f = true /\ 0 < x /\ rel n x (B2R f).
Lemma near_pos : forall n x f, near n x f -> 0 < B2R f.
Proof. intros n x f (_ & A & B). eapply rel_pos; eauto. Qed.
Lemma near_range : forall n x y, (n <= 1000)%nat -> 0 < x -> rel n x y -> / 2 * x <= y /\ y <= 2 * x.
Proof.
  intros n x y Hn Hx [A B]. pose proof (pw_half n Hn). pose proof (pw_pos n).
  assert (x * / 2 <= x * (1 - uu) ^ n) by (apply Rmult_le_compat_l; lra).
  assert (0 < y) by (assert (0 < x * (1 - uu) ^ n) by (apply Rmult_lt_0_compat; auto); lra).
  assert (y * / 2 <= y * (1 - uu) ^ n) by (apply Rmult_le_compat_l; lra). lra.
Qed.
Lemma half_low : forall x, bpow radix2 (-1000) <= x -> bpow radix2 (-1022) <= / 2 * x.
Proof.
  intros x H. assert (bpow radix2 (-1022) <= / 2 * bpow radix2 (-1000)); [|lra].
  change (/ 2) with (bpow radix2 (-1)). rewrite <- bpow_plus. apply bpow_le. lia.
Qed.
Lemma twice_high : forall x, x <= bpow radix2 1000 -> 2 * x <= bpow radix2 1001.
Proof.
  intros x H. replace (bpow radix2 1001) with (2 * bpow radix2 1000); [lra|].
  change 2 with (bpow radix2 1). rewrite <- bpow_plus. f_equal.
Qed.
Lemma near_mul : forall n m x y f g, (n + m <= 1000)%nat ->
  bpow radix2 (-1000) <= x * y <= bpow radix2 1000 ->
  near n x f -> near m y g -> near (S (n + m)) (x * y) (fmul f g).
Proof.
  intros n m x y f g Hn [Hl Hh] (F & Hx & Rf) (G & Hy & Rg).
  assert (P : 0 < x * y) by (apply Rmult_lt_0_compat; auto).
  pose proof (rel_mult _ _ _ _ _ _ Hx Hy Rf Rg) as Rp.
  destruct (near_range _ _ _ Hn P Rp) as [A B].
  pose proof (half_low _ Hl). pose proof (twice_high _ Hh).
  assert (L : bpow radix2 (-1022) <= B2R f * B2R g) by lra.
  destruct (mul_ok f g) as [E E']; [apply in_range; lra|].
  split; [rewrite E', F, G; auto|]. split; auto. rewrite E.
  replace (S (n + m)) with (n + m + 1)%nat by lia. eapply rel_trans; eauto. apply rnd_rel; auto.
Qed.
Lemma near_div : forall n m x y f g, (n + m <= 1000)%nat ->
  bpow radix2 (-1000) <= x / y <= bpow radix2 1000 ->
  near n x f -> near m y g -> near (S (n + m)) (x / y) (fdiv f g).
Proof.
  intros n m x y f g Hn [Hl Hh] (F & Hx & Rf) (G & Hy & Rg).
  assert (P : 0 < x / y) by (apply Rdiv_lt_0_compat; auto).
  pose proof (rel_div _ _ _ _ _ _ Hx Hy Rf Rg) as Rp.
  destruct (near_range _ _ _ Hn P Rp) as [A B].
  pose proof (half_low _ Hl). pose proof (twice_high _ Hh).
  assert (L : bpow radix2 (-1022) <= B2R f / B2R g) by lra.
  pose proof (rel_pos _ _ _ Hy Rg).
  destruct (div_ok f g) as [E E']; [lra|apply in_range; lra|].
  split; [rewrite E', F; auto|]. split; auto. rewrite E.
  replace (S (n + m)) with (n + m + 1)%nat by lia. eapply rel_trans; eauto. apply rnd_rel; auto.
Qed.

(** ** integers and literals *)
Lemma rnd_generic : forall x, generic_format radix2 (FLT_exp (-1074) 53) x -> rnd x = x.
Proof. intros. unfold rnd. apply round_generic; auto. apply valid_rnd_N. Qed.
Lemma generic_Z : forall z, (Z.abs z <= 2 ^ 53)%Z -> generic_format radix2 (FLT_exp (-1074) 53) (IZR z).
Proof.
  intros z H. destruct (Z.eq_dec (Z.abs z) (2 ^ 53)) as [E|E].
  - assert (G : generic_format radix2 (FLT_exp (-1074) 53) (bpow radix2 53)).
    { apply generic_format_bpow. unfold FLT_exp. simpl. lia. }
    change (bpow radix2 53) with (IZR (2 ^ 53)) in G.
    destruct (Z.abs_spec z) as [[_ Q]|[_ Q]]; rewrite Q in E.
    + rewrite E. exact G.
    + replace z with (- (2 ^ 53))%Z by lia. rewrite opp_IZR. apply generic_format_opp. exact G.
  - apply generic_format_FLT. apply (FLT_spec radix2 (-1074) 53 (IZR z) (Float radix2 z 0)).
    + unfold F2R. simpl. lra.
    + simpl Fnum. change (radix2 ^ 53)%Z with (2 ^ 53)%Z. lia.
    + simpl. lia.
Qed.
Lemma of_Z_ok : forall z, (Z.abs z <= 2 ^ 53)%Z -> B2R (of_Z z) = IZR z /\ is_finite (of_Z z) = true.
Proof.
  intros z H. pose proof (@binary_normalize_correct 53 1024 prec53 emax1024 mode_NE z 0 false) as C. cbv zeta in C.
  change (round radix2 (SpecFloat.fexp 53 1024) (round_mode mode_NE) (F2R (Float radix2 z 0))) with (rnd (F2R (Float radix2 z 0))) in C.
  replace (F2R (Float radix2 z 0)) with (IZR z) in C by (unfold F2R; simpl; lra).
  rewrite rnd_generic in C by (apply generic_Z; auto).
  rewrite Rlt_bool_true in C.
  - destruct C as (A & B & _). split; auto.
  - rewrite <- abs_IZR. apply Rle_lt_trans with (IZR (2 ^ 53)); [apply IZR_le; auto|].
    change (IZR (2 ^ 53)) with (bpow radix2 53). apply bpow_lt. lia.
Qed.
Lemma near_Z : forall z, (0 < z <= 2 ^ 53)%Z -> near 0 (IZR z) (of_Z z).
Proof.
  intros z H. destruct (of_Z_ok z) as [A B]; [lia|]. repeat split; auto; try rewrite A; simpl; try lra.
  apply IZR_lt; lia.
Qed.
Lemma lit_pos_ok : forall n, (0 <= n <= 15)%Z -> B2R (lit_pos n) = IZR (10 ^ n) /\ is_finite (lit_pos n) = true.
Proof.
  intros n H. apply of_Z_ok. rewrite Z.abs_eq by (apply Z.pow_nonneg; lia).
  apply Z.le_trans with (10 ^ 15)%Z; [apply Z.pow_le_mono_r; lia|]. vm_compute. congruence.
Qed.
Lemma near_lit_pos : forall n, (0 <= n <= 15)%Z -> near 0 (IZR (10 ^ n)) (lit_pos n).
Proof.
  intros n H. apply near_Z. split; [apply Z.pow_pos_nonneg; lia|].
  apply Z.le_trans with (10 ^ 15)%Z; [apply Z.pow_le_mono_r; lia|]. vm_compute. congruence.
Qed.
Lemma near_lit_neg : forall n, (0 <= n <= 15)%Z -> near 1 (/ IZR (10 ^ n)) (lit_neg n).
Proof.
  intros n H. unfold lit_neg. replace (/ IZR (10 ^ n)) with (1 / IZR (10 ^ n)) by (unfold Rdiv; ring).
  apply (near_div 0 0).
  - lia.
  - pose proof (near_lit_pos n H) as (_ & P & _).
    assert (IZR (10 ^ n) <= IZR (10 ^ 15)) by (apply IZR_le, Z.pow_le_mono_r; lia).
    assert (IZR (10 ^ 15) <= bpow radix2 1000).
    { apply Rle_trans with (bpow radix2 53); [|apply bpow_le; lia]. simpl bpow. apply IZR_le. vm_compute. congruence. }
    assert (1 <= IZR (10 ^ n)) by (apply IZR_le; assert (0 < 10 ^ n)%Z by (apply Z.pow_pos_nonneg; lia); lia).
    unfold Rdiv. rewrite Rmult_1_l. split.
    + replace (bpow radix2 (-1000)) with (/ bpow radix2 1000) by (rewrite <- bpow_opp; f_equal).
      apply Rinv_le; lra.
    + apply Rle_trans with 1; [rewrite <- Rinv_1; apply Rinv_le; lra|].
      change 1 with (bpow radix2 0). apply bpow_le. lia.
  - apply (near_Z 1). lia.
  - apply near_lit_pos; auto.
Qed.
