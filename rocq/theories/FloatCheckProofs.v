(** Range checks in binary64: order, minima, maxima *)
From Coq Require Import Reals Lra Lia ZArith.
From Flocq Require Import Core BinarySingleNaN Relative.
From Verif Require Import PyBase PyStr XReal SpectrumModel SpectrumSpec FloatModel FloatSpec FloatProofs FloatConvProofs FloatRangeProofs.
Open Scope R_scope.

(** ** minima and maxima of finite floats *)
Definition fin (f : float) : Prop := is_finite f = true.
Lemma fin_nan : forall f : float, fin f -> BinarySingleNaN.is_nan f = false.
Proof. intros f H. destruct f; auto; discriminate. Qed.
Lemma flt_ok : forall f g, fin f -> fin g -> flt f g = Rlt_bool (B2R f) (B2R g).
Proof. intros. unfold flt. apply Bltb_correct; auto. Qed.
Lemma min2_ok : forall a b, fin a -> fin b -> fin (f_min2 a b) /\ (f_min2 a b = a \/ f_min2 a b = b) /\
  B2R (f_min2 a b) <= B2R a /\ B2R (f_min2 a b) <= B2R b.
Proof.
  intros a b A B. unfold f_min2. rewrite (fin_nan a A), (fin_nan b B), flt_ok by auto.
  destruct (Rlt_bool_spec (B2R b) (B2R a)); repeat split; auto; lra.
Qed.
Lemma max2_ok : forall a b, fin a -> fin b -> fin (f_max2 a b) /\ (f_max2 a b = a \/ f_max2 a b = b) /\
  B2R a <= B2R (f_max2 a b) /\ B2R b <= B2R (f_max2 a b).
Proof.
  intros a b A B. unfold f_max2. rewrite (fin_nan a A), (fin_nan b B), flt_ok by auto.
  destruct (Rlt_bool_spec (B2R a) (B2R b)); repeat split; auto; lra.
Qed.
Lemma min_ok : forall l a, fin a -> Forall fin l -> let m := fold_left f_min2 l a in
  fin m /\ In m (a :: l) /\ forall y, In y (a :: l) -> B2R m <= B2R y.
Proof.
  induction l as [|b l IH]; intros a A HL; simpl.
  - split; [auto|]. split; [auto|]. intros y [->|[]]. lra.
  - inversion HL; subst. destruct (min2_ok a b A H1) as (F & E & L1 & L2).
    destruct (IH (f_min2 a b) F H2) as (G & I & M). split; [auto|]. split.
    + destruct I as [I|I]; [|auto]. rewrite <- I. destruct E as [E|E]; rewrite E; auto.
    + intros y [->|[->|Hy]].
      * apply Rle_trans with (B2R (f_min2 y b)); auto. apply M. left; auto.
      * apply Rle_trans with (B2R (f_min2 a y)); auto. apply M. left; auto.
      * apply M. right; auto.
Qed.
Lemma max_ok : forall l a, fin a -> Forall fin l -> let m := fold_left f_max2 l a in
  fin m /\ In m (a :: l) /\ forall y, In y (a :: l) -> B2R y <= B2R m.
Proof.
  induction l as [|b l IH]; intros a A HL; simpl.
  - split; [auto|]. split; [auto|]. intros y [->|[]]. lra.
  - inversion HL; subst. destruct (max2_ok a b A H1) as (F & E & L1 & L2).
    destruct (IH (f_max2 a b) F H2) as (G & I & M). split; [auto|]. split.
    + destruct I as [I|I]; [|auto]. rewrite <- I. destruct E as [E|E]; rewrite E; auto.
    + intros y [->|[->|Hy]].
      * apply Rle_trans with (B2R (f_max2 y b)); auto. apply M. left; auto.
      * apply Rle_trans with (B2R (f_max2 a y)); auto. apply M. left; auto.
      * apply M. right; auto.
Qed.
(** contains on finite numbers *)
Definition in_hull (l : list float) (f : float) : Prop :=
  (exists a, In a l /\ B2R a <= B2R f) /\ (exists b, In b l /\ B2R f <= B2R b).
Lemma contains_hull : forall self other ov, f_convert_to other (fp_type self) (fp_unit self) = Ok ov ->
  Forall fin (felems ov) -> Forall fin (felems (fp_values self)) -> felems ov <> [] -> felems (fp_values self) <> [] ->
  ((forall f, In f (felems ov) -> in_hull (felems (fp_values self)) f) -> f_contains self other = Ok true) /\
  ((exists f, In f (felems ov) /\ ~ in_hull (felems (fp_values self)) f) ->
     f_contains self other = (do_ display_string (fp_unit self); Raise ValueError)).
Proof.
  intros self other ov E Fo Fs No Ns. unfold f_contains. rewrite E. cbn [bind].
  destruct (felems ov) as [|o os]; [congruence|]. destruct (felems (fp_values self)) as [|s ss]; [congruence|].
  inversion Fo; subst. inversion Fs; subst. cbn [f_reduce bind].
  destruct (min_ok os o H1 H2) as (F1 & I1 & M1). destruct (max_ok os o H1 H2) as (F2 & I2 & M2).
  destruct (min_ok ss s H3 H4) as (F3 & I3 & M3). destruct (max_ok ss s H3 H4) as (F4 & I4 & M4).
  set (omin := fold_left f_min2 os o) in *. set (omax := fold_left f_max2 os o) in *.
  set (smin := fold_left f_min2 ss s) in *. set (smax := fold_left f_max2 ss s) in *.
  rewrite !flt_ok by auto. split.
  - intros H. rewrite !Rlt_bool_false; [reflexivity| |].
    + destruct (H omax I2) as [_ (b & Hb & Hb')]. specialize (M4 b Hb). lra.
    + destruct (H omin I1) as [(a & Ha & Ha') _]. specialize (M3 a Ha). lra.
  - intros (f & Hf & Hn). specialize (M1 f Hf). specialize (M2 f Hf).
    assert (Q : B2R omin < B2R smin \/ B2R smax < B2R omax).
    { destruct (Rlt_or_le (B2R omin) (B2R smin)); auto. destruct (Rlt_or_le (B2R smax) (B2R omax)); auto. exfalso. apply Hn. split.
      - exists smin. split; auto. lra.
      - exists smax. split; auto. lra. }
    destruct Q as [Q|Q].
    + rewrite (Rlt_bool_true (B2R omin)) by auto. reflexivity.
    + rewrite (Rlt_bool_true (B2R smax)) by auto. now rewrite Bool.orb_true_r.
Qed.

(** ** written decimals keep their order *)
Lemma written_order : forall d k k' f g, (0 <= d <= 13)%Z -> (0 < k <= 9 * 10 ^ 14)%Z -> (0 < k' <= 9 * 10 ^ 14)%Z ->
  written (IZR k / IZR (10 ^ d)) f -> written (IZR k' / IZR (10 ^ d)) g -> (B2R f <= B2R g <-> (k <= k')%Z).
Proof.
  assert (W : forall d k k' f g, (0 <= d <= 13)%Z -> (0 < k <= 9 * 10 ^ 14)%Z -> (0 < k' <= 9 * 10 ^ 14)%Z ->
    written (IZR k / IZR (10 ^ d)) f -> written (IZR k' / IZR (10 ^ d)) g -> (k < k')%Z -> B2R f < B2R g).
  { intros d k k' f g Hd Hk Hk' [_ Wf] [_ Wg] H.
    assert (K2 : (9 * 10 ^ 14 <= 2 ^ 53)%Z) by (vm_compute; congruence).
    destruct (decimal_bounds k d ltac:(lia) ltac:(lia)) as [L _]. destruct (decimal_bounds k' d ltac:(lia) ltac:(lia)) as [L' _].
    assert (LB : bpow radix2 (-1022) <= / IZR (10 ^ 15)).
    { apply Rle_trans with (bpow radix2 (-1000)); [apply bpow_le; lia|]. apply low_ok. simpl. lra. }
    pose proof (rnd_pos_err _ (Rle_trans _ _ _ LB L)) as E1. pose proof (rnd_pos_err _ (Rle_trans _ _ _ LB L')) as E2.
    change (nearest_double) with rnd in Wf, Wg. rewrite Wf, Wg. apply Rabs_le_inv in E1. apply Rabs_le_inv in E2.
    pose proof (pow10_bounds d ltac:(lia)) as P. set (D := IZR (10 ^ d)) in *.
    assert (KK : IZR k + 1 <= IZR k') by (rewrite <- plus_IZR; apply IZR_le; lia).
    assert (KB : IZR k <= IZR (9 * 10 ^ 14)) by (apply IZR_le; lia). assert (KB' : IZR k' <= IZR (9 * 10 ^ 14)) by (apply IZR_le; lia).
    assert (0 < IZR k) by (apply IZR_lt; lia).
    assert (Q : uu * (IZR k + IZR k') < 1) by (unfold uu; simpl pow; simpl in KB, KB'; lra).
    assert (ID : 0 < / D) by (apply Rinv_0_lt_compat; lra).
    assert (Q2 : uu * (IZR k + IZR k') * / D < (IZR k' - IZR k) * / D) by (apply Rmult_lt_compat_r; lra).
    unfold Rdiv in *. lra. }
  intros d k k' f g Hd Hk Hk' Wf Wg. split.
  - intros H. destruct (Z_le_gt_dec k k') as [|G]; auto. exfalso. assert (B2R g < B2R f) by (apply (W d k' k); auto; lia). lra.
  - intros H. destruct (Z.eq_dec k k') as [->|]; [|left; apply (W d k k'); auto; lia].
    destruct Wf as [_ ->], Wg as [_ ->]. lra.
Qed.

(** ** monotonicity *)
Definition ordd (up : bool) (a b : R) : Prop := if up then a <= b else b <= a.
Lemma mul_mono : forall n c C x x' f f' m, near n c C -> near m x f -> near m x' f' -> (n + m <= 900)%nat ->
  bpow radix2 (-1000) <= c * x <= bpow radix2 1000 -> bpow radix2 (-1000) <= c * x' <= bpow radix2 1000 ->
  forall up, ordd up (B2R f) (B2R f') -> ordd up (B2R (fmul C f)) (B2R (fmul C f')) /\ ordd up (B2R (fmul f C)) (B2R (fmul f' C)).
Proof.
  intros n c C x x' f f' m NC Nf Nf' Hnm R1 R2 up O.
  assert (E : forall x f, near m x f -> bpow radix2 (-1000) <= c * x <= bpow radix2 1000 ->
    Rabs (rnd (B2R C * B2R f)) < bpow radix2 1024).
  { intros x0 f0 (F & P & Q) [Rl Rh]. destruct NC as (F' & P' & Q').
    pose proof (rel_mult _ _ _ _ _ _ P' P Q' Q) as QQ.
    destruct (near_range (n + m) _ _ ltac:(lia) (Rmult_lt_0_compat _ _ P' P) QQ) as [A B].
    pose proof (half_low _ Rl). pose proof (twice_high _ Rh). apply in_range; lra. }
  pose proof (E _ _ Nf R1) as E1. pose proof (E _ _ Nf' R2) as E2.
  destruct (mul_ok C f E1) as [M1 _]. destruct (mul_ok C f' E2) as [M2 _].
  destruct (mul_ok f C ltac:(rewrite Rmult_comm; auto)) as [M3 _]. destruct (mul_ok f' C ltac:(rewrite Rmult_comm; auto)) as [M4 _].
  rewrite M1, M2, M3, M4, (Rmult_comm (B2R f)), (Rmult_comm (B2R f')). pose proof (near_pos _ _ _ NC).
  assert (ordd up (rnd (B2R C * B2R f)) (rnd (B2R C * B2R f'))); [|auto].
  destruct up; simpl in *; apply rnd_le, Rmult_le_compat_l; lra.
Qed.
Lemma inv_mono : forall x x' f f' m, near m x f -> near m x' f' -> (m <= 900)%nat ->
  / IZR (10 ^ 90) <= x <= IZR (10 ^ 90) -> / IZR (10 ^ 90) <= x' <= IZR (10 ^ 90) ->
  forall up, ordd up (B2R f) (B2R f') -> ordd (negb up) (B2R (f_inverse_scalar f)) (B2R (f_inverse_scalar f')).
Proof.
  intros x x' f f' m Nf Nf' Hm R1 R2 up O.
  assert (E : forall x f, near m x f -> / IZR (10 ^ 90) <= x <= IZR (10 ^ 90) ->
    B2R (f_inverse_scalar f) = rnd (1 / B2R f)).
  { intros x0 f0 N0 [Rl Rh]. pose proof (near_pos _ _ _ N0). destruct N0 as (F & P & Q). rewrite pos_inverse by auto.
    destruct (near_range m _ _ ltac:(lia) P Q) as [A B].
    assert (0 < / IZR (10 ^ 90)) by (apply Rinv_0_lt_compat, IZR_lt; reflexivity).
    destruct (of_Z_ok 1 ltac:(vm_compute; congruence)) as [O1 O2].
    assert (I : / (2 * IZR (10 ^ 90)) <= / B2R f0 <= / (/ 2 * / IZR (10 ^ 90))) by (split; apply Rinv_le; lra).
    destruct (div_ok (of_Z 1) f0) as [D _]; [lra| |].
    - rewrite O1. unfold Rdiv. rewrite Rmult_1_l. apply in_range.
      + apply Rle_trans with (bpow radix2 1000); [|apply bpow_le; lia].
        apply Rle_trans with (IZR (2 * 10 ^ 90)); [|apply big; vm_compute; congruence].
        apply Rle_trans with (/ (/ 2 * / IZR (10 ^ 90))); [lra|]. right. rewrite mult_IZR. field. apply IZR_neq. vm_compute. congruence.
      + apply Rle_trans with (bpow radix2 (-1000)); [apply bpow_le; lia|].
        apply Rle_trans with (/ (2 * IZR (10 ^ 90))); [|lra].
        change (bpow radix2 (-1000)) with (/ IZR (2 ^ 1000)). apply Rinv_le; [rewrite <- mult_IZR; apply IZR_lt; reflexivity|].
        rewrite <- mult_IZR. apply IZR_le. vm_compute. congruence.
    - rewrite D, O1. reflexivity. }
  rewrite (E _ _ Nf R1), (E _ _ Nf' R2). pose proof (near_pos _ _ _ Nf). pose proof (near_pos _ _ _ Nf').
  destruct up; simpl in *; apply rnd_le; unfold Rdiv; rewrite !Rmult_1_l; apply Rinv_le; lra.
Qed.
Lemma round_mono : forall n d y y' z z', (n <= 60)%nat -> (0 <= d <= 13)%Z -> / 10 ^ 80 <= y <= 10 ^ 80 -> / 10 ^ 80 <= y' <= 10 ^ 80 ->
  near n y z -> near n y' z' -> forall up, ordd up (B2R z) (B2R z') -> ordd up (B2R (np_round d z)) (B2R (np_round d z')).
Proof.
  intros n d y y' z z' Hn Hd B B' N N' up O.
  assert (W : forall y y' z z', / 10 ^ 80 <= y <= 10 ^ 80 -> / 10 ^ 80 <= y' <= 10 ^ 80 ->
    near n y z -> near n y' z' -> B2R z <= B2R z' -> B2R (np_round d z) <= B2R (np_round d z')).
  2: { destruct up; simpl in *; eauto. }
  clear y y' z z' B B' N N' O. intros y y' z z' B B' N N' O.
  pose proof (pow10_bounds d ltac:(lia)) as P.
  assert (PD : IZR (10 ^ d) <= 10 ^ 13) by (rewrite pow_IZR; apply IZR_le; change (Zpower_nat 10 13) with (10 ^ 13)%Z; apply Z.pow_le_mono_r; lia).
  assert (YR : forall y, / 10 ^ 80 <= y <= 10 ^ 80 -> bpow radix2 (-1000) <= IZR (10 ^ d) * y <= bpow radix2 1000).
  { intros y0 B0. pose proof (prod_bounds _ _ 1 (10 ^ 13) y0 (IZR (10 ^ d)) B0 ltac:(lra) ltac:(lra) ltac:(lra)) as Q.
    rewrite Rmult_comm in Q. split; [apply low_ok; simpl; lra|]. apply Rle_trans with (10 ^ 93); [lra|]. rewrite pow_IZR. apply big. vm_compute. congruence. }
  destruct (mul_mono 0 _ _ _ _ _ _ n (near_lit_pos d ltac:(lia)) N N' ltac:(lia) (YR _ B) (YR _ B') true O) as [_ M]. simpl in M.
  assert (RI : forall A : float, B2R (frint A) = IZR (ZnearestE (B2R A))).
  { intros A. destruct (@Bnearbyint_correct 53 1024 emax1024 mode_NE A) as (E & _ & _). unfold frint. rewrite E.
    unfold round_mode, round, F2R, scaled_mantissa, cexp, FIX_exp. simpl Fnum. simpl Fexp. simpl bpow. now rewrite !Rmult_1_r. }
  assert (DV : forall y z, / 10 ^ 80 <= y <= 10 ^ 80 -> near n y z ->
     B2R (np_round d z) = rnd (B2R (frint (fmul z (lit_pos d))) / IZR (10 ^ d))).
  { intros y0 z0 B0 N0. destruct (lit_pos_ok d ltac:(lia)) as [L L'].
    assert (NM : near (S (n + 0)) (y0 * IZR (10 ^ d)) (fmul z0 (lit_pos d))).
    { apply near_mul; [lia|rewrite Rmult_comm; auto|auto|apply near_lit_pos; lia]. }
    pose proof (near_pos _ _ _ NM) as Ap. destruct (near_hull (S (n + 0)) _ _ ltac:(lia) NM) as [_ AU].
    set (A := fmul z0 (lit_pos d)) in *. unfold np_round. fold A.
    destruct (div_ok (frint A) (lit_pos d)) as [Q _]; [rewrite L; lra| |rewrite Q, L; reflexivity].
    rewrite L, RI. pose proof (Znearest_half (fun x => negb (Z.even x)) (B2R A)) as Hh.
    set (r := ZnearestE (B2R A)) in *. apply Rabs_le_inv in Hh.
    assert (R0 : (0 <= r)%Z).
    { destruct (Z_lt_ge_dec r 0) as [G|]; [exfalso|lia]. assert (IZR r <= -1) by (apply IZR_le; lia). lra. }
    destruct (Z.eq_dec r 0) as [Z0|Z0].
    - rewrite Z0. unfold Rdiv. rewrite Rmult_0_l. unfold rnd. rewrite round_0 by apply valid_rnd_N. rewrite Rabs_R0. apply bpow_gt_0.
    - assert (R1 : 1 <= IZR r) by (apply IZR_le; lia). apply in_range.
      + apply Rle_trans with (IZR r * 1); [apply Rmult_le_compat_l; [lra|]; rewrite <- Rinv_1; apply Rinv_le; lra|].
        rewrite Rmult_1_r. pose proof (prod_bounds _ _ 1 (10 ^ 13) y0 (IZR (10 ^ d)) B0 ltac:(lra) ltac:(lra) ltac:(lra)).
        apply Rle_trans with (10 ^ 95); [lra|]. apply Rle_trans with (bpow radix2 1000); [rewrite pow_IZR; apply big; vm_compute; congruence|apply bpow_le; lia].
      + apply Rle_trans with (bpow radix2 (-1000)); [apply bpow_le; lia|]. apply low_ok. apply Rle_trans with (1 * / 10 ^ 13); [simpl; lra|].
        unfold Rdiv. apply Rmult_le_compat; try lra. apply Rinv_le; lra. }
  rewrite (DV _ _ B N), (DV _ _ B' N'). apply rnd_le. unfold Rdiv. apply Rmult_le_compat_r; [left; apply Rinv_0_lt_compat; lra|].
  rewrite !RI. apply IZR_le. apply (Zrnd_le ZnearestE). exact M.
Qed.
