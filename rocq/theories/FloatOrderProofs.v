(** Conversions in binary64 keep or reverse order *)
From Coq Require Import Reals Lra Lia ZArith.
From Flocq Require Import Core BinarySingleNaN Relative.
From Verif Require Import PyBase PyStr XReal SpectrumModel SpectrumSpec FloatModel FloatSpec FloatProofs FloatConvProofs FloatRangeProofs FloatCheckProofs.
Open Scope R_scope.

Definition recip (u : string) : bool := existsb (String.eqb u) ["hz"; "ev"; "1/s"; "1/cm"]%string.
Definition turn (u : string) (up : bool) : bool := if recip u then negb up else up.

Lemma scale_mono : forall (c : R) (C : float) n m x x' f f' up, near n c C -> (n + m <= 900)%nat -> / 10 ^ 12 <= c <= 10 ^ 12 ->
  near m x f -> near m x' f' -> / 10 ^ 76 <= x <= 10 ^ 76 -> / 10 ^ 76 <= x' <= 10 ^ 76 ->
  ordd up (B2R f) (B2R f') -> ordd up (B2R (fmul C f)) (B2R (fmul C f')) /\ ordd up (B2R (fmul f C)) (B2R (fmul f' C)).
Proof.
  intros c C n m x x' f f' up N Hn B Nf Nf' X X' O.
  eapply mul_mono with (n := n) (m := m) (c := c) (x := x) (x' := x'); eauto.
  - pose proof (prod_bounds _ _ _ _ _ _ B X ltac:(lra) ltac:(lra)). num_rng; simpl; lra.
  - pose proof (prod_bounds _ _ _ _ _ _ B X' ltac:(lra) ltac:(lra)). num_rng; simpl; lra.
Qed.
Lemma lit_neg_12 : forall n, (0 <= n <= 12)%Z -> / 10 ^ 12 <= / IZR (10 ^ n) <= 10 ^ 12.
Proof.
  intros n H. assert (1 <= IZR (10 ^ n) <= 10 ^ 12).
  { split; [apply (pow10_bounds n); lia|]. rewrite pow_IZR. apply IZR_le. change (Zpower_nat 10 12) with (10 ^ 12)%Z. apply Z.pow_le_mono_r; lia. }
  split; [apply Rinv_le; lra|]. apply Rle_trans with 1; [rewrite <- Rinv_1; apply Rinv_le; lra|lra].
Qed.
Lemma lit_pos_12 : forall n, (0 <= n <= 12)%Z -> / 10 ^ 12 <= IZR (10 ^ n) <= 10 ^ 12.
Proof.
  intros n H. assert (1 <= IZR (10 ^ n) <= 10 ^ 12).
  { split; [apply (pow10_bounds n); lia|]. rewrite pow_IZR. apply IZR_le. change (Zpower_nat 10 12) with (10 ^ 12)%Z. apply Z.pow_le_mono_r; lia. }
  lra.
Qed.
Lemma from_mono : forall t u f f' y w up, wavelength_m t u y w ->
  is_finite f = true -> is_finite f' = true -> / 10 ^ 40 <= B2R f <= 10 ^ 40 -> / 10 ^ 40 <= B2R f' <= 10 ^ 40 ->
  ordd up (B2R f) (B2R f') -> ordd (turn u up) (B2R (from_u u f)) (B2R (from_u u f')).
Proof.
  intros t u f f' y w up H F F' B B' O.
  assert (N : near 0 (B2R f) f) by (apply near_self; [auto|lra]).
  assert (N' : near 0 (B2R f') f') by (apply near_self; [auto|lra]).
  assert (I : near 1 (/ B2R f) (f_inverse_scalar f)) by (apply (near_inverse 0); [lia|simpl; lra|auto]).
  assert (I' : near 1 (/ B2R f') (f_inverse_scalar f')) by (apply (near_inverse 0); [lia|simpl; lra|auto]).
  pose proof (inv_bounds _ _ _ B ltac:(lra)) as IB. pose proof (inv_bounds _ _ _ B' ltac:(lra)) as IB'.
  assert (OI : ordd (negb up) (B2R (f_inverse_scalar f)) (B2R (f_inverse_scalar f'))).
  { eapply inv_mono with (m := 0%nat); eauto; try lia; simpl; lra. }
  pose proof PI_close as PB. pose proof hce_bounds as HB.
  destruct H; cbn [from_u String.eqb Ascii.eqb Bool.eqb andb turn recip existsb orb].
  - auto.
  - eapply (proj2 (scale_mono _ _ 1 0 _ _ _ _ up (near_lit_neg 2 ltac:(lia)) ltac:(lia) (lit_neg_12 2 ltac:(lia)) N N' ltac:(lra) ltac:(lra) O)).
  - eapply (proj2 (scale_mono _ _ 1 0 _ _ _ _ up (near_lit_neg 6 ltac:(lia)) ltac:(lia) (lit_neg_12 6 ltac:(lia)) N N' ltac:(lra) ltac:(lra) O)).
  - eapply (proj2 (scale_mono _ _ 1 0 _ _ _ _ up (near_lit_neg 9 ltac:(lia)) ltac:(lia) (lit_neg_12 9 ltac:(lia)) N N' ltac:(lra) ltac:(lra) O)).
  - eapply (proj2 (scale_mono _ _ 1 0 _ _ _ _ up (near_lit_neg 10 ltac:(lia)) ltac:(lia) (lit_neg_12 10 ltac:(lia)) N N' ltac:(lra) ltac:(lra) O)).
  - eapply (proj1 (scale_mono _ _ 0 1 _ _ _ _ (negb up) near_c ltac:(lia) ltac:(numr) I I' ltac:(lra) ltac:(lra) OI)).
  - eapply (proj1 (scale_mono _ _ 4 1 _ _ _ _ (negb up) near_hce ltac:(lia) ltac:(lra) I I' ltac:(lra) ltac:(lra) OI)).
  - eapply (proj1 (scale_mono _ _ 3 1 _ _ _ _ (negb up) near_2pic ltac:(lia) ltac:(numr) I I' ltac:(lra) ltac:(lra) OI)).
  - pose proof (proj1 (scale_mono _ _ 2 1 _ _ _ _ (negb up) near_2pi ltac:(lia) ltac:(lra) I I' ltac:(lra) ltac:(lra) OI)) as O2.
    assert (CB : 1 <= 2 * PI <= 10) by lra.
    pose proof (prod_bounds _ _ _ _ _ _ CB IB ltac:(lra) ltac:(lra)) as Q.
    pose proof (prod_bounds _ _ _ _ _ _ CB IB' ltac:(lra) ltac:(lra)) as Q'.
    assert (M : near 4 (2 * PI * / B2R f) (fmul f_2pi (f_inverse_scalar f))).
    { apply (near_mul 2 1); [lia| |apply near_2pi|auto]. num_rng; simpl; lra. }
    assert (M' : near 4 (2 * PI * / B2R f') (fmul f_2pi (f_inverse_scalar f'))).
    { apply (near_mul 2 1); [lia| |apply near_2pi|auto]. num_rng; simpl; lra. }
    eapply (proj2 (scale_mono _ _ 1 4 _ _ _ _ (negb up) (near_lit_neg 2 ltac:(lia)) ltac:(lia) (lit_neg_12 2 ltac:(lia)) M M' ltac:(lra) ltac:(lra) O2)).
Qed.
Lemma raw_mono : forall t u y w w' g g' n up, wavelength_m t u y w -> (n <= 20)%nat -> near n w g -> near n w' g' ->
  / 10 ^ 65 <= w <= 10 ^ 65 -> / 10 ^ 65 <= w' <= 10 ^ 65 ->
  ordd up (B2R g) (B2R g') -> ordd (turn u up) (B2R (to_raw u g)) (B2R (to_raw u g')).
Proof.
  intros t u y w w' g g' n up H Hn N N' B B' O.
  assert (I : near (S n) (/ w) (f_inverse_scalar g)) by (apply near_inverse; [lia|simpl; lra|auto]).
  assert (I' : near (S n) (/ w') (f_inverse_scalar g')) by (apply near_inverse; [lia|simpl; lra|auto]).
  pose proof (inv_bounds _ _ _ B ltac:(lra)) as IB. pose proof (inv_bounds _ _ _ B' ltac:(lra)) as IB'.
  assert (OI : ordd (negb up) (B2R (f_inverse_scalar g)) (B2R (f_inverse_scalar g'))).
  { eapply inv_mono with (m := n); eauto; try lia; simpl; lra. }
  pose proof PI_close as PB. pose proof hce_bounds as HB.
  assert (Hu : u = u) by reflexivity.
  destruct H; cbn [to_raw String.eqb Ascii.eqb Bool.eqb andb turn recip existsb orb].
  - auto.
  - eapply (proj2 (scale_mono _ _ 0 n _ _ _ _ up (near_lit_pos 2 ltac:(lia)) ltac:(lia) (lit_pos_12 2 ltac:(lia)) N N' ltac:(lra) ltac:(lra) O)).
  - eapply (proj2 (scale_mono _ _ 0 n _ _ _ _ up (near_lit_pos 6 ltac:(lia)) ltac:(lia) (lit_pos_12 6 ltac:(lia)) N N' ltac:(lra) ltac:(lra) O)).
  - eapply (proj2 (scale_mono _ _ 0 n _ _ _ _ up (near_lit_pos 9 ltac:(lia)) ltac:(lia) (lit_pos_12 9 ltac:(lia)) N N' ltac:(lra) ltac:(lra) O)).
  - eapply (proj2 (scale_mono _ _ 0 n _ _ _ _ up (near_lit_pos 10 ltac:(lia)) ltac:(lia) (lit_pos_12 10 ltac:(lia)) N N' ltac:(lra) ltac:(lra) O)).
  - eapply (proj1 (scale_mono _ _ 0 (S n) _ _ _ _ (negb up) near_c ltac:(lia) ltac:(numr) I I' ltac:(lra) ltac:(lra) OI)).
  - eapply (proj1 (scale_mono _ _ 4 (S n) _ _ _ _ (negb up) near_hce ltac:(lia) ltac:(lra) I I' ltac:(lra) ltac:(lra) OI)).
  - eapply (proj1 (scale_mono _ _ 3 (S n) _ _ _ _ (negb up) near_2pic ltac:(lia) ltac:(numr) I I' ltac:(lra) ltac:(lra) OI)).
  - set (v := 2 * PI / x / 100) in *.
    pose proof (proj2 (scale_mono _ _ 1 n _ _ _ _ up (near_lit_neg 2 ltac:(lia)) ltac:(lia) (lit_neg_12 2 ltac:(lia)) N N' ltac:(lra) ltac:(lra) O)) as O2.
    assert (L2 : / IZR (10 ^ 2) = / 100) by reflexivity.
    assert (M : near (S (n + 1)) (v * / IZR (10 ^ 2)) (fmul g (lit_neg 2))).
    { apply near_mul; [lia| |auto|apply near_lit_neg; lia]. rewrite L2. num_rng; simpl; lra. }
    assert (M' : near (S (n + 1)) (w' * / IZR (10 ^ 2)) (fmul g' (lit_neg 2))).
    { apply near_mul; [lia| |auto|apply near_lit_neg; lia]. rewrite L2. num_rng; simpl; lra. }
    rewrite L2 in M, M'.
    assert (BB : / 10 ^ 70 <= v * / 100 <= 10 ^ 70) by lra. assert (BB' : / 10 ^ 70 <= w' * / 100 <= 10 ^ 70) by lra.
    pose proof (inv_bounds _ _ _ BB ltac:(lra)) as JB. pose proof (inv_bounds _ _ _ BB' ltac:(lra)) as JB'.
    assert (J : near (S (S (n + 1))) (/ (v * / 100)) (f_inverse_scalar (fmul g (lit_neg 2)))) by (apply near_inverse; [lia|simpl; lra|auto]).
    assert (J' : near (S (S (n + 1))) (/ (w' * / 100)) (f_inverse_scalar (fmul g' (lit_neg 2)))) by (apply near_inverse; [lia|simpl; lra|auto]).
    assert (OJ : ordd (negb up) (B2R (f_inverse_scalar (fmul g (lit_neg 2)))) (B2R (f_inverse_scalar (fmul g' (lit_neg 2))))).
    { eapply inv_mono with (m := S (n + 1)); eauto; try lia; simpl; lra. }
    eapply (proj1 (scale_mono _ _ 2 (S (S (n + 1))) _ _ _ _ (negb up) near_2pi ltac:(lia) ltac:(lra) J J' ltac:(lra) ltac:(lra) OJ)).
Qed.

(** some value of the unit for every wavelength *)
Lemma wavelength_value : forall t u y0 w0 w, wavelength_m t u y0 w0 -> 0 < w -> exists y, 0 < y /\ wavelength_m t u y w.
Proof.
  intros t u y0 w0 w H W. pose proof PI_close.
  assert (EC : 0 < elementary_charge) by (unfold elementary_charge; lra).
  assert (PL : 0 < planck) by (unfold planck; lra). assert (CL : 0 < speed_of_light) by (unfold speed_of_light; lra).
  destruct H.
  - exists w. split; auto. constructor.
  - exists (w * 100). split; [lra|]. replace w with (w * 100 / 100) at 2 by lra. constructor.
  - exists (w * 10 ^ 6). split; [lra|]. replace w with (w * 10 ^ 6 / 10 ^ 6) at 2 by (field; lra). constructor.
  - exists (w * 10 ^ 9). split; [lra|]. replace w with (w * 10 ^ 9 / 10 ^ 9) at 2 by (field; lra). constructor.
  - exists (w * 10 ^ 10). split; [lra|]. replace w with (w * 10 ^ 10 / 10 ^ 10) at 2 by (field; lra). constructor.
  - exists (speed_of_light / w). split; [apply Rdiv_lt_0_compat; auto|].
    replace w with (speed_of_light / (speed_of_light / w)) at 2 by (field; lra). constructor.
  - exists (planck * speed_of_light / (elementary_charge * w)). split.
    + apply Rdiv_lt_0_compat; apply Rmult_lt_0_compat; auto.
    + replace w with (planck * speed_of_light / (elementary_charge * (planck * speed_of_light / (elementary_charge * w)))) at 2 by (field; lra). constructor.
  - exists (2 * PI * speed_of_light / w). split; [apply Rdiv_lt_0_compat; auto; apply Rmult_lt_0_compat; lra|].
    replace w with (2 * PI * speed_of_light / (2 * PI * speed_of_light / w)) at 2 by (field; repeat split; lra). constructor.
  - exists (2 * PI / w / 100). split; [apply Rdiv_lt_0_compat; [apply Rdiv_lt_0_compat|]; lra|].
    replace w with (2 * PI / (2 * PI / w / 100) / 100) at 2 by (field; split; lra). constructor.
Qed.
Lemma decimals_13 : forall u d, doc_decimals u = Some d -> (0 <= Z.of_nat d <= 13)%Z.
Proof.
  intros u d H. unfold doc_decimals in H. cbn [find fst] in H.
  repeat match type of H with context [if ?b then _ else _] => destruct b end; cbn in H; inversion H; subst; cbn; lia.
Qed.
Lemma to_mono : forall t u y w w' g g' n up, wavelength_m t u y w -> (n <= 20)%nat -> near n w g -> near n w' g' ->
  / 10 ^ 65 <= w <= 10 ^ 65 -> / 10 ^ 65 <= w' <= 10 ^ 65 ->
  ordd up (B2R g) (B2R g') -> ordd (turn u up) (B2R (to_u u g)) (B2R (to_u u g')).
Proof.
  intros t u y w w' g g' n up H Hn N N' B B' O.
  pose proof (raw_mono _ _ _ _ _ _ _ _ _ H Hn N N' B B' O) as R.
  unfold to_u. destruct (doc_decimals u) as [d|] eqn:D; auto.
  destruct (wavelength_value _ _ _ _ w H ltac:(lra)) as (v & Pv & Hv).
  destruct (wavelength_value _ _ _ _ w' H ltac:(lra)) as (v' & Pv' & Hv').
  assert (Hu : u <> "1/cm"%string) by (intros ->; discriminate D).
  destruct (acc_raw _ _ _ _ _ _ Hv Hu Pv Hn N B) as [A A2].
  destruct (acc_raw _ _ _ _ _ _ Hv' Hu Pv' Hn N' B') as [A' A2'].
  apply (round_mono (n + 6) _ v v' _ _ ltac:(lia) (decimals_13 _ _ D) A2 A2' A A'); auto.
Qed.
(** the converted value is finite *)
Lemma to_finite : forall t u y w g n, wavelength_m t u y w -> (n <= 20)%nat -> near n w g ->
  / 10 ^ 65 <= w <= 10 ^ 65 -> is_finite (to_u u g) = true.
Proof.
  intros t u y w g n H Hn N B.
  destruct (wavelength_value _ _ _ _ w H ltac:(lra)) as (v & Pv & Hv).
  destruct (String.string_dec u "1/cm") as [->|Hu].
  - assert (t = "wavenumber"%string) by (inversion Hv; auto). subst t.
    pose proof (acc_icm _ _ _ _ Hv Pv Hn N B) as (F & _). exact F.
  - destruct (acc_raw _ _ _ _ _ _ Hv Hu Pv Hn N B) as [A A2]. unfold to_u.
    destruct (doc_decimals u) as [d|] eqn:D; [|apply A].
    destruct (np_round_err (n + 6) (Z.of_nat d) v _ ltac:(lia) (decimals_13 _ _ D) A2 A); auto.
Qed.
