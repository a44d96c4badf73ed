(** C74-C77: double precision *)
From Coq Require Import Reals Lra Lia ZArith.
From Flocq Require Import Core BinarySingleNaN.
From Verif Require Import PyBase PyStr XReal SpectrumModel SpectrumSpec FloatModel FloatSpec FloatProofs FloatConvProofs FloatRangeProofs FloatCheckProofs FloatOrderProofs SpectrumThms.
Open Scope R_scope. Open Scope string_scope. Open Scope list_scope.


Lemma safe_wavelength : forall t u d K, In (t, u, d, K) safe_decimals -> exists y w, wavelength_m t u y w.
Proof.
  intros t u d K H. cbn [In safe_decimals] in H.
  destruct H as [Q|[Q|[Q|[Q|[Q|[]]]]]]; inversion Q; subst; exists 1; eexists; constructor.
Qed.
Lemma safe_bounds : forall t u d K, In (t, u, d, K) safe_decimals -> (K <= 9 * 10 ^ 14)%Z /\ (0 <= Z.of_nat d <= 13)%Z.
Proof.
  intros t u d K H. cbn [In safe_decimals] in H.
  destruct H as [Q|[Q|[Q|[Q|[Q|[]]]]]]; inversion Q; subst; split; cbn; lia.
Qed.
Lemma pow_Z : forall d, 10 ^ d = IZR (10 ^ Z.of_nat d).
Proof. intros d. apply pow_IZR. Qed.
Lemma written_quotient : forall a b, (0 < a <= 2 ^ 53)%Z -> (0 < b <= 10 ^ 15)%Z -> written (IZR a / IZR b) (fdiv (of_Z a) (of_Z b)).
Proof.
  intros a b Ha Hb. assert (B53 : (10 ^ 15 <= 2 ^ 53)%Z) by (vm_compute; congruence).
  destruct (of_Z_ok a ltac:(lia)) as [A A']. destruct (of_Z_ok b ltac:(lia)) as [B B'].
  assert (1 <= IZR a <= IZR (2 ^ 53)) by (split; apply IZR_le; lia).
  assert (1 <= IZR b <= IZR (10 ^ 15)) by (split; apply IZR_le; lia).
  assert (I : / IZR (10 ^ 15) <= / IZR b <= 1) by (split; [apply Rinv_le; lra|rewrite <- Rinv_1; apply Rinv_le; lra]).
  pose proof (prod_bounds 1 _ _ _ (IZR a) _ ltac:(eassumption) I ltac:(lra) ltac:(lra)) as Q.
  destruct (div_ok (of_Z a) (of_Z b)) as [E F]; [rewrite B; lra| |split; [congruence|rewrite E, A, B; reflexivity]].
  rewrite A, B. apply in_range.
  - apply Rle_trans with (IZR (2 ^ 53)); [unfold Rdiv; lra|]. change (IZR (2 ^ 53)) with (bpow radix2 53). apply bpow_le. lia.
  - apply Rle_trans with (bpow radix2 (-1000)); [apply bpow_le; lia|]. apply low_ok. apply Rle_trans with (1 * / IZR (10 ^ 15)); [simpl; lra|unfold Rdiv; lra].
Qed.
Lemma written_integer : forall a, (0 < a <= 2 ^ 53)%Z -> written (IZR a) (of_Z a).
Proof.
  intros a H. destruct (of_Z_ok a ltac:(lia)) as [A B]. split; auto. rewrite A. symmetry. apply rnd_generic, generic_Z. lia.
Qed.

Lemma C74_round_trip_l : forall type unit decimals K k f,
  In (type, unit, decimals, K) safe_decimals -> (0 < k <= K)%Z -> written (IZR k / 10 ^ decimals) f ->
  exists s, f_spectrum (FS f) type unit = Ok s /\ f_convert_to s type unit = Ok (FS f).
Proof.
  intros t u d K k f H Hk W. destruct (safe_wavelength _ _ _ _ H) as (y & w & Hw).
  exists (mkFsp t u (FS f) (FS (from_u u f))). split; [eapply f_spectrum_scalar; eauto|].
  rewrite <- (round_trip t u d K k f H Hk W) at 3. eapply f_convert_scalar; eauto.
Qed.

Lemma C74_metres_l : forall v,
  exists s, f_spectrum v "wavelength" "m" = Ok s /\ f_convert_to s "wavelength" "m" = Ok v.
Proof. intros v. eexists. split; reflexivity. Qed.

Lemma C74_array_l : forall unit decimals K ks fs,
  In ("wavelength", unit, decimals, K) safe_decimals ->
  Forall2 (fun k f => (0 < k <= K)%Z /\ written (IZR k / 10 ^ decimals) f) ks fs ->
  exists s, f_spectrum (FA fs) "wavelength" unit = Ok s /\ f_convert_to s "wavelength" unit = Ok (FA fs).
Proof.
  intros u d K ks fs H HF.
  assert (E : map (to_u u) (map (from_u u) fs) = fs).
  { induction HF as [|k f ks fs [Hk W] HF IH]; auto. simpl. rewrite IH. f_equal. eapply round_trip; eauto. }
  cbn [In safe_decimals] in H. destruct H as [Q|[Q|[Q|[Q|[Q|[]]]]]]; inversion Q; subst;
    (match type of E with map (to_u ?x) _ = _ =>
      eexists; split; [reflexivity|transitivity (Ok (FA (map (to_u x) (map (from_u x) fs)))); [reflexivity|now rewrite E]] end).
Qed.

Lemma C74_round_trip_refuted_l : forall type unit n,
  In (type, unit, n) [("wavelength", "nm", 20493); ("wavelength", "a", 3006)]%Z ->
  exists f g s, written (IZR n / 10) f /\ f_spectrum (FS f) type unit = Ok s /\
    f_convert_to s type unit = Ok (FS g) /\ flt f g = true.
Proof.
  intros t u n H. cbn [In] in H. destruct H as [Q|[Q|[]]]; inversion Q; subst.
  - exists (fdiv (of_Z 20493) (of_Z 10)). eexists. eexists. split; [apply written_quotient; vm_compute; intuition congruence|].
    split; [reflexivity|]. split; [reflexivity|]. vm_compute. reflexivity.
  - exists (fdiv (of_Z 3006) (of_Z 10)). eexists. eexists. split; [apply written_quotient; vm_compute; intuition congruence|].
    split; [reflexivity|]. split; [reflexivity|]. vm_compute. reflexivity.
Qed.

Lemma C74_frequency_refuted_l :
  (exists f g s, written 27000000000000 f /\ f_spectrum (FS f) "frequency" "hz" = Ok s /\
     f_convert_to s "frequency" "hz" = Ok (FS g) /\ flt f g = true) /\
  (exists f g s, written 1000000000000 f /\ f_spectrum (FS f) "frequency" "hz" = Ok s /\
     f_convert_to s "frequency" "hz" = Ok (FS g) /\ flt g f = true).
Proof.
  split.
  - exists (of_Z 27000000000000). eexists. eexists. split; [apply written_integer; vm_compute; intuition congruence|].
    split; [reflexivity|]. split; [reflexivity|]. vm_compute. reflexivity.
  - exists (of_Z 1000000000000). eexists. eexists. split; [apply written_integer; vm_compute; intuition congruence|].
    split; [reflexivity|]. split; [reflexivity|]. vm_compute. reflexivity.
Qed.

Lemma C75_decimals_l : forall type unit decimals K range_decimals range k f,
  In (type, unit, decimals, K) safe_decimals -> range <> [] ->
  Forall2 (fun k f => (0 < k <= K)%Z /\ written (IZR k / 10 ^ decimals) f) range_decimals range ->
  (0 < k <= K)%Z -> written (IZR k / 10 ^ decimals) f ->
  exists request, f_spectrum (FS f) type unit = Ok request /\
  forall r, fp_type r = type -> fp_unit r = unit -> fp_values r = FA range ->
    ((exists a, In a range_decimals /\ (a <= k)%Z) /\ (exists b, In b range_decimals /\ (k <= b)%Z) ->
       f_contains r request = Ok true) /\
    (~ ((exists a, In a range_decimals /\ (a <= k)%Z) /\ (exists b, In b range_decimals /\ (k <= b)%Z)) ->
       f_contains r request = Raise (if String.eqb unit "cm" then KeyError else ValueError)).
Proof.
  intros t u d K ks fs k f H Hne HF Hk W.
  destruct (C74_round_trip_l t u d K k f H Hk W) as (s & E1 & E2). exists s. split; auto.
  intros r Ht Hu Hv. destruct (safe_bounds _ _ _ _ H) as [KB DB]. rewrite pow_Z in W.
  assert (ORD : forall k' f', In (k', f') (combine ks fs) ->
     (B2R f' <= B2R f <-> (k' <= k)%Z) /\ (B2R f <= B2R f' <-> (k <= k')%Z) /\ fin f').
  { intros k' f' Hin.
    assert (P : (0 < k' <= K)%Z /\ written (IZR k' / 10 ^ d) f').
    { clear -HF Hin. induction HF; simpl in Hin; [tauto|]. destruct Hin as [Q|Q]; [inversion Q; subst; auto|auto]. }
    destruct P as [P1 P2]. rewrite pow_Z in P2. repeat split; try (apply P2);
      apply (written_order (Z.of_nat d)); auto; lia. }
  assert (LEN : length ks = length fs) by (clear -HF; induction HF; simpl; auto).
  assert (IN1 : forall k', In k' ks -> exists f', In (k', f') (combine ks fs)).
  { clear -LEN. revert fs LEN. induction ks; intros [|g fs] L; simpl in *; try tauto; try discriminate.
    intros k' [->|I]; [eauto|]. destruct (IHks fs ltac:(lia) k' I). eauto. }
  assert (IN2 : forall f', In f' fs -> exists k', In (k', f') (combine ks fs)).
  { clear -LEN. revert ks LEN. induction fs; intros [|g ks] L; simpl in *; try tauto; try discriminate.
    intros k' [->|I]; [eauto|]. destruct (IHfs ks ltac:(lia) k' I). eauto. }
  assert (HULL : in_hull fs f <-> ((exists a, In a ks /\ (a <= k)%Z) /\ (exists b, In b ks /\ (k <= b)%Z))).
  { unfold in_hull. split.
    - intros [(a & A1 & A2) (b & B1 & B2)]. destruct (IN2 a A1) as (ka & Ia). destruct (IN2 b B1) as (kb & Ib).
      destruct (ORD _ _ Ia) as (O1 & _). destruct (ORD _ _ Ib) as (_ & O2 & _). split.
      + exists ka. split; [eapply in_combine_l; eauto|]. apply O1; auto.
      + exists kb. split; [eapply in_combine_l; eauto|]. apply O2; auto.
    - intros [(a & A1 & A2) (b & B1 & B2)]. destruct (IN1 a A1) as (ka & Ia). destruct (IN1 b B1) as (kb & Ib).
      destruct (ORD _ _ Ia) as (O1 & _). destruct (ORD _ _ Ib) as (_ & O2 & _). split.
      + exists ka. split; [eapply in_combine_r; eauto|]. apply O1; auto.
      + exists kb. split; [eapply in_combine_r; eauto|]. apply O2; auto. }
  rewrite <- HULL.
  destruct (contains_hull r s (FS f)) as [C1 C2].
  - rewrite Ht, Hu. exact E2.
  - repeat constructor. apply W.
  - rewrite Hv. cbn [felems]. apply Forall_forall. intros g Hg. destruct (IN2 g Hg) as (kg & Ig). apply (ORD _ _ Ig).
  - discriminate.
  - rewrite Hv. auto.
  - rewrite Hv in C1, C2. cbn [felems] in C1, C2. split.
    + intros HH. apply C1. intros g [<-|[]]. auto.
    + intros HH. rewrite C2.
      * rewrite Hu. cbn [In safe_decimals] in H. destruct H as [Q|[Q|[Q|[Q|[Q|[]]]]]]; inversion Q; subst; reflexivity.
      * exists f. split; [left; auto|auto].
Qed.

Lemma C75_own_end_refuted_l : forall type unit m n b,
  In (type, unit, m, n, b) [("wavelength", "nm", 400, 20493, 10); ("wavelength", "a", 100, 3006, 10); ("frequency", "hz", 10 ^ 12, 27 * 10 ^ 12, 1)]%Z ->
  exists lo hi range request, written (IZR m) lo /\ written (IZR n / IZR b) hi /\
    f_spectrum (FA [lo; hi]) type unit = Ok range /\ f_spectrum (FS hi) type unit = Ok request /\
    f_contains range request = Raise ValueError.
Proof.
  intros t u m n b H. cbn [In] in H. destruct H as [Q|[Q|[Q|[]]]]; inversion Q; subst; clear Q.
  - exists (of_Z 400), (fdiv (of_Z 20493) (of_Z 10)). do 2 eexists. split; [apply written_integer; vm_compute; intuition congruence|].
    split; [apply written_quotient; vm_compute; intuition congruence|]. split; [reflexivity|]. split; [reflexivity|]. vm_compute. reflexivity.
  - exists (of_Z 100), (fdiv (of_Z 3006) (of_Z 10)). do 2 eexists. split; [apply written_integer; vm_compute; intuition congruence|].
    split; [apply written_quotient; vm_compute; intuition congruence|]. split; [reflexivity|]. split; [reflexivity|]. vm_compute. reflexivity.
  - exists (of_Z (10 ^ 12)), (of_Z (27 * 10 ^ 12)). do 2 eexists. split; [apply written_integer; vm_compute; intuition congruence|].
    split; [|split; [reflexivity|]; split; [reflexivity|]; vm_compute; reflexivity].
    match goal with |- written ?x _ => replace x with (IZR (27 * 10 ^ 12)) by (simpl; lra) end. apply written_integer; vm_compute; intuition congruence.
Qed.

Lemma C76_standard_l : forall type unit f w,
  wavelength_m type unit (B2R f) w -> is_finite f = true -> / 10 ^ 40 <= B2R f <= 10 ^ 40 ->
  exists s std, f_spectrum (FS f) type unit = Ok s /\ fp_std s = FS std /\
    is_finite std = true /\ Rabs (B2R std - w) <= 7 * half_ulp * w.
Proof.
  intros t u f w H F B. destruct (acc_from t u f w H F B) as [N WB].
  exists (mkFsp t u (FS f) (FS (from_u u f))), (from_u u f).
  split; [eapply f_spectrum_scalar; eauto|]. split; auto. destruct N as (F' & P & R). split; auto.
  pose proof (rel_abs 6 _ _ ltac:(lia) P R) as A. eapply Rle_trans; [exact A|]. replace (INR 6) with 6 by (simpl; lra).
  change half_ulp with uu. assert (0 < uu * w) by (apply Rmult_lt_0_compat; [apply uu_pos|auto]). lra.
Qed.

Lemma C76_converted_l : forall type unit type' unit' f w y,
  wavelength_m type unit (B2R f) w -> wavelength_m type' unit' y w -> 0 < y -> unit' <> "1/cm" ->
  is_finite f = true -> / 10 ^ 40 <= B2R f <= 10 ^ 40 ->
  exists s g, f_spectrum (FS f) type unit = Ok s /\ f_convert_to s type' unit' = Ok (FS g) /\
    is_finite g = true /\
    Rabs (B2R g - y) <= 15 * half_ulp * y +
                        match doc_decimals unit' with Some d => (/ 2 + / 1000) / 10 ^ d | None => 0 end.
Proof.
  intros t u t' u' f w y H H' Y Hu F B. destruct (acc_from t u f w H F B) as [N WB].
  exists (mkFsp t u (FS f) (FS (from_u u f))), (to_u u' (from_u u f)).
  split; [eapply f_spectrum_scalar; eauto|]. split; [eapply f_convert_scalar; eauto|].
  destruct (acc_raw t' u' y w _ 6 H' Hu Y ltac:(lia) N WB) as [A YB]. change (6 + 6)%nat with 12%nat in A.
  change half_ulp with uu. assert (0 < uu * y) by (apply Rmult_lt_0_compat; [apply uu_pos|auto]).
  unfold to_u. destruct (doc_decimals u') as [d|] eqn:D.
  - destruct (np_round_err 12 (Z.of_nat d) y _ ltac:(lia) (decimals_13 _ _ D) YB A) as [F' E]. split; auto.
    rewrite <- pow_Z in E. replace (INR 12) with 12 in E by (simpl; lra). eapply Rle_trans; [exact E|]. lra.
  - destruct A as (F' & P & R). split; auto. pose proof (rel_abs 12 _ _ ltac:(lia) P R) as A.
    eapply Rle_trans; [exact A|]. replace (INR 12) with 12 by (simpl; lra). lra.
Qed.

Lemma C76_wavenumber_refuted_l : forall type unit f w y,
  wavelength_m type unit (B2R f) w -> wavelength_m "wavenumber" "1/cm" y w -> 0 < y ->
  is_finite f = true -> / 10 ^ 40 <= B2R f <= 10 ^ 40 ->
  exists s g, f_spectrum (FS f) type unit = Ok s /\ f_convert_to s "wavenumber" "1/cm" = Ok (FS g) /\
    is_finite g = true /\ Rabs (B2R g - 10 ^ 4 * y) <= 13 * half_ulp * (10 ^ 4 * y).
Proof.
  intros t u f w y H H' Y F B. destruct (acc_from t u f w H F B) as [N WB].
  exists (mkFsp t u (FS f) (FS (from_u u f))), (to_u "1/cm" (from_u u f)).
  split; [eapply f_spectrum_scalar; eauto|]. split; [eapply f_convert_scalar; eauto|].
  pose proof (acc_icm y w _ 6 H' Y ltac:(lia) N WB) as A. change (6 + 6)%nat with 12%nat in A.
  destruct A as (F' & P & R). split; [exact F'|]. pose proof (rel_abs 12 _ _ ltac:(lia) P R) as A.
  change half_ulp with uu. assert (0 < uu * (10 ^ 4 * y)) by (apply Rmult_lt_0_compat; [apply uu_pos|auto]).
  eapply Rle_trans; [exact A|]. replace (INR 12) with 12 by (simpl; lra). lra.
Qed.

Lemma C76_models_agree_l : forall type unit type' unit' f w,
  wavelength_m type unit (B2R f) w -> documented type unit unit -> documented type' unit' unit' ->
  lower type = type -> lower unit = unit -> lower type' = type' -> unit' <> "1/cm" ->
  is_finite f = true -> / 10 ^ 40 <= B2R f <= 10 ^ 40 ->
  exists s s' g r, f_spectrum (FS f) type unit = Ok s /\ f_convert_to s type' unit' = Ok (FS g) /\ is_finite g = true /\
    mk_spectrum (InVals (VS (Fin (B2R f)))) type unit = Ok s' /\ convert_to s' type' unit' = Ok (VS (Fin r)) /\
    match doc_decimals unit' with
    | Some d => Rabs (B2R g - r) <= 16 * half_ulp * r + (1 + / 100) / 10 ^ d
    | None => Rabs (B2R g - r) <= 15 * half_ulp * r
    end.
Proof.
  intros t u t' u' f w H D D' Lt Lu Lt' Hu F B. destruct (acc_from t u f w H F B) as [N WB].
  destruct (C02_standard_rep_scalar_l t u u (B2R f) w) as (s' & M1 & M2); try (rewrite ?Lt, ?Lu; auto).
  { intros _. lra. }
  assert (Wn : lower t' <> "wavenumber").
  { rewrite Lt'. intros ->. destruct D' as (sp & I & _). cbn in I.
    repeat (destruct I as [I|I]; [inversion I; subst; congruence|]). destruct I. }
  destruct (C08_conversion_chain_l s' t' u' u' w M2 ltac:(lra) ltac:(rewrite Lt'; auto) Wn) as (y & r & Hy & Hr & Hc & _).
  rewrite Lt' in Hy.
  assert (Y : 0 < y).
  { assert (W0 : 0 < w) by lra. pose proof PI_close. destruct Hy; try lra.
    - destruct (Rle_or_lt x 0) as [G|]; auto. exfalso. destruct G as [G|G].
      + assert (speed_of_light / x < 0); [|lra]. unfold Rdiv. apply Rinv_lt_0_compat in G. unfold speed_of_light in *. nra.
      + subst x. unfold Rdiv in W0. rewrite Rinv_0, Rmult_0_r in W0. lra.
    - destruct (Rle_or_lt x 0) as [G|]; auto. exfalso. unfold Rdiv in W0. rewrite Rinv_mult in W0.
      assert (K : 0 < planck * speed_of_light * / elementary_charge) by (unfold planck, speed_of_light, elementary_charge; lra).
      rewrite <- Rmult_assoc in W0. destruct G as [G|G].
      + apply Rinv_lt_0_compat in G. nra.
      + subst x. rewrite Rinv_0, Rmult_0_r in W0. lra.
    - destruct (Rle_or_lt x 0) as [G|]; auto. exfalso. unfold Rdiv in W0.
      assert (K : 0 < 2 * PI * speed_of_light) by (unfold speed_of_light; lra). destruct G as [G|G].
      + apply Rinv_lt_0_compat in G. nra.
      + subst x. rewrite Rinv_0, Rmult_0_r in W0. lra.
    - congruence. }
  destruct (C76_converted_l t u t' u' f w y H Hy Y Hu F B) as (s & g & A1 & A2 & A3 & A4).
  exists s, s', g, r. repeat (split; [assumption|]).
  change half_ulp with uu in *. pose proof uu_pos. pose proof uu_small.
  unfold rounds_for in Hr. destruct (doc_decimals u') as [d|].
  - destruct Hr as (n & _ & E & _). apply Rabs_le_inv in E. apply Rabs_le_inv in A4.
    set (c := / 10 ^ d) in *. assert (C0 : 0 < c) by (apply Rinv_0_lt_compat, pow_lt; lra).
    assert (Q : 15 * uu * y <= 15 * uu * r + 15 * uu * (/ 2 * c)).
    { rewrite <- Rmult_plus_distr_l. apply Rmult_le_compat_l; lra. }
    assert (Q2 : 15 * uu * (/ 2 * c) <= / 1000 * c) by (rewrite <- Rmult_assoc; apply Rmult_le_compat_r; lra).
    assert (Q3 : - (/ 1000 * c) <= uu * r).
    { assert (0 <= uu * y) by (apply Rmult_le_pos; lra). assert (uu * y <= uu * (r + / 2 * c)) by (apply Rmult_le_compat_l; lra).
      assert (uu * (/ 2 * c) <= / 1000 * c) by (rewrite <- Rmult_assoc; apply Rmult_le_compat_r; lra). lra. }
    unfold Rdiv in *. fold c in A4. fold c. apply Rabs_le. split; lra.
  - subst r. rewrite Rplus_0_r in A4. exact A4.
Qed.

Lemma C77_order_l : forall type unit type' unit' f g y w,
  documented type unit unit -> wavelength_m type' unit' y w ->
  is_finite f = true -> is_finite g = true -> / 10 ^ 40 <= B2R f -> B2R f <= B2R g -> B2R g <= 10 ^ 40 ->
  exists s t a b, f_spectrum (FS f) type unit = Ok s /\ f_spectrum (FS g) type unit = Ok t /\
    f_convert_to s type' unit' = Ok (FS a) /\ f_convert_to t type' unit' = Ok (FS b) /\
    is_finite a = true /\ is_finite b = true /\
    ((reciprocal_type type <-> reciprocal_type type') -> B2R a <= B2R b) /\
    (~ (reciprocal_type type <-> reciprocal_type type') -> B2R b <= B2R a).
Proof.
  intros t u t' u' f g y w D H F G L O U.
  assert (EX : forall x, 0 < x -> exists w, wavelength_m t u x w).
  { intros x _. destruct D as (sp & I & _). cbn in I.
    repeat (destruct I as [I|I]; [inversion I; subst; eexists; constructor|]). destruct I. }
  destruct (EX (B2R f) ltac:(lra)) as (wf & Wf). destruct (EX (B2R g) ltac:(lra)) as (wg & Wg).
  destruct (acc_from _ _ _ _ Wf F ltac:(lra)) as [Nf Bf]. destruct (acc_from _ _ _ _ Wg G ltac:(lra)) as [Ng Bg].
  pose proof (from_mono t u f g _ _ true Wf F G ltac:(lra) ltac:(lra) O) as M1.
  destruct (wavelength_value _ _ _ _ wf H ltac:(lra)) as (v & Pv & Hv).
  pose proof (to_mono t' u' v wf wg _ _ 6 _ Hv ltac:(lia) Nf Ng Bf Bg M1) as M2.
  destruct (wavelength_value _ _ _ _ wg H ltac:(lra)) as (v' & Pv' & Hv').
  exists (mkFsp t u (FS f) (FS (from_u u f))), (mkFsp t u (FS g) (FS (from_u u g))), (to_u u' (from_u u f)), (to_u u' (from_u u g)).
  split; [eapply f_spectrum_scalar; eauto|]. split; [eapply f_spectrum_scalar; eauto|].
  split; [eapply f_convert_scalar; eauto|]. split; [eapply f_convert_scalar; eauto|].
  split; [eapply (to_finite t' u' v wf _ 6); eauto; lia|]. split; [eapply (to_finite t' u' v' wg _ 6); eauto; lia|].
  assert (RC : forall t u x w, wavelength_m t u x w -> (recip u = true /\ reciprocal_type t) \/ (recip u = false /\ ~ reciprocal_type t)).
  { intros t0 u0 x0 w0 Q. destruct Q; (left; split; [reflexivity|cbn; tauto]) || (right; split; [reflexivity|cbn; intuition discriminate]). }
  unfold turn in M2. destruct (RC _ _ _ _ Wf) as [[r1 r2]|[r1 r2]], (RC _ _ _ _ Hv) as [[q1 q2]|[q1 q2]]; rewrite r1, q1 in M2; cbn in M2; split; intros X; try tauto; auto.
Qed.

Lemma C77_between_l : forall type unit range f g h s t u y w,
  documented type unit unit -> wavelength_m (fp_type range) (fp_unit range) y w ->
  is_finite f = true -> is_finite g = true -> is_finite h = true ->
  / 10 ^ 40 <= B2R f -> B2R f <= B2R g -> B2R g <= B2R h -> B2R h <= 10 ^ 40 ->
  f_spectrum (FS f) type unit = Ok s -> f_spectrum (FS g) type unit = Ok t -> f_spectrum (FS h) type unit = Ok u ->
  f_contains range s = Ok true -> f_contains range u = Ok true -> f_contains range t = Ok true.
Proof.
  intros ty un r f g h s t u y w D H F G Hf L O1 O2 U Es Et Eu C1 C2.
  destruct (C77_order_l ty un _ _ f g y w D H F G L O1 ltac:(lra)) as (s' & t' & a & b & A1 & A2 & A3 & A4 & A5 & A6 & A7 & A8).
  destruct (C77_order_l ty un _ _ g h y w D H G Hf ltac:(lra) O2 U) as (t'' & u' & b' & c & B1 & B2 & B3 & B4 & B5 & B6 & B7 & B8).
  assert (s' = s) by congruence. assert (t' = t) by congruence. assert (t'' = t) by congruence. assert (u' = u) by congruence. subst.
  assert (b' = b) by congruence. subst b'.
  assert (OR : (B2R a <= B2R b /\ B2R b <= B2R c) \/ (B2R c <= B2R b /\ B2R b <= B2R a)).
  { destruct (Classical_Prop.classic (reciprocal_type ty <-> reciprocal_type (fp_type r))); [left|right]; auto. }
  unfold f_contains in *. rewrite A3 in C1. rewrite B4 in C2. rewrite A4. cbn [bind felems f_reduce fold_left] in *.
  destruct (f_reduce f_min2 (felems (fp_values r))) as [mn|e]; cbn [bind] in *; [|discriminate].
  destruct (f_reduce f_max2 (felems (fp_values r))) as [mx|e]; cbn [bind] in *; [|discriminate].
  assert (K1 : flt a mn || flt mx a = false).
  { destruct (flt a mn || flt mx a); auto. destruct (display_string (fp_unit r)); discriminate. }
  assert (K2 : flt c mn || flt mx c = false).
  { destruct (flt c mn || flt mx c); auto. destruct (display_string (fp_unit r)); discriminate. }
  apply Bool.orb_false_iff in K1. apply Bool.orb_false_iff in K2.
  assert (LT1 : forall x y : float, fin x -> fin y -> B2R x <= B2R y -> flt x mn = false -> flt y mn = false).
  { intros p q Fp Fq Le. destruct (is_finite mn) eqn:Fm.
    - rewrite !flt_ok by auto. intros E. apply Rlt_bool_false. destruct (Rlt_bool_spec (B2R p) (B2R mn)); [discriminate|lra].
    - destruct mn as [sg|sg| |sg m e Hb]; try discriminate Fm; destruct p, q; try discriminate; auto; destruct sg; auto. }
  assert (LT2 : forall x y : float, fin x -> fin y -> B2R y <= B2R x -> flt mx x = false -> flt mx y = false).
  { intros p q Fp Fq Le. destruct (is_finite mx) eqn:Fm.
    - rewrite !flt_ok by auto. intros E. apply Rlt_bool_false. destruct (Rlt_bool_spec (B2R mx) (B2R p)); [discriminate|lra].
    - destruct mx as [sg|sg| |sg m e Hb]; try discriminate Fm; destruct p, q; try discriminate; auto; destruct sg; auto. }
  replace (flt b mn || flt mx b) with false; auto. symmetry. apply Bool.orb_false_iff.
  destruct OR as [[Q1 Q2]|[Q1 Q2]]; split.
  - apply (LT1 a); auto. tauto.
  - apply (LT2 c); auto. tauto.
  - apply (LT1 c); auto. tauto.
  - apply (LT2 a); auto. tauto.
Qed.

Lemma wavelength_of t u : documented t u u -> exists x w, wavelength_m t u x w.
Proof.
  intros (sp & H & _). cbn [In doc_units] in H. repeat (destruct H as [H|H]; [injection H as <- <- <-; exists 1; eexists; constructor|]). destruct H.
Qed.
Definition from_e (u : string) (x : float) : float :=
  if String.eqb u "cm" then fmul x (lit_neg 2) else if String.eqb u "um" then fmul x (lit_neg 6)
  else if String.eqb u "nm" then fmul x (lit_neg 9) else if String.eqb u "a" then fmul x (lit_neg 10)
  else if String.eqb u "hz" then fmul f_c (f_inverse_elem x) else if String.eqb u "ev" then fmul f_hce (f_inverse_elem x)
  else if String.eqb u "1/s" then fmul f_2pic (f_inverse_elem x)
  else if String.eqb u "1/cm" then fmul (fmul f_2pi (f_inverse_elem x)) (lit_neg 2) else x.
Definition to_e (u : string) (x : float) : float :=
  if String.eqb u "hz" then fmul f_c (f_inverse_elem x) else if String.eqb u "ev" then np_round 9 (fmul f_hce (f_inverse_elem x))
  else if String.eqb u "1/s" then fmul f_2pic (f_inverse_elem x)
  else if String.eqb u "1/cm" then fmul f_2pi (f_inverse_elem (fmul x (lit_neg 2))) else to_u u x.
Lemma map_same {A} (g : A -> A) l : (forall x, g x = x) -> map g l = l.
Proof. intros H. rewrite <- (map_id l) at 2. now apply map_ext. Qed.
Lemma f_spectrum_array t u x w l : wavelength_m t u x w -> f_spectrum (FA l) t u = Ok (mkFsp t u (FA l) (FA (map (from_e u) l))).
Proof.
  assert (forall g h v, map g l = map h l -> Ok (mkFsp t u v (FA (map g l))) = Ok (mkFsp t u v (FA (map h l)))) as C by (intros g h v E; now rewrite E).
  intros H. destruct H; [rewrite (map_same (from_e "m")) by reflexivity; reflexivity|reflexivity|reflexivity|reflexivity|reflexivity| | | | ].
  - transitivity (Ok (mkFsp "frequency" "hz" (FA l) (FA (map (fmul f_c) (map f_inverse_elem l))))); [reflexivity|rewrite map_map; reflexivity].
  - transitivity (Ok (mkFsp "energy" "ev" (FA l) (FA (map (fmul f_hce) (map f_inverse_elem l))))); [reflexivity|rewrite map_map; reflexivity].
  - transitivity (Ok (mkFsp "angularfrequency" "1/s" (FA l) (FA (map (fmul f_2pic) (map f_inverse_elem l))))); [reflexivity|rewrite map_map; reflexivity].
  - transitivity (Ok (mkFsp "wavenumber" "1/cm" (FA l) (FA (map (fun x => fmul (fmul f_2pi x) (lit_neg 2)) (map f_inverse_elem l))))); [reflexivity|rewrite map_map; reflexivity].
Qed.
Lemma f_convert_array t u x w s l : wavelength_m t u x w -> fp_std s = FA l -> f_convert_to s t u = Ok (FA (map (to_e u) l)).
Proof.
  intros H E. destruct H; unfold f_convert_to; rewrite E; [rewrite (map_same (to_e "m")) by reflexivity; reflexivity|reflexivity|reflexivity|reflexivity|reflexivity| | | | ].
  - transitivity (Ok (FA (map (fmul f_c) (map f_inverse_elem l)))); [reflexivity|rewrite map_map; reflexivity].
  - transitivity (Ok (FA (map (fun x => np_round 9 (fmul f_hce x)) (map f_inverse_elem l)))); [reflexivity|rewrite map_map; reflexivity].
  - transitivity (Ok (FA (map (fmul f_2pic) (map f_inverse_elem l)))); [reflexivity|rewrite map_map; reflexivity].
  - transitivity (Ok (FA (map (fmul f_2pi) (map f_inverse_elem (map (fun x => fmul x (lit_neg 2)) l))))); [reflexivity|rewrite !map_map; reflexivity].
Qed.
Lemma lit_8 : is_finite (lit_neg 8) = true /\ / 10 ^ 8 * (1 - / 10 ^ 14) <= B2R (lit_neg 8) <= / 10 ^ 8 * (1 + / 10 ^ 14).
Proof.
  destruct (near_lit_neg 8 ltac:(lia)) as (F & P & R). split; [exact F|].
  pose proof (rel_abs 1 _ _ ltac:(lia) P R) as A. replace (INR 1) with 1 in A by (simpl; lra). apply Rabs_le_inv in A.
  assert ((1 + / 1000) * uu * (/ IZR (10 ^ 8)) <= / 10 ^ 14 * (/ IZR (10 ^ 8))) as U by (apply Rmult_le_compat_r; [lra|unfold uu; simpl; lra]).
  replace (IZR (10 ^ 8)) with (10 ^ 8) in * by (simpl; lra). lra.
Qed.
Lemma mul_inf n x f : near n x f -> fmul f finf = finf.
Proof.
  intros N. pose proof (near_pos _ _ _ N) as P. destruct N as (F & _). destruct f as [ [|] | [|] | | [|] m e b]; try discriminate F; try (cbn in P; lra); try reflexivity.
  exfalso. apply (Rlt_irrefl 0), Rlt_trans with (1 := P). apply F2R_lt_0. reflexivity.
Qed.
Lemma inf_mul n x f : near n x f -> fmul finf f = finf /\ fdiv finf f = finf.
Proof.
  intros N. pose proof (near_pos _ _ _ N) as P. destruct N as (F & _). destruct f as [ [|] | [|] | | [|] m e b]; try discriminate F; try (cbn in P; lra); try (split; reflexivity).
  exfalso. apply (Rlt_irrefl 0), Rlt_trans with (1 := P). apply F2R_lt_0. reflexivity.
Qed.
Lemma round_inf : np_round 9 finf = finf.
Proof.
  unfold np_round. destruct (inf_mul 0 _ (lit_pos 9) (near_lit_pos 9 ltac:(lia))) as [-> E]. change (frint finf) with finf. exact E.
Qed.
Lemma elem_big f : is_finite f = true -> / 10 ^ 8 * (1 + / 10 ^ 14) < B2R f -> f_inverse_elem f = f_inverse_scalar f.
Proof.
  intros F B. rewrite pos_inverse; [|exact F|lra]. unfold f_inverse_elem, f_isclose_zero, f_isclose_inf, fle, fabs.
  rewrite Bleb_correct; [|now rewrite is_finite_Babs|apply lit_8]. rewrite B2R_Babs, Rabs_pos_eq by lra.
  rewrite Rle_bool_false by (destruct lit_8; lra). destruct f; try discriminate; reflexivity.
Qed.
Lemma elem_small f : is_finite f = true -> 0 < B2R f < / 10 ^ 8 * (1 - / 10 ^ 14) -> f_inverse_elem f = finf.
Proof.
  intros F B. unfold f_inverse_elem, f_isclose_zero, fle, fabs. rewrite Bleb_correct; [|now rewrite is_finite_Babs|apply lit_8].
  rewrite B2R_Babs, Rabs_pos_eq by lra. rewrite Rle_bool_true by (destruct lit_8; lra). reflexivity.
Qed.
Lemma from_elem t u f w : wavelength_m t u (B2R f) w -> is_finite f = true -> (reciprocal_type t -> (1 + / 10 ^ 6) / 10 ^ 8 <= B2R f) -> from_e u f = from_u u f.
Proof.
  intros H F B. inversion H; subst; try reflexivity; (assert (f_inverse_elem f = f_inverse_scalar f) as E; [apply elem_big; [exact F|]; assert ((1 + / 10 ^ 6) / 10 ^ 8 <= B2R f) by (apply B; cbn; tauto); lra|]);
    unfold from_e, from_u; cbn [String.eqb Ascii.eqb Bool.eqb]; now rewrite E.
Qed.
Lemma std_near t u f w : wavelength_m t u (B2R f) w -> is_finite f = true -> / 10 ^ 40 <= B2R f <= 10 ^ 40 ->
  is_finite (from_u u f) = true /\ w * (1 - / 10 ^ 14) <= B2R (from_u u f) <= w * (1 + / 10 ^ 14) /\ 0 < w /\ near 6 w (from_u u f) /\ / 10 ^ 65 <= w <= 10 ^ 65.
Proof.
  intros H F B. destruct (acc_from t u f w H F B) as [N WB].
  assert (near 6 w (from_u u f)) as N' by exact N. destruct N as (F' & P & R). split; [exact F'|].
  pose proof (rel_abs 6 _ _ ltac:(lia) P R) as A. replace (INR 6) with 6 in A by (simpl; lra).
  assert ((6 + / 1000) * uu * w <= / 10 ^ 14 * w) as U by (apply Rmult_le_compat_r; [lra|unfold uu; simpl; lra]).
  apply Rabs_le_inv in A. split; [lra|]. split; [exact P|]. split; [exact N'|]. exact WB.
Qed.

Lemma C76_arrays_l : forall type unit type' unit' fs y v,
  documented type unit unit -> wavelength_m type' unit' y v ->
  (forall f, In f fs -> is_finite f = true /\ / 10 ^ 40 <= B2R f <= 10 ^ 40 /\
     (reciprocal_type type -> (1 + / 10 ^ 6) / 10 ^ 8 <= B2R f) /\
     exists w, wavelength_m type unit (B2R f) w /\ (reciprocal_type type' -> (1 + / 10 ^ 6) / 10 ^ 8 <= w) /\
       (unit' = "1/cm" -> (1 + / 10 ^ 6) / 10 ^ 6 <= w)) ->
  exists s gs, f_spectrum (FA fs) type unit = Ok s /\ f_convert_to s type' unit' = Ok (FA gs) /\
    Forall2 (fun f g => exists s1, f_spectrum (FS f) type unit = Ok s1 /\ f_convert_to s1 type' unit' = Ok (FS g)) fs gs.
Proof.
  intros t u t' u' fs y v D H' HF. destruct (wavelength_of t u D) as (x & w & H).
  eexists. exists (map (to_e u') (map (from_e u) fs)). split; [exact (f_spectrum_array t u x w fs H)|]. split; [eapply f_convert_array; [exact H'|reflexivity]|].
  assert (forall f, In f fs -> from_e u f = from_u u f /\ to_e u' (from_u u f) = to_u u' (from_u u f)) as E.
  { intros f Hf. destruct (HF f Hf) as (F & B & Br & wf & Hw & Bw & Bc). split; [now apply (from_elem t u f wf)|].
    destruct (std_near t u f wf Hw F B) as (Fs & Bs & P & N & WB).
    inversion H'; subst; try reflexivity.
    all: try (assert (f_inverse_elem (from_u u f) = f_inverse_scalar (from_u u f)) as E; [apply elem_big; [exact Fs|]; assert ((1 + / 10 ^ 6) / 10 ^ 8 <= wf) by (apply Bw; cbn; tauto); lra|]; unfold to_e, to_u; cbn [String.eqb Ascii.eqb Bool.eqb doc_decimals]; rewrite E; reflexivity).
    specialize (Bc eq_refl).
    assert (near 8 (wf * / IZR (10 ^ 2)) (fmul (from_u u f) (lit_neg 2))) as N2 by (apply (near_mul 6 1); [lia| |exact N|apply near_lit_neg; lia]; (split; [apply low_ok|apply high_ok]); lra).
    destruct N2 as (F2 & P2 & R2). pose proof (rel_abs 8 _ _ ltac:(lia) P2 R2) as A. replace (INR 8) with 8 in A by (simpl; lra). apply Rabs_le_inv in A.
    assert ((8 + / 1000) * uu * (wf * / IZR (10 ^ 2)) <= / 10 ^ 14 * (wf * / IZR (10 ^ 2))) as U by (apply Rmult_le_compat_r; [lra|unfold uu; simpl; lra]).
    unfold to_e, to_u. cbn [String.eqb Ascii.eqb Bool.eqb doc_decimals]. unfold to_raw. cbn [String.eqb Ascii.eqb Bool.eqb].
    rewrite elem_big; [reflexivity|exact F2|lra]. }
  clear HF. induction fs as [|f fs IH]; cbn [map]; constructor.
  - destruct (E f (or_introl eq_refl)) as [E1 E2]. rewrite E1, E2. eexists. split; [exact (f_spectrum_scalar t u x w f H)|]. eapply f_convert_scalar; [exact H'|reflexivity].
  - apply IH. intros g Hg. apply E. now right.
Qed.

Lemma C76_small_arrays_refuted_l : forall unit type' unit' y v fs f w,
  documented "wavelength" unit unit -> wavelength_m type' unit' y v -> reciprocal_type type' ->
  In f fs -> is_finite f = true -> / 10 ^ 40 <= B2R f <= 10 ^ 40 -> wavelength_m "wavelength" unit (B2R f) w ->
  w <= 0.99 / 10 ^ (if String.eqb unit' "1/cm" then 6 else 8) ->
  exists s l, f_spectrum (FA fs) "wavelength" unit = Ok s /\ f_convert_to s type' unit' = Ok (FA l) /\ In (B754_infinity false) l /\
    exists s1 g, f_spectrum (FS f) "wavelength" unit = Ok s1 /\ f_convert_to s1 type' unit' = Ok (FS g) /\ is_finite g = true.
Proof.
  intros u t' u' y v fs f w D H' Rt Hf F B Hw Bw. destruct (wavelength_of "wavelength" u D) as (x & w0 & H).
  eexists. exists (map (to_e u') (map (from_e u) fs)). split; [exact (f_spectrum_array _ u x w0 fs H)|]. split; [eapply f_convert_array; [exact H'|reflexivity]|].
  destruct (std_near _ u f w Hw F B) as (Fs & Bs & P & N & WB).
  split.
  - apply in_map_iff. exists (from_e u f). split; [|now apply in_map].
    rewrite (from_elem _ u f w Hw F) by (intros X; exfalso; cbn in X; repeat (destruct X as [X|X]; [discriminate X|]); destruct X).
    inversion H'; subst; try (exfalso; cbn in Rt; repeat (destruct Rt as [X|Rt]; [discriminate X|]); solve [destruct Rt]); cbn [String.eqb Ascii.eqb Bool.eqb] in Bw.
    1,2,3: unfold to_e; cbn [String.eqb Ascii.eqb Bool.eqb]; rewrite elem_small; [|exact Fs|lra].
    { exact (mul_inf _ _ _ near_c). } { rewrite (mul_inf _ _ _ near_hce). exact round_inf. } { exact (mul_inf _ _ _ near_2pic). }
    assert (near 8 (w * / IZR (10 ^ 2)) (fmul (from_u u f) (lit_neg 2))) as N2 by (apply (near_mul 6 1); [lia| |exact N|apply near_lit_neg; lia]; (split; [apply low_ok|apply high_ok]); lra).
    destruct N2 as (F2 & P2 & R2). pose proof (rel_abs 8 _ _ ltac:(lia) P2 R2) as A. replace (INR 8) with 8 in A by (simpl; lra). apply Rabs_le_inv in A.
    assert ((8 + / 1000) * uu * (w * / IZR (10 ^ 2)) <= / 10 ^ 14 * (w * / IZR (10 ^ 2))) as U by (apply Rmult_le_compat_r; [lra|unfold uu; simpl; lra]).
    unfold to_e. cbn [String.eqb Ascii.eqb Bool.eqb]. rewrite elem_small; [exact (mul_inf _ _ _ near_2pi)|exact F2|lra].
  - destruct (C77_order_l "wavelength" u t' u' f f y v D H' F F (proj1 B) (Rle_refl _) (proj2 B)) as (s1 & _ & a & _ & E1 & _ & E2 & _ & E3 & _).
    now exists s1, a.
Qed.
