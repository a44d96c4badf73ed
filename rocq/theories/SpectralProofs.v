(** Proofs about spectral data. *)
From Verif Require Import PyBase PyStr XReal CNum SpectrumModel SpectrumSpec SpectrumProofs SpectralModel SpectralSpec.
From Coq Require Import Permutation Sorted.
From Flocq Require Import Core.
Open Scope R_scope.
Open Scope list_scope.

(** ** rounding is a function *)
Lemma rounds_to_unique d x y1 y2 : rounds_to d x y1 -> rounds_to d x y2 -> y1 = y2.
Proof.
  intros (n1 & E1 & B1 & T1) (n2 & E2 & B2 & T2).
  assert (Hp : 0 < 10 ^ d) by (apply pow_lt; lra).
  set (p := 10 ^ d) in *.
  assert (Hq : 0 < / p) by now apply Rinv_0_lt_compat.
  destruct (Z.eq_dec n1 n2) as [->|N]; [congruence|].
  assert (K : forall a b ya yb, (a < b)%Z -> ya = IZR a / p -> yb = IZR b / p ->
     Rabs (ya - x) <= / 2 * / p -> Rabs (yb - x) <= / 2 * / p ->
     b = (a + 1)%Z /\ Rabs (ya - x) = / 2 * / p /\ Rabs (yb - x) = / 2 * / p).
  { intros a b ya yb L -> -> Ba Bb.
    assert (L1 : 1 <= IZR b - IZR a) by (rewrite <- minus_IZR; apply IZR_le; lia).
    assert (D : IZR b / p - IZR a / p = (IZR b - IZR a) * / p) by (unfold Rdiv; ring).
    pose proof (Rabs_le_inv _ _ Ba) as Ba'. pose proof (Rabs_le_inv _ _ Bb) as Bb'.
    assert (U : (IZR b - IZR a) * / p <= 1 * / p) by lra.
    apply Rmult_le_reg_r in U; [|assumption].
    assert (E : b = (a + 1)%Z) by (apply eq_IZR; rewrite plus_IZR; lra).
    split; [exact E|].
    assert (W : IZR b - IZR a = 1) by lra. rewrite W in D.
    split; [rewrite Rabs_left1|rewrite Rabs_pos_eq]; lra. }
  destruct (Z_lt_le_dec n1 n2) as [L|L].
  - destruct (K n1 n2 y1 y2 L E1 E2 B1 B2) as (-> & A1 & A2).
    specialize (T1 A1). specialize (T2 A2). rewrite Z.even_add, T1 in T2. discriminate.
  - assert (L' : (n2 < n1)%Z) by lia.
    destruct (K n2 n1 y2 y1 L' E2 E1 B2 B1) as (-> & A1 & A2).
    specialize (T1 A2). specialize (T2 A1). rewrite Z.even_add, T2 in T1. discriminate.
Qed.

Lemma rounds_for_unique canon x y : rounds_for canon x y -> y = rnd_for canon x.
Proof.
  unfold rounds_for, rnd_for. destruct (doc_decimals canon); [|auto].
  intros H. eapply rounds_to_unique; [exact H|apply round_dec_spec].
Qed.

Lemma Rinv_eq_reg' a b : / a = / b -> a = b.
Proof. intros H. rewrite <- (Rinv_inv a), <- (Rinv_inv b). now f_equal. Qed.

Lemma wavelength_inj t canon w0 w1 lam :
  wavelength_m t canon w0 lam -> wavelength_m t canon w1 lam -> 0 < lam -> w0 = w1.
Proof.
  intros W W1 Hl.
  destruct const_pos as (P & P2 & P3 & P4 & P5). destruct consts_eq as (E1 & E2 & E3).
  assert (Q : forall k a b, 0 < k -> k / a = k / b -> a = b).
  { intros k a b Hk H. apply Rinv_eq_reg'. unfold Rdiv in H. apply Rmult_eq_reg_l with k; lra. }
  assert (Q2 : forall k a b, k <> 0 -> a / k = b / k -> a = b).
  { intros k a b Hk H. unfold Rdiv in H. apply Rmult_eq_reg_r with (/ k); [lra|now apply Rinv_neq_0_compat]. }
  assert (T : forall n, 10 ^ n <> 0) by (intros; apply pow_nonzero; lra).
  rewrite <- E1 in *. rewrite <- E2, <- E3 in *. clear E1 E2 E3.
  destruct W; inversion W1; subst;
    try reflexivity; try lra; symmetry;
    first [eapply (Q2 (10 ^ 6)); now eauto | eapply (Q2 (10 ^ 9)); now eauto
          | eapply (Q2 (10 ^ 10)); now eauto | eapply (Q speed_of_light); now eauto | idtac].
  - match goal with H : planck * _ / _ = _ |- _ => apply (Q (planck * speed_of_light)) in H end; [|now apply Rmult_lt_0_compat].
    apply Rmult_eq_reg_l with elementary_charge; [auto|lra].
  - apply (Q (2 * PI * speed_of_light)); [apply Rmult_lt_0_compat; lra|auto].
  - apply (Q (2 * PI)); [lra|]. apply (Q2 100); [lra|auto].
Qed.

(** ** conversion of a request to the unit of the data *)
Lemma asked_convert d s t canon w t' u' :
  asked d s t canon w -> lower t' = t -> documented t u' canon -> t <> "wavenumber"%string ->
  convert_to s t' u' = Ok (VS (Fin w)).
Proof.
  intros [(t0 & u0 & c0 & x & lam & w0 & Hs & Hx & D0 & W0 & W & Rw) _] Et D Hn.
  assert (D1 : documented (lower t') u' canon) by (rewrite Et; exact D).
  rewrite (convert_to_unfold _ _ _ _ D1).
  rewrite (mk_scalar _ _ _ _ _ D0 W0) in Hs by (intros; lra). injection Hs as <-. cbn [sp_std].
  rewrite Et. pose proof (wavelength_pos _ _ _ _ W0 Hx) as Hl.
  destruct (wavelength_inv _ _ _ _ D Hl) as (w1 & P1 & W1).
  assert (w0 = w1) by (eapply wavelength_inj; eassumption).
  subst w1. rewrite (to_scalar _ _ _ _ _ D Hn W) by (intros; lra).
  now rewrite (rounds_for_unique _ _ _ Rw).
Qed.

Lemma Forall2_cons_iff' {A B} (P : A -> B -> Prop) a b l l' :
  Forall2 P (a :: l) (b :: l') -> P a b /\ Forall2 P l l'.
Proof. intros H; inversion H; auto. Qed.

Lemma Forall2_map_eq {A B D} (f : A -> D) (g : B -> D) l l' :
  Forall2 (fun a b => f a = g b) l l' -> map f l = map g l'.
Proof. induction 1; cbn; congruence. Qed.

Lemma asked_all_convert d s t canon ws t' u' :
  asked_all d s t canon ws -> lower t' = t -> documented t u' canon -> t <> "wavenumber"%string ->
  convert_to s t' u' = Ok (VA (map Fin ws)).
Proof.
  intros [(t0 & u0 & c0 & xs & lams & w0s & Hs & Hx & Hx8 & D0 & W0 & Hl & W & Rw) _] Et D Hn.
  assert (D1 : documented (lower t') u' canon) by (rewrite Et; exact D).
  rewrite (convert_to_unfold _ _ _ _ D1).
  rewrite (mk_spectrum_unfold _ _ _ _ D0) in Hs. rewrite (std_array _ _ _ _ _ D0 W0) in Hs.
  2:{ intros Hr. specialize (Hx8 Hr). eapply Forall_impl; [|exact Hx8]. cbn; intros a Ha.
      pose proof tiny_pos. rewrite Rabs_pos_eq; lra. }
  cbn [bind] in Hs. injection Hs as <-. cbn [sp_std]. rewrite Et.
  destruct (to_form _ _ _ D) as (g & G1 & G2 & G3). rewrite G2. do 2 f_equal.
  rewrite map_map. apply Forall2_map_eq. pose proof tiny_pos as T8.
  clear G2 D1 D0 W0 Hx8 Hx. revert ws Rw Hl.
  induction W as [|lam w0 lams w0s W F IH]; intros ws Rw Hl.
  - inversion Rw; constructor.
  - destruct ws as [|w ws]; [inversion Rw|]. apply Forall2_cons_iff' in Rw. destruct Rw as [R1 Rw].
    pose proof (Forall_inv Hl) as Hl1. pose proof (Forall_inv_tail Hl) as Hl2.
    constructor; [|now apply IH].
    assert (Hr : g safe_inverse_elem (Fin lam) = g safe_inverse_scalar (Fin lam)).
    { apply G3. intros Hr. unfold to_pre. apply String.eqb_neq in Hn.
      rewrite ?Hn. apply inv_agree. cbn. left. rewrite Rabs_pos_eq; lra. }
    rewrite Hr. pose proof (G1 (Fin lam)) as E.
    rewrite (to_scalar _ _ _ _ _ D Hn W) in E.
    2:{ intros Hr2 ->. inversion W; subst; try (unfold reciprocal_type in Hr2; cbn in Hr2; intuition discriminate);
        unfold Rdiv in *; rewrite ?Rmult_0_r, ?Rinv_0 in *; rewrite ?Rmult_0_r in *; lra. }
    injection E as <-. now rewrite (rounds_for_unique _ _ _ R1).
Qed.

(** ** construction of models *)
Lemma mk_model_ok k p rng t u d : mk_model k p rng t u = Ok d ->
  exists canon r, documented (lower t) (lower u) canon /\ mk_spectrum rng t u = Ok r /\
    d = DModel (mkBase t u r) k p /\
    match required k with Some (rt, ru) => lower t = rt /\ canon = ru | None => True end.
Proof.
  unfold mk_model, mk_base. destruct (mk_spectrum rng t u) as [r|e] eqn:E; [|discriminate].
  cbn [bind]. destruct (mk_spectrum_ok _ _ _ _ E) as (c & w & D & _).
  intros H. exists c, r. split; [exact D|]. split; [reflexivity|].
  unfold validate_spectrum_type in H. destruct (required k) as [[rt ru]|].
  - rewrite (mk_spectrum_unfold _ _ _ _ D) in H.
    destruct (standardise_values (lower t) c (VS (Fin 1))); [|discriminate].
    cbn [bind sp_type sp_unit] in H.
    destruct (String.eqb_spec (lower t) rt); [|discriminate].
    destruct (String.eqb_spec c ru); [|discriminate]. cbn in H. injection H as <-. auto.
  - cbn in H. injection H as <-. auto.
Qed.

Lemma eval_model_scalar X k p rng t u canon d s w :
  mk_model k p rng t u = Ok d -> lower u = u -> documented (lower t) u canon ->
  lower t <> "wavenumber"%string -> k <> TaucLorentz ->
  asked d s (lower t) canon w ->
  evaluate X d s = (do o <- model_point k p (Fin w); Ok (OS o), s).
Proof.
  intros H Hu D Hn Hk A. destruct (mk_model_ok _ _ _ _ _ _ H) as (c & r & _ & _ & -> & _).
  pose proof (asked_convert _ _ _ _ _ t u A eq_refl D Hn) as C.
  pose proof (asked_inside _ _ _ _ _ A) as I. unfold valid_range in I. cbn [dbase_of d_range] in I.
  cbn [evaluate d_range d_type d_unit]. rewrite I, C. cbn [bind map_vals].
  destruct (asked_value _ _ _ _ _ A) as (t0 & u0 & c0 & x & lam & w0 & Hs & _).
  destruct (mk_spectrum_ok _ _ _ _ Hs) as (c1 & v & _ & Ev & _ & _ & _ & Es). injection Ev as <-.
  rewrite Es. destruct k; try reflexivity. congruence.
Qed.

Lemma eval_model_array X k p rng t u canon d s ws :
  mk_model k p rng t u = Ok d -> lower u = u -> documented (lower t) u canon ->
  lower t <> "wavenumber"%string ->
  asked_all d s (lower t) canon ws ->
  evaluate X d s = (do l <- map_res (fun w => model_point k p (Fin w)) ws; Ok (OA l), s).
Proof.
  intros H Hu D Hn A. destruct (mk_model_ok _ _ _ _ _ _ H) as (c & r & _ & _ & -> & _).
  pose proof (asked_all_convert _ _ _ _ _ t u A eq_refl D Hn) as C.
  pose proof (asked_all_inside _ _ _ _ _ A) as I. unfold valid_range in I. cbn [dbase_of d_range] in I.
  cbn [evaluate d_range d_type d_unit]. rewrite I, C. cbn [bind map_vals elems].
  destruct (asked_all_values _ _ _ _ _ A) as (t0 & u0 & c0 & xs & lam & w0 & Hs & _).
  destruct (mk_spectrum_ok _ _ _ _ Hs) as (c1 & v & _ & Ev & _ & _ & _ & Es). injection Ev as <-.
  rewrite Es.
  assert (E : map_res (model_point k p) (map Fin ws) = map_res (fun w => model_point k p (Fin w)) ws).
  { clear. induction ws as [|w ws IH]; [reflexivity|]. cbn [map map_res]. now rewrite IH. }
  destruct k; now rewrite E.
Qed.

(** ** the loops *)
Lemma for_range_sum {T} (ts : list T) (g : T -> R) body i acc :
  (forall j t, nth_error ts j = Some t -> forall a, body (i + j)%nat (Fin a) = Ok (Fin (a + g t))) ->
  for_range (length ts) i body (Fin acc) = Ok (Fin (acc + total (map g ts))).
Proof.
  revert i acc. induction ts as [|t ts IH]; intros i acc H; cbn [length for_range map total fold_right].
  - now rewrite Rplus_0_r.
  - pose proof (H 0%nat t eq_refl acc) as E. rewrite Nat.add_0_r in E. rewrite E. cbn [bind].
    rewrite IH.
    + do 2 f_equal. unfold total. ring.
    + intros j t' Hj a. specialize (H (S j) t' Hj a). now rewrite <- plus_n_Sm in H.
Qed.

Lemma for_range_raise body e : forall n i acc,
  (forall j a, (i <= j < i + n)%nat -> body j a = Raise e \/ exists b, body j a = Ok b) ->
  (0 < n)%nat -> (forall a, body (i + n - 1)%nat a = Raise e) ->
  for_range n i body acc = Raise e.
Proof.
  induction n as [|n IH]; intros i acc H Hn Hl; [lia|]. cbn [for_range].
  destruct n as [|n].
  - replace (i + 1 - 1)%nat with i in Hl by lia. now rewrite Hl.
  - destruct (H i acc ltac:(lia)) as [->|[b ->]]; [reflexivity|]. cbn [bind].
    apply IH; [|lia|].
    + intros j a Hj. apply H. lia.
    + intros a. replace (S i + S n - 1)%nat with (i + S (S n) - 1)%nat by lia. apply Hl.
Qed.

Lemma flat_length ts : length (flat ts) = (2 * length ts)%nat.
Proof. induction ts as [|[a b] ts IH]; cbn [flat length]; lia. Qed.

Lemma flat_nth ts j a b : nth_error ts j = Some (a, b) ->
  nth_error (flat ts) (j * 2) = Some a /\ nth_error (flat ts) (j * 2 + 1) = Some b.
Proof.
  revert j. induction ts as [|[a' b'] ts IH]; intros [|j] H; try discriminate.
  - injection H as -> ->. split; reflexivity.
  - cbn [flat]. apply IH in H. exact H.
Qed.

Lemma pget_fin l i x : nth_error l i = Some x -> pget (map Fin l) i = Ok (Fin x).
Proof. intros H. unfold pget. rewrite nth_error_map, H. reflexivity. Qed.

Lemma pget_flat c0 ts j a b : nth_error ts j = Some (a, b) ->
  pget (map Fin (c0 :: flat ts)) (j * 2 + 1) = Ok (Fin a) /\
  pget (map Fin (c0 :: flat ts)) (j * 2 + 2) = Ok (Fin b).
Proof.
  intros H. destruct (flat_nth _ _ _ _ H) as [H1 H2]. split; apply pget_fin.
  - replace (j * 2 + 1)%nat with (S (j * 2)) by lia. exact H1.
  - replace (j * 2 + 2)%nat with (S (j * 2 + 1)) by lia. exact H2.
Qed.

Lemma len_slice_flat c0 ts : len_slice2 1 (map Fin (c0 :: flat ts)) = length ts.
Proof.
  unfold len_slice2. rewrite map_length. cbn [length]. rewrite flat_length.
  replace (S (2 * length ts) - 1 + 1)%nat with (1 + length ts * 2)%nat by lia.
  rewrite Nat.div_add by lia. reflexivity.
Qed.

Lemma xsq_fin x : xpowz (Fin x) 2 = Fin (x ^ 2).
Proof. change 2%Z with (Z.of_nat 2). apply xpowz_fin_nat. lia. Qed.

Lemma xsqrt_fin x : 0 <= x -> xsqrt (Fin x) = Fin (sqrt x).
Proof. intros H. cbn. destruct (Rlt_dec x 0); [lra|reflexivity]. Qed.

Lemma power_rpow x y p : power x y p -> rpow x y = Fin p.
Proof.
  intros [x' y' H|x' n H|y' H|x'].
  - unfold rpow. destruct (Req_EM_T y' 0) as [->|E]; [now rewrite Rpower_O|].
    destruct (Rlt_dec 0 x'); [reflexivity|contradiction].
  - exact (xpowz_fin x' n H).
  - unfold rpow. destruct (Req_EM_T y' 0); [lra|]. destruct (Rlt_dec 0 0); [lra|].
    destruct (Req_EM_T 0 0); [|lra]. destruct (Rlt_dec 0 y'); [reflexivity|lra].
  - unfold rpow. destruct (Req_EM_T 0 0); [reflexivity|lra].
Qed.

Lemma xpow_pos w y : 0 < w -> xpow (Fin w) (Fin y) = Fin (Rpower w y).
Proof. intros H. cbn [xpow]. apply power_rpow. now constructor. Qed.

Lemma pt_sellmeier_ok c0 ts w : (forall t, In t ts -> w ^ 2 <> snd t ^ 2) ->
  0 <= sellmeier_sum c0 ts w + 1 ->
  pt_sellmeier (map Fin (c0 :: flat ts)) (Fin w) = Ok (Fin (sqrt (sellmeier_sum c0 ts w + 1))).
Proof.
  intros Hp Hr. unfold pt_sellmeier. rewrite (pget_fin (c0 :: flat ts) 0 c0 eq_refl). cbn [bind].
  rewrite xsq_fin, len_slice_flat.
  rewrite (for_range_sum ts (fun t => fst t * w ^ 2 / (w ^ 2 - snd t ^ 2))).
  - cbn [bind num xadd]. fold (sellmeier_sum c0 ts w). unfold num. cbn [xadd]. now rewrite xsqrt_fin.
  - intros j [a b] Hj acc. rewrite Nat.add_0_l. destruct (pget_flat c0 ts j a b Hj) as [-> ->].
    cbn [bind]. unfold xsq. rewrite xsq_fin, xmul_fin, xsub_fin. apply nth_error_In in Hj.
    specialize (Hp _ Hj). cbn [fst snd] in *. rewrite xdiv_fin by lra. reflexivity.
Qed.

Lemma pt_sellmeier2_ok c0 ts w : (forall t, In t ts -> w ^ 2 <> snd t) ->
  0 <= sellmeier2_sum c0 ts w + 1 ->
  pt_sellmeier2 (map Fin (c0 :: flat ts)) (Fin w) = Ok (Fin (sqrt (sellmeier2_sum c0 ts w + 1))).
Proof.
  intros Hp Hr. unfold pt_sellmeier2. rewrite (pget_fin (c0 :: flat ts) 0 c0 eq_refl). cbn [bind].
  rewrite xsq_fin, len_slice_flat.
  rewrite (for_range_sum ts (fun t => fst t * w ^ 2 / (w ^ 2 - snd t))).
  - cbn [bind]. fold (sellmeier2_sum c0 ts w). unfold num. cbn [xadd]. now rewrite xsqrt_fin.
  - intros j [a b] Hj acc. rewrite Nat.add_0_l. destruct (pget_flat c0 ts j a b Hj) as [-> ->].
    cbn [bind]. rewrite xmul_fin, xsub_fin. apply nth_error_In in Hj.
    specialize (Hp _ Hj). cbn [fst snd] in *. rewrite xdiv_fin by lra. reflexivity.
Qed.

Lemma poly_rhs_ok c0 ts w : 0 < w ->
  poly_rhs (map Fin (c0 :: flat ts)) (Fin w) = Ok (Fin (power_sum c0 ts w)).
Proof.
  intros Hw. unfold poly_rhs. rewrite (pget_fin (c0 :: flat ts) 0 c0 eq_refl). cbn [bind].
  rewrite len_slice_flat. apply (for_range_sum ts (fun t => fst t * Rpower w (snd t))).
  intros j [a b] Hj acc. rewrite Nat.add_0_l. destruct (pget_flat c0 ts j a b Hj) as [-> ->].
  cbn [bind]. rewrite xpow_pos by assumption. reflexivity.
Qed.

Lemma pt_gases_ok c0 ts w : 0 < w -> (forall t, In t ts -> snd t <> / w ^ 2) ->
  pt_gases (map Fin (c0 :: flat ts)) (Fin w) = Ok (Fin (gases_sum c0 ts w + 1)).
Proof.
  intros Hw Hp. unfold pt_gases. rewrite (pget_fin (c0 :: flat ts) 0 c0 eq_refl). cbn [bind].
  assert (E : xpowz (Fin w) (-2) = Fin (/ w ^ 2)).
  { rewrite xpowz_fin by lra. reflexivity. }
  rewrite E, len_slice_flat.
  rewrite (for_range_sum ts (fun t => fst t / (snd t - / w ^ 2))); [reflexivity|].
  intros j [a b] Hj acc. rewrite Nat.add_0_l. destruct (pget_flat c0 ts j a b Hj) as [-> ->].
  cbn [bind]. rewrite xsub_fin. apply nth_error_In in Hj.
  specialize (Hp _ Hj). cbn [fst snd] in *. rewrite xdiv_fin by lra. reflexivity.
Qed.

(** *** dangling coefficients *)
Lemma pget_raise p i : (length p <= i)%nat -> pget p i = Raise IndexError.
Proof. intros H. unfold pget. apply nth_error_None in H. now rewrite H. Qed.
Lemma pget_some p i : (i < length p)%nat -> exists x, pget p i = Ok x.
Proof.
  intros H. unfold pget. destruct (nth_error p i) eqn:E; [eauto|].
  apply nth_error_None in E. lia.
Qed.
Lemma pget_cases p i : pget p i = Raise IndexError \/ exists x, pget p i = Ok x.
Proof. unfold pget. destruct (nth_error p i); eauto. Qed.

(** a loop that reads [f i] for each offset in [offs]; used for all sum formulas *)
Lemma pair_loop_dangling (p : list xr) (start : nat) (f : xr -> xr -> xr -> xr) acc :
  (start < length p)%nat -> Nat.even (length p - start) = false ->
  for_range (len_slice2 start p) 0 (fun i rhs =>
    do a <- pget p (i * 2 + start); do b <- pget p (i * 2 + S start); Ok (f rhs a b)) acc
  = Raise IndexError.
Proof.
  intros Hs He. unfold len_slice2.
  assert (O : Nat.odd (length p - start) = true) by (unfold Nat.odd; now rewrite He).
  apply Nat.odd_spec in O. destruct O as [m Hm].
  replace (length p - start + 1)%nat with ((m + 1) * 2)%nat by lia. rewrite Nat.div_mul by lia.
  apply for_range_raise; [|lia|].
  - intros j a _. destruct (pget_cases p (j * 2 + start)) as [->|[x ->]]; [auto|cbn [bind]].
    destruct (pget_cases p (j * 2 + S start)) as [->|[y ->]]; [auto|cbn [bind]]. eauto.
  - intros a. destruct (pget_cases p ((0 + (m + 1) - 1) * 2 + start)) as [->|[x ->]]; [reflexivity|].
    cbn [bind]. rewrite pget_raise by lia. reflexivity.
Qed.

Lemma sum_models_dangling k p w :
  In k [Sellmeier; Sellmeier2; Polynomial; Cauchy; Gases] -> Nat.even (length p) = true ->
  model_point k p w = Raise IndexError.
Proof.
  intros Hk He.
  destruct p as [|c p].
  { cbn in Hk. destruct Hk as [<-|[<-|[<-|[<-|[<-|[]]]]]]; reflexivity. }
  assert (L : (1 < length (c :: p))%nat) by (destruct p; cbn in *; [discriminate|lia]).
  assert (O : Nat.even (length (c :: p) - 1) = false).
  { replace (length (c :: p) - 1)%nat with (length p) by (cbn; lia).
    cbn [length] in He. rewrite Nat.even_succ in He. unfold Nat.odd in He.
    now destruct (Nat.even (length p)). }
  pose proof (fun f acc => pair_loop_dangling (c :: p) 1 f acc L O) as P.
  cbn in Hk.
  destruct Hk as [<-|[<-|[<-|[<-|[<-|[]]]]]]; cbn [model_point];
    unfold pt_sellmeier, pt_sellmeier2, pt_polynomial, pt_cauchy, poly_rhs, pt_gases;
    change (pget (c :: p) 0) with (Ok c); cbn [bind]; rewrite P; reflexivity.
Qed.

(** *** RefractiveIndexInfo *)
Lemma nth_flat_r c0 fs ts j a b :
  length (concat (map rterm_list fs)) = 8%nat ->
  nth_error ts j = Some (a, b) ->
  pget (map Fin (c0 :: concat (map rterm_list fs) ++ flat ts)) (j * 2 + 9) = Ok (Fin a) /\
  pget (map Fin (c0 :: concat (map rterm_list fs) ++ flat ts)) (j * 2 + 10) = Ok (Fin b).
Proof.
  intros L H. destruct (flat_nth _ _ _ _ H) as [H1 H2]. split; apply pget_fin.
  - replace (j * 2 + 9)%nat with (S (8 + j * 2)) by lia. cbn [nth_error].
    rewrite nth_error_app2 by lia. now replace (8 + j * 2 - length (concat (map rterm_list fs)))%nat with (j * 2)%nat by lia.
  - replace (j * 2 + 10)%nat with (S (8 + (j * 2 + 1))) by lia. cbn [nth_error].
    rewrite nth_error_app2 by lia.
    now replace (8 + (j * 2 + 1) - length (concat (map rterm_list fs)))%nat with (j * 2 + 1)%nat by lia.
Qed.

Lemma pt_rii_ok c0 fs ts w :
  (length fs = 2%nat \/ ((length fs < 2)%nat /\ ts = [])) ->
  0 < w -> (forall t, In t fs -> power (rt_b t) (rt_q t) (rt_v t) /\ w ^ 2 <> rt_v t) ->
  0 <= rii_sum c0 fs ts w ->
  pt_rii (map Fin (c0 :: concat (map rterm_list fs) ++ flat ts)) (Fin w)
  = Ok (Fin (sqrt (rii_sum c0 fs ts w))).
Proof.
  intros L Hw Hp Hr. set (p := c0 :: concat (map rterm_list fs) ++ flat ts).
  unfold pt_rii. rewrite (pget_fin p 0 c0 eq_refl). cbn [bind]. rewrite xsq_fin.
  assert (L1 : len_slice_1_8_4 (map Fin p) = length fs).
  { unfold p. unfold len_slice_1_8_4. rewrite map_length.
    destruct L as [L|[L ->]].
    - destruct fs as [|f1 [|f2 [|]]]; try discriminate. reflexivity.
    - destruct fs as [|f1 [|f2 fs]]; [reflexivity|reflexivity|cbn in L; lia]. }
  assert (L2 : len_slice2 9 (map Fin p) = length ts).
  { unfold p. unfold len_slice2. rewrite map_length.
    destruct L as [L|[L ->]].
    - destruct fs as [|f1 [|f2 [|]]]; try discriminate. cbn [map concat rterm_list app length].
      rewrite flat_length.
      replace (S (S (S (S (S (S (S (S (S (2 * length ts))))))))) - 9 + 1)%nat with (1 + length ts * 2)%nat by lia.
      rewrite Nat.div_add by lia. reflexivity.
    - destruct fs as [|f1 [|f2 fs]]; [reflexivity|reflexivity|cbn in L; lia]. }
  rewrite L1, (for_range_sum fs (fun t => rt_a t * Rpower w (rt_p t) / (w ^ 2 - rt_v t))).
  - cbn [bind]. rewrite L2. rewrite (for_range_sum ts (fun t => fst t * Rpower w (snd t))).
    + cbn [bind]. fold (rii_sum c0 fs ts w). now rewrite xsqrt_fin.
    + intros j [a b] Hj acc. rewrite Nat.add_0_l.
      destruct L as [L|[L ->]]; [|destruct j; discriminate].
      assert (L8 : length (concat (map rterm_list fs)) = 8%nat).
      { destruct fs as [|f1 [|f2 [|]]]; try discriminate. reflexivity. }
      destruct (nth_flat_r c0 fs ts j a b L8 Hj) as [E1 E2]. fold p in E1, E2.
      rewrite E1, E2. cbn [bind]. rewrite xpow_pos by assumption. reflexivity.
  - intros j t Hj acc. rewrite Nat.add_0_l.
    assert (G : forall k x, nth_error (rterm_list t) k = Some x ->
              pget (map Fin p) (j * 4 + 1 + k) = Ok (Fin x)).
    { intros k x Hk. apply pget_fin. unfold p.
      assert (Hjl : (j < length fs)%nat) by (apply nth_error_Some; congruence).
      assert (k < 4)%nat.
      { assert (Hl : (k < length (rterm_list t))%nat) by (apply nth_error_Some; congruence). exact Hl. }
      replace (j * 4 + 1 + k)%nat with (S (j * 4 + k)) by lia. cbn [nth_error].
      destruct fs as [|f1 [|f2 [|f3 fs]]].
      - cbn in Hjl; lia.
      - assert (j = 0)%nat by (cbn in Hjl; lia). subst j. injection Hj as ->.
        cbn [map concat]. rewrite app_nil_r, nth_error_app1 by (cbn; lia). exact Hk.
      - destruct j as [|[|j]]; [| |cbn in Hjl; lia]; injection Hj as ->; cbn [map concat].
        + rewrite nth_error_app1 by (rewrite app_length; cbn; lia).
          rewrite nth_error_app1 by (cbn; lia). exact Hk.
        + rewrite <- !app_assoc. rewrite nth_error_app2 by (cbn; lia).
          cbn [rterm_list length]. rewrite nth_error_app1 by (cbn; lia).
          replace (1 * 4 + k - 4)%nat with k by lia. exact Hk.
      - exfalso. cbn [length] in L. lia. }
    pose proof (G 0%nat _ eq_refl) as G0. pose proof (G 1%nat _ eq_refl) as G1.
    pose proof (G 2%nat _ eq_refl) as G2. pose proof (G 3%nat _ eq_refl) as G3.
    rewrite Nat.add_0_r in G0. rewrite <- Nat.add_assoc in G1, G2, G3. cbn [Nat.add] in G1, G2, G3.
    rewrite G0, G1, G2, G3. cbn [bind]. apply nth_error_In in Hj. destruct (Hp _ Hj) as [P1 P2].
    rewrite xpow_pos by assumption. cbn [xpow]. rewrite (power_rpow _ _ _ P1).
    rewrite xmul_fin, xsub_fin, xdiv_fin by lra. reflexivity.
Qed.

(** well-formed lengths: 1, 5, and every odd number from 9 on *)
Lemma pt_rii_dangling p w :
  length p <> 1%nat -> length p <> 5%nat -> ((length p < 9)%nat \/ Nat.even (length p) = true) ->
  pt_rii p w = Raise IndexError.
Proof.
  intros N1 N5 H. unfold pt_rii.
  destruct p as [|c p]; [reflexivity|]. change (pget (c :: p) 0) with (Ok c). cbn [bind].
  destruct (Nat.ltb_spec (length (c :: p)) 9) as [Ls|Ls].
  - assert (C : forall j a, exists r, r = (do cmu <- pget (c :: p) (j * 4 + 1);
        do cpu <- pget (c :: p) (j * 4 + 2); do cml <- pget (c :: p) (j * 4 + 3);
        do cpl <- pget (c :: p) (j * 4 + 4);
        Ok (xadd a (xdiv (xmul cmu (xpow w cpu)) (xsub (xpowz w 2) (xpow cml cpl)))))
        /\ (r = Raise IndexError \/ exists b, r = Ok b)).
    { intros j a. eexists; split; [reflexivity|].
      destruct (pget_cases (c :: p) (j * 4 + 1)) as [->|[? ->]]; [auto|cbn [bind]].
      destruct (pget_cases (c :: p) (j * 4 + 2)) as [->|[? ->]]; [auto|cbn [bind]].
      destruct (pget_cases (c :: p) (j * 4 + 3)) as [->|[? ->]]; [auto|cbn [bind]].
      destruct (pget_cases (c :: p) (j * 4 + 4)) as [->|[? ->]]; [auto|cbn [bind]]. eauto. }
    rewrite (for_range_raise _ IndexError); [reflexivity| | |].
    + intros j a _. destruct (C j a) as (r & -> & Hr). exact Hr.
    + unfold len_slice_1_8_4. cbn [length] in *. destruct p; [cbn in N1; lia|]. cbn [length].
      destruct (1 <? S (S (length p)))%nat eqn:E; [destruct (5 <? _)%nat; lia|].
      apply Nat.ltb_ge in E. lia.
    + intros a. unfold len_slice_1_8_4. cbn [length] in *.
      destruct (Nat.ltb_spec 1 (S (length p))); [|exfalso; lia].
      destruct (Nat.ltb_spec 5 (S (length p))).
      *
        destruct (pget_cases (c :: p) ((0 + 2 - 1) * 4 + 1)) as [->|[? ->]]; [auto|cbn [bind]].
        destruct (pget_cases (c :: p) ((0 + 2 - 1) * 4 + 2)) as [->|[? ->]]; [auto|cbn [bind]].
        destruct (pget_cases (c :: p) ((0 + 2 - 1) * 4 + 3)) as [->|[? ->]]; [auto|cbn [bind]].
        rewrite pget_raise by (cbn [length]; lia). reflexivity.
      * destruct (pget_cases (c :: p) ((0 + 1 - 1) * 4 + 1)) as [->|[? ->]]; [auto|cbn [bind]].
        destruct (pget_cases (c :: p) ((0 + 1 - 1) * 4 + 2)) as [->|[? ->]]; [auto|cbn [bind]].
        destruct (pget_cases (c :: p) ((0 + 1 - 1) * 4 + 3)) as [->|[? ->]]; [auto|cbn [bind]].
        rewrite pget_raise by (cbn [length]; lia). reflexivity.
  - destruct H as [H|H]; [lia|].
    assert (L1 : len_slice_1_8_4 (c :: p) = 2%nat).
    { unfold len_slice_1_8_4. destruct (Nat.ltb_spec 1 (length (c :: p))); [|lia].
      destruct (Nat.ltb_spec 5 (length (c :: p))); [reflexivity|lia]. }
    assert (L9 : (9 < length (c :: p))%nat).
    { destruct (Nat.eq_dec (length (c :: p)) 9) as [E|E]; [rewrite E in H; discriminate|lia]. }
    rewrite L1. cbn [for_range].
    assert (Q : forall i, (i < 9)%nat -> exists x, pget (c :: p) i = Ok x) by (intros; apply pget_some; lia).
    destruct (Q (0*4+1)%nat ltac:(lia)) as [? ->]. destruct (Q (0*4+2)%nat ltac:(lia)) as [? ->].
    destruct (Q (0*4+3)%nat ltac:(lia)) as [? ->]. destruct (Q (0*4+4)%nat ltac:(lia)) as [? ->].
    destruct (Q (1*4+1)%nat ltac:(lia)) as [? ->]. destruct (Q (1*4+2)%nat ltac:(lia)) as [? ->].
    destruct (Q (1*4+3)%nat ltac:(lia)) as [? ->]. destruct (Q (1*4+4)%nat ltac:(lia)) as [? ->].
    cbn [bind].
    rewrite (pair_loop_dangling (c :: p) 9 (fun rhs a b => xadd rhs (xmul a (xpow w b)))); [reflexivity|exact L9|].
    replace (length (c :: p)) with (9 + (length (c :: p) - 9))%nat in H by lia.
    rewrite Nat.even_add in H. now destruct (Nat.even (length (c :: p) - 9)).
Qed.
