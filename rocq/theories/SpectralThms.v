(** Theorems about spectral data (C12-C22, C63-C66). *)
From Verif Require Import PyBase PyStr XReal CNum SpectrumModel SpectrumSpec SpectrumProofs SpectralModel SpectralSpec SpectralProofs FormulaProofs TaucProofs InterpProofs EvalProofs ExtrapProofs.
From Coq Require Import Permutation.
Open Scope R_scope.
Open Scope list_scope.


Lemma C12_constant_scalar_l : forall X c rng t u d s x,
  mk_constant c rng t u = Ok d -> sp_values s = VS x -> contains (valid_range d) s = Ok true ->
  evaluate X d s = (Ok (OS c), s).
Proof.
  intros X c rng t u d s x M V C. unfold mk_constant in M.
  destruct (mk_base rng t u) as [b|] eqn:E; [|discriminate]. injection M as <-.
  now apply eval_const_single with x.
Qed.

Lemma C12_constant_array_l : forall X c rng t u d s l,
  mk_constant c rng t u = Ok d -> sp_values s = VA l -> contains (valid_range d) s = Ok true ->
  evaluate X d s = (Ok (OA (repeat c (length l))), s).
Proof.
  intros X c rng t u d s l M V C. unfold mk_constant in M.
  destruct (mk_base rng t u) as [b|] eqn:E; [|discriminate]. injection M as <-.
  rewrite (eval_const_array X b c s l V C). do 3 f_equal.
  clear. induction l as [|x l IH]; [reflexivity|]. cbn. now rewrite IH.
Qed.

Lemma C12_constant_outside_l : forall X c rng t u d s e,
  mk_constant c rng t u = Ok d -> contains (valid_range d) s = Raise e ->
  evaluate X d s = (Raise e, s).
Proof.
  intros X c rng t u d s e M C. apply eval_range_check; [|assumption]. left. eauto.
Qed.

Lemma C12_default_range_l : forall c, exists d, constant_default c = Ok d /\
  forall v t u s, mk_spectrum (InVals v) t u = Ok s -> (forall l, v <> VI l) ->
    elems v <> [] -> Forall xnn (elems v) -> contains (valid_range d) s = Ok true.
Proof.
  intros c. destruct (constant_default_spec c) as (r & E & T & U & V).
  eexists. split; [exact E|]. intros v t u s M Hv He Hn.
  destruct (mk_spectrum_ok _ _ _ _ M) as (cn & w & D & Ew & Es & _). injection Ew as <-.
  destruct (std_nn _ _ _ _ D Hv Hn) as (w' & Es' & Nw). rewrite Es in Es'. injection Es' as <-.
  unfold valid_range; cbn [dbase_of d_range]. apply default_contains; auto.
  - destruct (std_form _ _ _ D) as (g & G1 & G2 & _).
    destruct v as [x|l|l]; [rewrite G1 in Es|rewrite G2 in Es|exfalso; eapply Hv; reflexivity]; injection Es as <-; cbn in *.
    + discriminate.
    + destruct l; [congruence|discriminate].
  - intros l El. destruct (std_form _ _ _ D) as (g & G1 & G2 & _).
    destruct v as [x|l'|l']; [rewrite G1 in Es|rewrite G2 in Es|eapply Hv; reflexivity]; congruence.
Qed.

Lemma C13_accepts_l : forall l t u canon,
  (2 <= length l)%nat -> NoDup (map fst l) -> documented (lower t) (lower u) canon ->
  exists d mn mx, mk_interpolation (xrows l) t u = Ok d /\
    sp_values (valid_range d) = VA [Fin mn; Fin mx] /\
    In mn (map fst l) /\ In mx (map fst l) /\ (forall y, In y (map fst l) -> mn <= y <= mx).
Proof.
  intros l t u canon L N D. pose proof (mk_interp_spec l t u) as K.
  destruct (mk_interpolation (xrows l) t u) as [d|e] eqn:E.
  - destruct (interp_range_x _ _ _ _ E) as (mn & mx & Ev & J1 & J2 & L' & _). exists d, mn, mx. auto 8.
  - destruct K as [_ [K|[K|K]]]; [lia|tauto|exfalso; eapply K; eassumption].
Qed.

Lemma C13_rejects_l : forall l t u,
  (length l < 2)%nat \/ ~ NoDup (map fst l) ->
  mk_interpolation (xrows l) t u = Raise ValueError.
Proof.
  intros l t u H. pose proof (mk_interp_spec l t u) as K.
  destruct (mk_interpolation (xrows l) t u) as [d|e] eqn:E.
  - destruct K as (K1 & K2 & _). exfalso. destruct H; [lia|tauto].
  - destruct K as [-> _]. reflexivity.
Qed.

Lemma C13_interpolates_l : forall X l t u canon d s w,
  mk_interpolation (xrows l) t u = Ok d -> documented (lower t) u canon ->
  lower t <> "wavenumber"%string -> asked d s (lower t) canon w ->
  exists a b, adjacent l a b /\ fst a <= w <= fst b /\
    evaluate X d s = (Ok (OS (ORe (Fin (line a b w)))), s) /\
    Rmin (snd a) (snd b) <= line a b w <= Rmax (snd a) (snd b).
Proof.
  intros X l t u canon d s w M D Hn A.
  destruct (eval_interp_scalar X _ _ _ _ _ _ _ M D Hn A) as (a & b & H1 & H2 & H3).
  exists a, b. split; [exact H1|]. split; [exact H2|]. split; [exact H3|]. apply line_between; [apply H1|exact H2].
Qed.

Lemma C13_at_row_l : forall X l t u canon d s r,
  mk_interpolation (xrows l) t u = Ok d -> documented (lower t) u canon ->
  lower t <> "wavenumber"%string -> In r l -> asked d s (lower t) canon (fst r) ->
  evaluate X d s = (Ok (OS (ORe (Fin (snd r)))), s).
Proof.
  intros X l t u canon d s r M D Hn I A.
  destruct (eval_interp_scalar X _ _ _ _ _ _ _ M D Hn A) as (a & b & H1 & H2 & H3).
  rewrite H3. pose proof (mk_interp_spec l t u) as K. rewrite M in K. destruct K as (_ & N & _).
  rewrite (adjacent_row l a b r (fst r) N H1 H2 I eq_refl). reflexivity.
Qed.

Lemma C13_outside_raises_l : forall X l t u d s w,
  mk_interpolation (xrows l) t u = Ok d ->
  convert_to s (sp_type (valid_range d)) (sp_unit (valid_range d)) = Ok (VS (Fin w)) ->
  Forall (fun r => w < fst r) l \/ Forall (fun r => fst r < w) l ->
  exists e, evaluate X d s = (Raise e, s) /\ (sp_unit (valid_range d) <> "cm"%string -> e = ValueError).
Proof.
  intros X l t u d s w M C H.
  destruct (interp_range_x _ _ _ _ M) as (mn & mx & Ev & J1 & J2 & L' & c & D & Et & Eu).
  destruct (contains_fin _ _ _ _ _ Ev C) as [_ K].
  assert (O : w < mn \/ mx < w).
  { destruct H as [H|H]; [left|right]; rewrite Forall_forall in H.
    - apply in_map_iff in J1. destruct J1 as (r & <- & Ir). auto.
    - apply in_map_iff in J2. destruct J2 as (r & <- & Ir). auto. }
  specialize (K (proj2 (L' mn J1)) O).
  destruct (display_string (sp_unit (valid_range d))) as [n|e] eqn:Ed; cbn [bind] in K.
  - exists ValueError. split; [|auto]. apply eval_range_check; [right; left; eauto|assumption].
  - exists e. split; [apply eval_range_check; [right; left; eauto|assumption]|].
    intros Hc. exfalso. rewrite Eu in *. destruct (display_ok _ _ _ D Hc) as [n Hn]. congruence.
Qed.

Lemma C13_row_order_l : forall X l l' t u,
  Permutation l l' -> NoDup (map fst l) ->
  match mk_interpolation (xrows l) t u, mk_interpolation (xrows l') t u with
  | Ok d, Ok d' => (forall s, evaluate X d s = evaluate X d' s) /\ valid_range d = valid_range d'
  | Raise e, Raise e' => e = e'
  | _, _ => False
  end.
Proof. exact interp_perm. Qed.

Lemma hrows_grows l : hrows l = grows (map (onsnd (fun o : option R => match o with Some y => Fin y | None => NaN end)) l).
Proof. unfold hrows, grows. rewrite map_map. reflexivity. Qed.

Lemma C13_missing_values_l : forall X (l : holed) t u canon,
  documented (lower t) u canon -> lower t <> "wavenumber"%string ->
  ((2 <= length l)%nat -> NoDup (map fst l) -> exists d, mk_interpolation (hrows l) t u = Ok d) /\
  (forall d s w, mk_interpolation (hrows l) t u = Ok d -> asked d s (lower t) canon w ->
    exists a b, In a l /\ In b l /\ fst a < fst b /\ (forall c, In c l -> fst c <= fst a \/ fst b <= fst c) /\
      (fst a <= w < fst b \/ w = fst b /\ forall c, In c l -> fst c <= fst b) /\
      evaluate X d s = (Ok (OS (ORe (match snd a, snd b with
                                     | Some y, Some z => Fin (line (fst a, y) (fst b, z) w)
                                     | _, _ => NaN
                                     end))), s)).
Proof.
  intros X l t u canon D Hn. rewrite hrows_grows. set (h := fun o : option R => match o with Some y => Fin y | None => NaN end). split.
  - intros L N. pose proof (mk_interp_spec_g (map (onsnd h) l) t u) as K.
    destruct (mk_interpolation (grows (map (onsnd h) l)) t u) as [d|e]; [eauto|]. exfalso. rewrite map_length, fst_onsnd in K.
    destruct K as [_ [K|[K|K]]]; [lia|tauto|]. destruct (documented_lower _ _ _ D) as [Eu _]. apply (K canon). now rewrite Eu.
  - intros d s w M A.
    destruct (eval_interp_g X _ _ _ _ _ _ _ M D Hn A) as (a & b & (Ia & Ib & Lt & Bt) & H2 & H3).
    apply in_map_iff in Ia, Ib. destruct Ia as (a0 & <- & Ia), Ib as (b0 & <- & Ib). cbn [onsnd fst snd] in *.
    exists a0, b0. split; [exact Ia|]. split; [exact Ib|]. split; [exact Lt|].
    split; [intros c Hc; apply (Bt (onsnd h c)); now apply in_map|].
    split. { destruct H2 as [H2|[E H2]]; [now left|right; split; [exact E|]]. intros c Hc. apply (H2 (onsnd h c)). now apply in_map. }
    rewrite H3. destruct (snd a0) as [y|] eqn:Ea, (snd b0) as [z|] eqn:Eb; cbn [h].
    + rewrite (lin_line (fst a0, y) (fst b0, z)) by exact Lt. reflexivity.
    + now rewrite lin_nan by auto.
    + now rewrite lin_nan by auto.
    + now rewrite lin_nan by auto.
Qed.

Lemma C14_sellmeier_l : forall X c0 ts rng t u d s w,
  mk_model Sellmeier (map Fin (c0 :: flat ts)) rng t u = Ok d -> lower u = u ->
  asked d s "wavelength" "um" w ->
  (forall b, In b ts -> w ^ 2 <> snd b ^ 2) -> 0 <= sellmeier_sum c0 ts w + 1 ->
  evaluate X d s = (Ok (OS (ORe (Fin (sqrt (sellmeier_sum c0 ts w + 1))))), s).
Proof.
  intros X c0 ts rng t u d s w M Hu A Hp Hs.
  rewrite (eval_req_scalar X _ _ _ _ _ _ _ _ _ w M eq_refl); try discriminate; auto.
  cbn [model_point]. rewrite pt_sellmeier_ok by assumption. reflexivity.
Qed.

Lemma C14_sellmeier2_l : forall X c0 ts rng t u d s w,
  mk_model Sellmeier2 (map Fin (c0 :: flat ts)) rng t u = Ok d -> lower u = u ->
  asked d s "wavelength" "um" w ->
  (forall b, In b ts -> w ^ 2 <> snd b) -> 0 <= sellmeier2_sum c0 ts w + 1 ->
  evaluate X d s = (Ok (OS (ORe (Fin (sqrt (sellmeier2_sum c0 ts w + 1))))), s).
Proof.
  intros X c0 ts rng t u d s w M Hu A Hp Hs.
  rewrite (eval_req_scalar X _ _ _ _ _ _ _ _ _ w M eq_refl); try discriminate; auto.
  cbn [model_point]. rewrite pt_sellmeier2_ok by assumption. reflexivity.
Qed.

Lemma C14_polynomial_l : forall X c0 ts rng t u d s w,
  mk_model Polynomial (map Fin (c0 :: flat ts)) rng t u = Ok d -> lower u = u ->
  asked d s "wavelength" "um" w -> 0 < w -> 0 <= power_sum c0 ts w ->
  evaluate X d s = (Ok (OS (ORe (Fin (sqrt (power_sum c0 ts w))))), s).
Proof.
  intros X c0 ts rng t u d s w M Hu A Hp Hs.
  rewrite (eval_req_scalar X _ _ _ _ _ _ _ _ _ w M eq_refl); try discriminate; auto.
  cbn [model_point]. unfold pt_polynomial. rewrite poly_rhs_ok by assumption. cbn [bind].
  rewrite xsqrt_fin by assumption. reflexivity.
Qed.

Lemma C14_cauchy_l : forall X c0 ts rng t u d s w,
  mk_model Cauchy (map Fin (c0 :: flat ts)) rng t u = Ok d -> lower u = u ->
  asked d s "wavelength" "um" w -> 0 < w ->
  evaluate X d s = (Ok (OS (ORe (Fin (power_sum c0 ts w)))), s).
Proof.
  intros X c0 ts rng t u d s w M Hu A Hp.
  rewrite (eval_req_scalar X _ _ _ _ _ _ _ _ _ w M eq_refl); try discriminate; auto.
  cbn [model_point]. unfold pt_cauchy. rewrite poly_rhs_ok by assumption. reflexivity.
Qed.

Lemma C14_gases_l : forall X c0 ts rng t u d s w,
  mk_model Gases (map Fin (c0 :: flat ts)) rng t u = Ok d -> lower u = u ->
  asked d s "wavelength" "um" w -> 0 < w -> (forall b, In b ts -> snd b <> / w ^ 2) ->
  evaluate X d s = (Ok (OS (ORe (Fin (gases_sum c0 ts w + 1)))), s).
Proof.
  intros X c0 ts rng t u d s w M Hu A Hp Hs.
  rewrite (eval_req_scalar X _ _ _ _ _ _ _ _ _ w M eq_refl); try discriminate; auto.
  cbn [model_point]. rewrite pt_gases_ok by assumption. reflexivity.
Qed.

Lemma C14_refractiveindexinfo_l : forall X c0 fs ts rng t u d s w,
  mk_model RefractiveIndexInfo (map Fin (c0 :: concat (map rterm_list fs) ++ flat ts)) rng t u = Ok d ->
  lower u = u -> asked d s "wavelength" "um" w ->
  (length fs = 2%nat \/ ((length fs < 2)%nat /\ ts = [])) -> 0 < w ->
  (forall b, In b fs -> power (rt_b b) (rt_q b) (rt_v b) /\ w ^ 2 <> rt_v b) ->
  0 <= rii_sum c0 fs ts w ->
  evaluate X d s = (Ok (OS (ORe (Fin (sqrt (rii_sum c0 fs ts w))))), s).
Proof.
  intros X c0 fs ts rng t u d s w M Hu A Hl Hp Hs H0.
  rewrite (eval_req_scalar X _ _ _ _ _ _ _ _ _ w M eq_refl); try discriminate; auto.
  cbn [model_point]. rewrite pt_rii_ok by assumption. reflexivity.
Qed.

Lemma C14_dangling_l : forall X k p rng t u d s w,
  In k [Sellmeier; Sellmeier2; Polynomial; Cauchy; Gases] -> Nat.even (length p) = true ->
  mk_model k p rng t u = Ok d -> lower u = u -> asked d s "wavelength" "um" w ->
  evaluate X d s = (Raise IndexError, s).
Proof.
  intros X k p rng t u d s w Hk Hp M Hu A.
  assert (Rq : required k = Some ("wavelength", "um")%string /\ k <> TaucLorentz).
  { cbn in Hk. repeat (destruct Hk as [<-|Hk]; [split; [reflexivity|discriminate]|]). destruct Hk. }
  rewrite (eval_req_scalar X _ _ _ _ _ _ _ _ _ w M (proj1 Rq)); try discriminate; auto; [|apply Rq].
  rewrite sum_models_dangling by assumption. reflexivity.
Qed.

Lemma C14_dangling_rii_l : forall X p rng t u d s w,
  length p <> 1%nat -> length p <> 5%nat -> ((length p < 9)%nat \/ Nat.even (length p) = true) ->
  mk_model RefractiveIndexInfo p rng t u = Ok d -> lower u = u -> asked d s "wavelength" "um" w ->
  evaluate X d s = (Raise IndexError, s).
Proof.
  intros X p rng t u d s w H1 H5 Hp M Hu A.
  rewrite (eval_req_scalar X _ _ _ _ _ _ _ _ _ w M eq_refl); try discriminate; auto.
  cbn [model_point]. rewrite pt_rii_dangling by assumption. reflexivity.
Qed.

Lemma C15_herzberger_l : forall X c0 c1 c2 c3 c4 c5 extra rng t u d s w,
  mk_model Herzberger (map Fin [c0; c1; c2; c3; c4; c5] ++ extra) rng t u = Ok d -> lower u = u ->
  asked d s "wavelength" "um" w -> w ^ 2 <> 0.028 ->
  evaluate X d s = (Ok (OS (ORe (Fin (herzberger c0 c1 c2 c3 c4 c5 w)))), s).
Proof.
  intros X c0 c1 c2 c3 c4 c5 extra rng t u d s w M Hu A Hp.
  rewrite (eval_req_scalar X _ _ _ _ _ _ _ _ _ w M eq_refl); try discriminate; auto.
  cbn [model_point]. rewrite pt_herzberger_ok by assumption. reflexivity.
Qed.

Lemma C15_exotic_l : forall X c0 c1 c2 c3 c4 c5 extra rng t u d s w,
  mk_model Exotic (map Fin [c0; c1; c2; c3; c4; c5] ++ extra) rng t u = Ok d -> lower u = u ->
  asked d s "wavelength" "um" w -> w ^ 2 <> c2 -> (w - c4) ^ 2 + c5 <> 0 ->
  0 <= exotic_sq_coded c0 c1 c2 c3 c4 c5 w ->
  evaluate X d s = (Ok (OS (ORe (Fin (sqrt (exotic_sq_coded c0 c1 c2 c3 c4 c5 w))))), s).
Proof.
  intros X c0 c1 c2 c3 c4 c5 extra rng t u d s w M Hu A Hp Hq H0.
  rewrite (eval_req_scalar X _ _ _ _ _ _ _ _ _ w M eq_refl); try discriminate; auto.
  cbn [model_point]. rewrite pt_exotic_ok by assumption. reflexivity.
Qed.

Lemma C15_exotic_published_refuted_l : forall X c0 c1 c2 c3 c4 c5 extra rng t u d s w,
  mk_model Exotic (map Fin [c0; c1; c2; c3; c4; c5] ++ extra) rng t u = Ok d -> lower u = u ->
  asked d s "wavelength" "um" w -> w ^ 2 <> c2 -> (w - c4) ^ 2 + c5 <> 0 ->
  0 <= exotic_sq_coded c0 c1 c2 c3 c4 c5 w -> 0 <= exotic_sq c0 c1 c2 c3 c4 c5 w ->
  c1 <> 0 -> w ^ 2 <> 1 ->
  evaluate X d s <> (Ok (OS (ORe (Fin (sqrt (exotic_sq c0 c1 c2 c3 c4 c5 w))))), s).
Proof.
  intros X c0 c1 c2 c3 c4 c5 extra rng t u d s w M Hu A Hp Hq H0 H0' H1 Hw E.
  rewrite (C15_exotic_l X c0 c1 c2 c3 c4 c5 extra rng t u d s w M Hu A Hp Hq H0) in E.
  injection E as E. apply sqrt_inj in E; try assumption.
  unfold exotic_sq, exotic_sq_coded in E.
  assert (K : c1 * w ^ 2 / (w ^ 2 - c2) = c1 / (w ^ 2 - c2)) by lra.
  assert (Z : w ^ 2 - c2 <> 0) by lra.
  apply (f_equal (fun z => z * (w ^ 2 - c2))) in K. unfold Rdiv in K.
  rewrite !Rmult_assoc, !Rinv_l in K by assumption. rewrite !Rmult_1_r in K.
  assert (c1 * (w ^ 2 - 1) = 0) by lra. apply Rmult_integral in H. lra.
Qed.

Lemma C15_too_few_l : forall X k p rng t u d s w,
  (k = Herzberger \/ k = Exotic) -> (length p < 6)%nat ->
  mk_model k p rng t u = Ok d -> lower u = u -> asked d s "wavelength" "um" w ->
  evaluate X d s = (Raise IndexError, s).
Proof.
  intros X k p rng t u d s w Hk Hp M Hu A.
  assert (Rq : required k = Some ("wavelength", "um")%string /\ k <> TaucLorentz).
  { destruct Hk as [->| ->]; split; try reflexivity; discriminate. }
  rewrite (eval_req_scalar X _ _ _ _ _ _ _ _ _ w M (proj1 Rq)); try discriminate; auto; [|apply Rq].
  destruct Hk as [->| ->]; cbn [model_point]; [rewrite short_herzberger|rewrite short_exotic]; auto.
Qed.

Lemma C16_retro_root_l : forall X c0 c1 c2 c3 extra rng t u d s w,
  mk_model Retro (map Fin [c0; c1; c2; c3] ++ extra) rng t u = Ok d -> lower u = u ->
  asked d s "wavelength" "um" w -> w ^ 2 <> c2 ->
  let r := retro_rhs c0 c1 c2 c3 w in r < 1 ->
  exists n, evaluate X d s = (Ok (OS (ORe (Fin n))), s) /\ 0 < n /\ (1 - r) * n ^ 2 - 2 * r * n - 1 = 0 /\
    (r = 0 -> (n ^ 2 - 1) / (n ^ 2 + 2) = r).
Proof.
  intros X c0 c1 c2 c3 extra rng t u d s w M Hu A Hp r Hr. exists (retro_coded r).
  rewrite (eval_req_scalar X _ _ _ _ _ _ _ _ _ w M eq_refl); try discriminate; auto.
  cbn [model_point]. rewrite pt_retro_ok by assumption. split; [reflexivity|].
  destruct (retro_coded_root r Hr) as [K1 K2]. split; [assumption|]. split; [assumption|].
  intros E. rewrite E, retro_coded_zero. field.
Qed.

Lemma C16_retro_refuted_l : forall X c0 c1 c2 c3 extra rng t u d s w,
  mk_model Retro (map Fin [c0; c1; c2; c3] ++ extra) rng t u = Ok d -> lower u = u ->
  asked d s "wavelength" "um" w -> w ^ 2 <> c2 ->
  let r := retro_rhs c0 c1 c2 c3 w in r < 1 -> r <> 0 ->
  exists n, evaluate X d s = (Ok (OS (ORe (Fin n))), s) /\ (n ^ 2 - 1) / (n ^ 2 + 2) <> r.
Proof.
  intros X c0 c1 c2 c3 extra rng t u d s w M Hu A Hp r Hr H0. exists (retro_coded r).
  rewrite (eval_req_scalar X _ _ _ _ _ _ _ _ _ w M eq_refl); try discriminate; auto.
  cbn [model_point]. rewrite pt_retro_ok by assumption. split; [reflexivity|].
  now apply retro_coded_wrong.
Qed.

Lemma C16_too_few_l : forall X p rng t u d s w, (length p < 4)%nat ->
  mk_model Retro p rng t u = Ok d -> lower u = u -> asked d s "wavelength" "um" w ->
  evaluate X d s = (Raise IndexError, s).
Proof.
  intros X p rng t u d s w Hp M Hu A.
  rewrite (eval_req_scalar X _ _ _ _ _ _ _ _ _ w M eq_refl); try discriminate; auto.
  cbn [model_point]. rewrite short_retro by assumption. reflexivity.
Qed.

Lemma C17_drude_l : forall X wp g extra rng t u d s e,
  mk_model Drude (map Fin [wp; g] ++ extra) rng t u = Ok d -> lower u = u ->
  asked d s "energy" "ev" e -> e <> 0 ->
  evaluate X d s = (Ok (OS (OCx (CF (drude wp g e)))), s).
Proof.
  intros X wp g extra rng t u d s e M Hu A Hp.
  rewrite (eval_req_scalar X _ _ _ _ _ _ _ _ _ e M eq_refl); try discriminate; auto.
  cbn [model_point]. rewrite pt_drude_ok by assumption. reflexivity.
Qed.

Lemma C17_drude_lorentz_l : forall X wp f w0 g extra rng t u d s e,
  mk_model DrudeLorentz (map Fin [wp; f; w0; g] ++ extra) rng t u = Ok d -> lower u = u ->
  asked d s "energy" "ev" e -> (w0 ^ 2 <> e ^ 2 \/ g * e <> 0) ->
  evaluate X d s = (Ok (OS (OCx (CF (drude_lorentz wp f w0 g e)))), s).
Proof.
  intros X wp f w0 g extra rng t u d s e M Hu A Hp.
  rewrite (eval_req_scalar X _ _ _ _ _ _ _ _ _ e M eq_refl); try discriminate; auto.
  cbn [model_point]. rewrite pt_drude_lorentz_ok by assumption. reflexivity.
Qed.

Lemma C17_passive_l : forall wp f w0 g e, 0 <= g -> 0 <= f -> 0 < e ->
  0 <= snd (drude wp g e) /\ 0 <= snd (drude_lorentz wp f w0 g e).
Proof.
  intros wp f w0 g e Hg Hf He. split; [now apply drude_im|now apply drude_lorentz_im].
Qed.

Lemma C17_passive_values_l : forall X k p rng t u d s e v,
  (exists wp g extra, k = Drude /\ p = map Fin [wp; g] ++ extra /\ 0 <= g) \/
  (exists wp f w0 g extra, k = DrudeLorentz /\ p = map Fin [wp; f; w0; g] ++ extra /\ 0 < g /\ 0 <= f) ->
  mk_model k p rng t u = Ok d -> lower u = u -> asked d s "energy" "ev" e -> 0 < e ->
  evaluate X d s = (Ok v, s) -> exists z, v = OS (OCx (CF z)) /\ 0 <= snd z.
Proof.
  intros X k p rng t u d s e v H M Hu A He E.
  destruct H as [(wp & g & ex & -> & -> & Hg)|(wp & f & w0 & g & ex & -> & -> & Hg & Hf)].
  - rewrite (C17_drude_l X wp g ex rng t u d s e M Hu A) in E by lra. injection E as <-.
    eexists; split; [reflexivity|]. apply drude_im; lra.
  - rewrite (C17_drude_lorentz_l X wp f w0 g ex rng t u d s e M Hu A) in E.
    + injection E as <-. eexists; split; [reflexivity|]. apply drude_lorentz_im; lra.
    + right. apply Rmult_integral_contrapositive. lra.
Qed.

Lemma C17_lorentz_is_drude_l : forall X wp g rng t u t' u' rng' d d' s e,
  mk_model Drude (map Fin [wp; g]) rng t u = Ok d -> lower u = u ->
  mk_model DrudeLorentz (map Fin [wp; 1; 0; g]) rng' t' u' = Ok d' -> lower u' = u' ->
  asked d s "energy" "ev" e -> asked d' s "energy" "ev" e -> e <> 0 ->
  evaluate X d' s = evaluate X d s.
Proof.
  intros X wp g rng t u t' u' rng' d d' s e M Hu M' Hu' A A' He.
  rewrite (C17_drude_l X wp g [] rng t u d s e M Hu A He).
  rewrite (C17_drude_lorentz_l X wp 1 0 g [] rng' t' u' d' s e M' Hu' A').
  - now rewrite drude_is_lorentz.
  - left. intros K. assert (e ^ 2 = 0) by (rewrite <- K; ring).
    assert (e * e = 0) by (replace (e * e) with (e ^ 2) by ring; assumption).
    apply Rmult_integral in H0. tauto.
Qed.

Lemma C17_too_few_l : forall X k p rng t u d s e,
  (k = Drude /\ (length p < 2)%nat) \/ (k = DrudeLorentz /\ (length p < 4)%nat) ->
  mk_model k p rng t u = Ok d -> lower u = u -> asked d s "energy" "ev" e ->
  evaluate X d s = (Raise IndexError, s).
Proof.
  intros X k p rng t u d s e Hk M Hu A.
  destruct Hk as [[-> Hp]|[-> Hp]];
    rewrite (eval_req_scalar X _ _ _ _ _ _ _ _ _ e M eq_refl); try discriminate; auto;
    cbn [model_point]; [rewrite short_drude|rewrite short_drude_lorentz]; auto.
Qed.

Lemma C18_tauc_lorentz_l : forall X A E0 C Eg einf extra rng t u d s es,
  mk_model TaucLorentz (map Fin [A; E0; C; Eg; einf] ++ extra) rng t u = Ok d -> lower u = u ->
  asked_all d s "energy" "ev" es -> Forall (tl_dom E0 C Eg) es ->
  evaluate X d s =
    (Ok (OA (map (fun E => OCx (CF (tl_eps1 A E0 C Eg einf E, tl_eps2 A E0 C Eg E))) es)), s).
Proof.
  intros X A E0 C Eg einf extra rng t u d s es M Hu Q F.
  rewrite (eval_req_array X _ _ _ _ _ _ _ _ _ es M eq_refl); try discriminate; auto.
  erewrite map_res_ok; [reflexivity|]. intros E HE. rewrite Forall_forall in F.
  cbn [model_point]. rewrite pt_tl_ok by auto. reflexivity.
Qed.

Lemma C18_absorption_l : forall X A E0 C Eg einf extra rng t u d s es v,
  mk_model TaucLorentz (map Fin [A; E0; C; Eg; einf] ++ extra) rng t u = Ok d -> lower u = u ->
  asked_all d s "energy" "ev" es -> Forall (tl_dom E0 C Eg) es -> 0 <= A ->
  evaluate X d s = (Ok v, s) ->
  exists outs, v = OA outs /\
    Forall2 (fun E o => exists z, o = OCx (CF z) /\ 0 <= snd z /\ (E < Eg -> snd z = 0)) es outs.
Proof.
  intros X A E0 C Eg einf extra rng t u d s es v M Hu Q F HA H.
  rewrite (C18_tauc_lorentz_l X A E0 C Eg einf extra rng t u d s es M Hu Q F) in H. injection H as <-.
  eexists; split; [reflexivity|]. clear Q. induction F as [|E l HE F IH]; cbn [map]; constructor; auto.
  eexists; split; [reflexivity|]. cbn [snd]. destruct HE as (H1 & _ & H2 & H3 & H4 & _). split.
  - apply tl_eps2_nonneg; lra.
  - intros L. unfold tl_eps2. destruct (Rle_dec Eg E); [lra|reflexivity].
Qed.

Lemma C18_denominator_l : forall E0 C E, C ^ 2 <= 4 * E0 ^ 2 ->
  (E ^ 2 - (E0 ^ 2 - C ^ 2 / 2)) ^ 2 + sqrt (4 * E0 ^ 2 - C ^ 2) ^ 2 * C ^ 2 / 4
  = (E ^ 2 - E0 ^ 2) ^ 2 + C ^ 2 * E ^ 2.
Proof. exact zeta4_eq. Qed.

Lemma C18_scalar_typeerror_l : forall X p rng t u d s x y,
  mk_model TaucLorentz p rng t u = Ok d -> (5 <= length p)%nat -> sp_values s = VS x ->
  contains (valid_range d) s = Ok true -> convert_to s t u = Ok y ->
  evaluate X d s = (Raise TypeError, s).
Proof.
  intros X p rng t u d s x y M Hp V C Cv.
  destruct (mk_model_ok _ _ _ _ _ _ M) as (c & r & D & Er & -> & _).
  unfold valid_range in C. cbn [dbase_of d_range evaluate d_type d_unit] in *. rewrite C, Cv. cbn [bind].
  rewrite V. unfold tl_params_ok.
  destruct (pget_some p 0) as [? ->]; [lia|]. destruct (pget_some p 1) as [? ->]; [lia|].
  destruct (pget_some p 2) as [? ->]; [lia|]. destruct (pget_some p 3) as [? ->]; [lia|].
  destruct (pget_some p 4) as [? ->]; [lia|]. reflexivity.
Qed.

Lemma example_tl p : exists d s,
  mk_model TaucLorentz p (InVals (VA [Fin 0.5; Fin 4])) "energy" "ev" = Ok d /\
  mk_spectrum (InVals (VA (map Fin [1; 2]))) "energy" "ev" = Ok s /\
  asked_all d s "energy" "ev" [1; 2].
Proof.
  destruct (mk_model TaucLorentz p (InVals (VA [Fin 0.5; Fin 4])) "energy" "ev") as [d|] eqn:M; [|discriminate].
  destruct (mk_spectrum (InVals (VA (map Fin [1; 2]))) "energy" "ev") as [s|] eqn:Ms; [|discriminate].
  exists d, s. split; [reflexivity|]. split; [reflexivity|].
  set (k := planck * speed_of_light / elementary_charge).
  assert (V : exists xs lams w0s, xs = [1; 2] /\
    Forall (fun x => 0 < x) xs /\ Forall (fun x => / 10 ^ 8 < x) xs /\
    Forall2 (wavelength_m "energy" "ev") xs lams /\ Forall (fun l => / 10 ^ 8 < l) lams /\
    Forall2 (fun lam w0 => wavelength_m "energy" "ev" w0 lam) lams w0s /\
    Forall2 (rounds_for "ev") w0s [1; 2]).
  { exists [1; 2], [planck * speed_of_light / (elementary_charge * 1); planck * speed_of_light / (elementary_charge * 2)], [1; 2].
    assert (K : / 10 ^ 8 < planck * speed_of_light / (elementary_charge * 2)).
    { unfold planck, speed_of_light, elementary_charge.
      replace (6.62607015 / 10 ^ 34 * 299792458 / (1.602176634 / 10 ^ 19 * 2))
        with (6.62607015 * 299792458 / (1.602176634 * 2) / 10 ^ 15) by (field; lra).
      apply Rmult_lt_reg_r with (10 ^ 15); [apply pow_lt; lra|]. unfold Rdiv at 1.
      rewrite (Rmult_assoc _ (/ 10 ^ 15)), Rinv_l by (apply pow_nonzero; lra).
      replace (/ 10 ^ 8 * 10 ^ 15) with (10 ^ 7) by (field; lra).
      apply Rmult_lt_reg_r with (1.602176634 * 2); [lra|]. unfold Rdiv.
      rewrite Rmult_1_r, Rmult_assoc, Rinv_l by lra. lra. }
    assert (K1 : planck * speed_of_light / (elementary_charge * 2) < planck * speed_of_light / (elementary_charge * 1)).
    { unfold planck, speed_of_light, elementary_charge.
      apply Rmult_lt_compat_l; [apply Rmult_lt_0_compat; [apply Rmult_lt_0_compat; [lra|apply Rinv_0_lt_compat, pow_lt; lra]|lra]|].
      apply Rinv_lt_contravar.
      - apply Rmult_lt_0_compat; apply Rmult_lt_0_compat; try lra; apply Rmult_lt_0_compat; try lra; apply Rinv_0_lt_compat, pow_lt; lra.
      - apply Rmult_lt_compat_l; [|lra]. apply Rmult_lt_0_compat; try lra; apply Rinv_0_lt_compat, pow_lt; lra. }
    assert (T8 : / 10 ^ 8 < 1).
    { rewrite <- Rinv_1. apply Rinv_lt_contravar; [|lra]. rewrite Rmult_1_l. apply pow_lt; lra. }
    split; [reflexivity|].
    split; [repeat constructor; lra|].
    split; [repeat constructor; lra|].
    split; [repeat constructor|].
    split; [constructor; [lra|constructor; [lra|constructor]]|].
    split; [repeat constructor|].
    constructor; [exact (rounds_for_int _ 1%Z)|]. constructor; [exact (rounds_for_int _ 2%Z)|constructor]. }
  destruct V as (xs & lams & w0s & -> & V1 & V2 & V3 & V4 & V5 & V6).
  assert (Q : contains (valid_range d) s = Ok true -> asked_all d s "energy" "ev" [1; 2]).
  { intros Ct. constructor; [|exact Ct]. exists "energy"%string, "ev"%string, "ev"%string, [1; 2], lams, w0s.
    split; [exact Ms|]. split; [exact V1|]. split; [intros _; exact V2|].
    split; [exact documented_ev|]. auto. }
  assert (Cv : convert_to s "energy" "ev" = Ok (VA (map Fin [1; 2]))).
  { destruct constant_default_spec with (c := ORe (Fin 0)) as (r & E & T & U & V).
    eapply (asked_all_convert (DConst (mkBase "wavelength" "m" r) (ORe (Fin 0)))); [|reflexivity|exact documented_ev|discriminate].
    constructor.
    - exists "energy"%string, "ev"%string, "ev"%string, [1; 2], lams, w0s.
      split; [exact Ms|]. split; [exact V1|]. split; [intros _; exact V2|].
      split; [exact documented_ev|]. auto.
    - unfold valid_range; cbn [dbase_of d_range].
      destruct (mk_spectrum_ok _ _ _ _ Ms) as (c & w & D & Ew & Es & _). injection Ew as <-.
      destruct (std_nn _ _ _ (VA (map Fin [1; 2])) D) as (w' & Es' & Nw).
      + discriminate.
      + cbn. repeat constructor; cbn; lra.
      + cbn [map] in Es', Es. rewrite Es in Es'. injection Es' as <-. apply default_contains; auto.
        * intros E0. destruct (std_form _ _ _ D) as (g & G1 & G2 & _).
          rewrite G2 in Es. injection Es as Es. rewrite <- Es in E0. discriminate.
        * intros l El. destruct (std_form _ _ _ D) as (g & G1 & G2 & _).
          rewrite G2 in Es. injection Es as Es. congruence. }
  apply Q. injection M as <-.
  assert (R1 : Rltb 2 1 = false) by (apply Rltb_false; lra).
  assert (R2 : Rltb 1 2 = true) by (apply Rltb_true; lra).
  assert (R3 : Rltb 4 0.5 = false) by (apply Rltb_false; lra).
  assert (R4 : Rltb 0.5 4 = true) by (apply Rltb_true; lra).
  assert (R5 : Rltb 1 0.5 = false) by (apply Rltb_false; lra).
  assert (R6 : Rltb 4 2 = false) by (apply Rltb_false; lra).
  unfold contains, valid_range; cbn [dbase_of d_range sp_type sp_unit sp_values].
  change (lower "energy") with "energy"%string. rewrite Cv. cbn.
  rewrite R1, R2, R3, R4. cbn. rewrite R5. unfold xgt. cbn. rewrite R6. reflexivity.
Qed.

Lemma C65_overdamped_nan_l : forall X A E0 C Eg einf extra rng t u d s es,
  mk_model TaucLorentz (map Fin [A; E0; C; Eg; einf] ++ extra) rng t u = Ok d -> lower u = u ->
  asked_all d s "energy" "ev" es -> 2 * E0 ^ 2 < C ^ 2 ->
  evaluate X d s = (Ok (OA (map (fun _ => OCx CNan) es)), s).
Proof.
  intros X A E0 C Eg einf extra rng t u d s es M Hu Q F.
  rewrite (eval_req_array X _ _ _ _ _ _ _ _ _ es M eq_refl); try discriminate; auto.
  erewrite map_res_ok; [reflexivity|]. intros E HE.
  cbn [model_point]. rewrite pt_tl_nan by auto. reflexivity.
Qed.

Lemma C66_fano_l : forall X q er g extra rng t u canon d s e,
  mk_model Fano (map Fin [q; er; g] ++ extra) rng t u = Ok d -> lower u = u ->
  documented (lower t) u canon -> lower t <> "wavenumber"%string ->
  asked d s (lower t) canon e -> g <> 0 ->
  evaluate X d s = (Ok (OS (ORe (Fin (fano q er g e)))), s) /\ 0 <= fano q er g e <= 1.
Proof.
  intros X q er g extra rng t u canon d s e M Hu D Hn A Hg. split; [|apply fano_bounds].
  rewrite (eval_model_scalar X _ _ _ _ _ _ _ _ e M Hu D Hn); try discriminate; auto.
  cbn [model_point]. rewrite pt_fano_ok by assumption. reflexivity.
Qed.

Lemma C19_built_unit_l : forall k p rng t u d,
  mk_model k p rng t u = Ok d ->
  (In k [Sellmeier; Sellmeier2; Polynomial; RefractiveIndexInfo; Cauchy; Gases; Herzberger; Retro; Exotic] ->
     lower t = "wavelength"%string /\ In (lower u) ["micrometer"; "micrometre"; "um"]%string) /\
  (In k [Drude; DrudeLorentz; TaucLorentz] ->
     lower t = "energy"%string /\ In (lower u) ["electronvolt"; "ev"]%string).
Proof.
  intros k p rng t u d M. destruct (mk_model_ok _ _ _ _ _ _ M) as (c & r & D & _ & _ & E).
  assert (K : forall rt ru, required k = Some (rt, ru) -> lower t = rt /\ documented rt (lower u) ru).
  { intros rt ru Rq. rewrite Rq in E. destruct E as [E1 ->]. split; [exact E1|]. now rewrite <- E1. }
  assert (U1 : documented "wavelength" (lower u) "um" -> In (lower u) ["micrometer"; "micrometre"; "um"]%string).
  { intros (sp & H1 & H2). cbn in H1. repeat (destruct H1 as [H1|H1]; [try discriminate; inversion H1; subst; exact H2|]). destruct H1. }
  assert (U2 : documented "energy" (lower u) "ev" -> In (lower u) ["electronvolt"; "ev"]%string).
  { intros (sp & H1 & H2). cbn in H1. repeat (destruct H1 as [H1|H1]; [try discriminate; inversion H1; subst; exact H2|]). destruct H1. }
  split; intros Hk; cbn in Hk;
    repeat (destruct Hk as [<-|Hk]; [destruct (K _ _ eq_refl) as [K1 K2]; auto|]); destruct Hk.
Qed.

Lemma C19_accepts_l : forall k p v t u rt ru,
  (In k [Sellmeier; Sellmeier2; Polynomial; RefractiveIndexInfo; Cauchy; Gases; Herzberger; Retro; Exotic] /\
     rt = "wavelength" /\ ru = "um")%string \/
  (In k [Drude; DrudeLorentz; TaucLorentz] /\ rt = "energy" /\ ru = "ev")%string ->
  lower t = rt -> documented rt (lower u) ru -> (forall l, v <> VI l) ->
  exists d, mk_model k p (InVals v) t u = Ok d.
Proof.
  intros k p v t u rt ru Hk Ht D Hv. rewrite <- Ht in D.
  assert (Rq : required k = Some (rt, ru)).
  { destruct Hk as [(Hk & -> & ->)|(Hk & -> & ->)]; cbn in Hk;
    repeat (destruct Hk as [<-|Hk]; [reflexivity|]); destruct Hk. }
  unfold mk_model, mk_base. rewrite (mk_spectrum_unfold _ _ _ _ D).
  destruct (std_form _ _ _ D) as (g & G1 & G2 & _).
  assert (Hm : exists w, standardise_values (lower t) ru v = Ok w).
  { destruct v as [x|l|l]; [rewrite G1|rewrite G2|exfalso; eapply Hv; reflexivity]; eauto. }
  destruct Hm as [w ->]. cbn [bind]. unfold validate_spectrum_type. rewrite Rq.
  rewrite (mk_spectrum_unfold _ _ _ _ D), G1. cbn [bind sp_type sp_unit].
  rewrite Ht, !String.eqb_refl. cbn. eauto.
Qed.

Lemma C19_rejects_l : forall k p v t u rt ru,
  (In k [Sellmeier; Sellmeier2; Polynomial; RefractiveIndexInfo; Cauchy; Gases; Herzberger; Retro; Exotic] /\
     rt = "wavelength" /\ ru = "um")%string \/
  (In k [Drude; DrudeLorentz; TaucLorentz] /\ rt = "energy" /\ ru = "ev")%string ->
  ~ (lower t = rt /\ documented rt (lower u) ru) -> (forall l, v <> VI l) ->
  mk_model k p (InVals v) t u = Raise ValueError.
Proof.
  intros k p v t u rt ru Hk Hn Hv.
  assert (Rq : required k = Some (rt, ru)).
  { destruct Hk as [(Hk & -> & ->)|(Hk & -> & ->)]; cbn in Hk;
    repeat (destruct Hk as [<-|Hk]; [reflexivity|]); destruct Hk. }
  unfold mk_model, mk_base.
  destruct (documented_dec (lower t) (lower u)) as [[c D]|D].
  - rewrite (mk_spectrum_unfold _ _ _ _ D). destruct (std_form _ _ _ D) as (g & G1 & G2 & _).
    assert (Hm : exists w, standardise_values (lower t) c v = Ok w).
    { destruct v as [x|l|l]; [rewrite G1|rewrite G2|exfalso; eapply Hv; reflexivity]; eauto. }
    destruct Hm as [w ->]. cbn [bind]. unfold validate_spectrum_type. rewrite Rq.
    rewrite (mk_spectrum_unfold _ _ _ _ D), G1. cbn [bind sp_type sp_unit].
    destruct (String.eqb (lower t) rt) eqn:E1; cbn [negb]; [|reflexivity].
    destruct (String.eqb c ru) eqn:E2; cbn [negb]; [|reflexivity].
    apply String.eqb_eq in E1, E2. exfalso. apply Hn. split; [assumption|]. now rewrite <- E1, <- E2.
  - rewrite mk_spectrum_undocumented by assumption. reflexivity.
Qed.

Lemma C64_capital_unit_refuted_l : forall X d s t u,
  ((exists rows, mk_interpolation rows t u = Ok d) \/ (exists k p rng, mk_model k p rng t u = Ok d)) ->
  lower u <> u -> contains (valid_range d) s = Ok true ->
  evaluate X d s = (Raise ValueError, s).
Proof.
  intros X d s t u H Hu C.
  assert (K : convert_to s t u = Raise ValueError).
  { apply convert_to_undocumented. intros c D. apply Hu. now destruct (documented_lower _ _ _ D). }
  destruct H as [(rows & M)|(k & p & rng & M)].
  - unfold mk_interpolation in M.
    destruct (np_min _); [|discriminate]. destruct (np_max _); [|discriminate]. cbn [bind] in M.
    destruct (mk_base _ t u) as [b|] eqn:E; [|discriminate]. cbn [bind] in M.
    destruct (interp1d_check rows); [|discriminate]. cbn [bind] in M. injection M as <-.
    destruct (mk_base_good _ _ _ _ E) as (_ & Et & Eu & _). unfold valid_range in C.
    cbn [dbase_of evaluate] in *. rewrite C, Et, Eu, K. reflexivity.
  - destruct (mk_model_ok _ _ _ _ _ _ M) as (c & r & D & Er & -> & _). unfold valid_range in C.
    cbn [dbase_of d_range evaluate d_type d_unit] in *. rewrite C, K. reflexivity.
Qed.

Lemma C20_range_checked_l : forall X d s e,
  plain_data d -> contains (valid_range d) s = Raise e -> evaluate X d s = (Raise e, s).
Proof. exact eval_range_check. Qed.

Lemma C20_pointwise_l : forall X d xs t u s,
  plain_data d -> mk_spectrum (InVals (VA xs)) t u = Ok s ->
  Forall (array_input_ok (lower t)) xs ->
  Forall (resolvable (lower (d_type (dbase_of d)))) (elems (sp_std s)) ->
  (forall ov, convert_to s (sp_type (valid_range d)) (sp_unit (valid_range d)) = Ok ov ->
     Forall (fun x => x <> NaN) (elems ov)) ->
  Forall (fun x => x <> NaN) (elems (sp_values (valid_range d))) ->
  elems (sp_values (valid_range d)) <> [] ->
  forall o s1, evaluate X d s = (Ok o, s1) ->
  s1 = s /\ exists outs, o = OA outs /\ length outs = length xs /\
    forall i x si, nth_error xs i = Some x -> mk_spectrum (InVals (VS x)) t u = Ok si ->
      exists y, nth_error outs i = Some y /\ evaluate X d si = (Ok (OS y), si).
Proof. exact pointwise_forward. Qed.

Lemma C20_pointwise_conv_l : forall X d xs t u s,
  plain_data d -> mk_spectrum (InVals (VA xs)) t u = Ok s ->
  Forall (array_input_ok (lower t)) xs ->
  Forall (resolvable (lower (d_type (dbase_of d)))) (elems (sp_std s)) ->
  (forall ov, convert_to s (sp_type (valid_range d)) (sp_unit (valid_range d)) = Ok ov ->
     Forall (fun x => x <> NaN) (elems ov)) ->
  Forall (fun x => x <> NaN) (elems (sp_values (valid_range d))) ->
  elems (sp_values (valid_range d)) <> [] -> xs <> [] ->
  (forall x si, In x xs -> mk_spectrum (InVals (VS x)) t u = Ok si ->
     exists y s1, evaluate X d si = (Ok y, s1)) ->
  exists outs, evaluate X d s = (Ok (OA outs), s).
Proof. exact pointwise_backward. Qed.

Lemma C21_base_inside_l : forall X base ext order d ext' s v s',
  mk_extrapolation X base ext order = (Ok d, ext') ->
  contains (valid_range base) s = Ok true -> evaluate X base s = (Ok v, s') ->
  evaluate X d s = (Ok v, s').
Proof. exact ext_eval_inside. Qed.

Lemma C21_range_l : forall X base ext order d ext' lo hi ov vs,
  built X base -> lo <= hi -> sp_values (valid_range base) = VA [Fin lo; Fin hi] ->
  convert_to ext (sp_type (valid_range base)) (sp_unit (valid_range base)) = Ok ov ->
  elems ov = map Fin vs -> (forall l, ov <> VI l) ->
  mk_extrapolation X base ext order = (Ok d, ext') ->
  (length vs <= 2)%nat /\ Forall (out_of lo hi) vs /\
  sp_values (valid_range d) = VA [Fin (fold_right Rmin lo vs); Fin (fold_right Rmax hi vs)] /\
  sp_type (valid_range d) = sp_type (valid_range base) /\ sp_unit (valid_range d) = sp_unit (valid_range base).
Proof.
  intros X base ext order d ext' lo hi ov vs B L Er C Ev Hf M.
  destruct (ext_accepted X base ext order B lo hi L Er ov vs C Ev Hf d ext' M) as (K1 & K2 & K3 & K4 & K5).
  split; [exact K1|]. split; [|auto].
  clear - K2. revert lo hi K2. induction vs as [|v vs IH]; intros lo hi K; constructor; [apply K|].
  destruct K as [_ K]. apply IH in K. eapply Forall_impl; [|exact K].
  intros a [H|H]; [left|right].
  - eapply Rlt_le_trans; [exact H|apply Rmin_r].
  - eapply Rle_lt_trans; [|exact H]. apply Rmax_r.
Qed.

Lemma C21_rejects_l : forall X base ext order lo hi ov vs,
  built X base -> lo <= hi -> sp_values (valid_range base) = VA [Fin lo; Fin hi] ->
  convert_to ext (sp_type (valid_range base)) (sp_unit (valid_range base)) = Ok ov ->
  elems ov = map Fin vs -> (forall l, ov <> VI l) ->
  (2 < length vs)%nat \/ Exists (fun v => lo <= v <= hi) vs ->
  fst (mk_extrapolation X base ext order) = Raise ValueError.
Proof.
  intros X base ext order lo hi ov vs B L Er C Ev Hf H.
  apply (ext_rejected X base ext order B lo hi L Er ov vs C Ev Hf).
  destruct H as [H|H]; [auto|right]. clear - H. intros K. revert lo hi H K.
  induction vs as [|v vs IH]; intros lo hi H K; inversion H; subst; cbn in K; destruct K as [K1 K2].
  - destruct K1; lra.
  - apply (IH (Rmin v lo) (Rmax v hi)); [|assumption].
    eapply Exists_impl; [|eassumption]. cbn. intros a [A1 A2]. split.
    + eapply Rle_trans; [apply Rmin_r|assumption].
    + eapply Rle_trans; [eassumption|apply Rmax_r].
Qed.

Lemma C21_same_side_refuted_l : forall X base ext order lo hi ov v1 v2,
  built X base -> lo <= hi -> sp_values (valid_range base) = VA [Fin lo; Fin hi] ->
  convert_to ext (sp_type (valid_range base)) (sp_unit (valid_range base)) = Ok ov ->
  ov = VA [Fin v1; Fin v2] -> v1 <= v2 < lo \/ hi < v2 <= v1 ->
  fst (mk_extrapolation X base ext order) = Raise ValueError.
Proof.
  intros X base ext order lo hi ov v1 v2 B L Er C E H.
  apply (ext_rejected X base ext order B lo hi L Er ov [v1; v2] C); [now rewrite E|rewrite E; discriminate|].
  right. cbn. intros [K1 [K2 _]]. unfold out_of, Rmin, Rmax in *.
  destruct (Rle_dec v1 lo), (Rle_dec v1 hi); lra.
Qed.

Lemma C21_accepts_l : forall X base ext order lo hi ov vs sp sp' y,
  built X base -> lo <= hi -> sp_values (valid_range base) = VA [Fin lo; Fin hi] ->
  convert_to ext (sp_type (valid_range base)) (sp_unit (valid_range base)) = Ok ov ->
  elems ov = map Fin vs -> (forall l, ov <> VI l) ->
  (length vs <= 2)%nat -> extends lo hi vs ->
  suggest_spectrum X base = Ok sp -> evaluate X base sp = (Ok y, sp') ->
  (forall k, splrep_check X k = Ok tt) ->
  exists d, mk_extrapolation X base ext order
    = (Ok d, mkSp (sp_type (valid_range base)) (sp_unit (valid_range base)) ov (sp_std ext)).
Proof.
  intros X base ext order lo hi ov vs sp sp' y B L Er C Ev Hf H2 He S1 S2 S3.
  unfold mk_extrapolation; cbv zeta. rewrite (ext_in_place X base ext B ov C).
  destruct (ext_range_spec X base ext B lo hi L Er ov vs C Ev Hf) as [(_ & _ & er & E1 & E2)|([K|K] & _)];
    [|lia|tauto].
  rewrite E1. cbn [bind]. rewrite E2. unfold vmin, vmax. cbn [elems np_min np_max bind fold_left].
  destruct (base_range_doc X base B) as (c & D & _).
  assert (Mb : forall a b, exists r, mk_base (InVals (VA [a; b])) (d_type (dbase_of base)) (d_unit (dbase_of base)) = Ok r).
  { intros a b. unfold mk_base. rewrite (mk_spectrum_unfold _ _ _ _ D). destruct (std_form _ _ _ D) as (g & _ & G2 & _).
    rewrite G2. cbn [bind]. eauto. }
  destruct (Mb (xmin2 (Fin (fold_right Rmin lo vs)) (Fin (fold_right Rmax hi vs)))
               (xmax2 (Fin (fold_right Rmin lo vs)) (Fin (fold_right Rmax hi vs)))) as [b Hb].
  rewrite Hb. cbn [bind]. rewrite S1. cbn [bind]. rewrite S2. cbn [fst snd bind]. rewrite S3. cbn [bind]. eauto.
Qed.

Lemma C21_extended_values_l : forall X base ext order d ext' s c ov,
  mk_extrapolation X base ext order = (Ok d, ext') ->
  contains (valid_range base) s = Raise ValueError -> contains (valid_range d) s = Ok true ->
  documented (lower (d_type (dbase_of base))) (d_unit (dbase_of base)) c ->
  convert_to s (d_type (dbase_of base)) (d_unit (dbase_of base)) = Ok ov ->
  exists spl, fst (evaluate X d s) = map_vals (fun x => Ok (ORe (splev X spl x))) ov.
Proof.
  intros X base ext order d ext' s c ov M H1 H2 D C.
  destruct (ext_eval_outside X base ext order d ext' s c ov M H1 D C) as (spl & E).
  exists spl. rewrite E, H2. reflexivity.
Qed.

Lemma C21_outside_raises_l : forall X base ext order d ext' lo hi ov vs s e,
  built X base -> lo <= hi -> sp_values (valid_range base) = VA [Fin lo; Fin hi] ->
  convert_to ext (sp_type (valid_range base)) (sp_unit (valid_range base)) = Ok ov ->
  elems ov = map Fin vs -> (forall l, ov <> VI l) ->
  mk_extrapolation X base ext order = (Ok d, ext') ->
  contains (valid_range d) s = Raise e ->
  exists e', fst (evaluate X d s) = Raise e'.
Proof.
  intros X base ext order d ext' lo hi ov vs s e B L Er C Ev Hf M H.
  destruct (C21_range_l X base ext order d ext' lo hi ov vs B L Er C Ev Hf M) as (_ & _ & K3 & K4 & K5).
  destruct (evaluate X d s) as [[v|e'] s'] eqn:E; [|cbn; eauto]. exfalso.
  destruct (eval_ext_ok_inside X base ext order d ext' s v s' M E) as [K|K]; [|congruence].
  rewrite (contains_mono (valid_range base) (valid_range d) s lo hi _ _ (eq_sym K4) (eq_sym K5) Er K3 L) in H;
    try discriminate; auto.
  - rewrite <- fold_min. apply fold_le.
  - rewrite <- fold_max. apply fold_ge.
Qed.

Lemma C21_centimetre_refuted_l : forall X base ext order d ext' s lo hi w,
  mk_extrapolation X base ext order = (Ok d, ext') ->
  sp_unit (valid_range base) = "cm"%string -> lo <= hi ->
  sp_values (valid_range base) = VA [Fin lo; Fin hi] ->
  convert_to s (sp_type (valid_range base)) (sp_unit (valid_range base)) = Ok (VS (Fin w)) -> out_of lo hi w ->
  evaluate X d s = (Raise KeyError, s).
Proof.
  intros X base ext order d ext' s lo hi w M U L V C O.
  destruct (contains_fin _ _ _ _ _ V C) as [_ K]. specialize (K L O). rewrite U in K. cbn in K.
  apply (ext_eval_raise_other X base ext order d ext' s KeyError M K). reflexivity.
Qed.

Definition toy_scipy : scipy := mkScipy (fun _ => Ok tt) (fun _ x => x) (fun lo hi _ => Ok [lo; hi]).
Lemma example_ext : exists base ext d ext',
  built toy_scipy base /\ sp_values (valid_range base) = VA [Fin 0.5; Fin 2] /\
  convert_to ext (sp_type (valid_range base)) (sp_unit (valid_range base)) = Ok (VS (Fin 3)) /\
  sp_type ext = "energy"%string /\ sp_type (valid_range base) = "wavelength"%string /\
  mk_extrapolation toy_scipy base ext 2 = (Ok d, ext').
Proof.
  destruct (mk_constant (ORe (Fin 1.5)) (InVals (VA [Fin 0.5; Fin 2])) "wavelength" "um") as [base|] eqn:M; [|discriminate].
  assert (P : plain_data base) by (left; eauto 6).
  assert (B : built toy_scipy base) by (now constructor).
  assert (V : sp_values (valid_range base) = VA [Fin 0.5; Fin 2]) by (injection M as <-; reflexivity).
  (* the energy of a 3 um photon *)
  set (k := planck * speed_of_light / elementary_charge).
  destruct const_pos as (P1 & P2 & P3 & P4 & P5). destruct consts_eq as (E1 & E2 & E3).
  assert (K : 0 < planck * speed_of_light / (elementary_charge * (3 / 10 ^ 6))).
  { rewrite E1, E2, E3. apply Rmult_lt_0_compat; [now apply Rmult_lt_0_compat|].
    apply Rinv_0_lt_compat. apply Rmult_lt_0_compat; [assumption|]. lra. }
  set (x := planck * speed_of_light / (elementary_charge * (3 / 10 ^ 6))) in *.
  assert (W : wavelength_m "energy" "ev" x (3 / 10 ^ 6)).
  { replace (3 / 10 ^ 6) with (planck * speed_of_light / (elementary_charge * x)); [constructor|].
    unfold x. assert (planck <> 0) by (rewrite E2; lra). assert (speed_of_light <> 0) by (rewrite E1; lra).
    assert (elementary_charge <> 0) by (rewrite E3; lra). field. repeat split; auto; lra. }
  pose proof (mk_scalar "energy" "ev" "ev" x _ documented_ev W ltac:(intros; lra)) as Me.
  set (ext := mkSp (lower "energy") "ev" (VS (Fin x)) (VS (Fin (3 / 10 ^ 6)))) in *.
  assert (C : convert_to ext (sp_type (valid_range base)) (sp_unit (valid_range base)) = Ok (VS (Fin 3))).
  { replace (sp_type (valid_range base)) with "wavelength"%string by (injection M as <-; reflexivity).
    replace (sp_unit (valid_range base)) with "um"%string by (injection M as <-; reflexivity).
    rewrite (convert_to_unfold _ "wavelength" "um" "um" documented_um). cbn [sp_std ext].
    transitivity (Ok (VS (Fin (rnd_for "um" 3)))).
    { apply (to_scalar "wavelength" "um" "um" 3 (3 / 10 ^ 6) documented_um); [discriminate|constructor|intros; lra]. }
    do 3 f_equal. symmetry. apply (rounds_for_unique "um" 3 3). exact (rounds_for_int _ 3%Z). }
  destruct (suggest_spectrum toy_scipy base) as [sp|] eqn:S1; [|injection M as <-; discriminate].
  assert (S2 : contains (valid_range base) sp = Ok true).
  { assert (R1 : Rltb 2 0.5 = false) by (apply Rltb_false; lra).
    assert (R2 : Rltb 0.5 2 = true) by (apply Rltb_true; lra).
    assert (Hsp : mk_spectrum (InVals (VA [Fin 0.5; Fin 2])) "wavelength" "um" = Ok sp).
    { injection M as <-. unfold suggest_spectrum in S1. cbn in S1. rewrite R1, R2 in S1. cbn in S1. rewrite <- S1. reflexivity. }
    assert (Cs : convert_to sp (sp_type (valid_range base)) (sp_unit (valid_range base)) = Ok (VA [Fin 0.5; Fin 2])).
    { replace (sp_type (valid_range base)) with "wavelength"%string by (injection M as <-; reflexivity).
      replace (sp_unit (valid_range base)) with "um"%string by (injection M as <-; reflexivity).
      injection Hsp as <-. rewrite (convert_to_unfold _ "wavelength" "um" "um" documented_um). cbn [sp_std].
      assert (Q1 : rounds_for "um" 0.5 0.5).
      { change (rounds_to 9 0.5 0.5). exists 500000000%Z. assert (T9 : (0.5 - 0.5) = 0) by lra. rewrite T9, Rabs_R0.
        assert (0 < / 2 * / 10 ^ 9) by (apply Rmult_lt_0_compat; [lra|apply Rinv_0_lt_compat, pow_lt; lra]).
        split; [lra|]. split; [lra|]. intros; lra. }
      transitivity (Ok (VA (map (fun x => Fin (rnd_for "um" x)) [0.5; 2]))).
      { apply (to_array_plain "wavelength" "um" "um" [0.5; 2] [/ 10 ^ 6 * 0.5; / 10 ^ 6 * 2] documented_um).
        - intros [K0|[K0|[K0|[K0|[]]]]]; discriminate.
        - constructor; [|constructor; [|constructor]].
          + replace (/ 10 ^ 6 * 0.5) with (0.5 / 10 ^ 6) by lra. constructor.
          + replace (/ 10 ^ 6 * 2) with (2 / 10 ^ 6) by lra. constructor. }
      cbn [map]. rewrite <- (rounds_for_unique "um" 0.5 0.5 Q1), <- (rounds_for_unique "um" 2 2 (rounds_for_int "um" 2%Z)).
      reflexivity. }
    unfold contains. rewrite Cs, V. cbn [bind vmin vmax elems np_min np_max fold_left xmin2 xmax2 is_nan].
    cbn. rewrite R1, R2. cbn. assert (R3 : Rltb 0.5 0.5 = false) by (apply Rltb_false; lra).
    assert (R4 : Rltb 2 2 = false) by (apply Rltb_false; lra). unfold xgt. cbn. rewrite R3, R4. reflexivity. }
  assert (S3 : evaluate toy_scipy base sp = (Ok (OA [ORe (Fin 1.5); ORe (Fin 1.5)]), sp)).
  { assert (Vs : sp_values sp = VA [Fin 0.5; Fin 2]).
    { assert (R1 : Rltb 2 0.5 = false) by (apply Rltb_false; lra).
      assert (R2 : Rltb 0.5 2 = true) by (apply Rltb_true; lra).
      injection M as <-. unfold suggest_spectrum in S1. cbn in S1. rewrite R1, R2 in S1. cbn in S1.
      injection S1 as <-. reflexivity. }
    exact (C12_constant_array_l toy_scipy _ _ _ _ base sp [Fin 0.5; Fin 2] M Vs S2). }
  destruct (C21_accepts_l toy_scipy base ext 2 0.5 2 (VS (Fin 3)) [3] sp sp (OA [ORe (Fin 1.5); ORe (Fin 1.5)]) B ltac:(lra) V C eq_refl ltac:(discriminate) ltac:(cbn; lia))
    as [d Hd]; [split; [right; lra|exact I]|exact S1|exact S3|reflexivity|].
  exists base, ext, d. eexists. split; [exact B|]. split; [exact V|]. split; [exact C|]. split; [reflexivity|].
  split; [injection M as <-; reflexivity|exact Hd].
Qed.

Lemma C22_caller_converted_l : forall X base ext order ov,
  built X base ->
  convert_to ext (sp_type (valid_range base)) (sp_unit (valid_range base)) = Ok ov ->
  snd (mk_extrapolation X base ext order)
  = mkSp (sp_type (valid_range base)) (sp_unit (valid_range base)) ov (sp_std ext).
Proof.
  intros X base ext order ov B C. unfold mk_extrapolation; cbv zeta.
  rewrite (ext_in_place X base ext B ov C). reflexivity.
Qed.

Lemma C22_caller_unchanged_refuted_l : forall X base ext order ov,
  built X base ->
  convert_to ext (sp_type (valid_range base)) (sp_unit (valid_range base)) = Ok ov ->
  sp_type ext <> sp_type (valid_range base) \/ sp_unit ext <> sp_unit (valid_range base) ->
  snd (mk_extrapolation X base ext order) <> ext.
Proof.
  intros X base ext order ov B C H E. rewrite (C22_caller_converted_l X base ext order ov B C) in E.
  rewrite <- E in H. cbn in H. tauto.
Qed.

Lemma C22_physical_content_l : forall X base ext order d s,
  sp_std (snd (mk_extrapolation X base ext order)) = sp_std ext /\
  sp_std (snd (evaluate X d s)) = sp_std s.
Proof.
  intros X base ext order d s. split; [|apply eval_std].
  unfold mk_extrapolation; cbv zeta.
  pose proof (in_place_std ext (sp_type (valid_range base)) (sp_unit (valid_range base))) as H.
  destruct (convert_in_place ext _ _) as [[[]|e] s']; exact H.
Qed.

Lemma C22_evaluate_converts_l : forall X base ext order d ext' s c ov,
  mk_extrapolation X base ext order = (Ok d, ext') ->
  contains (valid_range base) s = Raise ValueError ->
  documented (lower (d_type (dbase_of base))) (d_unit (dbase_of base)) c ->
  convert_to s (d_type (dbase_of base)) (d_unit (dbase_of base)) = Ok ov ->
  snd (evaluate X d s) = mkSp (lower (d_type (dbase_of base))) c ov (sp_std s).
Proof.
  intros X base ext order d ext' s c ov M H1 D C.
  destruct (ext_eval_outside X base ext order d ext' s c ov M H1 D C) as (spl & E). now rewrite E.
Qed.

Lemma C22_plain_untouched_l : forall X d s, plain_data d -> snd (evaluate X d s) = s.
Proof.
  intros X d s P. apply eval_plain_pure. intros b base spl E. subst.
  destruct (plain_shape _ P) as (c & _ & _ & _ & []).
Qed.

Lemma C63_own_minimum_refuted_l : forall X l t u canon d r s w,
  mk_interpolation (xrows l) t u = Ok d -> documented (lower t) (lower u) canon ->
  canon <> "1/cm"%string -> canon <> "cm"%string ->
  In r l -> Forall (fun q => fst r <= fst q) l -> 0 < fst r ->
  rounds_for canon (fst r) w -> w < fst r ->
  mk_spectrum (InVals (VS (Fin (fst r)))) t u = Ok s ->
  evaluate X d s = (Raise ValueError, s).
Proof.
  intros X l t u canon d r s w M D Hc Hc2 Ir F Hp Rw Lw Ms.
  destruct (own_unit_value _ _ _ _ _ _ D Hc Hp Ms Rw) as (lam & _ & _ & W & C).
  destruct (interp_range_x _ _ _ _ M) as (mn & mx & Ev & J1 & J2 & L' & c & D' & Et & Eu).
  rewrite (documented_fun _ _ _ _ D' D) in Eu.
  rewrite <- Et, <- Eu in C.
  destruct (C13_outside_raises_l X l t u d s w M C) as (e & E & He).
  - left. eapply Forall_impl; [|exact F]. cbn. intros; lra.
  - rewrite E, He; [reflexivity|congruence].
Qed.

Lemma C63_row_kept_l : forall X l t u canon d r s,
  mk_interpolation (xrows l) t u = Ok d -> documented (lower t) u canon ->
  canon <> "1/cm"%string -> In r l -> 0 < fst r -> rounds_for canon (fst r) (fst r) ->
  mk_spectrum (InVals (VS (Fin (fst r)))) t u = Ok s ->
  evaluate X d s = (Ok (OS (ORe (Fin (snd r)))), s).
Proof.
  intros X l t u canon d r s M D Hc Ir Hp Rw Ms.
  assert (Lu : lower u = u) by now destruct (documented_lower _ _ _ D).
  destruct (interp_range_x _ _ _ _ M) as (mn & mx & Ev & J1 & J2 & L' & c & D' & Et & Eu).
  rewrite Lu in D'. rewrite (documented_fun _ _ _ _ D' D) in Eu.
  apply (C13_at_row_l X l t u canon d s r M D); auto.
  - intros E. rewrite E in D. destruct (documented_cases _ _ _ D) as [H|[H|[H|[H|[H|[H|[H|[H|H]]]]]]]];
      destruct H as [H1 H2]; congruence.
  - eapply (asked_self d t u canon (fst r) s mn mx); auto.
    + now rewrite Lu.
    + apply L'. now apply in_map.
Qed.
