(** Theorems about spectral data (C12-C22, C63-C66). *)
From Verif Require Import PyBase PyStr XReal CNum SpectrumModel SpectrumSpec SpectrumProofs SpectralModel SpectralSpec SpectralProofs FormulaProofs TaucProofs InterpProofs EvalProofs ExtrapProofs.
From Coq Require Import Permutation.
From Verif Require Import SpectralThms.
Open Scope R_scope.
Open Scope list_scope.

(** C12: a constant asked at one value *)
Theorem C12_constant_scalar : forall X c rng t u d s x,
  mk_constant c rng t u = Ok d -> sp_values s = VS x -> contains (valid_range d) s = Ok true ->
  evaluate X d s = (Ok (OS c), s).
Proof. exact C12_constant_scalar_l. Qed.
Print Assumptions C12_constant_scalar.

(** C12: a constant asked at an array *)
Theorem C12_constant_array : forall X c rng t u d s l,
  mk_constant c rng t u = Ok d -> sp_values s = VA l -> contains (valid_range d) s = Ok true ->
  evaluate X d s = (Ok (OA (repeat c (length l))), s).
Proof. exact C12_constant_array_l. Qed.
Print Assumptions C12_constant_array.

(** C12: outside the range a constant raises *)
Theorem C12_constant_outside : forall X c rng t u d s e,
  mk_constant c rng t u = Ok d -> contains (valid_range d) s = Raise e ->
  evaluate X d s = (Raise e, s).
Proof. exact C12_constant_outside_l. Qed.
Print Assumptions C12_constant_outside.

(** C12: with the default range every non-negative request, of any type and unit, is inside *)
Theorem C12_default_range : forall c, exists d, constant_default c = Ok d /\
  forall v t u s, mk_spectrum (InVals v) t u = Ok s -> (forall l, v <> VI l) ->
    elems v <> [] -> Forall xnn (elems v) -> contains (valid_range d) s = Ok true.
Proof. exact C12_default_range_l. Qed.
Print Assumptions C12_default_range.

Example C12_instance X : exists d s,
  constant_default (ORe (Fin 1.5)) = Ok d /\
  mk_spectrum (InVals (VA [Fin 1; Fin 2; Fin 3])) "energy" "eV" = Ok s /\
  evaluate X d s = (Ok (OA [ORe (Fin 1.5); ORe (Fin 1.5); ORe (Fin 1.5)]), s).
Proof.
  destruct (C12_default_range (ORe (Fin 1.5))) as (d & Ed & H). exists d.
  destruct (mk_spectrum (InVals (VA [Fin 1; Fin 2; Fin 3])) "energy" "eV") as [s|] eqn:M; [|discriminate].
  exists s. split; [assumption|]. split; [reflexivity|].
  rewrite (C12_constant_array X _ _ _ _ d s [Fin 1; Fin 2; Fin 3] Ed).
  - reflexivity.
  - destruct (mk_spectrum_ok _ _ _ _ M) as (c & w & _ & Ew & _ & _ & _ & Ev). injection Ew as <-. exact Ev.
  - apply (H _ _ _ _ M); try discriminate. cbn. repeat constructor; cbn; lra.
Qed.

(** C13: tables with at least two rows and pairwise different spectral values are accepted,
    and span exactly their rows *)
Theorem C13_accepts : forall l t u canon,
  (2 <= length l)%nat -> NoDup (map fst l) -> documented (lower t) (lower u) canon ->
  exists d mn mx, mk_interpolation (xrows l) t u = Ok d /\
    sp_values (valid_range d) = VA [Fin mn; Fin mx] /\
    In mn (map fst l) /\ In mx (map fst l) /\ (forall y, In y (map fst l) -> mn <= y <= mx).
Proof. exact C13_accepts_l. Qed.
Print Assumptions C13_accepts.

(** C13: all other tables are rejected *)
Theorem C13_rejects : forall l t u,
  (length l < 2)%nat \/ ~ NoDup (map fst l) ->
  mk_interpolation (xrows l) t u = Raise ValueError.
Proof. exact C13_rejects_l. Qed.
Print Assumptions C13_rejects.

(** C13: inside the range the value is on the line between two neighbouring rows *)
Theorem C13_interpolates : forall X l t u canon d s w,
  mk_interpolation (xrows l) t u = Ok d -> documented (lower t) u canon ->
  lower t <> "wavenumber"%string -> asked d s (lower t) canon w ->
  exists a b, adjacent l a b /\ fst a <= w <= fst b /\
    evaluate X d s = (Ok (OS (ORe (Fin (line a b w)))), s) /\
    Rmin (snd a) (snd b) <= line a b w <= Rmax (snd a) (snd b).
Proof. exact C13_interpolates_l. Qed.
Print Assumptions C13_interpolates.

(** C13: at a row, the row's value *)
Theorem C13_at_row : forall X l t u canon d s r,
  mk_interpolation (xrows l) t u = Ok d -> documented (lower t) u canon ->
  lower t <> "wavenumber"%string -> In r l -> asked d s (lower t) canon (fst r) ->
  evaluate X d s = (Ok (OS (ORe (Fin (snd r)))), s).
Proof. exact C13_at_row_l. Qed.
Print Assumptions C13_at_row.

(** C13: outside [min, max] nothing is returned *)
Theorem C13_outside_raises : forall X l t u d s w,
  mk_interpolation (xrows l) t u = Ok d ->
  convert_to s (sp_type (valid_range d)) (sp_unit (valid_range d)) = Ok (VS (Fin w)) ->
  Forall (fun r => w < fst r) l \/ Forall (fun r => fst r < w) l ->
  exists e, evaluate X d s = (Raise e, s) /\ (sp_unit (valid_range d) <> "cm"%string -> e = ValueError).
Proof. exact C13_outside_raises_l. Qed.
Print Assumptions C13_outside_raises.

(** C13: row order is irrelevant *)
Theorem C13_row_order : forall X l l' t u,
  Permutation l l' -> NoDup (map fst l) ->
  match mk_interpolation (xrows l) t u, mk_interpolation (xrows l') t u with
  | Ok d, Ok d' => (forall s, evaluate X d s = evaluate X d' s) /\ valid_range d = valid_range d'
  | Raise e, Raise e' => e = e'
  | _, _ => False
  end.
Proof. exact C13_row_order_l. Qed.
Print Assumptions C13_row_order.

(** C13: missing values (NaN) are accepted, and cost only the segments that end in them: elsewhere
    the value is still on the line between the neighbouring rows *)
Theorem C13_missing_values : forall X (l : holed) t u canon,
  documented (lower t) u canon -> lower t <> "wavenumber"%string ->
  ((2 <= length l)%nat -> NoDup (map fst l) -> exists d, mk_interpolation (hrows l) t u = Ok d) /\
  (forall d s w, mk_interpolation (hrows l) t u = Ok d -> asked d s (lower t) canon w ->
    exists a b, In a l /\ In b l /\ fst a < fst b /\ (forall c, In c l -> fst c <= fst a \/ fst b <= fst c) /\
      (fst a <= w < fst b \/ w = fst b /\ forall c, In c l -> fst c <= fst b) /\
      evaluate X d s = (Ok (OS (ORe (match snd a, snd b with
                                     | Some y, Some z => Fin (line (fst a, y) (fst b, z) w)
                                     | _, _ => NaN
                                     end))), s)).
Proof. exact C13_missing_values_l. Qed.
Print Assumptions C13_missing_values.

Example C13_missing_instance X : exists d s,
  mk_interpolation (hrows [(1, Some 10); (2, Some 20); (3, None); (4, Some 40)]) "energy" "ev" = Ok d /\
  mk_spectrum (InVals (VS (Fin 2))) "energy" "ev" = Ok s /\ evaluate X d s = (Ok (OS (ORe NaN)), s).
Proof.
  assert (Ne : "energy"%string <> "wavenumber"%string) by discriminate.
  destruct (C13_missing_values X [(1, Some 10); (2, Some 20); (3, None); (4, Some 40)] "energy" "ev" "ev" documented_ev Ne) as [H1 H2].
  destruct H1 as (d & M). { cbn; lia. } { cbn. repeat (constructor; [cbn; intros K; repeat (destruct K as [K|K]; [lra|]); destruct K|]). constructor. }
  assert (M' : mk_interpolation (grows [(1, Fin 10); (2, Fin 20); (3, NaN); (4, Fin 40)]) "energy" "ev" = Ok d) by exact M.
  destruct (interp_range_g _ _ _ _ M') as (mn & mx & V & _ & _ & L & c & D & Et & Eu).
  destruct (mk_spectrum (InVals (VS (Fin 2))) "energy" "ev") as [s|] eqn:Es; [|discriminate]. exists d, s.
  split; [exact M|]. split; [reflexivity|].
  assert (A : asked d s "energy" "ev" 2).
  { eapply (asked_self d "energy" "ev" "ev" 2 s mn mx documented_ev); auto.
    - discriminate.
    - lra.
    - split; [apply Rle_trans with 1; [apply (L 1)|lra]|apply Rle_trans with 4; [lra|apply (L 4)]]; cbn; auto.
    - exact (rounds_for_int _ 2%Z).
    - rewrite Eu. apply (documented_fun _ _ _ _ D documented_ev). }
  destruct (H2 d s 2 M A) as (a & b & Ia & Ib & Lt & Bt & Hw & Ev). rewrite Ev. do 3 f_equal.
  assert (b = (3, None)); [|subst b; destruct (snd a); reflexivity].
  cbn in Ia, Ib. destruct Ib as [<-|[<-|[<-|[<-|[]]]]]; [| |reflexivity|]; exfalso; cbn in *.
  - destruct Hw as [Hw|[Hw _]]; lra.
  - destruct Hw as [Hw|[Hw Hc]]; [lra|]. specialize (Hc (4, Some 40)). cbn in Hc. lapply Hc; [lra|auto].
  - pose proof (Bt (3, None) ltac:(cbn; auto)) as B. cbn in B. destruct B as [B|B]; [|lra]. destruct Ia as [<-|[<-|[<-|[<-|[]]]]]; cbn in *; try lra; destruct Hw as [Hw|[Hw _]]; lra.
Qed.

Example C13_instance X : exists d s,
  mk_interpolation (xrows [(3, 30); (1, 10); (2, 40)]) "energy" "ev" = Ok d /\
  asked d s "energy" "ev" 2 /\ evaluate X d s = (Ok (OS (ORe (Fin 40))), s).
Proof.
  destruct (C13_accepts [(3, 30); (1, 10); (2, 40)] "energy" "ev" "ev") as (d & mn & mx & M & V & I1 & I2 & L).
  - cbn; lia.
  - cbn. repeat constructor; cbn; intros H; repeat (destruct H as [H|H]; [lra|]); exact H.
  - exact documented_ev.
  - destruct (interp_range_x _ _ _ _ M) as (mn' & mx' & V' & _ & _ & _ & c & D & Et & Eu).
    destruct (mk_spectrum (InVals (VS (Fin 2))) "energy" "ev") as [s|] eqn:Ms; [|discriminate].
    exists d, s. split; [assumption|].
    assert (A : asked d s "energy" "ev" 2).
    { eapply (asked_self d "energy" "ev" "ev" 2 s mn mx documented_ev); auto.
      - discriminate.
      - lra.
      - split; [apply Rle_trans with 1; [apply (L 1)|lra]|apply Rle_trans with 3; [lra|apply (L 3)]]; cbn; auto.
      - exact (rounds_for_int _ 2%Z).
      - rewrite Eu. apply (documented_fun _ _ _ _ D documented_ev). }
    split; [assumption|].
    refine (C13_at_row X _ _ _ "ev" d s (2, 40) M documented_ev _ _ A); [discriminate|cbn; auto].
Qed.

(** C14: Sellmeier, any number of terms *)
Theorem C14_sellmeier : forall X c0 ts rng t u d s w,
  mk_model Sellmeier (map Fin (c0 :: flat ts)) rng t u = Ok d -> lower u = u ->
  asked d s "wavelength" "um" w ->
  (forall b, In b ts -> w ^ 2 <> snd b ^ 2) -> 0 <= sellmeier_sum c0 ts w + 1 ->
  evaluate X d s = (Ok (OS (ORe (Fin (sqrt (sellmeier_sum c0 ts w + 1))))), s).
Proof. exact C14_sellmeier_l. Qed.
Print Assumptions C14_sellmeier.

(** C14: Sellmeier with squared coefficients *)
Theorem C14_sellmeier2 : forall X c0 ts rng t u d s w,
  mk_model Sellmeier2 (map Fin (c0 :: flat ts)) rng t u = Ok d -> lower u = u ->
  asked d s "wavelength" "um" w ->
  (forall b, In b ts -> w ^ 2 <> snd b) -> 0 <= sellmeier2_sum c0 ts w + 1 ->
  evaluate X d s = (Ok (OS (ORe (Fin (sqrt (sellmeier2_sum c0 ts w + 1))))), s).
Proof. exact C14_sellmeier2_l. Qed.
Print Assumptions C14_sellmeier2.

(** C14: Polynomial *)
Theorem C14_polynomial : forall X c0 ts rng t u d s w,
  mk_model Polynomial (map Fin (c0 :: flat ts)) rng t u = Ok d -> lower u = u ->
  asked d s "wavelength" "um" w -> 0 < w -> 0 <= power_sum c0 ts w ->
  evaluate X d s = (Ok (OS (ORe (Fin (sqrt (power_sum c0 ts w))))), s).
Proof. exact C14_polynomial_l. Qed.
Print Assumptions C14_polynomial.

(** C14: Cauchy *)
Theorem C14_cauchy : forall X c0 ts rng t u d s w,
  mk_model Cauchy (map Fin (c0 :: flat ts)) rng t u = Ok d -> lower u = u ->
  asked d s "wavelength" "um" w -> 0 < w ->
  evaluate X d s = (Ok (OS (ORe (Fin (power_sum c0 ts w)))), s).
Proof. exact C14_cauchy_l. Qed.
Print Assumptions C14_cauchy.

(** C14: Gases *)
Theorem C14_gases : forall X c0 ts rng t u d s w,
  mk_model Gases (map Fin (c0 :: flat ts)) rng t u = Ok d -> lower u = u ->
  asked d s "wavelength" "um" w -> 0 < w -> (forall b, In b ts -> snd b <> / w ^ 2) ->
  evaluate X d s = (Ok (OS (ORe (Fin (gases_sum c0 ts w + 1)))), s).
Proof. exact C14_gases_l. Qed.
Print Assumptions C14_gases.

(** C14: RefractiveIndexInfo: up to two resonance terms, power terms only after two of them *)
Theorem C14_refractiveindexinfo : forall X c0 fs ts rng t u d s w,
  mk_model RefractiveIndexInfo (map Fin (c0 :: concat (map rterm_list fs) ++ flat ts)) rng t u = Ok d ->
  lower u = u -> asked d s "wavelength" "um" w ->
  (length fs = 2%nat \/ ((length fs < 2)%nat /\ ts = [])) -> 0 < w ->
  (forall b, In b fs -> power (rt_b b) (rt_q b) (rt_v b) /\ w ^ 2 <> rt_v b) ->
  0 <= rii_sum c0 fs ts w ->
  evaluate X d s = (Ok (OS (ORe (Fin (sqrt (rii_sum c0 fs ts w))))), s).
Proof. exact C14_refractiveindexinfo_l. Qed.
Print Assumptions C14_refractiveindexinfo.

(** C14: a coefficient list with half a term raises IndexError instead of a wrong value *)
Theorem C14_dangling : forall X k p rng t u d s w,
  In k [Sellmeier; Sellmeier2; Polynomial; Cauchy; Gases] -> Nat.even (length p) = true ->
  mk_model k p rng t u = Ok d -> lower u = u -> asked d s "wavelength" "um" w ->
  evaluate X d s = (Raise IndexError, s).
Proof. exact C14_dangling_l. Qed.
Print Assumptions C14_dangling.

(** C14: same for RefractiveIndexInfo *)
Theorem C14_dangling_rii : forall X p rng t u d s w,
  length p <> 1%nat -> length p <> 5%nat -> ((length p < 9)%nat \/ Nat.even (length p) = true) ->
  mk_model RefractiveIndexInfo p rng t u = Ok d -> lower u = u -> asked d s "wavelength" "um" w ->
  evaluate X d s = (Raise IndexError, s).
Proof. exact C14_dangling_rii_l. Qed.
Print Assumptions C14_dangling_rii.

Example C14_instance X : exists d s,
  mk_model Sellmeier (map Fin [0; 1; 0.5; 2; 0.25]) (InVals (VA [Fin 0.5; Fin 2])) "wavelength" "um" = Ok d /\
  evaluate X d s = (Ok (OS (ORe (Fin (sqrt (sellmeier_sum 0 [(1, 0.5); (2, 0.25)] 1 + 1))))), s).
Proof.
  destruct (example_um Sellmeier (map Fin [0; 1; 0.5; 2; 0.25]) eq_refl) as (d & s & M & A).
  exists d, s. split; [exact M|].
  apply (C14_sellmeier X 0 [(1, 0.5); (2, 0.25)] _ _ _ d s 1 M eq_refl A).
  - cbn. intros b [<-|[<-|[]]]; cbn; lra.
  - unfold sellmeier_sum, total; cbn. apply Rplus_le_le_0_compat; [|lra].
    repeat apply Rplus_le_le_0_compat; try lra; apply Rmult_le_pos; try lra; left; apply Rinv_0_lt_compat; lra.
Qed.
Example C14_instance_rii X : exists d s,
  mk_model RefractiveIndexInfo (map Fin [1; 2; 0; 0.5; 2; 3; 0; 0.25; 2; 1; -2]) (InVals (VA [Fin 0.5; Fin 2])) "wavelength" "um" = Ok d /\
  evaluate X d s = (Ok (OS (ORe (Fin (sqrt (rii_sum 1 [mkRT 2 0 0.5 2 (0.5 ^ 2); mkRT 3 0 0.25 2 (0.25 ^ 2)] [(1, -2)] 1))))), s).
Proof.
  destruct (example_um RefractiveIndexInfo (map Fin [1; 2; 0; 0.5; 2; 3; 0; 0.25; 2; 1; -2]) eq_refl) as (d & s & M & A).
  exists d, s. split; [exact M|].
  assert (Rp : forall y, Rpower 1 y = 1).
  { intros y. unfold Rpower. rewrite ln_1, Rmult_0_r. apply exp_0. }
  apply (C14_refractiveindexinfo X 1 [mkRT 2 0 0.5 2 (0.5 ^ 2); mkRT 3 0 0.25 2 (0.25 ^ 2)] [(1, -2)] _ _ _ d s 1 M eq_refl A).
  - left; reflexivity.
  - lra.
  - cbn [In]. intros b [<-|[<-|[]]]; cbn [rt_b rt_q rt_v]; (split; [|lra]).
    + change (0.5 ^ 2) with (powerRZ 0.5 2). apply (power_int 0.5 2). lra.
    + change (0.25 ^ 2) with (powerRZ 0.25 2). apply (power_int 0.25 2). lra.
  - unfold rii_sum, total; cbn [map fold_right rt_a rt_p rt_v fst snd]. rewrite !Rp.
    repeat apply Rplus_le_le_0_compat; try lra; apply Rmult_le_pos; try lra; left; apply Rinv_0_lt_compat; lra.
Qed.
Example C14_instance_dangling X : exists d s,
  mk_model Cauchy (map Fin [1; 2]) (InVals (VA [Fin 0.5; Fin 2])) "wavelength" "um" = Ok d /\
  evaluate X d s = (Raise IndexError, s).
Proof.
  destruct (example_um Cauchy (map Fin [1; 2]) eq_refl) as (d & s & M & A).
  exists d, s. split; [exact M|].
  eapply (C14_dangling X Cauchy); try eassumption; try reflexivity. cbn; auto 8.
Qed.

(** C15: Herzberger; extra coefficients are ignored *)
Theorem C15_herzberger : forall X c0 c1 c2 c3 c4 c5 extra rng t u d s w,
  mk_model Herzberger (map Fin [c0; c1; c2; c3; c4; c5] ++ extra) rng t u = Ok d -> lower u = u ->
  asked d s "wavelength" "um" w -> w ^ 2 <> 0.028 ->
  evaluate X d s = (Ok (OS (ORe (Fin (herzberger c0 c1 c2 c3 c4 c5 w)))), s).
Proof. exact C15_herzberger_l. Qed.
Print Assumptions C15_herzberger.

(** C15: Exotic computes the formula with an extra factor w^2 in the second term *)
Theorem C15_exotic : forall X c0 c1 c2 c3 c4 c5 extra rng t u d s w,
  mk_model Exotic (map Fin [c0; c1; c2; c3; c4; c5] ++ extra) rng t u = Ok d -> lower u = u ->
  asked d s "wavelength" "um" w -> w ^ 2 <> c2 -> (w - c4) ^ 2 + c5 <> 0 ->
  0 <= exotic_sq_coded c0 c1 c2 c3 c4 c5 w ->
  evaluate X d s = (Ok (OS (ORe (Fin (sqrt (exotic_sq_coded c0 c1 c2 c3 c4 c5 w))))), s).
Proof. exact C15_exotic_l. Qed.
Print Assumptions C15_exotic.

(** C15: so the published Exotic formula is returned only at w = 1 um or without that term *)
Theorem C15_exotic_published_refuted : forall X c0 c1 c2 c3 c4 c5 extra rng t u d s w,
  mk_model Exotic (map Fin [c0; c1; c2; c3; c4; c5] ++ extra) rng t u = Ok d -> lower u = u ->
  asked d s "wavelength" "um" w -> w ^ 2 <> c2 -> (w - c4) ^ 2 + c5 <> 0 ->
  0 <= exotic_sq_coded c0 c1 c2 c3 c4 c5 w -> 0 <= exotic_sq c0 c1 c2 c3 c4 c5 w ->
  c1 <> 0 -> w ^ 2 <> 1 ->
  evaluate X d s <> (Ok (OS (ORe (Fin (sqrt (exotic_sq c0 c1 c2 c3 c4 c5 w))))), s).
Proof. exact C15_exotic_published_refuted_l. Qed.
Print Assumptions C15_exotic_published_refuted.

(** C15: too few coefficients *)
Theorem C15_too_few : forall X k p rng t u d s w,
  (k = Herzberger \/ k = Exotic) -> (length p < 6)%nat ->
  mk_model k p rng t u = Ok d -> lower u = u -> asked d s "wavelength" "um" w ->
  evaluate X d s = (Raise IndexError, s).
Proof. exact C15_too_few_l. Qed.
Print Assumptions C15_too_few.

Example C15_instance X : exists d s,
  mk_model Herzberger (map Fin [1; 2; 3; 4; 5; 6] ++ [NaN]) (InVals (VA [Fin 0.5; Fin 2])) "wavelength" "um" = Ok d /\
  evaluate X d s = (Ok (OS (ORe (Fin (herzberger 1 2 3 4 5 6 1)))), s).
Proof.
  destruct (example_um Herzberger (map Fin [1; 2; 3; 4; 5; 6] ++ [NaN]) eq_refl) as (d & s & M & A).
  exists d, s. split; [exact M|]. apply (C15_herzberger X _ _ _ _ _ _ [NaN] _ _ _ d s 1 M eq_refl A). lra.
Qed.
Example C15_instance_exotic X : exists d s,
  mk_model Exotic (map Fin [2; 1; 0.5; 1; 0; 1] ++ []) (InVals (VA [Fin 0.5; Fin 2])) "wavelength" "um" = Ok d /\
  evaluate X d s = (Ok (OS (ORe (Fin (sqrt (exotic_sq_coded 2 1 0.5 1 0 1 1))))), s).
Proof.
  destruct (example_um Exotic (map Fin [2; 1; 0.5; 1; 0; 1] ++ []) eq_refl) as (d & s & M & A).
  exists d, s. split; [exact M|]. apply (C15_exotic X _ _ _ _ _ _ [] _ _ _ d s 1 M eq_refl A); try lra.
  unfold exotic_sq_coded.
  repeat apply Rplus_le_le_0_compat; try lra; apply Rmult_le_pos; try lra; left; apply Rinv_0_lt_compat; lra.
Qed.
Example C15_instance_published X : exists d s,
  mk_model Exotic (map Fin [2; 1; 0.5; 1; 0; 1] ++ []) (InVals (VA [Fin 0.5; Fin 4])) "wavelength" "um" = Ok d /\
  asked d s "wavelength" "um" 2 /\
  evaluate X d s <> (Ok (OS (ORe (Fin (sqrt (exotic_sq 2 1 0.5 1 0 1 2))))), s).
Proof.
  destruct (mk_model Exotic (map Fin [2; 1; 0.5; 1; 0; 1] ++ []) (InVals (VA [Fin 0.5; Fin 4])) "wavelength" "um") as [d|] eqn:M; [|discriminate].
  destruct (mk_spectrum (InVals (VS (Fin 2))) "wavelength" "um") as [s|] eqn:Ms; [|discriminate].
  assert (A : asked d s "wavelength" "um" 2).
  { injection M as <-. eapply (asked_self _ "wavelength" "um" "um" 2 s 0.5 4 documented_um);
      [discriminate|lra|lra|exact Ms|exact (rounds_for_int _ 2%Z)|reflexivity|reflexivity|reflexivity]. }
  exists d, s. split; [reflexivity|]. split; [exact A|].
  apply (C15_exotic_published_refuted X _ _ _ _ _ _ [] _ _ _ d s 2 M eq_refl A); try lra;
    unfold exotic_sq, exotic_sq_coded;
    repeat apply Rplus_le_le_0_compat; try lra; apply Rmult_le_pos; try lra; left; apply Rinv_0_lt_compat; lra.
Qed.

(** C16: what Retro returns: the positive root of (1-r) n^2 - 2 r n - 1 = 0 *)
Theorem C16_retro_root : forall X c0 c1 c2 c3 extra rng t u d s w,
  mk_model Retro (map Fin [c0; c1; c2; c3] ++ extra) rng t u = Ok d -> lower u = u ->
  asked d s "wavelength" "um" w -> w ^ 2 <> c2 ->
  let r := retro_rhs c0 c1 c2 c3 w in r < 1 ->
  exists n, evaluate X d s = (Ok (OS (ORe (Fin n))), s) /\ 0 < n /\ (1 - r) * n ^ 2 - 2 * r * n - 1 = 0 /\
    (r = 0 -> (n ^ 2 - 1) / (n ^ 2 + 2) = r).
Proof. exact C16_retro_root_l. Qed.
Print Assumptions C16_retro_root.

(** C16: the published definition (n^2-1)/(n^2+2) = r fails for every r < 1 except r = 0 *)
Theorem C16_retro_refuted : forall X c0 c1 c2 c3 extra rng t u d s w,
  mk_model Retro (map Fin [c0; c1; c2; c3] ++ extra) rng t u = Ok d -> lower u = u ->
  asked d s "wavelength" "um" w -> w ^ 2 <> c2 ->
  let r := retro_rhs c0 c1 c2 c3 w in r < 1 -> r <> 0 ->
  exists n, evaluate X d s = (Ok (OS (ORe (Fin n))), s) /\ (n ^ 2 - 1) / (n ^ 2 + 2) <> r.
Proof. exact C16_retro_refuted_l. Qed.
Print Assumptions C16_retro_refuted.

(** C16: too few coefficients *)
Theorem C16_too_few : forall X p rng t u d s w, (length p < 4)%nat ->
  mk_model Retro p rng t u = Ok d -> lower u = u -> asked d s "wavelength" "um" w ->
  evaluate X d s = (Raise IndexError, s).
Proof. exact C16_too_few_l. Qed.
Print Assumptions C16_too_few.

Example C16_instance X : exists d s n,
  mk_model Retro (map Fin [0.5; 0; 0; 0] ++ []) (InVals (VA [Fin 0.5; Fin 2])) "wavelength" "um" = Ok d /\
  evaluate X d s = (Ok (OS (ORe (Fin n))), s) /\ (n ^ 2 - 1) / (n ^ 2 + 2) <> 0.5.
Proof.
  destruct (example_um Retro (map Fin [0.5; 0; 0; 0] ++ []) eq_refl) as (d & s & M & A).
  assert (E : retro_rhs 0.5 0 0 0 1 = 0.5) by (unfold retro_rhs; field; lra).
  destruct (C16_retro_refuted X _ _ _ _ [] _ _ _ d s 1 M eq_refl A) as (n & H1 & H2); try (rewrite E); try lra.
  rewrite E in H2. exists d, s, n. auto.
Qed.

(** C17: Drude *)
Theorem C17_drude : forall X wp g extra rng t u d s e,
  mk_model Drude (map Fin [wp; g] ++ extra) rng t u = Ok d -> lower u = u ->
  asked d s "energy" "ev" e -> e <> 0 ->
  evaluate X d s = (Ok (OS (OCx (CF (drude wp g e)))), s).
Proof. exact C17_drude_l. Qed.
Print Assumptions C17_drude.

(** C17: Drude-Lorentz *)
Theorem C17_drude_lorentz : forall X wp f w0 g extra rng t u d s e,
  mk_model DrudeLorentz (map Fin [wp; f; w0; g] ++ extra) rng t u = Ok d -> lower u = u ->
  asked d s "energy" "ev" e -> (w0 ^ 2 <> e ^ 2 \/ g * e <> 0) ->
  evaluate X d s = (Ok (OS (OCx (CF (drude_lorentz wp f w0 g e)))), s).
Proof. exact C17_drude_lorentz_l. Qed.
Print Assumptions C17_drude_lorentz.

(** C17: passivity, the same sign convention for both *)
Theorem C17_passive : forall wp f w0 g e, 0 <= g -> 0 <= f -> 0 < e ->
  0 <= snd (drude wp g e) /\ 0 <= snd (drude_lorentz wp f w0 g e).
Proof. exact C17_passive_l. Qed.
Print Assumptions C17_passive.

(** C17: evaluated values are passive: combined statement about the API *)
Theorem C17_passive_values : forall X k p rng t u d s e v,
  (exists wp g extra, k = Drude /\ p = map Fin [wp; g] ++ extra /\ 0 <= g) \/
  (exists wp f w0 g extra, k = DrudeLorentz /\ p = map Fin [wp; f; w0; g] ++ extra /\ 0 < g /\ 0 <= f) ->
  mk_model k p rng t u = Ok d -> lower u = u -> asked d s "energy" "ev" e -> 0 < e ->
  evaluate X d s = (Ok v, s) -> exists z, v = OS (OCx (CF z)) /\ 0 <= snd z.
Proof. exact C17_passive_values_l. Qed.
Print Assumptions C17_passive_values.

(** C17: Drude-Lorentz with w0 = 0 and f = 1 is Drude, as data objects *)
Theorem C17_lorentz_is_drude : forall X wp g rng t u t' u' rng' d d' s e,
  mk_model Drude (map Fin [wp; g]) rng t u = Ok d -> lower u = u ->
  mk_model DrudeLorentz (map Fin [wp; 1; 0; g]) rng' t' u' = Ok d' -> lower u' = u' ->
  asked d s "energy" "ev" e -> asked d' s "energy" "ev" e -> e <> 0 ->
  evaluate X d' s = evaluate X d s.
Proof. exact C17_lorentz_is_drude_l. Qed.
Print Assumptions C17_lorentz_is_drude.

(** C17: too few coefficients *)
Theorem C17_too_few : forall X k p rng t u d s e,
  (k = Drude /\ (length p < 2)%nat) \/ (k = DrudeLorentz /\ (length p < 4)%nat) ->
  mk_model k p rng t u = Ok d -> lower u = u -> asked d s "energy" "ev" e ->
  evaluate X d s = (Raise IndexError, s).
Proof. exact C17_too_few_l. Qed.
Print Assumptions C17_too_few.

Example C17_instance X : exists d s,
  mk_model Drude (map Fin [9; 0.07] ++ []) (InVals (VA [Fin 0.5; Fin 4])) "energy" "ev" = Ok d /\
  evaluate X d s = (Ok (OS (OCx (CF (drude 9 0.07 1)))), s) /\ 0 <= snd (drude 9 0.07 1).
Proof.
  destruct (example_ev Drude (map Fin [9; 0.07] ++ []) eq_refl) as (d & s & M & A).
  exists d, s. split; [exact M|]. split.
  - apply (C17_drude X 9 0.07 [] _ _ _ d s 1 M eq_refl A). lra.
  - apply (C17_passive 9 1 0 0.07 1); lra.
Qed.
Example C17_instance_lorentz X : exists d s,
  mk_model DrudeLorentz (map Fin [9; 1; 2; 0.07] ++ []) (InVals (VA [Fin 0.5; Fin 4])) "energy" "ev" = Ok d /\
  evaluate X d s = (Ok (OS (OCx (CF (drude_lorentz 9 1 2 0.07 1)))), s).
Proof.
  destruct (example_ev DrudeLorentz (map Fin [9; 1; 2; 0.07] ++ []) eq_refl) as (d & s & M & A).
  exists d, s. split; [exact M|].
  apply (C17_drude_lorentz X 9 1 2 0.07 [] _ _ _ d s 1 M eq_refl A). left. lra.
Qed.
Example C17_instance_same X : exists d d' s,
  mk_model Drude (map Fin [9; 0.07]) (InVals (VA [Fin 0.5; Fin 4])) "energy" "ev" = Ok d /\
  mk_model DrudeLorentz (map Fin [9; 1; 0; 0.07]) (InVals (VA [Fin 0.5; Fin 4])) "energy" "ev" = Ok d' /\
  evaluate X d' s = evaluate X d s.
Proof.
  destruct (example_ev Drude (map Fin [9; 0.07]) eq_refl) as (d & s & M & A).
  destruct (mk_model DrudeLorentz (map Fin [9; 1; 0; 0.07]) (InVals (VA [Fin 0.5; Fin 4])) "energy" "ev") as [d'|] eqn:M'; [|discriminate].
  exists d, d', s. split; [exact M|]. split; [reflexivity|].
  assert (A' : asked d' s "energy" "ev" 1).
  { destruct A as [A1 A2]. constructor; [exact A1|].
    injection M as <-. injection M' as <-. exact A2. }
  refine (C17_lorentz_is_drude X 9 0.07 _ _ _ _ _ _ d d' s 1 M eq_refl M' eq_refl A A' _). lra.
Qed.

(** C18: on an array, the published Tauc-Lorentz expressions *)
Theorem C18_tauc_lorentz : forall X A E0 C Eg einf extra rng t u d s es,
  mk_model TaucLorentz (map Fin [A; E0; C; Eg; einf] ++ extra) rng t u = Ok d -> lower u = u ->
  asked_all d s "energy" "ev" es -> Forall (tl_dom E0 C Eg) es ->
  evaluate X d s =
    (Ok (OA (map (fun E => OCx (CF (tl_eps1 A E0 C Eg einf E, tl_eps2 A E0 C Eg E))) es)), s).
Proof. exact C18_tauc_lorentz_l. Qed.
Print Assumptions C18_tauc_lorentz.

(** C18: absorption is zero below the gap and never negative *)
Theorem C18_absorption : forall X A E0 C Eg einf extra rng t u d s es v,
  mk_model TaucLorentz (map Fin [A; E0; C; Eg; einf] ++ extra) rng t u = Ok d -> lower u = u ->
  asked_all d s "energy" "ev" es -> Forall (tl_dom E0 C Eg) es -> 0 <= A ->
  evaluate X d s = (Ok v, s) ->
  exists outs, v = OA outs /\
    Forall2 (fun E o => exists z, o = OCx (CF z) /\ 0 <= snd z /\ (E < Eg -> snd z = 0)) es outs.
Proof. exact C18_absorption_l. Qed.
Print Assumptions C18_absorption.

(** C18: the common denominator of the real part *)
Theorem C18_denominator : forall E0 C E, C ^ 2 <= 4 * E0 ^ 2 ->
  (E ^ 2 - (E0 ^ 2 - C ^ 2 / 2)) ^ 2 + sqrt (4 * E0 ^ 2 - C ^ 2) ^ 2 * C ^ 2 / 4
  = (E ^ 2 - E0 ^ 2) ^ 2 + C ^ 2 * E ^ 2.
Proof. exact C18_denominator_l. Qed.
Print Assumptions C18_denominator.

(** C18: one value instead of an array raises TypeError *)
Theorem C18_scalar_typeerror : forall X p rng t u d s x y,
  mk_model TaucLorentz p rng t u = Ok d -> (5 <= length p)%nat -> sp_values s = VS x ->
  contains (valid_range d) s = Ok true -> convert_to s t u = Ok y ->
  evaluate X d s = (Raise TypeError, s).
Proof. exact C18_scalar_typeerror_l. Qed.
Print Assumptions C18_scalar_typeerror.

Example C18_instance X : exists d s,
  mk_model TaucLorentz (map Fin [100; 3; 2; 1.5; 1] ++ []) (InVals (VA [Fin 0.5; Fin 4])) "energy" "ev" = Ok d /\
  evaluate X d s = (Ok (OA [OCx (CF (tl_eps1 100 3 2 1.5 1 1, tl_eps2 100 3 2 1.5 1));
                            OCx (CF (tl_eps1 100 3 2 1.5 1 2, tl_eps2 100 3 2 1.5 2))]), s).
Proof.
  destruct (example_tl (map Fin [100; 3; 2; 1.5; 1] ++ [])) as (d & s & M & _ & A).
  exists d, s. split; [exact M|].
  apply (C18_tauc_lorentz X 100 3 2 1.5 1 [] _ _ _ d s [1; 2] M eq_refl A).
  repeat constructor; lra.
Qed.

(** C65: strongly damped oscillators, C^2 > 2 E0^2: NaN although the published formula is
    defined up to C < 2 E0 *)
Theorem C65_overdamped_nan : forall X A E0 C Eg einf extra rng t u d s es,
  mk_model TaucLorentz (map Fin [A; E0; C; Eg; einf] ++ extra) rng t u = Ok d -> lower u = u ->
  asked_all d s "energy" "ev" es -> 2 * E0 ^ 2 < C ^ 2 ->
  evaluate X d s = (Ok (OA (map (fun _ => OCx CNan) es)), s).
Proof. exact C65_overdamped_nan_l. Qed.
Print Assumptions C65_overdamped_nan.

Example C65_instance X : exists d s,
  mk_model TaucLorentz (map Fin [100; 2; 3; 1.5; 1] ++ []) (InVals (VA [Fin 0.5; Fin 4])) "energy" "ev" = Ok d /\
  evaluate X d s = (Ok (OA [OCx CNan; OCx CNan]), s).
Proof.
  destruct (example_tl (map Fin [100; 2; 3; 1.5; 1] ++ [])) as (d & s & M & _ & A).
  exists d, s. split; [exact M|].
  apply (C65_overdamped_nan X 100 2 3 1.5 1 [] _ _ _ d s [1; 2] M eq_refl A). lra.
Qed.

(** C66: Fano: any documented unit; the normalised line shape between 0 and 1 *)
Theorem C66_fano : forall X q er g extra rng t u canon d s e,
  mk_model Fano (map Fin [q; er; g] ++ extra) rng t u = Ok d -> lower u = u ->
  documented (lower t) u canon -> lower t <> "wavenumber"%string ->
  asked d s (lower t) canon e -> g <> 0 ->
  evaluate X d s = (Ok (OS (ORe (Fin (fano q er g e)))), s) /\ 0 <= fano q er g e <= 1.
Proof. exact C66_fano_l. Qed.
Print Assumptions C66_fano.

Example C66_instance X : exists d s,
  mk_model Fano (map Fin [2; 1; 0.5] ++ []) (InVals (VA [Fin 0.5; Fin 4])) "energy" "ev" = Ok d /\
  evaluate X d s = (Ok (OS (ORe (Fin (fano 2 1 0.5 1)))), s).
Proof.
  destruct (mk_model Fano (map Fin [2; 1; 0.5] ++ []) (InVals (VA [Fin 0.5; Fin 4])) "energy" "ev") as [d|] eqn:M; [|discriminate].
  destruct (mk_spectrum (InVals (VS (Fin 1))) "energy" "ev") as [s|] eqn:Ms; [|discriminate].
  exists d, s. split; [reflexivity|].
  refine (proj1 (C66_fano X _ _ _ [] _ _ _ "ev" d s 1 M eq_refl documented_ev _ _ _)); [discriminate| |lra].
  injection M as <-. eapply (asked_self _ "energy" "ev" "ev" 1 s 0.5 4 documented_ev);
      [discriminate|lra|lra|exact Ms|exact (rounds_for_int _ 1%Z)|reflexivity|reflexivity|reflexivity].
Qed.

(** C19: an index model that was built is in micrometres, a permittivity model in eV *)
Theorem C19_built_unit : forall k p rng t u d,
  mk_model k p rng t u = Ok d ->
  (In k [Sellmeier; Sellmeier2; Polynomial; RefractiveIndexInfo; Cauchy; Gases; Herzberger; Retro; Exotic] ->
     lower t = "wavelength"%string /\ In (lower u) ["micrometer"; "micrometre"; "um"]%string) /\
  (In k [Drude; DrudeLorentz; TaucLorentz] ->
     lower t = "energy"%string /\ In (lower u) ["electronvolt"; "ev"]%string).
Proof. exact C19_built_unit_l. Qed.
Print Assumptions C19_built_unit.

(** C19: the required unit is accepted in every spelling and letter case *)
Theorem C19_accepts : forall k p v t u rt ru,
  (In k [Sellmeier; Sellmeier2; Polynomial; RefractiveIndexInfo; Cauchy; Gases; Herzberger; Retro; Exotic] /\
     rt = "wavelength" /\ ru = "um")%string \/
  (In k [Drude; DrudeLorentz; TaucLorentz] /\ rt = "energy" /\ ru = "ev")%string ->
  lower t = rt -> documented rt (lower u) ru -> (forall l, v <> VI l) ->
  exists d, mk_model k p (InVals v) t u = Ok d.
Proof. exact C19_accepts_l. Qed.
Print Assumptions C19_accepts.

(** C19: everything else raises ValueError *)
Theorem C19_rejects : forall k p v t u rt ru,
  (In k [Sellmeier; Sellmeier2; Polynomial; RefractiveIndexInfo; Cauchy; Gases; Herzberger; Retro; Exotic] /\
     rt = "wavelength" /\ ru = "um")%string \/
  (In k [Drude; DrudeLorentz; TaucLorentz] /\ rt = "energy" /\ ru = "ev")%string ->
  ~ (lower t = rt /\ documented rt (lower u) ru) -> (forall l, v <> VI l) ->
  mk_model k p (InVals v) t u = Raise ValueError.
Proof. exact C19_rejects_l. Qed.
Print Assumptions C19_rejects.

Example C19_instance : exists d,
  mk_model Drude (map Fin [9; 0.07]) (InVals (VA [Fin 0.5; Fin 4])) "Energy" "ElectronVolt" = Ok d.
Proof.
  eapply (C19_accepts Drude _ _ "Energy" "ElectronVolt" "energy" "ev").
  - right. cbn; auto.
  - reflexivity.
  - exists ["electronvolt"; "ev"]%string. split; cbn; auto 10.
  - discriminate.
Qed.
Example C19_instance_reject : mk_model Drude (map Fin [9; 0.07]) (InVals (VA [Fin 0.5; Fin 4])) "wavelength" "um" = Raise ValueError.
Proof.
  apply (C19_rejects Drude _ _ "wavelength" "um" "energy" "ev").
  - right. cbn; auto.
  - intros [H _]. discriminate.
  - discriminate.
Qed.

(** C64: a unit spelled with capital letters is accepted by the constructors of tables and
    models, but such data can never be evaluated: ValueError even inside the range *)
Theorem C64_capital_unit_refuted : forall X d s t u,
  ((exists rows, mk_interpolation rows t u = Ok d) \/ (exists k p rng, mk_model k p rng t u = Ok d)) ->
  lower u <> u -> contains (valid_range d) s = Ok true ->
  evaluate X d s = (Raise ValueError, s).
Proof. exact C64_capital_unit_refuted_l. Qed.
Print Assumptions C64_capital_unit_refuted.

Example C64_instance X : exists d s,
  mk_model Cauchy (map Fin [1.5]) (InVals (VA [Fin 0.5; Fin 2])) "wavelength" "UM" = Ok d /\
  contains (valid_range d) s = Ok true /\ evaluate X d s = (Raise ValueError, s).
Proof.
  destruct (example_um Cauchy (map Fin [1.5]) eq_refl) as (d0 & s & M0 & A).
  destruct (mk_model Cauchy (map Fin [1.5]) (InVals (VA [Fin 0.5; Fin 2])) "wavelength" "UM") as [d|] eqn:M; [|discriminate].
  assert (C : contains (valid_range d) s = Ok true).
  { destruct A as [_ A]. injection M0 as <-. injection M as <-. exact A. }
  exists d, s. split; [reflexivity|]. split; [exact C|].
  apply (C64_capital_unit_refuted X d s "wavelength" "UM"); [right; eauto|discriminate|exact C].
Qed.

(** C20: outside the range every constant, table and model raises the range error *)
Theorem C20_range_checked : forall X d s e,
  plain_data d -> contains (valid_range d) s = Raise e -> evaluate X d s = (Raise e, s).
Proof. exact C20_range_checked_l. Qed.
Print Assumptions C20_range_checked.

(** C20: the i-th output for an array is the output for the i-th element alone *)
Theorem C20_pointwise : forall X d xs t u s,
  plain_data d -> mk_spectrum (InVals (VA xs)) t u = Ok s ->
  Forall (array_input_ok (lower t)) xs ->
  Forall (resolvable (lower (d_type (dbase_of d)))) (elems (sp_std s)) ->
  (forall ov, convert_to s (sp_type (valid_range d)) (sp_unit (valid_range d)) = Ok ov ->
     Forall (fun x => x <> NaN) (elems ov)) ->
  Forall (fun x => x <> NaN) (elems (sp_values (valid_range d))) ->
  elems (sp_values (valid_range d)) <> [] ->
  forall o s1, evaluate X d s = (Ok o, s1) ->
  s1 = s /\ exists outs, o = OA outs /\ length outs = length xs /\
    forall i x si, nth_error xs i = Some x -> mk_spectrum (InVals (VS x)) t u = Ok si ->
      exists y, nth_error outs i = Some y /\ evaluate X d si = (Ok (OS y), si).
Proof. exact C20_pointwise_l. Qed.
Print Assumptions C20_pointwise.

(** C20: conversely, if every element alone can be evaluated, so can the array *)
Theorem C20_pointwise_conv : forall X d xs t u s,
  plain_data d -> mk_spectrum (InVals (VA xs)) t u = Ok s ->
  Forall (array_input_ok (lower t)) xs ->
  Forall (resolvable (lower (d_type (dbase_of d)))) (elems (sp_std s)) ->
  (forall ov, convert_to s (sp_type (valid_range d)) (sp_unit (valid_range d)) = Ok ov ->
     Forall (fun x => x <> NaN) (elems ov)) ->
  Forall (fun x => x <> NaN) (elems (sp_values (valid_range d))) ->
  elems (sp_values (valid_range d)) <> [] -> xs <> [] ->
  (forall x si, In x xs -> mk_spectrum (InVals (VS x)) t u = Ok si ->
     exists y s1, evaluate X d si = (Ok y, s1)) ->
  exists outs, evaluate X d s = (Ok (OA outs), s).
Proof. exact C20_pointwise_conv_l. Qed.
Print Assumptions C20_pointwise_conv.

Example C20_instance X : exists d s o,
  plain_data d /\ mk_spectrum (InVals (VA [Fin 1; Fin 2])) "wavelength" "um" = Ok s /\
  evaluate X d s = (Ok (OA o), s) /\
  (forall i x si, nth_error [Fin 1; Fin 2] i = Some x -> mk_spectrum (InVals (VS x)) "wavelength" "um" = Ok si ->
      exists y, nth_error o i = Some y /\ evaluate X d si = (Ok (OS y), si)).
Proof.
  destruct (mk_constant (ORe (Fin 1.5)) (InVals (VA [Fin 0; PInf])) "wavelength" "m") as [d|] eqn:M; [|discriminate].
  destruct (mk_spectrum (InVals (VA [Fin 1; Fin 2])) "wavelength" "um") as [s|] eqn:Ms; [|discriminate].
  assert (P : plain_data d) by (left; eauto 6).
  destruct (C12_default_range (ORe (Fin 1.5))) as (d' & M' & H).
  assert (d' = d) by (unfold constant_default, range_0_inf in M'; congruence). subst d'.
  assert (C : contains (valid_range d) s = Ok true).
  { apply (H _ _ _ _ Ms); try discriminate. cbn. repeat constructor; cbn; lra. }
  assert (V : sp_values s = VA [Fin 1; Fin 2]).
  { destruct (mk_spectrum_ok _ _ _ _ Ms) as (c & w & _ & Ew & _ & _ & _ & Ev). injection Ew as <-. exact Ev. }
  assert (E : evaluate X d s = (Ok (OA [ORe (Fin 1.5); ORe (Fin 1.5)]), s))
    by exact (C12_constant_array X _ _ _ _ d s [Fin 1; Fin 2] M V C).
  exists d, s, [ORe (Fin 1.5); ORe (Fin 1.5)]. split; [exact P|]. split; [reflexivity|]. split; [exact E|].
  assert (NR : reciprocal_type "wavelength" -> False) by (cbn; intros H0; repeat (destruct H0 as [H0|H0]; [discriminate|]); exact H0).
  assert (Hi : Forall (array_input_ok (lower "wavelength")) [Fin 1; Fin 2]).
  { repeat (apply Forall_cons || apply Forall_nil); intros H0; destruct (NR H0). }
  assert (Hr : Forall (resolvable (lower (d_type (dbase_of d)))) (elems (sp_std s))).
  { injection M as <-. injection Ms as <-. cbn [elems sp_std]. repeat (apply Forall_cons || apply Forall_nil); intros H0; destruct (NR H0). }
  assert (Hn : forall ov, convert_to s (sp_type (valid_range d)) (sp_unit (valid_range d)) = Ok ov ->
     Forall (fun x => x <> NaN) (elems ov)).
  { injection M as <-. injection Ms as <-. intros ov Hov. cbn in Hov. injection Hov as <-. cbn. repeat constructor; discriminate. }
  assert (Hd : Forall (fun x => x <> NaN) (elems (sp_values (valid_range d))) /\ elems (sp_values (valid_range d)) <> []).
  { injection M as <-. cbn. split; [repeat constructor; discriminate|discriminate]. }
  destruct (C20_pointwise X d [Fin 1; Fin 2] "wavelength" "um" s P Ms Hi Hr Hn (proj1 Hd) (proj2 Hd) _ _ E) as (_ & outs & Eo & _ & K).
  injection Eo as <-. exact K.
Qed.

(** C21: inside the base range the base data answers *)
Theorem C21_base_inside : forall X base ext order d ext' s v s',
  mk_extrapolation X base ext order = (Ok d, ext') ->
  contains (valid_range base) s = Ok true -> evaluate X base s = (Ok v, s') ->
  evaluate X d s = (Ok v, s').
Proof. exact C21_base_inside_l. Qed.
Print Assumptions C21_base_inside.

(** C21: the new range is the base range extended to the requested values [vs] (in the unit of
    the base data); accepted requests are at most two values outside the base range *)
Theorem C21_range : forall X base ext order d ext' lo hi ov vs,
  built X base -> lo <= hi -> sp_values (valid_range base) = VA [Fin lo; Fin hi] ->
  convert_to ext (sp_type (valid_range base)) (sp_unit (valid_range base)) = Ok ov ->
  elems ov = map Fin vs -> (forall l, ov <> VI l) ->
  mk_extrapolation X base ext order = (Ok d, ext') ->
  (length vs <= 2)%nat /\ Forall (out_of lo hi) vs /\
  sp_values (valid_range d) = VA [Fin (fold_right Rmin lo vs); Fin (fold_right Rmax hi vs)] /\
  sp_type (valid_range d) = sp_type (valid_range base) /\ sp_unit (valid_range d) = sp_unit (valid_range base).
Proof. exact C21_range_l. Qed.
Print Assumptions C21_range.

(** C21: a request with a value inside the base range, or with more than two values *)
Theorem C21_rejects : forall X base ext order lo hi ov vs,
  built X base -> lo <= hi -> sp_values (valid_range base) = VA [Fin lo; Fin hi] ->
  convert_to ext (sp_type (valid_range base)) (sp_unit (valid_range base)) = Ok ov ->
  elems ov = map Fin vs -> (forall l, ov <> VI l) ->
  (2 < length vs)%nat \/ Exists (fun v => lo <= v <= hi) vs ->
  fst (mk_extrapolation X base ext order) = Raise ValueError.
Proof. exact C21_rejects_l. Qed.
Print Assumptions C21_rejects.

(** C21: but two values on the same side are order dependent: the nearer value listed second
    is refused although both lie outside the base range *)
Theorem C21_same_side_refuted : forall X base ext order lo hi ov v1 v2,
  built X base -> lo <= hi -> sp_values (valid_range base) = VA [Fin lo; Fin hi] ->
  convert_to ext (sp_type (valid_range base)) (sp_unit (valid_range base)) = Ok ov ->
  ov = VA [Fin v1; Fin v2] -> v1 <= v2 < lo \/ hi < v2 <= v1 ->
  fst (mk_extrapolation X base ext order) = Raise ValueError.
Proof. exact C21_same_side_refuted_l. Qed.
Print Assumptions C21_same_side_refuted.

(** C21: acceptance: values outside (in an order that extends the range at each step), base data
    that can be evaluated on its suggested spectrum, and a spline fit that succeeds *)
Theorem C21_accepts : forall X base ext order lo hi ov vs sp sp' y,
  built X base -> lo <= hi -> sp_values (valid_range base) = VA [Fin lo; Fin hi] ->
  convert_to ext (sp_type (valid_range base)) (sp_unit (valid_range base)) = Ok ov ->
  elems ov = map Fin vs -> (forall l, ov <> VI l) ->
  (length vs <= 2)%nat -> extends lo hi vs ->
  suggest_spectrum X base = Ok sp -> evaluate X base sp = (Ok y, sp') ->
  (forall k, splrep_check X k = Ok tt) ->
  exists d, mk_extrapolation X base ext order
    = (Ok d, mkSp (sp_type (valid_range base)) (sp_unit (valid_range base)) ov (sp_std ext)).
Proof. exact C21_accepts_l. Qed.
Print Assumptions C21_accepts.

(** C21: between base range and extended range the spline is evaluated at the converted values *)
Theorem C21_extended_values : forall X base ext order d ext' s c ov,
  mk_extrapolation X base ext order = (Ok d, ext') ->
  contains (valid_range base) s = Raise ValueError -> contains (valid_range d) s = Ok true ->
  documented (lower (d_type (dbase_of base))) (d_unit (dbase_of base)) c ->
  convert_to s (d_type (dbase_of base)) (d_unit (dbase_of base)) = Ok ov ->
  exists spl, fst (evaluate X d s) = map_vals (fun x => Ok (ORe (splev X spl x))) ov.
Proof. exact C21_extended_values_l. Qed.
Print Assumptions C21_extended_values.

(** C21: outside the extended range evaluation raises *)
Theorem C21_outside_raises : forall X base ext order d ext' lo hi ov vs s e,
  built X base -> lo <= hi -> sp_values (valid_range base) = VA [Fin lo; Fin hi] ->
  convert_to ext (sp_type (valid_range base)) (sp_unit (valid_range base)) = Ok ov ->
  elems ov = map Fin vs -> (forall l, ov <> VI l) ->
  mk_extrapolation X base ext order = (Ok d, ext') ->
  contains (valid_range d) s = Raise e ->
  exists e', fst (evaluate X d s) = Raise e'.
Proof. exact C21_outside_raises_l. Qed.
Print Assumptions C21_outside_raises.

(** C21: extrapolated data in centimetres cannot be evaluated in the extension: KeyError *)
Theorem C21_centimetre_refuted : forall X base ext order d ext' s lo hi w,
  mk_extrapolation X base ext order = (Ok d, ext') ->
  sp_unit (valid_range base) = "cm"%string -> lo <= hi ->
  sp_values (valid_range base) = VA [Fin lo; Fin hi] ->
  convert_to s (sp_type (valid_range base)) (sp_unit (valid_range base)) = Ok (VS (Fin w)) -> out_of lo hi w ->
  evaluate X d s = (Raise KeyError, s).
Proof. exact C21_centimetre_refuted_l. Qed.
Print Assumptions C21_centimetre_refuted.

Example C21_instance : exists X base ext d ext',
  built X base /\ mk_extrapolation X base ext 2 = (Ok d, ext') /\
  sp_values (valid_range base) = VA [Fin 0.5; Fin 2] /\ sp_values (valid_range d) = VA [Fin 0.5; Fin 3].
Proof.
  destruct example_ext as (base & ext & d & ext' & B & V & C & _ & _ & M).
  exists toy_scipy, base, ext, d, ext'. split; [exact B|]. split; [exact M|]. split; [exact V|].
  destruct (C21_range toy_scipy base ext 2 d ext' 0.5 2 _ [3] B ltac:(lra) V C eq_refl ltac:(discriminate) M) as (_ & _ & K & _).
  rewrite K. cbn. rewrite Rmin_right, Rmax_left by lra. reflexivity.
Qed.

(** C22: the spectrum passed to the extension comes back converted to the unit of the data,
    whether or not the extension succeeds *)
Theorem C22_caller_converted : forall X base ext order ov,
  built X base ->
  convert_to ext (sp_type (valid_range base)) (sp_unit (valid_range base)) = Ok ov ->
  snd (mk_extrapolation X base ext order)
  = mkSp (sp_type (valid_range base)) (sp_unit (valid_range base)) ov (sp_std ext).
Proof. exact C22_caller_converted_l. Qed.
Print Assumptions C22_caller_converted.

(** C22: so the caller's spectrum is modified whenever it had another type or unit *)
Theorem C22_caller_unchanged_refuted : forall X base ext order ov,
  built X base ->
  convert_to ext (sp_type (valid_range base)) (sp_unit (valid_range base)) = Ok ov ->
  sp_type ext <> sp_type (valid_range base) \/ sp_unit ext <> sp_unit (valid_range base) ->
  snd (mk_extrapolation X base ext order) <> ext.
Proof. exact C22_caller_unchanged_refuted_l. Qed.
Print Assumptions C22_caller_unchanged_refuted.

(** C22: its physical content (standard representation) never changes, in any call *)
Theorem C22_physical_content : forall X base ext order d s,
  sp_std (snd (mk_extrapolation X base ext order)) = sp_std ext /\
  sp_std (snd (evaluate X d s)) = sp_std s.
Proof. exact C22_physical_content_l. Qed.
Print Assumptions C22_physical_content.

(** C22: evaluating in the extension converts the evaluated spectrum in place *)
Theorem C22_evaluate_converts : forall X base ext order d ext' s c ov,
  mk_extrapolation X base ext order = (Ok d, ext') ->
  contains (valid_range base) s = Raise ValueError ->
  documented (lower (d_type (dbase_of base))) (d_unit (dbase_of base)) c ->
  convert_to s (d_type (dbase_of base)) (d_unit (dbase_of base)) = Ok ov ->
  snd (evaluate X d s) = mkSp (lower (d_type (dbase_of base))) c ov (sp_std s).
Proof. exact C22_evaluate_converts_l. Qed.
Print Assumptions C22_evaluate_converts.

(** C22: constants, tables and models never touch the spectrum *)
Theorem C22_plain_untouched : forall X d s, plain_data d -> snd (evaluate X d s) = s.
Proof. exact C22_plain_untouched_l. Qed.
Print Assumptions C22_plain_untouched.

Example C22_instance : exists X base ext d ext',
  built X base /\ mk_extrapolation X base ext 2 = (Ok d, ext') /\ ext' <> ext /\
  sp_type ext = "energy"%string /\ sp_type ext' = "wavelength"%string.
Proof.
  destruct example_ext as (base & ext & d & ext' & B & V & C & T & Tb & M).
  exists toy_scipy, base, ext, d, ext'. split; [exact B|]. split; [exact M|].
  pose proof (C22_caller_converted toy_scipy base ext 2 _ B C) as K. rewrite M in K. cbn [snd] in K.
  assert (Te : sp_type ext' = "wavelength"%string) by (rewrite K; exact Tb).
  split; [intros E; rewrite E in Te; congruence|]. auto.
Qed.

(** C63: a table whose smallest spectral value has more decimals than the unit keeps, and rounds
    down, refuses its own smallest value *)
Theorem C63_own_minimum_refuted : forall X l t u canon d r s w,
  mk_interpolation (xrows l) t u = Ok d -> documented (lower t) (lower u) canon ->
  canon <> "1/cm"%string -> canon <> "cm"%string ->
  In r l -> Forall (fun q => fst r <= fst q) l -> 0 < fst r ->
  rounds_for canon (fst r) w -> w < fst r ->
  mk_spectrum (InVals (VS (Fin (fst r)))) t u = Ok s ->
  evaluate X d s = (Raise ValueError, s).
Proof. exact C63_own_minimum_refuted_l. Qed.
Print Assumptions C63_own_minimum_refuted.

(** C63: with no more decimals than the unit keeps, every row can be asked for *)
Theorem C63_row_kept : forall X l t u canon d r s,
  mk_interpolation (xrows l) t u = Ok d -> documented (lower t) u canon ->
  canon <> "1/cm"%string -> In r l -> 0 < fst r -> rounds_for canon (fst r) (fst r) ->
  mk_spectrum (InVals (VS (Fin (fst r)))) t u = Ok s ->
  evaluate X d s = (Ok (OS (ORe (Fin (snd r)))), s).
Proof. exact C63_row_kept_l. Qed.
Print Assumptions C63_row_kept.

Example C63_instance X : exists d s,
  mk_interpolation (xrows [(0.1234567894, 1.5); (1, 2)]) "energy" "ev" = Ok d /\
  mk_spectrum (InVals (VS (Fin 0.1234567894))) "energy" "ev" = Ok s /\
  evaluate X d s = (Raise ValueError, s).
Proof.
  assert (Rw : rounds_for "ev" 0.1234567894 (IZR 123456789 / 10 ^ 9)).
  { change (rounds_to 9 0.1234567894 (IZR 123456789 / 10 ^ 9)). exists 123456789%Z. split; [reflexivity|].
    assert (E : IZR 123456789 / 10 ^ 9 - 0.1234567894 = - (4 / 10 ^ 10)) by lra.
    rewrite E, Rabs_Ropp, Rabs_pos_eq by lra. split; [lra|]. intros H. lra. }
  destruct (C13_accepts [(0.1234567894, 1.5); (1, 2)] "energy" "ev" "ev") as (d & mn & mx & M & _).
  - cbn; lia.
  - cbn. repeat constructor; cbn; intros H; repeat (destruct H as [H|H]; [lra|]); exact H.
  - exact documented_ev.
  - destruct (mk_spectrum (InVals (VS (Fin 0.1234567894))) "energy" "ev") as [s|] eqn:Ms; [|discriminate].
    exists d, s. split; [exact M|]. split; [reflexivity|].
    apply (C63_own_minimum_refuted X _ _ _ "ev" d (0.1234567894, 1.5) s (IZR 123456789 / 10 ^ 9) M documented_ev); try discriminate; cbn [fst]; auto; try lra.
    + now left.
    + repeat constructor; cbn; lra.
Qed.
