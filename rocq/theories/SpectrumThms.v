(** Theorems about spectra (C01-C11). *)
From Verif Require Import PyBase PyStr XReal SpectrumModel SpectrumSpec SpectrumProofs.
Open Scope R_scope.
Open Scope list_scope.


Lemma C01_constructor_stores_l : forall v t u s,
  mk_spectrum v t u = Ok s ->
  exists canon w, documented (lower t) (lower u) canon /\ v = InVals w /\
    sp_type s = lower t /\ sp_unit s = canon /\ sp_values s = w.
Proof.
  intros v t u s H. apply mk_spectrum_ok in H. destruct H as (c & w & D & E & _ & E2).
  exists c, w. auto.
Qed.

Lemma C01_constructor_accepts_l : forall v t u canon,
  documented (lower t) (lower u) canon -> (forall l, v <> VI l) ->
  exists s, mk_spectrum (InVals v) t u = Ok s.
Proof.
  intros v t u canon D Hv. rewrite (mk_spectrum_unfold _ _ _ _ D).
  destruct (std_form _ _ _ D) as (g & G1 & G2 & _).
  destruct v as [x|l|l]; [rewrite G1|rewrite G2|exfalso; eapply Hv; reflexivity]; cbn [bind]; eauto.
Qed.

Lemma C01_constructor_rejects_l : forall v t u,
  v = InOther \/ (forall canon, ~ documented (lower t) (lower u) canon) ->
  mk_spectrum v t u = Raise ValueError.
Proof.
  intros v t u [->|H]; [|now apply mk_spectrum_undocumented].
  destruct (documented_dec (lower t) (lower u)) as [[c D]|D].
  - rewrite (mk_spectrum_unfold _ _ _ _ D). reflexivity.
  - now apply mk_spectrum_undocumented.
Qed.

Lemma C02_standard_rep_scalar_l : forall t u canon x lam,
  documented (lower t) (lower u) canon -> wavelength_m (lower t) canon x lam ->
  (reciprocal_type (lower t) -> x <> 0) ->
  exists s, mk_spectrum (InVals (VS (Fin x))) t u = Ok s /\ sp_std s = VS (Fin lam).
Proof.
  intros t u canon x lam D W H. eexists. split; [apply (mk_scalar _ _ _ _ _ D W H)|reflexivity].
Qed.

Lemma C02_standard_rep_array_l : forall t u canon xs lams,
  documented (lower t) (lower u) canon -> Forall2 (wavelength_m (lower t) canon) xs lams ->
  (reciprocal_type (lower t) -> Forall (fun x => / 10 ^ 8 < Rabs x) xs) ->
  exists s, mk_spectrum (InVals (VA (map Fin xs))) t u = Ok s /\ sp_std s = VA (map Fin lams).
Proof.
  intros t u canon xs lams D W H. rewrite (mk_spectrum_unfold _ _ _ _ D).
  rewrite (std_array _ _ _ _ _ D W H). cbn [bind]. eexists. split; reflexivity.
Qed.

Lemma C02_zero_and_infinity_l : forall t u canon,
  documented (lower t) (lower u) canon -> reciprocal_type (lower t) ->
  (exists s, mk_spectrum (InVals (VS (Fin 0))) t u = Ok s /\ sp_std s = VS PInf) /\
  (exists s, mk_spectrum (InVals (VS PInf)) t u = Ok s /\ sp_std s = VS (Fin 0)) /\
  (exists s, mk_spectrum (InVals (VA [Fin 0; PInf])) t u = Ok s /\ sp_std s = VA [PInf; Fin 0]).
Proof.
  intros t u canon D Hr. rewrite !(mk_spectrum_unfold _ _ _ _ D).
  destruct const_pos as (P1 & P2 & P3 & P4 & P5).
  assert (E0 : safe_inverse_elem (Fin 0) = PInf).
  { rewrite inv_agree; [apply scalar_inv_0|]. cbn. auto. }
  assert (E1 : safe_inverse_elem PInf = Fin 0) by reflexivity.
  assert (Q : 0 < / 10 ^ 2) by (apply Rinv_0_lt_compat, pow_lt; lra).
  assert (Q2 : 0 < 2 * PI * const_c) by (apply Rmult_lt_0_compat; lra).
  assert (Q3 : 0 < 2 * PI) by lra.
  destruct (documented_cases _ _ _ D) as [H|[H|[H|[H|[H|[H|[H|[H|H]]]]]]]]; destruct H as [Ht Hc];
    rewrite Ht, Hc in *;
    try (exfalso; unfold reciprocal_type in Hr; cbn [In] in Hr; intuition discriminate);
    (split; [|split]; conv_unfold; rewrite ?scalar_inv_0, ?scalar_inv_inf;
     cbn [map]; rewrite ?E0, ?E1; cbn [vmap map];
     rewrite ?xmul_pinf by assumption; rewrite ?xmul_pinf by assumption;
     rewrite ?xmul_fin, ?Rmult_0_r; rewrite ?xmul_fin, ?Rmult_0_r; eexists; split; reflexivity).
Qed.

Lemma C03_round_trip_l : forall t u u' canon x s,
  mk_spectrum (InVals (VS (Fin x))) t u = Ok s -> 0 < x ->
  documented (lower t) (lower u) canon -> documented (lower t) u' canon ->
  lower t <> "wavenumber"%string ->
  exists y, convert_to s t u' = Ok (VS (Fin y)) /\ rounds_for canon x y.
Proof.
  intros t u u' canon x s H Hx D D' Hn. rewrite (convert_to_unfold _ _ _ _ D').
  destruct (mk_spectrum_ok _ _ _ _ H) as (c & w & D2 & Ew & Es & _).
  pose proof (documented_fun _ _ _ _ D D2); subst c. injection Ew as <-.
  assert (W : exists lam, wavelength_m (lower t) canon x lam).
  { destruct (documented_cases _ _ _ D) as [E|[E|[E|[E|[E|[E|[E|[E|E]]]]]]]]; destruct E as [-> ->];
      eexists; constructor. }
  destruct W as [lam W]. assert (reciprocal_type (lower t) -> x <> 0) by (intros; lra).
  rewrite (std_scalar _ _ _ _ _ D W) in Es by assumption. injection Es as <-.
  exists (rnd_for canon x). split; [apply (to_scalar _ _ _ _ _ D); auto|apply rnd_for_spec].
Qed.

Lemma C03_round_trip_exact_l : forall canon d n x y,
  doc_decimals canon = Some d -> rounds_for canon x y -> x = IZR n / 10 ^ d -> y = x.
Proof.
  intros canon d n x y Hd R Hx. unfold rounds_for in R. rewrite Hd in R.
  destruct R as (m & Hy & Hle & _). assert (P : 0 < 10 ^ d) by (apply pow_lt; lra).
  subst x y. f_equal. f_equal.
  replace (IZR m / 10 ^ d - IZR n / 10 ^ d) with (IZR (m - n) * / 10 ^ d) in Hle
    by (rewrite minus_IZR; field; lra).
  rewrite Rabs_mult, (Rabs_pos_eq (/ 10 ^ d)) in Hle by (left; now apply Rinv_0_lt_compat).
  apply Rmult_le_reg_r in Hle; [|now apply Rinv_0_lt_compat].
  rewrite <- abs_IZR in Hle. assert (Hlt : IZR (Z.abs (m - n)) < 1) by lra.
  apply lt_IZR in Hlt. lia.
Qed.

Lemma C03_wavenumber_refuted_l : forall x, 0 < x ->
  exists s, mk_spectrum (InVals (VS (Fin x))) "wavenumber" "1/cm" = Ok s /\
    convert_to s "wavenumber" "1/cm" = Ok (VS (Fin (10 ^ 4 * x))) /\ 10 ^ 4 * x <> x.
Proof.
  intros x Hx. assert (D : documented (lower "wavenumber") (lower "1/cm") "1/cm").
  { exists ["1/cm"]%string. split; cbn; auto 20. }
  assert (W := wl_icm x).
  eexists. split; [apply (mk_scalar _ _ _ _ _ D W); intros; lra|]. split; [|lra].
  rewrite (convert_to_unfold _ _ _ _ D). apply to_scalar_wavenumber; [lra|exact W].
Qed.

Definition in_place_run (s : spectrum) (reqs : requests) : spectrum :=
  fold_left (fun s r => snd (convert_in_place s (fst r) (snd r))) reqs s.

Lemma C04_in_place_keeps_standard_l : forall s reqs, sp_std (in_place_run s reqs) = sp_std s.
Proof. intros s reqs. apply run_std. Qed.

Lemma C04_in_place_last_wins_l : forall s pre t u post v canon,
  convert_to s t u = Ok v -> documented (lower t) u canon ->
  (forall t' u', In (t', u') post -> is_ok (convert_to s t' u') = false) ->
  let s' := in_place_run s (pre ++ (t, u) :: post) in
  sp_values s' = v /\ sp_type s' = lower t /\ sp_unit s' = canon.
Proof.
  intros s pre t u post v canon H D Hp. unfold in_place_run.
  pose proof (run_last s pre t u post v canon H D Hp) as E. unfold run_in_place in E.
  cbv zeta. rewrite E. auto.
Qed.

Lemma C04_in_place_all_failed_l : forall s reqs,
  (forall t u, In (t, u) reqs -> is_ok (convert_to s t u) = false) -> in_place_run s reqs = s.
Proof. intros s reqs H. now apply run_none. Qed.

Lemma C04_in_place_same_exception_l : forall s t u,
  fst (convert_in_place s t u) = match convert_to s t u with Ok _ => Ok tt | Raise e => Raise e end.
Proof. intros s t u. rewrite in_place_spec. destruct (convert_to s t u); reflexivity. Qed.

Lemma C05_safe_inverse_agrees_l : forall l,
  Forall (fun x => match x with Fin r => / 10 ^ 8 < Rabs r \/ r = 0 | _ => True end) l ->
  exists l', safe_inverse (VA l) = Ok (VA l') /\
    Forall2 (fun x y => safe_inverse (VS x) = Ok (VS y)) l l'.
Proof.
  intros l F. cbn [safe_inverse]. eexists. split; [reflexivity|].
  induction F as [|x l Hx F IH]; cbn [map]; constructor; [|assumption].
  rewrite inv_agree; [reflexivity|exact Hx].
Qed.

Lemma C05_convert_agrees_l : forall s t u canon l,
  documented (lower t) u canon -> sp_std s = VA l -> Forall (resolvable (lower t)) l ->
  exists l', convert_to s t u = Ok (VA l') /\
    Forall2 (fun x y => forall s1, sp_std s1 = VS x -> convert_to s1 t u = Ok (VS y)) l l'.
Proof.
  intros s t u canon l D Hs F. rewrite (convert_to_unfold _ _ _ _ D), Hs.
  destruct (to_form _ _ _ D) as (g & G1 & G2 & G3). rewrite G2. eexists. split; [reflexivity|].
  clear Hs. induction F as [|x l Hx F IH]; cbn [map]; constructor; [|assumption].
  intros s1 Hs1. rewrite (convert_to_unfold _ _ _ _ D), Hs1, G1. do 2 f_equal. apply G3.
  intros Ht. specialize (Hx Ht). symmetry. apply inv_agree. unfold to_pre.
  destruct (String.eqb (lower t) "wavenumber"); [|exact Hx].
  destruct x as [r| | |]; cbn [array_safe xmul]; auto.
  - destruct Hx as [Hx| ->]; [left|right; lra].
    rewrite Rabs_mult, (Rabs_pos_eq (/ 10 ^ 2)) by (left; apply Rinv_0_lt_compat, pow_lt; lra).
    apply (Rmult_lt_compat_l (/ 10 ^ 2)) in Hx; [|apply Rinv_0_lt_compat, pow_lt; lra]. lra.
  - unfold xinf_sign. repeat (destruct (Rlt_dec _ _)); exact I.
  - unfold xinf_sign. repeat (destruct (Rlt_dec _ _)); exact I.
Qed.

Lemma C05_small_wavelength_refuted_l : forall lam sa ss,
  0 < lam <= / 10 ^ 8 ->
  mk_spectrum (InVals (VA [Fin lam])) "wavelength" "m" = Ok sa ->
  mk_spectrum (InVals (VS (Fin lam))) "wavelength" "m" = Ok ss ->
  convert_to sa "frequency" "hz" = Ok (VA [PInf]) /\
  convert_to sa "energy" "ev" = Ok (VA [PInf]) /\
  convert_to ss "frequency" "hz" = Ok (VS (Fin (speed_of_light / lam))).
Proof.
  intros lam sa ss Hl Ha Hs. injection Ha as <-. injection Hs as <-.
  destruct const_pos as (P1 & P2 & P3 & P4 & P5).
  assert (E : safe_inverse_elem (Fin lam) = PInf).
  { unfold safe_inverse_elem, isclose_zero. rewrite Rabs_pos_eq by lra.
    now rewrite (proj2 (Rleb_true _ _)). }
  assert (D1 : documented (lower "frequency") "hz" "hz") by (exists ["hertz"; "hz"]%string; split; cbn; auto 20).
  assert (D2 : documented (lower "energy") "ev" "ev") by (exists ["electronvolt"; "ev"]%string; split; cbn; auto 20).
  rewrite !(convert_to_unfold _ _ _ _ D1), (convert_to_unfold _ _ _ _ D2).
  change (lower "frequency") with "frequency"%string. change (lower "energy") with "energy"%string.
  cbn [sp_std].
  split; [|split]; conv_unfold; cbn [map vmap]; rewrite ?E, ?xmul_pinf by assumption; try reflexivity.
  rewrite scalar_inv_pos by lra. reflexivity.
Qed.

Lemma C05_wavenumber_refuted_l : forall lam sa,
  0 < lam <= / 10 ^ 6 ->
  mk_spectrum (InVals (VA [Fin lam])) "wavelength" "m" = Ok sa ->
  convert_to sa "wavenumber" "1/cm" = Ok (VA [PInf]).
Proof.
  intros lam sa Hl Ha. injection Ha as <-. pose proof PI_RGT_0 as P4.
  assert (D1 : documented (lower "wavenumber") "1/cm" "1/cm") by (exists ["1/cm"]%string; split; cbn; auto 20).
  rewrite !(convert_to_unfold _ _ _ _ D1). change (lower "wavenumber") with "wavenumber"%string.
  cbn [sp_std]. conv_unfold. cbn [map vmap]. rewrite xmul_fin.
  assert (E : safe_inverse_elem (Fin (/ 10 ^ 2 * lam)) = PInf).
  { unfold safe_inverse_elem, isclose_zero. rewrite Rabs_pos_eq.
    - rewrite (proj2 (Rleb_true _ _)); [reflexivity|]. 
      apply Rle_trans with (/ 10 ^ 2 * / 10 ^ 6); [|lra].
      apply Rmult_le_compat_l; [left; apply Rinv_0_lt_compat, pow_lt; lra|lra].
    - apply Rmult_le_pos; [left; apply Rinv_0_lt_compat, pow_lt; lra|lra]. }
  rewrite E, xmul_pinf by lra. reflexivity.
Qed.

Lemma C06_contains_iff_l : forall range other ov,
  convert_to other (sp_type range) (sp_unit range) = Ok ov ->
  elems ov <> [] -> elems (sp_values range) <> [] ->
  Forall (fun x => x <> NaN) (elems ov) -> Forall (fun x => x <> NaN) (elems (sp_values range)) ->
  (contains range other = Ok true <-> Forall (within_hull (elems (sp_values range))) (elems ov)) /\
  (forall b, contains range other = Ok b -> b = true).
Proof.
  intros range other ov H H1 H2 N1 N2.
  assert (Q : forall l, Forall (fun x => x <> NaN) l -> Forall (fun x => is_nan x = false) l).
  { intros l F. eapply Forall_impl; [|exact F]. intros [] ?; congruence || reflexivity. }
  destruct (contains_hull range other ov H H1 H2 (Q _ N1) (Q _ N2)) as [[F ->]|[F ->]].
  - split; [tauto|congruence].
  - split.
    + split; [|contradiction]. destruct (display_string (sp_unit range)); discriminate.
    + intros b. destruct (display_string (sp_unit range)); discriminate.
Qed.

Lemma C06_contains_nan_l : forall range other ov,
  convert_to other (sp_type range) (sp_unit range) = Ok ov ->
  elems ov <> [] -> elems (sp_values range) <> [] ->
  In NaN (elems ov) \/ In NaN (elems (sp_values range)) ->
  contains range other = Ok true.
Proof.
  intros range other ov H H1 H2 Hn. apply (contains_nan range other ov H H1 H2).
  destruct Hn; [left|right]; exists NaN; auto.
Qed.

Lemma C06_contains_empty_l : forall range other ov,
  convert_to other (sp_type range) (sp_unit range) = Ok ov ->
  elems ov = [] \/ elems (sp_values range) = [] ->
  contains range other = Raise ValueError.
Proof. intros range other ov H Hn. exact (contains_empty range other ov H Hn). Qed.

Lemma C07_out_of_range_exception_l : forall v t u range other ov,
  mk_spectrum v t u = Ok range ->
  convert_to other (sp_type range) (sp_unit range) = Ok ov ->
  elems ov <> [] -> elems (sp_values range) <> [] ->
  Forall (fun x => x <> NaN) (elems ov) -> Forall (fun x => x <> NaN) (elems (sp_values range)) ->
  ~ Forall (within_hull (elems (sp_values range))) (elems ov) ->
  contains range other = Raise (if String.eqb (sp_unit range) "cm" then KeyError else ValueError).
Proof.
  intros v t u range other ov Hm H H1 H2 N1 N2 Hno.
  assert (Q : forall l, Forall (fun x => x <> NaN) l -> Forall (fun x => is_nan x = false) l).
  { intros l F. eapply Forall_impl; [|exact F]. intros [] ?; congruence || reflexivity. }
  destruct (contains_hull range other ov H H1 H2 (Q _ N1) (Q _ N2)) as [[F _]|[_ ->]]; [contradiction|].
  destruct (mk_spectrum_ok _ _ _ _ Hm) as (c & w & D & _ & _ & _ & -> & _).
  destruct (String.eqb c "cm") eqn:E.
  - apply String.eqb_eq in E. subst. reflexivity.
  - apply String.eqb_neq in E. destruct (display_ok _ _ _ D E) as [n ->]. reflexivity.
Qed.

Lemma C07_cm_refuted_l : exists v t u range other,
  mk_spectrum v t u = Ok range /\ contains range other = Raise KeyError /\
  catches ValueError KeyError = false.
Proof.
  assert (D : documented (lower "wavelength") (lower "cm") "cm").
  { exists ["centimeter"; "centimetre"; "cm"]%string. split; cbn; auto 20. }
  exists (InVals (VA [Fin 1; Fin 2])), "wavelength"%string, "cm"%string.
  eexists. exists (mkSp "wavelength" "m" (VS (Fin 1)) (VS (Fin 1))).
  split; [reflexivity|]. split; [|reflexivity].
  rewrite (C07_out_of_range_exception_l (InVals (VA [Fin 1; Fin 2])) "wavelength" "cm" _ _
             (VS (Fin (round_dec 5 (10 ^ 2 * 1)))));
    [reflexivity|reflexivity| |discriminate|discriminate| | |].
  - cbn -[round_dec xmul]. cbn [xmul xround]. reflexivity.
  - repeat constructor; discriminate.
  - repeat constructor; discriminate.
  - cbn [elems sp_values]. intros F. apply Forall_inv in F. destruct F as [_ (b & Hb & Hle)].
    rewrite (round_dec_exact 5 (10 ^ 2 * 1) 10000000) in Hle by lra.
    cbn [In] in Hb. unfold xle in Hle. destruct Hb as [<-|[<-|[]]]; cbn [xlt xeqb] in Hle;
    apply orb_true_iff in Hle; rewrite Rltb_true, Reqb_true in Hle; lra.
Qed.

Lemma C08_conversion_chain_l : forall s t u canon lam,
  sp_std s = VS (Fin lam) -> 0 < lam -> documented (lower t) u canon ->
  lower t <> "wavenumber"%string ->
  exists x y, wavelength_m (lower t) canon x lam /\ rounds_for canon x y /\
    convert_to s t u = Ok (VS (Fin y)) /\
    (y <> 0 -> exists s' lam', mk_spectrum (InVals (VS (Fin y))) t u = Ok s' /\
               sp_std s' = VS (Fin lam') /\ wavelength_m (lower t) canon y lam').
Proof.
  intros s t u canon lam Hs Hl D Hn. destruct (wavelength_inv _ _ _ _ D Hl) as (x & Hx & W).
  exists x, (rnd_for canon x). split; [assumption|]. split; [apply rnd_for_spec|]. split.
  - rewrite (convert_to_unfold _ _ _ _ D), Hs. apply (to_scalar _ _ _ _ _ D); auto. intros _. lra.
  - intros Hy. destruct (documented_lower _ _ _ D) as [Eu _].
    assert (D' : documented (lower t) (lower u) canon) by (now rewrite Eu).
    assert (W' : exists lam', wavelength_m (lower t) canon (rnd_for canon x) lam').
    { destruct (documented_cases _ _ _ D) as [E|[E|[E|[E|[E|[E|[E|[E|E]]]]]]]]; destruct E as [-> ->];
      eexists; constructor. }
    destruct W' as [lam' W']. eexists. exists lam'.
    split; [apply (mk_scalar _ _ _ _ _ D' W'); auto|]. auto.
Qed.

Lemma C08_conversion_chain_exact_l : forall s t u canon lam,
  sp_std s = VS (Fin lam) -> 0 < lam -> documented (lower t) u canon ->
  In canon ["m"; "hz"; "1/s"]%string ->
  exists y s', convert_to s t u = Ok (VS (Fin y)) /\
    mk_spectrum (InVals (VS (Fin y))) t u = Ok s' /\ sp_std s' = VS (Fin lam).
Proof.
  intros s t u canon lam Hs Hl D Hc.
  assert (Hn : lower t <> "wavenumber"%string).
  { destruct (documented_cases _ _ _ D) as [E|[E|[E|[E|[E|[E|[E|[E|E]]]]]]]]; destruct E as [-> ->];
    try discriminate. cbn in Hc. intuition discriminate. }
  destruct (wavelength_inv _ _ _ _ D Hl) as (x & Hx & W).
  assert (E : rnd_for canon x = x).
  { unfold rnd_for. cbn in Hc. destruct Hc as [<-|[<-|[<-|[]]]]; reflexivity. }
  destruct (documented_lower _ _ _ D) as [Eu _].
  assert (D' : documented (lower t) (lower u) canon) by (now rewrite Eu).
  exists x. eexists. split; [|split; [apply (mk_scalar _ _ _ _ _ D' W); intros; lra|reflexivity]].
  rewrite (convert_to_unfold _ _ _ _ D), Hs, (to_scalar _ _ _ x _ D); auto.
  - now rewrite E.
  - intros; lra.
Qed.

Lemma C08_wavenumber_refuted_l : forall s lam,
  sp_std s = VS (Fin lam) -> 0 < lam ->
  exists y s', convert_to s "wavenumber" "1/cm" = Ok (VS (Fin y)) /\
    mk_spectrum (InVals (VS (Fin y))) "wavenumber" "1/cm" = Ok s' /\
    sp_std s' = VS (Fin (lam / 10 ^ 4)).
Proof.
  intros s lam Hs Hl. assert (D : documented (lower "wavenumber") (lower "1/cm") "1/cm").
  { exists ["1/cm"]%string. split; cbn; auto 20. }
  destruct (wavelength_inv _ _ _ _ D Hl) as (x & Hx & W).
  exists (10 ^ 4 * x). eexists. split; [|split].
  - rewrite (convert_to_unfold _ _ _ _ D), Hs. apply to_scalar_wavenumber; [lra|exact W].
  - apply (mk_scalar _ _ _ _ _ D (wl_icm _)). intros; lra.
  - cbn [sp_std]. inversion W; subst. do 2 f_equal. field. lra.
Qed.

Lemma C09_order_l : forall s1 s2 l1 l2 t u canon,
  sp_std s1 = VS (Fin l1) -> sp_std s2 = VS (Fin l2) -> 0 < l1 -> l1 < l2 ->
  documented (lower t) u canon ->
  exists y1 y2, convert_to s1 t u = Ok (VS (Fin y1)) /\ convert_to s2 t u = Ok (VS (Fin y2)) /\
    (reciprocal_type (lower t) -> y2 <= y1) /\ (~ reciprocal_type (lower t) -> y1 <= y2) /\
    (In canon ["m"; "hz"; "1/s"; "1/cm"]%string -> y1 <> y2).
Proof.
  intros s1 s2 l1 l2 t u canon H1 H2 P1 P2 D.
  destruct (wavelength_inv _ _ _ _ D P1) as (x1 & X1 & W1).
  destruct (wavelength_inv _ _ _ l2 D ltac:(lra)) as (x2 & X2 & W2).
  pose proof (wavelength_order _ _ _ _ _ _ W1 W2 X1 X2) as O.
  rewrite !(convert_to_unfold _ _ _ _ D), H1, H2.
  assert (O' : (reciprocal_type (lower t) -> x2 < x1) /\ (~ reciprocal_type (lower t) -> x1 < x2)).
  { destruct (String.eqb (lower t) "wavelength") eqn:E.
    - apply String.eqb_eq in E. rewrite E. split; [|tauto].
      unfold reciprocal_type; cbn. intuition discriminate.
    - split; [tauto|]. intros C. exfalso. apply C.
      destruct (documented_cases _ _ _ D) as [F|[F|[F|[F|[F|[F|[F|[F|F]]]]]]]]; destruct F as [F _];
      rewrite F in E |- *; try discriminate E; rtype. }
  destruct O' as [O1 O2].
  destruct (String.string_dec (lower t) "wavenumber") as [E|E].
  - assert (canon = "1/cm"%string) as ->.
    { destruct (documented_cases _ _ _ D) as [F|[F|[F|[F|[F|[F|[F|[F|F]]]]]]]]; destruct F as [F1 F2];
      rewrite F1 in E; try discriminate E; assumption. }
    rewrite E in *. rewrite (to_scalar_wavenumber x1 l1), (to_scalar_wavenumber x2 l2) by (lra || assumption).
    exists (10 ^ 4 * x1), (10 ^ 4 * x2).
    assert (R : reciprocal_type "wavenumber") by rtype. specialize (O1 R).
    split; [reflexivity|]. split; [reflexivity|]. split; [lra|]. split; [contradiction|lra].
  - rewrite (to_scalar _ _ _ _ _ D E W1), (to_scalar _ _ _ _ _ D E W2) by (intros; lra).
    exists (rnd_for canon x1), (rnd_for canon x2). split; [reflexivity|]. split; [reflexivity|].
    split; [|split].
    + intros R. apply rnd_for_mono. specialize (O1 R). lra.
    + intros R. apply rnd_for_mono. specialize (O2 R). lra.
    + intros Hc. assert (Er : forall x, rnd_for canon x = x).
      { intros x. unfold rnd_for. cbn in Hc. destruct Hc as [<-|[<-|[<-|[<-|[]]]]]; reflexivity. }
      rewrite !Er. unfold reciprocal_type in *.
      destruct (in_dec String.string_dec (lower t) ["frequency"; "energy"; "angularfrequency"; "wavenumber"]%string) as [R|R].
      * specialize (O1 R). lra.
      * specialize (O2 R). lra.
Qed.

Lemma C10_constructor_case_insensitive_l : forall v t u t' u',
  lower t = lower t' -> lower u = lower u' -> mk_spectrum v t u = mk_spectrum v t' u'.
Proof. intros v t u t' u' Ht Hu. unfold mk_spectrum. now rewrite Ht, Hu. Qed.

Lemma C10_convert_to_case_l : forall s t t' u,
  (lower t = lower t' -> convert_to s t u = convert_to s t' u) /\
  (lower u <> u -> convert_to s t u = Raise ValueError).
Proof.
  intros s t t' u. split.
  - intros H. unfold convert_to. now rewrite H.
  - intros H. apply convert_to_undocumented. intros c D. apply H. now apply documented_lower in D.
Qed.

Lemma C10_case_refuted_l : exists v s,
  mk_spectrum v "energy" "eV" = Ok s /\ convert_to s "energy" "eV" = Raise ValueError.
Proof.
  assert (D : documented (lower "energy") (lower "eV") "ev").
  { exists ["electronvolt"; "ev"]%string. split; cbn; auto 20. }
  destruct (C01_constructor_accepts_l (VS (Fin 1)) _ _ _ D) as [s Hs]; [discriminate|].
  exists (InVals (VS (Fin 1))), s. split; [assumption|].
  apply (C10_convert_to_case_l s "energy" "energy" "eV"). discriminate.
Qed.

Lemma C11_integer_reciprocal_raises_l : forall t u canon l,
  documented (lower t) (lower u) canon -> reciprocal_type (lower t) ->
  mk_spectrum (InVals (VI l)) t u = Raise OverflowError.
Proof.
  intros t u canon l D R. rewrite (mk_spectrum_unfold _ _ _ _ D).
  destruct (documented_cases _ _ _ D) as [H|[H|[H|[H|[H|[H|[H|[H|H]]]]]]]]; destruct H as [Ht ->];
    rewrite Ht in *; try reflexivity;
    exfalso; unfold reciprocal_type in R; cbn [In] in R; intuition discriminate.
Qed.

Lemma C11_integer_wavelength_l : forall u canon l,
  documented "wavelength" (lower u) canon ->
  exists si sf, mk_spectrum (InVals (VI l)) "wavelength" u = Ok si /\
    mk_spectrum (InVals (VA (map (fun z => Fin (IZR z)) l))) "wavelength" u = Ok sf /\
    elems (sp_std si) = elems (sp_std sf) /\ elems (sp_values si) = elems (sp_values sf) /\
    (canon <> "m"%string -> sp_std si = sp_std sf).
Proof.
  intros u canon l D. change "wavelength"%string with (lower "wavelength") in D.
  rewrite !(mk_spectrum_unfold _ _ _ _ D). change (lower "wavelength") with "wavelength"%string in *.
  destruct (documented_cases _ _ _ D) as [H|[H|[H|[H|[H|[H|[H|[H|H]]]]]]]]; destruct H as [Ht ->];
    try discriminate Ht; do 2 eexists; repeat split; congruence.
Qed.

Lemma C90_comparison_l : forall a b,
  ((exists u canon, documented (lower a) u canon) -> (check_type a b = Ok true /\ lower a = b) \/ (check_type a b = Ok false /\ lower a <> b)) /\
  (~ (exists u canon, documented (lower a) u canon) -> check_type a b = Raise ValueError) /\
  (check_unit a b = true <-> lower a = b).
Proof.
  intros a b. assert ((exists u canon, documented (lower a) u canon) <-> dhas SPECTRUM_TYPES (lower a) = true) as T.
  { generalize (lower a). intros t. split.
    - intros (u & canon & sp & H & _). cbn [In doc_units] in H. repeat (destruct H as [H|H]; [injection H as <- _ _; reflexivity|]). destruct H.
    - intros H. unfold dhas in H. destruct (dget SPECTRUM_TYPES t) as [l|] eqn:E; [|discriminate]. apply dget_In in E. cbn in E.
      repeat (destruct E as [E|E]; [injection E as <- _; do 2 eexists; eexists; (split; [cbn; tauto|cbn; tauto])|]). destruct E. }
  unfold check_type, check_unit. split; [|split].
  - intros H. rewrite (proj1 T H). cbn [negb]. destruct (String.eqb (lower a) b) eqn:E; [left; split; [reflexivity|now apply String.eqb_eq]|right; split; [reflexivity|now apply String.eqb_neq]].
  - intros H. destruct (dhas SPECTRUM_TYPES (lower a)); [destruct (H (proj2 T eq_refl))|reflexivity].
  - apply String.eqb_eq.
Qed.

Lemma C90_spellings_refuted_l : forall t u u' canon, documented t u canon -> documented t u' canon -> u <> u' -> check_unit u u' = false.
Proof.
  intros t u u' canon D D' N. unfold check_unit. apply String.eqb_neq. intros E. apply N. rewrite <- E.
  destruct D as (sp & H & Hu). cbn [In doc_units] in H. repeat (destruct H as [H|H]; [injection H as <- <- <-; cbn [In] in Hu; repeat (destruct Hu as [<-|Hu]; [reflexivity|]); destruct Hu|]). destruct H.
Qed.
