(** Theorems about spectra (C01-C11). *)
From Verif Require Import PyBase PyStr XReal SpectrumModel SpectrumSpec SpectrumProofs.
From Verif Require Import SpectrumThms.
Open Scope R_scope.
Open Scope list_scope.

(** C01: what a successful construction stores *)
Theorem C01_constructor_stores : forall v t u s,
  mk_spectrum v t u = Ok s ->
  exists canon w, documented (lower t) (lower u) canon /\ v = InVals w /\
    sp_type s = lower t /\ sp_unit s = canon /\ sp_values s = w.
Proof. exact C01_constructor_stores_l. Qed.
Print Assumptions C01_constructor_stores.

(** C01: every documented pair with float values is accepted *)
Theorem C01_constructor_accepts : forall v t u canon,
  documented (lower t) (lower u) canon -> (forall l, v <> VI l) ->
  exists s, mk_spectrum (InVals v) t u = Ok s.
Proof. exact C01_constructor_accepts_l. Qed.
Print Assumptions C01_constructor_accepts.

(** C01: everything else raises ValueError *)
Theorem C01_constructor_rejects : forall v t u,
  v = InOther \/ (forall canon, ~ documented (lower t) (lower u) canon) ->
  mk_spectrum v t u = Raise ValueError.
Proof. exact C01_constructor_rejects_l. Qed.
Print Assumptions C01_constructor_rejects.

Example C01_instance : exists s,
  mk_spectrum (InVals (VA [Fin 400; Fin 800])) "WaveLength" "NanoMeter" = Ok s /\
  sp_type s = "wavelength"%string /\ sp_unit s = "nm"%string.
Proof.
  assert (D : documented (lower "WaveLength") (lower "NanoMeter") "nm").
  { exists ["nanometer"; "nanometre"; "nm"]%string. split; cbn; auto 10. }
  destruct (C01_constructor_accepts (VA [Fin 400; Fin 800]) _ _ _ D) as [s Hs]; [discriminate|].
  exists s. split; [assumption|].
  destruct (C01_constructor_stores _ _ _ _ Hs) as (c & w & D' & _ & E1 & E2 & _).
  rewrite E1, E2. rewrite (documented_fun _ _ _ _ D' D). split; reflexivity.
Qed.
Example C01_instance_reject : mk_spectrum (InVals (VS (Fin 1))) "energy" "nm" = Raise ValueError.
Proof.
  apply C01_constructor_rejects. right. intros c (sp & H1 & H2). cbn in H1.
  repeat (destruct H1 as [H1|H1]; [inversion H1; subst; cbn in H2;
    repeat (destruct H2 as [H2|H2]; [discriminate|]); destruct H2|]). destruct H1.
Qed.

(** C02: scalars *)
Theorem C02_standard_rep_scalar : forall t u canon x lam,
  documented (lower t) (lower u) canon -> wavelength_m (lower t) canon x lam ->
  (reciprocal_type (lower t) -> x <> 0) ->
  exists s, mk_spectrum (InVals (VS (Fin x))) t u = Ok s /\ sp_std s = VS (Fin lam).
Proof. exact C02_standard_rep_scalar_l. Qed.
Print Assumptions C02_standard_rep_scalar.

(** C02: arrays, element by element *)
Theorem C02_standard_rep_array : forall t u canon xs lams,
  documented (lower t) (lower u) canon -> Forall2 (wavelength_m (lower t) canon) xs lams ->
  (reciprocal_type (lower t) -> Forall (fun x => / 10 ^ 8 < Rabs x) xs) ->
  exists s, mk_spectrum (InVals (VA (map Fin xs))) t u = Ok s /\ sp_std s = VA (map Fin lams).
Proof. exact C02_standard_rep_array_l. Qed.
Print Assumptions C02_standard_rep_array.

(** C02: zero and infinity are exchanged by the reciprocal types, scalars and arrays alike *)
Theorem C02_zero_and_infinity : forall t u canon,
  documented (lower t) (lower u) canon -> reciprocal_type (lower t) ->
  (exists s, mk_spectrum (InVals (VS (Fin 0))) t u = Ok s /\ sp_std s = VS PInf) /\
  (exists s, mk_spectrum (InVals (VS PInf)) t u = Ok s /\ sp_std s = VS (Fin 0)) /\
  (exists s, mk_spectrum (InVals (VA [Fin 0; PInf])) t u = Ok s /\ sp_std s = VA [PInf; Fin 0]).
Proof. exact C02_zero_and_infinity_l. Qed.
Print Assumptions C02_zero_and_infinity.

Example C02_instance : exists s,
  mk_spectrum (InVals (VS (Fin 500))) "wavelength" "nm" = Ok s /\
  sp_std s = VS (Fin (500 / 10 ^ 9)).
Proof.
  apply (C02_standard_rep_scalar _ _ "nm").
  - exists ["nanometer"; "nanometre"; "nm"]%string. split; cbn; auto 10.
  - apply wl_nm.
  - unfold reciprocal_type; cbn. intuition discriminate.
Qed.
Example C02_instance_ev : exists s,
  mk_spectrum (InVals (VA [Fin 2])) "energy" "eV" = Ok s /\
  sp_std s = VA [Fin (planck * speed_of_light / (elementary_charge * 2))].
Proof.
  apply (C02_standard_rep_array "energy" "eV" "ev" [2] [planck * speed_of_light / (elementary_charge * 2)]).
  - exists ["electronvolt"; "ev"]%string. split; cbn; auto 10.
  - repeat constructor.
  - intros _. repeat constructor. rewrite Rabs_pos_eq by lra. lra.
Qed.

(** C03: converting back to the own type and unit (or any documented spelling of it) *)
Theorem C03_round_trip : forall t u u' canon x s,
  mk_spectrum (InVals (VS (Fin x))) t u = Ok s -> 0 < x ->
  documented (lower t) (lower u) canon -> documented (lower t) u' canon ->
  lower t <> "wavenumber"%string ->
  exists y, convert_to s t u' = Ok (VS (Fin y)) /\ rounds_for canon x y.
Proof. exact C03_round_trip_l. Qed.
Print Assumptions C03_round_trip.

(** C03: exact whenever the value has no more decimals than are kept *)
Theorem C03_round_trip_exact : forall canon d n x y,
  doc_decimals canon = Some d -> rounds_for canon x y -> x = IZR n / 10 ^ d -> y = x.
Proof. exact C03_round_trip_exact_l. Qed.
Print Assumptions C03_round_trip_exact.

(** C03: the wavenumber round trip multiplies by 10^4 *)
Theorem C03_wavenumber_refuted : forall x, 0 < x ->
  exists s, mk_spectrum (InVals (VS (Fin x))) "wavenumber" "1/cm" = Ok s /\
    convert_to s "wavenumber" "1/cm" = Ok (VS (Fin (10 ^ 4 * x))) /\ 10 ^ 4 * x <> x.
Proof. exact C03_wavenumber_refuted_l. Qed.
Print Assumptions C03_wavenumber_refuted.

Example C03_instance : exists s y,
  mk_spectrum (InVals (VS (Fin 0.5))) "wavelength" "um" = Ok s /\
  convert_to s "wavelength" "micrometer" = Ok (VS (Fin y)) /\ y = 0.5.
Proof.
  assert (D : documented (lower "wavelength") (lower "um") "um").
  { exists ["micrometer"; "micrometre"; "um"]%string. split; cbn; auto 20. }
  assert (D' : documented (lower "wavelength") "micrometer" "um").
  { exists ["micrometer"; "micrometre"; "um"]%string. split; cbn; auto 20. }
  destruct (C01_constructor_accepts (VS (Fin 0.5)) _ _ _ D) as [s Hs]; [discriminate|].
  destruct (C03_round_trip _ _ _ _ _ _ Hs ltac:(lra) D D' ltac:(discriminate)) as (y & Hy & R).
  exists s, y. split; [assumption|]. split; [assumption|].
  eapply (C03_round_trip_exact "um" 9 500000000); [reflexivity|exact R|lra].
Qed.

Definition in_place_run (s : spectrum) (reqs : requests) : spectrum :=
  fold_left (fun s r => snd (convert_in_place s (fst r) (snd r))) reqs s.

(** C04: the physical quantity survives every sequence of in-place conversions *)
Theorem C04_in_place_keeps_standard : forall s reqs, sp_std (in_place_run s reqs) = sp_std s.
Proof. exact C04_in_place_keeps_standard_l. Qed.
Print Assumptions C04_in_place_keeps_standard.

(** C04: the rest of the state is that of the last successful request on the original *)
Theorem C04_in_place_last_wins : forall s pre t u post v canon,
  convert_to s t u = Ok v -> documented (lower t) u canon ->
  (forall t' u', In (t', u') post -> is_ok (convert_to s t' u') = false) ->
  let s' := in_place_run s (pre ++ (t, u) :: post) in
  sp_values s' = v /\ sp_type s' = lower t /\ sp_unit s' = canon.
Proof. exact C04_in_place_last_wins_l. Qed.
Print Assumptions C04_in_place_last_wins.

(** C04: and is untouched when no request succeeded *)
Theorem C04_in_place_all_failed : forall s reqs,
  (forall t u, In (t, u) reqs -> is_ok (convert_to s t u) = false) -> in_place_run s reqs = s.
Proof. exact C04_in_place_all_failed_l. Qed.
Print Assumptions C04_in_place_all_failed.

(** C04: a request raises in place exactly when it raises without in_place *)
Theorem C04_in_place_same_exception : forall s t u,
  fst (convert_in_place s t u) = match convert_to s t u with Ok _ => Ok tt | Raise e => Raise e end.
Proof. exact C04_in_place_same_exception_l. Qed.
Print Assumptions C04_in_place_same_exception.

Example C04_instance : forall s, sp_std s = VS (Fin (1 / 2)) ->
  let s' := in_place_run s [("frequency", "hz"); ("wavelength", "M"); ("Wavelength", "m"); ("colour", "red")]%string in
  sp_values s' = VS (Fin (1 / 2)) /\ sp_type s' = "wavelength"%string /\ sp_unit s' = "m"%string.
Proof.
  intros s Hs.
  apply (C04_in_place_last_wins s [("frequency", "hz"); ("wavelength", "M")]%string "Wavelength" "m"
           [("colour", "red")]%string).
  - unfold convert_to. rewrite Hs. reflexivity.
  - exists ["meter"; "metre"; "m"]%string. split; cbn; auto.
  - intros t u [E|[]]. inversion E. reflexivity.
Qed.

(** C05: safe_inverse on arrays = safe_inverse on each scalar, for resolvable elements *)
Theorem C05_safe_inverse_agrees : forall l,
  Forall (fun x => match x with Fin r => / 10 ^ 8 < Rabs r \/ r = 0 | _ => True end) l ->
  exists l', safe_inverse (VA l) = Ok (VA l') /\
    Forall2 (fun x y => safe_inverse (VS x) = Ok (VS y)) l l'.
Proof. exact C05_safe_inverse_agrees_l. Qed.
Print Assumptions C05_safe_inverse_agrees.

(** C05: conversions of arrays agree with conversions of their elements *)
Theorem C05_convert_agrees : forall s t u canon l,
  documented (lower t) u canon -> sp_std s = VA l -> Forall (resolvable (lower t)) l ->
  exists l', convert_to s t u = Ok (VA l') /\
    Forall2 (fun x y => forall s1, sp_std s1 = VS x -> convert_to s1 t u = Ok (VS y)) l l'.
Proof. exact C05_convert_agrees_l. Qed.
Print Assumptions C05_convert_agrees.

(** C05: at or below 10 nm the array energy is infinite, the scalar one is finite *)
Theorem C05_small_wavelength_refuted : forall lam sa ss,
  0 < lam <= / 10 ^ 8 ->
  mk_spectrum (InVals (VA [Fin lam])) "wavelength" "m" = Ok sa ->
  mk_spectrum (InVals (VS (Fin lam))) "wavelength" "m" = Ok ss ->
  convert_to sa "frequency" "hz" = Ok (VA [PInf]) /\
  convert_to sa "energy" "ev" = Ok (VA [PInf]) /\
  convert_to ss "frequency" "hz" = Ok (VS (Fin (speed_of_light / lam))).
Proof. exact C05_small_wavelength_refuted_l. Qed.
Print Assumptions C05_small_wavelength_refuted.

(** C05: converting an array of wavelengths up to 1 um to wavenumber gives infinity *)
Theorem C05_wavenumber_refuted : forall lam sa,
  0 < lam <= / 10 ^ 6 ->
  mk_spectrum (InVals (VA [Fin lam])) "wavelength" "m" = Ok sa ->
  convert_to sa "wavenumber" "1/cm" = Ok (VA [PInf]).
Proof. exact C05_wavenumber_refuted_l. Qed.
Print Assumptions C05_wavenumber_refuted.

Example C05_instance : forall s, sp_std s = VA [Fin (1 / 2); PInf; Fin 0; NaN] ->
  exists l', convert_to s "frequency" "hz" = Ok (VA l') /\ length l' = 4%nat.
Proof.
  intros s Hs.
  destruct (C05_convert_agrees s "frequency" "hz" "hz" _
              ltac:(exists ["hertz"; "hz"]%string; split; cbn; auto 20) Hs) as (l' & H1 & H2).
  - apply Forall_forall. intros x Hx _. change (String.eqb (lower "frequency") "wavenumber") with false.
    destruct Hx as [<-|[<-|[<-|[<-|[]]]]]; auto. left. rewrite Rabs_pos_eq by lra. lra.
  - exists l'. split; [assumption|]. now rewrite <- (Forall2_len _ _ _ H2).
Qed.

(** C06: acceptance is exactly "every converted value lies in the range" *)
Theorem C06_contains_iff : forall range other ov,
  convert_to other (sp_type range) (sp_unit range) = Ok ov ->
  elems ov <> [] -> elems (sp_values range) <> [] ->
  Forall (fun x => x <> NaN) (elems ov) -> Forall (fun x => x <> NaN) (elems (sp_values range)) ->
  (contains range other = Ok true <-> Forall (within_hull (elems (sp_values range))) (elems ov)) /\
  (forall b, contains range other = Ok b -> b = true).
Proof. exact C06_contains_iff_l. Qed.
Print Assumptions C06_contains_iff.

(** C06: a NaN anywhere makes every spectrum acceptable *)
Theorem C06_contains_nan : forall range other ov,
  convert_to other (sp_type range) (sp_unit range) = Ok ov ->
  elems ov <> [] -> elems (sp_values range) <> [] ->
  In NaN (elems ov) \/ In NaN (elems (sp_values range)) ->
  contains range other = Ok true.
Proof. exact C06_contains_nan_l. Qed.
Print Assumptions C06_contains_nan.

(** C06: empty arrays *)
Theorem C06_contains_empty : forall range other ov,
  convert_to other (sp_type range) (sp_unit range) = Ok ov ->
  elems ov = [] \/ elems (sp_values range) = [] ->
  contains range other = Raise ValueError.
Proof. exact C06_contains_empty_l. Qed.
Print Assumptions C06_contains_empty.

Example C06_instance : exists range inside outside,
  mk_spectrum (InVals (VA [Fin 2; Fin 1])) "wavelength" "m" = Ok range /\
  mk_spectrum (InVals (VS (Fin 1.5))) "wavelength" "m" = Ok inside /\
  mk_spectrum (InVals (VS (Fin 3))) "wavelength" "m" = Ok outside /\
  contains range inside = Ok true /\ contains range outside <> Ok true.
Proof.
  set (rg := mkSp "wavelength" "m" (VA [Fin 2; Fin 1]) (VA [Fin 2; Fin 1])).
  set (i := mkSp "wavelength" "m" (VS (Fin 1.5)) (VS (Fin 1.5))).
  set (o := mkSp "wavelength" "m" (VS (Fin 3)) (VS (Fin 3))).
  exists rg, i, o. split; [reflexivity|]. split; [reflexivity|]. split; [reflexivity|].
  assert (T : forall a b, a <= b -> xle (Fin a) (Fin b) = true).
  { intros a b Hab. unfold xle. cbn. apply orb_true_iff. rewrite Rltb_true, Reqb_true. lra. }
  assert (N : Forall (fun x => x <> NaN) [Fin 2; Fin 1]) by (repeat constructor; discriminate).
  split.
  - apply (C06_contains_iff rg i (VS (Fin 1.5)) eq_refl); try discriminate; [repeat constructor; discriminate|exact N|].
    constructor; [|constructor]. split.
    + exists (Fin 1). split; [cbn; auto|apply T; lra].
    + exists (Fin 2). split; [cbn; auto|apply T; lra].
  - intros C. assert (N' : Forall (fun x => x <> NaN) [Fin 3]) by (repeat constructor; discriminate).
    pose proof (C06_contains_iff rg o (VS (Fin 3)) eq_refl ltac:(discriminate) ltac:(discriminate) N' N)
      as [[F _] _]. specialize (F C). clear C. rename F into C.
    apply Forall_inv in C. destruct C as [_ (b & Hb & Hle)].
    cbn in Hb. destruct Hb as [<-|[<-|[]]]; unfold xle in Hle; cbn [xlt xeqb] in Hle;
      apply orb_true_iff in Hle; rewrite Rltb_true, Reqb_true in Hle; lra.
Qed.

(** C07: which exception an out-of-range request raises *)
Theorem C07_out_of_range_exception : forall v t u range other ov,
  mk_spectrum v t u = Ok range ->
  convert_to other (sp_type range) (sp_unit range) = Ok ov ->
  elems ov <> [] -> elems (sp_values range) <> [] ->
  Forall (fun x => x <> NaN) (elems ov) -> Forall (fun x => x <> NaN) (elems (sp_values range)) ->
  ~ Forall (within_hull (elems (sp_values range))) (elems ov) ->
  contains range other = Raise (if String.eqb (sp_unit range) "cm" then KeyError else ValueError).
Proof. exact C07_out_of_range_exception_l. Qed.
Print Assumptions C07_out_of_range_exception.

(** C07: a handler for ValueError misses the error of a centimetre range *)
Theorem C07_cm_refuted : exists v t u range other,
  mk_spectrum v t u = Ok range /\ contains range other = Raise KeyError /\
  catches ValueError KeyError = false.
Proof. exact C07_cm_refuted_l. Qed.
Print Assumptions C07_cm_refuted.

(** C08: converting and rebuilding: the new standard representation is the physical
    wavelength of the rounded value *)
Theorem C08_conversion_chain : forall s t u canon lam,
  sp_std s = VS (Fin lam) -> 0 < lam -> documented (lower t) u canon ->
  lower t <> "wavenumber"%string ->
  exists x y, wavelength_m (lower t) canon x lam /\ rounds_for canon x y /\
    convert_to s t u = Ok (VS (Fin y)) /\
    (y <> 0 -> exists s' lam', mk_spectrum (InVals (VS (Fin y))) t u = Ok s' /\
               sp_std s' = VS (Fin lam') /\ wavelength_m (lower t) canon y lam').
Proof. exact C08_conversion_chain_l. Qed.
Print Assumptions C08_conversion_chain.

(** C08: exact for m, Hz and 1/s *)
Theorem C08_conversion_chain_exact : forall s t u canon lam,
  sp_std s = VS (Fin lam) -> 0 < lam -> documented (lower t) u canon ->
  In canon ["m"; "hz"; "1/s"]%string ->
  exists y s', convert_to s t u = Ok (VS (Fin y)) /\
    mk_spectrum (InVals (VS (Fin y))) t u = Ok s' /\ sp_std s' = VS (Fin lam).
Proof. exact C08_conversion_chain_exact_l. Qed.
Print Assumptions C08_conversion_chain_exact.

(** C08: chaining through wavenumber divides the wavelength by 10^4 *)
Theorem C08_wavenumber_refuted : forall s lam,
  sp_std s = VS (Fin lam) -> 0 < lam ->
  exists y s', convert_to s "wavenumber" "1/cm" = Ok (VS (Fin y)) /\
    mk_spectrum (InVals (VS (Fin y))) "wavenumber" "1/cm" = Ok s' /\
    sp_std s' = VS (Fin (lam / 10 ^ 4)).
Proof. exact C08_wavenumber_refuted_l. Qed.
Print Assumptions C08_wavenumber_refuted.

Example C08_instance : forall s, sp_std s = VS (Fin (1 / 2)) ->
  exists y s', convert_to s "Frequency" "hertz" = Ok (VS (Fin y)) /\
    mk_spectrum (InVals (VS (Fin y))) "Frequency" "hertz" = Ok s' /\ sp_std s' = VS (Fin (1 / 2)).
Proof.
  intros s Hs. apply (C08_conversion_chain_exact _ _ _ "hz"); [assumption|lra| |cbn; auto].
  exists ["hertz"; "hz"]%string. split; cbn; auto 20.
Qed.

(** C09: order of converted values *)
Theorem C09_order : forall s1 s2 l1 l2 t u canon,
  sp_std s1 = VS (Fin l1) -> sp_std s2 = VS (Fin l2) -> 0 < l1 -> l1 < l2 ->
  documented (lower t) u canon ->
  exists y1 y2, convert_to s1 t u = Ok (VS (Fin y1)) /\ convert_to s2 t u = Ok (VS (Fin y2)) /\
    (reciprocal_type (lower t) -> y2 <= y1) /\ (~ reciprocal_type (lower t) -> y1 <= y2) /\
    (In canon ["m"; "hz"; "1/s"; "1/cm"]%string -> y1 <> y2).
Proof. exact C09_order_l. Qed.
Print Assumptions C09_order.

Example C09_instance : forall s1 s2, sp_std s1 = VS (Fin 1) -> sp_std s2 = VS (Fin 2) ->
  exists y1 y2, convert_to s1 "energy" "ev" = Ok (VS (Fin y1)) /\
    convert_to s2 "energy" "ev" = Ok (VS (Fin y2)) /\ y2 <= y1.
Proof.
  intros s1 s2 H1 H2.
  destruct (C09_order s1 s2 1 2 "energy" "ev" "ev" H1 H2 ltac:(lra) ltac:(lra)
     ltac:(exists ["electronvolt"; "ev"]%string; split; cbn; auto 20)) as (y1 & y2 & A & B & C & _).
  exists y1, y2. split; [assumption|]. split; [assumption|]. apply C. unfold reciprocal_type; cbn; auto.
Qed.

(** C10: the constructor ignores the case of type and unit *)
Theorem C10_constructor_case_insensitive : forall v t u t' u',
  lower t = lower t' -> lower u = lower u' -> mk_spectrum v t u = mk_spectrum v t' u'.
Proof. exact C10_constructor_case_insensitive_l. Qed.
Print Assumptions C10_constructor_case_insensitive.

(** C10: convert_to ignores the case of the type but rejects any unit that is not lower case *)
Theorem C10_convert_to_case : forall s t t' u,
  (lower t = lower t' -> convert_to s t u = convert_to s t' u) /\
  (lower u <> u -> convert_to s t u = Raise ValueError).
Proof. exact C10_convert_to_case_l. Qed.
Print Assumptions C10_convert_to_case.

(** C10: so a spectrum can be built in a unit spelling it can never be converted to *)
Theorem C10_case_refuted : exists v s,
  mk_spectrum v "energy" "eV" = Ok s /\ convert_to s "energy" "eV" = Raise ValueError.
Proof. exact C10_case_refuted_l. Qed.
Print Assumptions C10_case_refuted.

Example C10_instance : lower "NANOMETRE" = lower "nanometre" /\ lower "eV" <> "eV"%string.
Proof. split; [reflexivity|discriminate]. Qed.

(** C11: integer arrays of a reciprocal type *)
Theorem C11_integer_reciprocal_raises : forall t u canon l,
  documented (lower t) (lower u) canon -> reciprocal_type (lower t) ->
  mk_spectrum (InVals (VI l)) t u = Raise OverflowError.
Proof. exact C11_integer_reciprocal_raises_l. Qed.
Print Assumptions C11_integer_reciprocal_raises.

(** C11: integer wavelength arrays are converted as the equal float arrays *)
Theorem C11_integer_wavelength : forall u canon l,
  documented "wavelength" (lower u) canon ->
  exists si sf, mk_spectrum (InVals (VI l)) "wavelength" u = Ok si /\
    mk_spectrum (InVals (VA (map (fun z => Fin (IZR z)) l))) "wavelength" u = Ok sf /\
    elems (sp_std si) = elems (sp_std sf) /\ elems (sp_values si) = elems (sp_values sf) /\
    (canon <> "m"%string -> sp_std si = sp_std sf).
Proof. exact C11_integer_wavelength_l. Qed.
Print Assumptions C11_integer_wavelength.

Example C11_instance : mk_spectrum (InVals (VI [1; 2]%Z)) "energy" "ev" = Raise OverflowError.
Proof.
  apply (C11_integer_reciprocal_raises _ _ "ev"); [|unfold reciprocal_type; cbn; auto].
  exists ["electronvolt"; "ev"]%string. split; cbn; auto 20.
Qed.

(** C90: check_type says whether a type, in any letter case, is the given one, and raises ValueError
    for texts that are no type; check_unit compares in any letter case of the first text *)
Theorem C90_comparison : forall a b,
  ((exists u canon, documented (lower a) u canon) -> (check_type a b = Ok true /\ lower a = b) \/ (check_type a b = Ok false /\ lower a <> b)) /\
  (~ (exists u canon, documented (lower a) u canon) -> check_type a b = Raise ValueError) /\
  (check_unit a b = true <-> lower a = b).
Proof. exact C90_comparison_l. Qed.
Print Assumptions C90_comparison.

(** C90 fails for spellings: two documented spellings of the same unit are never equal for
    check_unit, although it promises to take them into account *)
Theorem C90_spellings_refuted : forall t u u' canon, documented t u canon -> documented t u' canon -> u <> u' -> check_unit u u' = false.
Proof. exact C90_spellings_refuted_l. Qed.
Print Assumptions C90_spellings_refuted.

Example C90_instance : check_type "Wavelength" "wavelength" = Ok true /\ check_type "energy" "wavelength" = Ok false /\ check_type "colour" "wavelength" = Raise ValueError /\
  documented "wavelength" "nanometer" "nm" /\ documented "wavelength" "nm" "nm" /\ check_unit "NM" "nm" = true /\ check_unit "nanometer" "nm" = false.
Proof.
  repeat apply conj; try reflexivity; (eexists; split; [cbn; do 3 right; left; reflexivity|cbn; tauto]).
Qed.
