(** Theorems about the catalogue rows of the example files that the setup script writes (C94). *)
From Verif Require Import PyBase PyStr XReal CNum TextModel SpectrumModel SpectrumSpec SpectrumProofs SpectralModel SpectralSpec SpectralProofs InterpProofs ExtrapProofs SpectrumThms SpectralThms MaterialModel MaterialSpec MaterialProofs MatFileProofs MaterialThms FileModel ReaderModel WriterModel PathModel IOSpec SaveProofs CycleProofs YamlSpec CatalogueModel CatalogueSpec NormProofs ListProofs ListingThms ExampleModel ExampleSpec ExampleThms ListedSpec.
From Coq Require Import Permutation.
Open Scope R_scope.
Open Scope string_scope.
Open Scope list_scope.


(** how the parts of a loaded material were made *)
Definition made (d : sdata) : Prop :=
  match d with
  | DInterp b rows => mk_interpolation rows (d_type b) (d_unit b) = Ok d
  | DModel b k ps => exists l, mk_model k ps (InVals (VA l)) (d_type b) (d_unit b) = Ok d
  | DConst b c => exists x y, mk_constant c (InVals (VA [x; y])) (d_type b) (d_unit b) = Ok d
  | _ => True
  end.
Definition made_all (p : pmat) : Prop := (forall d, p_real p = Some d -> made d) /\ (forall d, p_imag p = Some d -> made d).
Lemma interp_made rows t u d : mk_interpolation rows t u = Ok d -> made d.
Proof.
  intros H. pose proof H as H0. unfold mk_interpolation in H. inv_bind H a Ea. inv_bind H b Eb. inv_bind H base Em. inv_bind H x Ec. injection H as <-.
  cbn [made]. destruct (base_fields _ _ _ _ Em) as [-> ->]. exact H0.
Qed.
Lemma const_made c x y t u d : mk_constant c (InVals (VA [x; y])) t u = Ok d -> made d.
Proof.
  intros H. pose proof H as H0. unfold mk_constant in H. inv_bind H b E. injection H as <-. cbn [made]. exists x, y.
  destruct (base_fields _ _ _ _ E) as [-> ->]. exact H0.
Qed.
Lemma model_made k ps l t u d : mk_model k ps (InVals (VA l)) t u = Ok d -> made d.
Proof.
  intros H. pose proof H as H0. unfold mk_model in H. inv_bind H b E. inv_bind H x Ec. injection H as <-. cbn [made]. exists l.
  destruct (base_fields _ _ _ _ E) as [-> ->]. exact H0.
Qed.
Lemma pairs_made rows t u d : spec_data_from_pairs rows t u = Ok d -> made d.
Proof. unfold spec_data_from_pairs. destruct rows as [|r [|r2 rows]]; intros H; first [eapply interp_made; exact H|eapply const_made; exact H]. Qed.
Lemma table_made n rows t u d : spec_data_from_table n rows t u = Ok d -> made d.
Proof.
  unfold spec_data_from_table. destruct n as [|[|n]]; intros H; [discriminate| |now apply pairs_made in H].
  destruct rows as [|r [|r2 rows]]; try discriminate; inv_bind H a E1; inv_bind H b E2; inv_bind H c E3; discriminate.
Qed.
Lemma set_real_made p n d : made_all p -> made d -> made_all (set_real p n d).
Proof. intros [H1 H2] Hd. split; cbn; [intros d0 E; injection E as <-; exact Hd|exact H2]. Qed.
Lemma set_imag_made p n d : made_all p -> made d -> made_all (set_imag p n d).
Proof. intros [H1 H2] Hd. split; cbn; [exact H1|intros d0 E; injection E as <-; exact Hd]. Qed.
Lemma process_table_made n rows id p q : made_all p -> process_table n rows id p = Ok q -> made_all q.
Proof.
  intros Hp H. unfold process_table in H.
  destruct (String.eqb id "nk"); [inv_bind H r E1; inv_bind H a E2; inv_bind H i E3; inv_bind H b E4; injection H as <-; apply set_imag_made; [apply set_real_made; [exact Hp|]|]; eapply pairs_made; eassumption|].
  destruct (String.eqb id "n_alpha"); [inv_bind H r E1; inv_bind H a E2; inv_bind H s E3; inv_bind H w E4; inv_bind H z E5; inv_bind H b E6; injection H as <-; apply set_imag_made; [apply set_real_made; [exact Hp|]|]; eapply pairs_made; eassumption|].
  destruct (String.eqb id "n"); [inv_bind H a E1; injection H as <-; apply set_real_made; [exact Hp|eapply table_made; eassumption]|].
  destruct (String.eqb id "k"); [inv_bind H a E1; injection H as <-; apply set_imag_made; [exact Hp|eapply table_made; eassumption]|].
  destruct (String.eqb id "eps"); [inv_bind H r E1; inv_bind H a E2; inv_bind H i E3; inv_bind H b E4; injection H as <-; apply set_imag_made; [apply set_real_made; [exact Hp|]|]; eapply pairs_made; eassumption|].
  injection H as <-. exact Hp.
Qed.
Lemma process_formula_made d dt id p q : made_all p -> process_formula_data d dt id p = Ok q -> made_all q.
Proof.
  intros Hp H. unfold process_formula_data in H. inv_bind H ident E1. inv_bind H vr E2. inv_bind H rng E3. inv_bind H cs E4. inv_bind H ps E5. inv_bind H st E6. inv_bind H un E7. inv_bind H name E8.
  unfold process_model_dict in H. cbn [kw_name kw_stype kw_unit kw_params kw_range opt_key bind] in H. inv_bind H cls E9. destruct cls as [k| | |]; [|inv_bind H z Z; discriminate|inv_bind H z Z; discriminate|discriminate].
  inv_bind H d0 E10. pose proof (model_made _ _ _ _ _ _ E10) as Hd.
  destruct (output k) as [o|]; [|discriminate].
  repeat (match type of H with context [match ?x with EmptyString => _ | String _ _ => _ end] => destruct x end; try discriminate H);
  repeat (match type of H with context [match ?x with Ascii _ _ _ _ _ _ _ _ => _ end] => destruct x end; try discriminate H);
  repeat (match type of H with context [if ?x then _ else _] => destruct x end; try discriminate H);
  injection H as <-; first [now apply set_real_made|now apply set_imag_made|exact Hp].
Qed.
Lemma process_made l : forall p q, made_all p -> process_datasets l p = Ok q -> made_all q.
Proof.
  induction l as [|d l IH]; intros p q Hp H; cbn [process_datasets] in H; [injection H as <-; exact Hp|]. inv_bind H p1 E. apply (IH p1); [|exact H]. clear H IH.
  unfold process_dataset in E. inv_bind E toks E1. destruct toks as [|dt [|id [|x y]]]; try discriminate.
  destruct (String.eqb dt "tabulated").
  - inv_bind E t E2. inv_bind E st E3. inv_bind E un E4. destruct t as [v|n rows]; [discriminate|]. eapply process_table_made; [|exact E]. exact Hp.
  - destruct (String.eqb dt "formula" || String.eqb dt "model"); [|discriminate]. eapply process_formula_made; [exact Hp|exact E].
Qed.
Lemma loaded_made rd path m : mk_material rd [("file_path", PStr path)] = Ok m -> (made (m_real m) /\ made (m_imag m)).
Proof.
  intros H. rewrite load_material in H. inv_bind H fd E1. inv_bind H meta E2. inv_bind H p E3.
  assert (made_all p) as [A B]. { eapply process_made; [|exact E3]. split; cbn; intros d X; discriminate X. }
  unfold complete in H. inv_bind H r Er. inv_bind H i Ei. injection H as <-. cbn [m_real m_imag]. split.
  - destruct (p_real p) as [d|]; [injection Er as <-; now apply A|]. unfold constant_default in Er. now apply const_made in Er.
  - destruct (p_imag p) as [d|]; [injection Ei as <-; now apply B|]. unfold constant_default in Ei. now apply const_made in Ei.
Qed.
Lemma loaded_default rd path : loaded rd path "wavelength" "nanometer" = mk_material rd [("file_path", PStr path)].
Proof.
  unfold loaded. rewrite load_material. apply call_file. a_call.
Qed.

(** rounding to twelve and nine decimals *)
Lemma rounds_near canon d x y : doc_decimals canon = Some d -> rounds_for canon x y -> Rabs (y - x) <= / 2 * / 10 ^ d.
Proof. unfold rounds_for. intros -> (n & _ & H & _). exact H. Qed.
Lemma nm_near x y : rounds_for "nm" x y -> Rabs (y - x) <= / 10 ^ 9.
Proof. intros H. apply (rounds_near "nm" 12) in H; [|reflexivity]. eapply Rle_trans; [exact H|]. lra. Qed.
Lemma um_near x y : rounds_for "um" x y -> Rabs (y - x) <= / 10 ^ 9.
Proof. intros H. apply (rounds_near "um" 9) in H; [|reflexivity]. eapply Rle_trans; [exact H|]. lra. Qed.
Lemma abs_le x e : Rabs x <= e -> - e <= x <= e.
Proof. unfold Rabs. destruct (Rcase_abs x); lra. Qed.

Lemma doc_nm : documented "wavelength" "nm" "nm".
Proof. eexists. split; [cbn; right; right; right; left; reflexivity|cbn; tauto]. Qed.
Lemma doc_nano : documented "wavelength" "nanometer" "nm".
Proof. eexists. split; [cbn; right; right; right; left; reflexivity|cbn; tauto]. Qed.
Lemma doc_micro : documented "wavelength" "micrometer" "um".
Proof. eexists. split; [cbn; right; right; left; reflexivity|cbn; tauto]. Qed.
Lemma doc_um : documented "wavelength" "um" "um".
Proof. eexists. split; [cbn; right; right; left; reflexivity|cbn; tauto]. Qed.
Lemma nm_um x : wavelength_m "wavelength" "um" (x / 1000) (x / 10 ^ 9).
Proof. replace (x / 10 ^ 9) with (x / 1000 / 10 ^ 6) by (field; lra). constructor. Qed.

(** the reference wavelength in nanometres and micrometres *)
Lemma reference_nm r ref w : mk_spectrum (InVals (VS (Fin r))) "wavelength" "nm" = Ok ref -> 0 < r -> rounds_for "nm" r w ->
  convert_to ref "wavelength" "nm" = Ok (VS (Fin w)).
Proof.
  intros M P Rw. destruct (own_unit_value "wavelength" "nm" "nm" r ref w doc_nm ltac:(discriminate) P M Rw) as (lam & _ & _ & _ & C). exact C.
Qed.
Lemma reference_um r ref v : mk_spectrum (InVals (VS (Fin r))) "wavelength" "nm" = Ok ref -> 0 < r -> rounds_for "um" (r / 1000) v ->
  convert_to ref "wavelength" "um" = Ok (VS (Fin v)).
Proof.
  intros M P Rv. destruct (wavelength_total "wavelength" "nm" "nm" r doc_nm) as [lam Wl].
  rewrite (mk_scalar "wavelength" "nm" "nm" r lam doc_nm Wl) in M by (intros; lra). injection M as <-.
  rewrite (convert_to_unfold _ "wavelength" "um" "um" doc_um). cbn [sp_std].
  assert (lam = r / 10 ^ 9) as -> by (inversion Wl; reflexivity).
  change (lower "wavelength") with "wavelength".
  rewrite (to_scalar "wavelength" "um" "um" (r / 1000) (r / 10 ^ 9) doc_um ltac:(discriminate) (nm_um r)) by (intros; lra).
  now rewrite (rounds_for_unique _ _ _ Rv).
Qed.
Lemma asked_nm d r ref w lo hi : mk_spectrum (InVals (VS (Fin r))) "wavelength" "nm" = Ok ref -> 0 < r -> rounds_for "nm" r w -> lo <= w <= hi ->
  sp_type (valid_range d) = "wavelength" -> sp_unit (valid_range d) = "nm" -> sp_values (valid_range d) = VA [Fin lo; Fin hi] -> asked d ref "wavelength" "nm" w.
Proof.
  intros M P Rw B T U V. constructor.
  - exists "wavelength", "nm", "nm", r, (r / 10 ^ 9), r. split; [exact M|]. split; [exact P|]. split; [exact doc_nm|]. split; [constructor|]. split; [constructor|exact Rw].
  - pose proof (reference_nm r ref w M P Rw) as C. rewrite <- T, <- U in C at 1. destruct (contains_fin _ _ _ _ _ V C) as [K _]. now apply K.
Qed.
Lemma asked_um d r ref v lo hi : mk_spectrum (InVals (VS (Fin r))) "wavelength" "nm" = Ok ref -> 0 < r -> rounds_for "um" (r / 1000) v -> lo <= v <= hi ->
  sp_type (valid_range d) = "wavelength" -> sp_unit (valid_range d) = "um" -> sp_values (valid_range d) = VA [Fin lo; Fin hi] -> asked d ref "wavelength" "um" v.
Proof.
  intros M P Rw B T U V. constructor.
  - exists "wavelength", "nm", "nm", r, (r / 10 ^ 9), (r / 1000). split; [exact M|]. split; [exact P|]. split; [exact doc_nm|]. split; [constructor|]. split; [apply nm_um|exact Rw].
  - pose proof (reference_um r ref v M P Rw) as C. rewrite <- T, <- U in C at 1. destruct (contains_fin _ _ _ _ _ V C) as [K _]. now apply K.
Qed.
(** bounds and range of an interpolation in nanometres *)
Lemma nm_range l u d : mk_interpolation (xrows l) "wavelength" u = Ok d -> documented "wavelength" (lower u) "nm" ->
  exists mn mx, sp_values (valid_range d) = VA [Fin mn; Fin mx] /\ In mn (map fst l) /\ In mx (map fst l) /\ (forall y, In y (map fst l) -> mn <= y <= mx) /\
    sp_type (valid_range d) = "wavelength" /\ sp_unit (valid_range d) = "nm" /\ wavelengths_of d = [Fin (mn / 10 ^ 9); Fin (mx / 10 ^ 9)].
Proof.
  intros H D. destruct (interp_range_x l _ _ _ H) as (mn & mx & V & I1 & I2 & B & canon & Dc & T & U).
  assert (canon = "nm") as -> by exact (documented_fun _ _ _ _ Dc D).
  exists mn, mx. repeat (split; [assumption|]). pose proof (interp_range _ _ _ _ _ _ H V) as M.
  destruct (C02_standard_rep_array_l "wavelength" u "nm" [mn; mx] [mn / 10 ^ 9; mx / 10 ^ 9] D) as (s & M' & Sd).
  - repeat constructor.
  - intros X. cbn in X. repeat (destruct X as [X|X]; [discriminate|]). destruct X.
  - cbn [map] in M'. rewrite M in M'. injection M' as <-. unfold wavelengths_of. now rewrite Sd.
Qed.
Lemma rounds_self d n x : x * 10 ^ d = IZR n -> rounds_to d x x.
Proof.
  intros E. exists n. assert (10 ^ d <> 0) as N by (apply pow_nonzero; lra). assert (0 < / 2 * / 10 ^ d) as P by (apply Rmult_lt_0_compat; [lra|apply Rinv_0_lt_compat, pow_lt; lra]).
  split; [rewrite <- E; field; exact N|]. unfold Rminus. rewrite Rplus_opp_r, Rabs_R0. split; [lra|intros Z; exfalso; lra].
Qed.
Lemma rounds_decimal n x : x * 10 ^ 12 = IZR n -> rounds_for "nm" x x.
Proof. exact (rounds_self 12 n x). Qed.
Lemma rounds_decimal_um n x : x * 10 ^ 9 = IZR n -> rounds_for "um" x x.
Proof. exact (rounds_self 9 n x). Qed.
Definition example_rows : list (list R) := [[400; 1.7; 0.1]; [500; 1.6; 0.05]; [600; 1.5; 0]; [700; 1.4; 0]].
Lemma exact_int z x : rounds_for "nm" (IZR z) x -> x = IZR z.
Proof. intros H. apply (C03_round_trip_exact_l "nm" 12 (z * 10 ^ Z.of_nat 12) (IZR z) x eq_refl H). rewrite mult_IZR, <- pow_IZR. field. Qed.
Lemma txt_bounds m b b' : tables_of m b b' (xrows table_n) (xrows table_k) -> made (m_real m) -> made (m_imag m) ->
  d_type b = "wavelength" -> d_unit b = "nanometer" -> d_type b' = "wavelength" -> d_unit b' = "nanometer" -> m_stype m = "wavelength" -> m_unit m = "nanometer" ->
  tabulated (column 1 example_rows) "wavelength" "nanometer" (m_real m) /\ tabulated (column 2 example_rows) "wavelength" "nanometer" (m_imag m) /\
  get_maximum_valid_range m = Ok (VA [Fin 400; Fin 700]).
Proof.
  intros (N & C & Hr & Hi) M1 M2 T U T' U' St Un. rewrite Hr in M1. rewrite Hi in M2. cbn [made] in M1, M2. rewrite T, U in M1. rewrite T', U' in M2.
  assert (tabulated (column 1 example_rows) "wavelength" "nanometer" (m_real m)) as T1 by (rewrite Hr; exact M1).
  assert (tabulated (column 2 example_rows) "wavelength" "nanometer" (m_imag m)) as T2 by (rewrite Hi; exact M2).
  split; [exact T1|]. split; [exact T2|].
  destruct (table_bounds example_rows "wavelength" "nanometer" "nm" m) as (mn & mx & a & c & G & Ra & Rc & I1 & I2 & B); try assumption; try exact doc_nano; try reflexivity; try (left; exact N).
  - cbn; lia.
  - cbn. repeat (constructor; [cbn; intuition lra|]); constructor.
  - repeat (constructor; [cbn; lra|]); constructor.
  - rewrite G. assert (mn = 400) as ->. { pose proof (B 400 ltac:(cbn; tauto)). cbn in I1. intuition lra. }
    assert (mx = 700) as ->. { pose proof (B 700 ltac:(cbn; tauto)). cbn in I2. intuition lra. }
    apply (exact_int 400) in Ra. apply (exact_int 700) in Rc. now subst.
Qed.
Lemma txt_cells X m ref r w n k b b' : tables_of m b b' (xrows table_n) (xrows table_k) -> made (m_real m) -> made (m_imag m) ->
  d_type b = "wavelength" -> d_unit b = "nanometer" -> d_type b' = "wavelength" -> d_unit b' = "nanometer" -> m_stype m = "wavelength" -> m_unit m = "nanometer" ->
  mk_spectrum (InVals (VS (Fin r))) "wavelength" "nm" = Ok ref -> 401 <= r <= 699 -> rounds_for "nm" r w ->
  (reference_cells X ref m n k -> n = Fin (table_index w) /\ k = Fin (table_extinction w)) /\ exists o, get_nk_data X m (SObj ref) = Ok (OS o).
Proof.
  intros HT M1 M2 T U T' U' St Un M B Rw. destruct (txt_bounds m b b' HT M1 M2 T U T' U' St Un) as (T1 & T2 & _).
  pose proof (abs_le _ _ (nm_near _ _ Rw)) as Bw. assert (400 <= w <= 700) as Bw' by lra.
  assert (forall j d, In j [1%nat; 2%nat] -> tabulated (column j example_rows) "wavelength" "nanometer" d -> asked d ref "wavelength" "nm" w) as A.
  { intros j d Hj Ht. apply tabulated_interp in Ht; [|cbn; lia]. destruct (nm_range _ _ _ Ht doc_nano) as (mn & mx & V & I1 & I2 & Bd & Ty & Un' & _).
    apply (asked_nm d r ref w mn mx); try assumption; [lra|]. assert (map fst (pairs j example_rows) = [400; 500; 600; 700]) as E by reflexivity. rewrite E in *.
    pose proof (Bd 400 ltac:(cbn; tauto)). pose proof (Bd 700 ltac:(cbn; tauto)). lra. }
  pose proof (A 1%nat _ ltac:(cbn; tauto) T1) as A1. pose proof (A 2%nat _ ltac:(cbn; tauto) T2) as A2. destruct HT as (N & C & Hr & Hi). split.
  - intros Rc. destruct (C57_covered_l X ref m example_rows "wavelength" "nanometer" "nm" w n k N C ltac:(cbn; lia) doc_nano ltac:(discriminate) T1 T2 A1 A2 Rc) as (a & c & a' & c' & Ad & Ba & -> & Ad' & Ba' & ->).
    split.
    + f_equal. unfold table_index, line. destruct Ad as (Ia & Ic & L & _). cbn in Ia, Ic.
      repeat (destruct Ia as [Ia|Ia]; [subst a|]); try contradiction; repeat (destruct Ic as [Ic|Ic]; [subst c|]); try contradiction; cbn [fst snd] in L |- *; try lra; field; lra.
    + f_equal. unfold table_extinction, line. destruct Ad' as (Ia & Ic & L & Nx). cbn in Ia, Ic.
      assert (forall x y z, In (x, y) (map (fun r0 : list R => (nth 0 r0 0, nth 2 r0 0)) example_rows) -> x = z -> z <= fst a' \/ fst c' <= z) as Nx' by (intros x y z Hx <-; exact (Nx _ Hx)).
      assert (G5 := Nx' 500 0.05 500 ltac:(cbn; tauto) eq_refl). assert (G6 := Nx' 600 0 600 ltac:(cbn; tauto) eq_refl). clear Nx Nx'.
      repeat (destruct Ia as [Ia|Ia]; [subst a'|]); try contradiction; repeat (destruct Ic as [Ic|Ic]; [subst c'|]); try contradiction; cbn [fst snd] in *; try lra; destruct G5 as [G5|G5], G6 as [G6|G6]; try lra;
        first [rewrite Rmax_right by lra; lra | rewrite Rmax_left by lra; lra].
  - apply tabulated_interp in T1; [|cbn; lia]. apply tabulated_interp in T2; [|cbn; lia].
    destruct (C13_interpolates_l X _ _ _ "nm" _ ref w T1 doc_nano ltac:(discriminate) A1) as (p & q & _ & _ & E1 & _).
    destruct (C13_interpolates_l X _ _ _ "nm" _ ref w T2 doc_nano ltac:(discriminate) A2) as (p' & q' & _ & _ & E2 & _).
    eexists. exact (nk_value X m ref _ _ _ _ _ M N C E1 E2).
Qed.
Lemma near_fin e x y : near e (Fin x) y -> 0 <= x -> exists z, y = Fin z /\ - (e * Rmax 1 x) <= z - x <= e * Rmax 1 x.
Proof.
  unfold near. intros H P. destruct y as [z| | |]; try contradiction; try discriminate. exists z. split; [reflexivity|]. rewrite (Rabs_right x) in H by lra. now apply abs_le.
Qed.
Lemma shown_fin x y : shown_near (Fin x) y -> 0 <= x <= 1000 -> exists z, y = Fin z /\ x - / 10 ^ 5 <= z <= x + / 10 ^ 5.
Proof.
  intros H P. destruct (near_fin _ _ _ H (proj1 P)) as (z & E & B). exists z. split; [exact E|].
  assert (5 / 10 ^ 9 * Rmax 1 x <= / 10 ^ 5) by (apply Rle_trans with (5 / 10 ^ 9 * 1000); [apply Rmult_le_compat_l; [lra|apply Rmax_lub; lra]|lra]). lra.
Qed.
Lemma shown_zero y : shown_near (Fin 0) y -> exists z, y = Fin z /\ - / 10 ^ 5 <= z <= / 10 ^ 5.
Proof. intros H. destruct (shown_fin 0 y H ltac:(lra)) as (z & E & B). exists z. split; [exact E|lra]. Qed.
Lemma near_k rows : near_table (5 / 10 ^ 9) (xrows table_k) rows -> exists q, rows = xrows q /\ exists x1 x2 x3 x4, map fst q = [x1; x2; x3; x4] /\
  400 - / 10 ^ 5 <= x1 <= 400 + / 10 ^ 5 /\ 500 - / 10 ^ 5 <= x2 <= 500 + / 10 ^ 5 /\ 600 - / 10 ^ 5 <= x3 <= 600 + / 10 ^ 5 /\ 700 - / 10 ^ 5 <= x4 <= 700 + / 10 ^ 5.
Proof.
  intros H. cbn [xrows table_k map] in H.
  inversion H as [|? p1 ? ? [A1 B1] H1]; subst. inversion H1 as [|? p2 ? ? [A2 B2] H2]; subst. inversion H2 as [|? p3 ? ? [A3 B3] H3]; subst. inversion H3 as [|? p4 ? ? [A4 B4] H4]; subst. inversion H4; subst. clear H H1 H2 H3 H4.
  destruct p1 as [p1 q1], p2 as [p2 q2], p3 as [p3 q3], p4 as [p4 q4]. cbn [fst snd] in *.
  destruct (shown_fin _ _ A1 ltac:(lra)) as (x1 & -> & X1). destruct (shown_fin _ _ A2 ltac:(lra)) as (x2 & -> & X2). destruct (shown_fin _ _ A3 ltac:(lra)) as (x3 & -> & X3). destruct (shown_fin _ _ A4 ltac:(lra)) as (x4 & -> & X4).
  destruct (shown_fin _ _ B1 ltac:(lra)) as (y1 & -> & _). destruct (shown_fin _ _ B2 ltac:(lra)) as (y2 & -> & _). destruct (shown_fin _ _ B3 ltac:(lra)) as (y3 & -> & _). destruct (shown_fin _ _ B4 ltac:(lra)) as (y4 & -> & _).
  exists [(x1, y1); (x2, y2); (x3, y3); (x4, y4)]. split; [reflexivity|]. exists x1, x2, x3, x4. split; [reflexivity|]. split; [exact X1|]. split; [exact X2|]. split; [exact X3|exact X4].
Qed.
Lemma near_coefficients ps : Forall2 shown_near (map Fin coefficients) ps -> exists c0 b1 c1 b2 c2 b3 c3, ps = map Fin [c0; b1; c1; b2; c2; b3; c3] /\
  0 - / 10 ^ 5 <= c0 <= 0 + / 10 ^ 5 /\ 1 - / 10 ^ 5 <= b1 <= 1 + / 10 ^ 5 /\ 0.05 - / 10 ^ 5 <= c1 <= 0.05 + / 10 ^ 5 /\ 2 - / 10 ^ 5 <= b2 <= 2 + / 10 ^ 5 /\
  0.1 - / 10 ^ 5 <= c2 <= 0.1 + / 10 ^ 5 /\ 10 - / 10 ^ 5 <= b3 <= 10 + / 10 ^ 5 /\ 25 - / 10 ^ 5 <= c3 <= 25 + / 10 ^ 5.
Proof.
  intros H. cbn [coefficients map] in H.
  inversion H as [|? p1 ? ? A1 H1]; subst. inversion H1 as [|? p2 ? ? A2 H2]; subst. inversion H2 as [|? p3 ? ? A3 H3]; subst. inversion H3 as [|? p4 ? ? A4 H4]; subst.
  inversion H4 as [|? p5 ? ? A5 H5]; subst. inversion H5 as [|? p6 ? ? A6 H6]; subst. inversion H6 as [|? p7 ? ? A7 H7]; subst. inversion H7; subst. clear H H1 H2 H3 H4 H5 H6 H7.
  destruct (shown_fin _ _ A1 ltac:(lra)) as (x1 & -> & X1). destruct (shown_fin _ _ A2 ltac:(lra)) as (x2 & -> & X2). destruct (shown_fin _ _ A3 ltac:(lra)) as (x3 & -> & X3). destruct (shown_fin _ _ A4 ltac:(lra)) as (x4 & -> & X4).
  destruct (shown_fin _ _ A5 ltac:(lra)) as (x5 & -> & X5). destruct (shown_fin _ _ A6 ltac:(lra)) as (x6 & -> & X6). destruct (shown_fin _ _ A7 ltac:(lra)) as (x7 & -> & X7).
  exists x1, x2, x3, x4, x5, x6, x7. split; [reflexivity|]. repeat (split; [assumption|]). assumption.
Qed.
Lemma near_covered l : Forall2 shown_near (map Fin covered) l -> exists lo hi, l = map Fin [lo; hi] /\ 0.35 - / 10 ^ 5 <= lo <= 0.35 + / 10 ^ 5 /\ 2 - / 10 ^ 5 <= hi <= 2 + / 10 ^ 5.
Proof.
  intros H. cbn [covered map] in H. inversion H as [|? p1 ? ? A1 H1]; subst. inversion H1 as [|? p2 ? ? A2 H2]; subst. inversion H2; subst.
  destruct (shown_fin _ _ A1 ltac:(lra)) as (x1 & -> & X1). destruct (shown_fin _ _ A2 ltac:(lra)) as (x2 & -> & X2). exists x1, x2. split; [reflexivity|]. split; assumption.
Qed.
(** the range of the formula *)
Lemma um_range k ps l d : mk_model k ps (InVals (VA l)) "wavelength" "micrometer" = Ok d -> sp_values (valid_range d) = VA l /\ sp_type (valid_range d) = "wavelength" /\ sp_unit (valid_range d) = "um".
Proof.
  unfold mk_model. intros H. inv_bind H b E. inv_bind H x Ev. injection H as <-. unfold mk_base in E. inv_bind E s Es. injection E as <-. unfold valid_range. cbn [dbase_of d_range].
  destruct (mk_spectrum_ok _ _ _ _ Es) as (c & w & D & Ew & _ & Et & Eu & Ev'). injection Ew as <-. split; [exact Ev'|]. split; [exact Et|]. rewrite Eu. exact (documented_fun _ _ _ _ D doc_micro).
Qed.
Lemma um_wavelengths k ps lo hi d : mk_model k ps (InVals (VA (map Fin [lo; hi]))) "wavelength" "micrometer" = Ok d -> wavelengths_of d = [Fin (lo / 10 ^ 6); Fin (hi / 10 ^ 6)].
Proof.
  unfold mk_model. intros H. inv_bind H b E. inv_bind H x Ev. injection H as <-. unfold mk_base in E. inv_bind E s Es. injection E as <-.
  destruct (C02_standard_rep_array_l "wavelength" "micrometer" "um" [lo; hi] [lo / 10 ^ 6; hi / 10 ^ 6] doc_micro) as (s' & M' & Sd).
  - repeat constructor.
  - intros X. cbn in X. repeat (destruct X as [X|X]; [discriminate|]). destruct X.
  - rewrite Es in M'. injection M' as <-. unfold wavelengths_of, valid_range. cbn [dbase_of d_range]. now rewrite Sd.
Qed.
Lemma sellmeier_positive c0 b1 c1 b2 c2 b3 c3 v : 0.4 <= v <= 0.7 ->
  0 - / 10 ^ 5 <= c0 <= 0 + / 10 ^ 5 -> 1 - / 10 ^ 5 <= b1 <= 1 + / 10 ^ 5 -> 0.05 - / 10 ^ 5 <= c1 <= 0.05 + / 10 ^ 5 -> 2 - / 10 ^ 5 <= b2 <= 2 + / 10 ^ 5 ->
  0.1 - / 10 ^ 5 <= c2 <= 0.1 + / 10 ^ 5 -> 10 - / 10 ^ 5 <= b3 <= 10 + / 10 ^ 5 -> 25 - / 10 ^ 5 <= c3 <= 25 + / 10 ^ 5 ->
  c1 ^ 2 < v ^ 2 /\ c2 ^ 2 < v ^ 2 /\ v ^ 2 < c3 ^ 2 /\ 0 <= 1 + c0 + b1 * v ^ 2 / (v ^ 2 - c1 ^ 2) + b2 * v ^ 2 / (v ^ 2 - c2 ^ 2) + b3 * v ^ 2 / (v ^ 2 - c3 ^ 2).
Proof.
  intros V C0 B1 C1 B2 C2 B3 C3.
  assert (c1 ^ 2 < v ^ 2) as L1 by nra. assert (c2 ^ 2 < v ^ 2) as L2 by nra. assert (v ^ 2 + 100 < c3 ^ 2) as L3 by nra.
  split; [exact L1|]. split; [exact L2|]. split; [lra|].
  assert (0 <= b1 * v ^ 2 / (v ^ 2 - c1 ^ 2)) by (apply Rmult_le_pos; [apply Rmult_le_pos; [lra|apply pow2_ge_0]|left; apply Rinv_0_lt_compat; lra]).
  assert (0 <= b2 * v ^ 2 / (v ^ 2 - c2 ^ 2)) by (apply Rmult_le_pos; [apply Rmult_le_pos; [lra|apply pow2_ge_0]|left; apply Rinv_0_lt_compat; lra]).
  assert (- (1 / 2) <= b3 * v ^ 2 / (v ^ 2 - c3 ^ 2)); [|lra].
  replace (b3 * v ^ 2 / (v ^ 2 - c3 ^ 2)) with (- (b3 * v ^ 2 / (c3 ^ 2 - v ^ 2))) by (field; lra).
  apply Ropp_le_contravar. apply Rmult_le_reg_r with (c3 ^ 2 - v ^ 2); [lra|]. unfold Rdiv. rewrite Rmult_assoc, Rinv_l by lra. nra.
Qed.
Lemma yml_bounds m b ps b' q l x1 x2 x3 x4 : m_name m = "nk" -> m_complex m = None -> m_real m = DModel b Sellmeier ps -> m_imag m = DInterp b' (xrows q) ->
  mk_model Sellmeier ps (InVals (VA (map Fin [fst l; snd l]))) "wavelength" "micrometer" = Ok (m_real m) -> mk_interpolation (xrows q) "wavelength" "nm" = Ok (m_imag m) ->
  m_stype m = "wavelength" -> m_unit m = "nm" -> 0.35 - / 10 ^ 5 <= fst l <= 0.35 + / 10 ^ 5 -> 2 - / 10 ^ 5 <= snd l <= 2 + / 10 ^ 5 ->
  map fst q = [x1; x2; x3; x4] ->
  400 - / 10 ^ 5 <= x1 <= 400 + / 10 ^ 5 -> 500 - / 10 ^ 5 <= x2 <= 500 + / 10 ^ 5 -> 600 - / 10 ^ 5 <= x3 <= 600 + / 10 ^ 5 -> 700 - / 10 ^ 5 <= x4 <= 700 + / 10 ^ 5 ->
  exists lo hi, get_maximum_valid_range m = Ok (VA [Fin lo; Fin hi]) /\ Rabs (lo - 400) <= 2 / 10 ^ 5 /\ Rabs (hi - 700) <= 2 / 10 ^ 5.
Proof.
  intros N C Hr Hi M1 M2 St Un B1 B2 Eq X1 X2 X3 X4. pose proof (um_wavelengths _ _ _ _ _ M1) as W1.
  destruct (nm_range _ _ _ M2 doc_nm) as (mn & mx & V & I1 & I2 & Bd & Ty & Uy & W2). rewrite Eq in *.
  pose proof (Bd x1 ltac:(cbn; tauto)) as D1. pose proof (Bd x4 ltac:(cbn; tauto)) as D4.
  assert (400 - / 10 ^ 5 <= mn <= 400 + / 10 ^ 5) as Mn by (split; [cbn in I1; intuition lra|lra]).
  assert (700 - / 10 ^ 5 <= mx <= 700 + / 10 ^ 5) as Mx by (split; [lra|cbn in I2; intuition lra]).
  assert (fst l / 10 ^ 6 <= mn / 10 ^ 9 /\ mx / 10 ^ 9 <= snd l / 10 ^ 6 /\ mn / 10 ^ 9 <= mx / 10 ^ 9) as (O1 & O2 & O3) by lra.
  destruct (C29_bounds_l m "nm" (mn / 10 ^ 9) (mx / 10 ^ 9) mn mx) as (a & c & G & Ra & Rc & _); try assumption; rewrite ?W1, ?W2, ?St, ?Un; try discriminate; try exact doc_nm; try lra.
  - left. exact N.
  - repeat constructor; discriminate.
  - repeat constructor; discriminate.
  - intros x. split.
    + intros H. split; [exists (Fin (fst l / 10 ^ 6)); split; [now left|]; eapply xle_trans; [apply xle_fin; exact O1|exact H]|exists (Fin (mn / 10 ^ 9)); split; [now left|exact H]].
    + intros [_ (y & [<-|[<-|[]]] & H)]; [exact H|]. eapply xle_trans; [|exact H]. now apply xle_fin.
  - intros x. split.
    + intros H. split; [exists (Fin (snd l / 10 ^ 6)); split; [right; now left|]; eapply xle_trans; [exact H|apply xle_fin; exact O2]|exists (Fin (mx / 10 ^ 9)); split; [right; now left|exact H]].
    + intros [_ (y & [<-|[<-|[]]] & H)]; [|exact H]. eapply xle_trans; [exact H|]. now apply xle_fin.
  - constructor.
  - constructor.
  - exists a, c. split; [exact G|]. apply nm_near, abs_le in Ra. apply nm_near, abs_le in Rc. split; apply Rabs_le; lra.
Qed.
Lemma yml_cells X m b ps b' q l x1 x2 x3 x4 ref r w v : m_name m = "nk" -> m_complex m = None -> m_real m = DModel b Sellmeier ps -> m_imag m = DInterp b' (xrows q) ->
  mk_model Sellmeier ps (InVals (VA (map Fin [fst l; snd l]))) "wavelength" "micrometer" = Ok (m_real m) -> mk_interpolation (xrows q) "wavelength" "nm" = Ok (m_imag m) ->
  0.35 - / 10 ^ 5 <= fst l <= 0.35 + / 10 ^ 5 -> 2 - / 10 ^ 5 <= snd l <= 2 + / 10 ^ 5 -> map fst q = [x1; x2; x3; x4] ->
  400 - / 10 ^ 5 <= x1 <= 400 + / 10 ^ 5 -> 700 - / 10 ^ 5 <= x4 <= 700 + / 10 ^ 5 ->
  mk_spectrum (InVals (VS (Fin r))) "wavelength" "nm" = Ok ref -> 401 <= r <= 699 -> rounds_for "nm" r w -> rounds_for "um" (r / 1000) v ->
  Forall2 shown_near (map Fin coefficients) ps ->
  exists c0 b1 c1 b2 c2 b3 c3 a c, Forall2 shown_near (map Fin coefficients) (map Fin [c0; b1; c1; b2; c2; b3; c3]) /\ adjacent q a c /\ fst a <= w <= fst c /\
    get_nk_data X m (SObj ref) = Ok (OS (OCx (CF (sqrt (1 + c0 + b1 * v ^ 2 / (v ^ 2 - c1 ^ 2) + b2 * v ^ 2 / (v ^ 2 - c2 ^ 2) + b3 * v ^ 2 / (v ^ 2 - c3 ^ 2)), line a c w)))).
Proof.
  intros N C Hr Hi M1 M2 B1 B2 Eq X1 X4 M B Rw Rv Hps.
  pose proof (abs_le _ _ (nm_near _ _ Rw)) as Bw. pose proof (abs_le _ _ (um_near _ _ Rv)) as Bv. assert (0.4 <= v <= 0.7) as Bv' by lra.
  destruct (near_coefficients ps Hps) as (c0 & b1 & c1 & b2 & c2 & b3 & c3 & -> & K0 & K1 & K2 & K3 & K4 & K5 & K6).
  destruct (sellmeier_positive c0 b1 c1 b2 c2 b3 c3 v Bv' K0 K1 K2 K3 K4 K5 K6) as (L1 & L2 & L3 & Pos).
  destruct (um_range _ _ _ _ M1) as (V1 & T1 & U1).
  assert (asked (m_real m) ref "wavelength" "um" v) as A1 by (apply (asked_um _ r ref v (fst l) (snd l)); try assumption; lra).
  destruct (nm_range _ _ _ M2 doc_nm) as (mn & mx & V & I1 & I2 & Bd & Ty & Uy & _). rewrite Eq in *.
  pose proof (Bd x1 ltac:(cbn; tauto)) as D1. pose proof (Bd x4 ltac:(cbn; tauto)) as D4.
  assert (asked (m_imag m) ref "wavelength" "nm" w) as A2 by (apply (asked_nm _ r ref w mn mx); try assumption; lra).
  assert (sellmeier_sum c0 [(b1, c1); (b2, c2); (b3, c3)] v + 1 = 1 + c0 + b1 * v ^ 2 / (v ^ 2 - c1 ^ 2) + b2 * v ^ 2 / (v ^ 2 - c2 ^ 2) + b3 * v ^ 2 / (v ^ 2 - c3 ^ 2)) as ES.
  { unfold sellmeier_sum, total. cbn [map fold_right fst snd]. ring. }
  assert (evaluate X (m_real m) ref = (Ok (OS (ORe (Fin (sqrt (sellmeier_sum c0 [(b1, c1); (b2, c2); (b3, c3)] v + 1))))), ref)) as E1.
  { apply (C14_sellmeier_l X c0 [(b1, c1); (b2, c2); (b3, c3)] _ "wavelength" "micrometer" (m_real m) ref v M1 eq_refl A1).
    - cbn [In]. intros p [<-|[<-|[<-|[]]]]; cbn [snd]; lra.
    - rewrite ES. exact Pos. }
  destruct (C13_interpolates_l X q "wavelength" "nm" "nm" (m_imag m) ref w M2 doc_nm ltac:(discriminate) A2) as (a & c & Ad & Ba & E2 & _).
  exists c0, b1, c1, b2, c2, b3, c3, a, c. split; [exact Hps|]. split; [exact Ad|]. split; [exact Ba|]. rewrite <- ES. exact (nk_value X m ref _ _ _ _ _ M N C E1 E2).
Qed.
Lemma described_cell m k s c : (exists meta, m_meta m = Some meta /\ dget meta k = Some (MStr s)) -> meta_cell m k c -> c = KStr s.
Proof.
  intros (meta & E1 & E2) (d & v & F1 & F2 & F3). rewrite E1 in F1. injection F1 as <-. rewrite E2 in F2. injection F2 as <-.
  destruct F3 as [(s' & G1 & ->)|[G1 _]]; [now injection G1 as <-|exfalso; now apply (G1 s)].
Qed.
Lemma example_extension name ext base : In (name, ext) [("example_file", ".txt"); ("example_file2", ".yml")] -> extension (name ++ ext)%string base -> base = name.
Proof.
  intros H (e & E & He & _). cbn in H, He.
  assert (forall a b c d : string, (a ++ b = c ++ d)%string -> String.length b = String.length d -> a = c) as A.
  { induction a as [|x a IH]; intros b c d Z L; destruct c as [|y c].
    - reflexivity.
    - change (b = String y (c ++ d)%string) in Z. rewrite Z in L. cbn [String.length] in L. rewrite length_app_s in L. exfalso. lia.
    - change (String x (a ++ b)%string = d) in Z. rewrite <- Z in L. cbn [String.length] in L. rewrite length_app_s in L. exfalso. lia.
    - change (String x (a ++ b)%string = String y (c ++ d)%string) in Z. injection Z as -> Z. f_equal. now apply (IH b c d). }
  symmetry. apply (A _ ext _ e E). destruct H as [H|[H|[]]]; injection H as <- <-; destruct He as [<-|[<-|[<-|[]]]]; reflexivity.
Qed.
Lemma words_of X ref m name ext file r : In (name, ext) [("example_file", ".txt"); ("example_file2", ".yml")] -> file = (name ++ ext)%string ->
  described_as m -> file_row X ref "UserData" file m r -> example_words name file r.
Proof.
  intros H -> (meta & M & D1 & D2 & D3 & D4 & D5) (F1 & (base & Fx & F2) & F3 & F4 & F5 & F6 & F7 & F8 & _ & _ & F9 & F10).
  rewrite (example_extension name ext base H Fx) in F2.
  repeat (split; [first [assumption|eapply described_cell; [|eassumption]; exists meta; split; eassumption]|]). exact F10.
Qed.
Lemma row_fails X ref m e o v : get_maximum_valid_range m = Ok v -> get_nk_data X m (SObj ref) = Ok o -> row_error X ref m e -> False.
Proof. intros G N [R|(_ & R & _)]; congruence. Qed.
Lemma two_files X ref rd dir f g m m' r : loaded rd (path_join dir f) "wavelength" "nanometer" = Ok m -> loaded rd (path_join dir g) "wavelength" "nanometer" = Ok m' ->
  (forall e, ~ row_error X ref m e) -> (forall e, ~ row_error X ref m' e) -> folder_rows X ref rd dir "UserData" [f; g] r ->
  exists a b, r = Ok [a; b] /\ file_row X ref "UserData" f m a /\ file_row X ref "UserData" g m' b.
Proof.
  intros L1 L2 N1 N2 H.
  assert (forall r0, folder_rows X ref rd dir "UserData" [g] r0 -> exists b, r0 = Ok [b] /\ file_row X ref "UserData" g m' b) as G.
  { intros r0 H0. inversion H0 as [|f1 rs1 m1 w1 l L F Rst|f1 rs1 m1 w1 er L F Rst|f1 rs1 er L|f1 rs1 m1 er L F]; subst; rewrite L2 in L; try discriminate; injection L as <-.
    - inversion Rst; subst. exists w1. split; [reflexivity|exact F].
    - inversion Rst.
    - exfalso. now apply (N2 er). }
  inversion H as [|f1 rs1 m1 w1 l L F Rst|f1 rs1 m1 w1 er L F Rst|f1 rs1 er L|f1 rs1 m1 er L F]; subst; rewrite L1 in L; try discriminate; injection L as <-.
  - destruct (G _ Rst) as (b & E & Fb). injection E as ->. exists w1, b. split; [reflexivity|]. split; [exact F|exact Fb].
  - destruct (G _ Rst) as (b & E & Fb). discriminate E.
  - exfalso. now apply (N1 er).
Qed.

Lemma C94_examples_listed_l : forall W disp yl dir fs fk dk X r u ref w v,
  shows W disp -> yaml_library W yl -> Permutation FILE_META_DATA_KEYS fk -> Permutation DATASET_META_DATA_KEYS dk ->
  (forall all x, incl all (concat (table_of (xrows table_n)) ++ concat (table_of (xrows table_k))) -> In x all -> disp all x = x) ->
  In u ["nm"; "nanometer"] -> mk_spectrum (InVals (VS (Fin r))) "wavelength" u = Ok ref ->
  401 <= r <= 699 -> rounds_for "nm" r w -> rounds_for "um" (r / 1000) v ->
  exists ops, make_examples W dir fs = (Ok tt, ops) /\
    forall C, (forall f, In f ["example_file.txt"; "example_file2.yml"] ->
        w_read C (path_join dir f) = read_path fk dk yl (fs_run fs ops) (path_join dir f) /\ w_isfile C (path_join dir f) = true) ->
      (w_listdir C dir = Ok ["example_file.txt"; "example_file2.yml"] ->
        exists a b, read_module X C ref dir "UserData" = Ok [a; b] /\ txt_row w a /\ yml_row w v b) /\
      (w_listdir C dir = Ok ["example_file2.yml"; "example_file.txt"] ->
        exists a b, read_module X C ref dir "UserData" = Ok [b; a] /\ txt_row w a /\ yml_row w v b).
Proof.
  intros W disp yl dir fs fk dk X r u ref w v HW HY Pf Pd HE Hu M0 B Rw Rv.
  assert (mk_spectrum (InVals (VS (Fin r))) "wavelength" "nm" = Ok ref) as M by (destruct Hu as [<-|[<-|[]]]; exact M0).
  destruct (C91_examples_load_l W disp yl dir fs fk dk HW HY Pf Pd HE) as (ops & m & m' & S & (L1 & D1 & b & b' & HT & T & U & T' & U' & St & Un) & (L2 & D2 & N & Cx & (b2 & ps & Hr & Hps & Hcv & T2 & U2) & (b3 & rows & Hi & Hrows & T3 & U3) & St' & Un') & _).
  exists ops. split; [exact S|]. intros C HRF.
  assert (forall f, In f ["example_file.txt"; "example_file2.yml"] -> w_isfile C (path_join dir f) = true) as HF by (intros f K; now apply HRF).
  destruct (loaded_made _ _ _ L1) as [Ma Mb]. destruct (loaded_made _ _ _ L2) as [Mc Md].
  destruct (txt_bounds m b b' HT Ma Mb T U T' U' St Un) as (_ & _ & G1).
  pose proof Hr as Hr0. pose proof Hi as Hi0.
  rewrite Hr in Mc. cbn [made] in Mc. rewrite T2, U2, <- Hr in Mc. destruct Mc as [l Mc].
  destruct (um_range _ _ _ _ Mc) as (Vl & _). assert (sp_values (d_range b2) = VA l) as Vl' by (rewrite <- Vl, Hr; reflexivity). rewrite Vl' in Hcv. cbn [elems] in Hcv.
  destruct (near_covered l Hcv) as (lo & hi & -> & Bl & Bh).
  destruct (near_k rows Hrows) as (q & -> & x1 & x2 & x3 & x4 & Eq & X1 & X2 & X3 & X4).
  rewrite Hi in Md. cbn [made] in Md. rewrite T3, U3, <- Hi in Md.
  destruct (yml_bounds m' b2 ps b3 q (lo, hi) x1 x2 x3 x4 N Cx Hr Hi Mc Md St' Un' Bl Bh Eq X1 X2 X3 X4) as (bl & bh & G2 & A1 & A2).
  destruct (yml_cells X m' b2 ps b3 q (lo, hi) x1 x2 x3 x4 ref r w v N Cx Hr Hi Mc Md Bl Bh Eq X1 X4 M B Rw Rv Hps) as (c0 & k1 & c1 & k2 & c2 & k3 & c3 & p & s & Hc & Ad & Bs & NK2).
  assert (exists o, get_nk_data X m (SObj ref) = Ok (OS o)) as [o NK1].
  { exact (proj2 (txt_cells X m ref r w NaN NaN b b' HT Ma Mb T U T' U' St Un M B Rw)). }
  assert (forall row, file_row X ref "UserData" "example_file.txt" m row -> txt_row w row) as R1.
  { intros row F. split; [now apply (words_of X ref m "example_file" ".txt" _ row (or_introl eq_refl) eq_refl)|].
    destruct F as (_ & _ & _ & _ & _ & _ & _ & _ & (bv & rest & E1 & E2) & Rc & _). rewrite G1 in E1. injection E1 as <-. cbn [elems] in E2. injection E2 as <- <- _.
    split; [reflexivity|]. split; [reflexivity|]. exact (proj1 (txt_cells X m ref r w _ _ b b' HT Ma Mb T U T' U' St Un M B Rw) Rc). }
  assert (forall row, file_row X ref "UserData" "example_file2.yml" m' row -> yml_row w v row) as R2.
  { intros row F. split; [now apply (words_of X ref m' "example_file2" ".yml" _ row (or_intror (or_introl eq_refl)) eq_refl)|].
    destruct F as (_ & _ & _ & _ & _ & _ & _ & _ & (bv & rest & E1 & E2) & Rc & _). rewrite G2 in E1. injection E1 as <-. cbn [elems] in E2. injection E2 as <- <- _.
    split; [exists bl, bh; now repeat split|].
    destruct Rc as [(o2 & E & En & Ek)|(E & _)]; rewrite NK2 in E; [injection E as <-|discriminate E]. cbn [onum_cx cx_re cx_im fst snd] in En, Ek.
    split; [exists c0, k1, c1, k2, c2, k3, c3; split; [exact Hc|exact En]|]. exists q, p, s. split; [exact Hrows|]. split; [exact Ad|]. split; [exact Bs|exact Ek]. }
  assert (loaded (w_read C) (path_join dir "example_file.txt") "wavelength" "nanometer" = Ok m) as L1' by (rewrite loaded_default, <- L1; apply material_same, HRF; cbn; tauto).
  assert (loaded (w_read C) (path_join dir "example_file2.yml") "wavelength" "nanometer" = Ok m') as L2' by (rewrite loaded_default, <- L2; apply material_same, HRF; cbn; tauto).
  assert (forall e, ~ row_error X ref m e) as F1 by (intros e K; exact (row_fails X ref m e _ _ G1 NK1 K)).
  assert (forall e, ~ row_error X ref m' e) as F2 by (intros e K; exact (row_fails X ref m' e _ _ G2 NK2 K)).
  assert (sp_values ref = VS (Fin r)) as Vr by (destruct (mk_spectrum_ok _ _ _ _ M) as (cc & vv & _ & Evv & _ & _ & _ & Ess); injection Evv as <-; exact Ess).
  assert (forall names, (names = ["example_file.txt"; "example_file2.yml"] \/ names = ["example_file2.yml"; "example_file.txt"]) -> w_listdir C dir = Ok names ->
    folder_rows X ref (w_read C) dir "UserData" names (read_module X C ref dir "UserData")) as FR.
  { intros names Hn HL. destruct (C56_listing_l X C ref (Fin r) dir "UserData" names ltac:(cbn; tauto) Vr HL) as (sel & Ps & Fs).
    - assert (plain_name "example_file.txt" /\ plain_name "example_file2.yml") as [P1 P2] by (split; repeat split; try discriminate; cbn; intros K; decompose [or] K; try contradiction; discriminate).
      destruct Hn as [-> | ->]; repeat (constructor; [assumption|]); constructor.
    - assert (supported "example_file.txt" /\ supported "example_file2.yml") as [Q1 Q2].
      { split; [exists "example_file"; exists ".txt"|exists "example_file2"; exists ".yml"]; (split; [reflexivity|]; split; [cbn; tauto|]).
        - exists "", "e"%char, "xample_file". split; [reflexivity|discriminate].
        - exists "", "e"%char, "xample_file2". split; [reflexivity|discriminate]. }
      assert (sel = names) as ->; [|exact Fs].
      assert (forall f, In f names -> w_isfile C (path_join dir f) = true /\ supported f) as All.
      { intros f Hf. destruct Hn as [-> | ->]; cbn in Hf; destruct Hf as [<-|[<-|[]]]; (split; [apply HF; cbn; tauto|assumption]). }
      clear - Ps All. induction Ps as [|f l l' Pf _ IH|f l l' Pf _ IH]; [reflexivity|f_equal; apply IH; intros g Hg; apply All; now right|exfalso; apply Pf, All; now left]. }
  split; intros HL.
  - destruct (two_files X ref (w_read C) dir _ _ m m' _ L1' L2' F1 F2 (FR _ (or_introl eq_refl) HL)) as (a & c & E & Fa & Fc). exists a, c. split; [exact E|]. split; [now apply R1|now apply R2].
  - destruct (two_files X ref (w_read C) dir _ _ m' m _ L2' L1' F2 F1 (FR _ (or_intror eq_refl) HL)) as (a & c & E & Fa & Fc). exists c, a. split; [exact E|]. split; [now apply R1|now apply R2].
Qed.
