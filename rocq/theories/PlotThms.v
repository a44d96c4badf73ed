(** Theorems about plots and printed texts (C81-C84). *)
From Coq Require Import Ascii.
From Verif Require Import PyBase PyStr XReal CNum SpectrumModel SpectrumSpec SpectrumProofs SpectralModel SpectralSpec SpectralProofs InterpProofs EvalProofs ExtrapProofs TextModel TextSpec TextProofs TableProofs MaterialModel MaterialSpec MaterialProofs MatEvalProofs MatRangeProofs MatFileProofs SpectrumThms SpectralThms MaterialThms PlotModel PlotSpec PlotProofs.
From Flocq Require Import Core.
Open Scope R_scope.
Open Scope string_scope.
Open Scope list_scope.


Lemma C81_nk_l : forall X m ot ou pv v p, gives pv v ->
  plot_nk_data X m (mkPlotArgs ot ou (Some pv)) = Ok p ->
  exists o canon, get_nk_data X m (SRaw (InVals v) (chosen ot (m_stype m)) (chosen ou (m_unit m))) = Ok o /\
    documented (lower (chosen ot (m_stype m))) (lower (chosen ou (m_unit m))) canon /\
    axis_label (lower (chosen ot (m_stype m))) canon (pl_xlabel p) /\ pl_ylabel p = "n, k" /\
    drawn (elems v) (numbers o) "n" "k" (pl_lines p).
Proof.
  intros X m ot ou pv v p G. rewrite plot_nk_unfold, (prepare_given _ _ _ _ _ _ G).
  set (t := chosen ot (m_stype m)). set (u := chosen ou (m_unit m)).
  destruct (mk_spectrum (InVals v) t u) as [s|] eqn:E; cbn [bind]; [|discriminate].
  rewrite (nk_obj _ _ _ _ _ _ E). destruct (get_nk_data X m (SRaw (InVals v) t u)) as [o|] eqn:En; cbn [bind]; [|discriminate].
  destruct (mk_spectrum_ok _ _ _ _ E) as (c & w & D & Ew & _ & E1 & E2 & E3). injection Ew as <-.
  pose proof (nk_shape _ _ _ _ En) as Sh. cbn [arg_shape] in Sh. rewrite E3.
  destruct (draw_spec v o "n" "k" Sh) as [(x & _ & ->)|(_ & ls & -> & Dr)]; cbn [bind]; [discriminate|].
  destruct (label_spec s _ _ E1 E2 (documented_canon _ _ _ D)) as [(_ & ->)|(_ & l & -> & La)]; cbn [bind]; [discriminate|].
  intros H. injection H as <-. exists o, c. auto.
Qed.

Lemma C81_nk_succeeds_l : forall X m ot ou pv v o canon, gives pv v -> is_array v ->
  get_nk_data X m (SRaw (InVals v) (chosen ot (m_stype m)) (chosen ou (m_unit m))) = Ok o ->
  documented (lower (chosen ot (m_stype m))) (lower (chosen ou (m_unit m))) canon -> canon <> "cm" ->
  exists p, plot_nk_data X m (mkPlotArgs ot ou (Some pv)) = Ok p.
Proof.
  intros X m ot ou pv v o c G A En D N. rewrite plot_nk_unfold, (prepare_given _ _ _ _ _ _ G).
  destruct (mk_spectrum (InVals v) _ _) as [s|] eqn:E; cbn [bind]; [|revert En; unfold get_nk_data; rewrite E; discriminate].
  rewrite (nk_obj _ _ _ _ _ _ E), En. cbn [bind].
  destruct (mk_spectrum_ok _ _ _ _ E) as (c' & w & D' & Ew & _ & E1 & E2 & E3). injection Ew as <-.
  pose proof (documented_fun _ _ _ _ D D') as <-.
  pose proof (nk_shape _ _ _ _ En) as Sh. cbn [arg_shape] in Sh. rewrite E3.
  destruct (draw_spec v o "n" "k" Sh) as [(x & -> & _)|(_ & ls & -> & Dr)]; cbn [bind]; [now destruct (A x)|].
  destruct (label_spec s _ _ E1 E2 (documented_canon _ _ _ D)) as [(Nc & _)|(_ & l & -> & La)]; cbn [bind]; [contradiction|]. eauto.
Qed.

Lemma C81_error_l : forall X m ot ou pv v e, gives pv v ->
  get_nk_data X m (SRaw (InVals v) (chosen ot (m_stype m)) (chosen ou (m_unit m))) = Raise e ->
  plot_nk_data X m (mkPlotArgs ot ou (Some pv)) = Raise e.
Proof.
  intros X m ot ou pv v e G En. rewrite plot_nk_unfold, (prepare_given _ _ _ _ _ _ G).
  destruct (mk_spectrum (InVals v) _ _) as [s|] eqn:E; cbn [bind].
  - rewrite (nk_obj _ _ _ _ _ _ E), En. reflexivity.
  - revert En. unfold get_nk_data. rewrite E. cbn [bind]. congruence.
Qed.

Lemma C81_float_refuted_l : forall X m ot ou x o,
  get_nk_data X m (SRaw (InVals (VS x)) (chosen ot (m_stype m)) (chosen ou (m_unit m))) = Ok o ->
  plot_nk_data X m (mkPlotArgs ot ou (Some (PVal (InVals (VS x))))) = Raise AttributeError.
Proof.
  intros X m ot ou x o En. rewrite plot_nk_unfold, (prepare_given X m ot ou _ (VS x)) by (right; reflexivity).
  destruct (mk_spectrum (InVals (VS x)) _ _) as [s|] eqn:E; cbn [bind]; [|revert En; unfold get_nk_data; rewrite E; discriminate].
  rewrite (nk_obj _ _ _ _ _ _ E), En. cbn [bind].
  destruct (mk_spectrum_ok _ _ _ _ E) as (c & w & _ & Ew & _ & _ & _ & E3). injection Ew as <-. rewrite E3. reflexivity.
Qed.

Lemma C81_centimetre_refuted_l : forall X m ot ou pv v o, gives pv v -> is_array v ->
  get_nk_data X m (SRaw (InVals v) (chosen ot (m_stype m)) (chosen ou (m_unit m))) = Ok o ->
  documented (lower (chosen ot (m_stype m))) (lower (chosen ou (m_unit m))) "cm" ->
  plot_nk_data X m (mkPlotArgs ot ou (Some pv)) = Raise KeyError.
Proof.
  intros X m ot ou pv v o G A En D. rewrite plot_nk_unfold, (prepare_given _ _ _ _ _ _ G).
  destruct (mk_spectrum (InVals v) _ _) as [s|] eqn:E; cbn [bind]; [|revert En; unfold get_nk_data; rewrite E; discriminate].
  rewrite (nk_obj _ _ _ _ _ _ E), En. cbn [bind].
  destruct (mk_spectrum_ok _ _ _ _ E) as (c' & w & D' & Ew & _ & E1 & E2 & E3). injection Ew as <-.
  pose proof (documented_fun _ _ _ _ D D') as <-.
  pose proof (nk_shape _ _ _ _ En) as Sh. cbn [arg_shape] in Sh. rewrite E3.
  destruct (draw_spec v o "n" "k" Sh) as [(x & -> & _)|(_ & ls & -> & Dr)]; cbn [bind]; [now destruct (A x)|].
  destruct (label_spec s _ _ E1 E2 (documented_canon _ _ _ D)) as [(_ & ->)|(Nc & _)]; cbn [bind]; [reflexivity|now destruct Nc].
Qed.

Lemma C81_sampled_l : forall X m ot ou plotter, plotter = plot_nk_data X m \/ plotter = plot_permittivity X m ->
  plotter (mkPlotArgs ot ou None) =
  (do s <- get_sample_spectrum X m;
   do v <- convert_to s (chosen ot (m_stype m)) (chosen ou (m_unit m));
   plotter (mkPlotArgs ot ou (Some (PVal (InVals v))))).
Proof.
  intros X m ot ou f [-> | ->]; rewrite ?plot_nk_unfold, ?plot_eps_unfold; unfold prepare_plot_data; cbn [pa_values pa_type pa_unit]; unfold chosen;
  (destruct (get_sample_spectrum X m) as [s|]; cbn [bind]; [|reflexivity]);
  (destruct (convert_to s _ _) as [v|]; cbn [bind]; [|reflexivity]); rewrite ?plot_nk_unfold, ?plot_eps_unfold; reflexivity.
Qed.

Lemma C82_permittivity_l : forall X m ot ou pv v p, gives pv v ->
  plot_permittivity X m (mkPlotArgs ot ou (Some pv)) = Ok p ->
  exists s o t canon xs,
    mk_spectrum (InVals v) (chosen ot (m_stype m)) (chosen ou (m_unit m)) = Ok s /\
    get_permittivity X m (SRaw (InVals v) (chosen ot (m_stype m)) (chosen ou (m_unit m))) = Ok o /\
    documented t canon canon /\ axis_label t canon (pl_xlabel p) /\ pl_ylabel p = "eps_r, eps_i" /\
    drawn (elems xs) (numbers o) "eps_r" "eps_i" (pl_lines p) /\
    ((xs = v /\ t = lower (chosen ot (m_stype m)) /\ documented t (lower (chosen ou (m_unit m))) canon) \/
     convert_to s t canon = Ok xs).
Proof.
  intros X m ot ou pv v p G. rewrite plot_eps_unfold, (prepare_given _ _ _ _ _ _ G).
  set (t := chosen ot (m_stype m)). set (u := chosen ou (m_unit m)).
  destruct (mk_spectrum (InVals v) t u) as [s|] eqn:E; cbn [bind]; [|discriminate].
  destruct (get_permittivity_obj X m s) as [d s'] eqn:Ep. destruct d as [o|]; cbn [bind]; [|discriminate].
  destruct (mk_spectrum_ok _ _ _ _ E) as (c & w & D & Ew & _ & E1 & E2 & E3). injection Ew as <-.
  pose proof (mk_spectrum_regular _ _ _ _ E) as Rg.
  destruct (eps_regular _ _ _ _ _ Rg Ep) as [_ Sh']. pose proof (eps_shape_obj _ _ _ _ _ Rg Ep) as Sh. rewrite <- Sh' in Sh.
  destruct (draw_spec _ o "eps_r" "eps_i" Sh) as [(x & _ & ->)|(_ & ls & -> & Dr)]; cbn [bind]; [discriminate|].
  assert (Dc : documented (sp_type s') (sp_unit s') (sp_unit s')).
  { destruct (eps_moved _ _ _ _ _ Ep) as [-> |(t1 & c1 & w1 & D1 & _ & ->)]; [|exact D1]. rewrite E1, E2. eapply documented_canon, D. }
  destruct (label_spec s' _ _ eq_refl eq_refl Dc) as [(_ & ->)|(_ & l & -> & La)]; cbn [bind]; [discriminate|].
  intros H. injection H as <-. exists s, o, (sp_type s'), (sp_unit s'), (sp_values s').
  split; [reflexivity|]. split; [unfold get_permittivity; fold t u; rewrite E; cbn [bind]; now rewrite Ep|].
  split; [assumption|]. split; [assumption|]. split; [reflexivity|]. split; [assumption|].
  { destruct (eps_moved _ _ _ _ _ Ep) as [-> |(t1 & c1 & w1 & D1 & C1 & ->)]; [left|right; exact C1].
    rewrite E1, E2, E3. auto. }
Qed.

Lemma C82_requested_axis_l : forall X m ot ou pv v p, gives pv v -> parts_not_extended m ->
  plot_permittivity X m (mkPlotArgs ot ou (Some pv)) = Ok p ->
  exists o canon,
    get_permittivity X m (SRaw (InVals v) (chosen ot (m_stype m)) (chosen ou (m_unit m))) = Ok o /\
    documented (lower (chosen ot (m_stype m))) (lower (chosen ou (m_unit m))) canon /\
    axis_label (lower (chosen ot (m_stype m))) canon (pl_xlabel p) /\
    drawn (elems v) (numbers o) "eps_r" "eps_i" (pl_lines p).
Proof.
  intros X m ot ou pv v p G N. rewrite plot_eps_unfold, (prepare_given _ _ _ _ _ _ G).
  set (t := chosen ot (m_stype m)). set (u := chosen ou (m_unit m)).
  destruct (mk_spectrum (InVals v) t u) as [s|] eqn:E; cbn [bind]; [|discriminate].
  pose proof (eps_same X m s N) as Es.
  destruct (get_permittivity_obj X m s) as [d s'] eqn:Ep. cbn [snd] in Es. subst s'. destruct d as [o|]; cbn [bind]; [|discriminate].
  destruct (mk_spectrum_ok _ _ _ _ E) as (c & w & D & Ew & _ & E1 & E2 & E3). injection Ew as <-.
  pose proof (eps_shape_obj _ _ _ _ _ (mk_spectrum_regular _ _ _ _ E) Ep) as Sh. rewrite E3 in *.
  destruct (draw_spec _ o "eps_r" "eps_i" Sh) as [(x & _ & ->)|(_ & ls & -> & Dr)]; cbn [bind]; [discriminate|].
  destruct (label_spec s _ _ E1 E2 (documented_canon _ _ _ D)) as [(_ & ->)|(_ & l & -> & La)]; cbn [bind]; [discriminate|].
  intros H. injection H as <-. exists o, c.
  split; [unfold get_permittivity; fold t u; rewrite E; cbn [bind]; now rewrite Ep|]. auto.
Qed.

Lemma C82_extrapolated_refuted_l : forall X m base ext order ext' ot ou pv v s p canon, gives pv v ->
  m_complex m = None -> mk_extrapolation X base ext order = (Ok (m_real m), ext') -> not_extended (m_imag m) ->
  documented (lower (d_type (dbase_of base))) (d_unit (dbase_of base)) canon ->
  mk_spectrum (InVals v) (chosen ot (m_stype m)) (chosen ou (m_unit m)) = Ok s ->
  contains (valid_range base) s = Raise ValueError ->
  plot_permittivity X m (mkPlotArgs ot ou (Some pv)) = Ok p ->
  axis_label (lower (d_type (dbase_of base))) canon (pl_xlabel p).
Proof.
  intros X m base ext order ext' ot ou pv v s p c G Mc Me Ni D E Ct. rewrite plot_eps_unfold, (prepare_given _ _ _ _ _ _ G), E. cbn [bind].
  destruct (get_permittivity_obj X m s) as [d s'] eqn:Ep. destruct d as [o|]; cbn [bind]; [|discriminate].
  destruct (draw (sp_values s') o "eps_r" "eps_i") as [ls|]; cbn [bind]; [|discriminate].
  assert (S' : sp_type s' = lower (d_type (dbase_of base)) /\ sp_unit s' = c).
  { revert Ep. unfold get_permittivity_obj, complex_value. rewrite Mc. destruct (negb (valid_name m)); [discriminate|].
    destruct (convert_to s (d_type (dbase_of base)) (d_unit (dbase_of base))) as [ov|] eqn:Ec.
    - pose proof (C22_evaluate_converts_l X base ext order (m_real m) ext' s c ov Me Ct D Ec) as Sr.
      destruct (evaluate X (m_real m) s) as [[re|] s1]; cbn [snd] in Sr; subst s1; [|discriminate].
      pose proof (eval_same X (m_imag m) (mkSp (lower (d_type (dbase_of base))) c ov (sp_std s)) Ni) as Si.
      destruct (evaluate X (m_imag m) _) as [[im|] s2]; cbn [snd] in Si; subst s2; [|discriminate].
      intros H. injection H as _ <-. auto.
    - destruct (mk_ext_inv _ _ _ _ _ _ Me) as (er & mn & mx & b & spl & _ & _ & _ & _ & Eb & Er).
      unfold mk_base in Eb. destruct (mk_spectrum (InVals (VA [mn; mx])) _ _) as [rr|]; [|discriminate Eb]. cbn [bind] in Eb. injection Eb as <-.
      rewrite Er. cbn [evaluate d_type d_unit]. rewrite Ct, in_place_spec, Ec. cbn. discriminate. }
  destruct S' as [S1 S2].
  destruct (label_spec s' _ _ S1 S2 (documented_canon _ _ _ D)) as [(_ & ->)|(_ & l & -> & La)]; cbn [bind]; [discriminate|].
  intros H. injection H as <-. exact La.
Qed.

(** the parts of a material given by a table *)
Lemma table_parts rd kw src n rows t u canon :
  In (src, n) [("tabulated_nk", 3%nat); ("tabulated_eps", 3%nat); ("tabulated_n", 2%nat)] ->
  call kw src (PArr (ND2 n (to_xr rows))) t u -> table_ok n rows -> (2 <= length rows)%nat -> documented (lower t) (lower u) canon ->
  exists m, mk_material rd kw = Ok m /\ valid_name m = true /\ m_complex m = None /\ m_stype m = t /\ m_unit m = u /\
    own_table (map (fun r => (nth 0 r 0, nth 1 r 0)) rows) t u (m_real m) /\
    same_rows (map (fun r => (nth 0 r 0, nth 1 r 0)) rows) (map (fun r => (nth 0 r 0, nth 2 r 0)) rows) t u (m_imag m).
Proof.
  intros I Cl T L D.
  assert (Tb : forall j d, tabulated (column j rows) t u d -> own_table (map (fun r => (nth 0 r 0, nth j r 0)) rows) t u d).
  { intros j d. unfold own_table, column. rewrite map_map. cbn [fst snd]. destruct rows as [|r1 [|r2 rs]]; cbn in L; try lia. cbn [map tabulated]. auto. }
  assert (Nm : forall m, m_name m = "nk" \/ m_name m = "eps" -> valid_name m = true) by (intros m [H|H]; unfold valid_name; rewrite H; reflexivity).
  destruct I as [I|[I|[I|[]]]]; injection I as <- <-.
  - destruct (C26_table_nk_eps_l rd kw "tabulated_nk" "nk" rows t u canon ltac:(cbn; auto) Cl T D) as (m & E & N & Mc & Mt & Mu & T1 & T2).
    exists m. repeat apply conj; auto. left. split; [auto|]. now rewrite !map_map.
  - destruct (C26_table_nk_eps_l rd kw "tabulated_eps" "eps" rows t u canon ltac:(cbn; auto) Cl T D) as (m & E & N & Mc & Mt & Mu & T1 & T2).
    exists m. repeat apply conj; auto. left. split; [auto|]. now rewrite !map_map.
  - destruct (C26_table_n_l rd kw rows t u canon Cl T D) as (m & E & N & Mc & Mt & Mu & T1 & T2).
    exists m. repeat apply conj; auto. now right.
Qed.

Lemma C83_default_l : forall X rd kw src n rows t u canon,
  geomspace_exact X ->
  In (src, n) [("tabulated_nk", 3%nat); ("tabulated_eps", 3%nat); ("tabulated_n", 2%nat)] ->
  call kw src (PArr (ND2 n (to_xr rows))) t u -> table_ok n rows -> (2 <= length rows)%nat ->
  documented (lower t) u canon -> lower t <> "wavenumber" -> canon <> "cm" ->
  Forall (fun x => 0 < x /\ resolved (lower t) canon x) (map (fun r => nth 0 r 0) rows) ->
  (forall x, In x (map (fun r => nth 0 r 0) rows) ->
     (forall y, In y (map (fun r => nth 0 r 0) rows) -> x <= y) \/ (forall y, In y (map (fun r => nth 0 r 0) rows) -> y <= x) ->
     rounds_for canon x x) ->
  exists m p ws o, mk_material rd kw = Ok m /\
    plot_nk_data X m (mkPlotArgs None None None) = Ok p /\
    length ws = 1000%nat /\
    Forall (fun w => (exists x, In x (map (fun r => nth 0 r 0) rows) /\ x <= w) /\ exists x, In x (map (fun r => nth 0 r 0) rows) /\ w <= x) ws /\
    get_nk_data X m (SRaw (InVals (VA (map Fin ws))) t u) = Ok o /\
    axis_label (lower t) canon (pl_xlabel p) /\
    drawn (map Fin ws) (numbers o) "n" "k" (pl_lines p).
Proof.
  intros X rd kw src n rows t u canon G In Cl T L2 D Nw Nc P Ends.
  assert (Lu : lower u = u) by apply (documented_lower _ _ _ D).
  assert (Du : documented (lower t) (lower u) canon) by (now rewrite Lu).
  destruct (table_parts rd kw src n rows t u canon In Cl T L2 Du) as (m & Em & V & Mc & Mt & Mu & Tr & Ti).
  set (l := map (fun r => (nth 0 r 0, nth 1 r 0)) rows) in *. set (lk := map (fun r => (nth 0 r 0, nth 2 r 0)) rows) in *.
  assert (Ef : map fst l = map (fun r => nth 0 r 0) rows) by (unfold l; now rewrite map_map).
  rewrite <- Ef in *.
  destruct (default_plot_ok X m l lk t u canon V Mc Mt Mu Tr Ti D Nw) as (ws & o & Lw & Bw & (s & Gs & Cs) & Gn).
  - rewrite Forall_map in P. exact P.
  - intros r Hr K. apply Ends; [now apply in_map|]. destruct K as [K|K]; [left|right]; intros y Hy; apply in_map_iff in Hy; destruct Hy as (q & <- & Hq); auto.
  - exact G.
  - assert (Gv : gives (PVal (InVals (VA (map Fin ws)))) (VA (map Fin ws))) by (right; reflexivity).
    assert (Gn' : get_nk_data X m (SRaw (InVals (VA (map Fin ws))) (chosen None (m_stype m)) (chosen None (m_unit m))) = Ok o)
      by (unfold chosen; now rewrite Mt, Mu).
    destruct (C81_nk_succeeds_l X m None None _ _ o canon Gv ltac:(intros x; discriminate) Gn') as (p & Hp);
      [unfold chosen; now rewrite Mt, Mu|exact Nc|].
    destruct (C81_nk_l X m None None _ _ p Gv Hp) as (o' & c & Go & Dc & La & _ & Dr).
    rewrite Gn' in Go. injection Go as <-. unfold chosen in Dc, La. rewrite Mt, Mu in *. pose proof (documented_fun _ _ _ _ Du Dc) as <-.
    exists m, p, ws, o. split; [exact Em|]. split.
    { rewrite (C81_sampled_l X m None None (plot_nk_data X m) (or_introl eq_refl)), Gs. cbn [bind]. unfold chosen. rewrite Mt, Mu, Cs. exact Hp. }
    split; [exact Lw|]. split.
    { eapply Forall_impl; [|exact Bw]. intros w ((a & I1 & A1) & (b & I2 & A2)). split; [exists (fst a)|exists (fst b)]; (split; [now apply in_map|assumption]). }
    auto.
Qed.

Lemma C83_other_unit_refuted_l : forall X rd, geomspace_exact X -> exists m,
  mk_material rd [("tabulated_n", PArr (ND2 2 (to_xr [[400; 1.5]; [800; 1.6]])))] = Ok m /\
  plot_nk_data X m (mkPlotArgs (Some "energy") (Some "ev") None) = Raise ValueError.
Proof.
  intros X rd G. set (rows := [[400; 1.5]; [800; 1.6]]).
  assert (D : documented "wavelength" "nanometer" "nm") by (exists ["nanometer"; "nanometre"; "nm"]; cbn; auto 10).
  destruct (table_parts rd [("tabulated_n", PArr (ND2 2 (to_xr rows)))] "tabulated_n" 2 rows "wavelength" "nanometer" "nm")
    as (m & Em & V & Mc & Mt & Mu & Tr & Ti).
  - cbn; auto.
  - unfold rows. a_call.
  - split; [discriminate|]. split; [repeat constructor|]. cbn. repeat constructor; cbn; intuition lra.
  - cbn; lia.
  - exact D.
  - exists m. split; [exact Em|]. rewrite (C81_sampled_l X m _ _ (plot_nk_data X m) (or_introl eq_refl)).
    cbn [map nth rows] in Tr, Ti.
    destruct (default_plot_ok X m _ _ "wavelength" "nanometer" "nm" V Mc Mt Mu Tr Ti D ltac:(discriminate)) as (ws & o & _ & _ & (s & Gs & Cs) & _).
    { apply Forall_forall. intros r [<-|[<-|[]]]; cbn [fst]; (split; [lra|]); intros H; cbn in H; intuition discriminate. }
    { intros r Hr _. assert (exists z, fst r = IZR z) as (z & ->) by (destruct Hr as [<-|[<-|[]]]; cbn [fst]; eauto). apply rounds_for_int. }
    { exact G. }
    destruct (energy_plot_fails X m [(400, 1.5); (800, 1.6)] [(400, 0); (800, 0)] V Mc Mt) with (s := s) as (v & Cv & Gn); try eassumption; rewrite ?Mu; try eassumption.
    { intros r [<-|[<-|[]]]; cbn [fst]; lra. }
    { eexists. split; [left; reflexivity|reflexivity]. }
    { eexists. split; [right; left; reflexivity|reflexivity]. }
    rewrite Gs. cbn [bind]. unfold chosen. rewrite Cv. cbn [bind]. eapply C81_error_l; [right; reflexivity|exact Gn].
Qed.

Lemma C83_case_refuted_l : forall X m plotter, plotter = plot_nk_data X m \/ plotter = plot_permittivity X m ->
  m_name m = "nk" \/ m_name m = "eps" -> lower (m_unit m) <> m_unit m ->
  get_maximum_valid_range m = Raise ValueError /\ get_sample_spectrum X m = Raise ValueError /\
  plotter (mkPlotArgs None None None) = Raise ValueError.
Proof.
  intros X m f F Nm N. assert (V : valid_name m = true) by (destruct Nm as [H|H]; unfold valid_name; rewrite H; reflexivity).
  assert (G : get_sample_spectrum X m = Raise ValueError) by (unfold get_sample_spectrum; now rewrite (upper_case_range m V N)).
  split; [now apply upper_case_range|]. split; [exact G|]. now rewrite (C81_sampled_l X m None None f F), G.
Qed.

Lemma C84_printed_l : forall m meta key text printer,
  In (key, printer) [("Reference", print_reference); ("Comment", print_comment)] ->
  m_meta m = Some meta -> dget meta key = Some (MStr text) ->
  exists line, printer m = Ok line /\ ascii_text line /\
    list_ascii_of_string line = filter (fun c => (nat_of_ascii c <? 128)%nat) (list_ascii_of_string text) /\
    (ascii_text text -> line = text).
Proof.
  intros m meta key text printer I Em Ek. exists (utf8_to_ascii text).
  assert (printer m = Ok (utf8_to_ascii text)) as ->.
  { destruct I as [I|[I|[]]]; injection I as <- <-; unfold print_reference, print_comment, print_meta; now rewrite Em, Ek. }
  split; [reflexivity|]. split; [apply ascii_only|]. split; [apply ascii_filter|apply ascii_same].
Qed.

Lemma C84_missing_refuted_l : forall m key printer,
  In (key, printer) [("Reference", print_reference); ("Comment", print_comment)] ->
  (m_meta m = None -> printer m = Raise AttributeError) /\
  forall meta, m_meta m = Some meta ->
    (dget meta key = None -> printer m = Raise KeyError) /\
    (forall v, dget meta key = Some v -> (forall text, v <> MStr text) -> printer m = Raise TypeError).
Proof.
  intros m key printer I. destruct I as [I|[I|[]]]; injection I as <- <-; unfold print_reference, print_comment, print_meta;
  (split; [now intros ->|]; intros meta ->; split; [now intros ->|]; intros v -> N; destruct v; try reflexivity; now destruct (N s)).
Qed.
