(** Theorems about plots and printed texts (C81-C84). *)
From Coq Require Import Ascii.
From Verif Require Import PyBase PyStr XReal CNum SpectrumModel SpectrumSpec SpectrumProofs SpectralModel SpectralSpec SpectralProofs InterpProofs EvalProofs ExtrapProofs TextModel TextSpec TextProofs TableProofs MaterialModel MaterialSpec MaterialProofs MatEvalProofs MatRangeProofs MatFileProofs SpectrumThms SpectralThms MaterialThms PlotModel PlotSpec PlotProofs.
From Flocq Require Import Core.
From Verif Require Import PlotThms.
Open Scope R_scope.
Open Scope string_scope.
Open Scope list_scope.

(** C81: a refractive index plot shows exactly get_nk_data at the given values, against these
    values, on an axis labelled with the requested type and unit *)
Theorem C81_nk : forall X m ot ou pv v p, gives pv v ->
  plot_nk_data X m (mkPlotArgs ot ou (Some pv)) = Ok p ->
  exists o canon, get_nk_data X m (SRaw (InVals v) (chosen ot (m_stype m)) (chosen ou (m_unit m))) = Ok o /\
    documented (lower (chosen ot (m_stype m))) (lower (chosen ou (m_unit m))) canon /\
    axis_label (lower (chosen ot (m_stype m))) canon (pl_xlabel p) /\ pl_ylabel p = "n, k" /\
    drawn (elems v) (numbers o) "n" "k" (pl_lines p).
Proof. exact C81_nk_l. Qed.
Print Assumptions C81_nk.

(** C81: and whenever the data can be evaluated at an array of values, it is plotted, unless the
    unit is the centimetre *)
Theorem C81_nk_succeeds : forall X m ot ou pv v o canon, gives pv v -> is_array v ->
  get_nk_data X m (SRaw (InVals v) (chosen ot (m_stype m)) (chosen ou (m_unit m))) = Ok o ->
  documented (lower (chosen ot (m_stype m))) (lower (chosen ou (m_unit m))) canon -> canon <> "cm" ->
  exists p, plot_nk_data X m (mkPlotArgs ot ou (Some pv)) = Ok p.
Proof. exact C81_nk_succeeds_l. Qed.
Print Assumptions C81_nk_succeeds.

(** C81: nothing is plotted where the data cannot be evaluated; the error is passed on *)
Theorem C81_error : forall X m ot ou pv v e, gives pv v ->
  get_nk_data X m (SRaw (InVals v) (chosen ot (m_stype m)) (chosen ou (m_unit m))) = Raise e ->
  plot_nk_data X m (mkPlotArgs ot ou (Some pv)) = Raise e.
Proof. exact C81_error_l. Qed.
Print Assumptions C81_error.

(** C81: a single float cannot be plotted, although it can be evaluated *)
Theorem C81_float_refuted : forall X m ot ou x o,
  get_nk_data X m (SRaw (InVals (VS x)) (chosen ot (m_stype m)) (chosen ou (m_unit m))) = Ok o ->
  plot_nk_data X m (mkPlotArgs ot ou (Some (PVal (InVals (VS x))))) = Raise AttributeError.
Proof. exact C81_float_refuted_l. Qed.
Print Assumptions C81_float_refuted.

(** C81: nor can anything in centimetres *)
Theorem C81_centimetre_refuted : forall X m ot ou pv v o, gives pv v -> is_array v ->
  get_nk_data X m (SRaw (InVals v) (chosen ot (m_stype m)) (chosen ou (m_unit m))) = Ok o ->
  documented (lower (chosen ot (m_stype m))) (lower (chosen ou (m_unit m))) "cm" ->
  plot_nk_data X m (mkPlotArgs ot ou (Some pv)) = Raise KeyError.
Proof. exact C81_centimetre_refuted_l. Qed.
Print Assumptions C81_centimetre_refuted.

(** C81: without values, the plot is that of the sample spectrum of the material, converted to
    the requested type and unit *)
Theorem C81_sampled : forall X m ot ou plotter, plotter = plot_nk_data X m \/ plotter = plot_permittivity X m ->
  plotter (mkPlotArgs ot ou None) =
  (do s <- get_sample_spectrum X m;
   do v <- convert_to s (chosen ot (m_stype m)) (chosen ou (m_unit m));
   plotter (mkPlotArgs ot ou (Some (PVal (InVals v))))).
Proof. exact C81_sampled_l. Qed.
Print Assumptions C81_sampled.

Example C81_instance X rd : exists m p,
  mk_material rd [("fixed_nk", PComplex (CF (1.5, 0.2)))] = Ok m /\
  plot_nk_data X m (mkPlotArgs (Some "energy") (Some "eV") (Some (PSeq (VA [Fin 1; Fin 0; PInf])))) = Ok p /\
  pl_lines p = [Curve [Fin 1; Fin 0; PInf] [Fin 1.5; Fin 1.5; Fin 1.5] "n" false; Curve [Fin 1; Fin 0; PInf] [Fin 0.2; Fin 0.2; Fin 0.2] "k" true] /\
  pl_xlabel p = "energy (eV)".
Proof.
  destruct (C27_fixed_nk_l X rd [("fixed_nk", PComplex (CF (1.5, 0.2)))] "fixed_nk" (PComplex (CF (1.5, 0.2))) (1.5, 0.2) "wavelength" "nanometer")
    as (m & E & H); [a_call|right; auto|].
  destruct (H (VA [Fin 1; Fin 0; PInf]) "energy" "eV" "ev" documented_ev) as [G _].
  { split; [|split; [discriminate|discriminate]]. unfold vnn. cbn [elems].
    constructor; [cbn; lra|]. constructor; [cbn; lra|]. constructor; [exact I|constructor]. }
  exists m.
  assert (A : is_array (VA [Fin 1; Fin 0; PInf])) by (intros x; discriminate).
  assert (Gv : gives (PSeq (VA [Fin 1; Fin 0; PInf])) (VA [Fin 1; Fin 0; PInf])) by (left; reflexivity).
  destruct (C81_nk_succeeds X m (Some "energy") (Some "eV") _ _ _ "ev" Gv A G documented_ev ltac:(discriminate)) as (p & P).
  exists p. split; [exact E|]. split; [exact P|].
  destruct (C81_nk X m _ _ _ _ p Gv P) as (o & c & Go & D & L & _ & Dr).
  unfold chosen in Go, D, L. pose proof (documented_fun _ _ _ _ documented_ev D) as <-.
  rewrite G in Go. injection Go as <-. destruct Dr as [_ Dr]. split; [exact Dr|].
  destruct L as (d & I & ->). cbn in I. repeat (destruct I as [I|I]; [inversion I; try reflexivity|]); contradiction.
Qed.

(** C82: a permittivity plot shows exactly get_permittivity at the given values; the positions
    are the given values on an axis of the requested type and unit, or these values converted to
    the type and unit on the axis *)
Theorem C82_permittivity : forall X m ot ou pv v p, gives pv v ->
  plot_permittivity X m (mkPlotArgs ot ou (Some pv)) = Ok p ->
  exists s o t canon xs,
    mk_spectrum (InVals v) (chosen ot (m_stype m)) (chosen ou (m_unit m)) = Ok s /\
    get_permittivity X m (SRaw (InVals v) (chosen ot (m_stype m)) (chosen ou (m_unit m))) = Ok o /\
    documented t canon canon /\ axis_label t canon (pl_xlabel p) /\ pl_ylabel p = "eps_r, eps_i" /\
    drawn (elems xs) (numbers o) "eps_r" "eps_i" (pl_lines p) /\
    ((xs = v /\ t = lower (chosen ot (m_stype m)) /\ documented t (lower (chosen ou (m_unit m))) canon) \/
     convert_to s t canon = Ok xs).
Proof. exact C82_permittivity_l. Qed.
Print Assumptions C82_permittivity.

(** C82: nothing is converted when no part of the data was extrapolated *)
Theorem C82_requested_axis : forall X m ot ou pv v p, gives pv v -> parts_not_extended m ->
  plot_permittivity X m (mkPlotArgs ot ou (Some pv)) = Ok p ->
  exists o canon,
    get_permittivity X m (SRaw (InVals v) (chosen ot (m_stype m)) (chosen ou (m_unit m))) = Ok o /\
    documented (lower (chosen ot (m_stype m))) (lower (chosen ou (m_unit m))) canon /\
    axis_label (lower (chosen ot (m_stype m))) canon (pl_xlabel p) /\
    drawn (elems v) (numbers o) "eps_r" "eps_i" (pl_lines p).
Proof. exact C82_requested_axis_l. Qed.
Print Assumptions C82_requested_axis.

(** C82: data extrapolated beyond the range of a table is plotted in the unit of the table,
    whatever was requested *)
Theorem C82_extrapolated_refuted : forall X m base ext order ext' ot ou pv v s p canon, gives pv v ->
  m_complex m = None -> mk_extrapolation X base ext order = (Ok (m_real m), ext') -> not_extended (m_imag m) ->
  documented (lower (d_type (dbase_of base))) (d_unit (dbase_of base)) canon ->
  mk_spectrum (InVals v) (chosen ot (m_stype m)) (chosen ou (m_unit m)) = Ok s ->
  contains (valid_range base) s = Raise ValueError ->
  plot_permittivity X m (mkPlotArgs ot ou (Some pv)) = Ok p ->
  axis_label (lower (d_type (dbase_of base))) canon (pl_xlabel p).
Proof. exact C82_extrapolated_refuted_l. Qed.
Print Assumptions C82_extrapolated_refuted.

(** 2.5 and 3 m, requested in micrometres, from a table of 1 and 2 m extended to 3 m *)
Example C82_instance : exists m s m' p,
  mk_material (fun _ => Raise OSError) [("tabulated_n", PArr (ND2 2 (to_xr [[1; 10]; [2; 20]]))); ("unit", PStr "m")] = Ok m /\
  mk_spectrum (InVals (VS (Fin 3))) "wavelength" "m" = Ok s /\ fst (extrapolate toy_scipy m s 1) = (Ok tt, m') /\
  plot_permittivity toy_scipy m' (mkPlotArgs (Some "wavelength") (Some "um") (Some (PSeq (VA [Fin (25 * 10 ^ 5); Fin (3 * 10 ^ 6)])))) = Ok p /\
  pl_xlabel p = "wavelength (m)".
Proof.
  do 4 eexists. split; [rcv; reflexivity|]. split; [rcv; reflexivity|]. split; [rcv; reflexivity|]. split.
  - rcv. reflexivity.
  - rcv. reflexivity.
Qed.

(** C83: a table of refractive indices, plotted without any argument: the 1000 positions lie
    within the table, the values are those of get_nk_data *)
Theorem C83_default : forall X rd kw src n rows t u canon,
  geomspace_exact X ->
  In (src, n) [("tabulated_nk", 3%nat); ("tabulated_eps", 3%nat); ("tabulated_n", 2%nat)] ->
  call kw src (PArr (ND2 n (to_xr rows))) t u -> table_ok n rows -> (2 <= length rows)%nat ->
  documented (lower t) u canon -> lower t <> "wavenumber" -> canon <> "cm" ->
  Forall (fun x => 0 < x /\ resolved (lower t) canon x) (map (fun r => nth 0 r 0) rows) ->
  (forall x, In x (map (fun r => nth 0 r 0) rows) ->
     (forall y, In y (map (fun r => nth 0 r 0) rows) -> x <= y) \/ (forall y, In y (map (fun r => nth 0 r 0) rows) -> y <= x) ->
     rounds_for canon x x) ->
  exists m p ws o, mk_material rd kw = Ok m /\
    plot_nk_data X m (mkPlotArgs None None None) = Ok p /\
    length ws = 1000%nat /\
    Forall (fun w => (exists x, In x (map (fun r => nth 0 r 0) rows) /\ x <= w) /\ exists x, In x (map (fun r => nth 0 r 0) rows) /\ w <= x) ws /\
    get_nk_data X m (SRaw (InVals (VA (map Fin ws))) t u) = Ok o /\
    axis_label (lower t) canon (pl_xlabel p) /\
    drawn (map Fin ws) (numbers o) "n" "k" (pl_lines p).
Proof. exact C83_default_l. Qed.
Print Assumptions C83_default.

(** C83: but with another type than that of the table, the positions are rounded twice and may
    fall outside the table: this plot fails *)
Theorem C83_other_unit_refuted : forall X rd, geomspace_exact X -> exists m,
  mk_material rd [("tabulated_n", PArr (ND2 2 (to_xr [[400; 1.5]; [800; 1.6]])))] = Ok m /\
  plot_nk_data X m (mkPlotArgs (Some "energy") (Some "ev") None) = Raise ValueError.
Proof. exact C83_other_unit_refuted_l. Qed.
Print Assumptions C83_other_unit_refuted.

(** C83: and a material whose unit is not written in lower case has no sample spectrum and
    cannot be plotted without values *)
Theorem C83_case_refuted : forall X m plotter, plotter = plot_nk_data X m \/ plotter = plot_permittivity X m ->
  m_name m = "nk" \/ m_name m = "eps" -> lower (m_unit m) <> m_unit m ->
  get_maximum_valid_range m = Raise ValueError /\ get_sample_spectrum X m = Raise ValueError /\
  plotter (mkPlotArgs None None None) = Raise ValueError.
Proof. exact C83_case_refuted_l. Qed.
Print Assumptions C83_case_refuted.

Example C83_instance : exists m p, mk_material (fun _ => Raise OSError) [("tabulated_n", PArr (ND2 2 (to_xr [[400; 1.5]; [800; 1.6]])))] = Ok m /\
  plot_nk_data step_scipy m (mkPlotArgs None None None) = Ok p /\ pl_xlabel p = "wavelength (nm)".
Proof.
  assert (D : documented "wavelength" "nanometer" "nm") by (exists ["nanometer"; "nanometre"; "nm"]; cbn; auto 10).
  destruct (C83_default step_scipy (fun _ => Raise OSError) [("tabulated_n", PArr (ND2 2 (to_xr [[400; 1.5]; [800; 1.6]])))] "tabulated_n" 2
    [[400; 1.5]; [800; 1.6]] "wavelength" "nanometer" "nm") as (m & p & ws & o & Em & Hp & _ & _ & _ & La & _).
  - exact (proj1 step_exact).
  - cbn; auto.
  - a_call.
  - split; [discriminate|]. split; [repeat constructor|]. cbn. repeat constructor; cbn; intuition lra.
  - cbn; lia.
  - exact D.
  - discriminate.
  - discriminate.
  - apply Forall_forall. intros x [<-|[<-|[]]]; cbn [nth]; (split; [lra|]); intros H; cbn in H; intuition discriminate.
  - intros x [<-|[<-|[]]] _; cbn [nth]; [apply (rounds_for_int "nm" 400)|apply (rounds_for_int "nm" 800)].
  - exists m, p. split; [exact Em|]. split; [exact Hp|].
    destruct La as (d & I & ->). cbn in I. repeat (destruct I as [I|I]; [inversion I; try reflexivity|]); contradiction.
Qed.
Example C83_case_instance : exists m, mk_material (fun _ => Raise OSError) [("tabulated_n", PArr (ND2 2 (to_xr [[1; 10]; [2; 20]]))); ("unit", PStr "eV"); ("spectrum_type", PStr "energy")] = Ok m /\
  m_name m = "nk" /\ lower (m_unit m) <> m_unit m.
Proof.
  destruct (C26_table_n_l (fun _ => Raise OSError) [("tabulated_n", PArr (ND2 2 (to_xr [[1; 10]; [2; 20]]))); ("unit", PStr "eV"); ("spectrum_type", PStr "energy")] [[1; 10]; [2; 20]] "energy" "eV" "ev")
    as (m & Em & Nm & _ & _ & Mu & _).
  - a_call.
  - split; [discriminate|]. split; [repeat constructor|]. cbn. repeat constructor; cbn; intuition lra.
  - exact documented_ev.
  - exists m. rewrite Mu. split; [exact Em|]. split; [exact Nm|discriminate].
Qed.

(** C84: print_reference and print_comment print the text in the file without the bytes that
    are not ASCII *)
Theorem C84_printed : forall m meta key text printer,
  In (key, printer) [("Reference", print_reference); ("Comment", print_comment)] ->
  m_meta m = Some meta -> dget meta key = Some (MStr text) ->
  exists line, printer m = Ok line /\ ascii_text line /\
    list_ascii_of_string line = filter (fun c => (nat_of_ascii c <? 128)%nat) (list_ascii_of_string text) /\
    (ascii_text text -> line = text).
Proof. exact C84_printed_l. Qed.
Print Assumptions C84_printed.

(** C84: a material without that entry, and an entry that is not a text *)
Theorem C84_missing_refuted : forall m key printer,
  In (key, printer) [("Reference", print_reference); ("Comment", print_comment)] ->
  (m_meta m = None -> printer m = Raise AttributeError) /\
  forall meta, m_meta m = Some meta ->
    (dget meta key = None -> printer m = Raise KeyError) /\
    (forall v, dget meta key = Some v -> (forall text, v <> MStr text) -> printer m = Raise TypeError).
Proof. exact C84_missing_refuted_l. Qed.
Print Assumptions C84_missing_refuted.

Example C84_instance : let m := fun meta => mkMat (Some meta) "nk" (DConst (mkBase "wavelength" "m" (mkSp "wavelength" "m" (VA []) (VA []))) (ORe (Fin 1)))
    (DConst (mkBase "wavelength" "m" (mkSp "wavelength" "m" (VA []) (VA []))) (ORe (Fin 0))) None "wavelength" "m" in
  print_reference (m [("Reference", MStr "Müller")]) = Ok "Mller" /\ ascii_text "Mller" /\ ~ ascii_text "Müller".
Proof.
  split; [reflexivity|]. split; [repeat constructor|]. intros H. inversion H as [|? ? _ H1]. inversion H1 as [|? ? K _].
  revert K. cbv [nat_of_ascii N_of_ascii N_of_digits]. cbn. lia.
Qed.
