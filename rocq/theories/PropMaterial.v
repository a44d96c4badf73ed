(** Theorems about materials (C25-C36, C68). *)
From Verif Require Import PyBase PyStr XReal CNum SpectrumModel SpectrumSpec SpectrumProofs SpectralModel SpectralSpec SpectralProofs InterpProofs EvalProofs ExtrapProofs TextModel TextSpec TextProofs TableProofs MaterialModel MaterialSpec MaterialProofs MatEvalProofs MatRangeProofs MatFileProofs SpectralThms.
From Flocq Require Import Core.
From Verif Require Import MaterialThms.
Open Scope R_scope.
Open Scope string_scope.
Open Scope list_scope.

(** C25: no source, or more than one *)
Theorem C25_not_one_source : forall rd kw, kwargs_ok kw -> ~ exactly_one_source kw ->
  mk_material rd kw = Raise ValueError.
Proof. exact C25_not_one_source_l. Qed.
Print Assumptions C25_not_one_source.

(** C25: one source, but an argument of the wrong type *)
Theorem C25_wrong_type : forall rd kw, kwargs_ok kw -> exactly_one_source kw -> ~ well_typed kw ->
  mk_material rd kw = Raise TypeError.
Proof. exact C25_wrong_type_l. Qed.
Print Assumptions C25_wrong_type.

(** C25: so every material comes from exactly one source, with well-typed arguments *)
Theorem C25_constructed : forall rd kw m, kwargs_ok kw -> mk_material rd kw = Ok m ->
  exactly_one_source kw /\ well_typed kw.
Proof. exact C25_constructed_l. Qed.
Print Assumptions C25_constructed.

(** C25: all other arguments, and the order of the arguments, are irrelevant. (The type of the
    undocumented interp_oder, a misspelling in the code, is checked.) *)
Theorem C25_others_ignored : forall rd kw kw', kwargs_ok kw -> kwargs_ok kw' ->
  (forall n v, In n (data_sources ++ ["spectrum_type"; "unit"; "interp_oder"]) -> given kw n v <-> given kw' n v) ->
  mk_material rd kw = mk_material rd kw'.
Proof. exact C25_others_ignored_l. Qed.
Print Assumptions C25_others_ignored.

Example C25_instance : 
  let kw := [("fixed_n", PFloat (Fin 1.5)); ("fixed_nk", PComplex (CF (1, 1)))] in
  let kw' := [("fixed_n", PInt 2)] in
  (kwargs_ok kw /\ ~ exactly_one_source kw) /\ (kwargs_ok kw' /\ exactly_one_source kw' /\ ~ well_typed kw') /\
  ~ exactly_one_source [("fixed_n", PNone)].
Proof.
  assert (K : forall kw : dict pyval, NoDup (map fst kw) -> kwargs_ok kw) by auto.
  cbv zeta. split; [|split].
  - assert (K1 : kwargs_ok [("fixed_n", PFloat (Fin 1.5)); ("fixed_nk", PComplex (CF (1, 1)))]).
    { apply K. cbn. repeat (constructor; [cbn; intuition discriminate|]). constructor. }
    split; [exact K1|]. rewrite (one_source _ K1). cbn. discriminate.
  - assert (K1 : kwargs_ok [("fixed_n", PInt 2)]).
    { apply K. cbn. repeat (constructor; [cbn; intuition discriminate|]). constructor. }
    split; [exact K1|]. split; [rewrite (one_source _ K1); reflexivity|].
    rewrite <- (typed_all_iff _ K1). discriminate.
  - assert (K1 : kwargs_ok [("fixed_n", PNone)]).
    { apply K. cbn. repeat (constructor; [cbn; intuition discriminate|]). constructor. }
    rewrite (one_source _ K1). discriminate.
Qed.
Example C25_ignored_instance rd :
  mk_material rd [("fixed_n", PFloat (Fin 1.5)); ("color", PStr "red"); ("unit", PNone)] =
  mk_material rd [("fixed_n", PFloat (Fin 1.5))].
Proof.
  apply C25_others_ignored.
  - unfold kwargs_ok; cbn; repeat (constructor; [cbn; intuition discriminate|]); constructor.
  - unfold kwargs_ok; cbn; repeat (constructor; [cbn; intuition discriminate|]); constructor.
  - intros n v Hn. split; intros [G1 G2]; (split; [|exact G2]); cbn in *.
    + destruct G1 as [E|[E|[E|[]]]]; inversion E; subst; first [now auto | congruence | exfalso; intuition discriminate].
    + tauto.
Qed.

(** C26: fixed values *)
Theorem C26_fixed : forall rd kw n name v t u,
  In (n, name) [("fixed_n", "nk"); ("fixed_nk", "nk"); ("fixed_eps_r", "eps"); ("fixed_eps", "eps")] ->
  call kw n v t u ->
  exists m, mk_material rd kw = Ok m /\ m_name m = name /\ m_complex m = None /\ m_stype m = t /\ m_unit m = u.
Proof. exact C26_fixed_l. Qed.
Print Assumptions C26_fixed.

(** C26: tables of spectral value, real part, imaginary part: each part is its column *)
Theorem C26_table_nk_eps : forall rd kw src name rows t u canon,
  In (src, name) [("tabulated_nk", "nk"); ("tabulated_eps", "eps")] ->
  call kw src (PArr (ND2 3 (to_xr rows))) t u -> table_ok 3 rows -> documented (lower t) (lower u) canon ->
  exists m, mk_material rd kw = Ok m /\ m_name m = name /\ m_complex m = None /\ m_stype m = t /\ m_unit m = u /\
    tabulated (column 1 rows) t u (m_real m) /\ tabulated (column 2 rows) t u (m_imag m).
Proof. exact C26_table_nk_eps_l. Qed.
Print Assumptions C26_table_nk_eps.

(** C26: tables of spectral value and refractive index *)
Theorem C26_table_n : forall rd kw rows t u canon,
  call kw "tabulated_n" (PArr (ND2 2 (to_xr rows))) t u -> table_ok 2 rows -> documented (lower t) (lower u) canon ->
  exists m, mk_material rd kw = Ok m /\ m_name m = "nk" /\ m_complex m = None /\ m_stype m = t /\ m_unit m = u /\
    tabulated (column 1 rows) t u (m_real m) /\ zero_data (m_imag m).
Proof. exact C26_table_n_l. Qed.
Print Assumptions C26_table_n.

(** C26: a table with another number of columns, or not two-dimensional *)
Theorem C26_wrong_shape : forall rd kw src ncols a t u,
  In (src, ncols) [("tabulated_nk", 3%nat); ("tabulated_eps", 3%nat); ("tabulated_n", 2%nat)] ->
  call kw src (PArr a) t u -> (forall rows, a <> ND2 ncols rows) -> mk_material rd kw = Raise ValueError.
Proof. exact C26_wrong_shape_l. Qed.
Print Assumptions C26_wrong_shape.

(** C26: a model, given by its name, parameters and valid range; type and unit default to those
    of the model classes, wavelength and metre *)
Theorem C26_model : forall rd kw name k params rng st un t u d,
  In (name, k) documented_models ->
  call kw "model_kw" (PDict (mkKw (Some name) (Some params) (Some rng) st un)) t u ->
  mk_model k params rng (match st with Some s => s | None => "wavelength" end)
                        (match un with Some s => s | None => "m" end) = Ok d ->
  exists m, mk_material rd kw = Ok m /\
    m_stype m = (match st with Some s => s | None => t end) /\ m_unit m = (match un with Some s => s | None => u end) /\
    ((permittivity_model k /\ m_name m = "eps" /\ m_complex m = Some d) \/
     (~ permittivity_model k /\ m_name m = "nk" /\ m_complex m = None /\ m_real m = d /\ zero_data (m_imag m))).
Proof. exact C26_model_l. Qed.
Print Assumptions C26_model.

(** C26: a file with one table; [id] says what the columns are *)
Theorem C26_file_table : forall rd kw path t0 u0 fm d id name n rows t u canon,
  In (id, name, n) [("nk", "nk", 3%nat); ("eps", "eps", 3%nat); ("n", "nk", 2%nat); ("k", "nk", 2%nat)] ->
  call kw "file_path" (PStr path) t0 u0 -> rd path = Ok (mkFdict fm [d]) -> meta_complete fm ->
  type_words d "tabulated" id -> table_ok n rows -> holds_table (ds_data d) n rows ->
  file_or_default (ds_stype d) t0 t -> file_or_default (ds_unit d) u0 u -> documented (lower t) (lower u) canon ->
  exists m, mk_material rd kw = Ok m /\ m_name m = name /\ m_complex m = None /\ m_stype m = t /\ m_unit m = u /\
    (if String.eqb id "k" then zero_data (m_real m) else tabulated (column 1 rows) t u (m_real m)) /\
    (if String.eqb id "k" then tabulated (column 1 rows) t u (m_imag m)
     else if String.eqb id "n" then zero_data (m_imag m) else tabulated (column 2 rows) t u (m_imag m)).
Proof. exact C26_file_table_l. Qed.
Print Assumptions C26_file_table.

(** C26: tabulated_n_alpha always raises AttributeError: the shape check looks at another argument *)
Theorem C26_n_alpha_refuted : forall rd kw v t u, call kw "tabulated_n_alpha" v t u ->
  mk_material rd kw = Raise AttributeError.
Proof. exact C26_n_alpha_refuted_l. Qed.
Print Assumptions C26_n_alpha_refuted.

(** C26: whatever constructs has the data name nk or eps; only a file without usable data set
    leaves the name empty *)
Theorem C26_name : forall rd kw m, kwargs_ok kw -> mk_material rd kw = Ok m ->
  m_name m = "nk" \/ m_name m = "eps" \/ (m_name m = "" /\ exists path, given kw "file_path" (PStr path)).
Proof. exact C26_name_l. Qed.
Print Assumptions C26_name.

Example C26_call_instance : call [("tabulated_nk", PArr (ND2 3 (to_xr [[400; 1.5; 0]; [500; 1.6; 0.1]]))); ("unit", PStr "nm")]
    "tabulated_nk" (PArr (ND2 3 (to_xr [[400; 1.5; 0]; [500; 1.6; 0.1]]))) "wavelength" "nm" /\
  table_ok 3 [[400; 1.5; 0]; [500; 1.6; 0.1]] /\ documented (lower "wavelength") (lower "nm") "nm".
Proof.
  split; [a_call|]. split.
  - split; [discriminate|]. split; [repeat constructor|]. cbn. repeat (constructor; [cbn; intros [H|[]]; lra || auto|]); constructor; [auto|constructor].
  - exists ["nanometer"; "nanometre"; "nm"]. cbn; auto 10.
Qed.
Example C26_alpha_instance : call [("tabulated_n_alpha", PArr (ND2 3 (to_xr [[400; 1.5; 0]])))]
  "tabulated_n_alpha" (PArr (ND2 3 (to_xr [[400; 1.5; 0]]))) "wavelength" "nanometer".
Proof. a_call. Qed.
Example C26_model_instance : exists d,
  call [("model_kw", PDict (mkKw (Some "Sellmeier") (Some [Fin 0; Fin 1; Fin 0.1]) (Some (InVals (VA [Fin 0.5; Fin 2]))) (Some "wavelength") (Some "um")))]
    "model_kw" (PDict (mkKw (Some "Sellmeier") (Some [Fin 0; Fin 1; Fin 0.1]) (Some (InVals (VA [Fin 0.5; Fin 2]))) (Some "wavelength") (Some "um")))
    "wavelength" "nanometer" /\
  mk_model Sellmeier [Fin 0; Fin 1; Fin 0.1] (InVals (VA [Fin 0.5; Fin 2])) "wavelength" "um" = Ok d.
Proof. eexists. split; [a_call|reflexivity]. Qed.

(** C27: fixed_n and fixed_nk: get_nk_data returns the given number for every spectrum of
    non-negative values, of any type and unit *)
Theorem C27_fixed_nk : forall X rd kw n v z t u,
  call kw n v t u -> (n = "fixed_n" /\ v = PFloat (Fin (fst z)) /\ snd z = 0) \/ (n = "fixed_nk" /\ v = PComplex (CF z)) ->
  exists m, mk_material rd kw = Ok m /\
    forall w t' u' canon, documented (lower t') (lower u') canon -> nonneg_floats w ->
      get_nk_data X m (SRaw (InVals w) t' u') = Ok (everywhere z w) /\
      get_permittivity X m (SRaw (InVals w) t' u') = Ok (everywhere (Cmult z z) w).
Proof. exact C27_fixed_nk_l. Qed.
Print Assumptions C27_fixed_nk.

(** C27: fixed_eps_r and fixed_eps: get_permittivity returns the given number *)
Theorem C27_fixed_eps : forall X rd kw n v z t u,
  call kw n v t u -> (n = "fixed_eps_r" /\ v = PFloat (Fin (fst z)) /\ snd z = 0) \/ (n = "fixed_eps" /\ v = PComplex (CF z)) ->
  exists m, mk_material rd kw = Ok m /\
    forall w t' u' canon, documented (lower t') (lower u') canon -> nonneg_floats w ->
      get_permittivity X m (SRaw (InVals w) t' u') = Ok (everywhere z w).
Proof. exact C27_fixed_eps_l. Qed.
Print Assumptions C27_fixed_eps.

Example C27_instance X rd : exists m, mk_material rd [("fixed_nk", PComplex (CF (1.5, 0.2)))] = Ok m /\
  get_nk_data X m (SRaw (InVals (VA [Fin 1; Fin 0; PInf])) "energy" "eV")
  = Ok (OA [OCx (CF (1.5, 0.2)); OCx (CF (1.5, 0.2)); OCx (CF (1.5, 0.2))]).
Proof.
  destruct (C27_fixed_nk X rd [("fixed_nk", PComplex (CF (1.5, 0.2)))] "fixed_nk" (PComplex (CF (1.5, 0.2))) (1.5, 0.2) "wavelength" "nanometer")
    as (m & E & H); [a_call|right; auto|].
  exists m. split; [exact E|]. destruct (H (VA [Fin 1; Fin 0; PInf]) "energy" "eV" "ev" documented_ev) as [G _].
  { split; [|split; [discriminate|discriminate]]. unfold vnn. cbn [elems].
    constructor; [cbn; lra|]. constructor; [cbn; lra|]. constructor; [exact I|constructor]. }
  rewrite G. reflexivity.
Qed.

(** C28: for every spectrum given by values, or by an unconverted spectrum object, the
    permittivity is the square of the refractive index, and both raise in the same cases *)
Theorem C28_square : forall X m a,
  (exists v t u, a = SRaw v t u) \/ (exists s v t u, a = SObj s /\ mk_spectrum v t u = Ok s) ->
  get_permittivity X m a = (do n <- get_nk_data X m a; Ok (map_out (fun z => Cmult z z) n)).
Proof. exact C28_square_l. Qed.
Print Assumptions C28_square.

(** C28: the refractive index of permittivity data is the principal root *)
Theorem C28_principal_root : forall X m a o, m_name m = "eps" -> get_nk_data X m a = Ok o ->
  Forall (fun x => match x with OCx (CF z) => 0 <= fst z | OCx CNan => True | ORe _ => False end) (out_elems o).
Proof. exact C28_principal_root_l. Qed.
Print Assumptions C28_principal_root.

(** a table with the one row (1.44 um, 1.5), in metres *)
Definition one_row_kw : dict pyval :=
  [("tabulated_n", PArr (ND2 2 (to_xr [[1.44 / 10 ^ 6; 1.5]]))); ("unit", PStr "m")].

(** C28: after an in-place conversion to a rounded unit the two can disagree: get_nk_data reads
    the rounded values *)
Theorem C28_converted_refuted : forall X rd, exists m s0 s o,
  mk_material rd one_row_kw = Ok m /\
  mk_spectrum (InVals (VS (Fin (1.44 / 10 ^ 6)))) "wavelength" "m" = Ok s0 /\
  s = snd (convert_in_place s0 "wavelength" "cm") /\
  get_permittivity X m (SObj s) = Ok o /\ get_nk_data X m (SObj s) = Raise ValueError.
Proof. exact C28_converted_refuted_l. Qed.
Print Assumptions C28_converted_refuted.

Example C28_instance X rd : exists m, mk_material rd [("fixed_nk", PComplex (CF (1.5, 0.2)))] = Ok m /\
  get_permittivity X m (SRaw (InVals (VS (Fin 1))) "energy" "eV") =
  (do n <- get_nk_data X m (SRaw (InVals (VS (Fin 1))) "energy" "eV"); Ok (map_out (fun z => Cmult z z) n)) /\
  get_nk_data X m (SRaw (InVals (VS (Fin 1))) "energy" "eV") = Ok (OS (OCx (CF (1.5, 0.2)))).
Proof.
  destruct (C27_fixed_nk X rd [("fixed_nk", PComplex (CF (1.5, 0.2)))] "fixed_nk" (PComplex (CF (1.5, 0.2))) (1.5, 0.2) "wavelength" "nanometer")
    as (m & E & H); [a_call|right; auto|].
  exists m. split; [exact E|]. split; [apply C28_square; left; eauto|].
  destruct (H (VS (Fin 1)) "energy" "eV" "ev" documented_ev) as [G _]; [|exact G].
  split; [|split; [discriminate|discriminate]]. constructor; [cbn; lra|constructor].
Qed.

(** C29: data with separate parts: the reported range is a pair of wavelengths [lo], [hi]
    converted to the default type and unit, and a wavelength [x] lies inside both valid ranges
    iff it lies between [lo] and [hi] *)
Theorem C29_intersection : forall m,
  m_name m = "nk" \/ m_name m = "eps" -> m_complex m = None ->
  wavelengths_of (m_real m) <> [] -> wavelengths_of (m_imag m) <> [] ->
  no_nan (wavelengths_of (m_real m)) -> no_nan (wavelengths_of (m_imag m)) ->
  exists lo hi,
    (forall x, xle lo x = true <-> not_below (wavelengths_of (m_real m)) x /\ not_below (wavelengths_of (m_imag m)) x) /\
    (forall x, xle x hi = true <-> not_above (wavelengths_of (m_real m)) x /\ not_above (wavelengths_of (m_imag m)) x) /\
    get_maximum_valid_range m = convert_to (mkSp "wavelength" "m" (VA [lo; hi]) (VA [lo; hi])) (m_stype m) (m_unit m).
Proof. exact C29_intersection_l. Qed.
Print Assumptions C29_intersection.

(** C29: the converted bounds: [x0] and [x1] are the spectral values of [lo] and [hi]; the order
    is ascending for wavelengths and descending otherwise (wavenumbers: see C03) *)
Theorem C29_bounds : forall m canon lo hi x0 x1,
  m_name m = "nk" \/ m_name m = "eps" -> m_complex m = None ->
  wavelengths_of (m_real m) <> [] -> wavelengths_of (m_imag m) <> [] ->
  no_nan (wavelengths_of (m_real m)) -> no_nan (wavelengths_of (m_imag m)) ->
  (forall x, xle (Fin lo) x = true <-> not_below (wavelengths_of (m_real m)) x /\ not_below (wavelengths_of (m_imag m)) x) ->
  (forall x, xle x (Fin hi) = true <-> not_above (wavelengths_of (m_real m)) x /\ not_above (wavelengths_of (m_imag m)) x) ->
  documented (lower (m_stype m)) (m_unit m) canon -> lower (m_stype m) <> "wavenumber" ->
  wavelength_m (lower (m_stype m)) canon x0 lo -> wavelength_m (lower (m_stype m)) canon x1 hi ->
  0 < x0 -> 0 < x1 -> (reciprocal_type (lower (m_stype m)) -> / 10 ^ 8 < lo /\ / 10 ^ 8 < hi) ->
  exists a b, get_maximum_valid_range m = Ok (VA [Fin a; Fin b]) /\ rounds_for canon x0 a /\ rounds_for canon x1 b /\
    (lo <= hi -> if String.eqb (lower (m_stype m)) "wavelength" then a <= b else b <= a).
Proof. exact C29_bounds_l. Qed.
Print Assumptions C29_bounds.

(** C29: complex data: the values [a], [b] of the valid range, in whatever unit they are, are
    taken as metres *)
Theorem C29_complex_refuted : forall m d a b canon x0 x1,
  m_name m = "nk" \/ m_name m = "eps" -> m_complex m = Some d -> sp_values (valid_range d) = VA [Fin a; Fin b] -> a <= b ->
  documented (lower (m_stype m)) (m_unit m) canon -> lower (m_stype m) <> "wavenumber" ->
  wavelength_m (lower (m_stype m)) canon x0 a -> wavelength_m (lower (m_stype m)) canon x1 b ->
  0 < x0 -> 0 < x1 -> (reciprocal_type (lower (m_stype m)) -> / 10 ^ 8 < a) ->
  exists y0 y1, get_maximum_valid_range m = Ok (VA [Fin y0; Fin y1]) /\ rounds_for canon x0 y0 /\ rounds_for canon x1 y1.
Proof. exact C29_complex_refuted_l. Qed.
Print Assumptions C29_complex_refuted.

(** a Drude model valid from 0.5 to 4 eV *)
Definition drude_kw : dict pyval :=
  [("model_kw", PDict (mkKw (Some "Drude") (Some [Fin 9; Fin 1]) (Some (InVals (VA [Fin 0.5; Fin 4]))) (Some "energy") (Some "ev")))].

(** C29: so this material answers at 1 eV, but reports a range entirely below 1 eV *)
Theorem C29_drude_refuted : forall X rd, exists m y0 y1 o,
  mk_material rd drude_kw = Ok m /\ get_maximum_valid_range m = Ok (VA [Fin y0; Fin y1]) /\ y0 < 1 /\ y1 < 1 /\
  get_permittivity X m (SRaw (InVals (VS (Fin 1))) "energy" "ev") = Ok o.
Proof. exact C29_drude_refuted_l. Qed.
Print Assumptions C29_drude_refuted.

Example C29_instance : exists m,
  mk_material (fun _ => Raise OSError) [("tabulated_n", PArr (ND2 2 (to_xr [[1; 10]; [2; 20]]))); ("unit", PStr "m")] = Ok m /\
  (m_name m = "nk" \/ m_name m = "eps") /\ m_complex m = None /\
  wavelengths_of (m_real m) = [Fin 1; Fin 2] /\ wavelengths_of (m_imag m) = [Fin 0; PInf] /\
  get_maximum_valid_range m = Ok (VA [Fin 1; Fin 2]).
Proof.
  eexists. split; [rcv; reflexivity|]. split; [left; reflexivity|]. split; [reflexivity|].
  split; [reflexivity|]. split; [reflexivity|]. rcv. reflexivity.
Qed.

(** C30: a finite positive range: 1000 points inside it, in the default type and unit. For
    geomspace only the ordering of its values is assumed when the range is ascending; for
    descending ranges (energies) its end points must be exact *)
Theorem C30_inside : forall X m a b canon,
  get_maximum_valid_range m = Ok (VA [Fin a; Fin b]) -> 0 < a -> 0 < b ->
  (a <= b /\ geomspace_ok X) \/ geomspace_exact X ->
  documented (lower (m_stype m)) (lower (m_unit m)) canon ->
  exists vs s, get_sample_spectrum X m = Ok s /\ sp_type s = lower (m_stype m) /\ sp_unit s = canon /\
    sp_values s = VA (map Fin vs) /\ length vs = 1000%nat /\ Forall (fun x => Rmin a b <= x <= Rmax a b) vs.
Proof. exact C30_inside_l. Qed.
Print Assumptions C30_inside.

(** C30: a zero or infinite bound: always 100 to 2000 nm *)
Theorem C30_fallback_refuted : forall X m r0 r1,
  get_maximum_valid_range m = Ok (VA [r0; r1]) -> r0 = Fin 0 \/ r1 = PInf -> geomspace_exact X ->
  exists mid s, get_sample_spectrum X m = Ok s /\ sp_type s = "wavelength" /\ sp_unit s = "nm" /\
    sp_values s = VA (map Fin (100 :: mid ++ [2000])).
Proof. exact C30_fallback_refuted_l. Qed.
Print Assumptions C30_fallback_refuted.

(** C30: fixed values with reciprocal default types: the range comes back as infinity to zero
    and geomspace cannot reach zero *)
Theorem C30_reciprocal_refuted : forall X rd kw n v t u canon,
  In n ["fixed_n"; "fixed_nk"; "fixed_eps_r"; "fixed_eps"] -> call kw n v t u ->
  documented (lower t) u canon -> reciprocal_type (lower t) -> geomspace_zero X ->
  exists m, mk_material rd kw = Ok m /\ get_maximum_valid_range m = Ok (VA [PInf; Fin 0]) /\
    get_sample_spectrum X m = Raise ValueError.
Proof. exact C30_reciprocal_refuted_l. Qed.
Print Assumptions C30_reciprocal_refuted.

(** a geomspace that satisfies the assumptions *)
Definition step_scipy : scipy := mkScipy (fun _ => Ok tt) (fun _ x => x)
  (fun a b n => if xeqb a (Fin 0) || xeqb b (Fin 0) then Raise ValueError else Ok (a :: repeat a 998 ++ [b])).

Example C30_instance : exists m s vs,
  mk_material (fun _ => Raise OSError) [("tabulated_n", PArr (ND2 2 (to_xr [[1; 10]; [2; 20]]))); ("unit", PStr "m")] = Ok m /\
  get_sample_spectrum step_scipy m = Ok s /\ sp_values s = VA (map Fin vs) /\ Forall (fun x => 1 <= x <= 2) vs.
Proof.
  destruct C29_instance as (m & E & N & C & R & I & G).
  destruct (C30_inside step_scipy m 1 2 "m" G ltac:(lra) ltac:(lra)) as (vs & s & Gs & _ & _ & V & _ & F).
  - right. exact (proj1 step_exact).
  - assert (H : m_stype m = "wavelength" /\ m_unit m = "m") by (revert E; rcv; intros E; injection E as <-; auto).
    destruct H as [-> ->]. exists ["meter"; "metre"; "m"]. cbn; auto 10.
  - exists m, s, vs. rewrite Rmin_left, Rmax_right in F by lra. auto.
Qed.
(** a table from 0 to 1 nm: every sample lies outside *)
Example C30_fallback_instance : exists m s mid,
  mk_material (fun _ => Raise OSError) [("tabulated_n", PArr (ND2 2 (to_xr [[0; 1]; [1; 2]]))); ("unit", PStr "m")] = Ok m /\
  get_maximum_valid_range m = Ok (VA [Fin 0; Fin 1]) /\
  get_sample_spectrum step_scipy m = Ok s /\ sp_unit s = "nm" /\ sp_values s = VA (map Fin (100 :: mid ++ [2000])).
Proof.
  assert (H : exists m, mk_material (fun _ => Raise OSError) [("tabulated_n", PArr (ND2 2 (to_xr [[0; 1]; [1; 2]]))); ("unit", PStr "m")] = Ok m /\
    get_maximum_valid_range m = Ok (VA [Fin 0; Fin 1])) by (eexists; split; [rcv; reflexivity|rcv; reflexivity]).
  destruct H as (m & E & G). destruct (C30_fallback_refuted step_scipy m _ _ G (or_introl eq_refl) (proj1 step_exact)) as (mid & s & A & _ & B & C).
  exists m, s, mid. auto.
Qed.
Example C30_reciprocal_instance : call [("fixed_n", PFloat (Fin 1.5)); ("spectrum_type", PStr "energy"); ("unit", PStr "ev")]
  "fixed_n" (PFloat (Fin 1.5)) "energy" "ev" /\ reciprocal_type (lower "energy") /\ geomspace_zero step_scipy.
Proof. split; [a_call|]. split; [cbn; auto|apply step_exact]. Qed.

(** C31: separate parts: afterwards the imaginary part is zero wherever the material evaluates *)
Theorem C31_zero : forall X rd m m' a o, made X rd m -> m_complex m = None -> remove_absorption m = Ok m' ->
  (m_name m = "nk" /\ get_nk_data X m' a = Ok o) \/ (m_name m = "eps" /\ get_permittivity X m' a = Ok o) ->
  Forall im_zero (out_elems o).
Proof. exact C31_zero_l. Qed.
Print Assumptions C31_zero.

(** C31: separate parts: the real part is unchanged at every non-negative spectral value *)
Theorem C31_real_unchanged : forall X rd m m' w t u canon o, made X rd m -> m_complex m = None -> remove_absorption m = Ok m' ->
  documented (lower t) (lower u) canon -> nonneg_floats w -> all_finite o ->
  (m_name m = "nk" -> get_nk_data X m (SRaw (InVals w) t u) = Ok o ->
     get_nk_data X m' (SRaw (InVals w) t u) = Ok (map_out drop_im o)) /\
  (m_name m = "eps" -> get_permittivity X m (SRaw (InVals w) t u) = Ok o ->
     get_permittivity X m' (SRaw (InVals w) t u) = Ok (map_out drop_im o)).
Proof. exact C31_real_unchanged_l. Qed.
Print Assumptions C31_real_unchanged.

(** C31: never fails, changes nothing but the imaginary part; complex data answers as before *)
Theorem C31_rest : forall m, exists m', remove_absorption m = Ok m' /\
  m_meta m' = m_meta m /\ m_name m' = m_name m /\ m_real m' = m_real m /\ m_complex m' = m_complex m /\
  m_stype m' = m_stype m /\ m_unit m' = m_unit m /\ zero_data (m_imag m') /\
  (m_complex m <> None -> forall X a, get_nk_data X m' a = get_nk_data X m a /\ get_permittivity X m' a = get_permittivity X m a).
Proof. exact C31_rest_l. Qed.
Print Assumptions C31_rest.

Example C31_instance X rd : exists m m', mk_material rd [("fixed_nk", PComplex (CF (1.5, 0.2)))] = Ok m /\
  made X rd m /\ m_complex m = None /\ remove_absorption m = Ok m' /\
  get_nk_data X m' (SRaw (InVals (VS (Fin 1))) "energy" "eV") = Ok (OS (OCx (CF (1.5, 0)))).
Proof.
  destruct (C28_instance X rd) as (m & E & _ & G).
  assert (K : kwargs_ok [("fixed_nk", PComplex (CF (1.5, 0.2)))]) by (constructor; [intros []|constructor]).
  assert (M : made X rd m) by (econstructor 1; eassumption).
  assert (C : m_complex m = None /\ m_name m = "nk") by (revert E; rcv; intros E; injection E as <-; auto).
  destruct C as [C Nm]. destruct (C31_rest m) as (m' & R & _). exists m, m'. do 4 (split; [assumption|]).
  apply (proj1 (C31_real_unchanged X rd m m' (VS (Fin 1)) "energy" "eV" "ev" (OS (OCx (CF (1.5, 0.2)))) M C R documented_ev
    ltac:(split; [constructor; [cbn; lra|constructor]|split; discriminate])
    ltac:(constructor; [eexists; reflexivity|constructor])) Nm G).
Qed.

(** C32: complex data is refused and nothing changes *)
Theorem C32_complex : forall X m s order, m_complex m <> None ->
  extrapolate X m s order = (Raise NotImplementedError, m, s).
Proof. exact C32_complex_l. Qed.
Print Assumptions C32_complex.

(** C32: in all cases constant parts, and everything but the two parts, stay *)
Theorem C32_constants : forall X m s order r m' s', extrapolate X m s order = (r, m', s') ->
  m_meta m' = m_meta m /\ m_name m' = m_name m /\ m_complex m' = m_complex m /\ m_stype m' = m_stype m /\ m_unit m' = m_unit m /\
  ((exists b c, m_real m = DConst b c) -> m_real m' = m_real m) /\
  ((exists b c, m_imag m = DConst b c) -> m_imag m' = m_imag m).
Proof. exact C32_constants_l. Qed.
Print Assumptions C32_constants.

(** C32: success extends every part that is not constant; the second extension sees the
    spectrum as the first one left it *)
Theorem C32_success : forall X m s order m' s', extrapolate X m s order = (Ok tt, m', s') ->
  m_complex m = None /\ exists s1,
    ((exists b c, m_real m = DConst b c) /\ m_real m' = m_real m /\ s1 = s \/
     mk_extrapolation X (m_real m) s order = (Ok (m_real m'), s1)) /\
    ((exists b c, m_imag m = DConst b c) /\ m_imag m' = m_imag m /\ s' = s1 \/
     mk_extrapolation X (m_imag m) s1 order = (Ok (m_imag m'), s')).
Proof. exact C32_success_l. Qed.
Print Assumptions C32_success.

(** C32: a failure leaves the material unchanged if it concerns the real part, or if the real
    part is constant *)
Theorem C32_failure_unchanged : forall X m s order e m' s', extrapolate X m s order = (Raise e, m', s') ->
  (exists e' s1, mk_extrapolation X (m_real m) s order = (Raise e', s1)) \/ (exists b c, m_real m = DConst b c) ->
  m' = m.
Proof. exact C32_failure_unchanged_l. Qed.
Print Assumptions C32_failure_unchanged.

(** C32: otherwise the real part is extended although the call fails *)
Theorem C32_atomic_refuted : forall X m s order r s1 e s2,
  m_complex m = None -> (forall b c, m_real m <> DConst b c) -> (forall b c, m_imag m <> DConst b c) ->
  mk_extrapolation X (m_real m) s order = (Ok r, s1) -> mk_extrapolation X (m_imag m) s1 order = (Raise e, s2) ->
  exists m', extrapolate X m s order = (Raise e, m', s2) /\ m_real m' = r /\ m_imag m' = m_imag m /\ m' <> m.
Proof. exact C32_atomic_refuted_l. Qed.
Print Assumptions C32_atomic_refuted.

(** a file with refractive index from 1 to 2 m and absorption from 1 to 4 m *)
Definition blank_meta : dict mval := map (fun k => (k, MStr "")) file_metadata.
Definition data_set (kind : string) (rows : list (list R)) : fset :=
  mkFset (DStr ("tabulated " ++ kind)) (DStr "") (DStr "wavelength") (DStr "m") (DStr "") (DArr (ND2 2 (to_xr rows))).
Definition n_and_k : string -> res fdict :=
  fun _ => Ok (mkFdict blank_meta [data_set "n" [[1; 10]; [2; 20]]; data_set "k" [[1; 0]; [4; 1]]]).

(** extending it to 3 m *)
Example C32_instance : let s := mkSp "wavelength" "m" (VS (Fin 3)) (VS (Fin 3)) in
  exists m m', mk_material n_and_k [("file_path", PStr "x")] = Ok m /\
    mk_spectrum (InVals (VS (Fin 3))) "wavelength" "m" = Ok s /\
    extrapolate toy_scipy m s 1 = (Raise ValueError, m', s) /\ m_real m' <> m_real m /\ m_imag m' = m_imag m.
Proof.
  eexists. eexists. split; [rcv; reflexivity|]. split; [reflexivity|].
  split; [rcv; reflexivity|]. split; [discriminate|reflexivity].
Qed.
(** a success: the imaginary part is the constant zero *)
Example C32_success_instance : let s := mkSp "wavelength" "m" (VS (Fin 3)) (VS (Fin 3)) in
  exists m m', mk_material (fun _ => Raise OSError) [("tabulated_n", PArr (ND2 2 (to_xr [[1; 10]; [2; 20]]))); ("unit", PStr "m")] = Ok m /\
    extrapolate toy_scipy m s 1 = (Ok tt, m', s) /\ wavelengths_of (m_real m') = [Fin 1; Fin 3].
Proof.
  eexists. eexists. split; [rcv; reflexivity|]. split; [rcv; reflexivity|]. reflexivity.
Qed.

(** C33: a non-material is different *)
Theorem C33_other : forall m, mat_eq m None = Ok false.
Proof. exact C33_other_l. Qed.
Print Assumptions C33_other.

(** C33: only data name and metadata matter *)
Theorem C33_depends : forall a b a' b', m_meta a = m_meta a' -> m_meta b = m_meta b' ->
  m_name a = m_name a' -> m_name b = m_name b' -> mat_eq a (Some b) = mat_eq a' (Some b').
Proof. exact C33_depends_l. Qed.
Print Assumptions C33_depends.

(** C33: of two materials with the same metadata entries (both built directly, or both from
    files), equality answers, and is true iff data name and metadata agree *)
Theorem C33_iff : forall X rd a b ma mb, reader_ok rd -> made X rd a -> made X rd b ->
  m_meta a = Some ma -> m_meta b = Some mb -> map fst ma = map fst mb ->
  exists r, mat_eq a (Some b) = Ok r /\ mat_eq b (Some a) = Ok r /\
    (r = true <-> m_name a = m_name b /\ same_metadata ma mb).
Proof. exact C33_iff_l. Qed.
Print Assumptions C33_iff.

(** C33: reflexive *)
Theorem C33_reflexive : forall X rd m, reader_ok rd -> made X rd m -> mat_eq m (Some m) = Ok true.
Proof. exact C33_reflexive_l. Qed.
Print Assumptions C33_reflexive.

(** C33: every material has the entries of a file or those of a directly built one *)
Theorem C33_two_kinds : forall X rd m, reader_ok rd -> made X rd m ->
  exists ma, m_meta m = Some ma /\ (map fst ma = file_metadata \/ map fst ma = direct_metadata).
Proof. exact C33_two_kinds_l. Qed.
Print Assumptions C33_two_kinds.

(** C33: a directly built material compared with one from a file whose first five entries are
    empty, as its own: KeyError; the other way round there is an answer *)
Theorem C33_symmetry_refuted : forall a b mb, m_meta a = Some default_meta -> m_meta b = Some mb -> map fst mb = file_metadata ->
  (forall k, In k ["Reference"; "Comment"; "Name"; "FullName"; "Author"] -> dget mb k = Some (MStr "")) ->
  mat_eq a (Some b) = Raise KeyError /\ exists r, mat_eq b (Some a) = Ok r.
Proof. exact C33_symmetry_refuted_l. Qed.
Print Assumptions C33_symmetry_refuted.

Example C33_instance : exists a b mb,
  mk_material n_and_k [("fixed_n", PFloat (Fin 1.5))] = Ok a /\ mk_material n_and_k [("file_path", PStr "x")] = Ok b /\
  m_meta a = Some default_meta /\ m_meta b = Some mb /\ map fst mb = file_metadata /\
  (forall k, In k ["Reference"; "Comment"; "Name"; "FullName"; "Author"] -> dget mb k = Some (MStr "")) /\
  mat_eq a (Some b) = Raise KeyError /\ mat_eq b (Some a) = Ok false.
Proof.
  eexists. eexists. eexists. split; [rcv; reflexivity|]. split; [rcv; reflexivity|]. split; [reflexivity|]. split; [reflexivity|].
  split; [reflexivity|]. split; [|split; reflexivity].
  intros k [<-|[<-|[<-|[<-|[<-|[]]]]]]; reflexivity.
Qed.
Example C33_reader_instance : reader_ok n_and_k.
Proof.
  intros path fd k v E. injection E as <-. intros H. apply dget_In in H. cbn in H.
  repeat (destruct H as [H|H]; [injection H as _ <-; exact I|]). destruct H.
Qed.

(** C34: a table of spectral value, n and alpha in a file: n is its column, and the table of k
    has the rows [coded_k_row] *)
Theorem C34_k_table : forall rd kw path t0 u0 fm d rows t u canon,
  call kw "file_path" (PStr path) t0 u0 -> rd path = Ok (mkFdict fm [d]) -> meta_complete fm ->
  type_words d "tabulated" "n_alpha" -> table_ok 3 rows -> holds_table (ds_data d) 3 rows ->
  file_or_default (ds_stype d) t0 t -> file_or_default (ds_unit d) u0 u -> documented (lower t) (lower u) canon ->
  (reciprocal_type (lower t) -> Forall (fun r => / 10 ^ 8 < Rabs (nth 0 r 0)) rows) ->
  exists m krows, mk_material rd kw = Ok m /\ m_name m = "nk" /\ m_complex m = None /\
    tabulated (column 1 rows) t u (m_real m) /\
    Forall2 (coded_k_row (lower t) canon) rows krows /\ tabulated (column 1 krows) t u (m_imag m).
Proof. exact C34_k_table_l. Qed.
Print Assumptions C34_k_table.

(** C34: so k is right exactly up to the rounding of the wavelength *)
Theorem C34_error : forall t canon r kr lam, coded_k_row t canon r kr -> wavelength_m t canon (nth 0 r 0) lam ->
  exists k, kr = [nth 0 r 0; k] /\
    Rabs (k - nth 2 r 0 * (100 * lam) / (4 * PI)) <= Rabs (nth 2 r 0) * (5 / 10 ^ 6) / (4 * PI).
Proof. exact C34_error_l. Qed.
Print Assumptions C34_error.

(** C34: exact when the wavelength is a multiple of 100 nm *)
Theorem C34_exact : forall t canon r kr lam z, coded_k_row t canon r kr -> wavelength_m t canon (nth 0 r 0) lam ->
  lam = IZR z * 100 / 10 ^ 9 -> kr = [nth 0 r 0; nth 2 r 0 * (100 * lam) / (4 * PI)].
Proof. exact C34_exact_l. Qed.
Print Assumptions C34_exact.

(** C34: at 550 nm the wavelength counts as 600 nm; below 50 nm the absorption vanishes *)
Theorem C34_rounded_refuted : forall n alpha kr x,
  (coded_k_row "wavelength" "nm" [550; n; alpha] kr -> kr = [550; alpha * (6 / 10 ^ 5) / (4 * PI)]) /\
  (0 <= x < 50 -> coded_k_row "wavelength" "nm" [x; n; alpha] kr -> kr = [x; 0]).
Proof. exact C34_rounded_refuted_l. Qed.
Print Assumptions C34_rounded_refuted.

Example C34_instance : let d := mkFset (DStr "tabulated n_alpha") (DStr "") (DStr "wavelength") (DStr "nm") (DStr "")
    (DArr (ND2 3 (to_xr [[550; 1.5; 1000]; [600; 1.6; 2000]]))) in
  call [("file_path", PStr "x")] "file_path" (PStr "x") "wavelength" "nanometer" /\ meta_complete blank_meta /\
  type_words d "tabulated" "n_alpha" /\ table_ok 3 [[550; 1.5; 1000]; [600; 1.6; 2000]] /\
  holds_table (ds_data d) 3 [[550; 1.5; 1000]; [600; 1.6; 2000]] /\ file_or_default (ds_unit d) "nanometer" "nm" /\
  coded_k_row "wavelength" "nm" [550; 1.5; 1000] [550; 1000 * (6 / 10 ^ 5) / (4 * PI)].
Proof.
  cbv zeta. split; [a_call|]. split.
  { intros k. cbn [file_metadata In]. intros Hk.
    repeat (destruct Hk as [<-|Hk]; [intros Hn; vm_compute in Hn; discriminate Hn|]). destruct Hk. }
  split.
  { exists "tabulated n_alpha". split; [reflexivity|]. exact (split_ws_sound "tabulated n_alpha"). }
  split; [split; [discriminate|split; [repeat constructor|]]|].
  { cbn. constructor; [cbn; intros [H|[]]; lra|]. constructor; [intros []|constructor]. }
  split; [left; reflexivity|]. split; [left; split; [reflexivity|discriminate]|].
  exists (550 / 10 ^ 9), (6 / 10 ^ 5). split; [constructor|]. split; [|reflexivity].
  exists 6%Z. split; [lra|]. split; [apply Rabs_le; lra|reflexivity].
Qed.

(** C35: interp_order has no influence at all *)
Theorem C35_ignored_refuted : forall rd kw order, kwargs_ok (("interp_order", order) :: kw) ->
  mk_material rd (("interp_order", order) :: kw) = mk_material rd kw.
Proof. exact C35_ignored_refuted_l. Qed.
Print Assumptions C35_ignored_refuted.

Example C35_instance : kwargs_ok [("interp_order", PInt 3); ("tabulated_n", PArr (ND2 2 (to_xr [[1; 10]; [2; 20]])))].
Proof. repeat (constructor; [cbn; intuition discriminate|]). constructor. Qed.

(** C36: a file with one formula or model data set *)
Theorem C36_selects : forall rd kw path t0 u0 fm ds dt id k rs rng cs params t u d,
  call kw "file_path" (PStr path) t0 u0 -> rd path = Ok (mkFdict fm [ds]) -> meta_complete fm ->
  type_words ds dt id ->
  (dt = "formula" /\ In (id, k) documented_formulas) \/ (dt = "model" /\ In (id, k) documented_models) ->
  ds_range ds = DStr rs -> rs <> "" -> numbers_text rs rng -> ds_data ds = DStr cs -> numbers_text cs params ->
  file_or_default (ds_stype ds) t0 t -> file_or_default (ds_unit ds) u0 u ->
  mk_model k params (InVals (VA rng)) t u = Ok d ->
  exists m, mk_material rd kw = Ok m /\ m_stype m = t /\ m_unit m = u /\
    ((permittivity_model k /\ m_name m = "eps" /\ m_complex m = Some d) \/
     (~ permittivity_model k /\ m_name m = "nk" /\ m_complex m = None /\ m_real m = d /\ zero_data (m_imag m))).
Proof. exact C36_selects_l. Qed.
Print Assumptions C36_selects.

(** C36: a parameter or unit the model rejects: its exception *)
Theorem C36_model_error : forall rd kw path t0 u0 fm ds dt id k rs rng cs params t u e,
  call kw "file_path" (PStr path) t0 u0 -> rd path = Ok (mkFdict fm [ds]) -> meta_complete fm ->
  type_words ds dt id ->
  (dt = "formula" /\ In (id, k) documented_formulas) \/ (dt = "model" /\ In (id, k) documented_models) ->
  ds_range ds = DStr rs -> rs <> "" -> numbers_text rs rng -> ds_data ds = DStr cs -> numbers_text cs params ->
  file_or_default (ds_stype ds) t0 t -> file_or_default (ds_unit ds) u0 u ->
  mk_model k params (InVals (VA rng)) t u = Raise e -> mk_material rd kw = Raise e.
Proof. exact C36_model_error_l. Qed.
Print Assumptions C36_model_error.

(** C36: other formula numbers *)
Theorem C36_unknown : forall rd kw path t0 u0 fm ds id i rs rng cs params t u,
  call kw "file_path" (PStr path) t0 u0 -> rd path = Ok (mkFdict fm [ds]) -> meta_complete fm ->
  type_words ds "formula" id -> integer_text id i -> (i < 1 \/ 9 < i)%Z ->
  ds_range ds = DStr rs -> rs <> "" -> numbers_text rs rng -> ds_data ds = DStr cs -> numbers_text cs params ->
  file_or_default (ds_stype ds) t0 t -> file_or_default (ds_unit ds) u0 u ->
  mk_material rd kw = Raise KeyError.
Proof. exact C36_unknown_l. Qed.
Print Assumptions C36_unknown.

(** C36: no valid range in the file *)
Theorem C36_no_range : forall rd kw path t0 u0 fm ds dt id k,
  call kw "file_path" (PStr path) t0 u0 -> rd path = Ok (mkFdict fm [ds]) -> meta_complete fm ->
  type_words ds dt id -> (dt = "formula" /\ In (id, k) documented_formulas) \/ dt = "model" ->
  ds_range ds = DStr "" -> mk_material rd kw = Raise UnboundLocalError.
Proof. exact C36_no_range_l. Qed.
Print Assumptions C36_no_range.

(** C36: the Fano model exists but cannot be used in a material *)
Theorem C36_fano_refuted : forall rd kw path t0 u0 fm ds rs rng cs params t u d,
  call kw "file_path" (PStr path) t0 u0 -> rd path = Ok (mkFdict fm [ds]) -> meta_complete fm ->
  type_words ds "model" "Fano" ->
  ds_range ds = DStr rs -> rs <> "" -> numbers_text rs rng -> ds_data ds = DStr cs -> numbers_text cs params ->
  file_or_default (ds_stype ds) t0 t -> file_or_default (ds_unit ds) u0 u ->
  mk_model Fano params (InVals (VA rng)) t u = Ok d -> mk_material rd kw = Raise ValueError.
Proof. exact C36_fano_refuted_l. Qed.
Print Assumptions C36_fano_refuted.

Local Ltac a_number := match goal with |- number_text true ?t _ =>
  let So := fresh in
  assert (So : solid t) by (split; [discriminate|cbn; intros c H; repeat (destruct H as [<-|H]; [reflexivity|]); destruct H]);
  apply (proj1 (py_float_token t _ So)); reflexivity end.
Example C36_instance : let ds := mkFset (DStr "formula 5") (DStr "0.5 2") (DStr "") (DStr "um") (DStr "n") (DStr "1.5 0.01 2") in
  call [("file_path", PStr "x")] "file_path" (PStr "x") "wavelength" "nanometer" /\
  type_words ds "formula" "5" /\ In ("5", Cauchy) documented_formulas /\
  (exists rng, numbers_text "0.5 2" rng) /\ (exists params, numbers_text "1.5 0.01 2" params) /\
  file_or_default (ds_stype ds) "wavelength" "wavelength" /\ file_or_default (ds_unit ds) "nanometer" "um" /\
  exists m, mk_material (fun _ => Ok (mkFdict blank_meta [ds])) [("file_path", PStr "x")] = Ok m.
Proof.
  cbv zeta. split; [a_call|]. split; [exists "formula 5"; split; [reflexivity|exact (split_ws_sound "formula 5")]|].
  split; [cbn; auto 10|].
  split.
  { eexists. exists ["0.5"; "2"]. split; [exact (split_ws_sound "0.5 2")|].
    constructor; [a_number|constructor; [a_number|constructor]]. }
  split.
  { eexists. exists ["1.5"; "0.01"; "2"]. split; [exact (split_ws_sound "1.5 0.01 2")|].
    constructor; [a_number|constructor; [a_number|constructor; [a_number|constructor]]]. }
  split; [right; auto|]. split; [left; split; [reflexivity|discriminate]|].
  eexists. vm_compute. reflexivity.
Qed.
Example C36_unknown_instance : integer_text "10" 10 /\ integer_text "-1" (-1).
Proof.
  split.
  - exists "", 1, "10", [1; 0]%Z. split; [reflexivity|]. split; [constructor|]. split; [|cbn; lra].
    exact (dt_cons true 1 "0" [0%Z] ltac:(lia) (dt_one true 0 ltac:(lia))).
  - exists "-", (-1), "1", [1]%Z. split; [reflexivity|]. split; [constructor|]. split; [|cbn; lra].
    exact (dt_one true 1 ltac:(lia)).
Qed.

(** C68: a single value gives a single value, n values give n values *)
Theorem C68_nk_shape : forall X m a o, get_nk_data X m a = Ok o -> oshape o = arg_shape a.
Proof. exact C68_nk_shape_l. Qed.
Print Assumptions C68_nk_shape.

(** C68: the same for the permittivity, of any spectrum object (after any in-place conversions) *)
Theorem C68_eps_shape : forall X m s o, regular s -> get_permittivity X m (SObj s) = Ok o -> oshape o = shape (sp_values s).
Proof. exact C68_eps_shape_l. Qed.
Print Assumptions C68_eps_shape.

(** C68: all spectrum objects are regular *)
Theorem C68_regular : forall v t u s reqs, mk_spectrum v t u = Ok s -> regular (run_in_place s reqs).
Proof. exact C68_regular_l. Qed.
Print Assumptions C68_regular.

Example C68_instance X rd : exists m o, mk_material rd [("fixed_nk", PComplex (CF (1.5, 0.2)))] = Ok m /\
  get_nk_data X m (SRaw (InVals (VA [Fin 1; Fin 0; PInf])) "energy" "eV") = Ok o /\ oshape o = Some 3%nat.
Proof.
  destruct (C27_instance X rd) as (m & E & G). exists m. eexists. split; [exact E|]. split; [exact G|reflexivity].
Qed.
