(** Theorems about materials (C25-C36, C68). *)
From Verif Require Import PyBase PyStr XReal CNum SpectrumModel SpectrumSpec SpectrumProofs SpectralModel SpectralSpec SpectralProofs InterpProofs EvalProofs ExtrapProofs TextModel TextSpec TextProofs TableProofs MaterialModel MaterialSpec MaterialProofs MatEvalProofs MatRangeProofs MatFileProofs SpectralThms.
From Flocq Require Import Core.
Open Scope R_scope.
Open Scope string_scope.
Open Scope list_scope.


Lemma C25_not_one_source_l : forall rd kw, kwargs_ok kw -> ~ exactly_one_source kw ->
  mk_material rd kw = Raise ValueError.
Proof.
  intros rd kw K H. rewrite (one_source kw K) in H. unfold mk_material.
  destruct (parse_spec kw K) as [(_ & ->)|[(L & _)|(L & _)]]; [reflexivity|contradiction|contradiction].
Qed.

Lemma C25_wrong_type_l : forall rd kw, kwargs_ok kw -> exactly_one_source kw -> ~ well_typed kw ->
  mk_material rd kw = Raise TypeError.
Proof.
  intros rd kw K H W. rewrite (one_source kw K) in H. rewrite <- (typed_all_iff kw K) in W. unfold mk_material.
  destruct (parse_spec kw K) as [(L & _)|[(_ & _ & ->)|(_ & T & _)]]; [contradiction|reflexivity|contradiction].
Qed.

Lemma C25_constructed_l : forall rd kw m, kwargs_ok kw -> mk_material rd kw = Ok m ->
  exactly_one_source kw /\ well_typed kw.
Proof.
  intros rd kw m K H. rewrite (one_source kw K), <- (typed_all_iff kw K). unfold mk_material in H.
  destruct (parse_spec kw K) as [(_ & P)|[(_ & _ & P)|(L & T & _)]]; [rewrite P in H; discriminate|rewrite P in H; discriminate|auto].
Qed.

Lemma C25_others_ignored_l : forall rd kw kw', kwargs_ok kw -> kwargs_ok kw' ->
  (forall n v, In n (data_sources ++ ["spectrum_type"; "unit"; "interp_oder"]) -> given kw n v <-> given kw' n v) ->
  mk_material rd kw = mk_material rd kw'.
Proof.
  intros rd kw kw' K K' H. apply mk_material_ext; try assumption. intros n Hn. apply same_given; auto.
Qed.

Lemma C26_fixed_l : forall rd kw n name v t u,
  In (n, name) [("fixed_n", "nk"); ("fixed_nk", "nk"); ("fixed_eps_r", "eps"); ("fixed_eps", "eps")] ->
  call kw n v t u ->
  exists m, mk_material rd kw = Ok m /\ m_name m = name /\ m_complex m = None /\ m_stype m = t /\ m_unit m = u.
Proof.
  intros rd kw n name v t u Hn C. pose proof C as C0. destruct C0 as [_ W [_ G] _ _ _].
  cbn [In] in Hn. decompose [or] Hn; try contradiction;
    match goal with H : (_, _) = (_, _) |- _ => inversion H; subst end.
  - destruct (W "fixed_n" TyFloat v ltac:(cbn; tauto) G) as (x & ->).
    destruct (call_fixed_n rd _ _ _ _ C) as (r & z & _ & _ & E). rewrite E. eexists. split; [reflexivity|]. auto.
  - destruct (W "fixed_nk" TyComplex v ltac:(cbn; tauto) G) as (x & ->).
    destruct (call_fixed_nk rd _ _ _ _ C) as (r & z & _ & _ & E). rewrite E. eexists. split; [reflexivity|]. auto.
  - destruct (W "fixed_eps_r" TyFloat v ltac:(cbn; tauto) G) as (x & ->).
    destruct (call_fixed_eps_r rd _ _ _ _ C) as (r & z & _ & _ & E). rewrite E. eexists. split; [reflexivity|]. auto.
  - destruct (W "fixed_eps" TyComplex v ltac:(cbn; tauto) G) as (x & ->).
    destruct (call_fixed_eps rd _ _ _ _ C) as (r & z & _ & _ & E). rewrite E. eexists. split; [reflexivity|]. auto.
Qed.

Lemma C26_table_nk_eps_l : forall rd kw src name rows t u canon,
  In (src, name) [("tabulated_nk", "nk"); ("tabulated_eps", "eps")] ->
  call kw src (PArr (ND2 3 (to_xr rows))) t u -> table_ok 3 rows -> documented (lower t) (lower u) canon ->
  exists m, mk_material rd kw = Ok m /\ m_name m = name /\ m_complex m = None /\ m_stype m = t /\ m_unit m = u /\
    tabulated (column 1 rows) t u (m_real m) /\ tabulated (column 2 rows) t u (m_imag m).
Proof.
  intros rd kw src name rows t u canon H C T D.
  destruct (call_tab_three rd kw src name rows t u canon) as (a & b & Ta & Tb & E); try assumption.
  { cbn [In] in H. destruct H as [H|[H|[]]]; inversion H; subst; auto. }
  rewrite E. eexists. split; [reflexivity|]. auto 8.
Qed.

Lemma C26_table_n_l : forall rd kw rows t u canon,
  call kw "tabulated_n" (PArr (ND2 2 (to_xr rows))) t u -> table_ok 2 rows -> documented (lower t) (lower u) canon ->
  exists m, mk_material rd kw = Ok m /\ m_name m = "nk" /\ m_complex m = None /\ m_stype m = t /\ m_unit m = u /\
    tabulated (column 1 rows) t u (m_real m) /\ zero_data (m_imag m).
Proof.
  intros rd kw rows t u canon C T D.
  destruct (call_tab_n rd kw rows t u canon C T D) as (a & z & Ta & Z & E).
  rewrite E. eexists. split; [reflexivity|]. auto 8.
Qed.

Lemma C26_wrong_shape_l : forall rd kw src ncols a t u,
  In (src, ncols) [("tabulated_nk", 3%nat); ("tabulated_eps", 3%nat); ("tabulated_n", 2%nat)] ->
  call kw src (PArr a) t u -> (forall rows, a <> ND2 ncols rows) -> mk_material rd kw = Raise ValueError.
Proof. intros. eapply call_tab_shape; eassumption. Qed.

Lemma C26_model_l : forall rd kw name k params rng st un t u d,
  In (name, k) documented_models ->
  call kw "model_kw" (PDict (mkKw (Some name) (Some params) (Some rng) st un)) t u ->
  mk_model k params rng (match st with Some s => s | None => "wavelength" end)
                        (match un with Some s => s | None => "m" end) = Ok d ->
  exists m, mk_material rd kw = Ok m /\
    m_stype m = (match st with Some s => s | None => t end) /\ m_unit m = (match un with Some s => s | None => u end) /\
    ((permittivity_model k /\ m_name m = "eps" /\ m_complex m = Some d) \/
     (~ permittivity_model k /\ m_name m = "nk" /\ m_complex m = None /\ m_real m = d /\ zero_data (m_imag m))).
Proof.
  intros rd kw name k params rng st un t u d Hk C M. call_args C. pose proof (call_build rd _ _ _ _ _ C) as B.
  reduce_args Fn Fs Ft Fu B. rewrite B. reduce_goal Fn Fs Ft Fu.
  rewrite (model_dict_ok name k params rng st un _ _ _ Hk eq_refl eq_refl). cbn [p_stype p_unit]. rewrite M. cbn [bind].
  destruct zero_ok as (z & Ez & Z).
  destruct k; cbn [place]; unfold complete; cbn [set_complex set_real set_defaults p_real p_imag p_complex p_name p_stype p_unit];
    rewrite ?Ez; cbn [bind]; (eexists; split; [reflexivity|]); cbn [m_stype m_unit m_name m_complex m_real m_imag];
    (split; [reflexivity|]); (split; [reflexivity|]);
    first [left; split; [cbn; tauto|split; reflexivity]
          |right; split; [cbn; intuition discriminate|auto 6]].
Qed.

Lemma C26_file_table_l : forall rd kw path t0 u0 fm d id name n rows t u canon,
  In (id, name, n) [("nk", "nk", 3%nat); ("eps", "eps", 3%nat); ("n", "nk", 2%nat); ("k", "nk", 2%nat)] ->
  call kw "file_path" (PStr path) t0 u0 -> rd path = Ok (mkFdict fm [d]) -> meta_complete fm ->
  type_words d "tabulated" id -> table_ok n rows -> holds_table (ds_data d) n rows ->
  file_or_default (ds_stype d) t0 t -> file_or_default (ds_unit d) u0 u -> documented (lower t) (lower u) canon ->
  exists m, mk_material rd kw = Ok m /\ m_name m = name /\ m_complex m = None /\ m_stype m = t /\ m_unit m = u /\
    (if String.eqb id "k" then zero_data (m_real m) else tabulated (column 1 rows) t u (m_real m)) /\
    (if String.eqb id "k" then tabulated (column 1 rows) t u (m_imag m)
     else if String.eqb id "n" then zero_data (m_imag m) else tabulated (column 2 rows) t u (m_imag m)).
Proof.
  intros rd kw path t0 u0 fm d id name n rows t u canon Hid C R M W T H Ht Hu D.
  destruct (file_one rd kw path t0 u0 fm d C R M) as (meta & _ & E). rewrite E.
  assert (Hn : (0 < n)%nat) by (cbn [In] in Hid; decompose [or] Hid; try contradiction;
    match goal with H : (_, _) = (_, _) |- _ => inversion H; subst end; lia).
  rewrite (dataset_table d id n rows t u (mkP "" None None None t0 u0) W Hn T H Ht Hu). destruct zero_ok as (z & Ez & Z).
  cbn [In] in Hid. decompose [or] Hid; try contradiction;
    match goal with H : (_, _) = (_, _) |- _ => inversion H; subst end.
  - destruct (table_three "nk" "nk" rows t u canon (set_defaults (mkP "" None None None t0 u0) t u)) as (a & b & Ta & Tb & Ep); auto.
    rewrite Ep. eexists. split; [reflexivity|]. cbn. auto 8.
  - destruct (table_three "eps" "eps" rows t u canon (set_defaults (mkP "" None None None t0 u0) t u)) as (a & b & Ta & Tb & Ep); auto.
    rewrite Ep. eexists. split; [reflexivity|]. cbn. auto 8.
  - destruct (table_two "n" rows t u canon (set_defaults (mkP "" None None None t0 u0) t u) ltac:(auto) 2%nat ltac:(lia) T D eq_refl eq_refl) as (a & Ta & Ep).
    rewrite Ep. cbn [bind]. change (String.eqb "n" "n") with true. cbv iota. unfold complete. cbn [set_real set_defaults p_real p_imag bind].
    rewrite Ez. eexists. split; [reflexivity|]. cbn. auto 8.
  - destruct (table_two "k" rows t u canon (set_defaults (mkP "" None None None t0 u0) t u) ltac:(auto) 2%nat ltac:(lia) T D eq_refl eq_refl) as (a & Ta & Ep).
    rewrite Ep. cbn [bind]. change (String.eqb "k" "n") with false. cbv iota. unfold complete. cbn [set_imag set_defaults p_real p_imag bind].
    rewrite Ez. eexists. split; [reflexivity|]. cbn. auto 8.
Qed.

Lemma C26_n_alpha_refuted_l : forall rd kw v t u, call kw "tabulated_n_alpha" v t u ->
  mk_material rd kw = Raise AttributeError.
Proof. intros. eapply call_n_alpha; eassumption. Qed.

Lemma C26_name_l : forall rd kw m, kwargs_ok kw -> mk_material rd kw = Ok m ->
  m_name m = "nk" \/ m_name m = "eps" \/ (m_name m = "" /\ exists path, given kw "file_path" (PStr path)).
Proof.
  intros rd kw m K H. unfold mk_material in *.
  destruct (parse_spec kw K) as [(_ & P)|[(_ & _ & P)|(_ & _ & P)]]; [rewrite P in H; discriminate|rewrite P in H; discriminate|].
  destruct (shapes (arg kw)) as [?|e]; [|rewrite P in H; discriminate]. destruct P as (i & P & A).
  pose proof (mk_material_build rd kw i P A) as B. unfold mk_material in B. rewrite B in H.
  destruct (build_good _ _ _ H) as (_ & _ & N). destruct N as [N|[N|(N & path & E)]]; auto.
  right; right. split; [assumption|]. exists path. rewrite eff_other in E by discriminate.
  apply given_arg; [assumption|]. split; [assumption|discriminate].
Qed.

Lemma C27_fixed_nk_l : forall X rd kw n v z t u,
  call kw n v t u -> (n = "fixed_n" /\ v = PFloat (Fin (fst z)) /\ snd z = 0) \/ (n = "fixed_nk" /\ v = PComplex (CF z)) ->
  exists m, mk_material rd kw = Ok m /\
    forall w t' u' canon, documented (lower t') (lower u') canon -> nonneg_floats w ->
      get_nk_data X m (SRaw (InVals w) t' u') = Ok (everywhere z w) /\
      get_permittivity X m (SRaw (InVals w) t' u') = Ok (everywhere (Cmult z z) w).
Proof.
  intros X rd kw n v z t u C Hv.
  assert (B : exists r i, constant_data (Fin (fst z)) r /\ constant_data (Fin (snd z)) i /\
              mk_material rd kw = Ok (mkMat (Some default_meta) "nk" r i None t u)).
  { destruct Hv as [(-> & -> & E)|(-> & ->)].
    - destruct (call_fixed_n rd _ _ _ _ C) as (r & i & Cr & Ci & E'). exists r, i. rewrite E. auto.
    - destruct (call_fixed_nk rd _ _ _ _ C) as (r & i & Cr & Ci & E'). exists r, i. auto. }
  destruct B as (r & i & Cr & Ci & E). rewrite E. eexists. split; [reflexivity|].
  intros w t' u' canon D N.
  assert (G : get_nk_data X (mkMat (Some default_meta) "nk" r i None t u) (SRaw (InVals w) t' u') = Ok (everywhere z w)).
  { destruct (nonneg_spectrum w t' u' canon D N) as (s & Es & Ev & Nn & Ne & Ni).
    unfold get_nk_data. rewrite Es. cbn [bind]. change (negb (valid_name _)) with false. cbv iota.
    match goal with |- context [complex_value X ?m s] =>
    rewrite (const_complex_value X m (fst z) (snd z) s Cr Ci eq_refl Nn Ne Ni) by (rewrite Ev; exact (proj2 (proj2 N))) end.
    cbn [fst bind]. change (String.eqb _ "eps") with false. cbv iota. rewrite omap_id_everywhere, Ev.
    now rewrite <- surjective_pairing. }
  split; [exact G|]. rewrite eps_is_square_raw, G. cbn [bind]. f_equal.
  unfold map_out, everywhere. destruct w; cbn [onum_cx]; rewrite ?map_map; reflexivity.
Qed.

Lemma C27_fixed_eps_l : forall X rd kw n v z t u,
  call kw n v t u -> (n = "fixed_eps_r" /\ v = PFloat (Fin (fst z)) /\ snd z = 0) \/ (n = "fixed_eps" /\ v = PComplex (CF z)) ->
  exists m, mk_material rd kw = Ok m /\
    forall w t' u' canon, documented (lower t') (lower u') canon -> nonneg_floats w ->
      get_permittivity X m (SRaw (InVals w) t' u') = Ok (everywhere z w).
Proof.
  intros X rd kw n v z t u C Hv.
  assert (B : exists r i, constant_data (Fin (fst z)) r /\ constant_data (Fin (snd z)) i /\
              mk_material rd kw = Ok (mkMat (Some default_meta) "eps" r i None t u)).
  { destruct Hv as [(-> & -> & E)|(-> & ->)].
    - destruct (call_fixed_eps_r rd _ _ _ _ C) as (r & i & Cr & Ci & E'). exists r, i. rewrite E. auto.
    - destruct (call_fixed_eps rd _ _ _ _ C) as (r & i & Cr & Ci & E'). exists r, i. auto. }
  destruct B as (r & i & Cr & Ci & E). rewrite E. eexists. split; [reflexivity|].
  intros w t' u' canon D N.
  destruct (nonneg_spectrum w t' u' canon D N) as (s & Es & Ev & Nn & Ne & Ni).
  unfold get_permittivity, get_permittivity_obj. rewrite Es. cbn [bind]. change (negb (valid_name _)) with false. cbv iota.
  match goal with |- context [complex_value X ?m s] =>
    rewrite (const_complex_value X m (fst z) (snd z) s Cr Ci eq_refl Nn Ne Ni) by (rewrite Ev; exact (proj2 (proj2 N))) end.
  cbn [fst bind]. change (String.eqb _ "nk") with false. cbv iota. rewrite omap_id_everywhere, Ev.
  now rewrite <- surjective_pairing.
Qed.

Lemma C28_square_l : forall X m a,
  (exists v t u, a = SRaw v t u) \/ (exists s v t u, a = SObj s /\ mk_spectrum v t u = Ok s) ->
  get_permittivity X m a = (do n <- get_nk_data X m a; Ok (map_out (fun z => Cmult z z) n)).
Proof.
  intros X m a [(v & t & u & ->)|(s & v & t & u & -> & H)]; [apply eps_is_square_raw|].
  apply eps_is_square_obj. now apply mk_spectrum_again in H.
Qed.

Lemma C28_principal_root_l : forall X m a o, m_name m = "eps" -> get_nk_data X m a = Ok o ->
  Forall (fun x => match x with OCx (CF z) => 0 <= fst z | OCx CNan => True | ORe _ => False end) (out_elems o).
Proof. intros X m a o. apply nk_principal. Qed.

(** a table with the one row (1.44 um, 1.5), in metres *)
Definition one_row_kw : dict pyval :=
  [("tabulated_n", PArr (ND2 2 (to_xr [[1.44 / 10 ^ 6; 1.5]]))); ("unit", PStr "m")].

Lemma cm_round : round_dec 5 (10 ^ 2 * (1.44 / 10 ^ 6)) = 1.4 / 10 ^ 4.
Proof.
  unfold round_dec. rewrite (Znearest_imp _ _ 14%Z); [lra|].
  apply Rabs_lt. lra.
Qed.

Lemma C28_converted_refuted_l : forall X rd, exists m s0 s o,
  mk_material rd one_row_kw = Ok m /\
  mk_spectrum (InVals (VS (Fin (1.44 / 10 ^ 6)))) "wavelength" "m" = Ok s0 /\
  s = snd (convert_in_place s0 "wavelength" "cm") /\
  get_permittivity X m (SObj s) = Ok o /\ get_nk_data X m (SObj s) = Raise ValueError.
Proof.
  intros X rd. eexists. eexists. eexists. eexists.
  split; [rcv; reflexivity|]. split; [reflexivity|]. split; [reflexivity|].
  split; [rcv; reflexivity|].
  unfold get_nk_data. rstep.
  replace (round_dec 5 _) with (1.4 / 10 ^ 4) by (symmetry; etransitivity; [|exact cm_round]; f_equal; lra).
  rcv. reflexivity.
Qed.

Lemma name_valid m : m_name m = "nk" \/ m_name m = "eps" -> valid_name m = true.
Proof. unfold valid_name. intros [-> | ->]; reflexivity. Qed.
Lemma xle_antisym a b : xle a b = true -> xle b a = true -> a = b.
Proof.
  destruct a, b; cbn; try discriminate; try reflexivity. intros H1 H2. f_equal.
  apply (proj1 (xle_fin _ _)) in H1. apply (proj1 (xle_fin _ _)) in H2. lra.
Qed.
Lemma xle_self a : a <> NaN -> xle a a = true.
Proof. destruct a; cbn; try congruence; try reflexivity. intros _. apply xle_fin. lra. Qed.

Lemma C29_intersection_l : forall m,
  m_name m = "nk" \/ m_name m = "eps" -> m_complex m = None ->
  wavelengths_of (m_real m) <> [] -> wavelengths_of (m_imag m) <> [] ->
  no_nan (wavelengths_of (m_real m)) -> no_nan (wavelengths_of (m_imag m)) ->
  exists lo hi,
    (forall x, xle lo x = true <-> not_below (wavelengths_of (m_real m)) x /\ not_below (wavelengths_of (m_imag m)) x) /\
    (forall x, xle x hi = true <-> not_above (wavelengths_of (m_real m)) x /\ not_above (wavelengths_of (m_imag m)) x) /\
    get_maximum_valid_range m = convert_to (mkSp "wavelength" "m" (VA [lo; hi]) (VA [lo; hi])) (m_stype m) (m_unit m).
Proof.
  intros m N C A B D E. destruct (max_range m (name_valid m N) C A B D E) as (lo & hi & _ & _ & _ & _ & H).
  exists lo, hi. exact H.
Qed.

Lemma C29_bounds_l : forall m canon lo hi x0 x1,
  m_name m = "nk" \/ m_name m = "eps" -> m_complex m = None ->
  wavelengths_of (m_real m) <> [] -> wavelengths_of (m_imag m) <> [] ->
  no_nan (wavelengths_of (m_real m)) -> no_nan (wavelengths_of (m_imag m)) ->
  (forall x, xle (Fin lo) x = true <-> not_below (wavelengths_of (m_real m)) x /\ not_below (wavelengths_of (m_imag m)) x) ->
  (forall x, xle x (Fin hi) = true <-> not_above (wavelengths_of (m_real m)) x /\ not_above (wavelengths_of (m_imag m)) x) ->
  documented (lower (m_stype m)) (m_unit m) canon -> lower (m_stype m) <> "wavenumber" ->
  wavelength_m (lower (m_stype m)) canon x0 lo -> wavelength_m (lower (m_stype m)) canon x1 hi ->
  0 < x0 -> 0 < x1 -> (reciprocal_type (lower (m_stype m)) -> / 10 ^ 8 < lo /\ / 10 ^ 8 < hi) ->
  exists a b, get_maximum_valid_range m = Ok (VA [Fin a; Fin b]) /\ rounds_for canon x0 a /\ rounds_for canon x1 b /\
    (lo <= hi -> if String.eqb (lower (m_stype m)) "wavelength" then a <= b else b <= a).
Proof.
  intros m canon lo hi x0 x1 N C A B D E L H Dc W W0 W1 P0 P1 Big.
  destruct (max_range m (name_valid m N) C A B D E) as (lo' & hi' & Nl & Nh & _ & _ & L' & H' & G).
  assert (El : lo' = Fin lo).
  { apply xle_antisym; [apply L', L|apply L, L']; apply xle_self; [discriminate|assumption]. }
  assert (Eh : hi' = Fin hi).
  { apply xle_antisym; [apply H, H'|apply H', H]; apply xle_self; [assumption|discriminate]. }
  subst lo' hi'. rewrite G, (bounds_convert _ _ canon lo hi x0 x1 Dc W W0 W1 P0 P1 Big).
  eexists. eexists. split; [reflexivity|]. split; [apply rnd_for_spec|]. split; [apply rnd_for_spec|].
  intros Lh. exact (bounds_order _ _ _ _ _ _ W0 W1 P0 P1 Lh).
Qed.

Lemma C29_complex_refuted_l : forall m d a b canon x0 x1,
  m_name m = "nk" \/ m_name m = "eps" -> m_complex m = Some d -> sp_values (valid_range d) = VA [Fin a; Fin b] -> a <= b ->
  documented (lower (m_stype m)) (m_unit m) canon -> lower (m_stype m) <> "wavenumber" ->
  wavelength_m (lower (m_stype m)) canon x0 a -> wavelength_m (lower (m_stype m)) canon x1 b ->
  0 < x0 -> 0 < x1 -> (reciprocal_type (lower (m_stype m)) -> / 10 ^ 8 < a) ->
  exists y0 y1, get_maximum_valid_range m = Ok (VA [Fin y0; Fin y1]) /\ rounds_for canon x0 y0 /\ rounds_for canon x1 y1.
Proof.
  intros m d a b canon x0 x1 N C V L Dc W W0 W1 P0 P1 Big.
  rewrite (max_range_complex m d (name_valid m N) C), V. cbn [elems].
  assert (Emn : np_min [Fin a; Fin b] = Ok (Fin a)).
  { cbn. destruct (Rltb b a) eqn:E; [apply Rltb_true in E; lra|reflexivity]. }
  assert (Emx : np_max [Fin a; Fin b] = Ok (Fin b)).
  { cbn. unfold xgt. cbn. destruct (Rltb a b) eqn:E; [reflexivity|]. apply Rltb_false in E. assert (a = b) by lra. now subst. }
  rewrite Emn, Emx. cbn [bind]. rewrite (bounds_convert _ _ canon a b x0 x1 Dc W W0 W1 P0 P1).
  - eexists. eexists. split; [reflexivity|]. split; apply rnd_for_spec.
  - intros Rt. specialize (Big Rt). lra.
Qed.

(** a Drude model valid from 0.5 to 4 eV *)
Definition drude_kw : dict pyval :=
  [("model_kw", PDict (mkKw (Some "Drude") (Some [Fin 9; Fin 1]) (Some (InVals (VA [Fin 0.5; Fin 4]))) (Some "energy") (Some "ev")))].

Lemma metre_energy a : / 2 <= a -> exists x, wavelength_m "energy" "ev" x a /\ 0 < x < / 2.
Proof.
  intros Ha. destruct const_pos as (P1 & P2 & P3 & P4 & P5). destruct consts_eq as (E1 & E2 & E3).
  exists (planck * speed_of_light / (elementary_charge * a)).
  assert (N : planck <> 0 /\ speed_of_light <> 0 /\ elementary_charge <> 0) by (rewrite E1, E2, E3; lra).
  destruct N as (N1 & N2 & N3). split.
  - replace a with (planck * speed_of_light / (elementary_charge * (planck * speed_of_light / (elementary_charge * a)))) at 2; [constructor|].
    field. repeat split; auto; lra.
  - split.
    + rewrite E1, E2, E3. apply Rmult_lt_0_compat; [now apply Rmult_lt_0_compat|].
      apply Rinv_0_lt_compat. apply Rmult_lt_0_compat; [assumption|lra].
    + assert (Pe : 0 < elementary_charge * a) by (rewrite E3; apply Rmult_lt_0_compat; [assumption|lra]).
      apply (Rmult_lt_reg_r (elementary_charge * a)); [assumption|]. unfold Rdiv. rewrite Rmult_assoc, Rinv_l by lra.
      rewrite Rmult_1_r.
      apply Rlt_le_trans with (/ 2 * (elementary_charge * / 2)); [|apply Rmult_le_compat_l; [lra|apply Rmult_le_compat_l; [rewrite E3; lra|assumption]]].
      unfold planck, speed_of_light, elementary_charge. lra.
Qed.

Lemma C29_drude_refuted_l : forall X rd, exists m y0 y1 o,
  mk_material rd drude_kw = Ok m /\ get_maximum_valid_range m = Ok (VA [Fin y0; Fin y1]) /\ y0 < 1 /\ y1 < 1 /\
  get_permittivity X m (SRaw (InVals (VS (Fin 1))) "energy" "ev") = Ok o.
Proof.
  intros X rd. destruct (example_ev Drude [Fin 9; Fin 1] eq_refl) as (d & s & M & A).
  assert (C : call drude_kw "model_kw" (PDict (mkKw (Some "Drude") (Some [Fin 9; Fin 1]) (Some (InVals (VA [Fin 0.5; Fin 4]))) (Some "energy") (Some "ev"))) "wavelength" "nanometer") by a_call.
  destruct (C26_model_l rd _ "Drude" Drude [Fin 9; Fin 1] _ (Some "energy") (Some "ev") _ _ d ltac:(cbn; auto 20) C M) as (m & E & T & U & Hm).
  destruct Hm as [(_ & Nm & Cm)|(F & _)]; [|exfalso; apply F; cbn; auto].
  destruct (metre_energy 0.5 ltac:(lra)) as (x0 & W0 & P0). destruct (metre_energy 4 ltac:(lra)) as (x1 & W1 & P1).
  assert (V : sp_values (valid_range d) = VA [Fin 0.5; Fin 4]) by (injection M as <-; reflexivity).
  destruct (C29_complex_refuted_l m d 0.5 4 "ev" x0 x1) as (y0 & y1 & G & R0 & R1); try assumption; auto.
  { lra. } { rewrite T, U. exact documented_ev. } { rewrite T. discriminate. } { rewrite T. exact W0. } { rewrite T. exact W1. }
  { lra. } { lra. } { intros _. lra. }
  destruct (mk_spectrum (InVals (VS (Fin 1))) "energy" "ev") as [s1|] eqn:E1; [|discriminate].
  assert (A1 : asked d s1 "energy" "ev" 1).
  { eapply (asked_self d "energy" "ev" "ev" 1 s1 0.5 4 documented_ev); auto.
    - discriminate. - lra. - lra. - exact (rounds_for_int _ 1%Z).
    - injection M as <-; reflexivity. - injection M as <-; reflexivity. }
  exists m, y0, y1. 
  change [Fin 9; Fin 1] with (map Fin [9; 1] ++ []) in M.
  pose proof (C17_drude_l X 9 1 [] _ _ _ d s1 1 M eq_refl A1 ltac:(lra)) as Ev.
  eexists. split; [exact E|]. split; [exact G|].
  change (rounds_to 9 x0 y0) in R0. change (rounds_to 9 x1 y1) in R1.
  destruct R0 as (n0 & _ & B0 & _). destruct R1 as (n1 & _ & B1 & _). apply Rabs_le_inv in B0. apply Rabs_le_inv in B1.
  split; [lra|]. split; [lra|].
  unfold get_permittivity, get_permittivity_obj. rewrite E1. cbn [bind]. rewrite (name_valid m) by auto. cbn [negb].
  unfold complex_value. rewrite Cm, Ev. cbn [bind fst]. reflexivity.
Qed.

Lemma C30_inside_l : forall X m a b canon,
  get_maximum_valid_range m = Ok (VA [Fin a; Fin b]) -> 0 < a -> 0 < b ->
  (a <= b /\ geomspace_ok X) \/ geomspace_exact X ->
  documented (lower (m_stype m)) (lower (m_unit m)) canon ->
  exists vs s, get_sample_spectrum X m = Ok s /\ sp_type s = lower (m_stype m) /\ sp_unit s = canon /\
    sp_values s = VA (map Fin vs) /\ length vs = 1000%nat /\ Forall (fun x => Rmin a b <= x <= Rmax a b) vs.
Proof.
  intros X m a b canon G Pa Pb H D.
  destruct (sample_between X m a b _ _ G Pa Pb eq_refl eq_refl H canon D) as (vs & s & E & T & U & V & L & F & _).
  exists vs, s. auto 8.
Qed.

Lemma C30_fallback_refuted_l : forall X m r0 r1,
  get_maximum_valid_range m = Ok (VA [r0; r1]) -> r0 = Fin 0 \/ r1 = PInf -> geomspace_exact X ->
  exists mid s, get_sample_spectrum X m = Ok s /\ sp_type s = "wavelength" /\ sp_unit s = "nm" /\
    sp_values s = VA (map Fin (100 :: mid ++ [2000])).
Proof.
  intros X m r0 r1 G H E. rewrite (sample_fallback X m r0 r1 G H).
  destruct (E 100 2000 ltac:(lra) ltac:(lra)) as (mid & -> & _). cbn [bind].
  destruct (mk_spectrum (InVals (VA (map Fin (100 :: mid ++ [2000])))) "wavelength" "nm") as [s|] eqn:M; [|discriminate].
  destruct (mk_spectrum_ok _ _ _ _ M) as (c & w & D & Ev & S & E1 & E2 & E3). injection Ev as <-.
  exists mid, s. split; [reflexivity|]. split; [exact E1|]. split; [|rewrite E3; reflexivity].
  rewrite E2. apply (documented_fun "wavelength" "nm"); [exact D|]. exists ["nanometer"; "nanometre"; "nm"]. cbn; auto 10.
Qed.

Lemma zero_bounds t u canon : documented (lower t) u canon -> reciprocal_type (lower t) ->
  convert_to (mkSp "wavelength" "m" (VA [Fin 0; PInf]) (VA [Fin 0; PInf])) t u = Ok (VA [PInf; Fin 0]).
Proof.
  intros D Rt. rewrite (convert_to_unfold _ _ _ _ D). cbn [sp_std]. pose proof PI_RGT_0 as Pp.
  destruct (documented_cases _ _ _ D) as [H|[H|[H|[H|[H|[H|[H|[H|H]]]]]]]]; destruct H as [Et ->]; rewrite Et in *;
    try (exfalso; unfold reciprocal_type in Rt; cbn in Rt; intuition discriminate);
    rcv; repeat (first [destruct (Rcase_abs _); [lra|] | destruct (Rlt_dec _ _); [|lra] | destruct (Rlt_dec _ _); [lra|] | rdec]; rstep);
    do 3 f_equal; f_equal; f_equal; try lra.
  transitivity (rnd_for "ev" 0); [|symmetry; exact (rounds_for_unique "ev" 0 0 (rounds_for_int "ev" 0%Z))].
  unfold rnd_for. change (doc_decimals "ev") with (Some 9%nat). cbv iota. f_equal. lra.
Qed.

Lemma C30_reciprocal_refuted_l : forall X rd kw n v t u canon,
  In n ["fixed_n"; "fixed_nk"; "fixed_eps_r"; "fixed_eps"] -> call kw n v t u ->
  documented (lower t) u canon -> reciprocal_type (lower t) -> geomspace_zero X ->
  exists m, mk_material rd kw = Ok m /\ get_maximum_valid_range m = Ok (VA [PInf; Fin 0]) /\
    get_sample_spectrum X m = Raise ValueError.
Proof.
  intros X rd kw n v t u canon Hn C D Rt Gz.
  assert (B : exists r i a b name, mk_material rd kw = Ok (mkMat (Some default_meta) name r i None t u) /\
     (name = "nk" \/ name = "eps") /\ constant_data a r /\ constant_data b i).
  { pose proof C as C0. destruct C0 as [_ W [_ G] _ _ _]. cbn [In] in Hn.
    decompose [or] Hn; try contradiction; subst n.
    - destruct (W "fixed_n" TyFloat v ltac:(cbn; tauto) G) as (x & ->).
      destruct (call_fixed_n rd _ _ _ _ C) as (r & z & C1 & C2 & E). exists r, z. eauto 8.
    - destruct (W "fixed_nk" TyComplex v ltac:(cbn; tauto) G) as (x & ->).
      destruct (call_fixed_nk rd _ _ _ _ C) as (r & z & C1 & C2 & E). exists r, z. eauto 8.
    - destruct (W "fixed_eps_r" TyFloat v ltac:(cbn; tauto) G) as (x & ->).
      destruct (call_fixed_eps_r rd _ _ _ _ C) as (r & z & C1 & C2 & E). exists r, z. eauto 8.
    - destruct (W "fixed_eps" TyComplex v ltac:(cbn; tauto) G) as (x & ->).
      destruct (call_fixed_eps rd _ _ _ _ C) as (r & z & C1 & C2 & E). exists r, z. eauto 8. }
  destruct B as (r & i & a & b & name & E & Nm & Ca & Cb).
  exists (mkMat (Some default_meta) name r i None t u). split; [exact E|].
  assert (G : get_maximum_valid_range (mkMat (Some default_meta) name r i None t u) = Ok (VA [PInf; Fin 0])).
  { unfold get_maximum_valid_range. match goal with |- context [valid_name ?m] => rewrite (name_valid m Nm) end. cbn [negb m_complex m_real m_imag m_stype m_unit].
    unfold constant_data in Ca, Cb. cbn in Ca, Cb. injection Ca as <-. injection Cb as <-.
    transitivity (convert_to (mkSp "wavelength" "m" (VA [Fin 0; PInf]) (VA [Fin 0; PInf])) t u); [|exact (zero_bounds t u canon D Rt)].
    cbn [valid_range dbase_of d_range sp_std vmin vmax elems].
    assert (Z1 : np_min [Fin 0; PInf] = Ok (Fin 0)) by reflexivity.
    assert (Z2 : np_max [Fin 0; PInf] = Ok PInf) by reflexivity.
    assert (Z3 : np_max [Fin 0; Fin 0] = Ok (Fin 0)) by (cbn; destruct (Rltb 0 0); reflexivity).
    assert (Z4 : np_min [PInf; PInf] = Ok PInf) by reflexivity.
    unfold vmin, vmax. cbn [elems]. rewrite Z1, Z2. cbn [bind]. rewrite Z3, Z4. cbn [bind fst snd]. rewrite metre_spectrum. reflexivity. }
  split; [exact G|]. exact (sample_zero X _ PInf Gz G ltac:(discriminate)).
Qed.

(** a geomspace that satisfies the assumptions *)
Definition step_scipy : scipy := mkScipy (fun _ => Ok tt) (fun _ x => x)
  (fun a b n => if xeqb a (Fin 0) || xeqb b (Fin 0) then Raise ValueError else Ok (a :: repeat a 998 ++ [b])).

Lemma step_exact : geomspace_exact step_scipy /\ geomspace_zero step_scipy.
Proof.
  split.
  - intros a b Pa Pb. exists (repeat a 998). split; [|split; [apply repeat_length|]].
    + unfold step_scipy, geomspace, xeqb. rewrite (proj2 (Reqb_false a 0)), (proj2 (Reqb_false b 0)) by lra. cbn [orb].
      assert (Mr : forall n, map Fin (repeat a n) = repeat (Fin a) n) by (induction n as [|n IH]; [reflexivity|]; cbn [repeat map]; now rewrite IH).
      cbn [map]. rewrite map_app, Mr. reflexivity.
    + apply Forall_forall. intros x Hx. apply repeat_spec in Hx. subst. split; [apply Rmin_l|apply Rmax_l].
  - intros x n. unfold step_scipy, geomspace. split; [|rewrite orb_comm]; unfold xeqb at 1;
      rewrite (proj2 (Reqb_true 0 0)) by reflexivity; reflexivity.
Qed.

Lemma C31_zero_l : forall X rd m m' a o, made X rd m -> m_complex m = None -> remove_absorption m = Ok m' ->
  (m_name m = "nk" /\ get_nk_data X m' a = Ok o) \/ (m_name m = "eps" /\ get_permittivity X m' a = Ok o) ->
  Forall im_zero (out_elems o).
Proof.
  intros X rd m m' a o Hm C R H. destruct (made_good X rd m Hm) as [Rr _].
  unfold remove_absorption in R. destruct (constant_default (ORe (Fin 0))) as [z|] eqn:Ez; [|discriminate].
  cbn [bind] in R. injection R as <-.
  assert (Z : zero_data z) by exact Ez.
  set (m' := mkMat _ _ _ _ _ _ _) in *.
  assert (Im : forall s c s', complex_value X m' s = (Ok c, s') -> Forall im_zero (out_elems (omap (fun z => z) c))).
  { intros s c s' Hc. pose proof (noabs_im X m' s c s' C Rr Z Hc) as F. destruct c as [x|l]; cbn [omap out_elems] in *.
    - constructor; [exact (Forall_inv F)|constructor].
    - apply Forall_forall. intros y Hy. apply in_map_iff in Hy. destruct Hy as (x & <- & Hx). rewrite Forall_forall in F. exact (F x Hx). }
  destruct H as [[N H]|[N H]].
  - unfold get_nk_data in H.
    destruct (match a with SObj s => mk_spectrum (InVals (sp_values s)) (sp_type s) (sp_unit s) | SRaw v t u => mk_spectrum v t u end) as [s|]; cbn [bind] in H; [|discriminate].
    rewrite (name_valid m') in H by (left; exact N). cbn [negb] in H.
    destruct (complex_value X m' s) as [[c|] s1] eqn:Ec; cbn [fst bind] in H; [|discriminate].
    change (m_name m') with (m_name m) in H. rewrite N in H. change (String.eqb "nk" "eps") with false in H. injection H as <-.
    exact (Im _ _ _ Ec).
  - assert (G : exists s, fst (get_permittivity_obj X m' s) = Ok o).
    { unfold get_permittivity in H. destruct a as [s|v t u]; [eauto|]. destruct (mk_spectrum v t u) as [s|]; [|discriminate]. eauto. }
    destruct G as (s & G). unfold get_permittivity_obj in G. rewrite (name_valid m') in G by (right; exact N). cbn [negb] in G.
    destruct (complex_value X m' s) as [[c|] s1] eqn:Ec; cbn [fst bind] in G; [|discriminate].
    change (m_name m') with (m_name m) in G. rewrite N in G. change (String.eqb "eps" "nk") with false in G. injection G as <-.
    exact (Im _ _ _ Ec).
Qed.

Lemma map_out_omap_id f o : map_out f (omap (fun z => z) o) = omap (fun z => z) (map_out f o).
Proof. rewrite !map_out_omap, !omap_omap. reflexivity. Qed.
Lemma noabs_get X rd m m' w t u canon : made X rd m -> m_complex m = None -> remove_absorption m = Ok m' ->
  documented (lower t) (lower u) canon -> nonneg_floats w ->
  exists s, mk_spectrum (InVals w) t u = Ok s /\
    forall c s', complex_value X m s = (Ok c, s') -> all_finite c -> fst (complex_value X m' s) = Ok (map_out drop_im c).
Proof.
  intros Hm C R D N. destruct (made_good X rd m Hm) as [Rr Ri].
  unfold remove_absorption in R. destruct (constant_default (ORe (Fin 0))) as [z|] eqn:Ez; [|discriminate].
  cbn [bind] in R. injection R as <-.
  destruct (nonneg_spectrum w t u canon D N) as (s & Es & Ev & Nn & Ne & Ni). exists s. split; [exact Es|].
  intros c s' Hc F. rewrite C. exact (noabs_value X m z s c s' C Rr Ri Ez (mk_spectrum_regular _ _ _ _ Es) Nn Ne Ni Hc F).
Qed.
Lemma finite_omap o : all_finite (omap (fun z => z) o) -> all_finite o.
Proof.
  unfold all_finite. destruct o as [x|l]; cbn [omap out_elems]; intros F.
  - constructor; [exact (Forall_inv F)|constructor].
  - apply Forall_forall. intros y Hy. rewrite Forall_forall in F.
    exact (F (OCx (onum_cx y)) (in_map (fun x => OCx (onum_cx x)) l y Hy)).
Qed.

Lemma C31_real_unchanged_l : forall X rd m m' w t u canon o, made X rd m -> m_complex m = None -> remove_absorption m = Ok m' ->
  documented (lower t) (lower u) canon -> nonneg_floats w -> all_finite o ->
  (m_name m = "nk" -> get_nk_data X m (SRaw (InVals w) t u) = Ok o ->
     get_nk_data X m' (SRaw (InVals w) t u) = Ok (map_out drop_im o)) /\
  (m_name m = "eps" -> get_permittivity X m (SRaw (InVals w) t u) = Ok o ->
     get_permittivity X m' (SRaw (InVals w) t u) = Ok (map_out drop_im o)).
Proof.
  intros X rd m m' w t u canon o Hm C R D N F.
  destruct (noabs_get X rd m m' w t u canon Hm C R D N) as (s & Es & G).
  assert (Nm : m_name m' = m_name m).
  { unfold remove_absorption in R. destruct (constant_default (ORe (Fin 0))); [|discriminate]. cbn [bind] in R. now injection R as <-. }
  split; intros En H.
  - unfold get_nk_data in *. rewrite Es in *. cbn [bind] in *.
    rewrite (name_valid m) in H by (now left). rewrite (name_valid m') by (left; congruence). cbn [negb] in *.
    rewrite Nm, En in *. change (String.eqb "nk" "eps") with false in *. cbv iota in *.
    destruct (complex_value X m s) as [[c|] s1] eqn:Ec; cbn [fst bind] in H; [|discriminate]. injection H as <-.
    rewrite (G c s1 eq_refl (finite_omap _ F)). cbn [bind]. now rewrite map_out_omap_id.
  - unfold get_permittivity, get_permittivity_obj in *. rewrite Es in *. cbn [bind] in *.
    rewrite (name_valid m) in H by (now right). rewrite (name_valid m') by (right; congruence). cbn [negb] in *.
    rewrite Nm, En in *. change (String.eqb "eps" "nk") with false in *. cbv iota in *.
    destruct (complex_value X m s) as [[c|] s1] eqn:Ec; cbn [fst bind] in H; [|discriminate]. injection H as <-.
    specialize (G c s1 eq_refl (finite_omap _ F)). destruct (complex_value X m' s) as [c' s2]. cbn [fst] in *. rewrite G.
    cbn [bind]. now rewrite map_out_omap_id.
Qed.

Lemma C31_rest_l : forall m, exists m', remove_absorption m = Ok m' /\
  m_meta m' = m_meta m /\ m_name m' = m_name m /\ m_real m' = m_real m /\ m_complex m' = m_complex m /\
  m_stype m' = m_stype m /\ m_unit m' = m_unit m /\ zero_data (m_imag m') /\
  (m_complex m <> None -> forall X a, get_nk_data X m' a = get_nk_data X m a /\ get_permittivity X m' a = get_permittivity X m a).
Proof.
  intros m. unfold remove_absorption. destruct (constant_default (ORe (Fin 0))) as [z|] eqn:Ez; [|discriminate].
  cbn [bind]. eexists. split; [reflexivity|]. cbn [m_meta m_name m_real m_complex m_stype m_unit m_imag].
  do 6 (split; [reflexivity|]). split; [exact Ez|]. intros Hc X a.
  assert (V : forall s, complex_value X (mkMat (m_meta m) (m_name m) (m_real m) z (m_complex m) (m_stype m) (m_unit m)) s = complex_value X m s).
  { intros s. unfold complex_value. cbn [m_complex]. destruct (m_complex m); [reflexivity|congruence]. }
  split.
  - unfold get_nk_data. destruct (match a with SObj s => _ | SRaw v t u => _ end); [|reflexivity]. cbn [bind]. rewrite V. reflexivity.
  - unfold get_permittivity, get_permittivity_obj. destruct a as [s|v t u]; [rewrite V; reflexivity|].
    destruct (mk_spectrum v t u); [|reflexivity]. cbn [bind]. rewrite V. reflexivity.
Qed.

Lemma C32_complex_l : forall X m s order, m_complex m <> None ->
  extrapolate X m s order = (Raise NotImplementedError, m, s).
Proof. intros X m s order H. rewrite extrapolate_eq. destruct (m_complex m); [reflexivity|congruence]. Qed.

Lemma C32_constants_l : forall X m s order r m' s', extrapolate X m s order = (r, m', s') ->
  m_meta m' = m_meta m /\ m_name m' = m_name m /\ m_complex m' = m_complex m /\ m_stype m' = m_stype m /\ m_unit m' = m_unit m /\
  ((exists b c, m_real m = DConst b c) -> m_real m' = m_real m) /\
  ((exists b c, m_imag m = DConst b c) -> m_imag m' = m_imag m).
Proof.
  intros X m s order r m' s' H. destruct (extrapolate_fields _ _ _ _ _ _ _ H) as (A & B & C & D & E).
  do 5 (split; [assumption|]). rewrite extrapolate_eq in H.
  destruct (m_complex m) eqn:Ec; [injection H as <- <- <-; auto|].
  destruct (ext_step X (m_real m) s order) as [[a|e] s1] eqn:E1; [|injection H as <- <- <-; auto].
  assert (R : (exists b c, m_real m = DConst b c) -> a = m_real m).
  { intros (b & c & Er). rewrite Er in E1. cbn in E1. injection E1 as <- <-. now rewrite Er. }
  cbv zeta in H. destruct (ext_step X (m_imag m) s1 order) as [[b|e] s2] eqn:E2; injection H as <- <- <-; cbn [m_real m_imag].
  - split; [exact R|]. intros (b0 & c & Er). rewrite Er in E2. cbn in E2. injection E2 as <- <-. now rewrite Er.
  - split; [exact R|reflexivity].
Qed.

Lemma C32_success_l : forall X m s order m' s', extrapolate X m s order = (Ok tt, m', s') ->
  m_complex m = None /\ exists s1,
    ((exists b c, m_real m = DConst b c) /\ m_real m' = m_real m /\ s1 = s \/
     mk_extrapolation X (m_real m) s order = (Ok (m_real m'), s1)) /\
    ((exists b c, m_imag m = DConst b c) /\ m_imag m' = m_imag m /\ s' = s1 \/
     mk_extrapolation X (m_imag m) s1 order = (Ok (m_imag m'), s')).
Proof.
  intros X m s order m' s' H. rewrite extrapolate_eq in H.
  destruct (m_complex m) eqn:Ec; [discriminate|]. split; [reflexivity|].
  assert (St : forall d s d1 s1, ext_step X d s order = (Ok d1, s1) ->
     (exists b c, d = DConst b c) /\ d1 = d /\ s1 = s \/ mk_extrapolation X d s order = (Ok d1, s1)).
  { intros d s0 d1 s1 E. unfold ext_step in E. destruct (is_constant d) eqn:K; [|auto].
    left. injection E as <- <-. destruct d; try discriminate. eauto. }
  destruct (ext_step X (m_real m) s order) as [[a|e] s1] eqn:E1; [|discriminate]. cbv zeta in H.
  destruct (ext_step X (m_imag m) s1 order) as [[b|e] s2] eqn:E2; [|discriminate]. injection H as <- <-.
  exists s1. cbn [m_real m_imag]. auto.
Qed.

Lemma C32_failure_unchanged_l : forall X m s order e m' s', extrapolate X m s order = (Raise e, m', s') ->
  (exists e' s1, mk_extrapolation X (m_real m) s order = (Raise e', s1)) \/ (exists b c, m_real m = DConst b c) ->
  m' = m.
Proof.
  intros X m s order e m' s' H F. rewrite extrapolate_eq in H.
  destruct m as [me na re im cx st un]. cbn [m_complex m_real m_imag m_meta m_name m_stype m_unit] in *.
  destruct cx as [d|]; [now injection H as <- <- <-|]. unfold ext_step at 1 in H.
  destruct F as [(e' & s1 & F)|(b & c & ->)].
  - destruct (is_constant re) eqn:K.
    + destruct (ext_step X im s order) as [[b|e1] s2]; [discriminate|now injection H as <- <- <-].
    + rewrite F in H. now injection H as <- <- <-.
  - cbn [is_constant] in H. destruct (ext_step X im s order) as [[b1|e1] s2]; [discriminate|].
    now injection H as <- <- <-.
Qed.

Lemma C32_atomic_refuted_l : forall X m s order r s1 e s2,
  m_complex m = None -> (forall b c, m_real m <> DConst b c) -> (forall b c, m_imag m <> DConst b c) ->
  mk_extrapolation X (m_real m) s order = (Ok r, s1) -> mk_extrapolation X (m_imag m) s1 order = (Raise e, s2) ->
  exists m', extrapolate X m s order = (Raise e, m', s2) /\ m_real m' = r /\ m_imag m' = m_imag m /\ m' <> m.
Proof.
  intros X m s order r s1 e s2 C Nr Ni E1 E2. rewrite extrapolate_eq, C. unfold ext_step.
  assert (K : forall d, (forall b c, d <> DConst b c) -> is_constant d = false) by (intros [] H; try reflexivity; exfalso; eapply H; reflexivity).
  rewrite (K _ Nr), (K _ Ni), E1, E2. eexists. split; [reflexivity|]. cbn [m_real m_imag]. split; [reflexivity|]. split; [reflexivity|].
  intros Em. apply (f_equal m_real) in Em. cbn [m_real] in Em. subst r.
  destruct (mk_ext_inv _ _ _ _ _ _ E1) as (er & mn & mx & b & spl & H1). decompose [and] H1.
  assert (Hs : forall d b0 t, d <> DExtrap b0 d t).
  { induction d; intros bb tt0 Hd; try discriminate. injection Hd as _ Hd _. exact (IHd _ _ Hd). }
  exact (Hs _ _ _ H6).
Qed.

(** a file with refractive index from 1 to 2 m and absorption from 1 to 4 m *)
Definition blank_meta : dict mval := map (fun k => (k, MStr "")) file_metadata.
Definition data_set (kind : string) (rows : list (list R)) : fset :=
  mkFset (DStr ("tabulated " ++ kind)) (DStr "") (DStr "wavelength") (DStr "m") (DStr "") (DArr (ND2 2 (to_xr rows))).
Definition n_and_k : string -> res fdict :=
  fun _ => Ok (mkFdict blank_meta [data_set "n" [[1; 10]; [2; 20]]; data_set "k" [[1; 0]; [4; 1]]]).

Lemma C33_other_l : forall m, mat_eq m None = Ok false.
Proof. reflexivity. Qed.

Lemma C33_depends_l : forall a b a' b', m_meta a = m_meta a' -> m_meta b = m_meta b' ->
  m_name a = m_name a' -> m_name b = m_name b' -> mat_eq a (Some b) = mat_eq a' (Some b').
Proof. intros a b a' b' A B C D. unfold mat_eq. now rewrite A, B, C, D. Qed.

Lemma made_eq X rd a b ma mb : reader_ok rd -> made X rd a -> made X rd b -> m_meta a = Some ma -> m_meta b = Some mb ->
  map fst ma = map fst mb ->
  exists r, mat_eq a (Some b) = Ok r /\ (r = true <-> m_name a = m_name b /\ same_metadata ma mb).
Proof.
  intros R Ha Hb Ea Eb K.
  destruct (made_meta X rd a R Ha) as (ma' & Ea' & Ka & Va). rewrite Ea in Ea'. injection Ea' as <-.
  destruct (made_meta X rd b R Hb) as (mb' & Eb' & Kb & Vb). rewrite Eb in Eb'. injection Eb' as <-.
  apply mat_eq_spec; try assumption; [now apply keys_nodup|].
  intros ->. destruct Ka; discriminate.
Qed.

Lemma C33_iff_l : forall X rd a b ma mb, reader_ok rd -> made X rd a -> made X rd b ->
  m_meta a = Some ma -> m_meta b = Some mb -> map fst ma = map fst mb ->
  exists r, mat_eq a (Some b) = Ok r /\ mat_eq b (Some a) = Ok r /\
    (r = true <-> m_name a = m_name b /\ same_metadata ma mb).
Proof.
  intros X rd a b ma mb R Ha Hb Ea Eb K.
  destruct (made_eq X rd a b ma mb R Ha Hb Ea Eb K) as (r & E & I).
  destruct (made_eq X rd b a mb ma R Hb Ha Eb Ea (eq_sym K)) as (r' & E' & I').
  exists r. split; [exact E|]. split; [|exact I]. rewrite E'. f_equal.
  apply Bool.eq_true_iff_eq. rewrite I, I'. split; intros [H1 H2]; (split; [congruence|now apply same_metadata_sym]).
Qed.

Lemma C33_reflexive_l : forall X rd m, reader_ok rd -> made X rd m -> mat_eq m (Some m) = Ok true.
Proof.
  intros X rd m R Hm. destruct (made_meta X rd m R Hm) as (ma & Ea & _).
  destruct (made_eq X rd m m ma ma R Hm Hm Ea Ea eq_refl) as (r & E & I). rewrite E. f_equal. apply I.
  split; [reflexivity|apply same_metadata_refl].
Qed.

Lemma C33_two_kinds_l : forall X rd m, reader_ok rd -> made X rd m ->
  exists ma, m_meta m = Some ma /\ (map fst ma = file_metadata \/ map fst ma = direct_metadata).
Proof. intros X rd m R Hm. destruct (made_meta X rd m R Hm) as (ma & Ea & K & _). eauto. Qed.

Lemma C33_symmetry_refuted_l : forall a b mb, m_meta a = Some default_meta -> m_meta b = Some mb -> map fst mb = file_metadata ->
  (forall k, In k ["Reference"; "Comment"; "Name"; "FullName"; "Author"] -> dget mb k = Some (MStr "")) ->
  mat_eq a (Some b) = Raise KeyError /\ exists r, mat_eq b (Some a) = Ok r.
Proof.
  intros a b mb Ea Eb K H. unfold mat_eq. rewrite Ea, Eb.
  do 7 (destruct mb as [|[? ?] mb]; [discriminate|]). destruct mb; [|discriminate]. injection K as -> -> -> -> -> -> ->.
  pose proof (H "Reference" ltac:(cbn; auto)) as H1. pose proof (H "Comment" ltac:(cbn; auto)) as H2.
  pose proof (H "Name" ltac:(cbn; auto)) as H3. pose proof (H "FullName" ltac:(cbn; auto 10)) as H4.
  pose proof (H "Author" ltac:(cbn; auto 10)) as H5. cbn in H1, H2, H3, H4, H5.
  injection H1 as ->. injection H2 as ->. injection H3 as ->. injection H4 as ->. injection H5 as ->.
  split; [reflexivity|]. cbn. destruct (mval_eqb m4 (MStr "")); [|cbn; eauto]. destruct (mval_eqb m5 (MMap [])); cbn; eauto.
Qed.

Lemma C34_k_table_l : forall rd kw path t0 u0 fm d rows t u canon,
  call kw "file_path" (PStr path) t0 u0 -> rd path = Ok (mkFdict fm [d]) -> meta_complete fm ->
  type_words d "tabulated" "n_alpha" -> table_ok 3 rows -> holds_table (ds_data d) 3 rows ->
  file_or_default (ds_stype d) t0 t -> file_or_default (ds_unit d) u0 u -> documented (lower t) (lower u) canon ->
  (reciprocal_type (lower t) -> Forall (fun r => / 10 ^ 8 < Rabs (nth 0 r 0)) rows) ->
  exists m krows, mk_material rd kw = Ok m /\ m_name m = "nk" /\ m_complex m = None /\
    tabulated (column 1 rows) t u (m_real m) /\
    Forall2 (coded_k_row (lower t) canon) rows krows /\ tabulated (column 1 krows) t u (m_imag m).
Proof.
  intros rd kw path t0 u0 fm d rows t u canon C R M W T H Ht Hu D Big.
  destruct (file_one rd kw path t0 u0 fm d C R M) as (meta & _ & E). rewrite E.
  rewrite (dataset_table d "n_alpha" 3 rows t u (mkP "" None None None t0 u0) W ltac:(lia) T H Ht Hu).
  destruct (table_alpha rows t u canon (set_defaults (mkP "" None None None t0 u0) t u) T D eq_refl eq_refl Big) as (a & b & kr & Ta & F & Tb & Ep).
  rewrite Ep. eexists. exists kr. split; [reflexivity|]. cbn. auto 8.
Qed.

Lemma C34_error_l : forall t canon r kr lam, coded_k_row t canon r kr -> wavelength_m t canon (nth 0 r 0) lam ->
  exists k, kr = [nth 0 r 0; k] /\
    Rabs (k - nth 2 r 0 * (100 * lam) / (4 * PI)) <= Rabs (nth 2 r 0) * (5 / 10 ^ 6) / (4 * PI).
Proof.
  intros t canon r kr lam (lam' & w & W & Rw & ->) W'. pose proof (wavelength_fun _ _ _ _ _ W' W). subst lam'.
  eexists. split; [reflexivity|]. destruct Rw as (n & _ & B & _). pose proof PI_RGT_0 as Pp.
  replace (nth 2 r 0 * w / (4 * PI) - nth 2 r 0 * (100 * lam) / (4 * PI)) with (nth 2 r 0 * (w - 100 * lam) * / (4 * PI)) by (field; lra).
  rewrite Rabs_mult, Rabs_mult. rewrite (Rabs_pos_eq (/ (4 * PI))) by (left; apply Rinv_0_lt_compat; lra).
  unfold Rdiv. apply Rmult_le_compat_r; [left; apply Rinv_0_lt_compat; lra|].
  apply Rmult_le_compat_l; [apply Rabs_pos|]. lra.
Qed.

Lemma C34_exact_l : forall t canon r kr lam z, coded_k_row t canon r kr -> wavelength_m t canon (nth 0 r 0) lam ->
  lam = IZR z * 100 / 10 ^ 9 -> kr = [nth 0 r 0; nth 2 r 0 * (100 * lam) / (4 * PI)].
Proof.
  intros t canon r kr lam z (lam' & w & W & Rw & ->) W' E. pose proof (wavelength_fun _ _ _ _ _ W' W). subst lam'.
  replace w with (100 * lam); [reflexivity|].
  apply (rounds_to_unique 5 (100 * lam)); [|exact Rw].
  exists z. split; [subst lam; lra|]. rewrite Rminus_eq_0, Rabs_R0.
  assert (0 < / 2 * / 10 ^ 5) by (apply Rmult_lt_0_compat; [lra|apply Rinv_0_lt_compat, pow_lt; lra]).
  split; [lra|]. intros; lra.
Qed.

Lemma C34_rounded_refuted_l : forall n alpha kr x,
  (coded_k_row "wavelength" "nm" [550; n; alpha] kr -> kr = [550; alpha * (6 / 10 ^ 5) / (4 * PI)]) /\
  (0 <= x < 50 -> coded_k_row "wavelength" "nm" [x; n; alpha] kr -> kr = [x; 0]).
Proof.
  intros n alpha kr x. split.
  - intros (lam & w & W & Rw & ->). cbn [nth] in *. inversion W; subst. do 2 f_equal. f_equal. f_equal.
    apply (rounds_to_unique 5 (100 * (550 / 10 ^ 9))); [exact Rw|].
    exists 6%Z. split; [lra|]. split; [apply Rabs_le; lra|reflexivity].
  - intros Hx (lam & w & W & Rw & ->). cbn [nth] in *. inversion W; subst. do 2 f_equal.
    replace w with 0; [lra|]. apply (rounds_to_unique 5 (100 * (x / 10 ^ 9))); [|exact Rw].
    exists 0%Z. split; [lra|]. split; [apply Rabs_le; lra|reflexivity].
Qed.

Lemma C35_ignored_refuted_l : forall rd kw order, kwargs_ok (("interp_order", order) :: kw) ->
  mk_material rd (("interp_order", order) :: kw) = mk_material rd kw.
Proof.
  intros rd kw order K. apply C25_others_ignored_l; [assumption|now inversion K|].
  intros n v Hn. unfold given. cbn [In]. split; intros [H1 H2]; (split; [|exact H2]).
  - destruct H1 as [H1|H1]; [|exact H1]. injection H1 as <- <-. cbn in Hn. intuition discriminate.
  - now right.
Qed.

Lemma C36_selects_l : forall rd kw path t0 u0 fm ds dt id k rs rng cs params t u d,
  call kw "file_path" (PStr path) t0 u0 -> rd path = Ok (mkFdict fm [ds]) -> meta_complete fm ->
  type_words ds dt id ->
  (dt = "formula" /\ In (id, k) documented_formulas) \/ (dt = "model" /\ In (id, k) documented_models) ->
  ds_range ds = DStr rs -> rs <> "" -> numbers_text rs rng -> ds_data ds = DStr cs -> numbers_text cs params ->
  file_or_default (ds_stype ds) t0 t -> file_or_default (ds_unit ds) u0 u ->
  mk_model k params (InVals (VA rng)) t u = Ok d ->
  exists m, mk_material rd kw = Ok m /\ m_stype m = t /\ m_unit m = u /\
    ((permittivity_model k /\ m_name m = "eps" /\ m_complex m = Some d) \/
     (~ permittivity_model k /\ m_name m = "nk" /\ m_complex m = None /\ m_real m = d /\ zero_data (m_imag m))).
Proof.
  intros rd kw path t0 u0 fm ds dt id k rs rng cs params t u d C R M W K Er Nr Tr Ec Tc Ht Hu Md.
  destruct (file_one rd kw path t0 u0 fm ds C R M) as (meta & _ & E). rewrite E.
  rewrite (dataset_formula ds dt id k rs rng cs params t u (mkP "" None None None t0 u0) W K Er Nr Tr Ec Tc Ht Hu), Md. cbn [bind].
  destruct zero_ok as (z & Ez & Z). assert (Nf : k <> Fano).
  { intros ->. destruct K as [[_ K]|[_ K]]; cbn in K; intuition discriminate. }
  destruct k; try congruence; cbn [place]; unfold complete; cbn [set_complex set_real set_defaults p_real p_imag p_complex p_name p_stype p_unit];
    rewrite ?Ez; cbn [bind]; (eexists; split; [reflexivity|]); cbn [m_stype m_unit m_name m_complex m_real m_imag];
    (split; [reflexivity|]); (split; [reflexivity|]);
    first [left; split; [cbn; tauto|split; reflexivity]
          |right; split; [cbn; intuition discriminate|auto 6]].
Qed.

Lemma C36_model_error_l : forall rd kw path t0 u0 fm ds dt id k rs rng cs params t u e,
  call kw "file_path" (PStr path) t0 u0 -> rd path = Ok (mkFdict fm [ds]) -> meta_complete fm ->
  type_words ds dt id ->
  (dt = "formula" /\ In (id, k) documented_formulas) \/ (dt = "model" /\ In (id, k) documented_models) ->
  ds_range ds = DStr rs -> rs <> "" -> numbers_text rs rng -> ds_data ds = DStr cs -> numbers_text cs params ->
  file_or_default (ds_stype ds) t0 t -> file_or_default (ds_unit ds) u0 u ->
  mk_model k params (InVals (VA rng)) t u = Raise e -> mk_material rd kw = Raise e.
Proof.
  intros rd kw path t0 u0 fm ds dt id k rs rng cs params t u e C R M W K Er Nr Tr Ec Tc Ht Hu Md.
  destruct (file_one rd kw path t0 u0 fm ds C R M) as (meta & _ & E). rewrite E.
  now rewrite (dataset_formula ds dt id k rs rng cs params t u (mkP "" None None None t0 u0) W K Er Nr Tr Ec Tc Ht Hu), Md.
Qed.

Lemma C36_unknown_l : forall rd kw path t0 u0 fm ds id i rs rng cs params t u,
  call kw "file_path" (PStr path) t0 u0 -> rd path = Ok (mkFdict fm [ds]) -> meta_complete fm ->
  type_words ds "formula" id -> integer_text id i -> (i < 1 \/ 9 < i)%Z ->
  ds_range ds = DStr rs -> rs <> "" -> numbers_text rs rng -> ds_data ds = DStr cs -> numbers_text cs params ->
  file_or_default (ds_stype ds) t0 t -> file_or_default (ds_unit ds) u0 u ->
  mk_material rd kw = Raise KeyError.
Proof.
  intros rd kw path t0 u0 fm ds id i rs rng cs params t u C R M W Hi Hr Er Nr Tr Ec Tc Ht Hu.
  destruct (file_one rd kw path t0 u0 fm ds C R M) as (meta & _ & E). rewrite E.
  now rewrite (dataset_unknown ds id i rs rng cs params t u (mkP "" None None None t0 u0) W Hi Hr Er Nr Tr Ec Tc Ht Hu).
Qed.

Lemma C36_no_range_l : forall rd kw path t0 u0 fm ds dt id k,
  call kw "file_path" (PStr path) t0 u0 -> rd path = Ok (mkFdict fm [ds]) -> meta_complete fm ->
  type_words ds dt id -> (dt = "formula" /\ In (id, k) documented_formulas) \/ dt = "model" ->
  ds_range ds = DStr "" -> mk_material rd kw = Raise UnboundLocalError.
Proof.
  intros rd kw path t0 u0 fm ds dt id k C R M W K Er.
  destruct (file_one rd kw path t0 u0 fm ds C R M) as (meta & _ & E). rewrite E.
  now rewrite (dataset_no_range ds dt id k _ W K Er).
Qed.

Lemma C36_fano_refuted_l : forall rd kw path t0 u0 fm ds rs rng cs params t u d,
  call kw "file_path" (PStr path) t0 u0 -> rd path = Ok (mkFdict fm [ds]) -> meta_complete fm ->
  type_words ds "model" "Fano" ->
  ds_range ds = DStr rs -> rs <> "" -> numbers_text rs rng -> ds_data ds = DStr cs -> numbers_text cs params ->
  file_or_default (ds_stype ds) t0 t -> file_or_default (ds_unit ds) u0 u ->
  mk_model Fano params (InVals (VA rng)) t u = Ok d -> mk_material rd kw = Raise ValueError.
Proof.
  intros rd kw path t0 u0 fm ds rs rng cs params t u d C R M W Er Nr Tr Ec Tc Ht Hu Md.
  destruct (file_one rd kw path t0 u0 fm ds C R M) as (meta & _ & E). rewrite E. unfold process_dataset. rewrite (words _ _ _ W).
  cbn [bind]. change (String.eqb "model" "tabulated") with false.
  change (String.eqb "model" "formula" || String.eqb "model" "model") with true. cbv iota.
  unfold process_formula_data. rewrite Er, Ec, (dval_true_str _ Nr). cbn [dval_split].
  change t0 with (p_stype (mkP "" None None None t0 u0)) in Ht. change u0 with (p_unit (mkP "" None None None t0 u0)) in Hu.
  rewrite (entry_value _ _ _ Ht), (entry_value _ _ _ Hu). change (String.eqb "model" "formula") with false. cbv iota. cbn [bind].
  rewrite (numbers_parse _ _ Tr). cbn [bind]. rewrite (numbers_parse _ _ Tc). cbn [bind].
  unfold process_model_dict. cbn [kw_name kw_params kw_range kw_stype kw_unit opt_key bind].
  change (str_to_class "Fano") with (Ok (A := pyclass) (KModel Fano)). cbn [bind]. rewrite Md. reflexivity.
Qed.

Lemma C68_nk_shape_l : forall X m a o, get_nk_data X m a = Ok o -> oshape o = arg_shape a.
Proof. intros X m a o. apply nk_shape. Qed.

Lemma C68_eps_shape_l : forall X m s o, regular s -> get_permittivity X m (SObj s) = Ok o -> oshape o = shape (sp_values s).
Proof.
  intros X m s o R H. cbn [get_permittivity] in H. destruct (get_permittivity_obj X m s) as [r s'] eqn:E. cbn [fst] in H. subst r.
  exact (eps_shape_obj X m s o s' R E).
Qed.

Lemma C68_regular_l : forall v t u s reqs, mk_spectrum v t u = Ok s -> regular (run_in_place s reqs).
Proof.
  intros v t u s reqs H. apply mk_spectrum_regular in H. revert s H. induction reqs as [|[t' u'] r IH]; intros s H; [exact H|].
  cbn [run_in_place fold_left]. apply IH. apply in_place_regular. exact H.
Qed.
