(** Lemmas about the rows of the catalogue: reference columns, bounds, and loading the row again. *)
From Verif Require Import PyBase PyStr XReal CNum SpectrumModel SpectrumSpec SpectrumProofs SpectralModel SpectralSpec SpectralProofs InterpProofs EvalProofs TextModel MaterialModel MaterialSpec MaterialProofs MatEvalProofs MixProofs MatFileProofs FileModel IOSpec PathModel ConfigModel CatalogueModel CatalogueSpec CatalogueProofs NormProofs RebuildProofs WalkProofs SaveProofs SpectrumThms SpectralThms MaterialThms.
Open Scope R_scope.
Open Scope string_scope.
Open Scope list_scope.

(** ** every row, whatever the library looks like, describes a file that was opened *)
Definition describes (X : scipy) (ref : spectrum) (rd : string -> res fdict) (unit : string) (r : row) : Prop :=
  r_stype r = KStr "wavelength" /\ r_unit r = KStr unit /\
  exists path m, loaded rd path "wavelength" unit = Ok m /\
    bound_cells m (r_lo r) (r_hi r) /\ reference_cells X ref m (r_n r) (r_k r).

Section Rows.
Variable X : scipy.
Variable W : world.
Variable ref : spectrum.

Lemma bounds_ok m v lo hi : get_maximum_valid_range m = Ok v -> bound v 0 = Ok lo -> bound v 1 = Ok hi -> bound_cells m lo hi.
Proof.
  intros R A B. destruct (range_two _ _ R) as (lo' & hi' & E & A' & B'). rewrite A in A'. rewrite B in B'.
  injection A' as <-. injection B' as <-. exists v, []. auto.
Qed.
Lemma page_describes dir b f p rows : read_page X W ref dir b f p = Ok rows ->
  Forall (describes X ref (w_read W) "micrometer") rows.
Proof.
  intros H. unfold read_page in H.
  inv_bind H d1 Ed1. destruct d1; [injection H as <-; constructor|].
  inv_bind H d2 Ed2. destruct (negb d2); [injection H as <-; constructor|].
  inv_bind H pf Epf. inv_bind H dt Edt. inv_bind H ds Eds. cbv zeta in H.
  destruct (file_material W _ _ _) as [m|e] eqn:E; [|destruct (catches OSError e); [injection H as <-; constructor|discriminate]].
  inv_bind H au Eau. inv_bind H vr Evr. inv_bind H lo Elo. inv_bind H hi Ehi. inv_bind H rf Erf. inv_bind H cm Ecm. inv_bind H nk Enk.
  injection H as <-. constructor; [|constructor]. split; [reflexivity|]. split; [reflexivity|]. eexists _, m.
  split; [exact E|]. cbn [r_lo r_hi r_n r_k]. split; [eapply bounds_ok; eassumption|now apply reference_ok].
Qed.
Lemma file_describes dir nm f rows : read_user_file X W ref dir nm f = Ok rows ->
  Forall (describes X ref (w_read W) "nanometer") rows.
Proof.
  intros H. unfold read_user_file in H. destruct (negb _); [injection H as <-; constructor|].
  inv_bind H m Em. inv_bind H fu Efu. inv_bind H au Eau. inv_bind H cm Ecm. inv_bind H rf Erf.
  inv_bind H vr Evr. inv_bind H lo Elo. inv_bind H hi Ehi. inv_bind H nk Enk.
  injection H as <-. constructor; [|constructor]. split; [reflexivity|]. split; [reflexivity|]. eexists _, m.
  split; [exact Em|]. cbn [r_lo r_hi r_n r_k]. split; [eapply bounds_ok; eassumption|now apply reference_ok].
Qed.
Lemma module_describes dir m rows : read_module X W ref dir m = Ok rows ->
  Forall (describes X ref (w_read W) (if String.eqb m "RefractiveIndexInfo" then "micrometer" else "nanometer")) rows.
Proof.
  unfold read_module. intros H. destruct (String.eqb m "RefractiveIndexInfo").
  - unfold read_ri_info_db, iterate_shelves in H. inv_bind H d Ed. inv_bind H l El.
    eapply seq_res_forall; [|exact H]. clear H. intros sh rs _ H. unfold read_shelf, iterate_books in H.
    inv_bind H nm En. inv_bind H bk Eb. inv_bind H bl Ebl.
    eapply seq_res_forall; [|exact H]. clear H. intros b rs' _ H. unfold read_book in H.
    inv_bind H dv Ed'. destruct dv; [injection H as <-; constructor|].
    inv_bind H bb Ebb. destruct (negb bb); [injection H as <-; constructor|].
    inv_bind H n Enn. inv_bind H ff Eff. inv_bind H pg Epg. unfold iterate_pages in H. inv_bind H pl Epl.
    eapply seq_res_forall; [|exact H]. intros p rs'' _ K. eapply page_describes; exact K.
  - assert (T : forall nm, read_text_db X W ref dir nm = Ok rows -> Forall (describes X ref (w_read W) "nanometer") rows).
    { intros nm K. unfold read_text_db in K. inv_bind K l El. eapply seq_res_forall; [|exact K].
      intros f rs _ K'. eapply file_describes; exact K'. }
    destruct (String.eqb m "Filmetrics"); [eapply T; exact H|]. destruct (String.eqb m "UserData"); [eapply T; exact H|discriminate].
Qed.
End Rows.

(** ** tables *)
Definition pairs (j : nat) (rows : list (list R)) : list (R * R) := map (fun r => (nth 0 r 0, nth j r 0)) rows.
Lemma column_xrows j rows : column j rows = xrows (pairs j rows).
Proof. unfold column, xrows, pairs. rewrite map_map. reflexivity. Qed.
Lemma tabulated_interp j rows t u d : (2 <= length rows)%nat -> tabulated (column j rows) t u d ->
  mk_interpolation (xrows (pairs j rows)) t u = Ok d.
Proof.
  rewrite column_xrows. unfold tabulated. destruct rows as [|r [|r2 rows]]; cbn [length]; try lia. intros _ H. exact H.
Qed.
Lemma interp_range l t u d mn mx : mk_interpolation (xrows l) t u = Ok d ->
  sp_values (valid_range d) = VA [Fin mn; Fin mx] -> mk_spectrum (InVals (VA [Fin mn; Fin mx])) t u = Ok (valid_range d).
Proof.
  unfold mk_interpolation. intros H V. inv_bind H a Ea. inv_bind H b Eb. inv_bind H base Em. inv_bind H x Ec. injection H as <-.
  unfold mk_base in Em. inv_bind Em r Er. injection Em as <-. unfold valid_range in *. cbn [dbase_of d_range] in *.
  pose proof (mk_spectrum_ok _ _ _ _ Er) as (c & w & _ & Ew & _ & _ & _ & Ev). injection Ew as <-. rewrite Ev in V. injection V as -> ->. exact Er.
Qed.

(** the spectrum object rebuilt from its own values *)
Lemma again ref v t u : mk_spectrum v t u = Ok ref -> mk_spectrum (InVals (sp_values ref)) (sp_type ref) (sp_unit ref) = Ok ref.
Proof. apply mk_spectrum_again. Qed.

Lemma nk_raises X m ref v t u e : mk_spectrum v t u = Ok ref -> m_name m = "nk" \/ m_name m = "eps" -> m_complex m = None ->
  evaluate X (m_real m) ref = (Raise e, ref) -> get_nk_data X m (SObj ref) = Raise e.
Proof.
  intros S N C E. unfold get_nk_data. rewrite (again _ _ _ _ S). cbn [bind].
  assert (V : valid_name m = true) by (unfold valid_name; destruct N as [-> | ->]; reflexivity).
  rewrite V. cbn [negb]. unfold complex_value. rewrite C, E. reflexivity.
Qed.
Lemma nk_value X m ref v t u a b : mk_spectrum v t u = Ok ref -> m_name m = "nk" -> m_complex m = None ->
  evaluate X (m_real m) ref = (Ok (OS (ORe (Fin a))), ref) -> evaluate X (m_imag m) ref = (Ok (OS (ORe (Fin b))), ref) ->
  get_nk_data X m (SObj ref) = Ok (OS (OCx (CF (a, b)))).
Proof.
  intros S N C E E'. unfold get_nk_data. rewrite (again _ _ _ _ S). cbn [bind].
  assert (V : valid_name m = true) by (unfold valid_name; rewrite N; reflexivity).
  rewrite V. cbn [negb]. unfold complex_value. rewrite C, E, E'. cbn [fst bind join_parts obin].
  rewrite N. change (String.eqb "nk" "eps") with false. cbv iota. cbn [omap onum_cx cx_of_xr cxmul cxadd cx2].
  do 4 f_equal. unfold cxadd, cxmul. cbn [cx2]. f_equal. unfold Cplus, Cmult, Ci, RtoC. cbn [fst snd]. f_equal; ring.
Qed.

(** ** wavelength bounds of a table *)
Definition metres (canon : string) (x : R) : R :=
  if String.eqb canon "m" then x else if String.eqb canon "cm" then x / 100 else if String.eqb canon "um" then x / 10 ^ 6
  else if String.eqb canon "nm" then x / 10 ^ 9 else x / 10 ^ 10.
Lemma length_units u canon : documented "wavelength" u canon -> In canon ["m"; "cm"; "um"; "nm"; "a"].
Proof.
  intros D. destruct (documented_cases _ _ _ D) as [H|[H|[H|[H|[H|[H|[H|[H|H]]]]]]]]; destruct H as [H ->]; cbn; try discriminate H; auto 10.
Qed.
Lemma metres_ok u canon x : documented "wavelength" u canon -> wavelength_m "wavelength" canon x (metres canon x).
Proof. intros D. apply length_units in D. cbn [In] in D. decompose [or] D; try contradiction; subst; constructor. Qed.
Lemma metres_le canon x y : x <= y -> metres canon x <= metres canon y.
Proof.
  intros H. unfold metres. repeat (destruct (String.eqb canon _); [lra|]). lra.
Qed.
Lemma table_wavelengths j rows t u canon d : (2 <= length rows)%nat -> NoDup (map (fun r => nth 0 r 0) rows) ->
  lower t = "wavelength" -> documented "wavelength" (lower u) canon -> tabulated (column j rows) t u d ->
  exists mn mx, wavelengths_of d = [Fin (metres canon mn); Fin (metres canon mx)] /\
    In mn (map (fun r => nth 0 r 0) rows) /\ In mx (map (fun r => nth 0 r 0) rows) /\
    (forall y, In y (map (fun r => nth 0 r 0) rows) -> mn <= y <= mx) /\ sp_unit (valid_range d) = canon /\ sp_type (valid_range d) = "wavelength".
Proof.
  intros L ND T D H. assert (D' : documented (lower t) (lower u) canon) by (now rewrite T).
  apply tabulated_interp in H; [|exact L].
  assert (Ef : map fst (pairs j rows) = map (fun r => nth 0 r 0) rows) by (unfold pairs; rewrite map_map; reflexivity).
  destruct (C13_accepts_l (pairs j rows) t u canon) as (d' & mn & mx & H' & V & Im & IM & B);
    [unfold pairs; now rewrite map_length|now rewrite Ef|exact D'|].
  rewrite H in H'. injection H' as <-. rewrite Ef in *. exists mn, mx. split; [|split; [exact Im|split; [exact IM|split; [exact B|]]]].
  - pose proof (interp_range _ _ _ _ _ _ H V) as M.
    destruct (C02_standard_rep_array_l t u canon [mn; mx] [metres canon mn; metres canon mx] D') as (s & M' & Sd).
    + rewrite T. repeat (constructor; [eapply metres_ok; exact D|]). constructor.
    + rewrite T. intros K. exfalso. revert K. unfold reciprocal_type. cbn. intuition discriminate.
    + cbn [map] in M'. rewrite M in M'. injection M' as <-. unfold wavelengths_of. rewrite Sd. reflexivity.
  - pose proof (interp_range _ _ _ _ _ _ H V) as M. destruct (mk_spectrum_ok _ _ _ _ M) as (c & w & Dc & _ & _ & Et & Eu & _).
    rewrite Et, Eu, T. split; [|reflexivity]. rewrite T in Dc. eapply documented_fun; eassumption.
Qed.
Lemma table_bounds rows t u canon m : (2 <= length rows)%nat -> NoDup (map (fun r => nth 0 r 0) rows) ->
  Forall (fun r => 0 < nth 0 r 0) rows -> lower t = "wavelength" -> documented "wavelength" u canon -> documented "wavelength" (lower u) canon ->
  m_name m = "nk" \/ m_name m = "eps" -> m_complex m = None -> m_stype m = t -> m_unit m = u ->
  tabulated (column 1 rows) t u (m_real m) -> tabulated (column 2 rows) t u (m_imag m) ->
  exists mn mx a b, get_maximum_valid_range m = Ok (VA [Fin a; Fin b]) /\ rounds_for canon mn a /\ rounds_for canon mx b /\
    In mn (map (fun r => nth 0 r 0) rows) /\ In mx (map (fun r => nth 0 r 0) rows) /\
    (forall y, In y (map (fun r => nth 0 r 0) rows) -> mn <= y <= mx).
Proof.
  intros L ND P T D1 D N C St Un H1 H2.
  destruct (table_wavelengths 1 rows t u canon _ L ND T D H1) as (mn & mx & W1 & Im & IM & B & _).
  destruct (table_wavelengths 2 rows t u canon _ L ND T D H2) as (mn2 & mx2 & W2 & Im2 & IM2 & B2 & _).
  assert (mn2 = mn) as -> by (apply Rle_antisym; [apply B2|apply B]; assumption).
  assert (mx2 = mx) as -> by (apply Rle_antisym; [apply B|apply B2]; assumption).
  assert (Pos : forall y, In y (map (fun r => nth 0 r 0) rows) -> 0 < y).
  { intros y Hy. apply in_map_iff in Hy as (r & <- & Hr). rewrite Forall_forall in P. auto. }
  pose proof (metres_le canon mn mx (proj2 (B _ Im))) as Le.
  destruct (C29_bounds_l m canon (metres canon mn) (metres canon mx) mn mx) as (a & b & G & Ra & Rb & _); try assumption; rewrite ?W1, ?W2, ?St, ?Un, ?T; try discriminate; auto.
  - repeat constructor; discriminate.
  - repeat constructor; discriminate.
  - intros x. split.
    + intros H. split; exists (Fin (metres canon mn)); (split; [now left|exact H]).
    + intros [(y & [<-|[<-|[]]] & H) _]; [exact H|]. eapply xle_trans; [|exact H]. now apply xle_fin.
  - intros x. split.
    + intros H. split; exists (Fin (metres canon mx)); (split; [right; now left|exact H]).
    + intros [(y & [<-|[<-|[]]] & H) _]; [|exact H]. eapply xle_trans; [exact H|]. now apply xle_fin.
  - eapply metres_ok; exact D.
  - eapply metres_ok; exact D.
  - unfold reciprocal_type. cbn. intuition discriminate.
  - exists mn, mx, a, b. auto 10.
Qed.
