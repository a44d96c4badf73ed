(** Proofs about evaluation in general and about extrapolation. *)
From Verif Require Import PyBase PyStr XReal CNum SpectrumModel SpectrumSpec SpectrumProofs SpectralModel SpectralSpec SpectralProofs.
From Flocq Require Import Core.
Open Scope R_scope.
Open Scope list_scope.

(** ** conversions act element by element *)
Lemma std_pointwise t u canon x l :
  documented t u canon -> In x l -> array_input_ok t x ->
  exists f, standardise_values t canon (VA l) = Ok (VA (map f l)) /\
            standardise_values t canon (VS x) = Ok (VS (f x)).
Proof.
  intros D Hin Hx. destruct (std_form _ _ _ D) as (g & G1 & G2 & G3).
  exists (g safe_inverse_elem). rewrite G1, G2. split; [reflexivity|]. do 2 f_equal. symmetry.
  apply G3. intros Hr. apply inv_agree. exact (Hx Hr).
Qed.

Lemma resolvable_pre t x : reciprocal_type t -> resolvable t x -> array_safe (to_pre t x).
Proof.
  intros Hr H. specialize (H Hr). unfold to_pre. destruct x as [r| | |]; try (destruct (String.eqb t "wavenumber"); exact I).
  - destruct (String.eqb t "wavenumber"); [|exact H]. rewrite xmul_fin. cbn [array_safe].
    destruct H as [H| ->]; [|right; ring]. left.
    rewrite Rabs_mult, (Rabs_pos_eq (/ 10 ^ 2)) by (left; apply Rinv_0_lt_compat, pow_lt; lra).
    replace (/ 10 ^ 8) with (/ 10 ^ 2 * / 10 ^ 6) by (field; lra).
    apply Rmult_lt_compat_l; [apply Rinv_0_lt_compat, pow_lt; lra|assumption].
  - destruct (String.eqb t "wavenumber"); [|exact I].
    rewrite xmul_pinf; [exact I|apply Rinv_0_lt_compat, pow_lt; lra].
  - destruct (String.eqb t "wavenumber"); [|exact I].
    cbn. unfold xinf_sign.
    assert (0 < / (10 * (10 * 1))) by (apply Rinv_0_lt_compat; lra).
    destruct (Rlt_dec 0 (- / (10 * (10 * 1)))); [lra|].
    destruct (Rlt_dec (- / (10 * (10 * 1))) 0); [exact I|lra].
Qed.

Lemma conv_pointwise s t u canon l :
  documented (lower t) u canon -> sp_std s = VA l -> Forall (resolvable (lower t)) l ->
  exists g, convert_to s t u = Ok (VA (map g l)) /\
    forall s1 x, In x l -> sp_std s1 = VS x -> convert_to s1 t u = Ok (VS (g x)).
Proof.
  intros D E F. destruct (to_form _ _ _ D) as (g & G1 & G2 & G3).
  exists (g safe_inverse_elem). rewrite (convert_to_unfold _ _ _ _ D), E, G2.
  split; [reflexivity|]. intros s1 x Hin E1. rewrite (convert_to_unfold _ _ _ _ D), E1, G1.
  do 2 f_equal. apply G3. intros Hr. symmetry. apply inv_agree. apply resolvable_pre; [assumption|].
  rewrite Forall_forall in F. now apply F.
Qed.

Lemma contains_true q o b : contains q o = Ok b -> b = true.
Proof.
  unfold contains, bind. intros H.
  repeat (match type of H with context [match ?e with Ok _ => _ | Raise _ => _ end] => destruct e end; try discriminate);
    destruct (_ || _); congruence.
Qed.

(** ** plain data leave the spectrum alone and check the range *)
Lemma plain_shape d : plain_data d -> exists canon,
  documented (lower (d_type (dbase_of d))) (lower (d_unit (dbase_of d))) canon /\
  sp_type (valid_range d) = lower (d_type (dbase_of d)) /\ sp_unit (valid_range d) = canon /\
  match d with
  | DConst _ _ | DInterp _ _ => True
  | DModel _ k _ => k <> TaucLorentz
  | DExtrap _ _ _ => False
  end.
Proof.
  unfold valid_range. intros [(c & rng & t & u & H)|[(rows & t & u & H)|(k & p & rng & t & u & Hk & H)]].
  - unfold mk_constant, mk_base in H. destruct (mk_spectrum rng t u) as [r|] eqn:E; [|discriminate].
    cbn [bind] in H. injection H as <-. cbn [dbase_of d_type d_unit d_range].
    destruct (mk_spectrum_ok _ _ _ _ E) as (c' & w & D & _ & _ & E1 & E2 & _). eauto 6.
  - unfold mk_interpolation, mk_base in H.
    destruct (np_min _); [|discriminate]. destruct (np_max _); [|discriminate]. cbn [bind] in H.
    destruct (mk_spectrum _ t u) as [r|] eqn:E; [|discriminate]. cbn [bind] in H.
    destruct (interp1d_check rows); [|discriminate]. cbn [bind] in H. injection H as <-.
    cbn [dbase_of d_type d_unit d_range].
    destruct (mk_spectrum_ok _ _ _ _ E) as (c' & w & D & _ & _ & E1 & E2 & _). eauto 6.
  - destruct (mk_model_ok _ _ _ _ _ _ H) as (c & r & D & E & -> & _). cbn [dbase_of d_type d_unit d_range].
    destruct (mk_spectrum_ok _ _ _ _ E) as (c' & w & D' & _ & _ & E1 & E2 & _). eauto 6.
Qed.

Lemma eval_range_check X d s e : plain_data d -> contains (valid_range d) s = Raise e ->
  evaluate X d s = (Raise e, s).
Proof.
  intros P H. destruct (plain_shape d P) as (c & _ & _ & _ & K). unfold valid_range in H.
  destruct d; cbn [evaluate dbase_of] in *; try contradiction; rewrite H; reflexivity.
Qed.

(** evaluation at one element, after range check and conversion *)
Definition point_of (d : sdata) (x : xr) : res onum :=
  match d with
  | DConst _ c => Ok c
  | DInterp _ rows => do y <- interp_point rows x; Ok (ORe y)
  | DModel _ k p => model_point k p x
  | DExtrap _ _ _ => Raise ValueError
  end.

Lemma eval_array X d s xs v vs :
  plain_data d -> sp_values s = VA xs -> sp_std s = VA vs -> length vs = length xs ->
  contains (valid_range d) s = Ok true ->
  convert_to s (d_type (dbase_of d)) (d_unit (dbase_of d)) = Ok (VA v) -> length v = length xs ->
  evaluate X d s = (do l <- map_res (point_of d) v; Ok (OA l), s).
Proof.
  intros P Ev Es L1 H C L. destruct (plain_shape d P) as (c & _ & _ & _ & K). unfold valid_range in H.
  destruct d as [b c0|b rows|b k p|]; cbn [evaluate dbase_of] in *; try contradiction; rewrite H; cbn [bind].
  - rewrite Ev. cbn [elems]. f_equal.
    assert (E : map_res (point_of (DConst b c0)) v = Ok (map (fun _ => c0) xs)).
    { clear - L. revert v L. induction xs as [|x xs IH]; intros [|y v] L; try discriminate; [reflexivity|].
      cbn [map_res map point_of bind]. injection L as L. rewrite (IH v L). reflexivity. }
    now rewrite E.
  - rewrite C. cbn [bind map_vals elems]. f_equal.
  - rewrite C. cbn [bind map_vals elems]. rewrite Ev. destruct k; try reflexivity; congruence.
Qed.

Lemma eval_single X d s x y v :
  plain_data d -> sp_values s = VS x ->
  contains (valid_range d) s = Ok true ->
  convert_to s (d_type (dbase_of d)) (d_unit (dbase_of d)) = Ok (VS y) -> point_of d y = Ok v ->
  evaluate X d s = (Ok (OS v), s).
Proof.
  intros P Ev H C Q. destruct (plain_shape d P) as (c & _ & _ & _ & K). unfold valid_range in H.
  destruct d as [b c0|b rows|b k p|]; cbn [evaluate dbase_of] in *; try contradiction; rewrite H; cbn [bind].
  - rewrite Ev. cbn in Q. congruence.
  - rewrite C. cbn [bind map_vals]. unfold point_of in Q. rewrite Q. reflexivity.
  - rewrite C. cbn [bind map_vals]. rewrite Ev. unfold point_of in Q.
    destruct k; try (rewrite Q; reflexivity); congruence.
Qed.

(** for constants the conversion is irrelevant *)
Lemma eval_const_array X b c s xs : sp_values s = VA xs -> contains (d_range b) s = Ok true ->
  evaluate X (DConst b c) s = (Ok (OA (map (fun _ => c) xs)), s).
Proof. intros Ev H. cbn [evaluate]. rewrite H, Ev. reflexivity. Qed.
Lemma eval_const_single X b c s x : sp_values s = VS x -> contains (d_range b) s = Ok true ->
  evaluate X (DConst b c) s = (Ok (OS c), s).
Proof. intros Ev H. cbn [evaluate]. rewrite H, Ev. reflexivity. Qed.

(** array construction and element construction *)
Lemma mk_array_element xs t u s : mk_spectrum (InVals (VA xs)) t u = Ok s ->
  Forall (array_input_ok (lower t)) xs ->
  exists f, sp_values s = VA xs /\ sp_std s = VA (map f xs) /\
    forall x si, In x xs -> mk_spectrum (InVals (VS x)) t u = Ok si ->
      sp_values si = VS x /\ sp_std si = VS (f x).
Proof.
  intros H F. destruct (mk_spectrum_ok _ _ _ _ H) as (c & w & D & Ew & Es & _ & _ & Ev).
  injection Ew as <-. destruct (std_form _ _ _ D) as (g & G1 & G2 & G3).
  rewrite G2 in Es. injection Es as Es. exists (g safe_inverse_elem).
  split; [assumption|]. split; [now symmetry|]. intros x si Hin Hi.
  destruct (mk_spectrum_ok _ _ _ _ Hi) as (c' & w' & D' & Ew' & Es' & _ & _ & Ev'). injection Ew' as <-.
  pose proof (documented_fun _ _ _ _ D' D). subst c'. rewrite G1 in Es'. injection Es' as <-.
  split; [assumption|]. f_equal. apply G3. intros Hr. symmetry. apply inv_agree.
  rewrite Forall_forall in F. exact (F x Hin Hr).
Qed.

Section Pointwise.
Variables (X : scipy) (d : sdata) (xs : list xr) (t u : string) (s : spectrum).
Hypothesis P : plain_data d.
Hypothesis Hs : mk_spectrum (InVals (VA xs)) t u = Ok s.
Hypothesis Hin : Forall (array_input_ok (lower t)) xs.
Hypothesis Hres : Forall (resolvable (lower (d_type (dbase_of d)))) (elems (sp_std s)).
Hypothesis Hnan : forall ov, convert_to s (sp_type (valid_range d)) (sp_unit (valid_range d)) = Ok ov ->
  Forall (fun x => x <> NaN) (elems ov).
Hypothesis Rnan : Forall (fun x => x <> NaN) (elems (sp_values (valid_range d))).
Hypothesis Rne : elems (sp_values (valid_range d)) <> [].

Lemma nonan_iff l : Forall (fun x => x <> NaN) l -> Forall (fun x => is_nan x = false) l.
Proof. apply Forall_impl. intros [| | |]; cbn; auto; congruence. Qed.

Lemma contains_pointwise :
  xs <> [] ->
  exists canon f g, documented (lower (d_type (dbase_of d))) canon canon /\
    sp_type (valid_range d) = lower (d_type (dbase_of d)) /\ sp_unit (valid_range d) = canon /\
    sp_values s = VA xs /\ sp_std s = VA (map f xs) /\
    (forall x si, In x xs -> mk_spectrum (InVals (VS x)) t u = Ok si ->
        sp_values si = VS x /\ sp_std si = VS (f x) /\
        (contains (valid_range d) si = Ok true <-> within_hull (elems (sp_values (valid_range d))) (g (f x)))) /\
    (contains (valid_range d) s = Ok true <->
       Forall (fun x => within_hull (elems (sp_values (valid_range d))) (g (f x))) xs).
Proof.
  intros Nx. destruct (plain_shape d P) as (c & D & Et & Eu & _).
  destruct (mk_array_element _ _ _ _ Hs Hin) as (f & Ev & Es & El).
  pose proof (documented_canon _ _ _ D) as Dc.
  assert (Lt : lower (sp_type (valid_range d)) = lower (d_type (dbase_of d))).
  { rewrite Et. now destruct (documented_lower _ _ _ D). }
  rewrite Es in Hres. cbn [elems] in Hres.
  assert (Dr : documented (lower (sp_type (valid_range d))) (sp_unit (valid_range d)) c)
    by (rewrite Lt, Eu; exact Dc).
  assert (Hres' : Forall (resolvable (lower (sp_type (valid_range d)))) (map f xs)) by now rewrite Lt.
  destruct (conv_pointwise s _ _ _ _ Dr Es Hres') as (g & Cs & Ci).
  exists c, f, g. split; [exact Dc|]. split; [exact Et|]. split; [exact Eu|].
  split; [assumption|]. split; [assumption|].
  specialize (Hnan _ Cs). cbn [elems] in Hnan.
  split.
  - intros x si Hx Hi. destruct (El x si Hx Hi) as [E1 E2]. split; [assumption|]. split; [assumption|].
    assert (Cx : convert_to si (sp_type (valid_range d)) (sp_unit (valid_range d)) = Ok (VS (g (f x)))).
    { apply Ci; [|assumption]. now apply in_map. }
    assert (Nx1 : g (f x) <> NaN).
    { rewrite Forall_forall in Hnan. apply Hnan. apply in_map, in_map. assumption. }
    destruct (contains_hull (valid_range d) si _ Cx) as [[A B]|[A B]];
      try (cbn [elems]; congruence).
    + cbn [elems]. repeat constructor. destruct (g (f x)); auto; congruence.
    + now apply nonan_iff.
    + cbn [elems] in A. apply Forall_inv in A. tauto.
    + split; [intros E; rewrite B in E; destruct (display_string _); discriminate|].
      intros W. exfalso. apply A. cbn [elems]. constructor; [exact W|constructor].
  - destruct (contains_hull (valid_range d) s _ Cs) as [[A B]|[A B]]; cbn [elems] in *.
    + rewrite map_map. destruct xs; [congruence|discriminate].
    + assumption.
    + now apply nonan_iff.
    + now apply nonan_iff.
    + split; [intros _|intros _; assumption]. rewrite !Forall_map in A. exact A.
    + split; [intros E; rewrite B in E; destruct (display_string _); discriminate|].
      intros W. exfalso. apply A. rewrite !Forall_map. exact W.
Qed.

Lemma pointwise_forward o s1 : evaluate X d s = (Ok o, s1) ->
  s1 = s /\ exists outs, o = OA outs /\ length outs = length xs /\
    forall i x si, nth_error xs i = Some x -> mk_spectrum (InVals (VS x)) t u = Ok si ->
      exists y, nth_error outs i = Some y /\ evaluate X d si = (Ok (OS y), si).
Proof.
  intros H.
  destruct (contains (valid_range d) s) as [b|e] eqn:Ec.
  2:{ rewrite (eval_range_check X d s e P Ec) in H. discriminate. }
  apply contains_true in Ec as Eb. subst b.
  assert (Nx : xs <> []).
  { intros Ex. destruct (mk_spectrum_ok _ _ _ _ Hs) as (c & w & D & Ew & Es & _). injection Ew as <-.
    destruct (plain_shape d P) as (c' & D' & Et & Eu & _).
    destruct (std_form _ _ _ D) as (g & G1 & G2 & G3). rewrite G2, Ex in Es. injection Es as Es. cbn in Es.
    assert (Lt : lower (sp_type (valid_range d)) = lower (d_type (dbase_of d))).
    { rewrite Et. now destruct (documented_lower _ _ _ D'). }
    assert (Dr : documented (lower (sp_type (valid_range d))) (sp_unit (valid_range d)) c').
    { rewrite Lt, Eu. now apply documented_canon in D'. }
    destruct (conv_pointwise s _ _ _ [] Dr (eq_sym Es) (Forall_nil _)) as (g' & Cs & _).
    rewrite (contains_empty _ _ _ Cs) in Ec; [discriminate|]. left; reflexivity. }
  destruct (contains_pointwise Nx) as (canon & f & g & Dc & Et & Eu & Ev & Es & Hi & Ha).
  apply Ha in Ec as Hull. rewrite Forall_forall in Hull.
  assert (Hconst : forall b c, d = DConst b c ->
    s1 = s /\ exists outs, o = OA outs /\ length outs = length xs /\
    forall i x si, nth_error xs i = Some x -> mk_spectrum (InVals (VS x)) t u = Ok si ->
      exists y, nth_error outs i = Some y /\ evaluate X d si = (Ok (OS y), si)).
  { intros b c E. rewrite E in H. unfold valid_range in *. rewrite E in Ec. cbn [dbase_of] in Ec.
    rewrite (eval_const_array X b c s xs Ev Ec) in H. injection H as <- <-.
    split; [reflexivity|]. eexists; split; [reflexivity|]. rewrite map_length. split; [reflexivity|].
    intros i x si Hx Hsi. exists c. rewrite nth_error_map, Hx. split; [reflexivity|].
    apply nth_error_In in Hx. destruct (Hi x si Hx Hsi) as (E1 & E2 & E3).
    assert (Ci : contains (d_range (dbase_of d)) si = Ok true) by (apply E3, Hull; assumption).
    rewrite E in Ci |- *. apply (eval_const_single X b c si x E1 Ci). }
  assert (Hother : (forall b c, d <> DConst b c) ->
    s1 = s /\ exists outs, o = OA outs /\ length outs = length xs /\
    forall i x si, nth_error xs i = Some x -> mk_spectrum (InVals (VS x)) t u = Ok si ->
      exists y, nth_error outs i = Some y /\ evaluate X d si = (Ok (OS y), si)).
  { intros Hd.
    destruct (convert_to s (d_type (dbase_of d)) (d_unit (dbase_of d))) as [cv|e] eqn:Cv.
    2:{ exfalso. unfold valid_range in Ec. destruct (plain_shape d P) as (c' & _ & _ & _ & K).
        destruct d; cbn [evaluate dbase_of] in *; try contradiction;
          try (rewrite Ec, Cv in H; discriminate). eapply Hd; reflexivity. }
    destruct (convert_to_ok_documented _ _ _ _ Cv) as (c2 & D2).
    rewrite Es in Hres. cbn [elems] in Hres.
    destruct (conv_pointwise s _ _ _ _ D2 Es Hres) as (h & Cs & Csi). rewrite Cs in Cv.
    rewrite (eval_array X d s xs (map h (map f xs)) (map f xs)) in H;
      try assumption; try (now rewrite ?map_length).
    destruct (map_res (point_of d) (map h (map f xs))) as [outs|] eqn:M; [|discriminate].
    cbn [bind] in H. injection H as <- <-. split; [reflexivity|]. exists outs. split; [reflexivity|].
    split; [apply map_res_length in M; rewrite !map_length in M; congruence|].
    intros i x si Hx Hsi.
    assert (Hx2 : nth_error (map h (map f xs)) i = Some (h (f x))) by (rewrite !nth_error_map, Hx; reflexivity).
    destruct (map_res_nth _ _ _ _ _ M Hx2) as (y & Hy & Py). exists y. split; [assumption|].
    apply nth_error_In in Hx. destruct (Hi x si Hx Hsi) as (E1 & E2 & E3).
    eapply eval_single; try eassumption.
    - apply E3, Hull; assumption.
    - apply Csi; [|assumption]. now apply in_map. }
  destruct d as [b c|b rows|b k p|]; try (apply Hother; congruence). eapply Hconst; reflexivity.
Qed.

Lemma pointwise_backward : xs <> [] ->
  (forall x si, In x xs -> mk_spectrum (InVals (VS x)) t u = Ok si ->
     exists y s1, evaluate X d si = (Ok y, s1)) ->
  exists outs, evaluate X d s = (Ok (OA outs), s).
Proof.
  intros Nx H.
  destruct (contains_pointwise Nx) as (canon & f & g & Dc & Et & Eu & Ev & Es & Hi & Ha).
  destruct (mk_spectrum_ok _ _ _ _ Hs) as (c0 & w0 & D0 & _).
  destruct (std_form _ _ _ D0) as (g0 & G1 & _).
  assert (Mk : forall x, exists si, mk_spectrum (InVals (VS x)) t u = Ok si).
  { intros x. rewrite (mk_spectrum_unfold _ _ _ _ D0), G1. cbn [bind]. eauto. }
  assert (Bt : forall q b, contains q b = Ok false -> False).
  { intros q b Ec. apply contains_true in Ec. discriminate. }
  assert (Ec : contains (valid_range d) s = Ok true).
  { apply Ha. rewrite Forall_forall. intros x Hx. destruct (Mk x) as [si Hsi].
    destruct (Hi x si Hx Hsi) as (_ & _ & E3). apply E3.
    destruct (H x si Hx Hsi) as (y & s1 & Hy).
    destruct (contains (valid_range d) si) as [[|]|e] eqn:Ec; [reflexivity|exfalso; eapply Bt; eassumption|].
    rewrite (eval_range_check X d si e P Ec) in Hy. discriminate. }
  destruct d as [b c|b rows|b k p|b b2 spl] eqn:Ed.
  - eexists. apply (eval_const_array X b c s xs Ev Ec).
  - rewrite <- Ed in *.
    assert (Hcv : exists v, convert_to s (d_type b) (d_unit b) = Ok v).
    { destruct xs as [|x0 xr0] eqn:Exs; [congruence|]. rewrite <- Exs in *.
      assert (Hx0 : In x0 xs) by (rewrite Exs; now left).
      destruct (Mk x0) as [si Hsi]. destruct (H x0 si Hx0 Hsi) as (y & s1 & Hy).
      rewrite Ed in Hy. cbn [evaluate] in Hy. destruct (contains (d_range b) si); cbn [bind] in Hy; [|discriminate Hy].
      destruct (convert_to si (d_type b) (d_unit b)) eqn:Ci; [|discriminate].
      destruct (convert_to_ok_documented _ _ _ _ Ci) as (c2 & D2).
      rewrite Es, Ed in Hres. cbn [elems dbase_of] in Hres.
      destruct (conv_pointwise s _ _ _ _ D2 Es Hres) as (h & Cs & _). eauto. }
    destruct Hcv as [v Cv]. destruct (convert_to_ok_documented _ _ _ _ Cv) as (c2 & D2).
    assert (Hres2 : Forall (resolvable (lower (d_type b))) (map f xs)).
    { rewrite Es, Ed in Hres. exact Hres. }
    destruct (conv_pointwise s _ _ _ _ D2 Es Hres2) as (h & Cs & Csi).
    assert (Q : evaluate X d s = (do l <- map_res (point_of d) (map h (map f xs)); Ok (OA l), s)).
    { apply (eval_array X d s xs _ (map f xs)); try assumption; try (now rewrite ?map_length).
      rewrite Ed. exact Cs. }
    rewrite Q.
    assert (M : exists outs, map_res (point_of d) (map h (map f xs)) = Ok outs).
    { assert (Pt : forall x, In x xs -> exists o, point_of d (h (f x)) = Ok o).
      { intros x Hx. destruct (Mk x) as [si Hsi]. destruct (H x si Hx Hsi) as (y & s1 & Hy).
        destruct (Hi x si Hx Hsi) as (E1 & E2 & E3).
        assert (Cx : convert_to si (d_type b) (d_unit b) = Ok (VS (h (f x)))) by (apply Csi; [now apply in_map|assumption]).
        rewrite Ed in Hy |- *. cbn [evaluate] in Hy. destruct (contains (d_range b) si); cbn [bind] in Hy; [|discriminate Hy].
        rewrite Cx in Hy. cbn [bind map_vals] in Hy. unfold point_of.
        destruct (do y0 <- interp_point rows (h (f x)); Ok (ORe y0)); [eauto|discriminate]. }
      clear - Pt. induction xs as [|x l IH]; [cbn; eauto|]. cbn [map map_res].
      destruct (Pt x (or_introl eq_refl)) as [o ->]. destruct IH as [outs ->]; [intros; apply Pt; now right|].
      cbn. eauto. }
    destruct M as [outs ->]. cbn. eauto.
  - rewrite <- Ed in *.
    assert (Hk : k <> TaucLorentz).
    { destruct (plain_shape d P) as (c' & _ & _ & _ & K). rewrite Ed in K. exact K. }
    assert (Hcv : exists v, convert_to s (d_type b) (d_unit b) = Ok v).
    { destruct xs as [|x0 xr0] eqn:Exs; [congruence|]. rewrite <- Exs in *.
      assert (Hx0 : In x0 xs) by (rewrite Exs; now left).
      destruct (Mk x0) as [si Hsi]. destruct (H x0 si Hx0 Hsi) as (y & s1 & Hy).
      rewrite Ed in Hy. cbn [evaluate] in Hy. destruct (contains (d_range b) si); cbn [bind] in Hy; [|discriminate Hy].
      destruct (convert_to si (d_type b) (d_unit b)) eqn:Ci; [|discriminate].
      destruct (convert_to_ok_documented _ _ _ _ Ci) as (c2 & D2).
      rewrite Es, Ed in Hres. cbn [elems dbase_of] in Hres.
      destruct (conv_pointwise s _ _ _ _ D2 Es Hres) as (h & Cs & _). eauto. }
    destruct Hcv as [v Cv]. destruct (convert_to_ok_documented _ _ _ _ Cv) as (c2 & D2).
    assert (Hres2 : Forall (resolvable (lower (d_type b))) (map f xs)).
    { rewrite Es, Ed in Hres. exact Hres. }
    destruct (conv_pointwise s _ _ _ _ D2 Es Hres2) as (h & Cs & Csi).
    assert (Q : evaluate X d s = (do l <- map_res (point_of d) (map h (map f xs)); Ok (OA l), s)).
    { apply (eval_array X d s xs _ (map f xs)); try assumption; try (now rewrite ?map_length).
      rewrite Ed. exact Cs. }
    rewrite Q.
    assert (M : exists outs, map_res (point_of d) (map h (map f xs)) = Ok outs).
    { assert (Pt : forall x, In x xs -> exists o, point_of d (h (f x)) = Ok o).
      { intros x Hx. destruct (Mk x) as [si Hsi]. destruct (H x si Hx Hsi) as (y & s1 & Hy).
        destruct (Hi x si Hx Hsi) as (E1 & E2 & E3).
        assert (Cx : convert_to si (d_type b) (d_unit b) = Ok (VS (h (f x)))) by (apply Csi; [now apply in_map|assumption]).
        rewrite Ed in Hy |- *. cbn [evaluate] in Hy. destruct (contains (d_range b) si); cbn [bind] in Hy; [|discriminate Hy].
        rewrite Cx in Hy. cbn [bind map_vals] in Hy. rewrite E1 in Hy. unfold point_of.
        destruct (model_point k p (h (f x))); [eauto|]. destruct k; try discriminate. congruence. }
      clear - Pt. induction xs as [|x l IH]; [cbn; eauto|]. cbn [map map_res].
      destruct (Pt x (or_introl eq_refl)) as [o ->]. destruct IH as [outs ->]; [intros; apply Pt; now right|].
      cbn. eauto. }
    destruct M as [outs ->]. cbn. eauto.
  - destruct (plain_shape _ P) as (c' & _ & _ & _ & []).
Qed.
End Pointwise.

(** ** effects on the caller's spectrum *)
Lemma eval_std X d s : sp_std (snd (evaluate X d s)) = sp_std s.
Proof.
  revert s. induction d as [| | |b base IH spl]; intros s; try reflexivity.
  cbn [evaluate].
  assert (I : sp_std (snd (match contains (valid_range base) s with
                           | Raise e => (Raise e, s) | Ok _ => evaluate X base s end)) = sp_std s).
  { destruct (contains _ _); [apply IH|reflexivity]. }
  destruct (match contains (valid_range base) s with
            | Raise e => (Raise e, s) | Ok _ => evaluate X base s end) as [[v|e] s1]; [exact I|].
  cbn [snd] in I. destruct (catches ValueError e); [|exact I].
  pose proof (in_place_std s1 (d_type b) (d_unit b)) as J.
  destruct (convert_in_place s1 (d_type b) (d_unit b)) as [[[]|e'] s2]; cbn [snd] in *; congruence.
Qed.

Lemma eval_plain_pure X d s : (forall b base spl, d <> DExtrap b base spl) -> snd (evaluate X d s) = s.
Proof. intros H. destruct d; try reflexivity. exfalso; eapply H; reflexivity. Qed.
