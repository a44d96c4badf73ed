(** Proofs about evaluating, comparing and changing materials. *)
From Verif Require Import PyBase PyStr XReal CNum SpectrumModel SpectrumSpec SpectrumProofs SpectralModel SpectralSpec SpectralProofs InterpProofs EvalProofs ExtrapProofs TextModel TextSpec TextProofs TableProofs MaterialModel MaterialSpec MaterialProofs.
From Flocq Require Import Core.
Open Scope R_scope.
Open Scope string_scope.
Open Scope list_scope.

(** ** fresh spectra *)
Lemma mk_spectrum_again v t u s : mk_spectrum v t u = Ok s ->
  mk_spectrum (InVals (sp_values s)) (sp_type s) (sp_unit s) = Ok s.
Proof.
  intros H. destruct (mk_spectrum_ok _ _ _ _ H) as (c & w & D & -> & S & E1 & E2 & E3).
  pose proof (documented_canon _ _ _ D) as Dc. destruct (documented_lower _ _ _ Dc) as [L1 L2].
  destruct s as [st su sv ss]. cbn [sp_type sp_unit sp_values sp_std] in *. subst.
  assert (D' : documented (lower (lower t)) (lower c) c) by (now rewrite L1, L2).
  rewrite (mk_spectrum_unfold _ _ _ _ D'), L2, S. reflexivity.
Qed.

(** a spectrum of non-negative floats *)
Lemma nonneg_spectrum v t u canon : documented (lower t) (lower u) canon -> nonneg_floats v ->
  exists s, mk_spectrum (InVals v) t u = Ok s /\ sp_values s = v /\
    vnn (sp_std s) /\ elems (sp_std s) <> [] /\ (forall l, sp_std s <> VI l).
Proof.
  intros D (N & E & I). rewrite (mk_spectrum_unfold _ _ _ _ D).
  destruct (std_nn _ _ _ _ D I N) as (w & S & Nw). rewrite S. cbn [bind]. eexists. split; [reflexivity|].
  cbn [sp_values sp_std]. split; [reflexivity|]. split; [assumption|].
  destruct (std_form _ _ _ D) as (g & G1 & G2 & _).
  destruct v as [x|l|l]; [| |exfalso; exact (I l eq_refl)].
  - rewrite G1 in S. inversion S. split; [discriminate|intros l; discriminate].
  - rewrite G2 in S. inversion S. split; [|intros l0; discriminate]. destruct l; [exfalso; exact (E eq_refl)|discriminate].
Qed.

Lemma constant_data_inv x d : constant_data x d -> exists r, d = DConst (mkBase "wavelength" "m" r) (ORe x) /\
  sp_type r = "wavelength" /\ sp_unit r = "m" /\ sp_values r = VA [Fin 0; PInf].
Proof.
  intros H. destruct (constant_default_spec (ORe x)) as (r & E & R). unfold constant_data in H.
  unfold constant_default, range_0_inf in E. rewrite E in H. inversion H; subst. exists r. auto.
Qed.

Lemma eval_constant X x d s : constant_data x d ->
  vnn (sp_std s) -> elems (sp_std s) <> [] -> (forall l, sp_std s <> VI l) ->
  evaluate X d s = (Ok (match sp_values s with VS _ => OS (ORe x) | v => OA (map (fun _ => ORe x) (elems v)) end), s).
Proof.
  intros C N E I. destruct (constant_data_inv _ _ C) as (r & -> & R1 & R2 & R3). cbn [evaluate d_range].
  rewrite (default_contains r s R1 R2 R3 N E I). cbn [bind]. destruct (sp_values s); reflexivity.
Qed.

Lemma ci_join a b : cxadd (cx_of_xr (Fin a)) (cxmul (CF Ci) (cx_of_xr (Fin b))) = CF (a, b).
Proof.
  cbn. f_equal. apply C_eq; cbn; ring.
Qed.

Lemma zip_const {A B C : Type} (f : B -> B -> C) x y (l : list A) :
  zip_with f (map (fun _ => x) l) (map (fun _ => y) l) = map (fun _ => f x y) l.
Proof. induction l; cbn; congruence. Qed.

Lemma join_const a b v : (forall l, v <> VI l) ->
  join_parts (match v with VS _ => OS (ORe (Fin a)) | v => OA (map (fun _ => ORe (Fin a)) (elems v)) end)
             (match v with VS _ => OS (ORe (Fin b)) | v => OA (map (fun _ => ORe (Fin b)) (elems v)) end)
  = Ok (everywhere (a, b) v).
Proof.
  intros H. unfold join_parts, obin, everywhere. destruct v as [x|l|l]; [| |exfalso; exact (H l eq_refl)].
  - cbn [onum_cx]. now rewrite ci_join.
  - rewrite !map_length, Nat.eqb_refl, zip_const. cbn [onum_cx]. now rewrite ci_join.
Qed.

Lemma omap_id_everywhere z v : omap (fun c => c) (everywhere z v) = everywhere z v.
Proof. destruct v; cbn [everywhere omap onum_cx]; try reflexivity; now rewrite map_map. Qed.

Lemma const_complex_value X m a b s : constant_data (Fin a) (m_real m) -> constant_data (Fin b) (m_imag m) ->
  m_complex m = None -> vnn (sp_std s) -> elems (sp_std s) <> [] -> (forall l, sp_std s <> VI l) ->
  (forall l, sp_values s <> VI l) ->
  complex_value X m s = (Ok (everywhere (a, b) (sp_values s)), s).
Proof.
  intros Ha Hb Hc N E I I'. unfold complex_value. rewrite Hc.
  rewrite (eval_constant X _ _ s Ha N E I), (eval_constant X _ _ s Hb N E I). f_equal.
  pose proof (join_const a b _ I') as J. destruct (sp_values s); exact J.
Qed.

(** ** squares and roots *)
Lemma omap_omap f g o : omap f (omap g o) = omap (fun z => f (g z)) o.
Proof. destruct o; cbn; [reflexivity|]. f_equal. rewrite map_map. reflexivity. Qed.
Lemma omap_ext f g o : (forall z, f z = g z) -> omap f o = omap g o.
Proof. intros H. destruct o; cbn; rewrite ?H; [reflexivity|]. f_equal. apply map_ext. intros. now rewrite H. Qed.
Lemma cxsqrt_sq z : cxmul (cxsqrt z) (cxsqrt z) = z.
Proof. destruct z; cbn; [|reflexivity]. now rewrite csqrt_sq. Qed.
Lemma map_out_omap f o : map_out f o = omap (cx1 f) o.
Proof.
  destruct o as [x|l]; cbn [map_out omap]; [destruct (onum_cx x); reflexivity|].
  f_equal. apply map_ext. intros x. destruct (onum_cx x); reflexivity.
Qed.
Lemma cx1_sq z : cx1 (fun z => Cmult z z) z = cxmul z z.
Proof. destruct z; reflexivity. Qed.

Lemma nk_eps_square X m s :
  valid_name m = true ->
  (do c <- fst (complex_value X m s);
   Ok (if String.eqb (m_name m) "nk" then omap (fun z => cxmul z z) c else omap (fun z => z) c)) =
  (do c <- fst (complex_value X m s);
   Ok (map_out (fun z => Cmult z z) (if String.eqb (m_name m) "eps" then omap cxsqrt c else omap (fun z => z) c))).
Proof.
  intros V. destruct (fst (complex_value X m s)) as [c|e]; cbn [bind]; [|reflexivity]. f_equal. rewrite map_out_omap.
  unfold valid_name in V. apply orb_true_iff in V. destruct V as [V|V]; apply String.eqb_eq in V; rewrite V.
  - change (String.eqb "nk" "nk") with true. change (String.eqb "nk" "eps") with false. cbv iota.
    rewrite omap_omap. apply omap_ext. intros. now rewrite cx1_sq.
  - change (String.eqb "eps" "nk") with false. change (String.eqb "eps" "eps") with true. cbv iota.
    rewrite omap_omap. apply omap_ext. intros. now rewrite cx1_sq, cxsqrt_sq.
Qed.

Lemma eps_is_square_raw X m v t u :
  get_permittivity X m (SRaw v t u) = (do c <- get_nk_data X m (SRaw v t u); Ok (map_out (fun z => Cmult z z) c)).
Proof.
  unfold get_permittivity, get_nk_data, get_permittivity_obj.
  destruct (mk_spectrum v t u) as [s|e]; cbn [bind]; [|reflexivity].
  destruct (valid_name m) eqn:V; cbn [negb fst bind]; [|reflexivity].
  pose proof (nk_eps_square X m s V) as H. destruct (complex_value X m s) as [c s1]. cbn [fst bind] in *.
  rewrite H. destruct c; reflexivity.
Qed.
Lemma eps_is_square_obj X m s : mk_spectrum (InVals (sp_values s)) (sp_type s) (sp_unit s) = Ok s ->
  get_permittivity X m (SObj s) = (do c <- get_nk_data X m (SObj s); Ok (map_out (fun z => Cmult z z) c)).
Proof.
  intros F. pose proof (eps_is_square_raw X m (InVals (sp_values s)) (sp_type s) (sp_unit s)) as H.
  unfold get_permittivity, get_nk_data in *. rewrite F in *. exact H.
Qed.

Lemma nk_principal X m a o : m_name m = "eps" -> get_nk_data X m a = Ok o ->
  Forall (fun x => match x with OCx (CF z) => 0 <= fst z | OCx CNan => True | ORe _ => False end) (out_elems o).
Proof.
  intros N H. unfold get_nk_data in H.
  destruct (match a with SObj s => _ | SRaw v t u => _ end); cbn [bind] in H; [|discriminate].
  destruct (negb (valid_name m)); [discriminate|]. destruct (fst (complex_value X m a0)) as [c|]; cbn [bind] in H; [|discriminate].
  rewrite N in H. change (String.eqb "eps" "eps") with true in H. cbv iota in H. inversion H; subst. clear H.
  assert (P : forall x, match OCx (cxsqrt (onum_cx x)) with OCx (CF z) => 0 <= fst z | OCx CNan => True | ORe _ => False end).
  { intros x. destruct (onum_cx x); cbn; [|exact I]. apply sqrt_pos. }
  destruct c as [x|l]; cbn [omap out_elems].
  - constructor; [apply P|constructor].
  - apply Forall_forall. intros y Hy. apply in_map_iff in Hy. destruct Hy as (x & <- & _). apply P.
Qed.

(** ** real-valued parts *)
Fixpoint real_valued (d : sdata) : Prop :=
  match d with
  | DConst _ (ORe _) => True | DConst _ (OCx _) => False
  | DInterp _ _ => True
  | DModel _ k _ => ~ In k [Drude; DrudeLorentz; TaucLorentz]
  | DExtrap _ base _ => real_valued base
  end.
Definition all_re (o : ovals) : Prop := Forall (fun x => exists r, x = ORe r) (out_elems o).

Lemma map_vals_re f v o : (forall x y, f x = Ok y -> exists r, y = ORe r) -> map_vals f v = Ok o -> all_re o.
Proof.
  intros F H. unfold map_vals in H. destruct v as [x|l|l].
  - destruct (f x) eqn:E; cbn [bind] in H; [|discriminate]. inversion H; subst.
    constructor; [eauto|constructor].
  - destruct (map_res f (elems (VA l))) eqn:E; cbn [bind] in H; [|discriminate]. inversion H; subst. clear H.
    unfold all_re. cbn [out_elems]. apply Forall_forall. intros y Hy.
    apply (proj1 (map_res_iff f (fun x y => f x = Ok y) _ _ (fun x _ y => iff_refl _))) in E.
    apply In_nth_error in Hy. destruct Hy as [i Hi]. revert i Hi. induction E; intros i Hi; [destruct i; discriminate|].
    destruct i; [inversion Hi; subst; eauto|eauto].
  - destruct (map_res f (elems (VI l))) eqn:E; cbn [bind] in H; [|discriminate]. inversion H; subst. clear H.
    unfold all_re. cbn [out_elems]. apply Forall_forall. intros y Hy.
    apply (proj1 (map_res_iff f (fun x y => f x = Ok y) _ _ (fun x _ y => iff_refl _))) in E.
    apply In_nth_error in Hy. destruct Hy as [i Hi]. revert i Hi. induction E; intros i Hi; [destruct i; discriminate|].
    destruct i; [inversion Hi; subst; eauto|eauto].
Qed.

Lemma model_point_re k p x y : ~ In k [Drude; DrudeLorentz; TaucLorentz] -> model_point k p x = Ok y -> exists r, y = ORe r.
Proof.
  intros N H. unfold model_point in H.
  destruct k; try (exfalso; apply N; cbn; tauto);
    match type of H with bind ?m _ = _ => destruct m; cbn [bind] in H; inversion H; eauto end.
Qed.

Lemma eval_real X d : real_valued d -> forall s o s', evaluate X d s = (Ok o, s') -> all_re o.
Proof.
  induction d as [b c|b rows|b k p|b base IH spl]; intros R s o s' H; cbn [evaluate real_valued] in *.
  - destruct c; [|contradiction]. destruct (contains (d_range b) s); cbn [bind] in H; [|inversion H].
    destruct (sp_values s); inversion H; subst; unfold all_re; cbn [out_elems elems].
    + constructor; [eauto|constructor].
    + apply Forall_forall. intros y Hy. apply in_map_iff in Hy. destruct Hy as (? & <- & _). eauto.
    + apply Forall_forall. intros y Hy. apply in_map_iff in Hy. destruct Hy as (? & <- & _). eauto.
  - destruct (contains (d_range b) s); cbn [bind] in H; [|inversion H].
    destruct (convert_to s (d_type b) (d_unit b)); cbn [bind] in H; [|inversion H].
    inversion H. eapply map_vals_re; [|eassumption]. intros x y E. cbv beta in E.
    destruct (interp_point rows x); cbn [bind] in E; inversion E; eauto.
  - destruct (contains (d_range b) s); cbn [bind] in H; [|inversion H].
    destruct (convert_to s (d_type b) (d_unit b)); cbn [bind] in H; [|inversion H].
    assert (E : map_vals (model_point k p) a0 = Ok o).
    { destruct k; try (exfalso; apply R; cbn; tauto); inversion H; reflexivity. }
    eapply map_vals_re; [|exact E]. intros x y Hy. eapply model_point_re; eassumption.
  - destruct (contains (valid_range base) s) as [cb|ce].
    + destruct (evaluate X base s) as [[v|e] s1] eqn:Eb.
      * inversion H; subst. eapply IH; eassumption.
      * destruct (catches ValueError e); [|inversion H].
        destruct (convert_in_place s1 (d_type b) (d_unit b)) as [[|] s2]; [|inversion H].
        destruct (contains (d_range b) s2); cbn [bind] in H; [|inversion H].
        inversion H. eapply map_vals_re; [|eassumption]. intros x y E. inversion E; eauto.
    + destruct (catches ValueError ce); [|inversion H].
      destruct (convert_in_place s (d_type b) (d_unit b)) as [[|] s2]; [|inversion H].
      destruct (contains (d_range b) s2); cbn [bind] in H; [|inversion H].
      inversion H. eapply map_vals_re; [|eassumption]. intros x y E. inversion E; eauto.
Qed.

(** ** shapes *)

Lemma shape_vmap f v : shape (vmap f v) = shape v.
Proof. destruct v; cbn [vmap shape elems]; rewrite ?map_length; reflexivity. Qed.
Lemma shape_inv v w : safe_inverse v = Ok w -> shape w = shape v.
Proof. destruct v; cbn; intros H; inversion H; subst; cbn; rewrite ?map_length; reflexivity. Qed.
Ltac shape_tac H :=
  repeat match type of H with
  | (if ?b then _ else _) = _ => destruct b
  | Raise _ = Ok _ => discriminate
  | Ok _ = Ok _ => inversion H; subst; clear H
  | bind (safe_inverse ?v) _ = _ => let E := fresh in destruct (safe_inverse v) eqn:E; cbn [bind] in H; [apply shape_inv in E|discriminate]
  end.
Lemma shape_to t c v w : to_dispatch t c v = Ok w -> shape w = shape v.
Proof.
  intros H. unfold to_dispatch, to_frequency, to_energy, to_ang_freq, to_wavenumber, to_wavelength, vscale in H.
  shape_tac H; unfold vscale in *; rewrite ?shape_vmap in *; congruence.
Qed.
Lemma shape_convert s t u w : convert_to s t u = Ok w -> shape w = shape (sp_std s).
Proof.
  intros H. unfold convert_to in H. destruct (negb _); [discriminate|].
  destruct (standardise_unit _ _); cbn [bind] in H; [|discriminate]. eapply shape_to; eassumption.
Qed.
Lemma shape_std t c v w : standardise_values t c v = Ok w -> shape w = shape v.
Proof.
  intros H. unfold standardise_values, convert_from, frequency_to_standard, energy_to_standard, ang_freq_to_standard,
    wavenumber_to_standard, wavelength_to_standard, vscale in H.
  shape_tac H; unfold vscale in *; rewrite ?shape_vmap in *; congruence.
Qed.
Lemma mk_spectrum_regular v t u s : mk_spectrum v t u = Ok s -> regular s.
Proof.
  intros H. destruct (mk_spectrum_ok _ _ _ _ H) as (c & w & D & -> & S & E1 & E2 & E3).
  unfold regular. rewrite E3. symmetry. eapply shape_std; eassumption.
Qed.
Lemma in_place_regular s t u : regular s -> regular (snd (convert_in_place s t u)) /\
  shape (sp_values (snd (convert_in_place s t u))) = shape (sp_values s).
Proof.
  intros R. rewrite in_place_spec. destruct (convert_to s t u) eqn:E; cbn [snd]; [|auto].
  apply shape_convert in E. unfold regular in *. cbn [sp_values sp_std]. split; congruence.
Qed.
Lemma shape_map_vals f v o : map_vals f v = Ok o -> oshape o = shape v.
Proof.
  unfold map_vals. destruct v as [x|l|l]; cbn [shape].
  - destruct (f x); cbn [bind]; intros H; inversion H; reflexivity.
  - destruct (map_res f (elems (VA l))) eqn:E; cbn [bind]; intros H; inversion H. cbn [oshape].
    now rewrite (map_res_length _ _ _ E).
  - destruct (map_res f (elems (VI l))) eqn:E; cbn [bind]; intros H; inversion H. cbn [oshape].
    now rewrite (map_res_length _ _ _ E).
Qed.

Lemma eval_shape X d : forall s r s', regular s -> evaluate X d s = (r, s') ->
  regular s' /\ shape (sp_values s') = shape (sp_values s) /\ forall o, r = Ok o -> oshape o = shape (sp_values s).
Proof.
  induction d as [b c|b rows|b k p|b base IH spl]; intros s r s' R H; cbn [evaluate] in H.
  - inversion H; subst. split; [assumption|]. split; [reflexivity|]. intros o Ho.
    destruct (contains (d_range b) s'); cbn [bind] in Ho; [|discriminate].
    destruct (sp_values s'); inversion Ho; cbn [oshape shape elems]; rewrite ?map_length; reflexivity.
  - inversion H; subst. split; [assumption|]. split; [reflexivity|]. intros o Ho.
    destruct (contains (d_range b) s'); cbn [bind] in Ho; [|discriminate].
    destruct (convert_to s' (d_type b) (d_unit b)) eqn:E; cbn [bind] in Ho; [|discriminate].
    apply shape_map_vals in Ho. rewrite Ho, (shape_convert _ _ _ _ E). symmetry. exact R.
  - inversion H; subst. split; [assumption|]. split; [reflexivity|]. intros o Ho.
    destruct (contains (d_range b) s'); cbn [bind] in Ho; [|discriminate].
    destruct (convert_to s' (d_type b) (d_unit b)) eqn:E; cbn [bind] in Ho; [|discriminate].
    assert (M : map_vals (model_point k p) a0 = Ok o).
    { destruct k; try exact Ho. destruct (sp_values s'); try exact Ho. destruct (tl_params_ok p); discriminate. }
    apply shape_map_vals in M. rewrite M, (shape_convert _ _ _ _ E). symmetry. exact R.
  - assert (Conv : forall s1 r' s2, regular s1 -> shape (sp_values s1) = shape (sp_values s) ->
      (match convert_in_place s1 (d_type b) (d_unit b) with
       | (Raise e', s2) => (Raise e', s2)
       | (Ok _, s2) => (do_ contains (d_range b) s2; map_vals (fun x => Ok (ORe (splev X spl x))) (sp_values s2), s2)
       end) = (r', s2) ->
      regular s2 /\ shape (sp_values s2) = shape (sp_values s) /\ forall o, r' = Ok o -> oshape o = shape (sp_values s)).
    { intros s1 r' s2 R1 S1 H1. destruct (in_place_regular s1 (d_type b) (d_unit b) R1) as [R2 S2].
      destruct (convert_in_place s1 (d_type b) (d_unit b)) as [[|] s3]; cbn [snd] in *; inversion H1; subst.
      - split; [assumption|]. split; [congruence|]. intros o Ho.
        destruct (contains (d_range b) s2); cbn [bind] in Ho; [|discriminate].
        apply shape_map_vals in Ho. congruence.
      - split; [assumption|]. split; [congruence|]. intros; discriminate. }
    destruct (contains (valid_range base) s) as [cb|ce].
    + destruct (evaluate X base s) as [[v|e] s1] eqn:Eb; destruct (IH _ _ _ R Eb) as (R1 & S1 & O1).
      * inversion H; subst. auto.
      * destruct (catches ValueError e); [eapply Conv; eassumption|]. inversion H; subst. split; [assumption|]. split; [assumption|]. intros; discriminate.
    + destruct (catches ValueError ce); [eapply Conv; eauto|]. inversion H; subst. split; [assumption|]. split; [reflexivity|]. intros; discriminate.
Qed.

Lemma obin_shape f a b o : oshape a = oshape b -> obin f a b = Ok o -> oshape o = oshape a.
Proof.
  destruct a as [x|l], b as [y|m]; cbn [oshape]; intros H; try discriminate; cbn [obin].
  - intros E; inversion E; reflexivity.
  - inversion H as [L]. rewrite L, Nat.eqb_refl. intros E; inversion E. cbn [oshape]. f_equal.
    clear E H H1. revert m L. induction l as [|a l IH]; intros [|b m] L; try discriminate; [reflexivity|].
    cbn in L |- *. f_equal. apply IH. now injection L.
Qed.

Lemma complex_value_shape X m s o s' : regular s -> complex_value X m s = (Ok o, s') -> oshape o = shape (sp_values s).
Proof.
  intros R H. unfold complex_value in H. destruct (m_complex m) as [d|].
  - destruct (eval_shape X d _ _ _ R H) as (_ & _ & S). now apply S.
  - destruct (evaluate X (m_real m) s) as [[re|e] s1] eqn:E1; [|inversion H].
    destruct (eval_shape X _ _ _ _ R E1) as (R1 & S1 & O1).
    destruct (evaluate X (m_imag m) s1) as [[im|e] s2] eqn:E2; [|inversion H].
    destruct (eval_shape X _ _ _ _ R1 E2) as (R2 & S2 & O2).
    inversion H as [[J K]]. unfold join_parts in J. specialize (O1 _ eq_refl). specialize (O2 _ eq_refl).
    rewrite (obin_shape _ _ _ _ (eq_trans O1 (eq_sym (eq_trans O2 S1))) J). exact O1.
Qed.
Lemma omap_shape f o : oshape (omap f o) = oshape o.
Proof. destruct o; cbn; rewrite ?map_length; reflexivity. Qed.

Lemma nk_shape X m a o : get_nk_data X m a = Ok o -> oshape o = arg_shape a.
Proof.
  unfold get_nk_data.
  destruct (match a with SObj s => mk_spectrum (InVals (sp_values s)) (sp_type s) (sp_unit s) | SRaw v t u => mk_spectrum v t u end) as [s|] eqn:E; cbn [bind]; [|discriminate].
  destruct (negb (valid_name m)); [discriminate|].
  destruct (complex_value X m s) as [[c|] s1] eqn:C; cbn [fst bind]; [|discriminate].
  intros H. inversion H. assert (S : oshape o = oshape c) by (inversion H; destruct (String.eqb _ _); apply omap_shape).
  rewrite H1, S. assert (R : regular s) by (destruct a; eapply mk_spectrum_regular; eassumption).
  rewrite (complex_value_shape _ _ _ _ _ R C).
  destruct a as [s0|v t u]; cbn [arg_shape].
  - destruct (mk_spectrum_ok _ _ _ _ E) as (? & w & _ & Ew & _ & _ & _ & Ev). inversion Ew. congruence.
  - destruct (mk_spectrum_ok _ _ _ _ E) as (? & w & _ & -> & _ & _ & _ & Ev). congruence.
Qed.
Lemma eps_shape_obj X m s o s' : regular s -> get_permittivity_obj X m s = (Ok o, s') -> oshape o = shape (sp_values s).
Proof.
  intros R. unfold get_permittivity_obj. destruct (negb (valid_name m)); [intros H; inversion H|].
  destruct (complex_value X m s) as [[c|] s1] eqn:C; cbn [bind]; intros H; inversion H; subst.
  rewrite <- (complex_value_shape _ _ _ _ _ R C). destruct (String.eqb _ _); apply omap_shape.
Qed.

(** ** removing absorption *)

Lemma join_zero re im o :
  all_re re -> oshape re = oshape im -> all_re im -> join_parts re im = Ok o -> all_finite o ->
  forall im0, oshape im0 = oshape re -> Forall (fun x => x = ORe (Fin 0)) (out_elems im0) ->
  join_parts re im0 = Ok (map_out drop_im o).
Proof.
  intros Ar S Ai J F im0 S0 Z. unfold join_parts in *.
  assert (P : forall x y, (exists r, x = ORe r) -> (exists r, y = ORe r) ->
     (exists z, onum_cx (OCx (cxadd (onum_cx x) (cxmul (CF Ci) (onum_cx y)))) = CF z) ->
     OCx (cxadd (onum_cx x) (cxmul (CF Ci) (onum_cx (ORe (Fin 0))))) =
     match onum_cx (OCx (cxadd (onum_cx x) (cxmul (CF Ci) (onum_cx y)))) with CF z => OCx (CF (drop_im z)) | CNan => OCx CNan end).
  { intros x y [r ->] [q ->] [z E]. destruct r as [r| | |]; try discriminate. destruct q as [q| | |]; try discriminate.
    cbn [onum_cx] in *. rewrite !ci_join in *. reflexivity. }
  destruct re as [x|l], im as [y|m]; cbn [oshape] in S; try discriminate; destruct im0 as [y0|m0]; cbn [oshape] in S0; try discriminate; cbn [obin] in *.
  - inversion J; subst. cbn [map_out out_elems] in *. unfold all_finite in F. cbn [out_elems] in F.
    apply Forall_inv in F. apply Forall_inv in Z. subst y0. apply Forall_inv in Ar. apply Forall_inv in Ai.
    f_equal. f_equal. now apply P.
  - inversion S as [L]. inversion S0 as [L0]. rewrite L, Nat.eqb_refl in J. rewrite L0, Nat.eqb_refl.
    inversion J; subst. cbn [map_out]. do 2 f_equal. unfold all_finite, all_re in *. cbn [out_elems] in *.
    clear J S S0. revert m m0 L L0 Ar Ai Z F. induction l as [|x l IH]; intros [|y m] [|y0 m0] L L0 Ar Ai Z F; try discriminate; [reflexivity|].
    cbn [zip_with map] in *. inversion Ar; inversion Ai; inversion Z; inversion F; subst. f_equal; [now apply P|]. now apply IH; auto.
Qed.

Lemma const_zero_eval X z s : zero_data z ->
  vnn (sp_std s) -> elems (sp_std s) <> [] -> (forall l, sp_std s <> VI l) ->
  exists o, evaluate X z s = (Ok o, s) /\ oshape o = shape (sp_values s) /\ Forall (fun x => x = ORe (Fin 0)) (out_elems o).
Proof.
  intros Z N E I. rewrite (eval_constant X _ _ s Z N E I). eexists. split; [reflexivity|].
  assert (M : forall l : list xr, Forall (fun x => x = ORe (Fin 0)) (map (fun _ => ORe (Fin 0)) l)).
  { intros l. apply Forall_forall. intros x Hx. apply in_map_iff in Hx. destruct Hx as (? & <- & _). reflexivity. }
  destruct (sp_values s); cbn [oshape shape out_elems elems]; rewrite ?map_length; split; auto.
Qed.

Lemma noabs_value X m z s o s' :
  m_complex m = None -> real_valued (m_real m) -> real_valued (m_imag m) -> zero_data z ->
  regular s -> vnn (sp_std s) -> elems (sp_std s) <> [] -> (forall l, sp_std s <> VI l) ->
  complex_value X m s = (Ok o, s') -> all_finite o ->
  fst (complex_value X (mkMat (m_meta m) (m_name m) (m_real m) z None (m_stype m) (m_unit m)) s) = Ok (map_out drop_im o).
Proof.
  intros C Rr Ri Z R N E I H F. unfold complex_value in *. rewrite C in H. cbn [m_complex m_real m_imag].
  destruct (evaluate X (m_real m) s) as [[re|e] s1] eqn:E1; [|inversion H].
  destruct (eval_shape X _ _ _ _ R E1) as (R1 & S1 & O1). specialize (O1 _ eq_refl).
  pose proof (eval_std X (m_real m) s) as D1. rewrite E1 in D1. cbn [snd] in D1.
  destruct (evaluate X (m_imag m) s1) as [[im|e] s2] eqn:E2; [|inversion H].
  destruct (eval_shape X _ _ _ _ R1 E2) as (R2 & S2 & O2). specialize (O2 _ eq_refl).
  rewrite <- D1 in N, E. assert (I1 : forall l, sp_std s1 <> VI l) by (now rewrite D1).
  destruct (const_zero_eval X z s1 Z N E I1) as (o0 & E0 & S0 & Z0). rewrite E0. cbn [fst].
  inversion H as [[J K]]. apply (join_zero re im o); [exact (eval_real X _ Rr _ _ _ E1)|congruence|exact (eval_real X _ Ri _ _ _ E2)|exact J|exact F|congruence|exact Z0].
Qed.

(** whatever it gives, the imaginary part is zero *)
Lemma obin_zero re im o : all_re re -> Forall (fun x => x = ORe (Fin 0)) (out_elems im) ->
  join_parts re im = Ok o -> Forall im_zero (out_elems o).
Proof.
  intros Ar Z J. unfold join_parts in J.
  assert (P : forall x y, (exists r, x = ORe r) -> y = ORe (Fin 0) ->
     im_zero (OCx (cxadd (onum_cx x) (cxmul (CF Ci) (onum_cx y))))).
  { intros x y [r ->] ->. destruct r as [r| | |]; try (left; reflexivity). right. exists r.
    cbn [onum_cx]. now rewrite ci_join. }
  destruct re as [x|l], im as [y|m]; cbn [obin] in J.
  - inversion J; subst. constructor; [|constructor]. apply Forall_inv in Ar. apply Forall_inv in Z. now apply P.
  - inversion J; subst. cbn [out_elems] in *. apply Forall_inv in Ar. apply Forall_forall. intros q Hq.
    apply in_map_iff in Hq. destruct Hq as (y & <- & Hy). rewrite Forall_forall in Z. now apply P; auto.
  - inversion J; subst. cbn [out_elems] in *. apply Forall_inv in Z. apply Forall_forall. intros q Hq.
    apply in_map_iff in Hq. destruct Hq as (x & <- & Hx). unfold all_re in Ar. rewrite Forall_forall in Ar. now apply P; auto.
  - destruct (Nat.eqb (length l) (length m)); inversion J; subst. cbn [out_elems] in *. unfold all_re in Ar. cbn [out_elems] in Ar.
    clear J. revert m Z. induction l as [|x l IH]; intros [|y m] Z; cbn [zip_with]; try constructor.
    + inversion Ar; inversion Z; subst. now apply P.
    + inversion Ar; inversion Z; subst. now apply IH.
Qed.

Lemma zero_eval_all X z s o s' : zero_data z -> evaluate X z s = (Ok o, s') -> Forall (fun x => x = ORe (Fin 0)) (out_elems o).
Proof.
  intros Z H. destruct (constant_data_inv _ _ Z) as (r & -> & _). cbn [evaluate] in H.
  destruct (contains (d_range _) s); cbn [bind] in H; [|inversion H].
  assert (M : forall l : list xr, Forall (fun x => x = ORe (Fin 0)) (map (fun _ => ORe (Fin 0)) l)).
  { intros l. apply Forall_forall. intros x Hx. apply in_map_iff in Hx. destruct Hx as (? & <- & _). reflexivity. }
  destruct (sp_values s); inversion H; subst; cbn [out_elems]; auto.
Qed.

Lemma noabs_im X m s o s' : m_complex m = None -> real_valued (m_real m) -> zero_data (m_imag m) ->
  complex_value X m s = (Ok o, s') -> Forall im_zero (out_elems o).
Proof.
  intros C Rr Z H. unfold complex_value in H. rewrite C in H.
  destruct (evaluate X (m_real m) s) as [[re|e] s1] eqn:E1; [|inversion H].
  destruct (evaluate X (m_imag m) s1) as [[im|e] s2] eqn:E2; [|inversion H].
  inversion H as [[J K]]. eapply obin_zero; [|eapply zero_eval_all; eassumption|exact J]. eapply eval_real; eassumption.
Qed.
