(** Proofs about materials: invariants, ranges, sample spectra, equality, file data. *)
From Verif Require Import PyBase PyStr XReal CNum SpectrumModel SpectrumSpec SpectrumProofs SpectralModel SpectralSpec SpectralProofs InterpProofs EvalProofs ExtrapProofs TextModel TextSpec TextProofs TableProofs MaterialModel MaterialSpec MaterialProofs MatEvalProofs.
From Flocq Require Import Core.
Open Scope R_scope.
Open Scope string_scope.
Open Scope list_scope.

(** ** what a constructed material looks like *)
Definition pgood (p : pmat) : Prop :=
  (forall d, p_real p = Some d -> real_valued d) /\ (forall d, p_imag p = Some d -> real_valued d).
Lemma pgood_real p n d : pgood p -> real_valued d -> pgood (set_real p n d).
Proof. intros [A B] R. split; cbn; [intros ? [= <-]; assumption|assumption]. Qed.
Lemma pgood_imag p n d : pgood p -> real_valued d -> pgood (set_imag p n d).
Proof. intros [A B] R. split; cbn; [assumption|intros ? [= <-]; assumption]. Qed.
Lemma pgood_complex p n d : pgood p -> pgood (set_complex p n d).
Proof. intros [A B]. split; assumption. Qed.
Lemma pgood_defaults p t u : pgood p -> pgood (set_defaults p t u).
Proof. intros [A B]. split; assumption. Qed.

Lemma mk_const_rv x rng t u d : mk_constant (ORe x) rng t u = Ok d -> real_valued d.
Proof. unfold mk_constant. destruct (mk_base rng t u); cbn [bind]; intros H; inversion H. exact I. Qed.
Lemma mk_interp_rv rows t u d : mk_interpolation rows t u = Ok d -> real_valued d.
Proof.
  unfold mk_interpolation. destruct (np_min _); cbn [bind]; [|discriminate]. destruct (np_max _); cbn [bind]; [|discriminate].
  destruct (mk_base _ t u); cbn [bind]; [|discriminate]. destruct (interp1d_check rows); cbn [bind]; [|discriminate].
  intros H; inversion H. exact I.
Qed.
Lemma spec_pairs_rv rows t u d : spec_data_from_pairs rows t u = Ok d -> real_valued d.
Proof.
  destruct rows as [|r [|r2 l]]; cbn [spec_data_from_pairs]; [apply mk_interp_rv|apply mk_const_rv|apply mk_interp_rv].
Qed.
Lemma spec_table_rv n rows t u d : spec_data_from_table n rows t u = Ok d -> real_valued d.
Proof.
  destruct n as [|[|n]]; cbn [spec_data_from_table]; [discriminate| |apply spec_pairs_rv].
  destruct rows as [|r [|r2 l]]; try discriminate;
    destruct (np_min _); cbn [bind]; try discriminate; destruct (np_max _); cbn [bind]; try discriminate;
    destruct (mk_base _ t u); cbn [bind]; discriminate.
Qed.

Ltac step H :=
  match type of H with
  | bind ?m _ = Ok _ => let E := fresh "E" in destruct m eqn:E; cbn [bind] in H; [|discriminate H]
  | (if ?b then _ else _) = Ok _ => let E := fresh "B" in destruct b eqn:E
  | Raise _ = Ok _ => discriminate H
  | Ok _ = Ok _ => inversion H; subst; clear H
  end.

Lemma process_table_good n rows id p q : pgood p -> process_table n rows id p = Ok q ->
  pgood q /\ (p_name q = "nk" \/ p_name q = "eps" \/ q = p) /\ p_complex q = p_complex p.
Proof.
  intros G H. unfold process_table in H.
  repeat step H;
    repeat match goal with
    | E : spec_data_from_pairs _ _ _ = Ok _ |- _ => apply spec_pairs_rv in E
    | E : spec_data_from_table _ _ _ _ = Ok _ |- _ => apply spec_table_rv in E
    end;
    (split; [auto using pgood_real, pgood_imag|]); (split; [cbn; auto|reflexivity]).
Qed.

Lemma mk_model_rv k p rng t u d : mk_model k p rng t u = Ok d -> ~ permittivity_model k -> real_valued d.
Proof. intros H N. destruct (mk_model_ok _ _ _ _ _ _ H) as (? & ? & _ & _ & -> & _). exact N. Qed.

Lemma model_dict_good m p q : pgood p -> process_model_dict m p = Ok q ->
  pgood q /\ (p_name q = "nk" \/ p_name q = "eps").
Proof.
  intros G H. unfold process_model_dict in H.
  step H. step H. step H. step H. destruct a0 as [k| | |]; [|repeat step H..].
  step H. pose proof (fun N => mk_model_rv _ _ _ _ _ _ E3 N) as RV.
  assert (Gd : pgood (set_defaults p match kw_stype m with Some t => t | None => p_stype p end
                       match kw_unit m with Some u => u | None => p_unit p end)) by (now apply pgood_defaults).
  destruct k; cbn [output] in H; inversion H; subst;
    (split; [first [apply pgood_complex; exact Gd | apply pgood_real; [exact Gd|apply RV; cbn; intuition discriminate]]|cbn; auto]).
Qed.

Lemma formula_good d dt id p q : pgood p -> process_formula_data d dt id p = Ok q ->
  pgood q /\ (p_name q = "nk" \/ p_name q = "eps").
Proof.
  intros G H. unfold process_formula_data in H. repeat step H. eapply model_dict_good; eassumption.
Qed.
Lemma dataset_good d p q : pgood p -> process_dataset d p = Ok q ->
  pgood q /\ (p_name q = "nk" \/ p_name q = "eps" \/ p_name q = p_name p).
Proof.
  intros G H. unfold process_dataset in H. step H. destruct a as [|dt [|id [|? ?]]]; try discriminate.
  destruct (String.eqb dt "tabulated").
  - step H. step H. step H. destruct a; [discriminate|].
    destruct (process_table_good _ _ _ _ _ (pgood_defaults _ _ _ G) H) as (G' & N & _).
    split; [assumption|]. destruct N as [N|[N| ->]]; auto.
  - destruct (String.eqb dt "formula" || String.eqb dt "model"); [|discriminate].
    destruct (formula_good _ _ _ _ _ G H) as (G' & N). split; [assumption|]. tauto.
Qed.
Lemma datasets_good l : forall p q, pgood p -> process_datasets l p = Ok q ->
  pgood q /\ (p_name q = "nk" \/ p_name q = "eps" \/ p_name q = p_name p).
Proof.
  induction l as [|d r IH]; intros p q G H; cbn [process_datasets] in H.
  - inversion H; subst. auto.
  - step H. destruct (dataset_good _ _ _ G E) as (G1 & N1). destruct (IH _ _ G1 H) as (G2 & N2).
    split; [assumption|]. destruct N2 as [N2|[N2|N2]]; auto. rewrite N2. exact N1.
Qed.
Lemma complete_good meta p m : pgood p -> complete meta p = Ok m ->
  real_valued (m_real m) /\ real_valued (m_imag m) /\ m_name m = p_name p /\ m_meta m = Some meta.
Proof.
  intros [A B] H. unfold complete in H. step H. step H. inversion H; subst. cbn [m_real m_imag m_name m_meta].
  assert (Z : forall d, constant_default (ORe (Fin 0)) = Ok d -> real_valued d) by (intros d; apply mk_const_rv).
  destruct (p_real p) as [r|]; [inversion E; subst; clear E|]; destruct (p_imag p) as [i|]; [inversion E0; subst; clear E0| | |];
    repeat split; eauto. inversion E0; subst. eauto.
Qed.

Lemma build_good rd a m : build rd a = Ok m ->
  real_valued (m_real m) /\ real_valued (m_imag m) /\
  (m_name m = "nk" \/ m_name m = "eps" \/ (m_name m = "" /\ exists path, a "file_path" = PStr path)).
Proof.
  intros H. unfold build in H. set (p := mkP "" _ _ _ _ _) in *.
  assert (G : pgood p) by (split; intros; discriminate).
  destruct (as_str (a "file_path")) as [path|] eqn:F.
  - repeat step H. destruct (datasets_good _ _ _ G E1) as (G1 & N1).
    destruct (complete_good _ _ _ G1 H) as (R & I & N & _). split; [assumption|]. split; [assumption|]. rewrite N.
    destruct N1 as [N1|[N1|N1]]; auto. right; right. split; [exact N1|]. exists path. destruct (a "file_path"); inversion F; reflexivity.
  - step H. assert (P : pgood a0 /\ (p_name a0 = "nk" \/ p_name a0 = "eps")).
    { destruct (as_dict (a "model_kw")); [eapply model_dict_good; eassumption|].
      assert (Tab : forall v id q, id <> "" -> In id ["nk"; "n_alpha"; "n"; "eps"] ->
         match v with PArr (ND2 n rows) => process_table n rows id p | _ => Raise RuntimeError end = Ok q ->
         pgood q /\ (p_name q = "nk" \/ p_name q = "eps")).
      { intros v id q _ Hid Hq. destruct v; try discriminate. destruct a1; try discriminate.
        destruct (process_table_good _ _ _ _ _ G Hq) as (Gq & Nq & _). split; [assumption|].
        destruct Nq as [Nq|[Nq| ->]]; auto. exfalso. unfold process_table in Hq. cbn [In] in Hid.
        assert (Hn : forall q', Ok q' = Ok p -> p_name q' = "nk" \/ p_name q' = "eps" -> False)
          by (intros q' [= ->] [K|K]; discriminate K).
        decompose [or] Hid; try contradiction; subst id;
          repeat (first [step Hq | match type of Hq with (if String.eqb ?a ?b then _ else _) = _ =>
                    let r := eval vm_compute in (String.eqb a b) in change (String.eqb a b) with r in Hq; cbv iota in Hq end]);
          try discriminate;
          match goal with H : Ok (_ _ ?n _) = Ok p |- _ => apply (Hn _ H); cbn; auto | H : _ = p |- _ => apply (f_equal p_name) in H; discriminate H | _ => idtac end. }
      destruct (negb (is_none (a "tabulated_nk"))); [eapply (Tab _ "nk"); [discriminate|cbn; tauto|eassumption]|].
      destruct (negb (is_none (a "tabulated_n_alpha"))); [eapply (Tab _ "n_alpha"); [discriminate|cbn; tauto|eassumption]|].
      destruct (negb (is_none (a "tabulated_n"))); [eapply (Tab _ "n"); [discriminate|cbn; tauto|eassumption]|].
      destruct (negb (is_none (a "tabulated_eps"))); [eapply (Tab _ "eps"); [discriminate|cbn; tauto|eassumption]|].
      assert (Z : forall x d, constant_default (ORe x) = Ok d -> real_valued d) by (intros x d; apply mk_const_rv).
      destruct (as_float (a "fixed_n")); [repeat step E; split; [apply pgood_real; eauto|cbn; auto]|].
      destruct (as_complex (a "fixed_nk")); [repeat step E; split; [apply pgood_imag; [apply pgood_real|]; eauto|cbn; auto]|].
      destruct (as_float (a "fixed_eps_r")); [repeat step E; split; [apply pgood_real; eauto|cbn; auto]|].
      destruct (as_complex (a "fixed_eps")); [repeat step E; split; [apply pgood_imag; [apply pgood_real|]; eauto|cbn; auto]|].
      discriminate. }
    destruct P as (Gp & Np). destruct (complete_good _ _ _ Gp H) as (R & I & N & _).
    split; [assumption|]. split; [assumption|]. rewrite N. tauto.
Qed.

(** ** materials of a program *)
Lemma mk_material_good rd kw m : kwargs_ok kw -> mk_material rd kw = Ok m -> exists a, build rd a = Ok m.
Proof.
  intros K H. destruct (parse_spec kw K) as [(_ & P)|[(_ & _ & P)|(_ & _ & P)]].
  - unfold mk_material in H. rewrite P in H. discriminate.
  - unfold mk_material in H. rewrite P in H. discriminate.
  - destruct (shapes (arg kw)) as [?|e] eqn:E.
    + destruct P as (i & P & A). rewrite (mk_material_build rd kw i P A) in H. eauto.
    + unfold mk_material in H. rewrite P in H. discriminate.
Qed.
Lemma mk_ext_rv X base ext order d ext' : real_valued base ->
  mk_extrapolation X base ext order = (Ok d, ext') -> real_valued d.
Proof.
  intros R H. destruct (mk_ext_inv _ _ _ _ _ _ H) as (er & mn & mx & b & spl & H1).
  decompose [and] H1. subst. exact R.
Qed.
(** one part of extrapolate *)
Definition ext_step X (d : sdata) (s : spectrum) (order : Z) : res sdata * spectrum :=
  if is_constant d then (Ok d, s) else mk_extrapolation X d s order.
Lemma extrapolate_eq X m s order : extrapolate X m s order =
  match m_complex m with
  | Some _ => (Raise NotImplementedError, m, s)
  | None =>
      match ext_step X (m_real m) s order with
      | (Raise e, s1) => (Raise e, m, s1)
      | (Ok r, s1) =>
          let m1 := mkMat (m_meta m) (m_name m) r (m_imag m) None (m_stype m) (m_unit m) in
          match ext_step X (m_imag m) s1 order with
          | (Raise e, s2) => (Raise e, m1, s2)
          | (Ok i, s2) => (Ok tt, mkMat (m_meta m) (m_name m) r i None (m_stype m) (m_unit m), s2)
          end
      end
  end.
Proof. reflexivity. Qed.
Lemma ext_step_rv X d s order d' s' : real_valued d -> ext_step X d s order = (Ok d', s') -> real_valued d'.
Proof.
  unfold ext_step. intros R. destruct (is_constant d); [intros H; inversion H; subst; exact R|].
  apply mk_ext_rv, R.
Qed.
Lemma extrapolate_fields X m s order r m' s' : extrapolate X m s order = (r, m', s') ->
  m_meta m' = m_meta m /\ m_name m' = m_name m /\ m_complex m' = m_complex m /\ m_stype m' = m_stype m /\ m_unit m' = m_unit m.
Proof.
  rewrite extrapolate_eq. destruct (m_complex m) eqn:C; [intros H; inversion H; subst; auto|].
  destruct (ext_step X (m_real m) s order) as [[a|e] s1]; [|intros H; inversion H; subst; auto].
  cbv zeta. destruct (ext_step X (m_imag m) s1 order) as [[b|e] s2]; intros H; inversion H; subst; auto.
Qed.
Lemma made_good X rd m : made X rd m -> real_valued (m_real m) /\ real_valued (m_imag m).
Proof.
  induction 1 as [kw m K H|m m' Hm IH H|m s order r m' s' Hm IH H].
  - destruct (mk_material_good _ _ _ K H) as (a & B). destruct (build_good _ _ _ B) as (A1 & A2 & _). auto.
  - unfold remove_absorption in H. destruct (constant_default (ORe (Fin 0))) eqn:E; [|discriminate].
    cbn [bind] in H. inversion H; subst. cbn [m_real m_imag]. split; [apply IH|]. exact (mk_const_rv _ _ _ _ _ E).
  - rewrite extrapolate_eq in H. destruct (m_complex m) eqn:C; [inversion H; subst; auto|].
    destruct IH as [I1 I2].
    destruct (ext_step X (m_real m) s order) as [[a|e] s1] eqn:E1; [|inversion H; subst; auto].
    cbv zeta in H. destruct (ext_step X (m_imag m) s1 order) as [[b|e] s2] eqn:E2; inversion H; subst; cbn [m_real m_imag];
      eauto using ext_step_rv.
Qed.

(** ** the reported range *)
Lemma min_iff l mn : l <> [] -> no_nan l -> np_min l = Ok mn ->
  mn <> NaN /\ In mn l /\ forall x, xle mn x = true <-> not_below l x.
Proof.
  intros N F H. destruct (np_min_ok l N) as (m & E & [(-> & y & Hy & Ny)|(A & B & C)]).
  - exfalso. unfold no_nan in F. rewrite Forall_forall in F. specialize (F y Hy). destruct y; try discriminate. congruence.
  - rewrite E in H. injection H as <-. split; [intros ->; specialize (A _ B); discriminate|]. split; [assumption|].
    intros x. split.
    + intros Hx. exists m. auto.
    + intros (a & Ha & Hx). apply xle_trans with a; auto.
Qed.
Lemma max_iff l mx : l <> [] -> no_nan l -> np_max l = Ok mx ->
  mx <> NaN /\ In mx l /\ forall x, xle x mx = true <-> not_above l x.
Proof.
  intros N F H. destruct (np_max_ok l N) as (m & E & [(-> & y & Hy & Ny)|(A & B & C)]).
  - exfalso. unfold no_nan in F. rewrite Forall_forall in F. specialize (F y Hy). destruct y; try discriminate. congruence.
  - rewrite E in H. injection H as <-. split; [intros ->; specialize (A _ B); discriminate|]. split; [assumption|].
    intros x. split.
    + intros Hx. exists m. auto.
    + intros (a & Ha & Hx). apply xle_trans with a; auto.
Qed.
Lemma two_nonan a b : a <> NaN -> b <> NaN -> no_nan [a; b].
Proof. intros. repeat constructor; assumption. Qed.
Lemma metre_spectrum l : mk_spectrum (InVals (VA l)) "wavelength" "m" = Ok (mkSp "wavelength" "m" (VA l) (VA l)).
Proof. reflexivity. Qed.

Lemma max_range m : valid_name m = true -> m_complex m = None ->
  wavelengths_of (m_real m) <> [] -> wavelengths_of (m_imag m) <> [] ->
  no_nan (wavelengths_of (m_real m)) -> no_nan (wavelengths_of (m_imag m)) ->
  exists lo hi, lo <> NaN /\ hi <> NaN /\
    In lo (wavelengths_of (m_real m) ++ wavelengths_of (m_imag m)) /\
    In hi (wavelengths_of (m_real m) ++ wavelengths_of (m_imag m)) /\
    (forall x, xle lo x = true <-> not_below (wavelengths_of (m_real m)) x /\ not_below (wavelengths_of (m_imag m)) x) /\
    (forall x, xle x hi = true <-> not_above (wavelengths_of (m_real m)) x /\ not_above (wavelengths_of (m_imag m)) x) /\
    get_maximum_valid_range m = convert_to (mkSp "wavelength" "m" (VA [lo; hi]) (VA [lo; hi])) (m_stype m) (m_unit m).
Proof.
  unfold wavelengths_of. intros V C Nr Ni Fr Fi. unfold get_maximum_valid_range. rewrite V, C. cbn [negb].
  unfold vmin, vmax.
  destruct (np_min_ok _ Nr) as (rl & Erl & _). destruct (np_max_ok _ Nr) as (ru & Eru & _).
  destruct (np_min_ok _ Ni) as (il & Eil & _). destruct (np_max_ok _ Ni) as (iu & Eiu & _).
  rewrite Erl, Eru, Eil, Eiu. cbn [bind].
  destruct (min_iff _ _ Nr Fr Erl) as (R1 & R2 & R3). destruct (max_iff _ _ Nr Fr Eru) as (R4 & R5 & R6).
  destruct (min_iff _ _ Ni Fi Eil) as (I1 & I2 & I3). destruct (max_iff _ _ Ni Fi Eiu) as (I4 & I5 & I6).
  assert (Nl : [rl; il] <> []) by discriminate. assert (Nu : [ru; iu] <> []) by discriminate.
  destruct (np_max_ok _ Nl) as (lo & El & _). destruct (np_min_ok _ Nu) as (hi & Eh & _).
  rewrite El, Eh. cbn [bind fst snd]. rewrite metre_spectrum. cbn [bind].
  destruct (np_max_ok _ Nl) as (lo' & El' & [(-> & y & Hy & Ny)|(A & B & D)]).
  { exfalso. destruct Hy as [<-|[<-|[]]]; destruct rl, il; try discriminate; congruence. }
  rewrite El in El'. injection El' as <-.
  destruct (np_min_ok _ Nu) as (hi' & Eh' & [(-> & y & Hy & Ny)|(A' & B' & D')]).
  { exfalso. destruct Hy as [<-|[<-|[]]]; destruct ru, iu; try discriminate; congruence. }
  rewrite Eh in Eh'. injection Eh' as <-.
  exists lo, hi.
  split; [destruct B as [<-|[<-|[]]]; assumption|]. split; [destruct B' as [<-|[<-|[]]]; assumption|].
  split; [apply in_or_app; destruct B as [<-|[<-|[]]]; auto|]. split; [apply in_or_app; destruct B' as [<-|[<-|[]]]; auto|].
  split; [|split; [|reflexivity]].
  - intros x. rewrite <- R3, <- I3. split.
    + intros Hx. split; (eapply xle_trans; [|exact Hx]); apply D; cbn; auto.
    + intros [H1 H2]. destruct B as [<-|[<-|[]]]; assumption.
  - intros x. rewrite <- R6, <- I6. split.
    + intros Hx. split; (eapply xle_trans; [exact Hx|]); apply D'; cbn; auto.
    + intros [H1 H2]. destruct B' as [<-|[<-|[]]]; assumption.
Qed.

(** two bounds in metres, converted *)
Lemma bounds_convert t u canon lo hi x0 x1 :
  documented (lower t) u canon -> lower t <> "wavenumber" ->
  wavelength_m (lower t) canon x0 lo -> wavelength_m (lower t) canon x1 hi ->
  0 < x0 -> 0 < x1 -> (reciprocal_type (lower t) -> / 10 ^ 8 < lo /\ / 10 ^ 8 < hi) ->
  convert_to (mkSp "wavelength" "m" (VA [Fin lo; Fin hi]) (VA [Fin lo; Fin hi])) t u
  = Ok (VA [Fin (rnd_for canon x0); Fin (rnd_for canon x1)]).
Proof.
  intros D W W0 W1 P0 P1 Big. set (s := mkSp _ _ _ _).
  pose proof (wavelength_pos _ _ _ _ W0 P0) as L0. pose proof (wavelength_pos _ _ _ _ W1 P1) as L1.
  assert (Nw : String.eqb (lower t) "wavenumber" = false) by (now apply String.eqb_neq).
  destruct (conv_pointwise s t u canon [Fin lo; Fin hi] D eq_refl) as (g & Eg & G).
  { constructor; [|constructor; [|constructor]]; intros Rt; cbv beta iota; rewrite Nw; left; rewrite Rabs_pos_eq by lra; apply Big, Rt. }
  rewrite Eg. cbn [map]. do 3 f_equal; [|f_equal].
  - specialize (G (mkSp "" "" (VS (Fin lo)) (VS (Fin lo))) (Fin lo) (or_introl eq_refl) eq_refl).
    rewrite (convert_to_unfold _ _ _ _ D) in G. cbn [sp_std] in G.
    rewrite (to_scalar _ _ _ _ _ D W W0) in G by (intros; lra). congruence.
  - specialize (G (mkSp "" "" (VS (Fin hi)) (VS (Fin hi))) (Fin hi) (or_intror (or_introl eq_refl)) eq_refl).
    rewrite (convert_to_unfold _ _ _ _ D) in G. cbn [sp_std] in G.
    rewrite (to_scalar _ _ _ _ _ D W W1) in G by (intros; lra). congruence.
Qed.

Lemma bounds_order t canon lo hi x0 x1 : wavelength_m t canon x0 lo -> wavelength_m t canon x1 hi ->
  0 < x0 -> 0 < x1 -> lo <= hi ->
  if String.eqb t "wavelength" then rnd_for canon x0 <= rnd_for canon x1 else rnd_for canon x1 <= rnd_for canon x0.
Proof.
  intros W0 W1 P0 P1 L. pose proof (wavelength_order _ _ _ _ _ _ W1 W0 P1 P0) as O.
  destruct (String.eqb t "wavelength"); apply rnd_for_mono.
  - destruct (Rle_dec x0 x1) as [H|H]; [assumption|]. exfalso. apply Rnot_le_lt in H. apply O in H. lra.
  - destruct (Rle_dec x1 x0) as [H|H]; [assumption|]. exfalso. apply Rnot_le_lt in H. apply O in H. lra.
Qed.

Lemma max_range_complex m d : valid_name m = true -> m_complex m = Some d ->
  get_maximum_valid_range m =
  do lo <- np_min (elems (sp_values (valid_range d))); do hi <- np_max (elems (sp_values (valid_range d)));
  convert_to (mkSp "wavelength" "m" (VA [lo; hi]) (VA [lo; hi])) (m_stype m) (m_unit m).
Proof.
  intros V C. unfold get_maximum_valid_range. rewrite V, C. cbn [negb]. unfold vmin, vmax.
  destruct (np_min _); [|reflexivity]. cbn [bind]. destruct (np_max _); reflexivity.
Qed.

(** ** sample spectra *)
Lemma set_last_app x l y : set_last x (l ++ [y]) = l ++ [x].
Proof.
  induction l as [|a l IH]; [reflexivity|]. cbn [app set_last]. rewrite IH.
  destruct (l ++ [y]) eqn:E; [|reflexivity]. destruct l; discriminate.
Qed.
Lemma last_app {A} (l : list A) y d : last (l ++ [y]) d = y.
Proof. apply last_last. Qed.

Lemma sample_between X m a b lo hi : get_maximum_valid_range m = Ok (VA [Fin a; Fin b]) ->
  0 < a -> 0 < b -> lo = Rmin a b -> hi = Rmax a b ->
  (a <= b /\ geomspace_ok X) \/ geomspace_exact X ->
  forall canon, documented (lower (m_stype m)) (lower (m_unit m)) canon ->
  exists vs s, get_sample_spectrum X m = Ok s /\ sp_type s = lower (m_stype m) /\ sp_unit s = canon /\
    sp_values s = VA (map Fin vs) /\ length vs = 1000%nat /\ Forall (fun x => lo <= x <= hi) vs /\
    mk_spectrum (InVals (VA (map Fin vs))) (m_stype m) (m_unit m) = Ok s.
Proof.
  intros H Pa Pb -> -> G canon D.
  assert (K : exists vs, length vs = 1000%nat /\ Forall (fun x => Rmin a b <= x <= Rmax a b) vs /\
     get_sample_spectrum X m = mk_spectrum (InVals (VA (map Fin vs))) (m_stype m) (m_unit m)).
  { unfold get_sample_spectrum. rewrite H. cbn [bind elems].
    assert (Z : xeqb (Fin a) (Fin 0) || xeqb (Fin b) PInf = false).
    { cbn. rewrite orb_false_r. apply Reqb_false. lra. }
    rewrite Z.
    assert (Q : exists first mid fin, geomspace X (Fin a) (Fin b) 1000 = Ok (map Fin (first :: mid ++ [fin])) /\
       length mid = 998%nat /\ Forall (fun x => Rmin a b <= x <= Rmax a b) mid /\
       ((a <= b /\ first <= b /\ a <= fin) \/ (first = a /\ fin = b))).
    { destruct G as [[L G]|G].
      - destruct (G a b Pa L) as (f & md & fi & E & Len & Fm & F1 & F2).
        exists f, md, fi. rewrite Rmin_left, Rmax_right by assumption. auto 8.
      - destruct (G a b Pa Pb) as (md & E & Len & Fm). exists a, md, b. auto 8. }
    destruct Q as (f & md & fi & E & Len & Fm & F). rewrite E. cbn [bind map hd].
    set (f' := if xlt (Fin f) (Fin a) then a else f).
    set (fi' := if xgt (Fin fi) (Fin b) then b else fi).
    exists (f' :: md ++ [fi']). split; [cbn; rewrite app_length, Len; reflexivity|].
    assert (Bf : Rmin a b <= f' <= Rmax a b).
    { unfold f'. cbn [xlt]. pose proof (Rmin_l a b). pose proof (Rmin_r a b). pose proof (Rmax_l a b). pose proof (Rmax_r a b).
      destruct (Rltb f a) eqn:El; [lra|]. apply Rltb_false in El. destruct F as [(F1 & F2 & F3)|[-> ->]]; lra. }
    assert (Bl : Rmin a b <= fi' <= Rmax a b).
    { unfold fi', xgt. cbn [xlt]. pose proof (Rmin_l a b). pose proof (Rmin_r a b). pose proof (Rmax_l a b). pose proof (Rmax_r a b).
      destruct (Rltb b fi) eqn:El; [lra|]. apply Rltb_false in El. destruct F as [(F1 & F2 & F3)|[-> ->]]; lra. }
    split.
    - constructor; [exact Bf|]. apply Forall_app. split; [assumption|]. constructor; [exact Bl|constructor].
    - f_equal. f_equal. f_equal.
      replace (if xlt (Fin f) (Fin a) then set_first (Fin a) (Fin f :: map Fin (md ++ [fi])) else Fin f :: map Fin (md ++ [fi]))
        with (Fin f' :: map Fin md ++ [Fin fi]) by (unfold f'; rewrite map_app; destruct (xlt (Fin f) (Fin a)); reflexivity).
      change (Fin f' :: map Fin md ++ [Fin fi]) with ((Fin f' :: map Fin md) ++ [Fin fi]).
      rewrite last_app, set_last_app. cbn [map]. rewrite map_app. unfold fi'. destruct (xgt (Fin fi) (Fin b)); reflexivity. }
  destruct K as (vs & Len & F & E).
  destruct (std_form _ _ _ D) as (g & _ & Gl & _).
  rewrite (mk_spectrum_unfold _ _ _ _ D), Gl in E. cbn [bind] in E.
  exists vs. eexists. split; [exact E|]. cbn [sp_type sp_unit sp_values]. split; [reflexivity|]. split; [reflexivity|].
  split; [reflexivity|]. split; [assumption|]. split; [assumption|].
  rewrite (mk_spectrum_unfold _ _ _ _ D), Gl. reflexivity.
Qed.

Lemma sample_fallback X m r0 r1 : get_maximum_valid_range m = Ok (VA [r0; r1]) -> r0 = Fin 0 \/ r1 = PInf ->
  get_sample_spectrum X m = do v <- geomspace X (Fin 100) (Fin 2000) 1000; mk_spectrum (InVals (VA v)) "wavelength" "nm".
Proof.
  intros H C. unfold get_sample_spectrum. rewrite H. cbn [bind elems].
  assert (Z : xeqb r0 (Fin 0) || xeqb r1 PInf = true).
  { destruct C as [-> | ->]; [|apply orb_true_r]. cbn. rewrite (proj2 (Reqb_true 0 0) eq_refl). reflexivity. }
  now rewrite Z.
Qed.
Lemma sample_zero X m x : geomspace_zero X -> get_maximum_valid_range m = Ok (VA [x; Fin 0]) -> x <> Fin 0 ->
  get_sample_spectrum X m = Raise ValueError.
Proof.
  intros G H N. unfold get_sample_spectrum. rewrite H. cbn [bind elems].
  assert (Z : xeqb x (Fin 0) || xeqb (Fin 0) PInf = false).
  { cbn. rewrite orb_false_r. destruct x as [r| | |]; cbn; auto. apply Reqb_false. congruence. }
  rewrite Z. destruct (G x 1000%nat) as [_ E]. rewrite E. reflexivity.
Qed.
