(** Theorems about effective media (C48-C51). *)
From Verif Require Import PyBase PyStr XReal CNum SpectrumModel SpectrumSpec SpectrumProofs SpectralModel SpectralSpec SpectralProofs InterpProofs EvalProofs TextModel MaterialModel MaterialSpec MaterialProofs MatEvalProofs ExtrapProofs MaterialThms EffectiveModel EffectiveSpec MixProofs EffectiveProofs.
From Verif Require Import MatFileProofs.
From Coq Require Import Lra.
Open Scope R_scope.
Open Scope string_scope.
Open Scope list_scope.


Lemma sampled_lengths X s m1 m2 lams e1 e2 : sampled X s m1 m2 lams e1 e2 -> length e1 = length lams /\ length e2 = length lams.
Proof.
  intros [Ob W Ne N P1 P2]. pose proof (object_regular _ Ob) as Rg.
  split; eapply eps_length; eassumption.
Qed.
Lemma pointwise_exists {A B C} (P : A -> B -> C -> Prop) l m : length l = length m ->
  (forall a b, In (a, b) (combine l m) -> exists c, P a b c) -> exists n, pointwise3 P l m n.
Proof.
  revert m. induction l as [|a l IH]; intros [|b m] L H; try discriminate; [exists []; constructor|].
  destruct (H a b (or_introl eq_refl)) as (c & Hc). destruct (IH m) as (n & Hn); [cbn in L; congruence| |].
  { intros x y I. apply H. now right. }
  exists (c :: n). now constructor.
Qed.
Lemma pw_and {A B C} (P Q : A -> B -> C -> Prop) l m n : pointwise3 P l m n -> pointwise3 Q l m n -> pointwise3 (fun a b c => P a b c /\ Q a b c) l m n.
Proof. intros H1. induction H1; intros H2; inversion H2; subst; constructor; auto. Qed.
Lemma pw_in {A B C} (P : A -> B -> C -> Prop) (Q : A -> B -> Prop) l m n : (forall a b, In (a, b) (combine l m) -> Q a b) ->
  pointwise3 P l m n -> pointwise3 (fun a b c => Q a b /\ P a b c) l m n.
Proof.
  intros H P3. induction P3; constructor.
  - split; [apply H; now left|assumption].
  - apply IHP3. intros x y I. apply H. now right.
Qed.
Lemma mixing_exists k f e1 e2 : k <> EffectiveMedium -> length e1 = length e2 -> (k = MaxwellGarnett -> off_pole f e1 e2) ->
  exists es, pointwise3 (mixing k f) e1 e2 es.
Proof.
  intros Nk L Np. apply pointwise_exists; [exact L|]. intros z w I. destruct k; cbn [mixing].
  - congruence.
  - rewrite simple_mix_fin. eauto.
  - specialize (Np eq_refl z w I). destruct (mg_mix_fin f z w Np) as (e & H & _). eauto.
  - destruct (br_mix_fin f z w) as (e & H & _). eauto.
Qed.
Lemma mixing_rule k f z w e : mixing k f z w e -> rule_of k f z w e.
Proof.
  destruct k; cbn [mixing rule_of]; intros H.
  - exact H.
  - rewrite simple_mix_fin in H. injection H as <-. reflexivity.
  - destruct H as [N H]. destruct (mg_mix_fin f z w N) as (e' & H' & K). rewrite H in H'. injection H' as <-.
    now apply mg_rule_iff.
  - destruct (br_mix_fin f z w) as (e' & H' & K). rewrite H in H'. injection H' as <-. exact K.
Qed.

(** material for the examples: two fixed permittivities sampled at 2 and 1 micrometres *)
Lemma fixed_sampled X rd z w : exists m1 m2 s,
  mk_material rd [("fixed_eps", PComplex (CF z))] = Ok m1 /\ mk_material rd [("fixed_eps", PComplex (CF w))] = Ok m2 /\
  mk_spectrum (InVals (VA [Fin 2; Fin 1])) "wavelength" "um" = Ok s /\ ~ is_scalar s /\
  sampled X s m1 m2 [/ 10 ^ 6 * 2; / 10 ^ 6 * 1] [z; z] [w; w].
Proof.
  destruct (C27_fixed_eps_l X rd [("fixed_eps", PComplex (CF z))] "fixed_eps" (PComplex (CF z)) z "wavelength" "nanometer") as (m1 & E1 & H1); [a_call|right; auto|].
  destruct (C27_fixed_eps_l X rd [("fixed_eps", PComplex (CF w))] "fixed_eps" (PComplex (CF w)) w "wavelength" "nanometer") as (m2 & E2 & H2); [a_call|right; auto|].
  assert (Nn : nonneg_floats (VA [Fin 2; Fin 1])).
  { split; [repeat constructor; cbn; lra|]. split; [discriminate|]. intros l K; discriminate K. }
  specialize (H1 _ "wavelength" "um" "um" documented_um Nn). specialize (H2 _ "wavelength" "um" "um" documented_um Nn).
  assert (Es : exists s, mk_spectrum (InVals (VA [Fin 2; Fin 1])) "wavelength" "um" = Ok s /\ sp_std s = VA [Fin (/ 10 ^ 6 * 2); Fin (/ 10 ^ 6 * 1)])
    by (eexists; split; reflexivity).
  destruct Es as (s & Es & St). exists m1, m2, s. do 3 (split; [assumption|]).
  split. { unfold is_scalar. rewrite St. intros (x & K); discriminate K. }
  unfold get_permittivity in H1, H2. rewrite Es in H1, H2. cbn [bind] in H1, H2.
  assert (P : forall m v, fst (get_permittivity_obj X m s) = Ok (everywhere v (VA [Fin 2; Fin 1])) -> permittivities X m s [v; v]).
  { intros m v K. destruct (get_permittivity_obj X m s) as [o s'] eqn:E. cbn [fst] in K. subst o. exists (everywhere v (VA [Fin 2; Fin 1])), s'. auto. }
  split; try (apply P; assumption).
  - econstructor. exact Es.
  - unfold wavelengths. now rewrite St.
  - discriminate.
  - constructor; [|constructor; [intros []|constructor]]. intros [K|[]]. lra.
Qed.
(** the same, at the single wavelength of 1 micrometre *)
Lemma fixed_scalar X rd z w : exists m1 m2 s,
  mk_material rd [("fixed_eps", PComplex (CF z))] = Ok m1 /\ mk_material rd [("fixed_eps", PComplex (CF w))] = Ok m2 /\
  mk_spectrum (InVals (VS (Fin 1))) "wavelength" "um" = Ok s /\ is_scalar s /\ sampled X s m1 m2 [/ 10 ^ 6 * 1] [z] [w].
Proof.
  destruct (C27_fixed_eps_l X rd [("fixed_eps", PComplex (CF z))] "fixed_eps" (PComplex (CF z)) z "wavelength" "nanometer") as (m1 & E1 & H1); [a_call|right; auto|].
  destruct (C27_fixed_eps_l X rd [("fixed_eps", PComplex (CF w))] "fixed_eps" (PComplex (CF w)) w "wavelength" "nanometer") as (m2 & E2 & H2); [a_call|right; auto|].
  assert (Nn : nonneg_floats (VS (Fin 1))).
  { split; [repeat constructor; cbn; lra|]. split; [discriminate|]. intros l K; discriminate K. }
  specialize (H1 _ "wavelength" "um" "um" documented_um Nn). specialize (H2 _ "wavelength" "um" "um" documented_um Nn).
  assert (Es : exists s, mk_spectrum (InVals (VS (Fin 1))) "wavelength" "um" = Ok s /\ sp_std s = VS (Fin (/ 10 ^ 6 * 1)))
    by (eexists; split; reflexivity).
  destruct Es as (s & Es & St). exists m1, m2, s. do 3 (split; [assumption|]).
  split. { eexists. exact St. }
  unfold get_permittivity in H1, H2. rewrite Es in H1, H2. cbn [bind] in H1, H2.
  assert (P : forall m v, fst (get_permittivity_obj X m s) = Ok (everywhere v (VS (Fin 1))) -> permittivities X m s [v]).
  { intros m v K. destruct (get_permittivity_obj X m s) as [o s'] eqn:E. cbn [fst] in K. subst o. exists (everywhere v (VS (Fin 1))), s'. auto. }
  split; try (apply P; assumption).
  - econstructor. exact Es.
  - unfold wavelengths. now rewrite St.
  - discriminate.
  - constructor; [intros []|constructor].
Qed.
Lemma array_shape py s m1 : ~ is_scalar s -> shape_known py s m1.
Proof. intros N Sc. contradiction. Qed.
Lemma off_pole_ex : off_pole (1 / 2) [RtoC 2; RtoC 2] [(-1, 3); (-1, 3)].
Proof.
  intros z w I K. cbn in I. destruct I as [I|[I|[]]]; injection I as <- <-; apply C_components in K; cbn in K; lra.
Qed.

Lemma C51_tabulates_l : forall X py k s m1 m2 lams e1 e2 f,
  k <> EffectiveMedium -> sampled X s m1 m2 lams e1 e2 -> 0 <= f <= 1 ->
  (k = MaxwellGarnett -> off_pole f e1 e2) -> (k = Bruggeman -> shape_known py s m1) ->
  exists es m s', effective X py k s m1 m2 (Fin f) = (Ok m, s') /\
    pointwise3 (rule_of k f) e1 e2 es /\ answers X m lams es /\
    sp_type s' = "wavelength" /\ sp_unit s' = "m" /\ sp_values s' = sp_std s /\ sp_std s' = sp_std s.
Proof.
  intros X py k s m1 m2 lams e1 e2 f Nk S F Np Sc. destruct (sampled_lengths _ _ _ _ _ _ _ S) as [L1 L2].
  destruct (mixing_exists k f e1 e2 Nk) as (es & P); [congruence|assumption|].
  destruct (effective_ok X py k s m1 m2 f lams e1 e2 es S F (shape_known_ok py k s m1 Sc) P) as (m & E & A & _).
  exists es, m. eexists. split; [exact E|]. split; [revert P; apply pw_impl; apply mixing_rule|]. cbn. auto 6.
Qed.

Lemma C51_between_samples_l : forall X py k s m1 m2 lams e1 e2 f,
  k <> EffectiveMedium -> sampled X s m1 m2 lams e1 e2 -> 0 <= f <= 1 ->
  (k = MaxwellGarnett -> off_pole f e1 e2) -> (k = Bruggeman -> shape_known py s m1) ->
  exists es m s', effective X py k s m1 m2 (Fin f) = (Ok m, s') /\ pointwise3 (rule_of k f) e1 e2 es /\
    ((2 <= length lams)%nat -> answers_between X m lams (map CF es)) /\ refuses_outside X m lams.
Proof.
  intros X py k s m1 m2 lams e1 e2 f Nk S F Np Sc. destruct (sampled_lengths _ _ _ _ _ _ _ S) as [L1 L2].
  destruct (mixing_exists k f e1 e2 Nk) as (es & P); [congruence|assumption|].
  destruct (effective_ok X py k s m1 m2 f lams e1 e2 es S F (shape_known_ok py k s m1 Sc) P) as (m & E & A & Le & _ & _ & _ & _ & _ & Ro & Mx).
  exists es, m. eexists. split; [exact E|]. split; [revert P; apply pw_impl; apply mixing_rule|]. split; [|exact Ro].
  intros Ll. pose proof S as [Ob W Ne N P1 P2]. pose proof (object_regular _ Ob) as Rg.
  destruct (effective_step X py k s m1 m2 (Fin f) e1 e2 Rg Nk) as (s2 & _ & _ & E'); [now apply fraction_ok|assumption|assumption|].
  assert (Cv : cvals es = map OCx (map CF es)) by (unfold cvals; now rewrite map_map).
  rewrite Mx, Cv in E'.
  destruct (gen_material X s lams (map CF es) W) as (m' & Em & B); [now rewrite map_length|exact Ll|exact N|].
  rewrite Em in E'. rewrite E in E'. injection E' as ->. exact B.
Qed.

Lemma rules_mix X py k s m1 m2 lams e1 e2 f : k <> EffectiveMedium -> sampled X s m1 m2 lams e1 e2 -> 0 <= f <= 1 ->
  (k = MaxwellGarnett -> off_pole f e1 e2) -> (k = Bruggeman -> shape_known py s m1) ->
  exists es, mixes_to X py k s m1 m2 f lams es /\ pointwise3 (rule_of k f) e1 e2 es.
Proof.
  intros Nk S F Np Sc. destruct (C51_tabulates_l X py k s m1 m2 lams e1 e2 f Nk S F Np Sc) as (es & m & s' & E & P & A & _).
  exists es. split; [exists m, s'; auto|exact P].
Qed.
Lemma answers_ext X m lams es es' : es = es' -> answers X m lams es -> answers X m lams es'.
Proof. now intros ->. Qed.
Lemma mixes_eq X py k s m1 m2 f lams es es' : es = es' -> mixes_to X py k s m1 m2 f lams es -> mixes_to X py k s m1 m2 f lams es'.
Proof. now intros ->. Qed.
Lemma pw_first {A B} (P : A -> B -> A -> Prop) l m n : (forall a b c, P a b c -> c = a) -> pointwise3 P l m n -> n = l.
Proof. intros H. induction 1; [reflexivity|]. f_equal; eauto. Qed.
Lemma pw_second {A B} (P : A -> B -> B -> Prop) l m n : (forall a b c, P a b c -> c = b) -> pointwise3 P l m n -> n = m.
Proof. intros H. induction 1; [reflexivity|]. f_equal; eauto. Qed.

Lemma C48_fraction_rejected_l : forall X py k s m1 m2 f,
  f = PInf \/ f = NInf \/ (exists r, f = Fin r /\ (r < 0 \/ 1 < r)) ->
  effective X py k s m1 m2 f = (Raise ValueError, s).
Proof.
  intros X py k s m1 m2 f H. unfold effective.
  assert (E : xlt f (Fin 0) || xgt f (Fin 1) = true).
  { destruct H as [->|[->|(r & -> & [H|H])]]; [reflexivity|reflexivity| |]; unfold xgt; cbn [xlt].
    - now rewrite (proj2 (Rltb_true r 0)) by lra.
    - rewrite (proj2 (Rltb_true 1 r)) by lra. apply orb_true_r. }
  now rewrite E.
Qed.

Lemma C48_linear_l : forall X py s m1 m2 lams e1 e2 f, sampled X s m1 m2 lams e1 e2 -> 0 <= f <= 1 ->
  exists es, mixes_to X py Simple s m1 m2 f lams es /\ pointwise3 (linear_rule f) e1 e2 es.
Proof.
  intros X py s m1 m2 lams e1 e2 f S F. apply (rules_mix X py Simple s m1 m2 lams e1 e2 f); try assumption; discriminate.
Qed.

Lemma C48_pure_l : forall X py s m1 m2 lams e1 e2, sampled X s m1 m2 lams e1 e2 ->
  mixes_to X py Simple s m1 m2 0 lams e1 /\ mixes_to X py Simple s m1 m2 1 lams e2.
Proof.
  intros X py s m1 m2 lams e1 e2 S.
  destruct (C48_linear_l X py s m1 m2 lams e1 e2 0 S) as (es & M & P); [lra|].
  destruct (C48_linear_l X py s m1 m2 lams e1 e2 1 S) as (es' & M' & P'); [lra|]. split.
  - revert M. apply mixes_eq. eapply pw_first; [|exact P]. intros a b c ->. cring.
  - revert M'. apply mixes_eq. eapply pw_second; [|exact P']. intros a b c ->. cring.
Qed.

Lemma C48_nan_fraction_refuted_l : forall X py k s m1 m2 lams e1 e2,
  sampled X s m1 m2 lams e1 e2 -> (2 <= length lams)%nat ->
  k = Simple \/ k = MaxwellGarnett ->
  exists m s', effective X py k s m1 m2 NaN = (Ok m, s') /\ answers_nan X m lams.
Proof.
  intros X py k s m1 m2 lams e1 e2 S L2 K. destruct (sampled_lengths _ _ _ _ _ _ _ S) as [L1 L1'].
  destruct S as [Ob W Ne N P1 P2]. pose proof (object_regular _ Ob) as Rg.
  destruct (effective_step X py k s m1 m2 NaN e1 e2 Rg) as (s2 & _ & _ & E); [destruct K; subst; discriminate|reflexivity|assumption|assumption|].
  assert (Le : length e1 = length e2) by congruence.
  assert (Ls : length e1 = length (elems (sp_std s))) by (unfold wavelengths in W; rewrite W, map_length; congruence).
  assert (Mx : exists g, (forall z w, g (CF z) (CF w) = CNan) /\
     mix (no_shape py m1) k NaN (in_shape s (cvals e1)) (in_shape s (cvals e2)) = Ok (in_shape s (map OCx (zip_with (fun z w => g (CF z) (CF w)) e1 e2)))).
  { destruct K as [->| ->]; cbn [mix].
    - exists (simple_mix NaN). split; [reflexivity|]. now apply obin_gen.
    - exists (mg_mix NaN). split; [reflexivity|]. rewrite (obin_gen s _ e1 e2 Le Ls). cbn [bind].
      assert (Sg : mg_singular (in_shape s (map OCx (zip_with (fun z w => mg_down NaN (CF z) (CF w)) e1 e2))) = false).
      { unfold mg_singular. change (match in_shape s ?l with OS x => [x] | OA l => l end) with (out_elems (in_shape s l)). rewrite out_in_shape.
        destruct e1 as [|z e1]; [destruct lams; [congruence|discriminate]|]. destruct e2; [discriminate|]. reflexivity. }
      rewrite Sg. now apply obin_gen. }
  destruct Mx as (g & G & Mx). rewrite Mx in E.
  destruct (gen_material X s lams (zip_with (fun z w => g (CF z) (CF w)) e1 e2) W) as (m & Em & A).
  - rewrite zip_length by exact Le. congruence.
  - exact L2.
  - exact N.
  - rewrite Em in E. exists m. eexists. split; [exact E|]. apply between_nan with (2 := A).
    intros e Ie. apply In_zip in Ie. destruct Ie as (z & w & _ & ->). apply G.
Qed.

Lemma C48_nan_fraction_bruggeman_refuted_l : forall X py s m1 m2 lams e1 e2,
  sampled X s m1 m2 lams e1 e2 -> shape_known py s m1 ->
  exists m s', effective X py Bruggeman s m1 m2 NaN = (Ok m, s') /\ answers X m lams (map (fun _ => RtoC 0) lams).
Proof.
  intros X py s m1 m2 lams e1 e2 S Sc. destruct (sampled_lengths _ _ _ _ _ _ _ S) as [L1 L1'].
  destruct S as [Ob W Ne N P1 P2]. pose proof (object_regular _ Ob) as Rg.
  destruct (effective_step X py Bruggeman s m1 m2 NaN e1 e2 Rg) as (s2 & _ & _ & E); [discriminate|reflexivity|assumption|assumption|].
  assert (Le : length e1 = length e2) by congruence.
  assert (Ls : length e1 = length (elems (sp_std s))) by (unfold wavelengths in W; rewrite W, map_length; congruence).
  assert (Mx : mix (no_shape py m1) Bruggeman NaN (in_shape s (cvals e1)) (in_shape s (cvals e2)) = Ok (in_shape s (cvals (map (fun _ => RtoC 0) lams)))).
  { rewrite bruggeman_no_plain by (intros Q; apply (shape_known_ok py Bruggeman s m1); auto). apply obin_shape_vals; [|assumption].
    clear - L1 L1'. revert e2 lams L1 L1'. induction e1 as [|z e1 IH]; intros [|w e2] [|l lams] L1 L1'; try discriminate; [constructor|].
    cbn. constructor; [reflexivity|]. apply IH; cbn in *; congruence. }
  rewrite Mx in E.
  assert (Ll : length lams = length (map (fun _ : R => RtoC 0) lams)) by now rewrite map_length.
  rewrite (eff_table_gen s lams _ W) in E by (unfold cvals; rewrite !map_length; reflexivity). cbn [bind] in E.
  set (es := map (fun _ : R => RtoC 0) lams) in *.
  rewrite (zip_rows lams es Ll) in E.
  destruct (table_material lams es N Ne Ll) as (a & b & Ha & Hb & T). rewrite T in E.
  cbn [bind p_real p_imag p_name p_complex p_stype p_unit] in E.
  eexists. eexists. split; [exact E|]. now apply material_answers.
Qed.

Lemma C48_base_class_l : forall X py s m1 m2 f, 0 <= f <= 1 ->
  effective X py EffectiveMedium s m1 m2 (Fin f) = (Raise NotImplementedError, s).
Proof. intros X py s m1 m2 f F. unfold effective. now rewrite fraction_ok. Qed.

Lemma C49_rule_l : forall X py s m1 m2 lams e1 e2 f, sampled X s m1 m2 lams e1 e2 -> 0 <= f <= 1 -> off_pole f e1 e2 ->
  exists es, mixes_to X py MaxwellGarnett s m1 m2 f lams es /\
    pointwise3 (fun z w e => maxwell_garnett_rule f z w e /\ forall e', maxwell_garnett_rule f z w e' -> e' = e) e1 e2 es.
Proof.
  intros X py s m1 m2 lams e1 e2 f S F Np.
  destruct (rules_mix X py MaxwellGarnett s m1 m2 lams e1 e2 f) as (es & M & P); try assumption; try discriminate; [auto|].
  exists es. split; [exact M|]. pose proof (pw_in _ _ _ _ _ Np P) as Q. revert Q. apply pw_impl.
  intros z w e [N R0]. split; [exact R0|]. intros e' R'. now apply (mg_rule_unique f z w).
Qed.

Lemma C49_pure_l : forall X py s m1 m2 lams e1 e2, sampled X s m1 m2 lams e1 e2 ->
  (off_pole 0 e1 e2 -> mixes_to X py MaxwellGarnett s m1 m2 0 lams e1) /\
  (off_pole 1 e1 e2 -> mixes_to X py MaxwellGarnett s m1 m2 1 lams e2).
Proof.
  intros X py s m1 m2 lams e1 e2 S. split; intros Np.
  - destruct (C49_rule_l X py s m1 m2 lams e1 e2 0 S ltac:(lra) Np) as (es & M & P).
    revert M. apply mixes_eq. eapply pw_first; [|exact P]. intros a b c [_ U]. symmetry. apply U, mg_rule_0.
  - destruct (C49_rule_l X py s m1 m2 lams e1 e2 1 S ltac:(lra) Np) as (es & M & P).
    revert M. apply mixes_eq. eapply pw_second; [|exact P]. intros a b c [_ U]. symmetry. apply U, mg_rule_1.
Qed.

Lemma C49_between_l : forall X py s m1 m2 lams e1 e2 f, sampled X s m1 m2 lams e1 e2 -> 0 <= f <= 1 ->
  Forall positive_real e1 -> Forall positive_real e2 ->
  exists es, mixes_to X py MaxwellGarnett s m1 m2 f lams es /\
    pointwise3 (fun z w e => maxwell_garnett_rule f z w e /\ snd e = 0 /\ between (fst z) (fst w) (fst e)) e1 e2 es.
Proof.
  intros X py s m1 m2 lams e1 e2 f S F Pz Pw. rewrite Forall_forall in Pz, Pw.
  assert (Np : forall z w, In (z, w) (combine e1 e2) -> (positive_real z /\ positive_real w) /\ ~ mg_pole f z w).
  { intros z w I. pose proof (Pz z (in_combine_l _ _ _ _ I)) as A. pose proof (Pw w (in_combine_r _ _ _ _ I)) as B.
    split; [auto|]. rewrite (positive_real_eq z A), (positive_real_eq w B). apply mg_pole_real; [assumption|apply A|apply B]. }
  destruct (C49_rule_l X py s m1 m2 lams e1 e2 f S F) as (es & M & P); [intros z w I; apply (Np z w I)|].
  exists es. split; [exact M|]. assert (Np' : forall z w, In (z, w) (combine e1 e2) -> positive_real z /\ positive_real w) by (intros; now apply Np).
  pose proof (pw_in _ _ _ _ _ Np' P) as Q. revert Q. apply pw_impl.
  intros z w e [[A B] [R0 U]]. destruct (mg_real f (fst z) (fst w) F (proj1 A) (proj1 B)) as (x & Rx & Bx).
  rewrite <- (positive_real_eq z A), <- (positive_real_eq w B) in Rx. apply U in Rx. subst e. cbn [fst snd RtoC]. auto.
Qed.

Lemma C49_passive_l : forall X py s m1 m2 lams e1 e2 f, sampled X s m1 m2 lams e1 e2 -> 0 <= f <= 1 -> off_pole f e1 e2 ->
  Forall passive e1 -> Forall passive e2 ->
  exists es, mixes_to X py MaxwellGarnett s m1 m2 f lams es /\
    pointwise3 (fun z w e => maxwell_garnett_rule f z w e /\ passive e) e1 e2 es.
Proof.
  intros X py s m1 m2 lams e1 e2 f S F Np Pz Pw. rewrite Forall_forall in Pz, Pw.
  destruct (C49_rule_l X py s m1 m2 lams e1 e2 f S F Np) as (es & M & P). exists es. split; [exact M|].
  assert (K : forall z w, In (z, w) (combine e1 e2) -> (passive z /\ passive w) /\ ~ mg_pole f z w).
  { intros z w I. split; [split; [apply Pz; eapply in_combine_l; eassumption|apply Pw; eapply in_combine_r; eassumption]|now apply Np]. }
  pose proof (pw_in _ _ _ _ _ K P) as Q. revert Q. apply pw_impl. intros z w e [[[A B] N] [R0 _]]. split; [exact R0|].
  exact (mg_passive f z w e F A B N R0).
Qed.

Lemma C49_error_iff_l : forall X py s m1 m2 lams e1 e2 f, sampled X s m1 m2 lams e1 e2 -> 0 <= f <= 1 ->
  ((forall z w, In (z, w) (combine e1 e2) -> mg_pole f z w) ->
     exists s', effective X py MaxwellGarnett s m1 m2 (Fin f) = (Raise ValueError, s') /\ sp_std s' = sp_std s) /\
  ((exists z w, In (z, w) (combine e1 e2) /\ ~ mg_pole f z w) ->
     exists m s', effective X py MaxwellGarnett s m1 m2 (Fin f) = (Ok m, s')).
Proof.
  intros X py s m1 m2 lams e1 e2 f S F. destruct (sampled_lengths _ _ _ _ _ _ _ S) as [L1 L1'].
  assert (Le : length e1 = length e2) by congruence.
  pose proof S as [Ob W Ne N P1 P2]. pose proof (object_regular _ Ob) as Rg.
  assert (Ls : length e1 = length (elems (sp_std s))) by (unfold wavelengths in W; rewrite W, map_length; congruence).
  destruct (effective_step X py MaxwellGarnett s m1 m2 (Fin f) e1 e2 Rg) as (s2 & Sd & _ & E); [discriminate|now apply fraction_ok|assumption|assumption|].
  cbn [mix] in E. rewrite (obin_gen s _ e1 e2 Le Ls) in E. cbn [bind] in E.
  destruct (mg_singular (in_shape s (map OCx (zip_with (fun z w => mg_down (Fin f) (CF z) (CF w)) e1 e2)))) eqn:Sg.
  - split; [intros _; exists s2; auto|]. intros (z & w & I & Np). exfalso. apply Np.
    apply (singular_iff s f e1 e2 Le); assumption.
  - split.
    { intros H. apply (singular_iff s f e1 e2 Le) in H. congruence. }
    intros _.
    destruct (existsb (fun c => match c with CNan => true | _ => false end) (zip_with (fun z w => mg_mix (Fin f) (CF z) (CF w)) e1 e2)) eqn:Ex.
    + apply existsb_exists in Ex. destruct Ex as (c & Ic & Hc). destruct c; [discriminate|].
      destruct (Nat.le_gt_cases 2 (length lams)) as [L2|L2].
      * rewrite (obin_gen s _ e1 e2 Le Ls) in E.
        destruct (gen_material X s lams _ W (eq_trans (eq_sym L1) (eq_sym (zip_length (fun z w => mg_mix (Fin f) (CF z) (CF w)) e1 e2 Le))) L2 N) as (m & Em & _).
        rewrite Em in E. eauto.
      * exfalso. destruct e1 as [|z [|]]; cbn in L1; try lia. { destruct lams; [congruence|discriminate]. }
        destruct e2 as [|w [|]]; try discriminate. cbn [zip_with] in *.
        destruct Ic as [Ic|[]]. assert (Np : ~ mg_pole f z w).
        { intros K. assert (T : mg_singular (in_shape s (map OCx [mg_down (Fin f) (CF z) (CF w)])) = true); [|congruence].
          apply (singular_iff s f [z] [w] eq_refl). intros a b [I|[]]. now injection I as <- <-. }
        destruct (mg_mix_fin f z w Np) as (e & He & _). congruence.
    + destruct (rules_mix X py MaxwellGarnett s m1 m2 lams e1 e2 f) as (es & (m & s' & Em & _) & _); try assumption; try discriminate; [|eauto].
      intros _ z w I K. apply mg_mix_pole in K.
      assert (T : existsb (fun c => match c with CNan => true | _ => false end) (zip_with (fun z w => mg_mix (Fin f) (CF z) (CF w)) e1 e2) = true); [|congruence].
      apply existsb_exists. exists CNan. split; [|reflexivity]. apply In_zip. eauto.
Qed.

Lemma C49_pole_unnoticed_refuted_l : forall X py s m1 m2 lams e1 e2 f, sampled X s m1 m2 lams e1 e2 -> 0 <= f <= 1 ->
  (exists z w, In (z, w) (combine e1 e2) /\ mg_pole f z w) ->
  (exists z w, In (z, w) (combine e1 e2) /\ ~ mg_pole f z w) ->
  exists m s' es, effective X py MaxwellGarnett s m1 m2 (Fin f) = (Ok m, s') /\ answers_between X m lams es /\
    pointwise3 (fun z w e => mg_pole f z w /\ e = CNan \/
                             ~ mg_pole f z w /\ exists c, e = CF c /\ maxwell_garnett_rule f z w c) e1 e2 es.
Proof.
  intros X py s m1 m2 lams e1 e2 f S F (z & w & I & K) (z' & w' & I' & K'). destruct (sampled_lengths _ _ _ _ _ _ _ S) as [L1 L1'].
  assert (Le : length e1 = length e2) by congruence.
  pose proof S as [Ob W Ne N P1 P2]. pose proof (object_regular _ Ob) as Rg.
  assert (Ls : length e1 = length (elems (sp_std s))) by (unfold wavelengths in W; rewrite W, map_length; congruence).
  assert (L2 : (2 <= length lams)%nat).
  { destruct e1 as [|a [|a2 e1]]; [destruct I| |cbn in L1; lia]. destruct e2 as [|b [|]]; try discriminate.
    destruct I as [I|[]], I' as [I'|[]]. exfalso. apply K'. injection I' as <- <-. now injection I as <- <-. }
  destruct (effective_step X py MaxwellGarnett s m1 m2 (Fin f) e1 e2 Rg) as (s2 & Sd & _ & E); [discriminate|now apply fraction_ok|assumption|assumption|].
  cbn [mix] in E. rewrite (obin_gen s _ e1 e2 Le Ls) in E. cbn [bind] in E.
  destruct (mg_singular (in_shape s (map OCx (zip_with (fun z w => mg_down (Fin f) (CF z) (CF w)) e1 e2)))) eqn:Sg.
  { exfalso. apply K'. apply (proj1 (singular_iff s f e1 e2 Le) Sg _ _ I'). }
  rewrite (obin_gen s _ e1 e2 Le Ls) in E.
  destruct (gen_material X s lams _ W (eq_trans (eq_sym L1) (eq_sym (zip_length (fun z w => mg_mix (Fin f) (CF z) (CF w)) e1 e2 Le))) L2 N) as (m & Em & A).
  rewrite Em in E. do 3 eexists. split; [exact E|]. split; [exact A|].
  clear - Le. revert e2 Le. induction e1 as [|a e1 IH]; intros [|b e2] Le; try discriminate; [constructor|]. cbn [zip_with].
  constructor; [|apply IH; cbn in Le; congruence].
  destruct (Ceqb0 ((2 + f) * a + (1 - f) * b)%C) eqn:Ez.
  - left. apply Ceqb0_true in Ez. split; [exact Ez|]. now apply mg_mix_pole.
  - right. assert (Np : ~ mg_pole f a b) by (intros Q; unfold mg_pole in Q; apply Ceqb0_true in Q; congruence).
    split; [exact Np|]. destruct (mg_mix_fin f a b Np) as (c & -> & Hr). exists c. split; [reflexivity|]. apply mg_rule_iff. exact Hr.
Qed.

Lemma C49_near_singular_refuted_l : forall X py s m1 m2 lams e1 e2 f, sampled X s m1 m2 lams e1 e2 -> 0 <= f <= 1 ->
  (forall z w, In (z, w) (combine e1 e2) -> 0 < Cmod ((2 + f) * z + (1 - f) * w)%C < / 10 ^ 6) ->
  exists m s', effective X py MaxwellGarnett s m1 m2 (Fin f) = (Ok m, s').
Proof.
  intros X py s m1 m2 lams e1 e2 f S F H.
  destruct (rules_mix X py MaxwellGarnett s m1 m2 lams e1 e2 f) as (es & (m & s' & Em & _) & _); try assumption; try discriminate; [|eauto].
  intros _ z w I K. specialize (H z w I). unfold mg_pole in K. rewrite K, Cmod_0 in H. lra.
Qed.

Lemma C50_two_solutions_l : forall f z w, exists a b, bruggeman_pair f z w a b /\
  forall a' b', bruggeman_pair f z w a' b' -> a' = a /\ b' = b.
Proof.
  intros f z w. destruct (pair_exists f z w) as (a & b & P). exists a, b. split; [exact P|].
  intros a' b' P'. eapply pair_unique; eassumption.
Qed.

Lemma C50_choice_l : forall X py s m1 m2 lams e1 e2 f, sampled X s m1 m2 lams e1 e2 -> 0 <= f <= 1 -> shape_known py s m1 ->
  exists es, mixes_to X py Bruggeman s m1 m2 f lams es /\ pointwise3 (bruggeman_choice f) e1 e2 es.
Proof.
  intros X py s m1 m2 lams e1 e2 f S F Sc. apply (rules_mix X py Bruggeman s m1 m2 lams e1 e2 f); try assumption; try discriminate. auto.
Qed.

Lemma C50_between_l : forall X py s m1 m2 lams e1 e2 f, sampled X s m1 m2 lams e1 e2 -> 0 <= f <= 1 -> shape_known py s m1 ->
  Forall positive_real e1 -> Forall positive_real e2 ->
  exists es, mixes_to X py Bruggeman s m1 m2 f lams es /\
    pointwise3 (fun z w e => bruggeman_rule f z w e /\ positive_real e /\ between (fst z) (fst w) (fst e)) e1 e2 es.
Proof.
  intros X py s m1 m2 lams e1 e2 f S F Sc Pz Pw. rewrite Forall_forall in Pz, Pw.
  destruct (C50_choice_l X py s m1 m2 lams e1 e2 f S F Sc) as (es & M & P). exists es. split; [exact M|].
  assert (K : forall z w, In (z, w) (combine e1 e2) -> positive_real z /\ positive_real w).
  { intros z w I. split; [apply Pz; eapply in_combine_l; eassumption|apply Pw; eapply in_combine_r; eassumption]. }
  pose proof (pw_in _ _ _ _ _ K P) as Q. revert Q. apply pw_impl. intros z w e [[A B] C].
  rewrite (positive_real_eq z A), (positive_real_eq w B) in C.
  destruct (br_real f (fst z) (fst w) e F (proj1 A) (proj1 B) C) as (R0 & I0 & Pe & Be).
  rewrite <- (positive_real_eq z A), <- (positive_real_eq w B) in R0. unfold positive_real. auto.
Qed.

Lemma C50_passive_l : forall X py s m1 m2 lams e1 e2 f, sampled X s m1 m2 lams e1 e2 -> 0 <= f <= 1 -> shape_known py s m1 ->
  Forall passive e1 -> Forall passive e2 ->
  exists es, mixes_to X py Bruggeman s m1 m2 f lams es /\
    pointwise3 (fun z w e => bruggeman_rule f z w e /\ passive e) e1 e2 es.
Proof.
  intros X py s m1 m2 lams e1 e2 f S F Sc Pz Pw. rewrite Forall_forall in Pz, Pw.
  destruct (C50_choice_l X py s m1 m2 lams e1 e2 f S F Sc) as (es & M & P). exists es. split; [exact M|].
  assert (K : forall z w, In (z, w) (combine e1 e2) -> passive z /\ passive w).
  { intros z w I. split; [apply Pz; eapply in_combine_l; eassumption|apply Pw; eapply in_combine_r; eassumption]. }
  pose proof (pw_in _ _ _ _ _ K P) as Q. revert Q. apply pw_impl. intros z w e [[A B] C]. now apply (br_passive f z w e).
Qed.

Lemma C50_passive_unique_l : forall X py s m1 m2 lams e1 e2 f, sampled X s m1 m2 lams e1 e2 -> 0 < f < 1 -> shape_known py s m1 ->
  Forall (fun z => 0 < snd z) e1 -> Forall (fun z => 0 < snd z) e2 ->
  exists es, mixes_to X py Bruggeman s m1 m2 f lams es /\
    pointwise3 (fun z w e => bruggeman_rule f z w e /\ 0 < snd e /\
                             forall e', bruggeman_rule f z w e' -> passive e' -> e' = e) e1 e2 es.
Proof.
  intros X py s m1 m2 lams e1 e2 f S F Sc Pz Pw. rewrite Forall_forall in Pz, Pw.
  assert (F' : 0 <= f <= 1) by lra.
  destruct (C50_choice_l X py s m1 m2 lams e1 e2 f S F' Sc) as (es & M & P). exists es. split; [exact M|].
  assert (K : forall z w, In (z, w) (combine e1 e2) -> 0 < snd z /\ 0 < snd w).
  { intros z w I. split; [apply Pz; eapply in_combine_l; eassumption|apply Pw; eapply in_combine_r; eassumption]. }
  pose proof (pw_in _ _ _ _ _ K P) as Q. revert Q. apply pw_impl. intros z w e [[A B] C].
  destruct (br_passive f z w e F') as [R0 _]; [unfold passive; lra|unfold passive; lra|exact C|].
  split; [exact R0|]. now apply (br_passive_unique f z w e).
Qed.

Lemma C50_pure_l : forall X py s m1 m2 lams e1 e2, sampled X s m1 m2 lams e1 e2 -> shape_known py s m1 ->
  (Forall passive e1 -> Forall (fun z => 0 < snd z) e2 -> mixes_to X py Bruggeman s m1 m2 0 lams e1) /\
  (Forall (fun z => 0 < snd z) e1 -> Forall passive e2 -> mixes_to X py Bruggeman s m1 m2 1 lams e2).
Proof.
  intros X py s m1 m2 lams e1 e2 S Sc. split; intros Pz Pw; rewrite Forall_forall in Pz, Pw.
  - destruct (C50_choice_l X py s m1 m2 lams e1 e2 0 S ltac:(lra) Sc) as (es & M & P).
    assert (K : forall z w, In (z, w) (combine e1 e2) -> passive z /\ 0 < snd w).
    { intros z w I. split; [apply Pz; eapply in_combine_l; eassumption|apply Pw; eapply in_combine_r; eassumption]. }
    pose proof (pw_in _ _ _ _ _ K P) as Q. revert M. apply mixes_eq. eapply pw_first; [|exact Q].
    intros a b c [[A B] C]. now apply (br_pure_0 a b c).
  - destruct (C50_choice_l X py s m1 m2 lams e1 e2 1 S ltac:(lra) Sc) as (es & M & P).
    assert (K : forall z w, In (z, w) (combine e1 e2) -> 0 < snd z /\ passive w).
    { intros z w I. split; [apply Pz; eapply in_combine_l; eassumption|apply Pw; eapply in_combine_r; eassumption]. }
    pose proof (pw_in _ _ _ _ _ K P) as Q. revert M. apply mixes_eq. eapply pw_second; [|exact Q].
    intros a b c [[A B] C]. now apply (br_pure_1 a b c).
Qed.

Lemma C50_lossless_metal_refuted_l : forall X py s m1 m2 lams e1 e2, sampled X s m1 m2 lams e1 e2 -> shape_known py s m1 ->
  Forall positive_real e1 ->
  (forall z w, In (z, w) (combine e1 e2) -> snd w = 0 /\ fst w < - 2 * fst z) ->
  mixes_to X py Bruggeman s m1 m2 0 lams (map (fun w => RtoC (- fst w / 2)) e2).
Proof.
  intros X py s m1 m2 lams e1 e2 S Sc Pz H. rewrite Forall_forall in Pz.
  destruct (C50_choice_l X py s m1 m2 lams e1 e2 0 S ltac:(lra) Sc) as (es & M & P).
  assert (K : forall z w, In (z, w) (combine e1 e2) -> positive_real z /\ snd w = 0 /\ fst w < - 2 * fst z).
  { intros z w I. split; [apply Pz; eapply in_combine_l; eassumption|now apply H]. }
  pose proof (pw_in _ _ _ _ _ K P) as Q. revert M. apply mixes_eq. clear - Q.
  induction Q as [|z w e l m n [(A & B & L) C] _ IH]; [reflexivity|]. cbn [map]. f_equal; [|exact IH].
  rewrite (positive_real_eq z A) in C. replace w with (RtoC (fst w)) in C by (apply C_eq; auto).
  exact (br_lossless_metal _ _ _ (proj1 A) L C).
Qed.

Lemma C50_fallback_refuted_l : forall e, bruggeman_choice (1 / 4) (3, -4) (-1, 4) e ->
  e = RtoC 0 /\ ~ bruggeman_rule (1 / 4) (3, -4) (-1, 4) e.
Proof.
  intros e (a & b & P & Ch).
  assert (Q : bruggeman_pair (1 / 4) (3, -4) (-1, 4) (7 / 2, - (1 / 2)) (- (3 / 2), - (5 / 2))).
  { split; [|cbn; lra]. intros t. unfold bruggeman_rule.
    rewrite rule_quadratic. unfold bp, bq. rewrite <- half_c.
    match goal with |- Cmult _ ?q = _ <-> _ => replace q with (Cmult (Cminus t (7 / 2, - (1 / 2))) (Cminus t (- (3 / 2), - (5 / 2)))) end.
    2:{ destruct t as [t1 t2]. apply C_eq; cbn; field. }
    split.
    - intros E. apply Cmult_zero in E. destruct E as [E|E]; [apply C_components in E; cbn in E; lra|].
      apply Cmult_zero in E. destruct E as [E|E]; apply Cminus_zero in E; auto.
    - intros [-> | ->]; cring. }
  destruct (pair_unique _ _ _ _ _ _ _ P Q) as [-> ->]. cbn [snd] in Ch.
  destruct Ch as [[K _]|[(_ & K & _)|(_ & _ & ->)]]; [lra|lra|]. split; [reflexivity|].
  intros R0. apply (proj1 Q) in R0. destruct R0 as [R0|R0]; apply C_components in R0; cbn in R0; lra.
Qed.

Lemma C50_scalar_refuted_l : forall X s m1 m2 lams e1 e2 f, sampled X s m1 m2 lams e1 e2 -> 0 <= f <= 1 -> is_scalar s ->
  m_name m1 = "eps" ->
  exists s', effective X true Bruggeman s m1 m2 (Fin f) = (Raise AttributeError, s') /\ sp_std s' = sp_std s.
Proof.
  intros X s m1 m2 lams e1 e2 f S F (x & Sc) Nm. destruct (sampled_lengths _ _ _ _ _ _ _ S) as [L1 L2].
  destruct S as [Ob W Ne N P1 P2]. pose proof (object_regular _ Ob) as Rg.
  destruct (effective_step X true Bruggeman s m1 m2 (Fin f) e1 e2 Rg) as (s2 & Sd & _ & E); [discriminate|now apply fraction_ok|assumption|assumption|].
  exists s2. split; [|exact Sd]. rewrite E. unfold wavelengths in W. rewrite Sc in W. cbn [elems] in W.
  destruct lams as [|l [|]]; try discriminate. destruct e1 as [|z [|]]; try discriminate. unfold in_shape at 1. rewrite Sc.
  unfold no_shape. rewrite Nm. reflexivity.
Qed.

Lemma C51_duplicates_rejected_l : forall X py k s m1 m2 lams e1 e2 f,
  k <> EffectiveMedium -> spectrum_object s -> wavelengths s lams -> ~ NoDup lams ->
  permittivities X m1 s e1 -> permittivities X m2 s e2 -> 0 <= f <= 1 ->
  (k = MaxwellGarnett -> off_pole f e1 e2) -> (k = Bruggeman -> shape_known py s m1) ->
  fst (effective X py k s m1 m2 (Fin f)) = Raise ValueError.
Proof.
  intros X py k s m1 m2 lams e1 e2 f Nk Ob W N P1 P2 F Np Sc. pose proof (object_regular _ Ob) as Rg.
  pose proof (eps_length X m1 s e1 lams Rg W P1) as L1. pose proof (eps_length X m2 s e2 lams Rg W P2) as L2.
  destruct (mixing_exists k f e1 e2 Nk) as (es & P); [congruence|assumption|].
  destruct (effective_step X py k s m1 m2 (Fin f) e1 e2 Rg Nk (fraction_ok f F) P1 P2) as (s2 & Sd & _ & ->).
  assert (Ls : length e1 = length (elems (sp_std s))) by (unfold wavelengths in W; rewrite W, map_length; congruence).
  assert (Ne : e1 <> []) by (intros ->; destruct lams; [apply N; constructor|discriminate]).
  rewrite (mix_ok _ k f s e1 e2 es (shape_known_ok py k s m1 Sc) Ls Ne P). destruct (pw_lengths _ _ _ _ P) as [La Lb].
  assert (Le : length lams = length es) by congruence.
  rewrite (eff_table_gen s lams _ W) by (unfold cvals; rewrite map_length; exact Le). cbn [bind fst].
  rewrite zip_rows by exact Le. now rewrite table_duplicate.
Qed.

Lemma C51_constituent_fails_l : forall X py k s m1 m2 f e,
  k <> EffectiveMedium -> spectrum_object s -> 0 <= f <= 1 ->
  get_permittivity X m1 (SObj s) = Raise e \/
  (exists o, get_permittivity X m1 (SObj s) = Ok o) /\ get_permittivity X m2 (SObj s) = Raise e ->
  fst (effective X py k s m1 m2 (Fin f)) = Raise e.
Proof.
  intros X py k s m1 m2 f e Nk Ob F H. pose proof (object_regular _ Ob) as Rg. unfold effective, get_permittivity in *.
  rewrite (fraction_ok f F).
  pose proof (eps_std X m1 s) as Sd1. pose proof (eps_regular X m1 s Rg) as R1.
  destruct (get_permittivity_obj X m1 s) as [r1 s1] eqn:E1. cbn [fst snd] in *.
  pose proof (eps_same X m2 s1 s R1 Rg Sd1) as Q.
  destruct H as [->|[(o & ->) H]]; [destruct k; [congruence|reflexivity..]|].
  rewrite H in Q. destruct (get_permittivity_obj X m2 s1) as [r2 s2]. cbn [fst] in Q. subst r2. destruct k; [congruence|reflexivity..].
Qed.

Lemma C51_spectrum_after_l : forall X py k s m1 m2 f,
  sp_std (snd (effective X py k s m1 m2 f)) = sp_std s /\
  (forall m s', effective X py k s m1 m2 f = (Ok m, s') -> s' = mkSp "wavelength" "m" (sp_std s) (sp_std s)).
Proof.
  intros X py k s m1 m2 f. unfold effective. destruct (xlt f (Fin 0) || xgt f (Fin 1)); [split; [reflexivity|discriminate]|].
  pose proof (eps_std X m1 s) as Sd1. destruct k; [split; [reflexivity|discriminate]|..].
  all: destruct (get_permittivity_obj X m1 s) as [[e1|x] s1]; cbn [snd] in Sd1; [|split; [exact Sd1|discriminate]];
    pose proof (eps_std X m2 s1) as Sd2; destruct (get_permittivity_obj X m2 s1) as [[e2|x] s2]; cbn [snd] in Sd2; [|split; [cbn [snd]; congruence|discriminate]];
    (destruct (mix _ _ f e1 e2); [|split; [cbn [snd]; congruence|discriminate]]);
    rewrite in_place_spec, metres_back; rewrite Sd2, Sd1; (split; [reflexivity|]);
    intros m s' H; injection H as _ <-; reflexivity.
Qed.

Lemma C51_comparison_refuted_l : forall X py k s m1 m2 f m s' other,
  effective X py k s m1 m2 f = (Ok m, s') -> mat_eq m (Some other) = Raise AttributeError.
Proof.
  intros X py k s m1 m2 f m s' other H. enough (m_meta m = None) as E by (unfold mat_eq; now rewrite E).
  unfold effective in H. destruct (xlt f (Fin 0) || xgt f (Fin 1)); [discriminate|]. destruct k; [discriminate|..].
  all: destruct (get_permittivity_obj X m1 s) as [[e1|x] s1]; [|discriminate];
    destruct (get_permittivity_obj X m2 s1) as [[e2|x] s2]; [|discriminate];
    (destruct (mix _ _ f e1 e2); [|discriminate]);
    destruct (convert_in_place s2 "wavelength" "m") as [[|] s3]; [|discriminate];
    injection H as H _; destruct (eff_table (sp_values s3) a); cbn [bind] in H; [|discriminate];
    (destruct (process_table 3 a1 "eps" _) as [p|]; cbn [bind] in H; [|discriminate]);
    destruct (p_real p), (p_imag p); try discriminate; injection H as <-; reflexivity.
Qed.
