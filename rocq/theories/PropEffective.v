(** Theorems about effective media (C48-C51). *)
From Verif Require Import PyBase PyStr XReal CNum SpectrumModel SpectrumSpec SpectrumProofs SpectralModel SpectralSpec SpectralProofs InterpProofs EvalProofs TextModel MaterialModel MaterialSpec MaterialProofs MatEvalProofs ExtrapProofs MaterialThms EffectiveModel EffectiveSpec MixProofs EffectiveProofs.
From Verif Require Import MatFileProofs.
From Coq Require Import Lra.
From Verif Require Import EffectiveThms.
Open Scope R_scope.
Open Scope string_scope.
Open Scope list_scope.

(** C51: the effective material can be built, it answers the mixed permittivity at each of the
    samples, asked for in any unit, order or selection, and the caller's spectrum has been
    converted to metres *)
Theorem C51_tabulates : forall X py k s m1 m2 lams e1 e2 f,
  k <> EffectiveMedium -> sampled X s m1 m2 lams e1 e2 -> 0 <= f <= 1 ->
  (k = MaxwellGarnett -> off_pole f e1 e2) -> (k = Bruggeman -> shape_known py s m1) ->
  exists es m s', effective X py k s m1 m2 (Fin f) = (Ok m, s') /\
    pointwise3 (rule_of k f) e1 e2 es /\ answers X m lams es /\
    sp_type s' = "wavelength" /\ sp_unit s' = "m" /\ sp_values s' = sp_std s /\ sp_std s' = sp_std s.
Proof. exact C51_tabulates_l. Qed.
Print Assumptions C51_tabulates.

Example C51_tabulates_instance X rd : exists s m1 m2 lams e1 e2, sampled X s m1 m2 lams e1 e2 /\ off_pole (1 / 2) e1 e2 /\ ~ is_scalar s /\
  mk_material rd [("fixed_eps", PComplex (CF (RtoC 2)))] = Ok m1 /\ mk_spectrum (InVals (VA [Fin 2; Fin 1])) "wavelength" "um" = Ok s.
Proof.
  destruct (fixed_sampled X rd (RtoC 2) (-1, 3)) as (m1 & m2 & s & E1 & _ & Es & N & S0).
  exists s, m1, m2. do 3 eexists. split; [exact S0|]. split; [apply off_pole_ex|auto].
Qed.

(** C51: between two neighbouring samples the answer lies on the straight line through them, and
    nothing is answered beyond the samples *)
Theorem C51_between_samples : forall X py k s m1 m2 lams e1 e2 f,
  k <> EffectiveMedium -> sampled X s m1 m2 lams e1 e2 -> 0 <= f <= 1 ->
  (k = MaxwellGarnett -> off_pole f e1 e2) -> (k = Bruggeman -> shape_known py s m1) ->
  exists es m s', effective X py k s m1 m2 (Fin f) = (Ok m, s') /\ pointwise3 (rule_of k f) e1 e2 es /\
    ((2 <= length lams)%nat -> answers_between X m lams (map CF es)) /\ refuses_outside X m lams.
Proof. exact C51_between_samples_l. Qed.
Print Assumptions C51_between_samples.

(** the hypotheses are those of C51_tabulates; a request at half way *)
Example C51_between_instance X (py : bool) rd : exists s m1 m2 m s' e q, mk_material rd [("fixed_eps", PComplex (CF (-1, 3)))] = Ok m2 /\
  effective X py Simple s m1 m2 (Fin (1 / 2)) = (Ok m, s') /\ mk_spectrum (InVals (VS (Fin 1.5))) "wavelength" "um" = Ok q /\
  get_permittivity_obj X m q = (Ok (OS (OCx (CF e))), q).
Proof.
  destruct (fixed_sampled X rd (RtoC 2) (-1, 3)) as (m1 & m2 & s & E1 & E2 & Es & N & S0).
  destruct (C51_between_samples X py Simple s m1 m2 _ _ _ (1 / 2) ltac:(discriminate) S0 ltac:(lra)) as (es & m & s' & E & P & B & _); [discriminate|discriminate|].
  assert (Q : exists q, mk_spectrum (InVals (VS (Fin 1.5))) "wavelength" "um" = Ok q /\ sp_std q = VS (Fin (/ 10 ^ 6 * 1.5))) by (eexists; split; reflexivity).
  destruct Q as (q & Eq & Sq).
  destruct (B ltac:(cbn; lia) q [/ 10 ^ 6 * 1.5]) as (os & G & F).
  - econstructor; exact Eq.
  - unfold wavelengths. now rewrite Sq.
  - discriminate.
  - intros l [<-|[]]. exists (/ 10 ^ 6 * 1), (/ 10 ^ 6 * 2). split; [right; now left|]. split; [now left|]. lra.
  - inversion F as [|? o ? os' (a & za & b & zb & Ia & Ib & _ & _ & _ & Ho) F']; subst. inversion F'; subst.
    assert (K : forall z, In z (map CF es) -> exists c, z = CF c) by (intros z Hz; apply in_map_iff in Hz; destruct Hz as (c & <- & _); eauto).
    destruct (K za (in_combine_r _ _ _ _ Ia)) as (u & ->). destruct (K zb (in_combine_r _ _ _ _ Ib)) as (w & ->).
    unfold in_shape in G. rewrite Sq in G. cbn [map] in G. do 6 eexists. exists q. split; [exact E2|]. split; [exact E|]. split; [exact Eq|]. exact G.
Qed.

(** C48: a fraction outside [0, 1] is refused by every medium before anything else happens *)
Theorem C48_fraction_rejected : forall X py k s m1 m2 f,
  f = PInf \/ f = NInf \/ (exists r, f = Fin r /\ (r < 0 \/ 1 < r)) ->
  effective X py k s m1 m2 f = (Raise ValueError, s).
Proof. exact C48_fraction_rejected_l. Qed.
Print Assumptions C48_fraction_rejected.

Example C48_fraction_rejected_instance  X py s m1 m2 : effective X py Bruggeman s m1 m2 (Fin 1.01) = (Raise ValueError, s).
Proof. apply C48_fraction_rejected. right; right. exists 1.01. split; [reflexivity|]. right. lra. Qed.

(** C48: linear mixing *)
Theorem C48_linear : forall X py s m1 m2 lams e1 e2 f, sampled X s m1 m2 lams e1 e2 -> 0 <= f <= 1 ->
  exists es, mixes_to X py Simple s m1 m2 f lams es /\ pointwise3 (linear_rule f) e1 e2 es.
Proof. exact C48_linear_l. Qed.
Print Assumptions C48_linear.

Example C48_linear_instance X (py : bool) rd : exists s m1 m2 es, mixes_to X py Simple s m1 m2 (1 / 4) [/ 10 ^ 6 * 2; / 10 ^ 6 * 1] es /\
  mk_material rd [("fixed_eps", PComplex (CF (RtoC 2)))] = Ok m1 /\ es = [(5 / 4, 3 / 4); (5 / 4, 3 / 4)].
Proof.
  destruct (fixed_sampled X rd (RtoC 2) (-1, 3)) as (m1 & m2 & s & E1 & _ & Es & N & S0).
  destruct (C48_linear X py s m1 m2 _ _ _ (1 / 4) S0) as (es & M & P); [lra|]. exists s, m1, m2, es. split; [exact M|]. split; [exact E1|].
  inversion P as [|a b c l m n P1 Q]; subst. inversion Q as [|a' b' c' l' m' n' P2 Q']; subst. inversion Q'; subst.
  assert (K : ((1 - (1 / 4)%R) * RtoC 2 + (1 / 4)%R * (-1, 3))%C = (5 / 4, 3 / 4)) by (apply C_eq; cbn; field).
  unfold linear_rule in P1, P2. rewrite P1, P2, K. reflexivity.
Qed.

(** C48: at the ends of the range, the constituents themselves *)
Theorem C48_pure : forall X py s m1 m2 lams e1 e2, sampled X s m1 m2 lams e1 e2 ->
  mixes_to X py Simple s m1 m2 0 lams e1 /\ mixes_to X py Simple s m1 m2 1 lams e2.
Proof. exact C48_pure_l. Qed.
Print Assumptions C48_pure.

Example C48_pure_instance X (py : bool) rd : exists s m1 m2, mixes_to X py Simple s m1 m2 1 [/ 10 ^ 6 * 1] [(-1, 3)] /\
  mk_material rd [("fixed_eps", PComplex (CF (-1, 3)))] = Ok m2 /\ is_scalar s.
Proof.
  destruct (fixed_scalar X rd (RtoC 2) (-1, 3)) as (m1 & m2 & s & E1 & E2 & Es & N & S0).
  destruct (C48_pure X py s m1 m2 _ _ _ S0) as [_ M]. exists s, m1, m2. auto.
Qed.

(** C48: a NaN is not refused: linear and Maxwell-Garnett mixing then answer NaN everywhere,
    Bruggeman mixing answers 0 *)
Theorem C48_nan_fraction_refuted : forall X py k s m1 m2 lams e1 e2,
  sampled X s m1 m2 lams e1 e2 -> (2 <= length lams)%nat ->
  k = Simple \/ k = MaxwellGarnett ->
  exists m s', effective X py k s m1 m2 NaN = (Ok m, s') /\ answers_nan X m lams.
Proof. exact C48_nan_fraction_refuted_l. Qed.
Print Assumptions C48_nan_fraction_refuted.

Example C48_nan_fraction_instance X (py : bool) rd : exists s m1 m2 m s', mk_material rd [("fixed_eps", PComplex (CF (RtoC 2)))] = Ok m1 /\
  effective X py Simple s m1 m2 NaN = (Ok m, s') /\ answers_nan X m [/ 10 ^ 6 * 2; / 10 ^ 6 * 1].
Proof.
  destruct (fixed_sampled X rd (RtoC 2) (-1, 3)) as (m1 & m2 & s & E1 & E2 & Es & N & S0).
  destruct (C48_nan_fraction_refuted X py Simple s m1 m2 _ _ _ S0) as (m & s' & E & A); [cbn; lia|auto|]. exists s, m1, m2, m, s'. auto.
Qed.

Theorem C48_nan_fraction_bruggeman_refuted : forall X py s m1 m2 lams e1 e2,
  sampled X s m1 m2 lams e1 e2 -> shape_known py s m1 ->
  exists m s', effective X py Bruggeman s m1 m2 NaN = (Ok m, s') /\ answers X m lams (map (fun _ => RtoC 0) lams).
Proof. exact C48_nan_fraction_bruggeman_refuted_l. Qed.
Print Assumptions C48_nan_fraction_bruggeman_refuted.

(** C48: the base class cannot be used itself *)
Theorem C48_base_class : forall X py s m1 m2 f, 0 <= f <= 1 ->
  effective X py EffectiveMedium s m1 m2 (Fin f) = (Raise NotImplementedError, s).
Proof. exact C48_base_class_l. Qed.
Print Assumptions C48_base_class.

(** C49: off the pole the mixture is the one and only solution of the Maxwell-Garnett rule *)
Theorem C49_rule : forall X py s m1 m2 lams e1 e2 f, sampled X s m1 m2 lams e1 e2 -> 0 <= f <= 1 -> off_pole f e1 e2 ->
  exists es, mixes_to X py MaxwellGarnett s m1 m2 f lams es /\
    pointwise3 (fun z w e => maxwell_garnett_rule f z w e /\ forall e', maxwell_garnett_rule f z w e' -> e' = e) e1 e2 es.
Proof. exact C49_rule_l. Qed.
Print Assumptions C49_rule.

Example C49_rule_instance X rd : exists s m1 m2 e1 e2, sampled X s m1 m2 [/ 10 ^ 6 * 2; / 10 ^ 6 * 1] e1 e2 /\ off_pole (1 / 2) e1 e2 /\
  mk_material rd [("fixed_eps", PComplex (CF (-1, 3)))] = Ok m2.
Proof.
  destruct (fixed_sampled X rd (RtoC 2) (-1, 3)) as (m1 & m2 & s & E1 & E2 & _ & N & S0).
  exists s, m1, m2. do 2 eexists. split; [exact S0|]. split; [apply off_pole_ex|exact E2].
Qed.

(** C49: the constituents at fractions 0 and 1 *)
Theorem C49_pure : forall X py s m1 m2 lams e1 e2, sampled X s m1 m2 lams e1 e2 ->
  (off_pole 0 e1 e2 -> mixes_to X py MaxwellGarnett s m1 m2 0 lams e1) /\
  (off_pole 1 e1 e2 -> mixes_to X py MaxwellGarnett s m1 m2 1 lams e2).
Proof. exact C49_pure_l. Qed.
Print Assumptions C49_pure.

(** C49: positive real permittivities are never at the pole and give a value in between *)
Theorem C49_between : forall X py s m1 m2 lams e1 e2 f, sampled X s m1 m2 lams e1 e2 -> 0 <= f <= 1 ->
  Forall positive_real e1 -> Forall positive_real e2 ->
  exists es, mixes_to X py MaxwellGarnett s m1 m2 f lams es /\
    pointwise3 (fun z w e => maxwell_garnett_rule f z w e /\ snd e = 0 /\ between (fst z) (fst w) (fst e)) e1 e2 es.
Proof. exact C49_between_l. Qed.
Print Assumptions C49_between.

Example C49_between_instance X rd : exists s m1 m2 e1 e2, sampled X s m1 m2 [/ 10 ^ 6 * 2; / 10 ^ 6 * 1] e1 e2 /\
  Forall positive_real e1 /\ Forall positive_real e2 /\ mk_material rd [("fixed_eps", PComplex (CF (RtoC 9)))] = Ok m2.
Proof.
  destruct (fixed_sampled X rd (RtoC 2) (RtoC 9)) as (m1 & m2 & s & E1 & E2 & _ & N & S0).
  exists s, m1, m2. do 2 eexists. split; [exact S0|]. do 2 (split; [repeat constructor; cbn; lra|]). exact E2.
Qed.

(** C49: mixing does not create gain *)
Theorem C49_passive : forall X py s m1 m2 lams e1 e2 f, sampled X s m1 m2 lams e1 e2 -> 0 <= f <= 1 -> off_pole f e1 e2 ->
  Forall passive e1 -> Forall passive e2 ->
  exists es, mixes_to X py MaxwellGarnett s m1 m2 f lams es /\
    pointwise3 (fun z w e => maxwell_garnett_rule f z w e /\ passive e) e1 e2 es.
Proof. exact C49_passive_l. Qed.
Print Assumptions C49_passive.

Example C49_passive_instance : Forall passive [RtoC 2; RtoC 2] /\ Forall passive [(-1, 3); (-1, 3)] /\ off_pole (1 / 2) [RtoC 2; RtoC 2] [(-1, 3); (-1, 3)].
Proof. split; [repeat constructor; cbn; lra|]. split; [repeat constructor; cbn; lra|]. apply off_pole_ex. Qed.

(** C49: the announced error comes exactly if every sample is at the pole; otherwise the
    material is built *)
Theorem C49_error_iff : forall X py s m1 m2 lams e1 e2 f, sampled X s m1 m2 lams e1 e2 -> 0 <= f <= 1 ->
  ((forall z w, In (z, w) (combine e1 e2) -> mg_pole f z w) ->
     exists s', effective X py MaxwellGarnett s m1 m2 (Fin f) = (Raise ValueError, s') /\ sp_std s' = sp_std s) /\
  ((exists z w, In (z, w) (combine e1 e2) /\ ~ mg_pole f z w) ->
     exists m s', effective X py MaxwellGarnett s m1 m2 (Fin f) = (Ok m, s')).
Proof. exact C49_error_iff_l. Qed.
Print Assumptions C49_error_iff.

Example C49_error_instance X (py : bool) rd : exists s m1 m2 s', mk_material rd [("fixed_eps", PComplex (CF (RtoC (-2))))] = Ok m2 /\
  sp_type s = "wavelength" /\ effective X py MaxwellGarnett s m1 m2 (Fin 0) = (Raise ValueError, s').
Proof.
  destruct (fixed_sampled X rd (RtoC 1) (RtoC (-2))) as (m1 & m2 & s & E1 & E2 & Es & N & S0).
  destruct (proj1 (C49_error_iff X py s m1 m2 _ _ _ 0 S0 ltac:(lra))) as (s' & E & _).
  - intros z w I. cbn in I. destruct I as [I|[I|[]]]; injection I as <- <-; unfold mg_pole; cring.
  - exists s, m1, m2, s'. split; [exact E2|]. split; [|exact E]. injection Es as <-. reflexivity.
Qed.

(** C49: one sample at the pole among others is not announced; the material answers NaN next to
    such a sample and the mixed values elsewhere *)
Theorem C49_pole_unnoticed_refuted : forall X py s m1 m2 lams e1 e2 f, sampled X s m1 m2 lams e1 e2 -> 0 <= f <= 1 ->
  (exists z w, In (z, w) (combine e1 e2) /\ mg_pole f z w) ->
  (exists z w, In (z, w) (combine e1 e2) /\ ~ mg_pole f z w) ->
  exists m s' es, effective X py MaxwellGarnett s m1 m2 (Fin f) = (Ok m, s') /\ answers_between X m lams es /\
    pointwise3 (fun z w e => mg_pole f z w /\ e = CNan \/
                             ~ mg_pole f z w /\ exists c, e = CF c /\ maxwell_garnett_rule f z w c) e1 e2 es.
Proof. exact C49_pole_unnoticed_refuted_l. Qed.
Print Assumptions C49_pole_unnoticed_refuted.

Example C49_pole_unnoticed_instance X rd : exists s m1 m2 e1 e2, sampled X s m1 m2 [/ 10 ^ 6 * 2; / 10 ^ 6 * 1] e1 e2 /\
  mk_material rd [("fixed_eps", PComplex (CF (RtoC 1)))] = Ok m1 /\
  (exists z w, In (z, w) (combine e1 e2) /\ mg_pole 0 z w) /\ (exists z w, In (z, w) (combine e1 e2) /\ ~ mg_pole 0 z w).
Proof.
  destruct (fixed_sampled X rd (RtoC 1) (RtoC 3)) as (m1 & m2 & s & E1 & _ & _ & N & S0). pose proof S0 as [Ob W Ne Nd P1 _].
  destruct (table_material _ [RtoC (-2); RtoC 3] Nd Ne eq_refl) as (a & b & Ha & Hb & _).
  exists s, m1, (metre_material a b), [RtoC 1; RtoC 1], [RtoC (-2); RtoC 3]. split.
  - split; try assumption.
    pose proof (material_answers X _ [RtoC (-2); RtoC 3] a b Nd Ne eq_refl Ha Hb s [/ 10 ^ 6 * 2; / 10 ^ 6 * 1] [RtoC (-2); RtoC 3] Ob W Ne) as A.
    eexists. eexists. split; [apply A|apply out_in_shape].
    constructor; [left; reflexivity|]. constructor; [right; left; reflexivity|]. constructor.
  - split; [exact E1|]. split.
    + exists (RtoC 1), (RtoC (-2)). split; [left; reflexivity|]. unfold mg_pole. cring.
    + exists (RtoC 1), (RtoC 3). split; [right; left; reflexivity|]. intros K. apply C_components in K. cbn in K. lra.
Qed.

(** C49: so samples closer to the pole than the announced 1e-6 are accepted *)
Theorem C49_near_singular_refuted : forall X py s m1 m2 lams e1 e2 f, sampled X s m1 m2 lams e1 e2 -> 0 <= f <= 1 ->
  (forall z w, In (z, w) (combine e1 e2) -> 0 < Cmod ((2 + f) * z + (1 - f) * w)%C < / 10 ^ 6) ->
  exists m s', effective X py MaxwellGarnett s m1 m2 (Fin f) = (Ok m, s').
Proof. exact C49_near_singular_refuted_l. Qed.
Print Assumptions C49_near_singular_refuted.

Example C49_near_singular_instance X (py : bool) rd : exists s m1 m2 m s', effective X py MaxwellGarnett s m1 m2 (Fin 0) = (Ok m, s') /\
  mk_material rd [("fixed_eps", PComplex (CF (RtoC (-2 + / 10 ^ 7))))] = Ok m2.
Proof.
  destruct (fixed_sampled X rd (RtoC 1) (RtoC (-2 + / 10 ^ 7))) as (m1 & m2 & s & E1 & E2 & Es & N & S0).
  destruct (C49_near_singular_refuted X py s m1 m2 _ _ _ 0 S0 ltac:(lra)) as (m & s' & E).
  - intros z w I. assert (K : ((2 + 0) * z + (1 - 0) * w)%C = RtoC (/ 10 ^ 7)).
    { cbn [combine In] in I. destruct I as [I|[I|[]]]; injection I as <- <-; apply C_eq; cbn; field. }
    rewrite K, Cmod_R, Rabs_pos_eq by lra. lra.
  - exists s, m1, m2, m, s'. auto.
Qed.

(** C50: the rule has two solutions (possibly equal), so the choice is well defined *)
Theorem C50_two_solutions : forall f z w, exists a b, bruggeman_pair f z w a b /\
  forall a' b', bruggeman_pair f z w a' b' -> a' = a /\ b' = b.
Proof. exact C50_two_solutions_l. Qed.
Print Assumptions C50_two_solutions.

(** C50: the mixture is the chosen solution *)
Theorem C50_choice : forall X py s m1 m2 lams e1 e2 f, sampled X s m1 m2 lams e1 e2 -> 0 <= f <= 1 -> shape_known py s m1 ->
  exists es, mixes_to X py Bruggeman s m1 m2 f lams es /\ pointwise3 (bruggeman_choice f) e1 e2 es.
Proof. exact C50_choice_l. Qed.
Print Assumptions C50_choice.

Example C50_choice_instance X rd : exists s m1 m2 e1 e2, sampled X s m1 m2 [/ 10 ^ 6 * 2; / 10 ^ 6 * 1] e1 e2 /\ ~ is_scalar s /\
  Forall (fun z => 0 < snd z) e1 /\ Forall (fun z => 0 < snd z) e2 /\ Forall passive e1 /\
  mk_material rd [("fixed_eps", PComplex (CF (2, 1)))] = Ok m1.
Proof.
  destruct (fixed_sampled X rd (2, 1) (-1, 3)) as (m1 & m2 & s & E1 & E2 & Es & N & S0).
  exists s, m1, m2. do 2 eexists. split; [exact S0|]. split; [exact N|]. do 3 (split; [repeat constructor; cbn; lra|]). exact E1.
Qed.

(** C50: positive real permittivities: the positive solution, between the two *)
Theorem C50_between : forall X py s m1 m2 lams e1 e2 f, sampled X s m1 m2 lams e1 e2 -> 0 <= f <= 1 -> shape_known py s m1 ->
  Forall positive_real e1 -> Forall positive_real e2 ->
  exists es, mixes_to X py Bruggeman s m1 m2 f lams es /\
    pointwise3 (fun z w e => bruggeman_rule f z w e /\ positive_real e /\ between (fst z) (fst w) (fst e)) e1 e2 es.
Proof. exact C50_between_l. Qed.
Print Assumptions C50_between.

Example C50_between_instance X (py : bool) rd : exists s m1 m2 e, mixes_to X py Bruggeman s m1 m2 (1 / 2) [/ 10 ^ 6 * 2; / 10 ^ 6 * 1] [e; e] /\
  mk_material rd [("fixed_eps", PComplex (CF (RtoC 1)))] = Ok m1 /\ 1 <= fst e <= 4.
Proof.
  destruct (fixed_sampled X rd (RtoC 1) (RtoC 4)) as (m1 & m2 & s & E1 & E2 & Es & N & S0).
  destruct (C50_between X py s m1 m2 _ _ _ (1 / 2) S0 ltac:(lra) (array_shape _ _ _ N)) as (es & M & P); [repeat constructor; cbn; lra|repeat constructor; cbn; lra|].
  inversion P as [|a b c l m n (P1 & Pr1 & B1) Q]; subst. inversion Q as [|a' b' c' l' m' n' (P2 & Pr2 & B2) Q']; subst. inversion Q'; subst.
  unfold between in B1. cbn [fst RtoC] in B1. rewrite Rmin_left, Rmax_right in B1 by lra.
  unfold between in B2. cbn [fst RtoC] in B2. rewrite Rmin_left, Rmax_right in B2 by lra.
  assert (c' = c).
  { destruct c as [x x'], c' as [y y']. destruct Pr1 as [_ I1], Pr2 as [_ I2]. cbn [fst snd] in *. subst x' y'.
    apply C_components in P1, P2. cbn in P1, P2. destruct P1 as [P1 _], P2 as [P2 _].
    assert (K : (y - x) * (4 * (x + y) - 5) = 0) by lra. apply Rmult_integral in K. destruct K; [|lra]. f_equal. lra. }
  subst c'. exists s, m1, m2, c. auto.
Qed.

(** C50: passive constituents: a passive solution, never the fallback value 0 *)
Theorem C50_passive : forall X py s m1 m2 lams e1 e2 f, sampled X s m1 m2 lams e1 e2 -> 0 <= f <= 1 -> shape_known py s m1 ->
  Forall passive e1 -> Forall passive e2 ->
  exists es, mixes_to X py Bruggeman s m1 m2 f lams es /\
    pointwise3 (fun z w e => bruggeman_rule f z w e /\ passive e) e1 e2 es.
Proof. exact C50_passive_l. Qed.
Print Assumptions C50_passive.

(** C50: absorbing constituents and a true mixture: the only passive solution *)
Theorem C50_passive_unique : forall X py s m1 m2 lams e1 e2 f, sampled X s m1 m2 lams e1 e2 -> 0 < f < 1 -> shape_known py s m1 ->
  Forall (fun z => 0 < snd z) e1 -> Forall (fun z => 0 < snd z) e2 ->
  exists es, mixes_to X py Bruggeman s m1 m2 f lams es /\
    pointwise3 (fun z w e => bruggeman_rule f z w e /\ 0 < snd e /\
                             forall e', bruggeman_rule f z w e' -> passive e' -> e' = e) e1 e2 es.
Proof. exact C50_passive_unique_l. Qed.
Print Assumptions C50_passive_unique.

(** C50: the constituents at fractions 0 and 1, if the other one absorbs *)
Theorem C50_pure : forall X py s m1 m2 lams e1 e2, sampled X s m1 m2 lams e1 e2 -> shape_known py s m1 ->
  (Forall passive e1 -> Forall (fun z => 0 < snd z) e2 -> mixes_to X py Bruggeman s m1 m2 0 lams e1) /\
  (Forall (fun z => 0 < snd z) e1 -> Forall passive e2 -> mixes_to X py Bruggeman s m1 m2 1 lams e2).
Proof. exact C50_pure_l. Qed.
Print Assumptions C50_pure.

(** C50: but with a lossless metal (e2 < -2 e1 < 0) none of which is mixed in, the mixture is
    -e2/2 and not the host e1 *)
Theorem C50_lossless_metal_refuted : forall X py s m1 m2 lams e1 e2, sampled X s m1 m2 lams e1 e2 -> shape_known py s m1 ->
  Forall positive_real e1 ->
  (forall z w, In (z, w) (combine e1 e2) -> snd w = 0 /\ fst w < - 2 * fst z) ->
  mixes_to X py Bruggeman s m1 m2 0 lams (map (fun w => RtoC (- fst w / 2)) e2).
Proof. exact C50_lossless_metal_refuted_l. Qed.
Print Assumptions C50_lossless_metal_refuted.

Example C50_lossless_metal_instance X (py : bool) rd : exists s m1 m2, mixes_to X py Bruggeman s m1 m2 0 [/ 10 ^ 6 * 2; / 10 ^ 6 * 1] [RtoC 5; RtoC 5] /\
  mk_material rd [("fixed_eps", PComplex (CF (RtoC 1)))] = Ok m1 /\ mk_material rd [("fixed_eps", PComplex (CF (RtoC (-10))))] = Ok m2.
Proof.
  destruct (fixed_sampled X rd (RtoC 1) (RtoC (-10))) as (m1 & m2 & s & E1 & E2 & Es & N & S0).
  exists s, m1, m2. split; [|auto].
  assert (M := C50_lossless_metal_refuted X py s m1 m2 _ _ _ S0 (array_shape _ _ _ N)). cbn [map fst RtoC] in M. replace (- -10 / 2) with 5 in M by lra.
  apply M; [repeat constructor; cbn; lra|]. intros z w I. cbn in I. destruct I as [I|[I|[]]]; injection I as <- <-; cbn; lra.
Qed.

(** C50: with gain in one constituent the choice can fall through to 0, no solution at all *)
Theorem C50_fallback_refuted : forall e, bruggeman_choice (1 / 4) (3, -4) (-1, 4) e ->
  e = RtoC 0 /\ ~ bruggeman_rule (1 / 4) (3, -4) (-1, 4) e.
Proof. exact C50_fallback_refuted_l. Qed.
Print Assumptions C50_fallback_refuted.

Example C50_fallback_instance X (py : bool) rd : exists s m1 m2, mixes_to X py Bruggeman s m1 m2 (1 / 4) [/ 10 ^ 6 * 2; / 10 ^ 6 * 1] [RtoC 0; RtoC 0] /\
  mk_material rd [("fixed_eps", PComplex (CF (3, -4)))] = Ok m1 /\ mk_material rd [("fixed_eps", PComplex (CF (-1, 4)))] = Ok m2.
Proof.
  destruct (fixed_sampled X rd (3, -4) (-1, 4)) as (m1 & m2 & s & E1 & E2 & Es & N & S0).
  destruct (C50_choice X py s m1 m2 _ _ _ (1 / 4) S0 ltac:(lra) (array_shape _ _ _ N)) as (es & M & P).
  inversion P as [|a b c l m n P1 Q]; subst. inversion Q as [|a' b' c' l' m' n' P2 Q']; subst. inversion Q'; subst.
  destruct (C50_fallback_refuted _ P1) as [-> _]. destruct (C50_fallback_refuted _ P2) as [-> _]. exists s, m1, m2. auto.
Qed.

(** C50: a scalar spectrum, which the other media accept, is refused if the first material
    gives a Python number *)
Theorem C50_scalar_refuted : forall X s m1 m2 lams e1 e2 f, sampled X s m1 m2 lams e1 e2 -> 0 <= f <= 1 -> is_scalar s ->
  m_name m1 = "eps" ->
  exists s', effective X true Bruggeman s m1 m2 (Fin f) = (Raise AttributeError, s') /\ sp_std s' = sp_std s.
Proof. exact C50_scalar_refuted_l. Qed.
Print Assumptions C50_scalar_refuted.

Example C50_scalar_instance X rd : exists s m1 m2 s', mk_spectrum (InVals (VS (Fin 1))) "wavelength" "um" = Ok s /\
  mk_material rd [("fixed_eps", PComplex (CF (RtoC 2)))] = Ok m1 /\
  effective X true Bruggeman s m1 m2 (Fin (1 / 2)) = (Raise AttributeError, s').
Proof.
  destruct (fixed_scalar X rd (RtoC 2) (-1, 3)) as (m1 & m2 & s & E1 & E2 & Es & N & S0).
  destruct (C50_scalar_refuted X s m1 m2 _ _ _ (1 / 2) S0 ltac:(lra) N) as (s' & E & _).
  { revert E1. rcv. intros E1. injection E1 as <-. reflexivity. }
  exists s, m1, m2, s'. auto.
Qed.

(** C51: two samples at the same wavelength are refused *)
Theorem C51_duplicates_rejected : forall X py k s m1 m2 lams e1 e2 f,
  k <> EffectiveMedium -> spectrum_object s -> wavelengths s lams -> ~ NoDup lams ->
  permittivities X m1 s e1 -> permittivities X m2 s e2 -> 0 <= f <= 1 ->
  (k = MaxwellGarnett -> off_pole f e1 e2) -> (k = Bruggeman -> shape_known py s m1) ->
  fst (effective X py k s m1 m2 (Fin f)) = Raise ValueError.
Proof. exact C51_duplicates_rejected_l. Qed.
Print Assumptions C51_duplicates_rejected.

Example C51_duplicates_instance : exists s, mk_spectrum (InVals (VA [Fin 2; Fin 1; Fin 2])) "wavelength" "um" = Ok s /\
  wavelengths s [/ 10 ^ 6 * 2; / 10 ^ 6 * 1; / 10 ^ 6 * 2] /\ ~ NoDup [/ 10 ^ 6 * 2; / 10 ^ 6 * 1; / 10 ^ 6 * 2].
Proof.
  eexists. split; [reflexivity|]. split; [reflexivity|]. intros K. inversion K as [|x l H _]; subst. apply H. right; left. reflexivity.
Qed.

(** C51: a constituent that cannot be evaluated makes the construction fail in the same way *)
Theorem C51_constituent_fails : forall X py k s m1 m2 f e,
  k <> EffectiveMedium -> spectrum_object s -> 0 <= f <= 1 ->
  get_permittivity X m1 (SObj s) = Raise e \/
  (exists o, get_permittivity X m1 (SObj s) = Ok o) /\ get_permittivity X m2 (SObj s) = Raise e ->
  fst (effective X py k s m1 m2 (Fin f)) = Raise e.
Proof. exact C51_constituent_fails_l. Qed.
Print Assumptions C51_constituent_fails.

(** C51: whatever the outcome, the caller's spectrum stands for the same wavelengths as before,
    and it is in metres if the construction succeeded *)
Theorem C51_spectrum_after : forall X py k s m1 m2 f,
  sp_std (snd (effective X py k s m1 m2 f)) = sp_std s /\
  (forall m s', effective X py k s m1 m2 f = (Ok m, s') -> s' = mkSp "wavelength" "m" (sp_std s) (sp_std s)).
Proof. exact C51_spectrum_after_l. Qed.
Print Assumptions C51_spectrum_after.

(** C51: an effective material has no metadata: comparing it with any material fails *)
Theorem C51_comparison_refuted : forall X py k s m1 m2 f m s' other,
  effective X py k s m1 m2 f = (Ok m, s') -> mat_eq m (Some other) = Raise AttributeError.
Proof. exact C51_comparison_refuted_l. Qed.
Print Assumptions C51_comparison_refuted.
