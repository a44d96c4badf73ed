From Flocq Require Import Core.
From Verif Require Import PyBase PyStr XReal SpectrumModel SpectrumSpec.
Open Scope R_scope.

(** ** names *)
Lemma types_enum t : dhas SPECTRUM_TYPES t = true <->
  In t ["wavelength"; "frequency"; "energy"; "angularfrequency"; "wavenumber"]%string.
Proof.
  unfold dhas. split.
  - destruct (dget SPECTRUM_TYPES t) eqn:E; [|discriminate]. intros _.
    apply dget_In in E. cbn [SPECTRUM_TYPES In] in E. cbn [In].
    repeat (destruct E as [E|E]; [injection E as E1 E2; subst; auto 10|]). destruct E.
  - intros H. cbn [In] in H. repeat (destruct H as [H|H]; [subst; reflexivity|]). destruct H.
Qed.

Definition all_aliases : list string := List.concat (map snd UNIT_TYPES).

Lemma not_alias_std t u : ~ In u all_aliases -> standardise_unit t u = Raise ValueError.
Proof.
  intros H. unfold standardise_unit, UNIT_TYPES.
  assert (F : forall l, In l (map snd UNIT_TYPES) -> smem u l = false).
  { intros l Hl. apply smem_not_In. intros Hin. apply H. unfold all_aliases.
    apply in_concat. eauto. }
  unfold UNIT_TYPES in F. cbn [map snd] in F.
  repeat (rewrite F by (cbn [In]; auto 12)). reflexivity.
Qed.

Lemma std_unit_spec t u canon : dhas SPECTRUM_TYPES t = true ->
  (standardise_unit t u = Ok canon <-> documented t u canon).
Proof.
  intros Ht. apply types_enum in Ht.
  destruct (in_dec String.string_dec u all_aliases) as [Hu|Hu].
  - split.
    + intros H. unfold documented, doc_units.
      cbn [all_aliases UNIT_TYPES List.concat map snd app In] in Hu. cbn [In] in Ht.
      repeat (destruct Ht as [Ht|Ht];
        [subst t; repeat (destruct Hu as [Hu|Hu];
           [subst u; vm_compute in H; first [discriminate H | injection H as <-;
            eexists; split; [cbn [In]; eauto 20|cbn [In]; auto 10]]|]); destruct Hu|]).
      destruct Ht.
    + intros [sp [H1 H2]]. unfold doc_units in H1. cbn [In] in H1.
      repeat (destruct H1 as [H1|H1];
        [injection H1 as E1 E2 E3; subst; cbn [In] in H2;
         repeat (destruct H2 as [H2|H2]; [subst; reflexivity|]); destruct H2|]).
      destruct H1.
  - split.
    + intros H. rewrite not_alias_std in H by assumption. discriminate.
    + intros [sp [H1 H2]]. exfalso. apply Hu.
      unfold doc_units in H1. cbn [In] in H1. unfold all_aliases, UNIT_TYPES.
      cbn [List.concat map snd app].
      repeat (destruct H1 as [H1|H1];
        [injection H1 as E1 E2 E3; subst; cbn [In] in H2 |- *;
         repeat (destruct H2 as [H2|H2]; [subst; auto 30|]); destruct H2|]).
      destruct H1.
Qed.

Lemma std_unit_raise t u : dhas SPECTRUM_TYPES t = true ->
  (forall c, ~ documented t u c) -> standardise_unit t u = Raise ValueError.
Proof.
  intros Ht H.
  destruct (in_dec String.string_dec u all_aliases) as [Hu|Hu]; [|now apply not_alias_std].
  pose proof (proj1 (types_enum t) Ht) as Ht'.
  assert (G : forall c, standardise_unit t u <> Ok c).
  { intros c E. apply (H c). now apply std_unit_spec. }
  clear H.
  cbn [all_aliases UNIT_TYPES List.concat map snd app In] in Hu. cbn [In] in Ht'.
  repeat (destruct Ht' as [Ht'|Ht'];
    [subst t; repeat (destruct Hu as [Hu|Hu];
       [subst u; first [reflexivity | exfalso; eapply G; reflexivity]|]); destruct Hu|]).
  destruct Ht'.
Qed.

Lemma documented_lower t u canon : documented t u canon -> lower u = u /\ lower t = t.
Proof.
  intros [sp [H1 H2]]. unfold doc_units in H1. cbn [In] in H1.
  repeat (destruct H1 as [H1|H1];
    [injection H1 as E1 E2 E3; subst; cbn [In] in H2;
     repeat (destruct H2 as [H2|H2]; [subst; split; reflexivity|]); destruct H2|]).
  destruct H1.
Qed.

Lemma documented_type t u canon : documented t u canon -> dhas SPECTRUM_TYPES t = true.
Proof.
  intros [sp [H1 H2]]. unfold doc_units in H1. cbn [In] in H1.
  repeat (destruct H1 as [H1|H1]; [injection H1 as E1 E2 E3; subst; reflexivity|]).
  destruct H1.
Qed.

Lemma documented_canon t u canon : documented t u canon -> documented t canon canon.
Proof.
  intros [sp [H1 H2]]. exists sp. split; [assumption|].
  unfold doc_units in H1. cbn [In] in H1.
  repeat (destruct H1 as [H1|H1];
    [injection H1 as E1 E2 E3; subst; cbn [In]; auto|]).
  destruct H1.
Qed.

(** the nine documented (type, unit) pairs *)
Lemma documented_cases t u canon : documented t u canon ->
  (t = "wavelength" /\ canon = "m") \/ (t = "wavelength" /\ canon = "cm") \/
  (t = "wavelength" /\ canon = "um") \/ (t = "wavelength" /\ canon = "nm") \/
  (t = "wavelength" /\ canon = "a") \/ (t = "frequency" /\ canon = "hz") \/
  (t = "energy" /\ canon = "ev") \/ (t = "angularfrequency" /\ canon = "1/s") \/
  (t = "wavenumber" /\ canon = "1/cm").
Proof.
  intros [sp [H1 H2]]. unfold doc_units in H1. cbn [In] in H1.
  repeat (destruct H1 as [H1|H1]; [injection H1 as E1 E2 E3; subst; auto 20|]).
  destruct H1.
Qed.

Lemma documented_fun t u c1 c2 : documented t u c1 -> documented t u c2 -> c1 = c2.
Proof.
  intros H1 H2. pose proof (documented_type _ _ _ H1) as Ht.
  apply std_unit_spec in H1; [|assumption]. apply std_unit_spec in H2; [|assumption]. congruence.
Qed.

(** on lower-case types the constructor's first two checks are the documented table *)
Lemma mk_spectrum_unfold v t u canon :
  documented (lower t) (lower u) canon ->
  mk_spectrum v t u =
  match v with
  | InOther => Raise ValueError
  | InVals w => do std <- standardise_values (lower t) canon w; Ok (mkSp (lower t) canon w std)
  end.
Proof.
  intros H. unfold mk_spectrum. cbv zeta. pose proof (documented_type _ _ _ H) as Ht.
  rewrite Ht; cbn [negb]. apply std_unit_spec in H; [|assumption]. rewrite H. reflexivity.
Qed.

Lemma convert_to_unfold s t u canon :
  documented (lower t) u canon -> convert_to s t u = to_dispatch (lower t) canon (sp_std s).
Proof.
  intros H. unfold convert_to. cbv zeta. pose proof (documented_type _ _ _ H) as Ht.
  rewrite Ht; cbn [negb]. apply std_unit_spec in H; [|assumption]. rewrite H. reflexivity.
Qed.

Lemma mk_spectrum_undocumented v t u :
  (forall c, ~ documented (lower t) (lower u) c) -> mk_spectrum v t u = Raise ValueError.
Proof.
  intros H. unfold mk_spectrum; cbv zeta.
  destruct (dhas SPECTRUM_TYPES (lower t)) eqn:Ht; cbn [negb]; [|reflexivity].
  now rewrite std_unit_raise.
Qed.

Lemma convert_to_undocumented s t u :
  (forall c, ~ documented (lower t) u c) -> convert_to s t u = Raise ValueError.
Proof.
  intros H. unfold convert_to; cbv zeta.
  destruct (dhas SPECTRUM_TYPES (lower t)) eqn:Ht; cbn [negb]; [|reflexivity].
  now rewrite std_unit_raise.
Qed.

Lemma documented_dec t u : {c | documented t u c} + {forall c, ~ documented t u c}.
Proof.
  destruct (dhas SPECTRUM_TYPES t) eqn:Ht.
  - destruct (standardise_unit t u) as [c|e] eqn:E.
    + left. exists c. now apply std_unit_spec.
    + right. intros c H. apply std_unit_spec in H; [congruence|assumption].
  - right. intros c H. apply documented_type in H. congruence.
Qed.

(** ** rounding *)
Lemma ZnearestE_tie x : Rabs (x - IZR (ZnearestE x)) = / 2 -> Z.even (ZnearestE x) = true.
Proof.
  intros H. unfold Znearest in *.
  destruct (Rcompare_spec (x - IZR (Zfloor x)) (/ 2)) as [C|C|C].
  - exfalso. pose proof (Zfloor_lb x). rewrite Rabs_pos_eq in H by lra. lra.
  - destruct (Z.even (Zfloor x)) eqn:E; cbn [negb] in *; [exact E|].
    assert (Hc : Zceil x = (Zfloor x + 1)%Z).
    { apply Zceil_floor_neq. intros Heq. rewrite Heq in C. lra. }
    rewrite Hc. rewrite Z.even_add. rewrite E. reflexivity.
  - exfalso. assert (Hc : Zceil x = (Zfloor x + 1)%Z).
    { apply Zceil_floor_neq. intros Heq. rewrite Heq in C. lra. }
    rewrite Hc in H. rewrite plus_IZR in H. pose proof (Zfloor_ub x).
    rewrite Rabs_left in H by lra. lra.
Qed.

Lemma round_dec_spec d x : rounds_to d x (round_dec d x).
Proof.
  exists (ZnearestE (x * 10 ^ d)). split; [reflexivity|]. split; [apply round_dec_error|].
  intros H. apply ZnearestE_tie.
  assert (Hp : 0 < 10 ^ d) by (apply pow_lt; lra).
  unfold round_dec in H.
  replace (IZR (ZnearestE (x * 10 ^ d)) / 10 ^ d - x)
    with ((IZR (ZnearestE (x * 10 ^ d)) - x * 10 ^ d) * / 10 ^ d) in H by (field; lra).
  rewrite Rabs_mult, (Rabs_pos_eq (/ 10 ^ d)) in H by (left; now apply Rinv_0_lt_compat).
  apply Rmult_eq_reg_r in H; [|apply Rgt_not_eq; now apply Rinv_0_lt_compat].
  rewrite Rabs_minus_sym. exact H.
Qed.

(** ** scalar arithmetic *)
Lemma scalar_inv_pos x : x <> 0 -> safe_inverse_scalar (Fin x) = Fin (/ x).
Proof.
  intros H. unfold safe_inverse_scalar. cbn [xeqb]. rewrite (proj2 (Reqb_false x 0) H).
  rewrite xdiv_fin by assumption. f_equal. unfold Rdiv. ring.
Qed.
Lemma scalar_inv_0 : safe_inverse_scalar (Fin 0) = PInf.
Proof. unfold safe_inverse_scalar. cbn [xeqb]. now rewrite (proj2 (Reqb_true 0 0) eq_refl). Qed.
Lemma scalar_inv_inf : safe_inverse_scalar PInf = Fin 0.
Proof. reflexivity. Qed.

Lemma elem_inv_big x : / 10 ^ 8 < Rabs x -> safe_inverse_elem (Fin x) = Fin (/ x).
Proof.
  intros H. unfold safe_inverse_elem. cbn [isclose_zero isclose_inf].
  rewrite (proj2 (Rleb_false _ _) H).
  assert (x <> 0).
  { intros ->. rewrite Rabs_R0 in H. assert (0 < / 10 ^ 8) by (apply Rinv_0_lt_compat, pow_lt; lra). lra. }
  rewrite xdiv_fin by assumption. f_equal. unfold Rdiv. ring.
Qed.

Lemma xmul_pinf k : 0 < k -> xmul (Fin k) PInf = PInf.
Proof. intros H. cbn. unfold xinf_sign. destruct (Rlt_dec 0 k); [reflexivity|lra]. Qed.

Lemma const_pos : 0 < const_c /\ 0 < const_h /\ 0 < const_e /\ 0 < PI /\
                  0 < const_h * const_c / const_e.
Proof.
  assert (H1 : 0 < const_c) by (unfold const_c; lra).
  assert (H2 : 0 < const_h).
  { unfold const_h. apply Rdiv_lt_0_compat; [lra|apply pow_lt; lra]. }
  assert (H3 : 0 < const_e).
  { unfold const_e. apply Rdiv_lt_0_compat; [lra|apply pow_lt; lra]. }
  split; [assumption|]. split; [assumption|]. split; [assumption|]. split; [apply PI_RGT_0|].
  apply Rdiv_lt_0_compat; [now apply Rmult_lt_0_compat|assumption].
Qed.

Lemma consts_eq : speed_of_light = const_c /\ planck = const_h /\ elementary_charge = const_e.
Proof.
  repeat split; unfold planck, const_h, elementary_charge, const_e.
  - replace (6.62607015) with (662607015 / 10 ^ 8) by lra.
    change 42%nat with (8 + 34)%nat. rewrite pow_add.
    generalize (pow_lt 10 34 ltac:(lra)). generalize (10 ^ 34). intros q Hq. field. lra.
  - replace (1.602176634) with (1602176634 / 10 ^ 9) by lra.
    change 28%nat with (9 + 19)%nat. rewrite pow_add.
    generalize (pow_lt 10 19 ltac:(lra)). generalize (10 ^ 19). intros q Hq. field. lra.
Qed.

Lemma hc_e_eq x : x <> 0 ->
  planck * speed_of_light / (elementary_charge * x) = const_h * const_c / const_e * / x.
Proof.
  intros Hx. destruct consts_eq as (-> & -> & ->).
  destruct const_pos as (H1 & H2 & H3 & _). field. split; lra.
Qed.

Ltac seqb := repeat match goal with |- context [String.eqb ?a ?b] =>
      let r := eval vm_compute in (String.eqb a b) in change (String.eqb a b) with r end.
Ltac conv_unfold :=
  unfold standardise_values; seqb; cbn [andb negb];
  unfold convert_from, to_dispatch; seqb;
  try match goal with |- context [dhas SPECTRUM_TYPES ?a] =>
      change (dhas SPECTRUM_TYPES a) with true end; cbn [negb];
  unfold wavelength_to_standard, frequency_to_standard, energy_to_standard,
      ang_freq_to_standard, wavenumber_to_standard, to_wavelength, to_frequency,
      to_energy, to_ang_freq, to_wavenumber;
  seqb; cbn [negb bind]; unfold vscale; cbn [vmap safe_inverse bind].
Ltac rtype := unfold reciprocal_type; cbn [In]; auto 8.

(** the standard representation of one finite value *)
Lemma std_scalar t u canon x lam :
  documented t u canon -> wavelength_m t canon x lam -> (reciprocal_type t -> x <> 0) ->
  standardise_values t canon (VS (Fin x)) = Ok (VS (Fin lam)).
Proof.
  intros D W Hr.
  destruct W; try assert (Hx : x <> 0) by (apply Hr; rtype); conv_unfold; try reflexivity;
    try rewrite scalar_inv_pos by assumption;
    rewrite ?xmul_fin; apply f_equal; apply f_equal; apply f_equal.
  - lra.
  - unfold Rdiv; ring.
  - unfold Rdiv; ring.
  - unfold Rdiv; ring.
  - reflexivity.
  - now rewrite <- hc_e_eq.
  - unfold speed_of_light, const_c. field. assumption.
  - field. assumption.
Qed.

(** every conversion is element-wise, scalars and arrays differing only in the inverse used *)
Lemma std_form t u canon : documented t u canon ->
  exists g : (xr -> xr) -> xr -> xr,
    (forall x, standardise_values t canon (VS x) = Ok (VS (g safe_inverse_scalar x))) /\
    (forall l, standardise_values t canon (VA l) = Ok (VA (map (g safe_inverse_elem) l))) /\
    (forall i1 i2 x, (reciprocal_type t -> i1 x = i2 x) -> g i1 x = g i2 x).
Proof.
  intros D. destruct (documented_cases _ _ _ D) as [H|[H|[H|[H|[H|[H|[H|[H|H]]]]]]]];
    destruct H as [-> ->].
  - exists (fun _ x => x). repeat split. intros l. rewrite map_id. reflexivity.
  - exists (fun _ => xmul (Fin (/ 10 ^ 2))). repeat split.
  - exists (fun _ => xmul (Fin (/ 10 ^ 6))). repeat split.
  - exists (fun _ => xmul (Fin (/ 10 ^ 9))). repeat split.
  - exists (fun _ => xmul (Fin (/ 10 ^ 10))). repeat split.
  - exists (fun i x => xmul (Fin const_c) (i x)). split; [reflexivity|]. split.
    + intros l. conv_unfold. rewrite map_map. reflexivity.
    + intros i1 i2 x H. rewrite H by rtype. reflexivity.
  - exists (fun i x => xmul (Fin (const_h * const_c / const_e)) (i x)). split; [reflexivity|]. split.
    + intros l. conv_unfold. rewrite map_map. reflexivity.
    + intros i1 i2 x H. rewrite H by rtype. reflexivity.
  - exists (fun i x => xmul (Fin (2 * PI * const_c)) (i x)). split; [reflexivity|]. split.
    + intros l. conv_unfold. rewrite map_map. reflexivity.
    + intros i1 i2 x H. rewrite H by rtype. reflexivity.
  - exists (fun i x => xmul (Fin (/ 10 ^ 2)) (xmul (Fin (2 * PI)) (i x))). split; [reflexivity|]. split.
    + intros l. conv_unfold. rewrite !map_map. reflexivity.
    + intros i1 i2 x H. rewrite H by rtype. reflexivity.
Qed.

Definition to_pre (t : string) (x : xr) : xr :=
  if String.eqb t "wavenumber" then xmul (Fin (/ 10 ^ 2)) x else x.

Lemma to_form t u canon : documented t u canon ->
  exists g : (xr -> xr) -> xr -> xr,
    (forall x, to_dispatch t canon (VS x) = Ok (VS (g safe_inverse_scalar x))) /\
    (forall l, to_dispatch t canon (VA l) = Ok (VA (map (g safe_inverse_elem) l))) /\
    (forall i1 i2 x, (reciprocal_type t -> i1 (to_pre t x) = i2 (to_pre t x)) -> g i1 x = g i2 x).
Proof.
  intros D. destruct (documented_cases _ _ _ D) as [H|[H|[H|[H|[H|[H|[H|[H|H]]]]]]]];
    destruct H as [-> ->].
  - exists (fun _ x => x). repeat split. intros l. rewrite map_id. reflexivity.
  - exists (fun _ x => xround 5 (xmul (Fin (10 ^ 2)) x)). repeat split.
    intros l. conv_unfold. rewrite map_map. reflexivity.
  - exists (fun _ x => xround 9 (xmul (Fin (10 ^ 6)) x)). repeat split.
    intros l. conv_unfold. rewrite map_map. reflexivity.
  - exists (fun _ x => xround 12 (xmul (Fin (10 ^ 9)) x)). repeat split.
    intros l. conv_unfold. rewrite map_map. reflexivity.
  - exists (fun _ x => xround 13 (xmul (Fin (10 ^ 10)) x)). repeat split.
    intros l. conv_unfold. rewrite map_map. reflexivity.
  - exists (fun i x => xmul (Fin const_c) (i x)). split; [reflexivity|]. split.
    + intros l. conv_unfold. rewrite map_map. reflexivity.
    + intros i1 i2 x H. unfold to_pre in H; revert H; seqb; intros H. rewrite H by rtype. reflexivity.
  - exists (fun i x => xround 9 (xmul (Fin (const_h * const_c / const_e)) (i x))). split; [reflexivity|]. split.
    + intros l. conv_unfold. rewrite !map_map. reflexivity.
    + intros i1 i2 x H. unfold to_pre in H; revert H; seqb; intros H. rewrite H by rtype. reflexivity.
  - exists (fun i x => xmul (Fin (2 * PI * const_c)) (i x)). split; [reflexivity|]. split.
    + intros l. conv_unfold. rewrite map_map. reflexivity.
    + intros i1 i2 x H. unfold to_pre in H; revert H; seqb; intros H. rewrite H by rtype. reflexivity.
  - exists (fun i x => xmul (Fin (2 * PI)) (i (xmul (Fin (/ 10 ^ 2)) x))). split; [reflexivity|]. split.
    + intros l. conv_unfold. rewrite !map_map. reflexivity.
    + intros i1 i2 x H. unfold to_pre in H; revert H; seqb; intros H. rewrite H by rtype. reflexivity.
Qed.

Lemma tiny_pos : 0 < / 10 ^ 8.
Proof. apply Rinv_0_lt_compat, pow_lt; lra. Qed.

(** the elements on which array inversion agrees with scalar inversion *)
Definition array_safe (x : xr) : Prop :=
  match x with Fin r => / 10 ^ 8 < Rabs r \/ r = 0 | _ => True end.

Lemma inv_agree x : array_safe x -> safe_inverse_elem x = safe_inverse_scalar x.
Proof.
  destruct x; cbn [array_safe]; try reflexivity.
  intros [H| ->].
  - rewrite elem_inv_big, scalar_inv_pos; auto. intros ->. rewrite Rabs_R0 in H.
    pose proof tiny_pos. lra.
  - rewrite scalar_inv_0. unfold safe_inverse_elem, isclose_zero. rewrite Rabs_R0.
    rewrite (proj2 (Rleb_true _ _)); [reflexivity|]. left. apply tiny_pos.
Qed.

Lemma std_array t u canon xs lams :
  documented t u canon -> Forall2 (wavelength_m t canon) xs lams ->
  (reciprocal_type t -> Forall (fun x => / 10 ^ 8 < Rabs x) xs) ->
  standardise_values t canon (VA (map Fin xs)) = Ok (VA (map Fin lams)).
Proof.
  intros D F Hr. destruct (std_form _ _ _ D) as (g & G1 & G2 & G3). rewrite G2. do 2 f_equal.
  induction F as [|x lam xs lams W F IH]; [reflexivity|].
  assert (Hx : reciprocal_type t -> / 10 ^ 8 < Rabs x).
  { intros Ht. specialize (Hr Ht). now inversion Hr. }
  cbn [map]. f_equal.
  - rewrite (G3 _ safe_inverse_scalar).
    + pose proof (std_scalar t u canon x lam D W) as S. rewrite G1 in S.
      assert (reciprocal_type t -> x <> 0).
      { intros Ht ->. specialize (Hx Ht). rewrite Rabs_R0 in Hx. pose proof tiny_pos. lra. }
      specialize (S H). congruence.
    + intros Ht. apply inv_agree. cbn. auto.
  - apply IH. intros Ht. specialize (Hr Ht). now inversion Hr.
Qed.

Definition rnd_for (canon : string) (x : R) : R :=
  match doc_decimals canon with Some d => round_dec d x | None => x end.
Lemma rnd_for_spec canon x : rounds_for canon x (rnd_for canon x).
Proof.
  unfold rounds_for, rnd_for. destruct (doc_decimals canon); [apply round_dec_spec|reflexivity].
Qed.
Lemma rnd_for_mono canon x y : x <= y -> rnd_for canon x <= rnd_for canon y.
Proof. unfold rnd_for. destruct (doc_decimals canon); [apply round_dec_mono|auto]. Qed.
Ltac rfor := unfold rnd_for;
  match goal with |- context [doc_decimals ?c] =>
    let r := eval vm_compute in (doc_decimals c) in change (doc_decimals c) with r end;
  cbv iota beta.

(** converting the physical wavelength of x back gives x, rounded for the unit *)
Lemma to_scalar t u canon x lam :
  documented t u canon -> t <> "wavenumber"%string ->
  wavelength_m t canon x lam -> (reciprocal_type t -> x <> 0) ->
  to_dispatch t canon (VS (Fin lam)) = Ok (VS (Fin (rnd_for canon x))).
Proof.
  intros D Hn W Hr. destruct const_pos as (P1 & P2 & P3 & P4 & P5).
  destruct consts_eq as (E1 & E2 & E3).
  destruct W; try (exfalso; apply Hn; reflexivity);
    try assert (Hx : x <> 0) by (apply Hr; rtype); conv_unfold; rfor;
    rewrite ?xmul_fin; cbn [xround].
  - reflexivity.
  - replace (10 ^ 2 * (x / 100)) with x by lra. reflexivity.
  - replace (10 ^ 6 * (x / 10 ^ 6)) with x by (field; apply pow_nonzero; lra). reflexivity.
  - replace (10 ^ 9 * (x / 10 ^ 9)) with x by (field; apply pow_nonzero; lra). reflexivity.
  - replace (10 ^ 10 * (x / 10 ^ 10)) with x by (field; apply pow_nonzero; lra). reflexivity.
  - rewrite E1. rewrite scalar_inv_pos by (apply Rmult_integral_contrapositive_currified; [lra|now apply Rinv_neq_0_compat]).
    rewrite xmul_fin. do 3 f_equal. field. split; lra.
  - rewrite hc_e_eq by assumption. rewrite scalar_inv_pos by (apply Rmult_integral_contrapositive_currified; [lra|now apply Rinv_neq_0_compat]).
    rewrite xmul_fin. cbn [xround].
    replace (const_h * const_c / const_e * / (const_h * const_c / const_e * / x)) with x
      by (field; repeat split; lra). reflexivity.
  - rewrite E1. rewrite scalar_inv_pos.
    2: { apply Rmult_integral_contrapositive_currified; [|now apply Rinv_neq_0_compat].
         apply Rgt_not_eq. apply Rmult_lt_0_compat; lra. }
    rewrite xmul_fin. do 3 f_equal. field. repeat split; lra.
Qed.

Lemma to_scalar_wavenumber x lam : x <> 0 ->
  wavelength_m "wavenumber" "1/cm" x lam ->
  to_dispatch "wavenumber" "1/cm" (VS (Fin lam)) = Ok (VS (Fin (10 ^ 4 * x))).
Proof.
  intros Hx W. inversion W; subst. pose proof PI_RGT_0 as HP. conv_unfold. rewrite xmul_fin.
  rewrite scalar_inv_pos.
  - rewrite xmul_fin. do 3 f_equal. field. split; lra.
  - replace (/ 10 ^ 2 * (2 * PI / x / 100)) with (/ 5000 * PI * / x) by (field; lra).
    apply Rmult_integral_contrapositive_currified; [|now apply Rinv_neq_0_compat].
    apply Rgt_not_eq, Rmult_lt_0_compat; lra.
Qed.

(** every positive wavelength has a positive spectral value of every kind *)
Lemma wavelength_inv t u canon lam : documented t u canon -> 0 < lam ->
  exists x, 0 < x /\ wavelength_m t canon x lam.
Proof.
  intros D Hl. destruct const_pos as (P1 & P2 & P3 & P4 & P5).
  destruct consts_eq as (E1 & E2 & E3).
  assert (T : forall n, 0 < 10 ^ n) by (intros; apply pow_lt; lra).
  destruct (documented_cases _ _ _ D) as [H|[H|[H|[H|[H|[H|[H|[H|H]]]]]]]]; destruct H as [-> ->].
  - exists lam. split; [assumption|constructor].
  - exists (lam * 100). split; [lra|]. replace lam with (lam * 100 / 100) at 2 by lra. constructor.
  - exists (lam * 10 ^ 6). split; [apply Rmult_lt_0_compat; auto|].
    replace lam with (lam * 10 ^ 6 / 10 ^ 6) at 2 by (field; apply Rgt_not_eq, T). constructor.
  - exists (lam * 10 ^ 9). split; [apply Rmult_lt_0_compat; auto|].
    replace lam with (lam * 10 ^ 9 / 10 ^ 9) at 2 by (field; apply Rgt_not_eq, T). constructor.
  - exists (lam * 10 ^ 10). split; [apply Rmult_lt_0_compat; auto|].
    replace lam with (lam * 10 ^ 10 / 10 ^ 10) at 2 by (field; apply Rgt_not_eq, T). constructor.
  - exists (const_c / lam). split; [now apply Rdiv_lt_0_compat|].
    replace lam with (speed_of_light / (const_c / lam)) at 2 by (rewrite E1; field; lra). constructor.
  - exists (const_h * const_c / const_e / lam). split; [now apply Rdiv_lt_0_compat|].
    replace lam with (planck * speed_of_light / (elementary_charge * (const_h * const_c / const_e / lam))) at 2
      by (rewrite E1, E2, E3; field; repeat split; lra). constructor.
  - exists (2 * PI * const_c / lam). split; [apply Rdiv_lt_0_compat; [apply Rmult_lt_0_compat; lra|lra]|].
    replace lam with (2 * PI * speed_of_light / (2 * PI * const_c / lam)) at 2
      by (rewrite E1; field; repeat split; lra). constructor.
  - exists (2 * PI / (lam * 100)). split; [apply Rdiv_lt_0_compat; lra|].
    replace lam with (2 * PI / (2 * PI / (lam * 100)) / 100) at 2 by (field; repeat split; lra). constructor.
Qed.

Lemma wavelength_fun t canon x l1 l2 : wavelength_m t canon x l1 -> wavelength_m t canon x l2 -> l1 = l2.
Proof. intros H1 H2. destruct H1; inversion H2; reflexivity. Qed.

Lemma wavelength_pos t canon x lam : wavelength_m t canon x lam -> 0 < x -> 0 < lam.
Proof.
  destruct const_pos as (P1 & P2 & P3 & P4 & P5). destruct consts_eq as (E1 & E2 & E3).
  assert (T : forall n, 0 < 10 ^ n) by (intros; apply pow_lt; lra).
  intros W Hx. destruct W; rewrite ?E1, ?E2, ?E3.
  - lra.
  - lra.
  - apply Rdiv_lt_0_compat; auto.
  - apply Rdiv_lt_0_compat; auto.
  - apply Rdiv_lt_0_compat; auto.
  - apply Rdiv_lt_0_compat; auto.
  - apply Rdiv_lt_0_compat; [now apply Rmult_lt_0_compat|now apply Rmult_lt_0_compat].
  - apply Rdiv_lt_0_compat; [apply Rmult_lt_0_compat; lra|lra].
  - apply Rdiv_lt_0_compat; [apply Rdiv_lt_0_compat|]; lra.
Qed.

(** spectral value and wavelength are in strictly monotone correspondence *)
Lemma wavelength_order t canon x1 x2 l1 l2 :
  wavelength_m t canon x1 l1 -> wavelength_m t canon x2 l2 -> 0 < x1 -> 0 < x2 ->
  if String.eqb t "wavelength" then (l1 < l2 <-> x1 < x2) else (l1 < l2 <-> x2 < x1).
Proof.
  destruct const_pos as (P1 & P2 & P3 & P4 & P5). destruct consts_eq as (E1 & E2 & E3).
  assert (T : forall n, 0 < 10 ^ n) by (intros; apply pow_lt; lra).
  assert (Q1 : forall k a b, 0 < k -> (a * k < b * k <-> a < b)).
  { intros k a b Hk. split; intros H; [now apply Rmult_lt_reg_r in H|now apply Rmult_lt_compat_r]. }
  assert (Q2 : forall k a b, 0 < k -> 0 < a -> 0 < b -> (k * / a < k * / b <-> b < a)).
  { intros k a b Hk Ha Hb. split; intros H.
    - apply Rmult_lt_reg_l in H; [|assumption]. destruct (Rlt_or_le b a) as [?|C]; [assumption|]. apply Rinv_le_contravar in C; lra.
    - apply Rmult_lt_compat_l; [assumption|]. apply Rinv_lt_contravar; [now apply Rmult_lt_0_compat|assumption]. }
  intros W1 W2 H1 H2. destruct W1; inversion W2; subst; seqb; cbv iota; rewrite ?E1.
  - tauto.
  - split; lra.
  - apply Q1, Rinv_0_lt_compat, T.
  - apply Q1, Rinv_0_lt_compat, T.
  - apply Q1, Rinv_0_lt_compat, T.
  - apply Q2; assumption.
  - rewrite <- E1. rewrite !hc_e_eq by lra. apply Q2; assumption.
  - apply Q2; auto. apply Rmult_lt_0_compat; lra.
  - replace (2 * PI / x / 100) with (PI / 50 * / x) by (field; lra).
    replace (2 * PI / x2 / 100) with (PI / 50 * / x2) by (field; lra).
    apply Q2; auto. lra.
Qed.

(** ** constructor results *)
Lemma mk_spectrum_ok v t u s : mk_spectrum v t u = Ok s ->
  exists canon w, documented (lower t) (lower u) canon /\ v = InVals w /\
    standardise_values (lower t) canon w = Ok (sp_std s) /\
    sp_type s = lower t /\ sp_unit s = canon /\ sp_values s = w.
Proof.
  intros H. destruct (documented_dec (lower t) (lower u)) as [[c D]|D].
  - rewrite (mk_spectrum_unfold _ _ _ _ D) in H. destruct v as [w|]; [|discriminate].
    destruct (standardise_values (lower t) c w) as [std|e] eqn:E; cbn [bind] in H; [|discriminate].
    injection H as <-. exists c, w. auto 8.
  - rewrite mk_spectrum_undocumented in H by assumption. discriminate.
Qed.

Lemma mk_scalar t u canon x lam :
  documented (lower t) (lower u) canon -> wavelength_m (lower t) canon x lam ->
  (reciprocal_type (lower t) -> x <> 0) ->
  mk_spectrum (InVals (VS (Fin x))) t u = Ok (mkSp (lower t) canon (VS (Fin x)) (VS (Fin lam))).
Proof.
  intros D W Hr. rewrite (mk_spectrum_unfold _ _ _ _ D).
  rewrite (std_scalar _ _ _ _ _ D W Hr). reflexivity.
Qed.

(** ** in-place conversion *)
Lemma in_place_spec s t u :
  convert_in_place s t u =
  match convert_to s t u with
  | Raise e => (Raise e, s)
  | Ok v => (Ok tt, mkSp (lower t)
                (match standardise_unit (lower t) u with Ok c => c | _ => "" end) v (sp_std s))
  end.
Proof.
  unfold convert_in_place, convert_to; cbv zeta.
  destruct (dhas SPECTRUM_TYPES (lower t)); cbn [negb]; [|reflexivity].
  destruct (standardise_unit (lower t) u) as [c|e]; cbn [bind]; [|reflexivity].
  destruct (to_dispatch (lower t) c (sp_std s)); reflexivity.
Qed.

Lemma convert_to_std s s' t u : sp_std s = sp_std s' -> convert_to s t u = convert_to s' t u.
Proof. intros H. unfold convert_to. now rewrite H. Qed.

Lemma convert_to_ok_documented s t u v : convert_to s t u = Ok v ->
  exists c, documented (lower t) u c.
Proof.
  intros H. destruct (documented_dec (lower t) u) as [[c D]|D]; [eauto|].
  rewrite convert_to_undocumented in H by assumption. discriminate.
Qed.

Definition run_in_place (s : spectrum) (reqs : list (string * string)) : spectrum :=
  fold_left (fun s r => snd (convert_in_place s (fst r) (snd r))) reqs s.

Lemma in_place_std s t u : sp_std (snd (convert_in_place s t u)) = sp_std s.
Proof. rewrite in_place_spec. destruct (convert_to s t u); reflexivity. Qed.

Lemma run_std reqs s : sp_std (run_in_place s reqs) = sp_std s.
Proof.
  unfold run_in_place. revert s. induction reqs as [|[t u] r IH]; intros s; [reflexivity|].
  cbn [fold_left fst snd]. rewrite IH. apply in_place_std.
Qed.

Lemma run_none s reqs : (forall t u, In (t, u) reqs -> is_ok (convert_to s t u) = false) ->
  run_in_place s reqs = s.
Proof.
  unfold run_in_place. induction reqs as [|[t u] r IH]; intros H; [reflexivity|].
  cbn [fold_left fst snd]. rewrite in_place_spec. specialize (H t u (or_introl eq_refl)) as Hh.
  destruct (convert_to s t u); [discriminate|]. cbn [snd]. apply IH.
  intros t' u' Hin. apply H. now right.
Qed.

Lemma run_last s pre t u post v canon :
  convert_to s t u = Ok v -> documented (lower t) u canon ->
  (forall t' u', In (t', u') post -> is_ok (convert_to s t' u') = false) ->
  run_in_place s (pre ++ (t, u) :: post) = mkSp (lower t) canon v (sp_std s).
Proof.
  intros Hv D Hp. unfold run_in_place. rewrite fold_left_app. cbn [fold_left fst snd].
  fold (run_in_place s pre). pose proof (run_std pre s) as E.
  set (s1 := run_in_place s pre) in *. rewrite in_place_spec.
  rewrite (convert_to_std s1 s t u E). rewrite Hv. cbn [snd]. rewrite E.
  rewrite (proj2 (std_unit_spec _ _ _ (documented_type _ _ _ D)) D).
  apply run_none. intros t' u' Hin. rewrite (convert_to_std _ s) by reflexivity. auto.
Qed.

(** ** minimum, maximum, contains *)
Lemma fold_min_spec l x : let m := fold_left xmin2 l x in
  (m = NaN /\ exists y, In y (x :: l) /\ is_nan y = true) \/
  ((forall y, In y (x :: l) -> is_nan y = false) /\ In m (x :: l) /\ forall y, In y (x :: l) -> xle m y = true).
Proof.
  revert x. induction l as [|a l IH]; intros x; cbn [fold_left].
  - destruct (is_nan x) eqn:E.
    + left. split; [destruct x; try discriminate; reflexivity|]. exists x. cbn; auto.
    + right. split; [intros y [<-|[]]; assumption|]. split; [now left|].
      intros y [<-|[]]. rewrite xle_not_lt by assumption. now rewrite xlt_irrefl.
  - specialize (IH (xmin2 x a)). cbv zeta in *. destruct IH as [[Em [y [Hy Hn]]]|[Hn [Hm Hle]]].
    + left. split; [assumption|]. destruct Hy as [<-|Hy].
      * unfold xmin2 in Hn. destruct (is_nan x) eqn:Ex; [exists x; cbn; auto|].
        destruct (is_nan a) eqn:Ea; [exists a; cbn; auto|].
        destruct (xlt a x); congruence.
      * exists y. cbn; auto.
    + right. pose proof (Hn _ (or_introl eq_refl)) as Hx.
      assert (Ex : is_nan x = false).
      { unfold xmin2 in Hx. destruct (is_nan x); [discriminate Hx|reflexivity]. }
      assert (Ea : is_nan a = false).
      { unfold xmin2 in Hx. rewrite Ex in Hx. destruct (is_nan a); [discriminate Hx|reflexivity]. }
      assert (Hcase : xmin2 x a = x /\ xlt a x = false \/ xmin2 x a = a /\ xlt a x = true).
      { unfold xmin2. rewrite Ex, Ea. destruct (xlt a x); auto. }
      split; [|split].
      * intros y [<-|[<-|Hy]]; auto. apply Hn. now right.
      * destruct Hm as [Hm|Hm]; [|now right; right].
        rewrite <- Hm. destruct Hcase as [[-> _]|[-> _]]; cbn; auto.
      * set (m := fold_left xmin2 l (xmin2 x a)) in *.
        assert (Em : is_nan m = false) by (apply Hn; exact Hm).
        pose proof (Hle _ (or_introl eq_refl)) as H0.
        intros y [<-|[<-|Hy]]; [| |apply Hle; now right].
        -- destruct Hcase as [[Hc _]|[Hc Hlt]]; rewrite Hc in H0; [assumption|].
           rewrite xle_not_lt in H0 |- * by assumption.
           destruct (xlt x m) eqn:El; [|reflexivity].
           rewrite (xlt_trans _ _ _ Hlt El) in H0. discriminate.
        -- destruct Hcase as [[Hc Hlt]|[Hc _]]; rewrite Hc in H0; [|assumption].
           rewrite xle_not_lt in H0 |- * by assumption.
           destruct (xlt a m) eqn:El; [|reflexivity].
           (* a < m <= x, so a < x *)
           exfalso. clear - H0 El Hlt Ea Ex Em. destruct a, x, m; cbn in *; try discriminate;
           repeat match goal with
           | H : Rltb _ _ = true |- _ => apply Rltb_true in H
           | H : Rltb _ _ = false |- _ => apply Rltb_false in H
           | H : negb (Rltb _ _) = true |- _ => apply negb_true_iff, Rltb_false in H end; try lra.
Qed.

Lemma fold_max_spec l x : let m := fold_left xmax2 l x in
  (m = NaN /\ exists y, In y (x :: l) /\ is_nan y = true) \/
  ((forall y, In y (x :: l) -> is_nan y = false) /\ In m (x :: l) /\ forall y, In y (x :: l) -> xle y m = true).
Proof.
  revert x. induction l as [|a l IH]; intros x; cbn [fold_left].
  - destruct (is_nan x) eqn:E.
    + left. split; [destruct x; try discriminate; reflexivity|]. exists x. cbn; auto.
    + right. split; [intros y [<-|[]]; assumption|]. split; [now left|].
      intros y [<-|[]]. rewrite xle_not_lt by assumption. now rewrite xlt_irrefl.
  - specialize (IH (xmax2 x a)). cbv zeta in *. destruct IH as [[Em [y [Hy Hn]]]|[Hn [Hm Hle]]].
    + left. split; [assumption|]. destruct Hy as [<-|Hy].
      * unfold xmax2 in Hn. destruct (is_nan x) eqn:Ex; [exists x; cbn; auto|].
        destruct (is_nan a) eqn:Ea; [exists a; cbn; auto|].
        destruct (xlt x a); congruence.
      * exists y. cbn; auto.
    + right. pose proof (Hn _ (or_introl eq_refl)) as Hx.
      assert (Ex : is_nan x = false).
      { unfold xmax2 in Hx. destruct (is_nan x); [discriminate Hx|reflexivity]. }
      assert (Ea : is_nan a = false).
      { unfold xmax2 in Hx. rewrite Ex in Hx. destruct (is_nan a); [discriminate Hx|reflexivity]. }
      assert (Hcase : xmax2 x a = x /\ xlt x a = false \/ xmax2 x a = a /\ xlt x a = true).
      { unfold xmax2. rewrite Ex, Ea. destruct (xlt x a); auto. }
      split; [|split].
      * intros y [<-|[<-|Hy]]; auto. apply Hn. now right.
      * destruct Hm as [Hm|Hm]; [|now right; right].
        rewrite <- Hm. destruct Hcase as [[-> _]|[-> _]]; cbn; auto.
      * set (m := fold_left xmax2 l (xmax2 x a)) in *.
        assert (Em : is_nan m = false) by (apply Hn; exact Hm).
        pose proof (Hle _ (or_introl eq_refl)) as H0.
        intros y [<-|[<-|Hy]]; [| |apply Hle; now right].
        -- destruct Hcase as [[Hc _]|[Hc Hlt]]; rewrite Hc in H0; [assumption|].
           rewrite xle_not_lt in H0 |- * by assumption.
           destruct (xlt m x) eqn:El; [|reflexivity].
           rewrite (xlt_trans _ _ _ El Hlt) in H0. discriminate.
        -- destruct Hcase as [[Hc Hlt]|[Hc _]]; rewrite Hc in H0; [|assumption].
           rewrite xle_not_lt in H0 |- * by assumption.
           destruct (xlt m a) eqn:El; [|reflexivity].
           exfalso. clear - H0 El Hlt Ea Ex Em. destruct a, x, m; cbn in *; try discriminate;
           repeat match goal with
           | H : Rltb _ _ = true |- _ => apply Rltb_true in H
           | H : Rltb _ _ = false |- _ => apply Rltb_false in H
           | H : negb (Rltb _ _) = true |- _ => apply negb_true_iff, Rltb_false in H end; try lra.
Qed.

Lemma np_min_ok l : l <> [] -> exists m, np_min l = Ok m /\
  ((m = NaN /\ exists y, In y l /\ is_nan y = true) \/
   ((forall y, In y l -> is_nan y = false) /\ In m l /\ forall y, In y l -> xle m y = true)).
Proof.
  destruct l as [|x l]; [congruence|]. intros _. eexists; split; [reflexivity|]. apply fold_min_spec.
Qed.
Lemma np_max_ok l : l <> [] -> exists m, np_max l = Ok m /\
  ((m = NaN /\ exists y, In y l /\ is_nan y = true) \/
   ((forall y, In y l -> is_nan y = false) /\ In m l /\ forall y, In y l -> xle y m = true)).
Proof.
  destruct l as [|x l]; [congruence|]. intros _. eexists; split; [reflexivity|]. apply fold_max_spec.
Qed.

Lemma xle_trans a b c : xle a b = true -> xle b c = true -> xle a c = true.
Proof.
  intros H1 H2. unfold xle in *. destruct a, b, c; cbn in *; try discriminate; try reflexivity.
  apply orb_true_iff in H1, H2. rewrite !Rltb_true, !Reqb_true in *. apply orb_true_iff.
  rewrite Rltb_true, Reqb_true. lra.
Qed.

Section Contains.
Variables (range other : spectrum) (ov : vals).
Hypothesis Hconv : convert_to other (sp_type range) (sp_unit range) = Ok ov.
Let rs := elems (sp_values range).
Let os := elems ov.

Lemma contains_unfold :
  contains range other =
  do omin <- np_min os; do omax <- np_max os; do smin <- np_min rs; do smax <- np_max rs;
  if xlt omin smin || xgt omax smax then do_ display_string (sp_unit range); Raise ValueError else Ok true.
Proof. unfold contains. rewrite Hconv. reflexivity. Qed.

Lemma contains_nonan :
  os <> [] -> rs <> [] -> Forall (fun x => is_nan x = false) os -> Forall (fun x => is_nan x = false) rs ->
  contains range other =
    if existsb (fun o => forallb (fun r => xlt o r) rs || forallb (fun r => xlt r o) rs) os
    then do_ display_string (sp_unit range); Raise ValueError else Ok true.
Proof.
  intros H1 H2 N1 N2. rewrite Forall_forall in N1, N2. rewrite contains_unfold.
  destruct (np_min_ok os H1) as (omin & -> & [[_ (y & Hy & Hn)]|(_ & Io & Lo)]);
    [rewrite N1 in Hn by assumption; discriminate|].
  destruct (np_max_ok os H1) as (omax & -> & [[_ (y & Hy & Hn)]|(_ & Io' & Lo')]);
    [rewrite N1 in Hn by assumption; discriminate|].
  destruct (np_min_ok rs H2) as (smin & -> & [[_ (y & Hy & Hn)]|(_ & Is & Ls)]);
    [rewrite N2 in Hn by assumption; discriminate|].
  destruct (np_max_ok rs H2) as (smax & -> & [[_ (y & Hy & Hn)]|(_ & Is' & Ls')]);
    [rewrite N2 in Hn by assumption; discriminate|].
  cbn [bind]. unfold xgt.
  assert (E : (xlt omin smin || xlt smax omax)%bool =
    existsb (fun o => forallb (fun r => xlt o r) rs || forallb (fun r => xlt r o) rs) os).
  { apply eq_true_iff_eq. rewrite existsb_exists, orb_true_iff. split.
    - intros [H|H].
      + exists omin. split; [assumption|]. apply orb_true_iff. left. apply forallb_forall.
        intros r Hr. pose proof (N2 r Hr) as Nz. pose proof (Ls r Hr) as L. rewrite xle_not_lt in L by auto.
        clear - H L Nz. apply negb_true_iff in L.
        destruct omin, smin, r; cbn in *; try discriminate; try reflexivity.
        apply Rltb_true in H. apply Rltb_false in L. apply Rltb_true. lra.
      + exists omax. split; [assumption|]. apply orb_true_iff. right. apply forallb_forall.
        intros r Hr. pose proof (N2 r Hr) as Nz. pose proof (Ls' r Hr) as L. rewrite xle_not_lt in L by auto.
        clear - H L Nz. apply negb_true_iff in L.
        destruct omax, smax, r; cbn in *; try discriminate; try reflexivity.
        apply Rltb_true in H. apply Rltb_false in L. apply Rltb_true. lra.
    - intros (o & Ho & H). apply orb_true_iff in H. destruct H as [H|H]; [left|right].
      + rewrite forallb_forall in H. specialize (H _ Is). pose proof (Lo o Ho) as L. pose proof (N1 o Ho) as Nz. pose proof (N1 _ Io) as Nm. pose proof (N1 _ Io') as Nm'.
        rewrite xle_not_lt in L by auto. apply negb_true_iff in L.
        clear - H L Nz Nm Nm'. destruct omin, smin, o; cbn in *; try discriminate; try reflexivity.
        apply Rltb_true in H. apply Rltb_false in L. apply Rltb_true. lra.
      + rewrite forallb_forall in H. specialize (H _ Is'). pose proof (Lo' o Ho) as L. pose proof (N1 o Ho) as Nz. pose proof (N1 _ Io) as Nm. pose proof (N1 _ Io') as Nm'.
        rewrite xle_not_lt in L by auto. apply negb_true_iff in L.
        clear - H L Nz Nm Nm'. destruct omax, smax, o; cbn in *; try discriminate; try reflexivity.
        apply Rltb_true in H. apply Rltb_false in L. apply Rltb_true. lra. }
  rewrite E. reflexivity.
Qed.

Lemma hull_bool o : is_nan o = false -> Forall (fun x => is_nan x = false) rs ->
  (forallb (fun r => xlt o r) rs || forallb (fun r => xlt r o) rs = false <-> within_hull rs o).
Proof.
  intros No Nr. rewrite Forall_forall in Nr. rewrite orb_false_iff. unfold within_hull. split.
  - intros [H1 H2]. split.
    + clear H2. revert H1 Nr. generalize rs. intros l. induction l as [|a l IH]; cbn; [discriminate|].
      intros H Nr. apply andb_false_iff in H. destruct H as [H|H].
      * exists a. split; [now left|]. rewrite xle_not_lt by auto. now rewrite H.
      * destruct IH as (b & Hb & L); auto. exists b. split; [now right|assumption].
    + clear H1. revert H2 Nr. generalize rs. intros l. induction l as [|a l IH]; cbn; [discriminate|].
      intros H Nr. apply andb_false_iff in H. destruct H as [H|H].
      * exists a. split; [now left|]. rewrite xle_not_lt by auto. now rewrite H.
      * destruct IH as (b & Hb & L); auto. exists b. split; [now right|assumption].
  - intros [(a & Ha & La) (b & Hb & Lb)]. rewrite xle_not_lt in La, Lb by auto.
    apply negb_true_iff in La, Lb. split.
    + apply not_true_is_false. intros H. rewrite forallb_forall in H. rewrite H in La by assumption. discriminate.
    + apply not_true_is_false. intros H. rewrite forallb_forall in H. rewrite H in Lb by assumption. discriminate.
Qed.

Lemma contains_hull :
  os <> [] -> rs <> [] -> Forall (fun x => is_nan x = false) os -> Forall (fun x => is_nan x = false) rs ->
  (Forall (within_hull rs) os /\ contains range other = Ok true) \/
  (~ Forall (within_hull rs) os /\
   contains range other = do_ display_string (sp_unit range); Raise ValueError).
Proof.
  intros H1 H2 N1 N2. rewrite contains_nonan by assumption.
  destruct (existsb _ os) eqn:E.
  - right. split; [|reflexivity]. intros F. apply existsb_exists in E. destruct E as (o & Ho & Hb).
    rewrite Forall_forall in F, N1. apply F in Ho as Hw. apply hull_bool in Hw; auto. congruence.
  - left. split; [|reflexivity]. apply Forall_forall. intros o Ho. rewrite Forall_forall in N1.
    apply hull_bool; auto. apply not_true_is_false. intros C.
    assert (existsb (fun o => forallb (fun r => xlt o r) rs || forallb (fun r => xlt r o) rs) os = true)
      by (apply existsb_exists; eauto). congruence.
Qed.

Lemma contains_nan : os <> [] -> rs <> [] ->
  (exists x, In x os /\ is_nan x = true) \/ (exists x, In x rs /\ is_nan x = true) ->
  contains range other = Ok true.
Proof.
  intros H1 H2 Hn. rewrite contains_unfold.
  destruct (np_min_ok os H1) as (omin & -> & C1). destruct (np_max_ok os H1) as (omax & -> & C2).
  destruct (np_min_ok rs H2) as (smin & -> & C3). destruct (np_max_ok rs H2) as (smax & -> & C4).
  cbn [bind]. destruct Hn as [(x & Hx & Nx)|(x & Hx & Nx)].
  - destruct C1 as [[-> _]|[C _]]; [|rewrite C in Nx by assumption; discriminate].
    destruct C2 as [[-> _]|[C _]]; [|rewrite C in Nx by assumption; discriminate].
    unfold xgt. destruct smin, smax; reflexivity.
  - destruct C3 as [[-> _]|[C _]]; [|rewrite C in Nx by assumption; discriminate].
    destruct C4 as [[-> _]|[C _]]; [|rewrite C in Nx by assumption; discriminate].
    unfold xgt. destruct omin, omax; reflexivity.
Qed.

Lemma contains_empty : os = [] \/ rs = [] -> contains range other = Raise ValueError.
Proof.
  intros H. rewrite contains_unfold. destruct os as [|o l]; [reflexivity|].
  destruct H as [H|H]; [discriminate|]. rewrite H. reflexivity.
Qed.
End Contains.

Lemma display_documented t u c : documented t u c ->
  display_string c = if String.eqb c "cm" then Raise KeyError else display_string c.
Proof.
  intros D. destruct (documented_cases _ _ _ D) as [H|[H|[H|[H|[H|[H|[H|[H|H]]]]]]]];
    destruct H as [_ ->]; reflexivity.
Qed.
Lemma display_ok t u c : documented t u c -> c <> "cm"%string -> exists n, display_string c = Ok n.
Proof.
  intros D Hc. destruct (documented_cases _ _ _ D) as [H|[H|[H|[H|[H|[H|[H|[H|H]]]]]]]];
    destruct H as [_ ->]; try (eexists; reflexivity). congruence.
Qed.
