(** Proofs about Extrapolation and constants. *)
From Verif Require Import PyBase PyStr XReal CNum SpectrumModel SpectrumSpec SpectrumProofs SpectralModel SpectralSpec SpectralProofs EvalProofs.
From Flocq Require Import Core.
Open Scope R_scope.
Open Scope list_scope.

Lemma eval_req_scalar X k p rng t u rt ru d s w :
  mk_model k p rng t u = Ok d -> required k = Some (rt, ru) -> rt <> "wavenumber"%string ->
  k <> TaucLorentz -> lower u = u -> asked d s rt ru w ->
  evaluate X d s = (do o <- model_point k p (Fin w); Ok (OS o), s).
Proof.
  intros M Rq Hn Hk Hu A. destruct (mk_model_ok _ _ _ _ _ _ M) as (c & r & D & _ & _ & E).
  rewrite Rq in E. destruct E as [Et ->]. rewrite Hu in D. subst rt.
  apply (eval_model_scalar X k p rng t u ru d s w M Hu D Hn Hk A).
Qed.

Lemma eval_req_array X k p rng t u rt ru d s ws :
  mk_model k p rng t u = Ok d -> required k = Some (rt, ru) -> rt <> "wavenumber"%string ->
  lower u = u -> asked_all d s rt ru ws ->
  evaluate X d s = (do l <- map_res (fun w => model_point k p (Fin w)) ws; Ok (OA l), s).
Proof.
  intros M Rq Hn Hu A. destruct (mk_model_ok _ _ _ _ _ _ M) as (c & r & D & _ & _ & E).
  rewrite Rq in E. destruct E as [Et ->]. rewrite Hu in D. subst rt.
  apply (eval_model_array X k p rng t u ru d s ws M Hu D Hn A).
Qed.

(** ** shape of every data object *)
Definition good_base (b : dbase) : Prop := exists canon,
  documented (lower (d_type b)) (lower (d_unit b)) canon /\
  sp_type (d_range b) = lower (d_type b) /\ sp_unit (d_range b) = canon.

Lemma mk_base_good rng t u b : mk_base rng t u = Ok b ->
  good_base b /\ d_type b = t /\ d_unit b = u /\ mk_spectrum rng t u = Ok (d_range b).
Proof.
  unfold mk_base. destruct (mk_spectrum rng t u) as [r|] eqn:E; [|discriminate].
  cbn [bind]. intros H. injection H as <-. cbn [d_type d_unit d_range].
  destruct (mk_spectrum_ok _ _ _ _ E) as (c & w & D & _ & _ & E1 & E2 & _).
  split; [|auto]. exists c. cbn. auto.
Qed.

Lemma mk_ext_inv X base ext order d ext' : mk_extrapolation X base ext order = (Ok d, ext') ->
  exists er mn mx b spl,
    convert_in_place ext (sp_type (valid_range base)) (sp_unit (valid_range base)) = (Ok tt, ext') /\
    extrap_range (valid_range base) ext' = Ok er /\ vmin (sp_values er) = Ok mn /\ vmax (sp_values er) = Ok mx /\
    mk_base (InVals (VA [mn; mx])) (d_type (dbase_of base)) (d_unit (dbase_of base)) = Ok b /\
    d = DExtrap b base spl.
Proof.
  unfold mk_extrapolation. cbv zeta.
  destruct (convert_in_place ext _ _) as [[[]|e] s]; [|discriminate].
  destruct (extrap_range _ s) as [er|] eqn:E1; [|discriminate]. cbn [bind].
  destruct (vmin _) as [mn|] eqn:E2; [|discriminate]. cbn [bind].
  destruct (vmax _) as [mx|] eqn:E3; [|discriminate]. cbn [bind].
  destruct (mk_base _ _ _) as [b|] eqn:E4; [|discriminate]. cbn [bind].
  destruct (suggest_spectrum X base) as [sp|]; [|discriminate]. cbn [bind].
  destruct (fst (evaluate X base sp)) as [y|]; [|discriminate]. cbn [bind].
  destruct (splrep_check X _); [|discriminate]. cbn [bind].
  intros H. injection H as <- <-. exists er, mn, mx, b. eexists.
  split; [reflexivity|]. split; [exact E1|]. split; [exact E2|]. split; [exact E3|]. split; [exact E4|]. reflexivity.
Qed.

Lemma built_good X d : built X d -> good_base (dbase_of d).
Proof.
  induction 1 as [d P|p rng t u d M|base ext order d ext' B IH M].
  - destruct (plain_shape d P) as (c & D & E1 & E2 & _). exists c. auto.
  - destruct (mk_model_ok _ _ _ _ _ _ M) as (c & r & D & E & -> & _). cbn [dbase_of].
    destruct (mk_spectrum_ok _ _ _ _ E) as (c' & w & D' & _ & _ & E1 & E2 & _). exists c'. cbn. auto.
  - destruct (mk_ext_inv _ _ _ _ _ _ M) as (er & mn & mx & b & spl & _ & _ & _ & _ & Eb & ->).
    cbn [dbase_of]. now destruct (mk_base_good _ _ _ _ Eb).
Qed.

Lemma contains_std q a b : sp_std a = sp_std b -> contains q a = contains q b.
Proof. intros H. unfold contains. now rewrite (convert_to_std _ _ _ _ H). Qed.

(** ** the extended range *)

Lemma xlt_fin a b : xlt (Fin a) (Fin b) = true <-> a < b.
Proof. cbn. apply Rltb_true. Qed.
Lemma xlt_fin_f a b : xlt (Fin a) (Fin b) = false <-> b <= a.
Proof. cbn. apply Rltb_false. Qed.

Lemma validate_step v lo hi :
  validate_extrap_val (Fin v) (VA [Fin lo; Fin hi]) =
  if xlt (Fin v) (Fin lo) then Ok (VA [Fin v; Fin hi])
  else if xlt (Fin hi) (Fin v) then Ok (VA [Fin lo; Fin v]) else Raise ValueError.
Proof. reflexivity. Qed.

Lemma validate_spec v lo hi : lo <= hi ->
  (out_of lo hi v /\ validate_extrap_val (Fin v) (VA [Fin lo; Fin hi]) = Ok (VA [Fin (Rmin v lo); Fin (Rmax v hi)])) \/
  (~ out_of lo hi v /\ validate_extrap_val (Fin v) (VA [Fin lo; Fin hi]) = Raise ValueError).
Proof.
  intros L. rewrite validate_step. unfold out_of.
  destruct (xlt (Fin v) (Fin lo)) eqn:E1; [apply xlt_fin in E1|apply xlt_fin_f in E1].
  - left. split; [auto|]. rewrite Rmin_left, Rmax_right by lra. reflexivity.
  - destruct (xlt (Fin hi) (Fin v)) eqn:E2; [apply xlt_fin in E2|apply xlt_fin_f in E2].
    + left. split; [auto|]. rewrite Rmin_right, Rmax_left by lra. reflexivity.
    + right. split; [lra|reflexivity].
Qed.


Lemma validate_all_spec vs : forall lo hi, lo <= hi ->
  (extends lo hi vs /\ validate_all (map Fin vs) (VA [Fin lo; Fin hi])
     = Ok (VA [Fin (fold_left (fun a v => Rmin v a) vs lo); Fin (fold_left (fun a v => Rmax v a) vs hi)])) \/
  (~ extends lo hi vs /\ validate_all (map Fin vs) (VA [Fin lo; Fin hi]) = Raise ValueError).
Proof.
  induction vs as [|v vs IH]; intros lo hi L; [left; split; [exact I|reflexivity]|].
  cbn [map validate_all extends fold_left].
  destruct (validate_spec v lo hi L) as [[A E]|[A E]]; rewrite E; cbn [bind].
  - assert (L' : Rmin v lo <= Rmax v hi).
    { apply Rle_trans with v; [apply Rmin_l|apply Rmax_l]. }
    destruct (IH _ _ L') as [[B F]|[B F]]; [left|right]; tauto.
  - right. tauto.
Qed.

Lemma fold_le vs : forall lo, fold_left (fun a v => Rmin v a) vs lo <= lo.
Proof.
  induction vs as [|v vs IH]; intros lo; cbn; [lra|]. apply Rle_trans with (Rmin v lo); [apply IH|apply Rmin_r].
Qed.
Lemma fold_ge vs : forall hi, hi <= fold_left (fun a v => Rmax v a) vs hi.
Proof.
  induction vs as [|v vs IH]; intros lo; cbn; [lra|]. apply Rle_trans with (Rmax v lo); [apply Rmax_r|apply IH].
Qed.

Lemma fold_min vs : forall lo, fold_left (fun a v => Rmin v a) vs lo = fold_right Rmin lo vs.
Proof.
  induction vs as [|v vs IH]; intros lo; [reflexivity|]. cbn. rewrite IH. clear IH.
  induction vs as [|w vs IH]; [reflexivity|]. cbn. rewrite IH.
  unfold Rmin; repeat destruct (Rle_dec _ _); lra.
Qed.
Lemma fold_max vs : forall lo, fold_left (fun a v => Rmax v a) vs lo = fold_right Rmax lo vs.
Proof.
  induction vs as [|v vs IH]; intros lo; [reflexivity|]. cbn. rewrite IH. clear IH.
  induction vs as [|w vs IH]; [reflexivity|]. cbn. rewrite IH.
  unfold Rmax; repeat destruct (Rle_dec _ _); lra.
Qed.

Section Ext.
Variable (X : scipy).
Variables (base : sdata) (ext : spectrum) (order : Z).
Hypothesis B : built X base.
Variables (lo hi : R).
Hypothesis L : lo <= hi.
Hypothesis Er : sp_values (valid_range base) = VA [Fin lo; Fin hi].
Variables (ov : vals) (vs : list R).
Hypothesis C : convert_to ext (sp_type (valid_range base)) (sp_unit (valid_range base)) = Ok ov.
Hypothesis Ev : elems ov = map Fin vs.
Hypothesis Hf : forall l, ov <> VI l.

Lemma base_range_doc : exists canon,
  documented (lower (d_type (dbase_of base))) (lower (d_unit (dbase_of base))) canon /\
  sp_type (valid_range base) = lower (d_type (dbase_of base)) /\
  sp_unit (valid_range base) = canon /\
  documented (lower (sp_type (valid_range base))) (lower (sp_unit (valid_range base))) canon /\
  documented (lower (sp_type (valid_range base))) (sp_unit (valid_range base)) canon /\
  lower (sp_type (valid_range base)) = sp_type (valid_range base).
Proof.
  destruct (built_good X base B) as (c & D & E1 & E2). exists c. unfold valid_range.
  destruct (documented_lower _ _ _ D) as (L1 & L2).
  pose proof (documented_canon _ _ _ D) as Dc. destruct (documented_lower _ _ _ Dc) as (L3 & _).
  rewrite E1, E2, L2, L3. auto 8.
Qed.

Lemma ext_in_place :
  convert_in_place ext (sp_type (valid_range base)) (sp_unit (valid_range base))
  = (Ok tt, mkSp (sp_type (valid_range base)) (sp_unit (valid_range base)) ov (sp_std ext)).
Proof.
  destruct base_range_doc as (c & _ & _ & Eu & _ & D & Lt).
  rewrite in_place_spec, C. do 2 f_equal; [exact Lt|].
  rewrite Lt in D |- *. apply std_unit_spec in D; [|apply (documented_type _ _ _ D)]. now rewrite D, Eu.
Qed.

Lemma ext_range_spec :
  let s := mkSp (sp_type (valid_range base)) (sp_unit (valid_range base)) ov (sp_std ext) in
  ((length vs <= 2)%nat /\ extends lo hi vs /\ exists er, extrap_range (valid_range base) s = Ok er /\
      sp_values er = VA [Fin (fold_right Rmin lo vs); Fin (fold_right Rmax hi vs)]) \/
  (((2 < length vs)%nat \/ ~ extends lo hi vs) /\ extrap_range (valid_range base) s = Raise ValueError).
Proof.
  intros s. unfold s, extrap_range; cbn [sp_values]. rewrite Er.
  destruct base_range_doc as (c & _ & _ & Eu & D & _ & Lt).
  assert (Q : forall a b, exists er, mk_spectrum (InVals (VA [Fin a; Fin b])) (sp_type (valid_range base)) (sp_unit (valid_range base)) = Ok er
     /\ sp_values er = VA [Fin a; Fin b]).
  { intros a b. rewrite (mk_spectrum_unfold _ _ _ _ D). destruct (std_form _ _ _ D) as (g & _ & G2 & _).
    rewrite G2. cbn [bind]. eexists; split; reflexivity. }
  assert (K : (extends lo hi vs /\ validate_all (map Fin vs) (VA [Fin lo; Fin hi])
     = Ok (VA [Fin (fold_right Rmin lo vs); Fin (fold_right Rmax hi vs)])) \/
    (~ extends lo hi vs /\ validate_all (map Fin vs) (VA [Fin lo; Fin hi]) = Raise ValueError)).
  { rewrite <- fold_min, <- fold_max. apply validate_all_spec. exact L. }
  destruct ov as [x|l|l].
  - cbn [elems] in Ev. destruct vs as [|v [|]]; try discriminate. injection Ev as ->.
    replace (validate_extrap_val (Fin v) (VA [Fin lo; Fin hi])) with (validate_all (map Fin [v]) (VA [Fin lo; Fin hi])).
    2:{ cbn [map validate_all]. destruct (validate_extrap_val _ _); reflexivity. }
    destruct K as [[K1 K2]|[K1 K2]]; rewrite K2; cbn [bind].
    + left. split; [cbn; lia|]. split; [assumption|]. apply Q.
    + right. split; [auto|reflexivity].
  - cbn [elems] in Ev |- *. subst l. rewrite map_length.
    destruct (2 <? length vs)%nat eqn:E2.
    + apply Nat.ltb_lt in E2. right. split; [auto|reflexivity].
    + apply Nat.ltb_ge in E2.
      destruct K as [[K1 K2]|[K1 K2]]; rewrite K2; cbn [bind].
      * left. split; [assumption|]. split; [assumption|]. apply Q.
      * right. split; [auto|reflexivity].
  - exfalso. eapply Hf; reflexivity.
Qed.

Lemma ext_rejected : (2 < length vs)%nat \/ ~ extends lo hi vs ->
  fst (mk_extrapolation X base ext order) = Raise ValueError.
Proof.
  intros H. unfold mk_extrapolation; cbv zeta. rewrite ext_in_place.
  destruct ext_range_spec as [(K1 & K2 & _)|(_ & K)]; [exfalso; destruct H; [lia|tauto]|].
  rewrite K. reflexivity.
Qed.

Lemma fold_le_ge : fold_right Rmin lo vs <= fold_right Rmax hi vs.
Proof.
  apply Rle_trans with lo; [rewrite <- fold_min; apply fold_le|].
  apply Rle_trans with hi; [exact L|rewrite <- fold_max; apply fold_ge].
Qed.

Lemma ext_accepted d ext' : mk_extrapolation X base ext order = (Ok d, ext') ->
  (length vs <= 2)%nat /\ extends lo hi vs /\
  sp_values (valid_range d) = VA [Fin (fold_right Rmin lo vs); Fin (fold_right Rmax hi vs)] /\
  sp_type (valid_range d) = sp_type (valid_range base) /\ sp_unit (valid_range d) = sp_unit (valid_range base).
Proof.
  intros H. destruct (mk_ext_inv _ _ _ _ _ _ H) as (er & mn & mx & b & spl & E1 & E2 & E3 & E4 & E5 & ->).
  rewrite ext_in_place in E1. injection E1 as <-.
  destruct ext_range_spec as [(K1 & K2 & er' & K3 & K4)|(_ & K)]; [|congruence].
  rewrite K3 in E2. injection E2 as ->. rewrite K4 in E3, E4.
  split; [assumption|]. split; [assumption|].
  unfold vmin in E3. unfold vmax in E4. cbn [elems] in E3, E4.
  pose proof fold_le_ge as G.
  assert (mn = Fin (fold_right Rmin lo vs)).
  { unfold np_min in E3. cbn [fold_left] in E3. unfold xmin2 in E3. cbn [is_nan orb] in E3.
    injection E3 as <-. destruct (Rltb _ _) eqn:E; [apply Rltb_true in E; lra|reflexivity]. }
  assert (mx = Fin (fold_right Rmax hi vs)).
  { unfold np_max in E4. cbn [fold_left] in E4. unfold xmax2 in E4. cbn [is_nan orb] in E4.
    injection E4 as <-. destruct (Rltb _ _) eqn:E; [reflexivity|apply Rltb_false in E; f_equal; lra]. }
  subst. destruct (mk_base_good _ _ _ _ E5) as ((c & D & T1 & T2) & Et & Eu & Em).
  destruct base_range_doc as (c' & D' & T1' & T2' & _).
  unfold valid_range at 1 2 4. cbn [dbase_of].
  destruct (mk_spectrum_ok _ _ _ _ Em) as (c2 & w & _ & Ew & _ & _ & _ & Ev2). injection Ew as <-.
  split; [assumption|]. rewrite T1, T2, T1', T2', Et. split; [reflexivity|].
  rewrite Et, Eu in D. apply (documented_fun _ _ _ _ D D').
Qed.
End Ext.

(** ** evaluating an extrapolation *)
Lemma ext_eval_inside X base ext order d ext' s v s' :
  mk_extrapolation X base ext order = (Ok d, ext') ->
  contains (valid_range base) s = Ok true -> evaluate X base s = (Ok v, s') ->
  evaluate X d s = (Ok v, s').
Proof.
  intros H H1 H2. destruct (mk_ext_inv _ _ _ _ _ _ H) as (er & mn & mx & b & spl & _ & _ & _ & _ & _ & ->).
  cbn [evaluate]. rewrite H1, H2. reflexivity.
Qed.

Lemma ext_eval_outside X base ext order d ext' s c ov :
  mk_extrapolation X base ext order = (Ok d, ext') ->
  contains (valid_range base) s = Raise ValueError ->
  documented (lower (d_type (dbase_of base))) (d_unit (dbase_of base)) c ->
  convert_to s (d_type (dbase_of base)) (d_unit (dbase_of base)) = Ok ov ->
  exists spl, evaluate X d s =
    (do_ contains (valid_range d) s; map_vals (fun x => Ok (ORe (splev X spl x))) ov,
     mkSp (lower (d_type (dbase_of base))) c ov (sp_std s)).
Proof.
  intros H H1 D C. destruct (mk_ext_inv _ _ _ _ _ _ H) as (er & mn & mx & b & spl & _ & _ & _ & _ & E5 & ->).
  destruct (mk_base_good _ _ _ _ E5) as (_ & Et & Eu & _).
  exists spl. cbn [evaluate]. rewrite H1.
  replace (catches ValueError ValueError) with true by reflexivity.
  rewrite Et, Eu, in_place_spec, C.
  assert (Es : standardise_unit (lower (d_type (dbase_of base))) (d_unit (dbase_of base)) = Ok c).
  { apply std_unit_spec; [apply (documented_type _ _ _ D)|exact D]. }
  rewrite Es. cbn [sp_values]. unfold valid_range. cbn [dbase_of].
  erewrite contains_std; [reflexivity|reflexivity].
Qed.

Lemma ext_eval_raise_other X base ext order d ext' s e :
  mk_extrapolation X base ext order = (Ok d, ext') ->
  contains (valid_range base) s = Raise e -> catches ValueError e = false ->
  evaluate X d s = (Raise e, s).
Proof.
  intros H H1 Hc. destruct (mk_ext_inv _ _ _ _ _ _ H) as (er & mn & mx & b & spl & _ & _ & _ & _ & _ & ->).
  cbn [evaluate]. rewrite H1, Hc. reflexivity.
Qed.

(** wider range, same unit: what was inside stays inside *)
Lemma contains_mono q q' s lo hi lo' hi' :
  sp_type q = sp_type q' -> sp_unit q = sp_unit q' ->
  sp_values q = VA [Fin lo; Fin hi] -> sp_values q' = VA [Fin lo'; Fin hi'] ->
  lo <= hi -> lo' <= lo -> hi <= hi' ->
  contains q s = Ok true -> contains q' s = Ok true.
Proof.
  intros T U V V' L L1 L2. unfold contains. rewrite T, U, V, V'.
  destruct (convert_to s _ _) as [ov|]; [|discriminate]. cbn [bind].
  destruct (vmin ov) as [mn|]; [|discriminate]. cbn [bind].
  destruct (vmax ov) as [mx|]; [|discriminate]. cbn [bind].
  assert (M1 : vmin (VA [Fin lo; Fin hi]) = Ok (Fin lo)).
  { cbn. destruct (Rltb hi lo) eqn:E; [apply Rltb_true in E; lra|reflexivity]. }
  assert (M2 : vmax (VA [Fin lo; Fin hi]) = Ok (Fin hi)).
  { cbn. destruct (Rltb lo hi) eqn:E; [reflexivity|apply Rltb_false in E; do 2 f_equal; lra]. }
  assert (M3 : vmin (VA [Fin lo'; Fin hi']) = Ok (Fin lo')).
  { cbn. destruct (Rltb hi' lo') eqn:E; [apply Rltb_true in E; lra|reflexivity]. }
  assert (M4 : vmax (VA [Fin lo'; Fin hi']) = Ok (Fin hi')).
  { cbn. destruct (Rltb lo' hi') eqn:E; [reflexivity|apply Rltb_false in E; do 2 f_equal; lra]. }
  rewrite M1, M2, M3, M4. cbn [bind]. intros H.
  destruct (xlt mn (Fin lo)) eqn:A1; cbn [orb] in H.
  { destruct (display_string _); discriminate. }
  destruct (xgt mx (Fin hi)) eqn:A2.
  { destruct (display_string _); discriminate. }
  assert (B1 : xlt mn (Fin lo') = false).
  { destruct mn; cbn in *; auto. apply Rltb_false in A1. apply Rltb_false. lra. }
  assert (B2 : xgt mx (Fin hi') = false).
  { unfold xgt in *. destruct mx; cbn in *; auto. apply Rltb_false in A2. apply Rltb_false. lra. }
  rewrite B1, B2. reflexivity.
Qed.

Lemma eval_ext_ok_inside X base ext order d ext' s v s' :
  mk_extrapolation X base ext order = (Ok d, ext') -> evaluate X d s = (Ok v, s') ->
  contains (valid_range base) s = Ok true \/ contains (valid_range d) s = Ok true.
Proof.
  intros H E. destruct (mk_ext_inv _ _ _ _ _ _ H) as (er & mn & mx & b & spl & _ & _ & _ & _ & _ & ->).
  cbn [evaluate] in E.
  destruct (contains (valid_range base) s) as [x|e] eqn:Ec.
  - apply contains_true in Ec. subst. left; reflexivity.
  - destruct (catches ValueError e); [|discriminate]. right.
    pose proof (in_place_std s (d_type b) (d_unit b)) as Hs.
    destruct (convert_in_place s _ _) as [[[]|e'] s2]; [|discriminate].
    cbn [snd] in Hs. unfold valid_range; cbn [dbase_of].
    rewrite <- (contains_std _ _ _ Hs).
    destruct (contains (d_range b) s2) as [x|] eqn:E2; [|discriminate].
    apply contains_true in E2. now subst.
Qed.

(** ** constants: the default range *)

Lemma xnn_mul k x : 0 < k -> xnn x -> xnn (xmul (Fin k) x).
Proof.
  intros K. destruct x as [r| | |]; cbn; try tauto.
  - intros H. apply Rmult_le_pos; lra.
  - intros _. unfold xinf_sign. destruct (Rlt_dec 0 k); [exact I|lra].
Qed.
Lemma xnn_inv x : xnn x -> xnn (xdiv (Fin 1) x) \/ x = Fin 0.
Proof.
  destruct x as [r| | |]; cbn; try tauto.
  - intros H. destruct (Req_EM_T r 0); [right; now subst|left].
    unfold Rdiv. rewrite Rmult_1_l. left. apply Rinv_0_lt_compat. lra.
  - intros _. left. lra.
Qed.
Lemma xnn_sis x : xnn x -> xnn (safe_inverse_scalar x).
Proof.
  intros H. unfold safe_inverse_scalar. destruct (xeqb x (Fin 0)) eqn:E0; [exact I|].
  destruct (xeqb x PInf); [cbn; lra|]. destruct (xnn_inv x H) as [K| ->]; [exact K|].
  cbn in E0. unfold Reqb in E0. destruct (Req_EM_T 0 0); [discriminate|congruence].
Qed.
Lemma xnn_sie x : xnn x -> xnn (safe_inverse_elem x).
Proof.
  intros H. unfold safe_inverse_elem. destruct (isclose_zero x) eqn:E0; [exact I|].
  destruct (isclose_inf x); [cbn; lra|]. destruct (xnn_inv x H) as [K| ->]; [exact K|].
  exfalso. cbn [isclose_zero] in E0. rewrite Rabs_R0 in E0. apply Rleb_false in E0.
  assert (0 < / 10 ^ 8) by (apply Rinv_0_lt_compat, pow_lt; lra). lra.
Qed.

Lemma vnn_map f v : (forall x, xnn x -> xnn (f x)) -> (forall l, v <> VI l) -> vnn v -> vnn (vmap f v).
Proof.
  intros H Hv. unfold vnn. destruct v as [x|l|l]; cbn.
  - intros F. apply Forall_inv in F. constructor; auto.
  - intros F. apply Forall_map. eapply Forall_impl; [|exact F]. auto.
  - exfalso. eapply Hv; reflexivity.
Qed.

Lemma std_nn t u canon v : documented t u canon -> (forall l, v <> VI l) -> vnn v ->
  exists w, standardise_values t canon v = Ok w /\ vnn w.
Proof.
  intros D Hv Hn.
  assert (K : forall k, 0 < k -> forall i, (forall l, i <> VI l) -> vnn i -> vnn (vscale k i)).
  { intros k Hk i Hi Ni. apply vnn_map; auto. intros x Hx. now apply xnn_mul. }
  assert (I : exists inv, safe_inverse v = Ok inv /\ vnn inv /\ forall l, inv <> VI l).
  { destruct v as [x|l|l]; cbn [safe_inverse].
    - eexists. split; [reflexivity|]. split; [|discriminate]. unfold vnn in *. cbn in *.
      apply Forall_inv in Hn. constructor; [now apply xnn_sis|constructor].
    - eexists. split; [reflexivity|]. split; [|discriminate]. unfold vnn in *. cbn in *.
      apply Forall_map. eapply Forall_impl; [|exact Hn]. exact xnn_sie.
    - exfalso. eapply Hv; reflexivity. }
  destruct I as (inv & Ei & Ni & Vi).
  assert (P : forall n, 0 < / 10 ^ n) by (intros n; apply Rinv_0_lt_compat, pow_lt; lra).
  assert (Cc : 0 < const_c) by (unfold const_c; lra).
  assert (Ch : 0 < const_h) by (unfold const_h; apply Rmult_lt_0_compat; [lra|apply P]).
  assert (Ce : 0 < const_e) by (unfold const_e; apply Rmult_lt_0_compat; [lra|apply P]).
  pose proof PI_RGT_0 as Hp.
  destruct (documented_cases _ _ _ D) as [H|[H|[H|[H|[H|[H|[H|[H|H]]]]]]]]; destruct H as [-> ->].
  1: exists v; split; [reflexivity|assumption].
  1-4: eexists; split; [reflexivity|]; apply K; auto.
  - exists (vscale const_c inv). split; [cbn; rewrite Ei; reflexivity|]. auto.
  - exists (vscale (const_h * const_c / const_e) inv). split; [cbn; rewrite Ei; reflexivity|].
    apply K; auto. apply Rmult_lt_0_compat; [apply Rmult_lt_0_compat; assumption|now apply Rinv_0_lt_compat].
  - exists (vscale (2 * PI * const_c) inv). split; [cbn; rewrite Ei; reflexivity|].
    apply K; auto. apply Rmult_lt_0_compat; lra.
  - exists (vscale (/ 10 ^ 2) (vscale (2 * PI) inv)). split; [cbn; rewrite Ei; reflexivity|].
    apply K; [apply P| |apply K; [lra|assumption|assumption]].
    intros l. destruct inv; discriminate.
Qed.

Lemma constant_default_spec c : exists r,
  constant_default c = Ok (DConst (mkBase "wavelength" "m" r) c) /\
  sp_type r = "wavelength"%string /\ sp_unit r = "m"%string /\ sp_values r = VA [Fin 0; PInf].
Proof. eexists. split; [reflexivity|]. auto. Qed.

Lemma default_contains r s : sp_type r = "wavelength"%string -> sp_unit r = "m"%string ->
  sp_values r = VA [Fin 0; PInf] -> vnn (sp_std s) -> elems (sp_std s) <> [] ->
  (forall l, sp_std s <> VI l) -> contains r s = Ok true.
Proof.
  intros T U V N E Hv.
  assert (D : documented (lower "wavelength") "m" "m").
  { exists ["meter"; "metre"; "m"]%string. split; cbn; auto 10. }
  assert (C : convert_to s (sp_type r) (sp_unit r) = Ok (sp_std s)).
  { rewrite T, U, (convert_to_unfold _ _ _ _ D). cbn. destruct (sp_std s); [reflexivity|reflexivity|].
    exfalso. eapply Hv; reflexivity. }
  destruct (contains_hull r s _ C) as [[A B]|[A B]].
  - assumption.
  - rewrite V. discriminate.
  - eapply Forall_impl; [|exact N]. intros [| | |]; cbn; tauto.
  - rewrite V. cbn. repeat constructor.
  - exact B.
  - exfalso. apply A. rewrite V. cbn [elems]. eapply Forall_impl; [|exact N].
    intros x Hx. split.
    + exists (Fin 0). split; [now left|]. destruct x as [r0| | |]; cbn in Hx |- *; try tauto.
      unfold xle. cbn. unfold Rltb, Reqb. destruct (Rlt_dec 0 r0); [reflexivity|].
      destruct (Req_EM_T 0 r0); [reflexivity|lra].
    + exists PInf. split; [now right; left|]. destruct x; cbn in Hx |- *; tauto.
Qed.

(** ** asking data in its own unit *)
Lemma wavelength_total t u canon x : documented t u canon -> exists lam, wavelength_m t canon x lam.
Proof.
  intros D. destruct (documented_cases _ _ _ D) as [H|[H|[H|[H|[H|[H|[H|[H|H]]]]]]]]; destruct H as [-> ->];
    eexists; constructor.
Qed.

Lemma contains_fin q s lo hi w :
  sp_values q = VA [Fin lo; Fin hi] ->
  convert_to s (sp_type q) (sp_unit q) = Ok (VS (Fin w)) ->
  (lo <= w <= hi -> contains q s = Ok true) /\
  (lo <= hi -> w < lo \/ hi < w -> contains q s = do_ display_string (sp_unit q); Raise ValueError).
Proof.
  intros V C.
  assert (N : Forall (fun x => is_nan x = false) (elems (sp_values q))) by (rewrite V; repeat constructor).
  assert (N' : Forall (fun x => is_nan x = false) (elems (VS (Fin w)))) by (repeat constructor).
  assert (E : elems (sp_values q) <> []) by (rewrite V; discriminate).
  destruct (contains_hull q s _ C) as [[A B]|[A B]]; auto; try discriminate; rewrite V in A; cbn [elems] in A.
  - split; [auto|]. intros L H. exfalso. apply Forall_inv in A. destruct A as [(a & Ia & La) (b & Ib & Lb)].
    assert (La' : exists r, a = Fin r /\ (r = lo \/ r = hi) /\ r <= w).
    { destruct Ia as [<-|[<-|[]]]; eexists; (split; [reflexivity|]); split; auto;
      apply Rnot_lt_le; intros K; unfold xle in La; cbn in La; unfold Rltb, Reqb in La;
      destruct (Rlt_dec _ _); try lra; destruct (Req_EM_T _ _); try lra; discriminate. }
    assert (Lb' : exists r, b = Fin r /\ (r = lo \/ r = hi) /\ w <= r).
    { destruct Ib as [<-|[<-|[]]]; eexists; (split; [reflexivity|]); split; auto;
      apply Rnot_lt_le; intros K; unfold xle in Lb; cbn in Lb; unfold Rltb, Reqb in Lb;
      destruct (Rlt_dec _ _); try lra; destruct (Req_EM_T _ _); try lra; discriminate. }
    destruct La' as (r1 & _ & H1 & H2). destruct Lb' as (r2 & _ & H3 & H4). lra.
  - split; [|auto]. intros H. exfalso. apply A. constructor; [|constructor].
    assert (K : forall x y, x <= y -> xle (Fin x) (Fin y) = true).
    { intros x y Q. unfold xle; cbn; unfold Rltb, Reqb. destruct (Rlt_dec x y); [reflexivity|].
      destruct (Req_EM_T x y); [reflexivity|lra]. }
    split; [exists (Fin lo)|exists (Fin hi)]; split; cbn; auto; apply K; lra.
Qed.

Lemma own_unit_value t u canon x s w :
  documented (lower t) (lower u) canon -> canon <> "1/cm"%string -> 0 < x ->
  mk_spectrum (InVals (VS (Fin x))) t u = Ok s -> rounds_for canon x w ->
  exists lam, mk_spectrum (InVals (VS (Fin x))) t u = Ok s /\ 0 < x /\ wavelength_m (lower t) canon x lam /\
    convert_to s (lower t) canon = Ok (VS (Fin w)).
Proof.
  intros D Hc Hx M Rw. destruct (wavelength_total _ _ _ x D) as [lam W]. exists lam.
  split; [assumption|]. split; [assumption|]. split; [assumption|].
  rewrite (mk_scalar _ _ _ _ _ D W) in M by (intros; lra). injection M as <-.
  pose proof (documented_canon _ _ _ D) as Dc.
  assert (Lt : lower (lower t) = lower t) by now destruct (documented_lower _ _ _ D).
  assert (Dc' : documented (lower (lower t)) canon canon) by now rewrite Lt.
  rewrite (convert_to_unfold _ _ _ _ Dc'). cbn [sp_std]. rewrite Lt.
  assert (Hlam : 0 < lam) by (apply (wavelength_pos _ _ _ _ W Hx)).
  rewrite (rounds_for_unique _ _ _ Rw).
  apply (to_scalar _ _ _ _ _ Dc); [|assumption|intros; lra].
  intros E. rewrite E in D. destruct (documented_cases _ _ _ D) as [H|[H|[H|[H|[H|[H|[H|[H|H]]]]]]]];
    destruct H as [H1 H2]; congruence.
Qed.

Lemma asked_self d t u canon x s lo hi :
  documented (lower t) (lower u) canon -> canon <> "1/cm"%string -> 0 < x -> lo <= x <= hi ->
  mk_spectrum (InVals (VS (Fin x))) t u = Ok s -> rounds_for canon x x ->
  sp_type (valid_range d) = lower t -> sp_unit (valid_range d) = canon ->
  sp_values (valid_range d) = VA [Fin lo; Fin hi] ->
  asked d s (lower t) canon x.
Proof.
  intros D Hc Hx L M Rw T U V. destruct (own_unit_value _ _ _ _ _ _ D Hc Hx M Rw) as (lam & _ & _ & W & C).
  constructor.
  - exists t, u, canon, x, lam, x. auto 8.
  - rewrite <- T, <- U in C. destruct (contains_fin _ _ _ _ _ V C) as [K _]. auto.
Qed.

Lemma rounds_int d (z : Z) : rounds_to d (IZR z) (IZR z).
Proof.
  exists (z * 10 ^ Z.of_nat d)%Z. split; [|split].
  - rewrite mult_IZR, <- pow_IZR. field. apply pow_nonzero. lra.
  - unfold Rminus. rewrite Rplus_opp_r, Rabs_R0. left. apply Rmult_lt_0_compat; [lra|].
    apply Rinv_0_lt_compat, pow_lt; lra.
  - unfold Rminus. rewrite Rplus_opp_r, Rabs_R0. intros H. exfalso.
    assert (0 < / 2 * / 10 ^ d); [|lra]. apply Rmult_lt_0_compat; [lra|].
    apply Rinv_0_lt_compat, pow_lt; lra.
Qed.
Lemma rounds_for_int canon z : rounds_for canon (IZR z) (IZR z).
Proof. unfold rounds_for. destruct (doc_decimals canon); [apply rounds_int|reflexivity]. Qed.

Lemma documented_um : documented "wavelength" "um" "um".
Proof. exists ["micrometer"; "micrometre"; "um"]%string. split; cbn; auto 10. Qed.
Lemma documented_ev : documented "energy" "ev" "ev".
Proof. exists ["electronvolt"; "ev"]%string. split; cbn; auto 10. Qed.

(** an index model valid from 0.5 um to 2 um, asked at 1 um *)
Lemma example_um k p : required k = Some ("wavelength", "um")%string ->
  exists d s, mk_model k p (InVals (VA [Fin 0.5; Fin 2])) "wavelength" "um" = Ok d /\
    asked d s "wavelength" "um" 1.
Proof.
  intros Rq. eexists. eexists. split.
  - unfold mk_model, mk_base, validate_spectrum_type. rewrite Rq. reflexivity.
  - eapply (asked_self _ "wavelength" "um" "um" 1 _ 0.5 2 documented_um);
      [discriminate|lra|lra|reflexivity|exact (rounds_for_int _ 1%Z)|reflexivity|reflexivity|reflexivity].
Qed.
(** a permittivity model valid from 0.5 eV to 4 eV, asked at 1 eV *)
Lemma example_ev k p : required k = Some ("energy", "ev")%string ->
  exists d s, mk_model k p (InVals (VA [Fin 0.5; Fin 4])) "energy" "ev" = Ok d /\
    asked d s "energy" "ev" 1.
Proof.
  intros Rq. eexists. eexists. split.
  - unfold mk_model, mk_base, validate_spectrum_type. rewrite Rq. reflexivity.
  - eapply (asked_self _ "energy" "ev" "ev" 1 _ 0.5 4 documented_ev);
      [discriminate|lra|lra|reflexivity|exact (rounds_for_int _ 1%Z)|reflexivity|reflexivity|reflexivity].
Qed.

Lemma to_array_plain t u canon xs lams :
  documented t u canon -> ~ reciprocal_type t -> Forall2 (wavelength_m t canon) xs lams ->
  to_dispatch t canon (VA (map Fin lams)) = Ok (VA (map (fun x => Fin (rnd_for canon x)) xs)).
Proof.
  intros D Hr F. destruct (to_form _ _ _ D) as (g & G1 & G2 & G3). rewrite G2. do 2 f_equal.
  induction F as [|x lam xs lams W F IH]; [reflexivity|]. cbn [map]. f_equal; [|exact IH].
  rewrite (G3 safe_inverse_elem safe_inverse_scalar) by tauto.
  assert (K : to_dispatch t canon (VS (Fin lam)) = Ok (VS (Fin (rnd_for canon x)))).
  { apply (to_scalar t u canon x lam D); [|assumption|tauto]. intros ->. apply Hr. cbn. auto 8. }
  rewrite G1 in K. congruence.
Qed.
