(** Lemmas about effective media *)
From Verif Require Import PyBase PyStr XReal CNum SpectrumModel SpectrumSpec SpectrumProofs SpectralModel SpectralSpec SpectralProofs InterpProofs EvalProofs TextModel MaterialModel MaterialSpec MaterialProofs MatEvalProofs EffectiveModel EffectiveSpec MixProofs.
From Coq Require Import Lra Permutation Sorted.
Open Scope R_scope.
Open Scope string_scope.
Open Scope list_scope.

Lemma object_regular s : spectrum_object s -> regular s.
Proof.
  induction 1 as [v t u s H|s t u s' H IH C]; [eapply mk_spectrum_regular; eassumption|].
  destruct (in_place_regular s t u IH) as [R _]. rewrite C in R. exact R.
Qed.

(** ** an evaluation only depends on the wavelengths and the shape *)
Lemma contains_same q s s' : sp_std s = sp_std s' -> contains q s = contains q s'.
Proof. intros E. unfold contains, convert_to. now rewrite E. Qed.
Lemma convert_same s s' t u : sp_std s = sp_std s' -> convert_to s t u = convert_to s' t u.
Proof. intros E. unfold convert_to. now rewrite E. Qed.
Lemma in_place_same s s' t u : sp_std s = sp_std s' ->
  fst (convert_in_place s t u) = fst (convert_in_place s' t u) /\
  (forall x, convert_in_place s t u = (Ok tt, x) -> convert_in_place s' t u = (Ok tt, x)).
Proof.
  intros E. rewrite !in_place_spec, (convert_same s s' t u E). destruct (convert_to s' t u); cbn [fst]; [|split; [reflexivity|discriminate]].
  split; [reflexivity|]. rewrite E. auto.
Qed.
Lemma const_map {A B C} (c : C) (l : list A) (m : list B) : length l = length m -> map (fun _ => c) l = map (fun _ => c) m.
Proof. revert m. induction l as [|a l IH]; intros [|b m] L; try discriminate; [reflexivity|]. cbn in *. f_equal. apply IH. congruence. Qed.
Lemma shape_const_map {A} (c : A) v w : shape v = shape w ->
  match v with VS _ => Ok (OS (ORe (Fin 0))) | _ => Ok (OA []) end = match w with VS _ => Ok (OS (ORe (Fin 0))) | _ => Ok (OA []) end /\
  map (fun _ => c) (elems v) = map (fun _ => c) (elems w).
Proof.
  intros H. split.
  - destruct v, w; cbn in H; congruence.
  - assert (L : length (elems v) = length (elems w)) by (destruct v, w; cbn in H |- *; congruence).
    revert L. generalize (elems v) (elems w). induction l as [|a l IH]; intros [|b m] L; try discriminate; [reflexivity|].
    cbn in *. f_equal. apply IH. congruence.
Qed.

Lemma eval_same X d : forall s s', regular s -> regular s' -> sp_std s = sp_std s' ->
  fst (evaluate X d s) = fst (evaluate X d s').
Proof.
  induction d as [b c|b rows|b k p|b base IH spl]; intros s s' R R' E; cbn [evaluate];
    assert (Sh : shape (sp_values s) = shape (sp_values s')) by (unfold regular in *; congruence).
  - cbn [fst]. rewrite (contains_same _ _ _ E). destruct (contains (d_range b) s'); cbn [bind]; [|reflexivity].
    pose proof (proj2 (shape_const_map c _ _ Sh)) as M.
    destruct (sp_values s), (sp_values s'); cbn in Sh; try discriminate; try reflexivity; now rewrite M.
  - cbn [fst]. now rewrite (contains_same _ _ _ E), (convert_same _ _ _ _ E).
  - cbn [fst]. rewrite (contains_same _ _ _ E), (convert_same _ _ _ _ E).
    destruct (contains (d_range b) s'); cbn [bind]; [|reflexivity].
    destruct (convert_to s' (d_type b) (d_unit b)); cbn [bind]; [|reflexivity].
    destruct k; try reflexivity. destruct (sp_values s), (sp_values s'); cbn in Sh; try discriminate; reflexivity.
  - assert (Conv : forall s1 s1', sp_std s1 = sp_std s1' ->
      fst (match convert_in_place s1 (d_type b) (d_unit b) with
       | (Raise e', s2) => (Raise e', s2)
       | (Ok _, s2) => (do_ contains (d_range b) s2; map_vals (fun x => Ok (ORe (splev X spl x))) (sp_values s2), s2)
       end) =
      fst (match convert_in_place s1' (d_type b) (d_unit b) with
       | (Raise e', s2) => (Raise e', s2)
       | (Ok _, s2) => (do_ contains (d_range b) s2; map_vals (fun x => Ok (ORe (splev X spl x))) (sp_values s2), s2)
       end)).
    { intros s1 s1' E1. destruct (in_place_same s1 s1' (d_type b) (d_unit b) E1) as [F G].
      destruct (convert_in_place s1 (d_type b) (d_unit b)) as [[[]|e] s2].
      - rewrite (G s2 eq_refl). reflexivity.
      - destruct (convert_in_place s1' (d_type b) (d_unit b)) as [[|] s2']; cbn [fst] in *; congruence. }
    rewrite (contains_same _ _ _ E).
    destruct (contains (valid_range base) s') as [cb|ce].
    + specialize (IH s s' R R' E). pose proof (eval_std X base s) as S1. pose proof (eval_std X base s') as S2.
      destruct (evaluate X base s) as [r s1], (evaluate X base s') as [r' s1']. cbn [fst snd] in *. subst r'.
      destruct r as [v|e]; [reflexivity|]. destruct (catches ValueError e); [|reflexivity]. apply Conv. congruence.
    + destruct (catches ValueError ce); [|reflexivity]. now apply Conv.
Qed.

Lemma complex_value_std X m s : sp_std (snd (complex_value X m s)) = sp_std s.
Proof.
  unfold complex_value. destruct (m_complex m) as [d|]; [apply eval_std|].
  pose proof (eval_std X (m_real m) s) as E. destruct (evaluate X (m_real m) s) as [[re|e] s1]; [|exact E].
  pose proof (eval_std X (m_imag m) s1) as E'. destruct (evaluate X (m_imag m) s1) as [[im|e] s2]; cbn [snd] in *; congruence.
Qed.
Lemma eps_std X m s : sp_std (snd (get_permittivity_obj X m s)) = sp_std s.
Proof.
  unfold get_permittivity_obj. destruct (negb (valid_name m)); [reflexivity|].
  pose proof (complex_value_std X m s) as E. destruct (complex_value X m s). exact E.
Qed.
Lemma eps_regular X m s : regular s -> regular (snd (get_permittivity_obj X m s)).
Proof.
  intros R. unfold get_permittivity_obj. destruct (negb (valid_name m)); [exact R|].
  enough (regular (snd (complex_value X m s))) as H by (destruct (complex_value X m s); exact H).
  unfold complex_value. destruct (m_complex m) as [d|].
  - destruct (evaluate X d s) eqn:E. apply (eval_shape X d s _ _ R E).
  - destruct (evaluate X (m_real m) s) as [r s1] eqn:E. destruct (eval_shape X _ s _ _ R E) as (R1 & _ & _).
    destruct r; [|exact R1].
    destruct (evaluate X (m_imag m) s1) as [r2 s2] eqn:E2. destruct (eval_shape X _ s1 _ _ R1 E2) as (R2 & _ & _).
    destruct r2; exact R2.
Qed.
Lemma complex_value_same X m s s' : regular s -> regular s' -> sp_std s = sp_std s' ->
  fst (complex_value X m s) = fst (complex_value X m s').
Proof.
  intros R R' E. unfold complex_value. destruct (m_complex m) as [d|]; [now apply eval_same|].
  pose proof (eval_same X (m_real m) s s' R R' E) as F.
  pose proof (eval_std X (m_real m) s) as S1. pose proof (eval_std X (m_real m) s') as S2.
  destruct (evaluate X (m_real m) s) as [r s1] eqn:E1, (evaluate X (m_real m) s') as [r' s1'] eqn:E2. cbn [fst snd] in *. subst r'.
  destruct (eval_shape X _ s _ _ R E1) as (R1 & _ & _). destruct (eval_shape X _ s' _ _ R' E2) as (R2 & _ & _).
  destruct r as [re|e]; [|reflexivity].
  assert (E3 : sp_std s1 = sp_std s1') by congruence.
  pose proof (eval_same X (m_imag m) s1 s1' R1 R2 E3) as F2.
  destruct (evaluate X (m_imag m) s1) as [r2 s2], (evaluate X (m_imag m) s1') as [r2' s2']. cbn [fst] in F2. subst r2'.
  destruct r2; reflexivity.
Qed.
Lemma eps_same X m s s' : regular s -> regular s' -> sp_std s = sp_std s' ->
  fst (get_permittivity_obj X m s) = fst (get_permittivity_obj X m s').
Proof.
  intros R R' E. unfold get_permittivity_obj. destruct (negb (valid_name m)); [reflexivity|].
  pose proof (complex_value_same X m s s' R R' E) as F.
  destruct (complex_value X m s) as [c s1], (complex_value X m s') as [c' s1']. cbn [fst] in *. now subst c'.
Qed.

(** ** the effective material from the permittivities *)
Definition cvals (es : list CC) : list onum := map (fun z => OCx (CF z)) es.

Lemma in_shape_spec X m s o s' es : regular s -> get_permittivity_obj X m s = (Ok o, s') -> out_elems o = cvals es ->
  o = in_shape s (cvals es) /\ length es = length (elems (sp_std s)).
Proof.
  intros R H E. pose proof (eps_shape_obj X m s o s' R H) as Sh. rewrite R in Sh. unfold in_shape.
  destruct o as [x|l]; cbn [out_elems oshape] in *.
  - destruct (sp_std s); try discriminate. rewrite <- E. split; [reflexivity|].
    cbn. rewrite <- (map_length (fun z => OCx (CF z)) es). unfold cvals in E. now rewrite <- E.
  - rewrite <- E. assert (L : length l = length (elems (sp_std s))) by (destruct (sp_std s); cbn in *; congruence).
    split; [destruct (sp_std s); [discriminate|reflexivity|reflexivity]|].
    rewrite <- L, E. unfold cvals. now rewrite map_length.
Qed.

Lemma zip_cvals (f : cx -> cx -> cx) e1 e2 es : length e1 = length e2 ->
  pointwise3 (fun z w e => f (CF z) (CF w) = CF e) e1 e2 es ->
  zip_with (fun x y => OCx (f (onum_cx x) (onum_cx y))) (cvals e1) (cvals e2) = cvals es.
Proof.
  intros _. induction 1 as [|z w e l m n H _ IH]; [reflexivity|]. cbn [cvals map zip_with onum_cx]. rewrite H.
  unfold cvals in IH. now rewrite IH.
Qed.
Lemma obin_shape_vals s f e1 e2 es : pointwise3 (fun z w e => f (CF z) (CF w) = CF e) e1 e2 es ->
  length e1 = length (elems (sp_std s)) ->
  obin f (in_shape s (cvals e1)) (in_shape s (cvals e2)) = Ok (in_shape s (cvals es)).
Proof.
  intros P L. assert (L2 : length e1 = length e2 /\ length e2 = length es) by (clear L; induction P; cbn; intuition congruence).
  destruct L2 as [L2 L3].
  pose proof (zip_cvals f e1 e2 es L2 P) as Z. unfold in_shape.
  destruct (sp_std s) as [x|l|l]; cbn [elems length] in L.
  - destruct e1 as [|z [|]]; try discriminate. destruct e2 as [|w [|]]; try discriminate.
    destruct es as [|e [|]]; try discriminate. inversion P as [|? ? ? ? ? ? H _]; subst.
    cbn [cvals map obin onum_cx]. now rewrite H.
  - cbn [obin]. unfold cvals at 1 2. rewrite !map_length, L2, Nat.eqb_refl. unfold cvals at 1 2. fold (cvals e1) (cvals e2). now rewrite Z.
  - cbn [obin]. unfold cvals at 1 2. rewrite !map_length, L2, Nat.eqb_refl. unfold cvals at 1 2. fold (cvals e1) (cvals e2). now rewrite Z.
Qed.

Lemma zip_rows lams es : length lams = length es ->
  zip_with (fun x z => [x; cx_re (onum_cx z); cx_im (onum_cx z)]) (map Fin lams) (cvals es) =
  map (fun p : R * CC => [Fin (fst p); Fin (fst (snd p)); Fin (snd (snd p))]) (combine lams es).
Proof.
  revert es. induction lams as [|l t IH]; intros [|e es] L; try discriminate; [reflexivity|].
  cbn in *. f_equal. apply IH. congruence.
Qed.
Definition re_rows (lams : list R) (es : list CC) : list (R * R) := combine lams (map fst es).
Definition im_rows (lams : list R) (es : list CC) : list (R * R) := combine lams (map snd es).
Lemma cols_re lams es : pair_cols 0 1 (map (fun p : R * CC => [Fin (fst p); Fin (fst (snd p)); Fin (snd (snd p))]) (combine lams es)) = xrows (re_rows lams es).
Proof.
  revert es. induction lams as [|l t IH]; intros [|e es]; try reflexivity. cbn. f_equal. apply IH.
Qed.
Lemma cols_im lams es : pair_cols 0 2 (map (fun p : R * CC => [Fin (fst p); Fin (fst (snd p)); Fin (snd (snd p))]) (combine lams es)) = xrows (im_rows lams es).
Proof.
  revert es. induction lams as [|l t IH]; intros [|e es]; try reflexivity. cbn. f_equal. apply IH.
Qed.

(** the data object for finite rows with distinct wavelengths *)
Definition metre_data (l : list (R * R)) : res sdata := spec_data_from_pairs (xrows l) "wavelength" "m".
Lemma combine_fst {A B} (l : list A) (m : list B) : length l = length m -> map fst (combine l m) = l.
Proof. revert m. induction l; intros [|b m] L; try discriminate; [reflexivity|]. cbn in *. f_equal. apply IHl. congruence. Qed.

Definition metre_span (mn mx : R) : spectrum := mkSp "wavelength" "m" (VA [Fin mn; Fin mx]) (VA [Fin mn; Fin mx]).
Lemma metre_range l : NoDup (map fst l) -> l <> [] -> exists d mn mx, metre_data l = Ok d /\
  In mn (map fst l) /\ In mx (map fst l) /\ (forall y, In y (map fst l) -> mn <= y <= mx) /\
  (exists v, l = [(mn, v)] /\ d = DConst (mkBase "wavelength" "m" (metre_span mn mx)) (ORe (Fin v)) \/
   (2 <= length l)%nat /\ d = DInterp (mkBase "wavelength" "m" (metre_span mn mx)) (xrows l)).
Proof.
  intros N H. unfold metre_data. destruct l as [|[x v] [|b r]]; [congruence| |].
  - cbn [xrows map spec_data_from_pairs fst snd].
    eexists. exists x, x. split; [reflexivity|]. cbn [map fst].
    split; [left; reflexivity|]. split; [left; reflexivity|].
    split; [intros y [->|[]]; lra|]. exists v. left. split; reflexivity.
  - set (l := (x, v) :: b :: r) in *.
    assert (L2 : (2 <= length l)%nat) by (cbn; lia).
    change (spec_data_from_pairs (xrows l) "wavelength" "m") with (mk_interpolation (xrows l) "wavelength" "m").
    pose proof (mk_interp_spec l "wavelength" "m") as S0.
    destruct (mk_interpolation (xrows l) "wavelength" "m") as [d|e].
    + destruct S0 as (_ & _ & c & mn & mx & rr & _ & Er & -> & I1 & I2 & L).
      exists (DInterp (mkBase "wavelength" "m" rr) (xrows l)), mn, mx. split; [reflexivity|].
      assert (rr = metre_span mn mx) as -> by (cbv in Er; injection Er as <-; reflexivity).
      split; [assumption|]. split; [assumption|]. split; [assumption|]. exists 0. right. auto.
    + exfalso. destruct S0 as (_ & [S0|[S0|S0]]); [lia|contradiction|].
      apply (S0 "m"). exists ["meter"; "metre"; "m"]. cbn. auto.
Qed.

Lemma metres_back s : convert_to s "wavelength" "m" = Ok (sp_std s).
Proof. reflexivity. Qed.

Lemma contains_metres mn mx q ls : wavelengths q ls -> ls <> [] -> mn <= mx ->
  (forall l, In l ls -> mn <= l <= mx) ->
  contains (mkSp "wavelength" "m" (VA [Fin mn; Fin mx]) (VA [Fin mn; Fin mx])) q = Ok true.
Proof.
  intros W N M L. unfold contains. cbn [sp_type sp_unit sp_values]. rewrite metres_back. cbn [bind].
  unfold wavelengths in W. unfold vmin, vmax. rewrite W. destruct (np_min_fin ls N) as (a & -> & Ia & _). cbn [bind].
  destruct (np_max_fin ls N) as (b & -> & Ib & _). cbn [bind elems np_min np_max fold_left].
  assert (M1 : xmin2 (Fin mn) (Fin mx) = Fin mn).
  { unfold xmin2. cbn [is_nan xlt]. now rewrite (proj2 (Rltb_false mx mn)) by lra. }
  assert (M2 : xmax2 (Fin mn) (Fin mx) = Fin mx).
  { unfold xmax2. cbn [is_nan xlt]. destruct (Rltb mn mx) eqn:E; [reflexivity|].
    apply Rltb_false in E. f_equal; lra. }
  rewrite M1, M2. unfold xgt. cbn [xlt]. pose proof (L a Ia). pose proof (L b Ib).
  rewrite (proj2 (Rltb_false a mn)) by lra. rewrite (proj2 (Rltb_false mx b)) by lra. reflexivity.
Qed.

Lemma interp_at_row l r : NoDup (map fst l) -> (2 <= length l)%nat -> In r l ->
  interp_point (xrows l) (Fin (fst r)) = Ok (Fin (snd r)).
Proof.
  intros N L I. destruct (adjacent_exists l (fst r) N L) as (a & b & Ad & Hab).
  { exists r. split; [exact I|lra]. }
  { exists r. split; [exact I|lra]. }
  rewrite (interp_point_ok l a b (fst r) N Ad Hab). do 2 f_equal. eapply adjacent_row; eauto.
Qed.

(** evaluation at wavelengths of the table *)
Lemma metre_eval X l d q ls vs : NoDup (map fst l) -> l <> [] -> metre_data l = Ok d ->
  regular q -> wavelengths q ls -> ls <> [] -> Forall2 (fun x v => In (x, v) l) ls vs ->
  evaluate X d q = (Ok (in_shape q (map (fun v => ORe (Fin v)) vs)), q).
Proof.
  intros N Nl H R W Ne F. destruct (metre_range l N Nl) as (d' & mn & mx & H' & I1 & I2 & L & v & Form).
  rewrite H in H'. injection H' as <-.
  assert (Ls : forall x, In x ls -> mn <= x <= mx).
  { intros x Hx. apply L. clear - F Hx. induction F as [|a b la lb P _ IH]; [destruct Hx|].
    destruct Hx as [->|Hx]; [apply in_map_iff; exists (x, b); auto|auto]. }
  assert (C : contains (metre_span mn mx) q = Ok true).
  { eapply contains_metres; eauto. apply (L mx I2). }
  destruct Form as [[-> D]|[L2 D]]; rewrite D;
    cbn [evaluate d_range d_type d_unit]; rewrite C; cbn [bind].
  - assert (Vs : vs = map (fun _ => v) ls).
    { clear - F. induction F as [|a b la lb [P|[]] _ IH]; [reflexivity|]. injection P as _ <-. cbn. now f_equal. }
    f_equal. subst vs. unfold regular in R. unfold wavelengths in W. unfold in_shape.
    assert (K : length (elems (sp_values q)) = length ls).
    { rewrite <- (map_length Fin ls), <- W. destruct (sp_values q), (sp_std q); cbn in R |- *; congruence. }
    rewrite map_map.
    assert (Ml : map (fun _ => ORe (Fin v)) (elems (sp_values q)) = map (fun _ => ORe (Fin v)) ls).
    { apply const_map. exact K. }
    destruct (sp_values q), (sp_std q); cbn in R; try discriminate; try (now rewrite Ml).
    destruct ls as [|a [|]]; try discriminate. reflexivity.
  - rewrite metres_back. cbn [bind]. f_equal.
    assert (Mr : map_res (fun x => do y <- interp_point (xrows l) x; Ok (ORe y)) (map Fin ls) = Ok (map (fun v => ORe (Fin v)) vs)).
    { clear - F N L2. induction F as [|x b la lb P _ IH]; [reflexivity|]. cbn [map map_res].
      pose proof (interp_at_row l (x, b) N L2 P) as Q. cbn [fst snd] in Q. rewrite Q. cbn [bind]. now rewrite IH. }
    unfold wavelengths in W. unfold map_vals, in_shape.
    destruct (sp_std q) as [x|lx|lx]; [|now rewrite W, Mr|now rewrite W, Mr].
    cbn [elems] in W. destruct ls as [|a [|]]; try discriminate. injection W as ->.
    cbn [map map_res] in Mr. destruct (interp_point (xrows l) (Fin a)) as [y|]; cbn [bind] in *; [|discriminate].
    inversion Mr as [Mr']. destruct vs as [|c [|]]; inversion Mr'. subst y. reflexivity.
Qed.

Lemma join_vals s es : obin (fun a b => cxadd a (cxmul (CF Ci) b)) (in_shape s (map (fun v => ORe (Fin v)) (map fst es)))
    (in_shape s (map (fun v => ORe (Fin v)) (map snd es))) = Ok (in_shape s (cvals es)).
Proof.
  assert (Z : zip_with (fun x y => OCx (cxadd (onum_cx x) (cxmul (CF Ci) (onum_cx y))))
    (map (fun v => ORe (Fin v)) (map fst es)) (map (fun v => ORe (Fin v)) (map snd es)) = cvals es).
  { induction es as [|[a b] es IH]; [reflexivity|]. cbn [map zip_with cvals]. unfold cvals in IH. rewrite IH. f_equal.
    cbn [fst snd onum_cx]. now rewrite ci_join. }
  assert (A : obin (fun a b => cxadd a (cxmul (CF Ci) b)) (OA (map (fun v => ORe (Fin v)) (map fst es)))
    (OA (map (fun v => ORe (Fin v)) (map snd es))) = Ok (OA (cvals es))).
  { cbn [obin]. rewrite !map_length, Nat.eqb_refl. now rewrite Z. }
  unfold in_shape. destruct (sp_std s) as [x|l|l]; [|exact A|exact A].
  destruct es as [|[a b] [|c t]]; [exact A| |exact A]. cbn [map cvals obin fst snd onum_cx]. now rewrite ci_join.
Qed.

(** the table of a mixture and what the material made of it answers *)
Definition metre_material (a b : sdata) : material := mkMat None "eps" a b None "wavelength" "m".
Lemma table_material lams es : NoDup lams -> lams <> [] -> length lams = length es ->
  exists a b, metre_data (re_rows lams es) = Ok a /\ metre_data (im_rows lams es) = Ok b /\
  process_table 3 (map (fun p : R * CC => [Fin (fst p); Fin (fst (snd p)); Fin (snd (snd p))]) (combine lams es)) "eps"
     (mkP "" None None None "wavelength" "m") = Ok (mkP "eps" (Some a) (Some b) None "wavelength" "m").
Proof.
  intros N Ne L.
  assert (N1 : NoDup (map fst (re_rows lams es))) by (unfold re_rows; rewrite combine_fst; [assumption|now rewrite map_length]).
  assert (N2 : NoDup (map fst (im_rows lams es))) by (unfold im_rows; rewrite combine_fst; [assumption|now rewrite map_length]).
  assert (E1 : re_rows lams es <> []) by (destruct lams, es; try discriminate; congruence).
  assert (E2 : im_rows lams es <> []) by (destruct lams, es; try discriminate; congruence).
  destruct (metre_range _ N1 E1) as (a & _ & _ & Ha & _). destruct (metre_range _ N2 E2) as (b & _ & _ & Hb & _).
  exists a, b. split; [exact Ha|]. split; [exact Hb|].
  unfold process_table, p_stype, p_unit, take_cols.
  change (Nat.ltb 1 3) with true. change (Nat.ltb 2 3) with true. cbn [String.eqb Ascii.eqb Bool.eqb].
  cbn [bind]. rewrite cols_re, cols_im. unfold metre_data in Ha, Hb. rewrite Ha. cbn [bind]. rewrite Hb. reflexivity.
Qed.

Lemma material_answers X lams es a b : NoDup lams -> lams <> [] -> length lams = length es ->
  metre_data (re_rows lams es) = Ok a -> metre_data (im_rows lams es) = Ok b ->
  answers X (metre_material a b) lams es.
Proof.
  intros N Ne L Ha Hb q ls vs Q W Nls F.
  assert (R : regular q) by now apply object_regular.
  assert (N1 : NoDup (map fst (re_rows lams es))) by (unfold re_rows; rewrite combine_fst; [assumption|now rewrite map_length]).
  assert (N2 : NoDup (map fst (im_rows lams es))) by (unfold im_rows; rewrite combine_fst; [assumption|now rewrite map_length]).
  assert (E1 : re_rows lams es <> []) by (destruct lams, es; try discriminate; congruence).
  assert (E2 : im_rows lams es <> []) by (destruct lams, es; try discriminate; congruence).
  assert (In1 : forall x z, In (x, z) (combine lams es) -> In (x, fst z) (re_rows lams es) /\ In (x, snd z) (im_rows lams es)).
  { clear. unfold re_rows, im_rows. revert es. induction lams as [|h t IH]; intros [|e es] x z; cbn; try tauto.
    intros [K|K]; [injection K as <- <-; auto|destruct (IH _ _ _ K); auto]. }
  assert (F1 : Forall2 (fun x v => In (x, v) (re_rows lams es)) ls (map fst vs)).
  { clear - F In1. induction F as [|? ? ? ? P]; cbn; constructor; [apply (In1 _ _ P)|assumption]. }
  assert (F2 : Forall2 (fun x v => In (x, v) (im_rows lams es)) ls (map snd vs)).
  { clear - F In1. induction F as [|? ? ? ? P]; cbn; constructor; [apply (In1 _ _ P)|assumption]. }
  unfold get_permittivity_obj, complex_value, metre_material. cbn [valid_name m_name m_complex m_real m_imag].
  change (negb (valid_name _)) with false. cbv iota.
  rewrite (metre_eval X _ a q ls _ N1 E1 Ha R W Nls F1). rewrite (metre_eval X _ b q ls _ N2 E2 Hb R W Nls F2).
  unfold join_parts. rewrite join_vals. cbn [bind]. change (String.eqb "eps" "nk") with false. cbv iota. f_equal. f_equal.
  unfold in_shape, cvals. destruct (sp_std q); [destruct (map (fun v => OCx (CF v)) vs) as [|? [|]] eqn:E|..]; cbn [omap];
    try rewrite <- E; try (f_equal; rewrite ?map_map; apply map_ext; reflexivity).
  - destruct vs as [|? [|]]; try discriminate. injection E as <-. reflexivity.
Qed.

(** ** everything together *)
Definition mixing (k : medium) (f : R) : CC -> CC -> CC -> Prop :=
  match k with
  | EffectiveMedium => fun _ _ _ => False
  | Simple => fun z w e => simple_mix (Fin f) (CF z) (CF w) = CF e
  | MaxwellGarnett => fun z w e => ~ mg_pole f z w /\ mg_mix (Fin f) (CF z) (CF w) = CF e
  | Bruggeman => fun z w e => br_mix (Fin f) (CF z) (CF w) = CF e
  end.
Definition shape_ok (plain : bool) (k : medium) (s : spectrum) : Prop := k = Bruggeman -> is_scalar s -> plain = false.
Lemma shape_known_ok py k s m1 : (k = Bruggeman -> shape_known py s m1) -> shape_ok (no_shape py m1) k s.
Proof.
  intros H K Sc. unfold no_shape. destruct (H K Sc) as [E|E].
  - rewrite E. now rewrite andb_false_r.
  - now rewrite E.
Qed.

Lemma fraction_ok f : 0 <= f <= 1 -> xlt (Fin f) (Fin 0) || xgt (Fin f) (Fin 1) = false.
Proof.
  intros F. unfold xgt. cbn [xlt]. rewrite (proj2 (Rltb_false f 0)) by lra. now rewrite (proj2 (Rltb_false 1 f)) by lra.
Qed.

Lemma pw_lengths {A B C} (P : A -> B -> C -> Prop) l m n : pointwise3 P l m n -> length l = length m /\ length m = length n.
Proof. induction 1; cbn; intuition congruence. Qed.
Lemma pw_impl {A B C} (P Q : A -> B -> C -> Prop) l m n : (forall a b c, P a b c -> Q a b c) -> pointwise3 P l m n -> pointwise3 Q l m n.
Proof. intros H. induction 1; constructor; auto. Qed.

Lemma bruggeman_no_plain pl f s l o2 : (is_scalar s -> pl = false) ->
  mix pl Bruggeman f (in_shape s l) o2 = obin (br_mix f) (in_shape s l) o2.
Proof.
  intros H. cbn [mix]. unfold in_shape. unfold is_scalar in H. destruct (sp_std s) as [x|x|x]; [|reflexivity|reflexivity].
  rewrite H by eauto. destruct l as [|? [|]]; reflexivity.
Qed.
Lemma mix_ok pl k f s e1 e2 es : shape_ok pl k s -> length e1 = length (elems (sp_std s)) -> e1 <> [] ->
  pointwise3 (mixing k f) e1 e2 es ->
  mix pl k (Fin f) (in_shape s (cvals e1)) (in_shape s (cvals e2)) = Ok (in_shape s (cvals es)).
Proof.
  intros Sh L Ne P. destruct k; cbn [mixing mix] in *.
  - destruct P; [congruence|contradiction].
  - now apply obin_shape_vals.
  - assert (D : exists ds, pointwise3 (fun z w d => mg_down (Fin f) (CF z) (CF w) = CF d /\ d <> RtoC 0) e1 e2 ds).
    { clear - P. induction P as [|z w e l m n [H _] _ (ds & IH)]; [exists []; constructor|].
      eexists (_ :: ds). constructor; [|exact IH]. rewrite mg_down_fin. split; [reflexivity|exact H]. }
    destruct D as (ds & D).
    rewrite (obin_shape_vals s _ e1 e2 ds) by (try assumption; revert D; apply pw_impl; tauto). cbn [bind].
    assert (Sg : mg_singular (in_shape s (cvals ds)) = false).
    { unfold mg_singular. apply negb_false_iff. destruct D as [|z w d ? ? ? [_ Hd] _]; [congruence|].
      unfold in_shape, cvals. cbn [map].
      assert (K : cx_nonzero (onum_cx (OCx (CF d))) = true) by (cbn; apply Ceqb0_false in Hd; now rewrite Hd).
      destruct (sp_std s); [destruct (map _ n)|..]; cbn [existsb]; now rewrite K. }
    rewrite Sg. apply obin_shape_vals; [|assumption]. revert P. apply pw_impl. tauto.
  - fold (mix pl Bruggeman (Fin f) (in_shape s (cvals e1)) (in_shape s (cvals e2))). rewrite (bruggeman_no_plain pl (Fin f) s) by (intros; now apply Sh). now apply obin_shape_vals.
Qed.

Lemma contains_outside mn mx q ls : wavelengths q ls -> mn <= mx -> (exists l, In l ls /\ (l < mn \/ mx < l)) ->
  contains (metre_span mn mx) q = Raise ValueError.
Proof.
  intros W M (l & Il & O). assert (N : ls <> []) by (intros ->; destruct Il).
  unfold contains, metre_span. cbn [sp_type sp_unit sp_values]. rewrite metres_back. cbn [bind].
  unfold wavelengths in W. unfold vmin, vmax. rewrite W. destruct (np_min_fin ls N) as (a & -> & _ & La). cbn [bind].
  destruct (np_max_fin ls N) as (b & -> & _ & Lb). cbn [bind elems np_min np_max fold_left].
  assert (M1 : xmin2 (Fin mn) (Fin mx) = Fin mn).
  { unfold xmin2. cbn [is_nan xlt]. now rewrite (proj2 (Rltb_false mx mn)) by lra. }
  assert (M2 : xmax2 (Fin mn) (Fin mx) = Fin mx).
  { unfold xmax2. cbn [is_nan xlt]. destruct (Rltb mn mx) eqn:E; [reflexivity|].
    apply Rltb_false in E. f_equal; lra. }
  rewrite M1, M2. unfold xgt. cbn [xlt]. pose proof (La l Il). pose proof (Lb l Il).
  assert (T : Rltb a mn || Rltb mx b = true).
  { apply orb_true_iff. rewrite !Rltb_true. lra. }
  rewrite T. reflexivity.
Qed.
Lemma material_refuses X lams es a b : NoDup lams -> lams <> [] -> length lams = length es ->
  metre_data (re_rows lams es) = Ok a -> refuses_outside X (metre_material a b) lams.
Proof.
  intros N Ne L Ha q ls Q W (l & Il & O).
  assert (N1 : map fst (re_rows lams es) = lams) by (unfold re_rows; rewrite combine_fst; [reflexivity|now rewrite map_length]).
  assert (Nd : NoDup (map fst (re_rows lams es))) by now rewrite N1.
  assert (Ner : re_rows lams es <> []) by (intros K; rewrite K in N1; now subst lams).
  destruct (metre_range _ Nd Ner) as (d & mn & mx & H & I1 & I2 & G & v & Form).
  rewrite Ha in H. injection H as <-. rewrite N1 in I1, I2, G.
  assert (C : contains (metre_span mn mx) q = Raise ValueError).
  { apply (contains_outside mn mx q ls W); [apply (G mx I2)|]. exists l. split; [exact Il|]. destruct O as [O|O]; auto. }
  unfold get_permittivity_obj, complex_value, metre_material. cbn [m_complex m_real m_imag].
  change (negb (valid_name _)) with false. cbv iota.
  destruct Form as [[_ D]|[_ D]]; rewrite D; cbn [evaluate d_range]; rewrite C; reflexivity.
Qed.

Lemma effective_ok X py k s m1 m2 f lams e1 e2 es : sampled X s m1 m2 lams e1 e2 -> 0 <= f <= 1 -> shape_ok (no_shape py m1) k s ->
  pointwise3 (mixing k f) e1 e2 es ->
  exists m, effective X py k s m1 m2 (Fin f) = (Ok m, mkSp "wavelength" "m" (sp_std s) (sp_std s)) /\
    answers X m lams es /\ length lams = length es /\ m_meta m = None /\ m_name m = "eps" /\
    m_stype m = "wavelength" /\ m_unit m = "m" /\ m_complex m = None /\ refuses_outside X m lams /\
    mix (no_shape py m1) k (Fin f) (in_shape s (cvals e1)) (in_shape s (cvals e2)) = Ok (in_shape s (cvals es)).
Proof.
  intros [Ob W Ne N (o1 & s1 & H1 & O1) (o2 & s2 & H2 & O2)] F Sh P.
  assert (Rg : regular s) by now apply object_regular.
  destruct (in_shape_spec X m1 s o1 s1 e1 Rg H1 O1) as [-> L1].
  destruct (in_shape_spec X m2 s o2 s2 e2 Rg H2 O2) as [-> L2].
  pose proof (eps_std X m1 s) as Sd1. rewrite H1 in Sd1. cbn [snd] in Sd1.
  pose proof (eps_regular X m1 s Rg) as R1. rewrite H1 in R1. cbn [snd] in R1.
  pose proof (eps_same X m2 s1 s R1 Rg Sd1) as Q. rewrite H2 in Q. cbn [fst] in Q.
  pose proof (eps_std X m2 s1) as Sd2.
  destruct (get_permittivity_obj X m2 s1) as [r2 s3] eqn:E2. cbn [fst snd] in Q, Sd2. subst r2.
  destruct (pw_lengths _ _ _ _ P) as [La Lb].
  assert (Ll : length (elems (sp_std s)) = length lams) by (rewrite W, map_length; reflexivity).
  assert (Le : length lams = length es) by congruence.
  destruct (table_material lams es N Ne Le) as (a & b & Ha & Hb & T).
  exists (metre_material a b).
  assert (Mx : mix (no_shape py m1) k (Fin f) (in_shape s (cvals e1)) (in_shape s (cvals e2)) = Ok (in_shape s (cvals es))).
  { apply mix_ok; try assumption. intro; subst e1. rewrite Ll in L1. destruct lams; [congruence|discriminate]. }
  split; [|split; [now apply material_answers|]; pose proof (material_refuses X lams es a b N Ne Le Ha); auto 9].
  unfold effective. rewrite (fraction_ok f F), H1, E2.
  rewrite Mx.
  assert (Cv : convert_in_place s3 "wavelength" "m" = (Ok tt, mkSp "wavelength" "m" (sp_std s) (sp_std s))).
  { rewrite in_place_spec, metres_back. rewrite Sd2, Sd1. reflexivity. }
  rewrite Cv. cbn [sp_values].
  assert (Tb : eff_table (sp_std s) (in_shape s (cvals es)) =
    Ok (map (fun p : R * CC => [Fin (fst p); Fin (fst (snd p)); Fin (snd (snd p))]) (combine lams es))).
  { unfold eff_table. change (match in_shape s (cvals es) with OS x => [x] | OA l => l end) with (out_elems (in_shape s (cvals es))).
    assert (E : out_elems (in_shape s (cvals es)) = cvals es).
    { unfold in_shape. destruct (sp_std s); [|reflexivity|reflexivity]. destruct (cvals es) as [|? [|]]; reflexivity. }
    assert (Lc : length (cvals es) = length lams) by (unfold cvals; rewrite map_length; congruence).
    unfold wavelengths in W. cbv zeta. rewrite E, W, map_length, Lc, Nat.eqb_refl. f_equal. now apply zip_rows. }
  rewrite Tb. cbn [bind]. rewrite T. cbn [bind p_real p_imag p_name p_complex p_stype p_unit].
  destruct k; try reflexivity. destruct P; [|contradiction]. destruct lams; [congruence|discriminate].
Qed.

(** ** the other outcomes *)
Lemma effective_step X py k s m1 m2 f e1 e2 : regular s -> k <> EffectiveMedium ->
  xlt f (Fin 0) || xgt f (Fin 1) = false -> permittivities X m1 s e1 -> permittivities X m2 s e2 ->
  exists s2, sp_std s2 = sp_std s /\ regular s2 /\
  effective X py k s m1 m2 f =
    match mix (no_shape py m1) k f (in_shape s (cvals e1)) (in_shape s (cvals e2)) with
    | Raise e => (Raise e, s2)
    | Ok em =>
        (do table <- eff_table (sp_std s) em;
         do p <- process_table 3 table "eps" (mkP "" None None None "wavelength" "m");
         match p_real p, p_imag p with
         | Some a, Some b => Ok (mkMat None (p_name p) a b (p_complex p) (p_stype p) (p_unit p))
         | _, _ => Raise RuntimeError
         end, mkSp "wavelength" "m" (sp_std s) (sp_std s))
    end.
Proof.
  intros Rg Nk F (o1 & s1 & H1 & O1) (o2 & s2 & H2 & O2).
  destruct (in_shape_spec X m1 s o1 s1 e1 Rg H1 O1) as [-> L1].
  destruct (in_shape_spec X m2 s o2 s2 e2 Rg H2 O2) as [-> L2].
  pose proof (eps_std X m1 s) as Sd1. rewrite H1 in Sd1. cbn [snd] in Sd1.
  pose proof (eps_regular X m1 s Rg) as R1. rewrite H1 in R1. cbn [snd] in R1.
  pose proof (eps_same X m2 s1 s R1 Rg Sd1) as Q. rewrite H2 in Q. cbn [fst] in Q.
  pose proof (eps_std X m2 s1) as Sd2. pose proof (eps_regular X m2 s1 R1) as R2.
  destruct (get_permittivity_obj X m2 s1) as [r2 s3] eqn:E2. cbn [fst snd] in Q, Sd2, R2. subst r2.
  exists s3. split; [congruence|]. split; [exact R2|]. unfold effective. rewrite F, H1, E2.
  assert (Cv : convert_in_place s3 "wavelength" "m" = (Ok tt, mkSp "wavelength" "m" (sp_std s) (sp_std s))).
  { rewrite in_place_spec, metres_back. rewrite Sd2, Sd1. reflexivity. }
  rewrite Cv. destruct k; [congruence|reflexivity..].
Qed.

Lemma out_in_shape s os : out_elems (in_shape s os) = os.
Proof. unfold in_shape. destruct (sp_std s); [|reflexivity|reflexivity]. destruct os as [|? [|]]; reflexivity. Qed.

Lemma eff_table_gen s lams os : wavelengths s lams -> length lams = length os ->
  eff_table (sp_std s) (in_shape s os) =
  Ok (zip_with (fun x z => [x; cx_re (onum_cx z); cx_im (onum_cx z)]) (map Fin lams) os).
Proof.
  intros W L. unfold eff_table.
  change (match in_shape s os with OS x => [x] | OA l => l end) with (out_elems (in_shape s os)).
  unfold wavelengths in W. cbv zeta. now rewrite out_in_shape, W, map_length, L, Nat.eqb_refl.
Qed.

(** tables whose samples may be NaN *)
(** the joined value *)
Definition joined (a b : R * cx) (v : R) : cx :=
  match snd a, snd b with
  | CF u, CF w => CF (line (fst a, fst u) (fst b, fst w) v, line (fst a, snd u) (fst b, snd w) v)
  | _, _ => CNan
  end.
Lemma join_lin a b v : fst a < fst b ->
  cxadd (onum_cx (ORe (lin (Fin (fst a), cx_re (snd a)) (Fin (fst b), cx_re (snd b)) (Fin v))))
    (cxmul (CF Ci) (onum_cx (ORe (lin (Fin (fst a), cx_im (snd a)) (Fin (fst b), cx_im (snd b)) (Fin v))))) = joined a b v.
Proof.
  intros H. unfold joined. destruct (snd a) as [u|], (snd b) as [w|]; cbn [cx_re cx_im].
  - rewrite (lin_line (fst a, fst u) (fst b, fst w)) by exact H.
    rewrite (lin_line (fst a, snd u) (fst b, snd w)) by exact H. apply ci_join.
  - rewrite !lin_nan by auto. reflexivity.
  - rewrite !lin_nan by auto. reflexivity.
  - rewrite !lin_nan by auto. reflexivity.
Qed.

Lemma gen_interp (T : list (R * cx)) f : NoDup (map fst T) -> (2 <= length T)%nat ->
  exists mn mx, spec_data_from_pairs (grows (map (onsnd f) T)) "wavelength" "m" =
      Ok (DInterp (mkBase "wavelength" "m" (metre_span mn mx)) (grows (map (onsnd f) T))) /\
    In mn (map fst T) /\ In mx (map fst T) /\ (forall y, In y (map fst T) -> mn <= y <= mx).
Proof.
  intros N L2. assert (Ne : map fst T <> []) by (destruct T; [cbn in L2; lia|discriminate]).
  destruct (np_min_fin _ Ne) as (mn & E1 & I1 & G1). destruct (np_max_fin _ Ne) as (mx & E2 & I2 & G2).
  exists mn, mx. split; [|split; [assumption|split; [assumption|intros; split; auto]]].
  assert (S0 : spec_data_from_pairs (grows (map (onsnd f) T)) "wavelength" "m" = mk_interpolation (grows (map (onsnd f) T)) "wavelength" "m").
  { destruct T as [|a [|b r]]; cbn in L2; try lia. reflexivity. }
  rewrite S0. unfold mk_interpolation. rewrite grows_fst, fst_onsnd, E1. cbn [bind]. rewrite E2. cbn [bind]. unfold mk_base.
  change (mk_spectrum (InVals (VA [Fin mn; Fin mx])) "wavelength" "m") with (Ok (metre_span mn mx)). cbn [bind].
  destruct (interp1d_check_g (map (onsnd f) T)) as [(_ & _ & ->)|([H|H] & _)]; [reflexivity| |].
  - rewrite map_length in H. lia.
  - now rewrite fst_onsnd in H.
Qed.

Lemma gen_eval X (T : list (R * cx)) f (g : R -> xr) mn mx q ls : In mn (map fst T) -> In mx (map fst T) ->
  (forall y, In y (map fst T) -> mn <= y <= mx) ->
  regular q -> wavelengths q ls -> ls <> [] ->
  (forall l, In l ls -> mn <= l <= mx /\ interp_point (grows (map (onsnd f) T)) (Fin l) = Ok (g l)) ->
  evaluate X (DInterp (mkBase "wavelength" "m" (metre_span mn mx)) (grows (map (onsnd f) T))) q =
    (Ok (in_shape q (map (fun l => ORe (g l)) ls)), q).
Proof.
  intros I1 I2 G Rg W Ne H. cbn [evaluate d_range d_type d_unit].
  assert (C : contains (metre_span mn mx) q = Ok true).
  { eapply contains_metres; eauto. { apply (G mx I2). } intros l Hl. now apply H. }
  rewrite C, metres_back. cbn [bind]. f_equal. revert W Ne H. generalize (grows (map (onsnd f) T)). clear. intros rows W Ne H.
  assert (Mr : map_res (fun x => do y <- interp_point rows x; Ok (ORe y)) (map Fin ls) = Ok (map (fun l => ORe (g l)) ls)).
  { clear - H. induction ls as [|x ls IH]; [reflexivity|]. cbn [map map_res].
    rewrite (proj2 (H x (or_introl eq_refl))). cbn [bind]. rewrite IH; [reflexivity|].
    intros l Hl. apply H. now right. }
  unfold wavelengths in W. unfold map_vals, in_shape.
  destruct (sp_std q) as [x|lx|lx]; [|now rewrite W, Mr|now rewrite W, Mr].
  cbn [elems] in W. destruct ls as [|a [|]]; try discriminate. injection W as ->.
  cbn [map map_res] in Mr. destruct (interp_point rows (Fin a)) as [y|]; cbn [bind] in *; [|discriminate].
  inversion Mr. reflexivity.
Qed.

Lemma gen_cols lams (es : list cx) : length lams = length es ->
  let rows := zip_with (fun x z => [x; cx_re (onum_cx z); cx_im (onum_cx z)]) (map Fin lams) (map OCx es) in
  pair_cols 0 1 rows = grows (map (onsnd cx_re) (combine lams es)) /\ pair_cols 0 2 rows = grows (map (onsnd cx_im) (combine lams es)).
Proof.
  revert es. induction lams as [|a r IH]; intros [|e es] L; try discriminate; [split; reflexivity|].
  cbn in L. injection L as L. destruct (IH es L) as [H1 H2]. split; cbn; f_equal; [exact H1|exact H2].
Qed.

Lemma gen_material X s lams (es : list cx) : wavelengths s lams -> length lams = length es -> (2 <= length lams)%nat ->
  NoDup lams -> exists m,
  (do table <- eff_table (sp_std s) (in_shape s (map OCx es));
   do p <- process_table 3 table "eps" (mkP "" None None None "wavelength" "m");
   match p_real p, p_imag p with
   | Some a, Some b => Ok (mkMat None (p_name p) a b (p_complex p) (p_stype p) (p_unit p))
   | _, _ => Raise RuntimeError
   end) = Ok m /\ answers_between X m lams es.
Proof.
  intros W L L2 Nd. rewrite (eff_table_gen s lams (map OCx es) W) by now rewrite map_length. cbn [bind].
  destruct (gen_cols lams es L) as [C1 C2]. set (T := combine lams es) in *.
  assert (Tf : map fst T = lams) by now apply combine_fst.
  assert (Tl : (2 <= length T)%nat) by (unfold T; rewrite combine_length, <- L, Nat.min_id; exact L2).
  assert (Nt : NoDup (map fst T)) by now rewrite Tf.
  destruct (gen_interp T cx_re Nt Tl) as (mn & mx & Ea & A1 & A2 & A3).
  destruct (gen_interp T cx_im Nt Tl) as (mn' & mx' & Eb & B1 & B2 & B3).
  unfold process_table, p_stype, p_unit, take_cols.
  change (Nat.ltb 1 3) with true. change (Nat.ltb 2 3) with true. cbn [String.eqb Ascii.eqb Bool.eqb].
  cbn [bind]. rewrite C1, C2, Ea. cbn [bind]. rewrite Eb. cbn [bind set_real set_imag p_real p_imag p_name p_complex p_stype p_unit].
  eexists. split; [reflexivity|]. intros q ls Q Wq Ne H. assert (Rg : regular q) by now apply object_regular.
  assert (Sg : forall l, exists p : (R * cx) * (R * cx), In l ls -> next_to T (fst p) (snd p) /\
      (fst (fst p) <= l < fst (snd p) \/ l = fst (snd p) /\ forall c, In c T -> fst c <= fst (snd p)) /\
      forall f, interp_point (grows (map (onsnd f) T)) (Fin l) = Ok (lin (Fin (fst (fst p)), f (snd (fst p))) (Fin (fst (snd p)), f (snd (snd p))) (Fin l))).
  { intros l. destruct (in_dec Req_EM_T l ls) as [Hl|Hl]; [|exists ((0, CNan), (0, CNan)); tauto].
    destruct (H l Hl) as (a & b & Ia & Ib & K). rewrite <- Tf in Ia, Ib. apply in_map_iff in Ia, Ib.
    destruct Ia as (ra & <- & Ia), Ib as (rb & <- & Ib).
    destruct (gen_segment T l Nt Tl) as (p1 & p2 & P); [exists ra; split; [exact Ia|lra]|exists rb; split; [exact Ib|lra]|].
    exists (p1, p2). intros _. exact P. }
  assert (Ch : exists seg : list ((R * cx) * (R * cx)), Forall2 (fun l p => next_to T (fst p) (snd p) /\
      (fst (fst p) <= l < fst (snd p) \/ l = fst (snd p) /\ forall c, In c T -> fst c <= fst (snd p)) /\
      forall f, interp_point (grows (map (onsnd f) T)) (Fin l) = Ok (lin (Fin (fst (fst p)), f (snd (fst p))) (Fin (fst (snd p)), f (snd (snd p))) (Fin l))) ls seg).
  { clear - Sg. induction ls as [|l ls IH]; [exists []; constructor|].
    destruct (Sg l) as (p & P). destruct IH as (seg & F); [intros k; destruct (Sg k) as (p' & P'); exists p'; intros I; apply P'; now right|].
    exists (p :: seg). constructor; [apply P; now left|exact F]. }
  destruct Ch as (seg & F).
  exists (zip_with (fun l p => joined (fst p) (snd p) l) ls seg). split.
  2:{ clear - F Tf L. induction F as [|l p ls seg (Nx & Hs & _) F IH]; [constructor|]. cbn [zip_with]. constructor; [|exact IH].
      destruct p as [[a za] [b zb]]. cbn [fst snd] in *. destruct Nx as (Ia & Ib & Lt & Bt). exists a, za, b, zb. cbn [fst] in *.
      split; [exact Ia|]. split; [exact Ib|]. split; [exact Lt|]. split; [|split; [|reflexivity]].
      - intros c Hc. rewrite <- Tf in Hc. apply in_map_iff in Hc. destruct Hc as (r & <- & Hr). now apply Bt.
      - destruct Hs as [Hs|[-> Hs]]; [now left|right]. split; [reflexivity|]. intros c Hc. rewrite <- Tf in Hc. apply in_map_iff in Hc.
        destruct Hc as (r & <- & Hr). now apply Hs. }
  assert (Ev : forall f mn mx, In mn (map fst T) -> In mx (map fst T) -> (forall y, In y (map fst T) -> mn <= y <= mx) ->
     evaluate X (DInterp (mkBase "wavelength" "m" (metre_span mn mx)) (grows (map (onsnd f) T))) q =
     (Ok (in_shape q (zip_with (fun l p => ORe (lin (Fin (fst (fst p)), f (snd (fst p))) (Fin (fst (snd p)), f (snd (snd p))) (Fin l))) ls seg)), q)).
  { intros f m1 m2 J1 J2 J3.
    set (g := fun l => match interp_point (grows (map (onsnd f) T)) (Fin l) with Ok y => y | Raise _ => NaN end).
    rewrite (gen_eval X T f g m1 m2 q ls J1 J2 J3 Rg Wq Ne).
    - do 3 f_equal. clear - F g. induction F as [|l p ls seg (_ & _ & P) F IH]; [reflexivity|]. cbn [map zip_with]. f_equal; [|exact IH].
      unfold g. now rewrite P.
    - intros l Hl. destruct (H l Hl) as (a & b & Ia & Ib & K). rewrite <- Tf in Ia, Ib. pose proof (J3 a Ia). pose proof (J3 b Ib).
      split; [lra|]. unfold g. destruct (Sg l) as (p & P). destruct (P Hl) as (_ & _ & P'). now rewrite P'. }
  unfold get_permittivity_obj, complex_value. cbn [m_complex m_real m_imag].
  change (negb (valid_name _)) with false. cbv iota.
  rewrite (Ev cx_re mn mx A1 A2 A3), (Ev cx_im mn' mx' B1 B2 B3).
  change (String.eqb "eps" "nk") with false. f_equal.
  set (re := zip_with (fun l p => ORe (lin (Fin (fst (fst p)), cx_re (snd (fst p))) (Fin (fst (snd p)), cx_re (snd (snd p))) (Fin l))) ls seg).
  set (im := zip_with (fun l p => ORe (lin (Fin (fst (fst p)), cx_im (snd (fst p))) (Fin (fst (snd p)), cx_im (snd (snd p))) (Fin l))) ls seg).
  set (os := map OCx (zip_with (fun l p => joined (fst p) (snd p) l) ls seg)).
  assert (Z : zip_with (fun x y => OCx (cxadd (onum_cx x) (cxmul (CF Ci) (onum_cx y)))) re im = os /\ length re = length im /\ length re = length ls).
  { unfold re, im, os. clear - F. induction F as [|l p ls seg (Nx & _) F IH]; [repeat split|]. destruct IH as (IH & L1 & L3). cbn [zip_with map]. split; [|split; cbn [length]; congruence].
    f_equal; [|exact IH]. f_equal. destruct p as [a b]. cbn [fst snd] in *. apply join_lin. apply Nx. }
  destruct Z as (Z & Lr & Ll).
  unfold join_parts, in_shape.
  assert (A : obin (fun a b => cxadd a (cxmul (CF Ci) b)) (OA re) (OA im) = Ok (OA os)).
  { cbn [obin]. rewrite Lr, Nat.eqb_refl. now rewrite Z. }
  assert (B : omap (fun z => z) (OA os) = OA os).
  { cbn [omap]. f_equal. unfold os. rewrite map_map. apply map_ext. reflexivity. }
  destruct (sp_std q); [|rewrite A; cbn [bind]; now rewrite B|rewrite A; cbn [bind]; now rewrite B].
  destruct re as [|a [|b t]], im as [|a' [|b' t']]; try discriminate.
  - destruct ls; [congruence|discriminate].
  - cbn [zip_with] in Z. cbn [obin bind]. rewrite <- Z. reflexivity.
  - destruct os as [|o [|o2 os']]; [discriminate|discriminate|]. rewrite A. cbn [bind]. now rewrite B.
Qed.
Lemma between_nan X m lams es : (forall e, In e es -> e = CNan) -> answers_between X m lams es -> answers_nan X m lams.
Proof.
  intros E A q ls Q W Ne H. destruct (A q ls Q W Ne H) as (os & G & F). rewrite G. do 2 f_equal. f_equal.
  clear - E F. induction F as [|l o ls os (a & za & b & zb & Ia & Ib & _ & _ & _ & ->) F IH]; [reflexivity|]. cbn [map]. rewrite IH. f_equal.
  rewrite (E za) by (eapply in_combine_r; exact Ia). reflexivity.
Qed.

(** element-wise results that may be NaN *)
Lemma obin_gen s f e1 e2 : length e1 = length e2 -> length e1 = length (elems (sp_std s)) ->
  obin f (in_shape s (cvals e1)) (in_shape s (cvals e2)) =
  Ok (in_shape s (map OCx (zip_with (fun z w => f (CF z) (CF w)) e1 e2))).
Proof.
  intros L L1.
  assert (Z : zip_with (fun x y => OCx (f (onum_cx x) (onum_cx y))) (cvals e1) (cvals e2) =
              map OCx (zip_with (fun z w => f (CF z) (CF w)) e1 e2)).
  { clear L1. revert e2 L. induction e1 as [|z e1 IH]; intros [|w e2] L; try discriminate; [reflexivity|].
    cbn in L |- *. f_equal. apply IH. congruence. }
  unfold in_shape. destruct (sp_std s) as [x|l|l].
  - destruct e1 as [|z [|]]; try discriminate. destruct e2 as [|w [|]]; try discriminate. reflexivity.
  - cbn [obin]. unfold cvals at 1 2. rewrite !map_length, L, Nat.eqb_refl. f_equal. f_equal. exact Z.
  - cbn [obin]. unfold cvals at 1 2. rewrite !map_length, L, Nat.eqb_refl. f_equal. f_equal. exact Z.
Qed.
Lemma zip_length {A B C} (f : A -> B -> C) l m : length l = length m -> length (zip_with f l m) = length l.
Proof. revert m. induction l; intros [|b m] L; try discriminate; [reflexivity|]. cbn in *. f_equal. apply IHl. congruence. Qed.
Lemma eps_length X m s es lams : regular s -> wavelengths s lams -> permittivities X m s es -> length es = length lams.
Proof.
  intros Rg W (o & s' & H & O). destruct (in_shape_spec X m s o s' es Rg H O) as [_ L]. rewrite L.
  unfold wavelengths in W. now rewrite W, map_length.
Qed.
Lemma In_zip {A B C} (f : A -> B -> C) l m x : In x (zip_with f l m) <-> exists a b, In (a, b) (combine l m) /\ x = f a b.
Proof.
  revert m. induction l as [|a l IH]; intros [|b m]; cbn; try (split; [tauto|intros (? & ? & [] & _)]).
  rewrite IH. split.
  - intros [<-|(a' & b' & H & ->)]; [exists a, b; auto|exists a', b'; auto].
  - intros (a' & b' & [H|H] & ->); [injection H as <- <-; auto|right; eauto].
Qed.

Lemma singular_iff s f e1 e2 : length e1 = length e2 ->
  mg_singular (in_shape s (map OCx (zip_with (fun z w => mg_down (Fin f) (CF z) (CF w)) e1 e2))) = true <->
  (forall z w, In (z, w) (combine e1 e2) -> mg_pole f z w).
Proof.
  intros L. unfold mg_singular. rewrite negb_true_iff.
  change (match in_shape s ?l with OS x => [x] | OA l => l end) with (out_elems (in_shape s l)). rewrite out_in_shape.
  split.
  - intros H z w I. destruct (Ceqb0 ((2 + f) * z + (1 - f) * w)%C) eqn:E; [now apply Ceqb0_true|exfalso].
    assert (K : existsb (fun z => cx_nonzero (onum_cx z)) (map OCx (zip_with (fun z w => mg_down (Fin f) (CF z) (CF w)) e1 e2)) = true).
    { apply existsb_exists. exists (OCx (mg_down (Fin f) (CF z) (CF w))). split.
      - apply in_map, In_zip. eauto.
      - rewrite mg_down_fin. cbn [onum_cx cx_nonzero]. now rewrite E. }
    congruence.
  - intros H. destruct (existsb _ _) eqn:E; [exfalso|reflexivity]. apply existsb_exists in E. destruct E as (x & I & E).
    apply in_map_iff in I. destruct I as (y & <- & I). apply In_zip in I. destruct I as (z & w & I & ->).
    rewrite mg_down_fin in E. cbn [onum_cx cx_nonzero] in E. rewrite (proj2 (Ceqb0_true _) (H z w I)) in E. discriminate.
Qed.

Lemma table_duplicate lams es : ~ NoDup lams -> length lams = length es ->
  process_table 3 (map (fun p : R * CC => [Fin (fst p); Fin (fst (snd p)); Fin (snd (snd p))]) (combine lams es)) "eps"
     (mkP "" None None None "wavelength" "m") = Raise ValueError.
Proof.
  intros N L. unfold process_table, p_stype, p_unit, take_cols.
  change (Nat.ltb 1 3) with true. cbn [String.eqb Ascii.eqb Bool.eqb].
  cbn [bind]. rewrite cols_re.
  assert (N1 : ~ NoDup (map fst (re_rows lams es))) by (unfold re_rows; rewrite combine_fst; [assumption|now rewrite map_length]).
  assert (E : spec_data_from_pairs (xrows (re_rows lams es)) "wavelength" "m" = mk_interpolation (xrows (re_rows lams es)) "wavelength" "m").
  { destruct (re_rows lams es) as [|r [|r2 t]]; try reflexivity. exfalso. apply N1. cbn. constructor; [intros []|constructor]. }
  rewrite E. pose proof (mk_interp_spec (re_rows lams es) "wavelength" "m") as S0.
  destruct (mk_interpolation _ _ _) as [d|e]; [destruct S0 as (_ & K & _); contradiction|]. destruct S0 as [-> _]. reflexivity.
Qed.
