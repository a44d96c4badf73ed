(** Proofs about plots. *)
From Verif Require Import PyBase PyStr XReal CNum SpectrumModel SpectrumSpec SpectrumProofs SpectralModel SpectralSpec SpectralProofs InterpProofs EvalProofs ExtrapProofs TextModel TextSpec TextProofs TableProofs SpectrumThms MaterialModel MaterialSpec MaterialProofs MatEvalProofs MatRangeProofs PlotModel PlotSpec.
Open Scope R_scope.
Open Scope string_scope.
Open Scope list_scope.

Lemma label_spec s t canon : sp_type s = t -> sp_unit s = canon -> documented t canon canon ->
  (canon = "cm" /\ get_type_unit_string s = Raise KeyError) \/
  (canon <> "cm" /\ exists l, get_type_unit_string s = Ok l /\ axis_label t canon l).
Proof.
  intros E1 E2 (sp & I & _). unfold get_type_unit_string. rewrite E1, E2.
  cbn in I. repeat (destruct I as [I|I]; [injection I as <- <- <-|]); try contradiction;
    try (left; split; reflexivity);
    (right; split; [discriminate|]; eexists; split; [reflexivity|]; eexists; split; [|reflexivity]; cbn; auto 12).
Qed.
Lemma reals_numbers o : reals o = map cx_re (numbers o).
Proof. destruct o as [x|l]; [reflexivity|]. unfold numbers. cbn [reals out_elems]. now rewrite map_map. Qed.
Lemma imags_numbers o : imags o = map cx_im (numbers o).
Proof. destruct o as [x|l]; [reflexivity|]. unfold numbers. cbn [imags out_elems]. now rewrite map_map. Qed.

(** the drawing step *)
Definition draw (v : vals) (o : ovals) (l0 l1 : string) : res (list artist) :=
  do n <- (match v with VS _ => Raise AttributeError | v => Ok (length (elems v)) end);
  if Nat.eqb n 1
  then do r <- axhline (reals o) l0 false; do i <- axhline (imags o) l1 true; Ok [r; i]
  else do r <- plt_plot (elems v) (reals o) l0 false;
       do i <- plt_plot (elems v) (imags o) l1 true; Ok [r; i].
Lemma draw_spec v o l0 l1 : oshape o = shape v ->
  (exists x, v = VS x /\ draw v o l0 l1 = Raise AttributeError) \/
  (is_array v /\ exists ls, draw v o l0 l1 = Ok ls /\ drawn (elems v) (numbers o) l0 l1 ls).
Proof.
  intros Sh. destruct (shape v) as [n|] eqn:Ev; [|destruct v; try discriminate; left; eauto].
  right. split; [intros x ->; discriminate|].
  assert (Hd : draw v o l0 l1 = if Nat.eqb (length (elems v)) 1
    then do r <- axhline (reals o) l0 false; do i <- axhline (imags o) l1 true; Ok [r; i]
    else do r <- plt_plot (elems v) (reals o) l0 false; do i <- plt_plot (elems v) (imags o) l1 true; Ok [r; i])
    by (destruct v; [discriminate|reflexivity|reflexivity]).
  assert (L : length (numbers o) = length (elems v)).
  { transitivity n; [|destruct v; inversion Ev; reflexivity]. destruct o as [y|m]; inversion Sh.
    unfold numbers. cbn [out_elems]. now rewrite map_length. }
  rewrite Hd, reals_numbers, imags_numbers. destruct (Nat.eqb (length (elems v)) 1) eqn:E.
  - apply Nat.eqb_eq in E. rewrite E in L. destruct (numbers o) as [|z [|]]; try discriminate.
    cbn [map axhline bind]. eexists. split; [reflexivity|]. split; [now rewrite E|reflexivity].
  - unfold plt_plot. rewrite !map_length, L, Nat.eqb_refl. cbn [bind]. eexists. split; [reflexivity|]. split; [exact L|].
    destruct (numbers o) as [|z [|]]; try reflexivity. rewrite <- L in E. discriminate.
Qed.

(** plots as data, drawing and label *)
Lemma plot_nk_unfold X m a : plot_nk_data X m a =
  do s <- prepare_plot_data X m a; do o <- get_nk_data X m (SObj s);
  do ls <- draw (sp_values s) o "n" "k"; do l <- get_type_unit_string s; Ok (mkPlot ls "n, k" l).
Proof.
  unfold plot_nk_data, plot_data. destruct (prepare_plot_data X m a) as [s|]; cbn [bind]; [|reflexivity].
  destruct (get_nk_data X m (SObj s)); cbn [bind]; [|reflexivity].
  unfold draw, values_size. destruct (sp_values s); cbn [bind]; reflexivity.
Qed.
Lemma plot_eps_unfold X m a : plot_permittivity X m a =
  do s <- prepare_plot_data X m a; let (d, s') := get_permittivity_obj X m s in do o <- d;
  do ls <- draw (sp_values s') o "eps_r" "eps_i"; do l <- get_type_unit_string s'; Ok (mkPlot ls "eps_r, eps_i" l).
Proof.
  unfold plot_permittivity, plot_data. destruct (prepare_plot_data X m a) as [s|]; cbn [bind]; [|reflexivity].
  destruct (get_permittivity_obj X m s) as [d s']. destruct d; cbn [bind]; [|reflexivity].
  unfold draw, values_size. destruct (sp_values s'); cbn [bind]; reflexivity.
Qed.
Lemma prepare_given X m ot ou pv v : gives pv v ->
  prepare_plot_data X m (mkPlotArgs ot ou (Some pv)) = mk_spectrum (InVals v) (chosen ot (m_stype m)) (chosen ou (m_unit m)).
Proof. intros [-> | ->]; reflexivity. Qed.
Lemma nk_obj X m v t u s : mk_spectrum (InVals v) t u = Ok s -> get_nk_data X m (SObj s) = get_nk_data X m (SRaw (InVals v) t u).
Proof. intros H. unfold get_nk_data. now rewrite (mk_spectrum_again _ _ _ _ H), H. Qed.

(** the spectrum object after an evaluation: unchanged, or the same positions in another unit *)
Definition moved (s s' : spectrum) : Prop :=
  s' = s \/ exists t c w, documented t c c /\ convert_to s t c = Ok w /\ s' = mkSp t c w (sp_std s).
Lemma moved_std s s' : moved s s' -> sp_std s' = sp_std s.
Proof. intros [-> |(t & c & w & _ & _ & ->)]; reflexivity. Qed.
Lemma convert_std s s' t c : sp_std s' = sp_std s -> convert_to s' t c = convert_to s t c.
Proof. intros E. unfold convert_to. now rewrite E. Qed.
Lemma moved_trans s s1 s2 : moved s s1 -> moved s1 s2 -> moved s s2.
Proof.
  intros H1 [-> |(t & c & w & D & C & ->)]; [assumption|]. right. exists t, c, w.
  pose proof (moved_std _ _ H1) as E. rewrite (convert_std _ _ _ _ E) in C. rewrite E. auto.
Qed.
Lemma in_place_moved s t u : moved s (snd (convert_in_place s t u)).
Proof.
  unfold convert_in_place. destruct (dhas SPECTRUM_TYPES (lower t)) eqn:Dt; cbn [negb]; [|left; reflexivity].
  destruct (standardise_unit (lower t) u) as [c|] eqn:Es; [|left; reflexivity].
  destruct (to_dispatch (lower t) c (sp_std s)) as [w|] eqn:Ed; [|left; reflexivity]. right. cbn [snd].
  exists (lower t), c, w. apply (std_unit_spec _ _ _ Dt) in Es. apply documented_canon in Es.
  split; [assumption|]. split; [|reflexivity].
  destruct (documented_lower _ _ _ Es) as [L1 L2]. unfold convert_to.
  rewrite L2, Dt. cbn [negb]. rewrite (proj2 (std_unit_spec _ _ _ Dt) Es). exact Ed.
Qed.
Lemma eval_moved X d : forall s r s', evaluate X d s = (r, s') -> moved s s'.
Proof.
  induction d as [b c|b rows|b k p|b base IH spl]; intros s r s' H; cbn [evaluate] in H;
    try (injection H as _ <-; left; reflexivity).
  assert (Conv : forall s1 r' s2,
      (match convert_in_place s1 (d_type b) (d_unit b) with
       | (Raise e', s2) => (Raise e', s2)
       | (Ok _, s2) => (do_ contains (d_range b) s2; map_vals (fun x => Ok (ORe (splev X spl x))) (sp_values s2), s2)
       end) = (r', s2) -> moved s1 s2).
  { intros s1 r' s2 H1. pose proof (in_place_moved s1 (d_type b) (d_unit b)) as M.
    destruct (convert_in_place s1 (d_type b) (d_unit b)) as [[|] s3]; cbn [snd] in M; injection H1 as _ <-; exact M. }
  destruct (contains (valid_range base) s) as [cb|ce].
  - destruct (evaluate X base s) as [[v|e] s1] eqn:Eb; pose proof (IH _ _ _ Eb) as M1.
    + injection H as _ <-. exact M1.
    + destruct (catches ValueError e); [|injection H as _ <-; exact M1]. eapply moved_trans; [exact M1|]. eapply Conv, H.
  - destruct (catches ValueError ce); [eapply Conv, H|]. injection H as _ <-. left; reflexivity.
Qed.
Lemma eval_same X d s : not_extended d -> snd (evaluate X d s) = s.
Proof. destruct d; intros H; try reflexivity. exfalso. eapply H; reflexivity. Qed.
Lemma eps_moved X m s d s' : get_permittivity_obj X m s = (d, s') -> moved s s'.
Proof.
  unfold get_permittivity_obj. destruct (negb (valid_name m)); [intros H; injection H as _ <-; left; reflexivity|].
  destruct (complex_value X m s) as [c s1] eqn:C. intros H. injection H as _ <-. revert C. unfold complex_value.
  destruct (m_complex m) as [dc|]; [apply eval_moved|].
  destruct (evaluate X (m_real m) s) as [[re|e] sa] eqn:E1; pose proof (eval_moved _ _ _ _ _ E1) as M1;
    [|intros H; injection H as _ <-; exact M1].
  destruct (evaluate X (m_imag m) sa) as [[im|e] sb] eqn:E2; pose proof (eval_moved _ _ _ _ _ E2) as M2;
    intros H; injection H as _ <-; eapply moved_trans; eassumption.
Qed.
Lemma eps_same X m s : parts_not_extended m -> snd (get_permittivity_obj X m s) = s.
Proof.
  unfold get_permittivity_obj, parts_not_extended. intros N. destruct (negb (valid_name m)); [reflexivity|].
  destruct (complex_value X m s) as [c s1] eqn:C. cbn [snd]. revert C. unfold complex_value.
  destruct (m_complex m) as [dc|].
  - intros H. pose proof (eval_same X dc s N) as E. rewrite H in E. exact E.
  - destruct N as [Nr Ni]. pose proof (eval_same X _ s Nr) as E. destruct (evaluate X (m_real m) s) as [[re|e] sa]; cbn [snd] in E; subst sa.
    + pose proof (eval_same X _ s Ni) as E. destruct (evaluate X (m_imag m) s) as [[im|e] sb]; cbn [snd] in E; subst sb; intros H; injection H as _ <-; reflexivity.
    + intros H; injection H as _ <-; reflexivity.
Qed.
Lemma eps_regular X m s d s' : regular s -> get_permittivity_obj X m s = (d, s') ->
  regular s' /\ shape (sp_values s') = shape (sp_values s).
Proof.
  intros R H. destruct (eps_moved _ _ _ _ _ H) as [-> |(t & c & w & _ & C & ->)]; [auto|].
  apply shape_convert in C. unfold regular in *. cbn [sp_values sp_std]. split; congruence.
Qed.

(** ** text *)
Lemma ascii_only s : ascii_text (utf8_to_ascii s).
Proof.
  unfold ascii_text. induction s as [|c r IH]; [constructor|]. cbn [utf8_to_ascii].
  destruct (nat_of_ascii c <? 128)%nat eqn:E; [|exact IH]. cbn [list_ascii_of_string]. constructor; [now apply Nat.ltb_lt|exact IH].
Qed.
Lemma ascii_filter s : list_ascii_of_string (utf8_to_ascii s)
  = filter (fun c => (nat_of_ascii c <? 128)%nat) (list_ascii_of_string s).
Proof.
  induction s as [|c r IH]; [reflexivity|]. cbn [utf8_to_ascii list_ascii_of_string filter].
  destruct (nat_of_ascii c <? 128)%nat; [cbn [list_ascii_of_string]; now rewrite IH|exact IH].
Qed.
Lemma ascii_same s : ascii_text s -> utf8_to_ascii s = s.
Proof.
  unfold ascii_text. induction s as [|c r IH]; [reflexivity|]. cbn [list_ascii_of_string]. intros H. inversion H; subst.
  cbn [utf8_to_ascii]. rewrite (proj2 (Nat.ltb_lt _ _) H2), (IH H3). reflexivity.
Qed.

(** ** the default plot of a table *)
Lemma F2_map {A B D} (P : A -> B -> Prop) (f : B -> D) (h : A -> D) xs ys :
  Forall2 P xs ys -> (forall x y, In y ys -> P x y -> f y = h x) -> map f ys = map h xs.
Proof.
  induction 1 as [|x y xs ys H F IH]; intros K; [reflexivity|]. cbn [map]. f_equal; [apply K; [now left|assumption]|].
  apply IH. intros a b Hb. apply K. now right.
Qed.
Lemma wavelengths_exist t u canon xs : documented t u canon -> exists lams, Forall2 (wavelength_m t canon) xs lams.
Proof.
  intros D. induction xs as [|x xs (lams & IH)]; [exists []; constructor|].
  destruct (wavelength_total _ _ _ x D) as [lam W]. exists (lam :: lams). now constructor.
Qed.
Lemma own_array t u canon xs : documented (lower t) (lower u) canon -> lower t <> "wavenumber" ->
  Forall (fun x => 0 < x) xs -> Forall (resolved (lower t) canon) xs ->
  exists s lams, mk_spectrum (InVals (VA (map Fin xs))) t u = Ok s /\ Forall2 (wavelength_m (lower t) canon) xs lams /\
    s = mkSp (lower t) canon (VA (map Fin xs)) (VA (map Fin lams)) /\
    forall t' u', lower t' = lower t -> documented (lower t') u' canon ->
      convert_to s t' u' = Ok (VA (map Fin (map (rnd_for canon) xs))).
Proof.
  intros D Nw P Rs. destruct (wavelengths_exist _ _ _ xs D) as (lams & F).
  assert (Sv : standardise_values (lower t) canon (VA (map Fin xs)) = Ok (VA (map Fin lams))).
  { apply (std_array _ _ _ _ _ D F). intros Ht. rewrite Forall_forall in *. intros x Hx.
    specialize (P x Hx). destruct (Rs x Hx Ht) as [K _]. rewrite Rabs_pos_eq by lra. exact K. }
  rewrite (mk_spectrum_unfold _ _ _ _ D), Sv. cbn [bind]. eexists. exists lams. split; [reflexivity|]. split; [assumption|]. split; [reflexivity|].
  intros t' u' Et D'. set (s := mkSp _ _ _ _).
  assert (Pl : Forall2 (fun x lam => wavelength_m (lower t) canon x lam /\ 0 < x /\ (reciprocal_type (lower t) -> / 10 ^ 8 < lam)) xs lams).
  { clear Sv s. induction F as [|x lam xs lams W F IH]; constructor.
    - inversion P; inversion Rs; subst. split; [assumption|]. split; [assumption|]. intros Ht. now apply (proj2 (H5 Ht)).
    - inversion P; inversion Rs; subst. now apply IH. }
  assert (Nb : String.eqb (lower t') "wavenumber" = false) by (apply String.eqb_neq; congruence).
  destruct (conv_pointwise s t' u' canon (map Fin lams) D' eq_refl) as (g & Eg & G).
  { clear - Pl Nb Et. induction Pl as [|x lam xs lams (W & Px & Hl) F IH]; constructor; [|exact IH].
    intros Ht. cbv beta iota. rewrite Nb. left. pose proof (wavelength_pos _ _ _ _ W Px). rewrite Rabs_pos_eq by lra. apply Hl. now rewrite <- Et. }
  rewrite Eg. do 2 f_equal. rewrite !map_map. eapply F2_map; [exact Pl|]. intros x lam Hin (W & Px & _).
  specialize (G (mkSp "" "" (VS (Fin lam)) (VS (Fin lam))) (Fin lam) (in_map Fin _ _ Hin) eq_refl).
  rewrite (convert_to_unfold _ _ _ _ D') in G. cbn [sp_std] in G. rewrite Et in *.
  rewrite (to_scalar _ _ _ _ _ D' Nw W) in G by (intros; lra). congruence.
Qed.

Lemma Forall2_in_r {A B} (P : A -> B -> Prop) xs ys y : Forall2 P xs ys -> In y ys -> exists x, In x xs /\ P x y.
Proof.
  induction 1 as [|a b xs ys H F IH]; intros I; [destruct I|]. destruct I as [<-|I]; [exists a; split; [now left|assumption]|].
  destruct (IH I) as (x & Hx & Px). exists x. split; [now right|assumption].
Qed.
Lemma resolved_between t canon a b x : 0 < a -> a <= x <= b -> (exists u, documented t u canon) ->
  resolved t canon a -> resolved t canon b -> resolved t canon x.
Proof.
  intros Pa L (u & D) Ra Rb Ht. destruct (Ra Ht) as [Ba _]. destruct (Rb Ht) as [_ Bb]. split; [lra|]. intros lam W.
  destruct (wavelength_total _ _ _ b D) as [lb Wb]. specialize (Bb _ Wb).
  pose proof (wavelength_order _ _ _ _ _ _ W Wb ltac:(lra) ltac:(lra)) as O.
  assert (Nt : String.eqb t "wavelength" = false).
  { apply String.eqb_neq. intros ->. cbn in Ht. intuition discriminate. }
  rewrite Nt in O. destruct (Rlt_dec lam lb) as [K|K]; [apply O in K; lra|lra].
Qed.

Lemma rnd_twice canon x : rnd_for canon (rnd_for canon x) = rnd_for canon x.
Proof.
  pose proof (rnd_for_spec canon x) as H. symmetry. apply rounds_for_unique. unfold rounds_for in *.
  destruct (doc_decimals canon) as [d|]; [|reflexivity]. destruct H as (n & E & _ & _). exists n. split; [exact E|].
  rewrite Rminus_eq_0, Rabs_R0. assert (0 < / 10 ^ d) by (apply Rinv_0_lt_compat, pow_lt; lra). split; intros; lra.
Qed.

Lemma table_eval X l t u canon d ws : own_table l t u d -> documented (lower t) u canon -> lower t <> "wavenumber" ->
  ws <> [] -> Forall (fun x => 0 < x) ws -> Forall (resolved (lower t) canon) ws ->
  Forall (fun w => rnd_for canon w = w) ws ->
  Forall (fun w => (exists r, In r l /\ fst r <= w) /\ exists r, In r l /\ w <= fst r) ws ->
  forall s, mk_spectrum (InVals (VA (map Fin ws))) t u = Ok s ->
  exists ys, evaluate X d s = (Ok (OA ys), s) /\ length ys = length ws.
Proof.
  intros T D Nw Ne P Rs Fx In s Ms. change (mk_interpolation (xrows l) t u = Ok d) in T.
  assert (Lu : lower u = u) by apply (documented_lower _ _ _ D).
  assert (Du : documented (lower t) (lower u) canon) by (now rewrite Lu).
  destruct (own_array t u canon ws Du Nw P Rs) as (s0 & lams & M0 & F & Es & Cv). rewrite Ms in M0. injection M0 as <-.
  assert (Eq : map (rnd_for canon) ws = ws).
  { clear - Fx. induction Fx as [|w ws H F IH]; [reflexivity|]. cbn [map]. now rewrite H, IH. }
  rewrite Eq in Cv.
  assert (Pd : plain_data d) by (right; left; eauto).
  pose proof (mk_interp_spec l t u) as S. rewrite T in S. destruct S as (L2 & Nd & c & mn & mx & r & Dc & Er & -> & I1 & I2 & B).
  pose proof (documented_fun _ _ _ _ Du Dc) as <-.
  destruct (mk_spectrum_ok _ _ _ _ Er) as (c' & w' & D' & Ew & _ & E1 & E2 & E3). injection Ew as <-.
  pose proof (documented_fun _ _ _ _ Du D') as <-.
  assert (Lt : lower (lower t) = lower t) by apply (documented_lower _ _ _ D).
  assert (Cr : convert_to s (sp_type r) (sp_unit r) = Ok (VA (map Fin ws))).
  { rewrite E1, E2. apply Cv; [exact Lt|]. rewrite Lt. eapply documented_canon, D. }
  assert (Bw : Forall (fun w => mn <= w <= mx) ws).
  { rewrite Forall_forall in *. intros w Hw. destruct (In w Hw) as [(r1 & R1 & K1) (r2 & R2 & K2)].
    apply (in_map fst) in R1, R2. apply B in R1, R2. lra. }
  assert (Ct : contains r s = Ok true).
  { destruct (contains_hull r s _ Cr) as [[_ K]|[K _]]; [..|exact K|exfalso; apply K].
    - destruct ws; [congruence|discriminate].
    - rewrite E3. discriminate.
    - apply Forall_forall. intros x Hx. apply in_map_iff in Hx. destruct Hx as (? & <- & _). reflexivity.
    - rewrite E3. repeat constructor.
    - rewrite E3. apply Forall_forall. intros x Hx. apply in_map_iff in Hx. destruct Hx as (w & <- & Hw).
      rewrite Forall_forall in Bw. specialize (Bw w Hw).
      split; [exists (Fin mn)|exists (Fin mx)]; (split; [cbn; auto|]); apply xle_fin; lra. }
  assert (Pt : exists ys, map_res (point_of (DInterp (mkBase t u r) (xrows l))) (map Fin ws) = Ok ys /\ length ys = length ws).
  { clear - Bw L2 Nd I1 I2. induction Bw as [|w ws Hw F IH]; [exists []; split; reflexivity|].
    destruct IH as (ys & Ey & Ly). cbn [map map_res point_of].
    apply in_map_iff in I1, I2. destruct I1 as (r1 & <- & R1). destruct I2 as (r2 & <- & R2).
    destruct (adjacent_exists l w Nd L2) as (a & b & A & Hab).
    - exists r1. split; [assumption|lra].
    - exists r2. split; [assumption|lra].
    - rewrite (interp_point_ok l a b w Nd A Hab). cbn [bind]. rewrite Ey. cbn [bind].
      eexists. split; [reflexivity|]. cbn [length]. now rewrite Ly. }
  destruct Pt as (ys & Ey & Ly). exists ys. split; [|exact Ly].
  rewrite (eval_array X _ s (map Fin ws) (map Fin ws) (map Fin lams) Pd); rewrite ?Es; try reflexivity.
  - now rewrite Ey.
  - rewrite !map_length. symmetry. exact (Forall2_len _ _ _ F).
  - rewrite <- Es. exact Ct.
  - rewrite <- Es. cbn [dbase_of d_type d_unit]. apply Cv; [reflexivity|exact D].
Qed.

(** the largest common range of two parts, one of which is a table *)
Lemma xle_fin_inv lo r : xle lo (Fin r) = true -> lo <> NaN -> lo = NInf \/ exists q, lo = Fin q /\ q <= r.
Proof.
  destruct lo; intros H N; try (now left); try discriminate; try congruence. right. eexists. split; [reflexivity|]. now apply xle_fin.
Qed.
Lemma xle_fin_inv' hi r : xle (Fin r) hi = true -> hi <> NaN -> hi = PInf \/ exists q, hi = Fin q /\ r <= q.
Proof.
  destruct hi; intros H N; try (now left); try discriminate; try congruence. right. eexists. split; [reflexivity|]. now apply xle_fin.
Qed.
Lemma Rmin_two a b : Rmin a b = a \/ Rmin a b = b.
Proof. unfold Rmin. destruct (Rle_dec a b); auto. Qed.
Lemma Rmax_two a b : Rmax a b = a \/ Rmax a b = b.
Proof. unfold Rmax. destruct (Rle_dec a b); auto. Qed.
Lemma common_range m l1 l2 : valid_name m = true -> m_complex m = None ->
  wavelengths_of (m_real m) = [Fin l1; Fin l2] ->
  wavelengths_of (m_imag m) <> [] -> no_nan (wavelengths_of (m_imag m)) ->
  not_below (wavelengths_of (m_imag m)) (Fin (Rmin l1 l2)) -> not_above (wavelengths_of (m_imag m)) (Fin (Rmax l1 l2)) ->
  get_maximum_valid_range m =
  convert_to (mkSp "wavelength" "m" (VA [Fin (Rmin l1 l2); Fin (Rmax l1 l2)]) (VA [Fin (Rmin l1 l2); Fin (Rmax l1 l2)])) (m_stype m) (m_unit m).
Proof.
  intros V C Wr Ni Nn Nb Na.
  destruct (max_range m V C) as (lo & hi & N1 & N2 & _ & _ & Lo & Hi & ->); try assumption.
  - rewrite Wr. discriminate.
  - rewrite Wr. repeat constructor; discriminate.
  - assert (self : forall x, x <> NaN -> xle x x = true).
    { intros [r| | |] Hx; try reflexivity; [|congruence]. apply xle_fin. lra. }
    assert (Elo : lo = Fin (Rmin l1 l2)).
    { assert (K : xle lo (Fin (Rmin l1 l2)) = true).
      { apply Lo. split; [|assumption]. rewrite Wr.
        destruct (Rmin_two l1 l2) as [E|E]; rewrite E; [exists (Fin l1)|exists (Fin l2)]; (split; [cbn; auto|]); apply self; discriminate. }
      destruct (proj1 (Lo lo) (self lo N1)) as [(a & Ia & La) _]. rewrite Wr in Ia.
      destruct (xle_fin_inv _ _ K N1) as [-> |(q & -> & Q)].
      - destruct Ia as [<-|[<-|[]]]; discriminate La.
      - f_equal. assert (Rmin l1 l2 <= q); [|lra].
        destruct Ia as [<-|[<-|[]]]; apply xle_fin in La; pose proof (Rmin_l l1 l2); pose proof (Rmin_r l1 l2); lra. }
    assert (Ehi : hi = Fin (Rmax l1 l2)).
    { assert (K : xle (Fin (Rmax l1 l2)) hi = true).
      { apply Hi. split; [|assumption]. rewrite Wr.
        destruct (Rmax_two l1 l2) as [E|E]; rewrite E; [exists (Fin l1)|exists (Fin l2)]; (split; [cbn; auto|]); apply self; discriminate. }
      destruct (proj1 (Hi hi) (self hi N2)) as [(a & Ia & La) _]. rewrite Wr in Ia.
      destruct (xle_fin_inv' _ _ K N2) as [-> |(q & -> & Q)].
      - destruct Ia as [<-|[<-|[]]]; discriminate La.
      - f_equal. assert (q <= Rmax l1 l2); [|lra].
        destruct Ia as [<-|[<-|[]]]; apply xle_fin in La; pose proof (Rmax_l l1 l2); pose proof (Rmax_r l1 l2); lra. }
    now rewrite Elo, Ehi.
Qed.

(** the wavelengths bounding a table *)
Lemma table_wavelengths l t u canon d : own_table l t u d -> documented (lower t) (lower u) canon -> lower t <> "wavenumber" ->
  Forall (fun r => 0 < fst r /\ resolved (lower t) canon (fst r)) l ->
  exists mn mx l1 l2, In mn (map fst l) /\ In mx (map fst l) /\ (forall y, In y (map fst l) -> mn <= y <= mx) /\
    wavelength_m (lower t) canon mn l1 /\ wavelength_m (lower t) canon mx l2 /\
    wavelengths_of d = [Fin l1; Fin l2].
Proof.
  intros T D Nw P. change (mk_interpolation (xrows l) t u = Ok d) in T.
  pose proof (mk_interp_spec l t u) as S. rewrite T in S. destruct S as (L2 & Nd & c & mn & mx & r & Dc & Er & -> & I1 & I2 & B).
  assert (Pm : forall y, In y (map fst l) -> 0 < y /\ resolved (lower t) canon y).
  { intros y Hy. apply in_map_iff in Hy. destruct Hy as (q & <- & Hq). rewrite Forall_forall in P. now apply P. }
  destruct (own_array t u canon [mn; mx] D Nw) as (s & lams & M & F & Es & _).
  - repeat constructor; now apply Pm.
  - constructor; [now apply Pm|]. constructor; [now apply Pm|constructor].
  - cbn [map] in M. rewrite Er in M. injection M as ->. inversion F as [|? l1 ? ? W1 F1]; subst. inversion F1 as [|? l2 ? ? W2 F2]; subst. inversion F2; subst.
    exists mn, mx, l1, l2. repeat (split; [assumption|]). unfold wavelengths_of, valid_range. reflexivity.
Qed.

(** the imaginary part: a table over the same spectral values, or absent *)
Definition same_rows (l lk : list (R * R)) (t u : string) (d : sdata) : Prop :=
  (own_table lk t u d /\ map fst lk = map fst l) \/ zero_data d.

Lemma table_range m l lk t u canon : valid_name m = true -> m_complex m = None -> m_stype m = t -> m_unit m = u ->
  own_table l t u (m_real m) -> same_rows l lk t u (m_imag m) ->
  documented (lower t) u canon -> lower t <> "wavenumber" ->
  Forall (fun r => 0 < fst r /\ resolved (lower t) canon (fst r)) l ->
  (forall r, In r l -> (forall q, In q l -> fst r <= fst q) \/ (forall q, In q l -> fst q <= fst r) -> rounds_for canon (fst r) (fst r)) ->
  exists a b mn mx, get_maximum_valid_range m = Ok (VA [Fin a; Fin b]) /\ Rmin a b = mn /\ Rmax a b = mx /\ 0 < a /\ 0 < b /\
    (lower t = "wavelength" -> a = mn /\ b = mx) /\
    In mn (map fst l) /\ In mx (map fst l) /\ (forall y, In y (map fst l) -> mn <= y <= mx) /\
    rnd_for canon mn = mn /\ rnd_for canon mx = mx.
Proof.
  intros V C <- <- T Im D Nw P Ends. set (t := m_stype m) in *. set (u := m_unit m) in *.
  assert (Lu : lower u = u) by apply (documented_lower _ _ _ D).
  assert (Du : documented (lower t) (lower u) canon) by (now rewrite Lu).
  destruct (table_wavelengths l t u canon _ T Du Nw P) as (mn & mx & l1 & l2 & I1 & I2 & B & W1 & W2 & Wr).
  assert (Pm : forall y, In y (map fst l) -> 0 < y /\ resolved (lower t) canon y).
  { intros y Hy. apply in_map_iff in Hy. destruct Hy as (q & <- & Hq). rewrite Forall_forall in P. now apply P. }
  destruct (Pm mn I1) as [P1 R1]. destruct (Pm mx I2) as [P2 R2].
  assert (L12 : mn <= mx) by (apply (B mx I2)).
  pose proof (wavelength_pos _ _ _ _ W1 P1) as Q1. pose proof (wavelength_pos _ _ _ _ W2 P2) as Q2.
  assert (Im' : wavelengths_of (m_imag m) <> [] /\ no_nan (wavelengths_of (m_imag m)) /\
    not_below (wavelengths_of (m_imag m)) (Fin (Rmin l1 l2)) /\ not_above (wavelengths_of (m_imag m)) (Fin (Rmax l1 l2))).
  { destruct Im as [[Tk Ek]|Z].
    - assert (Pk : Forall (fun r => 0 < fst r /\ resolved (lower t) canon (fst r)) lk).
      { apply Forall_forall. intros r Hr. apply Pm. rewrite <- Ek. now apply in_map. }
      destruct (table_wavelengths lk t u canon _ Tk Du Nw Pk) as (mn' & mx' & l1' & l2' & I1' & I2' & B' & W1' & W2' & ->).
      rewrite Ek in *. assert (mn' = mn) as -> by (pose proof (B mn' I1'); pose proof (B' mn I1); lra).
      assert (mx' = mx) as -> by (pose proof (B mx' I2'); pose proof (B' mx I2); lra).
      rewrite <- (wavelength_fun _ _ _ _ _ W1 W1'), <- (wavelength_fun _ _ _ _ _ W2 W2').
      split; [discriminate|]. split; [repeat constructor; discriminate|]. split.
      + destruct (Rmin_two l1 l2) as [E|E]; rewrite E; [exists (Fin l1)|exists (Fin l2)]; (split; [cbn; auto|]); apply xle_fin; lra.
      + destruct (Rmax_two l1 l2) as [E|E]; rewrite E; [exists (Fin l1)|exists (Fin l2)]; (split; [cbn; auto|]); apply xle_fin; lra.
    - destruct (constant_data_inv _ _ Z) as (r & Ez & _ & _ & _). 
      assert (Ew : wavelengths_of (m_imag m) = [Fin 0; PInf]) by (unfold zero_data in Z; cbn in Z; injection Z as <-; reflexivity).
      rewrite Ew. split; [discriminate|]. split; [repeat constructor; discriminate|]. split.
      + exists (Fin 0). split; [now left|]. apply xle_fin. destruct (Rmin_two l1 l2) as [E|E]; rewrite E; lra.
      + exists PInf. split; [right; now left|]. reflexivity. }
  destruct Im' as (K1 & K2 & K3 & K4).
  pose proof (common_range m l1 l2 V C Wr K1 K2 K3 K4) as Mr. fold t u in Mr.
  (* the ends are not moved by rounding *)
  assert (Fmn : rnd_for canon mn = mn).
  { symmetry. apply rounds_for_unique. apply in_map_iff in I1. destruct I1 as (r & <- & Hr). apply Ends; [assumption|]. left.
    intros q Hq. apply B. now apply in_map. }
  assert (Fmx : rnd_for canon mx = mx).
  { symmetry. apply rounds_for_unique. apply in_map_iff in I2. destruct I2 as (r & <- & Hr). apply Ends; [assumption|]. right.
    intros q Hq. apply B. now apply in_map. }
  assert (Max : exists a b, get_maximum_valid_range m = Ok (VA [Fin a; Fin b]) /\ Rmin a b = mn /\ Rmax a b = mx /\ 0 < a /\ 0 < b /\
    (lower t = "wavelength" -> a = mn /\ b = mx)).
  { pose proof (wavelength_order _ _ _ _ _ _ W1 W2 P1 P2) as O. destruct (String.eqb (lower t) "wavelength") eqn:Et.
    - assert (l1 <= l2) by (destruct (Rle_lt_or_eq_dec _ _ L12) as [K|K]; [apply O in K; lra|subst; rewrite (wavelength_fun _ _ _ _ _ W1 W2); lra]).
      rewrite Mr, Rmin_left, Rmax_right by assumption. exists mn, mx. split; [|rewrite Rmin_left, Rmax_right by assumption; auto 8].
      rewrite (bounds_convert t u canon l1 l2 mn mx D Nw W1 W2 P1 P2); [now rewrite Fmn, Fmx|].
      intros Ht. split; [now apply (proj2 (R1 Ht))|now apply (proj2 (R2 Ht))].
    - assert (l2 <= l1).
      { destruct (Rle_dec l2 l1) as [K|K]; [assumption|]. apply Rnot_le_lt in K. apply O in K. lra. }
      rewrite Mr, Rmin_right, Rmax_left by assumption. exists mx, mn. split; [|rewrite Rmin_right, Rmax_left by assumption; do 4 (split; [auto|]); intros Et'; rewrite Et' in Et; discriminate].
      rewrite (bounds_convert t u canon l2 l1 mx mn D Nw W2 W1 P2 P1); [now rewrite Fmn, Fmx|].
      intros Ht. split; [now apply (proj2 (R2 Ht))|now apply (proj2 (R1 Ht))]. }
  destruct Max as (a & b & M1 & M2 & M3 & M4 & M5 & M6). exists a, b, mn, mx. auto 14.
Qed.

Lemma default_plot_ok X m l lk t u canon : valid_name m = true -> m_complex m = None -> m_stype m = t -> m_unit m = u ->
  own_table l t u (m_real m) -> same_rows l lk t u (m_imag m) ->
  documented (lower t) u canon -> lower t <> "wavenumber" ->
  Forall (fun r => 0 < fst r /\ resolved (lower t) canon (fst r)) l ->
  (forall r, In r l -> (forall q, In q l -> fst r <= fst q) \/ (forall q, In q l -> fst q <= fst r) -> rounds_for canon (fst r) (fst r)) ->
  geomspace_exact X ->
  exists ws o, length ws = 1000%nat /\
    Forall (fun w => (exists r, In r l /\ fst r <= w) /\ exists r, In r l /\ w <= fst r) ws /\
    (exists s, get_sample_spectrum X m = Ok s /\ convert_to s t u = Ok (VA (map Fin ws))) /\
    get_nk_data X m (SRaw (InVals (VA (map Fin ws))) t u) = Ok o.
Proof.
  intros V C Et Eu T Im D Nw P Ends G.
  destruct (table_range m l lk t u canon V C Et Eu T Im D Nw P Ends) as (a & b & mn & mx & Mx & Ea & Eb & Pa & Pb & _ & I1 & I2 & B & Fmn & Fmx).
  subst t u. set (t := m_stype m) in *. set (u := m_unit m) in *.
  assert (Lu : lower u = u) by apply (documented_lower _ _ _ D).
  assert (Du : documented (lower t) (lower u) canon) by (now rewrite Lu).
  assert (Pm : forall y, In y (map fst l) -> 0 < y /\ resolved (lower t) canon y).
  { intros y Hy. apply in_map_iff in Hy. destruct Hy as (q & <- & Hq). rewrite Forall_forall in P. now apply P. }
  destruct (Pm mn I1) as [P1 R1]. destruct (Pm mx I2) as [P2 R2].
  destruct (sample_between X m a b mn mx Mx Pa Pb (eq_sym Ea) (eq_sym Eb) (or_intror G) canon Du) as (vs & s & Gs & _ & _ & _ & Len & Fv & Ms).
  fold t u in Ms.
  assert (Btw : forall x, mn <= x <= mx -> 0 < x /\ resolved (lower t) canon x).
  { intros x Hx. split; [lra|]. eapply (resolved_between _ _ mn mx); eauto. }
  destruct (own_array t u canon vs Du Nw) as (s0 & lams & M0 & _ & _ & Cv).
  { rewrite Forall_forall in *. intros x Hx. now apply Btw, Fv. }
  { rewrite Forall_forall in *. intros x Hx. now apply Btw, Fv. }
  rewrite Ms in M0. injection M0 as <-. specialize (Cv t u eq_refl D).
  set (ws := map (rnd_for canon) vs) in *.
  assert (Bw : Forall (fun w => mn <= w <= mx /\ rnd_for canon w = w) ws).
  { apply Forall_forall. intros w Hw. apply in_map_iff in Hw. destruct Hw as (v & <- & Hv). rewrite Forall_forall in Fv. specialize (Fv v Hv).
    split; [|apply rnd_twice]. rewrite <- Fmn, <- Fmx. split; apply rnd_for_mono; lra. }
  assert (Bt : forall lz : list (R * R), map fst lz = map fst l -> Forall (fun w => (exists r, In r lz /\ fst r <= w) /\ exists r, In r lz /\ w <= fst r) ws).
  { intros lz Ez. rewrite <- Ez in I1, I2. apply in_map_iff in I1, I2. destruct I1 as (r1 & E1 & H1). destruct I2 as (r2 & E2 & H2).
    rewrite Forall_forall in *. intros w Hw. specialize (Bw w Hw). split; [exists r1|exists r2]; (split; [assumption|]); lra. }
  assert (Nws : ws <> []) by (intros E; assert (L : length ws = 1000%nat) by (unfold ws; now rewrite map_length); rewrite E in L; discriminate).
  assert (Pw : Forall (fun x => 0 < x) ws) by (rewrite Forall_forall in *; intros x Hx; now apply Btw, Bw).
  assert (Rw : Forall (resolved (lower t) canon) ws) by (rewrite Forall_forall in *; intros x Hx; now apply Btw, Bw).
  assert (Fw : Forall (fun w => rnd_for canon w = w) ws) by (rewrite Forall_forall in *; intros x Hx; now apply Bw).
  destruct (own_array t u canon ws Du Nw Pw Rw) as (s1 & lams1 & M1 & F1 & Es1 & _).
  destruct (table_eval X l t u canon _ ws T D Nw Nws Pw Rw Fw (Bt l eq_refl) s1 M1) as (ys & Ey & Ly).
  assert (Ev : exists ks, evaluate X (m_imag m) s1 = (Ok (OA ks), s1) /\ length ks = length ws).
  { destruct Im as [[Tk Ek]|Z].
    - exact (table_eval X lk t u canon _ ws Tk D Nw Nws Pw Rw Fw (Bt lk Ek) s1 M1).
    - destruct (const_zero_eval X _ s1 Z) as (o & Eo & So & _).
      + rewrite Es1. unfold vnn. cbn [sp_std elems]. apply Forall_forall. intros x Hx. apply in_map_iff in Hx. destruct Hx as (lam & <- & Hl).
        destruct (Forall2_in_r _ _ _ _ F1 Hl) as (w & Hw & Ww). cbn. rewrite Forall_forall in Pw.
        pose proof (wavelength_pos _ _ _ _ Ww (Pw w Hw)). lra.
      + rewrite Es1. cbn [sp_std elems]. intros E. apply Nws. apply map_eq_nil in E. subst. inversion F1. reflexivity.
      + rewrite Es1. discriminate.
      + rewrite Es1 in So. cbn [sp_values shape] in So. destruct o as [|ks]; [discriminate|]. injection So as So.
        exists ks. split; [exact Eo|]. rewrite So. cbn [elems]. apply map_length. }
  destruct Ev as (ks & Ek & Lk).
  exists ws. eexists. split; [unfold ws; now rewrite map_length|]. split; [now apply Bt|]. split; [exists s; auto|].
  unfold get_nk_data. rewrite M1. cbn [bind]. rewrite V. cbn [negb]. unfold complex_value. rewrite C, Ey, Ek.
  unfold join_parts, obin. rewrite Ly, Lk, Nat.eqb_refl. cbn [fst bind]. reflexivity.
Qed.

(** ** a plot in another unit *)
Lemma conv_array s t u canon xs lams : sp_std s = VA (map Fin lams) -> documented (lower t) u canon -> lower t <> "wavenumber" ->
  Forall2 (wavelength_m (lower t) canon) xs lams -> Forall (fun x => 0 < x) xs ->
  Forall (fun lam => / 10 ^ 8 < lam) lams ->
  convert_to s t u = Ok (VA (map Fin (map (rnd_for canon) xs))).
Proof.
  intros Es D Nw F P Big.
  assert (Nb : String.eqb (lower t) "wavenumber" = false) by (now apply String.eqb_neq).
  destruct (conv_pointwise s t u canon (map Fin lams) D Es) as (g & Eg & G).
  { clear - Big Nb. induction Big as [|lam lams H F IH]; constructor; [|exact IH].
    intros Ht. cbv beta iota. rewrite Nb. left. assert (0 < / 10 ^ 8) by (apply Rinv_0_lt_compat, pow_lt; lra). rewrite Rabs_pos_eq by lra. exact H. }
  rewrite Eg. do 2 f_equal. rewrite !map_map.
  assert (F' : Forall2 (fun x lam => wavelength_m (lower t) canon x lam /\ 0 < x) xs lams).
  { clear - F P. induction F as [|x lam xs lams W F IH]; constructor; inversion P; subst; auto. }
  eapply F2_map; [exact F'|]. intros x lam Hin (W & Px).
  specialize (G (mkSp "" "" (VS (Fin lam)) (VS (Fin lam))) (Fin lam) (in_map Fin _ _ Hin) eq_refl).
  rewrite (convert_to_unfold _ _ _ _ D) in G. cbn [sp_std] in G.
  rewrite (to_scalar _ _ _ _ _ D Nw W) in G by (intros; lra). congruence.
Qed.

Lemma sample_exact X m a b : get_maximum_valid_range m = Ok (VA [Fin a; Fin b]) -> 0 < a -> 0 < b -> geomspace_exact X ->
  exists mid, Forall (fun x => Rmin a b <= x <= Rmax a b) mid /\
    get_sample_spectrum X m = mk_spectrum (InVals (VA (map Fin (a :: mid ++ [b])))) (m_stype m) (m_unit m).
Proof.
  intros H Pa Pb G. destruct (G a b Pa Pb) as (mid & E & _ & F). exists mid. split; [assumption|].
  unfold get_sample_spectrum. rewrite H. cbn [bind elems].
  assert (Z : xeqb (Fin a) (Fin 0) || xeqb (Fin b) PInf = false) by (cbn; rewrite orb_false_r; apply Reqb_false; lra).
  rewrite Z, E. cbn [bind map hd]. cbn [xlt].
  assert (Z1 : Rltb a a = false) by (apply Rltb_false; lra). rewrite Z1.
  rewrite map_app. change (Fin a :: map Fin mid ++ map Fin [b]) with ((Fin a :: map Fin mid) ++ [Fin b]). rewrite last_app.
  unfold xgt. cbn [xlt]. assert (Z2 : Rltb b b = false) by (apply Rltb_false; lra). rewrite Z2. reflexivity.
Qed.

(** hc/e in eV nm *)
Definition hc_nm : R := planck * speed_of_light / elementary_charge * 10 ^ 9.
Lemma hc_nm_value : 1239.84198433 < hc_nm < 1239.84198434.
Proof. unfold hc_nm, planck, speed_of_light, elementary_charge. split; lra. Qed.
Lemma nm_ev x lam : 0 < x -> wavelength_m "wavelength" "nm" x lam -> wavelength_m "energy" "ev" (hc_nm / x) lam.
Proof.
  intros P W. inversion W; subst.
  replace (x / 10 ^ 9) with (planck * speed_of_light / (elementary_charge * (hc_nm / x))); [constructor|].
  unfold hc_nm. destruct const_pos as (P1 & P2 & P3 & P4 & P5). destruct consts_eq as (E1 & E2 & E3). rewrite E1, E2, E3.
  field. repeat split; try lra.
Qed.
Lemma ev_nm y lam : 0 < y -> wavelength_m "energy" "ev" y lam -> wavelength_m "wavelength" "nm" (hc_nm / y) lam.
Proof.
  intros P W. inversion W; subst.
  replace (planck * speed_of_light / (elementary_charge * y)) with (hc_nm / y / 10 ^ 9); [constructor|].
  unfold hc_nm. destruct const_pos as (P1 & P2 & P3 & P4 & P5). destruct consts_eq as (E1 & E2 & E3). rewrite E1, E2, E3.
  field. repeat split; try lra.
Qed.

Lemma rnd_exact canon d n : doc_decimals canon = Some d -> rnd_for canon (IZR n / 10 ^ d) = IZR n / 10 ^ d.
Proof.
  intros H. symmetry. apply rounds_for_unique. unfold rounds_for. rewrite H. exists n. split; [reflexivity|].
  rewrite Rminus_eq_0, Rabs_R0. assert (0 < / 10 ^ d) by (apply Rinv_0_lt_compat, pow_lt; lra). split; intros; lra.
Qed.
(** the energy of 400 nm, rounded to nine decimals, lies above it *)
Lemma ev_400 : rnd_for "ev" (hc_nm / 400) = 3.099604961.
Proof.
  symmetry. apply rounds_for_unique. unfold rounds_for. change (doc_decimals "ev") with (Some 9%nat). cbv iota.
  exists 3099604961%Z. pose proof hc_nm_value as V. split; [lra|].
  assert (B : Rabs (3.099604961 - hc_nm / 400) < / 2 * / 10 ^ 9) by (apply Rabs_def1; lra). split; lra.
Qed.
Lemma nm_back : rnd_for "nm" (hc_nm / 3.099604961) < 400.
Proof.
  apply Rle_lt_trans with (rnd_for "nm" (IZR 399999999990000 / 10 ^ 12)).
  - apply rnd_for_mono. pose proof hc_nm_value as V.
    apply Rmult_le_reg_r with 3.099604961; [lra|]. unfold Rdiv at 1. rewrite Rmult_assoc, Rinv_l by lra. lra.
  - rewrite (rnd_exact "nm" 12 399999999990000 eq_refl). lra.
Qed.
Lemma rnd_bounds (a b : Z) x : IZR a <= x <= IZR b -> IZR a <= rnd_for "ev" x <= IZR b.
Proof.
  intros [H1 H2]. assert (E : forall z, rnd_for "ev" (IZR z) = IZR z) by (intros z; symmetry; apply rounds_for_unique, rounds_for_int).
  rewrite <- (E a), <- (E b). split; now apply rnd_for_mono.
Qed.

Lemma energy_plot_fails X m l lk : valid_name m = true -> m_complex m = None -> m_stype m = "wavelength" ->
  documented "wavelength" (m_unit m) "nm" ->
  own_table l "wavelength" (m_unit m) (m_real m) -> same_rows l lk "wavelength" (m_unit m) (m_imag m) ->
  (forall r, In r l -> 400 <= fst r <= 800) -> (exists r, In r l /\ fst r = 400) -> (exists r, In r l /\ fst r = 800) ->
  geomspace_exact X -> forall s, get_sample_spectrum X m = Ok s ->
  exists v, convert_to s "energy" "ev" = Ok v /\ get_nk_data X m (SRaw (InVals v) "energy" "ev") = Raise ValueError.
Proof.
  intros V C Et D T Im B (r4 & I4 & E4) (r8 & I8 & E8) G s Gs.
  assert (Nr : forall t c x, t = "wavelength" -> resolved t c x).
  { intros t c x -> Ht. cbn in Ht. intuition discriminate. }
  assert (F4 : rnd_for "nm" 400 = 400) by (symmetry; apply rounds_for_unique, (rounds_for_int "nm" 400)).
  assert (F8 : rnd_for "nm" 800 = 800) by (symmetry; apply rounds_for_unique, (rounds_for_int "nm" 800)).
  assert (Lw : lower "wavelength" = "wavelength") by reflexivity. assert (Le : lower "energy" = "energy") by reflexivity.
  assert (Nw : "wavelength" <> "wavenumber") by discriminate. assert (Ne : "energy" <> "wavenumber") by discriminate.
  assert (De : documented "energy" "ev" "ev") by (exists ["electronvolt"; "ev"]; cbn; auto 20).
  assert (Lu : lower (m_unit m) = m_unit m) by apply (documented_lower _ _ _ D).
  assert (Du : documented (lower "wavelength") (lower (m_unit m)) "nm") by (now rewrite Lu).
  destruct (table_range m l lk "wavelength" (m_unit m) "nm" V C Et eq_refl T Im D Nw) as (a & b & mn & mx & Mx & _ & _ & Pa & Pb & W & I1 & I2 & Bd & _ & _).
  { apply Forall_forall. intros r Hr. specialize (B r Hr). split; [lra|now apply Nr]. }
  { intros r Hr K. assert (fst r = 400 \/ fst r = 800) as [-> | ->].
    { destruct K as [K|K]; [left; specialize (K r4 I4)|right; specialize (K r8 I8)]; specialize (B r Hr); lra. }
    - rewrite <- F4 at 2. apply rnd_for_spec. - rewrite <- F8 at 2. apply rnd_for_spec. }
  destruct (W Lw) as [-> ->].
  assert (mn = 400) as ->.
  { pose proof (Bd 400 ltac:(rewrite <- E4; now apply in_map)). apply in_map_iff in I1. destruct I1 as (q & <- & Hq). specialize (B q Hq). lra. }
  assert (mx = 800) as ->.
  { pose proof (Bd 800 ltac:(rewrite <- E8; now apply in_map)). apply in_map_iff in I2. destruct I2 as (q & <- & Hq). specialize (B q Hq). lra. }
  destruct (sample_exact X m 400 800 Mx ltac:(lra) ltac:(lra) G) as (mid & Fm & Es). rewrite Es, Et in Gs.
  rewrite Rmin_left, Rmax_right in Fm by lra.
  set (vs := 400 :: mid ++ [800]) in *.
  assert (Bv : Forall (fun x => 400 <= x <= 800) vs).
  { constructor; [lra|]. apply Forall_app. split; [assumption|]. constructor; [lra|constructor]. }
  pose proof hc_nm_value as Hh. assert (T9 : 0 < / 10 ^ 9) by (apply Rinv_0_lt_compat, pow_lt; lra).
  destruct (own_array "wavelength" (m_unit m) "nm" vs Du Nw) as (s0 & lams & M0 & Fl & Es0 & _).
  { eapply Forall_impl; [|exact Bv]. intros; cbv beta in *; lra. }
  { eapply Forall_impl; [|exact Bv]. intros; now apply Nr. }
  rewrite Gs in M0. injection M0 as <-.
  (* the energies *)
  assert (Fe : Forall2 (wavelength_m "energy" "ev") (map (fun x => hc_nm / x) vs) lams /\ Forall (fun lam => / 10 ^ 8 < lam) lams).
  { clear - Fl Bv. induction Fl as [|x lam xs ls Wx F IH]; [split; constructor|].
    inversion Bv as [|? ? Hx Hr]; subst. destruct (IH Hr) as [K1 K2]. split; constructor; try assumption.
    - apply nm_ev; [lra|exact Wx].
    - cbn in Wx. inversion Wx; subst. lra. }
  destruct Fe as [Fe Bl].
  assert (Be : Forall (fun x => 1 <= x <= 4) (map (fun x => hc_nm / x) vs)).
  { apply Forall_forall. intros y Hy. apply in_map_iff in Hy. destruct Hy as (x & <- & Hx). rewrite Forall_forall in Bv. specialize (Bv x Hx).
    split; apply Rmult_le_reg_r with x; try lra; unfold Rdiv; rewrite Rmult_assoc, Rinv_l by lra; lra. }
  assert (Std : sp_std s = VA (map Fin lams)) by (rewrite Es0; reflexivity).
  rewrite (conv_array s "energy" "ev" "ev" _ lams Std De Ne Fe);
    [|eapply Forall_impl; [|exact Be]; intros; cbv beta in *; lra|assumption].
  set (ys := map (rnd_for "ev") (map (fun x => hc_nm / x) vs)) in *.
  exists (VA (map Fin ys)). split; [reflexivity|].
  assert (By : Forall (fun y => 1 <= y <= 4) ys).
  { apply Forall_forall. intros y Hy. apply in_map_iff in Hy. destruct Hy as (x & <- & Hx). rewrite Forall_forall in Be. exact (rnd_bounds 1 4 x (Be x Hx)). }
  assert (Lev : forall y lam, 1 <= y <= 4 -> wavelength_m "energy" "ev" y lam -> / 10 ^ 8 < lam).
  { intros y lam Hy Wy. apply ev_nm in Wy; [|lra]. inversion Wy; subst.
    assert (300 <= hc_nm / y) by (apply Rmult_le_reg_r with y; [lra|]; unfold Rdiv; rewrite Rmult_assoc, Rinv_l by lra; lra). lra. }
  destruct (own_array "energy" "ev" "ev" ys De Ne) as (s2 & lam2 & M2 & F2 & Es2 & _).
  { eapply Forall_impl; [|exact By]. intros; cbv beta in *; lra. }
  { apply Forall_forall. intros y Hy. rewrite Forall_forall in By. specialize (By y Hy). intros _. split; [lra|]. intros lam. now apply Lev. }
  assert (Fz : Forall2 (wavelength_m "wavelength" "nm") (map (fun y => hc_nm / y) ys) lam2 /\ Forall (fun lam => / 10 ^ 8 < lam) lam2).
  { clear - F2 By Lev. induction F2 as [|x lam xs ls Wx F IH]; [split; constructor|].
    inversion By as [|? ? Hx Hr]; subst. destruct (IH Hr) as [K1 K2]. split; constructor; try assumption.
    - apply ev_nm; [lra|exact Wx].
    - eapply Lev; [exact Hx|exact Wx]. }
  destruct Fz as [Fz Bz].
  unfold get_nk_data. rewrite M2. cbn [bind]. rewrite V. cbn [negb]. unfold complex_value. rewrite C.
  (* the table refuses the first position *)
  change (mk_interpolation (xrows l) "wavelength" (m_unit m) = Ok (m_real m)) in T.
  destruct (interp_range_x _ _ _ _ T) as (mn & mx & Vr & J1 & J2 & Bj & c & Dc & Tr & Ur).
  pose proof (documented_fun _ _ _ _ Du Dc) as <-.
  assert (mn = 400) as ->.
  { pose proof (Bj 400 ltac:(rewrite <- E4; now apply in_map)). apply in_map_iff in J1. destruct J1 as (q & <- & Hq). specialize (B q Hq). lra. }
  assert (mx = 800) as ->.
  { pose proof (Bj 800 ltac:(rewrite <- E8; now apply in_map)). apply in_map_iff in J2. destruct J2 as (q & <- & Hq). specialize (B q Hq). lra. }
  assert (Cz : convert_to s2 (sp_type (valid_range (m_real m))) (sp_unit (valid_range (m_real m)))
     = Ok (VA (map Fin (map (rnd_for "nm") (map (fun y => hc_nm / y) ys))))).
  { rewrite Tr, Ur. apply (conv_array s2 "wavelength" "nm" "nm" _ lam2); [rewrite Es2; reflexivity|eapply documented_canon, D|exact Nw|exact Fz| |exact Bz].
    apply Forall_forall. intros z Hz. apply in_map_iff in Hz. destruct Hz as (y & <- & Hy). rewrite Forall_forall in By. specialize (By y Hy).
    apply Rdiv_lt_0_compat; lra. }
  assert (Ct : contains (valid_range (m_real m)) s2 = Raise ValueError).
  { destruct (contains_hull (valid_range (m_real m)) s2 _ Cz) as [[K _]|[_ K]].
    - discriminate.
    - rewrite Vr. discriminate.
    - apply Forall_forall. intros x Hx. apply in_map_iff in Hx. destruct Hx as (? & <- & _). reflexivity.
    - rewrite Vr. repeat constructor.
    - exfalso. apply Forall_inv in K. rewrite Vr in K. cbn [elems] in K. destruct K as [(q & Iq & Lq) _].
      pose proof nm_back as NB. rewrite <- ev_400 in NB.
      destruct Iq as [<-|[<-|[]]]; apply xle_fin in Lq; lra.
    - rewrite K, Ur. reflexivity. }
  assert (Ev : evaluate X (m_real m) s2 = (Raise ValueError, s2)).
  { apply eval_range_check; [right; left; eauto|exact Ct]. }
  rewrite Ev. reflexivity.
Qed.

(** a unit that is not in lower case *)
Lemma vmin_err v e : vmin v = Raise e -> e = ValueError.
Proof. unfold vmin, np_min. destruct (elems v); [congruence|discriminate]. Qed.
Lemma vmax_err v e : vmax v = Raise e -> e = ValueError.
Proof. unfold vmax, np_max. destruct (elems v); [congruence|discriminate]. Qed.
Lemma upper_case_range m : valid_name m = true -> lower (m_unit m) <> m_unit m -> get_maximum_valid_range m = Raise ValueError.
Proof.
  intros V N. unfold get_maximum_valid_range. rewrite V. cbn [negb].
  set (b := match m_complex m with None => _ | Some _ => _ end).
  assert (B : forall e, b = Raise e -> e = ValueError).
  { unfold b. clear b. intros e. destruct (m_complex m);
    repeat match goal with
    | |- context [vmin ?v] => let E := fresh "E" in destruct (vmin v) eqn:E; cbn [bind]; [|apply vmin_err in E; congruence]
    | |- context [vmax ?v] => let E := fresh "E" in destruct (vmax v) eqn:E; cbn [bind]; [|apply vmax_err in E; congruence]
    end; intros K; discriminate K. }
  destruct b as [b'|e]; cbn [bind]; [|now rewrite (B e eq_refl)].
  destruct (mk_spectrum _ "wavelength" "m") as [s|e] eqn:Es; cbn [bind].
  - apply C10_convert_to_case_l; [exact "" | exact N].
  - exfalso. revert Es. unfold mk_spectrum. cbn. discriminate.
Qed.
