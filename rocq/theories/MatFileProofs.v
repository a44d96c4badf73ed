(** Proofs about materials: equality, file data. *)
From Verif Require Import PyBase PyStr XReal CNum SpectrumModel SpectrumSpec SpectrumProofs SpectralModel SpectralSpec SpectralProofs InterpProofs EvalProofs ExtrapProofs TextModel TextSpec TextProofs TableProofs TableThms MaterialModel MaterialSpec MaterialProofs MatEvalProofs MatRangeProofs.
From Flocq Require Import Core.
Open Scope R_scope.
Open Scope string_scope.
Open Scope list_scope.

(** ** equality *)
Lemma dict_eqb_iff a b : NoDup (map fst a) -> NoDup (map fst b) ->
  (dict_eqb a b = true <-> forall k, dget a k = dget b k).
Proof.
  intros Na Nb. unfold dict_eqb. rewrite andb_true_iff, forallb_forall. split.
  - intros [L F] k. apply Nat.eqb_eq in L.
    assert (Sub : forall k v, In (k, v) a -> In (k, v) b).
    { intros k0 v0 Hin. specialize (F _ Hin). cbn [fst snd] in F. destruct (dget b k0) as [w|] eqn:E; [|discriminate].
      apply String.eqb_eq in F. subst. now apply (dget_NoDup b k0 w Nb). }
    assert (Keys : incl (map fst b) (map fst a)).
    { apply NoDup_length_incl; [assumption|rewrite !map_length; lia|].
      intros x Hx. apply in_map_iff in Hx. destruct Hx as ([k0 v0] & <- & Hin). apply (in_map fst _ _ (Sub _ _ Hin)). }
    destruct (dget a k) as [v|] eqn:E.
    + apply (dget_NoDup a k v Na) in E. symmetry. apply (dget_NoDup b k v Nb). auto.
    + destruct (dget b k) as [w|] eqn:E'; [|reflexivity]. exfalso.
      apply (dget_NoDup b k w Nb) in E'. pose proof (Keys _ (in_map fst _ _ E')) as K. cbn [fst] in K.
      apply in_map_iff in K. destruct K as ([k0 v0] & <- & Hin). apply (dget_NoDup a k0 v0 Na) in Hin. cbn [fst] in E. congruence.
  - intros H. split.
    + apply Nat.eqb_eq. rewrite <- (map_length fst a), <- (map_length fst b).
      apply Nat.le_antisymm; apply NoDup_incl_length; try assumption; intros k Hk;
        apply in_map_iff in Hk; destruct Hk as ([k0 v0] & <- & Hin); cbn [fst].
      * apply (dget_NoDup a k0 v0 Na) in Hin. rewrite H in Hin. apply (dget_NoDup b k0 v0 Nb) in Hin. exact (in_map fst _ _ Hin).
      * apply (dget_NoDup b k0 v0 Nb) in Hin. rewrite <- H in Hin. apply (dget_NoDup a k0 v0 Na) in Hin. exact (in_map fst _ _ Hin).
    + intros [k v] Hin. cbn [fst snd]. apply (dget_NoDup a k v Na) in Hin. rewrite <- H, Hin. apply String.eqb_refl.
Qed.
Lemma mval_eqb_iff v w : value_ok v -> value_ok w -> (mval_eqb v w = true <-> same_value v w).
Proof.
  destruct v, w; cbn [value_ok mval_eqb same_value]; intros Hv Hw; try (split; [discriminate|tauto]).
  - apply String.eqb_eq.
  - now apply dict_eqb_iff.
  - apply Z.eqb_eq.
Qed.

Lemma dget_cons_same {V} k (v : V) r : dget ((k, v) :: r) k = Some v.
Proof. cbn [dget]. now rewrite String.eqb_refl. Qed.
Lemma dget_cons_other {V} k k' (v : V) r : k' <> k -> dget ((k, v) :: r) k' = dget r k'.
Proof. intros H. cbn [dget]. destruct (String.eqb k' k) eqn:E; [apply String.eqb_eq in E; congruence|reflexivity]. Qed.
Lemma dget_notin {V} (d : dict V) k : ~ In k (map fst d) -> dget d k = None.
Proof.
  induction d as [|[k0 v0] r IH]; [reflexivity|]. cbn [map fst In]. intros H.
  rewrite dget_cons_other by (intros ->; tauto). apply IH. tauto.
Qed.

(** the loop of __eq__ over the keys of [a] *)
Lemma meta_eq_spec a b : NoDup (map fst a) -> (forall k, In k (map fst a) -> dget b k <> None) ->
  Forall (fun kv => value_ok (snd kv)) a -> (forall k w, dget b k = Some w -> value_ok w) ->
  exists r, meta_eq a b = Ok r /\
    (r = true <-> forall k v, In (k, v) a -> exists w, dget b k = Some w /\ same_value v w).
Proof.
  induction a as [|[k v] a IH]; intros Na K Va Vb.
  - exists true. split; [reflexivity|]. split; [intros _ k v []|reflexivity].
  - cbn [meta_eq]. unfold dlookup. destruct (dget b k) as [w|] eqn:E; [|exfalso; apply (K k); [left; reflexivity|assumption]].
    cbn [bind]. inversion Na; subst. pose proof (Forall_inv Va) as V1. cbn [snd] in V1.
    destruct (mval_eqb v w) eqn:M.
    + destruct IH as (r & E1 & Er); [assumption|intros; apply K; right; assumption|exact (Forall_inv_tail Va)|assumption|].
      exists r. split; [assumption|]. rewrite Er. apply mval_eqb_iff in M; [|assumption|eauto]. split.
      * intros H k0 v0 [[= <- <-]|Hin]; [exists w; auto|auto].
      * intros H k0 v0 Hin. apply H. now right.
    + exists false. split; [reflexivity|]. split; [discriminate|]. intros H. exfalso.
      destruct (H k v (or_introl eq_refl)) as (w' & Hw & S). rewrite E in Hw. injection Hw as <-.
      apply mval_eqb_iff in S; [congruence|assumption|eauto].
Qed.

Definition meta_form (m : material) : Prop :=
  exists a, m_meta m = Some a /\ (map fst a = file_metadata \/ map fst a = direct_metadata) /\
            Forall (fun kv => value_ok (snd kv)) a.
Lemma copy_meta_spec fm meta : copy_meta fm = Ok meta ->
  map fst meta = file_metadata /\ forall k v, In (k, v) meta -> dget fm k = Some v.
Proof.
  unfold copy_meta. intros H. split.
  - change file_metadata with file_meta_keys. revert meta H. generalize file_meta_keys as l.
    induction l as [|k l IH]; cbn [map_res]; intros meta H; [inversion H; reflexivity|].
    destruct (dlookup fm k) eqn:E; cbn [bind] in H; [|discriminate].
    destruct (map_res _ l) eqn:E2; cbn [bind] in H; [|discriminate]. inversion H; subst. cbn. now rewrite (IH _ eq_refl).
  - revert meta H. generalize file_meta_keys as l.
    induction l as [|k l IH]; cbn [map_res]; intros meta H; [inversion H; intros k v []|].
    destruct (dlookup fm k) eqn:E; cbn [bind] in H; [|discriminate].
    destruct (map_res _ l) eqn:E2; cbn [bind] in H; [|discriminate]. inversion H; subst.
    intros k0 v0 [[= <- <-]|Hin]; [|eapply IH; eauto]. unfold dlookup in E. destruct (dget fm k); inversion E; reflexivity.
Qed.
Lemma copy_meta_ok fm : meta_complete fm -> exists meta, copy_meta fm = Ok meta.
Proof.
  intros H. unfold copy_meta. change file_meta_keys with file_metadata. unfold meta_complete in H. revert H.
  generalize file_metadata as l. induction l as [|k l IH]; intros H; [eexists; reflexivity|]. cbn [map_res].
  destruct IH as (meta & E); [intros; apply H; now right|].
  unfold dlookup at 1. destruct (dget fm k) as [v|] eqn:Ek; [|exfalso; apply (H k); [left; reflexivity|assumption]].
  cbn [bind]. rewrite E. cbn [bind]. eauto.
Qed.
Lemma complete_fields meta p m : complete meta p = Ok m -> m_meta m = Some meta /\ m_name m = p_name p /\
  m_complex m = p_complex p /\ m_stype m = p_stype p /\ m_unit m = p_unit p.
Proof. intros H. unfold complete in H. step H. step H. inversion H; subst. auto 8. Qed.
Lemma build_meta rd a m : reader_ok rd -> build rd a = Ok m -> meta_form m.
Proof.
  intros R H. unfold build in H.
  destruct (as_str (a "file_path")) as [path|].
  - repeat step H. destruct (complete_fields _ _ _ H) as (M & _). destruct (copy_meta_spec _ _ E0) as (K & V).
    eexists. split; [exact M|]. split; [left; exact K|]. apply Forall_forall. intros [k v] Hin. cbn [snd].
    exact (R _ _ _ _ E (V _ _ Hin)).
  - step H. destruct (complete_fields _ _ _ H) as (M & _). eexists. split; [exact M|]. split; [right; reflexivity|].
    unfold default_meta. repeat (constructor; [first [exact I | constructor]|]). constructor.
Qed.
Lemma made_meta X rd m : reader_ok rd -> made X rd m -> meta_form m.
Proof.
  intros R. induction 1 as [kw m K H|m m' Hm IH H|m s order r m' s' Hm IH H].
  - destruct (mk_material_good _ _ _ K H) as (a & B). eapply build_meta; eassumption.
  - unfold remove_absorption in H. destruct (constant_default (ORe (Fin 0))); [|discriminate]. cbn [bind] in H. inversion H; subst. exact IH.
  - destruct (extrapolate_fields _ _ _ _ _ _ _ H) as (E & _). unfold meta_form. rewrite E. exact IH.
Qed.
Lemma keys_nodup (a : dict mval) : map fst a = file_metadata \/ map fst a = direct_metadata -> NoDup (map fst a).
Proof.
  intros [-> | ->]; unfold file_metadata, direct_metadata;
    repeat (constructor; [cbn; intuition discriminate|]); constructor.
Qed.

Lemma mat_eq_spec a b ma mb : m_meta a = Some ma -> m_meta b = Some mb ->
  map fst ma = map fst mb -> NoDup (map fst ma) -> ma <> [] ->
  Forall (fun kv => value_ok (snd kv)) ma -> Forall (fun kv => value_ok (snd kv)) mb ->
  exists r, mat_eq a (Some b) = Ok r /\ (r = true <-> m_name a = m_name b /\ same_metadata ma mb).
Proof.
  intros Ea Eb K N Ne Va Vb. unfold mat_eq. rewrite Ea, Eb.
  assert (Nb : NoDup (map fst mb)) by (now rewrite <- K).
  assert (Vb' : forall k w, dget mb k = Some w -> value_ok w).
  { intros k w H. apply (dget_NoDup mb k w Nb) in H. rewrite Forall_forall in Vb. exact (Vb _ H). }
  destruct (meta_eq_spec ma mb N) as (r & Em & Er); [|assumption|assumption|].
  { intros k Hk Hn. rewrite K in Hk. apply in_map_iff in Hk. destruct Hk as ([k0 w] & <- & Hin). cbn [fst] in Hn.
    apply (dget_NoDup mb k0 w Nb) in Hin. congruence. }
  destruct ma as [|kv ma']; [congruence|]. remember (kv :: ma') as ma. rewrite Em. cbn [bind].
  assert (Sm : (forall k v, In (k, v) ma -> exists w, dget mb k = Some w /\ same_value v w) <-> same_metadata ma mb).
  { split.
    - intros H k. destruct (dget ma k) as [v|] eqn:E.
      + apply (dget_NoDup ma k v N) in E. destruct (H _ _ E) as (w & -> & S). exact S.
      + destruct (dget mb k) as [w|] eqn:E'; [|exact I]. apply (dget_NoDup mb k w Nb) in E'.
        pose proof (in_map fst _ _ E') as Hk. rewrite <- K in Hk. apply in_map_iff in Hk. destruct Hk as ([k0 v] & E2 & Hin).
        cbn [fst] in E2. subst k0. apply (dget_NoDup ma k v N) in Hin. congruence.
    - intros H k v Hin. specialize (H k). apply (dget_NoDup ma k v N) in Hin. rewrite Hin in H.
      destruct (dget mb k) as [w|]; [|contradiction]. exists w. auto. }
  rewrite Sm in Er. destruct r.
  - exists (String.eqb (m_name a) (m_name b)). split; [reflexivity|]. rewrite String.eqb_eq.
    pose proof (proj1 Er eq_refl). tauto.
  - exists false. split; [reflexivity|]. split; [discriminate|]. intros [_ S]. apply Er in S. discriminate.
Qed.
Lemma same_value_sym v w : same_value v w -> same_value w v.
Proof. destruct v, w; cbn; intros H; try contradiction; intros; symmetry; auto. Qed.
Lemma same_value_refl v : same_value v v.
Proof. destruct v; cbn; auto. Qed.
Lemma same_metadata_sym a b : same_metadata a b -> same_metadata b a.
Proof. intros H k. specialize (H k). destruct (dget a k), (dget b k); auto. now apply same_value_sym. Qed.
Lemma same_metadata_refl a : same_metadata a a.
Proof. intros k. destruct (dget a k); [apply same_value_refl|exact I]. Qed.

(** ** file data *)
Lemma call_file rd kw path t u : call kw "file_path" (PStr path) t u ->
  mk_material rd kw =
  do fd <- rd path; do meta <- copy_meta (fd_meta fd);
  do p <- process_datasets (fd_sets fd) (mkP "" None None None t u); complete meta p.
Proof.
  intros C. call_args C. pose proof (call_build rd _ _ _ _ _ C) as B. reduce_args Fn Fs Ft Fu B.
  rewrite B. reduce_goal Fn Fs Ft Fu. reflexivity.
Qed.

(** absorption coefficients *)
Lemma cm_array xs t u canon lams : documented (lower t) (lower u) canon ->
  Forall2 (wavelength_m (lower t) canon) xs lams ->
  (reciprocal_type (lower t) -> Forall (fun x => / 10 ^ 8 < Rabs x) xs) ->
  exists s, mk_spectrum (InVals (VA (map Fin xs))) t u = Ok s /\
    convert_to s "wavelength" "cm" = Ok (VA (map (fun l => Fin (round_dec 5 (10 ^ 2 * l))) lams)).
Proof.
  intros D W B. rewrite (mk_spectrum_unfold _ _ _ _ D). rewrite (std_array _ _ _ _ _ D W B). cbn [bind].
  eexists. split; [reflexivity|]. unfold convert_to. cbn [sp_std].
  change (lower "wavelength") with "wavelength". change (dhas SPECTRUM_TYPES "wavelength") with true.
  change (standardise_unit "wavelength" "cm") with (Ok "cm"). cbn [negb bind].
  change (to_dispatch "wavelength" "cm" (VA (map Fin lams))) with (Ok (vmap (xround 5) (vscale (10 ^ 2) (VA (map Fin lams))))).
  unfold vscale. cbn [vmap]. rewrite !map_map. do 2 f_equal.
Qed.

Lemma to_xr_lengths n rows : table_ok n rows -> to_xr rows <> [] /\ Forall (fun r => length r = n) (to_xr rows).
Proof.
  intros (Ne & F & _). split; [destruct rows; [congruence|discriminate]|].
  unfold to_xr. rewrite Forall_forall in *. intros r Hr. apply in_map_iff in Hr. destruct Hr as (r0 & <- & Hin).
  rewrite map_length. auto.
Qed.
Lemma str_table_iff s n nums :
  str_table_to_numeric (TStr s) = Ok (ND2 n nums) <->
  exists lines rest toks,
    s = join NL (lines ++ rest) /\ Forall no_newline (lines ++ rest) /\
    Forall (fun l => ~ blank l) lines /\ ended rest /\
    Forall2 line_text lines toks /\ Forall2 (Forall2 (number_text true)) toks nums /\
    nums <> [] /\ Forall (fun r => length r = n) nums.
Proof. apply C24_table_l. Qed.
Lemma table_value v n rows : (0 < n)%nat -> table_ok n rows -> holds_table v n rows ->
  str_table_to_numeric (dval_tab v) = Ok (ND2 n (to_xr rows)).
Proof.
  intros Hn T [->|(s & lines & rest & toks & -> & H1 & H2 & H3 & H4 & H5 & H6)]; cbn [dval_tab].
  - destruct n; [lia|]. apply str_table_arr.
  - destruct (to_xr_lengths _ _ T). apply str_table_iff. exists lines, rest, toks. auto 10.
Qed.
Lemma entry_value v dflt s : file_or_default v dflt s ->
  (if dval_true v then dval_str v else Ok dflt) = Ok s.
Proof.
  intros [[-> N]|[-> ->]]; [|reflexivity]. cbn [dval_true dval_str]. destruct s; [congruence|reflexivity].
Qed.
Lemma words d a b : type_words d a b -> dval_split (ds_type d) = Ok [a; b].
Proof. intros (s & -> & L). cbn [dval_split]. now rewrite (split_ws_complete _ _ L). Qed.

Lemma zip_krows t canon rows lams :
  Forall2 (wavelength_m t canon) (map (fun r => nth 0 r 0) rows) lams ->
  Forall (fun r => length r = 3%nat) rows ->
  exists krows, Forall2 (coded_k_row t canon) rows krows /\
    map (fun r => nth 0 r 0) krows = map (fun r => nth 0 r 0) rows /\ Forall (fun r => length r = 2%nat) krows /\
    combine (map (col 0) (to_xr rows))
      (zip_with (fun al w => xdiv (xmul al w) (Fin (PI * 4))) (map (col 2) (to_xr rows))
         (map (fun l => Fin (round_dec 5 (10 ^ 2 * l))) lams)) = column 1 krows.
Proof.
  revert lams. induction rows as [|r rows IH]; intros lams W F.
  - exists []. repeat split; constructor.
  - cbn [map] in W. inversion W as [|x lam l lams' W1 W2]; subst.
    destruct (IH lams' W2 (Forall_inv_tail F)) as (krows & K1 & K2 & K3 & K4).
    pose proof (Forall_inv F) as Lr. cbv beta in Lr.
    exists ([nth 0 r 0; nth 2 r 0 * round_dec 5 (10 ^ 2 * lam) / (4 * PI)] :: krows). split; [|split; [|split]].
    + constructor; [|assumption]. exists lam, (round_dec 5 (10 ^ 2 * lam)). split; [assumption|]. split; [|reflexivity].
      replace (100 * lam) with (10 ^ 2 * lam) by lra. apply round_dec_spec.
    + cbn [map nth]. now rewrite K2.
    + constructor; [reflexivity|assumption].
    + unfold to_xr in *. cbn [map zip_with combine column]. unfold column in K4. rewrite K4. f_equal. rewrite !col_fin by lia.
      cbn [nth]. rewrite xmul_fin, xdiv_fin by (pose proof PI_RGT_0; lra). do 2 f_equal. field. pose proof PI_RGT_0; lra.
Qed.

Lemma table_alpha rows t u canon p : table_ok 3 rows -> documented (lower t) (lower u) canon ->
  p_stype p = t -> p_unit p = u ->
  (reciprocal_type (lower t) -> Forall (fun r => / 10 ^ 8 < Rabs (nth 0 r 0)) rows) ->
  exists a b krows, tabulated (column 1 rows) t u a /\ Forall2 (coded_k_row (lower t) canon) rows krows /\
    tabulated (column 1 krows) t u b /\
    process_table 3 (to_xr rows) "n_alpha" p = Ok (set_imag (set_real p "nk" a) "nk" b).
Proof.
  intros T D Ht Hu Big. pose proof T as (Ne & F & ND).
  set (xs := map (fun r => nth 0 r 0) rows).
  assert (L : exists lams, Forall2 (wavelength_m (lower t) canon) xs lams).
  { clear - D. induction xs as [|x xs (lams & IH)]; [exists []; constructor|].
    destruct (wavelength_total _ _ _ x D) as (lam & H). exists (lam :: lams). constructor; assumption. }
  destruct L as (lams & L).
  destruct (zip_krows _ _ _ _ L F) as (krows & K1 & K2 & K3 & K4).
  destruct (cm_array xs t u canon lams D L) as (s & Es & Ec).
  { intros Rt. specialize (Big Rt). unfold xs. rewrite Forall_forall in *. intros x Hx. apply in_map_iff in Hx.
    destruct Hx as (r & <- & Hr). auto. }
  destruct (tab_ok 3 1 rows t u canon T ltac:(lia) D) as (a & Ea & Ta).
  assert (Tk : table_ok 2 krows).
  { split; [|split; [assumption|]].
    - intros ->. inversion K1; subst. congruence.
    - rewrite K2. exact ND. }
  destruct (tab_ok 2 1 krows t u canon Tk ltac:(lia) D) as (b & Eb & Tb).
  exists a, b, krows. split; [assumption|]. split; [assumption|]. split; [assumption|].
  unfold process_table. rewrite Ht, Hu. change (String.eqb "n_alpha" "nk") with false.
  change (String.eqb "n_alpha" "n_alpha") with true. cbv iota.
  rewrite (take_cols_ok 3 1 rows) by (auto; lia). cbn [bind]. rewrite Ea. cbn [bind].
  assert (C0 : map (col 0) (to_xr rows) = map Fin xs).
  { unfold to_xr, xs. rewrite !map_map. apply map_ext_in. intros r Hr. rewrite Forall_forall in F. specialize (F r Hr).
    apply col_fin. lia. }
  rewrite C0. rewrite Es. cbn [bind]. rewrite Ec. cbn [bind elems Nat.ltb Nat.leb]. rewrite <- C0, K4, Eb. reflexivity.
Qed.

(** one data set *)
Lemma dataset_table d id n rows t u p : type_words d "tabulated" id -> (0 < n)%nat -> table_ok n rows ->
  holds_table (ds_data d) n rows ->
  file_or_default (ds_stype d) (p_stype p) t -> file_or_default (ds_unit d) (p_unit p) u ->
  process_dataset d p = process_table n (to_xr rows) id (set_defaults p t u).
Proof.
  intros W Hn T H Ht Hu. unfold process_dataset. rewrite (words _ _ _ W). cbn [bind].
  change (String.eqb "tabulated" "tabulated") with true. cbv iota.
  rewrite (table_value _ _ _ Hn T H), (entry_value _ _ _ Ht), (entry_value _ _ _ Hu). reflexivity.
Qed.

Lemma numbers_parse s l : numbers_text s l -> map_res py_float (split_ws s) = Ok l.
Proof.
  intros (toks & L & F). rewrite (split_ws_complete _ _ L).
  apply (map_res_iff py_float (number_text true)); [|exact F].
  intros x Hx y. apply py_float_token. pose proof (line_tokens_solid _ _ L) as So. rewrite Forall_forall in So. auto.
Qed.
Lemma dval_true_str s : s <> "" -> dval_true (DStr s) = true.
Proof. destruct s; [congruence|reflexivity]. Qed.

Lemma formula_number id k : In (id, k) documented_formulas ->
  exists i name, py_int id = Ok i /\ method_ids i = Ok name /\ In (name, k) documented_models.
Proof.
  unfold documented_formulas. cbn [In]. intros H. decompose [or] H; try contradiction;
    match goal with H : (_, _) = (_, _) |- _ => inversion H; subst end;
    do 2 eexists; (split; [vm_compute; reflexivity|]); (split; [reflexivity|]); cbn; tauto.
Qed.
Lemma dataset_formula d dt id k rs rng cs params t u p :
  type_words d dt id ->
  (dt = "formula" /\ In (id, k) documented_formulas) \/ (dt = "model" /\ In (id, k) documented_models) ->
  ds_range d = DStr rs -> rs <> "" -> numbers_text rs rng -> ds_data d = DStr cs -> numbers_text cs params ->
  file_or_default (ds_stype d) (p_stype p) t -> file_or_default (ds_unit d) (p_unit p) u ->
  process_dataset d p = do m <- mk_model k params (InVals (VA rng)) t u; Ok (place k (set_defaults p t u) m).
Proof.
  intros W K Er Nr Tr Ec Tc Ht Hu. unfold process_dataset. rewrite (words _ _ _ W). cbn [bind].
  assert (G : process_formula_data d dt id p = do m <- mk_model k params (InVals (VA rng)) t u; Ok (place k (set_defaults p t u) m)).
  { unfold process_formula_data. rewrite Er, Ec, (dval_true_str _ Nr). cbn [dval_split].
    rewrite (entry_value _ _ _ Ht), (entry_value _ _ _ Hu).
    assert (M : exists ident name, (if String.eqb dt "formula" then do i <- py_int id; Ok (inl i) else Ok (inr id)) = Ok ident /\
        (match ident with inl i => method_ids i | inr s => Ok s end) = Ok name /\ In (name, k) documented_models).
    { destruct K as [[-> Hin]|[-> Hin]].
      - destruct (formula_number _ _ Hin) as (i & name & E1 & E2 & E3). exists (inl i), name.
        change (String.eqb "formula" "formula") with true. cbv iota. rewrite E1. auto.
      - exists (inr id), id. auto. }
    destruct M as (ident & name & E1 & E2 & E3). rewrite E1. cbn [bind].
    rewrite (numbers_parse _ _ Tr). cbn [bind]. rewrite (numbers_parse _ _ Tc). cbn [bind]. rewrite E2. cbn [bind].
    exact (model_dict_ok name k params (InVals (VA rng)) (Some t) (Some u) t u p E3 eq_refl eq_refl). }
  destruct K as [[-> Hin]|[-> Hin]]; exact G.
Qed.

Lemma py_int_complete s i : integer_text s i -> py_int s = Ok i.
Proof.
  intros (g & sg & w & ds & -> & Hg & Hw & Ei).
  assert (So : no_space (g ++ w)) by (apply no_space_app; split; [eapply sign_no_space; eassumption|eapply digits_no_space; eassumption]).
  assert (Nw : w <> "") by (destruct (digits_head _ _ _ Hw) as (c & r & -> & _); discriminate).
  assert (Ng : (g ++ w)%string <> "") by (destruct g, w; cbn; congruence).
  unfold py_int.
  assert (St : rstrip (lstrip (g ++ w)) = (g ++ w)%string).
  { pose proof (strip_solid "" (g ++ w) "" blank_nil (conj Ng So) blank_nil) as E. cbn [append] in E.
    now rewrite app_empty_r in E. }
  rewrite St. destruct (digits_head _ _ _ Hw) as (c & r & Ew & Hc).
  assert (Sc : signchar c = false).
  { unfold signchar. destruct (Ascii.eqb c "-") eqn:E1; [apply Ascii.eqb_eq in E1; subst; discriminate|].
    destruct (Ascii.eqb c "+") eqn:E2; [apply Ascii.eqb_eq in E2; subst; discriminate|]. reflexivity. }
  rewrite Ew, (scan_sign_app _ _ _ _ Hg Sc), <- Ew.
  pose proof (scan_complete true w ds "" false Hw I) as Sd. rewrite app_empty_r in Sd. rewrite Sd.
  pose proof (digits_nonempty _ _ _ Hw) as Nd. destruct ds as [|d0 ds]; [congruence|].
  f_equal. apply eq_IZR. rewrite Ei, <- digits_val_pos.
  inversion Hg; subst; destruct (Rlt_dec _ 0); rewrite ?opp_IZR; try lra.
Qed.
Lemma method_other i : (i < 1 \/ 9 < i)%Z -> method_ids i = Raise KeyError.
Proof.
  intros H. unfold method_ids.
  destruct i as [|p|p]; try reflexivity. assert (9 < Z.pos p)%Z by lia.
  do 4 (destruct p as [p|p|]; try reflexivity; try lia).
Qed.
Lemma dataset_unknown d id i rs rng cs params t u p :
  type_words d "formula" id -> integer_text id i -> (i < 1 \/ 9 < i)%Z ->
  ds_range d = DStr rs -> rs <> "" -> numbers_text rs rng -> ds_data d = DStr cs -> numbers_text cs params ->
  file_or_default (ds_stype d) (p_stype p) t -> file_or_default (ds_unit d) (p_unit p) u ->
  process_dataset d p = Raise KeyError.
Proof.
  intros W Hi Hr Er Nr Tr Ec Tc Ht Hu. unfold process_dataset. rewrite (words _ _ _ W). cbn [bind].
  change (String.eqb "formula" "tabulated") with false. change (String.eqb "formula" "formula" || String.eqb "formula" "model") with true.
  cbv iota. unfold process_formula_data. rewrite Er, Ec, (dval_true_str _ Nr). cbn [dval_split].
  rewrite (entry_value _ _ _ Ht), (entry_value _ _ _ Hu). change (String.eqb "formula" "formula") with true. cbv iota.
  rewrite (py_int_complete _ _ Hi). cbn [bind].
  rewrite (numbers_parse _ _ Tr). cbn [bind]. rewrite (numbers_parse _ _ Tc). cbn [bind]. now rewrite (method_other _ Hr).
Qed.
Lemma dataset_no_range d dt id k p :
  type_words d dt id -> (dt = "formula" /\ In (id, k) documented_formulas) \/ dt = "model" ->
  ds_range d = DStr "" -> process_dataset d p = Raise UnboundLocalError.
Proof.
  intros W K Er. unfold process_dataset. rewrite (words _ _ _ W). cbn [bind].
  assert (G : process_formula_data d dt id p = Raise UnboundLocalError).
  { unfold process_formula_data. rewrite Er. cbn [dval_true].
    destruct K as [[-> Hin]| ->].
    - destruct (formula_number _ _ Hin) as (i & name & E1 & E2 & E3).
      change (String.eqb "formula" "formula") with true. cbv iota. rewrite E1. reflexivity.
    - reflexivity. }
  destruct K as [[-> Hin]| ->]; exact G.
Qed.

(** a file with one data set *)
Lemma file_one rd kw path t0 u0 fm d : call kw "file_path" (PStr path) t0 u0 ->
  rd path = Ok (mkFdict fm [d]) -> meta_complete fm ->
  exists meta, copy_meta fm = Ok meta /\
    mk_material rd kw = do p <- process_dataset d (mkP "" None None None t0 u0); complete meta p.
Proof.
  intros C R M. destruct (copy_meta_ok _ M) as (meta & E). exists meta. split; [assumption|].
  rewrite (call_file _ _ _ _ _ C), R. cbn [bind fd_meta fd_sets]. rewrite E. cbn [bind process_datasets].
  destruct (process_dataset d _); reflexivity.
Qed.
Lemma complete_real meta n a p : p_imag p = None -> exists z, zero_data z /\
  complete meta (set_real p n a) = Ok (mkMat (Some meta) n a z (p_complex p) (p_stype p) (p_unit p)).
Proof.
  intros H. destruct zero_ok as (z & E & Z). exists z. split; [assumption|]. unfold complete. cbn [set_real p_real p_imag].
  rewrite H, E. reflexivity.
Qed.

(** ** concrete calls *)
Lemma call_check kw n v t u : kwargs_ok kw -> typed_all (arg kw) = true -> arg kw n = v -> v <> PNone ->
  sources_of (arg kw) = [n] ->
  (arg kw "spectrum_type" = PStr t \/ (arg kw "spectrum_type" = PNone /\ t = "wavelength")) ->
  (arg kw "unit" = PStr u \/ (arg kw "unit" = PNone /\ u = "nanometer")) ->
  call kw n v t u.
Proof.
  intros K T A N So Ht Hu. constructor.
  - assumption.
  - now apply typed_all_iff.
  - assert (Hn : In n (sources_of (arg kw))) by (rewrite So; now left).
    unfold sources_of in Hn. apply filter_In in Hn. split; [exact (proj1 Hn)|]. now apply given_arg.
  - intros m Hm. apply (sources_of_In kw m K) in Hm. rewrite So in Hm. destruct Hm as [->|[]]. reflexivity.
  - destruct Ht as [H|[H ->]]; [left; apply given_arg; [assumption|split; [assumption|discriminate]]|right].
    split; [reflexivity|]. now apply not_given.
  - destruct Hu as [H|[H ->]]; [left; apply given_arg; [assumption|split; [assumption|discriminate]]|right].
    split; [reflexivity|]. now apply not_given.
Qed.
Ltac a_call := apply call_check;
  [ unfold kwargs_ok; cbn; repeat (constructor; [cbn; intuition discriminate|]); constructor
  | reflexivity | reflexivity | discriminate | reflexivity
  | first [left; reflexivity | right; split; reflexivity]
  | first [left; reflexivity | right; split; reflexivity] ].

Lemma same_given kw kw' n : kwargs_ok kw -> kwargs_ok kw' ->
  (forall v, given kw n v <-> given kw' n v) -> arg kw n = arg kw' n.
Proof.
  intros K K' H. destruct (is_none (arg kw n)) eqn:E.
  - apply is_none_iff in E. rewrite E. symmetry. apply not_given; [assumption|]. intros v Hv. apply H in Hv.
    apply given_arg in Hv; [|assumption]. destruct Hv. congruence.
  - apply is_none_false in E. assert (G : given kw n (arg kw n)) by (apply given_arg; auto).
    apply H in G. apply given_arg in G; [|assumption]. destruct G. congruence.
Qed.

(** ** evaluation of concrete cases: comparisons of numerals are decided *)
Ltac rdec := match goal with
  | |- context [Rltb ?a ?b] => first [rewrite (proj2 (Rltb_true a b)) by lra | rewrite (proj2 (Rltb_false a b)) by lra]
  | |- context [Rleb ?a ?b] => first [rewrite (proj2 (Rleb_true a b)) by lra | rewrite (proj2 (Rleb_false a b)) by lra]
  | |- context [Reqb ?a ?b] => first [rewrite (proj2 (Reqb_true a b)) by lra | rewrite (proj2 (Reqb_false a b)) by lra]
  end.
Ltac rstep := cbv -[Rltb Reqb Rleb Rplus Rmult Rminus Rdiv Rinv Ropp IZR PI sqrt powerRZ pow round_dec].
Ltac rcv := rstep; repeat (rdec; rstep).
