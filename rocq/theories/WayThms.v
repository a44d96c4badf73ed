(** Theorems about the whole way of a material from the constructor to a later session (C102). *)
From Verif Require Import PyBase PyStr XReal CNum TextModel SpectrumModel SpectrumSpec SpectralModel SpectralSpec MaterialModel MaterialSpec MaterialProofs MaterialThms FileModel ReaderModel WriterModel PathModel CatalogueModel CatalogueSpec IOSpec SaveSpec SaveProofs YamlSpec DiskModel SetupModel SetupSpec ExampleModel ExampleSpec StartModel StartSpec ListedSpec ListedThms SaveThms YamlThms StartThms OwnSpec OwnThms InterpProofs ExampleThms SavedSpec SavedThms WaySpec.
From Coq Require Import Permutation.
Open Scope R_scope.
Open Scope string_scope.
Open Scope list_scope.

(** *** documented spellings can be written into a header *)
Lemma lower_space c : is_space (lower_char c) = is_space c.
Proof. destruct c as [b0 b1 b2 b3 b4 b5 b6 b7]. destruct b0, b1, b2, b3, b4, b5, b6, b7; reflexivity. Qed.
Lemma break_space c : In c line_breaks -> is_space c = true.
Proof. cbn [line_breaks map In]. intros H. repeat (destruct H as [<-|H]; [reflexivity|]). destruct H. Qed.
Lemma solid_header s : (forall c, In c (chars (lower s)) -> is_space c = false) -> header_value s.
Proof.
  intros H. assert (forall c, In c (chars s) -> is_space c = false) as G.
  { intros c I. rewrite <- lower_space. apply H. clear H. unfold chars, lower in *. induction s as [|d s IH]; [destruct I|]. cbn in I |- *. destruct I as [->|I]; [now left|right; auto]. }
  split; [intros c I K; apply break_space in K; rewrite G in K by exact I; discriminate|].
  destruct s as [|c s]; [reflexivity|]. unfold lstrip. cbn [lstrip_by]. rewrite G by (cbn; now left). reflexivity.
Qed.
Lemma documented_header t u canon : documented (lower t) (lower u) canon -> header_value t /\ header_value u /\ t <> "" /\ u <> "".
Proof.
  intros (sp & I & J).
  assert (forallb (fun e => forallb (fun w => forallb (fun c => negb (is_space c)) (chars w) && negb (String.eqb w "")) (fst (fst e) :: snd e)) doc_units = true) as K by (vm_compute; reflexivity).
  rewrite forallb_forall in K. specialize (K _ I). cbn [fst snd] in K. rewrite forallb_forall in K.
  assert (forall w, In (lower w) (lower t :: sp) -> header_value w /\ w <> "") as G.
  { intros w Iw. specialize (K _ Iw). apply andb_prop in K. destruct K as [K1 K2]. rewrite forallb_forall in K1. split.
    - apply solid_header. intros c Ic. specialize (K1 c Ic). now destruct (is_space c).
    - intros ->. discriminate K2. }
  destruct (G t (or_introl eq_refl)), (G u (or_intror J)). tauto.
Qed.
(** *** numbers *)
Lemma float_below x : float_range x -> below (10 ^ 309) x.
Proof.
  destruct x as [r| | |]; try exact (fun _ => I). unfold float_range, below. intros H. assert (10 ^ 309 = 10 ^ 2 * 10 ^ 307) as -> by now rewrite <- pow_add.
  assert (0 < 10 ^ 307) by (apply pow_lt; lra). lra.
Qed.
Definition pairs (j : nat) (rows : list (list R)) : list (R * R) := map (fun r => (nth 0 r 0, nth j r 0)) rows.
Lemma column_pairs j rows : column j rows = xrows (pairs j rows).
Proof. unfold column, xrows, pairs. rewrite map_map. reflexivity. Qed.
Lemma pairs_numbers (P : R -> Prop) j rows x : (j < 3)%nat -> Forall (fun r => length r = 3%nat) rows -> Forall (Forall P) rows -> In x (concat (table_of (xrows (pairs j rows)))) -> exists r, x = Fin r /\ P r.
Proof.
  intros Hj L F I. unfold table_of, xrows, pairs in I. rewrite !map_map in I. apply in_concat in I. destruct I as (w & Iw & I). apply in_map_iff in Iw. destruct Iw as (r & <- & Ir).
  rewrite Forall_forall in L, F. specialize (L r Ir). specialize (F r Ir). rewrite Forall_forall in F. cbn [fst snd In] in I.
  destruct I as [<-|[<-|[]]]; (eexists; split; [reflexivity|]); apply F, nth_In; lia.
Qed.
Lemma pairs_float j rows : (j < 3)%nat -> Forall (fun r => length r = 3%nat) rows -> Forall (Forall (fun x => float_range (Fin x))) rows -> float_table (xrows (pairs j rows)).
Proof.
  intros Hj L F. unfold float_table, xrows, pairs. rewrite map_map. rewrite Forall_map. rewrite Forall_forall in L, F |- *. intros r Ir. specialize (L r Ir). specialize (F r Ir). rewrite Forall_forall in F.
  cbn [fst snd]. split; apply F, nth_In; lia.
Qed.
Lemma default_text c : In c (map fst default_meta) -> In c (["Alias"; "MetaComment"; "Specification"] ++ header_keys).
Proof. cbn. tauto. Qed.
Lemma default_standard : standard_meta default_meta.
Proof. split; [|exact default_text]. cbn. repeat (constructor; [cbn; intuition discriminate|]). constructor. Qed.
Lemma constructed M rows t u canon rd kw : call kw "tabulated_nk" (PArr (ND2 3 (to_xr rows))) t u -> table_ok 3 rows -> (2 <= length rows)%nat -> documented (lower t) (lower u) canon ->
  exists m, mk_material rd kw = Ok m /\ m_meta m = Some default_meta /\ SavedSpec.has_tables m (pairs 1 rows) (pairs 2 rows) t u /\ header_ready (mc_write M) m.
Proof.
  intros C T L D. destruct (call_tab_three rd kw "tabulated_nk" "nk" rows t u canon (or_introl (conj eq_refl eq_refl)) C T D) as (a & b & Ta & Tb & E).
  eexists. split; [exact E|]. split; [reflexivity|]. rewrite column_pairs in Ta, Tb.
  assert (forall j d, tabulated (xrows (pairs j rows)) t u d -> mk_interpolation (xrows (pairs j rows)) t u = Ok d) as G.
  { intros j d. destruct rows as [|r1 [|r2 rows]]; [cbn in L; lia..|]. cbn [pairs map xrows tabulated fst snd]. auto. }
  destruct (documented_header t u canon D) as (Ht & Hu & _). split.
  - split; [reflexivity|]. split; [reflexivity|]. cbn [m_real m_imag m_stype m_unit]. auto.
  - split.
    + intros meta key v [= <-] Ik Hv. cbn in Ik. repeat (destruct Ik as [<-|Ik]; [cbn in Hv; injection Hv as <-; split; [intros c []|reflexivity]|]). destruct Ik.
    + cbn [m_real]. intros b0 r0 E0. specialize (G 1%nat _ Ta).
      pose proof (mk_interp_spec (pairs 1 rows) t u) as S1. rewrite G in S1. destruct S1 as (_ & _ & cn & _ & _ & r & _ & _ & S2 & _).
      rewrite E0 in S2. injection S2 as -> _. now split.
Qed.
Lemma numbers_in rows x : Forall (fun r => length r = 3%nat) rows -> In x (concat (table_of (xrows (pairs 1 rows))) ++ concat (table_of (xrows (pairs 2 rows)))) ->
  forall P, Forall (Forall P) rows -> exists r, x = Fin r /\ P r.
Proof. intros L I P F. apply in_app_or in I. destruct I as [I|I]; eapply pairs_numbers; try eassumption; lia. Qed.
Lemma display_exact disp rows : Forall (fun r => length r = 3%nat) rows -> Forall (Forall (exact_number disp)) rows ->
  forall all x, incl all (concat (table_of (xrows (pairs 1 rows))) ++ concat (table_of (xrows (pairs 2 rows)))) -> In x all -> disp all x = x.
Proof.
  intros L F all x Il Ix. destruct (numbers_in rows x L (Il _ Ix) _ F) as (r & -> & _ & S). apply S; [|exact Ix].
  intros y Iy. destruct (numbers_in rows _ L (Il _ Iy) _ F) as (r' & E & B & _). injection E as ->. exact (float_below _ B).
Qed.
Lemma table_facts rows : table_ok 3 rows -> Forall (fun r => length r = 3%nat) rows /\ map fst (pairs 2 rows) = map fst (pairs 1 rows).
Proof. intros (_ & L & _). split; [exact L|]. unfold pairs. now rewrite !map_map. Qed.
Lemma exact_float disp rows : Forall (Forall (exact_number disp)) rows -> Forall (Forall (fun x => float_range (Fin x))) rows.
Proof. intros F. eapply Forall_impl; [|exact F]. intros r Fr. eapply Forall_impl; [|exact Fr]. now intros x [H _]. Qed.

Lemma C102_array_text_l : forall M disp root fs f rd kw rows t u canon,
  machine_ok M disp -> Forall os_name root -> os_name f -> ~ In "\"%char (chars f) -> text_file f -> is_dir fs (root ++ ["UserData"]) ->
  call kw "tabulated_nk" (PArr (ND2 3 (to_xr rows))) t u -> table_ok 3 rows -> (2 <= length rows <= 333)%nat -> documented (lower t) (lower u) canon ->
  Forall (Forall (exact_number disp)) rows -> Forall (Forall eight_decimals) rows ->
  exists m, mk_material rd kw = Ok m /\ forall ic rii, stays_available M root fs f ic rii m.
Proof.
  intros M disp root fs f rd kw rows t u canon OK Fr Nf Bf Tf Du C T L D Fx F8.
  destruct (constructed M rows t u canon rd kw C T (proj1 L) D) as (m & Mk & Mm & HT & Hh). exists m. split; [exact Mk|]. intros ic rii.
  destruct (table_facts rows T) as [L3 Eg]. destruct (documented_header t u canon D) as (_ & _ & Nt & Nu).
  assert (text_file (abs_path (own_file root f))) as Tp by (destruct Tf as [K|K]; [left|right]; now apply named_path).
  assert (own_name f) as On by (split; [exact Nf|]; split; [destruct Tf as [K|K]; eapply named_supported; try exact K; cbn; tauto|exact Bf]).
  destruct (C100_text_l (mc_scipy M) (mc_write M) disp (abs_path (own_file root f)) m "" (pairs 1 rows) (pairs 2 rows) t u (fs_files fs) ic rii (mc_files M) (mc_sets M) (mc_material M))
    as (ops & m' & Sv & Ld & _ & So); try assumption.
  - exact (ok_numpy _ _ OK).
  - now exists default_meta.
  - intros c [].
  - apply pairs_float; [lia|exact L3|]. eapply exact_float; exact Fx.
  - apply pairs_float; [lia|exact L3|]. eapply exact_float; exact Fx.
  - unfold pairs. rewrite map_length. apply L.
  - apply Forall_forall. intros x Ix. destruct (numbers_in rows x L3 Ix _ F8) as (r & -> & K). exact K.
  - now apply display_exact.
  - exact (ok_files _ _ OK).
  - exact (ok_sets _ _ OK).
  - exists ops. split; [exact Sv|]. split; [intros p Np; exact (C46_other_files_l _ _ m _ ic rii _ ops _ p Sv (crash_done _ _) Np)|].
    now apply (own_saved M disp root fs f m ic rii ops m').
Qed.

Lemma C102_array_yaml_l : forall M disp root fs f rd kw rows t u canon,
  machine_ok M disp -> Forall os_name root -> os_name f -> ~ In "\"%char (chars f) -> named f ".yml" -> is_dir fs (root ++ ["UserData"]) ->
  call kw "tabulated_nk" (PArr (ND2 3 (to_xr rows))) t u -> table_ok 3 rows -> (2 <= length rows <= 333)%nat -> documented (lower t) (lower u) canon ->
  Forall (Forall (exact_number disp)) rows ->
  exists m, mk_material rd kw = Ok m /\ forall ic, stays_available M root fs f ic false m.
Proof.
  intros M disp root fs f rd kw rows t u canon OK Fr Nf Bf Tf Du C T L D Fx.
  destruct (constructed M rows t u canon rd kw C T (proj1 L) D) as (m & Mk & Mm & HT & Hh). exists m. split; [exact Mk|]. intros ic.
  destruct (table_facts rows T) as [L3 Eg]. destruct (documented_header t u canon D) as (_ & _ & Nt & Nu).
  assert (named (abs_path (own_file root f)) ".yml") as Tp by now apply named_path.
  assert (own_name f) as On by (split; [exact Nf|]; split; [eapply named_supported; try exact Tf; cbn; tauto|exact Bf]).
  destruct (C100_yaml_l (mc_scipy M) (mc_write M) disp (mc_material M) (abs_path (own_file root f)) m "" default_meta [] (pairs 1 rows) (pairs 2 rows) t u (fs_files fs) ic (mc_files M) (mc_sets M))
    as (ops & m' & Sv & Ld & _ & So); try assumption.
  - exact (ok_numpy _ _ OK).
  - exact (ok_yaml _ _ OK).
  - reflexivity.
  - intros c [].
  - exact default_standard.
  - reflexivity.
  - apply pairs_float; [lia|exact L3|]. eapply exact_float; exact Fx.
  - apply pairs_float; [lia|exact L3|]. eapply exact_float; exact Fx.
  - unfold pairs. rewrite map_length. apply L.
  - now apply display_exact.
  - exact (ok_files _ _ OK).
  - exact (ok_sets _ _ OK).
  - exists ops. split; [exact Sv|]. split; [intros p Np; exact (C46_other_files_l _ _ m _ ic false _ ops _ p Sv (crash_done _ _) Np)|].
    now apply (own_saved M disp root fs f m ic false ops m').
Qed.

Lemma list_exact disp l : Forall (exact_number disp) l -> Forall float_range (map Fin l) /\ forall x, In x (map Fin l) -> disp (map Fin l) x = x.
Proof.
  intros F. rewrite Forall_forall in F. split.
  - rewrite Forall_map, Forall_forall. intros x Ix. now apply F.
  - intros x Ix. apply in_map_iff in Ix as Jx. destruct Jx as (r & <- & Ir). apply (proj2 (F r Ir)); [|exact Ix].
    intros y Iy. apply in_map_iff in Iy. destruct Iy as (r' & E & Ir'). injection E as ->. exact (float_below _ (proj1 (F _ Ir'))).
Qed.
Lemma constructed_formula rd kw name k ps l t u t0 u0 d : In (name, k) documented_models -> output k = Some "n" ->
  call kw "model_kw" (PDict (mkKw (Some name) (Some ps) (Some (InVals (VA l))) (Some t) (Some u))) t0 u0 -> mk_model k ps (InVals (VA l)) t u = Ok d ->
  exists m, mk_material rd kw = Ok m /\ m_meta m = Some default_meta /\ formula_material m k ps l t u 0.
Proof.
  intros Hk Ho C M. destruct (C26_model_l rd kw name k ps (InVals (VA l)) (Some t) (Some u) t0 u0 d Hk C M) as (m & Mk & St & Un & [(P & _)|(_ & Nm & Cx & Hr & Hz)]).
  { exfalso. unfold permittivity_model in P. cbn in P. destruct P as [<-|[<-|[<-|[]]]]; discriminate Ho. }
  exists m. split; [exact Mk|]. split.
  - pose proof (call_facts _ _ _ _ _ C) as Cf. call_args C. pose proof (call_build rd _ _ _ _ _ C) as B. reduce_args Fn Fs Ft Fu B. rewrite B in Mk. revert Mk. reduce_goal Fn Fs Ft Fu.
    intros Mk. inv_bind Mk p Ep. unfold complete in Mk. inv_bind Mk r Er. inv_bind Mk i Ei. injection Mk as <-. reflexivity.
  - split; [exact Nm|]. split; [exact Cx|]. rewrite Hr. split; [exact M|]. split; [exact Hz|]. now split.
Qed.

Lemma C102_formula_l : forall M disp root fs f rd kw name k ps l t u t0 u0 d,
  machine_ok M disp -> Forall os_name root -> os_name f -> ~ In "\"%char (chars f) -> named f ".yml" -> is_dir fs (root ++ ["UserData"]) ->
  In (name, k) documented_models -> ~ permittivity_model k ->
  call kw "model_kw" (PDict (mkKw (Some name) (Some (map Fin ps)) (Some (InVals (VA (map Fin l)))) (Some t) (Some u))) t0 u0 ->
  mk_model k (map Fin ps) (InVals (VA (map Fin l))) t u = Ok d -> (length ps <= 1000)%nat -> (1 <= length l <= 1000)%nat -> t <> "" -> u <> "" ->
  Forall (exact_number disp) ps -> Forall (exact_number disp) l ->
  exists m, mk_material rd kw = Ok m /\ stays_available M root fs f true false m.
Proof.
  intros M disp root fs f rd kw name k ps l t u t0 u0 d OK Fr Nf Bf Tf Du Hk Np C Md Lp Ll Nt Nu Fp Fl.
  assert (output k = Some "n") as Ho.
  { unfold documented_models in Hk. cbn in Hk. repeat (destruct Hk as [E|Hk]; [injection E as _ <-; first [reflexivity|exfalso; apply Np; cbn; tauto]|]). destruct Hk. }
  destruct (constructed_formula rd kw name k _ _ t u t0 u0 d Hk Ho C Md) as (m & Mk & Mm & HF). exists m. split; [exact Mk|].
  assert (named (abs_path (own_file root f)) ".yml") as Tp by now apply named_path.
  assert (own_name f) as On by (split; [exact Nf|]; split; [eapply named_supported; try exact Tf; cbn; tauto|exact Bf]).
  destruct (list_exact disp ps Fp) as [P1 P2], (list_exact disp l Fl) as [L1 L2].
  destruct (C101_transparent_l (mc_scipy M) (mc_write M) disp (mc_material M) (abs_path (own_file root f)) m "" default_meta [] k (map Fin ps) (map Fin l) t u (fs_files fs) (mc_files M) (mc_sets M))
    as (ops & m' & Sv & Ld & _ & So); try assumption; try (rewrite map_length; assumption).
  - exact (ok_numpy _ _ OK).
  - exact (ok_yaml _ _ OK).
  - exact (ok_files _ _ OK).
  - exact (ok_sets _ _ OK).
  - reflexivity.
  - intros c [].
  - exact default_standard.
  - reflexivity.
  - exists ops. split; [exact Sv|]. split; [intros p Np'; exact (C46_other_files_l _ _ m _ true false _ ops _ p Sv (crash_done _ _) Np')|].
    now apply (own_saved M disp root fs f m true false ops m').
Qed.
