(** Theorems about reading yaml data files (C89). *)
From Verif Require Import PyBase PyStr XReal CNum SpectrumModel SpectrumSpec SpectralModel SpectralSpec TextModel TextSpec TextProofs TableProofs MaterialModel MaterialSpec MaterialProofs MatFileProofs FileModel ReaderModel WriterModel IOSpec LineProofs TextFileProofs DisplayProofs PathProofs CycleProofs MaterialThms LoadSpec LoadProofs LoadThms SaveSpec DataSetSpec DataSetProofs.
From Coq Require Import Permutation.
Open Scope R_scope.
Open Scope string_scope.
Open Scope list_scope.


Lemma sets_read dk l vs : Permutation DATASET_META_DATA_KEYS dk -> Forall2 set_data l vs -> exists fs,
  map_res (process_mat_data dk) l = Ok fs /\ Forall2 (fun ds f => process_mat_data dk ds = Ok f) l fs.
Proof.
  intros Pd H. induction H as [|ds v l vs Hv H IH]; [now exists []|]. destruct IH as (fs & E & F).
  destruct (process_set dk ds v Hv) as (f & t & _ & Ef & _). exists (f :: fs). cbn [map_res]. rewrite Ef. cbn [bind]. rewrite E. cbn [bind]. split; [reflexivity|now constructor].
Qed.

Lemma C89_reads_l : forall fk dk yl fs path text doc l,
  Permutation FILE_META_DATA_KEYS fk -> Permutation DATASET_META_DATA_KEYS dk ->
  named path ".yml" -> dget fs path = Some text -> yl text = Ok (YDict doc) ->
  top_level doc -> dget doc "DATA" = Some (NSeq l) -> (forall ds, In ds l -> exists v, set_data ds v) ->
  exists fd, read_path fk dk yl fs path = Ok fd /\
    Forall2 (fun ds f =>
      (forall v, set_data ds v -> ds_data f = v) /\
      (forall t, kind ds t -> (forall k w, In (k, w) ds -> ~ In (upper k) letters) -> ds_type f = DStr t) /\
      (forall v, gives ds range_keys v -> ds_range f = v) /\
      (forall v, gives ds ["SPECTRUMTYPE"] v -> ds_stype f = v) /\
      (forall v, gives ds ["UNIT"] v -> ds_unit f = v) /\
      (forall v, gives ds ["YIELDS"] v -> ds_yields f = v)) l (fd_sets fd) /\
    (forall key kw v, In (key, kw) meta_keywords -> doc_says doc kw v -> dget (fd_meta fd) key = Some v) /\
    dget (fd_meta fd) "Specification" = Some match dget doc "SPECS" with Some n => node_val n | None => MMap [] end /\
    meta_complete (fd_meta fd).
Proof.
  intros fk dk yl fs path text doc l Pf Pd Hp Ht Hy Hd HD Hl.
  assert (exists vs, Forall2 set_data l vs) as [vs Hvs].
  { clear -Hl. induction l as [|ds l IH]; [now exists []|]. destruct IH as [vs H]; [intros d Hi; apply Hl; now right|].
    destruct (Hl ds) as [v Hv]; [now left|]. exists (v :: vs). now constructor. }
  destruct (sets_read dk l vs Pd Hvs) as (sets & Es & F).
  assert (forall n, dget doc "DATA" = Some n -> process_mat_data_dict dk n = Ok sets) as HS by (intros n En; rewrite HD in En; injection En as <-; exact Es).
  pose proof (top_level_ok doc Hd) as Hok.
  pose proof (run_sets fk dk doc sets (map fst doc) HS Hok (rd_meta (mk_reader fk path)) [default_data_dict]) as R1.
  pose proof (run_meta fk dk doc sets (map fst doc) HS Hok (rd_meta (mk_reader fk path)) [default_data_dict]) as R2.
  assert (smem "DATA" (map fst doc) = true) as M.
  { apply dget_In in HD. apply (in_map fst) in HD. cbn [fst] in HD. unfold smem. apply existsb_exists. exists "DATA". split; [exact HD|reflexivity]. }
  rewrite M in R1. rewrite (read_path_yaml fk dk yl fs path text doc Hp Ht Hy).
  destruct (process_mat_dict fk dk (map fst doc) doc (rd_meta (mk_reader fk path)) [default_data_dict]) as [r meta]. cbn [fst snd] in R1, R2. subst r meta.
  eexists. split; [reflexivity|]. cbn [fd_meta fd_sets]. split; [|split; [|split]].
  - assert (forall ds, In ds l -> exists v, set_data ds v) as Hl' by exact Hl. clear -F Pd Hl'. revert Hl'.
    induction F as [|ds f l sets Ef F IH]; intros Hl; constructor; [|apply IH; intros d Hi; apply Hl; now right].
    destruct (Hl ds (or_introl eq_refl)) as [v Hv]. destruct (process_set dk ds v Hv) as (f' & t & Hk & Ef' & E).
    rewrite Ef in Ef'. injection Ef' as <-. subst f.
    split; [|split; [|split; [|split; [|split]]]].
    + intros w Hw. rewrite (set_data_unique _ _ _ Hw Hv). now rewrite (fold_step_data dk Pd).
    + intros t' Hk' Hn. rewrite (kind_unique _ _ _ Hk' Hk).
      refine (fold_step_other dk Pd ds _ "DataType" _ _); [cbn; tauto|]. intros k w Hi. exact (Hn k w Hi).
    + intros w Hw. refine (fold_step_gives dk Pd ds _ "ValidRange" w _ _ _); [cbn; tauto|reflexivity|exact Hw].
    + intros w Hw. refine (fold_step_gives dk Pd ds _ "SpectrumType" w _ _ _); [cbn; tauto|reflexivity|exact Hw].
    + intros w Hw. refine (fold_step_gives dk Pd ds _ "Unit" w _ _ _); [cbn; tauto|reflexivity|exact Hw].
    + intros w Hw. refine (fold_step_gives dk Pd ds _ "Yields" w _ _ _); [cbn; tauto|reflexivity|exact Hw].
  - intros key kw v Hi Hv.
    assert (In key FILE_META_DATA_KEYS /\ kw = upper key /\ key <> "MetaComment") as (Hk & -> & Hm).
    { cbn [In meta_keywords] in Hi. destruct Hi as [X|[X|[X|[X|[X|[]]]]]]; injection X as <- <-; (split; [cbn; tauto|split; [reflexivity|discriminate]]). }
    rewrite dget_dset_other by congruence. apply (mfold_says fk Pf); [exact Hd|exact Hk| |exact Hv].
    now apply mk_reader_meta.
  - rewrite dget_dset_other by discriminate. rewrite (mfold_specs fk Pf doc (map fst doc) Hok), mk_reader_spec.
    destruct (smem "SPECS" (map fst doc)) eqn:Q; unfold smem in Q.
    + apply existsb_exists in Q. destruct Q as (k & Hk & Ek). apply String.eqb_eq in Ek. subst k.
      destruct (dget doc "SPECS") eqn:G; [reflexivity|]. exfalso. exact (proj1 (dget_None_keys doc "SPECS") G Hk).
    + destruct (dget doc "SPECS") eqn:G; [|reflexivity]. exfalso. apply dget_In in G. apply (in_map fst) in G. cbn [fst] in G.
      assert (existsb (String.eqb "SPECS") (map fst doc) = true) as T; [|congruence]. apply existsb_exists. exists "SPECS". split; [exact G|reflexivity].
  - intros key Hk. destruct (string_dec "MetaComment" key) as [<-|N]; [rewrite dget_dset_same; discriminate|]. rewrite dget_dset_other by congruence.
    apply mfold_keeps. destruct (string_dec key "Specification") as [->|N']; [rewrite mk_reader_spec; discriminate|].
    rewrite mk_reader_meta; [discriminate|exact Pf|]. cbn in Hk |- *. intuition congruence.
Qed.

Lemma C89_not_a_list_l : forall fk dk yl fs path text doc v,
  Permutation FILE_META_DATA_KEYS fk -> Permutation DATASET_META_DATA_KEYS dk ->
  named path ".yml" -> dget fs path = Some text -> yl text = Ok (YDict doc) ->
  top_level doc -> dget doc "DATA" = Some (NVal v) -> v <> MStr "" -> v <> MMap [] ->
  read_path fk dk yl fs path = Raise TypeError.
Proof.
  intros fk dk yl fs path text doc v Pf Pd Hp Ht Hy Hd HD V1 V2.
  rewrite (read_path_yaml fk dk yl fs path text doc Hp Ht Hy).
  assert (process_mat_data_dict dk (NVal v) = Raise TypeError) as E.
  { unfold process_mat_data_dict. destruct v as [[|]|[|]|]; try reflexivity; congruence. }
  pose proof (run_fails fk dk doc TypeError (map fst doc) _ HD E (top_level_ok doc Hd)) as R.
  assert (In "DATA" (map fst doc)) as Hi by (apply dget_In in HD; apply (in_map fst) in HD; exact HD).
  specialize (R Hi (rd_meta (mk_reader fk path)) [default_data_dict]).
  destruct (process_mat_dict fk dk (map fst doc) doc (rd_meta (mk_reader fk path)) [default_data_dict]) as [r meta]. cbn [fst] in R. now rewrite R.
Qed.

Lemma C89_unusable_l : forall fk dk yl fs path text doc a ds b,
  Permutation FILE_META_DATA_KEYS fk -> Permutation DATASET_META_DATA_KEYS dk ->
  named path ".yml" -> dget fs path = Some text -> yl text = Ok (YDict doc) ->
  top_level doc -> dget doc "DATA" = Some (NSeq (a ++ ds :: b)) -> (forall d, In d a -> exists v, set_data d v) -> unusable ds ->
  read_path fk dk yl fs path = Raise KeyError.
Proof.
  intros fk dk yl fs path text doc a ds b Pf Pd Hp Ht Hy Hd HD Ha Hu.
  rewrite (read_path_yaml fk dk yl fs path text doc Hp Ht Hy).
  assert (process_mat_data_dict dk (NSeq (a ++ ds :: b)) = Raise KeyError) as E.
  { cbn [process_mat_data_dict]. clear -Ha Hu Pd. induction a as [|d a IH]; cbn [app map_res].
    - now rewrite (process_unusable dk ds Hu).
    - destruct (Ha d (or_introl eq_refl)) as [v Hv]. destruct (process_set dk d v Hv) as (f & t & _ & -> & _). cbn [bind].
      rewrite IH; [reflexivity|]. intros q Hq. apply Ha. now right. }
  pose proof (run_fails fk dk doc KeyError (map fst doc) _ HD E (top_level_ok doc Hd)) as R.
  assert (In "DATA" (map fst doc)) as Hi by (apply dget_In in HD; apply (in_map fst) in HD; exact HD).
  specialize (R Hi (rd_meta (mk_reader fk path)) [default_data_dict]).
  destruct (process_mat_dict fk dk (map fst doc) doc (rd_meta (mk_reader fk path)) [default_data_dict]) as [r meta]. cbn [fst] in R. now rewrite R.
Qed.

Lemma C89_letter_key_refuted_l : forall fk dk yl fs path text doc ds v k w kw t0 u0,
  Permutation FILE_META_DATA_KEYS fk -> Permutation DATASET_META_DATA_KEYS dk ->
  named path ".yml" -> dget fs path = Some text -> yl text = Ok (YDict doc) ->
  top_level doc -> dget doc "DATA" = Some (NSeq [ds]) -> set_data ds v -> gives ds letters w -> In (k, w) ds -> In (upper k) letters ->
  (exists fd f, read_path fk dk yl fs path = Ok fd /\ fd_sets fd = [f] /\ ds_type f = w) /\
  (call kw "file_path" (PStr path) t0 u0 -> (forall s, w <> DStr s) -> mk_material (read_path fk dk yl fs) kw = Raise AttributeError).
Proof.
  intros fk dk yl fs path text doc ds v k w kw t0 u0 Pf Pd Hp Ht Hy Hd HD Hv Hg Hi Hk.
  destruct (C89_reads_l fk dk yl fs path text doc [ds] Pf Pd Hp Ht Hy Hd HD) as (fd & R & F & M & S & MC).
  { intros d [<-|[]]. now exists v. }
  destruct (process_set dk ds v Hv) as (f & t & Hkd & Ef & E).
  assert (ds_type f = w) as T.
  { subst f. destruct Hg as [[Hn _]|(a & k' & b & -> & Hi' & Hb)]; [exfalso; exact (Hn k w Hi Hk)|].
    rewrite fold_left_app. cbn [fold_left]. change (ds_type ?d) with (fget d "DataType").
    rewrite (fold_step_other dk Pd b _ "DataType"); [|cbn; tauto|exact Hb]. unfold step. cbn [fst snd].
    rewrite (dataset_key_in dk k' "DataType" Pd ltac:(cbn; tauto) Hi'), fget_set by (cbn; tauto). reflexivity. }
  assert (fd_sets fd = [f]) as Es.
  { rewrite (read_path_yaml fk dk yl fs path text doc Hp Ht Hy) in R.
    assert (forall n, dget doc "DATA" = Some n -> process_mat_data_dict dk n = Ok [f]) as HS by (intros n En; rewrite HD in En; injection En as <-; cbn [process_mat_data_dict map_res]; now rewrite Ef).
    pose proof (run_sets fk dk doc [f] (map fst doc) HS (top_level_ok doc Hd) (rd_meta (mk_reader fk path)) [default_data_dict]) as R1.
    assert (smem "DATA" (map fst doc) = true) as Q.
    { pose proof HD as HD'. apply dget_In in HD'. apply (in_map fst) in HD'. cbn [fst] in HD'. unfold smem. apply existsb_exists. exists "DATA". split; [exact HD'|reflexivity]. }
    rewrite Q in R1. destruct (process_mat_dict fk dk (map fst doc) doc (rd_meta (mk_reader fk path)) [default_data_dict]) as [r meta]. cbn [fst] in R1. subst r.
    injection R as <-. reflexivity. }
  split; [now exists fd, f|].
  intros C Hw. rewrite (call_file _ _ _ _ _ C), R. cbn [bind].
  destruct (copy_meta_ok _ MC) as [meta ->]. cbn [bind]. rewrite Es. cbn [process_datasets]. unfold process_dataset. rewrite T.
  destruct w as [s| |]; [now destruct (Hw s)| |]; reflexivity.
Qed.

Lemma one_set fk dk yl fs path text doc ds v : Permutation FILE_META_DATA_KEYS fk -> Permutation DATASET_META_DATA_KEYS dk ->
  named path ".yml" -> dget fs path = Some text -> yl text = Ok (YDict doc) ->
  top_level doc -> dget doc "DATA" = Some (NSeq [ds]) -> set_data ds v -> (forall k w, In (k, w) ds -> ~ In (upper k) letters) ->
  exists fm f, read_path fk dk yl fs path = Ok (mkFdict fm [f]) /\ meta_complete fm /\ ds_data f = v /\
    (forall t, kind ds t -> ds_type f = DStr t) /\
    (forall w, gives ds range_keys w -> ds_range f = w) /\ (forall w, gives ds ["SPECTRUMTYPE"] w -> ds_stype f = w) /\ (forall w, gives ds ["UNIT"] w -> ds_unit f = w).
Proof.
  intros Pf Pd Hp Ht Hy Hd HD Hv Hn.
  destruct (C89_reads_l fk dk yl fs path text doc [ds] Pf Pd Hp Ht Hy Hd HD) as ([fm sets] & R & F & M & S & MC).
  { intros d [<-|[]]. now exists v. }
  cbn [fd_sets fd_meta] in *. inversion F as [|d f l l' H F' E1 E2]; subst. inversion F'; subst. exists fm, f. destruct H as (H1 & H2 & H3 & H4 & H5 & _).
  split; [exact R|]. split; [exact MC|]. split; [now apply H1|]. split; [intros t Kt; now apply H2|]. auto.
Qed.
Lemma default_entry v dflt : file_or_default (DStr v) dflt (or_default v dflt).
Proof. destruct v; [right; split; reflexivity|left; split; [reflexivity|discriminate]]. Qed.

Lemma C89_same_as_array_l : forall fk dk yl rd fs path text doc ds kd s n id src rows t u kw kw' t0 u0,
  Permutation FILE_META_DATA_KEYS fk -> Permutation DATASET_META_DATA_KEYS dk ->
  named path ".yml" -> dget fs path = Some text -> yl text = Ok (YDict doc) ->
  top_level doc -> dget doc "DATA" = Some (NSeq [ds]) ->
  kind ds kd -> line_text kd ["tabulated"; id] -> set_data ds (DStr s) -> MaterialSpec.holds_table (DStr s) n rows -> table_ok n rows ->
  In (id, src, n) [("nk", "tabulated_nk", 3%nat); ("eps", "tabulated_eps", 3%nat); ("n", "tabulated_n", 2%nat)] ->
  (forall k w, In (k, w) ds -> ~ In (upper k) letters) ->
  gives ds ["SPECTRUMTYPE"] (DStr t) -> gives ds ["UNIT"] (DStr u) ->
  call kw "file_path" (PStr path) t0 u0 -> call kw' src (PArr (ND2 n (to_xr rows))) (or_default t t0) (or_default u u0) ->
  same_data (mk_material (read_path fk dk yl fs) kw) (mk_material rd kw').
Proof.
  intros fk dk yl rd fs path text doc ds kd s n id src rows t u kw kw' t0 u0 Pf Pd Hp Ht Hy Hd HD Hk Hl Hv Hh Hok Hid Hn Hst Hu C C'.
  destruct (one_set fk dk yl fs path text doc ds _ Pf Pd Hp Ht Hy Hd HD Hv Hn) as (fm & f & R & MC & D & T & _ & S & U).
  destruct (file_one (read_path fk dk yl fs) kw path t0 u0 fm f C R MC) as (meta & _ & ->).
  rewrite (direct_table rd kw' src id n (to_xr rows) _ _ C' Hid).
  rewrite (dataset_table f id n rows (or_default t t0) (or_default u u0)).
  - cbn [set_defaults p_name p_real p_imag p_complex]. destruct (process_table n (to_xr rows) id _) as [p|e]; [|reflexivity]. cbn [bind].
    unfold complete. destruct (p_real p) as [a|]; destruct (p_imag p) as [b|]; cbn [bind];
    try (destruct (constant_default (ORe (Fin 0))); cbn [bind]; [|reflexivity]); repeat split.
  - exists kd. split; [now apply T|exact Hl].
  - cbn [In] in Hid. destruct Hid as [X|[X|[X|[]]]]; injection X as _ _ <-; lia.
  - exact Hok.
  - rewrite D. exact Hh.
  - rewrite (S _ Hst). apply default_entry.
  - rewrite (U _ Hu). apply default_entry.
Qed.

Lemma C89_formula_l : forall fk dk yl fs path text doc ds kd dt id k cs params rs rng t u kw t0 u0 d,
  Permutation FILE_META_DATA_KEYS fk -> Permutation DATASET_META_DATA_KEYS dk ->
  named path ".yml" -> dget fs path = Some text -> yl text = Ok (YDict doc) ->
  top_level doc -> dget doc "DATA" = Some (NSeq [ds]) ->
  kind ds kd -> line_text kd [dt; id] ->
  (dt = "formula" /\ In (id, k) documented_formulas) \/ (dt = "model" /\ In (id, k) documented_models) ->
  set_data ds (DStr cs) -> numbers_text cs params -> gives ds range_keys (DStr rs) -> rs <> "" -> numbers_text rs rng ->
  (forall k w, In (k, w) ds -> ~ In (upper k) letters) ->
  gives ds ["SPECTRUMTYPE"] (DStr t) -> gives ds ["UNIT"] (DStr u) -> call kw "file_path" (PStr path) t0 u0 ->
  mk_model k params (InVals (VA rng)) (or_default t t0) (or_default u u0) = Ok d ->
  exists m, mk_material (read_path fk dk yl fs) kw = Ok m /\ m_stype m = or_default t t0 /\ m_unit m = or_default u u0 /\
    ((permittivity_model k /\ m_name m = "eps" /\ m_complex m = Some d) \/
     (~ permittivity_model k /\ m_name m = "nk" /\ m_complex m = None /\ m_real m = d /\ zero_data (m_imag m))).
Proof.
  intros fk dk yl fs path text doc ds kd dt id k cs params rs rng t u kw t0 u0 d Pf Pd Hp Ht Hy Hd HD Hk Hl Hid Hv Hc Hr Hr0 Hrn Hn Hst Hu C Hm.
  destruct (one_set fk dk yl fs path text doc ds _ Pf Pd Hp Ht Hy Hd HD Hv Hn) as (fm & f & R & MC & D & T & Rg & S & U).
  apply (C36_selects_l (read_path fk dk yl fs) kw path t0 u0 fm f dt id k rs rng cs params); try assumption.
  - exists kd. split; [now apply T|exact Hl].
  - now apply Rg.
  - rewrite (S _ Hst). apply default_entry.
  - rewrite (U _ Hu). apply default_entry.
Qed.
