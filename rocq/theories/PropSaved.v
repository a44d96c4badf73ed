(** Theorems about what a saved and loaded material answers (C100). *)
From Verif Require Import PyBase PyStr XReal CNum TextModel SpectrumModel SpectrumSpec SpectrumProofs SpectralModel SpectralSpec SpectralProofs MaterialModel MaterialSpec FileModel ReaderModel WriterModel IOSpec SaveSpec SaveProofs YamlSpec YamlWriteProofs YamlReadProofs CycleProofs ExportProofs ShowsProofs IOExamples InterpProofs YamlDataProofs SaveThms TextFileThms YamlThms YamlSample ListedSpec ListedThms SavedSpec.
From Coq Require Import Permutation Sorting.Sorted.
From Verif Require Import SavedThms.
Open Scope R_scope.
Open Scope string_scope.
Open Scope list_scope.

(** C100: small differences in the tables are small differences in every answer *)
Theorem C100_stable : forall X m m' l q l' q' t u d B,
  has_tables m l q t u -> has_tables m' l' q' t u ->
  values_within d l l' -> values_within d q q' -> values_below B l -> values_below B q ->
  optics_within X d B m m'.
Proof. exact C100_stable_l. Qed.
Print Assumptions C100_stable.

(** C100: a material whose numbers fit in the text format is saved and loaded without any change in
    what it answers *)
Theorem C100_text : forall X W disp path m c l q t u fs ic rii fk dk yl,
  shows W disp -> text_file path -> header_ready W m -> comment_of m c -> unix_text c ->
  has_tables m l q t u -> float_table (xrows l) -> float_table (xrows q) -> (length l <= 333)%nat ->
  map fst q = map fst l -> t <> "" -> u <> "" ->
  Forall decimal8 (concat (table_of (xrows l)) ++ concat (table_of (xrows q))) ->
  (forall all x, incl all (concat (table_of (xrows l)) ++ concat (table_of (xrows q))) -> In x all -> disp all x = x) ->
  Permutation FILE_META_DATA_KEYS fk -> Permutation DATASET_META_DATA_KEYS dk ->
  exists ops m', save_material W path m fs ic rii = (Ok tt, ops) /\
    mk_material (read_path fk dk yl (fs_run fs ops)) [("file_path", PStr path)] = Ok m' /\
    has_tables m' l q t u /\ same_optics X m m'.
Proof. exact C100_text_l. Qed.
Print Assumptions C100_text.

(** C100: ... and in the yaml format without the limit of 8 decimals *)
Theorem C100_yaml : forall X W disp yl path m c meta sp l q t u fs ic fk dk,
  shows W disp -> yaml_library W yl -> named path ".yml" -> m_meta m = Some meta -> dget meta "MetaComment" = Some (MStr c) -> yaml_text c ->
  standard_meta meta -> dget meta "Specification" = Some (MMap sp) ->
  has_tables m l q t u -> float_table (xrows l) -> float_table (xrows q) -> (length l <= 333)%nat ->
  map fst q = map fst l -> t <> "" -> u <> "" ->
  (forall all x, incl all (concat (table_of (xrows l)) ++ concat (table_of (xrows q))) -> In x all -> disp all x = x) ->
  Permutation FILE_META_DATA_KEYS fk -> Permutation DATASET_META_DATA_KEYS dk ->
  exists ops m', save_material W path m fs ic false = (Ok tt, ops) /\
    mk_material (read_path fk dk yl (fs_run fs ops)) [("file_path", PStr path)] = Ok m' /\
    has_tables m' l q t u /\ same_optics X m m'.
Proof. exact C100_yaml_l. Qed.
Print Assumptions C100_yaml.

(** C100: any numbers over points that are shown exactly: the material is saved and loaded, and the
    loaded one answers the same questions with nearly the same numbers *)
Theorem C100_near : forall X W disp path m c l q t u fs ic rii fk dk yl B,
  shows W disp -> text_file path -> header_ready W m -> comment_of m c -> unix_text c ->
  has_tables m l q t u -> float_table (xrows l) -> float_table (xrows q) -> (length l <= 333)%nat ->
  map fst q = map fst l -> t <> "" -> u <> "" ->
  Forall (shown_in_full disp) (map fst l) -> Forall eight_decimals (map fst l) -> 1 <= B -> values_below B l -> values_below B q ->
  Permutation FILE_META_DATA_KEYS fk -> Permutation DATASET_META_DATA_KEYS dk ->
  exists ops m' l' q', save_material W path m fs ic rii = (Ok tt, ops) /\
    mk_material (read_path fk dk yl (fs_run fs ops)) [("file_path", PStr path)] = Ok m' /\
    has_tables m' l' q' t u /\ values_within (2 / 10 ^ 8 * B) l l' /\ values_within (2 / 10 ^ 8 * B) q q' /\
    optics_within X (2 / 10 ^ 8 * B) B m m'.
Proof. exact C100_near_l. Qed.
Print Assumptions C100_near.

(** C100: the same for yaml files, with a smaller bound and without the limit of 8 decimals *)
Theorem C100_yaml_near : forall X W disp yl path m c meta sp l q t u fs ic fk dk B,
  shows W disp -> yaml_library W yl -> named path ".yml" -> m_meta m = Some meta -> dget meta "MetaComment" = Some (MStr c) -> yaml_text c ->
  standard_meta meta -> dget meta "Specification" = Some (MMap sp) ->
  has_tables m l q t u -> float_table (xrows l) -> float_table (xrows q) -> (length l <= 333)%nat ->
  map fst q = map fst l -> t <> "" -> u <> "" ->
  Forall (shown_in_full disp) (map fst l) -> 1 <= B -> values_below B l -> values_below B q ->
  Permutation FILE_META_DATA_KEYS fk -> Permutation DATASET_META_DATA_KEYS dk ->
  exists ops m' l' q', save_material W path m fs ic false = (Ok tt, ops) /\
    mk_material (read_path fk dk yl (fs_run fs ops)) [("file_path", PStr path)] = Ok m' /\
    has_tables m' l' q' t u /\ values_within (11 / 10 ^ 9 * B) l l' /\ values_within (11 / 10 ^ 9 * B) q q' /\
    optics_within X (11 / 10 ^ 9 * B) B m m'.
Proof. exact C100_yaml_near_l. Qed.
Print Assumptions C100_yaml_near.

(** C101: a formula for n without absorption is saved as yaml and loaded without any change in what
    it answers *)
Theorem C101_transparent : forall X W disp yl path m c meta sp k ps l t u fs fk dk,
  shows W disp -> yaml_library W yl -> named path ".yml" -> Permutation FILE_META_DATA_KEYS fk -> Permutation DATASET_META_DATA_KEYS dk ->
  m_meta m = Some meta -> dget meta "MetaComment" = Some (MStr c) -> yaml_text c -> standard_meta meta -> dget meta "Specification" = Some (MMap sp) ->
  formula_material m k ps l t u 0 -> output k = Some "n" -> Forall float_range ps -> (length ps <= 1000)%nat -> Forall float_range l -> (1 <= length l <= 1000)%nat ->
  t <> "" -> u <> "" -> (forall x, In x ps -> disp ps x = x) -> (forall x, In x l -> disp l x = x) ->
  exists ops m', save_material W path m fs true false = (Ok tt, ops) /\
    mk_material (read_path fk dk yl (fs_run fs ops)) [("file_path", PStr path)] = Ok m' /\
    formula_material m' k ps l t u 0 /\ same_optics X m m'.
Proof. exact C101_transparent_l. Qed.
Print Assumptions C101_transparent.

(** C101: with a constant absorption k = v the file is saved and loaded as well, but k is lost: at
    every request both give the same n, the original k = v and the loaded material k = 0 *)
Theorem C101_absorption_lost_refuted : forall X W disp yl path m c meta sp k ps l t u fs fk dk v,
  shows W disp -> yaml_library W yl -> named path ".yml" -> Permutation FILE_META_DATA_KEYS fk -> Permutation DATASET_META_DATA_KEYS dk ->
  m_meta m = Some meta -> dget meta "MetaComment" = Some (MStr c) -> yaml_text c -> standard_meta meta -> dget meta "Specification" = Some (MMap sp) ->
  formula_material m k ps l t u v -> output k = Some "n" -> Forall float_range ps -> (length ps <= 1000)%nat -> Forall float_range l -> (1 <= length l <= 1000)%nat ->
  t <> "" -> u <> "" -> (forall x, In x ps -> disp ps x = x) -> (forall x, In x l -> disp l x = x) ->
  exists ops m', save_material W path m fs true false = (Ok tt, ops) /\
    mk_material (read_path fk dk yl (fs_run fs ops)) [("file_path", PStr path)] = Ok m' /\
    forall a, absorption_lost v (get_nk_data X m a) (get_nk_data X m' a).
Proof. exact C101_absorption_lost_refuted_l. Qed.
Print Assumptions C101_absorption_lost_refuted.

Example C100_instance : forall X c, unix_text c -> exists m, has_tables m film_n film_k "wavelength" "nanometer" /\
  exists ops m', save_material sample_env "data/gold.txt" m [] false false = (Ok tt, ops) /\
    mk_material (read_path FILE_META_DATA_KEYS DATASET_META_DATA_KEYS (fun _ => Raise GenericException) (fs_run [] ops)) [("file_path", PStr "data/gold.txt")] = Ok m' /\
    optics_within X (2 / 10 ^ 8) 1 m m'.
Proof.
  intros X c Hu. destruct (tabulated_exists c film_n film_k ltac:(cbn; lia) film_n_nodup ltac:(cbn; lia) film_k_nodup) as (m & HT & HM & HH).
  exists m. split; [exact HT|]. destruct film_float as [F1 F2].
  assert (values_below 1 film_n /\ values_below 1 film_k) as [B1 B2] by (split; (constructor; [|constructor; [|constructor]]); cbn [snd]; rewrite Rabs_right; lra).
  destruct (C100_near X sample_env sample_disp "data/gold.txt" m c film_n film_k _ _ [] false false FILE_META_DATA_KEYS DATASET_META_DATA_KEYS (fun _ => Raise GenericException) 1
    sample_shows gold_text_file (HH _) (ex_intro _ (gold_meta c) (conj HM eq_refl)) Hu HT F1 F2 ltac:(cbn; lia) eq_refl ltac:(discriminate) ltac:(discriminate) (proj1 film_shown) (proj2 film_shown) ltac:(lra) B1 B2
    (Permutation_refl _) (Permutation_refl _)) as (ops & m' & l' & q' & Sv & Mk & _ & _ & _ & O).
  exists ops, m'. split; [exact Sv|]. split; [exact Mk|]. rewrite Rmult_1_r in O. exact O.
Qed.
Example C100_gold : forall X c, unix_text c -> yaml_text c -> exists m, has_tables m gold_n gold_k "wavelength" "nanometer" /\
  (exists ops m', save_material sample_env "data/gold.txt" m [] false false = (Ok tt, ops) /\
    mk_material (read_path FILE_META_DATA_KEYS DATASET_META_DATA_KEYS (fun _ => Raise GenericException) (fs_run [] ops)) [("file_path", PStr "data/gold.txt")] = Ok m' /\ same_optics X m m') /\
  (exists ops m', save_material yaml_env "data/gold.yml" m [] true false = (Ok tt, ops) /\
    mk_material (read_path FILE_META_DATA_KEYS DATASET_META_DATA_KEYS sample_load (fs_run [] ops)) [("file_path", PStr "data/gold.yml")] = Ok m' /\ same_optics X m m').
Proof.
  intros X c Hu Hy. destruct (tabulated_exists c gold_n gold_k ltac:(cbn; lia) gold_n_nodup ltac:(cbn; lia) gold_k_nodup) as (m & HT & HM & HH).
  exists m. split; [exact HT|]. destruct gold_float as [F1 F2]. split.
  - destruct (C100_text X sample_env sample_disp "data/gold.txt" m c gold_n gold_k _ _ [] false false FILE_META_DATA_KEYS DATASET_META_DATA_KEYS (fun _ => Raise GenericException)
      sample_shows gold_text_file (HH _) (ex_intro _ (gold_meta c) (conj HM eq_refl)) Hu HT F1 F2 ltac:(cbn; lia) eq_refl ltac:(discriminate) ltac:(discriminate) gold_decimal gold_display
      (Permutation_refl _) (Permutation_refl _)) as (ops & m' & Sv & Mk & _ & O). now exists ops, m'.
  - destruct (C100_yaml X yaml_env sample_disp sample_load "data/gold.yml" m c (gold_meta c) [] gold_n gold_k _ _ [] true FILE_META_DATA_KEYS DATASET_META_DATA_KEYS
      yaml_env_shows sample_library gold_yml HM eq_refl Hy (gold_standard c) eq_refl HT F1 F2 ltac:(cbn; lia) eq_refl ltac:(discriminate) ltac:(discriminate) gold_display
      (Permutation_refl _) (Permutation_refl _)) as (ops & m' & Sv & Mk & _ & O). now exists ops, m'.
Qed.
Example C100_film_yaml : forall X c, yaml_text c -> exists m, has_tables m film_n film_k "wavelength" "nanometer" /\
  exists ops m', save_material yaml_env "data/gold.yml" m [] true false = (Ok tt, ops) /\
    mk_material (read_path FILE_META_DATA_KEYS DATASET_META_DATA_KEYS sample_load (fs_run [] ops)) [("file_path", PStr "data/gold.yml")] = Ok m' /\
    optics_within X (11 / 10 ^ 9) 1 m m'.
Proof.
  intros X c Hy. destruct (tabulated_exists c film_n film_k ltac:(cbn; lia) film_n_nodup ltac:(cbn; lia) film_k_nodup) as (m & HT & HM & HH).
  exists m. split; [exact HT|]. destruct film_float as [F1 F2].
  assert (values_below 1 film_n /\ values_below 1 film_k) as [B1 B2] by (split; (constructor; [|constructor; [|constructor]]); cbn [snd]; rewrite Rabs_right; lra).
  destruct (C100_yaml_near X yaml_env sample_disp sample_load "data/gold.yml" m c (gold_meta c) [] film_n film_k _ _ [] true FILE_META_DATA_KEYS DATASET_META_DATA_KEYS 1
    yaml_env_shows sample_library gold_yml HM eq_refl Hy (gold_standard c) eq_refl HT F1 F2 ltac:(cbn; lia) eq_refl ltac:(discriminate) ltac:(discriminate) (proj1 film_shown) ltac:(lra) B1 B2
    (Permutation_refl _) (Permutation_refl _)) as (ops & m' & l' & q' & Sv & Mk & _ & _ & _ & O).
  exists ops, m'. split; [exact Sv|]. split; [exact Mk|]. rewrite Rmult_1_r in O. exact O.
Qed.

Example C101_glass : forall X, exists m ops m', formula_material m Sellmeier [Fin 0; Fin 1.04; Fin 0.006] [Fin 0.3; Fin 2.5] "wavelength" "um" 0 /\
  save_material yaml_env "data/gold.yml" m [] true false = (Ok tt, ops) /\
  mk_material (read_path FILE_META_DATA_KEYS DATASET_META_DATA_KEYS sample_load (fs_run [] ops)) [("file_path", PStr "data/gold.yml")] = Ok m' /\ same_optics X m m'.
Proof.
  intros X. destruct (glass_formula 0) as (m & HF & HM).
  destruct (C101_transparent X yaml_env sample_disp sample_load "data/gold.yml" m "glass" (gold_meta "glass") [] Sellmeier _ _ _ _ [] FILE_META_DATA_KEYS DATASET_META_DATA_KEYS
    yaml_env_shows sample_library gold_yml (Permutation_refl _) (Permutation_refl _) HM eq_refl (yaml_text_dec "glass" eq_refl) (gold_standard _) eq_refl HF eq_refl) as (ops & m' & S1 & S2 & _ & S3);
    try discriminate; try (cbn; lia).
  - apply Forall_forall. intros x Hx. apply glass_numbers. cbn in *. tauto.
  - apply Forall_forall. intros x Hx. apply glass_numbers. cbn in *. tauto.
  - intros x Hx. apply glass_numbers. cbn in *. tauto.
  - intros x Hx. apply glass_numbers. cbn in *. tauto.
  - now exists m, ops, m'.
Qed.
(** the absorbing glass: at 1 um the original answers k = 0.01, the loaded one k = 0 *)
Example C101_absorbing_glass : forall X, exists m ops m', formula_material m Sellmeier [Fin 0; Fin 1.04; Fin 0.006] [Fin 0.3; Fin 2.5] "wavelength" "um" 0.01 /\
  save_material yaml_env "data/gold.yml" m [] true false = (Ok tt, ops) /\
  mk_material (read_path FILE_META_DATA_KEYS DATASET_META_DATA_KEYS sample_load (fs_run [] ops)) [("file_path", PStr "data/gold.yml")] = Ok m' /\
  forall a, absorption_lost 0.01 (get_nk_data X m a) (get_nk_data X m' a).
Proof.
  intros X. destruct (glass_formula 0.01) as (m & HF & HM).
  destruct (C101_absorption_lost_refuted X yaml_env sample_disp sample_load "data/gold.yml" m "glass" (gold_meta "glass") [] Sellmeier _ _ _ _ [] FILE_META_DATA_KEYS DATASET_META_DATA_KEYS 0.01
    yaml_env_shows sample_library gold_yml (Permutation_refl _) (Permutation_refl _) HM eq_refl (yaml_text_dec "glass" eq_refl) (gold_standard _) eq_refl HF eq_refl) as (ops & m' & S1 & S2 & S3);
    try discriminate; try (cbn; lia).
  - apply Forall_forall. intros x Hx. apply glass_numbers. cbn in *. tauto.
  - apply Forall_forall. intros x Hx. apply glass_numbers. cbn in *. tauto.
  - intros x Hx. apply glass_numbers. cbn in *. tauto.
  - intros x Hx. apply glass_numbers. cbn in *. tauto.
  - now exists m, ops, m'.
Qed.
