(** Theorems about yaml files: meta comment (C40), metadata and data sets (C43), keys (C47), large
    tables (C69). *)
From Verif Require Import PyBase PyStr XReal CNum TextModel TextSpec TextProofs TableProofs SpectrumModel SpectrumSpec SpectralModel SpectralSpec SpectralThms MaterialModel MaterialSpec MaterialProofs MatFileProofs FileModel ReaderModel WriterModel IOSpec LineProofs FmtProofs TextFileProofs DisplayProofs SaveProofs PathProofs CycleProofs OrderProofs ExportProofs ShowsProofs IOExamples SaveSpec SaveMoreProofs SaveThms TextFileThms YamlSpec YamlProofs YamlWriteProofs YamlReadProofs YamlDataProofs.
From Coq Require Import Permutation.
From Verif Require Import YamlThms.
Open Scope R_scope.
Open Scope string_scope.
Open Scope list_scope.

(** C40: what one cycle does to the meta comment *)
Theorem C40_one_cycle : forall W path ic rii m m' c,
  named path ".yml" -> comment_of m c -> yaml_text c -> yaml_cycle W path ic rii m m' ->
  exists c', after_yaml_cycle c c' /\ comment_of m' c'.
Proof. exact C40_one_cycle_l. Qed.
Print Assumptions C40_one_cycle.

(** C40: after n cycles at least n characters are gone from the end; finally nothing is left *)
Theorem C40_many_cycles : forall W path n m m' c,
  named path ".yml" -> comment_of m c -> yaml_text c -> yaml_cycles W path n m m' ->
  exists c', comment_of m' c' /\ prefix_of c' c /\ (String.length c' <= String.length c - n)%nat /\
    ((String.length c <= n)%nat -> c' = "").
Proof. exact C40_many_cycles_l. Qed.
Print Assumptions C40_many_cycles.

(** C40: so no comment but the empty one survives a cycle *)
Theorem C40_comment_changes_refuted : forall W path ic rii m m' c,
  named path ".yml" -> comment_of m c -> yaml_text c -> c <> "" -> yaml_cycle W path ic rii m m' ->
  ~ comment_of m' c.
Proof. exact C40_comment_changes_refuted_l. Qed.
Print Assumptions C40_comment_changes_refuted.

(** C43: what was saved is read back: the metadata and the data sets, in order *)
Theorem C43_read_back : forall W yl path m c meta fs ic ops fk dk,
  named path ".yml" -> yaml_library W yl -> Permutation FILE_META_DATA_KEYS fk -> Permutation DATASET_META_DATA_KEYS dk ->
  save_material W path m fs ic false = (Ok tt, ops) ->
  m_meta m = Some meta -> dget meta "MetaComment" = Some (MStr c) -> yaml_text c -> standard_meta meta ->
  ic = true \/ (~ constant_part (m_real m) /\ ~ constant_part (m_imag m)) ->
  exists w fd, mk_writer W path m = Ok w /\ read_path fk dk yl (fs_run fs ops) path = Ok fd /\
    meta_read meta (fd_meta fd) /\ Forall2 set_read (written_sets ic (w_sets w)) (fd_sets fd).
Proof. exact C43_read_back_l. Qed.
Print Assumptions C43_read_back.

(** C43: with use_rii_aliases the same, but spectrum type, unit and yields are gone *)
Theorem C43_rii_read_back : forall W yl path m c meta fs ic ops fk dk,
  named path ".yml" -> yaml_library W yl -> Permutation FILE_META_DATA_KEYS fk -> Permutation DATASET_META_DATA_KEYS dk ->
  save_material W path m fs ic true = (Ok tt, ops) ->
  m_meta m = Some meta -> dget meta "MetaComment" = Some (MStr c) -> yaml_text c -> standard_meta meta ->
  ic = true \/ (~ constant_part (m_real m) /\ ~ constant_part (m_imag m)) ->
  exists w fd, mk_writer W path m = Ok w /\ read_path fk dk yl (fs_run fs ops) path = Ok fd /\
    meta_read meta (fd_meta fd) /\
    (Forall no_rii_name (w_sets w) -> Forall2 set_read_rii (written_sets ic (w_sets w)) (fd_sets fd)).
Proof. exact C43_rii_read_back_l. Qed.
Print Assumptions C43_rii_read_back.

(** C43: the loaded material has the parts of the saved one: tables and formulas with their numbers
    as numpy displays them and with their own type and unit; constants have become 0 *)
Theorem C43_parts_kept : forall W disp path m m' c meta ic,
  shows W disp -> named path ".yml" -> m_meta m = Some meta -> dget meta "MetaComment" = Some (MStr c) -> yaml_text c -> standard_meta meta ->
  m_name m = "nk" -> savable_part (m_real m) -> savable_part (m_imag m) -> (forall b k ps, m_imag m <> DModel b k ps) ->
  (forall b n b' k, m_real m = DInterp b n -> m_imag m = DInterp b' k -> ~ share_grid disp b b' n k) ->
  ic = true \/ (~ constant_part (m_real m) /\ ~ constant_part (m_imag m)) ->
  yaml_cycle W path ic false m m' ->
  m_name m' = "nk" /\ m_complex m' = None /\ part_kept (m_real m) (m_real m') /\ part_kept (m_imag m) (m_imag m') /\
    reported_as m m'.
Proof. exact C43_parts_kept_l. Qed.
Print Assumptions C43_parts_kept.

(** C43: two tables on a common grid (as displayed) come back on one grid, every entry within
    1.1e-8 (relative above 1) *)
Theorem C43_tables_together : forall W disp path m m' c meta ic b b' n k,
  shows W disp -> named path ".yml" -> m_meta m = Some meta -> dget meta "MetaComment" = Some (MStr c) -> yaml_text c -> standard_meta meta ->
  tables_of m b b' n k -> float_table n -> float_table k -> (2 <= length n <= 333)%nat -> length k = length n ->
  share_grid disp b b' n k -> d_type b <> "" -> d_unit b <> "" -> yaml_cycle W path ic false m m' ->
  exists b1 b1' n' k', tables_of m' b1 b1' n' k' /\ near_table (11 / 10 ^ 9) n n' /\ near_values (11 / 10 ^ 9) k k' /\
    map fst k' = map fst n' /\ d_type b1 = d_type b /\ d_type b1' = d_type b /\ d_unit b1 = d_unit b /\ d_unit b1' = d_unit b.
Proof. exact C43_tables_together_l. Qed.
Print Assumptions C43_tables_together.

(** C43: a material that is no complex model, with a mapping as Specification and at least one part
    that is not constant, can be saved if its Writer can be made *)
Theorem C43_can_save : forall W path m w meta c sp fs ic rii,
  named path ".yml" -> mk_writer W path m = Ok w -> m_meta m = Some meta -> dget meta "MetaComment" = Some (MStr c) ->
  standard_meta meta -> dget meta "Specification" = Some (MMap sp) ->
  (ic = true -> ~ (constant_part (m_real m) /\ constant_part (m_imag m))) ->
  exists ops, save_material W path m fs ic rii = (Ok tt, ops).
Proof. exact C43_can_save_l. Qed.
Print Assumptions C43_can_save.

(** C43: numbers that numpy displays exactly: the material can be saved and loaded again, and the
    loaded one has the same tables, types and units *)
Theorem C43_cycle_exact : forall W disp yl path m c meta sp b b' l q fs ic fk dk canon,
  shows W disp -> yaml_library W yl -> named path ".yml" -> m_meta m = Some meta -> dget meta "MetaComment" = Some (MStr c) -> yaml_text c ->
  standard_meta meta -> dget meta "Specification" = Some (MMap sp) ->
  tables_of m b b' (xrows l) (xrows q) -> float_table (xrows l) -> float_table (xrows q) -> (2 <= length l <= 333)%nat ->
  map fst q = map fst l -> NoDup (map fst l) -> d_unit b = d_unit b' -> d_type b = d_type b' ->
  documented (lower (d_type b)) (lower (d_unit b)) canon -> d_type b <> "" -> d_unit b <> "" ->
  (forall all x, incl all (concat (table_of (xrows l)) ++ concat (table_of (xrows q))) -> In x all -> disp all x = x) ->
  Permutation FILE_META_DATA_KEYS fk -> Permutation DATASET_META_DATA_KEYS dk ->
  exists ops m' b1 b1', save_material W path m fs ic false = (Ok tt, ops) /\
    mk_material (read_path fk dk yl (fs_run fs ops)) [("file_path", PStr path)] = Ok m' /\
    tables_of m' b1 b1' (xrows l) (xrows q) /\
    d_type b1 = d_type b /\ d_unit b1 = d_unit b /\ d_type b1' = d_type b /\ d_unit b1' = d_unit b /\ m_stype m' = d_type b /\ m_unit m' = d_unit b.
Proof. exact C43_cycle_exact_l. Qed.
Print Assumptions C43_cycle_exact.

(** C43: constants that are written (ignore_constant=False) make the file unreadable: KeyError *)
Theorem C43_constants_kept_unreadable_refuted : forall W yl path m c meta fs rii ops fk dk,
  named path ".yml" -> yaml_library W yl -> Permutation FILE_META_DATA_KEYS fk -> Permutation DATASET_META_DATA_KEYS dk ->
  save_material W path m fs false rii = (Ok tt, ops) ->
  m_meta m = Some meta -> dget meta "MetaComment" = Some (MStr c) -> yaml_text c -> standard_meta meta ->
  constant_part (m_real m) \/ constant_part (m_imag m) ->
  read_path fk dk yl (fs_run fs ops) path = Raise KeyError.
Proof. exact C43_constants_kept_unreadable_refuted_l. Qed.
Print Assumptions C43_constants_kept_unreadable_refuted.

(** C43: the data of an eps material is lost: the loaded material is 0 and has no name *)
Theorem C43_eps_lost_refuted : forall W disp yl path m c meta fs ic ops fk dk,
  shows W disp -> yaml_library W yl -> named path ".yml" -> Permutation FILE_META_DATA_KEYS fk -> Permutation DATASET_META_DATA_KEYS dk -> m_meta m = Some meta -> dget meta "MetaComment" = Some (MStr c) -> yaml_text c -> standard_meta meta ->
  m_name m = "eps" -> savable_part (m_real m) -> savable_part (m_imag m) ->
  (forall b k ps, m_real m <> DModel b k ps) -> (forall b k ps, m_imag m <> DModel b k ps) ->
  ic = true \/ (~ constant_part (m_real m) /\ ~ constant_part (m_imag m)) -> save_material W path m fs ic false = (Ok tt, ops) ->
  exists m', mk_material (read_path fk dk yl (fs_run fs ops)) [("file_path", PStr path)] = Ok m' /\
    m_name m' = "" /\ m_complex m' = None /\ zero_part (m_real m') /\ zero_part (m_imag m').
Proof. exact C43_eps_lost_refuted_l. Qed.
Print Assumptions C43_eps_lost_refuted.

(** C43: with use_rii_aliases the type and unit of a table are not written: the loaded tables are
    over wavelengths in nanometre *)
Theorem C43_units_lost_refuted : forall W disp path m m' c meta ic b b' n k,
  shows W disp -> named path ".yml" -> m_meta m = Some meta -> dget meta "MetaComment" = Some (MStr c) -> yaml_text c -> standard_meta meta ->
  tables_of m b b' n k -> float_table n -> float_table k -> (2 <= length n <= 333)%nat -> length k = length n ->
  share_grid disp b b' n k -> yaml_cycle W path ic true m m' ->
  exists b1 b1' n' k', tables_of m' b1 b1' n' k' /\ near_table (11 / 10 ^ 9) n n' /\ near_values (11 / 10 ^ 9) k k' /\
    d_type b1 = "wavelength" /\ d_type b1' = "wavelength" /\ d_unit b1 = "nanometer" /\ d_unit b1' = "nanometer".
Proof. exact C43_units_lost_refuted_l. Qed.
Print Assumptions C43_units_lost_refuted.

(** C43: ... and a formula for n saved that way cannot be loaded: ValueError *)
Theorem C43_rii_model_refuted : forall W disp yl path m c meta fs ops fk dk b k ps,
  shows W disp -> yaml_library W yl -> named path ".yml" -> Permutation FILE_META_DATA_KEYS fk -> Permutation DATASET_META_DATA_KEYS dk ->
  m_meta m = Some meta -> dget meta "MetaComment" = Some (MStr c) -> yaml_text c -> standard_meta meta ->
  m_name m = "nk" -> m_real m = DModel b k ps -> savable_part (m_real m) -> constant_part (m_imag m) ->
  save_material W path m fs true true = (Ok tt, ops) ->
  mk_material (read_path fk dk yl (fs_run fs ops)) [("file_path", PStr path)] = Raise ValueError.
Proof. exact C43_rii_model_refuted_l. Qed.
Print Assumptions C43_rii_model_refuted.

(** C47: a file with a top level key whose upper case form is no key of the file cannot be read:
    KeyError, unless the data sets cannot be read either *)
Theorem C47_lower_case_key : forall fk dk yl fs path text doc k,
  named path ".yml" -> dget fs path = Some text -> yl text = Ok (YDict doc) ->
  In k (map fst doc) -> ~ In (upper k) (map fst doc) ->
  exists e, read_path fk dk yl fs path = Raise e /\
    ((forall n, dget doc "DATA" = Some n -> exists l, process_mat_data_dict dk n = Ok l) -> e = KeyError).
Proof. exact C47_lower_case_key_l. Qed.
Print Assumptions C47_lower_case_key.

(** C47: an upper case key that starts with no keyword, and of which no other key is a variant, is
    ignored: reading is the same with and without it *)
Theorem C47_unknown_key_ignored : forall fk dk yl yl' fs path text d1 d2 k v,
  named path ".yml" -> dget fs path = Some text -> Permutation FILE_META_DATA_KEYS fk ->
  yl text = Ok (YDict (d1 ++ (k, v) :: d2)) -> yl' text = Ok (YDict (d1 ++ d2)) ->
  upper k = k -> ~ In k ["DATA"; "SPECS"] ->
  (forall q, In q ["COMMENT"; "REFERENCE"; "AUTHOR"; "NAME"; "FULLNAME"; "METACOMMENT"] -> ~ prefix_of q k) ->
  (forall q, In q (map fst (d1 ++ d2)) -> upper q <> k) ->
  read_path fk dk yl fs path = read_path fk dk yl' fs path.
Proof. exact C47_unknown_key_ignored_l. Qed.
Print Assumptions C47_unknown_key_ignored.

(** C47: but a key that merely starts with a keyword sets that metadata *)
Theorem C47_prefix_key : forall fk dk yl fs path text key v q,
  named path ".yml" -> dget fs path = Some text -> Permutation FILE_META_DATA_KEYS fk -> yl text = Ok (YDict [(key, NVal v)]) ->
  upper key = key -> In q ["Comment"; "Reference"; "Author"; "Name"; "FullName"] -> startswith (upper q) key = true ->
  exists fd, read_path fk dk yl fs path = Ok fd /\ dget (fd_meta fd) q = Some v.
Proof. exact C47_prefix_key_l. Qed.
Print Assumptions C47_prefix_key.

(** C43: a metadata key of the user that is not all upper case makes the file unreadable *)
Theorem C43_custom_key_refuted : forall W yl path m c meta fs ic rii ops fk dk k,
  named path ".yml" -> yaml_library W yl -> Permutation FILE_META_DATA_KEYS fk -> Permutation DATASET_META_DATA_KEYS dk ->
  save_material W path m fs ic rii = (Ok tt, ops) ->
  m_meta m = Some meta -> dget meta "MetaComment" = Some (MStr c) -> yaml_text c ->
  In k (map fst meta) -> (forall q, In q (map fst meta) -> q = k \/ In q (["Alias"; "MetaComment"; "Specification"] ++ header_keys)) ->
  ~ In k (["Alias"; "MetaComment"; "Specification"; "Datasets"] ++ header_keys) ->
  upper k <> k -> ~ In (upper k) ["REFERENCES"; "AUTHOR"; "FULLNAME"; "NAME"; "COMMENTS"; "SPECS"; "DATA"] ->
  ic = true \/ (~ constant_part (m_real m) /\ ~ constant_part (m_imag m)) ->
  read_path fk dk yl (fs_run fs ops) path = Raise KeyError.
Proof. exact C43_custom_key_refuted_l. Qed.
Print Assumptions C43_custom_key_refuted.

(** C69: two tables of 334 to 500 rows on a common grid: the yaml file is written, and cannot be
    loaded: ValueError *)
Theorem C69_large_merged_yaml : forall W disp yl path m c meta sp b b' n k fs ic fk dk,
  shows W disp -> yaml_library W yl -> named path ".yml" -> Permutation FILE_META_DATA_KEYS fk -> Permutation DATASET_META_DATA_KEYS dk ->
  m_meta m = Some meta -> dget meta "MetaComment" = Some (MStr c) -> yaml_text c -> standard_meta meta -> dget meta "Specification" = Some (MMap sp) ->
  tables_of m b b' n k -> float_table n -> float_table k -> (333 < length n <= 500)%nat -> length k = length n -> share_grid disp b b' n k ->
  exists ops, save_material W path m fs ic false = (Ok tt, ops) /\
    mk_material (read_path fk dk yl (fs_run fs ops)) [("file_path", PStr path)] = Raise ValueError.
Proof. exact C69_large_merged_yaml_l. Qed.
Print Assumptions C69_large_merged_yaml.

(** C43: a formula for n with a constant k is saved, and loaded again with its parameters and range
    as displayed *)
Theorem C43_model_cycle : forall W disp yl path m c meta sp b k ps rng fs fk dk,
  shows W disp -> yaml_library W yl -> named path ".yml" -> Permutation FILE_META_DATA_KEYS fk -> Permutation DATASET_META_DATA_KEYS dk ->
  m_meta m = Some meta -> dget meta "MetaComment" = Some (MStr c) -> yaml_text c -> standard_meta meta -> dget meta "Specification" = Some (MMap sp) ->
  m_name m = "nk" -> m_complex m = None -> mk_model k ps rng (d_type b) (d_unit b) = Ok (DModel b k ps) -> m_real m = DModel b k ps -> savable_part (m_real m) -> constant_part (m_imag m) ->
  exists ops m', save_material W path m fs true false = (Ok tt, ops) /\
    mk_material (read_path fk dk yl (fs_run fs ops)) [("file_path", PStr path)] = Ok m' /\
    m_name m' = "nk" /\ part_kept (m_real m) (m_real m') /\ zero_part (m_imag m').
Proof. exact C43_model_cycle_l. Qed.
Print Assumptions C43_model_cycle.

(** C43: a material of savable parts - a table or a formula for n, a table for k, not both constant,
    tables on different grids - is saved, and loaded again with both parts as displayed *)
Theorem C43_parts_cycle : forall W disp yl path m c meta sp fs fk dk,
  shows W disp -> yaml_library W yl -> named path ".yml" -> Permutation FILE_META_DATA_KEYS fk -> Permutation DATASET_META_DATA_KEYS dk ->
  m_meta m = Some meta -> dget meta "MetaComment" = Some (MStr c) -> yaml_text c -> standard_meta meta -> dget meta "Specification" = Some (MMap sp) ->
  m_name m = "nk" -> m_complex m = None -> savable_part (m_real m) -> savable_part (m_imag m) -> loadable_part disp (m_real m) -> loadable_part disp (m_imag m) ->
  (forall b k ps, m_imag m <> DModel b k ps) -> ~ (constant_part (m_real m) /\ constant_part (m_imag m)) ->
  (forall b n b' k, m_real m = DInterp b n -> m_imag m = DInterp b' k -> length k = length n /\ ~ share_grid disp b b' n k) ->
  exists ops m', save_material W path m fs true false = (Ok tt, ops) /\
    mk_material (read_path fk dk yl (fs_run fs ops)) [("file_path", PStr path)] = Ok m' /\
    m_name m' = "nk" /\ m_complex m' = None /\ part_kept (m_real m) (m_real m') /\ part_kept (m_imag m) (m_imag m') /\
    reported_as m m'.
Proof. exact C43_parts_cycle_l. Qed.
Print Assumptions C43_parts_cycle.

From Verif Require Import YamlCodec YamlSample.

(** the hypotheses of C40 and C43 hold: a material with tables for n and k goes seven times through
    a yaml file *)
Example C40_instance : exists m m', named "data/gold.yml" ".yml" /\ comment_of m "ellipsometry" /\ yaml_text "ellipsometry" /\
  yaml_cycles yaml_env "data/gold.yml" 7 m m' /\ exists c', comment_of m' c' /\ prefix_of c' "ellipsometry" /\ (String.length c' <= 5)%nat.
Proof.
  assert (yaml_text "ellipsometry") as Ht by (apply yaml_text_dec; reflexivity).
  destruct (yaml_gold_many 7 "ellipsometry" Ht) as (m & m' & H1 & H2 & H3). exists m, m'.
  assert (comment_of m "ellipsometry") as HC by (exists (gold_meta "ellipsometry"); split; [exact H2|reflexivity]).
  split; [apply gold_yml|]. split; [exact HC|]. split; [exact Ht|]. split; [exact H3|].
  destruct (C40_many_cycles _ _ 7 m m' _ gold_yml HC Ht H3) as (c' & A & B & C & _). now exists c'.
Qed.
Example C40_loses_a_letter : exists m m', yaml_cycle yaml_env "data/gold.yml" true false m m' /\ comment_of m "gold" /\ comment_of m' "gol".
Proof.
  assert (yaml_text "gold") as Ht by (apply yaml_text_dec; reflexivity).
  destruct (gold_start "gold") as (m & HG & HM). destruct (yaml_gold_one m "gold" true HG Ht) as (m' & J1 & [_ (meta & sp & A & B & _)]).
  exists m, m'. split; [exact J1|]. split; [exists (gold_meta "gold"); split; [exact HM|reflexivity]|]. exists meta. split; [exact A|exact B].
Qed.
Example C43_instance : exists m c meta sp, shows yaml_env sample_disp /\ yaml_library yaml_env sample_load /\ m_meta m = Some meta /\
  dget meta "MetaComment" = Some (MStr c) /\ yaml_text c /\ standard_meta meta /\ dget meta "Specification" = Some (MMap sp) /\
  exists b b', tables_of m b b' (xrows gold_n) (xrows gold_k) /\ share_grid sample_disp b b' (xrows gold_n) (xrows gold_k) /\
  exists w ops ops', mk_writer yaml_env "data/gold.yml" m = Ok w /\ save_material yaml_env "data/gold.yml" m [] true false = (Ok tt, ops) /\
    save_material yaml_env "data/gold.yml" m [] true true = (Ok tt, ops') /\ exists m', yaml_cycle yaml_env "data/gold.yml" true false m m'.
Proof.
  assert (yaml_text "gold") as Ht by (apply yaml_text_dec; reflexivity).
  destruct (gold_start "gold") as (m & HG & HM). destruct (yaml_gold_one m "gold" true HG Ht) as (m' & J1 & _).
  destruct HG as [(b & b' & HT & T & U & T' & U') (meta & sp & Hm & Hc & Hst & Hsp)].
  exists m, "gold", meta, sp. split; [apply yaml_env_shows|]. split; [apply sample_library|]. split; [exact Hm|]. split; [exact Hc|]. split; [exact Ht|]. split; [exact Hst|]. split; [exact Hsp|].
  exists b, b'. split; [exact HT|]. split; [apply gold_share; congruence|].
  pose proof J1 as J. destruct J1 as [fk dk yl fs ops Pf Pd HY HS HL]. destruct (mk_writer yaml_env "data/gold.yml" m) as [w|e] eqn:Ew; [|exfalso; unfold save_material in HS; rewrite Ew in HS; discriminate].
  assert (true = true -> ~ (constant_part (m_real m) /\ constant_part (m_imag m))) as HN by (intros _ [(? & ? & X) _]; destruct HT as (_ & _ & E & _); rewrite E in X; discriminate).
  destruct (C43_can_save yaml_env "data/gold.yml" m w meta "gold" sp [] true false gold_yml Ew Hm Hc Hst Hsp HN) as [o1 Q1].
  destruct (C43_can_save yaml_env "data/gold.yml" m w meta "gold" sp [] true true gold_yml Ew Hm Hc Hst Hsp HN) as [o2 Q2].
  exists w, o1, o2. split; [reflexivity|]. split; [exact Q1|]. split; [exact Q2|]. now exists m'.
Qed.
(** a glass with a Sellmeier formula comes back; saved with the other names it cannot be loaded *)
Example C43_glass : exists m m' ops, savable_part (m_real m) /\ constant_part (m_imag m) /\ yaml_cycle yaml_env "data/gold.yml" true false m m' /\
  part_kept (m_real m) (m_real m') /\ zero_part (m_imag m') /\
  save_material yaml_env "data/gold.yml" m [] true true = (Ok tt, ops) /\
  mk_material (read_path FILE_META_DATA_KEYS DATASET_META_DATA_KEYS sample_load (fs_run [] ops)) [("file_path", PStr "data/gold.yml")] = Raise ValueError.
Proof.
  destruct glass_exists as (m & b & E & Hm & Hn & Hx & T & U & Hr & Hs & Hc). assert (yaml_text "glass") as Ht by (apply yaml_text_dec; reflexivity).
  destruct (C43_model_cycle yaml_env sample_disp sample_load "data/gold.yml" m "glass" (gold_meta "glass") [] b Sellmeier [Fin 0; Fin 1.04; Fin 0.006] (InVals (VA [Fin 0.3; Fin 2.5])) [] FILE_META_DATA_KEYS DATASET_META_DATA_KEYS
    yaml_env_shows sample_library gold_yml (Permutation_refl _) (Permutation_refl _) Hm eq_refl Ht (gold_standard _) eq_refl Hn Hx) as (ops & m' & S1 & S2 & S3 & S4 & S5); try assumption; [now rewrite T, U|].
  destruct (mk_writer yaml_env "data/gold.yml" m) as [w|e] eqn:Ew; [|exfalso; unfold save_material in S1; rewrite Ew in S1; discriminate].
  destruct (C43_can_save yaml_env "data/gold.yml" m w _ "glass" [] [] true true gold_yml Ew Hm eq_refl (gold_standard _) eq_refl) as [o2 Q2].
  { intros _ [(? & ? & X) _]. rewrite Hr in X. discriminate. }
  exists m, m', o2. split; [exact Hs|]. split; [exact Hc|]. split; [eapply one_yaml_cycle; [apply Permutation_refl|apply Permutation_refl|apply sample_library|exact S1|exact S2]|].
  split; [exact S4|]. split; [exact S5|]. split; [exact Q2|].
  exact (C43_rii_model_refuted yaml_env sample_disp sample_load "data/gold.yml" m "glass" _ [] o2 _ _ b _ _ yaml_env_shows sample_library gold_yml (Permutation_refl _) (Permutation_refl _) Hm eq_refl Ht (gold_standard _) Hn Hr Hs Hc Q2).
Qed.
(** the same glass with a table for k *)
Example C43_parts_instance : exists m m', savable_part (m_real m) /\ savable_part (m_imag m) /\ yaml_cycle yaml_env "data/gold.yml" true false m m' /\
  (exists b ps, m_real m = DModel b Sellmeier ps) /\ (exists b rows, m_imag m = DInterp b rows) /\
  part_kept (m_real m) (m_real m') /\ part_kept (m_imag m) (m_imag m').
Proof.
  destruct glass_exists as (m0 & b & E & Hm & Hn & Hx & T & U & Hr & Hs & Hc). assert (yaml_text "glass") as Ht by (apply yaml_text_dec; reflexivity).
  destruct (gold_parts gold_k ltac:(cbn; lia) gold_k_nodup) as (b' & E1' & T' & U').
  set (m := mkMat (m_meta m0) (m_name m0) (m_real m0) (DInterp b' (xrows gold_k)) (m_complex m0) "wavelength" "um").
  assert (savable_part (m_imag m)) as S2 by (unfold m; cbn [m_imag savable_part]; rewrite T', U'; repeat split; first [exact (proj2 gold_float)|cbn; lia|discriminate]).
  destruct (C43_parts_cycle yaml_env sample_disp sample_load "data/gold.yml" m "glass" (gold_meta "glass") [] [] FILE_META_DATA_KEYS DATASET_META_DATA_KEYS
    yaml_env_shows sample_library gold_yml (Permutation_refl _) (Permutation_refl _) Hm eq_refl Ht (gold_standard _) eq_refl Hn Hx) as (ops & m' & S1 & L1 & _ & _ & K1 & K2 & _); try assumption.
  - unfold m. cbn [m_real]. rewrite Hr. cbn [loadable_part]. rewrite T, U. exists (InVals (VA [Fin 0.3; Fin 2.5])). exact E.
  - unfold m. cbn [m_imag loadable_part]. split; [|split].
    + intros r X. cbn in X. repeat (destruct X as [<-|X]; [eexists _, _; reflexivity|]). destruct X.
    + cbn [xrows gold_k map fst]. rewrite !(gold_display) by (first [intros z X; cbn in X |- *; tauto|cbn; tauto]).
      constructor; [cbn; intros [X|[]]; injection X as X; lra|]. constructor; [cbn; tauto|constructor].
    + rewrite T', U'. exists "nm". eexists. split; [cbn; right; right; right; left; reflexivity|cbn; tauto].
  - discriminate.
  - unfold m. cbn [m_imag]. intros [_ (? & ? & X)]. discriminate X.
  - unfold m. cbn [m_real]. rewrite Hr. intros ? ? ? ? X. discriminate X.
  - exists m, m'. split; [exact Hs|]. split; [exact S2|]. split; [exact (one_yaml_cycle yaml_env "data/gold.yml" true false m m' _ _ sample_load [] ops (Permutation_refl _) (Permutation_refl _) sample_library S1 L1)|].
    split; [unfold m; cbn [m_real]; rewrite Hr; now eexists _, _|]. split; [now eexists _, _|]. split; assumption.
Qed.
(** keeping its constant k makes the file unreadable *)
Example C43_constants_instance : exists m ops, constant_part (m_imag m) /\ save_material yaml_env "data/gold.yml" m [] false false = (Ok tt, ops) /\
  read_path FILE_META_DATA_KEYS DATASET_META_DATA_KEYS sample_load (fs_run [] ops) "data/gold.yml" = Raise KeyError.
Proof.
  destruct glass_exists as (m & b & E & Hm & Hn & Hx & T & U & Hr & Hs & Hc). assert (yaml_text "glass") as Ht by (apply yaml_text_dec; reflexivity).
  destruct (C43_model_cycle yaml_env sample_disp sample_load "data/gold.yml" m "glass" (gold_meta "glass") [] b Sellmeier [Fin 0; Fin 1.04; Fin 0.006] (InVals (VA [Fin 0.3; Fin 2.5])) [] FILE_META_DATA_KEYS DATASET_META_DATA_KEYS
    yaml_env_shows sample_library gold_yml (Permutation_refl _) (Permutation_refl _) Hm eq_refl Ht (gold_standard _) eq_refl Hn Hx) as (ops & m' & S1 & _); try assumption; [now rewrite T, U|].
  destruct (mk_writer yaml_env "data/gold.yml" m) as [w|e] eqn:Ew; [|exfalso; unfold save_material in S1; rewrite Ew in S1; discriminate].
  destruct (C43_can_save yaml_env "data/gold.yml" m w _ "glass" [] [] false false gold_yml Ew Hm eq_refl (gold_standard _) eq_refl) as [o2 Q2]; [discriminate|].
  exists m, o2. split; [exact Hc|]. split; [exact Q2|].
  exact (C43_constants_kept_unreadable_refuted yaml_env sample_load "data/gold.yml" m "glass" _ [] false o2 _ _ gold_yml sample_library (Permutation_refl _) (Permutation_refl _) Q2 Hm eq_refl Ht (gold_standard _) (or_intror Hc)).
Qed.
(** the same tables as a dielectric function: everything is lost *)
Example C43_eps_instance : exists m m', m_name m = "eps" /\ savable_part (m_real m) /\ savable_part (m_imag m) /\ 
  yaml_cycle yaml_env "data/gold.yml" true false m m' /\ m_name m' = "" /\ zero_part (m_real m').
Proof.
  destruct (gold_exists "gold") as (m & b & b' & (HN & HX & HR & HI) & T & U & T' & U' & HM & _).
  set (me := mkMat (m_meta m) "eps" (m_real m) (m_imag m) None "wavelength" "nanometer").
  destruct gold_float as [F1 F2].
  assert (savable_part (m_real me)) as S1 by (unfold me; cbn [m_real]; rewrite HR; cbn [savable_part]; rewrite T, U; repeat split; first [exact F1|cbn; lia|discriminate]).
  assert (savable_part (m_imag me)) as S2 by (unfold me; cbn [m_imag]; rewrite HI; cbn [savable_part]; rewrite T', U'; repeat split; first [exact F2|cbn; lia|discriminate]).
  assert (yaml_text "gold") as Ht by (apply yaml_text_dec; reflexivity).
  assert (exists w, mk_writer yaml_env "data/gold.yml" me = Ok w) as [w Hw].
  { unfold mk_writer, prepare_file_dict, dataset_to_dict. unfold me. cbn [m_meta m_complex m_name m_real m_imag]. rewrite HM, HR, HI, !part_dict_interp. cbn [bind].
    change (add_dtype_suffix "eps" "tabulated" "real") with (Ok "tabulated eps_r"). change (add_dtype_suffix "eps" "tabulated" "imag") with (Ok "tabulated eps_k"). cbn [bind].
    unfold collapse_datasets. rewrite find_no_table; [eexists; reflexivity|]. repeat constructor; eexists; (split; [reflexivity|split; discriminate]). }
  destruct (C43_can_save yaml_env "data/gold.yml" me w _ "gold" [] [] true false gold_yml Hw HM eq_refl (gold_standard _) eq_refl) as [ops HS].
  { intros _ [(? & ? & X) _]. unfold me in X. cbn [m_real] in X. rewrite HR in X. discriminate. }
  destruct (C43_eps_lost_refuted yaml_env sample_disp sample_load "data/gold.yml" me "gold" (gold_meta "gold") [] true ops FILE_META_DATA_KEYS DATASET_META_DATA_KEYS
    yaml_env_shows sample_library gold_yml (Permutation_refl _) (Permutation_refl _) HM eq_refl Ht (gold_standard _) eq_refl S1 S2) as (m' & L & A & _ & B & _).
  - unfold me. cbn [m_real]. rewrite HR. discriminate.
  - unfold me. cbn [m_imag]. rewrite HI. discriminate.
  - now left.
  - exact HS.
  - exists me, m'. split; [reflexivity|]. split; [exact S1|]. split; [exact S2|]. split; [|now split].
    eapply one_yaml_cycle; [apply Permutation_refl|apply Permutation_refl|apply sample_library|exact HS|exact L].
Qed.
Example C47_instance : exists text, let doc := [("NAME", NVal (MStr "Au")); ("Sample", NVal (MStr "A1"))] in
  sample_load text = Ok (YDict doc) /\ In "Sample" (map fst doc) /\ ~ In (upper "Sample") (map fst doc) /\
  read_path FILE_META_DATA_KEYS DATASET_META_DATA_KEYS sample_load [("data/gold.yml", text)] "data/gold.yml" = Raise KeyError.
Proof.
  set (doc := [("NAME", NVal (MStr "Au")); ("Sample", NVal (MStr "A1"))]). 
  assert (emittable doc) as He.
  { split; [cbn; repeat (constructor; [cbn; intuition discriminate|]); constructor|]. intros k l s key a Hk. cbn in Hk. intuition discriminate. }
  destruct (yaml_restores _ _ sample_library "" doc (or_introl eq_refl) He) as (d' & E & _).
  assert (sample_load (yaml_dump yaml_env doc) = Ok (YDict doc)) as E1.
  { unfold sample_load. change (yaml_dump yaml_env doc) with ("" ++ yaml_dump yaml_env doc)%string. rewrite last_of_block; [|now left|].
    - cbn [yaml_env yaml_dump]. unfold sample_dump. rewrite plain_round_trip. now rewrite restores by apply He.
    - intros X. destruct (plain_chars _ _ X) as [Y|[Y|Y]]; discriminate Y. }
  exists (yaml_dump yaml_env doc). cbv zeta. assert (~ In (upper "Sample") (map fst doc)) as HN by (cbn; intuition discriminate).
  assert (In "Sample" (map fst doc)) as HI by (cbn; tauto).
  split; [exact E1|]. split; [exact HI|]. split; [exact HN|].
  destruct (C47_lower_case_key FILE_META_DATA_KEYS DATASET_META_DATA_KEYS sample_load [("data/gold.yml", yaml_dump yaml_env doc)] "data/gold.yml" (yaml_dump yaml_env doc) doc "Sample" gold_yml eq_refl E1 HI HN) as (e & ER & HE).
  rewrite ER. f_equal. apply HE. intros n Hn. discriminate Hn.
Qed.
Example C47_ignored : read_path FILE_META_DATA_KEYS DATASET_META_DATA_KEYS (fun _ => Ok (YDict [("NAME", NVal (MStr "Au")); ("SAMPLE", NVal (MStr "A1"))])) [("data/gold.yml", "x")] "data/gold.yml" =
  read_path FILE_META_DATA_KEYS DATASET_META_DATA_KEYS (fun _ => Ok (YDict [("NAME", NVal (MStr "Au"))])) [("data/gold.yml", "x")] "data/gold.yml".
Proof.
  apply (C47_unknown_key_ignored _ _ _ _ [("data/gold.yml", "x")] "data/gold.yml" "x" [("NAME", NVal (MStr "Au"))] [] "SAMPLE" (NVal (MStr "A1")) gold_yml eq_refl (Permutation_refl _) eq_refl eq_refl eq_refl).
  - cbn. intuition discriminate.
  - intros q Hq [r E]. cbn in Hq. repeat (destruct Hq as [<-|Hq]; [discriminate E|]). destruct Hq.
  - intros q [<-|[]]. discriminate.
Qed.
Example C47_prefix_instance : exists fd, read_path FILE_META_DATA_KEYS DATASET_META_DATA_KEYS (fun _ => Ok (YDict [("NAMESPACE", NVal (MStr "optics"))])) [("data/gold.yml", "x")] "data/gold.yml" = Ok fd /\
  dget (fd_meta fd) "Name" = Some (MStr "optics").
Proof. apply (C47_prefix_key _ _ _ [("data/gold.yml", "x")] "data/gold.yml" "x" "NAMESPACE" (MStr "optics") "Name" gold_yml eq_refl (Permutation_refl _) eq_refl eq_refl); [cbn; tauto|reflexivity]. Qed.
(** a material of the user with the additional key "Sample": saved, then unreadable *)
Example C43_custom_key_instance : exists m ops, m_meta m = Some (gold_meta "gold" ++ [("Sample", MStr "A1")]) /\
  save_material yaml_env "data/gold.yml" m [] true false = (Ok tt, ops) /\
  read_path FILE_META_DATA_KEYS DATASET_META_DATA_KEYS sample_load (fs_run [] ops) "data/gold.yml" = Raise KeyError.
Proof.
  destruct (gold_exists "gold") as (m & b & b' & HT & T & U & T' & U' & HM & _). pose proof HT as (HN & HX & HR & HI).
  set (mc := mkMat (Some (gold_meta "gold" ++ [("Sample", MStr "A1")])) "nk" (m_real m) (m_imag m) None "wavelength" "nanometer").
  assert (tables_of mc b b' (xrows gold_n) (xrows gold_k)) as HTc by now repeat split.
  destruct gold_float as [F1 F2].
  assert (exists ops, save_material yaml_env "data/gold.yml" mc [] true false = (Ok tt, ops)) as [ops HS].
  { unfold save_material, mk_writer. rewrite (prepare_tables yaml_env mc _ b b' _ _ HTc eq_refl).
    rewrite (proj1 (collapse_share yaml_env sample_disp yaml_env_shows b b' _ _ F1 F2 ltac:(discriminate) eq_refl ltac:(cbn; lia)) (gold_share b b' ltac:(congruence) ltac:(congruence))).
    cbn [bind fst snd]. destruct (custom_saves yaml_env "data/gold.yml" (d_unit b) (d_type b) (numeric_to_string_table yaml_env (ND2 3 (beside (shown sample_disp (table_of (xrows gold_n))) (shown sample_disp (table_of (xrows gold_k)))))) gold_yml) as (ops & w' & E).
    exists ops. unfold set_together. rewrite E. reflexivity. }
  exists mc, ops. split; [reflexivity|]. split; [exact HS|]. assert (yaml_text "gold") as Ht by (apply yaml_text_dec; reflexivity).
  refine (C43_custom_key_refuted yaml_env sample_load "data/gold.yml" mc "gold" _ [] true false ops _ _ "Sample" gold_yml sample_library (Permutation_refl _) (Permutation_refl _) HS eq_refl eq_refl Ht _ _ _ _ _ (or_introl eq_refl)).
  - cbn. tauto.
  - intros q Hq. cbn in Hq. repeat (destruct Hq as [<-|Hq]; [first [now left|right; cbn; tauto]|]). destruct Hq.
  - cbn. intuition discriminate.
  - discriminate.
  - cbn. intuition discriminate.
Qed.
(** two tables of 400 rows *)
Example C69_merged_instance : exists m ops, save_material yaml_env "data/gold.yml" m [] true false = (Ok tt, ops) /\
  mk_material (read_path FILE_META_DATA_KEYS DATASET_META_DATA_KEYS sample_load (fs_run [] ops)) [("file_path", PStr "data/gold.yml")] = Raise ValueError.
Proof.
  set (l := map (fun i => (INR i, 1%R)) (seq 0 400)).
  assert (length l = 400%nat) as Hl by (unfold l; rewrite map_length, seq_length; reflexivity).
  assert (NoDup (map fst l)) as HN by (unfold l; rewrite map_map; cbn [fst]; apply FinFun.Injective_map_NoDup; [exact INR_eq|apply seq_NoDup]).
  assert (forall x, In x (concat (table_of (xrows l))) -> exists i, (i <= 400)%nat /\ x = Fin (INR i)) as HX.
  { intros x Hx. apply in_concat in Hx. destruct Hx as [r [Hr Hx]]. unfold table_of, xrows, l in Hr. rewrite !map_map in Hr. apply in_map_iff in Hr. destruct Hr as [i [<- Hi]]. apply in_seq in Hi.
    cbn [fst snd In] in Hx. destruct Hx as [<-|[<-|[]]]; [exists i|exists 1%nat]; (split; [lia|reflexivity]). }
  assert (forall i, (i <= 400)%nat -> 0 <= INR i <= 400) as HI by (intros i Hi; apply le_INR in Hi; pose proof (pos_INR i); replace (INR 400) with 400 in Hi by (rewrite INR_IZR_INZ; reflexivity); lra).
  assert (float_table (xrows l)) as Fl.
  { apply Forall_forall. intros p Hp. assert (forall x, In x (concat (table_of (xrows l))) -> float_range x) as G.
    { intros x Hx. destruct (HX x Hx) as (i & Hi & ->). specialize (HI i Hi). assert (10 ^ 3 <= 10 ^ 307) as P by (apply Rle_pow; [lra|lia]). unfold float_range, below. rewrite Rabs_right; lra. }
    destruct (table_in _ _ Hp). split; now apply G. }
  destruct (gold_parts l ltac:(lia) HN) as (b & E & T & U).
  set (m := mkMat (Some (gold_meta "gold")) "nk" (DInterp b (xrows l)) (DInterp b (xrows l)) None "wavelength" "nanometer").
  assert (tables_of m b b (xrows l) (xrows l)) as HT by (repeat split).
  assert (length (xrows l) = 400%nat) as Hx by (unfold xrows; now rewrite map_length).
  assert (share_grid sample_disp b b (xrows l) (xrows l)) as HS.
  { apply exact_share; [|reflexivity..]. intros all x Ha Hi. apply Ha in Hi. apply in_app_iff in Hi. assert (In x (concat (table_of (xrows l)))) as Hi' by tauto. destruct (HX x Hi') as (i & Hi2 & ->).
    specialize (HI i Hi2). apply sample_exact; [exists (Z.of_nat i * 10 ^ 8)%Z; rewrite mult_IZR, <- INR_IZR_INZ; change (IZR (10 ^ 8)) with (IZR 100000000); field|]. cbn [below]. rewrite Rabs_right; lra. }
  assert (yaml_text "gold") as Ht by (apply yaml_text_dec; reflexivity).
  exists m. refine (C69_large_merged_yaml yaml_env sample_disp sample_load "data/gold.yml" m "gold" _ [] b b _ _ [] true _ _ yaml_env_shows sample_library gold_yml (Permutation_refl _) (Permutation_refl _) eq_refl eq_refl Ht (gold_standard _) eq_refl HT Fl Fl _ eq_refl HS).
  rewrite Hx. lia.
Qed.

(** C43: with use_rii_aliases the file has the layout of refractiveindex.info: after the comment
    lines one document whose data sets have the keys type, wavelength_range, data and coefficients
    and no others *)
Theorem C43_rii_names : forall W yl path m fs ops,
  named path ".yml" -> yaml_library W yl -> save_material W path m fs true true = (Ok tt, ops) ->
  exists c doc sets, dget (fs_run fs ops) path = Some (c ++ yaml_dump W doc)%string /\ (c = "" \/ prefix_of "#" c) /\
    dget doc "DATA" = Some (NSeq sets) /\
    forall ds, In ds sets -> In "type" (map fst ds) /\ (In "data" (map fst ds) \/ In "wavelength_range" (map fst ds) /\ In "coefficients" (map fst ds)) /\
      forall k, In k (map fst ds) -> In k ["type"; "wavelength_range"; "data"; "coefficients"].
Proof. exact C43_rii_names_l. Qed.
Print Assumptions C43_rii_names.

(** C43: a metadata key of the user is written, but with the value of the key before it *)
Theorem C43_custom_value_refuted : forall W yl path m fs ic rii ops a q v' mid k v b,
  named path ".yml" -> yaml_library W yl -> save_material W path m fs ic rii = (Ok tt, ops) ->
  m_meta m = Some (a ++ (q, v') :: mid ++ (k, v) :: b) -> NoDup (map fst (a ++ (q, v') :: mid ++ (k, v) :: b)) ->
  In q ("Specification" :: header_keys) -> (forall x, In x (map fst mid) -> In x ["Alias"; "MetaComment"]) ->
  ~ In k (["Alias"; "MetaComment"; "Specification"; "Datasets"; "REFERENCES"; "AUTHOR"; "FULLNAME"; "NAME"; "COMMENTS"; "SPECS"; "DATA"] ++ header_keys) ->
  exists c doc, dget (fs_run fs ops) path = Some (c ++ yaml_dump W doc)%string /\ dget doc k = Some (NVal v').
Proof. exact C43_custom_value_refuted_l. Qed.
Print Assumptions C43_custom_value_refuted.

Example C43_custom_value_instance : let meta := gold_meta "gold" ++ [("SAMPLE", MStr "A7")] in
  exists a q v' mid, meta = a ++ (q, v') :: mid ++ [("SAMPLE", MStr "A7")] /\ NoDup (map fst meta) /\ In q ("Specification" :: header_keys) /\
    forall x, In x (map fst mid) -> In x ["Alias"; "MetaComment"].
Proof.
  cbv zeta. unfold gold_meta. cbn [app map fst].
  exists [("Reference", MStr "J. Doe, Opt. Lett. 1 (2000): 5"); ("Comment", MStr "room temperature"); ("Name", MStr "Au");
   ("FullName", MStr "Gold"); ("Author", MStr "J. Doe"); ("Alias", MStr ""); ("MetaComment", MStr "gold")], "Specification", (MMap []), [].
  split; [reflexivity|]. split; [repeat (constructor; [cbn; intuition discriminate|]); constructor|]. split; [now left|]. intros x [].
Qed.
