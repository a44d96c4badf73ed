(** Theorems about text files: metadata (C37-C39), tables (C41, C42, C69). *)
From Verif Require Import PyBase PyStr XReal CNum TextModel TextSpec TextProofs TableProofs SpectrumModel SpectrumSpec SpectralModel SpectralSpec SpectralThms MaterialModel MaterialSpec MaterialProofs MatFileProofs FileModel ReaderModel WriterModel IOSpec LineProofs FmtProofs TextFileProofs DisplayProofs SaveProofs PathProofs CycleProofs OrderProofs ExportProofs ShowsProofs IOExamples.
From Flocq Require Import Core.
From Coq Require Import Permutation.
From Verif Require Import TextFileThms.
Open Scope R_scope.
Open Scope string_scope.
Open Scope list_scope.

(** C37: the header of a saved text file is read back: the five metadata entries, the spectrum
    type, the unit and the data type of the first data set of the Writer *)
Theorem C37_header_survives : forall W path m meta fs ic rii ops fk dk yl,
  text_file path -> m_meta m = Some meta -> header_ready W m -> (forall c, comment_of m c -> unix_text c) ->
  Permutation FILE_META_DATA_KEYS fk -> Permutation DATASET_META_DATA_KEYS dk ->
  save_material W path m fs ic rii = (Ok tt, ops) ->
  exists fd d b rows w first rest dt,
    read_path fk dk yl (fs_run fs ops) path = Ok fd /\ fd_sets fd = [d] /\
    (forall key v, In key header_keys -> dget meta key = Some v -> dget (fd_meta fd) key = Some (MStr (format_val W v))) /\
    m_real m = DInterp b rows /\ ds_stype d = DStr (d_type b) /\ ds_unit d = DStr (d_unit b) /\
    mk_writer W path m = Ok w /\ w_sets w = first :: rest /\ dget first "DataType" = Some (DStr dt) /\ ds_type d = DStr dt.
Proof. exact C37_header_survives_l. Qed.
Print Assumptions C37_header_survives.

(** C37: the same for a whole material: after saving and loading, each of the five entries is the
    text of the old one; a missing one is empty *)
Theorem C37_material_cycle : forall W path m m' c meta meta' key,
  text_file path -> header_ready W m -> comment_of m c -> unix_text c -> plain_comment c ->
  file_cycle W path m m' -> m_meta m = Some meta -> m_meta m' = Some meta' -> In key header_keys ->
  dget meta' key = Some (MStr (match dget meta key with Some v => format_val W v | None => "" end)).
Proof. exact C37_material_cycle_l. Qed.
Print Assumptions C37_material_cycle.

(** C37: any number of cycles *)
Theorem C37_any_cycles : forall W path n m m' c meta meta' key s,
  text_file path -> header_ready W m -> comment_of m c -> unix_text c -> plain_comment c ->
  file_cycles W path n m m' -> m_meta m = Some meta -> m_meta m' = Some meta' -> In key header_keys ->
  dget meta key = Some (MStr s) -> dget meta' key = Some (MStr s).
Proof. exact C37_any_cycles_l. Qed.
Print Assumptions C37_any_cycles.

(** C38: the iteration orders of the keyword sets do not matter *)
Theorem C38_order_independent : forall fk dk fk' dk' yl fs path,
  Permutation FILE_META_DATA_KEYS fk -> Permutation DATASET_META_DATA_KEYS dk ->
  Permutation FILE_META_DATA_KEYS fk' -> Permutation DATASET_META_DATA_KEYS dk' ->
  same_reading (read_path fk dk yl fs path) (read_path fk' dk' yl fs path).
Proof. exact C38_order_independent_l. Qed.
Print Assumptions C38_order_independent.

(** C38: ... also for a Reader that has been used before (equal metadata and data sets) *)
Theorem C38_order_independent_reuse : forall fk dk fk' dk' yl ext meta meta' sets text,
  Permutation FILE_META_DATA_KEYS fk -> Permutation DATASET_META_DATA_KEYS dk ->
  Permutation FILE_META_DATA_KEYS fk' -> Permutation DATASET_META_DATA_KEYS dk' -> same_lookups meta meta' ->
  same_reading (fst (read_file fk dk yl (mkReader ext meta sets) text)) (fst (read_file fk' dk' yl (mkReader ext meta' sets) text)).
Proof. exact C38_order_independent_reuse_l. Qed.
Print Assumptions C38_order_independent_reuse.

(** C39: what one cycle does to the meta comment *)
Theorem C39_one_cycle : forall W path m m' c,
  text_file path -> header_ready W m -> comment_of m c -> unix_text c -> plain_comment c -> file_cycle W path m m' ->
  exists c', after_text_cycle c c' /\ comment_of m' c'.
Proof. exact C39_one_cycle_l. Qed.
Print Assumptions C39_one_cycle.

(** C39: n+1 cycles give the comment after the first one and n further lines made of one blank *)
Theorem C39_many_cycles : forall W path n m m' c,
  text_file path -> header_ready W m -> comment_of m c -> unix_text c -> plain_comment c -> file_cycles W path (S n) m m' ->
  exists c1, after_text_cycle c c1 /\ comment_of m' (c1 ++ rep_str n (" " ++ NL))%string.
Proof. exact C39_many_cycles_l. Qed.
Print Assumptions C39_many_cycles.

(** C39: so no comment survives a cycle unchanged *)
Theorem C39_comment_changes_refuted : forall W path m m' c,
  text_file path -> header_ready W m -> comment_of m c -> unix_text c -> plain_comment c -> file_cycle W path m m' ->
  ~ comment_of m' c.
Proof. exact C39_comment_changes_refuted_l. Qed.
Print Assumptions C39_comment_changes_refuted.

(** C41: two tables on a common grid (as displayed) are saved as one data set and read back with
    every entry displayed (twice: for the comparison and for the file) and rounded to 8 decimals *)
Theorem C41_tables_read_back : forall W disp path m c b b' n k fs ic rii fk dk yl,
  shows W disp -> text_file path -> header_ready W m -> comment_of m c -> unix_text c ->
  tables_of m b b' n k -> float_table n -> float_table k -> (2 <= length n <= 333)%nat -> length k = length n ->
  share_grid disp b b' n k -> Permutation FILE_META_DATA_KEYS fk -> Permutation DATASET_META_DATA_KEYS dk ->
  exists ops fd d, save_material W path m fs ic rii = (Ok tt, ops) /\
    read_path fk dk yl (fs_run fs ops) path = Ok fd /\ fd_sets fd = [d] /\ ds_type d = DStr "tabulated nk" /\
    ds_data d = DArr (ND2 3 (rounded8 (shown disp (beside (shown disp (table_of n)) (shown disp (table_of k)))))).
Proof. exact C41_tables_read_back_l. Qed.
Print Assumptions C41_tables_read_back.

(** C41: the material loaded again holds tables whose entries differ by less than 2e-8 (relative
    above 1); infinities and NaN are kept *)
Theorem C41_material_cycle : forall W disp path m m' c b b' n k,
  shows W disp -> text_file path -> header_ready W m -> comment_of m c -> unix_text c ->
  tables_of m b b' n k -> float_table n -> float_table k -> (2 <= length n <= 333)%nat -> length k = length n ->
  share_grid disp b b' n k -> file_cycle W path m m' ->
  exists b1 b1' n' k', tables_of m' b1 b1' n' k' /\ near_table (2 / 10 ^ 8) n n' /\ near_values (2 / 10 ^ 8) k k' /\
    map fst k' = map fst n' /\ (d_type b <> "" -> d_type b1 = d_type b /\ d_type b1' = d_type b) /\
    (d_unit b <> "" -> d_unit b1 = d_unit b /\ d_unit b1' = d_unit b).
Proof. exact C41_material_cycle_l. Qed.
Print Assumptions C41_material_cycle.

(** C41: nothing is lost when all entries have at most 8 decimals and numpy displays them exactly *)
Theorem C41_exact : forall W disp path m c b b' n k fs ic rii fk dk yl,
  shows W disp -> text_file path -> header_ready W m -> comment_of m c -> unix_text c ->
  tables_of m b b' n k -> float_table n -> float_table k -> (2 <= length n <= 333)%nat ->
  map fst k = map fst n -> Forall (fun p => fst p <> NaN) n -> d_unit b = d_unit b' -> d_type b = d_type b' ->
  Forall decimal8 (concat (table_of n) ++ concat (table_of k)) ->
  (forall all x, incl all (concat (table_of n) ++ concat (table_of k)) -> In x all -> disp all x = x) ->
  Permutation FILE_META_DATA_KEYS fk -> Permutation DATASET_META_DATA_KEYS dk ->
  exists ops fd d, save_material W path m fs ic rii = (Ok tt, ops) /\
    read_path fk dk yl (fs_run fs ops) path = Ok fd /\ fd_sets fd = [d] /\ ds_type d = DStr "tabulated nk" /\
    ds_data d = DArr (ND2 3 (map (fun p => [fst (fst p); snd (fst p); snd (snd p)]) (combine n k))).
Proof. exact C41_exact_l. Qed.
Print Assumptions C41_exact.

(** C41: numbers with at most 8 decimals, displayed exactly: the material can be saved and loaded
    again, and the loaded one has the same tables *)
Theorem C41_cycle_exact : forall W disp path m c b b' l q fs ic rii fk dk yl canon,
  shows W disp -> text_file path -> header_ready W m -> comment_of m c -> unix_text c ->
  tables_of m b b' (xrows l) (xrows q) -> float_table (xrows l) -> float_table (xrows q) -> (2 <= length l <= 333)%nat ->
  map fst q = map fst l -> NoDup (map fst l) -> d_unit b = d_unit b' -> d_type b = d_type b' ->
  documented (lower (d_type b)) (lower (d_unit b)) canon -> d_type b <> "" -> d_unit b <> "" ->
  Forall decimal8 (concat (table_of (xrows l)) ++ concat (table_of (xrows q))) ->
  (forall all x, incl all (concat (table_of (xrows l)) ++ concat (table_of (xrows q))) -> In x all -> disp all x = x) ->
  Permutation FILE_META_DATA_KEYS fk -> Permutation DATASET_META_DATA_KEYS dk ->
  exists ops m' b1 b1', save_material W path m fs ic rii = (Ok tt, ops) /\
    mk_material (read_path fk dk yl (fs_run fs ops)) [("file_path", PStr path)] = Ok m' /\
    tables_of m' b1 b1' (xrows l) (xrows q) /\
    d_type b1 = d_type b /\ d_unit b1 = d_unit b /\ d_type b1' = d_type b /\ d_unit b1' = d_unit b /\
    m_stype m' = d_type b /\ m_unit m' = d_unit b.
Proof. exact C41_cycle_exact_l. Qed.
Print Assumptions C41_cycle_exact.

(** C41: when the tables do not share grid, unit and type, or k is no table, only the n table is in
    the file: the loaded material has k = 0 everywhere *)
Theorem C41_k_lost : forall W disp path m m' c b n,
  shows W disp -> text_file path -> header_ready W m -> comment_of m c -> unix_text c ->
  m_name m = "nk" -> m_complex m = None -> m_real m = DInterp b n -> float_table n -> (2 <= length n <= 500)%nat ->
  ((exists b' k, m_imag m = DInterp b' k /\ float_table k /\ length k = length n /\ ~ share_grid disp b b' n k) \/
   (exists b' v, m_imag m = DConst b' v) \/ (exists b' kd ps, m_imag m = DModel b' kd ps)) ->
  file_cycle W path m m' ->
  exists b1 n', m_real m' = DInterp b1 n' /\ near_table (2 / 10 ^ 8) n n' /\ constant_default (ORe (Fin 0)) = Ok (m_imag m').
Proof. exact C41_k_lost_l. Qed.
Print Assumptions C41_k_lost.

(** C41: a material in metres with a grid finer than 10 nm can be saved, but not loaded again: the
    grid points collapse *)
Theorem C41_metre_grid_refuted : exists W disp m b l,
  shows W disp /\ mk_interpolation (xrows l) "wavelength" "m" = Ok (DInterp b (xrows l)) /\
  tables_of m b b (xrows l) (xrows l) /\ header_ready W m /\ comment_of m "" /\
  forall path fs ic rii fk dk yl, text_file path ->
    Permutation FILE_META_DATA_KEYS fk -> Permutation DATASET_META_DATA_KEYS dk ->
    exists ops, save_material W path m fs ic rii = (Ok tt, ops) /\
      mk_material (read_path fk dk yl (fs_run fs ops)) [("file_path", PStr path)] = Raise ValueError.
Proof. exact C41_metre_grid_refuted_l. Qed.
Print Assumptions C41_metre_grid_refuted.

(** C41: a text file with a single data row is read, but the array read has no rows: no Material
    can be made from it (IndexError) *)
Theorem C41_one_row_refuted : forall path delim fs st un dt row fk dk yl,
  (named path ".txt" /\ delim = TAB) \/ (named path ".csv" /\ delim = ",") -> header_value st -> header_value un -> In dt ["tabulated n"; "tabulated nk"] -> row <> [] ->
  Permutation FILE_META_DATA_KEYS fk -> Permutation DATASET_META_DATA_KEYS dk ->
  dget fs path = Some (savetxt delim
    ("SPECTRUMTYPE: " ++ st ++ NL ++ "UNIT: " ++ un ++ NL ++ "DATATYPE: " ++ dt ++ NL)%string (ND2 (length row) [row])) ->
  (exists fd d, read_path fk dk yl fs path = Ok fd /\ fd_sets fd = [d] /\ ds_type d = DStr dt /\ ds_data d = DArr (ND1 (map (xround 8) row))) /\
  mk_material (read_path fk dk yl fs) [("file_path", PStr path)] = Raise IndexError.
Proof. exact C41_one_row_refuted_l. Qed.
Print Assumptions C41_one_row_refuted.

(** C42: what a Writer holds for two tables of equal length *)
Theorem C42_merged_or_apart : forall W disp path m meta b b' n k,
  shows W disp -> m_meta m = Some meta -> tables_of m b b' n k -> float_table n -> float_table k ->
  (1 <= length n <= 500)%nat -> length k = length n ->
  exists w, mk_writer W path m = Ok w /\
    (share_grid disp b b' n k -> (length n <= 333)%nat -> exists s, w_sets w = [s] /\
       holds_table s "tabulated nk" (d_unit b) (d_type b) 3 (shown disp (beside (shown disp (table_of n)) (shown disp (table_of k))))) /\
    (~ share_grid disp b b' n k -> exists s t, w_sets w = [s; t] /\
       holds_table s "tabulated n" (d_unit b) (d_type b) 2 (shown disp (table_of n)) /\
       holds_table t "tabulated k" (d_unit b') (d_type b') 2 (shown disp (table_of k))).
Proof. exact C42_merged_or_apart_l. Qed.
Print Assumptions C42_merged_or_apart.

(** C42: merged exactly when grid (as displayed), unit and type are equal *)
Theorem C42_merged_iff : forall W disp path m meta b b' n k w,
  shows W disp -> m_meta m = Some meta -> tables_of m b b' n k -> float_table n -> float_table k ->
  (1 <= length n <= 500)%nat -> length k = length n -> mk_writer W path m = Ok w ->
  (length (w_sets w) = 1%nat <-> share_grid disp b b' n k).
Proof. exact C42_merged_iff_l. Qed.
Print Assumptions C42_merged_iff.

(** C42: tables of different length are never merged: numpy either calls the grids different or
    raises, and then no Writer can be made *)
Theorem C42_different_length : forall W disp path m meta b b' n k,
  shows W disp -> m_meta m = Some meta -> tables_of m b b' n k -> float_table n -> float_table k ->
  (1 <= length n <= 500)%nat -> (1 <= length k <= 500)%nat -> length k <> length n ->
  match ragged_eq W with
  | Ok false => exists w s t, mk_writer W path m = Ok w /\ w_sets w = [s; t] /\
       holds_table s "tabulated n" (d_unit b) (d_type b) 2 (shown disp (table_of n)) /\
       holds_table t "tabulated k" (d_unit b') (d_type b') 2 (shown disp (table_of k))
  | Ok true => True
  | Raise e => mk_writer W path m = Raise e
  end.
Proof. exact C42_different_length_l. Qed.
Print Assumptions C42_different_length.

(** C42: when k is a constant or a model both data sets are written, the table first *)
Theorem C42_k_no_table : forall W disp path m meta b n,
  shows W disp -> m_meta m = Some meta -> m_name m = "nk" -> m_complex m = None -> m_real m = DInterp b n ->
  float_table n -> (1 <= length n <= 500)%nat ->
  ((exists b' v, m_imag m = DConst b' v) \/ (exists b' kd ps, m_imag m = DModel b' kd ps)) ->
  exists w s t, mk_writer W path m = Ok w /\ w_sets w = [s; t] /\
    holds_table s "tabulated n" (d_unit b) (d_type b) 2 (shown disp (table_of n)) /\
    dget t "Unit" = Some (DStr (d_unit (dbase_of (m_imag m)))) /\ dget t "SpectrumType" = Some (DStr (d_type (dbase_of (m_imag m)))) /\
    (forall b' v, m_imag m = DConst b' v -> dget t "DataType" = Some (DStr "constant k")) /\
    (forall b' kd ps, m_imag m = DModel b' kd ps -> dget t "DataType" = Some (DStr ("model " ++ model_name kd)%string) /\
       dget t "Parameters" = Some (DStr (numeric_to_string_table W (ND1 ps)))).
Proof. exact C42_k_no_table_l. Qed.
Print Assumptions C42_k_no_table.

(** C69: an n/k material with a table of more than 500 rows cannot be saved: ValueError, and the
    file system is untouched *)
Theorem C69_large_tables_raise : forall W disp path m meta b b' n k fs ic rii,
  shows W disp -> m_meta m = Some meta -> tables_of m b b' n k -> float_table n -> float_table k ->
  (500 < length n \/ (1 <= length n <= 500 /\ 500 < length k))%nat ->
  save_material W path m fs ic rii = (Raise ValueError, []).
Proof. exact C69_large_tables_raise_l. Qed.
Print Assumptions C69_large_tables_raise.

(** C69: two tables of 334 to 500 rows that share the grid: the merged data set holds no table *)
Theorem C69_large_merged : forall W disp path m meta b b' n k w,
  shows W disp -> m_meta m = Some meta -> tables_of m b b' n k -> float_table n -> float_table k ->
  (333 < length n <= 500)%nat -> length k = length n -> share_grid disp b b' n k -> mk_writer W path m = Ok w ->
  exists s, w_sets w = [s] /\ holds_no_table s.
Proof. exact C69_large_merged_l. Qed.
Print Assumptions C69_large_merged.

(** C69: so saving them to a text file raises ValueError and leaves the file system alone *)
Theorem C69_large_merged_text : forall W disp path m c b b' n k fs ic rii,
  shows W disp -> text_file path -> comment_of m c -> tables_of m b b' n k -> float_table n -> float_table k ->
  (333 < length n <= 500)%nat -> length k = length n -> share_grid disp b b' n k ->
  save_material W path m fs ic rii = (Raise ValueError, []).
Proof. exact C69_large_merged_text_l. Qed.
Print Assumptions C69_large_merged_text.

(** C69: eps tables are not parsed while a Writer is made: beyond 500 rows the Writer holds no table *)
Theorem C69_large_eps : forall W disp path m meta b n w,
  shows W disp -> m_meta m = Some meta -> m_name m = "eps" -> m_real m = DInterp b n ->
  float_table n -> (500 < length n)%nat -> mk_writer W path m = Ok w ->
  exists s rest, w_sets w = s :: rest /\ holds_no_table s.
Proof. exact C69_large_eps_l. Qed.
Print Assumptions C69_large_eps.

(** the hypotheses of C37, C39 and C41 hold for a material with two tables, any number of times *)
Example C37_instance : exists m m', text_file "data/gold.txt" /\ header_ready sample_env m /\
  comment_of m "measured by ellipsometry" /\ unix_text "measured by ellipsometry" /\ plain_comment "measured by ellipsometry" /\
  m_meta m = Some (gold_meta "measured by ellipsometry") /\ file_cycles sample_env "data/gold.txt" 7 m m'.
Proof.
  assert (plain_comment "measured by ellipsometry") as Hp by (apply plain_dec; cbn; intuition discriminate).
  destruct (gold_many 7 "measured by ellipsometry" (unix_dec "measured by ellipsometry" eq_refl) Hp) as (m & m' & _ & H1 & H2 & H3 & H4).
  exists m, m'. split; [apply gold_text_file|]. split; [exact H1|]. split; [exact H2|]. split; [now apply unix_dec|]. split; [exact Hp|]. now split.
Qed.
(** hence the reference, which contains colons, survives seven cycles *)
Example C37_seven_cycles : exists m m', file_cycles sample_env "data/gold.txt" 7 m m' /\
  exists meta', m_meta m' = Some meta' /\ dget meta' "Reference" = Some (MStr "J. Doe, Opt. Lett. 1 (2000): 5").
Proof.
  destruct C37_instance as (m & m' & H1 & H2 & H3 & H4 & H5 & H6 & H7). exists m, m'. split; [exact H7|].
  destruct (C39_many_cycles _ _ 6 m m' _ H1 H2 H3 H4 H5 H7) as (c1 & _ & meta' & E & _). exists meta'. split; [exact E|].
  eapply (C37_any_cycles _ _ 7 m m'); try eassumption; [now left|reflexivity].
Qed.
Example C38_instance : Permutation FILE_META_DATA_KEYS (rev FILE_META_DATA_KEYS) /\ Permutation DATASET_META_DATA_KEYS (rev DATASET_META_DATA_KEYS) /\
  exists fd, read_path (rev FILE_META_DATA_KEYS) (rev DATASET_META_DATA_KEYS) (fun _ => Raise GenericException)
    [("a.txt", ("# Name: Gold" ++ NL ++ "1.0 2.0" ++ NL ++ "2.0 3.0" ++ NL)%string)] "a.txt" = Ok fd /\ dget (fd_meta fd) "Name" = Some (MStr "Gold").
Proof. split; [apply Permutation_rev|]. split; [apply Permutation_rev|]. eexists. split; vm_compute; reflexivity. Qed.
(** the comment after three cycles *)
Example C39_instance : exists m m', file_cycles sample_env "data/gold.txt" 3 m m' /\ comment_of m "film" /\
  comment_of m' ("film" ++ NL ++ " " ++ NL ++ " " ++ NL ++ " " ++ NL)%string.
Proof.
  assert (plain_comment "film") as Hp by (apply plain_dec; cbn; intuition discriminate).
  destruct (gold_many 3 "film" (unix_dec "film" eq_refl) Hp) as (m & m' & _ & H1 & H2 & H3 & H4).
  exists m, m'. split; [exact H4|]. split; [exact H2|].
  destruct (C39_many_cycles sample_env _ 2 m m' "film" gold_text_file H1 H2 (unix_dec "film" eq_refl) Hp H4) as (c1 & A & B).
  destruct A as [[A _]|[_ (t & T & ->)]]; [discriminate A|].
  assert (t = "film"%string) as ->; [|exact B].
  apply trimmed_iff in T. vm_compute in T. now symmetry.
Qed.
Example C41_instance : exists m b b', shows sample_env sample_disp /\ header_ready sample_env m /\ comment_of m "film" /\ unix_text "film" /\
  tables_of m b b' (xrows gold_n) (xrows gold_k) /\ float_table (xrows gold_n) /\ float_table (xrows gold_k) /\
  share_grid sample_disp b b' (xrows gold_n) (xrows gold_k) /\
  Forall decimal8 (concat (table_of (xrows gold_n)) ++ concat (table_of (xrows gold_k))) /\
  (forall all x, incl all (concat (table_of (xrows gold_n)) ++ concat (table_of (xrows gold_k))) -> In x all -> sample_disp all x = x) /\
  exists m', file_cycle sample_env "data/gold.txt" m m'.
Proof.
  destruct (gold_exists "film") as (m & b & b' & HT & T & U & T' & U' & HM & HH).
  assert (comment_of m "film") as HC by (exists (gold_meta "film"); split; [exact HM|reflexivity]).
  assert (plain_comment "film") as Hp by (apply plain_dec; cbn; intuition discriminate).
  destruct (gold_one m "film") as (m' & FC & _); [now exists b, b'|apply HH|exact HC|now apply unix_dec|exact Hp|].
  exists m, b, b'. split; [apply sample_shows|]. split; [apply HH|]. split; [exact HC|]. split; [now apply unix_dec|]. split; [exact HT|].
  split; [apply gold_float|]. split; [apply gold_float|]. split; [apply gold_share; congruence|]. split; [apply gold_decimal|]. split; [apply gold_display|].
  now exists m'.
Qed.
(** tables that do not share the grid, and a constant k *)
Example C42_instance : exists b b', ~ share_grid sample_disp b b' (xrows gold_n) (xrows fine_n) /\
  exists d, constant_default (ORe (Fin 0)) = Ok d /\ (exists b1 v, d = DConst b1 v).
Proof.
  destruct (gold_exists "") as (m & b & b' & _ & T & U & _). 
  destruct (gold_parts gold_n ltac:(cbn; lia) gold_n_nodup) as (b1 & _ & _).
  exists b, b'. split.
  - intros [G _]. rewrite fine_shown in G. rewrite shown_table in G. cbn [gold_n xrows map fst snd grid nth fine_read table_of] in G. apply Forall2_cons_inv_l in G.
    destruct G as (y & r & E & [Q _] & _). injection E as <- _.
    rewrite sample_round in Q by (rewrite Rabs_right; lra). injection Q as Q. rewrite (round_dec_exact 8 400 40000000000) in Q by lra. lra.
  - destruct (constant_default (ORe (Fin 0))) as [d|e] eqn:E.
    + exists d. split; [reflexivity|]. unfold constant_default, mk_constant in E. destruct (mk_base _ _ _) as [bb|] eqn:E2; [|discriminate].
      injection E as <-. now exists bb, (ORe (Fin 0)).
    + exfalso. revert E. rcv. discriminate.
Qed.
(** a table with 501 rows, and two with 400 rows *)
Example C69_instance : exists m b meta, m_meta m = Some meta /\ tables_of m b b (xrows (map (fun i => (INR i, 1%R)) (seq 0 501))) (xrows (map (fun i => (INR i, 1%R)) (seq 0 501))) /\
  float_table (xrows (map (fun i => (INR i, 1%R)) (seq 0 501))) /\ (500 < length (xrows (map (fun i => (INR i, 1%R)) (seq 0 501))))%nat.
Proof.
  destruct (gold_parts (map (fun i => (INR i, 1%R)) (seq 0 501))) as (b & E & _).
  - rewrite map_length, seq_length. lia.
  - rewrite map_map. cbn [fst]. apply FinFun.Injective_map_NoDup; [exact INR_eq|apply seq_NoDup].
  - eexists (mkMat (Some default_meta) "nk" (DInterp b _) (DInterp b _) None "wavelength" "nanometer"), b, default_meta.
    split; [reflexivity|]. split; [repeat split|]. split; [|unfold xrows; rewrite !map_length, seq_length; lia].
    unfold xrows. rewrite map_map. apply Forall_map, Forall_forall. intros i Hi. apply in_seq in Hi. unfold float_range, below. cbn [fst snd].
    assert (10 ^ 3 <= 10 ^ 307) as P by (apply Rle_pow; [lra|lia]).
    assert (INR i <= 501) by (replace 501 with (INR 501) by (rewrite INR_IZR_INZ; reflexivity); apply le_INR; lia). pose proof (pos_INR i).
    split; rewrite Rabs_right; lra.
Qed.
Example C69_merged_instance : exists b n, (333 < length n <= 500)%nat /\ float_table n /\ share_grid sample_disp b b n n.
Proof.
  exists (mkBase "wavelength" "nanometer" (mkSp "wavelength" "nm" (VA []) (VA []))), (repeat (Fin 1, Fin 2) 400).
  split; [rewrite repeat_length; lia|]. split.
  - apply Forall_forall. intros p Hp. apply repeat_spec in Hp. subst p. unfold float_range, below. cbn [fst snd].
    assert (10 ^ 3 <= 10 ^ 307) as P by (apply Rle_pow; [lra|lia]). split; rewrite Rabs_right; lra.
  - split; [|now split]. rewrite shown_table. generalize (concat (table_of (repeat (Fin 1, Fin 2) 400))). intros all. unfold grid. rewrite map_map. cbn [nth].
    assert (forall l : list (xr * xr), Forall (fun p => p = (Fin 1, Fin 2)) l -> Forall2 same_number (map (fun x => sample_disp all (fst x)) l) (map (fun x => sample_disp all (fst x)) l)) as G.
    { induction 1 as [|p l -> _ IH]; cbn [map]; constructor; [|exact IH]. cbn [fst]. rewrite sample_round by (rewrite Rabs_right; lra). split; [reflexivity|discriminate]. }
    apply G. apply Forall_forall. intros p Hp. now apply repeat_spec in Hp.
Qed.
