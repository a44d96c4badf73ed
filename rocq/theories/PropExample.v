(** Theorems about the example files that the setup script writes (C91). *)
From Verif Require Import PyBase PyStr XReal CNum TextModel SpectrumModel SpectrumSpec SpectralModel SpectralSpec SpectralThms MaterialModel MaterialSpec MaterialProofs FileModel ReaderModel WriterModel PathModel IOSpec SaveSpec SaveProofs ShowsProofs CycleProofs DisplayProofs ExportProofs IOExamples SaveThms TextFileThms YamlSpec YamlDataProofs YamlThms ExampleModel ExampleSpec.
From Coq Require Import Permutation.
From Verif Require Import ExampleThms.
Open Scope R_scope.
Open Scope string_scope.
Open Scope list_scope.

(** C91: the example files can be written into every folder; both load afterwards and hold the
    numbers and texts of the script, under every name but the two nothing changes *)
Theorem C91_examples_load : forall W disp yl dir fs fk dk,
  shows W disp -> yaml_library W yl -> Permutation FILE_META_DATA_KEYS fk -> Permutation DATASET_META_DATA_KEYS dk ->
  (forall all x, incl all (concat (table_of (xrows table_n)) ++ concat (table_of (xrows table_k))) -> In x all -> disp all x = x) ->
  let txt := path_join dir "example_file.txt" in let yml := path_join dir "example_file2.yml" in
  exists ops m m', make_examples W dir fs = (Ok tt, ops) /\
    (mk_material (read_path fk dk yl (fs_run fs ops)) [("file_path", PStr txt)] = Ok m /\ described_as m /\
     exists b b', tables_of m b b' (xrows table_n) (xrows table_k) /\
       d_type b = "wavelength" /\ d_unit b = "nanometer" /\ d_type b' = "wavelength" /\ d_unit b' = "nanometer" /\
       m_stype m = "wavelength" /\ m_unit m = "nanometer") /\
    (mk_material (read_path fk dk yl (fs_run fs ops)) [("file_path", PStr yml)] = Ok m' /\ described_as m' /\
     m_name m' = "nk" /\ m_complex m' = None /\
     (exists b ps, m_real m' = DModel b Sellmeier ps /\ Forall2 shown_near (map Fin coefficients) ps /\
        Forall2 shown_near (map Fin covered) (elems (sp_values (d_range b))) /\ d_type b = "wavelength" /\ d_unit b = "micrometer") /\
     (exists b rows, m_imag m' = DInterp b rows /\ near_table (5 / 10 ^ 9) (xrows table_k) rows /\ d_type b = "wavelength" /\ d_unit b = "nm") /\
     m_stype m' = "wavelength" /\ m_unit m' = "nm") /\
    (forall p, p <> txt -> p <> yml -> dget (fs_run fs ops) p = dget fs p).
Proof. exact C91_examples_load_l. Qed.
Print Assumptions C91_examples_load.

(** C91: but neither comes back with the comment of the script *)
Theorem C91_comment_refuted : forall W disp yl dir fs fk dk ops m m',
  shows W disp -> yaml_library W yl -> Permutation FILE_META_DATA_KEYS fk -> Permutation DATASET_META_DATA_KEYS dk ->
  make_examples W dir fs = (Ok tt, ops) ->
  mk_material (read_path fk dk yl (fs_run fs ops)) [("file_path", PStr (path_join dir "example_file.txt"))] = Ok m ->
  mk_material (read_path fk dk yl (fs_run fs ops)) [("file_path", PStr (path_join dir "example_file2.yml"))] = Ok m' ->
  ~ comment_of m example_comment /\ ~ comment_of m' example_comment.
Proof. exact C91_comment_refuted_l. Qed.
Print Assumptions C91_comment_refuted.

From Verif Require Import YamlCodec YamlSample.
(** the hypotheses hold: an environment, a yaml library; files in two folders *)
Example C91_instance : exists ops m m',
  make_examples yaml_env "/home/user/UserData" [("/home/user/notes.txt", "mine")] = (Ok tt, ops) /\
  mk_material (read_path FILE_META_DATA_KEYS DATASET_META_DATA_KEYS sample_load (fs_run [("/home/user/notes.txt", "mine")] ops))
    [("file_path", PStr "/home/user/UserData/example_file.txt")] = Ok m /\ described_as m /\
  mk_material (read_path FILE_META_DATA_KEYS DATASET_META_DATA_KEYS sample_load (fs_run [("/home/user/notes.txt", "mine")] ops))
    [("file_path", PStr "/home/user/UserData/example_file2.yml")] = Ok m' /\ described_as m' /\
  dget (fs_run [("/home/user/notes.txt", "mine")] ops) "/home/user/notes.txt" = Some "mine" /\ ~ comment_of m' example_comment.
Proof.
  destruct (C91_examples_load yaml_env sample_disp sample_load "/home/user/UserData" [("/home/user/notes.txt", "mine")] FILE_META_DATA_KEYS DATASET_META_DATA_KEYS
    yaml_env_shows sample_library (Permutation_refl _) (Permutation_refl _) example_display) as (ops & m & m' & S & (L1 & D1 & _) & (L2 & D2 & _) & O).
  exists ops, m, m'. split; [exact S|]. split; [exact L1|]. split; [exact D1|]. split; [exact L2|]. split; [exact D2|]. split; [rewrite O by discriminate; reflexivity|].
  exact (proj2 (C91_comment_refuted yaml_env sample_disp sample_load _ _ _ _ ops m m' yaml_env_shows sample_library (Permutation_refl _) (Permutation_refl _) S L1 L2)).
Qed.
