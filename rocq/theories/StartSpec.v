(** Notions used in the statements about the first use of the package (C95): setting it up, opening
    the catalogue, loading the materials *)
From Verif Require Import PyBase PyStr XReal CNum SpectrumModel SpectrumSpec SpectralModel SpectralSpec TextModel MaterialModel MaterialSpec FileModel ReaderModel WriterModel PathModel ConfigModel CatalogueModel CatalogueSpec IOSpec SaveSpec YamlSpec CsvModel CsvSpec DiskModel SetupModel SetupSpec ExampleSpec ListedSpec StartModel.
From Coq Require Import Permutation.
Open Scope R_scope.
Open Scope string_scope.
Open Scope list_scope.

(** what the libraries and the operating system are expected to do: numpy shows numbers readably
    (and the few numbers of the example table exactly), the yaml library restores what it emits,
    pandas reads the numbers it writes, temporary directories are new, and os.listdir gives each
    entry of a directory once, in any order *)
Record machine_ok (M : machine) (disp : list xr -> xr -> xr) : Prop := mkMachineOk {
  ok_numpy : shows (mc_write M) disp;
  ok_numbers : forall all x, incl all (concat (table_of (xrows table_n)) ++ concat (table_of (xrows table_k))) -> In x all -> disp all x = x;
  ok_yaml : yaml_library (mc_write M) (mc_material M);
  ok_files : Permutation FILE_META_DATA_KEYS (mc_files M);
  ok_sets : Permutation DATASET_META_DATA_KEYS (mc_sets M);
  ok_config : forall path name rii, mc_config M (mc_dump M (setup_result path name rii)) = Ok (setup_result path name rii);
  ok_csv : csv_ok (mc_csv M);
  ok_temp : forall fs, exists t, Forall os_name t /\ t <> [] /\ mc_temp M fs = abs_path t /\ fresh_dir fs (abs_path t);
  ok_listdir : forall fs l, Forall os_name l -> is_dir fs l ->
    NoDup (mc_listdir M fs (abs_path l)) /\
    forall n, In n (mc_listdir M fs (abs_path l)) <-> os_name n /\ (is_dir fs (l ++ [n]) \/ exists text, is_file fs (l ++ [n]) text)
}.

(** nothing is in the way of what the setup script writes: the two example files, the configuration
    of the user with home directory [h], and the catalogue [name], all in the folder [root]; the
    folder of the user's materials is missing, or empty, or holds files with the names of the examples *)
Record room (creatable : string -> bool) (h : list string) (fs : fsys) (root : list string) (name : string) : Prop := mkRoom {
  room_root : is_dir fs root;
  room_folder : no_file fs (root ++ ["UserData"]);
  room_empty : forall n, os_name n -> ~ is_dir fs (root ++ ["UserData"; n]) /\
    (~ In n ["example_file.txt"; "example_file2.yml"] -> no_file fs (root ++ ["UserData"; n]));
  room_config : ~ is_dir fs (user_file h);
  room_catalogue : ~ is_dir fs (root ++ [name]) /\ name <> "UserData" /\ root ++ [name] <> user_file h;
  room_names : forall n, In n ["example_file.txt"; "example_file2.yml"; "config.yaml"; name] -> creatable n = true
}.

(** the two example materials *)
Definition txt_example (m : material) : Prop :=
  described_as m /\ exists b b', tables_of m b b' (xrows table_n) (xrows table_k) /\
    d_type b = "wavelength" /\ d_unit b = "nanometer" /\ d_type b' = "wavelength" /\ d_unit b' = "nanometer".
Definition yml_example (m : material) : Prop :=
  described_as m /\ m_name m = "nk" /\ m_complex m = None /\
  (exists b ps, m_real m = DModel b Sellmeier ps /\ Forall2 shown_near (map Fin coefficients) ps /\
     Forall2 shown_near (map Fin covered) (elems (sp_values (d_range b))) /\ d_type b = "wavelength" /\ d_unit b = "micrometer") /\
  (exists b rows, m_imag m = DInterp b rows /\ near_table (5 / 10 ^ 9) (xrows table_k) rows /\ d_type b = "wavelength" /\ d_unit b = "nm").

(** the catalogue holds one row, at position [p], that is [r] as pandas writes and reads it; loading
    that row gives a material with property [P] *)
Definition entry (M : machine) (fs : fsys) (cat : catalogue) (p : nat) (R : row -> Prop) (P : material -> Prop) : Prop :=
  exists r r', R r /\ row_back (mc_csv M) r r' /\ row_at (c_db cat) p r' /\
    exists m, material_of M fs cat (IdInt (Z.of_nat p)) = Ok m /\ P m.
(** the catalogue of the two example files, at the reference wavelength of 632.8 nm *)
Definition example_catalogue (M : machine) (fs : fsys) (cat : catalogue) : Prop :=
  length (c_db cat) = 2%nat /\ default_numbering (c_db cat) /\
  exists p q, (p = 0%nat /\ q = 1%nat \/ p = 1%nat /\ q = 0%nat) /\
    entry M fs cat p (txt_row 632.8) txt_example /\ entry M fs cat q (yml_row 632.8 0.6328) yml_example.

(** the answers of the user, on the disk [fs0]: the folder, the name of the catalogue, no download,
    and [rebuild] to the last question; [rest] has not been read *)
Definition dialogue (M : machine) (h : list string) (fs fs0 : fsys) (root : list string) (name : string) (answers : list string) (rebuild : bool) (rest : list string) : Prop :=
  exists r1 r2 r3, agreed abs_validator (abs_path (user_dir h)) fs0 answers (abs_path root) r1 fs0 /\
    agreed (try_file_name (mc_creatable M) (mc_temp M fs)) "catalogue.csv" fs0 r1 name r2 fs0 /\
    answered r2 false r3 /\ answered r3 rebuild rest.
(** the disk at the beginning: the user's directory is there, or [fs0] is [fs] with that directory *)
Definition ready (M : machine) (h : list string) (fs fs0 : fsys) (root : list string) (name : string) : Prop :=
  Forall os_name h /\ Forall os_name root /\ os_name name /\
  mc_config M (documented_text (abs_path (user_dir h))) = Ok (documented_default (abs_path (user_dir h))) /\
  can_open h fs /\ with_user_dir h fs fs0 /\ is_dir fs0 (user_dir h) /\ room (mc_creatable M) h fs0 root name.
(** the disk afterwards: the folder of the user's materials and four files, or three if no catalogue
    has been written; nothing else has changed *)
Definition written (M : machine) (h root : list string) (name : string) (fs fs' : fsys) : Prop :=
  (forall p, In p (fs_dirs fs') <-> In p (fs_dirs fs) \/ p = abs_path (root ++ ["UserData"])) /\
  is_file fs' (user_file h) (mc_dump M (setup_result (abs_path root) name false)) /\
  (forall p, p <> abs_path (root ++ ["UserData"; "example_file.txt"]) -> p <> abs_path (root ++ ["UserData"; "example_file2.yml"]) ->
     p <> abs_path (user_file h) -> p <> abs_path (root ++ [name]) -> dget (fs_files fs') p = dget (fs_files fs) p).
(** the catalogue can be opened and used *)
Definition in_use (M : machine) (h root : list string) (name : string) (fs : fsys) : Prop :=
  exists cat, open_catalogue M (abs_path h) (RStr "None") fs = (Ok cat, fs) /\ c_base cat = abs_path root /\ c_file cat = name /\ example_catalogue M fs cat.
(** runs of dispersion_catalogue_rebuild, each with some answers and some outcome *)
Inductive rebuilds (M : machine) (home : string) : fsys -> fsys -> Prop :=
| rebuilds_none fs : rebuilds M home fs fs
| rebuilds_more fs answers r rest fs1 fs2 : run_rebuild M home (mkSys answers fs) = (r, mkSys rest fs1) -> rebuilds M home fs1 fs2 -> rebuilds M home fs fs2.
(** what a run of the script, complete or interrupted anywhere, can leave behind: the folder of the
    user's materials, or not, and any content, or none, of the four files *)
Definition left_over (h root : list string) (name : string) (fs fs' : fsys) : Prop :=
  (forall p, In p (fs_dirs fs) -> In p (fs_dirs fs')) /\
  (forall p, In p (fs_dirs fs') -> In p (fs_dirs fs) \/ p = abs_path (root ++ ["UserData"])) /\
  (forall p, p <> abs_path (root ++ ["UserData"; "example_file.txt"]) -> p <> abs_path (root ++ ["UserData"; "example_file2.yml"]) ->
     p <> abs_path (user_file h) -> p <> abs_path (root ++ [name]) -> dget (fs_files fs') p = dget (fs_files fs) p).
