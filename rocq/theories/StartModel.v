(** The parts put together on one file system: scripts/setup_dispersion.py, catalogue.py, io.py and
    config.py as they run one after the other, with the libraries they use. *)
From Verif Require Import PyBase PyStr XReal CNum SpectrumModel SpectralModel TextModel MaterialModel FileModel ReaderModel WriterModel PathModel ConfigModel CatalogueModel CsvModel DiskModel SetupModel ExampleModel.
Open Scope string_scope.
Open Scope list_scope.

(** ** what the code runs on *)
Record machine := mkMachine {
  mc_creatable : string -> bool;                (* names the file system accepts *)
  mc_package : string;                          (* os.path.dirname(os.path.realpath(config.__file__)) *)
  mc_temp : fsys -> string;                     (* tempfile.TemporaryDirectory(): the name chosen *)
  mc_listdir : fsys -> string -> list string;   (* os.listdir of a directory *)
  mc_config : string -> res cfg;                (* the yaml library on configuration files *)
  mc_dump : cfg -> string;
  mc_pages : string -> res lnode;               (* ... on the library of refractiveindex.info *)
  mc_material : string -> res ydoc;             (* ... on material files *)
  mc_write : wenv;                              (* ... and numpy, as io.py's Writer uses them *)
  mc_files : list string;                       (* iteration orders of the keyword sets of io.py *)
  mc_sets : list string;
  mc_csv : csvlib;                              (* pandas *)
  mc_scipy : scipy;
  mc_qgrid : bool;
  mc_clone : fsys -> string -> res fsys         (* GitPython *)
}.

Section Machine.
Variable M : machine.

(** io.py:262-293 Reader(path).read_file() *)
Definition read_on (fs : fsys) (path : string) : res fdict :=
  let r := mk_reader (mc_files M) path in
  if smem (rd_ext r) txt_types || String.eqb (rd_ext r) ".yml" then
    do text <- open_r fs path; fst (read_file (mc_files M) (mc_sets M) (mc_material M) r text)
  else Raise ValueError.

(** what catalogue.py sees of the file system. Simplification: valid_file_name, which
    validate_config calls, leaves the file system as it is (true unless the name is absolute). *)
Definition world_on (fs : fsys) : world :=
  mkWorld (mkChecks (dir_exists fs) (fun name => fst (try_file_name (mc_creatable M) (mc_temp M fs) fs name)))
    (file_exists fs)
    (fun d => if dir_exists fs d then Ok (mc_listdir M fs d) else Raise FileNotFoundError)
    (read_on fs)
    (fun p => do text <- open_r fs p; mc_pages M text)
    (fun p => do text <- open_r fs p; read_csv (mc_csv M) text)
    (mc_qgrid M).

(** setup_dispersion.py:122-166: the texts that the two functions leave in their files, whatever the
    folder (theorem C95_texts) *)
Definition left_in (file : string) (r : res unit * list fsop) : string := content (fs_run [] (snd r)) file.
Definition example_txt : string := left_in "example_file.txt" (make_example_txt (mc_write M) "" []).
Definition example_yaml : string := left_in "example_file2.yml" (make_example_yaml (mc_write M) "" []).

(** Catalogue(config=conf, rebuild='All') in setup_dispersion.py:207 and catalogue.py:44, and the
    text of save_to_file (catalogue.py:211-215) *)
Definition rebuilt_text (fs : fsys) (conf : cfg) : res string :=
  do cat <- mk_catalogue (mc_scipy M) (world_on fs) conf (RStr "All"); Ok (to_csv (mc_csv M) (c_db cat)).

(** the commands dispersion_setup and dispersion_catalogue_rebuild *)
Definition run_setup (home : string) (s : sys) : res unit * sys :=
  main (mc_creatable M) (Some home) (mc_package M) (mc_config M) (mc_dump M) (mc_temp M (disk s)) example_txt example_yaml
    (mc_clone M) rebuilt_text s.
Definition run_rebuild (home : string) : io unit :=
  rebuild_catalogue (mc_creatable M) (Some home) (mc_package M) (mc_config M) rebuilt_text.

(** catalogue.py:98-126 Catalogue(rebuild=rb) without a configuration *)
Definition open_catalogue (home : string) (rb : rebuild) (fs : fsys) : res catalogue * fsys :=
  let (c, fs) := get_config (Some home) (mc_package M) (mc_config M) fs in
  (do c <- c; mk_catalogue (mc_scipy M) (world_on fs) c rb, fs).
(** catalogue.py:244-266 cat.get_material(identifier) *)
Definition material_of (fs : fsys) (cat : catalogue) (id : ident) : res material := get_material (world_on fs) cat id.
(** catalogue.py:211-215 cat.save_to_file() *)
Definition save_on (fs : fsys) (cat : catalogue) : res fsys :=
  open_w (mc_creatable M) fs (path_join (c_base cat) (c_file cat)) (to_csv (mc_csv M) (c_db cat)).
End Machine.
