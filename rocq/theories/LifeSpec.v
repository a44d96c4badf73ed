(** Notions used in the statements about the life of an installation (C99): after the setup script,
    the user adds, changes and removes files in their folder and rebuilds the catalogue *)
From Coq Require Import Reals.
From Verif Require Import PyBase PyStr XReal SpectrumModel SpectralModel MaterialModel FileModel PathModel ConfigModel CatalogueModel CatalogueSpec CsvModel CsvSpec DiskModel SetupModel SetupSpec StartModel StartSpec OwnSpec.
Open Scope string_scope.
Open Scope list_scope.

(** the folders and the configuration are as the setup script has left them *)
Definition installed (M : machine) (h root : list string) (name : string) (fs : fsys) : Prop :=
  is_dir fs root /\ is_dir fs (root ++ ["UserData"]) /\
  is_dir fs (user_dir h) /\ is_file fs (user_file h) (mc_dump M (setup_result (abs_path root) name false)) /\
  ~ is_dir fs (root ++ [name]).
(** files of the user's folder have been added, changed or removed, whatever they contain *)
Definition folder_changed (root : list string) (fs fs' : fsys) : Prop :=
  fs_dirs fs' = fs_dirs fs /\
  forall p, (forall f, os_name f -> p <> abs_path (own_file root f)) -> dget (fs_files fs') p = dget (fs_files fs) p.
(** [fs'] is [fs] with another catalogue *)
Definition only_catalogue (root : list string) (name : string) (fs fs' : fsys) : Prop :=
  fs_dirs fs' = fs_dirs fs /\ forall p, p <> abs_path (root ++ [name]) -> dget (fs_files fs') p = dget (fs_files fs) p.
(** any history of such changes, of runs of dispersion_catalogue_rebuild, whatever they are answered
    and however they end, and of changes of the catalogue file by other means: saved by a session,
    edited, deleted, or left half-written by a command that has been interrupted *)
Inductive life (M : machine) (home : string) (root : list string) (name : string) : fsys -> fsys -> Prop :=
| life_none fs : life M home root name fs fs
| life_folder fs fs1 fs2 : folder_changed root fs fs1 -> life M home root name fs1 fs2 -> life M home root name fs fs2
| life_catalogue fs fs1 fs2 : only_catalogue root name fs fs1 -> life M home root name fs1 fs2 -> life M home root name fs fs2
| life_rebuild fs answers r rest fs1 fs2 : run_rebuild M home (mkSys answers fs) = (r, mkSys rest fs1) ->
    life M home root name fs1 fs2 -> life M home root name fs fs2.
(** the disk after a run of the setup script: the folder [root], the catalogue [name] in it, no
    download; the last question has been answered with yes or with no *)
Definition set_up (M : machine) (h root : list string) (name : string) (fs1 : fsys) : Prop :=
  exists fs fs0 answers b rest, ready M h fs fs0 root name /\ dialogue M h fs fs0 root name answers b rest /\
    run_setup M (abs_path h) (mkSys answers fs) = (Ok tt, mkSys rest fs1).

(** the reference spectrum of the setup script, 632.8 nm *)
Definition setup_reference (s : spectrum) : Prop := mk_spectrum (InVals (VS (Fin (6328 / 10)))) "wavelength" "nanometer" = Ok s.
(** all material files of the user's folder *)
Definition every_file (fs : fsys) (root : list string) (P : string -> Prop) : Prop :=
  forall f text, os_name f -> supported f -> is_file fs (own_file root f) text -> P f.
(** the entry of the file can be written to a csv file and read again: its texts have no carriage
    return (or the csv library quotes them) and no character 0, its range has two bounds that are numbers *)
Definition storable_file (M : machine) (fs : fsys) (root : list string) (f : string) : Prop :=
  writable (mc_csv M) f /\
  forall m, mk_material (read_on M fs) [("file_path", PStr (abs_path (own_file root f)))] = Ok m ->
    (forall key text, In key ["FullName"; "Author"; "Comment"; "Reference"] -> meta_cell m key (KStr text) -> writable (mc_csv M) text) /\
    (forall lo hi, bound_cells m lo hi -> lo <> NaN /\ hi <> NaN).
(** the catalogue shows the folder as it is: one row for every material file, which loads the material
    of this file and describes it, and no other row *)
Definition shows_folder (M : machine) (root : list string) (s : spectrum) (fs : fsys) (cat : catalogue) : Prop :=
  (forall f text, own_name f -> is_file fs (own_file root f) text ->
     listed_once M fs cat f (fun r m => (exists r0, row_back (mc_csv M) r0 r /\ file_row (mc_scipy M) s "UserData" f m r0) /\
       mk_material (read_on M fs) [("file_path", PStr (abs_path (own_file root f)))] = Ok m)) /\
  (forall p r, row_at (c_db cat) p r -> exists f text, r_module r = KStr "UserData" /\ r_path r = KStr f /\ os_name f /\ supported f /\ is_file fs (own_file root f) text).
