(** Specification of the configuration files and of the setup dialogue *)
From Verif Require Import PyBase PyStr XReal IOSpec PathModel ConfigModel CatalogueSpec DiskModel SetupModel.
Open Scope string_scope.
Open Scope list_scope.

(** ** paths and the file system *)
(** a name that a directory entry can have *)
Definition os_name (c : string) : Prop := plain_name c /\ ~ In "000"%char (chars c).
Definition is_dir (fs : fsys) (l : list string) : Prop := In (abs_path l) (fs_dirs fs).
Definition is_file (fs : fsys) (l : list string) (text : string) : Prop := dget (fs_files fs) (abs_path l) = Some text.
Definition no_file (fs : fsys) (l : list string) : Prop := dget (fs_files fs) (abs_path l) = None.
Definition nothing_at (fs : fsys) (l : list string) : Prop := ~ is_dir fs l /\ no_file fs l.

(** the user's directory and configuration file, for the home directory [h] *)
Definition user_dir (h : list string) : list string := h ++ [".config"; "dispersion"].
Definition user_file (h : list string) : list string := h ++ [".config"; "dispersion"; "config.yaml"].
(** [fs'] is [fs], with the user's directory added if it was missing *)
Definition with_user_dir (h : list string) (fs fs' : fsys) : Prop :=
  fs_files fs' = fs_files fs /\
  (fs_dirs fs' = fs_dirs fs \/ ~ is_dir fs (user_dir h) /\ fs_dirs fs' = abs_path (user_dir h) :: fs_dirs fs).
(** the user's directory is there, or can be created *)
Definition can_open (h : list string) (fs : fsys) : Prop :=
  is_dir fs (user_dir h) \/ nothing_at fs (user_dir h) /\ is_dir fs (h ++ [".config"]).
(** [fs'] is [fs], with [text] in the file [l]; nothing else has changed *)
Definition stored (fs fs' : fsys) (l : list string) (text : string) : Prop :=
  fs_dirs fs' = fs_dirs fs /\ is_file fs' l text /\
  forall p, p <> abs_path l -> dget (fs_files fs') p = dget (fs_files fs) p.
(** the yaml library raises no OSError *)
Definition no_os_error (yaml_parse : string -> res cfg) : Prop :=
  forall t e, yaml_parse t = Raise e -> e <> OSError /\ e <> FileNotFoundError.

(** ** valid configurations (what the configuration file must hold) *)
Record valid_config (W : checks) (c : cfg) : Prop := mkValid {
  valid_path : exists p, dget c "Path" = Some (CStr p) /\ isdir W p = true;
  valid_name : exists f, dget c "File" = Some (CStr f) /\ valid_file_name W f = Ok true;
  valid_interactive : exists b, dget c "Interactive" = Some (CBool b);
  valid_warn : exists b, dget c "WarnMissingPackages" = Some (CBool b);
  valid_modules : exists d, dget c "Modules" = Some (CMap d) /\ forall m v, In (m, v) d -> exists b, v = CBool b;
  valid_reference : exists r x t u, dget c "ReferenceSpectrum" = Some (CMap r) /\ dget r "Value" = Some (CFloat x) /\
    dget r "SpectrumType" = Some (CStr t) /\ dget r "Unit" = Some (CStr u)
}.
(** what default_config's text says, for the directory [dir] *)
Definition documented_default (dir : string) : cfg :=
  [("Path", CStr dir); ("File", CStr "catalogue.csv"); ("Interactive", CBool false); ("WarnMissingPackages", CBool false);
   ("Modules", CMap [("UserData", CBool true); ("RefractiveIndexInfo", CBool true)]);
   ("ReferenceSpectrum", CMap [("Value", CFloat (Fin (6328 / 10))); ("SpectrumType", CStr "wavelength"); ("Unit", CStr "nanometer")])].

(** the same as a yaml text: one entry per line *)
Definition documented_text (dir : string) : string :=
  String.concat (String "010"%char "")
    ["    Path: " ++ dir;
     "    File: catalogue.csv";
     "    Interactive: false #for jupyter interfactive editing";
     "    WarnMissingPackages: False # raise warnings if non-essential packages are missing";
     "    Modules: # which databases to include";
     "      UserData: true";
     "      RefractiveIndexInfo: true";
     "    ReferenceSpectrum: # evaluate n and k at given spectral value";
     "      Value: 632.8";
     "      SpectrumType: wavelength";
     "      Unit: nanometer";
     "    "]%string.

(** ** answers typed by the user *)
Definition yes (a : string) : Prop := a = "y" \/ a = "yes".
Definition no (a : string) : Prop := a = "n" \/ a = "no".
(** the first recognised answer is [b]; [rest] has not been read *)
Definition answered (answers : list string) (b : bool) (rest : list string) : Prop :=
  exists skipped a, answers = skipped ++ a :: rest /\ Forall (fun x => ~ yes x /\ ~ no x) skipped /\
    (b = true /\ yes a \/ b = false /\ no a).
(** an empty answer stands for the default *)
Definition given (default a u : string) : Prop := a = "" /\ u = default \/ a <> "" /\ u = a.
(** all answers of the list are turned down, one after the other; the validator may change the
    file system while it looks *)
Inductive turned_down (validator : fsys -> string -> res bool * fsys) (default : string) : fsys -> list string -> fsys -> Prop :=
| down_nil fs : turned_down validator default fs [] fs
| down_cons fs a u fs1 rest fs2 : given default a u -> validator fs u = (Ok false, fs1) ->
    turned_down validator default fs1 rest fs2 -> turned_down validator default fs (a :: rest) fs2.
(** the first acceptable answer is [u] *)
Definition asked (validator : fsys -> string -> res bool * fsys) (default : string) (fs : fsys) (answers : list string)
    (u : string) (rest : list string) (fs' : fsys) : Prop :=
  exists skipped a fs1, answers = skipped ++ a :: rest /\ turned_down validator default fs skipped fs1 /\
    given default a u /\ validator fs1 u = (Ok true, fs').
(** the question is repeated until the answer is confirmed *)
Inductive agreed (validator : fsys -> string -> res bool * fsys) (default : string) : fsys -> list string -> string -> list string -> fsys -> Prop :=
| agreed_now fs answers u r1 fs1 r2 : asked validator default fs answers u r1 fs1 -> answered r1 true r2 ->
    agreed validator default fs answers u r2 fs1
| agreed_later fs answers u r1 fs1 r2 v rest fs2 : asked validator default fs answers u r1 fs1 -> answered r1 false r2 ->
    agreed validator default fs1 r2 v rest fs2 -> agreed validator default fs answers v rest fs2.

(** ** the file system afterwards still has every directory and file *)
Definition keeps (fs fs' : fsys) : Prop :=
  (forall p, In p (fs_dirs fs) -> In p (fs_dirs fs')) /\
  (forall p text, dget (fs_files fs) p = Some text -> exists text', dget (fs_files fs') p = Some text').
(** ... with the same content *)
Definition preserves (fs fs' : fsys) : Prop :=
  (forall p, In p (fs_dirs fs) -> In p (fs_dirs fs')) /\
  (forall p text, dget (fs_files fs) p = Some text -> dget (fs_files fs') p = Some text).
(** the name of the temporary directory is new *)
Definition fresh_dir (fs : fsys) (d : string) : Prop :=
  (forall p, In p (fs_dirs fs) -> p <> d /\ forall r, p <> (d ++ "/" ++ r)%string) /\
  (forall p text, dget (fs_files fs) p = Some text -> p <> d /\ forall r, p <> (d ++ "/" ++ r)%string).

(** ** modules *)
(** downloading keeps what is there *)
Definition clone_keeps (clone : fsys -> string -> res fsys) : Prop := forall fs d fs', clone fs d = Ok fs' -> keeps fs fs'.
(** the RefractiveIndexInfo database is there, or has been downloaded *)
Definition rii_present (clone : fsys -> string -> res fsys) (conf : cfg) (fs : fsys) : Prop :=
  exists p, dget conf "Path" = Some (CStr p) /\ dir_exists fs (path_join p "RefractiveIndexInfo") = true /\
    ((exists fs1 fs2, clone fs1 (path_join p "RefractiveIndexInfo") = Ok fs2) \/
     file_exists fs (path_join (path_join (path_join p "RefractiveIndexInfo") "database") "library.yml") = true).
(** the flag that a module may have afterwards *)
Definition module_flag (clone : fsys -> string -> res fsys) (conf : cfg) (fs : fsys) (m : string) (v : cval) : Prop :=
  (m = "UserData" /\ v = CBool true) \/
  (m = "RefractiveIndexInfo" /\ (v = CBool false \/ v = CBool true /\ rii_present clone conf fs)) \/
  (m <> "UserData" /\ m <> "RefractiveIndexInfo" /\ v = CBool false).
(** the two example files have been put into the folder UserData of [root]; nothing else has changed *)
Definition examples_installed (txt yml : string) (root : list string) (fs fs' : fsys) : Prop :=
  (forall p, In p (fs_dirs fs') <-> In p (fs_dirs fs) \/ p = abs_path (root ++ ["UserData"])) /\
  is_file fs' (root ++ ["UserData"; "example_file.txt"]) txt /\ is_file fs' (root ++ ["UserData"; "example_file2.yml"]) yml /\
  forall p, p <> abs_path (root ++ ["UserData"; "example_file.txt"]) -> p <> abs_path (root ++ ["UserData"; "example_file2.yml"]) ->
    dget (fs_files fs') p = dget (fs_files fs) p.
(** nothing is in the way of the two files *)
Definition folder_ready (creatable : string -> bool) (root : list string) (fs : fsys) : Prop :=
  is_dir fs root /\ (is_dir fs (root ++ ["UserData"]) \/ no_file fs (root ++ ["UserData"])) /\
  ~ is_dir fs (root ++ ["UserData"; "example_file.txt"]) /\ ~ is_dir fs (root ++ ["UserData"; "example_file2.yml"]) /\
  creatable "example_file.txt" = true /\ creatable "example_file2.yml" = true.
(** the configuration of the two modules *)
Definition two_modules (conf : cfg) (root : list string) : Prop :=
  dget conf "Path" = Some (CStr (abs_path root)) /\
  exists v w, dget conf "Modules" = Some (CMap [("UserData", v); ("RefractiveIndexInfo", w)]).
Definition with_flags (conf : cfg) (user rii : bool) : cfg :=
  dset conf "Modules" (CMap [("UserData", CBool user); ("RefractiveIndexInfo", CBool rii)]).
(** what setup writes *)
Definition setup_result (path name : string) (rii : bool) : cfg :=
  [("Path", CStr path); ("File", CStr name); ("Interactive", CBool false); ("WarnMissingPackages", CBool false);
   ("Modules", CMap [("UserData", CBool true); ("RefractiveIndexInfo", CBool rii)]);
   ("ReferenceSpectrum", CMap [("Value", CFloat (Fin (6328 / 10))); ("SpectrumType", CStr "wavelength"); ("Unit", CStr "nanometer")])].
