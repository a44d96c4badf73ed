(** Model of the rest of src/dispersion/config.py, of src/dispersion/__init__.py and of io.py's
    valid_file_name: the parts that look at the file system. *)
From Verif Require Import PyBase PyStr XReal FileModel PathModel ConfigModel.
Open Scope string_scope.
Open Scope list_scope.

(** ** the file system: directories, and files with their content, both under their normalised
    path. Simplification: no links, no permissions, no working directory (paths are absolute), and
    "a/../b" is "b" even if "a" does not exist. *)
Record fsys := mkFs { fs_dirs : list string; fs_files : dict string }.
(** os.path.isdir, isfile, exists *)
Definition dir_exists (fs : fsys) (p : string) : bool := existsb (String.eqb (normpath p)) (fs_dirs fs).
Definition file_exists (fs : fsys) (p : string) : bool := dhas (fs_files fs) (normpath p).
Definition path_exists (fs : fsys) (p : string) : bool := dir_exists fs p || file_exists fs p.
(** the directory that contains a normalised path: everything before the last slash *)
Fixpoint before_last (c : ascii) (s : string) : option string :=
  match s with
  | EmptyString => None
  | String d r => match before_last c r with
                  | Some t => Some (String d t)
                  | None => if Ascii.eqb d c then Some EmptyString else None
                  end
  end.
Definition parent (p : string) : string :=
  match before_last "/" (normpath p) with Some "" => "/" | Some t => t | None => "" end.
(** os.mkdir(p): FileExistsError (an OSError), or FileNotFoundError without the parent *)
Definition mkdir (fs : fsys) (p : string) : res fsys :=
  if path_exists fs p then Raise OSError
  else if dir_exists fs (parent p) then Ok (mkFs (normpath p :: fs_dirs fs) (fs_files fs))
  else Raise FileNotFoundError.

(** a character that no path may contain *)
Definition has_nul (p : string) : bool := existsb (Ascii.eqb "000") (list_ascii_of_string p).
(** open(p, 'r'): the content. IsADirectoryError is an OSError. *)
Definition open_r (fs : fsys) (p : string) : res string :=
  if has_nul p then Raise ValueError
  else match basename p, dget (fs_files fs) (normpath p) with
       | "", _ => Raise OSError
       | _, Some text => Ok text
       | _, None => if dir_exists fs p then Raise OSError else Raise FileNotFoundError
       end.
(** open(p, 'w') and writing [text]. [creatable] says which names the file system accepts (for
    instance at most 255 bytes long). *)
Definition open_w (creatable : string -> bool) (fs : fsys) (p text : string) : res fsys :=
  if has_nul p then Raise ValueError
  else if String.eqb (basename p) "" || String.eqb (basename p) "." || String.eqb (basename p) ".." then Raise OSError
  else if dir_exists fs p then Raise OSError
  else if negb (dir_exists fs (parent p)) then Raise FileNotFoundError
  else if negb (creatable (basename p)) then Raise OSError
  else Ok (mkFs (fs_dirs fs) (dset (fs_files fs) (normpath p) text)).

(** tempfile.TemporaryDirectory(): a directory that did not exist, deleted with everything in it *)
Definition in_dir (d p : string) : bool := String.eqb p d || startswith (d ++ "/") p.
Definition remove_tree (fs : fsys) (d : string) : fsys :=
  mkFs (filter (fun p => negb (in_dir d p)) (fs_dirs fs))
       (filter (fun e => negb (in_dir d (fst e))) (fs_files fs)).

Section Disk.
(** the names the file system accepts, HOME, and the directory of config.py
    (os.path.realpath(__file__)) *)
Variable creatable : string -> bool.
Variable home : option string.
Variable package_dir : string.
(** the yaml library (io.py:123-215 read_yaml_file, read_yaml_string, write_yaml_file) *)
Variable yaml_parse : string -> res cfg.
Variable yaml_dump : cfg -> string.

(** io.py:234-251 valid_file_name: the answer, and the file system afterwards. [tmp] is the name
    of the temporary directory. *)
Definition try_file_name (tmp : string) (fs : fsys) (filename : string) : res bool * fsys :=
  let fs1 := mkFs (tmp :: fs_dirs fs) (fs_files fs) in
  let p := path_join tmp filename in
  match open_r fs1 p with
  | Ok _ => (Ok true, remove_tree fs1 tmp)
  | Raise e =>
      if catches OSError e then
        match open_w creatable fs1 p "" with
        | Ok fs2 => (Ok true, remove_tree fs2 tmp)
        | Raise e => if catches OSError e then (Ok false, remove_tree fs1 tmp) else (Raise e, remove_tree fs1 tmp)
        end
      else (Raise e, remove_tree fs1 tmp)
  end.

(** config.py:77-87 _get_user_config_dir (POSIX branch): the directory, and the file system, in
    which it has been created if it was missing *)
Definition get_user_config_dir (fs : fsys) : res string * fsys :=
  match home with
  | None => (Raise KeyError, fs)
  | Some h =>
      let d := path_join (path_join h ".config") "dispersion" in
      if path_exists fs d then (Ok d, fs)
      else match mkdir fs d with Ok fs' => (Ok d, fs') | Raise e => (Raise e, fs) end
  end.
(** config.py:93-103 _get_config_dir *)
Definition get_config_dir (fs : fsys) : res string * fsys :=
  match get_user_config_dir fs with
  | (Raise e, fs) => (Raise e, fs)
  | (Ok user_dir, fs) =>
      (if file_exists fs (path_join user_dir "config.yaml") then Ok user_dir
       else if file_exists fs (path_join package_dir "config.yaml") then Ok package_dir
       else Raise ValueError, fs)
  end.
(** config.py:123-134 read_config *)
Definition read_config (fs : fsys) : res cfg * fsys :=
  match get_config_dir fs with
  | (Raise e, fs) => (Raise e, fs)
  | (Ok d, fs) => (do text <- open_r fs (path_join d "config.yaml"); yaml_parse text, fs)
  end.
(** config.py:53-75 default_config: the text that is parsed. (str.format puts the directory,
    unquoted, after "Path: ") *)
Definition default_text (dir : string) : string :=
  ("    Path: " ++ dir ++ NL ++
   "    File: catalogue.csv" ++ NL ++
   "    Interactive: false #for jupyter interfactive editing" ++ NL ++
   "    WarnMissingPackages: False # raise warnings if non-essential packages are missing" ++ NL ++
   "    Modules: # which databases to include" ++ NL ++
   "      UserData: true" ++ NL ++
   "      RefractiveIndexInfo: true" ++ NL ++
   "    ReferenceSpectrum: # evaluate n and k at given spectral value" ++ NL ++
   "      Value: 632.8" ++ NL ++
   "      SpectrumType: wavelength" ++ NL ++
   "      Unit: nanometer" ++ NL ++
   "    ")%string.
Definition default_config (fs : fsys) : res cfg * fsys :=
  match get_user_config_dir fs with
  | (Raise e, fs) => (Raise e, fs)
  | (Ok d, fs) => (yaml_parse (default_text d), fs)
  end.
(** config.py:136-152 get_config (the warning is not modelled) *)
Definition get_config (fs : fsys) : res cfg * fsys :=
  match read_config fs with
  | (Raise e, fs) => if catches OSError e then default_config fs else (Raise e, fs)
  | r => r
  end.
(** __init__.py:19-22, run by every import of the package *)
Definition import_config (fs : fsys) : res cfg * fsys :=
  match get_config fs with
  | (Raise e, fs) => if catches ValueError e then default_config fs else (Raise e, fs)
  | r => r
  end.
(** config.py:106-121 write_config: [dir] is the argument dir_path *)
Definition write_config (fs : fsys) (c : cfg) (dir : option string) : res unit * fsys :=
  let write fs d := match open_w creatable fs (path_join d "config.yaml") (yaml_dump c) with
                    | Ok fs => (Ok tt, fs)
                    | Raise e => (Raise e, fs)
                    end in
  match dir with
  | Some d => write fs d
  | None => match get_config_dir fs with
            | (Raise e, fs) => (Raise e, fs)
            | (Ok d, fs) => write fs d
            end
  end.
End Disk.
