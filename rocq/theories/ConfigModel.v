(** Model of src/dispersion/config.py: validate_config (the rest is in DiskModel.v) *)
From Verif Require Import PyBase PyStr XReal PathModel.
Open Scope string_scope.
Open Scope list_scope.

(** ** configuration values: what the yaml library returns. Integers (and everything that is not
    a string, bool, float or mapping) are [COther]. *)
Inductive cval :=
| CStr (s : string) | CBool (b : bool) | CFloat (x : xr)
| CMap (d : list (string * cval)) | COther.
Definition cfg := dict cval.

(** what validate_config asks the operating system *)
Record checks := mkChecks {
  isdir : string -> bool;                        (* os.path.isdir *)
  valid_file_name : string -> res bool           (* io.py:234-251, see DiskModel *)
}.

(** config.py:43-50 check_type *)
Definition check_str (v : cval) : res string := match v with CStr s => Ok s | _ => Raise ValueError end.
Definition check_bool (v : cval) : res bool := match v with CBool b => Ok b | _ => Raise ValueError end.
Definition check_float (v : cval) : res xr := match v with CFloat x => Ok x | _ => Raise ValueError end.

(** v.values() and v[key]. A string, list or None is no mapping. *)
Definition map_values (v : cval) : res (list cval) :=
  match v with CMap d => Ok (map snd d) | _ => Raise AttributeError end.
Definition map_item (v : cval) (k : string) : res cval :=
  match v with CMap d => dlookup d k | _ => Raise TypeError end.

(** config.py:16-41 validate_config *)
Definition validate_config (W : checks) (c : cfg) : res unit :=
  do v <- dlookup c "Path"; do p <- check_str v;
  do_ (if isdir W p then Ok tt else Raise OSError);
  do v <- dlookup c "File"; do f <- check_str v;
  do ok <- valid_file_name W f;
  do_ (if ok then Ok tt else Raise OSError);
  do v <- dlookup c "Interactive"; do_ check_bool v;
  do v <- dlookup c "WarnMissingPackages"; do_ check_bool v;
  do m <- (match dget c "Modules" with Some m => Ok m | None => Raise AssertionError end);
  do vs <- map_values m; do_ map_res check_bool vs;
  do r <- (match dget c "ReferenceSpectrum" with Some r => Ok r | None => Raise AssertionError end);
  do v <- map_item r "Value"; do_ check_float v;
  do v <- map_item r "SpectrumType"; do_ check_str v;
  do v <- map_item r "Unit"; do_ check_str v;
  Ok tt.
