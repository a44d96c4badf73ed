(** Notions used in the statements about the user's own material files in the catalogue (C96) *)
From Coq Require Import Reals.
From Verif Require Import PyBase PyStr XReal CNum SpectrumModel SpectralModel SpectralSpec MaterialModel MaterialSpec FileModel WriterModel PathModel ConfigModel CatalogueModel CatalogueSpec IOSpec SaveSpec CsvModel CsvSpec DiskModel SetupModel SetupSpec StartModel StartSpec.
Open Scope string_scope.
Open Scope list_scope.

(** the disk after the file operations of a save *)
Definition after (fs : fsys) (ops : list fsop) : fsys := mkFs (fs_dirs fs) (fs_run (fs_files fs) ops).
(** a file of the folder /root/UserData *)
Definition own_file (root : list string) (f : string) : list string := root ++ ["UserData"; f].
(** a file name the catalogue can list and find again *)
Definition own_name (f : string) : Prop := os_name f /\ supported f /\ ~ In "\"%char (chars f).
(** exactly one row of the catalogue stands for the file [f] of the user's folder; loading that row
    gives a material, and row and material have property [P] *)
Definition listed_once (M : machine) (fs : fsys) (cat : catalogue) (f : string) (P : row -> material -> Prop) : Prop :=
  exists p r m, row_at (c_db cat) p r /\ r_module r = KStr "UserData" /\ r_path r = KStr f /\
    (forall p' r', row_at (c_db cat) p' r' -> r_module r' = KStr "UserData" -> r_path r' = KStr f -> p' = p) /\
    material_of M fs cat (IdInt (Z.of_nat p)) = Ok m /\ P r m.
(** a catalogue built on this disk from this configuration, the user's folder included *)
Definition built_with (M : machine) (fs : fsys) (root : list string) (c : cfg) (rb : rebuild) (name : string) (s : spectrum) (cat : catalogue) : Prop :=
  rb <> RStr "None" /\ selects rb "UserData" /\ mk_catalogue (mc_scipy M) (world_on M fs) c rb = Ok cat /\
  exists mods ref t u, configured c (abs_path root) name mods ref t u /\ In ("UserData", true) mods /\ mk_spectrum (InVals (VS ref)) t u = Ok s.
(** the catalogue can be written as a csv file and read again *)
Definition storable (L : csvlib) (cat : catalogue) : Prop :=
  Forall (texts_writable L) (rows_of (c_db cat)) /\ Forall bounded (rows_of (c_db cat)).
(** the tables of a material: n and k over the same wavelengths (or frequencies, ...), with type and unit *)
Definition has_tables (m : material) (l q : SpectralSpec.table) (t u : string) : Prop :=
  exists b b', tables_of m b b' (xrows l) (xrows q) /\ d_type b = t /\ d_unit b = u /\ d_type b' = t /\ d_unit b' = u.
(** a file with a material that has property [P] is kept by the catalogue: every build that includes the
    user's folder lists it once and loads such a material; so does the catalogue once it has been saved
    and opened again *)
Definition kept_in_catalogue (M : machine) (root : list string) (fs : fsys) (f : string) (P : material -> Prop) : Prop :=
  forall c rb name s cat, built_with M fs root c rb name s cat ->
    listed_once M fs cat f (fun r m => file_row (mc_scipy M) s "UserData" f m r /\ P m) /\
    forall fs', os_name name -> storable (mc_csv M) cat -> save_on M fs cat = Ok fs' ->
      exists cat', mk_catalogue (mc_scipy M) (world_on M fs') c (RStr "None") = Ok cat' /\
        listed_once M fs' cat' f (fun r m => (exists r0, row_back (mc_csv M) r0 r /\ file_row (mc_scipy M) s "UserData" f m r0) /\ P m).

(** ** when a rebuild succeeds (C97) *)
(** the file can be loaded, has a range, and its index at the reference spectrum can be computed (or
    that raises ValueError) *)
Definition usable (M : machine) (fs : fsys) (s : spectrum) (root : list string) (f : string) : Prop :=
  exists m, mk_material (read_on M fs) [("file_path", PStr (abs_path (own_file root f)))] = Ok m /\ forall e, ~ row_error (mc_scipy M) s m e.
(** a valid configuration that enables the user's folder only, in a session without qgrid *)
Definition user_only (M : machine) (fs : fsys) (root : list string) (c : cfg) (s : spectrum) : Prop :=
  exists name mods ref t u, configured c (abs_path root) name mods ref t u /\ (forall m, In (m, true) mods <-> m = "UserData") /\ ~ In ("All", false) mods /\
    valid_config (w_checks (world_on M fs)) c /\ dget c "Interactive" = Some (CBool false) /\ mk_spectrum (InVals (VS ref)) t u = Ok s.
(** a part (n or k) of a material that is a table or a constant, not in centimetres *)
Definition plain_part (d : sdata) : Prop :=
  match d with DInterp _ _ | DConst _ _ => sp_unit (valid_range d) <> "cm" | _ => False end.
