(** Specification for C102: the whole way of a material from the constructor to a later session. *)
From Verif Require Import PyBase PyStr XReal CNum SpectrumModel SpectralModel SpectralSpec MaterialSpec FileModel PathModel ConfigModel CatalogueModel CatalogueSpec CsvModel CsvSpec DiskModel SetupModel SetupSpec StartModel StartSpec MaterialModel WriterModel IOSpec SaveSpec OwnSpec SavedSpec.
Open Scope R_scope.
Open Scope string_scope.
Open Scope list_scope.

(** a number within the range of floating point numbers that numpy shows without loss *)
Definition exact_number (disp : list xr -> xr -> xr) (x : R) : Prop := float_range (Fin x) /\ shown_in_full disp x.
(** the material is saved in the user's folder under the name f without touching another file; from
    then on every catalogue built with that folder, and the same catalogue saved and opened in a later
    session, lists the file once and hands out a material that answers every question as m does *)
Definition stays_available (M : machine) (root : list string) (fs : fsys) (f : string) (ic rii : bool) (m : material) : Prop :=
  exists ops, save_material (mc_write M) (abs_path (own_file root f)) m (fs_files fs) ic rii = (Ok tt, ops) /\
    (forall p, p <> abs_path (own_file root f) -> dget (fs_files (after fs ops)) p = dget (fs_files fs) p) /\
    kept_in_catalogue M root (after fs ops) f (same_optics (mc_scipy M) m).
