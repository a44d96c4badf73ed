(** Notions used in the statements about the catalogue rows of the example files (C94): what the
    rows say, in numbers and words *)
From Verif Require Import PyBase PyStr XReal CNum SpectrumModel SpectrumSpec SpectralModel SpectralSpec TextModel MaterialModel IOSpec CatalogueModel ExampleSpec.
Open Scope R_scope.
Open Scope string_scope.
Open Scope list_scope.

(** the words in the row of a file of the user's folder that is described as the script does it *)
Definition example_words (name file : string) (r : row) : Prop :=
  r_alias r = KStr "" /\ r_name r = KStr name /\ r_full r = KStr "Full name of the material" /\
  r_author r = KStr "The author of this data file" /\ r_comment r = KStr "Any additional information goes here" /\
  r_ref r = KStr "Literature reference to the data" /\ r_stype r = KStr "wavelength" /\ r_unit r = KStr "nanometer" /\
  r_path r = KStr file /\ r_module r = KStr "UserData".

(** the refractive index and extinction of the table of the script at [w] nanometres: the index
    falls linearly, the extinction falls linearly to 0 at 600 nm *)
Definition table_index (w : R) : R := 2.1 - w / 1000.
Definition table_extinction (w : R) : R := Rmax 0 (0.3 - w / 2000).

(** the row of example_file.txt for a reference wavelength of [w] nanometres *)
Definition txt_row (w : R) (r : row) : Prop :=
  example_words "example_file" "example_file.txt" r /\ r_lo r = Fin 400 /\ r_hi r = Fin 700 /\
  r_n r = Fin (table_index w) /\ r_k r = Fin (table_extinction w).

(** the row of example_file2.yml for a reference wavelength of [w] nanometres or [v] micrometres:
    the index is that of the formula, the extinction that of the table, with the numbers that are
    in the file: those of the script to eight digits *)
Definition yml_row (w v : R) (r : row) : Prop :=
  example_words "example_file2" "example_file2.yml" r /\
  (exists lo hi, r_lo r = Fin lo /\ r_hi r = Fin hi /\ Rabs (lo - 400) <= 2 / 10 ^ 5 /\ Rabs (hi - 700) <= 2 / 10 ^ 5) /\
  (exists c0 b1 c1 b2 c2 b3 c3, Forall2 shown_near (map Fin coefficients) (map Fin [c0; b1; c1; b2; c2; b3; c3]) /\
     r_n r = Fin (sqrt (1 + c0 + b1 * v ^ 2 / (v ^ 2 - c1 ^ 2) + b2 * v ^ 2 / (v ^ 2 - c2 ^ 2) + b3 * v ^ 2 / (v ^ 2 - c3 ^ 2)))) /\
  (exists q a b, near_table (5 / 10 ^ 9) (xrows table_k) (xrows q) /\ adjacent q a b /\ fst a <= w <= fst b /\ r_k r = Fin (line a b w)).
