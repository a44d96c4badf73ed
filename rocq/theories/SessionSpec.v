(** Specification vocabulary for using the catalogue in several sessions (C87). *)
From Verif Require Import PyBase PyStr XReal SpectrumModel SpectralModel MaterialModel FileModel PathModel ConfigModel CatalogueModel CatalogueSpec CsvModel CsvSpec.
Open Scope string_scope.
Open Scope list_scope.

(** a row that is written and read without change: all entries are texts that can be written, the
    bounds are numbers, and the numbers survive being written and read *)
Record lasting (L : csvlib) (r : row) : Prop := mkLasting {
  la_texts : texts_writable L r;
  la_cells : forall c, In c [r_alias r; r_name r; r_full r; r_author r; r_comment r; r_ref r; r_stype r; r_unit r; r_path r; r_module r] ->
             exists s, c = KStr s;
  la_bounded : bounded r;
  la_numbers : number_back L (r_lo r) (r_lo r) /\ number_back L (r_hi r) (r_hi r) /\
               (r_n r <> NaN -> number_back L (r_n r) (r_n r)) /\ (r_k r <> NaN -> number_back L (r_k r) (r_k r)) }.

(** any number of sessions, each of which opens the catalogue, registers aliases with row numbers
    (calls that raise included) and saves it; with the list of all calls *)
Inductive sessions (X : scipy) (L : csvlib) (config : cfg) : world -> list (Z * string) -> world -> Prop :=
| ses_none W : sessions X L config W [] W
| ses_one W cat calls f rest W' : mk_catalogue X W config (RStr "None") = Ok cat -> registered (c_db cat) calls f ->
    sessions X L config (save_to_file L W (set_database cat f)) rest W' -> sessions X L config W (calls ++ rest) W'.
