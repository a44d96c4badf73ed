(** Specification vocabulary for saving the catalogue and opening it again (C78-C80). *)
From Verif Require Import PyBase PyStr XReal SpectrumModel SpectralModel MaterialModel FileModel IOSpec PathModel ConfigModel CatalogueModel CatalogueSpec CsvModel.
Open Scope string_scope.
Open Scope list_scope.

Section Csv.
Variable L : csvlib.

(** a text without the character 0, and without carriage returns unless they get quoted *)
Definition writable (s : string) : Prop :=
  ~ In nul (chars s) /\ (quotes_cr L = true \/ ~ In cr (chars s)).
(** what the theorems need to know about the libraries: every number is written as some non-empty
    text that can be read as a number again, the empty text is no number, objects in text columns
    have a writable text *)
Record csv_ok : Prop := mkCsvOk {
  ok_shown : forall x, x <> NaN -> show_num L x <> "" /\ writable (show_num L x) /\ exists y, num_of L (show_num L x) = Some y;
  ok_empty : num_of L "" = None;
  ok_obj : forall r col, writable (obj_text L r col) }.

(** all texts of the row are writable *)
Definition cell_writable (c : cell) : Prop := forall s, c = KStr s -> writable s.
Definition texts_writable (r : row) : Prop :=
  cell_writable (r_alias r) /\ cell_writable (r_name r) /\ cell_writable (r_full r) /\ cell_writable (r_author r) /\
  cell_writable (r_comment r) /\ cell_writable (r_ref r) /\ cell_writable (r_stype r) /\ cell_writable (r_unit r) /\
  cell_writable (r_path r) /\ cell_writable (r_module r).
(** both bounds are numbers *)
Definition bounded (r : row) : Prop := r_lo r <> NaN /\ r_hi r <> NaN.

(** what an entry is after saving and opening: texts are the same, missing texts are empty, other
    objects are replaced by their text; numbers are what the library reads in the text it wrote;
    missing reference values stay missing *)
Definition text_back (r : row) (col : string) (c c' : cell) : Prop :=
  match c with KStr s => c' = KStr s | KNaN => c' = KStr "" | KObj => c' = KStr (obj_text L r col) end.
Definition number_back (x y : xr) : Prop := num_of L (show_num L x) = Some y.
Definition reference_back (x y : xr) : Prop := (x = NaN /\ y = NaN) \/ (x <> NaN /\ number_back x y).
Record row_back (r r' : row) : Prop := mkBack {
  b_alias : text_back r "Alias" (r_alias r) (r_alias r');
  b_name : text_back r "Name" (r_name r) (r_name r');
  b_full : text_back r "FullName" (r_full r) (r_full r');
  b_author : text_back r "Author" (r_author r) (r_author r');
  b_comment : text_back r "Comment" (r_comment r) (r_comment r');
  b_ref : text_back r "Reference" (r_ref r) (r_ref r');
  b_stype : text_back r "SpectrumType" (r_stype r) (r_stype r');
  b_unit : text_back r "Unit" (r_unit r) (r_unit r');
  b_lo : number_back (r_lo r) (r_lo r');
  b_hi : number_back (r_hi r) (r_hi r');
  b_n : reference_back (r_n r) (r_n r');
  b_k : reference_back (r_k r) (r_k r');
  b_path : text_back r "Path" (r_path r) (r_path r');
  b_module : text_back r "Module" (r_module r) (r_module r') }.
(** the text of an entry in the file *)
Definition cell_shown (r : row) (col : string) (c : cell) (s : string) : Prop :=
  match c with KStr t => s = t | KNaN => s = "" | KObj => s = obj_text L r col end.
Definition number_shown (x : xr) (s : string) : Prop := (x = NaN /\ s = "") \/ (x <> NaN /\ s = show_num L x).
(** the fourteen fields of a row, in the order of the header *)
Definition row_shown (r : row) (l : list string) : Prop :=
  exists a n fu au co re st un lo hi rn rk pa mo, l = [a; n; fu; au; co; re; st; un; lo; hi; rn; rk; pa; mo] /\
    cell_shown r "Alias" (r_alias r) a /\ cell_shown r "Name" (r_name r) n /\ cell_shown r "FullName" (r_full r) fu /\
    cell_shown r "Author" (r_author r) au /\ cell_shown r "Comment" (r_comment r) co /\ cell_shown r "Reference" (r_ref r) re /\
    cell_shown r "SpectrumType" (r_stype r) st /\ cell_shown r "Unit" (r_unit r) un /\ number_shown (r_lo r) lo /\ number_shown (r_hi r) hi /\
    number_shown (r_n r) rn /\ number_shown (r_k r) rk /\ cell_shown r "Path" (r_path r) pa /\ cell_shown r "Module" (r_module r) mo.
End Csv.

(** ** csv files (RFC 4180 with "\n"): the text between quotes, with quotes doubled; a field is bare
    or quoted; fields are separated by commas; each record is a line *)
Inductive between_quotes : string -> string -> Prop :=
| bq_nil : between_quotes "" ""
| bq_char c s t : c <> """"%char -> between_quotes s t -> between_quotes (String c s) (String c t)
| bq_quote s t : between_quotes s t -> between_quotes (String """"%char s) (String """"%char (String """"%char t)).
Definition csv_quoted (s w : string) : Prop :=
  (w = s /\ forall c, In c (chars s) -> c <> ","%char /\ c <> """"%char /\ c <> nl) \/
  exists b, w = (String """"%char b ++ String """"%char "")%string /\ between_quotes s b.
Definition csv_record (fields : list string) (w : string) : Prop :=
  exists ws, Forall2 csv_quoted fields ws /\ w = (join "," ws ++ NL)%string.
Definition csv_records (rows : list (list string)) (text : string) : Prop :=
  exists ls, Forall2 csv_record rows ls /\ text = fold_right append ""%string ls.
