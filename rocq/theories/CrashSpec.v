(** Specification vocabulary for saving the catalogue with an interruption (C85). *)
From Verif Require Import PyBase PyStr XReal SpectrumModel SpectralModel MaterialModel FileModel IOSpec SaveSpec PathModel ConfigModel CatalogueModel CatalogueSpec CsvModel CsvSpec.
Open Scope string_scope.
Open Scope list_scope.

Section Crash.
Variable L : csvlib.
(** a world that differs only in the catalogue file, which holds [text] *)
Definition holding (W : world) (c : catalogue) (text : string) (W' : world) : Prop :=
  let path := path_join (c_base c) (c_file c) in
  w_checks W' = w_checks W /\ w_qgrid W' = w_qgrid W /\ w_read W' = w_read W /\ w_yaml W' = w_yaml W /\ w_listdir W' = w_listdir W /\
  w_csv W' path = read_csv L text /\ forall p, p <> path -> w_csv W' p = w_csv W p /\ w_isfile W' p = w_isfile W p.
(** save_to_file (catalogue.py:211-215) was interrupted after the line with the column names: the
    file holds a beginning of what was to be written *)
Definition interrupted (W : world) (c : catalogue) (W' : world) : Prop :=
  exists text, prefix_of (csv_line L columns) text /\ prefix_of text (to_csv L (c_db c)) /\ holding W c text W'.

(** [us] are the texts [ts] of which the writing stopped in one of them: the earlier ones are
    complete, the later ones are empty *)
Definition cut_in (ts us : list string) : Prop :=
  exists done s rest q, ts = done ++ s :: rest /\ prefix_of q s /\ us = done ++ q :: map (fun _ => "") rest.
(** a reference value read in a text: none if the text is empty *)
Definition reference_in (s : string) (x : xr) : Prop := (s = "" /\ x = NaN) \/ (s <> "" /\ num_of L s = Some x).
(** the row [r'] read in a line for the row [r] that was cut after the comma before its upper bound *)
Record row_cut (r r' : row) : Prop := mkCut {
  k_alias : text_back L r "Alias" (r_alias r) (r_alias r');
  k_name : text_back L r "Name" (r_name r) (r_name r');
  k_full : text_back L r "FullName" (r_full r) (r_full r');
  k_author : text_back L r "Author" (r_author r) (r_author r');
  k_comment : text_back L r "Comment" (r_comment r) (r_comment r');
  k_reference : text_back L r "Reference" (r_ref r) (r_ref r');
  k_stype : text_back L r "SpectrumType" (r_stype r) (r_stype r');
  k_unit : text_back L r "Unit" (r_unit r) (r_unit r');
  k_lo : number_back L (r_lo r) (r_lo r');
  k_rest : exists path module hi n k path' module',
    text_back L r "Path" (r_path r) (KStr path) /\ text_back L r "Module" (r_module r) (KStr module) /\
    cut_in [num_text L (r_hi r); num_text L (r_n r); num_text L (r_k r); path; module] [hi; n; k; path'; module'] /\
    num_of L hi = Some (r_hi r') /\ reference_in n (r_n r') /\ reference_in k (r_k r') /\
    r_path r' = KStr path' /\ r_module r' = KStr module' }.
End Crash.
