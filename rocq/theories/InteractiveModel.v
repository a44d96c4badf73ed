(** Model of the interactive methods of the catalogue (catalogue.py:166-209). qgrid itself is an
    external library: a widget holds its own copy of the frame, which the user changes. *)
From Verif Require Import PyBase PyStr XReal SpectrumModel SpectralModel MaterialModel FileModel PathModel ConfigModel CatalogueModel CsvModel.
Open Scope string_scope.
Open Scope list_scope.

(** a qgrid widget: whether it can be edited, and the frame it shows (get_changed_df) *)
Record widget := mkWidget { g_editable : bool; g_frame : frame }.
(** the catalogue object with its attribute qgrid_widget (catalogue.py:119, None at first) *)
Record session := mkSession { s_cat : catalogue; s_widget : option widget }.

(** catalogue.py:119 *)
Definition opened (c : catalogue) : session := mkSession c None.

(** catalogue.py:171-178, 186-193: the widget is made from the current database and remembered.
    Simplification: toolbar and precision of the display are left out. *)
Definition make_widget (s : session) (editable : bool) : res widget * session :=
  if c_interactive (s_cat s) then
    let w := mkWidget editable (c_db (s_cat s)) in (Ok w, mkSession (s_cat s) (Some w))
  else (Raise ValueError, s).
(** catalogue.py:166-178 view_interactive *)
Definition view_interactive (s : session) : res widget * session := make_widget s false.
(** catalogue.py:181-193 edit_interactive *)
Definition edit_interactive (s : session) : res widget * session := make_widget s true.
(** catalogue.py:195-201 save_interactive. None has no get_changed_df. *)
Definition save_interactive (s : session) : res unit * session :=
  if c_interactive (s_cat s) then
    match s_widget s with
    | None => (Raise AttributeError, s)
    | Some w => (Ok tt, mkSession (set_database (s_cat s) (g_frame w)) (Some w))
    end
  else (Raise ValueError, s).
(** catalogue.py:217-242 register_alias and 207-209 set_database on the session *)
Definition s_register (s : session) (id : row_id) (a : string) : res unit * session :=
  let (r, f) := register_alias (c_db (s_cat s)) id a in (r, mkSession (set_database (s_cat s) f) (s_widget s)).
Definition s_set (s : session) (f : frame) : session := mkSession (set_database (s_cat s) f) (s_widget s).
