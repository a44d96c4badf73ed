(** Specification vocabulary for the interactive methods (C86). *)
From Coq Require Import Permutation.
From Verif Require Import PyBase PyStr XReal SpectrumModel SpectralModel MaterialModel FileModel PathModel ConfigModel CatalogueModel CatalogueSpec CsvModel InteractiveModel.
Open Scope string_scope.
Open Scope list_scope.

(** ** what a user can do with a grid: sort and filter it, and change it in any way if it is editable.
    The rows keep their labels when sorted or filtered. *)
Inductive handled (editable : bool) : frame -> frame -> Prop :=
| h_sorted f f' : Permutation f f' -> handled editable f f'
| h_filtered f1 x f2 : handled editable (f1 ++ x :: f2) (f1 ++ f2)
| h_edited f f' : editable = true -> handled editable f f'
| h_more f f' f'' : handled editable f f' -> handled editable f' f'' -> handled editable f f''.

(** what happens in a session *)
Inductive event :=
| View | Edit | Save                            (* the three methods *)
| User                                          (* the user does something with the grid *)
| Register (id : row_id) (a : string) | SetDatabase (f : frame).
Inductive happens : session -> event -> session -> Prop :=
| on_view s : happens s View (snd (view_interactive s))
| on_edit s : happens s Edit (snd (edit_interactive s))
| on_save s : happens s Save (snd (save_interactive s))
| on_user c e f f' : handled e f f' -> happens (mkSession c (Some (mkWidget e f))) User (mkSession c (Some (mkWidget e f')))
| on_register s id a : happens s (Register id a) (snd (s_register s id a))
| on_set s f : happens s (SetDatabase f) (s_set s f).
Inductive history : session -> list event -> session -> Prop :=
| hist_nil s : history s [] s
| hist_cons s e s1 es s2 : happens s e s1 -> history s1 es s2 -> history s (e :: es) s2.
