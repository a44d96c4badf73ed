(** Theorems about editing the catalogue interactively (C86). *)
From Coq Require Import Permutation.
From Verif Require Import PyBase PyStr XReal CNum SpectrumModel SpectralModel MaterialModel FileModel IOSpec PathModel ConfigModel CatalogueModel CatalogueSpec CatalogueProofs NormProofs CatalogueSample SpectralThms CatalogueThms CsvModel InteractiveModel InteractiveSpec.
From Verif Require Import InteractiveThms.
Open Scope R_scope.
Open Scope string_scope.
Open Scope list_scope.

(** C86: without interactivity in the configuration all three methods raise ValueError and change
    nothing *)
Theorem C86_disabled : forall s, c_interactive (s_cat s) = false ->
  view_interactive s = (Raise ValueError, s) /\ edit_interactive s = (Raise ValueError, s) /\ save_interactive s = (Raise ValueError, s).
Proof. exact C86_disabled_l. Qed.
Print Assumptions C86_disabled.

(** C86: with it, before any grid was opened there is nothing to save: AttributeError, and nothing
    changes *)
Theorem C86_no_grid : forall c es s', c_interactive c = true -> history (opened c) es s' ->
  (forall e, In e es -> e <> View /\ e <> Edit) -> save_interactive s' = (Raise AttributeError, s').
Proof. exact C86_no_grid_l. Qed.
Print Assumptions C86_no_grid.

(** C86: opening grids and working in them never changes the catalogue by itself *)
Theorem C86_untouched : forall s es s', history s es s' -> (forall e, In e es -> e = View \/ e = Edit \/ e = User) ->
  s_cat s' = s_cat s.
Proof. exact C86_untouched_l. Qed.
Print Assumptions C86_untouched.

(** C86: save_interactive makes the database what the grid shows that was opened last: the catalogue
    at the time of opening, as the user has handled it since, whatever else has happened to the
    catalogue in between; folder, file and reference spectrum stay *)
Theorem C86_saved : forall s b es s1, c_interactive (s_cat s) = true -> b = View \/ b = Edit ->
  history s (b :: es) s1 -> (forall e, In e es -> e <> View /\ e <> Edit) ->
  exists s2, save_interactive s1 = (Ok tt, s2) /\
    handled (match b with Edit => true | _ => false end) (c_db (s_cat s)) (c_db (s_cat s2)) /\
    ((forall e, In e es -> e <> User) -> c_db (s_cat s2) = c_db (s_cat s)) /\
    c_base (s_cat s2) = c_base (s_cat s) /\ c_file (s_cat s2) = c_file (s_cat s) /\ c_ref (s_cat s2) = c_ref (s_cat s).
Proof. exact C86_saved_l. Qed.
Print Assumptions C86_saved.

(** C86: a grid opened for viewing alters no row, whatever the user does with it and whenever it is
    saved: every row of the new database was there, with its label, and distinct aliases stay distinct *)
Theorem C86_view_only : forall s es s1 s2, c_interactive (s_cat s) = true ->
  history s (View :: es) s1 -> (forall e, In e es -> e <> View /\ e <> Edit) -> save_interactive s1 = (Ok tt, s2) ->
  incl (c_db (s_cat s2)) (c_db (s_cat s)) /\
  (labels_distinct (c_db (s_cat s)) -> labels_distinct (c_db (s_cat s2))) /\
  (aliases_distinct (c_db (s_cat s)) -> aliases_distinct (c_db (s_cat s2))).
Proof. exact C86_view_only_l. Qed.
Print Assumptions C86_view_only.

(** C86: but saving a grid that was only viewed can drop rows: a filter is enough *)
Theorem C86_filtered_refuted : forall c f1 x f2, c_interactive c = true -> c_db c = f1 ++ x :: f2 ->
  exists s1 s2, history (opened c) [View; User] s1 /\ save_interactive s1 = (Ok tt, s2) /\ c_db (s_cat s2) = f1 ++ f2.
Proof. exact C86_filtered_refuted_l. Qed.
Print Assumptions C86_filtered_refuted.

(** C86: and can make an alias load the file of another row: sorting is enough *)
Theorem C86_sorted_refuted : forall W c r1 r2 rest a base path t u, c_interactive c = true -> c_base c = abs_path base -> Forall plain_name base ->
  c_db c = numbered (r1 :: r2 :: rest) -> r_alias r1 = KStr a -> r_alias r2 <> KStr a -> located base r2 path t u ->
  exists s1 s2, history (opened c) [View; User] s1 /\ save_interactive s1 = (Ok tt, s2) /\
    get_material W (s_cat s2) (IdStr a) = loaded (w_read W) path t u.
Proof. exact C86_sorted_refuted_l. Qed.
Print Assumptions C86_sorted_refuted.

(** C86: an alias registered while a grid is open is lost when the grid is saved, although both calls
    succeed *)
Theorem C86_lost_alias_refuted : forall s i a s1 s2 s3 b, c_interactive (s_cat s) = true -> b = View \/ b = Edit ->
  ~ alias_used (c_db (s_cat s)) a ->
  history s [b] s1 -> s_register s1 (RInt i) a = (Ok tt, s2) -> save_interactive s2 = (Ok tt, s3) ->
  alias_used (c_db (s_cat s2)) a /\ c_db (s_cat s3) = c_db (s_cat s) /\ ~ alias_used (c_db (s_cat s3)) a.
Proof. exact C86_lost_alias_refuted_l. Qed.
Print Assumptions C86_lost_alias_refuted.

(** C86: edits are not checked: after saving an edited grid two rows can carry the same alias *)
Theorem C86_duplicate_alias_refuted : forall c i j r1 r2 a, c_interactive c = true ->
  nth_error (c_db c) i = Some r1 -> nth_error (c_db c) j = Some r2 -> (i < j)%nat -> r_alias (snd r1) = KStr a -> a <> "" ->
  exists s1 s2, history (opened c) [Edit; User] s1 /\ save_interactive s1 = (Ok tt, s2) /\ ~ aliases_distinct (c_db (s_cat s2)) /\
    (forall p, p <> j -> nth_error (c_db (s_cat s2)) p = nth_error (c_db c) p).
Proof. exact C86_duplicate_alias_refuted_l. Qed.
Print Assumptions C86_duplicate_alias_refuted.

Definition grid_cat : catalogue := mkCat "/home/cat" "catalogue.csv" true sample_ref
  (numbered [sample_row "window" "glass" "glass.txt" "UserData" "nanometer"; row_metal; row_silver]).
(** a session: the grid is edited, an alias is registered meanwhile (and lost), the edit is saved *)
Example C86_instance : exists s1 s2 s3,
  history (opened grid_cat) [Edit; User; Register (RInt 2) "Ag"] s1 /\ save_interactive s1 = (Ok tt, s2) /\
  c_db (s_cat s2) = numbered [sample_row "pane" "glass" "glass.txt" "UserData" "nanometer"; row_metal; row_silver] /\
  c_interactive grid_cat = true /\ ~ alias_used (c_db grid_cat) "Ag" /\
  s_register (snd (edit_interactive (opened grid_cat))) (RInt 2) "Ag" = (Ok tt, s3) /\
  r_alias row_metal <> KStr "window" /\ located ["home"; "cat"] row_metal "/home/cat/UserData/metal.csv" "wavelength" "nanometer" /\
  save_interactive (opened grid_cat) = (Raise AttributeError, opened grid_cat).
Proof.
  eexists. eexists. eexists. split.
  { eapply hist_cons; [apply on_edit|]. cbn [edit_interactive make_widget opened s_cat grid_cat c_interactive snd].
    eapply hist_cons; [apply on_user|].
    { apply (h_edited true _ (numbered [sample_row "pane" "glass" "glass.txt" "UserData" "nanometer"; row_metal; row_silver])). reflexivity. }
    eapply hist_cons; [apply on_register|apply hist_nil]. }
  split; [reflexivity|]. split; [reflexivity|]. split; [reflexivity|]. split.
  { intros (l & r & I & E). cbn in I. decompose [or] I; try contradiction;
      repeat match goal with H : (_, _) = (_, _) |- _ => injection H as <- <- end; discriminate E. }
  split; [reflexivity|]. split; [discriminate|]. split; [|reflexivity].
  assert (P : forall s, In s ["UserData"; "metal.csv"] -> plain_name s /\ ~ In "\"%char (chars s)).
  { intros s I. cbn in I. decompose [or] I; try contradiction; subst; repeat split; try discriminate; cbn;
      intros K; decompose [or] K; try contradiction; discriminate. }
  exists "UserData", "metal.csv", ["metal.csv"]. split; [reflexivity|]. split; [apply P; cbn; auto|]. split; [reflexivity|].
  split; [|auto]. split; [discriminate|]. split; [constructor; [apply P; cbn; auto|constructor]|].
  split; [constructor; [apply P; cbn; auto|constructor]|]. now left.
Qed.
