(** Theorems about the catalogue: aliases, loading materials, rebuilding (C52-C54). *)
From Verif Require Import PyBase PyStr XReal CNum SpectrumModel SpectrumSpec SpectrumProofs SpectralModel SpectralSpec TextModel MaterialModel MaterialSpec MaterialProofs MatFileProofs FileModel IOSpec PathModel ConfigModel CatalogueModel CatalogueSpec CatalogueProofs NormProofs RebuildProofs WalkProofs SaveProofs CatalogueSample SpectralThms.
From Verif Require Import CatalogueThms.
Open Scope R_scope.
Open Scope string_scope.
Open Scope list_scope.

(** C52: registering aliases with row numbers, in any order, successful or not, keeps non-empty
    aliases distinct (and the row labels) *)
Theorem C52_distinct : forall f calls f', labels_distinct f -> aliases_distinct f ->
  registered f calls f' -> labels_distinct f' /\ aliases_distinct f'.
Proof. exact C52_distinct_l. Qed.
Print Assumptions C52_distinct.

(** C52: a failed call changes nothing, whatever identifies the row *)
Theorem C52_failed : forall f id a e f', register_alias f id a = (Raise e, f') -> f' = f.
Proof. exact C52_failed_l. Qed.
Print Assumptions C52_failed.

(** C52: a successful call for an existing row sets the alias of that row and changes nothing else *)
Theorem C52_success : forall f i a f', labels_distinct f -> In i (map fst f) ->
  register_alias f (RInt i) a = (Ok tt, f') -> alias_set (fun j => j = i) a f f'.
Proof. exact C52_success_l. Qed.
Print Assumptions C52_success.

(** C52: for an existing row the call succeeds exactly when no other row has the alias, and
    otherwise raises ValueError *)
Theorem C52_when : forall f i r a, labels_distinct f -> In (i, r) f ->
  (fst (register_alias f (RInt i) a) = Ok tt <-> ~ alias_used f a \/ r_alias r = KStr a) /\
  (alias_used f a -> r_alias r <> KStr a -> register_alias f (RInt i) a = (Raise ValueError, f)).
Proof. exact C52_when_l. Qed.
Print Assumptions C52_when.

(** C52: anything that is neither a row number nor a selection is refused *)
Theorem C52_other_type : forall f a, register_alias f ROther a = (Raise ValueError, f).
Proof. exact C52_other_type_l. Qed.
Print Assumptions C52_other_type.

(** C52: a row number that does not exist is not refused: the catalogue gets a new row with this
    alias and nothing else. Only if the alias is in use the call raises KeyError. *)
Theorem C52_missing_row_refuted : forall f i a, labels_distinct f -> ~ In i (map fst f) ->
  (~ alias_used f a -> exists r, empty_row a r /\ register_alias f (RInt i) a = (Ok tt, f ++ [(i, r)])) /\
  (alias_used f a -> register_alias f (RInt i) a = (Raise KeyError, f)).
Proof. exact C52_missing_row_refuted_l. Qed.
Print Assumptions C52_missing_row_refuted.

(** C52: a selection is refused when the alias is in use, whichever row has it (TypeError), or when
    one of its rows is not in the catalogue (KeyError); nothing changes *)
Theorem C52_selection_refused : forall f labels a,
  (alias_used f a -> register_alias f (RFrame labels) a = (Raise TypeError, f)) /\
  (~ alias_used f a -> forall i, In i labels -> ~ In i (map fst f) -> register_alias f (RFrame labels) a = (Raise KeyError, f)).
Proof. exact C52_selection_refused_l. Qed.
Print Assumptions C52_selection_refused.

(** C52: a selection of existing rows gives all of them the alias *)
Theorem C52_selection : forall f labels a, ~ alias_used f a -> (forall i, In i labels -> In i (map fst f)) ->
  exists f', register_alias f (RFrame labels) a = (Ok tt, f') /\ alias_set (fun j => In j labels) a f f'.
Proof. exact C52_selection_l. Qed.
Print Assumptions C52_selection.

(** C52: so with two rows in the selection the aliases are no longer distinct *)
Theorem C52_selection_refuted : forall f labels i j a f', i <> j -> In i labels -> In j labels ->
  In i (map fst f) -> In j (map fst f) -> labels_distinct f -> a <> "" ->
  register_alias f (RFrame labels) a = (Ok tt, f') -> ~ aliases_distinct f'.
Proof. exact C52_selection_refuted_l. Qed.
Print Assumptions C52_selection_refuted.

(** C52: an alias cannot be taken away again while some row has none: the empty alias counts as
    used by that row *)
Theorem C52_clear_refuted : forall f i r a, labels_distinct f -> In (i, r) f -> r_alias r = KStr a -> a <> "" ->
  alias_used f "" -> register_alias f (RInt i) "" = (Raise ValueError, f).
Proof. exact C52_clear_refuted_l. Qed.
Print Assumptions C52_clear_refuted.

Example C52_refused_instance : register_alias sample_frame (RFrame [0; 9]%Z) "both" = (Raise KeyError, sample_frame) /\
  register_alias sample_frame (RFrame [0; 2]%Z) "" = (Raise TypeError, sample_frame).
Proof.
  split.
  - apply (proj2 (C52_selection_refused sample_frame [0; 9]%Z "both")) with (i := 9%Z); [|cbn; tauto|cbn; lia].
    rewrite <- used_iff. discriminate.
  - apply (proj1 (C52_selection_refused sample_frame [0; 2]%Z "")). apply used_iff. reflexivity.
Qed.

Example C52_instance : labels_distinct sample_frame /\ aliases_distinct sample_frame /\
  registered sample_frame [(0, "window"); (1, "window"); (7, "ghost")]%Z
    (numbered [sample_row "window" "glass" "glass.txt" "UserData" "nanometer"; row_metal; row_silver] ++ [(7%Z, nan_row "ghost")]) /\
  register_alias sample_frame (RFrame [0; 2]%Z) "both" =
    (Ok tt, numbered [sample_row "both" "glass" "glass.txt" "UserData" "nanometer"; row_metal;
                      sample_row "both" "Ag" "database\data\main\Ag\x.yml" "RefractiveIndexInfo" "micrometer"]) /\
  alias_used sample_frame "" /\ ~ alias_used sample_frame "both".
Proof.
  assert (L : labels_distinct sample_frame).
  { unfold labels_distinct. cbn. repeat (constructor; [cbn; intros H; decompose [or] H; discriminate || assumption|]). constructor. }
  split; [exact L|]. split.
  { apply distinct_labels; [exact L|]. intros l l' r r' a Na I I'. cbn in I, I'.
    decompose [or] I; decompose [or] I'; try contradiction; repeat match goal with H : (_, _) = (_, _) |- _ => injection H as <- <- end;
      intros E E'; try reflexivity; injection E as <-; try discriminate E'; now destruct Na. }
  split; [econstructor; [reflexivity|]; econstructor; [reflexivity|]; econstructor; [reflexivity|]; constructor|].
  split; [reflexivity|]. split; [exists 0%Z, row_glass; split; [now left|reflexivity]|].
  intros (l & r & I & E). cbn in I. decompose [or] I; try contradiction;
    repeat match goal with H : (_, _) = (_, _) |- _ => injection H as <- <- end; discriminate E.
Qed.

(** C53: with the default numbering an alias loads the file of the first row that carries it, with
    the type and unit of the row as defaults *)
Theorem C53_alias : forall W c a r base path t u,
  default_numbering (c_db c) -> c_base c = abs_path base -> Forall plain_name base ->
  first_with (c_db c) a r -> located base r path t u ->
  get_material W c (IdStr a) = loaded (w_read W) path t u.
Proof. exact C53_alias_l. Qed.
Print Assumptions C53_alias.

(** C53: an alias no row has raises ValueError, and so does an identifier of another type *)
Theorem C53_unknown : forall W c a, ~ alias_used (c_db c) a -> get_material W c (IdStr a) = Raise ValueError.
Proof. exact C53_unknown_l. Qed.
Print Assumptions C53_unknown.

Theorem C53_other_type : forall W c, get_material W c IdOther = Raise ValueError.
Proof. exact C53_other_type_l. Qed.
Print Assumptions C53_other_type.

(** C53: a number loads the row at that position; negative numbers count from the end *)
Theorem C53_number : forall W c p r base path t u,
  c_base c = abs_path base -> Forall plain_name base ->
  row_at (c_db c) p r -> located base r path t u ->
  get_material W c (IdInt (Z.of_nat p)) = loaded (w_read W) path t u /\
  get_material W c (IdInt (Z.of_nat p - Z.of_nat (length (c_db c)))) = loaded (w_read W) path t u.
Proof. exact C53_number_l. Qed.
Print Assumptions C53_number.

Theorem C53_out_of_range : forall W c i,
  (i < - Z.of_nat (length (c_db c)))%Z \/ (Z.of_nat (length (c_db c)) <= i)%Z ->
  get_material W c (IdInt i) = Raise IndexError.
Proof. exact C53_out_of_range_l. Qed.
Print Assumptions C53_out_of_range.

(** C53: registering aliases for existing rows keeps the default numbering *)
Theorem C53_numbering : forall f i a res f', default_numbering f -> (0 <= i <= Z.of_nat (length f))%Z ->
  register_alias f (RInt i) a = (res, f') -> default_numbering f'.
Proof. exact C53_numbering_l. Qed.
Print Assumptions C53_numbering.

(** C53: without the default numbering the label of the row that carries the alias is used as a
    position *)
Theorem C53_label_is_position : forall W c f1 l r f2 a, c_db c = f1 ++ (l, r) :: f2 -> r_alias r = KStr a ->
  (forall l' r', In (l', r') f1 -> r_alias r' <> KStr a) ->
  get_material W c (IdStr a) = get_material W c (IdInt l).
Proof. exact C53_label_is_position_l. Qed.
Print Assumptions C53_label_is_position.

(** C53: so a catalogue with other row labels (set_database with a sorted or filtered frame) can
    load another row's file *)
Theorem C53_other_row_refuted : exists W c a r base path t u m m',
  labels_distinct (c_db c) /\ aliases_distinct (c_db c) /\ c_base c = abs_path base /\ Forall plain_name base /\
  first_with (c_db c) a r /\ located base r path t u /\
  loaded (w_read W) path t u = Ok m /\ get_material W c (IdStr a) = Ok m' /\ m_name m = "eps" /\ m_name m' = "nk".
Proof. exact C53_other_row_refuted_l. Qed.
Print Assumptions C53_other_row_refuted.

(** C53: the empty row a wrong row number creates (see C52) can be found but not loaded *)
Theorem C53_empty_row : forall W c f a, default_numbering (c_db c) -> ~ alias_used (c_db c) a ->
  register_alias (c_db c) (RInt (Z.of_nat (length (c_db c)))) a = (Ok tt, f) ->
  get_material W (mkCat (c_base c) (c_file c) (c_interactive c) (c_ref c) f) (IdStr a) = Raise AttributeError.
Proof. exact C53_empty_row_l. Qed.
Print Assumptions C53_empty_row.

Example C53_instance : default_numbering sample_frame /\ first_with sample_frame "silver" row_silver /\
  located ["home"; "cat"] row_silver "/home/cat/RefractiveIndexInfo/database/data/main/Ag/x.yml" "wavelength" "micrometer" /\
  abs_path ["home"; "cat"] = "/home/cat" /\
  exists m, get_material sample_world (mkCat "/home/cat" "catalogue.csv" false sample_ref sample_frame) (IdStr "silver") = Ok m /\ m_unit m = "micrometer".
Proof.
  assert (P : forall s, In s ["database"; "data"; "main"; "Ag"; "x.yml"; "RefractiveIndexInfo"] -> plain_name s /\ ~ In "\"%char (chars s)).
  { intros s I. cbn in I. decompose [or] I; try contradiction; subst; repeat split; try discriminate; cbn;
      intros K; decompose [or] K; try contradiction; discriminate. }
  split; [apply numbered_default|]. split.
  { exists [(0%Z, row_glass); (1%Z, row_metal)], 2%Z, []. split; [reflexivity|]. split; [reflexivity|].
    intros l r I. cbn in I. decompose [or] I; try contradiction; repeat match goal with H : (_, _) = (_, _) |- _ => injection H as <- <- end; discriminate. }
  split.
  { exists "RefractiveIndexInfo", "database\data\main\Ag\x.yml", ["database"; "data"; "main"; "Ag"; "x.yml"].
    split; [reflexivity|]. split; [apply P; cbn; tauto|]. split; [reflexivity|]. split; [|auto].
    split; [discriminate|]. split; [repeat (constructor; [apply P; cbn; tauto|]); constructor|].
    split; [repeat (constructor; [apply P; cbn; tauto|]); constructor|]. right. reflexivity. }
  split; [reflexivity|].
  destruct (table_loaded sample_read "/home/cat/RefractiveIndexInfo/database/data/main/Ag/x.yml" "nk" "nk" 3 [[0.2; 1; 2]; [2; 0.1; 5]] "" "" "wavelength" "micrometer" "wavelength" "micrometer" "um")
    as (m & Hm & _ & _ & _ & Um & _); [cbn; tauto|reflexivity| |right; split; reflexivity|right; split; reflexivity| |].
  - split; [discriminate|]. split; [repeat constructor|]. cbn. constructor; [cbn; intros [H|[]]; lra|]. constructor; [auto|constructor].
  - exists ["micrometer"; "micrometre"; "um"]. cbn; auto 10.
  - exists m. split; [|exact Um]. rewrite <- Hm. reflexivity.
Qed.

(** C54: rows of an enabled module that is not selected stay as they were, with their aliases, in
    order *)
Theorem C54_kept : forall X W c rb base file mods ref t u cat old m,
  configured c base file mods ref t u -> mk_catalogue X W c rb = Ok cat ->
  w_csv W (path_join base file) = Ok old -> In (m, true) mods -> ~ selects rb m ->
  module_rows m (rows_of (c_db cat)) = module_rows m old.
Proof. exact C54_kept_l. Qed.
Print Assumptions C54_kept.

(** C54: the rows of an enabled, selected module are those read now; they have no alias *)
Theorem C54_rebuilt : forall X W c rb base file mods ref t u cat m,
  configured c base file mods ref t u -> mk_catalogue X W c rb = Ok cat ->
  rb <> RStr "None" -> In (m, true) mods -> selects rb m ->
  exists s, mk_spectrum (InVals (VS ref)) t u = Ok s /\
    read_module X W s (path_join base m) m = Ok (module_rows m (rows_of (c_db cat))) /\
    Forall (fun r => r_alias r = KStr "") (module_rows m (rows_of (c_db cat))).
Proof. exact C54_rebuilt_l. Qed.
Print Assumptions C54_rebuilt.

(** C54: rebuilding drops every row that belongs to no enabled module *)
Theorem C54_dropped : forall X W c rb base file mods ref t u cat,
  configured c base file mods ref t u -> mk_catalogue X W c rb = Ok cat -> rb <> RStr "None" ->
  Forall (fun r => exists m, r_module r = KStr m /\ In (m, true) mods) (rows_of (c_db cat)).
Proof. exact C54_dropped_l. Qed.
Print Assumptions C54_dropped.

(** C54: the modules follow each other in the order of the configuration *)
Theorem C54_order : forall X W c rb base file mods ref t u cat,
  configured c base file mods ref t u -> mk_catalogue X W c rb = Ok cat -> rb <> RStr "None" ->
  rows_of (c_db cat) =
  concat (map (fun mv => if snd mv : bool then module_rows (fst mv) (rows_of (c_db cat)) else []) mods).
Proof. exact C54_order_l. Qed.
Print Assumptions C54_order.

(** C54: a new catalogue object has the default row numbering, whatever was rebuilt *)
Theorem C54_numbered : forall X W c rb base file mods ref t u cat,
  configured c base file mods ref t u -> mk_catalogue X W c rb = Ok cat -> default_numbering (c_db cat).
Proof. exact C54_numbered_l. Qed.
Print Assumptions C54_numbered.

(** C54: without rebuilding the catalogue is the stored one *)
Theorem C54_not_rebuilt : forall X W c base file mods ref t u cat,
  configured c base file mods ref t u -> mk_catalogue X W c (RStr "None") = Ok cat ->
  w_csv W (path_join base file) = Ok (rows_of (c_db cat)).
Proof. exact C54_not_rebuilt_l. Qed.
Print Assumptions C54_not_rebuilt.

(** C54: naming one disabled module raises ValueError (provided that modules whose names happen to
    be contained in the name can be read) *)
Theorem C54_disabled : forall X W c base file mods ref t u s old m,
  configured c base file mods ref t u -> validate_config (w_checks W) c = Ok tt ->
  mk_spectrum (InVals (VS ref)) t u = Ok s ->
  (m <> "All" -> w_csv W (path_join base file) = Ok old) -> m <> "None" -> In (m, false) mods ->
  (forall m', In (m', true) mods -> selects (RStr m) m' -> exists rows, read_module X W s (path_join base m') m' = Ok rows) ->
  mk_catalogue X W c (RStr m) = Raise ValueError.
Proof. exact C54_disabled_l. Qed.
Print Assumptions C54_disabled.

(** C54: otherwise construction succeeds when all selected modules can be read (and qgrid is there
    if it is asked for) *)
Theorem C54_succeeds : forall X W c rb base file mods ref t u s old,
  configured c base file mods ref t u -> validate_config (w_checks W) c = Ok tt ->
  mk_spectrum (InVals (VS ref)) t u = Ok s ->
  (rb <> RStr "All" -> w_csv W (path_join base file) = Ok old) -> rb <> RNone -> rb <> RStr "None" ->
  (forall m, In (m, false) mods -> rb <> RStr m) ->
  (forall m, In (m, true) mods -> selects rb m -> exists rows, read_module X W s (path_join base m) m = Ok rows) ->
  (dget c "Interactive" = Some (CBool true) -> w_qgrid W = true) ->
  exists cat, mk_catalogue X W c rb = Ok cat.
Proof. exact C54_succeeds_l. Qed.
Print Assumptions C54_succeeds.

(** C54: an error of the build is the ValueError for a disabled module, an error of a selected
    module, or (at the end) the missing qgrid *)
Theorem C54_errors : forall X W c rb base file mods ref t u s old e,
  configured c base file mods ref t u -> validate_config (w_checks W) c = Ok tt ->
  mk_spectrum (InVals (VS ref)) t u = Ok s ->
  (rb <> RStr "All" -> w_csv W (path_join base file) = Ok old) -> rb <> RNone -> rb <> RStr "None" ->
  mk_catalogue X W c rb = Raise e ->
  (exists m, In (m, false) mods /\ rb = RStr m /\ e = ValueError) \/
  (exists m, In (m, true) mods /\ selects rb m /\ read_module X W s (path_join base m) m = Raise e) \/
  (dget c "Interactive" = Some (CBool true) /\ w_qgrid W = false /\ e = GenericException).
Proof. exact C54_errors_l. Qed.
Print Assumptions C54_errors.

(** C54: an enabled and selected module of another name than the three known ones raises KeyError *)
Theorem C54_unknown_module : forall X W s dir m, m <> "RefractiveIndexInfo" -> m <> "Filmetrics" -> m <> "UserData" ->
  read_module X W s dir m = Raise KeyError.
Proof. exact C54_unknown_module_l. Qed.
Print Assumptions C54_unknown_module.

(** C54: the documented argument rebuild=None raises TypeError as soon as a module is enabled *)
Theorem C54_none_refuted : forall X W c base file mods ref t u s old m,
  configured c base file mods ref t u -> validate_config (w_checks W) c = Ok tt ->
  mk_spectrum (InVals (VS ref)) t u = Ok s -> w_csv W (path_join base file) = Ok old -> In (m, true) mods ->
  mk_catalogue X W c RNone = Raise TypeError.
Proof. exact C54_none_refuted_l. Qed.
Print Assumptions C54_none_refuted.

(** selecting the user data of the sample catalogue *)
Example C54_instance : configured (sample_config sample_modules) "/home/cat" "catalogue.csv" sample_modules (Fin 550) "wavelength" "nanometer" /\
  validate_config (w_checks sample_world) (sample_config sample_modules) = Ok tt /\
  mk_spectrum (InVals (VS (Fin 550))) "wavelength" "nanometer" = Ok sample_ref /\
  w_csv sample_world (path_join "/home/cat" "catalogue.csv") = Ok [row_glass; row_metal; row_silver] /\
  selects (RStr "UserData") "UserData" /\ ~ selects (RStr "UserData") "RefractiveIndexInfo" /\
  mk_catalogue toy_scipy sample_world (sample_config sample_modules) (RList []) =
    Ok (mkCat "/home/cat" "catalogue.csv" false sample_ref sample_frame) /\
  mk_catalogue toy_scipy sample_world (sample_config [("UserData", false); ("RefractiveIndexInfo", true)]) (RList []) =
    Ok (mkCat "/home/cat" "catalogue.csv" false sample_ref (numbered [row_silver])) /\
  mk_catalogue toy_scipy sample_world (sample_config sample_modules) (RStr "Filmetrics") = Raise ValueError.
Proof.
  split; [apply sample_configured; cbn; repeat (constructor; [cbn; intros H; decompose [or] H; discriminate || assumption|]); constructor|].
  repeat (split; [reflexivity|]). split; [constructor; exists "", ""; reflexivity|].
  split; [|repeat split; reflexivity].
  intros K. destruct (selects_dec (RStr "UserData") "RefractiveIndexInfo") as [K'|K'].
  - inversion K as [| |s m Hp]; subst. apply contains_iff in Hp. vm_compute in Hp. discriminate Hp.
  - contradiction.
Qed.
