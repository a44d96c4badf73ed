(** Theorems about saving the catalogue and opening it again (C78-C80). *)
From Verif Require Import PyBase PyStr XReal CNum SpectrumModel SpectrumSpec SpectrumProofs SpectralModel SpectralSpec TextModel MaterialModel MaterialSpec MaterialProofs MatFileProofs FileModel IOSpec PathModel ConfigModel CatalogueModel CatalogueSpec CatalogueProofs NormProofs RebuildProofs WalkProofs SaveProofs CatalogueSample SpectralThms CatalogueThms CsvModel CsvSpec CsvProofs.
From Verif Require Import CsvThms.
Open Scope R_scope.
Open Scope string_scope.
Open Scope list_scope.

(** C78: a catalogue that has been saved is opened again with the same rows in the same order: all
    texts as they were, whatever separators, quotes and line breaks they contain, all numbers as the
    library reads what it wrote; the rows are numbered from 0 *)
Theorem C78_reopened : forall X L W cfg rb cat f,
  csv_ok L -> mk_catalogue X W cfg rb = Ok cat ->
  Forall (texts_writable L) (rows_of f) -> Forall bounded (rows_of f) ->
  exists cat', mk_catalogue X (save_to_file L W (set_database cat f)) cfg (RStr "None") = Ok cat' /\
    Forall2 (row_back L) (rows_of f) (rows_of (c_db cat')) /\ default_numbering (c_db cat') /\
    c_base cat' = c_base cat /\ c_file cat' = c_file cat /\ c_ref cat' = c_ref cat.
Proof. exact C78_reopened_l. Qed.
Print Assumptions C78_reopened.

(** C78: if all entries are texts and the numbers of the rows survive being written and read, the
    rows are exactly the saved ones *)
Theorem C78_exact : forall X L W cfg rb cat f,
  csv_ok L -> mk_catalogue X W cfg rb = Ok cat ->
  Forall (texts_writable L) (rows_of f) -> Forall bounded (rows_of f) ->
  Forall (fun r => exists a n fu au co re st un pa mo lo hi rn rk,
            r = mkRow (KStr a) (KStr n) (KStr fu) (KStr au) (KStr co) (KStr re) (KStr st) (KStr un) lo hi rn rk (KStr pa) (KStr mo) /\
            number_back L lo lo /\ number_back L hi hi /\ (rn <> NaN -> number_back L rn rn) /\ (rk <> NaN -> number_back L rk rk))
    (rows_of f) ->
  exists cat', mk_catalogue X (save_to_file L W (set_database cat f)) cfg (RStr "None") = Ok cat' /\
    rows_of (c_db cat') = rows_of f.
Proof. exact C78_exact_l. Qed.
Print Assumptions C78_exact.

(** C78: the code violates it for a row without bounds: the file is written, but then no catalogue
    can be opened any more (ValueError), unless everything is rebuilt *)
Theorem C78_no_bounds_refuted : forall X L W cfg rb cat f rb',
  csv_ok L -> mk_catalogue X W cfg rb = Ok cat ->
  Forall (texts_writable L) (rows_of f) -> Exists (fun r => ~ bounded r) (rows_of f) -> rb' <> RStr "All" ->
  mk_catalogue X (save_to_file L W (set_database cat f)) cfg rb' = Raise ValueError.
Proof. exact C78_no_bounds_refuted_l. Qed.
Print Assumptions C78_no_bounds_refuted.

(** C78: one wrong row number is enough: register_alias accepts it (C52), and after saving, the
    catalogue cannot be opened *)
Theorem C78_wrong_row_refuted : forall X L W cfg rb cat f i a f' rb',
  csv_ok L -> mk_catalogue X W cfg rb = Ok cat ->
  Forall (texts_writable L) (rows_of f) -> writable L a -> ~ In i (map fst f) ->
  register_alias f (RInt i) a = (Ok tt, f') -> rb' <> RStr "All" ->
  mk_catalogue X (save_to_file L W (set_database cat f')) cfg rb' = Raise ValueError.
Proof. exact C78_wrong_row_refuted_l. Qed.
Print Assumptions C78_wrong_row_refuted.

(** C78: where csv.writer does not quote carriage returns, a comment with one (and without the
    characters that lead to quotes) makes the saved catalogue unreadable too *)
Theorem C78_carriage_return_refuted : forall X L W cfg rb cat f1 l r f2 a b rb',
  csv_ok L -> quotes_cr L = false -> mk_catalogue X W cfg rb = Ok cat ->
  Forall (texts_writable L) (rows_of f1) ->
  cell_writable L (r_alias r) -> cell_writable L (r_name r) -> cell_writable L (r_full r) -> cell_writable L (r_author r) ->
  r_comment r = KStr (a ++ String cr b)%string -> writable L a ->
  (forall c, In c (chars (a ++ b)) -> c <> ","%char /\ c <> """"%char /\ c <> nl) -> rb' <> RStr "All" ->
  mk_catalogue X (save_to_file L W (set_database cat (f1 ++ (l, r) :: f2))) cfg rb' = Raise ValueError.
Proof. exact C78_carriage_return_refuted_l. Qed.
Print Assumptions C78_carriage_return_refuted.

(** C78: an empty catalogue file (as validating a new file name leaves it behind) can only be opened
    by rebuilding everything *)
Theorem C78_empty_file : forall X L W cfg rb cat W' rb',
  mk_catalogue X W cfg rb = Ok cat -> w_checks W' = w_checks W ->
  w_csv W' (path_join (c_base cat) (c_file cat)) = read_csv L "" -> rb' <> RStr "All" ->
  mk_catalogue X W' cfg rb' = Raise ValueError.
Proof. exact C78_empty_file_l. Qed.
Print Assumptions C78_empty_file.

(** numbers for the example: infinite ones and 400 *)
Definition demo_csv (q : bool) : csvlib :=
  mkCsv (fun x => match x with PInf => "inf" | NInf => "-inf" | _ => "400.0" end) (fun _ _ => "[1, 2]")
    (fun s => if String.eqb s "" then None else if String.eqb s "inf" then Some PInf else if String.eqb s "-inf" then Some NInf else Some (Fin 400)) q.
Lemma demo_csv_ok q : csv_ok (demo_csv q).
Proof.
  split; [|reflexivity|].
  - intros x N. destruct x; try congruence; (split; [discriminate|]); (split; [|eexists; reflexivity]);
      (split; [|right]); cbn; intros H; repeat (destruct H as [H|H]; [discriminate H|]); exact H.
  - intros r c. split; [|right]; cbn; intros H; repeat (destruct H as [H|H]; [discriminate H|]); exact H.
Qed.
Definition noted_row (alias comment : string) : row :=
  mkRow (KStr alias) (KStr "metal") KNaN KObj (KStr comment) (KStr "") (KStr "wavelength") (KStr "nanometer")
    (Fin 400) PInf NaN (Fin 400) (KStr "metal.csv") (KStr "UserData").
Ltac no_char := intros H; cbn in H; repeat (destruct H as [H|H]; [discriminate H|]); exact H.
Lemma sample_opened : exists cat, mk_catalogue toy_scipy sample_world (sample_config sample_modules) (RStr "None") = Ok cat /\
  c_base cat = "/home/cat" /\ c_file cat = "catalogue.csv" /\ c_db cat = sample_frame.
Proof. eexists. repeat split; reflexivity. Qed.

(** a row with commas, quotes and line breaks in its comment, as it appears in the file *)
Definition noted_comment : string := ("films, ""thin""" ++ NL ++ " see 1,2")%string.
Example C78_instance :
  csv_ok (demo_csv false) /\ mk_catalogue toy_scipy sample_world (sample_config sample_modules) (RStr "None") = Ok (mkCat "/home/cat" "catalogue.csv" false sample_ref sample_frame) /\
  Forall (texts_writable (demo_csv false)) (rows_of (numbered [noted_row "mirror" noted_comment; noted_row " " "x"])) /\
  Forall bounded (rows_of (numbered [noted_row "mirror" noted_comment; noted_row " " "x"])) /\
  csv_line (demo_csv false) (row_texts (demo_csv false) (noted_row "mirror" noted_comment)) =
    ("mirror,metal,,""[1, 2]"",""films, """"thin""""" ++ NL ++ " see 1,2"",,wavelength,nanometer,400.0,inf,,400.0,metal.csv,UserData" ++ NL)%string /\
  ~ bounded (nan_row "ghost") /\
  mk_catalogue toy_scipy (save_to_file (demo_csv false) sample_world (mkCat "/home/cat" "catalogue.csv" false sample_ref (numbered [noted_row "mirror" noted_comment; noted_row " " "x"])))
    (sample_config sample_modules) (RStr "None") =
  Ok (mkCat "/home/cat" "catalogue.csv" false sample_ref
       (numbered [mkRow (KStr "mirror") (KStr "metal") (KStr "") (KStr "[1, 2]") (KStr noted_comment) (KStr "") (KStr "wavelength") (KStr "nanometer")
                    (Fin 400) PInf NaN (Fin 400) (KStr "metal.csv") (KStr "UserData");
                  mkRow (KStr " ") (KStr "metal") (KStr "") (KStr "[1, 2]") (KStr "x") (KStr "") (KStr "wavelength") (KStr "nanometer")
                    (Fin 400) PInf NaN (Fin 400) (KStr "metal.csv") (KStr "UserData")])).
Proof.
  split; [apply demo_csv_ok|]. split; [reflexivity|]. split.
  { cbn. repeat (constructor; [unfold texts_writable, cell_writable; cbn;
      repeat apply conj; intros s E; try discriminate E; injection E as <-; (split; [no_char|right; no_char])|]). constructor. }
  split; [cbn; repeat (constructor; [split; discriminate|]); constructor|].
  split; [reflexivity|]. split; [intros [K _]; now apply K|]. vm_compute. reflexivity.
Qed.

(** C79: after saving and opening again, an alias loads the file of the first row that carried it,
    whatever the row labels were before *)
Theorem C79_alias : forall X L W cfg rb cat f base a r path t u,
  csv_ok L -> mk_catalogue X W cfg rb = Ok cat -> c_base cat = abs_path base -> Forall plain_name base ->
  Forall (texts_writable L) (rows_of f) -> Forall bounded (rows_of f) -> Forall (fun r => r_alias r <> KObj) (rows_of f) ->
  a <> "" -> first_with f a r -> located base r path t u ->
  let W' := save_to_file L W (set_database cat f) in
  exists cat', mk_catalogue X W' cfg (RStr "None") = Ok cat' /\
    get_material W' cat' (IdStr a) = loaded (w_read W) path t u.
Proof. exact C79_alias_l. Qed.
Print Assumptions C79_alias.

(** C79: and the number of a row loads the same row as before *)
Theorem C79_number : forall X L W cfg rb cat f base p r path t u,
  csv_ok L -> mk_catalogue X W cfg rb = Ok cat -> c_base cat = abs_path base -> Forall plain_name base ->
  Forall (texts_writable L) (rows_of f) -> Forall bounded (rows_of f) ->
  row_at f p r -> located base r path t u ->
  let W' := save_to_file L W (set_database cat f) in
  get_material W (set_database cat f) (IdInt (Z.of_nat p)) = loaded (w_read W) path t u /\
  exists cat', mk_catalogue X W' cfg (RStr "None") = Ok cat' /\
    get_material W' cat' (IdInt (Z.of_nat p)) = loaded (w_read W) path t u.
Proof. exact C79_number_l. Qed.
Print Assumptions C79_number.

(** C79: an alias registered in one session is there in the next one, and the aliases of the other
    rows too *)
Theorem C79_registered : forall X L W cfg rb cat base a p r path t u f',
  csv_ok L -> mk_catalogue X W cfg rb = Ok cat -> c_base cat = abs_path base -> Forall plain_name base ->
  Forall (texts_writable L) (rows_of (c_db cat)) -> Forall bounded (rows_of (c_db cat)) ->
  Forall (fun r => r_alias r <> KObj) (rows_of (c_db cat)) -> default_numbering (c_db cat) ->
  row_at (c_db cat) p r -> located base r path t u -> a <> "" -> writable L a ->
  register_alias (c_db cat) (RInt (Z.of_nat p)) a = (Ok tt, f') -> ~ alias_used (c_db cat) a ->
  let W' := save_to_file L W (set_database cat f') in
  exists cat', mk_catalogue X W' cfg (RStr "None") = Ok cat' /\
    get_material W' cat' (IdStr a) = loaded (w_read W) path t u /\
    (forall q s b, row_at (c_db cat) q s -> q <> p -> r_alias s = KStr b ->
       exists s', row_at (c_db cat') q s' /\ r_alias s' = KStr b).
Proof. exact C79_registered_l. Qed.
Print Assumptions C79_registered.

(** C79: no alias appears that was not there *)
Theorem C79_unknown : forall X L W cfg rb cat f a,
  csv_ok L -> mk_catalogue X W cfg rb = Ok cat ->
  Forall (texts_writable L) (rows_of f) -> Forall bounded (rows_of f) -> Forall (fun r => r_alias r <> KObj) (rows_of f) ->
  a <> "" -> ~ alias_used f a ->
  let W' := save_to_file L W (set_database cat f) in
  exists cat', mk_catalogue X W' cfg (RStr "None") = Ok cat' /\ get_material W' cat' (IdStr a) = Raise ValueError.
Proof. exact C79_unknown_l. Qed.
Print Assumptions C79_unknown.

Lemma sample_texts : Forall (texts_writable (demo_csv false)) (rows_of sample_frame).
Proof.
  cbn. repeat (constructor; [unfold texts_writable, cell_writable; cbn;
    repeat apply conj; intros s E; try discriminate E; injection E as <-; (split; [no_char|right; no_char])|]). constructor.
Qed.
Example C79_instance : exists m f' cat',
  register_alias sample_frame (RInt (Z.of_nat 0)) "window" = (Ok tt, f') /\
  let W' := save_to_file (demo_csv false) sample_world (mkCat "/home/cat" "catalogue.csv" false sample_ref f') in
  mk_catalogue toy_scipy W' (sample_config sample_modules) (RStr "None") = Ok cat' /\
  get_material W' cat' (IdStr "window") = Ok m /\ m_unit m = "nanometer".
Proof.
  destruct (table_loaded sample_read "/home/cat/UserData/glass.txt" "nk" "nk" 3 glass "" "" "wavelength" "nanometer" "wavelength" "nanometer" "nm")
    as (m & Hm & _ & _ & _ & Um & _); [cbn; tauto|reflexivity|exact glass_ok|right; split; reflexivity|right; split; reflexivity| |].
  { exists ["nanometer"; "nanometre"; "nm"]. cbn; auto 10. }
  destruct (C79_registered toy_scipy (demo_csv false) sample_world (sample_config sample_modules) (RStr "None")
              (mkCat "/home/cat" "catalogue.csv" false sample_ref sample_frame) ["home"; "cat"] "window" 0 row_glass
              "/home/cat/UserData/glass.txt" "wavelength" "nanometer"
              (numbered [sample_row "window" "glass" "glass.txt" "UserData" "nanometer"; row_metal; row_silver]))
    as (cat' & H1 & H2 & _).
  - apply demo_csv_ok.
  - reflexivity.
  - reflexivity.
  - repeat (constructor; [repeat split; try discriminate; no_char|]). constructor.
  - exact sample_texts.
  - cbn. repeat (constructor; [split; discriminate|]). constructor.
  - cbn. repeat (constructor; [discriminate|]). constructor.
  - apply numbered_default.
  - now exists 0%Z.
  - exists "UserData", "glass.txt", ["glass.txt"]. split; [reflexivity|]. split; [repeat split; try discriminate; no_char|].
    split; [reflexivity|]. split; [|auto]. split; [discriminate|]. split; [constructor; [repeat split; try discriminate; no_char|constructor]|].
    split; [constructor; [no_char|constructor]|]. left. reflexivity.
  - discriminate.
  - split; [|right]; no_char.
  - reflexivity.
  - intros (l & r & I & E). cbn in I. decompose [or] I; try contradiction;
      repeat match goal with H : (_, _) = (_, _) |- _ => injection H as <- <- end; discriminate E.
  - exists m. eexists. exists cat'. split; [reflexivity|]. split; [exact H1|]. split; [|exact Um]. exact (eq_trans H2 Hm).
Qed.

(** C78: the file written is a csv file: the line of the column names, then one record per row, in
    order, with the entries of the row *)
Theorem C78_file : forall L f,
  exists rows text, to_csv L f = ("Alias,Name,FullName,Author,Comment,Reference,SpectrumType,Unit,SpectrumLowerBound,SpectrumUpperBound,N_Reference,K_Reference,Path,Module" ++ NL ++ text)%string /\
    csv_records rows text /\ Forall2 (row_shown L) (rows_of f) rows.
Proof. exact C78_file_l. Qed.
Print Assumptions C78_file.

Example C78_file_instance : exists text, to_csv (demo_csv true) (numbered [noted_row "mirror" "x, ""y"""]) = text /\
  csv_quoted "x, ""y""" """x, """"y""""""" /\ contains_str ("," ++ """x, """"y""""""" ++ ",")%string text = true.
Proof.
  eexists. split; [reflexivity|]. split; [|vm_compute; reflexivity]. right. exists "x, """"y""""". split; [reflexivity|].
  do 3 (apply bq_char; [discriminate|]). apply bq_quote. apply bq_char; [discriminate|]. apply bq_quote. apply bq_nil.
Qed.

(** C80: rebuilding some modules of a saved catalogue keeps the saved rows, with their aliases, of
    the enabled modules that are not selected *)
Theorem C80_kept : forall X L W cfg rb cat f rb' base file mods ref t u cat' m,
  csv_ok L -> configured cfg base file mods ref t u -> mk_catalogue X W cfg rb = Ok cat ->
  Forall (texts_writable L) (rows_of f) -> Forall bounded (rows_of f) -> Forall (fun r => r_module r <> KObj) (rows_of f) ->
  mk_catalogue X (save_to_file L W (set_database cat f)) cfg rb' = Ok cat' ->
  In (m, true) mods -> ~ selects rb' m -> m <> "" ->
  Forall2 (row_back L) (module_rows m (rows_of f)) (module_rows m (rows_of (c_db cat'))).
Proof. exact C80_kept_l. Qed.
Print Assumptions C80_kept.

Example C80_instance : exists cat', mk_catalogue toy_scipy (save_to_file (demo_csv true) sample_world (mkCat "/home/cat" "catalogue.csv" false sample_ref
                (numbered [noted_row "mirror" "x"; row_silver]))) (sample_config sample_modules) (RList []) = Ok cat' /\
  length (module_rows "UserData" (rows_of (c_db cat'))) = 1%nat.
Proof. eexists. split; [vm_compute; reflexivity|reflexivity]. Qed.
