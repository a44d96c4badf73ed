(** Theorems about the rows of the catalogue (C55-C58, C70). *)
From Verif Require Import PyBase PyStr XReal CNum SpectrumModel SpectrumSpec SpectrumProofs SpectralModel SpectralSpec TextModel MaterialModel MaterialSpec MaterialProofs MatFileProofs FileModel IOSpec PathModel ConfigModel CatalogueModel CatalogueSpec CatalogueProofs NormProofs RebuildProofs WalkProofs SaveProofs ListProofs CatalogueSample SpectrumThms SpectralThms MaterialThms CatalogueThms.
From Verif Require Import ListingThms.
Open Scope R_scope.
Open Scope string_scope.
Open Scope list_scope.

(** C55: the rows of a refractiveindex.info library: one for each page whose file opens, in
    document order, none for dividers and for pages that do not open; the first other error ends
    the walk with that error *)
Theorem C55_listing : forall X W ref x dir folder doc lib,
  sp_values ref = VS x -> data_folder W dir folder -> library_file W dir doc -> library_doc doc lib ->
  listing X ref (w_read W) dir folder (entries lib) (read_module X W ref dir "RefractiveIndexInfo").
Proof. exact C55_listing_l. Qed.
Print Assumptions C55_listing.

(** C55: if neither data folder exists, the first page raises ValueError; a library without
    pages is read all the same *)
Theorem C55_no_folder : forall X W ref dir doc lib,
  isdir (w_checks W) (path_join (path_join dir "database") "data") = false ->
  isdir (w_checks W) (path_join (path_join dir "database") "data-nk") = false ->
  library_file W dir doc -> library_doc doc lib ->
  read_module X W ref dir "RefractiveIndexInfo" = match entries lib with [] => Ok [] | _ => Raise ValueError end.
Proof. exact C55_no_folder_l. Qed.
Print Assumptions C55_no_folder.

(** C55: without a readable library file the build ends with the error of reading it *)
Theorem C55_no_library : forall X W ref dir e,
  let file n := path_join (path_join dir "database") n in
  (w_yaml W (file "catalog-nk.yml") = Raise e /\ e <> FileNotFoundError) \/
  (w_yaml W (file "catalog-nk.yml") = Raise FileNotFoundError /\ w_yaml W (file "library.yml") = Raise e) ->
  read_module X W ref dir "RefractiveIndexInfo" = Raise e.
Proof. exact C55_no_library_l. Qed.
Print Assumptions C55_no_library.

(** C56: the rows of a user folder: one for each regular file with a supported extension, in the
    order of the listing; the first error ends the build with that error *)
Theorem C56_listing : forall X W ref x dir module names, In module ["UserData"; "Filmetrics"] ->
  sp_values ref = VS x -> w_listdir W dir = Ok names -> Forall plain_name names ->
  exists sel, picked (fun f => w_isfile W (path_join dir f) = true /\ supported f) names sel /\
    folder_rows X ref (w_read W) dir module sel (read_module X W ref dir module).
Proof. exact C56_listing_l. Qed.
Print Assumptions C56_listing.

(** C56: a folder that cannot be listed ends the build *)
Theorem C56_no_folder : forall X W ref dir module e, In module ["UserData"; "Filmetrics"] ->
  w_listdir W dir = Raise e -> read_module X W ref dir module = Raise e.
Proof. exact C56_no_folder_l. Qed.
Print Assumptions C56_no_folder.

(** C56: files the text reader would read, or with capitals in the extension, are ignored *)
Theorem C56_ignored : forall b, ~ supported (b ++ ".nk") /\ ~ supported (b ++ ".TXT") /\ ~ supported (b ++ ".dat").
Proof. exact C56_ignored_l. Qed.
Print Assumptions C56_ignored.

(** C57: whatever the library or folder looks like, the reference columns of every row are the
    index of an opened file at the reference spectrum, or NaN if evaluating it raises ValueError *)
Theorem C57_columns : forall X W ref dir module rows, read_module X W ref dir module = Ok rows ->
  Forall (fun r => exists path u m, loaded (w_read W) path "wavelength" u = Ok m /\ r_unit r = KStr u /\
                     reference_cells X ref m (r_n r) (r_k r)) rows.
Proof. exact C57_columns_l. Qed.
Print Assumptions C57_columns.

(** C57: a table that covers the reference: the columns are on the lines between neighbouring
    rows *)
Theorem C57_covered : forall X ref m rows t u canon w n k, m_name m = "nk" -> m_complex m = None ->
  (2 <= length rows)%nat -> documented (lower t) u canon -> lower t <> "wavenumber" ->
  tabulated (column 1 rows) t u (m_real m) -> tabulated (column 2 rows) t u (m_imag m) ->
  asked (m_real m) ref (lower t) canon w -> asked (m_imag m) ref (lower t) canon w ->
  reference_cells X ref m n k ->
  exists a b a' b',
    adjacent (map (fun r => (nth 0 r 0, nth 1 r 0)) rows) a b /\ fst a <= w <= fst b /\ n = Fin (line a b w) /\
    adjacent (map (fun r => (nth 0 r 0, nth 2 r 0)) rows) a' b' /\ fst a' <= w <= fst b' /\ k = Fin (line a' b' w).
Proof. exact C57_covered_l. Qed.
Print Assumptions C57_covered.

(** C57: a table that does not cover it: the evaluation raises ValueError and both columns are
    NaN, unless the range is in centimetres, when it raises KeyError *)
Theorem C57_not_covered : forall X ref v0 t0 u0 m rows t u canon w, mk_spectrum v0 t0 u0 = Ok ref ->
  m_name m = "nk" \/ m_name m = "eps" -> m_complex m = None ->
  (2 <= length rows)%nat -> documented (lower t) (lower u) canon ->
  tabulated (column 1 rows) t u (m_real m) ->
  convert_to ref (lower t) canon = Ok (VS (Fin w)) ->
  Forall (fun r => w < nth 0 r 0) rows \/ Forall (fun r => nth 0 r 0 < w) rows ->
  (canon <> "cm" -> get_nk_data X m (SObj ref) = Raise ValueError /\
     forall n k, reference_cells X ref m n k -> n = NaN /\ k = NaN) /\
  (canon = "cm" -> get_nk_data X m (SObj ref) = Raise KeyError).
Proof. exact C57_not_covered_l. Qed.
Print Assumptions C57_not_covered.

(** C57: every error other than ValueError ends the build: a user file in centimetres that does
    not cover the reference wavelength prevents the catalogue from being built *)
Theorem C57_centimetre_refuted : forall X, exists W ref dir path m rows, mk_spectrum (InVals (VS (Fin 550))) "wavelength" "nm" = Ok ref /\
  w_listdir W dir = Ok ["wire.txt"] /\ w_isfile W path = true /\ path = path_join dir "wire.txt" /\
  loaded (w_read W) path "wavelength" "nanometer" = Ok m /\ m_unit m = "cm" /\ tabulated (column 1 rows) "wavelength" "cm" (m_real m) /\
  read_module X W ref dir "UserData" = Raise KeyError.
Proof. exact C57_centimetre_refuted_l. Qed.
Print Assumptions C57_centimetre_refuted.

(** C58: the bounds of every row are those of an opened file, as that material reports them *)
Theorem C58_bounds : forall X W ref dir module rows, read_module X W ref dir module = Ok rows ->
  Forall (fun r => exists path u m, loaded (w_read W) path "wavelength" u = Ok m /\ r_stype r = KStr "wavelength" /\
                     r_unit r = KStr u /\ bound_cells m (r_lo r) (r_hi r)) rows.
Proof. exact C58_bounds_l. Qed.
Print Assumptions C58_bounds.

(** C58: for a file with a table of refractive indices or permittivities over wavelengths, the
    bounds are the smallest and largest wavelength of the table, in the unit [canon] of the table
    (declared in the file, or by default the one of the row), rounded as C03 says *)
Theorem C58_table : forall rd path fm d id rows u0 t u canon, In id ["nk"; "eps"] ->
  rd path = Ok (mkFdict fm [d]) -> meta_complete fm -> type_words d "tabulated" id ->
  table_ok 3 rows -> (2 <= length rows)%nat -> Forall (fun r => 0 < nth 0 r 0) rows -> MaterialSpec.holds_table (ds_data d) 3 rows ->
  file_or_default (ds_stype d) "wavelength" t -> lower t = "wavelength" ->
  file_or_default (ds_unit d) u0 u -> lower u = u -> documented "wavelength" u canon ->
  exists m mn mx a b, loaded rd path "wavelength" u0 = Ok m /\ m_unit m = u /\
    In mn (map (fun r => nth 0 r 0) rows) /\ In mx (map (fun r => nth 0 r 0) rows) /\
    (forall y, In y (map (fun r => nth 0 r 0) rows) -> mn <= y <= mx) /\
    rounds_for canon mn a /\ rounds_for canon mx b /\
    forall lo hi, bound_cells m lo hi <-> lo = Fin a /\ hi = Fin b.
Proof. exact C58_table_l. Qed.
Print Assumptions C58_table.

(** C58: so a user file that declares another unit gets bounds in that unit in a row that says
    nanometer: here a table from 1 to 2 micrometres, listed as 1 to 2 nanometer *)
Theorem C58_declared_refuted : forall X, exists W ref dir r m rows, mk_spectrum (InVals (VS (Fin 550))) "wavelength" "nm" = Ok ref /\
  read_module X W ref dir "UserData" = Ok [r] /\ r_unit r = KStr "nanometer" /\ r_lo r = Fin 1 /\ r_hi r = Fin 2 /\
  loaded (w_read W) (path_join dir "infrared.txt") "wavelength" "nanometer" = Ok m /\ m_unit m = "um" /\
  rows = [[1; 2; 0]; [2; 3; 0]] /\ tabulated (column 1 rows) "wavelength" "um" (m_real m).
Proof. exact C58_declared_refuted_l. Qed.
Print Assumptions C58_declared_refuted.

(** C70: loading a row of a rebuilt user folder by its number gives the material the row was made
    from: same file, same defaults, so name, metadata, bounds and reference columns describe it *)
Theorem C70_user_file : forall X W c rb base file mods ref t u cat m names p r,
  configured c (abs_path base) file mods ref t u -> Forall plain_name base ->
  mk_catalogue X W c rb = Ok cat -> rb <> RStr "None" ->
  In m ["UserData"; "Filmetrics"] -> In (m, true) mods -> selects rb m ->
  w_listdir W (abs_path (base ++ [m])) = Ok names -> Forall (fun f => plain_name f /\ ~ In "\"%char (chars f)) names ->
  row_at (c_db cat) p r -> r_module r = KStr m ->
  exists s f mat, mk_spectrum (InVals (VS ref)) t u = Ok s /\ In f names /\
    get_material W cat (IdInt (Z.of_nat p)) = Ok mat /\ file_row X s m f mat r.
Proof. exact C70_user_file_l. Qed.
Print Assumptions C70_user_file.

(** C70: the same for a rebuilt refractiveindex.info library whose data paths are plain *)
Theorem C70_page : forall X W c rb base file mods ref t u cat folder doc lib p r,
  configured c (abs_path base) file mods ref t u -> Forall plain_name base ->
  mk_catalogue X W c rb = Ok cat -> rb <> RStr "None" ->
  let m := "RefractiveIndexInfo" in In (m, true) mods -> selects rb m ->
  data_folder W (abs_path (base ++ [m])) folder -> library_file W (abs_path (base ++ [m])) doc -> library_doc doc lib ->
  Forall (fun e => exists comps, path_text (e_data e) comps /\ e_data e = rel_path comps) (entries lib) ->
  row_at (c_db cat) p r -> r_module r = KStr m ->
  exists s e mat, mk_spectrum (InVals (VS ref)) t u = Ok s /\ In e (entries lib) /\
    get_material W cat (IdInt (Z.of_nat p)) = Ok mat /\ page_row X s folder e mat r.
Proof. exact C70_page_l. Qed.
Print Assumptions C70_page.

(** the sample folders *)
Example C55_instance : let dir := "/home/cat/RefractiveIndexInfo" in
  data_folder sample_world dir "data" /\ library_file sample_world dir silver_library /\
  library_doc silver_library [[BDivider; Book "Ag" "Silver" [PDivider; Page "Someone" "main/Ag/x.yml"; Page "Lost" "main/Ag/y.yml"]]] /\
  loaded sample_read (page_file dir "data" (mkEntry "Ag" "Silver" "Lost" "main/Ag/y.yml")) "wavelength" "micrometer" = Raise FileNotFoundError /\
  Forall (fun e => exists comps, path_text (e_data e) comps /\ e_data e = rel_path comps)
    (entries [[BDivider; Book "Ag" "Silver" [PDivider; Page "Someone" "main/Ag/x.yml"; Page "Lost" "main/Ag/y.yml"]]]).
Proof.
  cbv zeta. split; [left; split; reflexivity|]. split; [right; split; reflexivity|]. split.
  { constructor. constructor; [|constructor]. eapply shelf_shelf; [reflexivity|reflexivity|].
    constructor; [eapply book_div; reflexivity|]. constructor; [|constructor].
    eapply book_book; try reflexivity. constructor; [eapply page_div; reflexivity|].
    constructor; [apply page_page; reflexivity|]. constructor; [apply page_page; reflexivity|constructor]. }
  split; [reflexivity|]. cbn [entries flat_map book_entries app].
  assert (G : forall l, (forall x, In x l -> In x ["main"; "Ag"; "x.yml"; "y.yml"]) -> l <> [] -> path_text (rel_path l) l).
  { intros l Hl N. assert (P : forall x, In x l -> plain_name x /\ ~ In "\"%char (chars x)).
    { intros x Hx. specialize (Hl x Hx). cbn in Hl. decompose [or] Hl; try contradiction; subst; repeat split; try discriminate; cbn;
        intros K; decompose [or] K; try contradiction; discriminate. }
    split; [exact N|]. split; [apply Forall_forall; intros x Hx; now apply P|]. split; [apply Forall_forall; intros x Hx; now apply P|]. left. reflexivity. }
  constructor; [exists ["main"; "Ag"; "x.yml"]|constructor; [exists ["main"; "Ag"; "y.yml"]|constructor]];
    (split; [apply G; [cbn; intuition|discriminate]|reflexivity]).
Qed.
Example C56_instance : w_listdir sample_world "/home/cat/UserData" = Ok ["glass.txt"; "old"; "notes.md"; "metal.csv"] /\
  Forall (fun f => plain_name f /\ ~ In "\"%char (chars f)) ["glass.txt"; "old"; "notes.md"; "metal.csv"] /\
  picked (fun f => w_isfile sample_world (path_join "/home/cat/UserData" f) = true /\ supported f)
    ["glass.txt"; "old"; "notes.md"; "metal.csv"] ["glass.txt"; "metal.csv"].
Proof.
  split; [reflexivity|].
  assert (P : Forall (fun f => plain_name f /\ ~ In "\"%char (chars f)) ["glass.txt"; "old"; "notes.md"; "metal.csv"]).
  { repeat constructor; try discriminate; cbn; intros K; decompose [or] K; try contradiction; discriminate. }
  split; [exact P|].
  assert (S : forall f, In f ["glass.txt"; "old"; "notes.md"; "metal.csv"] -> allowed_ext (splitext f) = true <-> supported f).
  { intros f Hf. apply supported_iff. rewrite Forall_forall in P. now apply P. }
  apply pick_yes; [split; [reflexivity|apply S; [cbn; tauto|reflexivity]]|].
  apply pick_no; [intros [K _]; discriminate K|].
  apply pick_no; [intros [_ K]; apply S in K; [discriminate K|cbn; tauto]|].
  apply pick_yes; [split; [reflexivity|apply S; [cbn; tauto|reflexivity]]|]. constructor.
Qed.
(** glass covers 550 nm *)
Example C57_instance : exists m, loaded sample_read "/home/cat/UserData/glass.txt" "wavelength" "nanometer" = Ok m /\
  m_name m = "nk" /\ m_complex m = None /\ tabulated (column 1 glass) "wavelength" "nanometer" (m_real m) /\
  tabulated (column 2 glass) "wavelength" "nanometer" (m_imag m) /\ documented "wavelength" "nanometer" "nm" /\
  asked (m_real m) sample_ref "wavelength" "nm" 550 /\ asked (m_imag m) sample_ref "wavelength" "nm" 550.
Proof.
  assert (D : documented "wavelength" "nanometer" "nm") by (exists ["nanometer"; "nanometre"; "nm"]; cbn; auto 10).
  destruct (table_loaded sample_read "/home/cat/UserData/glass.txt" "nk" "nk" 3 glass "" "" "wavelength" "nanometer" "wavelength" "nanometer" "nm")
    as (m & Lm & Nm & Cm & _ & _ & T1 & T2); [cbn; tauto|reflexivity|exact glass_ok|right; split; reflexivity|right; split; reflexivity|exact D|].
  change (tabulated (column 1 glass) "wavelength" "nanometer" (m_real m)) in T1. change (tabulated (column 2 glass) "wavelength" "nanometer" (m_imag m)) in T2.
  exists m. repeat (split; [assumption|]).
  assert (A : forall j d, tabulated (column j glass) "wavelength" "nanometer" d -> asked d sample_ref "wavelength" "nm" 550).
  { intros j d Td. assert (V : exists mn mx, sp_values (valid_range d) = VA [Fin mn; Fin mx] /\ mn <= 400 /\ 800 <= mx /\ mk_spectrum (InVals (VA [Fin mn; Fin mx])) "wavelength" "nanometer" = Ok (valid_range d)).
    { apply tabulated_interp in Td; [|cbn; lia].
      destruct (C13_accepts_l (pairs j glass) "wavelength" "nanometer" "nm") as (d' & mn & mx & H' & V & _ & _ & B); [cbn; lia| |exact D|].
      - unfold pairs. rewrite map_map. apply glass_ok.
      - rewrite Td in H'. injection H' as <-. exists mn, mx. split; [exact V|].
        split; [apply (B 400); now left|]. split; [apply (B 800); right; now left|]. eapply interp_range; eassumption. }
    destruct V as (mn & mx & V & Lo & Hi & M). eapply (ExtrapProofs.asked_self d "wavelength" "nanometer" "nm" 550 sample_ref mn mx); try eassumption; try reflexivity; try lra; try discriminate.
    - exact (ExtrapProofs.rounds_for_int "nm" 550).
    - destruct (mk_spectrum_ok _ _ _ _ M) as (c & w & _ & _ & _ & Et & _). exact Et.
    - destruct (mk_spectrum_ok _ _ _ _ M) as (c & w & Dc & _ & _ & _ & Eu & _). rewrite Eu. exact (documented_fun _ _ _ _ Dc D). }
  split; eapply A; eassumption.
Qed.
Example C58_instance : type_words (table_set "nk" "" "" 3 glass) "tabulated" "nk" /\ table_ok 3 glass /\ (2 <= length glass)%nat /\
  Forall (fun r => 0 < nth 0 r 0) glass /\ MaterialSpec.holds_table (ds_data (table_set "nk" "" "" 3 glass)) 3 glass /\
  meta_complete no_text /\ file_or_default (ds_unit (table_set "nk" "" "" 3 glass)) "nanometer" "nanometer" /\
  documented "wavelength" "nanometer" "nm".
Proof.
  split; [exists "tabulated nk"; split; [reflexivity|exact (TableProofs.split_ws_sound "tabulated nk")]|].
  split; [exact glass_ok|]. split; [cbn; lia|]. split; [repeat (constructor; [cbn; lra|]); constructor|]. split; [left; reflexivity|].
  split; [exact no_text_complete|]. split; [right; split; reflexivity|]. exists ["nanometer"; "nanometre"; "nm"]. cbn; auto 10.
Qed.
