(** Theorems about the user's own material files in the catalogue (C96). *)
From Verif Require Import PyBase PyStr XReal CNum TextModel SpectrumModel SpectrumSpec SpectralModel SpectralSpec MaterialModel MaterialSpec FileModel ReaderModel WriterModel PathModel PathProofs ConfigModel CatalogueModel CatalogueSpec CatalogueProofs RebuildProofs IOSpec SaveSpec SaveProofs YamlSpec CsvModel CsvSpec CsvProofs NormProofs DiskModel DiskProofs SetupModel SetupSpec SetupProofs InstallProofs ScriptProofs CycleProofs SaveThms TextFileThms YamlThms CatalogueThms ListingThms CsvThms SetupThms ConfigThms ExampleModel ExampleSpec ExampleThms ListedSpec ListedThms TextSpec LoadSpec LoadThms StartModel StartSpec StartThms OwnSpec SpectrumProofs ListProofs ExtrapProofs InterpProofs.
From Coq Require Import Permutation.
From Verif Require Import OwnThms.
Open Scope R_scope.
Open Scope string_scope.
Open Scope list_scope.

(** C96: a file of the user's folder is listed by every rebuild that includes this folder, in exactly
    one row, and loading that row gives the material of the file *)
Theorem C96_listed : forall M disp root fs f text c rb name s cat,
  machine_ok M disp -> Forall os_name root -> own_name f -> is_dir fs (root ++ ["UserData"]) -> is_file fs (own_file root f) text ->
  built_with M fs root c rb name s cat ->
  listed_once M fs cat f (fun r m => file_row (mc_scipy M) s "UserData" f m r /\ mk_material (read_on M fs) [("file_path", PStr (abs_path (own_file root f)))] = Ok m).
Proof. exact C96_listed_l. Qed.
Print Assumptions C96_listed.

(** C96: saved and opened again in a later session, the catalogue still lists the file in exactly one
    row, which loads the same material *)
Theorem C96_reopened : forall M disp root fs f text c rb name s cat fs',
  machine_ok M disp -> Forall os_name root -> own_name f -> is_dir fs (root ++ ["UserData"]) -> is_file fs (own_file root f) text ->
  built_with M fs root c rb name s cat -> os_name name -> storable (mc_csv M) cat -> save_on M fs cat = Ok fs' ->
  exists cat', mk_catalogue (mc_scipy M) (world_on M fs') c (RStr "None") = Ok cat' /\
    listed_once M fs' cat' f (fun r m => (exists r0, row_back (mc_csv M) r0 r /\ file_row (mc_scipy M) s "UserData" f m r0) /\
      mk_material (read_on M fs) [("file_path", PStr (abs_path (own_file root f)))] = Ok m).
Proof. exact C96_reopened_l. Qed.
Print Assumptions C96_reopened.

(** C96: a file whose name contains a backslash is listed, but its row loads another file: the backslash is
    read as a separator of directories *)
Theorem C96_backslash_refuted : forall M disp root fs a b text c rb name s cat,
  machine_ok M disp -> Forall os_name root -> os_name a -> os_name b -> ~ In "\"%char (chars a) -> ~ In "\"%char (chars b) -> supported b ->
  let f := (a ++ "\" ++ b)%string in
  is_dir fs (root ++ ["UserData"]) -> is_file fs (own_file root f) text -> built_with M fs root c rb name s cat ->
  exists p r m, row_at (c_db cat) p r /\ file_row (mc_scipy M) s "UserData" f m r /\ r_path r = KStr f /\
    mk_material (read_on M fs) [("file_path", PStr (abs_path (own_file root f)))] = Ok m /\
    material_of M fs cat (IdInt (Z.of_nat p)) = mk_material (read_on M fs) [("file_path", PStr (abs_path (root ++ ["UserData"; a; b])))] /\
    (SetupSpec.no_file fs (root ++ ["UserData"; a; b]) -> exists e, material_of M fs cat (IdInt (Z.of_nat p)) = Raise e).
Proof. exact C96_backslash_refuted_l. Qed.
Print Assumptions C96_backslash_refuted.

(** C96: a material with tables, saved as a text file in the user's folder: from the next rebuild on the
    catalogue gives it back with the same tables, types and units, in this and in later sessions; no
    other file has changed *)
Theorem C96_text : forall M disp root fs f m c b b' l q ic rii canon,
  machine_ok M disp -> Forall os_name root -> os_name f -> ~ In "\"%char (chars f) -> text_file f -> is_dir fs (root ++ ["UserData"]) ->
  header_ready (mc_write M) m -> comment_of m c -> unix_text c ->
  tables_of m b b' (xrows l) (xrows q) -> float_table (xrows l) -> float_table (xrows q) -> (2 <= length l <= 333)%nat ->
  map fst q = map fst l -> NoDup (map fst l) -> d_unit b = d_unit b' -> d_type b = d_type b' ->
  documented (lower (d_type b)) (lower (d_unit b)) canon -> d_type b <> "" -> d_unit b <> "" ->
  Forall decimal8 (concat (table_of (xrows l)) ++ concat (table_of (xrows q))) ->
  (forall all x, incl all (concat (table_of (xrows l)) ++ concat (table_of (xrows q))) -> In x all -> disp all x = x) ->
  exists ops, save_material (mc_write M) (abs_path (own_file root f)) m (fs_files fs) ic rii = (Ok tt, ops) /\
    (forall p, p <> abs_path (own_file root f) -> dget (fs_files (after fs ops)) p = dget (fs_files fs) p) /\
    kept_in_catalogue M root (after fs ops) f (fun m' => has_tables m' l q (d_type b) (d_unit b)).
Proof. exact C96_text_l. Qed.
Print Assumptions C96_text.

(** C96: the same for a yaml file *)
Theorem C96_yaml : forall M disp root fs f m c meta sp b b' l q ic canon,
  machine_ok M disp -> Forall os_name root -> os_name f -> ~ In "\"%char (chars f) -> named f ".yml" -> is_dir fs (root ++ ["UserData"]) ->
  m_meta m = Some meta -> dget meta "MetaComment" = Some (MStr c) -> yaml_text c ->
  standard_meta meta -> dget meta "Specification" = Some (MMap sp) ->
  tables_of m b b' (xrows l) (xrows q) -> float_table (xrows l) -> float_table (xrows q) -> (2 <= length l <= 333)%nat ->
  map fst q = map fst l -> NoDup (map fst l) -> d_unit b = d_unit b' -> d_type b = d_type b' ->
  documented (lower (d_type b)) (lower (d_unit b)) canon -> d_type b <> "" -> d_unit b <> "" ->
  (forall all x, incl all (concat (table_of (xrows l)) ++ concat (table_of (xrows q))) -> In x all -> disp all x = x) ->
  exists ops, save_material (mc_write M) (abs_path (own_file root f)) m (fs_files fs) ic false = (Ok tt, ops) /\
    (forall p, p <> abs_path (own_file root f) -> dget (fs_files (after fs ops)) p = dget (fs_files fs) p) /\
    kept_in_catalogue M root (after fs ops) f (fun m' => has_tables m' l q (d_type b) (d_unit b)).
Proof. exact C96_yaml_l. Qed.
Print Assumptions C96_yaml.

(** C97: Catalogue(rebuild='All') succeeds if and only if every single file of the user's folder with one
    of the extensions .txt, .csv, .yml is usable *)
Theorem C97_all_files : forall M disp root fs c s,
  machine_ok M disp -> Forall os_name root -> is_dir fs (root ++ ["UserData"]) -> user_only M fs root c s ->
  ((exists cat, mk_catalogue (mc_scipy M) (world_on M fs) c (RStr "All") = Ok cat) <->
   (forall f text, os_name f -> supported f -> is_file fs (own_file root f) text -> usable M fs s root f)).
Proof. exact C97_all_files_l. Qed.
Print Assumptions C97_all_files.

(** C97: with one file that is not usable dispersion_catalogue_rebuild raises and leaves the disk, and with
    it the old catalogue, as it was *)
Theorem C97_stops : forall M disp home root fs c s f text skipped rest,
  machine_ok M disp -> Forall os_name root -> is_dir fs (root ++ ["UserData"]) -> user_only M fs root c s ->
  get_config (Some home) (mc_package M) (mc_config M) fs = (Ok c, fs) ->
  os_name f -> supported f -> is_file fs (own_file root f) text -> ~ usable M fs s root f ->
  Forall (fun x => x <> "y" /\ x <> "n") skipped ->
  exists e, run_rebuild M home (mkSys (skipped ++ "y" :: rest) fs) = (Raise e, mkSys rest fs).
Proof. exact C97_stops_l. Qed.
Print Assumptions C97_stops.

(** C97: for instance a .txt file with a line that starts with ';', which the documentation allows *)
Theorem C97_mark_refuted : forall M disp home root fs c s f ext text lines x skipped rest,
  machine_ok M disp -> Forall os_name root -> is_dir fs (root ++ ["UserData"]) -> user_only M fs root c s ->
  get_config (Some home) (mc_package M) (mc_config M) fs = (Ok c, fs) ->
  os_name f -> In ext [".txt"; ".csv"] -> named f ext -> is_file fs (own_file root f) text ->
  file_text lines text -> Forall one_line lines -> In (String (other_mark ext) x) lines ->
  Forall (fun x => x <> "y" /\ x <> "n") skipped ->
  exists e, run_rebuild M home (mkSys (skipped ++ "y" :: rest) fs) = (Raise e, mkSys rest fs).
Proof. exact C97_mark_refuted_l. Qed.
Print Assumptions C97_mark_refuted.

(** C97: a file with tables or constants for n and k, in another unit than centimetres, is usable if and
    only if the unit is spelled in small letters, whatever the tables contain and wherever the reference
    lies: outside the range it has the cells NaN in the catalogue *)
Theorem C97_tables : forall M fs root f m s r t u,
  mk_material (read_on M fs) [("file_path", PStr (abs_path (own_file root f)))] = Ok m ->
  m_name m = "nk" \/ m_name m = "eps" -> m_complex m = None -> plain_part (m_real m) -> plain_part (m_imag m) ->
  mk_spectrum (InVals (VS r)) t u = Ok s ->
  (usable M fs s root f <-> exists canon, documented (lower (m_stype m)) (m_unit m) canon).
Proof. exact C97_tables_l. Qed.
Print Assumptions C97_tables.

(** C97: a table of n in centimetres is usable only if it covers the reference: otherwise KeyError stops
    the rebuild instead of the cells NaN *)
Theorem C97_centimetre_refuted : forall M fs root f m s w lo hi,
  mk_material (read_on M fs) [("file_path", PStr (abs_path (own_file root f)))] = Ok m ->
  m_name m = "nk" \/ m_name m = "eps" -> m_complex m = None -> (exists b rows, m_real m = DInterp b rows) ->
  sp_type (valid_range (m_real m)) = "wavelength" -> sp_unit (valid_range (m_real m)) = "cm" -> sp_values (valid_range (m_real m)) = VA [Fin lo; Fin hi] -> lo <= hi ->
  (exists r t u, mk_spectrum (InVals (VS r)) t u = Ok s) -> convert_to s "wavelength" "cm" = Ok (VS (Fin w)) -> w < lo \/ hi < w ->
  ~ usable M fs s root f.
Proof. exact C97_centimetre_refuted_l. Qed.
Print Assumptions C97_centimetre_refuted.

(** C97: a material with tables, saved as a text file in the user's folder: its file loads; in another unit than
    centimetres it is usable, wherever the reference lies, if and only if the unit is spelled in small
    letters; in centimetres it is not usable if the reference lies outside the table *)
Theorem C97_saved : forall M disp root fs f m c b b' l q ic rii canon s r t u,
  machine_ok M disp -> Forall os_name root -> os_name f -> text_file f ->
  header_ready (mc_write M) m -> comment_of m c -> unix_text c ->
  tables_of m b b' (xrows l) (xrows q) -> float_table (xrows l) -> float_table (xrows q) -> (2 <= length l <= 333)%nat ->
  map fst q = map fst l -> NoDup (map fst l) -> d_unit b = d_unit b' -> d_type b = d_type b' ->
  documented (lower (d_type b)) (lower (d_unit b)) canon -> d_type b <> "" -> d_unit b <> "" ->
  Forall decimal8 (concat (table_of (xrows l)) ++ concat (table_of (xrows q))) ->
  (forall all x, incl all (concat (table_of (xrows l)) ++ concat (table_of (xrows q))) -> In x all -> disp all x = x) ->
  mk_spectrum (InVals (VS r)) t u = Ok s ->
  exists ops m', save_material (mc_write M) (abs_path (own_file root f)) m (fs_files fs) ic rii = (Ok tt, ops) /\
    mk_material (read_on M (after fs ops)) [("file_path", PStr (abs_path (own_file root f)))] = Ok m' /\
    (canon <> "cm" -> (usable M (after fs ops) s root f <-> lower (d_unit b) = d_unit b)) /\
    (canon = "cm" -> forall w, convert_to s "wavelength" "cm" = Ok (VS (Fin w)) -> (forall p, In p l -> w < fst p) \/ (forall p, In p l -> fst p < w) ->
      ~ usable M (after fs ops) s root f).
Proof. exact C97_saved_l. Qed.
Print Assumptions C97_saved.

(** C97: if all files of the folder are usable dispersion_catalogue_rebuild ends without an exception and has
    written the new catalogue, if its file can be created *)
Theorem C97_rebuilt : forall M disp home root fs c s skipped rest,
  machine_ok M disp -> Forall os_name root -> is_dir fs (root ++ ["UserData"]) -> user_only M fs root c s ->
  get_config (Some home) (mc_package M) (mc_config M) fs = (Ok c, fs) ->
  (forall f text, os_name f -> supported f -> is_file fs (own_file root f) text -> usable M fs s root f) ->
  Forall (fun x => x <> "y" /\ x <> "n") skipped ->
  exists cat, mk_catalogue (mc_scipy M) (world_on M fs) c (RStr "All") = Ok cat /\
    forall fs', save_on M fs cat = Ok fs' -> run_rebuild M home (mkSys (skipped ++ "y" :: rest) fs) = (Ok tt, mkSys rest fs').
Proof. exact C97_rebuilt_l. Qed.
Print Assumptions C97_rebuilt.

From Verif Require Import ShowsProofs IOExamples PropStart.
Open Scope string_scope. Open Scope list_scope.
(** Ada saves a material of their own with the name of one of the example files *)
Lemma ada_settled : exists fs, settled (a_machine some_home) some_home some_home a_name fs.
Proof. destruct (setup_settled _ _ _ _ _ _ first_ready _ _ _ (first_dialogue true)) as (r & fs2 & S & _). eauto. Qed.
Example C96_instance : exists fs m b b' ops c s cat fs',
  let M := a_machine some_home in let f := "example_file.txt" in
  (own_name f /\ text_file f /\ is_dir fs (some_home ++ ["UserData"])) /\
  (header_ready (mc_write M) m /\ comment_of m example_comment /\ unix_text example_comment) /\
  (tables_of m b b' (xrows table_n) (xrows table_k) /\ d_type b = "wavelength" /\ d_unit b = "nanometer" /\ d_type b' = "wavelength" /\ d_unit b' = "nanometer") /\
  save_material (mc_write M) (abs_path (own_file some_home f)) m (fs_files fs) true false = (Ok tt, ops) /\
  built_with M (after fs ops) some_home c (RStr "All") a_name s cat /\ storable (mc_csv M) cat /\ save_on M (after fs ops) cat = Ok fs' /\
  kept_in_catalogue M some_home (after fs ops) f (fun m' => has_tables m' table_n table_k "wavelength" "nanometer").
Proof.
  destruct ada_settled as [fs S]. set (M := a_machine some_home) in *. pose proof first_ready as (Fh & Fr & Fn & _).
  destruct txt_material as (m & b & b' & Et & Ht & T & U & T' & U' & Mt).
  assert (own_name "example_file.txt") as On by (split; [apply setup_names|]; split; [exists "example_file", ".txt"; split; [reflexivity|]; split; [cbn; tauto|]; exists "example_fil", "e"%char, ""; split; [reflexivity|discriminate]|no_char]).
  assert (text_file "example_file.txt") as Tf by (left; exists "example_fil", "e"%char; split; [reflexivity|]; split; discriminate).
  pose proof S as (D & Du & F1 & F2 & Only & Dh & Fc & Nd & C & Nn & Nc).
  assert (header_ready (mc_write M) m) as Hr.
  { apply describe_ready; [exact Mt|]. intros b0 rows E. destruct Ht as (_ & _ & Ht & _). rewrite Ht in E. injection E as <- <-. now split. }
  destruct example_comment_text as (Cu & Cy & Cp).
  assert (comment_of m example_comment) as Hc by (exists (describe default_meta); split; [exact Mt|reflexivity]).
  destruct (C96_text M sample_disp some_home fs "example_file.txt" m example_comment b b' table_n table_k true false "nm" (a_machine_ok some_home) Fr (proj1 On) (proj2 (proj2 On)) Tf Du Hr Hc Cu Ht
    (proj1 tables_float) (proj2 tables_float)) as (ops & Sv & Oth & Kept);
    try first [assumption|reflexivity|cbn; lia|congruence|apply tables_nodup|apply txt_decimal|exact example_display|rewrite ?T, ?U; discriminate].
  { rewrite T, U. eexists. split; [cbn; right; right; right; left; reflexivity|cbn; tauto]. }
  assert (settled M some_home some_home a_name (after fs ops)) as S1.
  { assert (forall l t, Forall os_name l -> l <> own_file some_home "example_file.txt" -> (is_file (after fs ops) l t <-> is_file fs l t)) as Keep.
    { intros l t Fl Ne. unfold is_file. rewrite Oth; [reflexivity|]. intros E. apply Ne. apply (abs_inj _ _ (os_plain _ Fl) (os_plain _ (proj1 (own_names _ _ Fr (proj1 On))))). exact E. }
    destruct (user_names some_home Fh) as (_ & _ & Fuf). destruct setup_names as (_ & _ & _ & _ & X1 & X2).
    split; [exact D|]. split; [exact Du|]. split; [|split; [|split; [|split; [exact Dh|split; [|split; [exact Nd|split; [exact C|split; [exact Nn|exact Nc]]]]]]]].
    - destruct (save_text _ _ (path_join "" "example_file.txt") _ _ [] _ _ _ (eq_trans (proj1 (example_exts "/home/ada/UserData")) (eq_sym (proj1 (example_exts "")))) Sv) as (o & So & R).
      unfold is_file. cbn [after fs_files]. change (abs_path (some_home ++ ["UserData"; "example_file.txt"])) with (path_join "/home/ada/UserData" "example_file.txt"). rewrite R.
      unfold example_txt, left_in, make_example_txt. rewrite Et. change (path_join "" "example_file.txt") with "example_file.txt" in *. now rewrite So.
    - apply Keep; [exact (proj1 (own_names _ _ Fr X2))|discriminate|exact F2].
    - intros n Kn [K|[t K]]; (apply Only; [exact Kn|]); [now left|right].
      destruct (string_dec n "example_file.txt") as [->|Ne]; [eexists; exact F1|]. exists t. apply Keep in K; [exact K|exact (proj1 (own_names _ _ Fr Kn))|].
      intros E. apply Ne. unfold own_file in E. apply app_inv_head in E. now injection E.
    - apply Keep; [exact Fuf|discriminate|exact Fc]. }
  destruct (settled_rows M sample_disp some_home some_home a_name (a_machine_ok some_home) Fr Fn _ S1) as (x & y & cat & Hcat & Rx & Ry & Eb & Ef & Rows).
  destruct (setup_configured some_home a_name) as (mods & ref & t & u & Cf & Im & s & Es).
  assert (storable (mc_csv M) cat) as St.
  { assert (texts_writable (mc_csv M) x) as Wa by (apply (example_writable M "example_file" "example_file.txt"); [now left|apply Rx]).
    assert (texts_writable (mc_csv M) y) as Wb by (apply (example_writable M "example_file2" "example_file2.yml"); [right; now left|apply Ry]).
    assert (bounded x) as Ba by (destruct Rx as (_ & A1 & A2 & _); split; rewrite ?A1, ?A2; discriminate).
    assert (bounded y) as Bb by (destruct Ry as (_ & (lo & hi & A1 & A2 & _) & _); split; rewrite ?A1, ?A2; discriminate).
    unfold storable. destruct Rows as [-> | ->]; split; repeat (constructor; [assumption|]); constructor. }
  exists fs, m, b, b', ops, (setup_result (abs_path some_home) a_name false), s, cat. eexists.
  split; [exact (conj On (conj Tf Du))|]. split; [exact (conj Hr (conj Hc Cu))|]. split; [exact (conj Ht (conj T (conj U (conj T' U'))))|]. split; [exact Sv|].
  split; [split; [discriminate|split; [constructor|split; [exact Hcat|eauto 10]]]|]. split; [exact St|]. split.
  - unfold save_on. rewrite Eb, Ef, join_name by (try apply Fn; now apply os_plain). apply open_w_abs; [now apply sub_names|exact Nd|exact D|exact C].
  - rewrite T, U in Kept. exact Kept.
Qed.
(** Ada puts a note among their materials *)
Definition note := ("1 2" ++ NL ++ "; measured on Monday" ++ NL ++ "2 3" ++ NL)%string.
Example C97_instance : exists fs s, let M := a_machine some_home in let c := setup_result "/home/ada" a_name false in
  is_dir fs (some_home ++ ["UserData"]) /\ user_only M fs some_home c s /\ get_config (Some "/home/ada") (mc_package M) (mc_config M) fs = (Ok c, fs) /\
  is_file fs (own_file some_home "gold.txt") note /\ file_text ["1 2"; "; measured on Monday"; "2 3"] note /\ Forall one_line ["1 2"; "; measured on Monday"; "2 3"] /\
  exists e, run_rebuild M "/home/ada" (mkSys ["y"] fs) = (Raise e, mkSys [] fs).
Proof.
  set (M := a_machine some_home).
  set (fs := mkFs ("/home/ada/UserData" :: fs_dirs home_disk) [("/home/ada/UserData/gold.txt", note); ("/home/ada/.config/dispersion/config.yaml", mc_dump M (setup_result "/home/ada" a_name false))]).
  pose proof first_ready as (Fh & Fr & Fn & _).
  destruct (setup_user_only M sample_disp some_home a_name fs (a_machine_ok some_home) Fr Fn ltac:(cbn; tauto) eq_refl) as [s Us].
  assert (get_config (Some "/home/ada") (mc_package M) (mc_config M) fs = (Ok (setup_result "/home/ada" a_name false), fs)) as G.
  { apply (setup_read M sample_disp some_home some_home a_name fs (a_machine_ok some_home) Fh); [cbn; tauto|reflexivity]. }
  assert (file_text ["1 2"; "; measured on Monday"; "2 3"] note /\ Forall one_line ["1 2"; "; measured on Monday"; "2 3"]) as [FT OL].
  { split; [exact (ft_line "1 2" NL _ _ (or_introl eq_refl) (ft_line "; measured on Monday" NL _ _ (or_introl eq_refl) (ft_line "2 3" NL _ _ (or_introl eq_refl) ft_nil)))|].
    repeat (constructor; [intros k K; cbn in K; repeat (destruct K as [<-|K]; [cbn; intros J; repeat (destruct J as [J|J]; [discriminate J|]); exact J|]); destruct K|]). constructor. }
  assert (os_name "gold.txt") as Ng by (unfold os_name, plain_name, chars; repeat constructor; try discriminate; no_char).
  exists fs, s. split; [now left|]. split; [exact Us|]. split; [exact G|]. split; [reflexivity|]. split; [exact FT|]. split; [exact OL|].
  apply (C97_mark_refuted M sample_disp "/home/ada" some_home fs (setup_result "/home/ada" a_name false) s "gold.txt" ".txt" note ["1 2"; "; measured on Monday"; "2 3"] " measured on Monday" [] []
    (a_machine_ok some_home) Fr); try assumption; try reflexivity; try (now left); try (cbn; tauto).
  exists "gol", "d"%char. split; [reflexivity|]. split; discriminate.
Qed.

(** a table in centimetres, which does not cover the reference at 632.8 nm; then one in nanometres *)
Definition own_table (unit : string) : material :=
  let b := mkBase "wavelength" unit (mkSp "wavelength" unit (VA [Fin 400; Fin 700]) (VA [Fin 400; Fin 700])) in
  mkMat (Some (describe default_meta)) "nk" (DInterp b (xrows table_n)) (DInterp b (xrows table_k)) None "wavelength" unit.
Lemma own_ready W unit : header_value unit -> header_ready W (own_table unit).
Proof.
  intros Hu. split.
  - intros meta key v E. injection E as <-. unfold header_keys. cbn [In].
    intros [<-|[<-|[<-|[<-|[<-|[]]]]]] E; (match type of E with dget ?d ?k = _ => let x := eval vm_compute in (dget d k) in change (x = Some v) in E end; injection E as <-; cbn [format_val]; apply header_value_dec; reflexivity).
  - intros b rows E. injection E as <- <-. split; [apply header_value_dec; reflexivity|exact Hu].
Qed.
Lemma own_gold : os_name "gold.txt" /\ text_file "gold.txt".
Proof.
  split; [unfold os_name, plain_name, chars; repeat constructor; try discriminate; no_char|]. left; exists "gol", "d"%char; split; [reflexivity|]; split; discriminate.
Qed.
Example C97_saved_instance : forall fs unit, In unit ["nanometer"; "Nanometer"] -> exists s ops m, let M := a_machine some_home in let f := "gold.txt" in
  mk_spectrum (InVals (VS (Fin 632.8))) "wavelength" "nanometer" = Ok s /\
  save_material (mc_write M) (abs_path (own_file some_home f)) (own_table unit) (fs_files fs) true false = (Ok tt, ops) /\
  mk_material (read_on M (after fs ops)) [("file_path", PStr (abs_path (own_file some_home f)))] = Ok m /\
  (usable M (after fs ops) s some_home f <-> unit = "nanometer").
Proof.
  intros fs unit Hu. set (M := a_machine some_home). pose proof first_ready as (Fh & Fr & Fn & _). destruct own_gold as [Ng Tf]. destruct example_comment_text as (Cu & Cy & Cp).
  assert (lower unit = "nanometer") as Lu by (destruct Hu as [<-|[<-|[]]]; reflexivity).
  destruct (mk_spectrum (InVals (VS (Fin 632.8))) "wavelength" "nanometer") as [s|] eqn:Es; [|discriminate Es]. exists s.
  assert (header_ready (mc_write M) (own_table unit)) as Hr by (apply own_ready; destruct Hu as [<-|[<-|[]]]; apply header_value_dec; reflexivity).
  destruct (C97_saved M sample_disp some_home fs "gold.txt" (own_table unit) example_comment _ _ table_n table_k true false "nm" s (Fin 632.8) "wavelength" "nanometer" (a_machine_ok some_home) Fr Ng Tf Hr
    (ex_intro _ _ (conj eq_refl eq_refl)) Cu (conj eq_refl (conj eq_refl (conj eq_refl eq_refl))) (proj1 tables_float) (proj2 tables_float)) as (ops & m & Sv & Mk & Us & _);
    try first [assumption|exact Es|reflexivity|discriminate|cbn; lia|apply tables_nodup|apply txt_decimal|exact example_display].
  { cbn [d_type d_unit]. rewrite Lu. exact doc_nano. }
  { cbn [d_unit]. intros ->. discriminate Lu. }
  exists ops, m. split; [reflexivity|]. split; [exact Sv|]. split; [exact Mk|]. rewrite (Us ltac:(discriminate)). cbn [d_unit]. rewrite Lu. split; congruence.
Qed.
Example C97_centimetre_instance : forall fs, exists s w ops m, let M := a_machine some_home in let f := "gold.txt" in
  mk_spectrum (InVals (VS (Fin 632.8))) "wavelength" "nanometer" = Ok s /\ convert_to s "wavelength" "cm" = Ok (VS (Fin w)) /\ w < 1 /\
  save_material (mc_write M) (abs_path (own_file some_home f)) (own_table "cm") (fs_files fs) true false = (Ok tt, ops) /\
  mk_material (read_on M (after fs ops)) [("file_path", PStr (abs_path (own_file some_home f)))] = Ok m /\ ~ usable M (after fs ops) s some_home f.
Proof.
  intros fs. set (M := a_machine some_home). pose proof first_ready as (Fh & Fr & Fn & _). destruct own_gold as [Ng Tf]. destruct example_comment_text as (Cu & Cy & Cp).
  destruct (mk_spectrum (InVals (VS (Fin 632.8))) "wavelength" "nanometer") as [s|] eqn:Es; [|discriminate Es]. exists s.
  assert (documented "wavelength" "cm" "cm") as Dc by (exists ["centimeter"; "centimetre"; "cm"]; split; cbn; auto 10).
  assert (exists w, convert_to s "wavelength" "cm" = Ok (VS (Fin w)) /\ w < 1) as (w & W & Lw).
  { injection Es as <-. rewrite (convert_to_unfold _ "wavelength" "cm" "cm" Dc). cbn [sp_std lower to_dispatch]. eexists. split; [reflexivity|].
    match goal with |- round_dec 5 ?x < 1 => pose proof (abs_le _ _ (round_dec_error 5 x)) as B; assert (x < 0.1) as E by (cbn [pow]; lra) end. lra. }
  assert (header_ready (mc_write M) (own_table "cm")) as Hr by (apply own_ready; apply header_value_dec; reflexivity).
  destruct (C97_saved M sample_disp some_home fs "gold.txt" (own_table "cm") example_comment _ _ table_n table_k true false "cm" s (Fin 632.8) "wavelength" "nanometer" (a_machine_ok some_home) Fr Ng Tf Hr
    (ex_intro _ _ (conj eq_refl eq_refl)) Cu (conj eq_refl (conj eq_refl (conj eq_refl eq_refl))) (proj1 tables_float) (proj2 tables_float)) as (ops & m & Sv & Mk & _ & Us);
    try first [assumption|exact Es|reflexivity|discriminate|cbn; lia|apply tables_nodup|apply txt_decimal|exact example_display].
  exists w, ops, m. split; [reflexivity|]. split; [exact W|]. split; [exact Lw|]. split; [exact Sv|]. split; [exact Mk|]. apply (Us eq_refl w W). left.
  intros p Hp. cbn in Hp. repeat (destruct Hp as [<-|Hp]; [cbn [fst]; lra|]). destruct Hp.
Qed.
