(** Theorems about saving the catalogue with an interruption (C85). *)
From Verif Require Import PyBase PyStr XReal CNum SpectrumModel SpectrumSpec SpectrumProofs SpectralModel SpectralSpec TextModel MaterialModel MaterialSpec MaterialProofs MatFileProofs FileModel IOSpec SaveSpec PathModel ConfigModel CatalogueModel CatalogueSpec CatalogueProofs NormProofs RebuildProofs WalkProofs SaveProofs CatalogueSample SpectralThms CatalogueThms CsvModel CsvSpec CsvProofs CrashSpec CrashProofs.
From Verif Require Import CrashThms.
Open Scope R_scope.
Open Scope string_scope.
Open Scope list_scope.

(** C85: if saving the catalogue is interrupted at any point after the line with the column names,
    opening it either raises ValueError, or gives the rows that were completely written, as they
    would have come back, and after them at most one row that was cut after the comma before its
    upper bound: complete up to the lower bound, one text cut, the texts after it empty *)
Theorem C85_interrupted : forall X L W cfg rb cat f W',
  csv_ok L -> mk_catalogue X W cfg rb = Ok cat -> Forall (texts_writable L) (rows_of f) ->
  interrupted L W (set_database cat f) W' ->
  mk_catalogue X W' cfg (RStr "None") = Raise ValueError \/
  exists cat' done rest back last, mk_catalogue X W' cfg (RStr "None") = Ok cat' /\
    rows_of f = done ++ rest /\ rows_of (c_db cat') = back ++ last /\ Forall2 (row_back L) done back /\
    (last = [] \/ exists r rest' r', rest = r :: rest' /\ last = [r'] /\ row_cut L r r') /\
    default_numbering (c_db cat') /\ c_base cat' = c_base cat /\ c_file cat' = c_file cat /\ c_ref cat' = c_ref cat.
Proof. exact C85_interrupted_l. Qed.
Print Assumptions C85_interrupted.

(** C85: what was completely written can be used: if the catalogue opens and the first row with an
    alias is not the last row that is left, the alias loads the file it loads without the
    interruption *)
Theorem C85_alias : forall X L W cfg rb cat f W' cat' base a l1 r l2 path t u,
  csv_ok L -> mk_catalogue X W cfg rb = Ok cat -> c_base cat = abs_path base -> Forall plain_name base ->
  Forall (texts_writable L) (rows_of f) -> Forall (fun r => r_alias r <> KObj) (rows_of f) ->
  interrupted L W (set_database cat f) W' -> mk_catalogue X W' cfg (RStr "None") = Ok cat' ->
  a <> "" -> rows_of f = l1 ++ r :: l2 -> r_alias r = KStr a -> (forall x, In x l1 -> r_alias x <> KStr a) ->
  (S (length l1) < length (rows_of (c_db cat')))%nat -> located base r path t u ->
  get_material W' cat' (IdStr a) = loaded (w_read W) path t u.
Proof. exact C85_alias_l. Qed.
Print Assumptions C85_alias.

(** C85: the code violates that an interrupted save keeps the old catalogue or is noticed: for every
    row there is a point at which an interruption leaves a file that opens without an error, with
    this row lacking its path and module, and all later rows gone *)
Theorem C85_rows_lost_refuted : forall X L W cfg rb cat f1 l r f2,
  csv_ok L -> mk_catalogue X W cfg rb = Ok cat ->
  Forall (texts_writable L) (rows_of (f1 ++ (l, r) :: f2)) -> Forall bounded (rows_of (f1 ++ (l, r) :: f2)) ->
  exists W' cat' back r', interrupted L W (set_database cat (f1 ++ (l, r) :: f2)) W' /\
    mk_catalogue X W' cfg (RStr "None") = Ok cat' /\ rows_of (c_db cat') = back ++ [r'] /\
    Forall2 (row_back L) (rows_of f1) back /\ row_cut L r r' /\ r_path r' = KStr "" /\ r_module r' = KStr "".
Proof. exact C85_rows_lost_refuted_l. Qed.
Print Assumptions C85_rows_lost_refuted.

(** numbers for the example *)
Definition crash_csv : csvlib :=
  mkCsv (fun x => match x with PInf => "inf" | NInf => "-inf" | _ => "400.0" end) (fun _ _ => "[1, 2]")
    (fun s => if String.eqb s "" then None else if String.eqb s "inf" then Some PInf else if String.eqb s "-inf" then Some NInf else Some (Fin 400)) true.
Lemma crash_csv_ok : csv_ok crash_csv.
Proof.
  split; [|reflexivity|].
  - intros x N. destruct x; try congruence; (split; [discriminate|]); (split; [split; [intros H; cbn in H; repeat (destruct H as [H|H]; [discriminate H|]); exact H|now left]|]); eexists; reflexivity.
  - intros r col. split; [intros H; cbn in H; repeat (destruct H as [H|H]; [discriminate H|]); exact H|now left].
Qed.
Ltac crash_char := intros H; cbn in H; repeat (destruct H as [H|H]; [discriminate H|]); exact H.
Definition crash_frame : frame := numbered [sample_row "window" "glass" "glass.txt" "UserData" "nanometer"; row_metal; row_silver].
Lemma crash_texts : Forall (texts_writable crash_csv) (rows_of crash_frame).
Proof.
  cbn. repeat (constructor; [unfold texts_writable, cell_writable; cbn;
    repeat apply conj; intros s E; try discriminate E; injection E as <-; (split; [crash_char|now left])|]). constructor.
Qed.
Definition crash_cat : catalogue := mkCat "/home/cat" "catalogue.csv" false sample_ref sample_frame.

(** a catalogue of three rows, the file cut in the second one: it opens without an error, with two
    rows, and the alias of the first row still loads *)
Example C85_instance : exists W' cat' m,
  interrupted crash_csv sample_world (set_database crash_cat crash_frame) W' /\
  mk_catalogue toy_scipy W' (sample_config sample_modules) (RStr "None") = Ok cat' /\ length (rows_of (c_db cat')) = 2%nat /\
  get_material W' cat' (IdStr "window") = Ok m /\ m_unit m = "nanometer".
Proof.
  destruct (table_loaded sample_read "/home/cat/UserData/glass.txt" "nk" "nk" 3 glass "" "" "wavelength" "nanometer" "wavelength" "nanometer" "nm")
    as (m & Hm & _ & _ & _ & Um & _); [cbn; tauto|reflexivity|exact glass_ok|right; split; reflexivity|right; split; reflexivity| |].
  { exists ["nanometer"; "nanometre"; "nm"]. cbn; auto 10. }
  assert (Ho : mk_catalogue toy_scipy sample_world (sample_config sample_modules) (RStr "None") = Ok crash_cat) by reflexivity.
  assert (Bd : Forall bounded (rows_of crash_frame)) by (cbn; repeat (constructor; [split; discriminate|]); constructor).
  destruct (C85_rows_lost_refuted toy_scipy crash_csv sample_world (sample_config sample_modules) (RStr "None") crash_cat
              (firstn 1 crash_frame) 1%Z row_metal (skipn 2 crash_frame) crash_csv_ok Ho crash_texts Bd)
    as (W' & cat' & back & r' & I & H' & E & B & _).
  assert (Len : length (rows_of (c_db cat')) = 2%nat).
  { rewrite E, app_length. apply Forall2_len in B. cbn in B |- *. lia. }
  exists W', cat', m. split; [exact I|]. split; [exact H'|]. split; [exact Len|]. split; [|exact Um].
  refine (eq_trans (C85_alias toy_scipy crash_csv sample_world (sample_config sample_modules) (RStr "None") crash_cat crash_frame W' cat'
            ["home"; "cat"] "window" [] (sample_row "window" "glass" "glass.txt" "UserData" "nanometer") [row_metal; row_silver]
            "/home/cat/UserData/glass.txt" "wavelength" "nanometer" crash_csv_ok Ho eq_refl _ crash_texts _ I H' _ eq_refl eq_refl _ _ _) Hm).
  - repeat (constructor; [repeat split; try discriminate; crash_char|]). constructor.
  - cbn. repeat (constructor; [discriminate|]). constructor.
  - discriminate.
  - intros x [].
  - rewrite Len. cbn. lia.
  - exists "UserData", "glass.txt", ["glass.txt"]. split; [reflexivity|]. split; [repeat split; try discriminate; crash_char|].
    split; [reflexivity|]. split; [|auto]. split; [discriminate|]. split; [constructor; [repeat split; try discriminate; crash_char|constructor]|].
    split; [constructor; [crash_char|constructor]|]. left. reflexivity.
Qed.
