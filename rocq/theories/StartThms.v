(** Theorems about the first use of the package: setup, catalogue, materials (C95). *)
From Verif Require Import PyBase PyStr XReal CNum TextModel SpectrumModel SpectrumSpec SpectralModel SpectralSpec MaterialModel MaterialSpec FileModel ReaderModel WriterModel PathModel PathProofs ConfigModel CatalogueModel CatalogueSpec CatalogueProofs IOSpec SaveSpec SaveProofs YamlSpec CsvModel CsvSpec CsvProofs NormProofs DiskModel DiskProofs SetupModel SetupSpec SetupProofs InstallProofs ScriptProofs SaveThms CatalogueThms CsvThms SetupThms ConfigThms ExampleModel ExampleSpec ExampleThms ListedSpec ListedThms StartModel StartSpec.
From Coq Require Import Permutation.
Open Scope R_scope.
Open Scope string_scope.
Open Scope list_scope.

Lemma read_step_content fs o p : content (fs_step fs (OTrunc p)) p = "" /\ content (fs_step fs (OAppend p o)) p = (content fs p ++ o)%string.
Proof. unfold content. cbn. rewrite !dget_dset_same. now split. Qed.
(** what is in the file afterwards depends on the path only through its extension *)
Lemma save_text W p q m fs fs' ic rii ops : splitext p = splitext q -> save_material W p m fs ic rii = (Ok tt, ops) ->
  exists ops', save_material W q m fs' ic rii = (Ok tt, ops') /\ dget (fs_run fs ops) p = Some (content (fs_run fs' ops') q).
Proof.
  intros E H. unfold save_material, mk_writer in *. destruct (prepare_file_dict W m) as [fd|e]; [|discriminate]. cbn [bind] in *. rewrite <- E.
  unfold write_file in *. cbn [w_meta w_path w_ext w_sets] in *. destruct (dget (fst fd) "MetaComment") as [comment|]; [|discriminate].
  assert (forall a b, write_text_file W (mkWriter p a b (snd fd)) = write_text_file W (mkWriter q a b (snd fd))) as T by reflexivity.
  assert (forall a b, yaml_doc (mkWriter p a b (snd fd)) ic rii = yaml_doc (mkWriter q a b (snd fd)) ic rii) as Y by reflexivity.
  rewrite T, Y in H. clear T Y.
  match type of H with context[match ?b with Ok _ => _ | Raise _ => _ end] => destruct b as [[text extra]|e] end; [|discriminate].
  destruct comment as [c| |]; [|discriminate|discriminate].
  assert (forall f x, dget (fs_run f [OTrunc x; OAppend x text]) x = Some text) as Rt.
  { intros f x. cbn. unfold content. rewrite dget_dset_same, dget_dset_same. reflexivity. }
  assert (forall f x a b, fs_run f ([OTrunc x; OAppend x text] ++ [OTrunc x; OAppend x a; OAppend x b]) = fs_run (fs_run f [OTrunc x; OAppend x text]) [OTrunc x; OAppend x a; OAppend x b]) as Ra by reflexivity.
  destruct c as [|ch c].
  - injection H as <-. eexists. split; [reflexivity|]. rewrite Rt. unfold content. now rewrite Rt.
  - unfold prepend_text_to_file, fs_read in *. rewrite Rt in H. rewrite Rt. cbn [bind] in *. injection H as <-. eexists. split; [reflexivity|].
    unfold prepended. cbn [map]. rewrite !Ra. clear. set (f := fs_run fs _). set (f' := fs_run fs' _). cbn. unfold content. rewrite !dget_dset_same. reflexivity.
Qed.
Lemma example_exts dir : splitext (path_join dir "example_file.txt") = ".txt" /\ splitext (path_join dir "example_file2.yml") = ".yml".
Proof.
  split; apply named_ext; try (cbn; tauto).
  - apply (join_named dir "example_fil" "e" ".txt"); [reflexivity|discriminate|discriminate].
  - apply (join_named dir "example_file" "2" ".yml"); [reflexivity|discriminate|discriminate].
Qed.

Lemma C95_texts_l : forall M dir fs ops, make_examples (mc_write M) dir fs = (Ok tt, ops) ->
  dget (fs_run fs ops) (path_join dir "example_file.txt") = Some (example_txt M) /\
  dget (fs_run fs ops) (path_join dir "example_file2.yml") = Some (example_yaml M).
Proof.
  intros M dir fs ops H. unfold make_examples in H.
  destruct (make_example_txt (mc_write M) dir fs) as [[[]|e] o1] eqn:E1; [|discriminate].
  destruct (make_example_yaml (mc_write M) dir (fs_run fs o1)) as [r o2] eqn:E2. injection H as -> <-. rewrite run_app.
  unfold make_example_txt in E1. unfold make_example_yaml in E2. unfold example_txt, example_yaml, left_in, make_example_txt, make_example_yaml.
  destruct example_txt_material as [mt|]; [|discriminate]. destruct example_yaml_material as [my|]; [|discriminate].
  destruct (example_exts dir) as [X1 X2]. destruct (example_exts "") as [Y1 Y2]. split.
  - rewrite (C46_other_files_l _ _ _ _ true false _ o2 _ (path_join dir "example_file.txt") E2 (crash_done _ _) (names_differ dir)).
    destruct (save_text _ _ (path_join "" "example_file.txt") _ _ [] _ _ _ (eq_trans X1 (eq_sym Y1)) E1) as (o & -> & R). exact R.
  - destruct (save_text _ _ (path_join "" "example_file2.yml") _ _ [] _ _ _ (eq_trans X2 (eq_sym Y2)) E2) as (o & -> & R). exact R.
Qed.

(** the disk once the example files and the configuration are there *)
Definition settled (M : machine) (h root : list string) (name : string) (fs : fsys) : Prop :=
  is_dir fs root /\ is_dir fs (root ++ ["UserData"]) /\
  is_file fs (root ++ ["UserData"; "example_file.txt"]) (example_txt M) /\ is_file fs (root ++ ["UserData"; "example_file2.yml"]) (example_yaml M) /\
  (forall n, os_name n -> is_dir fs (root ++ ["UserData"; n]) \/ (exists text, is_file fs (root ++ ["UserData"; n]) text) -> In n ["example_file.txt"; "example_file2.yml"]) /\
  is_dir fs (user_dir h) /\ is_file fs (user_file h) (mc_dump M (setup_result (abs_path root) name false)) /\
  ~ is_dir fs (root ++ [name]) /\ mc_creatable M name = true /\ name <> "UserData" /\ root ++ [name] <> user_file h.

Lemma ibind_step {A B} (m : io A) (f : A -> io B) s a s' : m s = (Ok a, s') -> ibind m f s = f a s'.
Proof. intros H. unfold ibind. now rewrite H. Qed.
Section Settled.
Variables (M : machine) (disp : list xr -> xr -> xr) (h root : list string) (name : string).
Hypothesis OK : machine_ok M disp.
Hypothesis Fh : Forall os_name h.
Hypothesis Fr : Forall os_name root.
Hypothesis Fn : os_name name.
Let X := mc_scipy M.
Let L := mc_csv M.
Let dir := abs_path (root ++ ["UserData"]).
Lemma folder_path : path_join (abs_path root) "UserData" = dir.
Proof. apply join_name; [now apply os_plain|apply setup_names]. Qed.
Lemma file_path_of f : In f ["example_file.txt"; "example_file2.yml"] -> path_join dir f = abs_path (root ++ ["UserData"; f]) /\ Forall os_name (root ++ ["UserData"; f]).
Proof.
  intros K. destruct setup_names as (U & _ & _ & _ & X1 & X2). assert (os_name f) as Nf by (destruct K as [<-|[<-|[]]]; assumption).
  pose proof (sub_names _ _ Fr U) as Fu. pose proof (sub_names _ _ Fu Nf) as Ff. split; [|now rewrite snoc2 in Ff].
  unfold dir. rewrite join_name by (try apply Nf; now apply os_plain). now rewrite snoc2.
Qed.
Lemma listing fs : settled M h root name fs ->
  mc_listdir M fs dir = ["example_file.txt"; "example_file2.yml"] \/ mc_listdir M fs dir = ["example_file2.yml"; "example_file.txt"].
Proof.
  intros (D & Du & F1 & F2 & Only & _). destruct setup_names as (U & _ & _ & _ & X1 & X2).
  destruct (ok_listdir _ _ OK fs (root ++ ["UserData"]) (sub_names _ _ Fr U) Du) as [ND In']. fold dir in ND, In'.
  assert (forall n, In n (mc_listdir M fs dir) <-> In n ["example_file.txt"; "example_file2.yml"]) as Same.
  { intros n. rewrite In', snoc2. split; [intros [Nn K]; now apply Only|]. intros [<-|[<-|[]]]; (split; [assumption|right; eauto]). }
  clear In'. destruct (mc_listdir M fs dir) as [|x [|y [|z r]]].
  - exfalso. destruct (Same "example_file.txt") as [_ K]. apply K. now left.
  - exfalso. destruct (Same "example_file.txt") as [_ K1]. destruct (Same "example_file2.yml") as [_ K2].
    destruct (K1 ltac:(now left)) as [E|[]]. destruct (K2 ltac:(right; now left)) as [E'|[]]. congruence.
  - inversion_clear ND as [|? ? N1 _]. destruct (Same x) as [Kx _]. destruct (Same y) as [Ky _].
    destruct (Kx ltac:(now left)) as [<-|[<-|[]]]; destruct (Ky ltac:(right; now left)) as [<-|[<-|[]]]; try (exfalso; apply N1; now left); auto.
  - exfalso. inversion_clear ND as [|? ? N1 ND2]. inversion_clear ND2 as [|? ? N2 ND3].
    destruct (Same x) as [Kx _]. destruct (Same y) as [Ky _]. destruct (Same z) as [Kz _].
    destruct (Kx ltac:(now left)) as [E1|[E1|[]]]; destruct (Ky ltac:(right; now left)) as [E2|[E2|[]]]; destruct (Kz ltac:(right; right; now left)) as [E3|[E3|[]]];
      subst; cbn in N1, N2; tauto.
Qed.
Lemma read_file_on fs ops f : In f ["example_file.txt"; "example_file2.yml"] ->
  dget (fs_run [] ops) (path_join dir f) = dget (fs_files fs) (abs_path (root ++ ["UserData"; f])) ->
  (exists text, is_file fs (root ++ ["UserData"; f]) text) ->
  read_on M fs (path_join dir f) = read_path (mc_files M) (mc_sets M) (mc_material M) (fs_run [] ops) (path_join dir f) /\
  file_exists fs (path_join dir f) = true.
Proof.
  intros K E [text T]. destruct (file_path_of f K) as [P Ff]. unfold read_on, read_path, fs_read. rewrite E. rewrite P in *. unfold is_file in T.
  rewrite <- snoc2 in Ff. rewrite T. rewrite <- snoc2 in T |- *. rewrite open_r_abs by exact Ff. rewrite T. split; [reflexivity|].
  rewrite file_exists_abs by (now apply os_plain). now rewrite T.
Qed.
Lemma valid_setup fs : settled M h root name fs -> validate_config (w_checks (world_on M fs)) (setup_result (abs_path root) name false) = Ok tt.
Proof.
  intros (D & _ & _ & _ & _ & _ & _ & _ & C & _). apply validate_iff. destruct (ok_temp _ _ OK fs) as (t & Ft & Nt & Et & Fresh). constructor.
  - eexists. split; [reflexivity|]. cbn. apply dir_exists_abs; [now apply os_plain|exact D].
  - eexists. split; [reflexivity|]. cbn [w_checks world_on valid_file_name]. rewrite Et, try_plain by assumption. now rewrite C.
  - now eexists.
  - now eexists.
  - eexists. split; [reflexivity|]. intros m v [E|[E|[]]]; injection E as <- <-; now eexists.
  - eexists _, _, _, _. now repeat split.
Qed.
Lemma settled_rows fs : settled M h root name fs ->
  exists a b cat, mk_catalogue X (world_on M fs) (setup_result (abs_path root) name false) (RStr "All") = Ok cat /\
    txt_row 632.8 a /\ yml_row 632.8 0.6328 b /\ c_base cat = abs_path root /\ c_file cat = name /\
    (rows_of (c_db cat) = [a; b] \/ rows_of (c_db cat) = [b; a]).
Proof.
  intros S. pose proof (valid_setup fs S) as V. pose proof (listing fs S) as Ls. destruct S as (D & Du & F1 & F2 & _).
  destruct (mk_spectrum (InVals (VS (Fin (6328 / 10)))) "wavelength" "nanometer") as [ref|] eqn:Er; [|discriminate].
  assert (rounds_for "nm" (6328 / 10) 632.8) as Rw by (replace 632.8 with (6328 / 10) by lra; apply rounds_decimal with (n := 632800000000000%Z); lra).
  assert (rounds_for "um" (6328 / 10 / 1000) 0.6328) as Rv by (replace (6328 / 10 / 1000) with 0.6328 by lra; apply rounds_decimal_um with (n := 632800000%Z); lra).
  destruct OK as [O1 O2 O3 O4 O5 O6 O7 O8 O9].
  destruct (C94_examples_listed_l (mc_write M) disp (mc_material M) dir [] (mc_files M) (mc_sets M) X (6328 / 10) "nanometer" ref 632.8 0.6328
    O1 O3 O4 O5 O2 ltac:(cbn; tauto) Er ltac:(lra) Rw Rv) as (ops & Sx & H).
  destruct (C95_texts_l M dir [] ops Sx) as [T1 T2].
  destruct (H (world_on M fs)) as [H1 H2].
  { intros f K. cbn [w_read w_isfile world_on]. apply read_file_on; [exact K| |].
    - destruct K as [<-|[<-|[]]]; [rewrite T1; symmetry; exact F1|rewrite T2; symmetry; exact F2].
    - destruct K as [<-|[<-|[]]]; eauto. }
  assert (w_listdir (world_on M fs) dir = Ok (mc_listdir M fs dir)) as El.
  { cbn [w_listdir world_on]. unfold dir. rewrite (proj2 (dir_exists_abs fs _ (os_plain _ (sub_names _ _ Fr (proj1 setup_names)))) Du). reflexivity. }
  assert (forall rows, read_module X (world_on M fs) ref dir "UserData" = Ok rows ->
    exists cat, mk_catalogue X (world_on M fs) (setup_result (abs_path root) name false) (RStr "All") = Ok cat /\
      c_base cat = abs_path root /\ c_file cat = name /\ rows_of (c_db cat) = rows) as Build.
  { intros rows R. eexists. split.
    - unfold mk_catalogue. rewrite V. cbn [bind]. unfold make_reference_spectrum.
      change (dlookup (setup_result (abs_path root) name false) "ReferenceSpectrum") with (Ok (CMap [("Value", CFloat (Fin (6328 / 10))); ("SpectrumType", CStr "wavelength"); ("Unit", CStr "nanometer")])).
      cbn [bind map_item dlookup dget]. 
      change (dlookup [("Value", CFloat (Fin (6328 / 10))); ("SpectrumType", CStr "wavelength"); ("Unit", CStr "nanometer")] "Value") with (Ok (CFloat (Fin (6328 / 10)))).
      change (dlookup [("Value", CFloat (Fin (6328 / 10))); ("SpectrumType", CStr "wavelength"); ("Unit", CStr "nanometer")] "SpectrumType") with (Ok (CStr "wavelength")).
      change (dlookup [("Value", CFloat (Fin (6328 / 10))); ("SpectrumType", CStr "wavelength"); ("Unit", CStr "nanometer")] "Unit") with (Ok (CStr "nanometer")).
      cbn [bind check_float check_str]. rewrite Er. cbn [bind].
      change (dlookup (setup_result (abs_path root) name false) "Path") with (Ok (CStr (abs_path root))).
      change (dlookup (setup_result (abs_path root) name false) "File") with (Ok (CStr name)).
      change (dlookup (setup_result (abs_path root) name false) "Modules") with (Ok (CMap [("UserData", CBool true); ("RefractiveIndexInfo", CBool false)])).
      change (dlookup (setup_result (abs_path root) name false) "Interactive") with (Ok (CBool false)).
      cbn [bind check_str check_bool map_res snd fst]. change (rebuild_is (RStr "All") "All") with true. change (rebuild_is (RStr "All") "None") with false. cbv iota. cbn [bind].
      unfold build_catalogue, build_loop. change (in_rebuild "UserData" (RStr "All")) with (Ok false). change (rebuild_is (RStr "All") "All") with true.
      cbn [bind orb]. rewrite folder_path, R. cbn [bind]. change (rebuild_is (RStr "All") "RefractiveIndexInfo") with false. cbn [bind andb]. reflexivity.
    - cbn [c_base c_file c_db]. split; [reflexivity|]. split; [reflexivity|]. unfold df_append. now rewrite !rows_numbered. }
  rewrite El in H1, H2. destruct Ls as [Ls|Ls]; rewrite Ls in H1, H2.
  - destruct (H1 eq_refl) as (a & b & R & Ra & Rb). destruct (Build _ R) as (cat & E & B1 & B2 & B3). exists a, b, cat. split; [exact E|]. split; [exact Ra|]. split; [exact Rb|]. split; [exact B1|]. split; [exact B2|]. now left.
  - destruct (H2 eq_refl) as (a & b & R & Ra & Rb). destruct (Build _ R) as (cat & E & B1 & B2 & B3). exists a, b, cat. split; [exact E|]. split; [exact Ra|]. split; [exact Rb|]. split; [exact B1|]. split; [exact B2|]. now right.
Qed.

Lemma settled_saved fs text : settled M h root name fs -> settled M h root name (mkFs (fs_dirs fs) (dset (fs_files fs) (abs_path (root ++ [name])) text)).
Proof.
  intros (D & Du & F1 & F2 & Only & Dh & Fc & Nd & C & Nn & Nc). destruct (user_names h Fh) as (_ & _ & Fuf).
  pose proof (sub_names _ _ Fr Fn) as Frn.
  assert (forall l, Forall os_name l -> l <> root ++ [name] -> forall t, is_file (mkFs (fs_dirs fs) (dset (fs_files fs) (abs_path (root ++ [name])) text)) l t <-> is_file fs l t) as Other.
  { intros l Fl Ne t. unfold is_file. cbn [fs_files]. rewrite dget_dset_other; [reflexivity|]. intros E. apply abs_inj in E; [congruence|now apply os_plain|now apply os_plain]. }
  assert (forall x, root ++ ["UserData"; x] <> root ++ [name]) as Ne by (intros x E; apply app_inv_head in E; discriminate).
  assert (forall n, os_name n -> Forall os_name (root ++ ["UserData"; n])) as Fx.
  { intros n K. rewrite <- snoc2. apply sub_names; [|exact K]. apply sub_names; [exact Fr|apply setup_names]. }
  destruct setup_names as (_ & _ & _ & _ & X1 & X2).
  split; [exact D|]. split; [exact Du|]. split; [apply Other; auto|]. split; [apply Other; auto|]. split; [|split; [exact Dh|split; [apply Other; auto|repeat split; auto]]].
  intros n Kn [K|[t K]]; (apply Only; [exact Kn|]); [now left|right]. exists t. apply Other in K; auto.
Qed.
Lemma words_writable s : ~ In nul (chars s) -> ~ In cr (chars s) -> cell_writable L (KStr s).
Proof. intros A B s' E. injection E as <-. split; [exact A|now right]. Qed.
Ltac chars_none := let K := fresh in intros K; cbn in K; repeat (destruct K as [K|K]; [discriminate K|]); exact K.
Lemma example_writable nm file r : In (nm, file) [("example_file", "example_file.txt"); ("example_file2", "example_file2.yml")] -> example_words nm file r -> texts_writable L r.
Proof.
  intros K (W1 & W2 & W3 & W4 & W5 & W6 & W7 & W8 & W9 & W10). unfold texts_writable.
  rewrite W1, W2, W3, W4, W5, W6, W7, W8, W9, W10.
  destruct K as [K|[K|[]]]; injection K as <- <-; repeat match goal with |- _ /\ _ => split end; (apply words_writable; chars_none).
Qed.
Lemma example_located nm file r r' : In (nm, file) [("example_file", "example_file.txt"); ("example_file2", "example_file2.yml")] -> example_words nm file r ->
  row_back L r r' -> located root r' (abs_path (root ++ ["UserData"; file])) "wavelength" "nanometer".
Proof.
  intros K (_ & _ & _ & _ & _ & _ & W7 & W8 & W9 & W10) B. destruct B as [_ _ _ _ _ _ B7 B8 _ _ _ _ B9 B10].
  rewrite W7 in B7. rewrite W8 in B8. rewrite W9 in B9. rewrite W10 in B10. cbn [text_back] in *.
  destruct setup_names as (U & _ & _ & _ & X1 & X2). assert (plain_name file) as Pf by (destruct K as [K|[K|[]]]; injection K as <- <-; [apply X1|apply X2]).
  exists "UserData", file, [file]. split; [exact B10|]. split; [apply U|]. split; [exact B9|]. split; [|now split].
  split; [discriminate|]. split; [constructor; [exact Pf|constructor]|]. split; [|now left]. constructor; [|constructor].
  destruct K as [K|[K|[]]]; injection K as <- <-; chars_none.
Qed.
Lemma config_settled fs : settled M h root name fs -> get_config (Some (abs_path h)) (mc_package M) (mc_config M) fs = (Ok (setup_result (abs_path root) name false), fs).
Proof.
  intros (_ & _ & _ & _ & _ & Dh & Fc & _ & _ & _ & _). unfold get_config. destruct (user_names h Fh) as (_ & Fud & Fuf). unfold read_config, get_config_dir.
    destruct (user_dir_open h fs Fh (or_introl Dh)) as (fs2 & G & W & _).
    assert (fs2 = fs) as ->.
    { unfold get_user_config_dir in G. rewrite (user_dir_path h Fh) in G. unfold path_exists in G.
      rewrite (proj2 (dir_exists_abs fs _ (os_plain _ Fud)) Dh) in G. cbn [orb] in G. now injection G. }
    rewrite G. rewrite config_path by exact Fud. rewrite user_file_snoc, file_exists_abs by now apply os_plain. unfold is_file in Fc. rewrite Fc.
    rewrite config_path by exact Fud. rewrite open_r_abs by (rewrite user_file_snoc; exact Fuf). rewrite user_file_snoc, Fc. cbn [bind]. now rewrite (ok_config _ _ OK).
Qed.
Lemma opened fs cat a b : settled M h root name fs -> 
  mk_catalogue X (world_on M fs) (setup_result (abs_path root) name false) (RStr "All") = Ok cat ->
  txt_row 632.8 a -> yml_row 632.8 0.6328 b -> rows_of (c_db cat) = [a; b] \/ rows_of (c_db cat) = [b; a] ->
  let fs' := mkFs (fs_dirs fs) (dset (fs_files fs) (abs_path (root ++ [name])) (to_csv L (c_db cat))) in
  exists cat', open_catalogue M (abs_path h) (RStr "None") fs' = (Ok cat', fs') /\ c_base cat' = abs_path root /\ c_file cat' = name /\ example_catalogue M fs' cat'.
Proof.
  intros S Hc Ra Rb Rows fs'. pose proof (settled_saved fs (to_csv L (c_db cat)) S) as S'. fold fs' in S'. pose proof (valid_setup fs' S') as V. pose proof (config_settled fs' S') as G.
  destruct S' as (_ & _ & F1 & F2 & _ & Dh & Fc & _ & _ & _ & _).
  assert (Forall (texts_writable L) (rows_of (c_db cat)) /\ Forall bounded (rows_of (c_db cat))) as [TW BD].
  { assert (texts_writable L a) as Wa by (apply (example_writable "example_file" "example_file.txt"); [now left|apply Ra]).
    assert (texts_writable L b) as Wb by (apply (example_writable "example_file2" "example_file2.yml"); [right; now left|apply Rb]).
    assert (bounded a) as Ba by (destruct Ra as (_ & A1 & A2 & _); split; rewrite ?A1, ?A2; discriminate).
    assert (bounded b) as Bb by (destruct Rb as (_ & (lo & hi & A1 & A2 & _) & _); split; rewrite ?A1, ?A2; discriminate).
    destruct Rows as [-> | ->]; split; repeat (constructor; [assumption|]); constructor. }
  destruct (read_csv_back L (c_db cat) (ok_csv _ _ OK) TW BD) as (rows & Rd & Back).
  assert (w_csv (world_on M fs') (path_join (abs_path root) name) = Ok rows) as Ecsv.
  { cbn [w_csv world_on]. rewrite join_name by (try apply Fn; now apply os_plain). rewrite open_r_abs by (now apply sub_names).
    unfold fs' at 1. cbn [fs_files]. rewrite dget_dset_same. exact Rd. }
  destruct (mk_spectrum (InVals (VS (Fin (6328 / 10)))) "wavelength" "nanometer") as [ref|] eqn:Er; [|discriminate].
  exists (mkCat (abs_path root) name false ref (numbered rows)). split; [|split; [reflexivity|split; [reflexivity|]]].
  { unfold open_catalogue. rewrite G. f_equal. cbn [bind]. unfold mk_catalogue. rewrite V. cbn [bind]. unfold make_reference_spectrum.
    change (dlookup (setup_result (abs_path root) name false) "ReferenceSpectrum") with (Ok (CMap [("Value", CFloat (Fin (6328 / 10))); ("SpectrumType", CStr "wavelength"); ("Unit", CStr "nanometer")])).
    cbn [bind map_item dlookup dget].
    change (dlookup [("Value", CFloat (Fin (6328 / 10))); ("SpectrumType", CStr "wavelength"); ("Unit", CStr "nanometer")] "Value") with (Ok (CFloat (Fin (6328 / 10)))).
    change (dlookup [("Value", CFloat (Fin (6328 / 10))); ("SpectrumType", CStr "wavelength"); ("Unit", CStr "nanometer")] "SpectrumType") with (Ok (CStr "wavelength")).
    change (dlookup [("Value", CFloat (Fin (6328 / 10))); ("SpectrumType", CStr "wavelength"); ("Unit", CStr "nanometer")] "Unit") with (Ok (CStr "nanometer")).
    cbn [bind check_float check_str]. rewrite Er. cbn [bind].
    change (dlookup (setup_result (abs_path root) name false) "Path") with (Ok (CStr (abs_path root))).
    change (dlookup (setup_result (abs_path root) name false) "File") with (Ok (CStr name)).
    change (dlookup (setup_result (abs_path root) name false) "Modules") with (Ok (CMap [("UserData", CBool true); ("RefractiveIndexInfo", CBool false)])).
    change (dlookup (setup_result (abs_path root) name false) "Interactive") with (Ok (CBool false)).
    cbn [bind check_str check_bool map_res snd fst]. change (rebuild_is (RStr "None") "All") with false. change (rebuild_is (RStr "None") "None") with true. cbv iota.
    rewrite Ecsv. cbn [bind andb]. reflexivity. }
  set (cat' := mkCat (abs_path root) name false ref (numbered rows)).
  destruct OK as [O1 O2 O3 O4 O5 O6 O7 O8 O9].
  destruct (C91_examples_load_l (mc_write M) disp (mc_material M) dir [] (mc_files M) (mc_sets M) O1 O3 O4 O5 O2)
    as (ops & m & m' & Sx & (L1 & D1 & bb & bb' & HT & T1 & T2 & T3 & T4 & _ & _) & (L2 & D2 & N2 & N3 & N4 & N5 & _ & _) & _).
  destruct (C95_texts_l M dir [] ops Sx) as [Tx1 Tx2].
  assert (forall p f nm r r', In (nm, f) [("example_file", "example_file.txt"); ("example_file2", "example_file2.yml")] -> example_words nm f r -> row_back L r r' -> row_at (c_db cat') p r' ->
    material_of M fs' cat' (IdInt (Z.of_nat p)) = mk_material (read_path (mc_files M) (mc_sets M) (mc_material M) (fs_run [] ops)) [("file_path", PStr (path_join dir f))]) as Mat.
  { intros p f nm r r' K Wr Br At. unfold material_of.
    rewrite (proj1 (C53_number_l (world_on M fs') cat' p r' root _ _ _ eq_refl (os_plain _ Fr) At (example_located nm f r r' K Wr Br))).
    assert (In f ["example_file.txt"; "example_file2.yml"]) as Kf by (cbn in K |- *; destruct K as [K|[K|[]]]; injection K as <- <-; tauto).
    destruct (file_path_of f Kf) as [Ep _]. rewrite <- Ep, loaded_default. apply material_same. cbn [w_read world_on]. apply read_file_on; [exact Kf| |].
    - destruct Kf as [<-|[<-|[]]]; [rewrite Tx1; symmetry; exact F1|rewrite Tx2; symmetry; exact F2].
    - destruct Kf as [<-|[<-|[]]]; eauto. }
  assert (forall p r', row_at (c_db cat') p r' -> row_back L a r' -> entry M fs' cat' p (txt_row 632.8) txt_example) as E1.
  { intros p r' At Br. exists a, r'. split; [exact Ra|]. split; [exact Br|]. split; [exact At|]. exists m. split.
    - rewrite (Mat p "example_file.txt" "example_file" a r' ltac:(now left) (proj1 Ra) Br At). exact L1.
    - split; [exact D1|]. exists bb, bb'. exact (conj HT (conj T1 (conj T2 (conj T3 T4)))). }
  assert (forall p r', row_at (c_db cat') p r' -> row_back L b r' -> entry M fs' cat' p (yml_row 632.8 0.6328) yml_example) as E2.
  { intros p r' At Br. exists b, r'. split; [exact Rb|]. split; [exact Br|]. split; [exact At|]. exists m'. split.
    - rewrite (Mat p "example_file2.yml" "example_file2" b r' ltac:(right; now left) (proj1 Rb) Br At). exact L2.
    - split; [exact D2|]. split; [exact N2|]. split; [exact N3|]. split; [exact N4|exact N5]. }
  assert (exists x y, rows = [x; y]) as (x & y & Er') by (destruct Rows as [E|E]; rewrite E in Back; inversion Back as [|? ? ? ? ? Bk]; inversion Bk as [|? ? ? ? ? Bk']; inversion Bk'; subst; eauto).
  split; [subst rows; reflexivity|]. split; [apply numbered_default|].
  assert (row_at (c_db cat') 0 x /\ row_at (c_db cat') 1 y) as [At0 At1] by (subst rows; split; eexists; reflexivity).
  subst rows. destruct Rows as [E|E]; rewrite E in Back; inversion Back as [|? ? ? ? Bx By]; inversion By as [|? ? ? ? By' _]; subst.
  - exists 0%nat, 1%nat. split; [now left|]. split; [now apply (E1 0%nat x)|now apply (E2 1%nat y)].
  - exists 1%nat, 0%nat. split; [now right|]. split; [now apply (E1 1%nat y)|now apply (E2 0%nat x)].
Qed.
(** the catalogue file of a settled disk, written anew *)
Lemma saved_opened fs r : settled M h root name fs -> exists text, rebuilt_text M fs (setup_result (abs_path root) name false) = Ok text /\
  let fs' := mkFs (fs_dirs fs) (dset (fs_files fs) (abs_path (root ++ [name])) text) in
  save_catalogue (mc_creatable M) (setup_result (abs_path root) name false) text (mkSys r fs) = (Ok tt, mkSys r fs') /\
  settled M h root name fs' /\ in_use M h root name fs'.
Proof.
  intros S. destruct (settled_rows fs S) as (a & b & cat & Hc & Ra & Rb & _ & _ & Rows).
  exists (to_csv L (c_db cat)). split; [unfold rebuilt_text; fold X; now rewrite Hc|]. intros fs'.
  split; [|split; [now apply settled_saved|exact (opened fs cat a b S Hc Ra Rb Rows)]].
  destruct S as (D & _ & _ & _ & _ & _ & _ & Nd & C & _ & _).
  unfold save_catalogue, ibind, pure, dlookup, change_disk. cbn [setup_result dget String.eqb Ascii.eqb Bool.eqb check_str disk typed].
  rewrite join_name by (try apply Fn; now apply os_plain). now rewrite open_w_abs by (try assumption; now apply sub_names).
Qed.
Lemma rebuild_disk fs answers r rest fs1 : settled M h root name fs -> run_rebuild M (abs_path h) (mkSys answers fs) = (r, mkSys rest fs1) ->
  fs1 = fs \/ settled M h root name fs1 /\ in_use M h root name fs1 /\ exists text, fs1 = mkFs (fs_dirs fs) (dset (fs_files fs) (abs_path (root ++ [name])) text).
Proof.
  intros S H. unfold run_rebuild, rebuild_catalogue, ibind at 1 in H.
  assert (forall a b s', ask_rebuild (mkSys a fs) = (b, s') -> disk s' = fs) as K.
  { intros a. unfold ask_rebuild. cbn [typed disk]. induction a as [|x a IH]; cbn; intros b s' E; [now injection E as <- <-|].
    destruct (String.eqb x "n"); [now injection E as <- <-|]. destruct (String.eqb x "y"); [now injection E as <- <-|]. now apply (IH b). }
  destruct (ask_rebuild (mkSys answers fs)) as [[[|]|e] [ty ds]] eqn:E; pose proof (K _ _ _ E) as Ed; cbn in Ed; subst ds.
  - right. destruct (saved_opened fs ty S) as (text & Tx & Sv & St & Us).
    unfold ibind at 1 in H. unfold on_disk in H. cbn [disk typed] in H. rewrite (config_settled fs S) in H.
    unfold ibind, look, pure in H. cbn [disk typed] in H. rewrite Tx in H. rewrite Sv in H. injection H as _ _ <-. eauto.
  - left. now injection H as _ _ <-.
  - left. now injection H as _ _ <-.
Qed.
Lemma rebuild_yes fs skipped rest : settled M h root name fs -> Forall (fun x => x <> "y" /\ x <> "n") skipped -> exists text,
  let fs1 := mkFs (fs_dirs fs) (dset (fs_files fs) (abs_path (root ++ [name])) text) in
  run_rebuild M (abs_path h) (mkSys (skipped ++ "y" :: rest) fs) = (Ok tt, mkSys rest fs1) /\ settled M h root name fs1 /\ in_use M h root name fs1.
Proof.
  intros S Sk. destruct (saved_opened fs rest S) as (text & Tx & Sv & St & Us). exists text. intros fs1. split; [|now split].
  unfold run_rebuild, rebuild_catalogue. erewrite ibind_step; [|apply (proj2 (C73_question_l _ fs true rest fs)); split; [reflexivity|]; exists skipped; split; [reflexivity|exact Sk]].
  cbv beta iota. erewrite ibind_step; [|unfold on_disk; cbn [disk typed]; rewrite (config_settled fs S); reflexivity].
  unfold ibind, look, pure. cbn [disk typed]. rewrite Tx. exact Sv.
Qed.
End Settled.

Section First.
Variables (M : machine) (disp : list xr -> xr -> xr) (h root : list string) (name : string) (fs fs0 : fsys).
Hypothesis OK : machine_ok M disp.
Hypothesis R : ready M h fs fs0 root name.
Lemma setup_settled answers b rest : dialogue M h fs fs0 root name answers b rest ->
  exists r fs2, settled M h root name fs2 /\ written M h root name fs0 fs2 /\ answered r b rest /\
    dget (fs_files fs2) (abs_path (root ++ [name])) = dget (fs_files fs0) (abs_path (root ++ [name])) /\
    run_setup M (abs_path h) (mkSys answers fs) =
    maybe_rebuild_catalogue (mc_creatable M) (rebuilt_text M) (setup_result (abs_path root) name false) (mkSys r fs2).
Proof.
  intros (r1 & r2 & r3 & A1 & A2 & A3 & A4). destruct R as (Fh & Fr & Fn & Hd & Co & Wu & Du & [Rr Rf Re Rc (Rd & Rn & Ru) Rx]).
  destruct (user_names h Fh) as (Fc & Fud & Fuf). destruct setup_names as (U & _ & _ & _ & X1 & X2).
  assert (get_user_config_dir (Some (abs_path h)) fs = (Ok (abs_path (user_dir h)), fs0)) as G0.
  { destruct (user_dir_cases h fs Fh) as [[E G]|[(N & D & G)|(N & D & G)]]; rewrite G.
    - f_equal. destruct Wu as [Wf [Wd|[Wn Wd]]]; [destruct fs, fs0; cbn in *; congruence|]. exfalso. unfold path_exists in E. apply orb_true_iff in E.
      destruct Co as [Co|[[_ Co] _]]; [contradiction|]. destruct E as [E|E]; [apply dir_exists_abs in E; [contradiction|now apply os_plain]|].
      rewrite file_exists_abs in E by now apply os_plain. unfold SetupSpec.no_file in Co. now rewrite Co in E.
    - f_equal. destruct Wu as [Wf [Wd|[Wn Wd]]]; [|destruct fs, fs0; cbn in *; congruence]. exfalso. unfold is_dir in Du. rewrite Wd in Du. now apply (proj1 N).
    - exfalso. destruct Co as [Co|[_ Co]]; [now apply (proj1 N)|contradiction]. }
  assert (forall f, fs_dirs f = fs_dirs f -> is_dir f (user_dir h) -> get_user_config_dir (Some (abs_path h)) f = (Ok (abs_path (user_dir h)), f)) as G1.
  { intros f _ D. unfold get_user_config_dir. rewrite (user_dir_path h Fh). unfold path_exists. now rewrite (proj2 (dir_exists_abs f _ (os_plain _ Fud)) D). }
  assert (folder_ready (mc_creatable M) root fs0) as Rdy.
  { split; [exact Rr|]. split; [now right|]. split; [apply (Re _ X1)|]. split; [apply (Re _ X2)|]. split; apply Rx; cbn; tauto. }
  set (conf := dset (dset (documented_default (abs_path (user_dir h))) "Path" (CStr (abs_path root))) "File" (CStr name)).
  destruct (C62_declined_l (mc_creatable M) (example_txt M) (example_yaml M) (mc_clone M) conf root r2 fs0 r3 Fr) as (fs1 & (Dir1 & F1 & F2 & Oth) & Inst); auto.
  { split; [reflexivity|]. eexists _, _. reflexivity. }
  assert (Forall os_name (root ++ ["UserData"; "example_file.txt"]) /\ Forall os_name (root ++ ["UserData"; "example_file2.yml"])) as [Fx1 Fx2].
  { rewrite <- !snoc2. split; (apply sub_names; [apply sub_names; assumption|assumption]). }
  assert (forall x y, x <> "dispersion" -> y <> "config.yaml" -> root ++ [x; y] <> user_file h /\ root ++ [y] <> user_file h) as Nuf.
  { intros x y Hx Hy. split; intros E.
    - rewrite <- (user_file_snoc h), <- (snoc2 root) in E. apply app_inj_tail in E. destruct E as [_ E]. contradiction.
    - rewrite <- (user_file_snoc h) in E. apply app_inj_tail in E. destruct E as [_ E]. contradiction. }
  assert (~ is_dir fs1 (user_file h)) as Nd1.
  { intros K. apply Dir1 in K. destruct K as [K|K]; [contradiction|]. apply abs_inj in K; [|now apply os_plain|apply os_plain; now apply sub_names].
    destruct (Nuf "x" "UserData") as [_ Q]; [discriminate|discriminate|]. now apply Q. }
  assert (is_dir fs1 (user_dir h)) as Du1 by (apply Dir1; now left).
  destruct (write_user (mc_creatable M) (mc_dump M) h (mc_package M) fs1 (setup_result (abs_path root) name false) Fh ltac:(apply Rx; cbn; tauto) Du1 Nd1) as (fs2 & Wr & (Sd & Sf & So)).
  exists r3, fs2. pose proof (sub_names _ _ Fr Fn) as Frn.
  assert (forall l, Forall os_name l -> l <> user_file h -> abs_path l <> abs_path (user_file h)) as Ap.
  { intros l Fl Ne E. apply abs_inj in E; [contradiction|now apply os_plain|now apply os_plain]. }
  assert (abs_path (root ++ [name]) <> abs_path (root ++ ["UserData"; "example_file.txt"]) /\ abs_path (root ++ [name]) <> abs_path (root ++ ["UserData"; "example_file2.yml"])) as [Nr1 Nr2].
  { split; intros E; apply abs_inj in E; try (now apply os_plain); apply app_inv_head in E; discriminate. }
  split; [|split; [|split; [exact A4|split]]].
  - unfold settled. split; [unfold is_dir; rewrite Sd; apply Dir1; now left|]. split; [unfold is_dir; rewrite Sd; apply Dir1; now right|].
    split; [unfold is_file; rewrite So by (apply Ap; [exact Fx1|apply Nuf; discriminate]); exact F1|].
    split; [unfold is_file; rewrite So by (apply Ap; [exact Fx2|apply Nuf; discriminate]); exact F2|].
    split; [|split; [unfold is_dir; rewrite Sd; exact Du1|split; [exact Sf|split; [|split; [apply Rx; cbn; tauto|split; [exact Rn|exact Ru]]]]]].
    + intros n Kn K. assert (Forall os_name (root ++ ["UserData"; n])) as Fxn by (rewrite <- snoc2; apply sub_names; [apply sub_names; assumption|exact Kn]).
      destruct (Re n Kn) as [Q1 Q2]. destruct K as [K|[t K]].
      * exfalso. unfold is_dir in K. rewrite Sd in K. apply Dir1 in K. destruct K as [K|K]; [contradiction|].
        apply abs_inj in K; [|now apply os_plain|apply os_plain; now apply sub_names]. apply app_inv_head in K. discriminate.
      * destruct (string_dec n "example_file.txt") as [->|M1]; [now left|]. destruct (string_dec n "example_file2.yml") as [->|M2]; [right; now left|]. exfalso.
        unfold is_file in K. rewrite So in K.
        -- rewrite Oth in K; [unfold SetupSpec.no_file in Q2; rewrite Q2 in K; [discriminate K|intros [E|[E|[]]]; congruence]| |]; intros E; apply abs_inj in E; try (now apply os_plain); apply app_inv_head in E; injection E as E; contradiction.
        -- apply Ap; [exact Fxn|]. intros E.
           rewrite <- (user_file_snoc h), <- (snoc2 root) in E. apply app_inj_tail in E. destruct E as [E _].
           unfold user_dir in E. rewrite <- (snoc2 h) in E. apply app_inj_tail in E. destruct E as [_ E]. discriminate.
    + intros K. unfold is_dir in K. rewrite Sd in K. apply Dir1 in K. destruct K as [K|K]; [contradiction|].
      apply abs_inj in K; [|now apply os_plain|apply os_plain; now apply sub_names]. apply app_inj_tail in K. destruct K as [_ K]. contradiction.
  - split; [intros p; rewrite Sd; apply Dir1|]. split; [exact Sf|]. intros p P1 P2 P3 P4. rewrite So by exact P3. now apply Oth.
  - rewrite So by (apply Ap; assumption). now apply Oth.
  - unfold run_setup, main. erewrite ibind_step.
    2:{ unfold on_disk, default_config. cbn [disk typed]. rewrite G0, default_text_documented, Hd. reflexivity. }
    erewrite ibind_step.
    2:{ apply loop_iff. exact A1. }
    cbv beta. erewrite ibind_step.
    2:{ apply loop_iff. exact A2. }
    cbv beta zeta. fold conf. erewrite ibind_step.
    2:{ exact Inst. }
    change (with_flags conf true false) with (setup_result (abs_path root) name false).
    erewrite ibind_step.
    2:{ unfold on_disk. cbn [disk typed]. rewrite (G1 fs1 eq_refl Du1). reflexivity. }
    erewrite ibind_step.
    2:{ unfold on_disk. cbn [disk typed]. rewrite Wr. reflexivity. }
    reflexivity.
Qed.
End First.

Lemma rewritten M h root name fs0 fs text : Forall os_name h -> Forall os_name root -> os_name name -> root ++ [name] <> user_file h ->
  written M h root name fs0 fs -> written M h root name fs0 (mkFs (fs_dirs fs) (dset (fs_files fs) (abs_path (root ++ [name])) text)).
Proof.
  intros Fh Fr Fn Ne (W1 & W2 & W3). destruct (user_names h Fh) as (_ & _ & Fuf). split; [exact W1|]. split.
  - unfold is_file. cbn [fs_files]. rewrite dget_dset_other; [exact W2|]. intros E. apply abs_inj in E; [congruence| |]; apply os_plain; first [exact Fuf|now apply sub_names].
  - intros p P1 P2 P3 P4. cbn [fs_files]. rewrite dget_dset_other by congruence. now apply W3.
Qed.
Lemma rebuilds_use M disp h root name fs0 fs fs' : machine_ok M disp -> Forall os_name h -> Forall os_name root -> os_name name ->
  rebuilds M (abs_path h) fs fs' -> settled M h root name fs -> written M h root name fs0 fs -> in_use M h root name fs ->
  written M h root name fs0 fs' /\ in_use M h root name fs'.
Proof.
  intros OK Fh Fr Fn Rb. induction Rb as [fs|fs answers r rest fs1 fs2 Run _ IH]; [now split|]. intros S W U.
  destruct (rebuild_disk M disp h root name OK Fh Fr Fn fs answers r rest fs1 S Run) as [->|(S1 & U1 & text & ->)]; [now apply IH|].
  apply IH; [exact S1| |exact U1]. apply rewritten; auto. apply S.
Qed.

Lemma C95_first_run_l : forall M disp h fs fs0 root name answers rest,
  machine_ok M disp -> ready M h fs fs0 root name -> dialogue M h fs fs0 root name answers true rest ->
  exists fs', run_setup M (abs_path h) (mkSys answers fs) = (Ok tt, mkSys rest fs') /\
    forall fs'', rebuilds M (abs_path h) fs' fs'' -> written M h root name fs0 fs'' /\ in_use M h root name fs''.
Proof.
  intros M disp h fs fs0 root name answers rest OK R D.
  destruct (setup_settled M h root name fs fs0 R answers true rest D) as (r & fs2 & S & W & A & _ & ->).
  destruct R as (Fh & Fr & Fn & _). destruct (saved_opened M disp h root name OK Fh Fr Fn fs2 rest S) as (text & Tx & Sv & St & Us).
  eexists. split.
  - unfold maybe_rebuild_catalogue. erewrite ibind_step; [|apply confirm_iff; split; [reflexivity|exact A]].
    cbv beta iota. unfold ibind, look, pure. cbn [disk typed]. rewrite Tx. exact Sv.
  - intros fs'' Rb. apply (rebuilds_use M disp h root name fs0 _ fs'' OK Fh Fr Fn Rb St); [|exact Us]. apply rewritten; auto. apply S.
Qed.

Lemma C95_declined_l : forall M disp h fs fs0 root name answers rest,
  machine_ok M disp -> ready M h fs fs0 root name -> dialogue M h fs fs0 root name answers false rest -> SetupSpec.no_file fs0 (root ++ [name]) ->
  exists fs', run_setup M (abs_path h) (mkSys answers fs) = (Ok tt, mkSys rest fs') /\ written M h root name fs0 fs' /\
    open_catalogue M (abs_path h) (RStr "None") fs' = (Raise FileNotFoundError, fs') /\
    forall skipped rest', Forall (fun x => x <> "y" /\ x <> "n") skipped ->
      exists fs1, run_rebuild M (abs_path h) (mkSys (skipped ++ "y" :: rest') fs') = (Ok tt, mkSys rest' fs1) /\
        forall fs'', rebuilds M (abs_path h) fs1 fs'' -> written M h root name fs0 fs'' /\ in_use M h root name fs''.
Proof.
  intros M disp h fs fs0 root name answers rest OK R D Nf.
  destruct (setup_settled M h root name fs fs0 R answers false rest D) as (r & fs2 & S & W & A & Same & ->).
  destruct R as (Fh & Fr & Fn & _). exists fs2. split; [|split; [exact W|split]].
  - unfold maybe_rebuild_catalogue. erewrite ibind_step; [|apply confirm_iff; split; [reflexivity|exact A]]. reflexivity.
  - unfold open_catalogue. rewrite (config_settled M disp h root name OK Fh fs2 S). f_equal. cbn [bind].
    unfold mk_catalogue. rewrite (valid_setup M disp h root name OK Fr Fn fs2 S). cbn [bind].
    assert (w_csv (world_on M fs2) (path_join (abs_path root) name) = Raise FileNotFoundError) as E.
    { cbn [w_csv world_on]. rewrite join_name by (try apply Fn; now apply os_plain). rewrite open_r_abs by (now apply sub_names).
      unfold SetupSpec.no_file in Nf. rewrite Same, Nf. destruct S as (_ & _ & _ & _ & _ & _ & _ & Nd & _ & _ & _).
      destruct (dir_exists fs2 (abs_path (root ++ [name]))) eqn:Ed; [|reflexivity]. apply dir_exists_abs in Ed; [contradiction|]. apply os_plain. now apply sub_names. }
    destruct (make_reference_spectrum (setup_result (abs_path root) name false)) as [ref|] eqn:Er; [|discriminate]. cbn [bind].
    unfold dlookup. cbn [setup_result dget String.eqb Ascii.eqb Bool.eqb check_str bind]. change (rebuild_is (RStr "None") "All") with false. cbv iota. rewrite E. reflexivity.
  - intros skipped rest' Sk. destruct (rebuild_yes M disp h root name OK Fh Fr Fn fs2 skipped rest' S Sk) as (text & Run & S1 & U1).
    eexists. split; [exact Run|]. intros fs'' Rb. apply (rebuilds_use M disp h root name fs0 _ fs'' OK Fh Fr Fn Rb S1); [|exact U1]. apply rewritten; auto. apply S.
Qed.

Lemma C95_again_l : forall M disp h fs fs0 root name fs1 answers rest,
  machine_ok M disp -> ready M h fs fs0 root name -> left_over h root name fs0 fs1 ->
  dialogue M h fs1 fs1 root name answers true rest ->
  exists fs', run_setup M (abs_path h) (mkSys answers fs1) = (Ok tt, mkSys rest fs') /\
    forall fs'', rebuilds M (abs_path h) fs' fs'' -> written M h root name fs0 fs'' /\ in_use M h root name fs''.
Proof.
  intros M disp h fs fs0 root name fs1 answers rest OK R (L1 & L2 & L3) D.
  assert (ready M h fs1 fs1 root name) as R1.
  { destruct R as (Fh & Fr & Fn & Hd & Co & Wu & Du & [Rr Rf Re Rc (Rd & Rn & Ru) Rx]).
    destruct (user_names h Fh) as (_ & Fud & Fuf). destruct setup_names as (U & _ & _ & _ & X1 & X2).
    assert (Forall os_name (root ++ ["UserData"])) as Fru by now apply sub_names.
    assert (forall n, os_name n -> Forall os_name (root ++ ["UserData"; n])) as Frx by (intros n On; rewrite <- snoc2; now apply sub_names).
    assert (forall l m, Forall os_name l -> Forall os_name m -> l <> m -> abs_path l <> abs_path m) as Ap.
    { intros l m Fl Fm Ne E. apply Ne. apply abs_inj in E; [exact E|now apply os_plain|now apply os_plain]. }
    assert (forall l, Forall os_name l -> l <> root ++ ["UserData"] -> is_dir fs1 l -> is_dir fs0 l) as Dn.
    { intros l Fl Ne K. apply L2 in K. destruct K as [K|K]; [exact K|]. now apply Ap in K. }
    assert (forall x y, y <> "config.yaml" -> root ++ [x; y] <> user_file h /\ root ++ [y] <> user_file h) as Nuf.
    { intros x y Hy. split; intros E; rewrite <- (user_file_snoc h), <- ?(snoc2 root) in E; apply app_inj_tail in E; destruct E as [_ E]; contradiction. }
    assert (forall x, root ++ ["UserData"; x] <> user_file h) as Nuf'.
    { intros x E. rewrite <- (user_file_snoc h), <- (snoc2 root) in E. apply app_inj_tail in E. destruct E as [E _]. unfold user_dir in E. rewrite <- (snoc2 h) in E. apply app_inj_tail in E. destruct E as [_ E]. discriminate. }
    split; [exact Fh|]. split; [exact Fr|]. split; [exact Fn|]. split; [exact Hd|]. split; [left; now apply L1|].
    split; [split; [reflexivity|now left]|]. split; [now apply L1|]. constructor.
    - now apply L1.
    - unfold SetupSpec.no_file. rewrite L3; [exact Rf| | | |]; apply Ap; auto; try (now apply sub_names).
      + intros E. apply app_inv_head in E. discriminate.
      + intros E. apply app_inv_head in E. discriminate.
      + apply (Nuf "" "UserData"). discriminate.
      + intros E. apply app_inj_tail in E. destruct E as [_ E]. congruence.
    - intros n On. destruct (Re n On) as [Q1 Q2]. split.
      + intros K. apply Q1. apply Dn; [now apply Frx| |exact K]. intros E. apply app_inv_head in E. discriminate.
      + intros Hn. unfold SetupSpec.no_file. rewrite L3; [now apply Q2| | | |]; apply Ap; auto; try (now apply sub_names).
        * intros E. apply app_inv_head in E. injection E as E. apply Hn. now left.
        * intros E. apply app_inv_head in E. injection E as E. apply Hn. right. now left.
        * intros E. apply app_inv_head in E. discriminate.
    - intros K. apply Rc. apply Dn; [exact Fuf| |exact K]. intros E. symmetry in E. revert E. apply (Nuf "" "UserData"). discriminate.
    - split; [|split; assumption]. intros K. apply Rd. apply Dn; [now apply sub_names| |exact K]. intros E. apply app_inj_tail in E. destruct E as [_ E]. contradiction.
    - exact Rx. }
  destruct (C95_first_run_l M disp h fs1 fs1 root name answers rest OK R1 D) as (fs' & Run & K). exists fs'. split; [exact Run|].
  intros fs'' Rb. destruct (K fs'' Rb) as [(W1 & W2 & W3) Us]. split; [|exact Us]. split; [|split; [exact W2|]].
  - intros p. rewrite W1. split; [intros [I|I]; [now apply L2|now right]|intros [I|I]; [left; now apply L1|now right]].
  - intros p P1 P2 P3 P4. rewrite W3 by assumption. now apply L3.
Qed.
