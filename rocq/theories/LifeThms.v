(** Theorems about the life of an installation (C99). *)
From Verif Require Import PyBase PyStr XReal CNum TextModel SpectrumModel SpectrumSpec SpectralModel SpectralSpec MaterialModel MaterialSpec FileModel ReaderModel WriterModel PathModel PathProofs ConfigModel CatalogueModel CatalogueSpec CatalogueProofs RebuildProofs IOSpec SaveSpec SaveProofs YamlSpec CsvModel CsvSpec CsvProofs NormProofs DiskModel DiskProofs SetupModel SetupSpec SetupProofs InstallProofs ScriptProofs CycleProofs SaveThms TextFileThms YamlThms CatalogueThms ListingThms CsvThms SetupThms ConfigThms ExampleModel ExampleSpec ExampleThms ListedSpec ListedThms TextSpec LoadSpec LoadThms StartModel StartSpec StartThms OwnSpec OwnThms LifeSpec SpectrumProofs ListProofs ExtrapProofs InterpProofs.
From Coq Require Import Permutation.
Open Scope R_scope.
Open Scope string_scope.
Open Scope list_scope.

(** what does not change *)
Definition placed (M : machine) (h root : list string) (name : string) : Prop :=
  Forall os_name h /\ Forall os_name root /\ os_name name /\ mc_creatable M name = true /\ root ++ [name] <> user_file h.
Lemma settled_installed M h root name fs : settled M h root name fs -> installed M h root name fs.
Proof. intros (D & Du & _ & _ & _ & Dh & Fc & Nd & _). repeat (split; [assumption|]). exact Nd. Qed.
Lemma own_not_config h root f : Forall os_name h -> Forall os_name root -> os_name f -> abs_path (user_file h) <> abs_path (own_file root f).
Proof.
  intros Fh Fr Nf E. destruct (user_names h Fh) as (_ & _ & Fuf). apply abs_inj in E; [|now apply os_plain|apply os_plain, (own_names root f Fr Nf)].
  unfold own_file in E. rewrite <- (user_file_snoc h), <- (snoc2 root) in E. apply app_inj_tail in E. destruct E as [E _].
  unfold user_dir in E. rewrite <- (snoc2 h) in E. apply app_inj_tail in E. destruct E as [_ E]. discriminate.
Qed.
Lemma own_not_catalogue root name f : Forall os_name root -> os_name name -> os_name f -> abs_path (root ++ [name]) <> abs_path (own_file root f).
Proof.
  intros Fr Fn Nf E. apply abs_inj in E; [|apply os_plain; now apply sub_names|apply os_plain, (own_names root f Fr Nf)].
  unfold own_file in E. apply app_inv_head in E. discriminate.
Qed.
Lemma installed_kept M h root name fs fs' : fs_dirs fs' = fs_dirs fs -> dget (fs_files fs') (abs_path (user_file h)) = dget (fs_files fs) (abs_path (user_file h)) ->
  installed M h root name fs -> installed M h root name fs'.
Proof.
  intros Ed Ef (D & Du & Dh & Fc & Nd). unfold installed, is_dir, is_file in *. rewrite Ed, Ef. repeat (split; [assumption|]). assumption.
Qed.
Lemma catalogue_kept M h root name fs fs' : placed M h root name -> only_catalogue root name fs fs' -> installed M h root name fs -> installed M h root name fs'.
Proof.
  intros (Fh & Fr & Fn & _ & Ne) [Ed Ef]. apply installed_kept; [exact Ed|]. apply Ef. intros E.
  destruct (user_names h Fh) as (_ & _ & Fuf). apply abs_inj in E; [congruence|now apply os_plain|apply os_plain; now apply sub_names].
Qed.
Lemma folder_kept M h root name fs fs' : placed M h root name -> folder_changed root fs fs' -> installed M h root name fs -> installed M h root name fs'.
Proof.
  intros (Fh & Fr & Fn & _ & Ne) [Ed Ef]. apply installed_kept; [exact Ed|]. apply Ef. intros f Nf. now apply own_not_config.
Qed.
Lemma save_text_disk M h root name fs r text : placed M h root name -> installed M h root name fs ->
  save_catalogue (mc_creatable M) (setup_result (abs_path root) name false) text (mkSys r fs) =
  (Ok tt, mkSys r (mkFs (fs_dirs fs) (dset (fs_files fs) (abs_path (root ++ [name])) text))).
Proof.
  intros (Fh & Fr & Fn & C & _) (D & _ & _ & _ & Nd). unfold save_catalogue, ibind, pure, dlookup, change_disk. cbn [setup_result dget String.eqb Ascii.eqb Bool.eqb check_str disk typed].
  rewrite join_name by (try apply Fn; now apply os_plain). now rewrite open_w_abs by (try assumption; now apply sub_names).
Qed.
Lemma set_catalogue root name fs text : only_catalogue root name fs (mkFs (fs_dirs fs) (dset (fs_files fs) (abs_path (root ++ [name])) text)).
Proof. split; [reflexivity|]. intros p N. cbn [fs_files]. apply dget_dset_other. congruence. Qed.
Lemma same_catalogue root name fs : only_catalogue root name fs fs.
Proof. now split. Qed.
Lemma rebuild_any M disp h root name fs answers r rest fs1 : machine_ok M disp -> placed M h root name -> installed M h root name fs ->
  run_rebuild M (abs_path h) (mkSys answers fs) = (r, mkSys rest fs1) -> only_catalogue root name fs fs1.
Proof.
  intros OK P S H. unfold run_rebuild, rebuild_catalogue, ibind at 1 in H.
  assert (forall a b s', ask_rebuild (mkSys a fs) = (b, s') -> disk s' = fs) as K.
  { intros a. unfold ask_rebuild. cbn [typed disk]. induction a as [|x a IH]; cbn; intros b s' E; [now injection E as <- <-|].
    destruct (String.eqb x "n"); [now injection E as <- <-|]. destruct (String.eqb x "y"); [now injection E as <- <-|]. now apply (IH b). }
  destruct (ask_rebuild (mkSys answers fs)) as [[[|]|e] [ty ds]] eqn:E; pose proof (K _ _ _ E) as Ed; cbn in Ed; subst ds.
  - pose proof S as (_ & _ & Dh & Fc & _). destruct P as (Fh & P'). unfold ibind at 1 in H. unfold on_disk in H. cbn [disk typed] in H. rewrite (setup_read M disp h root name fs OK Fh Dh Fc) in H.
    unfold ibind, look, pure in H. cbn [disk typed] in H. destruct (rebuilt_text M fs (setup_result (abs_path root) name false)) as [tx|e].
    + rewrite (save_text_disk M h root name fs ty tx (conj Fh P') S) in H. injection H as _ _ <-. apply set_catalogue.
    + injection H as _ _ <-. apply same_catalogue.
  - injection H as _ _ <-. apply same_catalogue.
  - injection H as _ _ <-. apply same_catalogue.
Qed.
Lemma life_keeps M disp h root name fs fs' : machine_ok M disp -> placed M h root name -> life M (abs_path h) root name fs fs' -> installed M h root name fs ->
  installed M h root name fs' /\ fs_dirs fs' = fs_dirs fs /\
  forall p, (forall f, os_name f -> p <> abs_path (own_file root f)) -> p <> abs_path (root ++ [name]) -> dget (fs_files fs') p = dget (fs_files fs) p.
Proof.
  intros OK P H. induction H as [fs|fs fs1 fs2 C H IH|fs fs1 fs2 C H IH|fs answers r rest fs1 fs2 R H IH]; intros S; [split; [exact S|now split]| | |].
  - destruct (IH (folder_kept _ _ _ _ _ _ P C S)) as (S2 & Ed & Ef). destruct C as [Cd Cf]. split; [exact S2|]. split; [congruence|]. intros p N1 N2. rewrite Ef by assumption. now apply Cf.
  - destruct (IH (catalogue_kept _ _ _ _ _ _ P C S)) as (S2 & Ed & Ef). destruct C as [Cd Cf]. split; [exact S2|]. split; [congruence|]. intros p N1 N2. rewrite Ef by assumption. now apply Cf.
  - pose proof (rebuild_any _ _ _ _ _ _ _ _ _ _ OK P S R) as C.
    destruct (IH (catalogue_kept _ _ _ _ _ _ P C S)) as (S2 & Ed & Ef). destruct C as [Cd Cf]. split; [exact S2|]. split; [congruence|]. intros p N1 N2. rewrite Ef by assumption. now apply Cf.
Qed.
Lemma setup_done M disp h root name fs fs0 answers b rest : machine_ok M disp -> ready M h fs fs0 root name -> dialogue M h fs fs0 root name answers b rest ->
  placed M h root name /\ exists fs1, run_setup M (abs_path h) (mkSys answers fs) = (Ok tt, mkSys rest fs1) /\ installed M h root name fs1 /\ written M h root name fs0 fs1.
Proof.
  intros OK R D. destruct (setup_settled M h root name fs fs0 R answers b rest D) as (r & fs2 & S & W & A & _ & ->).
  pose proof R as (Fh & Fr & Fn & _). pose proof S as (_ & _ & _ & _ & _ & _ & _ & _ & C & _ & Ne). split; [now repeat (split; [assumption|])|].
  unfold maybe_rebuild_catalogue. destruct b.
  - destruct (saved_opened M disp h root name OK Fh Fr Fn fs2 rest S) as (text & Tx & Sv & St & Us).
    eexists. split; [|split].
    + erewrite ibind_step; [|apply confirm_iff; split; [reflexivity|exact A]]. cbv beta iota. unfold ibind, look, pure. cbn [disk typed]. rewrite Tx. exact Sv.
    + now apply settled_installed.
    + apply rewritten; auto.
  - exists fs2. split; [|split; [now apply settled_installed|exact W]].
    erewrite ibind_step; [|apply confirm_iff; split; [reflexivity|exact A]]. reflexivity.
Qed.
Lemma lived M disp h root name fs1 fs2 : machine_ok M disp -> set_up M h root name fs1 -> life M (abs_path h) root name fs1 fs2 ->
  placed M h root name /\ installed M h root name fs2.
Proof.
  intros OK (fs & fs0 & answers & b & rest & R & D & E) L. destruct (setup_done _ _ _ _ _ _ _ _ _ _ OK R D) as (P & fs' & E' & I & _).
  rewrite E in E'. injection E' as <-. split; [exact P|]. now apply (life_keeps M disp h root name fs1 fs2 OK P L I).
Qed.

Lemma C99_life_l : forall M disp h fs fs0 root name answers b rest,
  machine_ok M disp -> ready M h fs fs0 root name -> dialogue M h fs fs0 root name answers b rest ->
  exists fs1, run_setup M (abs_path h) (mkSys answers fs) = (Ok tt, mkSys rest fs1) /\ written M h root name fs0 fs1 /\
    forall fs2, life M (abs_path h) root name fs1 fs2 ->
      installed M h root name fs2 /\ fs_dirs fs2 = fs_dirs fs1 /\
      forall p, (forall f, os_name f -> p <> abs_path (own_file root f)) -> p <> abs_path (root ++ [name]) -> dget (fs_files fs2) p = dget (fs_files fs1) p.
Proof.
  intros M disp h fs fs0 root name answers b rest OK R D. destruct (setup_done _ _ _ _ _ _ _ _ _ _ OK R D) as (P & fs1 & E & I & W).
  exists fs1. split; [exact E|]. split; [exact W|]. intros fs2 L. exact (life_keeps M disp h root name fs1 fs2 OK P L I).
Qed.

Lemma C99_saving_l : forall M root fs f m ic rii r ops files,
  os_name f -> save_material (mc_write M) (abs_path (own_file root f)) m (fs_files fs) ic rii = (r, ops) -> crash_state (fs_files fs) ops files ->
  folder_changed root fs (mkFs (fs_dirs fs) files).
Proof.
  intros M root fs f m ic rii r ops files Nf H C. split; [reflexivity|]. intros p N. cbn [fs_files].
  apply (C46_other_files_l _ _ _ _ _ _ _ _ _ p H C). now apply N.
Qed.

Lemma reference_setup M disp root name fs s : machine_ok M disp -> Forall os_name root -> os_name name -> is_dir fs root -> mc_creatable M name = true ->
  setup_reference s -> user_only M fs root (setup_result (abs_path root) name false) s.
Proof.
  intros OK Fr Fn D C E. destruct (setup_user_only M disp root name fs OK Fr Fn D C) as [s' U]. replace s with s'; [exact U|].
  destruct U as (n' & mods & ref & t & u & Cf & _ & _ & _ & _ & Es). destruct (cf_ref _ _ _ _ _ _ _ Cf) as (d & K1 & K2 & K3 & K4).
  change (dget (setup_result (abs_path root) name false) "ReferenceSpectrum") with (Some (CMap [("Value", CFloat (Fin (6328 / 10))); ("SpectrumType", CStr "wavelength"); ("Unit", CStr "nanometer")])) in K1.
  injection K1 as <-. cbn in K2, K3, K4. injection K2 as <-. injection K3 as <-. injection K4 as <-. unfold setup_reference in E. congruence.
Qed.
(** the rows of a build with the user's folder alone: all of them stand for files of the folder *)
Lemma built_files M disp root fs c name s cat : machine_ok M disp -> Forall os_name root -> is_dir fs (root ++ ["UserData"]) ->
  user_only M fs root c s -> built_with M fs root c (RStr "All") name s cat ->
  forall r, In r (rows_of (c_db cat)) -> exists f text m, os_name f /\ supported f /\ is_file fs (own_file root f) text /\
    mk_material (read_on M fs) [("file_path", PStr (abs_path (own_file root f)))] = Ok m /\ file_row (mc_scipy M) s "UserData" f m r.
Proof.
  intros OK Fr Du (name' & mods' & ref' & t' & u' & C' & Only & _) (Nn & Sl & H & mods & ref & t & u & C & I & Es) r Ir.
  pose proof (C54_dropped_l _ _ _ _ _ _ _ _ _ _ _ C' H Nn) as Kp. rewrite Forall_forall in Kp. destruct (Kp r Ir) as (md & Emd & Imd). apply Only in Imd. subst md.
  destruct (C54_rebuilt_l _ _ _ _ _ _ _ _ _ _ _ _ C H Nn I Sl) as (s' & Es' & Rd & _). rewrite Es in Es'. injection Es' as <-.
  pose proof (sub_names _ _ Fr (proj1 setup_names)) as Fu. rewrite join_name in Rd by (try (now apply os_plain); apply setup_names).
  destruct (mk_spectrum_ok _ _ _ _ Es) as (cn & w & _ & Ew & _ & _ & _ & V). injection Ew as <-.
  destruct (ok_listdir _ _ OK fs _ Fu Du) as [ND In'].
  assert (w_listdir (world_on M fs) (abs_path (root ++ ["UserData"])) = Ok (mc_listdir M fs (abs_path (root ++ ["UserData"])))) as El.
  { cbn [w_listdir world_on]. now rewrite (proj2 (dir_exists_abs fs _ (os_plain _ Fu)) Du). }
  assert (Forall plain_name (mc_listdir M fs (abs_path (root ++ ["UserData"])))) as Pl by (apply Forall_forall; intros x Ix; apply In' in Ix; apply Ix).
  destruct (C56_listing_l (mc_scipy M) (world_on M fs) s ref _ "UserData" _ ltac:(now left) V El Pl) as (sel & Pk & F). rewrite Rd in F.
  destruct (folder_row_of _ _ _ _ _ _ _ _ F (in_module _ _ _ Ir Emd)) as (f & m & If & Lm & FR).
  pose proof (picked_holds _ _ _ _ Pk If) as [Wf Sf]. apply (picked_in _ _ _ _ Pk) in If. apply In' in If. destruct If as [Nf _].
  destruct (own_names root f Fr Nf) as [Ff E]. cbn [w_isfile world_on] in Wf. rewrite E, file_exists_abs in Wf by now apply os_plain.
  destruct (dget (fs_files fs) (abs_path (own_file root f))) as [tx|] eqn:T; [|discriminate Wf].
  exists f, tx, m. split; [exact Nf|]. split; [exact Sf|]. split; [exact T|]. split; [|exact FR]. rewrite <- E, <- loaded_default. exact Lm.
Qed.
Lemma in_app_chars c a b : In c (chars a) -> In c (chars (a ++ b)%string).
Proof. rewrite chars_two. intros K. apply in_or_app. now left. Qed.
Lemma storable_row M disp fs root f s m r : machine_ok M disp -> storable_file M fs root f -> 
  mk_material (read_on M fs) [("file_path", PStr (abs_path (own_file root f)))] = Ok m -> file_row (mc_scipy M) s "UserData" f m r ->
  texts_writable (mc_csv M) r /\ bounded r.
Proof.
  intros OK [Wf Sm] Lm (A & (base & (ext & Ef & _) & N) & Fu & Au & Co & Re & St & Un & Bd & _ & Pa & Mo). destruct (Sm m Lm) as [Tx Bn].
  assert (forall key c, In key ["FullName"; "Author"; "Comment"; "Reference"] -> meta_cell m key c -> cell_writable (mc_csv M) c) as Mc.
  { intros key c Ik Mk x ->. now apply (Tx key). }
  split; [|exact (Bn _ _ Bd)]. unfold texts_writable. rewrite A, N, St, Un, Pa, Mo.
  split; [apply words_writable; intros []|].
  split. { intros x E. injection E as <-. subst f. destruct Wf as [W1 W2]. split; [intros K; apply W1; now apply in_app_chars|]. destruct W2 as [W2|W2]; [now left|right]. intros K. apply W2. now apply in_app_chars. }
  split; [apply (Mc "FullName"); [cbn; tauto|exact Fu]|]. split; [apply (Mc "Author"); [cbn; tauto|exact Au]|].
  split; [apply (Mc "Comment"); [cbn; tauto|exact Co]|]. split; [apply (Mc "Reference"); [cbn; tauto|exact Re]|].
  split; [apply words_writable; intros K; cbn in K; intuition discriminate|]. split; [apply words_writable; intros K; cbn in K; intuition discriminate|].
  split; [intros x E; injection E as <-; exact Wf|apply words_writable; intros K; cbn in K; intuition discriminate].
Qed.

Lemma C99_rebuild_l : forall M disp h root name fs1 fs2 s skipped rest,
  machine_ok M disp -> set_up M h root name fs1 -> life M (abs_path h) root name fs1 fs2 -> setup_reference s ->
  every_file fs2 root (usable M fs2 s root) -> Forall (fun x => x <> "y" /\ x <> "n") skipped ->
  exists fs3, run_rebuild M (abs_path h) (mkSys (skipped ++ "y" :: rest) fs2) = (Ok tt, mkSys rest fs3) /\ only_catalogue root name fs2 fs3 /\
    (every_file fs2 root (storable_file M fs2 root) ->
     exists cat, open_catalogue M (abs_path h) (RStr "None") fs3 = (Ok cat, fs3) /\ shows_folder M root s fs3 cat).
Proof.
  intros M disp h root name fs1 fs2 s skipped rest OK Su Lf Rs All Sk. destruct (lived _ _ _ _ _ _ _ OK Su Lf) as [P S]. clear fs1 Su Lf.
  pose proof P as (Fh & Fr & Fn & Cr & Ne). pose proof S as (D & Du & Dh & Fc & Nd).
  pose proof (reference_setup M disp root name fs2 s OK Fr Fn D Cr Rs) as Uo. pose proof (setup_read M disp h root name fs2 OK Fh Dh Fc) as G.
  set (c := setup_result (abs_path root) name false) in *.
  destruct (C97_rebuilt_l M disp (abs_path h) root fs2 c s skipped rest OK Fr Du Uo G All Sk) as (cat & Hc & Run).
  assert (configured c (abs_path root) name [("UserData", true); ("RefractiveIndexInfo", false)] (Fin (6328 / 10)) "wavelength" "nanometer") as Cf.
  { constructor; try reflexivity; [|eexists; repeat split; reflexivity]. cbn. repeat constructor; cbn; intuition discriminate. }
  assert (built_with M fs2 root c (RStr "All") name s cat) as B.
  { split; [discriminate|]. split; [constructor|]. split; [exact Hc|]. eexists _, _, _, _. split; [exact Cf|]. split; [now left|exact Rs]. }
  set (text := to_csv (mc_csv M) (c_db cat)). set (fs3 := mkFs (fs_dirs fs2) (dset (fs_files fs2) (abs_path (root ++ [name])) text)).
  assert (save_on M fs2 cat = Ok fs3) as Sv.
  { unfold save_on. rewrite (built_base _ _ _ _ _ _ _ _ _ _ _ Cf Hc), (built_file _ _ _ _ _ _ _ _ _ _ _ Cf Hc).
    rewrite join_name by (try apply Fn; now apply os_plain). now rewrite open_w_abs by (try assumption; now apply sub_names). }
  exists fs3. split; [now apply Run|]. assert (only_catalogue root name fs2 fs3) as Oc by apply set_catalogue. split; [exact Oc|]. intros Sf.
  pose proof (catalogue_kept M h root name fs2 fs3 P Oc S) as (D3 & Du3 & Dh3 & Fc3 & _).
  pose proof (built_files M disp root fs2 c name s cat OK Fr Du Uo B) as Bf.
  assert (storable (mc_csv M) cat) as [TW BD].
  { split; apply Forall_forall; intros r Ir; destruct (Bf r Ir) as (f & tx & m & Nf & Spf & T & Lm & FR); apply (storable_row M disp fs2 root f s m r OK (Sf f tx Nf Spf T) Lm FR). }
  destruct (read_csv_back (mc_csv M) (c_db cat) (ok_csv _ _ OK) TW BD) as (rows & Rd & Back).
  assert (w_csv (world_on M fs3) (path_join (abs_path root) name) = Ok rows) as Ecsv.
  { cbn [w_csv world_on]. rewrite join_name by (try apply Fn; now apply os_plain). rewrite open_r_abs by (now apply sub_names). unfold fs3. cbn [fs_files]. rewrite dget_dset_same. exact Rd. }
  pose proof (reference_setup M disp root name fs3 s OK Fr Fn D3 Cr Rs) as (n3 & mods3 & ref3 & t3 & u3 & _ & _ & _ & V3 & Ei3 & _). fold c in V3, Ei3.
  set (cat' := mkCat (abs_path root) name false s (numbered rows)).
  assert (mk_catalogue (mc_scipy M) (world_on M fs3) c (RStr "None") = Ok cat') as Hc'.
  { rewrite (mk_catalogue_eq _ _ _ _ _ _ _ _ _ _ Cf). rewrite (proj2 (validate_iff _ _) V3). cbn [bind]. unfold setup_reference in Rs. rewrite Rs. cbn [bind].
    change (rebuild_is (RStr "None") "All") with false. change (rebuild_is (RStr "None") "None") with true. cbv iota. rewrite Ecsv. cbn [bind].
    unfold dlookup. rewrite Ei3. cbn [bind check_bool andb]. reflexivity. }
  assert (forall f, os_name f -> forall tx, is_file fs3 (own_file root f) tx <-> is_file fs2 (own_file root f) tx) as Ff3.
  { intros f Nf tx. unfold is_file. destruct Oc as [_ Of]. rewrite Of; [reflexivity|]. intros E. symmetry in E. revert E. now apply own_not_catalogue. }
  exists cat'. split; [|split].
  - unfold open_catalogue. rewrite (setup_read M disp h root name fs3 OK Fh Dh3 Fc3). fold c. cbn [bind]. now rewrite Hc'.
  - intros f tx Nf T. apply (Ff3 f (proj1 Nf)) in T.
    destruct (C96_reopened_l M disp root fs2 f tx c (RStr "All") name s cat fs3 OK Fr Nf Du T B Fn (conj TW BD) Sv) as (cat2 & E2 & (p & r & m & At & Em & Ep & On & Mt & Ro & Mk)).
    rewrite Hc' in E2. injection E2 as <-. exists p, r, m. repeat (match goal with |- _ /\ _ => split end; [assumption|]). rewrite <- Mk. apply material_same.
    apply read_same_file; [exact Fr|apply Nf|eauto|]. apply Oc. intros E. symmetry in E. revert E. apply own_not_catalogue; [exact Fr|exact Fn|apply Nf].
  - intros p r' At. apply row_at_rows in At. unfold cat' in At. cbn [c_db] in At. rewrite rows_numbered in At.
    destruct (nth_error (rows_of (c_db cat)) p) as [r|] eqn:Er.
    2: { apply nth_error_None in Er. assert (nth_error rows p <> None) as K by congruence. apply nth_error_Some in K. pose proof (same_length _ _ _ Back). lia. }
    destruct (Forall2_nth _ _ _ Back p r Er) as (y & Ey & By). assert (y = r') as -> by congruence.
    destruct (Bf r (nth_error_In _ _ Er)) as (f & tx & m & Nf & Spf & T & Lm & FR).
    assert (r_module r = KStr "UserData" /\ r_path r = KStr f) as [Em Ep] by (destruct FR as (_ & _ & _ & _ & _ & _ & _ & _ & _ & _ & Ep & Em); now split).
    exists f, tx. split; [exact (text_back_same _ _ _ _ _ _ (b_module _ _ _ By) Em)|]. split; [exact (text_back_same _ _ _ _ _ _ (b_path _ _ _ By) Ep)|]. split; [exact Nf|]. split; [exact Spf|]. now apply Ff3.
Qed.

Lemma C99_stopped_l : forall M disp h root name fs1 fs2 s f text skipped rest,
  machine_ok M disp -> set_up M h root name fs1 -> life M (abs_path h) root name fs1 fs2 -> setup_reference s ->
  os_name f -> supported f -> is_file fs2 (own_file root f) text -> ~ usable M fs2 s root f -> Forall (fun x => x <> "y" /\ x <> "n") skipped ->
  exists e, run_rebuild M (abs_path h) (mkSys (skipped ++ "y" :: rest) fs2) = (Raise e, mkSys rest fs2).
Proof.
  intros M disp h root name fs1 fs2 s f text skipped rest OK Su Lf Rs Nf Sf T Bad Sk. destruct (lived _ _ _ _ _ _ _ OK Su Lf) as [P S].
  destruct P as (Fh & Fr & Fn & Cr & Ne). destruct S as (D & Du & Dh & Fc & Nd).
  exact (C97_stops_l M disp (abs_path h) root fs2 _ s f text skipped rest OK Fr Du (reference_setup M disp root name fs2 s OK Fr Fn D Cr Rs) (setup_read M disp h root name fs2 OK Fh Dh Fc) Nf Sf T Bad Sk).
Qed.
