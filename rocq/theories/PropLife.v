(** Theorems about the life of an installation (C99). *)
From Verif Require Import PyBase PyStr XReal CNum TextModel SpectrumModel SpectrumSpec SpectralModel SpectralSpec MaterialModel MaterialSpec FileModel ReaderModel WriterModel PathModel PathProofs ConfigModel CatalogueModel CatalogueSpec CatalogueProofs RebuildProofs IOSpec SaveSpec SaveProofs YamlSpec CsvModel CsvSpec CsvProofs NormProofs DiskModel DiskProofs SetupModel SetupSpec SetupProofs InstallProofs ScriptProofs CycleProofs SaveThms TextFileThms YamlThms CatalogueThms ListingThms CsvThms SetupThms ConfigThms ExampleModel ExampleSpec ExampleThms ListedSpec ListedThms TextSpec LoadSpec LoadThms StartModel StartSpec StartThms OwnSpec OwnThms LifeSpec SpectrumProofs ListProofs ExtrapProofs InterpProofs.
From Coq Require Import Permutation.
From Verif Require Import LifeThms.
Open Scope R_scope.
Open Scope string_scope.
Open Scope list_scope.

(** the setup script, whatever its last question is answered, and any life after it: the configuration
    stays, no directory appears or disappears, and outside the user's folder only the catalogue file changes *)
Theorem C99_life : forall M disp h fs fs0 root name answers b rest,
  machine_ok M disp -> ready M h fs fs0 root name -> dialogue M h fs fs0 root name answers b rest ->
  exists fs1, run_setup M (abs_path h) (mkSys answers fs) = (Ok tt, mkSys rest fs1) /\ written M h root name fs0 fs1 /\
    forall fs2, life M (abs_path h) root name fs1 fs2 ->
      installed M h root name fs2 /\ fs_dirs fs2 = fs_dirs fs1 /\
      forall p, (forall f, os_name f -> p <> abs_path (own_file root f)) -> p <> abs_path (root ++ [name]) -> dget (fs_files fs2) p = dget (fs_files fs1) p.
Proof. exact C99_life_l. Qed.
Print Assumptions C99_life.

(** saving a material under a name of the user's folder, completely or interrupted anywhere, is such a change *)
Theorem C99_saving : forall M root fs f m ic rii r ops files,
  os_name f -> save_material (mc_write M) (abs_path (own_file root f)) m (fs_files fs) ic rii = (r, ops) -> crash_state (fs_files fs) ops files ->
  folder_changed root fs (mkFs (fs_dirs fs) files).
Proof. exact C99_saving_l. Qed.
Print Assumptions C99_saving.

(** whatever has happened since the setup: if all material files of the folder are usable, a rebuild
    succeeds, and a session that then opens the catalogue finds the folder as it is *)
Theorem C99_rebuild : forall M disp h root name fs1 fs2 s skipped rest,
  machine_ok M disp -> set_up M h root name fs1 -> life M (abs_path h) root name fs1 fs2 -> setup_reference s ->
  every_file fs2 root (usable M fs2 s root) -> Forall (fun x => x <> "y" /\ x <> "n") skipped ->
  exists fs3, run_rebuild M (abs_path h) (mkSys (skipped ++ "y" :: rest) fs2) = (Ok tt, mkSys rest fs3) /\ only_catalogue root name fs2 fs3 /\
    (every_file fs2 root (storable_file M fs2 root) ->
     exists cat, open_catalogue M (abs_path h) (RStr "None") fs3 = (Ok cat, fs3) /\ shows_folder M root s fs3 cat).
Proof. exact C99_rebuild_l. Qed.
Print Assumptions C99_rebuild.

(** one unusable material file: the rebuild raises an exception and changes nothing *)
Theorem C99_stopped : forall M disp h root name fs1 fs2 s f text skipped rest,
  machine_ok M disp -> set_up M h root name fs1 -> life M (abs_path h) root name fs1 fs2 -> setup_reference s ->
  os_name f -> supported f -> is_file fs2 (own_file root f) text -> ~ usable M fs2 s root f -> Forall (fun x => x <> "y" /\ x <> "n") skipped ->
  exists e, run_rebuild M (abs_path h) (mkSys (skipped ++ "y" :: rest) fs2) = (Raise e, mkSys rest fs2).
Proof. exact C99_stopped_l. Qed.
Print Assumptions C99_stopped.

From Verif Require Import ShowsProofs IOExamples PropStart.
Open Scope string_scope. Open Scope list_scope.
(** Ada has set the package up, spoils a material file, restores it, and overwrites the catalogue; the
    hypotheses of C99_rebuild hold then; while the file is spoiled, those of C99_stopped do *)
Lemma listed_storable M disp fs root s r f m : machine_ok M disp -> writable (mc_csv M) f -> texts_writable (mc_csv M) r -> bounded r ->
  mk_material (read_on M fs) [("file_path", PStr (abs_path (own_file root f)))] = Ok m -> file_row (mc_scipy M) s "UserData" f m r -> storable_file M fs root f.
Proof.
  intros OK Wf (_ & _ & T1 & T2 & T3 & T4 & _) [B1 B2] Lm (_ & _ & Fu & Au & Co & Re & _ & _ & Bd & _). split; [exact Wf|]. intros m' Lm'. assert (m' = m) as -> by congruence. split.
  - assert (forall key c text, meta_cell m key c -> cell_writable (mc_csv M) c -> meta_cell m key (KStr text) -> writable (mc_csv M) text) as K.
    { intros key c text (d & v & E1 & E2 & V) W (d' & v' & E1' & E2' & V'). assert (d' = d) as -> by congruence. assert (v' = v) as -> by congruence.
      destruct V' as [(x & -> & E)|(_ & E)]; [|discriminate]. injection E as <-. destruct V as [(y & E & ->)|(N & _)]; [|now destruct (N text)]. injection E as <-. now apply W. }
    intros key text [<-|[<-|[<-|[<-|[]]]]] Mc; eauto.
  - intros lo hi (v & l & E1 & E2). destruct Bd as (v' & l' & E1' & E2'). assert (v' = v) as -> by congruence. rewrite E2 in E2'. injection E2' as -> -> _. now split.
Qed.
Lemma own_writable M disp fs root name h s f text : machine_ok M disp -> Forall os_name root -> os_name name -> settled M h root name fs -> setup_reference s ->
  os_name f -> supported f -> is_file fs (own_file root f) text -> usable M fs s root f /\ storable_file M fs root f.
Proof.
  intros OK Fr Fn S Rs Nf Sf T. pose proof S as (D & Du & _ & _ & Only & _ & _ & _ & C & _ & _).
  pose proof (reference_setup M disp root name fs s OK Fr Fn D C Rs) as Uo.
  destruct (settled_rows M disp h root name OK Fr Fn fs S) as (a & b & cat & Hc & Ra & Rb & _ & _ & Rows). split.
  - apply (proj1 (C97_all_files_l M disp root fs _ s OK Fr Du Uo)) with (text := text); eauto.
  - assert (In f ["example_file.txt"; "example_file2.yml"]) as If by (apply Only; [exact Nf|right; now exists text]).
    assert (writable (mc_csv M) f /\ own_name f) as [Wf On].
    { split; [|split; [exact Nf|]; split; [exact Sf|]]; destruct If as [<-|[<-|[]]]; [split; [no_char|right; no_char]|split; [no_char|right; no_char]|no_char|no_char]. }
    assert (built_with M fs root (setup_result (abs_path root) name false) (RStr "All") name s cat) as B.
    { split; [discriminate|]. split; [constructor|]. split; [exact Hc|]. eexists [("UserData", true); ("RefractiveIndexInfo", false)], (Fin (6328 / 10))%R, "wavelength", "nanometer". split; [|split; [now left|exact Rs]].
      constructor; try reflexivity; [|eexists; repeat split; reflexivity]. cbn. repeat constructor; cbn; intuition discriminate. }
    destruct (C96_listed_l M disp root fs f text _ _ name s cat OK Fr On Du T B) as (p & r & m & At & _ & _ & _ & _ & FR & Lm).
    assert (texts_writable (mc_csv M) r /\ bounded r) as [W Bd].
    { assert (In r (rows_of (c_db cat))) as Ir by (apply row_at_rows in At; eapply nth_error_In; eassumption).
      assert (r = a \/ r = b) as [->| ->] by (destruct Rows as [E|E]; rewrite E in Ir; cbn in Ir; intuition congruence).
      - split; [apply (example_writable M "example_file" "example_file.txt"); [now left|apply Ra]|]. destruct Ra as (_ & A1 & A2 & _). split; rewrite ?A1, ?A2; discriminate.
      - split; [apply (example_writable M "example_file2" "example_file2.yml"); [right; now left|apply Rb]|]. destruct Rb as (_ & (lo & hi & A1 & A2 & _) & _). split; rewrite ?A1, ?A2; discriminate. }
    exact (listed_storable M disp fs root s r f m OK Wf W Bd Lm FR).
Qed.
Definition spoiled := ("1 2" ++ NL ++ "; measured on Monday" ++ NL)%string.
Example C99_instance : exists fs1 fsA fs2 s,
  let M := a_machine some_home in
  set_up M some_home some_home a_name fs1 /\ setup_reference s /\
  is_file fsA (own_file some_home "example_file.txt") spoiled /\ ~ usable M fsA s some_home "example_file.txt" /\
  (exists e, run_rebuild M (abs_path some_home) (mkSys ["y"] fsA) = (Raise e, mkSys [] fsA)) /\ life M (abs_path some_home) some_home a_name fs1 fsA /\
  is_file fs2 (some_home ++ [a_name]) "garbage" /\ life M (abs_path some_home) some_home a_name fsA fs2 /\ life M (abs_path some_home) some_home a_name fs1 fs2 /\
  every_file fs2 some_home (usable M fs2 s some_home) /\ every_file fs2 some_home (storable_file M fs2 some_home) /\
  (exists fs3 cat, run_rebuild M (abs_path some_home) (mkSys ["y"] fs2) = (Ok tt, mkSys [] fs3) /\
     open_catalogue M (abs_path some_home) (RStr "None") fs3 = (Ok cat, fs3) /\
     exists p r m, row_at (c_db cat) p r /\ r_path r = KStr "example_file.txt" /\ material_of M fs3 cat (IdInt (Z.of_nat p)) = Ok m).
Proof.
  set (M := a_machine some_home). pose proof (a_machine_ok some_home : machine_ok M sample_disp) as OK. pose proof first_ready as R. pose proof R as (Fh & Fr & Fn & _).
  destruct (setup_settled _ _ _ _ _ _ R _ _ _ (first_dialogue false)) as (r & fs1 & S & W & A & _ & E).
  assert (set_up M some_home some_home a_name fs1) as Su.
  { eexists _, _, _, false, _. split; [exact R|]. split; [exact (first_dialogue false)|]. etransitivity; [exact E|]. unfold maybe_rebuild_catalogue.
    erewrite ibind_step; [|apply confirm_iff; split; [reflexivity|exact A]]. reflexivity. }
  destruct (mk_spectrum (InVals (VS (Fin (6328 / 10)%R))) "wavelength" "nanometer") as [s|] eqn:Es; [|discriminate].
  set (p := abs_path (own_file some_home "example_file.txt")). set (q := abs_path (some_home ++ [a_name])).
  set (fsA := mkFs (fs_dirs fs1) (dset (fs_files fs1) p spoiled)). set (fs2 := mkFs (fs_dirs fs1) (dset (fs_files fs1) q "garbage")).
  assert (os_name "example_file.txt") as Nx by apply setup_names.
  assert (folder_changed some_home fs1 fsA) as C1 by (split; [reflexivity|]; intros x N; cbn [fsA fs_files]; apply dget_dset_other; intros K; apply (N _ Nx); first [exact K|symmetry; exact K]).
  assert (folder_changed some_home fsA fs1) as C2 by (split; [reflexivity|]; intros x N; cbn [fsA fs_files]; symmetry; apply dget_dset_other; intros K; apply (N _ Nx); first [exact K|symmetry; exact K]).
  assert (only_catalogue some_home a_name fs1 fs2) as C3 by apply set_catalogue.
  assert (life M (abs_path some_home) some_home a_name fsA fs2) as L2 by (eapply life_folder; [exact C2|]; eapply life_catalogue; [exact C3|]; constructor).
  assert (life M (abs_path some_home) some_home a_name fs1 fs2) as L by (eapply life_folder; [exact C1|exact L2]).
  assert (settled M some_home some_home a_name fs2) as S2 by exact (settled_saved M some_home some_home a_name Fh Fr Fn fs1 "garbage" S).
  assert (file_text ["1 2"; "; measured on Monday"] spoiled /\ Forall one_line ["1 2"; "; measured on Monday"]) as [FT OL].
  { split; [exact (ft_line "1 2" NL _ _ (or_introl eq_refl) (ft_line "; measured on Monday" NL _ _ (or_introl eq_refl) ft_nil))|].
    repeat (constructor; [intros k K; cbn in K; repeat (destruct K as [<-|K]; [cbn; intros J; repeat (destruct J as [J|J]; [discriminate J|]); exact J|]); destruct K|]). constructor. }
  assert (is_file fsA (own_file some_home "example_file.txt") spoiled) as TA by apply dget_dset_same.
  assert (life M (abs_path some_home) some_home a_name fs1 fsA) as LA by (eapply life_folder; [exact C1|constructor]).
  assert (named "example_file.txt" ".txt") as Nm by (exists "example_fil", "e"%char; split; [reflexivity|]; split; discriminate).
  assert (~ usable M fsA s some_home "example_file.txt") as Bad.
  { intros (m & Lm & _). rewrite (material_same _ _ _ (read_path_on M fsA some_home "example_file.txt" spoiled Fr Nx TA)) in Lm.
    destruct (C88_other_mark_refuted_l (mc_files M) (mc_sets M) (mc_material M) (fs_files fsA) (abs_path (own_file some_home "example_file.txt")) ".txt" spoiled ["1 2"; "; measured on Monday"] " measured on Monday") as [_ K]; try assumption.
    - cbn. tauto.
    - exact (named_path some_home "example_file.txt" ".txt" Fr Nx Nm).
    - right. now left.
    - congruence. }
  exists fs1, fsA, fs2, s. cbv zeta. split; [exact Su|]. split; [exact Es|]. split; [exact TA|]. split; [exact Bad|]. split; [|split; [exact LA|]].
  { apply (C99_stopped M sample_disp some_home some_home a_name fs1 fsA s "example_file.txt" spoiled [] [] OK Su LA Es Nx); try assumption; [|constructor]. apply (named_supported _ ".txt"); [cbn; tauto|exact Nm]. }
  split; [apply dget_dset_same|]. split; [exact L2|]. split; [exact L|].
  assert (every_file fs2 some_home (usable M fs2 s some_home)) as Us by (intros f tx Nf Sf T; exact (proj1 (own_writable M sample_disp fs2 some_home a_name some_home s f tx OK Fr Fn S2 Es Nf Sf T))).
  assert (every_file fs2 some_home (storable_file M fs2 some_home)) as St by (intros f tx Nf Sf T; exact (proj2 (own_writable M sample_disp fs2 some_home a_name some_home s f tx OK Fr Fn S2 Es Nf Sf T))).
  split; [exact Us|]. split; [exact St|].
  destruct (C99_rebuild M sample_disp some_home some_home a_name fs1 fs2 s [] [] OK Su L Es Us (Forall_nil _)) as (fs3 & Run & Oc & Op). destruct (Op St) as (cat & Oc' & Sh & _).
  exists fs3, cat. split; [exact Run|]. split; [exact Oc'|].
  assert (own_name "example_file.txt") as On by (split; [exact Nx|]; split; [apply (named_supported _ ".txt"); [cbn; tauto|exact Nm]|no_char]).
  destruct (Sh "example_file.txt" (example_txt M) On) as (k & x & m & At & _ & Ep & _ & Mt & _).
  { unfold is_file. rewrite (proj2 Oc) by (intros K; symmetry in K; revert K; now apply own_not_catalogue). apply S2. }
  exists k, x, m. now split.
Qed.
