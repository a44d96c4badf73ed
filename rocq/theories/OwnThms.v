(** Theorems about the user's own material files in the catalogue (C96). *)
From Verif Require Import PyBase PyStr XReal CNum TextModel SpectrumModel SpectrumSpec SpectralModel SpectralSpec MaterialModel MaterialSpec FileModel ReaderModel WriterModel PathModel PathProofs ConfigModel CatalogueModel CatalogueSpec CatalogueProofs RebuildProofs IOSpec SaveSpec SaveProofs YamlSpec CsvModel CsvSpec CsvProofs NormProofs DiskModel DiskProofs SetupModel SetupSpec SetupProofs InstallProofs ScriptProofs CycleProofs SaveThms TextFileThms YamlThms CatalogueThms ListingThms CsvThms SetupThms ConfigThms ExampleModel ExampleSpec ExampleThms ListedSpec ListedThms TextSpec LoadSpec LoadThms StartModel StartSpec StartThms OwnSpec SpectrumProofs ListProofs ExtrapProofs InterpProofs.
From Coq Require Import Permutation.
Open Scope R_scope.
Open Scope string_scope.
Open Scope list_scope.

Lemma same_length {A B} (P : A -> B -> Prop) l l' : Forall2 P l l' -> length l = length l'.
Proof. induction 1; cbn; congruence. Qed.
Lemma picked_all P l l' x : picked P l l' -> In x l -> P x -> In x l'.
Proof. induction 1 as [|y l l' Py K IH|y l l' Py K IH]; cbn; intros I Px; [exact I|destruct I as [->|I]; auto|destruct I as [->|I]; [contradiction|auto]]. Qed.
Lemma picked_holds (P : string -> Prop) l l' x : picked P l l' -> In x l' -> P x.
Proof. induction 1 as [|y l l' Py K IH|y l l' Py K IH]; cbn; intros I; [destruct I|destruct I as [->|I]; auto|auto]. Qed.
Lemma picked_nodup P l l' : picked P l l' -> NoDup l -> NoDup l'.
Proof.
  induction 1 as [|y l l' Py K IH|y l l' Py K IH]; intros N; [constructor| |]; inversion_clear N as [|? ? Ny Nl]; [|auto].
  constructor; [|auto]. intros I. apply Ny. eapply picked_in; eassumption.
Qed.
Lemma folder_paths X ref rd dir module l rows : folder_rows X ref rd dir module l (Ok rows) -> map r_path rows = map KStr l.
Proof.
  intros F. remember (Ok rows) as res eqn:E. revert rows E. induction F as [|f rest m w l L Fr F IH| | |]; intros rows E; try discriminate; injection E as <-; [reflexivity|].
  cbn [map]. rewrite (IH _ eq_refl). f_equal. apply Fr.
Qed.
Lemma folder_row_for X ref rd dir module l rows f : folder_rows X ref rd dir module l (Ok rows) -> In f l ->
  exists r m, In r rows /\ loaded rd (path_join dir f) "wavelength" "nanometer" = Ok m /\ file_row X ref module f m r.
Proof.
  intros F. remember (Ok rows) as res eqn:E. revert rows E. induction F as [|g rest m w l L Fr F IH| | |]; intros rows E I; try discriminate; [destruct I|].
  injection E as <-. destruct I as [->|I]; [exists w, m; split; [now left|auto]|].
  destruct (IH _ eq_refl I) as (r & m' & I' & H). exists r, m'. split; [now right|exact H].
Qed.
Lemma module_in m l r : In r (module_rows m l) -> In r l /\ r_module r = KStr m.
Proof.
  induction l as [|q l IH]; [intros []|]. cbn [module_rows].
  destruct (r_module q) as [s| |] eqn:E; try (intros I; destruct (IH I); split; [now right|assumption]).
  destruct (string_dec s m) as [->|N]; [intros [<-|I]; [now split; [left|]|]|intros I]; destruct (IH I); split; try assumption; now right.
Qed.
Lemma module_once m l c : NoDup (map r_path (module_rows m l)) -> forall p p' r r',
  nth_error l p = Some r -> nth_error l p' = Some r' -> r_module r = KStr m -> r_module r' = KStr m -> r_path r = c -> r_path r' = c -> p' = p.
Proof.
  induction l as [|q l IH]; intros N p p' r r' H H' M M' P P'; [destruct p; discriminate|].
  assert (forall p r, nth_error l p = Some r -> r_module r = KStr m -> r_path r = c -> In c (map r_path (module_rows m l))) as K.
  { intros i x Hi Mx Px. rewrite <- Px. apply in_map, in_module; [eapply nth_error_In; eassumption|exact Mx]. }
  assert (NoDup (map r_path (module_rows m l)) /\ (r_module q = KStr m -> r_path q = c -> ~ In c (map r_path (module_rows m l)))) as [N1 N2].
  { cbn [module_rows] in N. destruct (r_module q) as [s| |] eqn:E; try (split; [exact N|discriminate]).
    destruct (string_dec s m) as [->|Ns]; [|split; [exact N|intros [= ->]; now destruct Ns]]. cbn [map] in N. inversion_clear N as [|? ? A B]. split; [exact B|]. intros _ <-. exact A. }
  destruct p as [|p], p' as [|p']; cbn [nth_error] in H, H'; [reflexivity| | |].
  - injection H as <-. exfalso. apply (N2 M P). exact (K _ _ H' M' P').
  - injection H' as <-. exfalso. apply (N2 M' P'). exact (K _ _ H M P).
  - f_equal. exact (IH N1 p p' r r' H H' M M' P P').
Qed.
Lemma own_names root f : Forall os_name root -> os_name f -> Forall os_name (own_file root f) /\ path_join (abs_path (root ++ ["UserData"])) f = abs_path (own_file root f).
Proof.
  intros Fr Nf. pose proof (sub_names _ _ Fr (proj1 setup_names)) as Fu. unfold own_file. rewrite <- snoc2. split; [now apply sub_names|].
  apply join_name; [now apply os_plain|apply Nf].
Qed.
Lemma read_same_file M fs fs' root f : Forall os_name root -> os_name f ->
  (exists text, is_file fs (own_file root f) text) -> dget (fs_files fs') (abs_path (own_file root f)) = dget (fs_files fs) (abs_path (own_file root f)) ->
  read_on M fs' (abs_path (own_file root f)) = read_on M fs (abs_path (own_file root f)).
Proof.
  intros Fr Nf [text T] E. destruct (own_names root f Fr Nf) as [Ff _]. unfold read_on. unfold is_file in T. unfold own_file in *. rewrite <- snoc2 in *.
  rewrite !open_r_abs by exact Ff. now rewrite E, T.
Qed.
Lemma read_path_on M fs root f text : Forall os_name root -> os_name f -> is_file fs (own_file root f) text ->
  read_on M fs (abs_path (own_file root f)) = read_path (mc_files M) (mc_sets M) (mc_material M) (fs_files fs) (abs_path (own_file root f)).
Proof.
  intros Fr Nf T. destruct (own_names root f Fr Nf) as [Ff _]. unfold read_on, read_path, fs_read. unfold is_file in T. unfold own_file in *. rewrite <- snoc2 in *.
  rewrite !open_r_abs by exact Ff. now rewrite T.
Qed.
Lemma built_rows M disp root fs c rb name s cat : machine_ok M disp -> Forall os_name root -> is_dir fs (root ++ ["UserData"]) ->
  built_with M fs root c rb name s cat -> exists sel, NoDup sel /\
    (forall f, os_name f -> supported f -> (exists text, is_file fs (own_file root f) text) -> In f sel) /\ Forall plain_name sel /\
    folder_rows (mc_scipy M) s (read_on M fs) (abs_path (root ++ ["UserData"])) "UserData" sel (Ok (module_rows "UserData" (rows_of (c_db cat)))).
Proof.
  intros OK Fr Du (Nn & Sl & H & mods & ref & t & u & C & I & Es).
  destruct (C54_rebuilt_l _ _ _ _ _ _ _ _ _ _ _ _ C H Nn I Sl) as (s' & Es' & Rd & _). rewrite Es in Es'. injection Es' as <-.
  pose proof (sub_names _ _ Fr (proj1 setup_names)) as Fu. rewrite join_name in Rd by (try (now apply os_plain); apply setup_names).
  destruct (mk_spectrum_ok _ _ _ _ Es) as (cn & w & _ & Ew & _ & _ & _ & V). injection Ew as <-.
  destruct (ok_listdir _ _ OK fs _ Fu Du) as [ND In'].
  assert (w_listdir (world_on M fs) (abs_path (root ++ ["UserData"])) = Ok (mc_listdir M fs (abs_path (root ++ ["UserData"])))) as El.
  { cbn [w_listdir world_on]. now rewrite (proj2 (dir_exists_abs fs _ (os_plain _ Fu)) Du). }
  assert (Forall plain_name (mc_listdir M fs (abs_path (root ++ ["UserData"])))) as Pl by (apply Forall_forall; intros x Ix; apply In' in Ix; apply Ix).
  destruct (C56_listing_l (mc_scipy M) (world_on M fs) s ref _ "UserData" _ ltac:(now left) V El Pl) as (sel & Pk & F). rewrite Rd in F.
  exists sel. split; [eapply picked_nodup; eassumption|]. split; [|split; [|exact F]].
  - intros f Nf Sf [text T]. apply (picked_all _ _ _ _ Pk); [apply In'; split; [exact Nf|right; exists text; now rewrite snoc2]|]. split; [|exact Sf].
    cbn [w_isfile world_on]. destruct (own_names root f Fr Nf) as [Ff ->]. rewrite file_exists_abs by now apply os_plain. unfold is_file in T. now rewrite T.
  - apply Forall_forall. intros x Ix. rewrite Forall_forall in Pl. apply Pl. eapply picked_in; eassumption.
Qed.
Lemma own_located X s root f m r : own_name f -> file_row X s "UserData" f m r -> located root r (abs_path (own_file root f)) "wavelength" "nanometer".
Proof.
  intros (Nf & _ & Bf) (_ & _ & _ & _ & _ & _ & St & Un & _ & _ & Pth & Mod). exists "UserData", f, [f].
  split; [exact Mod|]. split; [apply setup_names|]. split; [exact Pth|]. split; [|split; [reflexivity|now split]].
  split; [discriminate|]. split; [constructor; [apply Nf|constructor]|]. split; [constructor; [exact Bf|constructor]|now left].
Qed.

Lemma C96_listed_l : forall M disp root fs f text c rb name s cat,
  machine_ok M disp -> Forall os_name root -> own_name f -> is_dir fs (root ++ ["UserData"]) -> is_file fs (own_file root f) text ->
  built_with M fs root c rb name s cat ->
  listed_once M fs cat f (fun r m => file_row (mc_scipy M) s "UserData" f m r /\ mk_material (read_on M fs) [("file_path", PStr (abs_path (own_file root f)))] = Ok m).
Proof.
  intros M disp root fs f text c rb name s cat OK Fr Nf Du T B.
  destruct (built_rows M disp root fs c rb name s cat OK Fr Du B) as (sel & ND & All & Pl & F).
  assert (In f sel) as If by (apply All; [apply Nf|apply Nf|eauto]). destruct (folder_row_for _ _ _ _ _ _ _ _ F If) as (r & m & Ir & L & FR).
  destruct (module_in _ _ _ Ir) as [Ir' Em]. apply In_nth_error in Ir'. destruct Ir' as [p Ep]. apply row_at_rows in Ep as At.
  exists p, r, m. split; [exact At|]. split; [exact Em|]. split; [apply FR|]. split; [|split].
  - intros p' r' At' M' P'. apply row_at_rows in At'. eapply (module_once "UserData" (rows_of (c_db cat)) (KStr f)); try eassumption; [|apply FR].
    rewrite (folder_paths _ _ _ _ _ _ _ F). apply FinFun.Injective_map_NoDup; [intros x y E; now injection E|exact ND].
  - unfold material_of. destruct B as (_ & _ & H & mods & ref & t & u & C & _ & _).
    rewrite (proj1 (C53_number_l (world_on M fs) cat p r root _ _ _ (built_base _ _ _ _ _ _ _ _ _ _ _ C H) (os_plain _ Fr) At (own_located _ _ _ _ _ _ Nf FR))).
    destruct (own_names root f Fr (proj1 Nf)) as [_ E]. rewrite <- E. exact L.
  - split; [exact FR|]. destruct (own_names root f Fr (proj1 Nf)) as [_ E]. rewrite <- E, <- loaded_default. exact L.
Qed.

Lemma C96_reopened_l : forall M disp root fs f text c rb name s cat fs',
  machine_ok M disp -> Forall os_name root -> own_name f -> is_dir fs (root ++ ["UserData"]) -> is_file fs (own_file root f) text ->
  built_with M fs root c rb name s cat -> os_name name -> storable (mc_csv M) cat -> save_on M fs cat = Ok fs' ->
  exists cat', mk_catalogue (mc_scipy M) (world_on M fs') c (RStr "None") = Ok cat' /\
    listed_once M fs' cat' f (fun r m => (exists r0, row_back (mc_csv M) r0 r /\ file_row (mc_scipy M) s "UserData" f m r0) /\
      mk_material (read_on M fs) [("file_path", PStr (abs_path (own_file root f)))] = Ok m).
Proof.
  intros M disp root fs f text c rb name s cat fs' OK Fr Nf Du T B Fn [TW BD] Sv.
  destruct (C96_listed_l M disp root fs f text c rb name s cat OK Fr Nf Du T B) as (p & r & m & At & Em & Ep & Once & Mat & FR & Mk).
  pose proof B as (Nn & Sl & H & mods & ref & t & u & C & I & Es).
  assert (c_base cat = abs_path root) as Eb by exact (built_base _ _ _ _ _ _ _ _ _ _ _ C H).
  assert (c_file cat = name) as Efl.
  { rewrite (mk_catalogue_eq _ _ _ _ _ _ _ _ _ _ C) in H. destruct (validate_config _ _); cbn [bind] in H; [|discriminate]. inv_bind H s' Es'. inv_bind H df Ed. inv_bind H df' Ed'. inv_bind H i Ei.
    destruct (i && negb _)%bool; [discriminate|]. now injection H as <-. }
  pose proof (sub_names _ _ Fr Fn) as Frn.
  unfold save_on in Sv. rewrite Eb, Efl in Sv. rewrite join_name in Sv by (try apply Fn; now apply os_plain).
  assert (fs' = mkFs (fs_dirs fs) (dset (fs_files fs) (abs_path (root ++ [name])) (to_csv (mc_csv M) (c_db cat)))) as Efs.
  { unfold open_w in Sv. rewrite norm_abs in Sv by now apply os_plain.
    repeat match type of Sv with context[if ?b then _ else _] => destruct b; try discriminate Sv end; now injection Sv. }
  assert (valid_config (w_checks (world_on M fs')) c) as V.
  { rewrite (mk_catalogue_eq _ _ _ _ _ _ _ _ _ _ C) in H. destruct (validate_config (w_checks (world_on M fs)) c) as [[]|] eqn:Ev; [|discriminate H].
    apply validate_iff in Ev. destruct Ev as [(p1 & V1 & V1') (p2 & V2 & V2') V3 V4 V5 V6]. constructor; try assumption.
    - exists p1. split; [exact V1|]. cbn in V1' |- *. unfold dir_exists in *. rewrite Efs. exact V1'.
    - exists p2. split; [exact V2|]. rewrite (cf_file _ _ _ _ _ _ _ C) in V2. injection V2 as <-. cbn [w_checks world_on valid_file_name] in *.
      destruct (ok_temp _ _ OK fs) as (t1 & Ft1 & Nt1 & Et1 & Fresh1). destruct (ok_temp _ _ OK fs') as (t2 & Ft2 & Nt2 & Et2 & Fresh2).
      rewrite Et1, try_plain in V2' by assumption. rewrite Et2, try_plain by assumption. exact V2'. }
  destruct (read_csv_back (mc_csv M) (c_db cat) (ok_csv _ _ OK) TW BD) as (rows & Rd & Back).
  assert (w_csv (world_on M fs') (path_join (abs_path root) name) = Ok rows) as Ecsv.
  { cbn [w_csv world_on]. rewrite join_name by (try apply Fn; now apply os_plain). rewrite open_r_abs by exact Frn. rewrite Efs. cbn [fs_files]. rewrite dget_dset_same. exact Rd. }
  pose proof H as H0. rewrite (mk_catalogue_eq _ _ _ _ _ _ _ _ _ _ C) in H0. destruct (validate_config (w_checks (world_on M fs)) c); [|discriminate H0]. cbn [bind] in H0.
  rewrite Es in H0. cbn [bind] in H0. inv_bind H0 df Ed. inv_bind H0 df' Ed'. inv_bind H0 i Ei. change (w_qgrid (world_on M fs)) with (w_qgrid (world_on M fs')) in H0.
  destruct (i && negb (w_qgrid (world_on M fs')))%bool eqn:Ei'; [discriminate|].
  exists (mkCat (abs_path root) name i s (numbered rows)). split.
  { rewrite (mk_catalogue_eq _ _ _ _ _ _ _ _ _ _ C). rewrite (proj2 (validate_iff _ _) V). cbn [bind]. rewrite Es. cbn [bind].
    change (rebuild_is (RStr "None") "All") with false. change (rebuild_is (RStr "None") "None") with true. cbv iota. rewrite Ecsv. cbn [bind]. rewrite Ei. cbn [bind]. now rewrite Ei'. }
  set (cat' := mkCat (abs_path root) name i s (numbered rows)).
  assert (forall q x, row_at (c_db cat') q x <-> nth_error rows q = Some x) as Rows.
  { intros q x. rewrite row_at_rows. unfold cat'. cbn [c_db]. now rewrite rows_numbered. }
  apply row_at_rows in At as At0. destruct (Forall2_nth _ _ _ Back p r At0) as (r1 & E1 & B1).
  assert (row_at (c_db cat') p r1) as At1 by now apply Rows.
  assert (dget (fs_files fs') (abs_path (own_file root f)) = dget (fs_files fs) (abs_path (own_file root f))) as Same.
  { rewrite Efs. cbn [fs_files]. apply dget_dset_other. intros E. apply (abs_inj _ _ (os_plain _ Frn) (os_plain _ (proj1 (own_names root f Fr (proj1 Nf))))) in E.
    unfold own_file in E. apply app_inv_head in E. discriminate E. }
  assert (located root r1 (abs_path (own_file root f)) "wavelength" "nanometer") as Loc by (eapply located_back; [exact B1|eapply own_located; eassumption]).
  exists p, r1, m. split; [exact At1|]. split; [eapply text_back_same; [apply B1|exact Em]|]. split; [eapply text_back_same; [apply B1|exact Ep]|]. split; [|split].
  - intros p' x' A' M' P'. apply Rows in A'. destruct (nth_error (rows_of (c_db cat)) p') as [x|] eqn:Ex.
    2: { apply nth_error_None in Ex. assert (nth_error rows p' <> None) as K by congruence. apply nth_error_Some in K. pose proof (same_length _ _ _ Back). lia. }
    destruct (Forall2_nth _ _ _ Back p' x Ex) as (y & Ey & By). assert (y = x') as -> by congruence.
    pose proof (C54_dropped_l _ _ _ _ _ _ _ _ _ _ _ C H Nn) as Kp. rewrite Forall_forall in Kp. destruct (Kp x (nth_error_In _ _ Ex)) as (md & Emd & _).
    pose proof (text_back_same _ _ _ _ _ _ (b_module _ _ _ By) Emd) as Emd'. assert (md = "UserData") as -> by congruence.
    destruct (built_rows M disp root fs c rb name s cat OK Fr Du B) as (sel & _ & _ & _ & F).
    destruct (folder_row_of _ _ _ _ _ _ _ _ F (in_module _ _ _ (nth_error_In _ _ Ex) Emd)) as (g & mg & _ & _ & FG).
    assert (r_path x = KStr g) as Eg by apply FG. pose proof (text_back_same _ _ _ _ _ _ (b_path _ _ _ By) Eg) as Eg'. assert (g = f) as -> by congruence.
    apply (Once p' x); [now apply row_at_rows|exact Emd|exact Eg].
  - unfold material_of. rewrite (proj1 (C53_number_l (world_on M fs') cat' p r1 root _ _ _ eq_refl (os_plain _ Fr) At1 Loc)).
    rewrite loaded_default, <- Mk. apply material_same. cbn [w_read world_on]. apply read_same_file; [exact Fr|apply Nf|eauto|exact Same].
  - split; [|exact Mk]. exists r. now split.
Qed.

Lemma chars_two (a b : string) : chars (a ++ b)%string = chars a ++ chars b.
Proof. induction a as [|c a IH]; [reflexivity|]. exact (f_equal (cons c) IH). Qed.
Lemma text_app (x y z : string) : ((x ++ y) ++ z = x ++ (y ++ z))%string.
Proof. induction x as [|k x IH]; [reflexivity|]. exact (f_equal (String k) IH). Qed.
Lemma backslash_name a b : os_name a -> os_name b -> os_name (a ++ "\" ++ b)%string.
Proof.
  intros ((A1 & A2 & A3 & A4) & A5) ((B1 & B2 & B3 & B4) & B5). unfold os_name, plain_name. rewrite !chars_two.
  assert (forall c, c <> "\"%char -> ~ In c (chars a) -> ~ In c (chars b) -> ~ In c (chars a ++ chars "\" ++ chars b)) as K.
  { intros c N1 N2 N3 I. apply in_app_or in I. destruct I as [I|I]; [contradiction|]. apply in_app_or in I. destruct I as [[I|[]]|I]; [now apply N1|contradiction]. }
  split; [|apply K; [discriminate|exact A5|exact B5]]. split; [|split; [|split; [|apply K; [discriminate|exact A4|exact B4]]]].
  - destruct a; [contradiction|discriminate].
  - destruct a as [|x [|y a]]; try contradiction; discriminate.
  - destruct a as [|x [|y [|z a]]]; try contradiction; cbn; discriminate.
Qed.
Lemma backslash_supported (a b : string) : supported b -> supported (a ++ b)%string.
Proof.
  intros (base & ext & -> & I & x & c & y & -> & N). exists (a ++ x ++ String c y)%string, ext. split; [now rewrite !text_app|]. split; [exact I|].
  exists (a ++ x)%string, c, y. split; [now rewrite text_app|exact N].
Qed.

Lemma C96_backslash_refuted_l : forall M disp root fs a b text c rb name s cat,
  machine_ok M disp -> Forall os_name root -> os_name a -> os_name b -> ~ In "\"%char (chars a) -> ~ In "\"%char (chars b) -> supported b ->
  let f := (a ++ "\" ++ b)%string in
  is_dir fs (root ++ ["UserData"]) -> is_file fs (own_file root f) text -> built_with M fs root c rb name s cat ->
  exists p r m, row_at (c_db cat) p r /\ file_row (mc_scipy M) s "UserData" f m r /\ r_path r = KStr f /\
    mk_material (read_on M fs) [("file_path", PStr (abs_path (own_file root f)))] = Ok m /\
    material_of M fs cat (IdInt (Z.of_nat p)) = mk_material (read_on M fs) [("file_path", PStr (abs_path (root ++ ["UserData"; a; b])))] /\
    (SetupSpec.no_file fs (root ++ ["UserData"; a; b]) -> exists e, material_of M fs cat (IdInt (Z.of_nat p)) = Raise e).
Proof.
  intros M disp root fs a b text c rb name s cat OK Fr Na Nb Ba Bb Sb f Du T B.
  assert (os_name f) as Nf by now apply backslash_name.
  assert (supported f) as Sf by (unfold f; apply backslash_supported; change ("\" ++ b)%string with (String "\" "" ++ b)%string; now apply backslash_supported).
  destruct (built_rows M disp root fs c rb name s cat OK Fr Du B) as (sel & ND & All & Pl & F).
  assert (In f sel) as If by (apply All; eauto).
  destruct (folder_row_for _ _ _ _ _ _ _ _ F If) as (r & m & Ir & L & FR).
  destruct (module_in _ _ _ Ir) as [Ir' Em]. apply In_nth_error in Ir'. destruct Ir' as [p Ep]. apply row_at_rows in Ep as At.
  destruct (own_names root f Fr Nf) as [_ Ej].
  assert (material_of M fs cat (IdInt (Z.of_nat p)) = mk_material (read_on M fs) [("file_path", PStr (abs_path (root ++ ["UserData"; a; b])))]) as Mat.
  { unfold material_of. destruct B as (_ & _ & H & mods & ref & t & u & C & _ & _).
    rewrite <- loaded_default. refine (proj1 (C53_number_l (world_on M fs) cat p r root _ _ _ (built_base _ _ _ _ _ _ _ _ _ _ _ C H) (os_plain _ Fr) At _)).
    destruct FR as (_ & _ & _ & _ & _ & _ & St & Un & _ & _ & Pth & Mod). exists "UserData", f, [a; b].
    split; [exact Mod|]. split; [apply setup_names|]. split; [exact Pth|]. split; [|split; [reflexivity|now split]].
    split; [discriminate|]. split; [constructor; [apply Na|constructor; [apply Nb|constructor]]|]. split; [constructor; [exact Ba|constructor; [exact Bb|constructor]]|right; reflexivity]. }
  exists p, r, m. split; [exact At|]. split; [exact FR|]. split; [apply FR|]. split; [rewrite <- Ej, <- loaded_default; exact L|]. split; [exact Mat|].
  intros No. rewrite Mat, load_material. unfold read_on.
  assert (Forall os_name (root ++ ["UserData"; a; b])) as Fab by (apply Forall_app; split; [exact Fr|repeat (constructor; [first [apply setup_names|assumption]|]); constructor]).
  assert (root ++ ["UserData"; a; b] = (root ++ ["UserData"; a]) ++ [b]) as Es by (rewrite <- app_assoc; reflexivity).
  destruct (_ || _)%bool; [|now eexists]. unfold SetupSpec.no_file in No. rewrite Es in *. rewrite open_r_abs by exact Fab. rewrite No.
  destruct (dir_exists _ _); cbn [bind]; now eexists.
Qed.

Lemma starts_plain f : os_name f -> starts_slash f = false.
Proof. intros (P & _). apply (rel_starts [f]); [discriminate|now constructor]. Qed.
Lemma named_supported f ext : In ext [".txt"; ".csv"; ".yml"] -> named f ext -> supported f.
Proof.
  intros I (a & c & -> & N1 & N2). exists (a ++ String c "")%string, ext.
  assert (forall x y z : string, ((x ++ y) ++ z = x ++ (y ++ z))%string) as A by (induction x as [|k x IH]; intros y z; [reflexivity|exact (f_equal (String k) (IH y z))]).
  split; [now rewrite A|]. split; [exact I|]. exists a, c, "". now split.
Qed.
Lemma named_path root f ext : Forall os_name root -> os_name f -> named f ext -> named (abs_path (own_file root f)) ext.
Proof.
  intros Fr Nf K. destruct (own_names root f Fr Nf) as [_ <-]. pose proof (starts_plain f Nf) as Sp. destruct K as (a & c & -> & N1 & N2).
  now apply join_named.
Qed.
Lemma saved_file W path m fs ic rii ops : save_material W path m fs ic rii = (Ok tt, ops) -> exists text, dget (fs_run fs ops) path = Some text.
Proof. intros H. destruct (save_text W path path m fs fs ic rii ops eq_refl H) as (ops' & _ & E). eauto. Qed.
(** a saved file whose material is known, in the catalogue *)
Lemma own_saved M disp root fs f m ic rii ops m' (P : material -> Prop) : machine_ok M disp -> Forall os_name root -> own_name f -> is_dir fs (root ++ ["UserData"]) ->
  save_material (mc_write M) (abs_path (own_file root f)) m (fs_files fs) ic rii = (Ok tt, ops) ->
  mk_material (read_path (mc_files M) (mc_sets M) (mc_material M) (fs_run (fs_files fs) ops)) [("file_path", PStr (abs_path (own_file root f)))] = Ok m' -> P m' ->
  kept_in_catalogue M root (after fs ops) f P.
Proof.
  intros OK Fr Nf Du Sv Mk HP. destruct (saved_file _ _ _ _ _ _ _ Sv) as [text T].
  assert (is_file (after fs ops) (own_file root f) text) as T' by exact T.
  assert (mk_material (read_on M (after fs ops)) [("file_path", PStr (abs_path (own_file root f)))] = Ok m') as Mk'.
  { rewrite <- Mk. apply material_same. exact (read_path_on M (after fs ops) root f text Fr (proj1 Nf) T'). }
  intros c rb name s cat B. split.
  - destruct (C96_listed_l M disp root (after fs ops) f text c rb name s cat OK Fr Nf Du T' B) as (p & r & m0 & H1 & H2 & H3 & H4 & H5 & H6 & H7).
    assert (m0 = m') as -> by congruence. exists p, r, m'. split; [exact H1|]. split; [exact H2|]. split; [exact H3|]. split; [exact H4|]. split; [exact H5|]. split; [exact H6|exact HP].
  - intros fs2 Fn St S2. destruct (C96_reopened_l M disp root (after fs ops) f text c rb name s cat fs2 OK Fr Nf Du T' B Fn St S2) as (cat' & Hc & p & r & m0 & H1 & H2 & H3 & H4 & H5 & H6 & H7).
    assert (m0 = m') as -> by congruence. exists cat'. split; [exact Hc|]. exists p, r, m'. split; [exact H1|]. split; [exact H2|]. split; [exact H3|]. split; [exact H4|]. split; [exact H5|]. split; [exact H6|exact HP].
Qed.

Lemma C96_text_l : forall M disp root fs f m c b b' l q ic rii canon,
  machine_ok M disp -> Forall os_name root -> os_name f -> ~ In "\"%char (chars f) -> text_file f -> is_dir fs (root ++ ["UserData"]) ->
  header_ready (mc_write M) m -> comment_of m c -> unix_text c ->
  tables_of m b b' (xrows l) (xrows q) -> float_table (xrows l) -> float_table (xrows q) -> (2 <= length l <= 333)%nat ->
  map fst q = map fst l -> NoDup (map fst l) -> d_unit b = d_unit b' -> d_type b = d_type b' ->
  documented (lower (d_type b)) (lower (d_unit b)) canon -> d_type b <> "" -> d_unit b <> "" ->
  Forall decimal8 (concat (table_of (xrows l)) ++ concat (table_of (xrows q))) ->
  (forall all x, incl all (concat (table_of (xrows l)) ++ concat (table_of (xrows q))) -> In x all -> disp all x = x) ->
  exists ops, save_material (mc_write M) (abs_path (own_file root f)) m (fs_files fs) ic rii = (Ok tt, ops) /\
    (forall p, p <> abs_path (own_file root f) -> dget (fs_files (after fs ops)) p = dget (fs_files fs) p) /\
    kept_in_catalogue M root (after fs ops) f (fun m' => has_tables m' l q (d_type b) (d_unit b)).
Proof.
  intros M disp root fs f m c b b' l q ic rii canon OK Fr Nf Bf Tf Du Hr Hc Cu Ht F1 F2 Len Eg Nd Eu Et Doc N1 N2 Dc Ex.
  assert (text_file (abs_path (own_file root f))) as Tp by (destruct Tf as [K|K]; [left|right]; now apply named_path).
  assert (own_name f) as On by (split; [exact Nf|]; split; [destruct Tf as [K|K]; eapply named_supported; try exact K; cbn; tauto|exact Bf]).
  destruct (C41_cycle_exact_l (mc_write M) disp (abs_path (own_file root f)) m c b b' l q (fs_files fs) ic rii (mc_files M) (mc_sets M) (mc_material M) canon
    (ok_numpy _ _ OK) Tp Hr Hc Cu Ht F1 F2 Len Eg Nd Eu Et Doc N1 N2 Dc Ex (ok_files _ _ OK) (ok_sets _ _ OK)) as (ops & m' & b1 & b1' & Sv & Mk & Tm & V1 & V2 & V3 & V4 & _).
  exists ops. split; [exact Sv|]. split.
  - intros p Np. exact (C46_other_files_l _ _ m _ ic rii _ ops _ p Sv (crash_done _ _) Np).
  - apply (own_saved M disp root fs f m ic rii ops m'); try assumption. exists b1, b1'. exact (conj Tm (conj V1 (conj V2 (conj V3 V4)))).
Qed.

Lemma C96_yaml_l : forall M disp root fs f m c meta sp b b' l q ic canon,
  machine_ok M disp -> Forall os_name root -> os_name f -> ~ In "\"%char (chars f) -> named f ".yml" -> is_dir fs (root ++ ["UserData"]) ->
  m_meta m = Some meta -> dget meta "MetaComment" = Some (MStr c) -> yaml_text c ->
  standard_meta meta -> dget meta "Specification" = Some (MMap sp) ->
  tables_of m b b' (xrows l) (xrows q) -> float_table (xrows l) -> float_table (xrows q) -> (2 <= length l <= 333)%nat ->
  map fst q = map fst l -> NoDup (map fst l) -> d_unit b = d_unit b' -> d_type b = d_type b' ->
  documented (lower (d_type b)) (lower (d_unit b)) canon -> d_type b <> "" -> d_unit b <> "" ->
  (forall all x, incl all (concat (table_of (xrows l)) ++ concat (table_of (xrows q))) -> In x all -> disp all x = x) ->
  exists ops, save_material (mc_write M) (abs_path (own_file root f)) m (fs_files fs) ic false = (Ok tt, ops) /\
    (forall p, p <> abs_path (own_file root f) -> dget (fs_files (after fs ops)) p = dget (fs_files fs) p) /\
    kept_in_catalogue M root (after fs ops) f (fun m' => has_tables m' l q (d_type b) (d_unit b)).
Proof.
  intros M disp root fs f m c meta sp b b' l q ic canon OK Fr Nf Bf Tf Du Hm Hc Cy Sm Hsp Ht F1 F2 Len Eg Nd Eu Et Doc N1 N2 Ex.
  assert (named (abs_path (own_file root f)) ".yml") as Tp by now apply named_path.
  assert (own_name f) as On by (split; [exact Nf|]; split; [eapply named_supported; try exact Tf; cbn; tauto|exact Bf]).
  destruct (C43_cycle_exact_l (mc_write M) disp (mc_material M) (abs_path (own_file root f)) m c meta sp b b' l q (fs_files fs) ic (mc_files M) (mc_sets M) canon
    (ok_numpy _ _ OK) (ok_yaml _ _ OK) Tp Hm Hc Cy Sm Hsp Ht F1 F2 Len Eg Nd Eu Et Doc N1 N2 Ex (ok_files _ _ OK) (ok_sets _ _ OK)) as (ops & m' & b1 & b1' & Sv & Mk & Tm & V1 & V2 & V3 & V4 & _).
  exists ops. split; [exact Sv|]. split.
  - intros p Np. exact (C46_other_files_l _ _ m _ ic false _ ops _ p Sv (crash_done _ _) Np).
  - apply (own_saved M disp root fs f m ic false ops m'); try assumption. exists b1, b1'. exact (conj Tm (conj V1 (conj V2 (conj V3 V4)))).
Qed.

Lemma file_row_fine X s module f m r e : file_row X s module f m r -> ~ row_error X s m e.
Proof.
  intros (_ & _ & _ & _ & _ & _ & _ & _ & (v & rest & B & _) & R & _) [K|(_ & K & N)]; [rewrite B in K; discriminate K|].
  destruct R as [(o & E & _)|(E & _)]; rewrite E in K; [discriminate K|congruence].
Qed.
Lemma folder_all X s rd dir module l res : folder_rows X s rd dir module l res ->
  ((exists rows, res = Ok rows) <-> Forall (fun f => exists m, loaded rd (path_join dir f) "wavelength" "nanometer" = Ok m /\ forall e, ~ row_error X s m e) l).
Proof.
  induction 1 as [|f rest m w l L Fr F IH|f rest m w err L Fr F IH|f rest err L|f rest m err L K].
  - split; [constructor|eauto].
  - split; [intros _|eauto]. constructor; [exists m; split; [exact L|]; intros e; eapply file_row_fine; eassumption|]. apply IH. eauto.
  - split; [intros [rows E]; discriminate E|]. intros A. inversion_clear A as [|? ? _ B]. apply IH in B. destruct B as [rows E]. discriminate E.
  - split; [intros [rows E]; discriminate E|]. intros A. inversion_clear A as [|? ? (m & E & _) _]. congruence.
  - split; [intros [rows E]; discriminate E|]. intros A. inversion_clear A as [|? ? (m' & E & N) _]. assert (m' = m) as -> by congruence. destruct (N _ K).
Qed.

Lemma C97_all_files_l : forall M disp root fs c s,
  machine_ok M disp -> Forall os_name root -> is_dir fs (root ++ ["UserData"]) -> user_only M fs root c s ->
  ((exists cat, mk_catalogue (mc_scipy M) (world_on M fs) c (RStr "All") = Ok cat) <->
   (forall f text, os_name f -> supported f -> is_file fs (own_file root f) text -> usable M fs s root f)).
Proof.
  intros M disp root fs c s OK Fr Du (name & mods & ref & t & u & C & Only & NA & V & Ei & Es).
  pose proof (sub_names _ _ Fr (proj1 setup_names)) as Fu.
  destruct (mk_spectrum_ok _ _ _ _ Es) as (cn & w & _ & Ew & _ & _ & _ & Vr). injection Ew as <-.
  destruct (ok_listdir _ _ OK fs _ Fu Du) as [ND In'].
  assert (w_listdir (world_on M fs) (abs_path (root ++ ["UserData"])) = Ok (mc_listdir M fs (abs_path (root ++ ["UserData"])))) as El.
  { cbn [w_listdir world_on]. now rewrite (proj2 (dir_exists_abs fs _ (os_plain _ Fu)) Du). }
  assert (Forall plain_name (mc_listdir M fs (abs_path (root ++ ["UserData"])))) as Pl by (apply Forall_forall; intros x Ix; apply In' in Ix; apply Ix).
  destruct (C56_listing_l (mc_scipy M) (world_on M fs) s ref _ "UserData" _ ltac:(now left) Vr El Pl) as (sel & Pk & F).
  assert (path_join (abs_path root) "UserData" = abs_path (root ++ ["UserData"])) as Ej by (apply join_name; [now apply os_plain|apply setup_names]).
  assert ((exists cat, mk_catalogue (mc_scipy M) (world_on M fs) c (RStr "All") = Ok cat) <->
    exists rows, read_module (mc_scipy M) (world_on M fs) s (abs_path (root ++ ["UserData"])) "UserData" = Ok rows) as Step.
  { split.
    - intros [cat H]. destruct (C54_rebuilt_l _ _ _ _ _ _ _ _ _ _ _ "UserData" C H ltac:(discriminate) (proj2 (Only "UserData") eq_refl) (sel_all _)) as (s' & Es' & Rd & _).
      rewrite Es in Es'. injection Es' as <-. rewrite Ej in Rd. eauto.
    - intros [rows R]. apply (C54_succeeds_l (mc_scipy M) (world_on M fs) c (RStr "All") (abs_path root) name mods ref t u s []); try assumption; try discriminate.
      + now apply validate_iff.
      + intros K. now destruct K.
      + intros m Im E. injection E as <-. contradiction.
      + intros m Im _. apply Only in Im. subst m. rewrite Ej. eauto.
      + intros K. congruence. }
  rewrite Step, (folder_all _ _ _ _ _ _ _ F), Forall_forall.
  assert (forall f, In f sel <-> os_name f /\ supported f /\ exists text, is_file fs (own_file root f) text) as Sel.
  { intros f. assert (In f sel <-> In f (mc_listdir M fs (abs_path (root ++ ["UserData"]))) /\ w_isfile (world_on M fs) (path_join (abs_path (root ++ ["UserData"])) f) = true /\ supported f) as ->.
    { split; [intros I; split; [eapply picked_in; eassumption|exact (picked_holds _ _ _ _ Pk I)]|intros [I P]; exact (picked_all _ _ _ _ Pk I P)]. }
    rewrite In'. split.
    - intros [[Nf _] [W Sf]]. split; [exact Nf|]. split; [exact Sf|]. cbn [w_isfile world_on] in W. destruct (own_names root f Fr Nf) as [Ff E]. rewrite E, file_exists_abs in W by now apply os_plain.
      unfold is_file. destruct (dget (fs_files fs) (abs_path (own_file root f))) as [tx|]; [eauto|discriminate W].
    - intros (Nf & Sf & text & T). split; [split; [exact Nf|]; right; exists text; now rewrite snoc2|]. split; [|exact Sf]. cbn [w_isfile world_on].
      destruct (own_names root f Fr Nf) as [Ff E]. rewrite E, file_exists_abs by now apply os_plain. unfold is_file in T. now rewrite T. }
  split.
  - intros H f text Nf Sf T. destruct (H f) as (m & L & Nr); [apply Sel; eauto|]. exists m. split; [|exact Nr]. destruct (own_names root f Fr Nf) as [_ E]. rewrite <- E, <- loaded_default. exact L.
  - intros H f I. apply Sel in I. destruct I as (Nf & Sf & text & T). destruct (H f text Nf Sf T) as (m & L & Nr). exists m. split; [|exact Nr].
    destruct (own_names root f Fr Nf) as [_ E]. rewrite E, loaded_default. exact L.
Qed.

Lemma C97_stops_l : forall M disp home root fs c s f text skipped rest,
  machine_ok M disp -> Forall os_name root -> is_dir fs (root ++ ["UserData"]) -> user_only M fs root c s ->
  get_config (Some home) (mc_package M) (mc_config M) fs = (Ok c, fs) ->
  os_name f -> supported f -> is_file fs (own_file root f) text -> ~ usable M fs s root f ->
  Forall (fun x => x <> "y" /\ x <> "n") skipped ->
  exists e, run_rebuild M home (mkSys (skipped ++ "y" :: rest) fs) = (Raise e, mkSys rest fs).
Proof.
  intros M disp home root fs c s f text skipped rest OK Fr Du Us G Nf Sf T Bad Sk.
  destruct (rebuilt_text M fs c) as [tx|e] eqn:E.
  - exfalso. apply Bad. apply (proj1 (C97_all_files_l M disp root fs c s OK Fr Du Us)) with (text := text); try assumption.
    unfold rebuilt_text in E. destruct (mk_catalogue _ _ _ _) as [cat|]; [eauto|discriminate E].
  - exists e. unfold run_rebuild, rebuild_catalogue. erewrite ibind_step; [|apply (proj2 (C73_question_l _ fs true rest fs)); split; [reflexivity|]; exists skipped; split; [reflexivity|exact Sk]].
    cbv beta iota. erewrite ibind_step; [|unfold on_disk; cbn [disk typed]; rewrite G; reflexivity].
    unfold ibind, look, pure. cbn [disk typed]. now rewrite E.
Qed.

Lemma C97_mark_refuted_l : forall M disp home root fs c s f ext text lines x skipped rest,
  machine_ok M disp -> Forall os_name root -> is_dir fs (root ++ ["UserData"]) -> user_only M fs root c s ->
  get_config (Some home) (mc_package M) (mc_config M) fs = (Ok c, fs) ->
  os_name f -> In ext [".txt"; ".csv"] -> named f ext -> is_file fs (own_file root f) text ->
  file_text lines text -> Forall one_line lines -> In (String (other_mark ext) x) lines ->
  Forall (fun x => x <> "y" /\ x <> "n") skipped ->
  exists e, run_rebuild M home (mkSys (skipped ++ "y" :: rest) fs) = (Raise e, mkSys rest fs).
Proof.
  intros M disp home root fs c s f ext text lines x skipped rest OK Fr Du Us G Nf Ie Nm T FT OL Im Sk.
  apply (C97_stops_l M disp home root fs c s f text); try assumption.
  - apply (named_supported f ext); [cbn in *; tauto|exact Nm].
  - intros (m & L & _). rewrite (material_same _ _ _ (read_path_on M fs root f text Fr Nf T)) in L.
    destruct (C88_other_mark_refuted_l (mc_files M) (mc_sets M) (mc_material M) (fs_files fs) (abs_path (own_file root f)) ext text lines x) as [_ K]; try assumption.
    + cbn in *. tauto.
    + now apply named_path.
    + congruence.
Qed.

Lemma to_shape_s t canon x : documented t canon canon -> exists y, to_dispatch t canon (VS x) = Ok (VS y).
Proof. intros D. destruct (documented_cases _ _ _ D) as [[-> ->]|[[-> ->]|[[-> ->]|[[-> ->]|[[-> ->]|[[-> ->]|[[-> ->]|[[-> ->]|[-> ->]]]]]]]]]; eexists; reflexivity. Qed.
Lemma to_shape_a t canon l : documented t canon canon -> exists l', to_dispatch t canon (VA l) = Ok (VA l').
Proof. intros D. destruct (documented_cases _ _ _ D) as [[-> ->]|[[-> ->]|[[-> ->]|[[-> ->]|[[-> ->]|[[-> ->]|[[-> ->]|[[-> ->]|[-> ->]]]]]]]]]; eexists; reflexivity. Qed.
Lemma std_shape t canon x y : documented t canon canon -> exists a b, standardise_values t canon (VA [x; y]) = Ok (VA [a; b]).
Proof. intros D. destruct (documented_cases _ _ _ D) as [[-> ->]|[[-> ->]|[[-> ->]|[[-> ->]|[[-> ->]|[[-> ->]|[[-> ->]|[[-> ->]|[-> ->]]]]]]]]]; do 2 eexists; reflexivity. Qed.
Lemma std_shape_s t canon x : documented t canon canon -> exists a, standardise_values t canon (VS x) = Ok (VS a).
Proof. intros D. destruct (documented_cases _ _ _ D) as [[-> ->]|[[-> ->]|[[-> ->]|[[-> ->]|[[-> ->]|[[-> ->]|[[-> ->]|[[-> ->]|[-> ->]]]]]]]]]; eexists; reflexivity. Qed.
(** a conversion either works or raises ValueError *)
Lemma convert_cases sp t u : (exists canon, documented (lower t) u canon /\ convert_to sp t u = to_dispatch (lower t) canon (sp_std sp)) \/
  ((forall canon, ~ documented (lower t) u canon) /\ convert_to sp t u = Raise ValueError).
Proof.
  unfold convert_to. cbv zeta. destruct (dhas SPECTRUM_TYPES (lower t)) eqn:Ht; cbn [negb].
  - destruct (standardise_unit (lower t) u) as [canon|e] eqn:E.
    + left. exists canon. split; [now apply std_unit_spec|reflexivity].
    + right. assert (forall canon, ~ documented (lower t) u canon) as N by (intros canon D; apply std_unit_spec in D; [congruence|exact Ht]).
      split; [exact N|]. rewrite (std_unit_raise _ _ Ht N) in E. injection E as <-. reflexivity.
  - right. split; [|reflexivity]. intros canon D. apply documented_type in D. congruence.
Qed.
Lemma scalar_std r t u s : mk_spectrum (InVals (VS r)) t u = Ok s -> exists w, sp_std s = VS w.
Proof.
  intros H. destruct (mk_spectrum_ok _ _ _ _ H) as (cn & v & D & Ev & St & _). injection Ev as <-.
  destruct (std_shape_s _ _ r (documented_canon _ _ _ D)) as [a Ea]. exists a. congruence.
Qed.
Lemma made_range d : made d -> match d with DInterp _ _ | DConst _ _ => True | _ => False end ->
  exists canon x y a b, documented (sp_type (valid_range d)) (sp_unit (valid_range d)) canon /\ canon = sp_unit (valid_range d) /\ sp_values (valid_range d) = VA [x; y] /\ sp_std (valid_range d) = VA [a; b].
Proof.
  intros Md K. assert (exists x y t u, mk_spectrum (InVals (VA [x; y])) t u = Ok (valid_range d)) as (x & y & t & u & H).
  { destruct d as [b c|b rows|b k ps|b base spl]; try contradiction.
    - destruct Md as (x & y & Md). unfold mk_constant in Md. inv_bind Md b0 E. injection Md as <-. unfold mk_base in E. inv_bind E r Er. injection E as <-. exists x, y. eauto.
    - cbn [made] in Md. unfold mk_interpolation in Md. inv_bind Md x Ex. inv_bind Md y Ey. inv_bind Md b0 E. inv_bind Md z Ez. injection Md as <-.
      unfold mk_base in E. inv_bind E r Er. injection E as <-. exists x, y. eauto. }
  destruct (mk_spectrum_ok _ _ _ _ H) as (cn & v & D & Ev & St & T & U & V). injection Ev as <-.
  destruct (std_shape _ _ x y (documented_canon _ _ _ D)) as (a & b & Ea). exists cn, x, y, a, b. rewrite T, U. split; [exact (documented_canon _ _ _ D)|]. split; [reflexivity|].
  split; [exact V|congruence].
Qed.
Lemma contains_cases d s w : made d -> plain_part d -> sp_std s = VS w -> contains (valid_range d) s = Ok true \/ contains (valid_range d) s = Raise ValueError.
Proof.
  intros Md P St. destruct (made_range d Md) as (cn & x & y & a & b & D & Ec & V & _); [destruct d; try (exfalso; exact P); exact I|].
  assert (sp_unit (valid_range d) <> "cm") as Nc by (destruct d; try (exfalso; exact P); exact P).
  unfold contains. rewrite <- (proj2 (documented_lower _ _ _ D)) in D. rewrite (convert_to_unfold _ _ _ _ D), St.
  destruct (to_shape_s _ _ w (documented_canon _ _ _ D)) as [z ->]. cbn [bind]. rewrite V. unfold vmin, vmax. cbn [elems np_min np_max fold_left bind].
  destruct (_ || _); [right|now left]. rewrite <- Ec in *. destruct (documented_cases _ _ _ D) as [[_ ->]|[[_ ->]|[[_ ->]|[[_ ->]|[[_ ->]|[[_ ->]|[[_ ->]|[[_ ->]|[_ ->]]]]]]]]]; try reflexivity. now destruct Nc.
Qed.
Lemma evaluate_cases X d s r t u : made d -> plain_part d -> mk_spectrum (InVals (VS r)) t u = Ok s ->
  (exists o, evaluate X d s = (Ok (OS o), s)) \/ evaluate X d s = (Raise ValueError, s).
Proof.
  intros Md P H. destruct (scalar_std _ _ _ _ H) as [w St]. destruct (contains_cases d s w Md P St) as [C|C].
  - destruct d as [b c|b rows|b k ps|b base spl]; try (exfalso; exact P); cbn [evaluate]; change (d_range b) with (valid_range (DConst b (ORe NaN))); unfold valid_range in *; cbn [dbase_of] in *; rewrite C; cbn [bind].
    + destruct (mk_spectrum_ok _ _ _ _ H) as (cn & v & _ & Ev & _ & _ & _ & V). injection Ev as <-. rewrite V. left. eauto.
    + destruct (convert_cases s (d_type b) (d_unit b)) as [(cn & D & ->)|[_ ->]]; [|now right]. rewrite St. destruct (to_shape_s _ _ w (documented_canon _ _ _ D)) as [z ->]. cbn [bind map_vals].
      unfold interp_point. destruct (interp_bounds rows) as [lo hi]. destruct (_ || _); cbn [bind]; [now right|]. left. eauto.
  - right. destruct d as [b c|b rows|b k ps|b base spl]; try (exfalso; exact P); cbn [evaluate]; unfold valid_range in C; cbn [dbase_of] in C; rewrite C; reflexivity.
Qed.
Lemma nk_cases X m s r t u : made (m_real m) -> made (m_imag m) -> plain_part (m_real m) -> plain_part (m_imag m) -> m_complex m = None ->
  m_name m = "nk" \/ m_name m = "eps" -> mk_spectrum (InVals (VS r)) t u = Ok s -> (exists o, get_nk_data X m (SObj s) = Ok o) \/ get_nk_data X m (SObj s) = Raise ValueError.
Proof.
  intros M1 M2 P1 P2 C N H. unfold get_nk_data. rewrite (again _ _ _ _ H). cbn [bind].
  assert (MaterialModel.valid_name m = true) as -> by (unfold MaterialModel.valid_name; destruct N as [-> | ->]; reflexivity). cbn [negb]. unfold complex_value. rewrite C.
  destruct (evaluate_cases X _ _ _ _ _ M1 P1 H) as [[o ->]| ->]; [|now right]. destruct (evaluate_cases X _ _ _ _ _ M2 P2 H) as [[o' ->]| ->]; [|now right].
  left. cbn [fst]. unfold join_parts, obin. destruct o, o'; eexists; reflexivity.
Qed.
Lemma range_cases m : made (m_real m) -> made (m_imag m) -> plain_part (m_real m) -> plain_part (m_imag m) -> m_complex m = None ->
  m_name m = "nk" \/ m_name m = "eps" ->
  ((exists v, get_maximum_valid_range m = Ok v) <-> exists canon, documented (lower (m_stype m)) (m_unit m) canon).
Proof.
  intros M1 M2 P1 P2 C N. unfold get_maximum_valid_range. assert (MaterialModel.valid_name m = true) as -> by (unfold MaterialModel.valid_name; destruct N as [-> | ->]; reflexivity). cbn [negb]. rewrite C.
  destruct (made_range _ M1) as (c1 & x1 & y1 & a1 & b1 & _ & _ & _ & ->); [destruct (m_real m); try (exfalso; exact P1); exact I|].
  destruct (made_range _ M2) as (c2 & x2 & y2 & a2 & b2 & _ & _ & _ & ->); [destruct (m_imag m); try (exfalso; exact P2); exact I|].
  unfold vmin, vmax. cbn [elems np_min np_max fold_left bind fst snd].
  match goal with |- context [InVals (VA [?p; ?q])] => destruct (mk_spectrum (InVals (VA [p; q])) "wavelength" "m") as [sp|] eqn:E; [|discriminate E]; assert (sp_std sp = VA [p; q]) as Sd by (injection E as <-; reflexivity) end.
  cbn [bind]. destruct (convert_cases sp (m_stype m) (m_unit m)) as [(cn & D & ->)|[Nd ->]].
  - rewrite Sd. split; [eauto|]. intros _. destruct (to_shape_a _ _ [xmax2 (xmin2 a1 b1) (xmin2 a2 b2); xmin2 (xmax2 a1 b1) (xmax2 a2 b2)] (documented_canon _ _ _ D)) as [l ->]. eauto.
  - split; [intros [v K]; discriminate K|]. intros [cn D]. destruct (Nd _ D).
Qed.

Lemma C97_tables_l : forall M fs root f m s r t u,
  mk_material (read_on M fs) [("file_path", PStr (abs_path (own_file root f)))] = Ok m ->
  m_name m = "nk" \/ m_name m = "eps" -> m_complex m = None -> plain_part (m_real m) -> plain_part (m_imag m) ->
  mk_spectrum (InVals (VS r)) t u = Ok s ->
  (usable M fs s root f <-> exists canon, documented (lower (m_stype m)) (m_unit m) canon).
Proof.
  intros M fs root f m s r t u L N C P1 P2 Es. destruct (loaded_made _ _ _ L) as [M1 M2]. pose proof (range_cases m M1 M2 P1 P2 C N) as R. split.
  - intros (m' & L' & F). assert (m' = m) as -> by congruence. apply R. destruct (get_maximum_valid_range m) as [v|e] eqn:G; [eauto|]. destruct (F e). now left.
  - intros D. apply R in D. destruct D as [v G]. exists m. split; [exact L|]. intros e [K|(_ & K & Ne)]; [congruence|].
    destruct (nk_cases (mc_scipy M) m s r t u M1 M2 P1 P2 C N Es) as [[o E]|E]; congruence.
Qed.

Lemma C97_centimetre_refuted_l : forall M fs root f m s w lo hi,
  mk_material (read_on M fs) [("file_path", PStr (abs_path (own_file root f)))] = Ok m ->
  m_name m = "nk" \/ m_name m = "eps" -> m_complex m = None -> (exists b rows, m_real m = DInterp b rows) ->
  sp_type (valid_range (m_real m)) = "wavelength" -> sp_unit (valid_range (m_real m)) = "cm" -> sp_values (valid_range (m_real m)) = VA [Fin lo; Fin hi] -> lo <= hi ->
  (exists r t u, mk_spectrum (InVals (VS r)) t u = Ok s) -> convert_to s "wavelength" "cm" = Ok (VS (Fin w)) -> w < lo \/ hi < w ->
  ~ usable M fs s root f.
Proof.
  intros M fs root f m s w lo hi L N C (b & rows & Er) T U V B (r & t & u & Es) W O (m' & L' & F). assert (m' = m) as -> by congruence.
  destruct (get_maximum_valid_range m) as [v|e] eqn:G; [|apply (F e); now left]. apply (F KeyError). right. split; [eauto|]. split; [|discriminate].
  unfold get_nk_data. rewrite (again _ _ _ _ Es). cbn [bind].
  assert (MaterialModel.valid_name m = true) as -> by (unfold MaterialModel.valid_name; destruct N as [-> | ->]; reflexivity). cbn [negb]. unfold complex_value. rewrite C.
  rewrite Er in *. cbn [evaluate]. unfold valid_range in *. cbn [dbase_of] in *. rewrite <- T, <- U in W.
  destruct (contains_fin _ _ _ _ _ V W) as [_ K]. rewrite (K B O), U. reflexivity.
Qed.

Lemma C97_saved_l : forall M disp root fs f m c b b' l q ic rii canon s r t u,
  machine_ok M disp -> Forall os_name root -> os_name f -> text_file f ->
  header_ready (mc_write M) m -> comment_of m c -> unix_text c ->
  tables_of m b b' (xrows l) (xrows q) -> float_table (xrows l) -> float_table (xrows q) -> (2 <= length l <= 333)%nat ->
  map fst q = map fst l -> NoDup (map fst l) -> d_unit b = d_unit b' -> d_type b = d_type b' ->
  documented (lower (d_type b)) (lower (d_unit b)) canon -> d_type b <> "" -> d_unit b <> "" ->
  Forall decimal8 (concat (table_of (xrows l)) ++ concat (table_of (xrows q))) ->
  (forall all x, incl all (concat (table_of (xrows l)) ++ concat (table_of (xrows q))) -> In x all -> disp all x = x) ->
  mk_spectrum (InVals (VS r)) t u = Ok s ->
  exists ops m', save_material (mc_write M) (abs_path (own_file root f)) m (fs_files fs) ic rii = (Ok tt, ops) /\
    mk_material (read_on M (after fs ops)) [("file_path", PStr (abs_path (own_file root f)))] = Ok m' /\
    (canon <> "cm" -> (usable M (after fs ops) s root f <-> lower (d_unit b) = d_unit b)) /\
    (canon = "cm" -> forall w, convert_to s "wavelength" "cm" = Ok (VS (Fin w)) -> (forall p, In p l -> w < fst p) \/ (forall p, In p l -> fst p < w) ->
      ~ usable M (after fs ops) s root f).
Proof.
  intros M disp root fs f m c b b' l q ic rii canon s r t u OK Fr Nf Tf Hr Hc Cu Ht F1 F2 Len Eg Nd Eu Et Doc N1 N2 Dc Ex Es.
  assert (text_file (abs_path (own_file root f))) as Tp by (destruct Tf as [K|K]; [left|right]; now apply named_path).
  destruct (C41_cycle_exact_l (mc_write M) disp (abs_path (own_file root f)) m c b b' l q (fs_files fs) ic rii (mc_files M) (mc_sets M) (mc_material M) canon
    (ok_numpy _ _ OK) Tp Hr Hc Cu Ht F1 F2 Len Eg Nd Eu Et Doc N1 N2 Dc Ex (ok_files _ _ OK) (ok_sets _ _ OK)) as (ops & m' & b1 & b1' & Sv & Mk & Tm & V1 & V2 & V3 & V4 & V5 & V6).
  exists ops, m'. split; [exact Sv|]. destruct (saved_file _ _ _ _ _ _ _ Sv) as [text T].
  assert (mk_material (read_on M (after fs ops)) [("file_path", PStr (abs_path (own_file root f)))] = Ok m') as Mk'.
  { rewrite <- Mk. apply material_same. exact (read_path_on M (after fs ops) root f text Fr Nf T). }
  split; [exact Mk'|]. destruct Tm as (Nm & Cm & Rm & Im). destruct (loaded_made _ _ _ Mk') as [M1 M2].
  assert (forall d b0 rows, d = DInterp b0 rows -> made d -> d_type b0 = d_type b -> d_unit b0 = d_unit b -> sp_type (valid_range d) = lower (d_type b) /\ sp_unit (valid_range d) = canon) as Plain.
  { intros d b0 rows -> Md T0 U0. cbn [made] in Md. rewrite T0, U0 in Md.
    unfold mk_interpolation in Md. inv_bind Md x Ex'. inv_bind Md y Ey. inv_bind Md b2 E. inv_bind Md z Ez. injection Md as ->.
    unfold mk_base in E. inv_bind E rg Er. injection E as <-. unfold valid_range. cbn [dbase_of d_range].
    destruct (mk_spectrum_ok _ _ _ _ Er) as (cn & v & D & _ & _ & Ty & U & _). rewrite U, Ty. split; [reflexivity|]. exact (documented_fun _ _ _ _ D Doc). }
  destruct (Plain _ _ _ Rm M1 V1 V2) as [Ty1 Un1]. destruct (Plain _ _ _ Im M2 V3 V4) as [Ty2 Un2]. split.
  - intros Ncm. rewrite (C97_tables_l M (after fs ops) root f m' s r t u Mk' (or_introl Nm) Cm), V5, V6; [|rewrite Rm in *; cbn [plain_part]; congruence|rewrite Im in *; cbn [plain_part]; congruence|exact Es]. split.
    + intros [cn D]. apply (documented_lower _ _ _ D).
    + intros E. exists canon. now rewrite E in Doc.
  - intros -> w W O.
    assert (mk_interpolation (xrows l) (d_type b) (d_unit b) = Ok (m_real m')) as Mi by (rewrite Rm in M1 |- *; cbn [made] in M1; now rewrite V1, V2 in M1).
    destruct (interp_range_x l _ _ _ Mi) as (mn & mx & V & I1 & I2 & B & _).
    assert (lower (d_type b) = "wavelength") as Lw.
    { destruct (documented_cases _ _ _ Doc) as [[_ K]|[[K _]|[[_ K]|[[_ K]|[[_ K]|[[_ K]|[[_ K]|[[_ K]|[_ K]]]]]]]]]; try discriminate K. exact K. }
    apply (C97_centimetre_refuted_l M (after fs ops) root f m' s w mn mx); try assumption; eauto; [congruence|exact (proj2 (B _ I1))|].
    apply in_map_iff in I1. destruct I1 as (p1 & <- & I1). apply in_map_iff in I2. destruct I2 as (p2 & <- & I2). destruct O as [O|O]; [left|right]; now apply O.
Qed.

Lemma built_file X W c rb base file mods ref t u cat : configured c base file mods ref t u ->
  mk_catalogue X W c rb = Ok cat -> c_file cat = file.
Proof.
  intros C H. rewrite (mk_catalogue_eq _ _ _ _ _ _ _ _ _ _ C) in H.
  destruct (validate_config _ _); cbn [bind] in H; [|discriminate]. inv_bind H s Es. inv_bind H df Ed. inv_bind H df' Ed'. inv_bind H i Ei.
  destruct (i && negb (w_qgrid W)); [discriminate|]. injection H as <-. reflexivity.
Qed.

Lemma C97_rebuilt_l : forall M disp home root fs c s skipped rest,
  machine_ok M disp -> Forall os_name root -> is_dir fs (root ++ ["UserData"]) -> user_only M fs root c s ->
  get_config (Some home) (mc_package M) (mc_config M) fs = (Ok c, fs) ->
  (forall f text, os_name f -> supported f -> is_file fs (own_file root f) text -> usable M fs s root f) ->
  Forall (fun x => x <> "y" /\ x <> "n") skipped ->
  exists cat, mk_catalogue (mc_scipy M) (world_on M fs) c (RStr "All") = Ok cat /\
    forall fs', save_on M fs cat = Ok fs' -> run_rebuild M home (mkSys (skipped ++ "y" :: rest) fs) = (Ok tt, mkSys rest fs').
Proof.
  intros M disp home root fs c s skipped rest OK Fr Du Us G All Sk. destruct (proj2 (C97_all_files_l M disp root fs c s OK Fr Du Us) All) as [cat H]. exists cat. split; [exact H|].
  intros fs' Sv. unfold run_rebuild, rebuild_catalogue. erewrite ibind_step; [|apply (proj2 (C73_question_l _ fs true rest fs)); split; [reflexivity|]; exists skipped; split; [reflexivity|exact Sk]].
  cbv beta iota. erewrite ibind_step; [|unfold on_disk; cbn [disk typed]; rewrite G; reflexivity].
  unfold ibind, look, pure. cbn [disk typed]. unfold rebuilt_text. rewrite H. cbn [bind].
  destruct Us as (name & mods & ref & t & u & C & _). pose proof (built_base _ _ _ _ _ _ _ _ _ _ _ C H) as Eb. pose proof (built_file _ _ _ _ _ _ _ _ _ _ _ C H) as Ef.
  unfold save_on in Sv. rewrite Eb, Ef in Sv. unfold save_catalogue, ibind, pure, dlookup. rewrite (cf_path _ _ _ _ _ _ _ C), (cf_file _ _ _ _ _ _ _ C). cbn [check_str].
  unfold change_disk. cbn [disk typed]. now rewrite Sv.
Qed.

Lemma setup_configured root name : exists mods ref t u, configured (setup_result (abs_path root) name false) (abs_path root) name mods ref t u /\ In ("UserData", true) mods /\
  exists s, mk_spectrum (InVals (VS ref)) t u = Ok s.
Proof.
  exists [("UserData", true); ("RefractiveIndexInfo", false)], (Fin (6328 / 10)), "wavelength", "nanometer". split; [|split; [now left|]].
  - constructor; try reflexivity; [|eexists; repeat split; reflexivity]. cbn. repeat constructor; cbn; intuition discriminate.
  - destruct (mk_spectrum (InVals (VS (Fin (6328 / 10)))) "wavelength" "nanometer") as [s|] eqn:E; [eauto|discriminate].
Qed.
Lemma setup_user_only M disp root name fs : machine_ok M disp -> Forall os_name root -> os_name name -> is_dir fs root -> mc_creatable M name = true ->
  exists s, user_only M fs root (setup_result (abs_path root) name false) s.
Proof.
  intros OK Fr Fn D Cr. destruct (mk_spectrum (InVals (VS (Fin (6328 / 10)))) "wavelength" "nanometer") as [s|] eqn:E; [|discriminate].
  exists s, name, [("UserData", true); ("RefractiveIndexInfo", false)], (Fin (6328 / 10)), "wavelength", "nanometer". split; [|split; [|split; [|split; [|split; [reflexivity|exact E]]]]].
  - constructor; try reflexivity; [|eexists; repeat split; reflexivity]. cbn. repeat constructor; cbn; intuition discriminate.
  - intros m. cbn. split; [intros [K|[K|[]]]; [now injection K as <-|discriminate K]|intros ->; now left].
  - cbn. intros [K|[K|[]]]; discriminate K.
  - destruct (ok_temp _ _ OK fs) as (t & Ft & Nt & Et & Fresh). constructor.
    + eexists. split; [reflexivity|]. cbn. apply dir_exists_abs; [now apply os_plain|exact D].
    + eexists. split; [reflexivity|]. cbn [w_checks world_on valid_file_name]. rewrite Et, try_plain by assumption. cbn [fst]. now rewrite Cr.
    + now eexists.
    + now eexists.
    + eexists. split; [reflexivity|]. intros m v [K|[K|[]]]; injection K as <- <-; now eexists.
    + eexists _, _, _, _. now repeat split.
Qed.
Lemma setup_read M disp h root name fs : machine_ok M disp -> Forall os_name h -> is_dir fs (user_dir h) ->
  is_file fs (user_file h) (mc_dump M (setup_result (abs_path root) name false)) ->
  get_config (Some (abs_path h)) (mc_package M) (mc_config M) fs = (Ok (setup_result (abs_path root) name false), fs).
Proof.
  intros OK Fh Dh Fc. unfold get_config. destruct (user_names h Fh) as (_ & Fud & Fuf). unfold read_config, get_config_dir.
  destruct (user_dir_open h fs Fh (or_introl Dh)) as (fs2 & G & W & _).
  assert (fs2 = fs) as ->.
  { unfold get_user_config_dir in G. rewrite (user_dir_path h Fh) in G. unfold path_exists in G.
    rewrite (proj2 (dir_exists_abs fs _ (os_plain _ Fud)) Dh) in G. cbn [orb] in G. now injection G. }
  rewrite G. rewrite config_path by exact Fud. rewrite user_file_snoc, file_exists_abs by now apply os_plain. unfold is_file in Fc. rewrite Fc.
  rewrite config_path by exact Fud. rewrite open_r_abs by (rewrite user_file_snoc; exact Fuf). rewrite user_file_snoc, Fc. cbn [bind]. now rewrite (ok_config _ _ OK).
Qed.
