(** Theorems about the example files that the setup script writes (C91). *)
From Verif Require Import PyBase PyStr XReal CNum TextModel SpectrumModel SpectrumSpec SpectralModel SpectralSpec SpectralThms MaterialModel MaterialSpec MaterialProofs FileModel ReaderModel WriterModel PathModel IOSpec SaveSpec SaveProofs ShowsProofs CycleProofs DisplayProofs ExportProofs IOExamples SaveThms TextFileThms YamlSpec YamlDataProofs YamlThms ExampleModel ExampleSpec.
From Coq Require Import Permutation.
Open Scope R_scope.
Open Scope string_scope.
Open Scope list_scope.


Lemma float_small r : Rabs r < 1000 -> float_range (Fin r).
Proof. intros H. cbn. assert (10 ^ 3 <= 10 ^ 307) as P by (apply Rle_pow; [lra|lia]). cbn [pow] in P. lra. Qed.
Lemma base_fields rng t u b : mk_base rng t u = Ok b -> d_type b = t /\ d_unit b = u.
Proof. intros H. unfold mk_base in H. inv_bind H s E. injection H as <-. now split. Qed.
Lemma tables_nodup : NoDup (map fst table_n) /\ NoDup (map fst table_k).
Proof. split; cbn; repeat (constructor; [cbn; intuition lra|]); constructor. Qed.
Lemma tables_float : float_table (xrows table_n) /\ float_table (xrows table_k).
Proof. split; repeat (constructor; [split; apply float_small; cbn [fst snd]; rewrite Rabs_right; lra|]); constructor. Qed.
Lemma args_table rows : exists i, parse_args [("tabulated_nk", PArr (ND2 3 rows)); ("spectrum_type", PStr "wavelength"); ("unit", PStr "nanometer")] = Ok i /\
  as_str (arg i "file_path") = None /\ as_dict (arg i "model_kw") = None /\ arg i "tabulated_nk" = PArr (ND2 3 rows) /\
  as_str (arg i "spectrum_type") = Some "wavelength" /\ as_str (arg i "unit") = Some "nanometer".
Proof. eexists. split; [cbv; reflexivity|]. repeat split. Qed.
Lemma args_model kw : exists i, parse_args [("model_kw", PDict kw); ("spectrum_type", PStr "wavelength"); ("unit", PStr "micrometer")] = Ok i /\
  as_str (arg i "file_path") = None /\ as_dict (arg i "model_kw") = Some kw /\
  as_str (arg i "spectrum_type") = Some "wavelength" /\ as_str (arg i "unit") = Some "micrometer".
Proof. eexists. split; [cbv; reflexivity|]. repeat split. Qed.
Lemma txt_material : exists m b b', example_txt_material = Ok m /\ tables_of m b b' (xrows table_n) (xrows table_k) /\
  d_type b = "wavelength" /\ d_unit b = "nanometer" /\ d_type b' = "wavelength" /\ d_unit b' = "nanometer" /\ m_meta m = Some (describe default_meta).
Proof.
  destruct (gold_parts table_n ltac:(cbn; lia) (proj1 tables_nodup)) as (b & E1 & E2 & E3).
  destruct (gold_parts table_k ltac:(cbn; lia) (proj2 tables_nodup)) as (b' & E1' & E2' & E3').
  eexists _, b, b'. split; [|split; [|split; [exact E2|split; [exact E3|split; [exact E2'|split; [exact E3'|]]]]]].
  - unfold example_txt_material, mk_material, example_nk.
    destruct (args_table [[Fin 400; Fin 1.7; Fin 0.1]; [Fin 500; Fin 1.6; Fin 0.05]; [Fin 600; Fin 1.5; Fin 0]; [Fin 700; Fin 1.4; Fin 0]]) as (i & -> & A1 & A2 & A3 & A4 & A5).
    cbn [bind]. rewrite A1, A2, A3, A4, A5. cbn [is_none negb]. unfold process_table. change (String.eqb "nk" "nk") with true. cbv iota.
    cbn [take_cols Nat.ltb Nat.leb bind pair_cols map col nth p_stype p_unit]. unfold spec_data_from_pairs.
    cbn [xrows map fst snd table_n] in E1. cbn [xrows map fst snd table_k] in E1'. rewrite E1. cbn [bind]. rewrite E1'. cbn [bind].
    unfold complete. cbn [set_imag set_real p_real p_imag p_name p_complex bind]. reflexivity.
  - repeat split.
  - reflexivity.
Qed.
Lemma yaml_material : exists m b b', example_yaml_material = Ok m /\ m_name m = "nk" /\ m_complex m = None /\
  m_real m = DModel b Sellmeier (map Fin coefficients) /\ m_imag m = DInterp b' (xrows table_k) /\
  mk_model Sellmeier (map Fin coefficients) (InVals (VA (map Fin covered))) "wavelength" "micrometer" = Ok (m_real m) /\
  d_type b = "wavelength" /\ d_unit b = "micrometer" /\ sp_values (d_range b) = VA (map Fin covered) /\
  d_type b' = "wavelength" /\ d_unit b' = "nm" /\ m_meta m = Some (describe default_meta).
Proof.
  assert (exists b', mk_interpolation (xrows table_k) "wavelength" "nm" = Ok (DInterp b' (xrows table_k)) /\ d_type b' = "wavelength" /\ d_unit b' = "nm") as (b' & Ek' & T' & U').
  { destruct (pairs_total table_k "wavelength" "nm" "nm" ltac:(cbn; lia) (proj2 tables_nodup)) as (b' & E & T & U); [eexists; split; [cbn; right; right; right; left; reflexivity|cbn; tauto]|]. exists b'. now split. }
  destruct (mk_base (InVals (VA (map Fin covered))) "wavelength" "micrometer") as [b|e] eqn:Eb; [|exfalso; vm_compute in Eb; discriminate].
  assert (d_type b = "wavelength" /\ d_unit b = "micrometer" /\ sp_values (d_range b) = VA (map Fin covered)) as (T & U & V).
  { unfold mk_base, mk_spectrum in Eb. change (negb (dhas SPECTRUM_TYPES (lower "wavelength"))) with false in Eb. cbv iota in Eb.
    change (standardise_unit (lower "wavelength") (lower "micrometer")) with (Ok "um") in Eb. cbn [bind] in Eb. inv_bind Eb s Es. inv_bind Es sd Esd. injection Es as <-. injection Eb as <-. now split. }
  assert (mk_model Sellmeier (map Fin coefficients) (InVals (VA (map Fin covered))) "wavelength" "micrometer" = Ok (DModel b Sellmeier (map Fin coefficients))) as EM.
  { unfold mk_model. rewrite Eb. cbn [bind]. destruct (validate_spectrum_type Sellmeier "wavelength" "micrometer") as [[]|e] eqn:E; [reflexivity|exfalso; vm_compute in E; discriminate]. }
  eexists _, b, b'. split.
  - unfold example_yaml_material, mk_material, example_model. destruct (args_model (mkKw (Some "Sellmeier") (Some [Fin 0; Fin 1; Fin 0.05; Fin 2; Fin 0.1; Fin 10; Fin 25])
       (Some (InVals (VA [Fin 0.35; Fin 2]))) None (Some "micrometer"))) as (i & -> & A1 & A2 & A4 & A5).
    cbn [bind]. rewrite A1, A2, A4, A5. unfold process_model_dict. cbn [kw_name kw_stype kw_unit kw_params kw_range opt_key bind].
    change (str_to_class "Sellmeier") with (Ok (KModel Sellmeier)). cbn [bind]. cbn [map coefficients covered] in EM. rewrite EM. cbn [bind].
    assert (exists z, constant_default (ORe (Fin 0)) = Ok z) as [z Ez] by (eexists; reflexivity).
    unfold complete. cbn [output set_real set_defaults p_real p_imag p_name p_complex p_stype p_unit bind]. rewrite Ez. cbn [bind described m_meta].
    unfold example_k. cbn [xrows map fst snd table_k] in Ek'. rewrite Ek'. cbn [bind m_meta m_name m_real m_complex m_stype m_unit]. reflexivity.
  - cbn [m_name m_complex m_real m_imag m_meta]. repeat (split; [first [reflexivity|assumption]|]). reflexivity.
Qed.
Lemma join_named dir (a : string) c ext : starts_slash (a ++ String c ext)%string = false -> c <> "."%char -> c <> "/"%char -> named (path_join dir (a ++ String c ext)%string) ext.
Proof.
  intros H N1 N2. unfold path_join. rewrite H. assert (forall x y z : string, ((x ++ y) ++ z = x ++ (y ++ z))%string) as A by (induction x as [|k x IH]; intros y z; [reflexivity|change (String k ((x ++ y) ++ z) = String k (x ++ (y ++ z)))%string; now rewrite IH]).
  destruct (String.eqb dir "" || ends_slash dir).
  - exists (dir ++ a)%string, c. split; [now rewrite A|now split].
  - exists (dir ++ "/" ++ a)%string, c. split; [rewrite !A; reflexivity|now split].
Qed.
Lemma names_differ dir : path_join dir "example_file.txt" <> path_join dir "example_file2.yml".
Proof.
  unfold path_join. change (starts_slash "example_file.txt") with false. change (starts_slash "example_file2.yml") with false. cbv iota.
  assert (forall x y z : string, (x ++ y = x ++ z)%string -> y = z) as A by (induction x as [|k x IH]; intros y z E; [exact E|injection E as E; now apply IH]).
  destruct (String.eqb dir "" || ends_slash dir); intros E; repeat (apply A in E); discriminate E.
Qed.
Lemma example_comment_text : unix_text example_comment /\ yaml_text example_comment /\ plain_comment example_comment.
Proof.
  split; [|split].
  - intros c Hc. destruct (Ascii.eqb c nl) eqn:E; [left; now apply Ascii.eqb_eq|right]. intros X.
    assert (existsb (fun c => negb (Ascii.eqb c nl) && existsb (Ascii.eqb c) line_breaks) (chars example_comment) = true) as Y; [|discriminate Y].
    apply existsb_exists. exists c. split; [exact Hc|]. rewrite E. cbn [negb andb]. apply existsb_exists. exists c. split; [exact X|apply Ascii.eqb_refl].
  - intros c Hc. assert (forallb (fun c => Ascii.eqb c nl || (Nat.leb 32 (nat_of_ascii c) && Nat.leb (nat_of_ascii c) 126)) (chars example_comment) = true) as Y by reflexivity.
    rewrite forallb_forall in Y. specialize (Y c Hc). apply orb_true_iff in Y. destruct Y as [Y|Y]; [left; now apply Ascii.eqb_eq|].
    apply andb_true_iff in Y. destruct Y as [Y1 Y2]. apply Nat.leb_le in Y1, Y2. right. right. left. now split.
  - intros line kw Hl _ (k & rest & p & s & -> & _).
    assert (forallb (fun l => negb (existsb (Ascii.eqb ":") (chars l))) (split_on nl example_comment) = true) as Y by reflexivity.
    rewrite forallb_forall in Y. specialize (Y _ Hl). apply negb_true_iff in Y.
    assert (existsb (Ascii.eqb ":") (chars (k ++ ":" ++ rest)%string) = true) as Z; [|congruence].
    apply existsb_exists. exists ":"%char. split; [|reflexivity]. clear. induction k as [|x k IH]; [now left|right; exact IH].
Qed.
Lemma describe_ready W m : m_meta m = Some (describe default_meta) -> (forall b rows, m_real m = DInterp b rows -> d_type b = "wavelength" /\ d_unit b = "nanometer") -> header_ready W m.
Proof.
  intros Hm Hr. split.
  - intros meta key v E. rewrite Hm in E. injection E as <-. unfold header_keys. cbn [In].
    intros [<-|[<-|[<-|[<-|[<-|[]]]]]] E; (match type of E with dget ?d ?k = _ => let x := eval vm_compute in (dget d k) in change (x = Some v) in E end; injection E as <-; cbn [format_val]; apply header_value_dec; reflexivity).
  - intros b rows E. destruct (Hr b rows E) as [-> ->]. split; apply header_value_dec; reflexivity.
Qed.
Lemma run_app fs l l' : fs_run fs (l ++ l') = fs_run (fs_run fs l) l'.
Proof. apply fold_left_app. Qed.
Lemma read_same fk dk yl fs fs' path : dget fs' path = dget fs path -> read_path fk dk yl fs' path = read_path fk dk yl fs path.
Proof. intros H. unfold read_path, fs_read. now rewrite H. Qed.
Lemma material_same rd rd' path : rd' path = rd path -> mk_material rd' [("file_path", PStr path)] = mk_material rd [("file_path", PStr path)].
Proof. intros H. rewrite !load_material. now rewrite H. Qed.
Lemma crash_done fs ops : crash_state fs ops (fs_run fs ops).
Proof. revert fs. induction ops as [|o l IH]; intros fs; [constructor|]. apply cr_later, IH. Qed.
Lemma described_meta meta : (forall k, In k header_keys -> dget meta k = dget (describe default_meta) k) -> forall m, m_meta m = Some meta -> described_as m.
Proof.
  intros H m Hm. exists meta. split; [exact Hm|]. rewrite !H by (cbn; tauto). repeat split.
Qed.
Lemma loaded_meta path m rd fd : rd path = Ok fd -> mk_material rd [("file_path", PStr path)] = Ok m -> exists meta, m_meta m = Some meta /\ forall k, In k header_keys -> dget meta k = dget (fd_meta fd) k.
Proof.
  intros E H. destruct (load_ok _ _ _ _ E H) as (meta & p & C & _ & L). unfold complete in L. inv_bind L r Er. inv_bind L i Ei. injection L as <-. exists meta. split; [reflexivity|].
  intros k Hk. apply (copy_meta_get _ _ k C). cbn in Hk |- *. tauto.
Qed.
Lemma distinct_shown W disp : shows W disp -> NoDup (map (fun r => disp (concat (table_of (xrows table_k))) (fst r)) (xrows table_k)).
Proof.
  intros HW. set (C := concat _). assert (Forall float_range C) as An by apply (float_table_concat _ (proj2 tables_float)).
  assert (forall x, In (Fin x) C -> 1 <= x <= 700 -> exists y, disp C (Fin x) = Fin y /\ x - 1 <= y <= x + 1) as G.
  { intros x Hx Bx. pose proof (disp_near W disp HW C (Fin x) An Hx) as N. unfold shown_near, near in N. destruct (disp C (Fin x)) as [y| | |]; try contradiction. exists y. split; [reflexivity|].
    rewrite (Rabs_right x), Rmax_right in N by lra. assert (- (5 / 10 ^ 9 * x) <= y - x <= 5 / 10 ^ 9 * x) as N' by (unfold Rabs in N; destruct (Rcase_abs (y - x)); lra). clear N.
    assert (5 / 10 ^ 9 * x <= 1) by (assert (5 / 10 ^ 9 <= 1 / 700) by lra; nra). lra. }
  cbn [xrows table_k map fst]. destruct (G 400) as (a & -> & Ha); [cbn; tauto|lra|]. destruct (G 500) as (b & -> & Hb); [cbn; tauto|lra|]. destruct (G 600) as (c & -> & Hc); [cbn; tauto|lra|]. destruct (G 700) as (d & -> & Hd); [cbn; tauto|lra|].
  repeat (constructor; [cbn [In]; intros X; repeat (destruct X as [X|X]; [injection X as X; lra|]); exact X|]). constructor.
Qed.
Lemma yaml_savable b b' : d_type b = "wavelength" -> d_unit b = "micrometer" -> sp_values (d_range b) = VA (map Fin covered) -> d_type b' = "wavelength" -> d_unit b' = "nm" ->
  savable_part (DModel b Sellmeier (map Fin coefficients)) /\ savable_part (DInterp b' (xrows table_k)).
Proof.
  intros T U V T' U'. split.
  - cbn [savable_part]. rewrite T, U, V. split; [reflexivity|]. split; [repeat (constructor; [apply float_small; rewrite Rabs_right; lra|]); constructor|]. split; [cbn; lia|].
    cbn [elems]. split; [repeat (constructor; [apply float_small; rewrite Rabs_right; lra|]); constructor|]. split; [cbn; lia|]. split; discriminate.
  - cbn [savable_part]. rewrite T', U'. split; [apply tables_float|]. split; [cbn; lia|]. split; discriminate.
Qed.
Lemma txt_decimal : Forall decimal8 (concat (table_of (xrows table_n)) ++ concat (table_of (xrows table_k))).
Proof.
  assert (forall z r, r * 10 ^ 8 = IZR z -> decimal8 (Fin r)) as H by (intros z r E; exists z; rewrite <- E; field; lra).
  cbn [xrows table_n table_k map table_of concat app fst snd].
  constructor; [apply (H 40000000000%Z); lra|].
  constructor; [apply (H 170000000%Z); lra|].
  constructor; [apply (H 50000000000%Z); lra|].
  constructor; [apply (H 160000000%Z); lra|].
  constructor; [apply (H 60000000000%Z); lra|].
  constructor; [apply (H 150000000%Z); lra|].
  constructor; [apply (H 70000000000%Z); lra|].
  constructor; [apply (H 140000000%Z); lra|].
  constructor; [apply (H 40000000000%Z); lra|].
  constructor; [apply (H 10000000%Z); lra|].
  constructor; [apply (H 50000000000%Z); lra|].
  constructor; [apply (H 5000000%Z); lra|].
  constructor; [apply (H 60000000000%Z); lra|].
  constructor; [apply (H 0%Z); lra|].
  constructor; [apply (H 70000000000%Z); lra|].
  constructor; [apply (H 0%Z); lra|].
  constructor.
Qed.

Lemma C91_examples_load_l : forall W disp yl dir fs fk dk,
  shows W disp -> yaml_library W yl -> Permutation FILE_META_DATA_KEYS fk -> Permutation DATASET_META_DATA_KEYS dk ->
  (forall all x, incl all (concat (table_of (xrows table_n)) ++ concat (table_of (xrows table_k))) -> In x all -> disp all x = x) ->
  let txt := path_join dir "example_file.txt" in let yml := path_join dir "example_file2.yml" in
  exists ops m m', make_examples W dir fs = (Ok tt, ops) /\
    (mk_material (read_path fk dk yl (fs_run fs ops)) [("file_path", PStr txt)] = Ok m /\ described_as m /\
     exists b b', tables_of m b b' (xrows table_n) (xrows table_k) /\
       d_type b = "wavelength" /\ d_unit b = "nanometer" /\ d_type b' = "wavelength" /\ d_unit b' = "nanometer" /\
       m_stype m = "wavelength" /\ m_unit m = "nanometer") /\
    (mk_material (read_path fk dk yl (fs_run fs ops)) [("file_path", PStr yml)] = Ok m' /\ described_as m' /\
     m_name m' = "nk" /\ m_complex m' = None /\
     (exists b ps, m_real m' = DModel b Sellmeier ps /\ Forall2 shown_near (map Fin coefficients) ps /\
        Forall2 shown_near (map Fin covered) (elems (sp_values (d_range b))) /\ d_type b = "wavelength" /\ d_unit b = "micrometer") /\
     (exists b rows, m_imag m' = DInterp b rows /\ near_table (5 / 10 ^ 9) (xrows table_k) rows /\ d_type b = "wavelength" /\ d_unit b = "nm") /\
     m_stype m' = "wavelength" /\ m_unit m' = "nm") /\
    (forall p, p <> txt -> p <> yml -> dget (fs_run fs ops) p = dget fs p).
Proof.
  intros W disp yl dir fs fk dk HW HY Pf Pd HE txt yml.
  assert (named txt ".txt") as Nt by (apply (join_named dir "example_fil" "e" ".txt"); [reflexivity|discriminate|discriminate]).
  assert (named yml ".yml") as Ny by (apply (join_named dir "example_file" "2" ".yml"); [reflexivity|discriminate|discriminate]).
  destruct example_comment_text as (Cu & Cy & Cp).
  destruct txt_material as (mt & b & b' & Et & Ht & T & U & T' & U' & Mt).
  assert (header_ready W mt) as Hr.
  { apply describe_ready; [exact Mt|]. intros b0 rows E. destruct Ht as (_ & _ & Ht & _). rewrite Ht in E. injection E as <- <-. now split. }
  assert (comment_of mt example_comment) as Hc by (exists (describe default_meta); split; [exact Mt|reflexivity]).
  destruct (C41_cycle_exact_l W disp txt mt example_comment b b' table_n table_k fs true false fk dk yl "nm" HW (or_introl Nt) Hr Hc Cu Ht (proj1 tables_float) (proj2 tables_float))
    as (ops & m & b1 & b1' & S1 & L1 & Tm & V1 & V2 & V3 & V4 & V5 & V6); try first [assumption|reflexivity|cbn; lia|congruence|apply tables_nodup|apply txt_decimal|rewrite ?T, ?U; discriminate].
  { rewrite T, U. eexists. split; [cbn; right; right; right; left; reflexivity|cbn; tauto]. }
  destruct yaml_material as (my & by0 & bi & Ey & Yn & Yx & Yr & Yi & Ym & YT & YU & YV & YT' & YU' & My).
  destruct (yaml_savable by0 bi YT YU YV YT' YU') as [Sv1 Sv2].
  destruct (C43_parts_cycle_l W disp yl yml my example_comment (describe default_meta) [] (fs_run fs ops) fk dk HW HY Ny Pf Pd My) as (ops' & m' & S2 & L2 & N2 & X2 & K1 & K2 & K3);
    try first [assumption|reflexivity|rewrite Yr; assumption|rewrite Yi; assumption|rewrite Yi; discriminate].
  { split; [cbn; repeat (constructor; [cbn; intuition discriminate|]); constructor|]. intros k Hk. cbn in Hk |- *. tauto. }
  { rewrite Yr in Ym |- *. cbn [loadable_part]. rewrite YT, YU. exists (InVals (VA (map Fin covered))). exact Ym. }
  { rewrite Yi. cbn [loadable_part]. split; [|split; [apply (distinct_shown W disp HW)|]].
    - intros r Hr0. cbn in Hr0. repeat (destruct Hr0 as [<-|Hr0]; [eexists _, _; reflexivity|]). destruct Hr0.
    - rewrite YT', YU'. exists "nm". eexists. split; [cbn; right; right; right; left; reflexivity|cbn; tauto]. }
  { rewrite Yr. intros [(? & ? & X) _]. discriminate X. }
  { intros q n q' k0 X. rewrite Yr in X. discriminate X. }
  exists (ops ++ ops'), m, m'. rewrite !run_app.
  assert (forall p, p <> yml -> dget (fs_run (fs_run fs ops) ops') p = dget (fs_run fs ops) p) as O2.
  { intros p Np. exact (C46_other_files_l W yml my _ true false _ ops' _ p S2 (crash_done _ _) Np). }
  split; [unfold make_examples, make_example_txt, make_example_yaml; rewrite Et; fold txt; rewrite S1, Ey; fold yml; now rewrite S2|].
  split; [|split].
  - assert (mk_material (read_path fk dk yl (fs_run (fs_run fs ops) ops')) [("file_path", PStr txt)] = Ok m) as L1'.
    { rewrite <- L1. apply material_same, read_same, O2, names_differ. }
    split; [exact L1'|]. split.
    + destruct (C37_header_survives_l W txt mt (describe default_meta) fs true false ops fk dk yl (or_introl Nt) Mt Hr) as (fd & ds & bb & rr & w & f0 & rest & dt & RD & _ & HM & _); try assumption.
      { intros c (meta & E1 & E2). rewrite Mt in E1. injection E1 as <-. change (dget (describe default_meta) "MetaComment") with (Some (MStr example_comment)) in E2. injection E2 as <-. exact Cu. }
      destruct (loaded_meta txt m _ fd RD L1) as (meta & M1 & M2). apply (described_meta meta); [|exact M1]. intros k Hk. rewrite (M2 k Hk).
      cbn in Hk. destruct Hk as [<-|[<-|[<-|[<-|[<-|[]]]]]]; match goal with |- dget _ ?k = _ => rewrite (HM k _ ltac:(cbn; tauto) eq_refl) end; reflexivity.
    + exists b1, b1'. split; [exact Tm|]. rewrite V1, V2, V3, V4, V5, V6, T, U. now repeat split.
  - split; [exact L2|]. split.
    + destruct (C43_read_back_l W yl yml my example_comment (describe default_meta) (fs_run fs ops) true ops' fk dk Ny HY Pf Pd S2 My eq_refl Cy) as (w & fd & _ & RD & [HM _] & _); [| now left|].
      { split; [cbn; repeat (constructor; [cbn; intuition discriminate|]); constructor|]. intros k Hk. cbn in Hk |- *. tauto. }
      destruct (loaded_meta yml m' _ fd RD L2) as (meta & M1 & M2). apply (described_meta meta); [|exact M1]. intros k Hk. rewrite (M2 k Hk). specialize (HM k Hk).
      cbn in Hk. destruct Hk as [<-|[<-|[<-|[<-|[<-|[]]]]]]; match type of HM with match dget ?d ?k with _ => _ end => let x := eval vm_compute in (dget d k) in change (dget d k) with x in HM |- * end; destruct HM as (v & -> & HM); cbn [same_val] in HM; now rewrite <- HM.
    + split; [exact N2|]. split; [exact X2|]. split; [|split].
      * rewrite Yr in K1. cbn [part_kept] in K1. destruct K1 as (b2 & ps & R1 & R2 & R3 & R4 & R5). rewrite YV in R3. cbn [elems] in R3. rewrite YT in R4. rewrite YU in R5. exists b2, ps. split; [exact R1|]. split; [exact R2|]. split; [exact R3|]. split; [exact R4|exact R5].
      * rewrite Yi in K2. cbn [part_kept] in K2. destruct K2 as (b2 & rows & R1 & R2 & R3 & R4). rewrite YT' in R3. rewrite YU' in R4. exists b2, rows. split; [exact R1|]. split; [exact R2|]. split; [exact R3|exact R4].
      * unfold reported_as in K3. rewrite Yi in K3. cbn [dbase_of] in K3. rewrite YT', YU' in K3. exact K3.
  - intros p N1 N3. rewrite (O2 p N3). exact (C46_other_files_l W txt mt _ true false _ ops _ p S1 (crash_done _ _) N1).
Qed.

Lemma C91_comment_refuted_l : forall W disp yl dir fs fk dk ops m m',
  shows W disp -> yaml_library W yl -> Permutation FILE_META_DATA_KEYS fk -> Permutation DATASET_META_DATA_KEYS dk ->
  make_examples W dir fs = (Ok tt, ops) ->
  mk_material (read_path fk dk yl (fs_run fs ops)) [("file_path", PStr (path_join dir "example_file.txt"))] = Ok m ->
  mk_material (read_path fk dk yl (fs_run fs ops)) [("file_path", PStr (path_join dir "example_file2.yml"))] = Ok m' ->
  ~ comment_of m example_comment /\ ~ comment_of m' example_comment.
Proof.
  intros W disp yl dir fs fk dk ops m m' HW HY Pf Pd HS L1 L2. set (txt := path_join dir "example_file.txt") in *. set (yml := path_join dir "example_file2.yml") in *.
  assert (named txt ".txt") as Nt by (apply (join_named dir "example_fil" "e" ".txt"); [reflexivity|discriminate|discriminate]).
  assert (named yml ".yml") as Ny by (apply (join_named dir "example_file" "2" ".yml"); [reflexivity|discriminate|discriminate]).
  destruct example_comment_text as (Cu & Cy & Cp).
  destruct txt_material as (mt & b & b' & Et & Ht & T & U & T' & U' & Mt).
  destruct yaml_material as (my & by0 & bi & Ey & Yn & Yx & Yr & Yi & Ym & YT & YU & YV & YT' & YU' & My).
  unfold make_examples, make_example_txt, make_example_yaml in HS. rewrite Et in HS. fold txt in HS.
  destruct (save_material W txt mt fs true false) as [[[]|e] o1] eqn:S1; [|discriminate HS]. rewrite Ey in HS. fold yml in HS.
  destruct (save_material W yml my (fs_run fs o1) true false) as [r o2] eqn:S2. injection HS as -> <-. rewrite !run_app in *.
  assert (header_ready W mt) as Hr.
  { apply describe_ready; [exact Mt|]. intros b0 rows E. destruct Ht as (_ & _ & Ht & _). rewrite Ht in E. injection E as <- <-. now split. }
  split.
  - apply (C39_comment_changes_refuted_l W txt mt m example_comment (or_introl Nt) Hr); [exists (describe default_meta); split; [exact Mt|reflexivity]|exact Cu|exact Cp|].
    apply (one_cycle W txt mt m fk dk yl fs true false o1 Pf Pd S1). rewrite <- L1. apply material_same, read_same. symmetry.
    exact (C46_other_files_l W yml my _ true false _ o2 _ txt S2 (crash_done _ _) (names_differ dir)).
  - apply (C40_comment_changes_refuted_l W yml true false my m' example_comment Ny); [exists (describe default_meta); split; [exact My|reflexivity]|exact Cy|discriminate|].
    exact (one_yaml_cycle W yml true false my m' fk dk yl _ o2 Pf Pd HY S2 L2).
Qed.

Lemma example_display all x : incl all (concat (table_of (xrows table_n)) ++ concat (table_of (xrows table_k))) -> In x all -> sample_disp all x = x.
Proof.
  intros H Hx. apply H in Hx. apply sample_exact; [now apply (proj1 (Forall_forall _ _) txt_decimal)|].
  cbn in Hx. unfold below. repeat destruct Hx as [<-|Hx]; try contradiction; rewrite Rabs_right; lra.
Qed.
