(** Theorems about text files: metadata (C37-C39), tables (C41, C42, C69). *)
From Verif Require Import PyBase PyStr XReal CNum TextModel TextSpec TextProofs TableProofs SpectrumModel SpectrumSpec SpectralModel SpectralSpec SpectralThms MaterialModel MaterialSpec MaterialProofs MatFileProofs FileModel ReaderModel WriterModel IOSpec LineProofs FmtProofs TextFileProofs DisplayProofs SaveProofs PathProofs CycleProofs OrderProofs ExportProofs ShowsProofs IOExamples.
From Flocq Require Import Core.
From Coq Require Import Permutation.
Open Scope R_scope.
Open Scope string_scope.
Open Scope list_scope.


Lemma put_meta_key W meta m1 v0 key v : In key header_keys -> dget meta key = Some v ->
  dget (dset (put_meta W DATA_META_DATA_KEYS meta m1) "MetaComment" v0) key = Some (MStr (format_val W v)).
Proof.
  intros Hk Hv. rewrite dget_dset_other; [|intros <-; cbn in Hk; intuition discriminate].
  rewrite put_meta_get. destruct (in_dec string_dec key DATA_META_DATA_KEYS) as [_|N]; [now rewrite Hv|]. now rewrite header_keys_eq in Hk.
Qed.

Lemma C37_header_survives_l : forall W path m meta fs ic rii ops fk dk yl,
  text_file path -> m_meta m = Some meta -> header_ready W m -> (forall c, comment_of m c -> unix_text c) ->
  Permutation FILE_META_DATA_KEYS fk -> Permutation DATASET_META_DATA_KEYS dk ->
  save_material W path m fs ic rii = (Ok tt, ops) ->
  exists fd d b rows w first rest dt,
    read_path fk dk yl (fs_run fs ops) path = Ok fd /\ fd_sets fd = [d] /\
    (forall key v, In key header_keys -> dget meta key = Some v -> dget (fd_meta fd) key = Some (MStr (format_val W v))) /\
    m_real m = DInterp b rows /\ ds_stype d = DStr (d_type b) /\ ds_unit d = DStr (d_unit b) /\
    mk_writer W path m = Ok w /\ w_sets w = first :: rest /\ dget first "DataType" = Some (DStr dt) /\ ds_type d = DStr dt.
Proof.
  intros W path m meta fs ic rii ops fk dk yl Hp Hm Hh Hc Pf Pd HS.
  destruct (text_read W path m fs ic rii ops meta fk dk yl Hp Hm Hh Hc Pf Pd HS)
    as (c & b & rows0 & sets & d & rest & dt & s & n & rows & m1 & d1 & multi1 & E1 & E2 & E3 & E4 & E5 & E6 & E7 & E8 & E9 & E10).
  eexists _, _, b, rows0, _, d, rest, dt. split; [exact E10|]. split; [reflexivity|]. cbn [fd_meta].
  split; [intros key v; apply put_meta_key|]. split; [exact E2|]. split; [reflexivity|]. split; [reflexivity|].
  unfold mk_writer. rewrite E4. split; [reflexivity|]. split; [exact E5|]. split; [apply E6|reflexivity].
Qed.

Lemma C37_material_cycle_l : forall W path m m' c meta meta' key,
  text_file path -> header_ready W m -> comment_of m c -> unix_text c -> plain_comment c ->
  file_cycle W path m m' -> m_meta m = Some meta -> m_meta m' = Some meta' -> In key header_keys ->
  dget meta' key = Some (MStr (match dget meta key with Some v => format_val W v | None => "" end)).
Proof.
  intros W path m m' c meta meta' key H1 H2 H3 H4 H5 H6 H7 H8 H9.
  destruct (text_cycle_step W path m m' c H1 H2 H3 H4 H5 H6) as [_ [_ K]]. now apply K.
Qed.

Lemma C37_any_cycles_l : forall W path n m m' c meta meta' key s,
  text_file path -> header_ready W m -> comment_of m c -> unix_text c -> plain_comment c ->
  file_cycles W path n m m' -> m_meta m = Some meta -> m_meta m' = Some meta' -> In key header_keys ->
  dget meta key = Some (MStr s) -> dget meta' key = Some (MStr s).
Proof.
  intros W path n m m' c meta meta' key s H1 H2 H3 H4 H5 H6 Hm Hm' Hk Hs.
  assert (exists c' meta1, m_meta m' = Some meta1 /\ header_ready W m' /\ comment_of m' c' /\ unix_text c' /\ plain_comment c' /\ dget meta1 key = Some (MStr s)) as (c' & meta1 & A & _ & _ & _ & _ & B).
  { clear Hm' meta'. induction H6 as [m|n m m1 m2 H6 IH H7]; [exists c, meta; auto 10|].
    destruct (IH H2 H3 Hm) as (c' & meta1 & I1 & I2 & I3 & I4 & I5 & I6).
    destruct (text_cycle_step W path m1 m2 c' H1 I2 I3 I4 I5 H7) as [K1 [[meta2 [K2 K3]] K4]].
    exists (next_comment c'), meta2. split; [exact K2|]. split; [exact K1|]. split; [exists meta2; auto|].
    split; [now apply next_unix|]. split; [now apply next_plain|].
    specialize (K4 meta1 meta2 I1 K2 key Hk). rewrite I6 in K4. exact K4. }
  congruence.
Qed.

Lemma C38_order_independent_l : forall fk dk fk' dk' yl fs path,
  Permutation FILE_META_DATA_KEYS fk -> Permutation DATASET_META_DATA_KEYS dk ->
  Permutation FILE_META_DATA_KEYS fk' -> Permutation DATASET_META_DATA_KEYS dk' ->
  same_reading (read_path fk dk yl fs path) (read_path fk' dk' yl fs path).
Proof. intros. now apply read_path_order. Qed.

Lemma C38_order_independent_reuse_l : forall fk dk fk' dk' yl ext meta meta' sets text,
  Permutation FILE_META_DATA_KEYS fk -> Permutation DATASET_META_DATA_KEYS dk ->
  Permutation FILE_META_DATA_KEYS fk' -> Permutation DATASET_META_DATA_KEYS dk' -> same_lookups meta meta' ->
  same_reading (fst (read_file fk dk yl (mkReader ext meta sets) text)) (fst (read_file fk' dk' yl (mkReader ext meta' sets) text)).
Proof. intros. apply read_file_order; try assumption. split; [reflexivity|]. split; [assumption|reflexivity]. Qed.

Lemma C39_one_cycle_l : forall W path m m' c,
  text_file path -> header_ready W m -> comment_of m c -> unix_text c -> plain_comment c -> file_cycle W path m m' ->
  exists c', after_text_cycle c c' /\ comment_of m' c'.
Proof.
  intros W path m m' c H1 H2 H3 H4 H5 H6. exists (next_comment c). split; [apply next_comment_spec|].
  now apply (text_cycle_step W path m m' c).
Qed.

Lemma app_inj_s a b c : (a ++ b)%string = (a ++ c)%string -> b = c.
Proof. induction a as [|x a IH]; cbn; [auto|]. intros E. injection E. auto. Qed.
Lemma trim_blank c : rstrip_nlcr (c ++ " " ++ NL)%string = (c ++ " ")%string.
Proof.
  assert (trimmed (c ++ " " ++ NL)%string (c ++ " ")%string) as T.
  { exists NL. split; [now rewrite app_assoc_s|]. split; [intros x [<-|[]]; now left|].
    intros a x E. assert (x = " "%char) as ->; [|split; discriminate].
    revert a E. induction c as [|y c IH]; intros a E.
    - destruct a as [|z a]; cbn in E; [now injection E|]. injection E as _ E. destruct a; discriminate.
    - destruct a as [|z a]; cbn in E; injection E as _ E; [destruct c; discriminate|]. now apply (IH a). }
  now apply trimmed_iff.
Qed.
Lemma next_again c : next_comment (c ++ " " ++ NL)%string = (c ++ " " ++ NL ++ " " ++ NL)%string.
Proof.
  unfold next_comment. rewrite lines_of_trim by (destruct c; discriminate). rewrite trim_blank. now rewrite !app_assoc_s.
Qed.
Lemma next_ends c : exists e, next_comment c = (e ++ " " ++ NL)%string.
Proof. now exists (lines_text (comment_part c)). Qed.
Lemma rep_str_end n s : (rep_str n s ++ s)%string = rep_str (S n) s.
Proof. induction n as [|n IH]; [cbn; now rewrite app_empty_r|]. cbn [rep_str] in *. rewrite app_assoc_s, IH. reflexivity. Qed.

Lemma C39_many_cycles_l : forall W path n m m' c,
  text_file path -> header_ready W m -> comment_of m c -> unix_text c -> plain_comment c -> file_cycles W path (S n) m m' ->
  exists c1, after_text_cycle c c1 /\ comment_of m' (c1 ++ rep_str n (" " ++ NL))%string.
Proof.
  intros W path n m m' c H1 H2 H3 H4 H5 H6. exists (next_comment c). split; [apply next_comment_spec|].
  assert (header_ready W m' /\ comment_of m' (next_comment c ++ rep_str n (" " ++ NL))%string /\
    unix_text (next_comment c ++ rep_str n (" " ++ NL))%string /\ plain_comment (next_comment c ++ rep_str n (" " ++ NL))%string) as [_ [G _]]; [|exact G].
  revert m' H6. induction n as [|n IH]; intros m' H6; inversion H6 as [|n0 a m1 b H7 H8]; subst.
  - inversion H7; subst. cbn [rep_str]. rewrite app_empty_r.
    destruct (text_cycle_step W path m1 m' c H1 H2 H3 H4 H5 H8) as [K1 [K2 _]]. split; [exact K1|]. split; [exact K2|].
    split; [now apply next_unix|now apply next_plain].
  - destruct (IH m1 H7) as [I1 [I2 [I3 I4]]].
    destruct (text_cycle_step W path m1 m' _ H1 I1 I2 I3 I4 H8) as [K1 [K2 _]].
    assert (next_comment (next_comment c ++ rep_str n (" " ++ NL))%string = (next_comment c ++ rep_str (S n) (" " ++ NL))%string) as E.
    { destruct (next_ends c) as [e ->]. rewrite <- rep_str_end.
      assert (exists f, ((e ++ " " ++ NL) ++ rep_str n (" " ++ NL) = f ++ " " ++ NL)%string) as [f F].
      { destruct n as [|k]; [exists e; cbn [rep_str]; now rewrite app_empty_r|].
        exists ((e ++ " " ++ NL) ++ rep_str k (" " ++ NL))%string. rewrite <- rep_str_end. now rewrite !app_assoc_s. }
      rewrite F, next_again. rewrite <- (app_assoc_s (e ++ " " ++ NL)%string), F. now rewrite !app_assoc_s. }
    rewrite <- E. split; [exact K1|]. split; [exact K2|]. split; [now apply next_unix|now apply next_plain].
Qed.

Lemma C39_comment_changes_refuted_l : forall W path m m' c,
  text_file path -> header_ready W m -> comment_of m c -> unix_text c -> plain_comment c -> file_cycle W path m m' ->
  ~ comment_of m' c.
Proof.
  intros W path m m' c H1 H2 H3 H4 H5 H6 [meta [E1 E2]].
  destruct (text_cycle_step W path m m' c H1 H2 H3 H4 H5 H6) as [_ [[meta' [K1 K2]] _]].
  assert (next_comment c = c) as E by congruence. clear -E. unfold next_comment in E.
  destruct (string_dec c "") as [->|N]; [discriminate|]. rewrite lines_of_trim in E by exact N.
  destruct (proj2 (trimmed_iff c _) eq_refl) as [e [T1 [T2 T3]]]. set (t := rstrip_nlcr c) in *.
  assert (e = (NL ++ " " ++ NL)%string) as Ee.
  { assert (E3 := eq_trans E T1). clear E; rename E3 into E. rewrite !app_assoc_s in E. now apply app_inj_s in E. }
  subst e. destruct (T2 " "%char) as [X|X]; [rewrite !chars_app, !in_app_iff; right; left; now left|discriminate X|discriminate X].
Qed.

Lemma map_id_in {A} (f : A -> A) l : (forall x, In x l -> f x = x) -> map f l = l.
Proof. induction l as [|x l IH]; intros H; cbn; [reflexivity|]. rewrite H by now left. rewrite IH; [reflexivity|]. intros y Hy. apply H. now right. Qed.
Lemma squeeze_2 n rows : (2 <= length rows)%nat -> n <> 1%nat -> squeeze n rows = ND2 n rows.
Proof. intros H Hn. destruct rows as [|a [|b r]]; cbn in H; try lia. cbn. destruct n as [|[|n]]; try reflexivity. congruence. Qed.
Lemma first_set_together W disp b n k : first_set (set_together W disp b n k) b "tabulated nk"
  (numeric_to_string_table W (ND2 3 (beside (shown disp (table_of n)) (shown disp (table_of k))))).
Proof. unfold first_set, set_together, merged. cbn [dget String.eqb Ascii.eqb Bool.eqb]. repeat split. right. now left. Qed.
Lemma pairs_ok_2 rows t u d : (2 <= length rows)%nat -> spec_data_from_pairs rows t u = Ok d -> exists b, d = DInterp b rows /\ d_type b = t /\ d_unit b = u.
Proof.
  intros H E. destruct rows as [|r1 [|r2 rows]]; cbn in H; try lia. unfold spec_data_from_pairs, mk_interpolation in E.
  inv_bind E mn E1. inv_bind E mx E2. inv_bind E b E3. inv_bind E u0 E4. injection E as <-. exists b. split; [reflexivity|].
  unfold mk_base in E3. inv_bind E3 s0 E5. injection E3 as <-. now split.
Qed.
Lemma process_nk d st un data p : ds_data d = DArr (ND2 3 data) -> (2 <= length data)%nat ->
  process_dataset (header_fset d st un "tabulated nk") (mkP "" None None None "wavelength" "nanometer") = Ok p ->
  exists b1 b2, p_name p = "nk" /\ p_complex p = None /\ p_real p = Some (DInterp b1 (pair_cols 0 1 data)) /\ p_imag p = Some (DInterp b2 (pair_cols 0 2 data)) /\
    d_type b1 = (if dval_true (DStr st) then st else "wavelength") /\ d_unit b1 = (if dval_true (DStr un) then un else "nanometer") /\
    d_type b2 = d_type b1 /\ d_unit b2 = d_unit b1.
Proof.
  intros Hd Hl E. unfold process_dataset in E. cbn [header_fset ds_type ds_data ds_stype ds_unit] in E. rewrite Hd in E.
  change (dval_split (DStr "tabulated nk")) with (Ok ["tabulated"; "nk"]) in E. cbn [bind dval_tab] in E.
  change (String.eqb "tabulated" "tabulated") with true in E. cbv iota in E. inv_bind E tt0 Et. injection Et as <-.
  inv_bind E st' Es. inv_bind E un' Eu. unfold process_table in E. change (String.eqb "nk" "nk") with true in E. cbv iota in E.
  cbn [set_defaults p_stype p_unit take_cols Nat.ltb Nat.leb bind] in E.
  inv_bind E a Ea. inv_bind E i Ei. injection E as <-.
  destruct (pairs_ok_2 _ _ _ _ ltac:(unfold pair_cols; rewrite map_length; exact Hl) Ea) as (b1 & -> & T1 & U1).
  destruct (pairs_ok_2 _ _ _ _ ltac:(unfold pair_cols; rewrite map_length; exact Hl) Ei) as (b2 & -> & T2 & U2).
  exists b1, b2. cbn [set_real set_imag p_name p_complex p_real p_imag set_defaults]. repeat (split; [reflexivity|]).
  rewrite T1, U1, T2, U2. cbn [p_stype p_unit] in Es, Eu. split; [|split; [|split; reflexivity]].
  - destruct (dval_true (DStr st)); now injection Es.
  - destruct (dval_true (DStr un)); now injection Eu.
Qed.
Lemma process_n d st un data p : ds_data d = DArr (ND2 2 data) -> (2 <= length data)%nat ->
  process_dataset (header_fset d st un "tabulated n") (mkP "" None None None "wavelength" "nanometer") = Ok p ->
  exists b1, p_name p = "nk" /\ p_complex p = None /\ p_real p = Some (DInterp b1 (pair_cols 0 1 data)) /\ p_imag p = None.
Proof.
  intros Hd Hl E. unfold process_dataset in E. cbn [header_fset ds_type ds_data ds_stype ds_unit] in E. rewrite Hd in E.
  change (dval_split (DStr "tabulated n")) with (Ok ["tabulated"; "n"]) in E. cbn [bind dval_tab] in E.
  change (String.eqb "tabulated" "tabulated") with true in E. cbv iota in E. inv_bind E tt0 Et. injection Et as <-.
  inv_bind E st' Es. inv_bind E un' Eu. unfold process_table in E.
  change (String.eqb "n" "nk") with false in E. change (String.eqb "n" "n_alpha") with false in E. change (String.eqb "n" "n") with true in E. cbv iota in E.
  cbn [set_defaults p_stype p_unit spec_data_from_table] in E. inv_bind E a Ea. injection E as <-.
  destruct (pairs_ok_2 _ _ _ _ ltac:(unfold pair_cols; rewrite map_length; exact Hl) Ea) as (b1 & -> & _).
  exists b1. repeat split.
Qed.
Lemma load_ok rd path fd m' : rd path = Ok fd -> mk_material rd [("file_path", PStr path)] = Ok m' ->
  exists meta p, copy_meta (fd_meta fd) = Ok meta /\
    process_datasets (fd_sets fd) (mkP "" None None None "wavelength" "nanometer") = Ok p /\ complete meta p = Ok m'.
Proof.
  intros E H. rewrite load_material, E in H. cbn [bind] in H. inv_bind H meta E1. inv_bind H p E2. now exists meta, p.
Qed.
Lemma dset_keeps {V} (d : dict V) k v key : dget d key <> None -> dget (dset d k v) key <> None.
Proof. intros H. destruct (string_dec k key) as [->|N]; [rewrite dget_dset_same; discriminate|]. rewrite dget_dset_other; congruence. Qed.
Lemma header_keeps fk dk key line m d multi : dget m key <> None -> dget (fst (fst (header_line fk dk (m, d, multi) line))) key <> None.
Proof.
  intros H. unfold header_line. destruct (split_on ":" line) as [|kwd [|a rest]]; [exact H|exact H|]. cbv zeta.
  destruct (match_key fk _); [now apply dset_keeps|]. now destruct (match_key dk _).
Qed.
Lemma fold_keeps fk dk key lines : forall st, dget (fst (fst st)) key <> None -> dget (fst (fst (fold_left (header_line fk dk) lines st))) key <> None.
Proof. induction lines as [|l lines IH]; intros [[m d] multi] H; [exact H|]. cbn [fold_left]. apply IH. now apply header_keeps. Qed.
Lemma put_keeps W meta key keys : forall acc, dget acc key <> None -> dget (put_meta W keys meta acc) key <> None.
Proof. induction keys as [|k keys IH]; intros acc H; [exact H|]. rewrite put_meta_cons. apply IH. destruct (dget meta k); [now apply dset_keeps|exact H]. Qed.
Lemma reader_keys fk path key : Permutation FILE_META_DATA_KEYS fk -> In key file_meta_keys -> dget (rd_meta (mk_reader fk path)) key <> None.
Proof.
  intros P H. destruct (string_dec key "Specification") as [->|N]; [rewrite mk_reader_spec; discriminate|].
  rewrite mk_reader_meta; [discriminate|exact P|]. cbn in H |- *. intuition congruence.
Qed.
Lemma copy_meta_total fm : (forall key, In key file_meta_keys -> dget fm key <> None) -> exists meta, copy_meta fm = Ok meta.
Proof.
  unfold copy_meta. induction file_meta_keys as [|k l IH]; intros H; [now exists []|].
  cbn [map_res]. unfold dlookup at 1. destruct (dget fm k) as [v|] eqn:E; [|exfalso; apply (H k); [now left|exact E]].
  cbn [bind]. destruct IH as [meta ->]; [intros key Hk; apply H; now right|]. cbn [bind]. eexists; reflexivity.
Qed.
(** what is read after two tables were saved together *)
Lemma together_read W disp path m meta c b b' n k fs ic rii fk dk yl : shows W disp -> text_file path -> header_ready W m ->
  m_meta m = Some meta -> dget meta "MetaComment" = Some (MStr c) -> unix_text c -> tables_of m b b' n k -> float_table n -> float_table k ->
  (2 <= length n <= 333)%nat -> length k = length n -> share_grid disp b b' n k ->
  Permutation FILE_META_DATA_KEYS fk -> Permutation DATASET_META_DATA_KEYS dk ->
  exists ops d1 fm, save_material W path m fs ic rii = (Ok tt, ops) /\
    ds_data d1 = DArr (ND2 3 (rounded8 (shown disp (beside (shown disp (table_of n)) (shown disp (table_of k)))))) /\
    read_path fk dk yl (fs_run fs ops) path = Ok (mkFdict fm [header_fset d1 (d_type b) (d_unit b) "tabulated nk"]) /\
    (forall key, In key file_meta_keys -> dget fm key <> None).
Proof.
  intros HW Hp Hh Hm Hc Hu Ht Fn Fk Hl Hk Hs Pf Pd.
  assert (n <> []) as Hn by (intros ->; cbn in Hl; lia).
  pose proof (proj1 (collapse_share W disp HW b b' n k Fn Fk Hn Hk ltac:(lia)) Hs) as EC.
  pose proof (prepare_tables W m meta b b' n k Ht Hm) as EP. rewrite EC in EP. cbn [bind] in EP.
  pose proof (together_parse W disp HW n k Fn Fk Hn Hk ltac:(lia)) as ET.
  destruct (save_text_total W path m meta c fs ic rii _ _ b "tabulated nk" _ _ _ Hp Hm Hc EP (first_set_together W disp b n k) ET) as [ops HS].
  exists ops.
  destruct (text_read W path m fs ic rii ops meta fk dk yl Hp Hm Hh ltac:(intros c0 [meta0 [X Y]]; replace c0 with c by congruence; exact Hu) Pf Pd HS)
    as (c1 & b1 & rows0 & sets & d & rest & dt & s & n1 & rows & m1 & d1 & multi1 & E1 & E2 & E3 & E4 & E5 & E6 & E7 & E8 & E9 & E10).
  rewrite EP in E4. injection E4 as <-. injection E5 as <- <-. destruct Ht as [_ [_ [Hr _]]]. rewrite Hr in E2. injection E2 as <- <-.
  destruct E6 as (_ & _ & _ & _ & _ & X6 & _ & X8 & _). 
  change (Some (DStr "tabulated nk") = Some (DStr dt)) in X6. injection X6 as <-.
  change (Some (DStr (numeric_to_string_table W (ND2 3 (beside (shown disp (table_of n)) (shown disp (table_of k)))))) = Some (DStr s)) in X8.
  injection X8 as <-.
  rewrite ET in E7. injection E7 as En Er.
  eexists d1, _. split; [exact HS|]. split; [|split; [exact E10|]];
    [|intros key Hkey; apply dset_keeps, put_keeps; pose proof (fold_keeps fk dk key (comment_part c1) (rd_meta (mk_reader fk path), fset_set default_data_dict "Data" (DArr (squeeze n1 (map (map (xround 8)) rows))), ""%string) (reader_keys fk path key Pf Hkey)) as KK; rewrite E8 in KK; exact KK].
  subst n1 rows. rewrite E9. f_equal. apply squeeze_2; [|discriminate]. unfold rounded8. rewrite map_length, shown_rows.
  assert (length (shown disp (table_of n)) = length (shown disp (table_of k))) as HL by (rewrite !shown_rows; unfold table_of; rewrite !map_length; now symmetry).
  rewrite (proj2 (beside_length 2 _ _ HL (shown_length disp _ 2 (table_of_length n)))), shown_rows. unfold table_of. rewrite map_length. lia.
Qed.
(** ... and after a table was saved alone *)
Lemma apart_read W disp path m meta c b n rest fs ic rii fk dk yl : shows W disp -> text_file path -> header_ready W m ->
  m_meta m = Some meta -> dget meta "MetaComment" = Some (MStr c) -> unix_text c -> m_real m = DInterp b n -> float_table n ->
  (2 <= length n <= 500)%nat -> prepare_file_dict W m = Ok (kept meta, tab_dict W b n "tabulated n" :: rest) ->
  Permutation FILE_META_DATA_KEYS fk -> Permutation DATASET_META_DATA_KEYS dk ->
  exists ops d1 fm, save_material W path m fs ic rii = (Ok tt, ops) /\
    ds_data d1 = DArr (ND2 2 (rounded8 (shown disp (table_of n)))) /\
    read_path fk dk yl (fs_run fs ops) path = Ok (mkFdict fm [header_fset d1 (d_type b) (d_unit b) "tabulated n"]) /\
    (forall key, In key file_meta_keys -> dget fm key <> None).
Proof.
  intros HW Hp Hh Hm Hc Hu Hr Fn Hl EP Pf Pd.
  assert (n <> []) as Hn by (intros ->; cbn in Hl; lia).
  pose proof (pairs_parse W disp HW n Fn Hn ltac:(lia)) as ET.
  destruct (save_text_total W path m meta c fs ic rii _ _ b "tabulated n" _ _ _ Hp Hm Hc EP ltac:(apply first_set_tab; now left) ET) as [ops HS].
  exists ops.
  destruct (text_read W path m fs ic rii ops meta fk dk yl Hp Hm Hh ltac:(intros c0 [meta0 [X Y]]; replace c0 with c by congruence; exact Hu) Pf Pd HS)
    as (c1 & b1 & rows0 & sets & d & rest1 & dt & s & n1 & rows & m1 & d1 & multi1 & E1 & E2 & E3 & E4 & E5 & E6 & E7 & E8 & E9 & E10).
  rewrite EP in E4. injection E4 as <-. injection E5 as <- <-. rewrite Hr in E2. injection E2 as <- <-.
  destruct E6 as (_ & _ & _ & _ & _ & X6 & _ & X8 & _). 
  change (Some (DStr "tabulated n") = Some (DStr dt)) in X6. injection X6 as <-.
  change (Some (DStr (numeric_to_string_table W (pairs_nd n))) = Some (DStr s)) in X8. injection X8 as <-.
  rewrite ET in E7. injection E7 as En Er.
  eexists d1, _. split; [exact HS|]. split; [|split; [exact E10|]];
    [|intros key Hkey; apply dset_keeps, put_keeps; pose proof (fold_keeps fk dk key (comment_part c1) (rd_meta (mk_reader fk path), fset_set default_data_dict "Data" (DArr (squeeze n1 (map (map (xround 8)) rows))), ""%string) (reader_keys fk path key Pf Hkey)) as KK; rewrite E8 in KK; exact KK].
  subst n1 rows. rewrite E9. f_equal. apply squeeze_2; [|discriminate]. unfold rounded8. rewrite map_length, shown_rows. unfold table_of. rewrite map_length. lia.
Qed.

Lemma C41_tables_read_back_l : forall W disp path m c b b' n k fs ic rii fk dk yl,
  shows W disp -> text_file path -> header_ready W m -> comment_of m c -> unix_text c ->
  tables_of m b b' n k -> float_table n -> float_table k -> (2 <= length n <= 333)%nat -> length k = length n ->
  share_grid disp b b' n k -> Permutation FILE_META_DATA_KEYS fk -> Permutation DATASET_META_DATA_KEYS dk ->
  exists ops fd d, save_material W path m fs ic rii = (Ok tt, ops) /\
    read_path fk dk yl (fs_run fs ops) path = Ok fd /\ fd_sets fd = [d] /\ ds_type d = DStr "tabulated nk" /\
    ds_data d = DArr (ND2 3 (rounded8 (shown disp (beside (shown disp (table_of n)) (shown disp (table_of k)))))).
Proof.
  intros W disp path m c b b' n k fs ic rii fk dk yl HW Hp Hh [meta [Hm Hc]] Hu Ht Fn Fk Hl Hk Hs Pf Pd.
  destruct (together_read W disp path m meta c b b' n k fs ic rii fk dk yl) as (ops & d1 & fm & A & B & C & _); try assumption.
  eexists ops, _, _. split; [exact A|]. split; [exact C|]. split; [reflexivity|]. split; [reflexivity|]. exact B.
Qed.

Lemma C41_material_cycle_l : forall W disp path m m' c b b' n k,
  shows W disp -> text_file path -> header_ready W m -> comment_of m c -> unix_text c ->
  tables_of m b b' n k -> float_table n -> float_table k -> (2 <= length n <= 333)%nat -> length k = length n ->
  share_grid disp b b' n k -> file_cycle W path m m' ->
  exists b1 b1' n' k', tables_of m' b1 b1' n' k' /\ near_table (2 / 10 ^ 8) n n' /\ near_values (2 / 10 ^ 8) k k' /\
    map fst k' = map fst n' /\ (d_type b <> "" -> d_type b1 = d_type b /\ d_type b1' = d_type b) /\
    (d_unit b <> "" -> d_unit b1 = d_unit b /\ d_unit b1' = d_unit b).
Proof.
  intros W disp path m m' c b b' n k HW Hp Hh [meta [Hm Hc]] Hu Ht Fn Fk Hl Hk Hs [fk dk yl fs ic rii ops Pf Pd HS HL].
  destruct (together_read W disp path m meta c b b' n k fs ic rii fk dk yl) as (ops' & d1 & fm & A & B & C & _); try assumption.
  rewrite HS in A. injection A as <-.
  destruct (load_ok _ _ _ _ C HL) as (meta' & p & L1 & L2 & L3). cbn [fd_sets process_datasets] in L2. inv_bind L2 p' L4. injection L2 as ->.
  set (data := rounded8 _) in *.
  assert (length data = length n) as HD.
  { unfold data, rounded8. rewrite map_length, shown_rows.
    assert (length (shown disp (table_of n)) = length (shown disp (table_of k))) as HL2 by (rewrite !shown_rows; unfold table_of; rewrite !map_length; now symmetry).
    rewrite (proj2 (beside_length 2 _ _ HL2 (shown_length disp _ 2 (table_of_length n)))), shown_rows. unfold table_of. now rewrite map_length. }
  destruct (process_nk d1 _ _ data p B ltac:(lia) L4) as (b1 & b2 & N1 & N2 & N3 & N4 & N5 & N6 & N7 & N8).
  unfold complete in L3. rewrite N1, N2, N3, N4 in L3. cbn [bind] in L3. injection L3 as <-.
  exists b1, b2, (pair_cols 0 1 data), (pair_cols 0 2 data). split; [repeat split|].
  destruct (together_near W disp HW n k Fn Fk Hk) as [Q1 Q2]. split; [exact Q1|]. split; [exact Q2|].
  split; [unfold pair_cols; rewrite !map_map; reflexivity|]. rewrite N7, N8, N5, N6. split.
  - destruct (d_type b) as [|a r]; [congruence|]. intros _. now split.
  - destruct (d_unit b) as [|a r]; [congruence|]. intros _. now split.
Qed.

Lemma C41_exact_l : forall W disp path m c b b' n k fs ic rii fk dk yl,
  shows W disp -> text_file path -> header_ready W m -> comment_of m c -> unix_text c ->
  tables_of m b b' n k -> float_table n -> float_table k -> (2 <= length n <= 333)%nat ->
  map fst k = map fst n -> Forall (fun p => fst p <> NaN) n -> d_unit b = d_unit b' -> d_type b = d_type b' ->
  Forall decimal8 (concat (table_of n) ++ concat (table_of k)) ->
  (forall all x, incl all (concat (table_of n) ++ concat (table_of k)) -> In x all -> disp all x = x) ->
  Permutation FILE_META_DATA_KEYS fk -> Permutation DATASET_META_DATA_KEYS dk ->
  exists ops fd d, save_material W path m fs ic rii = (Ok tt, ops) /\
    read_path fk dk yl (fs_run fs ops) path = Ok fd /\ fd_sets fd = [d] /\ ds_type d = DStr "tabulated nk" /\
    ds_data d = DArr (ND2 3 (map (fun p => [fst (fst p); snd (fst p); snd (snd p)]) (combine n k))).
Proof.
  intros W disp path m c b b' n k fs ic rii fk dk yl HW Hp Hh Hc Hu Ht Fn Fk Hl Hg HN U T HD HE Pf Pd.
  assert (length k = length n) as Hk by (rewrite <- (map_length fst k), Hg; apply map_length).
  assert (forall t, incl (concat t) (concat (table_of n) ++ concat (table_of k)) -> shown disp t = t) as Hsh.
  { intros t Ht'. unfold shown. apply map_id_in. intros r Hr. apply map_id_in. intros x Hx. apply HE; [exact Ht'|]. apply in_concat. now exists r. }
  assert (shown disp (table_of n) = table_of n) as Sn by (apply Hsh; intros x Hx; apply in_app_iff; now left).
  assert (shown disp (table_of k) = table_of k) as Sk by (apply Hsh; intros x Hx; apply in_app_iff; now right).
  assert (share_grid disp b b' n k) as Hs.
  { split; [|now split]. rewrite Sn, Sk. unfold grid, table_of. rewrite !map_map. cbn [nth]. 
    assert (Forall (fun x => x <> NaN) (map fst k)) as HN' by (rewrite Hg; now apply Forall_map).
    change (map (fun x : xr * xr => fst x) n) with (map fst n). rewrite <- Hg. clear -HN'. induction k as [|x k IH]; cbn; [constructor|].
    cbn in HN'. constructor; [split; [reflexivity|now apply Forall_inv in HN']|]. apply IH. now apply Forall_inv_tail in HN'. }
  destruct (C41_tables_read_back_l W disp path m c b b' n k fs ic rii fk dk yl) as (ops & fd & d & A & B & C & D & E); try assumption.
  exists ops, fd, d. split; [exact A|]. split; [exact B|]. split; [exact C|]. split; [exact D|]. rewrite E. do 2 f_equal.
  rewrite Sn, Sk. assert (beside (table_of n) (table_of k) = map (fun p => [fst (fst p); snd (fst p); snd (snd p)]) (combine n k)) as EB
    by (unfold table_of; now rewrite beside_map).
  assert (incl (concat (beside (table_of n) (table_of k))) (concat (table_of n) ++ concat (table_of k))) as HI.
  { rewrite EB. intros x Hx. apply in_concat in Hx. destruct Hx as [r [Hr Hx]]. apply in_map_iff in Hr. destruct Hr as [[p q] [<- Hpq]].
    pose proof (table_in n p (in_combine_l _ _ _ _ Hpq)). pose proof (table_in k q (in_combine_r _ _ _ _ Hpq)).
    cbn in Hx. apply in_app_iff. intuition (subst; tauto). }
  rewrite (Hsh _ HI). rewrite <- EB. unfold rounded8. apply map_id_in. intros r Hr. apply map_id_in. intros x Hx. apply round8_exact.
  apply (proj1 (Forall_forall _ _) HD), HI, in_concat. now exists r.
Qed.

Lemma process_nk_total d st un l q : ds_data d = DArr (ND2 3 (map (fun p => [fst (fst p); snd (fst p); snd (snd p)]) (combine (xrows l) (xrows q)))) ->
  map fst q = map fst l -> (2 <= length l)%nat -> NoDup (map fst l) -> (exists canon, documented (lower st) (lower un) canon) -> st <> "" -> un <> "" ->
  exists p b1 b2, process_dataset (header_fset d st un "tabulated nk") (mkP "" None None None "wavelength" "nanometer") = Ok p /\
    p_name p = "nk" /\ p_complex p = None /\ p_real p = Some (DInterp b1 (xrows l)) /\ p_imag p = Some (DInterp b2 (xrows q)) /\
    d_type b1 = st /\ d_unit b1 = un /\ d_type b2 = st /\ d_unit b2 = un /\ p_stype p = st /\ p_unit p = un.
Proof.
  intros Hd Hg Hl Hn [canon Hc] Hs Hu.
  assert (length q = length l) as Hq by (rewrite <- (map_length fst q), Hg; apply map_length).
  unfold process_dataset. cbn [header_fset ds_type ds_data ds_stype ds_unit]. rewrite Hd.
  change (dval_split (DStr "tabulated nk")) with (Ok ["tabulated"; "nk"]). cbn [bind dval_tab].
  change (String.eqb "tabulated" "tabulated") with true. cbv iota. match goal with |- context [str_table_to_numeric ?x] => change (str_table_to_numeric x) with (Ok (match x with TArr a => a | _ => ND1 [] end)) end.
  cbn [bind].
  assert (dval_true (DStr st) = true) as -> by (destruct st; [congruence|reflexivity]).
  assert (dval_true (DStr un) = true) as -> by (destruct un; [congruence|reflexivity]).
  cbn [dval_str bind]. unfold process_table. change (String.eqb "nk" "nk") with true. cbv iota.
  cbn [set_defaults p_stype p_unit take_cols Nat.ltb Nat.leb bind].
  set (data := map _ (combine (xrows l) (xrows q))).
  assert (pair_cols 0 1 data = xrows l) as ->.
  { unfold data, pair_cols. rewrite map_map. cbn [col nth]. clear -Hq. revert q Hq. induction l as [|a l IH]; intros [|b q] Hq; try discriminate; [reflexivity|].
    cbn. f_equal. apply IH. now injection Hq. }
  assert (pair_cols 0 2 data = xrows q) as ->.
  { unfold data, pair_cols. rewrite map_map. cbn [col nth]. clear -Hq Hg. revert q Hq Hg. induction l as [|a l IH]; intros [|b q] Hq Hg; try discriminate; [reflexivity|].
    cbn in Hg |- *. injection Hg as E Hg. rewrite E. f_equal. apply IH; [now injection Hq|exact Hg]. }
  assert (forall l0 : list (R * R), (2 <= length l0)%nat -> NoDup (map fst l0) -> exists b, spec_data_from_pairs (xrows l0) st un = Ok (DInterp b (xrows l0)) /\ d_type b = st /\ d_unit b = un) as G.
  { intros l0 H0 N0. destruct (C13_accepts_l l0 st un canon H0 N0 Hc) as (d0 & mn & mx & E & _).
    assert (spec_data_from_pairs (xrows l0) st un = Ok d0) as E'.
    { rewrite <- E. destruct l0 as [|x [|y l0]]; cbn in H0; try lia. reflexivity. }
    destruct (pairs_ok_2 _ _ _ _ ltac:(unfold xrows; rewrite map_length; exact H0) E') as (b & -> & T & U). exists b. now split. }
  destruct (G l Hl Hn) as (b1 & -> & T1 & U1). destruct (G q ltac:(lia) ltac:(now rewrite Hg)) as (b2 & -> & T2 & U2). cbn [bind].
  eexists _, b1, b2. split; [reflexivity|]. repeat split; assumption.
Qed.

Lemma C41_cycle_exact_l : forall W disp path m c b b' l q fs ic rii fk dk yl canon,
  shows W disp -> text_file path -> header_ready W m -> comment_of m c -> unix_text c ->
  tables_of m b b' (xrows l) (xrows q) -> float_table (xrows l) -> float_table (xrows q) -> (2 <= length l <= 333)%nat ->
  map fst q = map fst l -> NoDup (map fst l) -> d_unit b = d_unit b' -> d_type b = d_type b' ->
  documented (lower (d_type b)) (lower (d_unit b)) canon -> d_type b <> "" -> d_unit b <> "" ->
  Forall decimal8 (concat (table_of (xrows l)) ++ concat (table_of (xrows q))) ->
  (forall all x, incl all (concat (table_of (xrows l)) ++ concat (table_of (xrows q))) -> In x all -> disp all x = x) ->
  Permutation FILE_META_DATA_KEYS fk -> Permutation DATASET_META_DATA_KEYS dk ->
  exists ops m' b1 b1', save_material W path m fs ic rii = (Ok tt, ops) /\
    mk_material (read_path fk dk yl (fs_run fs ops)) [("file_path", PStr path)] = Ok m' /\
    tables_of m' b1 b1' (xrows l) (xrows q) /\
    d_type b1 = d_type b /\ d_unit b1 = d_unit b /\ d_type b1' = d_type b /\ d_unit b1' = d_unit b /\
    m_stype m' = d_type b /\ m_unit m' = d_unit b.
Proof.
  intros W disp path m c b b' l q fs ic rii fk dk yl canon HW Hp Hh Hc Hu Ht Fn Fk Hl Hg HN U T Hd Ht0 Hu0 HD HE Pf Pd.
  assert (map fst (xrows q) = map fst (xrows l)) as Hg'.
  { unfold xrows. rewrite !map_map. cbn [fst]. change (map (fun x : R * R => Fin (fst x)) q) with (map (fun x : R * R => (fun r => Fin r) (fst x)) q).
    rewrite <- !(map_map fst (fun r => Fin r)). now rewrite Hg. }
  destruct (C41_exact_l W disp path m c b b' (xrows l) (xrows q) fs ic rii fk dk yl) as (ops & fd & d & A & B & C & D & E); try assumption.
  { unfold xrows. now rewrite map_length. }
  { apply Forall_map, Forall_forall. intros x _ X. discriminate X. }
  destruct Hc as [meta [Hm Hc]].
  assert (share_grid disp b b' (xrows l) (xrows q)) as Hs.
  { assert (forall t, incl (concat t) (concat (table_of (xrows l)) ++ concat (table_of (xrows q))) -> shown disp t = t) as Hsh.
    { intros t Ht'. unfold shown. apply map_id_in. intros r Hr. apply map_id_in. intros x Hx. apply HE; [exact Ht'|]. apply in_concat. now exists r. }
    split; [|now split]. rewrite !Hsh by (intros x Hx; apply in_app_iff; tauto).
    unfold grid, table_of. rewrite !map_map. cbn [nth]. change (map (fun x => fst x) (xrows l)) with (map fst (xrows l)). rewrite <- Hg'.
    clear. induction q as [|x q IH]; cbn; constructor; [split; [reflexivity|discriminate]|exact IH]. }
  assert ((2 <= length (xrows l) <= 333)%nat) as Hl' by (unfold xrows; now rewrite map_length).
  assert (length (xrows q) = length (xrows l)) as Hq' by (rewrite <- (map_length fst (xrows q)), Hg'; apply map_length).
  destruct (together_read W disp path m meta c b b' (xrows l) (xrows q) fs ic rii fk dk yl) as (ops' & d1 & fm & A' & B' & C' & K); try assumption.
  rewrite A in A'. injection A' as <-. rewrite B in C'. injection C' as ->. cbn [fd_sets] in C. injection C as <-. cbn [header_fset ds_data] in E.
  destruct (process_nk_total d1 (d_type b) (d_unit b) l q) as (p & b1 & b2 & P0 & P1 & P2 & P3 & P4 & P5 & P6 & P7 & P8 & P9 & P10); try assumption; try lia; [now exists canon|].
  destruct (copy_meta_total fm K) as [meta' HM].
  exists ops, (mkMat (Some meta') "nk" (DInterp b1 (xrows l)) (DInterp b2 (xrows q)) None (p_stype p) (p_unit p)), b1, b2.
  split; [exact A|]. split; [|split; [repeat split|repeat split; assumption]].
  rewrite load_material, B. cbn [bind fd_meta fd_sets process_datasets]. rewrite HM, P0. cbn [bind]. unfold complete.
  rewrite P1, P2, P3, P4. reflexivity.
Qed.

Lemma C41_k_lost_l : forall W disp path m m' c b n,
  shows W disp -> text_file path -> header_ready W m -> comment_of m c -> unix_text c ->
  m_name m = "nk" -> m_complex m = None -> m_real m = DInterp b n -> float_table n -> (2 <= length n <= 500)%nat ->
  ((exists b' k, m_imag m = DInterp b' k /\ float_table k /\ length k = length n /\ ~ share_grid disp b b' n k) \/
   (exists b' v, m_imag m = DConst b' v) \/ (exists b' kd ps, m_imag m = DModel b' kd ps)) ->
  file_cycle W path m m' ->
  exists b1 n', m_real m' = DInterp b1 n' /\ near_table (2 / 10 ^ 8) n n' /\ constant_default (ORe (Fin 0)) = Ok (m_imag m').
Proof.
  intros W disp path m m' c b n HW Hp Hh [meta [Hm Hc]] Hu Hnm Hcx Hr Fn Hl Hi [fk dk yl fs ic rii ops Pf Pd HS HL].
  assert (n <> []) as Hn by (intros ->; cbn in Hl; lia).
  assert (exists rest, prepare_file_dict W m = Ok (kept meta, tab_dict W b n "tabulated n" :: rest)) as [rest EP].
  { destruct Hi as [(b' & k & Hi & Fk & Hk & Hs)|Hi].
    - rewrite (prepare_tables W m meta b b' n k) by (try assumption; now repeat split).
      rewrite (proj2 (collapse_share W disp HW b b' n k Fn Fk Hn Hk ltac:(lia)) Hs). eexists; reflexivity.
    - assert (exists d, part_dict W "nk" "imag" (m_imag m) = Ok d) as [d Hd].
      { destruct Hi as [(b' & v & ->)|(b' & kd & ps & ->)]; eexists; reflexivity. }
      exists [d]. apply (prepare_no_table W disp HW); try assumption; try lia.
      intros bb rows E. rewrite E in Hi. destruct Hi as [(? & ? & X)|(? & ? & ? & X)]; discriminate. }
  destruct (apart_read W disp path m meta c b n rest fs ic rii fk dk yl) as (ops' & d1 & fm & A & B & C & _); try assumption.
  rewrite HS in A. injection A as <-.
  destruct (load_ok _ _ _ _ C HL) as (meta' & p & L1 & L2 & L3). cbn [fd_sets process_datasets] in L2. inv_bind L2 p' L4. injection L2 as ->.
  set (data := rounded8 _) in *.
  assert (length data = length n) as HD by (unfold data, rounded8, shown; rewrite !map_length; unfold table_of; now rewrite map_length).
  destruct (process_n d1 _ _ data p B ltac:(lia) L4) as (b1 & N1 & N2 & N3 & N4).
  unfold complete in L3. rewrite N1, N2, N3, N4 in L3. cbn [bind] in L3. inv_bind L3 i Ei. injection L3 as <-.
  exists b1, (pair_cols 0 1 data). split; [reflexivity|]. split; [apply (apart_near W disp HW n Fn)|exact Ei].
Qed.

(** a table in metres with a grid of 1 nm *)
Definition fine_n : list (R * R) := [(401 / 10 ^ 9, 1.5); (402 / 10 ^ 9, 1.4)].
Definition fine_read : list (R * R) := [(40 / 10 ^ 8, 1.5); (40 / 10 ^ 8, 1.4)].
Lemma near_int r z : Rabs (r * 10 ^ 8 - IZR z) < / 2 -> round_dec 8 r = IZR z / 10 ^ 8.
Proof. intros H. unfold round_dec. f_equal. f_equal. now apply Znearest_imp. Qed.
Lemma fine_round : round_dec 8 (401 / 10 ^ 9) = 40 / 10 ^ 8 /\ round_dec 8 (402 / 10 ^ 9) = 40 / 10 ^ 8 /\
  round_dec 8 1.5 = 1.5 /\ round_dec 8 1.4 = 1.4.
Proof.
  split; [apply (near_int _ 40); rewrite Rabs_right; lra|]. split; [apply (near_int _ 40); rewrite Rabs_right; lra|].
  split; [apply (round_dec_exact 8 _ 150000000); lra|apply (round_dec_exact 8 _ 140000000); lra].
Qed.
Lemma sample_round all r : Rabs r < 10 ^ 7 -> sample_disp all (Fin r) = Fin (round_dec 8 r).
Proof. intros H. cbn [sample_disp]. destruct (Rlt_dec (Rabs r) (10 ^ 7)); [reflexivity|contradiction]. Qed.
Lemma fine_shown : shown sample_disp (table_of (xrows fine_n)) = table_of (xrows fine_read).
Proof.
  destruct fine_round as (F1 & F2 & F3 & F4).
  unfold shown. generalize (concat (table_of (xrows fine_n))). intros all. cbn [fine_n fine_read xrows table_of map fst snd].
  rewrite !sample_round by (rewrite Rabs_right; lra). now rewrite F1, F2, F3, F4.
Qed.
Lemma fine_data : rounded8 (shown sample_disp (beside (shown sample_disp (table_of (xrows fine_n))) (shown sample_disp (table_of (xrows fine_n))))) =
  [[Fin (40 / 10 ^ 8); Fin 1.5; Fin 1.5]; [Fin (40 / 10 ^ 8); Fin 1.4; Fin 1.4]].
Proof.
  rewrite fine_shown. unfold shown. match goal with |- context [sample_disp ?a] => generalize a end. intros all.
  cbn [fine_read xrows table_of map fst snd beside nth app rounded8]. rewrite !sample_round by (rewrite Rabs_right; lra). cbn [map xround].
  rewrite !round_dec_idem. rewrite (round_dec_exact 8 (40 / 10 ^ 8) 40) by lra.
  destruct fine_round as (_ & _ & F3 & F4). now rewrite F3, F4.
Qed.

Lemma C41_metre_grid_refuted_l : exists W disp m b l,
  shows W disp /\ mk_interpolation (xrows l) "wavelength" "m" = Ok (DInterp b (xrows l)) /\
  tables_of m b b (xrows l) (xrows l) /\ header_ready W m /\ comment_of m "" /\
  forall path fs ic rii fk dk yl, text_file path ->
    Permutation FILE_META_DATA_KEYS fk -> Permutation DATASET_META_DATA_KEYS dk ->
    exists ops, save_material W path m fs ic rii = (Ok tt, ops) /\
      mk_material (read_path fk dk yl (fs_run fs ops)) [("file_path", PStr path)] = Raise ValueError.
Proof.
  assert (NoDup (map fst fine_n)) as ND by (cbn; constructor; [cbn; intros [H|[]]; lra|constructor; [cbn; tauto|constructor]]).
  destruct (C13_accepts_l fine_n "wavelength" "m" "m" ltac:(cbn; lia) ND) as (d & mn & mx & E & _).
  { exists ["meter"; "metre"; "m"]. cbn; auto 10. }
  assert (exists b, d = DInterp b (xrows fine_n) /\ d_type b = "wavelength" /\ d_unit b = "m") as (b & -> & T & U).
  { pose proof E as E'. unfold mk_interpolation in E'. inv_bind E' a1 A1. inv_bind E' a2 A2. inv_bind E' b A3. inv_bind E' u A4. injection E' as <-.
    exists b. split; [reflexivity|]. unfold mk_base in A3. inv_bind A3 s A5. injection A3 as <-. now split. }
  set (m := mkMat (Some default_meta) "nk" (DInterp b (xrows fine_n)) (DInterp b (xrows fine_n)) None "wavelength" "m").
  assert (header_ready sample_env m) as HR.
  { split.
    - cbn [m m_meta]. intros meta key v Em. injection Em as <-. unfold header_keys. cbn [In].
      intros [<-|[<-|[<-|[<-|[<-|[]]]]]] Ev; cbn [default_meta dget String.eqb Ascii.eqb Bool.eqb] in Ev; injection Ev as <-; cbn [format_val]; apply header_value_dec; reflexivity.
    - cbn [m m_real]. intros b0 rows Em. injection Em as <- _. rewrite T, U. split; apply header_value_dec; reflexivity. }
  assert (tables_of m b b (xrows fine_n) (xrows fine_n)) as HT by repeat split.
  exists sample_env, sample_disp, m, b, fine_n. split; [apply sample_shows|]. split; [exact E|]. split; [exact HT|]. split; [exact HR|].
  split; [exists default_meta; split; reflexivity|].
  intros path fs ic rii fk dk yl Hp Pf Pd.
  assert (float_table (xrows fine_n)) as HF.
  { assert (10 ^ 3 <= 10 ^ 307) as P by (apply Rle_pow; [lra|lia]).
    (constructor; [|constructor; [|constructor]]); split; unfold float_range, below; cbn [fst snd xrows map]; rewrite Rabs_right; lra. }
  destruct (together_read sample_env sample_disp path m default_meta "" b b (xrows fine_n) (xrows fine_n) fs ic rii fk dk yl) as (ops & d1 & fm & A & B & C & K);
    try assumption; try reflexivity; [apply sample_shows|intros c []|cbn; lia| |].
  { split; [|now split]. rewrite fine_shown. cbn. repeat constructor; discriminate. }
  exists ops. split; [exact A|]. rewrite load_material, C. cbn [bind fd_meta fd_sets]. destruct (copy_meta_total fm K) as [meta' ->]. cbn [bind process_datasets].
  assert (process_dataset (header_fset d1 (d_type b) (d_unit b) "tabulated nk") (mkP "" None None None "wavelength" "nanometer") = Raise ValueError) as ->; [|reflexivity].
  unfold process_dataset. cbn [header_fset ds_type ds_data ds_stype ds_unit]. rewrite B, fine_data, T, U.
  pose proof (C13_rejects_l fine_read "wavelength" "m") as RJ.
  assert (mk_interpolation (xrows fine_read) "wavelength" "m" = Raise ValueError) as RJ'.
  { apply RJ. right. cbn. intros N. inversion N as [|x l N1 N2]. apply N1. now left. }
  change (spec_data_from_pairs (xrows fine_read) "wavelength" "m" = Raise ValueError) in RJ'.
  change (dval_split (DStr "tabulated nk")) with (Ok ["tabulated"; "nk"]). cbn [bind dval_tab].
  change (String.eqb "tabulated" "tabulated") with true. cbv iota.
  match goal with |- context [str_table_to_numeric ?x] => change (str_table_to_numeric x) with (Ok (match x with TArr a => a | _ => ND1 [] end)) end.
  cbn [bind dval_true dval_str]. unfold process_table. change (String.eqb "nk" "nk") with true. cbv iota.
  cbn [set_defaults p_stype p_unit take_cols Nat.ltb Nat.leb bind pair_cols map col nth].
  change ([(Fin (40 / 10 ^ 8), Fin 1.5); (Fin (40 / 10 ^ 8), Fin 1.4)]) with (xrows fine_read). rewrite RJ'. reflexivity.
Qed.

Lemma C41_one_row_refuted_l : forall path delim fs st un dt row fk dk yl,
  (named path ".txt" /\ delim = TAB) \/ (named path ".csv" /\ delim = ",") -> header_value st -> header_value un -> In dt ["tabulated n"; "tabulated nk"] -> row <> [] ->
  Permutation FILE_META_DATA_KEYS fk -> Permutation DATASET_META_DATA_KEYS dk ->
  dget fs path = Some (savetxt delim
    ("SPECTRUMTYPE: " ++ st ++ NL ++ "UNIT: " ++ un ++ NL ++ "DATATYPE: " ++ dt ++ NL)%string (ND2 (length row) [row])) ->
  (exists fd d, read_path fk dk yl fs path = Ok fd /\ fd_sets fd = [d] /\ ds_type d = DStr dt /\ ds_data d = DArr (ND1 (map (xround 8) row))) /\
  mk_material (read_path fk dk yl fs) [("file_path", PStr path)] = Raise IndexError.
Proof.
  intros path delim fs st un dt row fk dk yl Hp Hst Hun Hdt Hrow Pf Pd Hfs. set (W := sample_env).
  assert (delim = delim_of (splitext path)) as ->.
  { destruct Hp as [[H ->]|[H ->]]; [rewrite (named_ext path ".txt" ltac:(cbn; tauto) H)|rewrite (named_ext path ".csv" ltac:(cbn; tauto) H)]; reflexivity. }
  assert (text_file path) as Hp' by (destruct Hp as [[H _]|[H _]]; [now left|now right]). clear Hp. rename Hp' into Hp.
  apply text_file_ext in Hp.
  assert (("SPECTRUMTYPE: " ++ st ++ NL ++ "UNIT: " ++ un ++ NL ++ "DATATYPE: " ++ dt ++ NL)%string = lines_text (header_list W [] st un dt)) as HIL
    by exact (header_is_lines W [] st un dt).
  rewrite HIL in Hfs.
  assert (header_value dt) as Hd by (apply dt_one_line; cbn in *; tauto).
  assert (header_list W [] st un dt <> []) as Hne by discriminate.
  rewrite savetxt_lines in Hfs; [|exact Hne|].
  2:{ apply header_list_one_line; [intros key v _ E; discriminate E|apply Hst|apply Hun|apply Hd]. }
  destruct (read_saved W fk dk Pf Pd yl fs path (splitext path) "" [] st un dt (length row) [row]) as (m1 & d1 & multi1 & E1 & E2 & E3); try assumption; try reflexivity.
  - discriminate.
  - destruct row; [congruence|cbn; lia].
  - constructor; [reflexivity|constructor].
  - intros c [].
  - intros key v _ E. discriminate E.
  - cbn in Hdt. destruct Hdt as [<-|[<-|[]]]; discriminate.
  - assert (ds_data d1 = DArr (ND1 (map (xround 8) row))) as ED by (rewrite E2; reflexivity).
    split; [eexists _, _; split; [exact E3|]; split; [reflexivity|]; split; [reflexivity|exact ED]|].
    rewrite load_material, E3. cbn [bind fd_meta fd_sets].
    match goal with |- context [copy_meta ?fm] => destruct (copy_meta_total fm) as [meta' ->] end.
    { intros key Hkey. apply dset_keeps, put_keeps. change (comment_part "") with (@nil string) in E1. cbn [fold_left] in E1. injection E1 as <- _ _. exact (reader_keys fk path key Pf Hkey). }
    cbn [bind process_datasets]. unfold process_dataset. cbn [header_fset ds_type ds_data ds_stype ds_unit]. rewrite ED.
    assert (dval_split (DStr dt) = Ok ["tabulated"; if String.eqb dt "tabulated n" then "n" else "nk"]) as -> by (cbn in Hdt; destruct Hdt as [<-|[<-|[]]]; reflexivity).
    reflexivity.
Qed.

Lemma C42_merged_or_apart_l : forall W disp path m meta b b' n k,
  shows W disp -> m_meta m = Some meta -> tables_of m b b' n k -> float_table n -> float_table k ->
  (1 <= length n <= 500)%nat -> length k = length n ->
  exists w, mk_writer W path m = Ok w /\
    (share_grid disp b b' n k -> (length n <= 333)%nat -> exists s, w_sets w = [s] /\
       holds_table s "tabulated nk" (d_unit b) (d_type b) 3 (shown disp (beside (shown disp (table_of n)) (shown disp (table_of k))))) /\
    (~ share_grid disp b b' n k -> exists s t, w_sets w = [s; t] /\
       holds_table s "tabulated n" (d_unit b) (d_type b) 2 (shown disp (table_of n)) /\
       holds_table t "tabulated k" (d_unit b') (d_type b') 2 (shown disp (table_of k))).
Proof.
  intros W disp path m meta b b' n k HW Hm Ht Fn Fk Hl Hk.
  assert (n <> []) as Hn by (intros ->; cbn in Hl; lia).
  destruct (collapse_share W disp HW b b' n k Fn Fk Hn Hk ltac:(lia)) as [C1 C2].
  unfold mk_writer. rewrite (prepare_tables W m meta b b' n k Ht Hm).
  assert (share_grid disp b b' n k \/ ~ share_grid disp b b' n k) as [D|D] by apply Classical_Prop.classic.
  - rewrite (C1 D). cbn [bind fst snd]. eexists. split; [reflexivity|]. cbn [w_sets]. split; [|contradiction].
    intros _ H. eexists. split; [reflexivity|]. unfold holds_table. split; [reflexivity|]. split; [reflexivity|]. split; [reflexivity|].
    eexists. split; [reflexivity|]. apply (together_parse W disp HW); assumption.
  - rewrite (C2 D). cbn [bind fst snd]. eexists. split; [reflexivity|]. cbn [w_sets]. split; [contradiction|].
    intros _. eexists _, _. split; [reflexivity|].
    assert (k <> []) as Hk0 by (intros ->; destruct n; [congruence|discriminate]).
    split; (split; [reflexivity|]; split; [reflexivity|]; split; [reflexivity|]; eexists; split; [reflexivity|]; apply (pairs_parse W disp HW); try assumption; lia).
Qed.

Lemma C42_merged_iff_l : forall W disp path m meta b b' n k w,
  shows W disp -> m_meta m = Some meta -> tables_of m b b' n k -> float_table n -> float_table k ->
  (1 <= length n <= 500)%nat -> length k = length n -> mk_writer W path m = Ok w ->
  (length (w_sets w) = 1%nat <-> share_grid disp b b' n k).
Proof.
  intros W disp path m meta b b' n k w HW Hm Ht Fn Fk Hl Hk Hw.
  assert (n <> []) as Hn by (intros ->; cbn in Hl; lia).
  destruct (collapse_share W disp HW b b' n k Fn Fk Hn Hk ltac:(lia)) as [C1 C2].
  unfold mk_writer in Hw. rewrite (prepare_tables W m meta b b' n k Ht Hm) in Hw.
  split; intros H; [|rewrite (C1 H) in Hw; cbn [bind] in Hw; injection Hw as <-; reflexivity].
  destruct (Classical_Prop.classic (share_grid disp b b' n k)) as [D|D]; [exact D|].
  rewrite (C2 D) in Hw. cbn [bind] in Hw. injection Hw as <-. discriminate H.
Qed.

Lemma C42_different_length_l : forall W disp path m meta b b' n k,
  shows W disp -> m_meta m = Some meta -> tables_of m b b' n k -> float_table n -> float_table k ->
  (1 <= length n <= 500)%nat -> (1 <= length k <= 500)%nat -> length k <> length n ->
  match ragged_eq W with
  | Ok false => exists w s t, mk_writer W path m = Ok w /\ w_sets w = [s; t] /\
       holds_table s "tabulated n" (d_unit b) (d_type b) 2 (shown disp (table_of n)) /\
       holds_table t "tabulated k" (d_unit b') (d_type b') 2 (shown disp (table_of k))
  | Ok true => True
  | Raise e => mk_writer W path m = Raise e
  end.
Proof.
  intros W disp path m meta b b' n k HW Hm Ht Fn Fk Hl Hl' Hk.
  assert (n <> []) as Hn by (intros ->; cbn in Hl; lia). assert (k <> []) as Hk0 by (intros ->; cbn in Hl'; lia).
  unfold mk_writer. rewrite (prepare_tables W m meta b b' n k Ht Hm).
  rewrite (collapse_tables W disp HW) by (try assumption; lia). unfold grid_eq.
  assert (Nat.eqb (length (grid (shown disp (table_of n)))) (length (grid (shown disp (table_of k)))) = false) as ->.
  { apply Nat.eqb_neq. unfold grid. rewrite !map_length, !shown_rows. unfold table_of. rewrite !map_length. lia. }
  destruct (ragged_eq W) as [[|]|e]; [exact I| |reflexivity]. cbn [bind negb orb fst snd].
  eexists _, _, _. split; [reflexivity|]. split; [reflexivity|].
  split; (split; [reflexivity|]; split; [reflexivity|]; split; [reflexivity|]; eexists; split; [reflexivity|]; apply (pairs_parse W disp HW); try assumption; lia).
Qed.

Lemma C42_k_no_table_l : forall W disp path m meta b n,
  shows W disp -> m_meta m = Some meta -> m_name m = "nk" -> m_complex m = None -> m_real m = DInterp b n ->
  float_table n -> (1 <= length n <= 500)%nat ->
  ((exists b' v, m_imag m = DConst b' v) \/ (exists b' kd ps, m_imag m = DModel b' kd ps)) ->
  exists w s t, mk_writer W path m = Ok w /\ w_sets w = [s; t] /\
    holds_table s "tabulated n" (d_unit b) (d_type b) 2 (shown disp (table_of n)) /\
    dget t "Unit" = Some (DStr (d_unit (dbase_of (m_imag m)))) /\ dget t "SpectrumType" = Some (DStr (d_type (dbase_of (m_imag m)))) /\
    (forall b' v, m_imag m = DConst b' v -> dget t "DataType" = Some (DStr "constant k")) /\
    (forall b' kd ps, m_imag m = DModel b' kd ps -> dget t "DataType" = Some (DStr ("model " ++ model_name kd)%string) /\
       dget t "Parameters" = Some (DStr (numeric_to_string_table W (ND1 ps)))).
Proof.
  intros W disp path m meta b n HW Hm Hnm Hcx Hr Fn Hl Hi.
  assert (n <> []) as Hn by (intros ->; cbn in Hl; lia).
  assert (exists d, part_dict W "nk" "imag" (m_imag m) = Ok d) as [d Hd].
  { destruct Hi as [(b' & v & ->)|(b' & kd & ps & ->)]; eexists; reflexivity. }
  exists (mkWriter path (splitext path) (kept meta) [tab_dict W b n "tabulated n"; d]), (tab_dict W b n "tabulated n"), d.
  unfold mk_writer. rewrite (prepare_no_table W disp HW m meta b n d); try assumption; try lia;
    [|intros bb rows E; rewrite E in Hi; destruct Hi as [(? & ? & X)|(? & ? & ? & X)]; discriminate].
  split; [reflexivity|]. split; [reflexivity|].
  split; [split; [reflexivity|]; split; [reflexivity|]; split; [reflexivity|]; eexists; split; [reflexivity|]; apply (pairs_parse W disp HW); try assumption; lia|].
  destruct Hi as [(b' & v & Hi)|(b' & kd & ps & Hi)]; rewrite Hi in *; injection Hd as <-.
  - split; [reflexivity|]. split; [reflexivity|]. split; [reflexivity|intros; discriminate].
  - split; [reflexivity|]. split; [reflexivity|]. split; [intros; discriminate|]. intros b0 k0 p0 E. injection E as <- <- <-. split; reflexivity.
Qed.

Lemma C69_large_tables_raise_l : forall W disp path m meta b b' n k fs ic rii,
  shows W disp -> m_meta m = Some meta -> tables_of m b b' n k -> float_table n -> float_table k ->
  (500 < length n \/ (1 <= length n <= 500 /\ 500 < length k))%nat ->
  save_material W path m fs ic rii = (Raise ValueError, []).
Proof.
  intros W disp path m meta b b' n k fs ic rii HW Hm Ht Fn Fk Hl.
  unfold save_material, mk_writer. rewrite (prepare_tables W m meta b b' n k Ht Hm).
  assert (collapse_datasets W (sets_apart W b b' n k) = Raise ValueError) as ->; [|reflexivity].
  unfold collapse_datasets, sets_apart. cbn [find_tables]. change (dlookup (tab_dict W b n "tabulated n") "DataType") with (Ok (DStr "tabulated n")).
  change (dlookup (tab_dict W b' k "tabulated k") "DataType") with (Ok (DStr "tabulated k")). cbn [bind].
  change (dstr_eqb (DStr "tabulated n") "tabulated n") with true. change (dstr_eqb (DStr "tabulated n") "tabulated k") with false.
  change (dstr_eqb (DStr "tabulated k") "tabulated n") with false. change (dstr_eqb (DStr "tabulated k") "tabulated k") with true. cbv iota.
  change (dlookup (tab_dict W b n "tabulated n") "Data") with (Ok (DStr (numeric_to_string_table W (pairs_nd n)))).
  change (dlookup (tab_dict W b' k "tabulated k") "Data") with (Ok (DStr (numeric_to_string_table W (pairs_nd k)))).
  cbn [bind dval_tab]. destruct Hl as [Hl|[Hl Hl']].
  - now rewrite (pairs_too_large W disp HW n Fn Hl).
  - rewrite (pairs_parse W disp HW n Fn) by (try lia; intros ->; cbn in Hl; lia). cbn [bind fst snd].
    now rewrite (pairs_too_large W disp HW k Fk Hl').
Qed.

Lemma C69_large_merged_l : forall W disp path m meta b b' n k w,
  shows W disp -> m_meta m = Some meta -> tables_of m b b' n k -> float_table n -> float_table k ->
  (333 < length n <= 500)%nat -> length k = length n -> share_grid disp b b' n k -> mk_writer W path m = Ok w ->
  exists s, w_sets w = [s] /\ holds_no_table s.
Proof.
  intros W disp path m meta b b' n k w HW Hm Ht Fn Fk Hl Hk Hs Hw.
  assert (n <> []) as Hn by (intros ->; cbn in Hl; lia).
  unfold mk_writer in Hw. rewrite (prepare_tables W m meta b b' n k Ht Hm) in Hw.
  rewrite (proj1 (collapse_share W disp HW b b' n k Fn Fk Hn Hk ltac:(lia)) Hs) in Hw. cbn [bind] in Hw. injection Hw as <-.
  eexists. split; [reflexivity|]. eexists. split; [reflexivity|]. apply (together_too_large W disp HW); try assumption; lia.
Qed.

Lemma C69_large_merged_text_l : forall W disp path m c b b' n k fs ic rii,
  shows W disp -> text_file path -> comment_of m c -> tables_of m b b' n k -> float_table n -> float_table k ->
  (333 < length n <= 500)%nat -> length k = length n -> share_grid disp b b' n k ->
  save_material W path m fs ic rii = (Raise ValueError, []).
Proof.
  intros W disp path m c b b' n k fs ic rii HW Hp [meta [Hm Hc]] Ht Fn Fk Hl Hk Hs.
  assert (n <> []) as Hn by (intros ->; cbn in Hl; lia).
  apply text_file_ext in Hp. unfold save_material, mk_writer. rewrite (prepare_tables W m meta b b' n k Ht Hm).
  rewrite (proj1 (collapse_share W disp HW b b' n k Fn Fk Hn Hk ltac:(lia)) Hs). cbn [bind fst snd].
  unfold write_file. cbn [w_meta w_path w_ext w_sets]. rewrite dget_kept, Hc by discriminate.
  assert (smem (splitext path) txt_types = true) as -> by (destruct Hp as [-> | ->]; reflexivity).
  unfold write_text_file. cbn [w_sets w_meta w_ext].
  destruct (first_set_together W disp b n k) as (D1 & D2 & D3 & D4 & D5 & D6 & D7 & D8 & D9).
  unfold lookup2, dlookup. rewrite D1, D2, D3, D4, D5, D6, D7, D8. cbn [bind format_dval dval_tab].
  rewrite (together_too_large W disp HW n k Fn Fk Hk ltac:(lia)). reflexivity.
Qed.

Lemma C69_large_eps_l : forall W disp path m meta b n w,
  shows W disp -> m_meta m = Some meta -> m_name m = "eps" -> m_real m = DInterp b n ->
  float_table n -> (500 < length n)%nat -> mk_writer W path m = Ok w ->
  exists s rest, w_sets w = s :: rest /\ holds_no_table s.
Proof.
  intros W disp path m meta b n w HW Hm Hnm Hr Fn Hl Hw. unfold mk_writer in Hw. inv_bind Hw fd E. injection Hw as <-. cbn [w_sets snd].
  unfold prepare_file_dict in E. rewrite Hm in E. inv_bind E sets ES. injection E as <-. cbn [snd]. unfold dataset_to_dict in ES.
  destruct (m_complex m); [discriminate|]. rewrite Hnm, Hr in ES.
  change (part_dict W "eps" "real" (DInterp b n)) with (Ok (tab_dict W b n "tabulated eps_r")) in ES. cbn [bind] in ES.
  inv_bind ES d Ed. apply (collapse_first W _ _ _ (DStr "tabulated eps_r")) in ES; [|reflexivity..]. subst sets.
  eexists _, _. split; [reflexivity|]. eexists. split; [reflexivity|]. now apply (pairs_too_large W disp HW).
Qed.

Definition gold_like (m : material) : Prop := exists b b', tables_of m b b' (xrows gold_n) (xrows gold_k) /\
  d_type b = "wavelength" /\ d_unit b = "nanometer" /\ d_type b' = "wavelength" /\ d_unit b' = "nanometer".
Lemma gold_one m c : gold_like m -> header_ready sample_env m -> comment_of m c -> unix_text c -> plain_comment c ->
  exists m', file_cycle sample_env "data/gold.txt" m m' /\ gold_like m' /\ header_ready sample_env m' /\ comment_of m' (next_comment c).
Proof.
  intros (b & b' & HT & T & U & T' & U') HH HC Hu Hp. destruct gold_float as [F1 F2].
  assert (d_unit b = d_unit b') as EU by congruence. assert (d_type b = d_type b') as ET by congruence.
  destruct (C41_cycle_exact_l sample_env sample_disp "data/gold.txt" m c b b' gold_n gold_k [] false false FILE_META_DATA_KEYS DATASET_META_DATA_KEYS (fun _ => Raise GenericException) "nm" sample_shows gold_text_file HH HC Hu HT F1 F2 ltac:(cbn; lia) eq_refl gold_n_nodup EU ET)
    as (ops & m' & b1 & b1' & S1 & S2 & S3 & S4 & S5 & S6 & S7 & _); try apply Permutation_refl.
  - rewrite T, U. exists ["nanometer"; "nanometre"; "nm"]. cbn; auto 10.
  - rewrite T. discriminate.
  - rewrite U. discriminate.
  - apply gold_decimal.
  - apply gold_display.
  - assert (file_cycle sample_env "data/gold.txt" m m') as FC by (eapply one_cycle; [apply Permutation_refl|apply Permutation_refl|exact S1|exact S2]).
    exists m'. split; [exact FC|]. split; [exists b1, b1'; repeat split; first [apply S3|congruence]|].
    destruct (text_cycle_step sample_env "data/gold.txt" m m' c gold_text_file HH HC Hu Hp FC) as [K1 [K2 _]]. now split.
Qed.
Lemma gold_many n c : unix_text c -> plain_comment c -> exists m m', gold_like m /\ header_ready sample_env m /\ comment_of m c /\
  m_meta m = Some (gold_meta c) /\ file_cycles sample_env "data/gold.txt" n m m'.
Proof.
  intros Hu Hp. destruct (gold_exists c) as (m & b & b' & HT & T & U & T' & U' & HM & HH).
  assert (comment_of m c) as HC by (exists (gold_meta c); split; [exact HM|reflexivity]).
  assert (exists m' c', file_cycles sample_env "data/gold.txt" n m m' /\ gold_like m' /\ header_ready sample_env m' /\ comment_of m' c' /\ unix_text c' /\ plain_comment c') as (m' & _ & G & _).
  { induction n as [|n (m' & c' & I1 & I2 & I3 & I4 & I5 & I6)].
    - exists m, c. split; [constructor|]. split; [now exists b, b'|]. split; [apply HH|auto].
    - destruct (gold_one m' c' I2 I3 I4 I5 I6) as (m2 & J1 & J2 & J3 & J4). exists m2, (next_comment c').
      split; [now apply (cycles_S _ _ n m m' m2)|]. split; [exact J2|]. split; [exact J3|]. split; [exact J4|]. split; [now apply next_unix|now apply next_plain]. }
  exists m, m'. split; [now exists b, b'|]. split; [apply HH|]. split; [exact HC|]. split; [exact HM|exact G].
Qed.
