(** Theorems about yaml files: meta comment (C40), metadata and data sets (C43), keys (C47), large
    tables (C69). *)
From Verif Require Import PyBase PyStr XReal CNum TextModel TextSpec TextProofs TableProofs SpectrumModel SpectrumSpec SpectralModel SpectralSpec SpectralThms MaterialModel MaterialSpec MaterialProofs MatFileProofs FileModel ReaderModel WriterModel IOSpec LineProofs FmtProofs TextFileProofs DisplayProofs SaveProofs PathProofs CycleProofs OrderProofs ExportProofs ShowsProofs IOExamples SaveSpec SaveMoreProofs SaveThms TextFileThms YamlSpec YamlProofs YamlWriteProofs YamlReadProofs YamlDataProofs.
From Coq Require Import Permutation.
Open Scope R_scope.
Open Scope string_scope.
Open Scope list_scope.


Lemma drop_last_end s : (s = "" /\ drop_last s = "") \/ exists x, s = (drop_last s ++ String x "")%string.
Proof.
  induction s as [|x s IH]; [now left|]. right. destruct s as [|y s].
  - now exists x.
  - destruct IH as [[X _]|[z E]]; [discriminate|]. exists z. change (drop_last (String x (String y s))) with (String x (drop_last (String y s))). exact (f_equal (String x) E).
Qed.
Lemma next_yaml_after c : after_yaml_cycle c (next_yaml c).
Proof.
  exists (rstrip_nlcr c). split; [now apply trimmed_iff|]. unfold next_yaml. destruct (drop_last_end (rstrip_nlcr c)) as [[E1 E2]|[x E]]; [left; now split|right; now exists x].
Qed.
Lemma yaml_step W path ic rii m m' c : named path ".yml" -> comment_of m c -> yaml_text c -> yaml_cycle W path ic rii m m' -> comment_of m' (next_yaml c).
Proof.
  intros Hp [meta [Hm Hc]] Ht [fk dk yl fs ops Pf Pd HY HS HL].
  destruct (yaml_saved W path m fs ic rii ops yl Hp HY HS) as (meta0 & w & c0 & d & M & Hw & Mw & F & L & Ed & Hc0 & Hd & He & Hf).
  rewrite Hm in M. injection M as <-. rewrite Hc in Hc0. injection Hc0 as <-.
  destruct (read_path fk dk yl (fs_run fs ops) path) as [fd|e] eqn:ER; [|rewrite load_material, ER in HL; discriminate].
  pose proof (yaml_comment_read W yl path _ c d fk dk fd Hp HY Ht He Hf ER) as G.
  destruct (load_ok _ _ _ _ ER HL) as (meta' & p & L1 & L2 & L3). exists meta'. split.
  - unfold complete in L3. inv_bind L3 r E1. inv_bind L3 i E2. injection L3 as <-. reflexivity.
  - rewrite (copy_meta_get _ _ _ L1) by (cbn; tauto). exact G.
Qed.
Lemma next_yaml_prefix c : prefix_of (next_yaml c) c.
Proof.
  destruct (next_yaml_after c) as (t & (e & E1 & _) & [[_ E2]|[x E2]]); [rewrite E2; apply prefix_empty|].
  exists (String x "" ++ e)%string. set (q := next_yaml c) in *. clearbody q. subst c t. now rewrite app_assoc_s.
Qed.
Lemma str_length_app a b : String.length (a ++ b)%string = (String.length a + String.length b)%nat.
Proof. induction a as [|x a IH]; [reflexivity|]. cbn [append String.length Nat.add]. now rewrite IH. Qed.
Lemma next_yaml_length c : (String.length (next_yaml c) <= String.length c - 1)%nat.
Proof.
  destruct (next_yaml_after c) as (t & (e & E1 & _) & [[_ E2]|[x E2]]); [rewrite E2; cbn; lia|].
  set (q := next_yaml c) in *. clearbody q. subst c t. rewrite !str_length_app. cbn. lia.
Qed.
Lemma prefix_yaml_text a b : prefix_of a b -> yaml_text b -> yaml_text a.
Proof. intros [r ->] H x Hx. apply H. rewrite chars_app. apply in_app_iff. now left. Qed.

Lemma C40_one_cycle_l : forall W path ic rii m m' c,
  named path ".yml" -> comment_of m c -> yaml_text c -> yaml_cycle W path ic rii m m' ->
  exists c', after_yaml_cycle c c' /\ comment_of m' c'.
Proof.
  intros W path ic rii m m' c H1 H2 H3 H4. exists (next_yaml c). split; [apply next_yaml_after|].
  exact (yaml_step W path ic rii m m' c H1 H2 H3 H4).
Qed.

Lemma C40_many_cycles_l : forall W path n m m' c,
  named path ".yml" -> comment_of m c -> yaml_text c -> yaml_cycles W path n m m' ->
  exists c', comment_of m' c' /\ prefix_of c' c /\ (String.length c' <= String.length c - n)%nat /\
    ((String.length c <= n)%nat -> c' = "").
Proof.
  intros W path n m m' c Hp Hc Ht H. assert (exists c', comment_of m' c' /\ prefix_of c' c /\ (String.length c' <= String.length c - n)%nat) as (c' & A & B & C).
  { induction H as [m|n ic rii m m' m'' H IH Hcy].
    - exists c. split; [exact Hc|]. split; [apply prefix_refl|lia].
    - destruct (IH Hc) as (c1 & A & B & C). pose proof (yaml_step W path ic rii m' m'' c1 Hp A (prefix_yaml_text _ _ B Ht) Hcy) as D.
      exists (next_yaml c1). split; [exact D|]. split; [exact (prefix_trans _ _ _ (next_yaml_prefix c1) B)|]. pose proof (next_yaml_length c1). lia. }
  exists c'. split; [exact A|]. split; [exact B|]. split; [exact C|]. intros L. destruct c'; [reflexivity|]. cbn in C. lia.
Qed.

Lemma C40_comment_changes_refuted_l : forall W path ic rii m m' c,
  named path ".yml" -> comment_of m c -> yaml_text c -> c <> "" -> yaml_cycle W path ic rii m m' ->
  ~ comment_of m' c.
Proof.
  intros W path ic rii m m' c H1 H2 H3 H4 H5 [meta [E1 E2]]. destruct (yaml_step W path ic rii m m' c H1 H2 H3 H5) as [meta' [K1 K2]].
  assert (next_yaml c = c) as E by congruence. pose proof (next_yaml_length c) as X. rewrite E in X. destruct c; [congruence|]. cbn in X. lia.
Qed.

Lemma forall_written (P : dict dval -> Prop) ic l : Forall P l -> Forall P (written_sets ic l).
Proof. intros H. destruct ic; [|exact H]. unfold written_sets. apply Forall_forall. intros d Hd. apply filter_In in Hd. apply (proj1 (Forall_forall _ _) H). tauto. Qed.
Lemma yaml_back W yl path m c meta fs ic ops fk dk : named path ".yml" -> yaml_library W yl ->
  Permutation FILE_META_DATA_KEYS fk -> Permutation DATASET_META_DATA_KEYS dk -> save_material W path m fs ic false = (Ok tt, ops) ->
  m_meta m = Some meta -> dget meta "MetaComment" = Some (MStr c) -> yaml_text c -> standard_meta meta ->
  ic = true \/ (~ constant_part (m_real m) /\ ~ constant_part (m_imag m)) ->
  exists w fd, mk_writer W path m = Ok w /\ read_path fk dk yl (fs_run fs ops) path = Ok fd /\ meta_read meta (fd_meta fd) /\
    Forall2 set_read (written_sets ic (w_sets w)) (fd_sets fd) /\
    dget (fd_meta fd) "MetaComment" = Some (MStr (next_yaml c)) /\ (forall key, In key file_meta_keys -> dget (fd_meta fd) key <> None).
Proof.
  intros Hp HY Pf Pd HS Hm Hc Ht Hst Hk.
  destruct (yaml_saved W path m fs ic false ops yl Hp HY HS) as (meta0 & w & c0 & d & M & Hw & Mw & F & L & _).
  pose proof (forall_written _ ic _ F) as F'.
  destruct (sets_read _ F' (written_no_const W path m w ic Hw Hk)) as (fl & Efl & Sfl).
  destruct (yaml_read_back W yl path m fs ic false ops fk dk meta c fl) as (fd & R1 & R2 & R3 & R4 & R5); try assumption.
  { intros w' sets' Hw' HP. rewrite Hw in Hw'. injection Hw' as <-. rewrite (process_seq dk Pd _ _ HP) by now apply map_keys_apart. exact Efl. }
  exists w, fd. rewrite R2. auto 10.
Qed.
Lemma yaml_back_rii W yl path m c meta fs ic ops fk dk : named path ".yml" -> yaml_library W yl ->
  Permutation FILE_META_DATA_KEYS fk -> Permutation DATASET_META_DATA_KEYS dk -> save_material W path m fs ic true = (Ok tt, ops) ->
  m_meta m = Some meta -> dget meta "MetaComment" = Some (MStr c) -> yaml_text c -> standard_meta meta ->
  ic = true \/ (~ constant_part (m_real m) /\ ~ constant_part (m_imag m)) ->
  exists w fd, mk_writer W path m = Ok w /\ read_path fk dk yl (fs_run fs ops) path = Ok fd /\ meta_read meta (fd_meta fd) /\
    Forall2 rii_read (written_sets ic (w_sets w)) (fd_sets fd) /\
    dget (fd_meta fd) "MetaComment" = Some (MStr (next_yaml c)) /\ (forall key, In key file_meta_keys -> dget (fd_meta fd) key <> None).
Proof.
  intros Hp HY Pf Pd HS Hm Hc Ht Hst Hk.
  destruct (yaml_saved W path m fs ic true ops yl Hp HY HS) as (meta0 & w & c0 & d & M & Hw & Mw & F & L & _).
  pose proof (forall_written _ ic _ F) as F'.
  destruct (rii_sets_read _ F' (written_no_const W path m w ic Hw Hk)) as (fl & Efl & Sfl).
  destruct (yaml_read_back W yl path m fs ic true ops fk dk meta c fl) as (fd & R1 & R2 & R3 & R4 & R5); try assumption.
  { intros w' sets' Hw' HP. rewrite Hw in Hw'. injection Hw' as <-. rewrite (process_seq dk Pd _ _ HP); [exact Efl|].
    apply Forall_map. eapply Forall_impl; [|exact F']. exact rii_apart_keys. }
  exists w, fd. rewrite R2. auto 10.
Qed.

Lemma C43_read_back_l : forall W yl path m c meta fs ic ops fk dk,
  named path ".yml" -> yaml_library W yl -> Permutation FILE_META_DATA_KEYS fk -> Permutation DATASET_META_DATA_KEYS dk ->
  save_material W path m fs ic false = (Ok tt, ops) ->
  m_meta m = Some meta -> dget meta "MetaComment" = Some (MStr c) -> yaml_text c -> standard_meta meta ->
  ic = true \/ (~ constant_part (m_real m) /\ ~ constant_part (m_imag m)) ->
  exists w fd, mk_writer W path m = Ok w /\ read_path fk dk yl (fs_run fs ops) path = Ok fd /\
    meta_read meta (fd_meta fd) /\ Forall2 set_read (written_sets ic (w_sets w)) (fd_sets fd).
Proof.
  intros W yl path m c meta fs ic ops fk dk H1 H2 H3 H4 H5 H6 H7 H8 H9 H10.
  destruct (yaml_back W yl path m c meta fs ic ops fk dk H1 H2 H3 H4 H5 H6 H7 H8 H9 H10) as (w & fd & A & B & C & D & _). now exists w, fd.
Qed.

Lemma C43_rii_read_back_l : forall W yl path m c meta fs ic ops fk dk,
  named path ".yml" -> yaml_library W yl -> Permutation FILE_META_DATA_KEYS fk -> Permutation DATASET_META_DATA_KEYS dk ->
  save_material W path m fs ic true = (Ok tt, ops) ->
  m_meta m = Some meta -> dget meta "MetaComment" = Some (MStr c) -> yaml_text c -> standard_meta meta ->
  ic = true \/ (~ constant_part (m_real m) /\ ~ constant_part (m_imag m)) ->
  exists w fd, mk_writer W path m = Ok w /\ read_path fk dk yl (fs_run fs ops) path = Ok fd /\
    meta_read meta (fd_meta fd) /\
    (Forall no_rii_name (w_sets w) -> Forall2 set_read_rii (written_sets ic (w_sets w)) (fd_sets fd)).
Proof.
  intros W yl path m c meta fs ic ops fk dk H1 H2 H3 H4 H5 H6 H7 H8 H9 H10.
  destruct (yaml_back_rii W yl path m c meta fs ic ops fk dk H1 H2 H3 H4 H5 H6 H7 H8 H9 H10) as (w & fd & A & B & C & D & _). exists w, fd.
  split; [exact A|]. split; [exact B|]. split; [exact C|]. intros HN. apply (forall_written _ ic) in HN. revert D HN. generalize (written_sets ic (w_sets w)), (fd_sets fd).
  clear. intros l l' D HN. induction D as [|d f l l' Hd _ IH]; constructor; [|apply IH; now apply Forall_inv_tail in HN]. apply Forall_inv in HN. clear IH.
  destruct Hd as (A & B & C & D & E & v & F & G).
  assert (forall k v, dget d k = Some v -> rii_value v = v) as K.
  { intros k v0 Hv. apply rii_keep. intros s ->. apply (HN k). now apply dget_In. }
  split; [exact A|]. split; [|split; [exact C|split; [exact D|split; [exact E|]]]].
  - destruct (dget d "ValidRange") as [r|] eqn:ER.
    + left. exists "ValidRange". split; [now left|]. rewrite B. rewrite (K _ _ ER). exact ER.
    + right. split; [intros n [<-|[]]; exact ER|exact B].
  - rewrite F. destruct G as [G|[G1 G2]]; [left|right]; rewrite (K _ _ ltac:(eassumption)); auto.
Qed.

Definition p_start : pmat := mkP "" None None None "wavelength" "nanometer".
Lemma orelse_type b p : d_type b <> "" -> orelse (d_type b) p = d_type b. Proof. apply orelse_nonempty. Qed.
(** one table from a file *)
Lemma step_tab W disp b rows dt id f p q : shows W disp -> In (dt, id) [("tabulated n", "n"); ("tabulated k", "k")] -> set_read (tab_dict W b rows dt) f ->
  savable_part (DInterp b rows) -> process_dataset f p = Ok q ->
  exists d', part_kept (DInterp b rows) d' /\ q = (if String.eqb id "n" then set_real else set_imag) (set_defaults p (d_type b) (d_unit b)) "nk" d'.
Proof.
  intros HW Hd Hr (Fr & Lr & NT & NU) E. destruct (read_tab W b rows dt f Hr) as (R1 & R2 & R3 & R4).
  assert (rows <> []) as Hne by (intros ->; cbn in Lr; lia).
  assert (dt = ("tabulated " ++ id)%string /\ In id tab_ids) as [Hdt Hid] by (cbn in Hd; destruct Hd as [X|[X|[]]]; injection X as <- <-; split; try reflexivity; cbn; tauto).
  rewrite Hdt in R1. rewrite (tab_dataset f id 2 (shown disp (table_of rows)) p _ _ Hid R1 R2 R3) in E
    by (rewrite R4; cbn [dval_tab]; apply (pairs_parse W disp HW); try assumption; lia).
  rewrite !orelse_nonempty in E by assumption.
  assert (2 <= length (shown disp (table_of rows)))%nat as HL by (rewrite shown_len; unfold table_of; rewrite map_length; lia).
  cbn in Hd. destruct Hd as [X|[X|[]]]; injection X as <- <-.
  - destruct (table_n _ _ _ E HL) as (b1 & -> & T & U). eexists. split; [|reflexivity]. exists b1, (pair_cols 0 1 (shown disp (table_of rows))).
    split; [reflexivity|]. split; [now apply (yaml_apart_near W disp HW)|now split].
  - destruct (table_k _ _ _ E HL) as (b1 & -> & T & U). eexists. split; [|reflexivity]. exists b1, (pair_cols 0 1 (shown disp (table_of rows))).
    split; [reflexivity|]. split; [now apply (yaml_apart_near W disp HW)|now split].
Qed.
(** one formula from a file *)
Lemma step_model W disp b k ps f p q : shows W disp -> set_read (model_dict W b k ps) f -> savable_part (DModel b k ps) -> process_dataset f p = Ok q ->
  exists d', part_kept (DModel b k ps) d' /\ q = set_real (set_defaults p (d_type b) (d_unit b)) "nk" d'.
Proof.
  intros HW Hr (Ho & Fp & Lp & Fr & Lr & NT & NU) E. destruct (read_model W b k ps f Hr) as (R1 & R2 & R3 & R4 & R5).
  rewrite (model_dataset W disp f b k ps p HW R1 R2 R5 _ _ R3 R4 Fp Fr Lp Lr) in E. rewrite !orelse_nonempty in E by assumption.
  unfold process_model_dict in E. cbn [kw_name kw_stype kw_unit kw_params kw_range opt_key bind] in E. rewrite class_of in E. cbn [bind] in E.
  inv_bind E d' Em. rewrite Ho in E. injection E as <-. exists d'. split; [|reflexivity].
  unfold mk_model in Em. inv_bind Em b1 Eb. inv_bind Em u0 Ev. injection Em as <-. unfold mk_base in Eb. inv_bind Eb r0 Er. injection Eb as <-.
  unfold mk_spectrum in Er. destruct (negb (dhas SPECTRUM_TYPES (lower (d_type b)))); [discriminate|]. inv_bind Er u1 Eu. inv_bind Er sd Esd. injection Er as <-.
  eexists _, _. split; [reflexivity|]. cbn [d_range d_type d_unit sp_values elems]. split; [now apply (list_near W disp HW)|]. split; [now apply (list_near W disp HW)|now split].
Qed.
(** which data sets there are when the parts are not merged *)
Definition apart (disp : list xr -> xr -> xr) (r i : sdata) : Prop :=
  forall b n b' k, r = DInterp b n -> i = DInterp b' k -> ~ share_grid disp b b' n k.
Lemma apart_sets W disp path m w : shows W disp -> mk_writer W path m = Ok w -> m_name m = "nk" -> savable_part (m_real m) -> savable_part (m_imag m) ->
  apart disp (m_real m) (m_imag m) ->
  exists a b, part_dict W "nk" "real" (m_real m) = Ok a /\ part_dict W "nk" "imag" (m_imag m) = Ok b /\ w_sets w = [a; b].
Proof.
  intros HW Hw Hn S1 S2 HA. destruct (writer_parts W path m w Hw) as (a & b & Ea & Eb & Ec). rewrite Hn in Ea, Eb. exists a, b. split; [exact Ea|]. split; [exact Eb|].
  destruct (part_type _ _ _ _ _ (or_introl eq_refl) Ea) as (ta & Ta & Pa). destruct (part_type _ _ _ _ _ (or_intror (or_introl eq_refl)) Eb) as (tb & Tb & Pb).
  destruct Pa as [(b1 & n & Hr)|Pa]; [|apply (collapse_const W a b (w_sets w) Ec); [left; intros t Ht; congruence|now exists ta|now exists tb]].
  destruct Pb as [(b2 & k & Hi)|Pb]; [|apply (collapse_const W a b (w_sets w) Ec); [right; intros t Ht; congruence|now exists ta|now exists tb]].
  rewrite Hr in *. rewrite Hi in *. specialize (HA b1 n b2 k eq_refl eq_refl). destruct S1 as (F1 & L1 & _), S2 as (F2 & L2 & _).
  assert (n <> []) as Hn0 by (intros ->; cbn in L1; lia). assert (k <> []) as Hk0 by (intros ->; cbn in L2; lia).
  rewrite part_dict_interp in Ea, Eb. injection Ea as <-. injection Eb as <-.
  fold (sets_apart W b1 b2 n k) in Ec |- *. destruct (Nat.eq_dec (length k) (length n)) as [HL|HL].
  - rewrite (proj2 (collapse_share W disp HW b1 b2 n k F1 F2 Hn0 HL ltac:(lia)) HA) in Ec. injection Ec as <-. reflexivity.
  - rewrite (collapse_tables W disp HW) in Ec by (try assumption; lia). inv_bind Ec same Es. destruct (negb same || _ || _); [injection Ec as <-; reflexivity|].
    apply not_eq_sym, Nat.eqb_neq in HL. rewrite HL in Ec. discriminate.
Qed.
Lemma part_const_set W part d s : In part ["real"; "imag"] -> part_dict W "nk" part d = Ok s -> is_const s = true \/ is_const s = false /\ ~ constant_part d.
Proof. intros Hp H. pose proof (part_const_iff _ _ _ _ _ Hp H) as I. destruct (is_const s); [now left|right]. split; [reflexivity|]. intros X. apply I in X. discriminate. Qed.
Lemma step_real W disp d s f p q : shows W disp -> part_dict W "nk" "real" d = Ok s -> ~ constant_part d -> savable_part d -> set_read s f -> process_dataset f p = Ok q ->
  exists d', part_kept d d' /\ q = set_real (set_defaults p (d_type (dbase_of d)) (d_unit (dbase_of d))) "nk" d'.
Proof.
  intros HW Hd Hc Hs Hr E. destruct d as [b v|b rows|b k ps|b a c]; [exfalso; apply Hc; now exists b, v| | |destruct Hs].
  - rewrite part_dict_interp in Hd. injection Hd as <-. destruct (step_tab W disp b rows "tabulated n" "n" f p q HW (or_introl eq_refl) Hr Hs E) as (d' & K & ->). now exists d'.
  - rewrite part_model in Hd. injection Hd as <-. destruct (step_model W disp b k ps f p q HW Hr Hs E) as (d' & K & ->). now exists d'.
Qed.
Lemma step_imag W disp d s f p q : shows W disp -> part_dict W "nk" "imag" d = Ok s -> ~ constant_part d -> (forall b k ps, d <> DModel b k ps) -> savable_part d -> set_read s f -> process_dataset f p = Ok q ->
  exists d', part_kept d d' /\ q = set_imag (set_defaults p (d_type (dbase_of d)) (d_unit (dbase_of d))) "nk" d'.
Proof.
  intros HW Hd Hc Hm Hs Hr E. destruct d as [b v|b rows|b k ps|b a c]; [exfalso; apply Hc; now exists b, v| |exfalso; now apply (Hm b k ps)|destruct Hs].
  rewrite part_dict_interp in Hd. injection Hd as <-. destruct (step_tab W disp b rows "tabulated k" "k" f p q HW (or_intror (or_introl eq_refl)) Hr Hs E) as (d' & K & ->). now exists d'.
Qed.
Lemma reported_imag m m' : ~ constant_part (m_imag m) -> m_stype m' = d_type (dbase_of (m_imag m)) /\ m_unit m' = d_unit (dbase_of (m_imag m)) -> reported_as m m'.
Proof. unfold reported_as. intros N H. destruct (m_imag m) as [b v| | |]; [exfalso; apply N; now exists b, v|exact H|exact H|exact H]. Qed.
Lemma reported_real m m' : constant_part (m_imag m) -> m_stype m' = d_type (dbase_of (m_real m)) /\ m_unit m' = d_unit (dbase_of (m_real m)) -> reported_as m m'.
Proof. unfold reported_as. intros (b & v & ->) H. exact H. Qed.
Lemma const_kept d d' : constant_part d -> constant_default (ORe (Fin 0)) = Ok d' -> part_kept d d'.
Proof. intros (b & v & ->) H. exact H. Qed.

Lemma C43_parts_kept_l : forall W disp path m m' c meta ic,
  shows W disp -> named path ".yml" -> m_meta m = Some meta -> dget meta "MetaComment" = Some (MStr c) -> yaml_text c -> standard_meta meta ->
  m_name m = "nk" -> savable_part (m_real m) -> savable_part (m_imag m) -> (forall b k ps, m_imag m <> DModel b k ps) ->
  (forall b n b' k, m_real m = DInterp b n -> m_imag m = DInterp b' k -> ~ share_grid disp b b' n k) ->
  ic = true \/ (~ constant_part (m_real m) /\ ~ constant_part (m_imag m)) ->
  yaml_cycle W path ic false m m' ->
  m_name m' = "nk" /\ m_complex m' = None /\ part_kept (m_real m) (m_real m') /\ part_kept (m_imag m) (m_imag m') /\
    reported_as m m'.
Proof.
  intros W disp path m m' c meta ic HW Hp Hm Hc Ht Hst Hn S1 S2 HM HA Hic [fk dk yl fs ops Pf Pd HY HS HL].
  destruct (yaml_back W yl path m c meta fs ic ops fk dk Hp HY Pf Pd HS Hm Hc Ht Hst Hic) as (w & fd & Hw & ER & _ & HF & _).
  destruct (apart_sets W disp path m w HW Hw Hn S1 S2 HA) as (a & b & Ea & Eb & Es). rewrite Es in HF.
  destruct (load_ok _ _ _ _ ER HL) as (meta' & p & L1 & L2 & L3).
  destruct (part_const_set W "real" _ _ (or_introl eq_refl) Ea) as [Ca|[Ca Na]]; destruct (part_const_set W "imag" _ _ (or_intror (or_introl eq_refl)) Eb) as [Cb|[Cb Nb]].
  - exfalso. destruct Hic as [->|[N _]]; [|apply N, (part_const_iff _ _ _ _ _ (or_introl eq_refl) Ea), Ca].
    destruct (yaml_saved W path m fs true false ops yl Hp HY HS) as (meta0 & w0 & c0 & d & M & Hw0 & Mw & F & L & Ed & Hc0 & Hd & He & Hf).
    rewrite Hw in Hw0. injection Hw0 as <-. unfold yaml_doc in Hd. cbn [no_comment w_sets] in Hd. rewrite Es in Hd, F. rewrite (constant_ids_eq _ F) in Hd.
    cbn [length seq combine map concat fst snd app bind] in Hd. rewrite Ca, Cb in Hd. discriminate Hd.
  - destruct Hic as [->|[N _]]; [|exfalso; apply N, (part_const_iff _ _ _ _ _ (or_introl eq_refl) Ea), Ca]. cbn [written_sets filter] in HF. rewrite Ca, Cb in HF. cbn [negb] in HF.
    inversion HF as [|x f l l' Hf HF' E1 E2]; subst. inversion HF'; subst. rewrite <- E2 in L2. cbn [process_datasets] in L2. inv_bind L2 p1 L4. injection L2 as ->.
    destruct (step_imag W disp _ _ f _ _ HW Eb Nb HM S2 Hf L4) as (d' & K & ->). unfold complete in L3. cbn [set_imag set_defaults p_real p_imag p_name p_complex] in L3. inv_bind L3 r Er. cbn [bind] in L3. injection L3 as <-.
    split; [reflexivity|]. split; [reflexivity|]. split; [apply const_kept; [apply (part_const_iff _ _ _ _ _ (or_introl eq_refl) Ea), Ca|exact Er]|]. split; [exact K|]. apply reported_imag; [exact Nb|now split].
  - destruct Hic as [->|[_ N]]; [|exfalso; apply N, (part_const_iff _ _ _ _ _ (or_intror (or_introl eq_refl)) Eb), Cb]. cbn [written_sets filter] in HF. rewrite Ca, Cb in HF. cbn [negb] in HF.
    inversion HF as [|x f l l' Hf HF' E1 E2]; subst. inversion HF'; subst. rewrite <- E2 in L2. cbn [process_datasets] in L2. inv_bind L2 p1 L4. injection L2 as ->.
    destruct (step_real W disp _ _ f _ _ HW Ea Na S1 Hf L4) as (d' & K & ->). unfold complete in L3. cbn [set_real set_defaults p_real p_imag p_name p_complex] in L3. cbn [bind] in L3. inv_bind L3 i Ei. injection L3 as <-.
    split; [reflexivity|]. split; [reflexivity|]. split; [exact K|]. assert (constant_part (m_imag m)) as Hcp by (apply (part_const_iff _ _ _ _ _ (or_intror (or_introl eq_refl)) Eb), Cb). split; [now apply const_kept|]. apply reported_real; [exact Hcp|now split].
  - assert (written_sets ic [a; b] = [a; b]) as E0 by (destruct ic; [cbn [written_sets filter]; now rewrite Ca, Cb|reflexivity]). rewrite E0 in HF.
    inversion HF as [|x f l l' Hf HF' E1 E2]; subst. inversion HF' as [|x1 g l1 l1' Hg HF'' E3 E4]; subst. inversion HF''; subst. rewrite <- E2 in L2. cbn [process_datasets] in L2.
    inv_bind L2 p1 L4. inv_bind L2 p2 L5. injection L2 as ->.
    destruct (step_real W disp _ _ f _ _ HW Ea Na S1 Hf L4) as (d' & K & ->). destruct (step_imag W disp _ _ g _ _ HW Eb Nb HM S2 Hg L5) as (d2 & K2 & ->).
    unfold complete in L3. cbn [set_real set_imag set_defaults p_real p_imag p_name p_complex bind] in L3. injection L3 as <-. split; [reflexivity|]. split; [reflexivity|]. split; [exact K|]. split; [exact K2|]. apply reported_imag; [exact Nb|now split].
Qed.

Lemma C43_tables_together_l : forall W disp path m m' c meta ic b b' n k,
  shows W disp -> named path ".yml" -> m_meta m = Some meta -> dget meta "MetaComment" = Some (MStr c) -> yaml_text c -> standard_meta meta ->
  tables_of m b b' n k -> float_table n -> float_table k -> (2 <= length n <= 333)%nat -> length k = length n ->
  share_grid disp b b' n k -> d_type b <> "" -> d_unit b <> "" -> yaml_cycle W path ic false m m' ->
  exists b1 b1' n' k', tables_of m' b1 b1' n' k' /\ near_table (11 / 10 ^ 9) n n' /\ near_values (11 / 10 ^ 9) k k' /\
    map fst k' = map fst n' /\ d_type b1 = d_type b /\ d_type b1' = d_type b /\ d_unit b1 = d_unit b /\ d_unit b1' = d_unit b.
Proof.
  intros W disp path m m' c meta ic b b' n k HW Hp Hm Hc Ht Hst HT Fn Fk Hl Hk Hs NT NU [fk dk yl fs ops Pf Pd HY HS HL].
  assert (n <> []) as Hn by (intros ->; cbn in Hl; lia).
  assert (ic = true \/ (~ constant_part (m_real m) /\ ~ constant_part (m_imag m))) as Hic.
  { right. destruct HT as (_ & _ & -> & ->). split; intros (? & ? & X); discriminate. }
  destruct (yaml_back W yl path m c meta fs ic ops fk dk Hp HY Pf Pd HS Hm Hc Ht Hst Hic) as (w & fd & Hw & ER & _ & HF & _).
  assert (w_sets w = [set_together W disp b n k]) as Es.
  { unfold mk_writer in Hw. rewrite (prepare_tables W m meta b b' n k HT Hm), (proj1 (collapse_share W disp HW b b' n k Fn Fk Hn Hk ltac:(lia)) Hs) in Hw.
    cbn [bind] in Hw. injection Hw as <-. reflexivity. }
  assert (written_sets ic (w_sets w) = [set_together W disp b n k]) as E0 by (rewrite Es; destruct ic; reflexivity). rewrite E0 in HF.
  inversion HF as [|x f l l' Hf HF' E1 E2]; subst. inversion HF'; subst.
  destruct (load_ok _ _ _ _ ER HL) as (meta' & p & L1 & L2 & L3). rewrite <- E2 in L2. cbn [process_datasets] in L2. inv_bind L2 p1 L4. injection L2 as ->.
  destruct (read_merged _ _ _ _ Hf) as (R1 & R2 & R3 & R4).
  rewrite (tab_dataset f "nk" 3 (shown disp (beside (shown disp (table_of n)) (shown disp (table_of k)))) _ _ _ (or_introl eq_refl) R1 R2 R3) in L4
    by (rewrite R4; cbn [dval_tab]; apply (together_parse W disp HW); try assumption; lia).
  rewrite !orelse_nonempty in L4 by assumption.
  destruct (table_nk _ _ _ L4) as (b1 & b2 & -> & T1 & U1 & T2 & U2); [rewrite (beside_shown_len disp n k Hk); lia|].
  unfold complete in L3. cbn [set_real set_imag set_defaults p_real p_imag p_name p_complex bind] in L3. injection L3 as <-.
  set (data := shown disp _) in *. exists b1, b2, (pair_cols 0 1 data), (pair_cols 0 2 data). split; [repeat split|].
  destruct (yaml_together_near W disp HW n k Fn Fk Hk) as [Q1 Q2]. split; [exact Q1|]. split; [exact Q2|].
  split; [unfold pair_cols; rewrite !map_map; reflexivity|]. now repeat split.
Qed.

Lemma yaml_doc_total w meta sp ic rii : w_meta w = kept meta -> standard_meta meta -> dget meta "Specification" = Some (MMap sp) ->
  Forall writer_set (w_sets w) -> (length (w_sets w) = 1 \/ length (w_sets w) = 2)%nat -> (ic = true -> written_sets ic (w_sets w) <> [] \/ length (w_sets w) = 1%nat) ->
  exists d, yaml_doc (no_comment w) ic rii = Ok d.
Proof.
  intros Hm Hs Hsp F L HN. destruct (standard_left meta Hs) as (N & HK & HG). destruct (pop_total ic _ F L HN) as (ids & E1 & E2).
  unfold yaml_doc. cbn [no_comment w_sets w_meta]. rewrite Hm, E1. cbn [bind]. rewrite E2. cbn [bind]. rewrite alias_meta_standard by exact HK. cbn [bind]. cbv zeta.
  set (top := map _ (ddel (kept meta) "MetaComment")). assert (NoDup (map fst top)) as NT by now apply alias_nodup.
  unfold dlookup. rewrite dget_dset_other by discriminate. rewrite (fold_dset_get NVal top NT).
  assert (dget top "SPECS" = Some (MMap sp)) as ->.
  { change "SPECS" with (alias_of "Specification"). unfold top. rewrite alias_get by (try assumption; cbn; tauto). rewrite HG by (cbn; tauto). exact Hsp. }
  cbn [bind node_val]. destruct sp as [|x sp]; cbn [write_specs bind]; eexists; reflexivity.
Qed.
Lemma yaml_save_total W path m w meta c sp fs ic rii : named path ".yml" -> mk_writer W path m = Ok w -> m_meta m = Some meta ->
  dget meta "MetaComment" = Some (MStr c) -> standard_meta meta -> dget meta "Specification" = Some (MMap sp) ->
  (ic = true -> written_sets ic (w_sets w) <> [] \/ length (w_sets w) = 1%nat) -> exists ops, save_material W path m fs ic rii = (Ok tt, ops).
Proof.
  intros Hp Hw Hm Hc Hst Hsp HN. destruct (mk_writer_inv _ _ _ _ Hw) as (P & X & meta0 & sets & M0 & _ & Ed & K & Es). rewrite Hm in M0. injection M0 as <-. subst sets.
  destruct (writer_sets W m (w_sets w) Ed) as [F L]. destruct (yaml_doc_total w meta sp ic rii K Hst Hsp F L HN) as [d Hd].
  unfold save_material. rewrite Hw. destruct (write_file W w fs ic rii) as [[r ops] w'] eqn:E. destruct (write_cases W w fs ic rii r ops w' E) as [(Y & _)|(v & Hv & _ & HH)].
  { rewrite K, dget_kept, Hc in Y by discriminate. discriminate. }
  rewrite K, dget_kept, Hc in Hv by discriminate. injection Hv as <-. 
  assert (body_of W ic rii (no_comment w) = Ok (yaml_dump W d, true)) as HB.
  { unfold body_of. change (w_ext (no_comment w)) with (w_ext w). rewrite X, (yml_ext path Hp). change (smem ".yml" txt_types) with false. change (String.eqb ".yml" ".yml") with true. cbv iota. rewrite Hd. reflexivity. }
  destruct HH as [(e & Y & _)|(text & extra & Y & [(_ & -> & _)|[(c0 & _ & _ & -> & _)|(Z & _)]])]; try (now exists ops).
  - rewrite HB in Y. discriminate.
  - exfalso. now apply (Z c).
Qed.

Lemma C43_can_save_l : forall W path m w meta c sp fs ic rii,
  named path ".yml" -> mk_writer W path m = Ok w -> m_meta m = Some meta -> dget meta "MetaComment" = Some (MStr c) ->
  standard_meta meta -> dget meta "Specification" = Some (MMap sp) ->
  (ic = true -> ~ (constant_part (m_real m) /\ constant_part (m_imag m))) ->
  exists ops, save_material W path m fs ic rii = (Ok tt, ops).
Proof.
  intros W path m w meta c sp fs ic rii Hp Hw Hm Hc Hst Hsp HN. apply (yaml_save_total W path m w meta c sp fs ic rii); try assumption.
  intros ->. specialize (HN eq_refl). destruct (writer_parts W path m w Hw) as (a & b & Ea & Eb & Ec).
  destruct (collapse_cases _ _ _ _ Ec) as [E|(u & t & s & _ & _ & E)]; rewrite E; [left|now right].
  intros X. apply HN. cbn [written_sets filter] in X.
  split; [apply (part_const_iff _ _ _ _ _ (or_introl eq_refl) Ea)|apply (part_const_iff _ _ _ _ _ (or_intror (or_introl eq_refl)) Eb)]; destruct (is_const a), (is_const b); first [reflexivity|discriminate X].
Qed.

Lemma shown_exact (disp : list xr -> xr -> xr) all t : (forall l x, incl l all -> In x l -> disp l x = x) -> incl (concat t) all -> shown disp t = t.
Proof. intros HE Ht. unfold shown. apply map_id_in. intros r Hr. apply map_id_in. intros x Hx. apply HE; [exact Ht|]. apply in_concat. now exists r. Qed.
Lemma beside_rows n k : length k = length n -> beside (table_of n) (table_of k) = map (fun p => [fst (fst p); snd (fst p); snd (snd p)]) (combine n k).
Proof. intros H. unfold table_of. now rewrite beside_map. Qed.
Lemma beside_incl n k : length k = length n -> incl (concat (beside (table_of n) (table_of k))) (concat (table_of n) ++ concat (table_of k)).
Proof.
  intros H. rewrite beside_rows by exact H. intros x Hx. apply in_concat in Hx. destruct Hx as [r [Hr Hx]]. apply in_map_iff in Hr. destruct Hr as [[p q] [<- Hpq]].
  pose proof (table_in n p (in_combine_l _ _ _ _ Hpq)). pose proof (table_in k q (in_combine_r _ _ _ _ Hpq)). cbn in Hx. apply in_app_iff. intuition (subst; tauto).
Qed.
Lemma exact_share disp b b' l q : (forall all x, incl all (concat (table_of (xrows l)) ++ concat (table_of (xrows q))) -> In x all -> disp all x = x) ->
  map fst q = map fst l -> d_unit b = d_unit b' -> d_type b = d_type b' -> share_grid disp b b' (xrows l) (xrows q).
Proof.
  intros HE Hg U T. split; [|now split]. rewrite !(shown_exact disp _ _ HE) by (intros x Hx; apply in_app_iff; tauto).
  unfold grid, table_of. rewrite !map_map. cbn [nth]. clear -Hg. revert q Hg. induction l as [|a l IH]; intros [|b q] Hg; try discriminate; cbn; constructor.
  - cbn in Hg. injection Hg as E _. rewrite E. split; [reflexivity|discriminate].
  - apply IH. cbn in Hg. now injection Hg.
Qed.
Lemma pair_cols_first l q : length q = length l -> pair_cols 0 1 (map (fun p : xr * xr * (xr * xr) => [fst (fst p); snd (fst p); snd (snd p)]) (combine (xrows l) (xrows q))) = xrows l.
Proof. unfold pair_cols. rewrite map_map. cbn [col nth]. revert q. induction l as [|a l IH]; intros [|b q] Hq; try discriminate; [reflexivity|]. cbn. f_equal. apply IH. now injection Hq. Qed.
Lemma pair_cols_second l q : map fst q = map fst l -> pair_cols 0 2 (map (fun p : xr * xr * (xr * xr) => [fst (fst p); snd (fst p); snd (snd p)]) (combine (xrows l) (xrows q))) = xrows q.
Proof.
  unfold pair_cols. rewrite map_map. cbn [col nth]. revert q. induction l as [|a l IH]; intros [|b q] Hg; try discriminate; [reflexivity|].
  cbn in Hg |- *. injection Hg as E Hg. rewrite E. f_equal. now apply IH.
Qed.
Lemma exact_loads l q st un canon p : (2 <= length l)%nat -> map fst q = map fst l -> NoDup (map fst l) -> documented (lower st) (lower un) canon ->
  p_stype p = st -> p_unit p = un ->
  exists b1 b2, process_table 3 (map (fun p : xr * xr * (xr * xr) => [fst (fst p); snd (fst p); snd (snd p)]) (combine (xrows l) (xrows q))) "nk" p =
    Ok (set_imag (set_real p "nk" (DInterp b1 (xrows l))) "nk" (DInterp b2 (xrows q))) /\ d_type b1 = st /\ d_unit b1 = un /\ d_type b2 = st /\ d_unit b2 = un.
Proof.
  intros Hl Hg Hn Hc <- <-. assert (length q = length l) as Hq by (rewrite <- (map_length fst q), Hg; apply map_length).
  destruct (pairs_total l _ _ canon Hl Hn Hc) as (b1 & E1 & T1 & U1). destruct (pairs_total q _ _ canon ltac:(lia) ltac:(now rewrite Hg) Hc) as (b2 & E2 & T2 & U2).
  exists b1, b2. split; [|now repeat split]. unfold process_table. change (String.eqb "nk" "nk") with true. cbv iota. cbn [take_cols Nat.ltb Nat.leb bind].
  rewrite pair_cols_first, pair_cols_second by assumption. rewrite E1, E2. reflexivity.
Qed.

Lemma C43_cycle_exact_l : forall W disp yl path m c meta sp b b' l q fs ic fk dk canon,
  shows W disp -> yaml_library W yl -> named path ".yml" -> m_meta m = Some meta -> dget meta "MetaComment" = Some (MStr c) -> yaml_text c ->
  standard_meta meta -> dget meta "Specification" = Some (MMap sp) ->
  tables_of m b b' (xrows l) (xrows q) -> float_table (xrows l) -> float_table (xrows q) -> (2 <= length l <= 333)%nat ->
  map fst q = map fst l -> NoDup (map fst l) -> d_unit b = d_unit b' -> d_type b = d_type b' ->
  documented (lower (d_type b)) (lower (d_unit b)) canon -> d_type b <> "" -> d_unit b <> "" ->
  (forall all x, incl all (concat (table_of (xrows l)) ++ concat (table_of (xrows q))) -> In x all -> disp all x = x) ->
  Permutation FILE_META_DATA_KEYS fk -> Permutation DATASET_META_DATA_KEYS dk ->
  exists ops m' b1 b1', save_material W path m fs ic false = (Ok tt, ops) /\
    mk_material (read_path fk dk yl (fs_run fs ops)) [("file_path", PStr path)] = Ok m' /\
    tables_of m' b1 b1' (xrows l) (xrows q) /\
    d_type b1 = d_type b /\ d_unit b1 = d_unit b /\ d_type b1' = d_type b /\ d_unit b1' = d_unit b /\ m_stype m' = d_type b /\ m_unit m' = d_unit b.
Proof.
  intros W disp yl path m c meta sp b b' l q fs ic fk dk canon HW HY Hp Hm Hc Ht Hst Hsp HT Fn Fk Hl Hg HN U T Hd NT NU HE Pf Pd.
  assert (length q = length l) as Hq by (rewrite <- (map_length fst q), Hg; apply map_length).
  assert (length (xrows q) = length (xrows l)) as Hq' by (unfold xrows; now rewrite !map_length).
  assert (length (xrows l) = length l) as Hll by (unfold xrows; now rewrite map_length).
  assert (xrows l <> []) as Hne by (intros X; rewrite X in Hll; cbn in Hll; lia).
  pose proof (exact_share disp b b' l q HE Hg U T) as Hs.
  assert (mk_writer W path m = Ok (mkWriter path (splitext path) (kept meta) [set_together W disp b (xrows l) (xrows q)])) as Hw.
  { unfold mk_writer. rewrite (prepare_tables W m meta b b' _ _ HT Hm), (proj1 (collapse_share W disp HW b b' _ _ Fn Fk Hne Hq' ltac:(lia)) Hs). reflexivity. }
  destruct (yaml_save_total W path m _ meta c sp fs ic false Hp Hw Hm Hc Hst Hsp ltac:(intros _; now right)) as [ops HS].
  assert (ic = true \/ (~ constant_part (m_real m) /\ ~ constant_part (m_imag m))) as Hic.
  { right. destruct HT as (_ & _ & -> & ->). split; intros (? & ? & X); discriminate. }
  destruct (yaml_back W yl path m c meta fs ic ops fk dk Hp HY Pf Pd HS Hm Hc Ht Hst Hic) as (w & fd & Hw' & ER & _ & HF & _ & HK).
  rewrite Hw in Hw'. injection Hw' as <-. cbn [w_sets] in HF.
  assert (written_sets ic [set_together W disp b (xrows l) (xrows q)] = [set_together W disp b (xrows l) (xrows q)]) as E0 by (destruct ic; reflexivity). rewrite E0 in HF.
  inversion HF as [|x f l0 l' Hf HF' E1 E2]; subst. inversion HF'; subst. clear HF HF'.
  destruct (read_merged _ _ _ _ Hf) as (R1 & R2 & R3 & R4).
  pose proof (together_parse W disp HW (xrows l) (xrows q) Fn Fk Hne Hq' ltac:(lia)) as EP.
  assert (shown disp (beside (shown disp (table_of (xrows l))) (shown disp (table_of (xrows q)))) = map (fun p => [fst (fst p); snd (fst p); snd (snd p)]) (combine (xrows l) (xrows q))) as ES.
  { rewrite (shown_exact disp _ (table_of (xrows l)) HE), (shown_exact disp _ (table_of (xrows q)) HE) by (intros x Hx; apply in_app_iff; tauto).
    rewrite (shown_exact disp _ _ HE) by now apply beside_incl. now apply beside_rows. }
  rewrite ES in EP.
  destruct (exact_loads l q (d_type b) (d_unit b) canon (set_defaults p_start (d_type b) (d_unit b))) as (b1 & b2 & EL & T1 & U1 & T2 & U2); try assumption; try lia; try reflexivity.
  destruct (copy_meta_total (fd_meta fd) HK) as [meta' HM].
  eexists ops, _, b1, b2. split; [exact HS|]. split; [|split; [|split; [exact T1|split; [exact U1|split; [exact T2|split; [exact U2|split]]]]]].
  - rewrite load_material, ER. cbn [bind]. rewrite HM. cbn [bind]. rewrite <- E2. cbn [process_datasets].
    rewrite (tab_dataset f "nk" 3 _ _ _ _ (or_introl eq_refl) R1 R2 R3 (eq_trans (f_equal (fun v => str_table_to_numeric (dval_tab v)) R4) EP)).
    rewrite !orelse_nonempty by assumption. fold p_start. rewrite EL. cbn [bind]. unfold complete. cbn [set_real set_imag set_defaults p_real p_imag p_name p_complex bind]. reflexivity.
  - repeat split.
  - reflexivity.
  - reflexivity.
Qed.

Lemma C43_constants_kept_unreadable_refuted_l : forall W yl path m c meta fs rii ops fk dk,
  named path ".yml" -> yaml_library W yl -> Permutation FILE_META_DATA_KEYS fk -> Permutation DATASET_META_DATA_KEYS dk ->
  save_material W path m fs false rii = (Ok tt, ops) ->
  m_meta m = Some meta -> dget meta "MetaComment" = Some (MStr c) -> yaml_text c -> standard_meta meta ->
  constant_part (m_real m) \/ constant_part (m_imag m) ->
  read_path fk dk yl (fs_run fs ops) path = Raise KeyError.
Proof.
  intros W yl path m c meta fs rii ops fk dk Hp HY Pf Pd HS Hm Hc Ht Hst Hk.
  destruct (yaml_saved W path m fs false rii ops yl Hp HY HS) as (meta0 & w & c0 & d & M & Hw & Mw & F & L & _).
  pose proof (written_const W path m w Hw Hk) as HC.
  apply (yaml_read_sets W yl path m fs false rii ops fk dk meta c KeyError); try assumption.
  intros w' sets' Hw' HP. rewrite Hw in Hw'. injection Hw' as <-. cbn [written_sets] in HP. destruct rii.
  - rewrite (process_seq dk Pd _ _ HP) by (apply Forall_map; eapply Forall_impl; [|exact F]; exact rii_apart_keys). now apply rii_const.
  - rewrite (process_seq dk Pd _ _ HP) by now apply map_keys_apart. now apply sets_const.
Qed.

Lemma eps_step W disp b rows dt f p : shows W disp -> In dt ["tabulated eps_r"; "tabulated eps_k"] -> set_read (tab_dict W b rows dt) f -> savable_part (DInterp b rows) ->
  process_dataset f p = Ok (set_defaults p (d_type b) (d_unit b)).
Proof.
  intros HW Hd Hr (Fr & Lr & NT & NU). destruct (read_tab W b rows dt f Hr) as (R1 & R2 & R3 & R4).
  assert (rows <> []) as Hne by (intros ->; cbn in Lr; lia).
  assert (exists id, dt = ("tabulated " ++ id)%string /\ In id tab_ids /\ In id ["eps_r"; "eps_k"]) as (id & Hdt & Hid & Hid').
  { cbn in Hd. destruct Hd as [<-|[<-|[]]]; [exists "eps_r"|exists "eps_k"]; split; try reflexivity; cbn; tauto. }
  rewrite Hdt in R1. rewrite (tab_dataset f id 2 (shown disp (table_of rows)) p _ _ Hid R1 R2 R3) by (rewrite R4; cbn [dval_tab]; apply (pairs_parse W disp HW); try assumption; lia).
  rewrite !orelse_nonempty by assumption. now apply table_eps_part.
Qed.
Lemma eps_sets W disp l fl p : shows W disp -> Forall (fun s => exists b rows dt, s = tab_dict W b rows dt /\ In dt ["tabulated eps_r"; "tabulated eps_k"] /\ savable_part (DInterp b rows)) l ->
  Forall2 set_read l fl -> exists st un, process_datasets fl p = Ok (set_defaults p st un).
Proof.
  intros HW F H. revert p. induction H as [|s f l fl Hs H IH]; intros p; [exists (p_stype p), (p_unit p); destruct p; reflexivity|].
  destruct (Forall_inv F) as (b & rows & dt & -> & Hd & Hsv). destruct (IH (Forall_inv_tail F) (set_defaults p (d_type b) (d_unit b))) as (st & un & E).
  exists st, un. cbn [process_datasets]. rewrite (eps_step W disp b rows dt f p HW Hd Hs Hsv). cbn [bind]. rewrite E. reflexivity.
Qed.

Lemma C43_eps_lost_refuted_l : forall W disp yl path m c meta fs ic ops fk dk,
  shows W disp -> yaml_library W yl -> named path ".yml" -> Permutation FILE_META_DATA_KEYS fk -> Permutation DATASET_META_DATA_KEYS dk -> m_meta m = Some meta -> dget meta "MetaComment" = Some (MStr c) -> yaml_text c -> standard_meta meta ->
  m_name m = "eps" -> savable_part (m_real m) -> savable_part (m_imag m) ->
  (forall b k ps, m_real m <> DModel b k ps) -> (forall b k ps, m_imag m <> DModel b k ps) ->
  ic = true \/ (~ constant_part (m_real m) /\ ~ constant_part (m_imag m)) -> save_material W path m fs ic false = (Ok tt, ops) ->
  exists m', mk_material (read_path fk dk yl (fs_run fs ops)) [("file_path", PStr path)] = Ok m' /\
    m_name m' = "" /\ m_complex m' = None /\ zero_part (m_real m') /\ zero_part (m_imag m').
Proof.
  intros W disp yl path m c meta fs ic ops fk dk HW HY Hp Pf Pd Hm Hc Ht Hst Hn S1 S2 M1 M2 Hic HS.
  destruct (yaml_back W yl path m c meta fs ic ops fk dk Hp HY Pf Pd HS Hm Hc Ht Hst Hic) as (w & fd & Hw & ER & _ & HF & _ & HK).
  destruct (writer_parts W path m w Hw) as (a & b & Ea & Eb & Ec). rewrite Hn in Ea, Eb.
  assert (forall part d s, In part ["real"; "imag"] -> part_dict W "eps" part d = Ok s -> (forall b k ps, d <> DModel b k ps) -> savable_part d ->
    (is_const s = true \/ exists b0 rows dt, s = tab_dict W b0 rows dt /\ In dt ["tabulated eps_r"; "tabulated eps_k"] /\ savable_part (DInterp b0 rows)) /\
    exists t, dget s "DataType" = Some (DStr t) /\ t <> "tabulated n" /\ t <> "tabulated k") as G.
  { intros part d s Hpt Hd HM Hsv. destruct d as [b0 v|b0 rows|b0 k ps|b0 x y]; [| |exfalso; now apply (HM b0 k ps)|destruct Hsv].
    - split; [left; apply (part_const_iff _ _ _ _ _ Hpt Hd); now exists b0, v|]. destruct (part_type _ _ _ _ _ Hpt Hd) as (t & T & [(? & ? & X)|X]); [discriminate|now exists t].
    - rewrite part_dict_interp in Hd. cbn in Hpt. destruct Hpt as [<-|[<-|[]]]; injection Hd as <-; split.
      + right. exists b0, rows, "tabulated eps_r". split; [reflexivity|]. split; [now left|exact Hsv].
      + eexists. split; [reflexivity|]. split; discriminate.
      + right. exists b0, rows, "tabulated eps_k". split; [reflexivity|]. split; [right; now left|exact Hsv].
      + eexists. split; [reflexivity|]. split; discriminate. }
  destruct (G _ _ _ (or_introl eq_refl) Ea M1 S1) as [Ga (ta & Ta & Na)]. destruct (G _ _ _ (or_intror (or_introl eq_refl)) Eb M2 S2) as [Gb (tb & Tb & Nb)].
  assert (w_sets w = [a; b]) as Es by (apply (collapse_const W a b (w_sets w) Ec); [left; intros t E; congruence|now exists ta|now exists tb]).
  pose proof (written_no_const W path m w ic Hw Hic) as HC. rewrite Es in *.
  destruct (eps_sets W disp (written_sets ic [a; b]) (fd_sets fd) p_start HW) as (st & un & EL); [|exact HF|].
  { apply Forall_forall. intros s Hs. assert (is_const s = false) as Cs by (apply negb_true_iff, (proj1 (forallb_forall _ _) HC s Hs)).
    assert (In s [a; b]) as Hs' by (destruct ic; [apply filter_In in Hs; tauto|exact Hs]).
    destruct Hs' as [<-|[<-|[]]]; [destruct Ga as [X|X]|destruct Gb as [X|X]]; try congruence; exact X. }
  destruct (copy_meta_total (fd_meta fd) HK) as [meta' HM].
  assert (exists z, constant_default (ORe (Fin 0)) = Ok z) as [z Ez] by (eexists; reflexivity).
  rewrite load_material, ER. cbn [bind]. rewrite HM. cbn [bind]. fold p_start. rewrite EL. cbn [bind].
  unfold complete. cbn [p_start set_defaults p_real p_imag p_name p_complex bind]. rewrite Ez. cbn [bind].
  eexists. split; [reflexivity|]. now repeat split.
Qed.

Lemma C43_units_lost_refuted_l : forall W disp path m m' c meta ic b b' n k,
  shows W disp -> named path ".yml" -> m_meta m = Some meta -> dget meta "MetaComment" = Some (MStr c) -> yaml_text c -> standard_meta meta ->
  tables_of m b b' n k -> float_table n -> float_table k -> (2 <= length n <= 333)%nat -> length k = length n ->
  share_grid disp b b' n k -> yaml_cycle W path ic true m m' ->
  exists b1 b1' n' k', tables_of m' b1 b1' n' k' /\ near_table (11 / 10 ^ 9) n n' /\ near_values (11 / 10 ^ 9) k k' /\
    d_type b1 = "wavelength" /\ d_type b1' = "wavelength" /\ d_unit b1 = "nanometer" /\ d_unit b1' = "nanometer".
Proof.
  intros W disp path m m' c meta ic b b' n k HW Hp Hm Hc Ht Hst HT Fn Fk Hl Hk Hs [fk dk yl fs ops Pf Pd HY HS HL].
  assert (n <> []) as Hn by (intros ->; cbn in Hl; lia).
  assert (ic = true \/ (~ constant_part (m_real m) /\ ~ constant_part (m_imag m))) as Hic.
  { right. destruct HT as (_ & _ & -> & ->). split; intros (? & ? & X); discriminate. }
  destruct (yaml_back_rii W yl path m c meta fs ic ops fk dk Hp HY Pf Pd HS Hm Hc Ht Hst Hic) as (w & fd & Hw & ER & _ & HF & _).
  assert (w_sets w = [set_together W disp b n k]) as Es.
  { unfold mk_writer in Hw. rewrite (prepare_tables W m meta b b' n k HT Hm), (proj1 (collapse_share W disp HW b b' n k Fn Fk Hn Hk ltac:(lia)) Hs) in Hw.
    cbn [bind] in Hw. injection Hw as <-. reflexivity. }
  assert (written_sets ic (w_sets w) = [set_together W disp b n k]) as E0 by (rewrite Es; destruct ic; reflexivity). rewrite E0 in HF.
  inversion HF as [|x f l l' Hf HF' E1 E2]; subst. inversion HF'; subst.
  destruct (load_ok _ _ _ _ ER HL) as (meta' & p & L1 & L2 & L3). rewrite <- E2 in L2. cbn [process_datasets] in L2. inv_bind L2 p1 L4. injection L2 as ->.
  pose proof (together_parse W disp HW n k Fn Fk Hn Hk ltac:(lia)) as EP.
  destruct Hf as (R1 & _ & R2 & R3 & _ & v & R4 & [R5|[R5 _]]); [|discriminate R5].
  change (Some (DStr "tabulated nk") = Some (ds_type f)) in R1. injection R1 as R1. symmetry in R1.
  change (Some (DStr (numeric_to_string_table W (ND2 3 (beside (shown disp (table_of n)) (shown disp (table_of k)))))) = Some v) in R5. injection R5 as <-.
  rewrite rii_keep in R4 by (intros s E; injection E as <-; exact (rii_no_table _ _ EP)).
  rewrite (tab_dataset f "nk" 3 (shown disp (beside (shown disp (table_of n)) (shown disp (table_of k)))) _ _ _ (or_introl eq_refl) R1 R2 R3) in L4
    by (rewrite R4; cbn [dval_tab]; exact EP).
  destruct (table_nk _ _ _ L4) as (b1 & b2 & -> & T1 & U1 & T2 & U2); [rewrite (beside_shown_len disp n k Hk); lia|].
  unfold complete in L3. cbn [set_real set_imag set_defaults p_real p_imag p_name p_complex bind] in L3. injection L3 as <-.
  set (data := shown disp _) in *. exists b1, b2, (pair_cols 0 1 data), (pair_cols 0 2 data). split; [repeat split|].
  destruct (yaml_together_near W disp HW n k Fn Fk Hk) as [Q1 Q2]. split; [exact Q1|]. split; [exact Q2|]. now repeat split.
Qed.

Lemma C43_rii_model_refuted_l : forall W disp yl path m c meta fs ops fk dk b k ps,
  shows W disp -> yaml_library W yl -> named path ".yml" -> Permutation FILE_META_DATA_KEYS fk -> Permutation DATASET_META_DATA_KEYS dk ->
  m_meta m = Some meta -> dget meta "MetaComment" = Some (MStr c) -> yaml_text c -> standard_meta meta ->
  m_name m = "nk" -> m_real m = DModel b k ps -> savable_part (m_real m) -> constant_part (m_imag m) ->
  save_material W path m fs true true = (Ok tt, ops) ->
  mk_material (read_path fk dk yl (fs_run fs ops)) [("file_path", PStr path)] = Raise ValueError.
Proof.
  intros W disp yl path m c meta fs ops fk dk b k ps HW HY Hp Pf Pd Hm Hc Ht Hst Hn Hr Hsv Hcp HS.
  destruct (yaml_back_rii W yl path m c meta fs true ops fk dk Hp HY Pf Pd HS Hm Hc Ht Hst (or_introl eq_refl)) as (w & fd & Hw & ER & _ & HF & _ & HK).
  destruct (writer_parts W path m w Hw) as (a & i & Ea & Ei & Ec).
  rewrite (sets_with_const W path m w a i Hw (or_intror Hcp) Ea Ei) in HF. rewrite Hr in Ea. rewrite part_model in Ea. injection Ea as <-.
  cbn [written_sets filter] in HF. rewrite (proj2 (part_const_iff _ _ _ _ _ (or_intror (or_introl eq_refl)) Ei) Hcp) in HF.
  change (is_const (model_dict W b k ps)) with (contains_str "constant" ("model " ++ model_name k)%string) in HF. rewrite model_constant in HF. cbn [negb] in HF.
  inversion HF as [|x f l l' Hf HF' E1 E2]; subst. inversion HF'; subst.
  rewrite Hr in Hsv. destruct Hsv as (Ho & Fp & Lp & Fr & Lr & NT & NU).
  pose proof (vector_round_trip W disp HW _ (floats_displayable _ Fr) ltac:(lia)) as VR. pose proof (vector_round_trip W disp HW _ (floats_displayable _ Fp) Lp) as VP.
  destruct Hf as (R1 & R0 & R2 & R3 & _ & v & R4 & [R5|[_ R5]]); [discriminate R5|].
  change (Some (DStr ("model " ++ model_name k)%string) = Some (ds_type f)) in R1. injection R1 as R1. symmetry in R1.
  change (Some (DStr (numeric_to_string_table W (ND1 ps))) = Some v) in R5. injection R5 as <-.
  rewrite rii_keep in R4 by (intros s E; injection E as <-; exact (rii_no_number _ _ VP)).
  change (ds_range f = rii_value (DStr (numeric_to_string_table W (vals_nd (sp_values (d_range b)))))) in R0.
  rewrite rii_keep in R0 by (intros s E; injection E as <-; exact (rii_no_number _ _ VR)).
  destruct (copy_meta_total (fd_meta fd) HK) as [meta' HM].
  rewrite load_material, ER. cbn [bind]. rewrite HM. cbn [bind]. rewrite <- E2. cbn [process_datasets].
  fold p_start. rewrite (model_dataset W disp f b k ps p_start HW R1 R0 R4 _ _ R2 R3 Fp Fr Lp Lr).
  unfold process_model_dict. cbn [kw_name kw_stype kw_unit kw_params kw_range opt_key bind]. rewrite class_of. cbn [bind].
  change (orelse "" (p_stype p_start)) with "wavelength". change (orelse "" (p_unit p_start)) with "nanometer".
  set (l0 := map (disp (elems _)) _). unfold mk_model, mk_base, mk_spectrum.
  change (negb (dhas SPECTRUM_TYPES (lower "wavelength"))) with false. cbv iota. change (standardise_unit (lower "wavelength") (lower "nanometer")) with (Ok "nm"). cbn [bind].
  destruct (standardise_values (lower "wavelength") "nm" (VA l0)) as [sv|e] eqn:ESV; [|exfalso; vm_compute in ESV; discriminate].
  cbn [bind]. assert (required k = Some ("wavelength", "um")) as RQ by (destruct k; try reflexivity; discriminate Ho).
  unfold validate_spectrum_type. rewrite RQ. unfold mk_spectrum.
  change (negb (dhas SPECTRUM_TYPES (lower "wavelength"))) with false. cbv iota. change (standardise_unit (lower "wavelength") (lower "nanometer")) with (Ok "nm"). cbn [bind].
  destruct (standardise_values (lower "wavelength") "nm" (VS (Fin 1))) as [sv1|e] eqn:ESV1; [|exfalso; vm_compute in ESV1; discriminate]. reflexivity.
Qed.

Lemma pmd_missing fk dk keys doc k : In k keys -> dget doc (upper k) = None -> forall meta sets,
  exists e meta', process_mat_dict fk dk keys doc meta sets = (Raise e, meta') /\
    ((forall n, dget doc "DATA" = Some n -> exists l, process_mat_data_dict dk n = Ok l) -> e = KeyError).
Proof.
  intros Hk HN. induction keys as [|q keys IH]; intros meta sets; [destruct Hk|]. cbn [process_mat_dict].
  destruct (dget doc (upper q)) as [arg|] eqn:EA; [|now exists KeyError, meta].
  assert (In k keys) as Hk' by (destruct Hk as [->|Hk]; [congruence|exact Hk]). specialize (IH Hk').
  destruct (String.eqb (upper q) "DATA") eqn:ED.
  - apply String.eqb_eq in ED. rewrite ED in EA. destruct (process_mat_data_dict dk arg) as [l|e] eqn:EP; [apply IH|].
    exists e, meta. split; [reflexivity|]. intros H. destruct (H _ EA) as [l X]. congruence.
  - destruct (String.eqb (upper q) "SPECS"); [apply IH|]. destruct (match_key fk (upper q)); apply IH.
Qed.
Lemma read_yaml_doc fk dk yl fs path text doc : named path ".yml" -> dget fs path = Some text -> yl text = Ok (YDict doc) ->
  read_path fk dk yl fs path = match process_mat_dict fk dk (map fst doc) doc (rd_meta (mk_reader fk path)) [default_data_dict] with
      | (Raise e, _) => Raise e
      | (Ok sets, meta) => Ok (mkFdict (dset meta "MetaComment" (MStr (drop_last (join NL (read_text_comment text))))) sets)
      end.
Proof.
  intros Hp Hf E. unfold read_path. set (r := mk_reader fk path).
  assert (rd_ext r = ".yml") as R1 by exact (yml_ext path Hp). assert (rd_sets r = [default_data_dict]) as R2 by reflexivity. clearbody r.
  rewrite R1. change (smem ".yml" txt_types || String.eqb ".yml" ".yml") with true. cbv iota. unfold fs_read. rewrite Hf. cbn [bind].
  unfold read_file. rewrite R1. change (smem ".yml" txt_types) with false. change (String.eqb ".yml" ".yml") with true. cbv iota.
  unfold read_yaml_mat_file. rewrite E, R2. destruct (process_mat_dict _ _ _ _ _ _) as [[sets|e0] meta]; reflexivity.
Qed.

Lemma C47_lower_case_key_l : forall fk dk yl fs path text doc k,
  named path ".yml" -> dget fs path = Some text -> yl text = Ok (YDict doc) ->
  In k (map fst doc) -> ~ In (upper k) (map fst doc) ->
  exists e, read_path fk dk yl fs path = Raise e /\
    ((forall n, dget doc "DATA" = Some n -> exists l, process_mat_data_dict dk n = Ok l) -> e = KeyError).
Proof.
  intros fk dk yl fs path text doc k Hp Hf Hy Hk Hn. rewrite (read_yaml_doc fk dk yl fs path text doc Hp Hf Hy).
  destruct (pmd_missing fk dk (map fst doc) doc k Hk (proj2 (dget_None_keys doc (upper k)) Hn) (rd_meta (mk_reader fk path)) [default_data_dict]) as (e & meta' & E & H).
  rewrite E. now exists e.
Qed.

Lemma startswith_prefix p s : startswith p s = true -> prefix_of p s.
Proof.
  unfold startswith. revert s. induction p as [|c p IH]; intros s H; [now exists s|]. destruct s as [|d s]; [discriminate|]. cbn in H.
  destruct (ascii_dec c d) as [->|]; [|discriminate]. destruct (IH s H) as [r ->]. now exists r.
Qed.
Lemma dget_other {V} (d1 d2 : dict V) k v q : q <> k -> dget (d1 ++ (k, v) :: d2) q = dget (d1 ++ d2) q.
Proof.
  intros H. induction d1 as [|[x y] d1 IH]; cbn [app dget]; [|now rewrite IH]. destruct (String.eqb q k) eqn:E; [apply String.eqb_eq in E; congruence|reflexivity].
Qed.
Lemma pmd_same fk dk doc doc' keys : (forall q, In q keys -> dget doc (upper q) = dget doc' (upper q)) -> forall meta sets,
  process_mat_dict fk dk keys doc meta sets = process_mat_dict fk dk keys doc' meta sets.
Proof.
  induction keys as [|q keys IH]; intros H meta sets; [reflexivity|]. cbn [process_mat_dict]. rewrite (H q) by now left.
  assert (forall q, In q keys -> dget doc (upper q) = dget doc' (upper q)) as H' by (intros x Hx; apply H; now right). specialize (IH H').
  destruct (dget doc' (upper q)) as [arg|]; [|reflexivity]. destruct (String.eqb (upper q) "DATA"); [destruct (process_mat_data_dict dk arg); [apply IH|reflexivity]|].
  destruct (String.eqb (upper q) "SPECS"); [apply IH|]. destruct (match_key fk (upper q)); apply IH.
Qed.
Lemma pmd_skip fk dk doc k d2 d1 : upper k = k -> dget doc k <> None -> k <> "DATA" -> k <> "SPECS" -> match_key fk k = None -> forall meta sets,
  process_mat_dict fk dk (d1 ++ k :: d2) doc meta sets = process_mat_dict fk dk (d1 ++ d2) doc meta sets.
Proof.
  intros U D N1 N2 M. induction d1 as [|q d1 IH]; intros meta sets; cbn [app process_mat_dict].
  - rewrite U. destruct (dget doc k); [|congruence]. apply String.eqb_neq in N1, N2. now rewrite N1, N2, M.
  - destruct (dget doc (upper q)) as [arg|]; [|reflexivity]. destruct (String.eqb (upper q) "DATA"); [destruct (process_mat_data_dict dk arg); [apply IH|reflexivity]|].
    destruct (String.eqb (upper q) "SPECS"); [apply IH|]. destruct (match_key fk (upper q)); apply IH.
Qed.

Lemma C47_unknown_key_ignored_l : forall fk dk yl yl' fs path text d1 d2 k v,
  named path ".yml" -> dget fs path = Some text -> Permutation FILE_META_DATA_KEYS fk ->
  yl text = Ok (YDict (d1 ++ (k, v) :: d2)) -> yl' text = Ok (YDict (d1 ++ d2)) ->
  upper k = k -> ~ In k ["DATA"; "SPECS"] ->
  (forall q, In q ["COMMENT"; "REFERENCE"; "AUTHOR"; "NAME"; "FULLNAME"; "METACOMMENT"] -> ~ prefix_of q k) ->
  (forall q, In q (map fst (d1 ++ d2)) -> upper q <> k) ->
  read_path fk dk yl fs path = read_path fk dk yl' fs path.
Proof.
  intros fk dk yl yl' fs path text d1 d2 k v Hp Hf Pf Hy Hy' U N HP HQ.
  rewrite (read_yaml_doc fk dk yl fs path text _ Hp Hf Hy), (read_yaml_doc fk dk yl' fs path text _ Hp Hf Hy').
  assert (match_key fk k = None) as M.
  { rewrite (match_key_perm _ _ k file_keys_free Pf). destruct (match_key FILE_META_DATA_KEYS k) as [q|] eqn:E; [|reflexivity]. exfalso.
    unfold match_key in E. apply find_some in E. destruct E as [E1 E2]. apply startswith_prefix in E2. apply (HP (upper q)); [|exact E2].
    cbn in E1. repeat (destruct E1 as [<-|E1]; [cbn; tauto|]). destruct E1. }
  replace (map fst (d1 ++ (k, v) :: d2)) with (map fst d1 ++ k :: map fst d2) by (rewrite map_app; reflexivity). rewrite map_app.
  rewrite pmd_skip; [|exact U| |intros ->; apply N; now left|intros ->; apply N; right; now left|exact M].
  2: { apply dget_in_iff. rewrite map_app. apply in_app_iff. right. now left. }
  rewrite <- map_app. rewrite (pmd_same fk dk _ (d1 ++ d2) (map fst (d1 ++ d2))); [reflexivity|]. intros q Hq. apply dget_other. now apply HQ.
Qed.

Lemma C47_prefix_key_l : forall fk dk yl fs path text key v q,
  named path ".yml" -> dget fs path = Some text -> Permutation FILE_META_DATA_KEYS fk -> yl text = Ok (YDict [(key, NVal v)]) ->
  upper key = key -> In q ["Comment"; "Reference"; "Author"; "Name"; "FullName"] -> startswith (upper q) key = true ->
  exists fd, read_path fk dk yl fs path = Ok fd /\ dget (fd_meta fd) q = Some v.
Proof.
  intros fk dk yl fs path text key v q Hp Hf Pf Hy U Hq Hs. rewrite (read_yaml_doc fk dk yl fs path text _ Hp Hf Hy).
  assert (match_key fk key = Some q) as M.
  { rewrite (match_key_perm _ _ key file_keys_free Pf). apply match_key_unique; [apply file_keys_free| |exact Hs]. cbn in Hq |- *. tauto. }
  cbn [map fst process_mat_dict]. rewrite U. cbn [dget]. rewrite String.eqb_refl, M.
  assert (key <> "DATA" /\ key <> "SPECS") as [N1 N2] by (split; intros ->; cbn in Hq; repeat (destruct Hq as [<-|Hq]; [discriminate Hs|]); destruct Hq).
  apply String.eqb_neq in N1, N2. rewrite N1, N2. eexists. split; [reflexivity|]. cbn [fd_meta node_val].
  rewrite dget_dset_other by (intros <-; cbn in Hq; intuition discriminate). apply dget_dset_same.
Qed.

Lemma alias_custom k : dget KEY_ALIASES k = None -> forall meta last top, alias_meta meta last = Ok top -> In k (map fst meta) -> In k (map fst top).
Proof.
  intros Hk. induction meta as [|[q v] meta IH]; intros last top H Hi; [destruct Hi|]. cbn [alias_meta] in H. cbn [map fst In] in Hi.
  destruct (dget KEY_ALIASES q) as [a|] eqn:E.
  - inv_bind H rest E1. injection H as <-. destruct Hi as [->|Hi]; [congruence|]. right. now apply (IH (Some v) rest).
  - destruct last as [v'|]; [|discriminate]. inv_bind H rest E1. injection H as <-. destruct Hi as [->|Hi]; [now left|]. right. now apply (IH (Some v') rest).
Qed.
Lemma alias_keys : forall meta last top x, alias_meta meta last = Ok top -> In x (map fst top) -> exists q, In q (map fst meta) /\ x = alias_of q.
Proof.
  induction meta as [|[q v] meta IH]; intros last top x H Hi; [injection H as <-; destruct Hi|]. cbn [alias_meta] in H. unfold alias_of at 1 in IH.
  destruct (dget KEY_ALIASES q) as [a|] eqn:E.
  - inv_bind H rest E1. injection H as <-. cbn [map fst In] in Hi |- *. destruct Hi as [<-|Hi]; [exists q; split; [now left|unfold alias_of; now rewrite E]|].
    destruct (IH _ _ _ E1 Hi) as (q' & A & B). exists q'. split; [now right|exact B].
  - destruct last as [v'|]; [|discriminate]. inv_bind H rest E1. injection H as <-. cbn [map fst In] in Hi |- *. destruct Hi as [<-|Hi]; [exists q; split; [now left|unfold alias_of; now rewrite E]|].
    destruct (IH _ _ _ E1 Hi) as (q' & A & B). exists q'. split; [now right|exact B].
Qed.
Lemma fold_keys (top : dict mval) x : forall d, In x (map fst (fold_left (fun d kv => dset d (fst kv) (NVal (snd kv))) top d)) <-> In x (map fst d) \/ In x (map fst top).
Proof.
  induction top as [|q top IH]; intros d; [cbn; tauto|]. cbn [fold_left map In]. rewrite IH, dset_keys. intuition congruence.
Qed.
Lemma ddel_keys {V} (d : dict V) k q : q <> k -> In q (map fst (ddel d k)) <-> In q (map fst d).
Proof. intros H. rewrite !dget_in_iff, dget_ddel by congruence. tauto. Qed.
Lemma doc_keys w ic rii d : yaml_doc (no_comment w) ic rii = Ok d -> Forall writer_set (w_sets w) -> (length (w_sets w) = 1 \/ length (w_sets w) = 2)%nat ->
  (forall k, dget KEY_ALIASES k = None -> k <> "SPECS" -> In k (map fst (ddel (w_meta w) "MetaComment")) -> In k (map fst d)) /\
  (forall x, In x (map fst d) -> x = "DATA" \/ x = "SPECS" \/ exists q, In q (map fst (w_meta w)) /\ x = alias_of q) /\
  dget d "DATA" = Some (NSeq (if rii then map rii_dataset (written_sets ic (w_sets w)) else written_sets ic (w_sets w))).
Proof.
  intros H F L. unfold yaml_doc in H. cbn [no_comment w_sets w_meta] in H.
  inv_bind H ids E1. inv_bind H sets E2. inv_bind H top E3. cbv zeta in H. inv_bind H sp E4. inv_bind H s E5.
  apply (pop_written ic _ _ _ F L E1) in E2. subst sets. set (d0 := fold_left (fun d kv => dset d (fst kv) (NVal (snd kv))) top []) in *. set (seq := NSeq _) in *.
  assert (forall x, In x (map fst (dset d0 "DATA" seq)) <-> x = "DATA" \/ In x (map fst top)) as K by (intros x; rewrite dset_keys; unfold d0; rewrite fold_keys; cbn; tauto).
  assert (forall x, x <> "SPECS" -> In x (map fst d) <-> x = "DATA" \/ In x (map fst top)) as K2.
  { intros x Hx. rewrite <- K. destruct s as [s|]; injection H as <-; [rewrite dset_keys|]; rewrite ddel_keys by congruence; tauto. }
  split; [|split].
  - intros k Hk N Hi. apply K2; [exact N|]. right. now apply (alias_custom k Hk _ _ _ E3).
  - intros x Hx. destruct (string_dec x "SPECS") as [->|N]; [tauto|]. apply K2 in Hx; [|exact N]. destruct Hx as [->|Hx]; [tauto|]. right. right.
    destruct (alias_keys _ _ _ _ E3 Hx) as (q & A & B). exists q. split; [|exact B]. apply in_map_iff in A. destruct A as [pq [<- A]]. apply ddel_in in A. now apply in_map.
  - destruct s as [s|]; injection H as <-; [rewrite dget_dset_other by discriminate|]; rewrite dget_ddel by discriminate; apply dget_dset_same.
Qed.

Lemma C43_custom_key_refuted_l : forall W yl path m c meta fs ic rii ops fk dk k,
  named path ".yml" -> yaml_library W yl -> Permutation FILE_META_DATA_KEYS fk -> Permutation DATASET_META_DATA_KEYS dk ->
  save_material W path m fs ic rii = (Ok tt, ops) ->
  m_meta m = Some meta -> dget meta "MetaComment" = Some (MStr c) -> yaml_text c ->
  In k (map fst meta) -> (forall q, In q (map fst meta) -> q = k \/ In q (["Alias"; "MetaComment"; "Specification"] ++ header_keys)) ->
  ~ In k (["Alias"; "MetaComment"; "Specification"; "Datasets"] ++ header_keys) ->
  upper k <> k -> ~ In (upper k) ["REFERENCES"; "AUTHOR"; "FULLNAME"; "NAME"; "COMMENTS"; "SPECS"; "DATA"] ->
  ic = true \/ (~ constant_part (m_real m) /\ ~ constant_part (m_imag m)) ->
  read_path fk dk yl (fs_run fs ops) path = Raise KeyError.
Proof.
  intros W yl path m c meta fs ic rii ops fk dk k Hp HY Pf Pd HS Hm Hc Ht Hk HA HN HU HT Hic.
  destruct (yaml_saved W path m fs ic rii ops yl Hp HY HS) as (meta0 & w & c0 & d & M & Hw & Mw & F & L & Ed & Hc0 & Hd & He & Hf).
  rewrite Hm in M. injection M as <-. rewrite Hc in Hc0. injection Hc0 as <-.
  destruct (doc_keys w ic rii d Hd F L) as (K1 & K2 & K3). rewrite Mw in K1, K2.
  assert (dget KEY_ALIASES k = None) as HKA.
  { apply dget_None_keys. intros X. apply HN. cbn in X |- *. tauto. }
  assert (k <> "Alias" /\ k <> "MetaComment" /\ k <> "SPECS") as (N1 & N2 & N3).
  { split; [intros ->; apply HN; now left|]. split; [intros ->; apply HN; cbn; tauto|]. intros ->. now apply HU. }
  assert (In k (map fst d)) as Hkd.
  { apply K1; [exact HKA|exact N3|]. apply dget_in_iff. rewrite dget_ddel, dget_kept by congruence. now apply dget_in_iff. }
  assert (~ In (upper k) (map fst d)) as Hud.
  { intros X. destruct (K2 _ X) as [E|[E|(q & A & E)]]; [apply HT; rewrite E; cbn; tauto|apply HT; rewrite E; cbn; tauto|].
    assert (In q (map fst meta) /\ q <> "Alias") as [A1 A2].
    { unfold kept in A. apply in_map_iff in A. destruct A as [pq [<- A]]. apply filter_In in A. destruct A as [A A3]. split; [now apply in_map|]. intros X2. rewrite X2 in A3. discriminate. }
    destruct (HA q A1) as [->|B]; [unfold alias_of in E; rewrite HKA in E; congruence|].
    cbn in B. destruct B as [<-|[<-|[<-|B]]]; [congruence| |apply HT; rewrite E; cbn; tauto|].
    - change (alias_of "MetaComment") with "MetaComment" in E. clear -E. pose proof (upper_idem k) as X. rewrite E in X. discriminate X.
    - apply HT. rewrite E. repeat (destruct B as [<-|B]; [cbn; tauto|]). destruct B. }
  destruct (yaml_loaded W yl path (fs_run fs ops) c d fk dk Hp HY Ht He Hf) as (d' & Hs & ER). rewrite ER.
  pose proof (same_doc_keys d d' Hs) as P.
  destruct (pmd_missing fk dk (map fst d') d' k (Permutation_in _ P Hkd)) with (meta := rd_meta (mk_reader fk path)) (sets := [default_data_dict]) as (e & meta' & E & HE).
  { apply dget_None_keys. intros X. apply Hud. exact (Permutation_in _ (Permutation_sym P) X). }
  rewrite E, HE; [reflexivity|]. intros n Hn. pose proof (same_doc_get d d' "DATA" (proj1 He) Hs) as X. rewrite K3, Hn in X.
  destruct n as [v|sets']; [destruct X|]. pose proof (forall_written _ ic _ F) as F'. pose proof (written_no_const W path m w ic Hw Hic) as HC. destruct rii.
  - destruct (rii_sets_read _ F' HC) as (fl & Efl & _). exists fl. rewrite (process_seq dk Pd _ _ X); [exact Efl|]. apply Forall_map. eapply Forall_impl; [|exact F']. exact rii_apart_keys.
  - destruct (sets_read _ F' HC) as (fl & Efl & _). exists fl. rewrite (process_seq dk Pd _ _ X); [exact Efl|]. now apply map_keys_apart.
Qed.

Lemma C69_large_merged_yaml_l : forall W disp yl path m c meta sp b b' n k fs ic fk dk,
  shows W disp -> yaml_library W yl -> named path ".yml" -> Permutation FILE_META_DATA_KEYS fk -> Permutation DATASET_META_DATA_KEYS dk ->
  m_meta m = Some meta -> dget meta "MetaComment" = Some (MStr c) -> yaml_text c -> standard_meta meta -> dget meta "Specification" = Some (MMap sp) ->
  tables_of m b b' n k -> float_table n -> float_table k -> (333 < length n <= 500)%nat -> length k = length n -> share_grid disp b b' n k ->
  exists ops, save_material W path m fs ic false = (Ok tt, ops) /\
    mk_material (read_path fk dk yl (fs_run fs ops)) [("file_path", PStr path)] = Raise ValueError.
Proof.
  intros W disp yl path m c meta sp b b' n k fs ic fk dk HW HY Hp Pf Pd Hm Hc Ht Hst Hsp HT Fn Fk Hl Hk Hs.
  assert (n <> []) as Hn by (intros ->; cbn in Hl; lia).
  assert (mk_writer W path m = Ok (mkWriter path (splitext path) (kept meta) [set_together W disp b n k])) as Hw.
  { unfold mk_writer. rewrite (prepare_tables W m meta b b' _ _ HT Hm), (proj1 (collapse_share W disp HW b b' _ _ Fn Fk Hn Hk ltac:(lia)) Hs). reflexivity. }
  destruct (yaml_save_total W path m _ meta c sp fs ic false Hp Hw Hm Hc Hst Hsp ltac:(intros _; now right)) as [ops HS].
  assert (ic = true \/ (~ constant_part (m_real m) /\ ~ constant_part (m_imag m))) as Hic.
  { right. destruct HT as (_ & _ & -> & ->). split; intros (? & ? & X); discriminate. }
  destruct (yaml_back W yl path m c meta fs ic ops fk dk Hp HY Pf Pd HS Hm Hc Ht Hst Hic) as (w & fd & Hw' & ER & _ & HF & _ & HK).
  rewrite Hw in Hw'. injection Hw' as <-. cbn [w_sets] in HF.
  assert (written_sets ic [set_together W disp b n k] = [set_together W disp b n k]) as E0 by (destruct ic; reflexivity). rewrite E0 in HF.
  inversion HF as [|x f l0 l' Hf HF' E1 E2]; subst. inversion HF'; subst. clear HF HF'.
  destruct (read_merged _ _ _ _ Hf) as (R1 & R2 & R3 & R4). destruct (copy_meta_total (fd_meta fd) HK) as [meta' HM].
  exists ops. split; [exact HS|]. rewrite load_material, ER. cbn [bind]. rewrite HM. cbn [bind]. rewrite <- E2. cbn [process_datasets].
  unfold process_dataset. rewrite R1. change (dval_split (DStr "tabulated nk")) with (Ok ["tabulated"; "nk"]). cbn [bind].
  change (String.eqb "tabulated" "tabulated") with true. cbv iota. rewrite R4. cbn [dval_tab]. rewrite (together_too_large W disp HW n k Fn Fk Hk ltac:(lia)). reflexivity.
Qed.

Lemma C43_model_cycle_l : forall W disp yl path m c meta sp b k ps rng fs fk dk,
  shows W disp -> yaml_library W yl -> named path ".yml" -> Permutation FILE_META_DATA_KEYS fk -> Permutation DATASET_META_DATA_KEYS dk ->
  m_meta m = Some meta -> dget meta "MetaComment" = Some (MStr c) -> yaml_text c -> standard_meta meta -> dget meta "Specification" = Some (MMap sp) ->
  m_name m = "nk" -> m_complex m = None -> mk_model k ps rng (d_type b) (d_unit b) = Ok (DModel b k ps) -> m_real m = DModel b k ps -> savable_part (m_real m) -> constant_part (m_imag m) ->
  exists ops m', save_material W path m fs true false = (Ok tt, ops) /\
    mk_material (read_path fk dk yl (fs_run fs ops)) [("file_path", PStr path)] = Ok m' /\
    m_name m' = "nk" /\ part_kept (m_real m) (m_real m') /\ zero_part (m_imag m').
Proof.
  intros W disp yl path m c meta sp b k ps rng fs fk dk HW HY Hp Pf Pd Hm Hc Ht Hst Hsp Hn Hx Hmk Hr Hsv Hcp.
  destruct Hcp as (bi & vi & Hi).
  assert (exists w, mk_writer W path m = Ok w) as [w Hw].
  { unfold mk_writer, prepare_file_dict, dataset_to_dict. rewrite Hm, Hx, Hn, Hr, Hi. rewrite part_model.
    assert (exists d, part_dict W "nk" "imag" (DConst bi vi) = Ok d) as [d Ed] by (unfold part_dict; eexists; reflexivity). rewrite Ed. cbn [bind].
    destruct (collapse_datasets W [model_dict W b k ps; d]) as [l|e] eqn:El; [eexists; reflexivity|exfalso].
    destruct (part_type W "nk" "imag" _ _ (or_intror (or_introl eq_refl)) Ed) as (tb & Tb & Pb).
    assert (tb <> "tabulated n" /\ tb <> "tabulated k") as [N1 N2] by (destruct Pb as [(? & ? & X)|X]; [discriminate X|exact X]).
    assert (dget (model_dict W b k ps) "DataType" = Some (DStr ("model " ++ model_name k)%string)) as Ta by reflexivity.
    unfold collapse_datasets in El. rewrite find_no_table in El; [discriminate El|].
    constructor; [eexists; split; [exact Ta|destruct k; split; discriminate]|]. constructor; [|constructor]. now exists tb. }
  destruct (C43_can_save_l W path m w meta c sp fs true false Hp Hw Hm Hc Hst Hsp) as [ops HS].
  { intros _ [(? & ? & X) _]. rewrite Hr in X. discriminate. }
  exists ops. destruct (yaml_back W yl path m c meta fs true ops fk dk Hp HY Pf Pd HS Hm Hc Ht Hst (or_introl eq_refl)) as (w' & fd & Hw' & ER & _ & HF & _ & HK).
  rewrite Hw in Hw'. injection Hw' as <-.
  assert (constant_part (m_imag m)) as Hcp by (now exists bi, vi).
  destruct (writer_parts W path m w Hw) as (a & i & Ea & Ei & Ec). rewrite Hn in Ea, Ei. rewrite <- Hn in Ea, Ei.
  rewrite (sets_with_const W path m w a i Hw (or_intror Hcp) Ea Ei) in HF. rewrite Hn, Hr, part_model in Ea. injection Ea as <-.
  cbn [written_sets filter] in HF. rewrite (proj2 (part_const_iff _ _ _ _ _ (or_intror (or_introl eq_refl)) Ei) Hcp) in HF.
  change (is_const (model_dict W b k ps)) with (contains_str "constant" ("model " ++ model_name k)%string) in HF. rewrite model_constant in HF. cbn [negb] in HF.
  inversion HF as [|x f l l' Hf HF' E1 E2]; subst. inversion HF'; subst. clear HF HF'.
  rewrite Hr in Hsv. pose proof Hsv as (Ho & Fp & Lp & Fr & Lr & NT & NU).
  destruct (copy_meta_total (fd_meta fd) HK) as [meta' HM].
  assert (exists q, process_dataset f p_start = Ok q) as [q Eq].
  { destruct (read_model W b k ps f Hf) as (R1 & R2 & R3 & R4 & R5).
    rewrite (model_dataset W disp f b k ps p_start HW R1 R2 R5 _ _ R3 R4 Fp Fr Lp Lr). rewrite !orelse_nonempty by assumption.
    unfold process_model_dict. cbn [kw_name kw_stype kw_unit kw_params kw_range opt_key bind]. rewrite class_of. cbn [bind]. rewrite Ho.
    unfold mk_model in Hmk |- *. inv_bind Hmk b0 Eb. inv_bind Hmk u0 Ev. rewrite Ev. set (l0 := map (disp (elems _)) _).
    assert (exists b1, mk_base (InVals (VA l0)) (d_type b) (d_unit b) = Ok b1) as [b1 ->]; [|eexists; reflexivity].
    assert (required k = Some ("wavelength", "um")) as RQ by (destruct k; try reflexivity; discriminate Ho).
    unfold validate_spectrum_type in Ev. rewrite RQ in Ev. inv_bind Ev s Es. 
    destruct (String.eqb (sp_type s) "wavelength") eqn:ET; [|discriminate Ev]. destruct (String.eqb (sp_unit s) "um") eqn:EU; [|discriminate Ev].
    apply String.eqb_eq in ET, EU. unfold mk_base. unfold mk_spectrum in Es |- *. destruct (negb (dhas SPECTRUM_TYPES (lower (d_type b)))); [discriminate|].
    inv_bind Es u1 Eu. inv_bind Es sd Esd. injection Es as <-. cbn [sp_type sp_unit] in ET, EU. rewrite Eu. cbn [bind]. rewrite ET, EU.
    destruct (standardise_values "wavelength" "um" (VA l0)) as [sv|e] eqn:ESV; [eexists; reflexivity|exfalso; vm_compute in ESV; discriminate]. }
  destruct (step_model W disp b k ps f _ _ HW Hf Hsv Eq) as (d' & K & ->).
  rewrite load_material, ER. cbn [bind]. rewrite HM. cbn [bind]. rewrite <- E2. cbn [process_datasets]. fold p_start. rewrite Eq. cbn [bind].
  unfold complete. cbn [set_real set_defaults p_real p_imag p_name p_complex bind].
  assert (exists z, constant_default (ORe (Fin 0)) = Ok z) as [z Ez] by (eexists; reflexivity). rewrite Ez. cbn [bind].
  eexists. split; [exact HS|]. split; [reflexivity|]. split; [reflexivity|]. split; [rewrite Hr; exact K|exact Ez].
Qed.

Lemma Forall2_right {A B} (P : A -> B -> Prop) xs ys y : Forall2 P xs ys -> In y ys -> exists x, In x xs /\ P x y.
Proof. induction 1 as [|a b xs ys H _ IH]; intros I; [destruct I|]. destruct I as [<-|I]; [exists a; split; [now left|exact H]|]. destruct (IH I) as (x & Hx & Px). exists x. split; [now right|exact Px]. Qed.
Lemma collapse_one_table W disp b rows dt o t : shows W disp -> In dt ["tabulated n"; "tabulated k"] -> float_table rows -> (2 <= length rows <= 500)%nat ->
  dget o "DataType" = Some (DStr t) -> t <> "tabulated n" /\ t <> "tabulated k" ->
  collapse_datasets W [tab_dict W b rows dt; o] = Ok [tab_dict W b rows dt; o] /\ collapse_datasets W [o; tab_dict W b rows dt] = Ok [o; tab_dict W b rows dt].
Proof.
  intros HW Hd Fr Lr Ht [N1 N2]. apply String.eqb_neq in N1, N2. assert (rows <> []) as Hne by (intros ->; cbn in Lr; lia).
  pose proof (pairs_parse W disp HW rows Fr Hne ltac:(lia)) as P.
  assert (dlookup o "DataType" = Ok (DStr t)) as Lo by (unfold dlookup; now rewrite Ht).
  split; unfold collapse_datasets; cbn [find_tables]; rewrite Lo; cbn [bind dstr_eqb]; rewrite N1, N2;
    change (dlookup (tab_dict W b rows dt) "DataType") with (Ok (DStr dt)); change (dlookup (tab_dict W b rows dt) "Data") with (Ok (DStr (numeric_to_string_table W (pairs_nd rows))));
    cbn in Hd; destruct Hd as [<-|[<-|[]]]; cbn [bind dstr_eqb String.eqb Ascii.eqb Bool.eqb dval_tab fst snd]; rewrite P; reflexivity.
Qed.
Lemma model_total W disp b k ps rng f p : shows W disp -> set_read (model_dict W b k ps) f -> savable_part (DModel b k ps) ->
  mk_model k ps rng (d_type b) (d_unit b) = Ok (DModel b k ps) -> exists q, process_dataset f p = Ok q.
Proof.
  intros HW Hf (Ho & Fp & Lp & Fr & Lr & NT & NU) Hmk. destruct (read_model W b k ps f Hf) as (R1 & R2 & R3 & R4 & R5).
  rewrite (model_dataset W disp f b k ps p HW R1 R2 R5 _ _ R3 R4 Fp Fr Lp Lr). rewrite !orelse_nonempty by assumption.
  unfold process_model_dict. cbn [kw_name kw_stype kw_unit kw_params kw_range opt_key bind]. rewrite class_of. cbn [bind]. rewrite Ho.
  unfold mk_model in Hmk |- *. inv_bind Hmk b0 Eb. inv_bind Hmk u0 Ev. rewrite Ev. set (l0 := map (disp (elems _)) _).
  assert (exists b1, mk_base (InVals (VA l0)) (d_type b) (d_unit b) = Ok b1) as [b1 ->]; [|eexists; reflexivity].
  assert (required k = Some ("wavelength", "um")) as RQ by (destruct k; try reflexivity; discriminate Ho).
  unfold validate_spectrum_type in Ev. rewrite RQ in Ev. inv_bind Ev s Es.
  destruct (String.eqb (sp_type s) "wavelength") eqn:ET; [|discriminate Ev]. destruct (String.eqb (sp_unit s) "um") eqn:EU; [|discriminate Ev].
  apply String.eqb_eq in ET, EU. unfold mk_base. unfold mk_spectrum in Es |- *. destruct (negb (dhas SPECTRUM_TYPES (lower (d_type b)))); [discriminate|].
  inv_bind Es u1 Eu. inv_bind Es sd Esd. injection Es as <-. cbn [sp_type sp_unit] in ET, EU. rewrite Eu. cbn [bind]. rewrite ET, EU.
  destruct (standardise_values "wavelength" "um" (VA l0)) as [sv|e] eqn:ESV; [eexists; reflexivity|exfalso; vm_compute in ESV; discriminate].
Qed.
Lemma shown_finite W disp rows : shows W disp -> float_table rows -> (forall r, In r rows -> exists x y, r = (Fin x, Fin y)) ->
  exists l, pair_cols 0 1 (shown disp (table_of rows)) = xrows l /\ map (fun r => disp (concat (table_of rows)) (fst r)) rows = map (fun r => Fin (fst r)) l.
Proof.
  intros HW Ft HF. pose proof (float_table_concat _ Ft) as An. rewrite shown_table. unfold pair_cols. rewrite map_map. cbn [col nth].
  set (C := concat (table_of rows)) in *.
  assert (forall x, In (Fin x) C -> exists y, disp C (Fin x) = Fin y) as G.
  { intros x Hx. pose proof (disp_near W disp HW C (Fin x) An Hx) as N. unfold shown_near, near in N. destruct (disp C (Fin x)) as [y| | |]; try contradiction. now exists y. }
  assert (forall r, In r rows -> In (fst r) C /\ In (snd r) C) as I.
  { intros r Hr. unfold C, table_of. split; apply in_concat; exists [fst r; snd r]; (split; [apply (in_map (fun r => [fst r; snd r]) rows r Hr)|cbn; tauto]). }
  clearbody C. clear An Ft. induction rows as [|r rows IH]; [exists []; split; reflexivity|].
  destruct IH as (l & E1 & E2); [intros r' Hr'; apply HF; now right|intros r' Hr'; apply I; now right|].
  destruct (HF r (or_introl eq_refl)) as (x & y & ->). destruct (I _ (or_introl eq_refl)) as [I1 I2]. cbn [fst snd] in I1, I2.
  destruct (G x I1) as [x' Ex]. destruct (G y I2) as [y' Ey]. exists ((x', y') :: l). cbn [map fst snd xrows]. rewrite Ex, Ey. unfold xrows in E1. rewrite E2, <- E1. split; reflexivity.
Qed.
Lemma tab_total W disp b rows dt id f p : shows W disp -> In (dt, id) [("tabulated n", "n"); ("tabulated k", "k")] -> set_read (tab_dict W b rows dt) f ->
  savable_part (DInterp b rows) -> loadable_part disp (DInterp b rows) -> exists q, process_dataset f p = Ok q.
Proof.
  intros HW Hd Hr (Fr & Lr & NT & NU) (HF & HN & canon & HD). destruct (read_tab W b rows dt f Hr) as (R1 & R2 & R3 & R4).
  assert (rows <> []) as Hne by (intros ->; cbn in Lr; lia).
  assert (dt = ("tabulated " ++ id)%string /\ In id tab_ids) as [Hdt Hid] by (cbn in Hd; destruct Hd as [X|[X|[]]]; injection X as <- <-; split; try reflexivity; cbn; tauto).
  rewrite Hdt in R1. rewrite (tab_dataset f id 2 (shown disp (table_of rows)) p _ _ Hid R1 R2 R3)
    by (rewrite R4; cbn [dval_tab]; apply (pairs_parse W disp HW); try assumption; lia).
  rewrite !orelse_nonempty by assumption.
  destruct (shown_finite W disp rows HW Fr HF) as (l & El & Eg). rewrite Eg in HN.
  assert (NoDup (map fst l)) as HN' by (rewrite <- map_map in HN; now apply NoDup_map_inv in HN).
  assert (length l = length rows) as Hl by (apply (f_equal (@length _)) in Eg; rewrite !map_length in Eg; congruence).
  destruct (pairs_total l (d_type b) (d_unit b) canon ltac:(lia) HN' HD) as (b1 & E1 & _).
  rewrite <- El in E1. unfold process_table.
  cbn in Hd. destruct Hd as [X|[X|[]]]; injection X as <- <-.
  - change (String.eqb "n" "nk") with false. change (String.eqb "n" "n_alpha") with false. change (String.eqb "n" "n") with true. cbv iota.
    cbn [spec_data_from_table set_defaults p_stype p_unit]. rewrite E1. eexists; reflexivity.
  - change (String.eqb "k" "nk") with false. change (String.eqb "k" "n_alpha") with false. change (String.eqb "k" "n") with false. change (String.eqb "k" "k") with true. cbv iota.
    cbn [spec_data_from_table set_defaults p_stype p_unit]. rewrite E1. eexists; reflexivity.
Qed.
Lemma part_total W disp part d s f p : shows W disp -> In part ["real"; "imag"] -> (part = "imag" -> forall b k ps, d <> DModel b k ps) ->
  part_dict W "nk" part d = Ok s -> ~ constant_part d -> savable_part d -> loadable_part disp d -> set_read s f -> exists q, process_dataset f p = Ok q.
Proof.
  intros HW Hp Hm Hd Hc Hs Hl Hr. destruct d as [b v|b rows|b k ps|b a c]; [exfalso; apply Hc; now exists b, v| | |destruct Hs].
  - rewrite part_dict_interp in Hd. cbn in Hp. destruct Hp as [<-|[<-|[]]]; injection Hd as <-.
    + apply (tab_total W disp b rows "tabulated n" "n" f p HW (or_introl eq_refl) Hr Hs Hl).
    + apply (tab_total W disp b rows "tabulated k" "k" f p HW (or_intror (or_introl eq_refl)) Hr Hs Hl).
  - cbn in Hp. destruct Hp as [<-|[<-|[]]]; [|exfalso; now apply (Hm eq_refl b k ps)].
    rewrite part_model in Hd. injection Hd as <-. destruct Hl as [rng Hl]. exact (model_total W disp b k ps rng f p HW Hr Hs Hl).
Qed.

Lemma C43_parts_cycle_l : forall W disp yl path m c meta sp fs fk dk,
  shows W disp -> yaml_library W yl -> named path ".yml" -> Permutation FILE_META_DATA_KEYS fk -> Permutation DATASET_META_DATA_KEYS dk ->
  m_meta m = Some meta -> dget meta "MetaComment" = Some (MStr c) -> yaml_text c -> standard_meta meta -> dget meta "Specification" = Some (MMap sp) ->
  m_name m = "nk" -> m_complex m = None -> savable_part (m_real m) -> savable_part (m_imag m) -> loadable_part disp (m_real m) -> loadable_part disp (m_imag m) ->
  (forall b k ps, m_imag m <> DModel b k ps) -> ~ (constant_part (m_real m) /\ constant_part (m_imag m)) ->
  (forall b n b' k, m_real m = DInterp b n -> m_imag m = DInterp b' k -> length k = length n /\ ~ share_grid disp b b' n k) ->
  exists ops m', save_material W path m fs true false = (Ok tt, ops) /\
    mk_material (read_path fk dk yl (fs_run fs ops)) [("file_path", PStr path)] = Ok m' /\
    m_name m' = "nk" /\ m_complex m' = None /\ part_kept (m_real m) (m_real m') /\ part_kept (m_imag m) (m_imag m') /\
    reported_as m m'.
Proof.
  intros W disp yl path m c meta sp fs fk dk HW HY Hp Pf Pd Hm Hc Ht Hst Hsp Hn Hx S1 S2 L1 L2 HM HC HA.
  assert (forall b n b' k, m_real m = DInterp b n -> m_imag m = DInterp b' k -> ~ share_grid disp b b' n k) as HA' by (intros b n b' k E1 E2; exact (proj2 (HA b n b' k E1 E2))).
  assert (exists w, mk_writer W path m = Ok w) as [w Hw].
  { assert (forall part d, In part ["real"; "imag"] -> savable_part d -> exists s, part_dict W "nk" part d = Ok s) as G.
    { intros part d Hpt Hs. destruct d as [b v|b rows|b k ps|b a0 c0]; [rewrite part_const|rewrite part_dict_interp|rewrite part_model|destruct Hs]; cbn in Hpt; destruct Hpt as [<-|[<-|[]]]; eexists; reflexivity. }
    destruct (G "real" (m_real m) (or_introl eq_refl) S1) as [a Ea]. destruct (G "imag" (m_imag m) (or_intror (or_introl eq_refl)) S2) as [i Ei].
    assert (exists l, collapse_datasets W [a; i] = Ok l) as [l El].
    { destruct (m_real m) as [b v|b n|b k ps|b a0 c0] eqn:Hr; [| | |destruct S1];
        (destruct (m_imag m) as [b' v'|b' n'|b' k' ps'|b' a0' c0'] eqn:Hi; [| |exfalso; now apply (HM b' k' ps')|destruct S2]);
        try (destruct (part_type W "nk" "real" _ _ (or_introl eq_refl) Ea) as (ta & Ta & Pa); destruct (part_type W "nk" "imag" _ _ (or_intror (or_introl eq_refl)) Ei) as (ti & Ti & Pi);
             assert (ta <> "tabulated n" /\ ta <> "tabulated k") as [N1 N2] by (destruct Pa as [(? & ? & X)|X]; [discriminate X|exact X]);
             assert (ti <> "tabulated n" /\ ti <> "tabulated k") as [N3 N4] by (destruct Pi as [(? & ? & X)|X]; [discriminate X|exact X]);
             exists [a; i]; unfold collapse_datasets; rewrite find_no_table; [reflexivity|]; repeat (constructor; [eexists; split; [eassumption|now split]|]); constructor).
      - rewrite part_dict_interp in Ei. injection Ei as <-. destruct S2 as (F2 & K2 & _). destruct (part_type W "nk" "real" _ _ (or_introl eq_refl) Ea) as (ta & Ta & Pa).
        assert (ta <> "tabulated n" /\ ta <> "tabulated k") as NN by (destruct Pa as [(? & ? & X)|X]; [discriminate X|exact X]).
        exists [a; tab_dict W b' n' "tabulated k"]. apply (collapse_one_table W disp b' n' _ a ta HW (or_intror (or_introl eq_refl)) F2 ltac:(lia) Ta NN).
      - rewrite part_dict_interp in Ea. injection Ea as <-. destruct S1 as (F1 & K1 & _). destruct (part_type W "nk" "imag" _ _ (or_intror (or_introl eq_refl)) Ei) as (ti & Ti & Pi).
        assert (ti <> "tabulated n" /\ ti <> "tabulated k") as NN by (destruct Pi as [(? & ? & X)|X]; [discriminate X|exact X]).
        exists [tab_dict W b n "tabulated n"; i]. apply (collapse_one_table W disp b n _ i ti HW (or_introl eq_refl) F1 ltac:(lia) Ti NN).
      - rewrite part_dict_interp in Ea, Ei. injection Ea as <-. injection Ei as <-. destruct S1 as (F1 & K1 & _), S2 as (F2 & K2 & _). destruct (HA _ _ _ _ eq_refl eq_refl) as [HL HS].
        exists (sets_apart W b b' n n'). apply (proj2 (collapse_share W disp HW b b' n n' F1 F2 ltac:(intros ->; cbn in K1; lia) HL ltac:(lia)) HS).
      - rewrite part_dict_interp in Ei. injection Ei as <-. destruct S2 as (F2 & K2 & _). destruct (part_type W "nk" "real" _ _ (or_introl eq_refl) Ea) as (ta & Ta & Pa).
        assert (ta <> "tabulated n" /\ ta <> "tabulated k") as NN by (destruct Pa as [(? & ? & X)|X]; [discriminate X|exact X]).
        exists [a; tab_dict W b' n' "tabulated k"]. apply (collapse_one_table W disp b' n' _ a ta HW (or_intror (or_introl eq_refl)) F2 ltac:(lia) Ta NN). }
    unfold mk_writer, prepare_file_dict, dataset_to_dict. rewrite Hm, Hx, Hn, Ea, Ei. cbn [bind]. rewrite El. eexists; reflexivity. }
  destruct (C43_can_save_l W path m w meta c sp fs true false Hp Hw Hm Hc Hst Hsp ltac:(intros _; exact HC)) as [ops HS]. exists ops.
  assert (exists m', mk_material (read_path fk dk yl (fs_run fs ops)) [("file_path", PStr path)] = Ok m') as [m' HL].
  { destruct (yaml_back W yl path m c meta fs true ops fk dk Hp HY Pf Pd HS Hm Hc Ht Hst (or_introl eq_refl)) as (w' & fd & Hw' & ER & _ & HF & _ & HK).
    rewrite Hw in Hw'. injection Hw' as <-. destruct (apart_sets W disp path m w HW Hw Hn S1 S2 HA') as (a & i & Ea & Ei & Es). rewrite Es in HF.
    destruct (copy_meta_total (fd_meta fd) HK) as [meta' HMt].
    assert (exists p, process_datasets (fd_sets fd) p_start = Ok p) as [q Eq].
    { assert (forall l p, (forall f, In f l -> forall p, exists q, process_dataset f p = Ok q) -> exists q, process_datasets l p = Ok q) as G.
      { induction l as [|f l IH]; intros p0 Hf; [eexists; reflexivity|]. cbn [process_datasets]. destruct (Hf f (or_introl eq_refl) p0) as [q ->]. cbn [bind]. apply IH. intros f' Hf'. apply Hf. now right. }
      apply G. intros f Hf p. destruct (Forall2_right _ _ _ f HF Hf) as (s & Hs & Hsf). apply filter_In in Hs. destruct Hs as [Hs Hns]. apply negb_true_iff in Hns.
      cbn in Hs. destruct Hs as [<-|[<-|[]]].
      - destruct (part_const_set W "real" _ _ (or_introl eq_refl) Ea) as [Ca|[_ Na]]; [congruence|]. apply (part_total W disp "real" (m_real m) a f p HW (or_introl eq_refl)); try assumption. discriminate.
      - destruct (part_const_set W "imag" _ _ (or_intror (or_introl eq_refl)) Ei) as [Ca|[_ Na]]; [congruence|]. apply (part_total W disp "imag" (m_imag m) i f p HW (or_intror (or_introl eq_refl))); try assumption. intros _. exact HM. }
    rewrite load_material, ER. cbn [bind]. rewrite HMt. cbn [bind]. fold p_start. rewrite Eq. cbn [bind].
    assert (exists z, constant_default (ORe (Fin 0)) = Ok z) as [z Ez] by (eexists; reflexivity).
    unfold complete. destruct (p_real q), (p_imag q); cbn [bind]; rewrite ?Ez; cbn [bind]; eexists; reflexivity. }
  exists m'. split; [exact HS|]. split; [exact HL|].
  apply (C43_parts_kept_l W disp path m m' c meta true HW Hp Hm Hc Ht Hst Hn S1 S2 HM HA' (or_introl eq_refl)). exact (one_yaml_cycle W path true false m m' fk dk yl fs ops Pf Pd HY HS HL).
Qed.

Lemma custom_saves W path u t s : named path ".yml" -> exists ops w',
  write_file W (mkWriter path (splitext path) (kept (gold_meta "gold" ++ [("Sample", MStr "A1")])) [merged (DStr u) (DStr t) s]) [] true false = (Ok tt, ops, w').
Proof.
  intros Hp. set (w := mkWriter _ _ _ _). assert (exists d, yaml_doc (no_comment w) true false = Ok d) as [d Hd] by (eexists; reflexivity).
  destruct (write_file W w [] true false) as [[r ops] w'] eqn:E. destruct (write_cases W w [] true false r ops w' E) as [(Y & _)|(v & Hv & _ & HH)]; [discriminate Y|].
  injection Hv as <-. assert (body_of W true false (no_comment w) = Ok (yaml_dump W d, true)) as HB.
  { unfold body_of. change (w_ext (no_comment w)) with (splitext path). rewrite (yml_ext path Hp). change (smem ".yml" txt_types) with false. change (String.eqb ".yml" ".yml") with true. cbv iota. rewrite Hd. reflexivity. }
  destruct HH as [(e & Y & _)|(text & extra & Y & [(_ & -> & _)|[(c0 & _ & _ & -> & _)|(Z & _)]])]; first [now exists ops, w'|rewrite HB in Y; discriminate|exfalso; now apply (Z "gold")].
Qed.

From Verif Require Import YamlCodec YamlSample.

Lemma gold_standard c : standard_meta (gold_meta c).
Proof. split; [cbn; repeat (constructor; [cbn; intuition discriminate|]); constructor|]. intros k. cbn. tauto. Qed.
Lemma gold_yml : named "data/gold.yml" ".yml".
Proof. exists "data/gol", "d"%char. split; [reflexivity|]. split; discriminate. Qed.
Lemma yaml_text_dec s : forallb (fun c => Nat.leb 32 (nat_of_ascii c) && Nat.leb (nat_of_ascii c) 126) (chars s) = true -> yaml_text s.
Proof.
  intros H c Hc. rewrite forallb_forall in H. specialize (H c Hc). apply andb_true_iff in H. destruct H as [H1 H2].
  apply Nat.leb_le in H1, H2. right. right. left. lia.
Qed.
Lemma copy_meta_keys fm meta : copy_meta fm = Ok meta -> map fst meta = file_meta_keys.
Proof.
  unfold copy_meta. generalize file_meta_keys. intros l. revert meta. induction l as [|k l IH]; intros meta H; cbn [map_res] in H; [injection H as <-; reflexivity|].
  inv_bind H a E. inv_bind E v Ev. injection E as <-. inv_bind H rest E2. injection H as <-. cbn [map fst]. now rewrite (IH rest E2).
Qed.
Definition yaml_gold (m : material) (c : string) : Prop := gold_like m /\
  exists meta sp, m_meta m = Some meta /\ dget meta "MetaComment" = Some (MStr c) /\ standard_meta meta /\ dget meta "Specification" = Some (MMap sp).
Lemma yaml_gold_one m c ic : yaml_gold m c -> yaml_text c ->
  exists m', yaml_cycle yaml_env "data/gold.yml" ic false m m' /\ yaml_gold m' (next_yaml c).
Proof.
  intros [(b & b' & HT & T & U & T' & U') (meta & sp & Hm & Hc & Hst & Hsp)] Ht. destruct gold_float as [F1 F2].
  assert (d_unit b = d_unit b') as EU by congruence. assert (d_type b = d_type b') as ET by congruence.
  destruct (C43_cycle_exact_l yaml_env sample_disp sample_load "data/gold.yml" m c meta sp b b' gold_n gold_k [] ic FILE_META_DATA_KEYS DATASET_META_DATA_KEYS "nm") as (ops & m' & b1 & b1' & S1 & S2 & S3 & S4 & S5 & S6 & S7 & _);
    try assumption; try apply Permutation_refl; try reflexivity.
  - apply yaml_env_shows.
  - apply sample_library.
  - apply gold_yml.
  - cbn; lia.
  - apply gold_n_nodup.
  - rewrite T, U. exists ["nanometer"; "nanometre"; "nm"]. cbn; auto 10.
  - rewrite T. discriminate.
  - rewrite U. discriminate.
  - apply gold_display.
  - assert (yaml_cycle yaml_env "data/gold.yml" ic false m m') as FC by (eapply one_yaml_cycle; [apply Permutation_refl|apply Permutation_refl|apply sample_library|exact S1|exact S2]).
    exists m'. split; [exact FC|]. split; [exists b1, b1'; repeat split; first [apply S3|congruence]|].
    assert (ic = true \/ (~ constant_part (m_real m) /\ ~ constant_part (m_imag m))) as Hic by (right; destruct HT as (_ & _ & -> & ->); split; intros (? & ? & X); discriminate).
    destruct (yaml_back yaml_env sample_load "data/gold.yml" m c meta [] ic ops FILE_META_DATA_KEYS DATASET_META_DATA_KEYS gold_yml sample_library (Permutation_refl _) (Permutation_refl _) S1 Hm Hc Ht Hst Hic)
      as (w & fd & Hw & ER & [_ MR] & _ & MC & HK).
    destruct (load_ok _ _ _ _ ER S2) as (meta' & p & L1 & L2 & L3).
    assert (m_meta m' = Some meta') as Hm' by (unfold complete in L3; inv_bind L3 r E1; inv_bind L3 i E2; injection L3 as <-; reflexivity).
    rewrite Hsp in MR. destruct MR as (sp' & MR & _). exists meta', sp'. split; [exact Hm'|]. pose proof (copy_meta_keys _ _ L1) as KK.
    split; [rewrite (copy_meta_get _ _ _ L1) by (cbn; tauto); exact MC|]. split; [|rewrite (copy_meta_get _ _ _ L1) by (cbn; tauto); exact MR].
    split; rewrite KK; [cbn; repeat (constructor; [cbn; intuition discriminate|]); constructor|]. intros k. cbn. tauto.
Qed.
Lemma gold_start c : exists m, yaml_gold m c /\ m_meta m = Some (gold_meta c).
Proof.
  destruct (gold_exists c) as (m & b & b' & HT & T & U & T' & U' & HM & HH). exists m. split; [|exact HM]. split; [now exists b, b'|].
  exists (gold_meta c), []. split; [exact HM|]. split; [reflexivity|]. split; [apply gold_standard|reflexivity].
Qed.
Lemma yaml_gold_many n c : yaml_text c -> exists m m', yaml_gold m c /\ m_meta m = Some (gold_meta c) /\ yaml_cycles yaml_env "data/gold.yml" n m m'.
Proof.
  intros Ht. destruct (gold_start c) as (m & Hm & HM).
  assert (exists m' c', yaml_cycles yaml_env "data/gold.yml" n m m' /\ yaml_gold m' c' /\ yaml_text c') as (m' & _ & G & _).
  { induction n as [|n (m' & c' & I1 & I2 & I3)].
    - exists m, c. split; [constructor|]. now split.
    - destruct (yaml_gold_one m' c' true I2 I3) as (m2 & J1 & J2). exists m2, (next_yaml c').
      split; [exact (yaml_cycles_S _ _ n true false m m' m2 I1 J1)|]. split; [exact J2|]. exact (prefix_yaml_text _ _ (next_yaml_prefix c') I3). }
  now exists m, m'.
Qed.
(** a glass: Sellmeier formula for n, constant k *)
Lemma glass_exists : exists m b, mk_model Sellmeier [Fin 0; Fin 1.04; Fin 0.006] (InVals (VA [Fin 0.3; Fin 2.5])) "wavelength" "um" = Ok (DModel b Sellmeier [Fin 0; Fin 1.04; Fin 0.006]) /\
  m_meta m = Some (gold_meta "glass") /\ m_name m = "nk" /\ m_complex m = None /\ d_type b = "wavelength" /\ d_unit b = "um" /\
  m_real m = DModel b Sellmeier [Fin 0; Fin 1.04; Fin 0.006] /\ savable_part (m_real m) /\ constant_part (m_imag m).
Proof.
  destruct (mk_base (InVals (VA [Fin 0.3; Fin 2.5])) "wavelength" "um") as [b|e] eqn:Eb; [|exfalso; vm_compute in Eb; discriminate].
  destruct (constant_default (ORe (Fin 0.01))) as [z|e] eqn:Ez; [|exfalso; vm_compute in Ez; discriminate].
  exists (mkMat (Some (gold_meta "glass")) "nk" (DModel b Sellmeier [Fin 0; Fin 1.04; Fin 0.006]) z None "wavelength" "um"), b.
  assert (d_type b = "wavelength" /\ d_unit b = "um" /\ sp_values (d_range b) = VA [Fin 0.3; Fin 2.5]) as (T & U & V).
  { unfold mk_base, mk_spectrum in Eb. change (negb (dhas SPECTRUM_TYPES (lower "wavelength"))) with false in Eb. cbv iota in Eb.
    change (standardise_unit (lower "wavelength") (lower "um")) with (Ok "um") in Eb. cbn [bind] in Eb. inv_bind Eb s Es. inv_bind Es sd Esd. injection Es as <-. injection Eb as <-. now split. }
  split. { unfold mk_model. rewrite Eb. cbn [bind]. destruct (validate_spectrum_type Sellmeier "wavelength" "um") as [[]|e] eqn:E; [reflexivity|exfalso; vm_compute in E; discriminate]. }
  assert (forall r, Rabs r < 10 -> float_range (Fin r)) as HF.
  { intros r H. cbn. assert (10 ^ 0 <= 10 ^ 307) as P by (apply Rle_pow; [lra|lia]). cbn [pow] in P. lra. }
  split; [reflexivity|]. split; [reflexivity|]. split; [reflexivity|]. split; [exact T|]. split; [exact U|]. split; [reflexivity|]. split.
  - cbn [m_real savable_part]. split; [reflexivity|]. rewrite T, U, V. split; [repeat (constructor; [apply HF; rewrite Rabs_right; lra|]); constructor|]. split; [cbn; lia|].
    cbn [elems]. split; [repeat (constructor; [apply HF; rewrite Rabs_right; lra|]); constructor|]. split; [cbn; lia|]. split; discriminate.
  - cbn [m_imag]. unfold constant_default, mk_constant in Ez. destruct (mk_base _ _ _) as [bb|] eqn:E2; [|discriminate]. injection Ez as <-. eexists _, _. reflexivity.
Qed.

Lemma C43_rii_names_l : forall W yl path m fs ops,
  named path ".yml" -> yaml_library W yl -> save_material W path m fs true true = (Ok tt, ops) ->
  exists c doc sets, dget (fs_run fs ops) path = Some (c ++ yaml_dump W doc)%string /\ (c = "" \/ prefix_of "#" c) /\
    dget doc "DATA" = Some (NSeq sets) /\
    forall ds, In ds sets -> In "type" (map fst ds) /\ (In "data" (map fst ds) \/ In "wavelength_range" (map fst ds) /\ In "coefficients" (map fst ds)) /\
      forall k, In k (map fst ds) -> In k ["type"; "wavelength_range"; "data"; "coefficients"].
Proof.
  intros W yl path m fs ops Hp HY HS.
  destruct (yaml_saved W path m fs true true ops yl Hp HY HS) as (meta & w & c & d & M & Hw & Mw & F & L & Ed & Hc & Hd & He & Hf).
  destruct (doc_keys w true true d Hd F L) as (_ & _ & K).
  exists (yaml_block c), d, (map rii_dataset (written_sets true (w_sets w))). split; [exact Hf|]. split; [|split; [exact K|]].
  { unfold yaml_block. destruct (String.eqb c ""); [now left|right]. unfold block_of. now eexists. }
  intros ds Hi. apply in_map_iff in Hi. destruct Hi as (d0 & <- & Hi).
  assert (writer_set d0 /\ is_const d0 = false) as [Ws Wc].
  { unfold written_sets in Hi. apply filter_In in Hi. destruct Hi as [H1 H2]. rewrite Forall_forall in F. split; [now apply F|]. now apply negb_true_iff in H2. }
  destruct Ws as [r t u s dt Hdt|r t u dt Hdt|r t u k p y Hy|u t s].
  2: { exfalso. cbn in Hdt. repeat (destruct Hdt as [<-|Hdt]; [discriminate Wc|]). destruct Hdt. }
  all: match goal with |- context [rii_dataset ?d] => let k := eval cbv -[rii_value model_name append] in (map fst (rii_dataset d)) in change (map fst (rii_dataset d)) with k end;
    (split; [cbn; tauto|]); (split; [cbn; tauto|]); intros k' Hk; cbn in Hk |- *; tauto.
Qed.

Lemma ddel_filter (l : dict mval) k : NoDup (map fst l) -> ddel l k = filter (fun kv => negb (String.eqb k (fst kv))) l.
Proof.
  induction l as [|[x w] l IH]; intros H; [reflexivity|]. cbn [map fst] in H. inversion H; subst. cbn [ddel filter fst].
  destruct (String.eqb k x) eqn:E; cbn [negb]; [|now rewrite IH]. apply String.eqb_eq in E. subst x. clear -H2.
  induction l as [|[y v] l IH]; [reflexivity|]. cbn [map fst In] in H2. cbn [filter fst]. destruct (String.eqb k y) eqn:E; cbn [negb].
  - apply String.eqb_eq in E. subst. tauto.
  - now rewrite <- IH by tauto.
Qed.
Lemma alias_adjacent q k v v' a b : dget KEY_ALIASES q <> None -> dget KEY_ALIASES k = None -> forall last top,
  alias_meta (a ++ (q, v') :: (k, v) :: b) last = Ok top ->
  exists top1 top2 last', top = top1 ++ (k, v') :: top2 /\ alias_meta b last' = Ok top2.
Proof.
  intros Hq Hk. induction a as [|[x w] a IH]; intros last top H.
  - cbn [app alias_meta] in H. destruct (dget KEY_ALIASES q) as [al|]; [|congruence]. rewrite Hk in H. inv_bind H r1 E1. inv_bind E1 r2 E2.
    injection E1 as <-. injection H as <-. now exists [(al, v')], r2, (Some v').
  - cbn [app alias_meta] in H. destruct (dget KEY_ALIASES x) as [al|].
    + inv_bind H r1 E1. injection H as <-. destruct (IH _ _ E1) as (t1 & t2 & l' & -> & E). now exists ((al, w) :: t1), t2, l'.
    + destruct last as [v0|]; [|discriminate]. inv_bind H r1 E1. injection H as <-. destruct (IH _ _ E1) as (t1 & t2 & l' & -> & E). now exists ((x, v0) :: t1), t2, l'.
Qed.
Lemma fold_last (top1 top2 : dict mval) k v : ~ In k (map fst top2) -> forall d,
  dget (fold_left (fun d kv => dset d (fst kv) (NVal (snd kv))) (top1 ++ (k, v) :: top2) d) k = Some (NVal v).
Proof.
  intros H d. rewrite fold_left_app. cbn [fold_left fst snd]. generalize (fold_left (fun d kv => dset d (fst kv) (NVal (snd kv))) top1 d). intros d1.
  assert (forall dd, dget dd k = Some (NVal v) -> dget (fold_left (fun (d : dict ynode) (kv : string * mval) => dset d (fst kv) (NVal (snd kv))) top2 dd) k = Some (NVal v)) as G; [|apply G, dget_dset_same].
  induction top2 as [|[x w] top2 IH]; intros dd Hd; [exact Hd|]. cbn [fold_left fst snd]. cbn [map fst In] in H. apply IH; [tauto|].
  rewrite dget_dset_other; [exact Hd|]. intros ->. tauto.
Qed.

Lemma C43_custom_value_refuted_l : forall W yl path m fs ic rii ops a q v' mid k v b,
  named path ".yml" -> yaml_library W yl -> save_material W path m fs ic rii = (Ok tt, ops) ->
  m_meta m = Some (a ++ (q, v') :: mid ++ (k, v) :: b) -> NoDup (map fst (a ++ (q, v') :: mid ++ (k, v) :: b)) ->
  In q ("Specification" :: header_keys) -> (forall x, In x (map fst mid) -> In x ["Alias"; "MetaComment"]) ->
  ~ In k (["Alias"; "MetaComment"; "Specification"; "Datasets"; "REFERENCES"; "AUTHOR"; "FULLNAME"; "NAME"; "COMMENTS"; "SPECS"; "DATA"] ++ header_keys) ->
  exists c doc, dget (fs_run fs ops) path = Some (c ++ yaml_dump W doc)%string /\ dget doc k = Some (NVal v').
Proof.
  intros W yl path m fs ic rii ops a q v' mid k v b Hp HY HS HM HN Hq Hmid Hk.
  destruct (yaml_saved W path m fs ic rii ops yl Hp HY HS) as (meta & w & c & d & M & Hw & Mw & F & L & Ed & Hc & Hd & He & Hf).
  rewrite HM in M. injection M as <-. exists (yaml_block c), d. split; [exact Hf|].
  assert (dget KEY_ALIASES k = None) as Hka by (apply dget_None_keys; intros X; apply Hk; cbn in X |- *; tauto).
  assert (dget KEY_ALIASES q <> None) as Hqa by (cbn in Hq; repeat (destruct Hq as [<-|Hq]; [discriminate|]); destruct Hq).
  assert (k <> "Alias" /\ k <> "MetaComment" /\ q <> "Alias" /\ q <> "MetaComment") as (N1 & N2 & N3 & N4).
  { split; [intros ->; apply Hk; cbn; tauto|]. split; [intros ->; apply Hk; cbn; tauto|].
    cbn in Hq. repeat (destruct Hq as [<-|Hq]; [split; discriminate|]). destruct Hq. }
  set (f := fun kv : string * mval => negb (String.eqb "MetaComment" (fst kv))).
  assert (forall l, NoDup (map fst l) -> ddel (kept l) "MetaComment" = filter f (kept l)) as DD.
  { intros l Hl. apply ddel_filter. unfold kept. clear -Hl. induction l as [|[x w] l IH]; [constructor|]. cbn [filter fst map] in *. inversion Hl; subst.
    destruct (negb (String.eqb x "Alias")); [|now apply IH]. cbn [map fst]. constructor; [|now apply IH].
    intros Q. apply in_map_iff in Q. destruct Q as (p & <- & Q). apply filter_In in Q. destruct Q as [Q _]. now apply H1, in_map. }
  assert (exists a' b', ddel (w_meta w) "MetaComment" = a' ++ (q, v') :: (k, v) :: b' /\ forall x, In x (map fst b') -> In x (map fst b)) as (a' & b' & E & Hb).
  { rewrite Mw, DD by exact HN. unfold kept. exists (filter f (filter (fun kv => negb (String.eqb (fst kv) "Alias")) a)), (filter f (filter (fun kv => negb (String.eqb (fst kv) "Alias")) b)).
    split.
    - rewrite !filter_app. f_equal. cbn [filter fst]. apply String.eqb_neq in N1, N2, N3, N4. rewrite N3. cbn [negb]. rewrite filter_app. cbn [filter fst]. rewrite N1. cbn [negb].
      unfold f at 1. cbn [filter fst]. rewrite (String.eqb_sym "MetaComment" q), N4. cbn [negb]. f_equal.
      rewrite filter_app. cbn [filter]. unfold f at 2. cbn [fst]. rewrite (String.eqb_sym "MetaComment" k), N2. cbn [negb].
      assert (filter f (filter (fun kv => negb (String.eqb (fst kv) "Alias")) mid) = []) as ->; [|reflexivity].
      clear -Hmid. induction mid as [|[x w] mid IH]; [reflexivity|]. cbn [filter fst].
      assert (In x ["Alias"; "MetaComment"]) as Hx by (apply Hmid; now left). assert (forall y, In y (map fst mid) -> In y ["Alias"; "MetaComment"]) as Hr by (intros y Hy; apply Hmid; now right).
      destruct Hx as [<-|[<-|[]]]; cbn; exact (IH Hr).
    - intros x Hx. apply in_map_iff in Hx. destruct Hx as (p & <- & Hx). apply filter_In in Hx. destruct Hx as [Hx _]. apply filter_In in Hx. destruct Hx as [Hx _]. now apply in_map. }
  unfold yaml_doc in Hd. cbn [no_comment w_sets w_meta] in Hd. rewrite E in Hd.
  inv_bind Hd ids E1. inv_bind Hd sets E2. inv_bind Hd top E3. cbv zeta in Hd. inv_bind Hd sp E4. inv_bind Hd s E5.
  destruct (alias_adjacent q k v v' a' b' Hqa Hka _ _ E3) as (t1 & t2 & l' & -> & E6).
  assert (~ In k (map fst t2)) as Hkt.
  { intros X. destruct (alias_keys _ _ _ _ E6 X) as (x & Hx & Ex). apply Hb in Hx.
    unfold alias_of in Ex. destruct (dget KEY_ALIASES x) as [al|] eqn:Ea.
    - subst al. apply dget_In in Ea. cbn in Ea. repeat (destruct Ea as [Ea|Ea]; [injection Ea as <- <-; apply Hk; cbn; tauto|]). destruct Ea.
    - subst x. rewrite !map_app in HN. cbn [map fst] in HN. rewrite map_app in HN. cbn [map fst] in HN.
      apply NoDup_remove_1 in HN. rewrite app_assoc in HN. apply NoDup_remove_2 in HN. apply HN. rewrite <- app_assoc. apply in_or_app. right. apply in_or_app. now right. }
  assert (k <> "DATA" /\ k <> "SPECS") as [N5 N6] by (split; intros ->; apply Hk; cbn; tauto).
  destruct s as [s|]; injection Hd as <-; [rewrite dget_dset_other by congruence|]; rewrite dget_ddel, dget_dset_other by congruence; now apply fold_last.
Qed.
