(** Lemmas about yaml files: what is read back *)
From Verif Require Import PyBase PyStr XReal SpectrumModel SpectralModel TextModel TextSpec TextProofs MaterialModel FileModel ReaderModel WriterModel IOSpec LineProofs TextFileProofs SaveProofs PathProofs CycleProofs OrderProofs SaveSpec SaveMoreProofs SaveThms TextFileThms YamlSpec YamlProofs YamlWriteProofs.
From Coq Require Import Permutation.
Open Scope string_scope.
Open Scope list_scope.

Lemma yml_ext path : named path ".yml" -> splitext path = ".yml".
Proof. apply named_ext. cbn. tauto. Qed.
(** the file after a successful save *)
Lemma yaml_saved W path m fs ic rii ops yl : named path ".yml" -> yaml_library W yl -> save_material W path m fs ic rii = (Ok tt, ops) ->
  exists meta w c d, m_meta m = Some meta /\ mk_writer W path m = Ok w /\ w_meta w = kept meta /\ Forall writer_set (w_sets w) /\
    (length (w_sets w) = 1 \/ length (w_sets w) = 2)%nat /\ dataset_to_dict W m = Ok (w_sets w) /\
    dget meta "MetaComment" = Some (MStr c) /\ yaml_doc (no_comment w) ic rii = Ok d /\ emittable d /\
    dget (fs_run fs ops) path = Some (yaml_block c ++ yaml_dump W d)%string.
Proof.
  intros Hp HY HS. apply save_cases in HS. destruct HS as [(e & X & _)|(meta & w & v & text & extra & M & Hw & Hv & Hb & HS)]; [discriminate|].
  destruct (mk_writer_inv _ _ _ _ Hw) as (P & X & meta0 & sets & M0 & _ & Ed & K & Es). rewrite M in M0. injection M0 as <-. subst sets.
  destruct (writer_sets W m (w_sets w) Ed) as [F L].
  unfold body_of in Hb. change (w_ext (no_comment w)) with (w_ext w) in Hb. rewrite X, (yml_ext path Hp) in Hb.
  change (smem ".yml" txt_types) with false in Hb. change (String.eqb ".yml" ".yml") with true in Hb. cbv iota in Hb.
  inv_bind Hb d Eyd. injection Hb as <- <-. pose proof (doc_emittable (no_comment w) ic rii d Eyd F) as He.
  assert (exists c, v = MStr c /\ dget (fs_run fs ops) path = Some (yaml_block c ++ yaml_dump W d)%string) as (c & -> & HD).
  { destruct HS as [(-> & _ & ->)|[(c & -> & Hc & _ & ->)|(_ & Q & _)]]; [| |discriminate].
    - exists "". split; [reflexivity|]. apply run_body.
    - exists c. split; [reflexivity|]. rewrite run_full. unfold yaml_block. destruct (String.eqb_spec c ""); [congruence|].
      rewrite univ_id; [reflexivity|]. exact (yaml_no_cr W yl HY d He). }
  exists meta, w, c, d. repeat (split; [assumption|]). exact HD.
Qed.
(** reading it *)
Lemma yaml_loaded W yl path fs c d fk dk : named path ".yml" -> yaml_library W yl -> yaml_text c -> emittable d ->
  dget fs path = Some (yaml_block c ++ yaml_dump W d)%string ->
  exists d', same_doc d d' /\
    read_path fk dk yl fs path = match process_mat_dict fk dk (map fst d') d' (rd_meta (mk_reader fk path)) [default_data_dict] with
      | (Raise e, _) => Raise e
      | (Ok sets, meta) => Ok (mkFdict (dset meta "MetaComment" (MStr (next_yaml c))) sets)
      end.
Proof.
  intros Hp HY Ht He Hf. destruct (yaml_restores W yl HY (yaml_block c) d (yaml_block_comment c Ht) He) as (d' & E & Hs).
  exists d'. split; [exact Hs|]. unfold read_path. set (r := mk_reader fk path).
  assert (rd_ext r = ".yml") as R1 by exact (yml_ext path Hp). assert (rd_sets r = [default_data_dict]) as R2 by reflexivity. clearbody r.
  rewrite R1. change (smem ".yml" txt_types || String.eqb ".yml" ".yml") with true. cbv iota. unfold fs_read. rewrite Hf. cbn [bind].
  unfold read_file. rewrite R1. change (smem ".yml" txt_types) with false. change (String.eqb ".yml" ".yml") with true. cbv iota.
  unfold read_yaml_mat_file. rewrite E, R2.
  destruct (yaml_starts W yl HY d He) as (a & s & Er & A1 & A2). rewrite Er. rewrite (yaml_block_read c a s (yaml_unix c Ht) A1 A2), comment_part_join.
  destruct (process_mat_dict _ _ _ _ _ _) as [[sets|e0] meta]; reflexivity.
Qed.
(** a result of reading always has the new comment *)
Lemma yaml_comment_read W yl path fs c d fk dk fd : named path ".yml" -> yaml_library W yl -> yaml_text c -> emittable d ->
  dget fs path = Some (yaml_block c ++ yaml_dump W d)%string -> read_path fk dk yl fs path = Ok fd ->
  dget (fd_meta fd) "MetaComment" = Some (MStr (next_yaml c)).
Proof.
  intros H1 H2 H3 H4 H5 H6. destruct (yaml_loaded W yl path fs c d fk dk H1 H2 H3 H4 H5) as (d' & _ & E). rewrite E in H6.
  destruct (process_mat_dict _ _ _ _ _ _) as [[sets|e0] meta]; [|discriminate]. injection H6 as <-. apply dget_dset_same.
Qed.

(** ** a document with the standard keys *)
Lemma map_keys_apart l : Forall writer_set l -> Forall keys_apart l.
Proof. induction 1; constructor; [now apply writer_set_keys|assumption]. Qed.
Lemma header_alias k : In k header_keys -> In (alias_of k) top_keys /\ reader_key (alias_of k) = k /\ alias_of k <> "DATA" /\ In k (["Comment"; "Reference"; "Author"; "Name"; "FullName"]).
Proof. intros H. cbn in H. repeat (destruct H as [<-|H]; [cbn; repeat split; try discriminate; tauto|]). destruct H. Qed.
Lemma header_of_top k : In k top_keys -> k <> "DATA" -> k <> "SPECS" -> exists h, In h header_keys /\ k = alias_of h.
Proof.
  intros H. cbn in H. repeat (destruct H as [<-|H]; [intros N1 N2; try congruence|]); [| | | | |destruct H];
    [exists "Reference"|exists "Author"|exists "FullName"|exists "Name"|exists "Comment"]; cbn; tauto.
Qed.
Lemma dget_in_iff {V} (d : dict V) k : In k (map fst d) <-> dget d k <> None.
Proof. induction d as [|[a v] d IH]; cbn; [intuition congruence|]. destruct (String.eqb_spec k a) as [->|N]; [intuition congruence|]. rewrite <- IH. intuition congruence. Qed.
Section Standard.
Variables fk dk : list string.
Hypothesis Pf : Permutation FILE_META_DATA_KEYS fk.
Hypothesis Pd : Permutation DATASET_META_DATA_KEYS dk.

Lemma mk_meta_header path k : In k header_keys -> dget (rd_meta (mk_reader fk path)) k = Some (MStr "").
Proof. intros H. apply mk_reader_meta; [exact Pf|]. cbn in H |- *. tauto. Qed.

Lemma doc_read path d d' sets l : NoDup (map fst d) -> (forall k, In k (map fst d) -> In k top_keys) -> dget d "DATA" = Some (NSeq sets) -> same_doc d d' ->
  (forall sets', Forall2 (@Permutation _) sets sets' -> process_mat_data_dict dk (NSeq sets') = Ok l) ->
  exists meta, process_mat_dict fk dk (map fst d') d' (rd_meta (mk_reader fk path)) [default_data_dict] = (Ok l, meta) /\
    (forall k, In k header_keys -> match dget d (alias_of k) with
       | Some n => exists n', same_node n n' /\ dget meta k = Some (node_val n') | None => dget meta k = Some (MStr "") end) /\
    (match dget d "SPECS" with Some n => exists n', same_node n n' /\ dget meta "Specification" = Some (node_val n') | None => dget meta "Specification" = Some (MMap []) end) /\
    (forall key, In key file_meta_keys -> dget meta key <> None).
Proof.
  intros N K HD Hs HP. pose proof (same_doc_keys d d' Hs) as P.
  assert (NoDup (map fst d')) as N' by exact (Permutation_NoDup P N).
  assert (forall k, In k (map fst d') -> In k top_keys) as K' by (intros k Hk; apply K, (Permutation_in _ (Permutation_sym P) Hk)).
  assert (forall k, In k (map fst d') <-> dget d' k <> None) as G by (intros k; apply dget_in_iff).
  pose proof (fun k => same_doc_get d d' k N Hs) as S'.
  assert (In "DATA" (map fst d')) as HI by (apply G; pose proof (S' "DATA") as X; rewrite HD in X; destruct (dget d' "DATA"); [discriminate|contradiction]).
  destruct (pmd_ok fk dk Pf (map fst d') d' l) with (meta := rd_meta (mk_reader fk path)) (sets := [default_data_dict]) as (meta & E & M1 & M2).
  - intros k Hk. split; [now apply K'|now apply G].
  - exact N'.
  - intros n Hn. pose proof (S' "DATA") as X. rewrite HD, Hn in X. destruct n as [v|sets']; [destruct X|]. now apply HP.
  - exists meta. rewrite E. destruct (in_dec string_dec "DATA" (map fst d')) as [_|Y]; [|contradiction]. split; [reflexivity|].
    assert (forall k, In k header_keys -> match dget d (alias_of k) with
       | Some n => exists n', same_node n n' /\ dget meta k = Some (node_val n') | None => dget meta k = Some (MStr "") end) as A1.
    { intros k Hk. destruct (header_alias k Hk) as (T1 & T2 & T3 & T4). pose proof (S' (alias_of k)) as X. destruct (dget d (alias_of k)) as [n|] eqn:E1.
      - destruct (dget d' (alias_of k)) as [n'|] eqn:E2; [|contradiction]. exists n'. split; [exact X|].
        rewrite <- T2, M1, E2; [reflexivity| |exact T3]. apply G. now rewrite E2.
      - rewrite M2; [now apply mk_meta_header|]. intros q Hq Hn Eq.
        assert (q = alias_of k) as ->; [|apply G in Hq; destruct (dget d' (alias_of k)); [contradiction|congruence]].
        destruct (string_dec q "SPECS") as [->|Ns]; [cbn in Eq; subst k; cbn in T4; intuition discriminate|].
        destruct (header_of_top q (K' q Hq) Hn Ns) as (h & Hh & ->). f_equal. destruct (header_alias h Hh) as (_ & T2' & _). congruence. }
    assert (match dget d "SPECS" with Some n => exists n', same_node n n' /\ dget meta "Specification" = Some (node_val n') | None => dget meta "Specification" = Some (MMap []) end) as A2.
    { pose proof (S' "SPECS") as X. destruct (dget d "SPECS") as [n|] eqn:E1.
      - destruct (dget d' "SPECS") as [n'|] eqn:E2; [|contradiction]. exists n'. split; [exact X|].
        change "Specification" with (reader_key "SPECS"). rewrite M1, E2; [reflexivity| |discriminate]. apply G. now rewrite E2.
      - rewrite M2; [apply mk_reader_spec|]. intros q Hq Hn Eq. destruct (string_dec q "SPECS") as [->|Ns]; [apply G in Hq; destruct (dget d' "SPECS"); [contradiction|congruence]|].
        destruct (header_of_top q (K' q Hq) Hn Ns) as (h & Hh & ->). destruct (header_alias h Hh) as (_ & T2' & _ & T4). rewrite T2' in Eq. subst h. cbn in T4. intuition discriminate. }
    split; [exact A1|]. split; [exact A2|]. intros key Hk.
    destruct (string_dec key "Specification") as [->|Ns]; [destruct (dget d "SPECS"); [destruct A2 as (n' & _ & ->)|rewrite A2]; discriminate|].
    destruct (string_dec key "MetaComment") as [->|Nm].
    + rewrite M2; [apply reader_keys; [exact Pf|cbn; tauto]|]. intros q Hq Hn Eq. destruct (string_dec q "SPECS") as [->|Nq]; [discriminate Eq|].
      destruct (header_of_top q (K' q Hq) Hn Nq) as (h & Hh & ->). destruct (header_alias h Hh) as (_ & T2' & _ & T4). rewrite T2' in Eq. subst h. cbn in T4. intuition discriminate.
    + assert (In key header_keys) as Hh by (cbn in Hk |- *; intuition congruence). pose proof (A1 key Hh) as X.
      destruct (dget d (alias_of key)); [destruct X as (n' & _ & ->)|rewrite X]; discriminate.
Qed.
Lemma specs_ok v s : write_specs v = Ok s -> forall d' : option mval,
  match option_map NVal s with Some n => exists n', same_node n n' /\ d' = Some (node_val n') | None => d' = Some (MMap []) end -> specs_read (Some v) d'.
Proof.
  intros H d' Hd. unfold write_specs in H. destruct v as [t|m|z]; [| |discriminate].
  - destruct t; [|discriminate]. injection H as <-. exact Hd.
  - destruct m as [|p m]; injection H as <-.
    + cbn [option_map] in Hd. cbn [specs_read]. exists []. split; [exact Hd|]. intros k. now destruct (in_dec string_dec k known_specs).
    + cbn [option_map] in Hd. destruct Hd as (n' & X & ->). destruct n' as [[t|m'|z]|l]; cbn in X; try discriminate; try contradiction.
      cbn [specs_read node_val]. exists m'. split; [reflexivity|]. intros k. rewrite (dget_perm _ _ k (filter_specs_nodup (p :: m)) X). apply filter_specs_get.
Qed.
End Standard.
(** a standard file, read back *)
Lemma yaml_read_back W yl path m fs ic rii ops fk dk meta c l : named path ".yml" -> yaml_library W yl ->
  Permutation FILE_META_DATA_KEYS fk -> Permutation DATASET_META_DATA_KEYS dk ->
  save_material W path m fs ic rii = (Ok tt, ops) -> m_meta m = Some meta -> dget meta "MetaComment" = Some (MStr c) -> yaml_text c -> standard_meta meta ->
  (forall w sets', mk_writer W path m = Ok w -> Forall2 (@Permutation _) (if rii then map rii_dataset (written_sets ic (w_sets w)) else written_sets ic (w_sets w)) sets' ->
     process_mat_data_dict dk (NSeq sets') = Ok l) ->
  exists fd, read_path fk dk yl (fs_run fs ops) path = Ok fd /\ fd_sets fd = l /\ meta_read meta (fd_meta fd) /\
    dget (fd_meta fd) "MetaComment" = Some (MStr (next_yaml c)) /\ (forall key, In key file_meta_keys -> dget (fd_meta fd) key <> None).
Proof.
  intros Hp HY Pf Pd HS Hm Hc Ht Hst HP.
  destruct (yaml_saved W path m fs ic rii ops yl Hp HY HS) as (meta0 & w & c0 & d & M & Hw & Mw & F & L & Ed & Hc0 & Hd & He & Hf).
  rewrite Hm in M. injection M as <-. rewrite Hc in Hc0. injection Hc0 as <-.
  destruct (doc_standard w meta ic rii d Hd Mw Hst F L) as (N & K & HD & HA & v & s & Ev & Es & EsD).
  destruct (yaml_loaded W yl path (fs_run fs ops) c d fk dk Hp HY Ht He Hf) as (d' & Hs & ER).
  destruct (doc_read fk dk Pf path d d' _ l N K HD Hs (fun sets' X => HP w sets' Hw X)) as (fm & E & A1 & A2 & A3). rewrite E in ER.
  eexists. split; [exact ER|]. cbn [fd_sets fd_meta]. split; [reflexivity|]. split; [split|].
  - intros k Hk. rewrite dget_dset_other by (intros <-; cbn in Hk; intuition discriminate). specialize (A1 k Hk). rewrite (HA k Hk) in A1.
    destruct (dget meta k) as [x|]; cbn [option_map] in A1; [|exact A1]. destruct A1 as (n' & X & ->). exists (node_val n'). split; [reflexivity|].
    destruct n' as [y|y]; [exact X|destruct X].
  - rewrite dget_dset_other by discriminate. rewrite Ev. rewrite EsD in A2. now apply (specs_ok v s).
  - split; [apply dget_dset_same|]. intros key Hk. apply dset_keeps. now apply A3.
Qed.
Lemma yaml_read_sets W yl path m fs ic rii ops fk dk meta c e : named path ".yml" -> yaml_library W yl ->
  Permutation FILE_META_DATA_KEYS fk -> Permutation DATASET_META_DATA_KEYS dk ->
  save_material W path m fs ic rii = (Ok tt, ops) -> m_meta m = Some meta -> dget meta "MetaComment" = Some (MStr c) -> yaml_text c -> standard_meta meta ->
  (forall w sets', mk_writer W path m = Ok w -> Forall2 (@Permutation _) (if rii then map rii_dataset (written_sets ic (w_sets w)) else written_sets ic (w_sets w)) sets' ->
     process_mat_data_dict dk (NSeq sets') = Raise e) ->
  read_path fk dk yl (fs_run fs ops) path = Raise e.
Proof.
  intros Hp HY Pf Pd HS Hm Hc Ht Hst HP.
  destruct (yaml_saved W path m fs ic rii ops yl Hp HY HS) as (meta0 & w & c0 & d & M & Hw & Mw & F & L & Ed & Hc0 & Hd & He & Hf).
  rewrite Hm in M. injection M as <-. rewrite Hc in Hc0. injection Hc0 as <-.
  destruct (doc_standard w meta ic rii d Hd Mw Hst F L) as (N & K & HD & _).
  destruct (yaml_loaded W yl path (fs_run fs ops) c d fk dk Hp HY Ht He Hf) as (d' & Hs & ER). rewrite ER.
  pose proof (same_doc_keys d d' Hs) as P. pose proof (same_doc_get d d' "DATA" N Hs) as X. rewrite HD in X.
  destruct (dget d' "DATA") as [n|] eqn:E; [|destruct X]. destruct n as [v|sets']; [destruct X|].
  destruct (pmd_raise fk dk (map fst d') d' (NSeq sets') e) with (meta := rd_meta (mk_reader fk path)) (sets := [default_data_dict]) as (meta' & ->).
  - intros k Hk. assert (In k top_keys) as Hk' by (apply K, (Permutation_in _ (Permutation_sym P) Hk)). destruct (top_match fk Pf k Hk') as [-> _]. now apply dget_in_iff.
  - apply dget_in_iff. now rewrite E.
  - exact E.
  - now apply (HP w).
  - reflexivity.
Qed.
