(** C44-C46: saves that fail, saves that are interrupted, reuse of a Reader *)
From Verif Require Import PyBase PyStr XReal CNum TextModel TextSpec TextProofs SpectrumModel SpectrumSpec SpectralModel SpectralSpec MaterialModel MaterialSpec FileModel ReaderModel WriterModel IOSpec SaveSpec LineProofs TextFileProofs SaveProofs PathProofs OrderProofs SaveMoreProofs ShowsProofs IOExamples TextFileThms.
From Coq Require Import Permutation.
From Verif Require Import SaveThms.
Open Scope R_scope.
Open Scope string_scope.
Open Scope list_scope.

(** a save that raises has changed nothing, with one exception: a meta comment that is no text is
    noticed when the file has been written and emptied again *)
Theorem C44_failed_save : forall W path m fs ic rii e ops,
  save_material W path m fs ic rii = (Raise e, ops) ->
  ops = [] \/
  (e = AttributeError /\ (exists meta v, m_meta m = Some meta /\ dget meta "MetaComment" = Some v /\ forall c, v <> MStr c) /\
   dget (fs_run fs ops) path = Some "").
Proof. exact C44_failed_save_l. Qed.
Print Assumptions C44_failed_save.

(** a .nk file is never written *)
Theorem C44_nk : forall W path m fs ic rii,
  named path ".nk" -> exists e, save_material W path m fs ic rii = (Raise e, []).
Proof. exact C44_nk_l. Qed.
Print Assumptions C44_nk.

(** a material that can be saved as text gives an UnboundLocalError under a name ending in .nk *)
Theorem C44_nk_error : forall W path path' m fs fs' ic rii ops,
  text_file path -> save_material W path m fs ic rii = (Ok tt, ops) -> named path' ".nk" ->
  save_material W path' m fs' ic rii = (Raise UnboundLocalError, []).
Proof. exact C44_nk_error_l. Qed.
Print Assumptions C44_nk_error.

(** any other extension is refused; nothing is written *)
Theorem C44_unsupported : forall W path m fs ic rii,
  (forall ext, In ext [".txt"; ".csv"; ".yml"] -> ~ ends_with path ext) ->
  exists e, save_material W path m fs ic rii = (Raise e, []).
Proof. exact C44_unsupported_l. Qed.
Print Assumptions C44_unsupported.

Theorem C44_unsupported_error : forall W path m fs ic rii w meta,
  (forall ext, In ext [".txt"; ".csv"; ".yml"; ".nk"] -> ~ ends_with path ext) ->
  mk_writer W path m = Ok w -> m_meta m = Some meta -> dget meta "MetaComment" <> None ->
  save_material W path m fs ic rii = (Raise ValueError, []).
Proof. exact C44_unsupported_error_l. Qed.
Print Assumptions C44_unsupported_error.

(** materials with complex data, extrapolated materials and effective media cannot be saved *)
Theorem C44_complex : forall W path m fs ic rii,
  (m_complex m <> None \/ m_meta m = None \/ exists b d s, m_real m = DExtrap b d s \/ m_imag m = DExtrap b d s) ->
  exists e, save_material W path m fs ic rii = (Raise e, []).
Proof. exact C44_complex_l. Qed.
Print Assumptions C44_complex.

Theorem C44_complex_error : forall W path m fs ic rii,
  (m_meta m = None -> save_material W path m fs ic rii = (Raise AttributeError, [])) /\
  (m_meta m <> None -> m_complex m <> None -> save_material W path m fs ic rii = (Raise KeyError, [])) /\
  (forall b d s, m_meta m <> None -> m_complex m = None -> m_real m = DExtrap b d s ->
     save_material W path m fs ic rii = (Raise AttributeError, [])).
Proof. exact C44_complex_error_l. Qed.
Print Assumptions C44_complex_error.

(** a constant or a model as real part has no table for a text file *)
Theorem C44_no_table : forall W path m fs ic rii,
  text_file path -> (forall b rows, m_real m <> DInterp b rows) ->
  exists e, save_material W path m fs ic rii = (Raise e, []).
Proof. exact C44_no_table_l. Qed.
Print Assumptions C44_no_table.

(** two constants: neither a text file nor, unless constants are kept, a yaml file *)
Theorem C44_two_constants : forall W path m fs rii meta b v b' v',
  named path ".yml" -> m_meta m = Some meta -> dget meta "MetaComment" <> None ->
  m_complex m = None -> In (m_name m) ["nk"; "eps"] -> m_real m = DConst b v -> m_imag m = DConst b' v' ->
  save_material W path m fs true rii = (Raise IndexError, []).
Proof. exact C44_two_constants_l. Qed.
Print Assumptions C44_two_constants.

(** a Writer can be used once: whatever the first write_file did, the second raises KeyError and
    has no effect *)
Theorem C44_once : forall W w fs ic rii r ops w' fs' ic' rii',
  NoDup (map fst (w_meta w)) ->
  write_file W w fs ic rii = (r, ops, w') -> write_file W w' fs' ic' rii' = (Raise KeyError, [], w').
Proof. exact C44_once_l. Qed.
Print Assumptions C44_once.

(** C46: at every point of a save all other files are as before *)
Theorem C46_other_files : forall W path m fs ic rii r ops fs' p,
  save_material W path m fs ic rii = (r, ops) -> crash_state fs ops fs' -> p <> path -> dget fs' p = dget fs p.
Proof. exact C46_other_files_l. Qed.
Print Assumptions C46_other_files.

(** C46: ... and the file itself holds the old content, or a beginning of the data written first,
    or a beginning of the complete new content, which is that data behind the comment *)
Theorem C46_file_itself : forall W path m fs ic rii ops,
  save_material W path m fs ic rii = (Ok tt, ops) ->
  exists c body final, comment_of m c /\ dget (fs_run fs ops) path = Some final /\
    (c = "" -> final = body) /\
    (c <> "" -> exists block, comment_block c (String.eqb (splitext path) ".yml") block /\ final = (block ++ univ body)%string) /\
    forall fs', crash_state fs ops fs' ->
      dget fs' path = dget fs path \/ exists a, dget fs' path = Some a /\ (prefix_of a body \/ prefix_of a final).
Proof. exact C46_file_itself_l. Qed.
Print Assumptions C46_file_itself.

(** C46: every save passes through a state in which the file is empty: the old content is gone
    and the new one is not there *)
Theorem C46_atomic_refuted : forall W path m fs ic rii ops,
  save_material W path m fs ic rii = (Ok tt, ops) ->
  exists fs', crash_state fs ops fs' /\ dget fs' path = Some "".
Proof. exact C46_atomic_refuted_l. Qed.
Print Assumptions C46_atomic_refuted.

(** C46: with a comment the complete data is in the file and is removed again before the final
    content is written: a crash loses data that had been saved *)
Theorem C46_comment_refuted : forall W path m c fs ic rii ops,
  comment_of m c -> c <> "" ->
  save_material W path m fs ic rii = (Ok tt, ops) ->
  exists before after body block, ops = before ++ after /\
    dget (fs_run fs before) path = Some body /\
    dget (fs_run fs ops) path = Some (block ++ univ body)%string /\
    exists fs', crash_state (fs_run fs before) after fs' /\ crash_state fs ops fs' /\ dget fs' path = Some "".
Proof. exact C46_comment_refuted_l. Qed.
Print Assumptions C46_comment_refuted.

(** C45: a fresh Reader returns what the file says: other files, the iteration order of the
    keyword sets and everything that happened before are irrelevant *)
Theorem C45_fresh : forall fk dk fk' dk' yl fs fs' path,
  Permutation FILE_META_DATA_KEYS fk -> Permutation DATASET_META_DATA_KEYS dk ->
  Permutation FILE_META_DATA_KEYS fk' -> Permutation DATASET_META_DATA_KEYS dk' ->
  dget fs path = dget fs' path ->
  same_reading (read_path fk dk yl fs path) (read_path fk' dk' yl fs' path).
Proof. exact C45_fresh_l. Qed.
Print Assumptions C45_fresh.

(** C45: a Reader that has read before raises the same exceptions and returns the same data sets;
    each metadata entry is as the file says or, if the file does not say anything, what the object
    held *)
Theorem C45_reused : forall fk dk yl path texts text,
  Permutation FILE_META_DATA_KEYS fk ->
  let r := after_reads fk dk yl (mk_reader fk path) texts in
  reading_or_left_over (rd_meta r) (fst (read_file fk dk yl r text)) (fst (read_file fk dk yl (mk_reader fk path) text)).
Proof. exact C45_reused_l. Qed.
Print Assumptions C45_reused.

(** C45: the second reading of a changed file is not what the file says *)
Theorem C45_reused_refuted : forall yl, exists path text1 text2 a b,
  let r := mk_reader FILE_META_DATA_KEYS path in
  fst (read_file FILE_META_DATA_KEYS DATASET_META_DATA_KEYS yl
        (after_reads FILE_META_DATA_KEYS DATASET_META_DATA_KEYS yl r [text1]) text2) = Ok a /\
  fst (read_file FILE_META_DATA_KEYS DATASET_META_DATA_KEYS yl r text2) = Ok b /\
  dget (fd_meta a) "Name" = Some (MStr "Gold") /\ dget (fd_meta b) "Name" = Some (MStr "").
Proof. exact C45_reused_refuted_l. Qed.
Print Assumptions C45_reused_refuted.

(** a material that can be saved as text *)
Example C46_instance : exists m ops, comment_of m "film" /\ save_material sample_env "data/gold.txt" m [("data/gold.txt", "old")] true false = (Ok tt, ops) /\
  named "data/gold.nk" ".nk".
Proof.
  destruct (gold_exists "film") as (m & b & b' & HT & T & U & T' & U' & HM & HH). destruct gold_float as [F1 F2].
  assert (comment_of m "film") as HC by (exists (gold_meta "film"); split; [exact HM|reflexivity]).
  destruct (C41_tables_read_back_l sample_env sample_disp "data/gold.txt" m "film" b b' (xrows gold_n) (xrows gold_k) [("data/gold.txt", "old")] true false
    FILE_META_DATA_KEYS DATASET_META_DATA_KEYS (fun _ => Raise GenericException) sample_shows gold_text_file (HH _) HC (unix_dec "film" eq_refl) HT F1 F2 ltac:(cbn; lia) eq_refl)
    as (ops & fd & d & S1 & _); [apply gold_share; congruence|apply Permutation_refl|apply Permutation_refl|].
  exists m, ops. split; [exact HC|]. split; [exact S1|]. exists "data/gol", "d"%char. split; [reflexivity|]. split; discriminate.
Qed.
(** two constants in a yaml file; the same with a comment that is no text *)
Example C44_instance : exists m b v b' v' meta, m_meta m = Some meta /\ dget meta "MetaComment" = Some (MStr "") /\ m_complex m = None /\
  m_name m = "nk" /\ m_real m = DConst b v /\ m_imag m = DConst b' v' /\ named "gold.yml" ".yml" /\
  exists ops, save_material sample_env "gold.yml" (mkMat (Some [("Comment", MStr ""); ("MetaComment", MOther 0); ("Specification", MMap [])]) "nk" (m_real m) (m_imag m) None "wavelength" "nm")
    [] false false = (Raise AttributeError, ops) /\ ops <> [].
Proof.
  destruct (constant_default (ORe (Fin 0))) as [d|e] eqn:E; [|discriminate E].
  assert (exists b v, d = DConst b v) as (b & v & ->).
  { unfold constant_default, mk_constant in E. repeat (apply bind_ok in E; destruct E as [? [? E]]). injection E as <-. eauto. }
  exists (mkMat (Some (gold_meta "")) "nk" (DConst b v) (DConst b v) None "wavelength" "nm"), b, v, b, v, (gold_meta "").
  repeat (split; [reflexivity|]). split; [exists "gol", "d"%char; split; [reflexivity|split; discriminate]|].
  destruct (save_material sample_env "gold.yml" _ [] false false) as [r ops] eqn:ES. pose proof ES as ES'. apply save_cases in ES'.
  unfold save_material, mk_writer, prepare_file_dict in ES. cbn [m_meta m_real m_imag] in ES.
  destruct (two_constants sample_env (mkMat (Some [("Comment", MStr ""); ("MetaComment", MOther 0); ("Specification", MMap [])]) "nk" (DConst b v) (DConst b v) None "wavelength" "nm") b v b v) as (t & t' & Ht & Ht' & D); try reflexivity; [cbn; tauto|].
  rewrite D in ES. cbn [bind fst snd] in ES. unfold write_file in ES. cbn [filter String.eqb Ascii.eqb Bool.eqb negb fst dget w_meta w_path w_ext w_sets] in ES.
  change (splitext "gold.yml") with ".yml" in ES. change (smem ".yml" txt_types) with false in ES. change (String.eqb ".yml" ".yml") with true in ES. cbv iota in ES.
  unfold yaml_doc in ES. cbn [w_sets w_meta] in ES.
  assert (exists ids, constant_ids 0 [const_dict sample_env b v t; const_dict sample_env b v t'] = Ok ids) as [ids Hi] by (eexists; reflexivity).
  rewrite Hi in ES. cbn [bind pop_all ddel String.eqb Ascii.eqb Bool.eqb alias_meta] in ES.
  injection ES as <- <-. eexists. split; [reflexivity|discriminate].
Qed.
Example C44_once_instance c : NoDup (map fst (gold_meta c)).
Proof. cbn [gold_meta map fst]. repeat (constructor; [cbn [In]; intuition discriminate|]). constructor. Qed.
Example C45_instance : exists a, read_path FILE_META_DATA_KEYS DATASET_META_DATA_KEYS (fun _ => Raise GenericException)
  [("m.txt", "# NAME: Gold" ++ NL ++ "1 2" ++ NL ++ "3 4" ++ NL)%string] "m.txt" = Ok a /\ dget (fd_meta a) "Name" = Some (MStr "Gold").
Proof. eexists. split; [vm_compute; reflexivity|]. reflexivity. Qed.
