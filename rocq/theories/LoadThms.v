(** Theorems about loading text files (C88). *)
From Verif Require Import PyBase PyStr XReal CNum SpectrumModel SpectrumSpec SpectralModel SpectralSpec TextModel TextSpec TextProofs TableProofs MaterialModel MaterialSpec MaterialProofs MatFileProofs FileModel ReaderModel WriterModel IOSpec LineProofs FmtProofs TextFileProofs DisplayProofs PathProofs CycleProofs LoadSpec LoadProofs.
From Coq Require Import Permutation.
Open Scope R_scope.
Open Scope string_scope.
Open Scope list_scope.


Lemma C88_reads_l : forall fk dk yl fs path ext text header rows nums n,
  Permutation FILE_META_DATA_KEYS fk -> Permutation DATASET_META_DATA_KEYS dk ->
  In ext text_exts -> named path ext -> dget fs path = Some text -> text_table ext text header rows ->
  Forall2 (Forall2 (number_text false)) rows nums -> (2 <= length nums)%nat -> (2 <= n)%nat -> Forall (fun r => length r = n) nums ->
  exists fd d, read_path fk dk yl fs path = Ok fd /\ fd_sets fd = [d] /\ ds_data d = DArr (ND2 n nums) /\
    (forall v, says "SPECTRUMTYPE" header v -> ds_stype d = DStr v) /\
    (forall v, says "UNIT" header v -> ds_unit d = DStr v) /\
    (forall v, says "DATATYPE" header v -> ds_type d = DStr (or_default v (columns_type n))) /\
    (forall key kw v, In (key, kw) meta_keywords -> says kw header v -> dget (fd_meta fd) key = Some (MStr v)) /\
    dget (fd_meta fd) "Specification" = Some (MMap []) /\
    (forall p, plain_lines header p -> p <> [] -> dget (fd_meta fd) "MetaComment" = Some (MStr (each_line p))) /\
    (forall v, plain_lines header [] -> says "METACOMMENT" header v -> dget (fd_meta fd) "MetaComment" = Some (MStr v)).
Proof.
  intros fk dk yl fs path ext text header rows nums n Pf Pd He Hp Ht HT Hnum Hl Hn Hlen.
  destruct (table_meta fk dk yl fs path ext text header rows nums n Pf Pd He Hp Ht HT Hnum Hl Hn Hlen) as (meta & d & multi & E & D & R).
  assert (Forall one_line header) as Ho by (destruct HT as (body & all & _ & Ho & _); exact Ho).
  rewrite R. eexists _, _. split; [reflexivity|]. split; [reflexivity|]. cbn [fd_meta].
  set (st0 := (rd_meta (mk_reader fk path), fset_set default_data_dict "Data" (DArr (ND2 n nums)), "")) in *.
  assert (forall key v, In key DATASET_META_DATA_KEYS -> says (upper key) header v -> fget d key = DStr v) as Hset.
  { intros key v Hk Hv. pose proof (fold_says_set fk dk Pf Pd key header st0 v Hk Ho) as S. rewrite E in S. apply S; [|exact Hv].
    cbn in Hk. destruct Hk as [<-|[<-|[<-|[<-|[<-|[]]]]]]; reflexivity. }
  assert (forall key v, In key FILE_META_DATA_KEYS -> says (upper key) header v -> dget meta key = Some (MStr v)) as Hmeta.
  { intros key v Hk Hv. pose proof (fold_says_meta fk dk Pf Pd key header st0 v Hk Ho) as S. rewrite E in S. apply S; [|exact Hv].
    now apply mk_reader_meta. }
  assert (forall key, key <> "DataType" -> In key DATASET_META_DATA_KEYS ->
     fget match ds_type d with DStr "" => (match n with 2%nat | 3%nat => fset_set d "DataType" (DStr (columns_type n)) | _ => d end) | _ => d end key = fget d key) as Hd.
  { intros key Hk Hi. destruct (ds_type d) as [[|c s]|a|b]; try reflexivity.
    destruct n as [|[|[|[|m]]]]; try reflexivity; rewrite fget_set by (cbn; tauto);
      destruct (String.eqb key "DataType") eqn:Q; try reflexivity; apply String.eqb_eq in Q; congruence. }
  split. { destruct (ds_type d) as [[|c s]|a|b]; try exact D. destruct n as [|[|[|[|m]]]]; try exact D; cbn [fset_set]; exact D. }
  split. { intros v Hv. transitivity (fget d "SpectrumType"); [exact (Hd "SpectrumType" ltac:(discriminate) ltac:(cbn; tauto))|]. apply Hset; [cbn; tauto|exact Hv]. }
  split. { intros v Hv. transitivity (fget d "Unit"); [exact (Hd "Unit" ltac:(discriminate) ltac:(cbn; tauto))|]. apply Hset; [cbn; tauto|exact Hv]. }
  split.
  { intros v Hv. pose proof (Hset "DataType" v ltac:(cbn; tauto) Hv) as K. cbn [fget String.eqb Ascii.eqb Bool.eqb] in K. rewrite K.
    destruct v as [|c v]; [|exact K]. cbn [or_default String.eqb].
    destruct n as [|[|[|[|m]]]]; try exact K; reflexivity. }
  assert (forall key, key <> "MetaComment" -> dget (if String.eqb multi "" then meta else dset meta "MetaComment" (MStr multi)) key = dget meta key) as Hm.
  { intros key Hk. destruct (String.eqb multi ""); [reflexivity|]. rewrite dget_dset_other; congruence. }
  split.
  { intros key kw v Hin Hv. cbn [In meta_keywords] in Hin.
    destruct Hin as [X|[X|[X|[X|[X|[]]]]]]; injection X as <- <-; rewrite Hm by discriminate; (apply Hmeta; [cbn; tauto|exact Hv]). }
  split.
  { rewrite Hm by discriminate. assert (forall lines st, Forall one_line lines -> dget (hmeta (fold_left (header_line fk dk) lines st)) "Specification" = dget (hmeta st) "Specification") as G.
    { clear -Pf Pd. induction lines as [|l lines IH]; intros st Ho; [reflexivity|]. cbn [fold_left]. rewrite IH by now apply Forall_inv_tail in Ho.
      pose proof (line_step fk dk st l Pf Pd (Forall_inv Ho)) as S. revert S; generalize (header_line fk dk st l); intros st1 S.
      inversion S as [m d mu Hn|m d mu k v Hi Hv|m d mu k v Hi Hv]; subst; try reflexivity. cbn [hmeta fst snd].
      rewrite dget_dset_other; [reflexivity|]. intros Q; subst k. cbn in Hi. intuition discriminate. }
    specialize (G header st0 Ho). rewrite E in G. cbn [hmeta fst snd] in G. rewrite G. apply mk_reader_spec. }
  split.
  { intros p Hpl Hne. pose proof (fold_multi fk dk Pf Pd header p Hpl st0 Ho) as S. rewrite E in S. cbn [hmulti snd st0 append] in S. subst multi.
    change (each_line p) with (lines_text p). destruct (String.eqb (lines_text p) "") eqn:Q; [|apply dget_dset_same].
    apply String.eqb_eq in Q. destruct p as [|a p]; [congruence|]. rewrite lines_text_cons in Q. destruct a; discriminate. }
  { intros v Hpl Hv. pose proof (fold_multi fk dk Pf Pd header [] Hpl st0 Ho) as S. rewrite E in S. cbn [hmulti snd st0 append] in S. subst multi.
    cbn. apply Hmeta; [cbn; tauto|exact Hv]. }
Qed.

Lemma dval_default v d : (if dval_true (DStr v) then dval_str (DStr v) else Ok d) = Ok (or_default v d).
Proof. destruct v; reflexivity. Qed.
Lemma direct_table rd kw src id n nums t u : call kw src (PArr (ND2 n nums)) t u -> In (id, src, n) [("nk", "tabulated_nk", 3%nat); ("eps", "tabulated_eps", 3%nat); ("n", "tabulated_n", 2%nat)] ->
  mk_material rd kw =
  do p <- process_table n nums id (mkP "" None None None t u); complete default_meta p.
Proof.
  intros C H. cbn [In] in H.
  call_args C. pose proof (call_build rd _ _ _ _ _ C) as B.
  destruct H as [X|[X|[X|[]]]]; injection X as <- <- <-; reduce_args Fn Fs Ft Fu B; cbn [check_table_shape Nat.eqb bind] in B;
    rewrite B; reduce_goal Fn Fs Ft Fu; reflexivity.
Qed.
Lemma copy_meta_total fm : (forall key, In key file_meta_keys -> dget fm key <> None) -> exists meta, copy_meta fm = Ok meta.
Proof.
  unfold copy_meta. induction file_meta_keys as [|k l IH]; intros H; [now exists []|].
  cbn [map_res]. unfold dlookup at 1. destruct (dget fm k) as [v|] eqn:E; [|exfalso; apply (H k); [now left|exact E]].
  cbn [bind]. destruct IH as [meta ->]; [intros key Hk; apply H; now right|]. cbn [bind]. eexists; reflexivity.
Qed.

Lemma C88_same_as_array_l : forall fk dk yl rd fs path ext text header rows nums n id src dt t u kw kw' t0 u0,
  Permutation FILE_META_DATA_KEYS fk -> Permutation DATASET_META_DATA_KEYS dk ->
  In ext text_exts -> named path ext -> dget fs path = Some text -> text_table ext text header rows ->
  Forall2 (Forall2 (number_text false)) rows nums -> (2 <= length nums)%nat -> Forall (fun r => length r = n) nums ->
  In (id, src, n) [("nk", "tabulated_nk", 3%nat); ("eps", "tabulated_eps", 3%nat); ("n", "tabulated_n", 2%nat)] ->
  says "DATATYPE" header dt -> line_text (or_default dt (columns_type n)) ["tabulated"; id] ->
  says "SPECTRUMTYPE" header t -> says "UNIT" header u ->
  call kw "file_path" (PStr path) t0 u0 -> call kw' src (PArr (ND2 n nums)) (or_default t t0) (or_default u u0) ->
  same_data (mk_material (read_path fk dk yl fs) kw) (mk_material rd kw').
Proof.
  intros fk dk yl rd fs path ext text header rows nums n id src dt t u kw kw' t0 u0 Pf Pd He Hp Ht HT Hnum Hl Hlen Hid Hdt Hline Hst Hu C C'.
  assert (2 <= n)%nat as Hn by (cbn [In] in Hid; destruct Hid as [X|[X|[X|[]]]]; injection X as _ _ <-; lia).
  destruct (C88_reads_l fk dk yl fs path ext text header rows nums n Pf Pd He Hp Ht HT Hnum Hl Hn Hlen) as (fd & d & R & S & D & D1 & D2 & D3 & M1 & M2 & M3).
  rewrite (call_file _ _ _ _ _ C), R. cbn [bind].
  assert (exists meta, copy_meta (fd_meta fd) = Ok meta) as [meta ->].
  { apply copy_meta_total. intros key Hk.
    destruct (table_meta fk dk yl fs path ext text header rows nums n Pf Pd He Hp Ht HT Hnum Hl Hn Hlen) as (m0 & d0 & multi & E & _ & R0).
    rewrite R in R0. injection R0 as ->. cbn [fd_meta].
    assert (dget m0 key <> None) as K.
    { assert (forall lines st, dget (hmeta st) key <> None -> Forall one_line lines -> dget (hmeta (fold_left (header_line fk dk) lines st)) key <> None) as G.
      { clear -Pf Pd. induction lines as [|l lines IH]; intros st H0 Ho; [exact H0|]. cbn [fold_left]. apply IH; [|now apply Forall_inv_tail in Ho].
        pose proof (line_step fk dk st l Pf Pd (Forall_inv Ho)) as S. revert S; generalize (header_line fk dk st l); intros st1 S.
        inversion S as [m d mu Hn|m d mu k v Hi Hv|m d mu k v Hi Hv]; subst; try exact H0. cbn [hmeta fst snd] in *.
        destruct (string_dec k key) as [->|N]; [rewrite dget_dset_same; discriminate|rewrite dget_dset_other; congruence]. }
      specialize (G header (rd_meta (mk_reader fk path), fset_set default_data_dict "Data" (DArr (ND2 n nums)), "")).
      rewrite E in G. cbn [hmeta fst snd] in G. apply G.
      - destruct (string_dec key "Specification") as [->|N]; [rewrite mk_reader_spec; discriminate|].
        rewrite mk_reader_meta; [discriminate|exact Pf|]. cbn in Hk |- *. intuition congruence.
      - destruct HT as (body & all & _ & Ho & _). exact Ho. }
    destruct (String.eqb multi ""); [exact K|]. destruct (string_dec "MetaComment" key) as [<-|N]; [rewrite dget_dset_same; discriminate|rewrite dget_dset_other; congruence]. }
  cbn [bind]. rewrite S. cbn [process_datasets]. rewrite (direct_table rd kw' src id n nums _ _ C' Hid).
  unfold process_dataset. rewrite (D3 dt Hdt). cbn [dval_split]. apply split_ws_iff in Hline. rewrite Hline. cbn [bind].
  change (String.eqb "tabulated" "tabulated") with true. cbv iota. rewrite D. cbn [dval_tab].
  assert (str_table_to_numeric (TArr (ND2 n nums)) = Ok (ND2 n nums)) as -> by (destruct n as [|n]; [lia|reflexivity]).
  cbn [bind]. rewrite (D1 t Hst), (D2 u Hu), !dval_default. cbn [p_stype p_unit bind set_defaults p_name p_real p_imag p_complex].
  destruct (process_table n nums id _) as [p|e]; [|reflexivity]. cbn [bind].
  unfold complete. destruct (p_real p) as [a|]; destruct (p_imag p) as [b|]; cbn [bind];
    try (destruct (constant_default (ORe (Fin 0))); cbn [bind]; [|reflexivity]); repeat split.
Qed.

Lemma number_of t x : solid t -> parse_float false t = Ok x -> number_text false t x.
Proof.
  intros [Hn Hs] H. destruct (parse_float_sound _ _ _ H) as (p & t' & q & E & Hp & Hq & Ht).
  assert (forall s, blank s -> (forall c, In c (chars s) -> In c (chars t)) -> s = "") as G.
  { intros s Hb Hi. destruct s as [|c s]; [reflexivity|]. specialize (Hb c (or_introl eq_refl)). rewrite (Hs c) in Hb; [discriminate|]. apply Hi. now left. }
  assert (p = "") as -> by (apply G; [exact Hp|]; intros c Hc; rewrite E, chars_app; apply in_or_app; now left).
  assert (q = "") as -> by (apply G; [exact Hq|]; intros c Hc; rewrite E, !chars_app; apply in_or_app; right; apply in_or_app; now right).
  cbn [append] in E. rewrite app_empty_r in E. now subst.
Qed.

Lemma after_last_suffix c s : forall t, after_last c s = Some t -> exists a, s = (a ++ String c t)%string.
Proof.
  induction s as [|d r IH]; cbn [after_last]; [discriminate|]. intros t. destruct (after_last c r) as [t'|].
  - intros [= <-]. destruct (IH t' eq_refl) as [a ->]. now exists (String d a).
  - destruct (Ascii.eqb d c) eqn:E; [|discriminate]. apply Ascii.eqb_eq in E. subst d. intros [= <-]. now exists "".
Qed.
Lemma lstrip_by_suffix f s : exists a, s = (a ++ lstrip_by f s)%string.
Proof.
  induction s as [|d r [a IH]]; [now exists ""|]. cbn [lstrip_by]. destruct (f d); [|now exists ""]. exists (String d a). cbn. now rewrite <- IH.
Qed.
Lemma splitext_suffix p : exists a, p = (a ++ splitext p)%string.
Proof.
  assert (exists a, p = (a ++ basename p)%string) as [a E].
  { unfold basename. destruct (after_last "/" p) as [t|] eqn:E; [|now exists ""]. destruct (after_last_suffix _ _ _ E) as [a ->]. exists (a ++ "/")%string. rewrite app_assoc_s. reflexivity. }
  destruct (lstrip_by_suffix (Ascii.eqb ".") (basename p)) as [b F]. unfold splitext.
  destruct (after_last "." (lstrip_by (Ascii.eqb ".") (basename p))) as [t|] eqn:G.
  - destruct (after_last_suffix _ _ _ G) as [d H]. exists (a ++ b ++ d)%string. rewrite E at 1. rewrite F, H. now rewrite !app_assoc_s.
  - exists p. now rewrite app_empty_r.
Qed.

Lemma C88_extension_l : forall fk dk yl fs path,
  (forall a ext, In ext [".txt"; ".csv"; ".nk"; ".yml"] -> path <> (a ++ ext)%string) ->
  read_path fk dk yl fs path = Raise ValueError /\
  mk_material (read_path fk dk yl fs) [("file_path", PStr path)] = Raise ValueError.
Proof.
  intros fk dk yl fs path H.
  assert (read_path fk dk yl fs path = Raise ValueError) as R.
  { unfold read_path. change (rd_ext (mk_reader fk path)) with (splitext path). destruct (splitext_suffix path) as [a E].
    destruct (smem (splitext path) txt_types || String.eqb (splitext path) ".yml") eqn:B; [exfalso|reflexivity].
    apply (H a (splitext path)); [|exact E]. unfold smem, txt_types in B. cbn [existsb] in B. cbn [In].
    repeat (apply orb_prop in B; destruct B as [B|B]); try discriminate B; apply String.eqb_eq in B; rewrite B; tauto. }
  split; [exact R|]. rewrite load_material, R. reflexivity.
Qed.

Lemma C88_other_mark_refuted_l : forall fk dk yl fs path ext text lines s,
  In ext text_exts -> named path ext -> dget fs path = Some text ->
  file_text lines text -> Forall one_line lines -> In (String (other_mark ext) s) lines ->
  read_path fk dk yl fs path = Raise ValueError /\
  mk_material (read_path fk dk yl fs) [("file_path", PStr path)] = Raise ValueError.
Proof.
  intros fk dk yl fs path ext text lines s He Hp Ht Hf Ho Hi.
  assert (read_path fk dk yl fs path = Raise ValueError) as R.
  { rewrite (read_path_text fk dk yl fs path ext text He Hp Ht). unfold read_text_file.
    assert (rd_ext (mk_reader fk path) = ext) as -> by exact (ext_named path ext He Hp).
    rewrite (mark_delim ext text He), (other_raises ext text lines s He Hf Ho Hi). reflexivity. }
  split; [exact R|]. rewrite load_material, R. reflexivity.
Qed.
