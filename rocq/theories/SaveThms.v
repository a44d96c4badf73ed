(** C44-C46: saves that fail, saves that are interrupted, reuse of a Reader *)
From Verif Require Import PyBase PyStr XReal CNum TextModel TextSpec TextProofs SpectrumModel SpectrumSpec SpectralModel SpectralSpec MaterialModel MaterialSpec FileModel ReaderModel WriterModel IOSpec SaveSpec LineProofs TextFileProofs SaveProofs PathProofs OrderProofs SaveMoreProofs ShowsProofs IOExamples TextFileThms.
From Coq Require Import Permutation.
Open Scope R_scope.
Open Scope string_scope.
Open Scope list_scope.

Lemma ext_suffix path e : splitext path = e -> ends_with path e.
Proof.
  unfold splitext. destruct (after_last "." (lstrip_by (Ascii.eqb ".") (basename path))) as [t|] eqn:E; intros <-.
  - apply after_last_inv in E. destruct E as [p [E _]].
    assert (exists q, basename path = (q ++ lstrip_by (Ascii.eqb ".") (basename path))%string) as [q Hq].
    { generalize (basename path). induction s as [|c s [q IH]]; [now exists ""|]. cbn [lstrip_by]. destruct (Ascii.eqb "." c); [|now exists ""].
      exists (String c q). cbn [append]. now rewrite <- IH. }
    assert (exists d, path = (d ++ basename path)%string) as [d Hd].
    { unfold basename. destruct (after_last "/" path) as [u|] eqn:Eu; [|now exists ""]. apply after_last_inv in Eu. destruct Eu as [d [-> _]].
      exists (d ++ "/")%string. now rewrite app_assoc_s. }
    exists (d ++ q ++ p)%string. rewrite Hd at 1. rewrite Hq, E. now rewrite !app_assoc_s.
  - exists path. now rewrite app_empty_r.
Qed.
Lemma text_nk W w : w_ext w = ".nk" -> exists e, write_text_file W w = Raise e.
Proof.
  intros X. destruct (write_text_file W w) as [t|e] eqn:E; [exfalso|eauto]. unfold write_text_file in E.
  destruct (w_sets w) as [|d l]; [discriminate|]. inv_bind E a1 E1. inv_bind E a2 E2. inv_bind E a3 E3. inv_bind E a4 E4. inv_bind E a5 E5. inv_bind E a6 E6.
  inv_bind E a7 E7. inv_bind E a8 E8. rewrite X in E. discriminate.
Qed.
Lemma dt_set {V} (d : dict V) v : dget (dset d "DataType" v) "DataType" = Some v.
Proof. apply dget_dset_same. Qed.

Lemma C44_failed_save_l : forall W path m fs ic rii e ops,
  save_material W path m fs ic rii = (Raise e, ops) ->
  ops = [] \/
  (e = AttributeError /\ (exists meta v, m_meta m = Some meta /\ dget meta "MetaComment" = Some v /\ forall c, v <> MStr c) /\
   dget (fs_run fs ops) path = Some "").
Proof.
  intros W path m fs ic rii e ops.
  intros H. apply save_cases in H. destruct H as [(e' & _ & ->)|(meta & w & v & text & extra & M & _ & V & _ & D)]; [now left|right].
  destruct D as [(_ & D & _)|[(c & _ & _ & D & _)|(N & D & ->)]]; try discriminate. injection D as <-.
  split; [reflexivity|]. split; [exists meta, v; auto|]. rewrite run_app. unfold fs_run at 1. cbn [fold_left fs_step]. apply dget_dset_same.
Qed.

Lemma C44_nk_l : forall W path m fs ic rii,
  named path ".nk" -> exists e, save_material W path m fs ic rii = (Raise e, []).
Proof.
  intros W path m fs ic rii.
  intros H. apply (named_ext path ".nk") in H; [|cbn; tauto].
  destruct (save_material W path m fs ic rii) as [r ops] eqn:E. apply save_cases in E.
  destruct E as [(e & -> & ->)|(meta & w & v & text & extra & M & Hw & V & B & _)]; [eauto|exfalso].
  destruct (mk_writer_inv _ _ _ _ Hw) as (_ & X & _). unfold body_of in B. cbn [no_comment w_ext] in B. rewrite X, H in B.
  change (smem ".nk" txt_types) with true in B. cbv iota in B.
  destruct (text_nk W (no_comment w)) as [e Ee]; [cbn; now rewrite X|]. rewrite Ee in B. discriminate.
Qed.

Lemma mk_writer_path W path path' m w : mk_writer W path m = Ok w -> mk_writer W path' m = Ok (mkWriter path' (splitext path') (w_meta w) (w_sets w)).
Proof. unfold mk_writer. intros H. inv_bind H fd E. rewrite E. injection H as <-. reflexivity. Qed.
Lemma text_nk_err W w text : write_text_file W w = Ok text -> w_ext w <> ".nk" -> forall p,
  write_text_file W (mkWriter p ".nk" (w_meta w) (w_sets w)) = Raise UnboundLocalError.
Proof.
  intros E _ p. unfold write_text_file in *. cbn [w_sets w_meta w_ext].
  destruct (w_sets w) as [|d l]; [discriminate|]. inv_bind E a1 E1. inv_bind E a2 E2. inv_bind E a3 E3. inv_bind E a4 E4. inv_bind E a5 E5. inv_bind E a6 E6.
  inv_bind E a7 E7. inv_bind E a8 E8. rewrite E1. cbn [bind]. rewrite E2. cbn [bind]. rewrite E3. cbn [bind]. rewrite E4. cbn [bind]. rewrite E5. cbn [bind].
  rewrite E6. cbn [bind]. rewrite E7. cbn [bind]. rewrite E8. reflexivity.
Qed.

Lemma C44_nk_error_l : forall W path path' m fs fs' ic rii ops,
  text_file path -> save_material W path m fs ic rii = (Ok tt, ops) -> named path' ".nk" ->
  save_material W path' m fs' ic rii = (Raise UnboundLocalError, []).
Proof.
  intros W path path' m fs fs' ic rii ops.
  intros Hp HS H. apply (named_ext path' ".nk") in H; [|cbn; tauto]. apply text_file_ext in Hp. apply save_cases in HS.
  destruct HS as [(e & E & _)|(meta & w & v & text & extra & M & Hw & V & B & _)]; [discriminate|].
  destruct (mk_writer_inv _ _ _ _ Hw) as (_ & X & _).
  unfold save_material. rewrite (mk_writer_path W path path' m w Hw). unfold write_file. cbn [w_meta w_path w_ext w_sets].
  destruct (mk_writer_inv _ _ _ _ Hw) as (_ & _ & meta' & sets & M' & _ & _ & K' & _). rewrite M in M'. injection M' as <-.
  rewrite K', dget_kept, V by discriminate. rewrite H. change (smem ".nk" txt_types) with true. cbv iota.
  unfold body_of in B. cbn [no_comment w_ext] in B. rewrite X in B.
  assert (smem (splitext path) txt_types = true) as T by (destruct Hp as [-> | ->]; reflexivity). rewrite T in B.
  inv_bind B t Et. rewrite <- K'.
  pose proof (text_nk_err W (no_comment w) t Et ltac:(cbn; rewrite X; destruct Hp as [-> | ->]; discriminate) path') as E. cbn [no_comment w_meta w_sets] in E.
  rewrite E. reflexivity.
Qed.

Lemma C44_unsupported_l : forall W path m fs ic rii,
  (forall ext, In ext [".txt"; ".csv"; ".yml"] -> ~ ends_with path ext) ->
  exists e, save_material W path m fs ic rii = (Raise e, []).
Proof.
  intros W path m fs ic rii.
  intros H. destruct (save_material W path m fs ic rii) as [r ops] eqn:E. apply save_cases in E.
  destruct E as [(e & -> & ->)|(meta & w & v & text & extra & M & Hw & V & B & _)]; [eauto|exfalso].
  destruct (mk_writer_inv _ _ _ _ Hw) as (_ & X & _). unfold body_of in B. cbn [no_comment w_ext] in B. rewrite X in B.
  destruct (smem (splitext path) txt_types) eqn:T.
  - apply smem_In in T. cbn in T. destruct T as [T|[T|[T|[]]]]; symmetry in T.
    + apply (H ".txt"); [cbn; tauto|]. now apply ext_suffix.
    + apply (H ".csv"); [cbn; tauto|]. now apply ext_suffix.
    + destruct (text_nk W (no_comment w)) as [e Ee]; [cbn; now rewrite X|]. rewrite Ee in B. discriminate.
  - destruct (String.eqb (splitext path) ".yml") eqn:Y; [|discriminate]. apply String.eqb_eq in Y.
    apply (H ".yml"); [cbn; tauto|]. now apply ext_suffix.
Qed.

Lemma C44_unsupported_error_l : forall W path m fs ic rii w meta,
  (forall ext, In ext [".txt"; ".csv"; ".yml"; ".nk"] -> ~ ends_with path ext) ->
  mk_writer W path m = Ok w -> m_meta m = Some meta -> dget meta "MetaComment" <> None ->
  save_material W path m fs ic rii = (Raise ValueError, []).
Proof.
  intros W path m fs ic rii w meta.
  intros H Hw M C. unfold save_material. rewrite Hw. destruct (write_file W w fs ic rii) as [[r ops] w'] eqn:E. apply write_cases in E.
  destruct (mk_writer_inv _ _ _ _ Hw) as (P & X & meta' & sets & M' & _ & _ & K & _). rewrite M in M'. injection M' as <-.
  rewrite K, dget_kept in E by discriminate. destruct E as [(N & _)|(v & _ & _ & E)]; [contradiction|].
  assert (body_of W ic rii (no_comment w) = Raise ValueError) as B.
  { unfold body_of. cbn [no_comment w_ext]. rewrite X. destruct (smem (splitext path) txt_types) eqn:T.
    - exfalso. apply smem_In in T. cbn in T. destruct T as [T|[T|[T|[]]]]; symmetry in T; apply ext_suffix in T; revert T; apply H; cbn; tauto.
    - destruct (String.eqb (splitext path) ".yml") eqn:Y; [|reflexivity]. apply String.eqb_eq in Y. exfalso. apply ext_suffix in Y. revert Y. apply H. cbn; tauto. }
  rewrite B in E. destruct E as [(e & Ee & -> & ->)|(t & x & Ee & _)]; [injection Ee as <-; reflexivity|discriminate].
Qed.

Lemma C44_complex_l : forall W path m fs ic rii,
  (m_complex m <> None \/ m_meta m = None \/ exists b d s, m_real m = DExtrap b d s \/ m_imag m = DExtrap b d s) ->
  exists e, save_material W path m fs ic rii = (Raise e, []).
Proof.
  intros W path m fs ic rii.
  intros H. destruct (save_material W path m fs ic rii) as [r ops] eqn:E. apply save_cases in E.
  destruct E as [(e & -> & ->)|(meta & w & v & text & extra & M & Hw & _)]; [eauto|exfalso].
  destruct (mk_writer_inv _ _ _ _ Hw) as (_ & _ & meta' & sets & _ & C & D & _).
  destruct H as [H|[H|(b & d & s & H)]]; [contradiction|congruence|]. unfold dataset_to_dict in D. rewrite C in D.
  inv_bind D a Ea. inv_bind D a' Ea'. destruct H as [H|H]; rewrite H in *; discriminate.
Qed.

Lemma C44_complex_error_l : forall W path m fs ic rii,
  (m_meta m = None -> save_material W path m fs ic rii = (Raise AttributeError, [])) /\
  (m_meta m <> None -> m_complex m <> None -> save_material W path m fs ic rii = (Raise KeyError, [])) /\
  (forall b d s, m_meta m <> None -> m_complex m = None -> m_real m = DExtrap b d s ->
     save_material W path m fs ic rii = (Raise AttributeError, [])).
Proof.
  intros W path m fs ic rii.
  unfold save_material, mk_writer, prepare_file_dict, dataset_to_dict. repeat split.
  - intros ->. reflexivity.
  - destruct (m_meta m); [|congruence]. destruct (m_complex m); [reflexivity|congruence].
  - intros b d s. destruct (m_meta m); [|congruence]. intros _ -> ->. reflexivity.
Qed.

Lemma C44_no_table_l : forall W path m fs ic rii,
  text_file path -> (forall b rows, m_real m <> DInterp b rows) ->
  exists e, save_material W path m fs ic rii = (Raise e, []).
Proof.
  intros W path m fs ic rii.
  intros Hp N. apply text_file_ext in Hp. destruct (save_material W path m fs ic rii) as [r ops] eqn:E. apply save_cases in E.
  destruct E as [(e & -> & ->)|(meta & w & v & text & extra & M & Hw & V & B & _)]; [eauto|exfalso].
  destruct (mk_writer_inv _ _ _ _ Hw) as (_ & X & _). unfold body_of in B. cbn [no_comment w_ext] in B. rewrite X in B.
  assert (smem (splitext path) txt_types = true) as T by (destruct Hp as [-> | ->]; reflexivity). rewrite T in B. inv_bind B t Et.
  unfold mk_writer in Hw. inv_bind Hw fd Ef. destruct fd as [meta' sets]. injection Hw as <-.
  destruct (no_data_key _ _ _ _ Ef) as [(b & rows & R)|(d & rest & -> & N1 & N2)]; [now apply (N b rows)|].
  unfold write_text_file in Et. cbn [no_comment w_meta w_path w_ext w_sets snd fst] in Et.
  inv_bind Et st E1. inv_bind Et st' E2. inv_bind Et un E3. inv_bind Et un' E4. inv_bind Et dt E5. inv_bind Et dt' E6.
  unfold lookup2, dlookup in Et. rewrite N1, N2 in Et. discriminate.
Qed.

Definition const_dict (W : wenv) (b : dbase) (v : onum) (dt : string) : dict dval :=
  [("DataType", DStr dt); ("ValidRange", DStr (numeric_to_string_table W (vals_nd (sp_values (valid_range (DConst b v))))));
   ("SpectrumType", DStr (d_type b)); ("Unit", DStr (d_unit b)); ("Value", DOther true)].
Lemma part_const W name part b v : part_dict W name part (DConst b v) = do t <- add_dtype_suffix name "constant" part; Ok (const_dict W b v t).
Proof. reflexivity. Qed.
Lemma two_constants W m b v b' v' : m_complex m = None -> In (m_name m) ["nk"; "eps"] -> m_real m = DConst b v -> m_imag m = DConst b' v' ->
  exists t t', In t ["constant n"; "constant eps_r"] /\ In t' ["constant k"; "constant eps_k"] /\
    dataset_to_dict W m = Ok [const_dict W b v t; const_dict W b' v' t'].
Proof.
  intros C N R I. unfold dataset_to_dict. rewrite C, R, I, !part_const. cbn in N. destruct N as [<-|[<-|[]]].
  - exists "constant n", "constant k". split; [cbn; tauto|]. split; [cbn; tauto|]. reflexivity.
  - exists "constant eps_r", "constant eps_k". split; [cbn; tauto|]. split; [cbn; tauto|]. reflexivity.
Qed.

Lemma C44_two_constants_l : forall W path m fs rii meta b v b' v',
  named path ".yml" -> m_meta m = Some meta -> dget meta "MetaComment" <> None ->
  m_complex m = None -> In (m_name m) ["nk"; "eps"] -> m_real m = DConst b v -> m_imag m = DConst b' v' ->
  save_material W path m fs true rii = (Raise IndexError, []).
Proof.
  intros W path m fs rii meta b v b' v'.
  intros Hp M V C N R I. apply (named_ext path ".yml") in Hp; [|cbn; tauto].
  destruct (two_constants W m b v b' v' C N R I) as (t & t' & Ht & Ht' & E).
  unfold save_material, mk_writer, prepare_file_dict. rewrite M, E. cbn [bind fst snd]. unfold write_file. cbn [w_meta w_path w_ext w_sets].
  rewrite Hp. fold (kept meta). rewrite dget_kept by discriminate. destruct (dget meta "MetaComment"); [|congruence].
  change (smem ".yml" txt_types) with false. change (String.eqb ".yml" ".yml") with true. cbv iota.
  unfold yaml_doc. cbn [w_sets].
  assert (constant_ids 0 [const_dict W b v t; const_dict W b' v' t'] = Ok [0; 1]%nat) as ->; [|reflexivity].
  assert (forall b v t, is_constant (const_dict W b v t) = Ok (contains_str "constant" t)) as H by reflexivity.
  cbn [constant_ids]. rewrite !H. cbn [bind].
  assert (contains_str "constant" t = true) as -> by (cbn in Ht; destruct Ht as [<-|[<-|[]]]; reflexivity).
  assert (contains_str "constant" t' = true) as -> by (cbn in Ht'; destruct Ht' as [<-|[<-|[]]]; reflexivity). reflexivity.
Qed.

Lemma C44_once_l : forall W w fs ic rii r ops w' fs' ic' rii',
  NoDup (map fst (w_meta w)) ->
  write_file W w fs ic rii = (r, ops, w') -> write_file W w' fs' ic' rii' = (Raise KeyError, [], w').
Proof.
  intros W w fs ic rii r ops w' fs' ic' rii'.
  intros ND H. apply write_cases in H.
  assert (forall (d : dict mval) k, NoDup (map fst d) -> dget (ddel d k) k = None) as G.
  { clear. induction d as [|[k' v] d IH]; intros k ND; [reflexivity|]. cbn [ddel]. cbn in ND. inversion ND as [|x l Hx Hl]; subst.
    destruct (String.eqb k k') eqn:E.
    - apply String.eqb_eq in E. subst. clear -Hx. induction d as [|[k v] d IH]; [reflexivity|]. cbn in Hx |- *. destruct (String.eqb k' k) eqn:E.
      + apply String.eqb_eq in E. subst. exfalso. apply Hx. now left.
      + apply IH. intros H. apply Hx. now right.
    - cbn [dget]. rewrite E. now apply IH. }
  unfold write_file. destruct H as [(N & _ & _ & ->)|(v & _ & -> & _)]; [now rewrite N|]. cbn [no_comment w_meta]. rewrite G by exact ND. reflexivity.
Qed.

Lemma C46_other_files_l : forall W path m fs ic rii r ops fs' p,
  save_material W path m fs ic rii = (r, ops) -> crash_state fs ops fs' -> p <> path -> dget fs' p = dget fs p.
Proof.
  intros W path m fs ic rii r ops fs' p.
  intros H C N. apply save_paths in H. apply (crash_other fs ops); [|exact C]. eapply Forall_impl; [|exact H]. cbn. congruence.
Qed.

Lemma C46_file_itself_l : forall W path m fs ic rii ops,
  save_material W path m fs ic rii = (Ok tt, ops) ->
  exists c body final, comment_of m c /\ dget (fs_run fs ops) path = Some final /\
    (c = "" -> final = body) /\
    (c <> "" -> exists block, comment_block c (String.eqb (splitext path) ".yml") block /\ final = (block ++ univ body)%string) /\
    forall fs', crash_state fs ops fs' ->
      dget fs' path = dget fs path \/ exists a, dget fs' path = Some a /\ (prefix_of a body \/ prefix_of a final).
Proof.
  intros W path m fs ic rii ops.
  intros H. pose proof (save_paths _ _ _ _ _ _ _ _ H) as F. apply save_cases in H.
  destruct H as [(e & E & _)|(meta & w & v & text & extra & M & Hw & V & B & D)]; [discriminate|].
  assert (extra = String.eqb (splitext path) ".yml") as X.
  { destruct (mk_writer_inv _ _ _ _ Hw) as (_ & X & _). unfold body_of in B. cbn [no_comment w_ext] in B. rewrite X in B.
    destruct (smem (splitext path) txt_types) eqn:T.
    - inv_bind B t Et. injection B as _ <-. apply smem_In in T. cbn in T. destruct T as [<-|[<-|[<-|[]]]]; reflexivity.
    - destruct (String.eqb (splitext path) ".yml"); [|discriminate]. inv_bind B t Et. now injection B as _ <-. }
  destruct D as [(-> & _ & ->)|[(c & -> & Hc & _ & ->)|(_ & D & _)]]; [| |discriminate].
  - exists "", text, text. split; [exists meta; auto|]. split; [apply run_body|]. split; [reflexivity|]. split; [congruence|].
    intros fs' C. destruct (crash_one _ _ _ C path F) as [E|(k & a & E & P)]; [now left|right]. exists a. split; [exact E|]. left.
    eapply prefix_trans; [exact P|apply content_run_body].
  - exists c, text, (block_of c extra ++ univ text)%string. split; [exists meta; auto|]. split; [apply run_full|]. split; [congruence|].
    split; [intros _; exists (block_of c extra); split; [rewrite <- X; apply block_is|reflexivity]|].
    intros fs' C. destruct (crash_one _ _ _ C path F) as [E|(k & a & E & P)]; [now left|right]. exists a. split; [exact E|].
    destruct (content_run_full fs path c text extra k) as [Q|Q]; [left|right]; (eapply prefix_trans; [exact P|exact Q]).
Qed.

Lemma C46_atomic_refuted_l : forall W path m fs ic rii ops,
  save_material W path m fs ic rii = (Ok tt, ops) ->
  exists fs', crash_state fs ops fs' /\ dget fs' path = Some "".
Proof.
  intros W path m fs ic rii ops.
  intros H. apply save_cases in H. destruct H as [(e & E & _)|(meta & w & v & text & extra & M & Hw & V & B & D)]; [discriminate|].
  exists (dset fs path ""). split; [|apply dget_dset_same].
  destruct D as [(-> & _ & ->)|[(c & -> & Hc & _ & ->)|(_ & D & _)]]; [| |discriminate]; apply cr_later; apply cr_now.
Qed.

Lemma C46_comment_refuted_l : forall W path m c fs ic rii ops,
  comment_of m c -> c <> "" ->
  save_material W path m fs ic rii = (Ok tt, ops) ->
  exists before after body block, ops = before ++ after /\
    dget (fs_run fs before) path = Some body /\
    dget (fs_run fs ops) path = Some (block ++ univ body)%string /\
    exists fs', crash_state (fs_run fs before) after fs' /\ crash_state fs ops fs' /\ dget fs' path = Some "".
Proof.
  intros W path m c fs ic rii ops.
  intros [meta [M C]] Hc H. apply save_cases in H. destruct H as [(e & E & _)|(meta' & w & v & text & extra & M' & Hw & V & B & D)]; [discriminate|].
  rewrite M in M'. injection M' as <-. rewrite C in V. injection V as <-.
  destruct D as [(D & _)|[(c' & E & _ & _ & ->)|(D & _)]]; [congruence| |exfalso; now apply (D c)]. injection E as <-.
  exists (body_ops path text), [OTrunc path; OAppend path (block_of c extra); OAppend path (univ text)], text, (block_of c extra).
  split; [reflexivity|]. split; [apply run_body|]. split; [apply run_full|].
  assert (crash_state (fs_run fs (body_ops path text)) [OTrunc path; OAppend path (block_of c extra); OAppend path (univ text)]
    (fs_step (fs_run fs (body_ops path text)) (OTrunc path))) as K by (apply cr_later; apply cr_now).
  eexists. split; [exact K|]. split; [now apply crash_app|]. cbn [fs_step]. apply dget_dset_same.
Qed.

Lemma C45_fresh_l : forall fk dk fk' dk' yl fs fs' path,
  Permutation FILE_META_DATA_KEYS fk -> Permutation DATASET_META_DATA_KEYS dk ->
  Permutation FILE_META_DATA_KEYS fk' -> Permutation DATASET_META_DATA_KEYS dk' ->
  dget fs path = dget fs' path ->
  same_reading (read_path fk dk yl fs path) (read_path fk' dk' yl fs' path).
Proof.
  intros fk dk fk' dk' yl fs fs' path.
  intros P1 P2 P3 P4 E. replace (read_path fk' dk' yl fs' path) with (read_path fk' dk' yl fs path); [now apply read_path_order|].
  unfold read_path, fs_read. now rewrite E.
Qed.

Lemma C45_reused_l : forall fk dk yl path texts text,
  Permutation FILE_META_DATA_KEYS fk ->
  let r := after_reads fk dk yl (mk_reader fk path) texts in
  reading_or_left_over (rd_meta r) (fst (read_file fk dk yl r text)) (fst (read_file fk dk yl (mk_reader fk path) text)).
Proof. intros fk dk yl path texts text. intros P. now apply reuse_reading. Qed.

Lemma C45_reused_refuted_l : forall yl, exists path text1 text2 a b,
  let r := mk_reader FILE_META_DATA_KEYS path in
  fst (read_file FILE_META_DATA_KEYS DATASET_META_DATA_KEYS yl
        (after_reads FILE_META_DATA_KEYS DATASET_META_DATA_KEYS yl r [text1]) text2) = Ok a /\
  fst (read_file FILE_META_DATA_KEYS DATASET_META_DATA_KEYS yl r text2) = Ok b /\
  dget (fd_meta a) "Name" = Some (MStr "Gold") /\ dget (fd_meta b) "Name" = Some (MStr "").
Proof.
  intros yl. exists "m.txt", ("# NAME: Gold" ++ NL ++ "1 2" ++ NL ++ "3 4" ++ NL)%string, ("1 2" ++ NL ++ "3 4" ++ NL)%string.
  eexists _, _. cbv zeta. split; [vm_compute; reflexivity|]. split; [vm_compute; reflexivity|]. split; reflexivity.
Qed.
