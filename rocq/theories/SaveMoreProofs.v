(** Failing and interrupted saves, reuse of a Reader *)
From Verif Require Import PyBase PyStr XReal TextModel TextSpec SpectrumModel SpectralModel MaterialModel FileModel ReaderModel WriterModel IOSpec SaveSpec LineProofs TextProofs TextFileProofs SaveProofs PathProofs CycleProofs OrderProofs.
From Coq Require Import Permutation.
Open Scope string_scope.
Open Scope list_scope.

(** ** the shapes of a save *)
Definition body_ops (p text : string) : list fsop := [OTrunc p; OAppend p text].
Definition block_of (c : string) (extra : bool) : string :=
  ("#" ++ replace_char nl (NL ++ "#") (rstrip_nlcr c) ++ NL ++ (if extra then NL else ""))%string.
Definition full_ops (p c text : string) (extra : bool) : list fsop :=
  body_ops p text ++ [OTrunc p; OAppend p (block_of c extra); OAppend p (univ text)].
Definition body_of (W : wenv) (ic rii : bool) (w : writer) : res (string * bool) :=
  if smem (w_ext w) txt_types then do t <- write_text_file W w; Ok (t, false)
  else if String.eqb (w_ext w) ".yml" then do d <- yaml_doc w ic rii; Ok (yaml_dump W d, true)
  else Raise ValueError.
Definition no_comment (w : writer) : writer := mkWriter (w_path w) (w_ext w) (ddel (w_meta w) "MetaComment") (w_sets w).
Lemma write_cases W w fs ic rii r ops w' : write_file W w fs ic rii = (r, ops, w') ->
  (dget (w_meta w) "MetaComment" = None /\ r = Raise KeyError /\ ops = [] /\ w' = w) \/
  (exists v, dget (w_meta w) "MetaComment" = Some v /\ w' = no_comment w /\
    ((exists e, body_of W ic rii (no_comment w) = Raise e /\ r = Raise e /\ ops = []) \/
     (exists text extra, body_of W ic rii (no_comment w) = Ok (text, extra) /\
       ((v = MStr "" /\ r = Ok tt /\ ops = body_ops (w_path w) text) \/
        (exists c, v = MStr c /\ c <> "" /\ r = Ok tt /\ ops = full_ops (w_path w) c text extra) \/
        ((forall c, v <> MStr c) /\ r = Raise AttributeError /\ ops = body_ops (w_path w) text ++ [OTrunc (w_path w)]))))).
Proof.
  unfold write_file. destruct (dget (w_meta w) "MetaComment") as [v|] eqn:Ec.
  2: { intros H. injection H as <- <- <-. left. now repeat split. }
  fold (no_comment w). intros H. right. exists v. split; [reflexivity|].
  fold (body_of W ic rii (no_comment w)) in H.
  destruct (body_of W ic rii (no_comment w)) as [[text extra]|e] eqn:Eb.
  2: { injection H as <- <- <-. split; [reflexivity|]. left. exists e. now repeat split. }
  destruct v as [[|c0 c1]|d|z].
  - injection H as <- <- <-. split; [reflexivity|]. right. exists text, extra. split; [reflexivity|]. left. now repeat split.
  - change (w_path (no_comment w)) with (w_path w) in H. rewrite run_write in H. unfold prepend_text_to_file, fs_read in H. rewrite dget_dset_same in H.
    cbn [bind] in H. injection H as <- <- <-. split; [reflexivity|]. right. exists text, extra. split; [reflexivity|]. right. left.
    exists (String c0 c1). repeat split. discriminate.
  - injection H as <- <- <-. split; [reflexivity|]. right. exists text, extra. split; [reflexivity|]. right. right. repeat split. congruence.
  - injection H as <- <- <-. split; [reflexivity|]. right. exists text, extra. split; [reflexivity|]. right. right. repeat split. congruence.
Qed.
(** the Writer of a material *)
Lemma mk_writer_inv W path m w : mk_writer W path m = Ok w -> w_path w = path /\ w_ext w = splitext path /\
  exists meta sets, m_meta m = Some meta /\ m_complex m = None /\ dataset_to_dict W m = Ok sets /\ w_meta w = kept meta /\ w_sets w = sets.
Proof.
  intros H. unfold mk_writer in H. inv_bind H fd E. injection H as <-. split; [reflexivity|]. split; [reflexivity|].
  unfold prepare_file_dict in E. destruct (m_meta m) as [meta|]; [|discriminate]. inv_bind E sets Es. injection E as <-.
  exists meta, sets. split; [reflexivity|]. split; [unfold dataset_to_dict in Es; destruct (m_complex m); [discriminate|reflexivity]|].
  split; [exact Es|]. split; reflexivity.
Qed.
Lemma save_cases W path m fs ic rii r ops : save_material W path m fs ic rii = (r, ops) ->
  (exists e, r = Raise e /\ ops = []) \/
  (exists meta w v text extra, m_meta m = Some meta /\ mk_writer W path m = Ok w /\ dget meta "MetaComment" = Some v /\
     body_of W ic rii (no_comment w) = Ok (text, extra) /\
       ((v = MStr "" /\ r = Ok tt /\ ops = body_ops path text) \/
        (exists c, v = MStr c /\ c <> "" /\ r = Ok tt /\ ops = full_ops path c text extra) \/
        ((forall c, v <> MStr c) /\ r = Raise AttributeError /\ ops = body_ops path text ++ [OTrunc path]))).
Proof.
  intros H. unfold save_material in H. destruct (mk_writer W path m) as [w|e] eqn:Ew; [|injection H as <- <-; left; eauto].
  destruct (write_file W w fs ic rii) as [[r' ops'] w'] eqn:E. injection H as <- <-.
  destruct (mk_writer_inv _ _ _ _ Ew) as (P & X & meta & sets & M & _ & _ & K & _).
  apply write_cases in E. rewrite P in E. rewrite K, dget_kept in E by discriminate.
  destruct E as [(_ & -> & -> & _)|(v & Ev & _ & [(e & _ & -> & ->)|(text & extra & Eb & D)])]; [left; eauto|left; eauto|].
  right. exists meta, w, v, text, extra. repeat (split; [assumption||reflexivity|]). exact D.
Qed.

(** ** contents *)
Lemma run_body fs p t : dget (fs_run fs (body_ops p t)) p = Some t.
Proof. unfold body_ops. rewrite run_write. apply dget_dset_same. Qed.
Lemma run_app fs l l' : fs_run fs (l ++ l') = fs_run (fs_run fs l) l'.
Proof. apply fold_left_app. Qed.
Lemma run_full fs p c t extra : dget (fs_run fs (full_ops p c t extra)) p = Some (block_of c extra ++ univ t)%string.
Proof.
  unfold full_ops. rewrite run_app. unfold fs_run at 1. cbn [fold_left fs_step]. unfold content. now rewrite !dget_dset_same.
Qed.
Lemma crash_app fs l l' fs' : crash_state (fs_run fs l) l' fs' -> crash_state fs (l ++ l') fs'.
Proof. revert fs. induction l as [|o l IH]; intros fs H; [exact H|]. cbn [app]. apply cr_later, IH, H. Qed.
Definition op_path (o : fsop) : string := match o with OTrunc p => p | OAppend p _ => p end.
Lemma crash_other fs l fs' p : Forall (fun o => op_path o <> p) l -> crash_state fs l fs' -> dget fs' p = dget fs p.
Proof.
  intros F H. induction H as [fs l|fs q a b l|fs o l fs' H IH].
  - reflexivity.
  - apply Forall_inv in F. cbn in F |- *. now apply dget_dset_other.
  - rewrite (IH (Forall_inv_tail F)). apply Forall_inv in F. destruct o; cbn in F |- *; now apply dget_dset_other.
Qed.
Lemma save_paths W path m fs ic rii r ops : save_material W path m fs ic rii = (r, ops) -> Forall (fun o => op_path o = path) ops.
Proof.
  intros H. apply save_cases in H. destruct H as [(e & _ & ->)|(meta & w & v & text & extra & _ & _ & _ & _ & D)]; [constructor|].
  destruct D as [(_ & _ & ->)|[(c & _ & _ & _ & ->)|(_ & _ & ->)]]; repeat constructor.
Qed.
Lemma crash_one fs l fs' : crash_state fs l fs' -> forall p, Forall (fun o => op_path o = p) l ->
  dget fs' p = dget fs p \/ exists k a, dget fs' p = Some a /\ prefix_of a (content (fs_run fs (firstn (S k) l)) p).
Proof.
  induction 1 as [fs l|fs q a b l|fs o l fs' H IH]; intros p F.
  - now left.
  - right. exists 0%nat, (content fs q ++ a)%string. apply Forall_inv in F. cbn in F. subst q. cbn [fs_step]. rewrite dget_dset_same.
    split; [reflexivity|]. exists b. cbn [firstn fs_run fold_left fs_step]. unfold content at 1. rewrite dget_dset_same. symmetry. apply app_assoc_s.
  - pose proof (Forall_inv F) as Fo. apply Forall_inv_tail in F. destruct (IH p F) as [E|(k & a & E & P)].
    + right. exists 0%nat, (content (fs_step fs o) p). rewrite E. split.
      * unfold content. destruct o; cbn in Fo |- *; subst; rewrite dget_dset_same; reflexivity.
      * exists "". cbn [firstn fs_run fold_left]. now rewrite app_empty_r.
    + right. exists (S k), a. split; [exact E|]. exact P.
Qed.
Lemma prefix_empty s : prefix_of "" s. Proof. now exists s. Qed.
Lemma prefix_refl s : prefix_of s s. Proof. exists "". now rewrite app_empty_r. Qed.
Lemma prefix_trans a b c : prefix_of a b -> prefix_of b c -> prefix_of a c.
Proof. intros [x ->] [y ->]. exists (x ++ y)%string. apply app_assoc_s. Qed.
Lemma content_run_body fs p t k : prefix_of (content (fs_run fs (firstn (S k) (body_ops p t))) p) t.
Proof.
  destruct k as [|k].
  - cbn [body_ops firstn fs_run fold_left fs_step]. unfold content. rewrite dget_dset_same. apply prefix_empty.
  - replace (firstn (S (S k)) (body_ops p t)) with (body_ops p t) by (cbn; now rewrite firstn_nil).
    unfold content. rewrite run_body. apply prefix_refl.
Qed.

Lemma content_run_full fs p c t extra k :
  let a := content (fs_run fs (firstn (S k) (full_ops p c t extra))) p in prefix_of a t \/ prefix_of a (block_of c extra ++ univ t).
Proof.
  intros a. unfold a. clear a. destruct k as [|[|[|[|k]]]]; cbn [full_ops body_ops app firstn fs_run fold_left fs_step]; unfold content.
  - left. rewrite dget_dset_same. apply prefix_empty.
  - left. rewrite !dget_dset_same. apply prefix_refl.
  - left. rewrite !dget_dset_same. apply prefix_empty.
  - right. rewrite !dget_dset_same. now exists (univ t).
  - right. rewrite firstn_nil. cbn [fold_left]. rewrite !dget_dset_same. apply prefix_refl.
Qed.

(** ** the comment block *)
Lemma block_is c extra : comment_block c extra (block_of c extra).
Proof.
  exists (rstrip_nlcr c). split; [now apply trimmed_iff|]. unfold block_of. rewrite <- replace_lines. now rewrite app_assoc_s.
Qed.

(** ** reuse of a Reader *)
Section Reuse.
Variables fk dk : list string.
Variable yl : string -> res ydoc.
Hypothesis Pf : Permutation FILE_META_DATA_KEYS fk.

Lemma default_meta path key : unset key (dget (rd_meta (mk_reader fk path)) key).
Proof.
  unfold unset. cbn [mk_reader rd_meta]. destruct (String.eqb key "Specification") eqn:E.
  { apply String.eqb_eq in E. subst. apply dget_dset_same. }
  apply String.eqb_neq in E. rewrite dget_dset_other by congruence.
  assert (forall l d, dget (fold_left (fun d k => dset d k (MStr "")) l d) key = if smem key l then Some (MStr "") else dget d key) as H.
  { induction l as [|q l IH]; intros d; [reflexivity|]. cbn [fold_left]. rewrite IH. unfold smem at 2. cbn [existsb]. fold (smem key l).
    destruct (smem key l); [now rewrite orb_true_r|]. rewrite orb_false_r. destruct (String.eqb key q) eqn:Eq.
    - apply String.eqb_eq in Eq. subst. apply dget_dset_same.
    - apply dget_dset_other. apply String.eqb_neq in Eq. congruence. }
  rewrite H. cbn [dget]. replace (smem key fk) with (smem key FILE_META_DATA_KEYS).
  - unfold FILE_META_DATA_KEYS, smem. reflexivity.
  - apply eq_true_iff_eq. rewrite !smem_In. split; apply Permutation_in; [exact Pf|now apply Permutation_sym].
Qed.

(** the metadata [A] of a reading that started from [old], the metadata [B] of one that started from [D] *)
Definition left_over (old D A B : dict mval) : Prop :=
  forall key, dget A key = dget B key \/ (dget B key = dget D key /\ dget A key = dget old key).
Lemma left_over_set old D A B k v : left_over old D A B -> left_over old D (dset A k v) (dset B k v).
Proof.
  intros H key. destruct (string_dec k key) as [<-|N]; [left; now rewrite !dget_dset_same|]. rewrite !dget_dset_other by exact N. apply H.
Qed.
Lemma left_over_header old D lines : forall A B d u, left_over old D A B ->
  exists A' B' d' u', fold_left (header_line fk dk) lines (A, d, u) = (A', d', u') /\
    fold_left (header_line fk dk) lines (B, d, u) = (B', d', u') /\ left_over old D A' B'.
Proof.
  induction lines as [|line lines IH]; intros A B d u H; [exists A, B, d, u; now repeat split|]. cbn [fold_left].
  assert (exists A1 B1 d1 u1, header_line fk dk (A, d, u) line = (A1, d1, u1) /\ header_line fk dk (B, d, u) line = (B1, d1, u1) /\ left_over old D A1 B1)
    as (A1 & B1 & d1 & u1 & -> & -> & H1).
  { unfold header_line. destruct (split_on ":" line) as [|k [|x rest]]; [exists A, B, d; eexists; now repeat split|exists A, B, d; eexists; now repeat split|].
    cbv zeta. destruct (match_key fk _) as [key|].
    - do 4 eexists. split; [reflexivity|]. split; [reflexivity|]. now apply left_over_set.
    - destruct (match_key dk _) as [key|]; do 4 eexists; (split; [reflexivity|]); (split; [reflexivity|]); exact H. }
  apply IH, H1.
Qed.
Lemma left_over_dict old D doc keys : forall A B sets, left_over old D A B ->
  exists A' B' r, process_mat_dict fk dk keys doc A sets = (r, A') /\ process_mat_dict fk dk keys doc B sets = (r, B') /\ left_over old D A' B'.
Proof.
  induction keys as [|k keys IH]; intros A B sets H; [exists A, B, (Ok sets); now repeat split|]. cbn [process_mat_dict].
  destruct (dget doc (upper k)) as [arg|]; [|exists A, B, (Raise KeyError); now repeat split].
  destruct (String.eqb (upper k) "DATA").
  { destruct (process_mat_data_dict dk arg) as [l|e]; [now apply IH|exists A, B, (Raise e); now repeat split]. }
  destruct (String.eqb (upper k) "SPECS"); [apply IH, left_over_set, H|].
  destruct (match_key fk (upper k)); [apply IH, left_over_set, H|apply IH, H].
Qed.

Lemma reads_ext r texts : rd_ext (after_reads fk dk yl r texts) = rd_ext r.
Proof.
  unfold after_reads. revert r. induction texts as [|t texts IH]; intros r; [reflexivity|]. cbn [fold_left]. rewrite IH. clear IH.
  unfold read_file. destruct (smem (rd_ext r) txt_types).
  - unfold read_text_file. destruct (read_text_data (rd_ext r) t) as [d|e]; [|reflexivity].
    destruct (fold_left _ _ _) as [[A d'] u]. cbv zeta. destruct (ds_type d') as [[|c s]| |]; try reflexivity.
    destruct (ds_data d') as [|[l|n rows]|]; try reflexivity. destruct n as [|[|[|[|n]]]]; reflexivity.
  - destruct (String.eqb (rd_ext r) ".yml"); [|reflexivity]. unfold read_yaml_mat_file.
    destruct (yl t) as [[|doc]|e]; try reflexivity. destruct (process_mat_dict fk dk _ _ _ _) as [[sets|e] A]; reflexivity.
Qed.
Lemma reads_sets r texts : smem (rd_ext r) txt_types = false -> rd_sets (after_reads fk dk yl r texts) = rd_sets r.
Proof.
  intros H. unfold after_reads. revert r H. induction texts as [|t texts IH]; intros r H; [reflexivity|]. cbn [fold_left].
  pose proof (reads_ext r [t]) as X. cbn [after_reads fold_left] in X. rewrite IH by now rewrite X. clear IH X.
  unfold read_file. rewrite H. destruct (String.eqb (rd_ext r) ".yml"); [|reflexivity]. unfold read_yaml_mat_file.
  destruct (yl t) as [[|doc]|e]; try reflexivity. destruct (process_mat_dict fk dk _ _ _ _) as [[sets|e] A]; reflexivity.
Qed.

Lemma reuse_reading path texts text : let r := after_reads fk dk yl (mk_reader fk path) texts in
  reading_or_left_over (rd_meta r) (fst (read_file fk dk yl r text)) (fst (read_file fk dk yl (mk_reader fk path) text)).
Proof.
  intros r. set (r0 := mk_reader fk path).
  assert (rd_ext r = rd_ext r0) as HX by (unfold r; apply reads_ext).
  assert (left_over (rd_meta r) (rd_meta r0) (rd_meta r) (rd_meta r0)) as HL by (intros key; now right).
  assert (forall sets A B, left_over (rd_meta r) (rd_meta r0) A B ->
    reading_or_left_over (rd_meta r) (Ok (mkFdict A sets)) (Ok (mkFdict B sets))) as HF.
  { intros sets A B H. split; [reflexivity|]. intros key. cbn [fd_meta]. destruct (H key) as [E|[E1 E2]]; [now left|right].
    split; [|exact E2]. rewrite E1. apply default_meta. }
  unfold read_file. rewrite HX. destruct (smem (rd_ext r0) txt_types) eqn:Ht.
  - unfold read_text_file. rewrite HX. destruct (read_text_data (rd_ext r0) text) as [d|e]; [|reflexivity].
    destruct (left_over_header _ _ (read_text_comment text) _ _ d "" HL) as (A & B & d' & u & -> & -> & H).
    cbv zeta.
    assert (left_over (rd_meta r) (rd_meta r0) (if String.eqb u "" then A else dset A "MetaComment" (MStr u)) (if String.eqb u "" then B else dset B "MetaComment" (MStr u))) as H'
      by (destruct (String.eqb u ""); [exact H|now apply left_over_set]).
    destruct (ds_type d') as [[|c s]| |]; try (apply HF, H').
    destruct (ds_data d') as [|[l|n rows]|]; try (apply HF, H'); try reflexivity. destruct n as [|[|[|[|n]]]]; apply HF, H'.
  - destruct (String.eqb (rd_ext r0) ".yml"); [|reflexivity]. unfold read_yaml_mat_file.
    destruct (yl text) as [[|doc]|e]; try reflexivity. assert (rd_sets r = rd_sets r0) as -> by (unfold r; now apply reads_sets).
    destruct (left_over_dict _ _ doc (map fst doc) _ _ (rd_sets r0) HL) as (A & B & res & -> & -> & H). destruct res as [sets|e]; [|reflexivity].
    cbn [fst]. apply HF. now apply left_over_set.
Qed.
End Reuse.
