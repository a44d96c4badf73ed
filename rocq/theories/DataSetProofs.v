(** Lemmas for C89 *)
From Verif Require Import PyBase PyStr XReal SpectralModel TextModel TextSpec TextProofs MaterialModel MaterialSpec MatFileProofs FileModel ReaderModel WriterModel IOSpec LineProofs TextFileProofs SetupProofs PathProofs CycleProofs LoadProofs SaveSpec DataSetSpec.
From Coq Require Import Permutation.
Open Scope string_scope.
Open Scope list_scope.

Definition names_of (key : string) : list string := map upper (key_names key).
Lemma names_disjoint key key' n : In key DATASET_META_DATA_KEYS -> In key' DATASET_META_DATA_KEYS ->
  In n (names_of key) -> In n (names_of key') -> key = key'.
Proof.
  intros H H'. cbn in H, H'.
  destruct H as [<-|[<-|[<-|[<-|[<-|[]]]]]]; destruct H' as [<-|[<-|[<-|[<-|[<-|[]]]]]]; try reflexivity;
    unfold names_of; cbn; intuition congruence.
Qed.
Lemma dataset_key_some dk k key : Permutation DATASET_META_DATA_KEYS dk -> dataset_key dk k = Some key ->
  In key DATASET_META_DATA_KEYS /\ In (upper k) (names_of key).
Proof.
  intros P H. unfold dataset_key in H. apply find_some in H. destruct H as [Hi He]. split; [eapply Permutation_in; [symmetry; exact P|exact Hi]|].
  apply existsb_exists in He. destruct He as (al & Ha & E). apply String.eqb_eq in E. rewrite E. now apply in_map.
Qed.
Lemma dataset_key_in dk k key : Permutation DATASET_META_DATA_KEYS dk -> In key DATASET_META_DATA_KEYS -> In (upper k) (names_of key) ->
  dataset_key dk k = Some key.
Proof.
  intros P Hk Hn. destruct (dataset_key dk k) as [key'|] eqn:E.
  - destruct (dataset_key_some dk k key' P E) as [H1 H2]. f_equal. eapply names_disjoint; eassumption.
  - exfalso. unfold dataset_key in E. pose proof (find_none _ _ E key (Permutation_in _ P Hk)) as F. cbn beta in F.
    unfold names_of in Hn. apply in_map_iff in Hn. destruct Hn as (al & Ea & Hi).
    assert (existsb (fun alias => String.eqb (upper k) (upper alias)) (key_names key) = true) as T; [|congruence].
    apply existsb_exists. exists al. split; [exact Hi|]. rewrite Ea. apply String.eqb_refl.
Qed.

Section Sets.
Variables fk dk : list string.
Hypothesis Pd : Permutation DATASET_META_DATA_KEYS dk.
Definition step (d : fset) (kv : string * dval) : fset :=
  match dataset_key dk (fst kv) with Some key => fset_set d key (snd kv) | None => d end.
Lemma step_data d kv : ds_data (step d kv) = ds_data d.
Proof.
  unfold step. destruct (dataset_key dk (fst kv)) as [key|] eqn:E; [|reflexivity].
  apply data_set. exact (proj1 (dataset_key_some dk _ _ Pd E)).
Qed.
Lemma fold_step_data ds : forall d, ds_data (fold_left step ds d) = ds_data d.
Proof. induction ds as [|kv ds IH]; intros d; [reflexivity|]. cbn [fold_left]. now rewrite IH, step_data. Qed.
Lemma step_other d kv key : In key DATASET_META_DATA_KEYS -> ~ In (upper (fst kv)) (names_of key) -> fget (step d kv) key = fget d key.
Proof.
  intros Hk Hn. unfold step. destruct (dataset_key dk (fst kv)) as [key'|] eqn:E; [|reflexivity].
  destruct (dataset_key_some dk _ _ Pd E) as [H1 H2]. rewrite fget_set by assumption.
  destruct (String.eqb key key') eqn:Q; [|reflexivity]. apply String.eqb_eq in Q. subst. contradiction.
Qed.
Lemma fold_step_other ds : forall d key, In key DATASET_META_DATA_KEYS -> (forall k w, In (k, w) ds -> ~ In (upper k) (names_of key)) ->
  fget (fold_left step ds d) key = fget d key.
Proof.
  induction ds as [|kv ds IH]; intros d key Hk Hn; [reflexivity|]. cbn [fold_left]. rewrite IH; [|exact Hk|intros k w Hi; apply (Hn k w); now right].
  apply step_other; [exact Hk|]. apply (Hn (fst kv) (snd kv)). left. now destruct kv.
Qed.
Lemma fold_step_gives ds d key v : In key DATASET_META_DATA_KEYS -> fget d key = DStr "" -> gives ds (names_of key) v ->
  fget (fold_left step ds d) key = v.
Proof.
  intros Hk H0 [[Hn ->]|(a & k & b & -> & Hi & Hb)]; [now rewrite fold_step_other|].
  rewrite fold_left_app. cbn [fold_left]. rewrite fold_step_other by assumption. unfold step. cbn [fst snd].
  rewrite (dataset_key_in dk k key Pd Hk Hi), fget_set by assumption. now rewrite String.eqb_refl.
Qed.
Lemma lookup2_first ds a b v : first_of ds a b v -> lookup2 ds a b = Ok v.
Proof. unfold lookup2, dlookup. intros [-> | [-> ->]]; reflexivity. Qed.
Lemma lookup2_neither ds a b : neither ds a b -> lookup2 ds a b = Raise KeyError.
Proof. unfold lookup2, dlookup. intros [-> ->]; reflexivity. Qed.
Lemma starts_iff a s : startswith a s = true <-> prefix_of a s.
Proof.
  split; [apply startswith_inv|]. intros [r ->]. apply startswith_app.
Qed.
Lemma starts_false a s : ~ prefix_of a s -> startswith a s = false.
Proof. intros H. destruct (startswith a s) eqn:E; [|reflexivity]. exfalso. apply H. now apply starts_iff. Qed.
Lemma data_keys_cond t a b {A} (x y z : A) : data_keys t a b ->
  (if startswith "formula" t || startswith "model" t then x else if startswith "tabulated" t then y else z) =
  if String.eqb a "coefficients" then x else y.
Proof.
  intros [([H|H] & -> & ->)|(H & -> & ->)].
  - apply starts_iff in H. rewrite H. reflexivity.
  - apply starts_iff in H. rewrite H, orb_true_r. reflexivity.
  - assert (startswith "formula" t = false /\ startswith "model" t = false) as [-> ->].
    { destruct H as [r ->]. split; reflexivity. }
    apply starts_iff in H. rewrite H. reflexivity.
Qed.
Lemma process_set ds v : set_data ds v -> exists f t, kind ds t /\ process_mat_data dk ds = Ok f /\
  f = fold_left step ds (fset_set (fset_set default_data_dict "DataType" (DStr t)) "Data" v).
Proof.
  intros (t & a & b & (s & Hs & Et) & Hk & Hf). eexists _, t. split; [now exists s|]. split; [|reflexivity].
  unfold process_mat_data. rewrite (lookup2_first _ _ _ _ Hs). cbn [bind dval_lstrip]. rewrite <- Et.
  rewrite (data_keys_cond t a b _ _ _ Hk).
  assert ((if String.eqb a "coefficients" then lookup2 ds "coefficients" "Parameters" else lookup2 ds "data" "Data") = Ok v) as ->; [|reflexivity].
  destruct Hk as [(_ & -> & ->)|(_ & -> & ->)]; cbn [String.eqb Ascii.eqb Bool.eqb]; now apply lookup2_first.
Qed.
Lemma process_unusable ds : unusable ds -> process_mat_data dk ds = Raise KeyError.
Proof.
  unfold process_mat_data. intros [H|[(t & (s & Hs & Et) & Hn)|(t & a & b & (s & Hs & Et) & Hk & Hn)]].
  - now rewrite (lookup2_neither _ _ _ H).
  - rewrite (lookup2_first _ _ _ _ Hs). cbn [bind dval_lstrip]. rewrite <- Et.
    assert (startswith "formula" t = false) as -> by (apply starts_false; intros K; apply (Hn "coefficients" "Parameters"); left; auto).
    assert (startswith "model" t = false) as -> by (apply starts_false; intros K; apply (Hn "coefficients" "Parameters"); left; auto).
    assert (startswith "tabulated" t = false) as -> by (apply starts_false; intros K; apply (Hn "data" "Data"); right; auto).
    reflexivity.
  - rewrite (lookup2_first _ _ _ _ Hs). cbn [bind dval_lstrip]. rewrite <- Et, (data_keys_cond t a b _ _ _ Hk).
    destruct Hk as [(_ & -> & ->)|(_ & -> & ->)]; cbn [String.eqb Ascii.eqb Bool.eqb]; now rewrite (lookup2_neither _ _ _ Hn).
Qed.
Lemma first_of_unique ds a b v w : first_of ds a b v -> first_of ds a b w -> v = w.
Proof. intros [H|[H1 H2]] [K|[K1 K2]]; congruence. Qed.
Lemma kind_unique ds t t' : kind ds t -> kind ds t' -> t = t'.
Proof. intros (s & H & ->) (s' & H' & ->). pose proof (first_of_unique _ _ _ _ _ H H') as E. now injection E as ->. Qed.
Lemma data_keys_unique t a b a' b' : data_keys t a b -> data_keys t a' b' -> a = a' /\ b = b'.
Proof.
  assert (forall r, prefix_of "formula" t \/ prefix_of "model" t -> t <> ("tabulated" ++ r)%string) as D by (intros r [[q ->]|[q ->]]; discriminate).
  intros [(H & -> & ->)|([r H] & -> & ->)] [(K & -> & ->)|([r' K] & -> & ->)]; auto; exfalso; [apply (D r' H K)|apply (D r K H)].
Qed.
Lemma set_data_unique ds v w : set_data ds v -> set_data ds w -> v = w.
Proof.
  intros (t & a & b & H1 & H2 & H3) (t' & a' & b' & K1 & K2 & K3). pose proof (kind_unique _ _ _ H1 K1) as <-.
  destruct (data_keys_unique _ _ _ _ _ H2 K2) as [<- <-]. eapply first_of_unique; eassumption.
Qed.

(** ** the top level *)
Hypothesis Pf : Permutation FILE_META_DATA_KEYS fk.
Lemma key_match k key : In key FILE_META_DATA_KEYS -> prefix_of (upper key) k -> match_key fk k = Some key.
Proof.
  intros Hk Hp. rewrite (match_key_perm _ _ k file_keys_free Pf). apply match_key_unique; [apply file_keys_free|exact Hk|]. now apply starts_iff.
Qed.
Lemma match_some k key : match_key fk k = Some key -> In key FILE_META_DATA_KEYS /\ prefix_of (upper key) k.
Proof.
  unfold match_key. intros H. apply find_some in H. destruct H as [H1 H2]. split; [eapply Permutation_in; [symmetry; exact Pf|exact H1]|]. now apply starts_iff.
Qed.
Lemma meta_not_data k key : In key FILE_META_DATA_KEYS -> prefix_of (upper key) k -> k <> "DATA" /\ k <> "SPECS".
Proof.
  intros H [r ->]. cbn in H. destruct H as [<-|[<-|[<-|[<-|[<-|[<-|[]]]]]]]; split; discriminate.
Qed.
Definition top_ok (doc : dict ynode) (k : string) : Prop := upper k = k /\ dget doc k <> None.
Lemma run_sets doc sets' keys : (forall n, dget doc "DATA" = Some n -> process_mat_data_dict dk n = Ok sets') ->
  Forall (top_ok doc) keys -> forall meta sets,
  fst (process_mat_dict fk dk keys doc meta sets) = Ok (if smem "DATA" keys then sets' else sets).
Proof.
  intros HD. induction keys as [|k r IH]; intros Ho meta sets; [reflexivity|]. cbn [process_mat_dict].
  pose proof (Forall_inv Ho) as [Eu Hg]. apply Forall_inv_tail in Ho. rewrite Eu.
  destruct (dget doc k) as [n|] eqn:En; [|congruence].
  cbn [smem existsb]. destruct (String.eqb k "DATA") eqn:E1.
  - apply String.eqb_eq in E1. subst k. rewrite (HD n En), (IH Ho). change (String.eqb "DATA" "DATA") with true. cbn [orb].
    unfold smem. now destruct (existsb _ r).
  - assert (String.eqb "DATA" k = false) as E1' by (rewrite String.eqb_sym; exact E1). unfold smem. cbn [existsb]. rewrite E1'. cbn [orb].
    destruct (String.eqb k "SPECS"); [apply (IH Ho)|]. destruct (match_key fk k); apply (IH Ho).
Qed.
Lemma run_fails doc e keys n : dget doc "DATA" = Some n -> process_mat_data_dict dk n = Raise e ->
  Forall (top_ok doc) keys -> In "DATA" keys -> forall meta sets,
  fst (process_mat_dict fk dk keys doc meta sets) = Raise e.
Proof.
  intros HD HR. induction keys as [|k r IH]; intros Ho Hi meta sets; [destruct Hi|]. cbn [process_mat_dict].
  pose proof (Forall_inv Ho) as [Eu Hg]. apply Forall_inv_tail in Ho. rewrite Eu.
  destruct (dget doc k) as [n'|] eqn:En; [|congruence].
  destruct (String.eqb k "DATA") eqn:E1.
  - apply String.eqb_eq in E1. subst k. rewrite HD in En. injection En as <-. now rewrite HR.
  - assert (In "DATA" r) as Hr by (destruct Hi as [->|Hi]; [rewrite String.eqb_refl in E1; discriminate|exact Hi]).
    destruct (String.eqb k "SPECS"); [now apply IH|]. destruct (match_key fk k); now apply IH.
Qed.
(** metadata: [process_mat_dict] as a fold *)
Definition mstep (doc : dict ynode) (meta : dict mval) (k : string) : dict mval :=
  match dget doc k with
  | None => meta
  | Some arg => if String.eqb k "DATA" then meta else if String.eqb k "SPECS" then dset meta "Specification" (node_val arg)
                else match match_key fk k with Some key => dset meta key (node_val arg) | None => meta end
  end.
Lemma run_meta doc sets' keys : (forall n, dget doc "DATA" = Some n -> process_mat_data_dict dk n = Ok sets') ->
  Forall (top_ok doc) keys -> forall meta sets,
  snd (process_mat_dict fk dk keys doc meta sets) = fold_left (mstep doc) keys meta.
Proof.
  intros HD. induction keys as [|k r IH]; intros Ho meta sets; [reflexivity|]. cbn [process_mat_dict fold_left].
  pose proof (Forall_inv Ho) as [Eu Hg]. apply Forall_inv_tail in Ho. rewrite Eu. unfold mstep at 2.
  destruct (dget doc k) as [n|] eqn:En; [|congruence].
  destruct (String.eqb k "DATA") eqn:E1.
  - apply String.eqb_eq in E1. subst k. rewrite (HD n En). now apply IH.
  - destruct (String.eqb k "SPECS"); [now apply IH|]. destruct (match_key fk k); now apply IH.
Qed.
Lemma mstep_other doc meta k key : In key FILE_META_DATA_KEYS -> ~ prefix_of (upper key) k -> dget (mstep doc meta k) key = dget meta key.
Proof.
  intros Hk Hn. unfold mstep. destruct (dget doc k); [|reflexivity]. destruct (String.eqb k "DATA"); [reflexivity|].
  destruct (String.eqb k "SPECS"); [rewrite dget_dset_other; [reflexivity|]; intros <-; cbn in Hk; intuition discriminate|].
  destruct (match_key fk k) as [key'|] eqn:E; [|reflexivity]. destruct (match_some _ _ E) as [_ Hp].
  rewrite dget_dset_other; [reflexivity|]. intros ->. contradiction.
Qed.
Lemma mfold_other doc keys : forall meta key, In key FILE_META_DATA_KEYS -> (forall k, In k keys -> ~ prefix_of (upper key) k) ->
  dget (fold_left (mstep doc) keys meta) key = dget meta key.
Proof.
  induction keys as [|k r IH]; intros meta key Hk Hn; [reflexivity|]. cbn [fold_left]. rewrite IH; [|exact Hk|intros q Hq; apply Hn; now right].
  apply mstep_other; [exact Hk|]. apply Hn. now left.
Qed.
Lemma mfold_says doc meta key v : top_level doc -> In key FILE_META_DATA_KEYS -> dget meta key = Some (MStr "") -> doc_says doc (upper key) v ->
  dget (fold_left (mstep doc) (map fst doc) meta) key = Some v.
Proof.
  intros [Hd Hu] Hk H0 [[Hn ->]|(a & k & n & b & E & Hp & -> & Hb)].
  - rewrite mfold_other; [exact H0|exact Hk|]. intros q Hq. apply in_map_iff in Hq. destruct Hq as ([q' w] & <- & Hi). now apply (Hn q' w).
  - assert (dget doc k = Some n) as Eg.
    { rewrite E in Hd |- *. rewrite map_app in Hd. cbn [map fst] in Hd. apply NoDup_remove_2 in Hd. clear -Hd.
      induction a as [|[q w] a IH]; cbn [app dget]; [now rewrite String.eqb_refl|]. cbn [map fst app] in Hd.
      destruct (String.eqb k q) eqn:Q; [apply String.eqb_eq in Q; subst; exfalso; apply Hd; now left|]. apply IH. intros K. apply Hd. now right. }
    assert (map fst doc = map fst a ++ k :: map fst b) as -> by (rewrite E, map_app; reflexivity).
    rewrite fold_left_app. cbn [fold_left]. rewrite mfold_other; [|exact Hk|].
    + unfold mstep at 1. rewrite Eg. destruct (meta_not_data k key Hk Hp) as [N1 N2].
      destruct (String.eqb k "DATA") eqn:E1; [apply String.eqb_eq in E1; contradiction|].
      destruct (String.eqb k "SPECS") eqn:E2; [apply String.eqb_eq in E2; contradiction|].
      rewrite (key_match k key Hk Hp). apply dget_dset_same.
    + intros q Hq. apply in_map_iff in Hq. destruct Hq as ([q' w] & <- & Hi). now apply (Hb q' w).
Qed.
Lemma mfold_specs doc keys : Forall (top_ok doc) keys -> forall meta,
  dget (fold_left (mstep doc) keys meta) "Specification" =
  if smem "SPECS" keys then option_map node_val (dget doc "SPECS") else dget meta "Specification".
Proof.
  induction keys as [|k r IH]; intros Ho meta; [reflexivity|]. cbn [fold_left]. rewrite (IH (Forall_inv_tail Ho)). unfold smem. cbn [existsb].
  destruct (String.eqb "SPECS" k) eqn:E; cbn [orb].
  - apply String.eqb_eq in E. subst k. destruct (existsb _ r) eqn:Q; [reflexivity|]. unfold mstep.
    pose proof (proj2 (Forall_inv Ho)) as Hg. destruct (dget doc "SPECS"); [|congruence].
    change (String.eqb "SPECS" "DATA") with false. change (String.eqb "SPECS" "SPECS") with true. cbv iota. now rewrite dget_dset_same.
  - destruct (existsb _ r); [reflexivity|]. unfold mstep. destruct (dget doc k); [|reflexivity].
    destruct (String.eqb k "DATA"); [reflexivity|]. rewrite (String.eqb_sym k "SPECS"), E.
    destruct (match_key fk k) as [key'|] eqn:M; [|reflexivity]. destruct (match_some _ _ M) as [Hk _].
    rewrite dget_dset_other; [reflexivity|]. intros Q'. rewrite Q' in Hk. cbn in Hk. intuition discriminate.
Qed.
Lemma top_level_ok doc : top_level doc -> Forall (top_ok doc) (map fst doc).
Proof.
  intros [Hd Hu]. apply Forall_forall. intros k Hk. split; [now apply Hu|]. intros K. now apply (proj1 (dget_None_keys doc k) K).
Qed.
End Sets.

Lemma read_path_yaml fk dk yl fs path text doc : named path ".yml" -> dget fs path = Some text -> yl text = Ok (YDict doc) ->
  read_path fk dk yl fs path =
  match process_mat_dict fk dk (map fst doc) doc (rd_meta (mk_reader fk path)) [default_data_dict] with
  | (Raise e, _) => Raise e
  | (Ok sets, meta) => Ok (mkFdict (dset meta "MetaComment" (MStr (drop_last (join NL (read_text_comment text))))) sets)
  end.
Proof.
  intros Hp Ht Hy. unfold read_path, read_file.
  assert (rd_ext (mk_reader fk path) = ".yml") as -> by (apply (named_ext path ".yml"); [cbn; tauto|exact Hp]).
  unfold fs_read. rewrite Ht. cbn [smem txt_types existsb String.eqb Ascii.eqb Bool.eqb orb bind].
  unfold read_yaml_mat_file. rewrite Hy.
  change (rd_sets (mk_reader fk path)) with [default_data_dict].
  destruct (process_mat_dict fk dk (map fst doc) doc (rd_meta (mk_reader fk path)) [default_data_dict]) as [[sets|e] meta]; reflexivity.
Qed.
Lemma mfold_keeps fk doc keys : forall meta key, dget meta key <> None -> dget (fold_left (mstep fk doc) keys meta) key <> None.
Proof.
  assert (forall (m : dict mval) k v key, dget m key <> None -> dget (dset m k v) key <> None) as D.
  { intros m k v key H. destruct (string_dec k key) as [->|N]; [rewrite dget_dset_same; discriminate|rewrite dget_dset_other; congruence]. }
  induction keys as [|k r IH]; intros meta key H; [exact H|]. cbn [fold_left]. apply IH. unfold mstep.
  destruct (dget doc k); [|exact H]. destruct (String.eqb k "DATA"); [exact H|]. destruct (String.eqb k "SPECS"); [now apply D|].
  destruct (match_key fk k); [now apply D|exact H].
Qed.
