(** Reading does not depend on the iteration order of the keyword sets *)
From Verif Require Import PyBase PyStr XReal TextModel SpectrumModel SpectralModel MaterialModel FileModel ReaderModel WriterModel IOSpec LineProofs TextProofs TextFileProofs CycleProofs.
From Coq Require Import Permutation.
Open Scope string_scope.
Open Scope list_scope.

Lemma same_dset a b k v : same_lookups a b -> same_lookups (dset a k v) (dset b k v).
Proof.
  intros H q. destruct (string_dec k q) as [<-|E]; [now rewrite !dget_dset_same|]. rewrite !dget_dset_other by exact E. apply H.
Qed.

Lemma dataset_key_unique key key' kwd : In key DATASET_META_DATA_KEYS -> In key' DATASET_META_DATA_KEYS ->
  existsb (fun alias => String.eqb (upper kwd) (upper alias)) (key_names key) = true ->
  existsb (fun alias => String.eqb (upper kwd) (upper alias)) (key_names key') = true -> key = key'.
Proof.
  intros H1 H2 E1 E2. apply existsb_exists in E1, E2. destruct E1 as [a [A1 A2]], E2 as [b [B1 B2]].
  apply String.eqb_eq in A2, B2. rewrite A2 in B2. clear A2. cbn in H1, H2.
  repeat (destruct H1 as [<-|H1]; [|]); try contradiction;
  repeat (destruct H2 as [<-|H2]; [|]); try contradiction; try reflexivity; exfalso;
  cbn in A1, B1; repeat (destruct A1 as [<-|A1]; [|]); try contradiction; repeat (destruct B1 as [<-|B1]; [|]); try contradiction; vm_compute in B2; discriminate B2.
Qed.
Lemma find_unique {A} (f : A -> bool) l l' : Permutation l l' -> (forall a b, In a l -> In b l -> f a = true -> f b = true -> a = b) ->
  find f l' = find f l.
Proof.
  intros P U. destruct (find f l) as [a|] eqn:E.
  - apply find_some in E. destruct E as [Ea Fa]. destruct (find f l') as [b|] eqn:E'.
    + apply find_some in E'. destruct E' as [Eb Fb]. f_equal. apply U; try assumption. now apply (Permutation_in _ (Permutation_sym P)).
    + exfalso. apply (Permutation_in _ P) in Ea. pose proof (find_none _ _ E' a Ea). congruence.
  - destruct (find f l') as [b|] eqn:E'; [|reflexivity]. apply find_some in E'. destruct E' as [Eb Fb].
    apply (Permutation_in _ (Permutation_sym P)) in Eb. pose proof (find_none _ _ E b Eb). congruence.
Qed.
Lemma dataset_key_order dk kwd : Permutation DATASET_META_DATA_KEYS dk -> dataset_key dk kwd = dataset_key DATASET_META_DATA_KEYS kwd.
Proof. intros P. apply find_unique; [exact P|]. intros a b. apply dataset_key_unique. Qed.

Section Order.
Variables fk dk fk' dk' : list string.
Hypothesis Pf : Permutation FILE_META_DATA_KEYS fk.
Hypothesis Pd : Permutation DATASET_META_DATA_KEYS dk.
Hypothesis Pf' : Permutation FILE_META_DATA_KEYS fk'.
Hypothesis Pd' : Permutation DATASET_META_DATA_KEYS dk'.
Variable yl : string -> res ydoc.

Lemma file_key_order kwd : match_key fk kwd = match_key fk' kwd.
Proof. rewrite (match_key_perm _ _ kwd file_keys_free Pf), (match_key_perm _ _ kwd file_keys_free Pf'). reflexivity. Qed.
Lemma set_key_order kwd : match_key dk kwd = match_key dk' kwd.
Proof. rewrite (match_key_perm _ _ kwd dataset_keys_free Pd), (match_key_perm _ _ kwd dataset_keys_free Pd'). reflexivity. Qed.

Definition same_state (a b : dict mval * fset * string) : Prop :=
  same_lookups (fst (fst a)) (fst (fst b)) /\ snd (fst a) = snd (fst b) /\ snd a = snd b.
Lemma header_line_order a b line : same_state a b -> same_state (header_line fk dk a line) (header_line fk' dk' b line).
Proof.
  destruct a as [[m d] u], b as [[m' d'] u']. intros [H1 [H2 H3]]. cbn [fst snd] in *. subst. unfold header_line.
  destruct (split_on ":" line) as [|k [|r rest]]; try (split; [exact H1|split; reflexivity]).
  rewrite file_key_order. destruct (match_key fk' _); [split; [now apply same_dset|split; reflexivity]|].
  rewrite set_key_order. destruct (match_key dk' _); (split; [exact H1|split; reflexivity]).
Qed.
Lemma fold_order lines : forall a b, same_state a b ->
  same_state (fold_left (header_line fk dk) lines a) (fold_left (header_line fk' dk') lines b).
Proof. induction lines as [|l ls IH]; intros a b H; [exact H|]. cbn [fold_left]. apply IH, header_line_order, H. Qed.

Definition same_reader (r r' : reader) : Prop :=
  rd_ext r = rd_ext r' /\ same_lookups (rd_meta r) (rd_meta r') /\ rd_sets r = rd_sets r'.

Lemma default_order path : same_reader (mk_reader fk path) (mk_reader fk' path).
Proof.
  split; [reflexivity|]. split; [|reflexivity]. cbn [mk_reader rd_meta]. apply same_dset. intros k.
  assert (forall fk, Permutation FILE_META_DATA_KEYS fk -> dget (fold_left (fun d k => dset d k (MStr "")) fk []) k =
    if in_dec string_dec k FILE_META_DATA_KEYS then Some (MStr "") else None) as H; [|now rewrite !H].
  clear. intros fk P.
  assert (forall l d, dget (fold_left (fun d k => dset d k (MStr "")) l d) k = if in_dec string_dec k l then Some (MStr "") else dget d k) as H.
  { induction l as [|q l IH]; intros d; [reflexivity|]. cbn [fold_left]. rewrite IH.
    destruct (in_dec string_dec k l) as [Hl|Hl], (in_dec string_dec k (q :: l)) as [Hq|Hq]; try reflexivity.
    - exfalso. apply Hq. now right.
    - destruct Hq as [<-|Hq]; [apply dget_dset_same|contradiction].
    - apply dget_dset_other. intros ->. apply Hq. now left. }
  rewrite H. destruct (in_dec string_dec k fk) as [Hl|Hl], (in_dec string_dec k FILE_META_DATA_KEYS) as [Hq|Hq]; try reflexivity.
  - exfalso. apply Hq. now apply (Permutation_in _ (Permutation_sym P)).
  - exfalso. apply Hl. now apply (Permutation_in _ P).
Qed.

Lemma text_order r r' text : same_reader r r' ->
  same_reading (fst (read_text_file fk dk r text)) (fst (read_text_file fk' dk' r' text)) /\
  same_reader (snd (read_text_file fk dk r text)) (snd (read_text_file fk' dk' r' text)).
Proof.
  intros R. pose proof R as [H1 [H2 H3]]. unfold read_text_file. rewrite H1. destruct (read_text_data (rd_ext r') text) as [d|e]; [|split; [reflexivity|exact R]].
  pose proof (fold_order (read_text_comment text) (rd_meta r, d, "") (rd_meta r', d, "")) as F.
  destruct (fold_left (header_line fk dk) (read_text_comment text) (rd_meta r, d, "")) as [[m1 d1] u1].
  destruct (fold_left (header_line fk' dk') (read_text_comment text) (rd_meta r', d, "")) as [[m2 d2] u2].
  destruct F as [F1 [F2 F3]]; [split; [exact H2|split; reflexivity]|]. cbn [fst snd] in *. subst.
  set (m1' := if String.eqb u2 "" then m1 else dset m1 "MetaComment" (MStr u2)).
  set (m2' := if String.eqb u2 "" then m2 else dset m2 "MetaComment" (MStr u2)).
  assert (same_lookups m1' m2') as Hm by (unfold m1', m2'; destruct (String.eqb u2 ""); [exact F1|now apply same_dset]).
  clearbody m1' m2'.
  assert (forall dd, same_reading (Ok (mkFdict m1' [dd])) (Ok (mkFdict m2' [dd])) /\ same_reader (mkReader (rd_ext r') m1' [dd]) (mkReader (rd_ext r') m2' [dd])) as Hok.
  { intros dd. split; split; try reflexivity; try exact Hm. split; [exact Hm|reflexivity]. }
  destruct (ds_type d2) as [t| |]; [|apply Hok|apply Hok]. destruct t; [|apply Hok].
  destruct (ds_data d2) as [|a|]; [apply Hok| |apply Hok]. destruct a as [|n rows]; [split; [reflexivity|apply Hok]|].
  destruct n as [|[|[|[|n]]]]; apply Hok.
Qed.

Lemma process_mat_data_order d : process_mat_data dk d = process_mat_data dk' d.
Proof.
  unfold process_mat_data. destruct (lookup2 d "type" "DataType") as [t|]; [|reflexivity]. cbn [bind].
  destruct (dval_lstrip t) as [dt|]; [|reflexivity]. cbn [bind].
  destruct (if _ : bool then _ else _) as [data|]; [|reflexivity]. cbn [bind]. f_equal.
  generalize (fset_set (fset_set default_data_dict "DataType" (DStr dt)) "Data" data). clear data t.
  induction d as [|kv l IH]; intros f; [reflexivity|]. cbn [fold_left].
  rewrite (dataset_key_order dk _ Pd), (dataset_key_order dk' _ Pd'). apply IH.
Qed.
Lemma process_mat_dict_order keys : forall doc m m' sets, same_lookups m m' ->
  fst (process_mat_dict fk dk keys doc m sets) = fst (process_mat_dict fk' dk' keys doc m' sets) /\
  same_lookups (snd (process_mat_dict fk dk keys doc m sets)) (snd (process_mat_dict fk' dk' keys doc m' sets)).
Proof.
  induction keys as [|k l IH]; intros doc m m' sets H; cbn [process_mat_dict]; [split; [reflexivity|exact H]|].
  destruct (dget doc (upper k)) as [arg|]; [|split; [reflexivity|exact H]].
  destruct (String.eqb (upper k) "DATA").
  - assert (process_mat_data_dict dk arg = process_mat_data_dict dk' arg) as ->.
    { unfold process_mat_data_dict. destruct arg as [v|s]; [reflexivity|]. apply map_res_ext. intros d _. apply process_mat_data_order. }
    destruct (process_mat_data_dict dk' arg); [now apply IH|split; [reflexivity|exact H]].
  - destruct (String.eqb (upper k) "SPECS"); [apply IH, same_dset, H|]. rewrite file_key_order.
    destruct (match_key fk' (upper k)); [apply IH, same_dset, H|now apply IH].
Qed.
Lemma yaml_order r r' text : same_reader r r' ->
  same_reading (fst (read_yaml_mat_file fk dk yl r text)) (fst (read_yaml_mat_file fk' dk' yl r' text)) /\
  same_reader (snd (read_yaml_mat_file fk dk yl r text)) (snd (read_yaml_mat_file fk' dk' yl r' text)).
Proof.
  intros R. pose proof R as [H1 [H2 H3]]. unfold read_yaml_mat_file. destruct (yl text) as [[|doc]|e]; try (split; [reflexivity|exact R]).
  pose proof (process_mat_dict_order (map fst doc) doc (rd_meta r) (rd_meta r') (rd_sets r) H2) as P.
  rewrite H3 in P. rewrite H3.
  destruct (process_mat_dict fk dk (map fst doc) doc (rd_meta r) (rd_sets r')) as [s1 m1].
  destruct (process_mat_dict fk' dk' (map fst doc) doc (rd_meta r') (rd_sets r')) as [s2 m2]. cbn [fst snd] in P. destruct P as [-> P].
  destruct s2 as [sets|e]; cbn [fst snd].
  - split; [split; [now apply same_dset|reflexivity]|]. split; [exact H1|split; [now apply same_dset|reflexivity]].
  - split; [reflexivity|]. split; [exact H1|split; [exact P|reflexivity]].
Qed.
Lemma read_file_order r r' text : same_reader r r' ->
  same_reading (fst (read_file fk dk yl r text)) (fst (read_file fk' dk' yl r' text)) /\
  same_reader (snd (read_file fk dk yl r text)) (snd (read_file fk' dk' yl r' text)).
Proof.
  intros R. unfold read_file. rewrite (proj1 R). destruct (smem (rd_ext r') txt_types); [now apply text_order|].
  destruct (String.eqb (rd_ext r') ".yml"); [now apply yaml_order|split; [reflexivity|exact R]].
Qed.
Lemma read_path_order fs path : same_reading (read_path fk dk yl fs path) (read_path fk' dk' yl fs path).
Proof.
  unfold read_path. cbn [mk_reader rd_ext]. fold (mk_reader fk path). fold (mk_reader fk' path).
  destruct (smem (splitext path) txt_types || String.eqb (splitext path) ".yml"); [|reflexivity].
  destruct (fs_read fs path) as [text|e]; [|reflexivity]. cbn [bind]. apply read_file_order, default_order.
Qed.
End Order.
