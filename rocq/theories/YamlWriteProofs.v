(** Lemmas about yaml files: what is written *)
From Verif Require Import PyBase PyStr XReal SpectrumModel SpectralModel TextModel TextSpec TextProofs MaterialModel FileModel ReaderModel WriterModel IOSpec LineProofs TextFileProofs SaveProofs PathProofs CycleProofs OrderProofs SaveSpec SaveMoreProofs SaveThms TextFileThms YamlSpec YamlProofs.
From Coq Require Import Permutation.
Open Scope string_scope.
Open Scope list_scope.

(** ** the data sets of a Writer *)
Definition model_dict (W : wenv) (b : dbase) (k : mkind) (ps : list xr) : dict dval :=
  [("DataType", DStr ("model " ++ model_name k)%string); ("ValidRange", DStr (numeric_to_string_table W (vals_nd (sp_values (valid_range (DModel b k ps))))));
   ("SpectrumType", DStr (d_type b)); ("Unit", DStr (d_unit b)); ("Yields", match output k with Some o => DStr o | None => DOther false end);
   ("Parameters", DStr (numeric_to_string_table W (ND1 ps)))].
Lemma part_model W name part b k ps : part_dict W name part (DModel b k ps) = Ok (model_dict W b k ps).
Proof. reflexivity. Qed.
Inductive writer_set : dict dval -> Prop :=
| ws_tab r t u s dt : In dt ["tabulated n"; "tabulated k"; "tabulated eps_r"; "tabulated eps_k"] ->
    writer_set [("DataType", DStr dt); ("ValidRange", DStr r); ("SpectrumType", DStr t); ("Unit", DStr u); ("Data", DStr s)]
| ws_const r t u dt : In dt ["constant n"; "constant k"; "constant eps_r"; "constant eps_k"] ->
    writer_set [("DataType", DStr dt); ("ValidRange", DStr r); ("SpectrumType", DStr t); ("Unit", DStr u); ("Value", DOther true)]
| ws_model r t u k p y : (forall a, y <> DArr a) ->
    writer_set [("DataType", DStr ("model " ++ model_name k)%string); ("ValidRange", DStr r); ("SpectrumType", DStr t); ("Unit", DStr u);
                ("Yields", y); ("Parameters", DStr p)]
| ws_merged u t s : writer_set [("Unit", DStr u); ("SpectrumType", DStr t); ("DataType", DStr "tabulated nk"); ("Data", DStr s)].

Lemma part_writer_set W name part d s : In part ["real"; "imag"] -> part_dict W name part d = Ok s ->
  writer_set s /\ dlookup s "Unit" = Ok (DStr (d_unit (dbase_of d))) /\ dlookup s "SpectrumType" = Ok (DStr (d_type (dbase_of d))).
Proof.
  intros Hp H. destruct d as [b v|b rows|b k ps|b a c].
  - rewrite part_const in H. inv_bind H t E. injection H as <-. split; [|split; reflexivity]. apply ws_const.
    unfold add_dtype_suffix in E. destruct (String.eqb name "nk"); [|destruct (String.eqb name "eps"); [|discriminate]]; injection E as <-;
      cbn in Hp; destruct Hp as [<-|[<-|[]]]; cbn; tauto.
  - rewrite part_dict_interp in H. inv_bind H t E. injection H as <-. split; [|split; reflexivity]. apply ws_tab.
    unfold add_dtype_suffix in E. destruct (String.eqb name "nk"); [|destruct (String.eqb name "eps"); [|discriminate]]; injection E as <-;
      cbn in Hp; destruct Hp as [<-|[<-|[]]]; cbn; tauto.
  - rewrite part_model in H. injection H as <-. split; [|split; reflexivity]. apply ws_model. destruct (output k); discriminate.
  - discriminate.
Qed.
Lemma writer_sets W m sets : dataset_to_dict W m = Ok sets -> Forall writer_set sets /\ (length sets = 1 \/ length sets = 2)%nat.
Proof.
  unfold dataset_to_dict. destruct (m_complex m); [discriminate|]. intros H. inv_bind H a Ea. inv_bind H b Eb.
  destruct (part_writer_set _ _ _ _ _ (or_introl eq_refl) Ea) as (Wa & Ua & Ta).
  destruct (part_writer_set _ _ _ _ _ (or_intror (or_introl eq_refl)) Eb) as (Wb & _ & _).
  apply collapse_cases in H. destruct H as [->|(u & t & s & Eu & Et & ->)]; [split; [now repeat constructor|now right]|].
  split; [|now left]. rewrite Ua in Eu. injection Eu as <-. rewrite Ta in Et. injection Et as <-. repeat constructor.
Qed.
Lemma model_constant k : contains_str "constant" ("model " ++ model_name k)%string = false.
Proof. destruct k; reflexivity. Qed.
Lemma writer_set_const d : writer_set d -> is_constant d = Ok (is_const d).
Proof. intros H. destruct H; reflexivity. Qed.
Lemma writer_set_keys d : writer_set d -> keys_apart d.
Proof.
  intros H. destruct H; (split; [cbn [map fst]; repeat constructor; cbn; intuition discriminate|]); cbn [map fst]; intros a b key Ha Hb; cbn in Ha, Hb;
    repeat (destruct Ha as [<-|Ha]; [repeat (destruct Hb as [<-|Hb]; [try reflexivity; vm_compute; intros E1 E2; try discriminate E1; try discriminate E2; congruence|]); destruct Hb|]); destruct Ha.
Qed.
Lemma writer_set_arrays d : writer_set d -> forall key a, ~ In (key, DArr a) d.
Proof.
  intros H key a Hi. destruct H; cbn in Hi; repeat (destruct Hi as [Hi|Hi]; [try discriminate Hi; injection Hi as _ Hy; now apply (H a)|]); destruct Hi.
Qed.
(** reading a data set *)
Lemma writer_set_read d : writer_set d -> is_const d = false ->
  exists f, process_mat_data DATASET_META_DATA_KEYS d = Ok f /\ set_read d f.
Proof.
  intros H C. destruct H as [r t u s dt Hd|r t u dt Hd|r t u k p y Hy|u t s].
  - assert (lookup2 [("DataType", DStr dt); ("ValidRange", DStr r); ("SpectrumType", DStr t); ("Unit", DStr u); ("Data", DStr s)] "type" "DataType" = Ok (DStr dt)) as E by reflexivity.
    exists (mkFset (DStr dt) (DStr r) (DStr t) (DStr u) (DStr "") (DStr s)). split.
    + cbn in Hd. destruct Hd as [<-|[<-|[<-|[<-|[]]]]]; reflexivity.
    + unfold set_read, entry. cbn [ds_type ds_range ds_stype ds_unit ds_yields ds_data]. split; [reflexivity|].
      split; [left; eexists; split; [now left|reflexivity]|]. split; [left; eexists; split; [now left|reflexivity]|].
      split; [left; eexists; split; [now left|reflexivity]|]. split; [right; split; [intros n [<-|[]]; reflexivity|reflexivity]|]. left. reflexivity.
  - exfalso. cbn in Hd. destruct Hd as [<-|[<-|[<-|[<-|[]]]]]; discriminate C.
  - exists (mkFset (DStr ("model " ++ model_name k)) (DStr r) (DStr t) (DStr u) y (DStr p)). split.
    + destruct k; reflexivity.
    + unfold set_read, entry. cbn [ds_type ds_range ds_stype ds_unit ds_yields ds_data]. split; [reflexivity|].
      split; [left; eexists; split; [now left|reflexivity]|]. split; [left; eexists; split; [now left|reflexivity]|].
      split; [left; eexists; split; [now left|reflexivity]|]. split; [left; eexists; split; [now left|reflexivity]|]. right. split; reflexivity.
  - exists (mkFset (DStr "tabulated nk") (DStr "") (DStr t) (DStr u) (DStr "") (DStr s)). split; [reflexivity|].
    unfold set_read, entry. cbn [ds_type ds_range ds_stype ds_unit ds_yields ds_data]. split; [reflexivity|].
    split; [right; split; [intros n [<-|[]]; reflexivity|reflexivity]|]. split; [left; eexists; split; [now left|reflexivity]|].
    split; [left; eexists; split; [now left|reflexivity]|]. split; [right; split; [intros n [<-|[]]; reflexivity|reflexivity]|]. left. reflexivity.
Qed.
Lemma const_read d : writer_set d -> is_const d = true -> process_mat_data DATASET_META_DATA_KEYS d = Raise KeyError.
Proof.
  intros H C. destruct H as [r t u s dt Hd|r t u dt Hd|r t u k p y Hy|u t s].
  - exfalso. cbn in Hd. destruct Hd as [<-|[<-|[<-|[<-|[]]]]]; discriminate C.
  - cbn in Hd. destruct Hd as [<-|[<-|[<-|[<-|[]]]]]; reflexivity.
  - exfalso. change (contains_str "constant" ("model " ++ model_name k)%string = true) in C. now rewrite model_constant in C.
  - discriminate C.
Qed.
Lemma sets_read l : Forall writer_set l -> forallb (fun d => negb (is_const d)) l = true ->
  exists fl, map_res (process_mat_data DATASET_META_DATA_KEYS) l = Ok fl /\ Forall2 set_read l fl.
Proof.
  induction 1 as [|d l Hd Hl IH]; intros C; [exists []; split; [reflexivity|constructor]|]. cbn [forallb] in C. apply andb_true_iff in C. destruct C as [C1 C2].
  apply negb_true_iff in C1. destruct (writer_set_read d Hd C1) as (f & E & S1). destruct (IH C2) as (fl & E2 & S2).
  exists (f :: fl). cbn [map_res]. rewrite E. cbn [bind]. rewrite E2. split; [reflexivity|now constructor].
Qed.
Lemma sets_const l : Forall writer_set l -> forallb (fun d => negb (is_const d)) l = false ->
  map_res (process_mat_data DATASET_META_DATA_KEYS) l = Raise KeyError.
Proof.
  induction 1 as [|d l Hd Hl IH]; intros C; [discriminate|]. cbn [forallb] in C. cbn [map_res]. destruct (is_const d) eqn:E.
  - now rewrite (const_read d Hd E).
  - destruct (writer_set_read d Hd E) as (f & -> & _). cbn [bind]. cbn [negb andb] in C. now rewrite (IH C).
Qed.

(** ** constants are left out *)
Lemma constant_ids_eq l : Forall writer_set l -> forall i, constant_ids i l =
  Ok (concat (map (fun p => if is_const (snd p) then [fst p] else []) (combine (seq i (length l)) l))).
Proof.
  induction 1 as [|d l Hd Hl IH]; intros i; [reflexivity|]. cbn [constant_ids length seq combine map concat fst snd].
  rewrite (writer_set_const d Hd), IH. cbn [bind]. destruct (is_const d); reflexivity.
Qed.
Lemma pop_written (ic : bool) l sets ids : Forall writer_set l -> (length l = 1 \/ length l = 2)%nat -> constant_ids 0 l = Ok ids ->
  pop_all (if ic then ids else []) l = Ok sets -> sets = written_sets ic l.
Proof.
  intros F L E H. rewrite (constant_ids_eq l F) in E. injection E as <-. destruct ic; [|injection H as <-; reflexivity]. unfold written_sets.
  destruct l as [|a [|b [|c l]]]; cbn [length] in L; try lia; cbn [length seq combine map concat fst snd app] in H; cbn [filter].
  - destruct (is_const a); cbn in H; injection H as <-; reflexivity.
  - destruct (is_const a), (is_const b); cbn in H; try discriminate H; injection H as <-; reflexivity.
Qed.
Lemma pop_total (ic : bool) l : Forall writer_set l -> (length l = 1 \/ length l = 2)%nat -> (ic = true -> written_sets ic l <> [] \/ length l = 1%nat) ->
  exists ids, constant_ids 0 l = Ok ids /\ pop_all (if ic then ids else []) l = Ok (written_sets ic l).
Proof.
  intros F L H. rewrite (constant_ids_eq l F). eexists. split; [reflexivity|]. destruct ic; [|reflexivity]. specialize (H eq_refl). unfold written_sets in *.
  destruct l as [|a [|b [|c l]]]; cbn [length] in L; try lia; cbn [length seq combine map concat fst snd app]; cbn [filter] in *.
  - destruct (is_const a); reflexivity.
  - destruct (is_const a), (is_const b); try reflexivity. cbn [negb] in H. destruct H as [H|H]; [congruence|discriminate H].
Qed.

(** ** the document *)
Lemma fold_dset_get {A B} (f : A -> B) top : NoDup (map fst top) -> forall d k,
  dget (fold_left (fun d kv => dset d (fst kv) (f (snd kv))) top d) k = match dget top k with Some v => Some (f v) | None => dget d k end.
Proof.
  induction top as [|[q v] top IH]; intros N d k; [reflexivity|]. cbn [map fst] in N. apply NoDup_cons_iff in N. destruct N as [N1 N2].
  cbn [fold_left fst snd dget]. rewrite IH by exact N2. destruct (String.eqb k q) eqn:E.
  - apply String.eqb_eq in E. subst. apply dget_None_keys in N1. rewrite N1. apply dget_dset_same.
  - apply String.eqb_neq in E. rewrite dget_dset_other by congruence. reflexivity.
Qed.
Lemma fold_dset_nodup {A B} (f : A -> B) top : forall d, NoDup (map fst d) -> NoDup (map fst (fold_left (fun d kv => dset d (fst kv) (f (snd kv))) top d)).
Proof. induction top as [|p top IH]; intros d N; [exact N|]. cbn [fold_left]. apply IH, dset_nodup, N. Qed.
Lemma fold_dset_in {A B} (f : A -> B) top p : forall d, In p (fold_left (fun d kv => dset d (fst kv) (f (snd kv))) top d) -> In p d \/ exists v, snd p = f v.
Proof.
  induction top as [|q top IH]; intros d H; [now left|]. cbn [fold_left] in H. destruct (IH _ H) as [K|K]; [|now right].
  apply dset_in in K. destruct K as [->|K]; [right; now exists (snd q)|now left].
Qed.
Lemma rii_arrays d : (forall key a, ~ In (key, DArr a) d) -> forall key a, ~ In (key, DArr a) (rii_dataset d).
Proof.
  intros H. unfold rii_dataset. assert (forall acc, (forall key a, ~ In (key, DArr a) acc) -> forall key a,
    ~ In (key, DArr a) (fold_left (fun acc kv => if smem (fst kv) ["SpectrumType"; "Unit"; "Yields"] then acc
                           else dset acc (match dget RII_ALIASES (fst kv) with Some a => a | None => fst kv end) (rii_value (snd kv))) d acc)) as G; [|apply G; intros ? ? []].
  induction d as [|[k v] d IH]; intros acc Ha; [exact Ha|]. cbn [fold_left]. apply IH; [intros key a Hi; apply (H key a); now right|].
  destruct (smem _ _); [exact Ha|]. intros key a Hi. apply dset_in in Hi. destruct Hi as [E|Hi]; [|now apply (Ha key a)].
  cbn [fst snd] in E. injection E as _ E. apply (H k a). left. f_equal. destruct v as [s|a'|b]; cbn [rii_value] in E; [destruct (dget RII_ALIASES s); discriminate|congruence|discriminate].
Qed.
Lemma skip_forall {A} (P : A -> Prop) l : forall i, Forall P l -> Forall P (firstn i l ++ skipn (S i) l).
Proof.
  induction l as [|x l IH]; intros [|i] H; try constructor; cbn [firstn app skipn].
  - now apply Forall_inv_tail in H.
  - now apply Forall_inv in H.
  - apply (IH i). now apply Forall_inv_tail in H.
Qed.
Lemma doc_emittable w ic rii d : yaml_doc w ic rii = Ok d -> Forall writer_set (w_sets w) -> emittable d.
Proof.
  intros H F. unfold yaml_doc in H. inv_bind H ids E1. inv_bind H sets E2. inv_bind H top E3. cbv zeta in H. inv_bind H sp E4. inv_bind H s E5.
  set (d0 := fold_left (fun d kv => dset d (fst kv) (NVal (snd kv))) top []) in *.
  set (seq := NSeq (if rii then map rii_dataset sets else sets)) in *. set (d1 := dset d0 "DATA" seq) in *.
  assert (NoDup (map fst d1)) as N1 by (apply dset_nodup, (fold_dset_nodup NVal); constructor).
  assert (Forall writer_set sets) as Fs.
  { clear -E2 F. revert E2. generalize (if ic then ids else []). intros l. revert F. generalize (w_sets w). induction l as [|i l IH]; intros ss F E; [injection E as <-; exact F|].
    cbn [pop_all] in E. inv_bind E l' E'. apply (IH l'); [|exact E]. unfold pop_at in E'. destruct (i <? length ss)%nat; [|discriminate]. injection E' as <-.
    now apply skip_forall. }
  assert (forall k l s0 key a, In (k, NSeq l) d1 -> In s0 l -> ~ In (key, DArr a) s0) as A1.
  { intros k l s0 key a Hi Hs. apply dset_in in Hi. destruct Hi as [E|Hi].
    - injection E as _ E. unfold seq in E. destruct rii.
      + rewrite E in Hs. apply in_map_iff in Hs. destruct Hs as [s1 [<- Hs]]. apply rii_arrays. apply writer_set_arrays. now apply (proj1 (Forall_forall _ _) Fs).
      + rewrite E in Hs. apply writer_set_arrays. now apply (proj1 (Forall_forall _ _) Fs).
    - apply (fold_dset_in NVal) in Hi. destruct Hi as [[]|[v E]]. discriminate E. }
  destruct s as [s|]; injection H as <-.
  - split; [now apply dset_nodup, ddel_nodup|]. intros k l s0 key a Hi. apply dset_in in Hi. destruct Hi as [E|Hi]; [discriminate E|].
    apply ddel_in in Hi. apply (A1 k l s0 key a Hi).
  - split; [now apply ddel_nodup|]. intros k l s0 key a Hi. apply ddel_in in Hi. apply (A1 k l s0 key a Hi).
Qed.

(** metadata under its alias *)
Definition meta_keys : list string := header_keys ++ ["Specification"].
Definition alias_of (k : string) : string := match dget KEY_ALIASES k with Some a => a | None => k end.
Lemma alias_inj k k' : In k meta_keys -> In k' meta_keys -> alias_of k = alias_of k' -> k = k'.
Proof.
  intros H H' E. cbn in H, H'. repeat (destruct H as [<-|H]; [repeat (destruct H' as [<-|H']; [try reflexivity; discriminate E|]); destruct H'|]). destruct H.
Qed.
Lemma alias_meta_standard meta : (forall k, In k (map fst meta) -> In k meta_keys) -> forall last,
  alias_meta meta last = Ok (map (fun kv => (alias_of (fst kv), snd kv)) meta).
Proof.
  induction meta as [|[k v] meta IH]; intros H last; [reflexivity|]. cbn [alias_meta map fst snd].
  assert (In k meta_keys) as Hk by (apply H; now left).
  assert (dget KEY_ALIASES k = Some (alias_of k)) as -> by (cbn in Hk; repeat (destruct Hk as [<-|Hk]; [reflexivity|]); destruct Hk).
  rewrite IH by (intros q Hq; apply H; now right). reflexivity.
Qed.
Lemma alias_get (meta : dict mval) k : (forall k, In k (map fst meta) -> In k meta_keys) -> In k meta_keys ->
  dget (map (fun kv => (alias_of (fst kv), snd kv)) meta) (alias_of k) = dget meta k.
Proof.
  intros H Hk. induction meta as [|[q v] meta IH]; [reflexivity|]. cbn [map dget fst snd].
  assert (In q meta_keys) as Hq by (apply H; now left).
  destruct (String.eqb k q) eqn:E.
  - apply String.eqb_eq in E. subst. now rewrite String.eqb_refl.
  - destruct (String.eqb (alias_of k) (alias_of q)) eqn:E2.
    + apply String.eqb_eq in E2. apply alias_inj in E2; [|assumption..]. subst. now rewrite String.eqb_refl in E.
    + apply IH. intros x Hx. apply H. now right.
Qed.
Lemma alias_nodup (meta : dict mval) : NoDup (map fst meta) -> (forall k, In k (map fst meta) -> In k meta_keys) ->
  NoDup (map fst (map (fun kv => (alias_of (fst kv), snd kv)) meta)).
Proof.
  intros N H. induction meta as [|[q v] meta IH]; [constructor|]. cbn [map fst] in *. apply NoDup_cons_iff in N. destruct N as [N1 N2].
  constructor; [|apply IH; [exact N2|intros k Hk; apply H; now right]]. intros Hi. apply N1.
  apply in_map_iff in Hi. destruct Hi as [p [E Hp]]. apply in_map_iff in Hp. destruct Hp as [p' [<- Hp]]. cbn [fst] in E.
  apply alias_inj in E; [rewrite <- E; now apply in_map|apply H; right; now apply in_map|apply H; now left].
Qed.
Lemma standard_left meta : standard_meta meta -> let d := ddel (kept meta) "MetaComment" in
  NoDup (map fst d) /\ (forall k, In k (map fst d) -> In k meta_keys) /\ (forall k, In k meta_keys -> dget d k = dget meta k).
Proof.
  intros [N H] d. assert (NoDup (map fst (kept meta))) as NK.
  { unfold kept. clear -N. induction meta as [|[k v] meta IH]; [constructor|]. cbn [map fst] in N. apply NoDup_cons_iff in N. destruct N as [N1 N2].
    cbn [filter fst]. destruct (negb (String.eqb k "Alias")); [|now apply IH]. cbn [map fst]. constructor; [|now apply IH].
    intros Hi. apply N1. apply in_map_iff in Hi. destruct Hi as [p [<- Hp]]. apply filter_In in Hp. now apply in_map. }
  split; [now apply ddel_nodup|]. split.
  - intros k Hk. unfold d in Hk. apply in_map_iff in Hk. destruct Hk as [[k' v] [E Hk]]. cbn [fst] in E. subst k'.
    assert (k <> "MetaComment") as M.
    { intros ->. apply (in_map fst) in Hk. cbn [fst] in Hk. pose proof (ddel_gone (kept meta) "MetaComment" NK) as G. apply dget_None_keys in G. contradiction. }
    apply ddel_in in Hk. unfold kept in Hk. apply filter_In in Hk. destruct Hk as [Hk A]. cbn [fst] in A.
    apply (in_map fst) in Hk. apply H in Hk. cbn [fst] in Hk. apply negb_true_iff, String.eqb_neq in A.
    unfold meta_keys, header_keys in *. cbn [app In] in *. intuition congruence.
  - intros k Hk. unfold d. rewrite dget_ddel, dget_kept; [reflexivity| |]; intros ->; cbn in Hk; intuition discriminate.
Qed.
Lemma filter_specs_get d k : dget (filter_specs d) k = if in_dec string_dec k known_specs then dget d k else None.
Proof.
  unfold filter_specs. change spec_order with known_specs.
  assert (forall l acc, NoDup l -> (forall q, In q l -> dget acc q = None) -> dget (fold_left (fun acc k => match dget d k with Some v => dset acc k v | None => acc end) l acc) k =
    if in_dec string_dec k l then dget d k else dget acc k) as G.
  { induction l as [|q l IH]; intros acc N H; [reflexivity|]. apply NoDup_cons_iff in N. destruct N as [N1 N2]. cbn [fold_left]. rewrite IH.
    - destruct (in_dec string_dec k l) as [Hl|Hl], (in_dec string_dec k (q :: l)) as [Hq|Hq]; try reflexivity.
      + exfalso. apply Hq. now right.
      + destruct Hq as [<-|Hq]; [|contradiction]. destruct (dget d q) as [v|]; [apply dget_dset_same|]. apply H. now left.
      + destruct (dget d q); [|reflexivity]. apply dget_dset_other. intros ->. apply Hq. now left.
    - exact N2.
    - intros x Hx. destruct (dget d q); [rewrite dget_dset_other by (intros ->; contradiction)|]; apply H; now right. }
  rewrite G; [reflexivity| |reflexivity]. repeat constructor; cbn; intuition discriminate.
Qed.
Lemma filter_specs_nodup d : NoDup (map fst (filter_specs d)).
Proof.
  unfold filter_specs. assert (forall l acc, NoDup (map fst acc) -> NoDup (map fst (fold_left (fun acc k => match dget d k with Some v => dset acc k v | None => acc end) l acc))) as G; [|apply G; constructor].
  induction l as [|q l IH]; intros acc N; [exact N|]. cbn [fold_left]. apply IH. destruct (dget d q); [now apply dset_nodup|exact N].
Qed.

Lemma doc_standard w meta ic rii d : yaml_doc (no_comment w) ic rii = Ok d -> w_meta w = kept meta -> standard_meta meta ->
  Forall writer_set (w_sets w) -> (length (w_sets w) = 1 \/ length (w_sets w) = 2)%nat ->
  NoDup (map fst d) /\ (forall k, In k (map fst d) -> In k top_keys) /\
  dget d "DATA" = Some (NSeq (if rii then map rii_dataset (written_sets ic (w_sets w)) else written_sets ic (w_sets w))) /\
  (forall k, In k header_keys -> dget d (alias_of k) = option_map NVal (dget meta k)) /\
  exists v s, dget meta "Specification" = Some v /\ write_specs v = Ok s /\ dget d "SPECS" = option_map NVal s.
Proof.
  intros H Hm Hs F L. destruct (standard_left meta Hs) as (N & HK & HG). unfold yaml_doc in H. cbn [no_comment w_sets w_meta] in H. rewrite Hm in H.
  inv_bind H ids E1. inv_bind H sets E2. inv_bind H top E3. cbv zeta in H. inv_bind H sp E4. inv_bind H s E5.
  apply (pop_written ic _ _ _ F L E1) in E2. subst sets.
  rewrite alias_meta_standard in E3 by exact HK. injection E3 as <-. set (left := ddel (kept meta) "MetaComment") in *.
  set (top := map _ left) in *. set (d0 := fold_left (fun d kv => dset d (fst kv) (NVal (snd kv))) top (@nil (string * ynode))) in *. set (seq := NSeq _) in *. set (d1 := dset d0 "DATA" seq) in *.
  assert (NoDup (map fst top)) as NT by now apply alias_nodup.
  assert (NoDup (map fst d1)) as N1 by (apply dset_nodup, (fold_dset_nodup NVal); constructor).
  assert (forall k, k <> "DATA" -> dget d1 k = option_map NVal (dget top k)) as G1.
  { intros k Hk. unfold d1. rewrite dget_dset_other by congruence. unfold d0. rewrite (fold_dset_get NVal top NT). now destruct (dget top k). }
  assert (forall k, In k meta_keys -> dget d1 (alias_of k) = option_map NVal (dget meta k)) as G2.
  { intros k Hk. rewrite G1 by (cbn in Hk; repeat (destruct Hk as [<-|Hk]; [discriminate|]); destruct Hk). unfold top. rewrite alias_get by assumption. now rewrite HG. }
  assert (forall k, In k (map fst d1) -> In k top_keys) as K1.
  { intros k Hk. apply dset_keys in Hk. destruct Hk as [->|Hk]; [cbn; tauto|].
    assert (forall l dd, In k (map fst (fold_left (fun d kv => dset d (fst kv) (NVal (snd kv))) l dd)) -> In k (map fst dd) \/ In k (map fst l)) as X.
    { clear. induction l as [|q l IH]; intros dd Hk; [now left|]. cbn [fold_left] in Hk. apply IH in Hk. cbn [map In].
      destruct Hk as [Hk|Hk]; [|tauto]. apply dset_keys in Hk. intuition congruence. }
    unfold d0 in Hk. apply (X top []) in Hk. destruct Hk as [[]|Hk]. unfold top in Hk. rewrite map_map in Hk. cbn [fst] in Hk.
    apply in_map_iff in Hk. destruct Hk as [p [<- Hp]]. apply (in_map fst) in Hp. apply HK in Hp. cbn in Hp.
    repeat (destruct Hp as [<-|Hp]; [cbn; tauto|]). destruct Hp. }
  assert (exists v, dget meta "Specification" = Some v /\ sp = NVal v) as [v [Ev ->]].
  { pose proof (G2 "Specification" ltac:(cbn; tauto)) as X. change (alias_of "Specification") with "SPECS" in X. unfold dlookup in E4. rewrite X in E4.
    destruct (dget meta "Specification") as [v|]; [|discriminate]. injection E4 as <-. now exists v. }
  cbn [node_val] in E5.
  assert (forall k, In k header_keys -> alias_of k <> "SPECS") as A by (intros k Hk; cbn in Hk; repeat (destruct Hk as [<-|Hk]; [discriminate|]); destruct Hk).
  assert (forall k, In k header_keys -> In k meta_keys) as A' by (intros k Hk; apply in_app_iff; now left).
  destruct s as [s|]; injection H as <-.
  - split; [now apply dset_nodup, ddel_nodup|]. split.
    { intros k Hk. apply dset_keys in Hk. destruct Hk as [->|Hk]; [cbn; tauto|]. apply in_map_iff in Hk. destruct Hk as [p [<- Hp]]. apply K1. apply (in_map fst), (ddel_in _ _ _ Hp). }
    split; [rewrite dget_dset_other, dget_ddel by discriminate; apply dget_dset_same|].
    split; [intros k Hk; rewrite dget_dset_other by (intros E; symmetry in E; revert E; now apply A); rewrite dget_ddel by (now apply A); apply G2; now apply A'|].
    exists v, (Some s). split; [exact Ev|]. split; [exact E5|]. apply dget_dset_same.
  - split; [now apply ddel_nodup|]. split.
    { intros k Hk. apply in_map_iff in Hk. destruct Hk as [p [<- Hp]]. apply K1. apply (in_map fst), (ddel_in _ _ _ Hp). }
    split; [rewrite dget_ddel by discriminate; apply dget_dset_same|].
    split; [intros k Hk; rewrite dget_ddel by (now apply A); apply G2; now apply A'|].
    exists v, None. split; [exact Ev|]. split; [exact E5|]. now apply ddel_gone.
Qed.
