(** Lemmas about yaml files *)
From Verif Require Import PyBase PyStr XReal SpectrumModel SpectralModel TextModel TextSpec TextProofs MaterialModel FileModel ReaderModel WriterModel IOSpec LineProofs TextFileProofs SaveProofs PathProofs CycleProofs OrderProofs SaveSpec SaveMoreProofs TextFileThms YamlSpec.
From Coq Require Import Permutation.
Open Scope string_scope.
Open Scope list_scope.

(** ** dictionaries *)
Lemma dget_nodup_in {V} (d : dict V) k v : NoDup (map fst d) -> In (k, v) d -> dget d k = Some v.
Proof.
  induction d as [|[q w] d IH]; intros N H; [destruct H|]. cbn [map fst] in N. apply NoDup_cons_iff in N. destruct N as [N1 N2]. cbn [dget].
  destruct H as [H|H]; [injection H as -> ->; now rewrite String.eqb_refl|].
  destruct (String.eqb k q) eqn:E; [|now apply IH]. apply String.eqb_eq in E. subst. exfalso. apply N1. now apply (in_map fst) in H.
Qed.
Lemma dget_perm {V} (d d' : dict V) k : NoDup (map fst d) -> Permutation d d' -> dget d' k = dget d k.
Proof.
  intros N P. pose proof (Permutation_NoDup (Permutation_map fst P) N) as N'. destruct (dget d k) as [v|] eqn:E.
  - apply dget_nodup_in; [exact N'|]. apply (Permutation_in _ P). now apply dget_In.
  - apply dget_None_keys. apply dget_None_keys in E. intros H. apply E. unfold dkeys in *. now apply (Permutation_in _ (Permutation_map fst (Permutation_sym P))).
Qed.
Lemma dset_keys {V} (d : dict V) k v q : In q (map fst (dset d k v)) <-> q = k \/ In q (map fst d).
Proof.
  induction d as [|[k0 v0] d IH]; cbn [dset map fst In]; [intuition congruence|].
  destruct (String.eqb k k0) eqn:E; cbn [map fst In]; [apply String.eqb_eq in E; subst; intuition congruence|]. rewrite IH. tauto.
Qed.
Lemma dset_nodup {V} (d : dict V) k v : NoDup (map fst d) -> NoDup (map fst (dset d k v)).
Proof.
  induction d as [|[k0 v0] d IH]; cbn [dset map fst]; intros N; [now repeat constructor; intros []|].
  destruct (String.eqb k k0) eqn:E; cbn [map fst]; [exact N|]. apply NoDup_cons_iff in N. destruct N as [N1 N2].
  constructor; [|now apply IH]. rewrite dset_keys. intros [->|H]; [|contradiction]. now rewrite String.eqb_refl in E.
Qed.
Lemma dset_in {V} (d : dict V) k v p : In p (dset d k v) -> p = (k, v) \/ In p d.
Proof.
  induction d as [|[k0 v0] d IH]; cbn [dset In]; [intuition congruence|].
  destruct (String.eqb k k0) eqn:E; cbn [In]; [apply String.eqb_eq in E; subst; intuition|]. intros [H|H]; [tauto|]. destruct (IH H); tauto.
Qed.
Lemma ddel_in {V} (d : dict V) k p : In p (ddel d k) -> In p d.
Proof. induction d as [|[k0 v0] d IH]; cbn [ddel]; [tauto|]. destruct (String.eqb k k0); cbn [In]; tauto. Qed.
Lemma ddel_nodup {V} (d : dict V) k : NoDup (map fst d) -> NoDup (map fst (ddel d k)).
Proof.
  induction d as [|[k0 v0] d IH]; cbn [ddel map fst]; intros N; [exact N|]. apply NoDup_cons_iff in N. destruct N as [N1 N2].
  destruct (String.eqb k k0); [exact N2|]. cbn [map fst]. constructor; [|now apply IH].
  intros H. apply N1. apply in_map_iff in H. destruct H as [p [<- H]]. apply in_map, (ddel_in _ _ _ H).
Qed.
Lemma ddel_gone {V} (d : dict V) k : NoDup (map fst d) -> dget (ddel d k) k = None.
Proof.
  induction d as [|[k0 v0] d IH]; cbn [ddel map fst]; intros N; [reflexivity|]. apply NoDup_cons_iff in N. destruct N as [N1 N2].
  destruct (String.eqb k k0) eqn:E; [|cbn [dget]; rewrite E; now apply IH]. apply String.eqb_eq in E. subst. now apply dget_None_keys.
Qed.

(** ** documents up to order *)
Lemma same_doc_keys d d' : same_doc d d' -> Permutation (map fst d) (map fst d').
Proof.
  intros [d1 [P F]]. rewrite (Permutation_map fst P). clear P. induction F as [|p q l l' [E _] F IH]; [constructor|]. cbn [map]. rewrite E. now constructor.
Qed.
Lemma same_doc_get d d' k : NoDup (map fst d) -> same_doc d d' ->
  match dget d k, dget d' k with Some n, Some n' => same_node n n' | None, None => True | _, _ => False end.
Proof.
  intros N [d1 [P F]]. rewrite <- (dget_perm d d1 k N P). clear N P. induction F as [|[a x] [b y] l l' [E H] F IH]; [exact I|].
  cbn [fst snd] in E, H. subst. cbn [dget]. now destruct (String.eqb k b).
Qed.

(** ** comments *)
Lemma yaml_unix c : yaml_text c -> unix_text c.
Proof.
  intros H x Hx. destruct (H x Hx) as [->|[->|[K|K]]]; [now left|right..]; [vm_compute; intuition discriminate| |];
    rewrite <- is_break_iff; destruct x as [[] [] [] [] [] [] [] []]; cbn in K; try lia; vm_compute; discriminate.
Qed.
Lemma split_nl_in c l x : In l (split_on nl c) -> In x (chars l) -> In x (chars c) /\ x <> nl.
Proof.
  revert l. induction c as [|d c IH]; intros l Hl Hx; cbn [split_on] in Hl; [destruct Hl as [<-|[]]; destruct Hx|].
  rewrite chars_cons. destruct (Ascii.eqb d nl) eqn:E.
  - destruct Hl as [<-|Hl]; [destruct Hx|]. destruct (IH l Hl Hx). split; [now right|assumption].
  - destruct (split_on nl c) as [|p q]; [destruct Hl as [<-|[]]; destruct Hx as [<-|[]]; split; [now left|now apply Ascii.eqb_neq]|].
    destruct Hl as [<-|Hl].
    + rewrite chars_cons in Hx. destruct Hx as [<-|Hx]; [split; [now left|now apply Ascii.eqb_neq]|].
      destruct (IH p (or_introl eq_refl) Hx). split; [now right|assumption].
    + destruct (IH l (or_intror Hl) Hx). split; [now right|assumption].
Qed.
Lemma trim_in c x : In x (chars (rstrip_nlcr c)) -> In x (chars c).
Proof. destruct (proj2 (trimmed_iff c _) eq_refl) as [e [E _]]. intros H. rewrite E, chars_app. apply in_app_iff. now left. Qed.
Lemma block_lines c : block_of c true = (lines_text (map (fun l => "#" ++ l)%string (split_on nl (rstrip_nlcr c))) ++ NL)%string.
Proof. unfold block_of. rewrite <- map_split_lines. now rewrite !app_assoc_s. Qed.
Lemma block_comment c : yaml_text c -> yaml_comment (block_of c true).
Proof.
  intros H. exists (split_on nl (rstrip_nlcr c)). split.
  - rewrite block_lines. induction (split_on nl (rstrip_nlcr c)) as [|x l IH]; [reflexivity|]. cbn [map fold_right]. rewrite lines_text_cons, <- IH. now rewrite !app_assoc_s.
  - apply Forall_forall. intros l Hl. split.
    + intros x Hx. apply H, trim_in. now apply (split_nl_in _ l).
    + intros Hx. now apply (split_nl_in _ l _ Hl Hx).
Qed.
Lemma splitlines_head c r : exists x l, splitlines (String c r) = String c x :: l.
Proof.
  cbn [splitlines]. destruct (is_break c); [|destruct (splitlines r); eexists _, _; reflexivity].
  destruct r as [|d r]; [eexists _, _; reflexivity|]. destruct (Ascii.eqb c cr && Ascii.eqb d nl); eexists _, _; reflexivity.
Qed.
Lemma no_comment_lines c r : c <> "#"%char -> c <> ";"%char -> comment_lines (splitlines (String c r)) = [].
Proof.
  intros H1 H2. destruct (splitlines_head c r) as (x & l & ->). cbn [comment_lines].
  apply Ascii.eqb_neq in H1, H2. now rewrite H1, H2.
Qed.
Definition yaml_block (c : string) : string := if String.eqb c "" then "" else block_of c true.
Lemma yaml_block_comment c : yaml_text c -> yaml_block c = "" \/ yaml_comment (yaml_block c).
Proof. intros H. unfold yaml_block. destruct (String.eqb c ""); [now left|right; now apply block_comment]. Qed.
Lemma yaml_block_read c a r : unix_text c -> a <> "#"%char -> a <> ";"%char ->
  read_text_comment (yaml_block c ++ String a r)%string = comment_part c.
Proof.
  intros H H1 H2. unfold read_text_comment, yaml_block, comment_part. destruct (String.eqb c "") eqn:E; [now apply no_comment_lines|].
  assert (Forall one_line (split_on nl (rstrip_nlcr c))) as F by (apply unix_lines; intros x Hx; apply H; now apply trim_in).
  rewrite block_lines, app_assoc_s, splitlines_lines.
  - rewrite comment_lines_hash by exact F. change (NL ++ String a r)%string with (String nl (String a r)).
    rewrite no_comment_lines by discriminate. apply app_nil_r.
  - apply Forall_map. eapply Forall_impl; [|exact F]. intros l Hl. cbn [append]. apply one_line_cons. now split.
Qed.
Definition next_yaml (c : string) : string := drop_last (rstrip_nlcr c).
Lemma comment_part_join c : drop_last (join NL (comment_part c)) = next_yaml c.
Proof.
  unfold comment_part, next_yaml. destruct (String.eqb c "") eqn:E; [apply String.eqb_eq in E; now subst|]. f_equal. apply (proj1 (join_split_gen nl (rstrip_nlcr c))).
Qed.

(** ** reading a document *)
Section Reading.
Variables fk dk : list string.
Hypothesis Pf : Permutation FILE_META_DATA_KEYS fk.
Hypothesis Pd : Permutation DATASET_META_DATA_KEYS dk.

Definition top_keys : list string := ["REFERENCES"; "AUTHOR"; "FULLNAME"; "NAME"; "COMMENTS"; "SPECS"; "DATA"].
(** the metadata key a top level key goes to *)
Definition reader_key (k : string) : string :=
  if String.eqb k "REFERENCES" then "Reference" else if String.eqb k "AUTHOR" then "Author" else if String.eqb k "FULLNAME" then "FullName"
  else if String.eqb k "NAME" then "Name" else if String.eqb k "COMMENTS" then "Comment" else "Specification".
Lemma top_match k : In k top_keys -> upper k = k /\ (k = "DATA" \/ k = "SPECS" \/ match_key fk k = Some (reader_key k)).
Proof.
  intros H. rewrite (match_key_perm _ _ k file_keys_free Pf). cbn in H.
  repeat (destruct H as [<-|H]; [split; [reflexivity|]; vm_compute; tauto|]). destruct H.
Qed.
Lemma pmd_ok keys doc l : (forall k, In k keys -> In k top_keys /\ dget doc k <> None) -> NoDup keys ->
  (forall n, dget doc "DATA" = Some n -> process_mat_data_dict dk n = Ok l) -> forall meta sets,
  exists meta', process_mat_dict fk dk keys doc meta sets = (Ok (if in_dec string_dec "DATA" keys then l else sets), meta') /\
    (forall k, In k keys -> k <> "DATA" -> dget meta' (reader_key k) = option_map node_val (dget doc k)) /\
    (forall key, (forall k, In k keys -> k <> "DATA" -> reader_key k <> key) -> dget meta' key = dget meta key).
Proof.
  intros HK HN HD. induction keys as [|k keys IH]; intros meta sets.
  { exists meta. split; [reflexivity|]. split; [intros k []|reflexivity]. }
  apply NoDup_cons_iff in HN. destruct HN as [N1 N2].
  destruct (HK k (or_introl eq_refl)) as [K1 K2]. destruct (top_match k K1) as [U M]. cbn [process_mat_dict]. rewrite U.
  destruct (dget doc k) as [arg|] eqn:EA; [|congruence].
  assert (forall q, In q keys -> q <> "DATA" -> k <> "DATA" -> reader_key q <> reader_key k) as HR.
  { intros q Hq Q1 Q2 E. assert (q = k) as ->; [|contradiction]. destruct (HK q (or_intror Hq)) as [K3 _]. clear -K1 K3 E Q1 Q2.
    cbn in K1, K3. repeat (destruct K1 as [<-|K1]; [repeat (destruct K3 as [<-|K3]; [try reflexivity; try congruence; vm_compute in E; discriminate E|]); destruct K3|]). destruct K1. }
  assert (forall k0, In k0 keys -> In k0 top_keys /\ dget doc k0 <> None) as HK' by (intros q Hq; apply HK; now right).
  specialize (IH HK' N2). clear HK' HK.
  destruct (String.eqb k "DATA") eqn:ED.
  - apply String.eqb_eq in ED. subst k. rewrite (HD _ EA). destruct (IH meta l) as (meta' & E1 & E2 & E3). exists meta'. rewrite E1.
    destruct (in_dec string_dec "DATA" keys) as [X|X]; [contradiction|].
    destruct (in_dec string_dec "DATA" ("DATA" :: keys)) as [Y|Y]; [|exfalso; apply Y; now left].
    split; [reflexivity|]. split.
    + intros q [<-|Hq] Hn; [congruence|]. now apply E2.
    + intros key Hk. apply E3. intros q Hq. apply Hk. now right.
  - apply String.eqb_neq in ED. assert (forall sets0 meta0, dget meta0 (reader_key k) = Some (node_val arg) -> (forall key, key <> reader_key k -> dget meta0 key = dget meta key) ->
      exists meta', process_mat_dict fk dk keys doc meta0 sets0 = (Ok (if in_dec string_dec "DATA" (k :: keys) then l else sets0), meta') /\
      (forall k0, In k0 (k :: keys) -> k0 <> "DATA" -> dget meta' (reader_key k0) = option_map node_val (dget doc k0)) /\
      (forall key, (forall k0, In k0 (k :: keys) -> k0 <> "DATA" -> reader_key k0 <> key) -> dget meta' key = dget meta key)) as G.
    { intros sets0 meta0 H1 H2. destruct (IH meta0 sets0) as (meta' & E1 & E2 & E3). exists meta'. rewrite E1. split; [|split].
      - destruct (in_dec string_dec "DATA" keys) as [X|X], (in_dec string_dec "DATA" (k :: keys)) as [Y|Y]; try reflexivity; exfalso; [apply Y; now right|].
        destruct Y as [Y|Y]; [congruence|contradiction].
      - intros q [<-|Hq] Hn; [|now apply E2]. rewrite E3, H1, EA; [reflexivity|]. intros q Hq Hqn. now apply HR.
      - intros key Hk. rewrite E3 by (intros q Hq; apply Hk; now right). apply H2. intros ->. exact (Hk k (or_introl eq_refl) ED eq_refl). }
    destruct (String.eqb k "SPECS") eqn:ES.
    + apply String.eqb_eq in ES. subst k. apply G; [apply dget_dset_same|]. intros key Hk. apply dget_dset_other. cbn in Hk. congruence.
    + apply String.eqb_neq in ES. destruct M as [M|[M|M]]; [contradiction|contradiction|]. rewrite M.
      apply G; [apply dget_dset_same|]. intros key Hk. apply dget_dset_other. congruence.
Qed.
(** when the data sets cannot be processed *)
Lemma pmd_raise keys doc n e : (forall k, In k keys -> dget doc (upper k) <> None) -> In "DATA" keys ->
  dget doc "DATA" = Some n -> process_mat_data_dict dk n = Raise e -> forall meta sets,
  exists meta', process_mat_dict fk dk keys doc meta sets = (Raise e, meta').
Proof.
  intros HK HD HA HE. induction keys as [|k keys IH]; intros meta sets; [destruct HD|]. cbn [process_mat_dict].
  destruct (dget doc (upper k)) as [arg|] eqn:EA; [|exfalso; now apply (HK k (or_introl eq_refl))].
  destruct (String.eqb (upper k) "DATA") eqn:ED.
  - apply String.eqb_eq in ED. rewrite ED, HA in EA. injection EA as <-. rewrite HE. now exists meta.
  - assert (In "DATA" keys) as HD' by (destruct HD as [->|HD]; [discriminate ED|exact HD]).
    assert (forall q, In q keys -> dget doc (upper q) <> None) as HK' by (intros q Hq; apply HK; now right).
    destruct (String.eqb (upper k) "SPECS"); [now apply IH|]. destruct (match_key fk (upper k)); now apply IH.
Qed.

(** ** one data set: the order of its keys does not matter *)
Lemma fset_set_comm f k v k' v' : k <> k' -> fset_set (fset_set f k v) k' v' = fset_set (fset_set f k' v') k v.
Proof.
  intros H. unfold fset_set.
  repeat match goal with |- context [String.eqb ?a ?b] => is_var a; destruct (String.eqb_spec a b); [subst; try congruence|] end; reflexivity.
Qed.
Definition set_step (d : fset) (kv : string * dval) : fset := match dataset_key dk (fst kv) with Some key => fset_set d key (snd kv) | None => d end.
Definition keys_apart (d : dict dval) : Prop :=
  NoDup (map fst d) /\ forall a b key, In a (map fst d) -> In b (map fst d) -> dataset_key DATASET_META_DATA_KEYS a = Some key -> dataset_key DATASET_META_DATA_KEYS b = Some key -> a = b.
Lemma keys_apart_perm d d' : Permutation d d' -> keys_apart d -> keys_apart d'.
Proof.
  intros P [N U]. split; [exact (Permutation_NoDup (Permutation_map fst P) N)|].
  pose proof (Permutation_map fst (Permutation_sym P)) as Q. intros a b key Ha Hb. apply U; now apply (Permutation_in _ Q).
Qed.
Lemma keys_apart_cons a d : keys_apart (a :: d) -> keys_apart d.
Proof. intros [N U]. split; [now inversion N|]. intros x y key Hx Hy. apply U; now right. Qed.
Lemma set_fold_perm d d' : Permutation d d' -> keys_apart d -> forall f, fold_left set_step d f = fold_left set_step d' f.
Proof.
  induction 1 as [|a d d' P IH|a b d|d d1 d2 P1 IH1 P2 IH2]; intros K f; [reflexivity| | |].
  - cbn [fold_left]. apply IH. now apply keys_apart_cons in K.
  - cbn [fold_left]. f_equal. unfold set_step. rewrite !(dataset_key_order dk _ Pd).
    destruct (dataset_key DATASET_META_DATA_KEYS (fst a)) as [ka|] eqn:Ea, (dataset_key DATASET_META_DATA_KEYS (fst b)) as [kb|] eqn:Eb; try reflexivity.
    apply fset_set_comm. intros <-. destruct K as [N U]. specialize (U (fst b) (fst a) kb). cbn [map In] in U. 
    assert (fst b = fst a) as E by (apply U; tauto). cbn [map] in N. rewrite E in N. inversion N as [|x l N1 N2]. apply N1. now left.
  - rewrite IH1 by exact K. apply IH2. now apply (keys_apart_perm d d1).
Qed.
Lemma process_perm d d' : Permutation d d' -> keys_apart d -> process_mat_data dk d' = process_mat_data dk d.
Proof.
  intros P K. unfold process_mat_data, lookup2, dlookup. pose proof (fun k => dget_perm d d' k (proj1 K) P) as G. rewrite !G.
  destruct (match dget d "type" with Some v => Ok v | None => _ end) as [t|e]; [|reflexivity]. cbn [bind].
  destruct (dval_lstrip t) as [dt|e]; [|reflexivity]. cbn [bind].
  destruct (if startswith "formula" dt || startswith "model" dt then _ else _) as [data|e]; [|reflexivity]. cbn [bind]. f_equal.
  symmetry. change (fold_left set_step d (fset_set (fset_set default_data_dict "DataType" (DStr dt)) "Data" data) =
    fold_left set_step d' (fset_set (fset_set default_data_dict "DataType" (DStr dt)) "Data" data)). now apply set_fold_perm.
Qed.
Lemma process_order d : process_mat_data dk d = process_mat_data DATASET_META_DATA_KEYS d.
Proof. apply process_mat_data_order; [exact Pd|apply Permutation_refl]. Qed.
Lemma process_seq l l' : Forall2 (@Permutation _) l l' -> Forall keys_apart l ->
  process_mat_data_dict dk (NSeq l') = map_res (process_mat_data DATASET_META_DATA_KEYS) l.
Proof.
  intros F K. cbn [process_mat_data_dict]. induction F as [|d d' l l' P F IH]; [reflexivity|]. cbn [map_res].
  rewrite (process_perm d d' P (Forall_inv K)), process_order, (IH (Forall_inv_tail K)). reflexivity.
Qed.
End Reading.
