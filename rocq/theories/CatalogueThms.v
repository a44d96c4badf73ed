(** Theorems about the catalogue: aliases, loading materials, rebuilding (C52-C54). *)
From Verif Require Import PyBase PyStr XReal CNum SpectrumModel SpectrumSpec SpectrumProofs SpectralModel SpectralSpec TextModel MaterialModel MaterialSpec MaterialProofs MatFileProofs FileModel IOSpec PathModel ConfigModel CatalogueModel CatalogueSpec CatalogueProofs NormProofs RebuildProofs WalkProofs SaveProofs CatalogueSample SpectralThms.
Open Scope R_scope.
Open Scope string_scope.
Open Scope list_scope.


Lemma C52_distinct_l : forall f calls f', labels_distinct f -> aliases_distinct f ->
  registered f calls f' -> labels_distinct f' /\ aliases_distinct f'.
Proof.
  intros f calls f' L A H. revert L A. induction H as [|f i a res f1 rest f2 H _ IH]; intros L A; [auto|].
  destruct (register_keeps _ _ _ _ _ L A H). auto.
Qed.

Lemma C52_failed_l : forall f id a e f', register_alias f id a = (Raise e, f') -> f' = f.
Proof.
  intros f [i|l|] a e f'; unfold register_alias.
  - destruct (existsb _ f); [|intros [=]]. destruct (at_is f i a) as [[]|]; intros [=]; congruence.
  - destruct (existsb _ f); [intros [=]; congruence|]. destruct (forallb _ l); intros [=]; congruence.
  - intros [=]; congruence.
Qed.

Lemma C52_success_l : forall f i a f', labels_distinct f -> In i (map fst f) ->
  register_alias f (RInt i) a = (Ok tt, f') -> alias_set (fun j => j = i) a f f'.
Proof.
  intros f i a f' L I H. destruct (register_spec _ _ _ _ _ L H) as [(_ & _ & ->)|[(r & K & _)|(K & _)]]; try discriminate.
  now apply at_set_present.
Qed.

Lemma C52_when_l : forall f i r a, labels_distinct f -> In (i, r) f ->
  (fst (register_alias f (RInt i) a) = Ok tt <-> ~ alias_used f a \/ r_alias r = KStr a) /\
  (alias_used f a -> r_alias r <> KStr a -> register_alias f (RInt i) a = (Raise ValueError, f)).
Proof.
  intros f i r a L I. assert (Ii : In i (map fst f)) by (apply (in_map fst) in I; exact I).
  destruct (register_alias f (RInt i) a) as [rs f'] eqn:H. cbn [fst].
  destruct (register_spec _ _ _ _ _ L H) as [(-> & [U|(r' & I' & E)] & _)|[(r' & -> & U & I' & N & ->)|(-> & U & N & ->)]].
  - split; [tauto|]. intros U'. now destruct U.
  - rewrite (label_row _ _ _ _ L I I') in *. split; [tauto|]. intros _ N. now destruct N.
  - rewrite (label_row _ _ _ _ L I I') in *. split; [|reflexivity]. split; [discriminate|]. now intros [K|K].
  - now destruct N.
Qed.

Lemma C52_other_type_l : forall f a, register_alias f ROther a = (Raise ValueError, f).
Proof. reflexivity. Qed.

Lemma C52_missing_row_refuted_l : forall f i a, labels_distinct f -> ~ In i (map fst f) ->
  (~ alias_used f a -> exists r, empty_row a r /\ register_alias f (RInt i) a = (Ok tt, f ++ [(i, r)])) /\
  (alias_used f a -> register_alias f (RInt i) a = (Raise KeyError, f)).
Proof.
  intros f i a L I. destruct (register_alias f (RInt i) a) as [rs f'] eqn:H.
  destruct (register_spec _ _ _ _ _ L H) as [(-> & U & ->)|[(r' & -> & U & I' & N & ->)|(-> & U & N & ->)]].
  - split.
    + intros _. exists (nan_row a). split; [repeat split|]. now rewrite at_set_absent.
    + intros U'. exfalso. destruct U as [U|(r & I' & _)]; [now apply U|]. apply I. apply (in_map fst) in I'. exact I'.
  - exfalso. apply I. apply (in_map fst) in I'. exact I'.
  - split; [|reflexivity]. intros U'. now destruct U'.
Qed.

Lemma C52_selection_refused_l : forall f labels a,
  (alias_used f a -> register_alias f (RFrame labels) a = (Raise TypeError, f)) /\
  (~ alias_used f a -> forall i, In i labels -> ~ In i (map fst f) -> register_alias f (RFrame labels) a = (Raise KeyError, f)).
Proof.
  intros f labels a. unfold register_alias. split.
  - intros U. replace (existsb (fun r => cell_is (r_alias (snd r)) a) f) with true; [reflexivity|]. symmetry. now apply used_iff.
  - intros U i Hi Ni.
    replace (existsb (fun r => cell_is (r_alias (snd r)) a) f) with false; [|symmetry; apply Bool.not_true_is_false; intros K; apply U; now apply used_iff].
    replace (forallb (has_label f) labels) with false; [reflexivity|]. symmetry. apply Bool.not_true_is_false. intros K.
    rewrite forallb_forall in K. apply Ni. apply has_label_iff. auto.
Qed.

Lemma C52_selection_l : forall f labels a, ~ alias_used f a -> (forall i, In i labels -> In i (map fst f)) ->
  exists f', register_alias f (RFrame labels) a = (Ok tt, f') /\ alias_set (fun j => In j labels) a f f'.
Proof.
  intros f labels a U I. unfold register_alias.
  assert (E : existsb (fun r => cell_is (r_alias (snd r)) a) f = false).
  { apply Bool.not_true_is_false. intros K. apply U. now apply used_iff. }
  rewrite E. assert (F : forallb (has_label f) labels = true).
  { apply forallb_forall. intros i Hi. apply has_label_iff. auto. }
  rewrite F. eexists. split; [reflexivity|].
  apply (alias_set_ext (fun i => existsb (Z.eqb i) labels = true)); [|apply alias_set_map].
  intros i. rewrite existsb_exists. split.
  - intros (x & Hx & Ex). apply Z.eqb_eq in Ex. now subst.
  - intros Hi. exists i. split; [exact Hi|]. apply Z.eqb_refl.
Qed.

Lemma C52_selection_refuted_l : forall f labels i j a f', i <> j -> In i labels -> In j labels ->
  In i (map fst f) -> In j (map fst f) -> labels_distinct f -> a <> "" ->
  register_alias f (RFrame labels) a = (Ok tt, f') -> ~ aliases_distinct f'.
Proof.
  intros f labels i j a f' N Li Lj Fi Fj L Na H D.
  unfold register_alias in H. destruct (existsb _ f); [discriminate|]. destruct (forallb _ labels); [|discriminate].
  injection H as <-. set (g := fun r : Z * row => _) in D.
  assert (G : forall k, In k labels -> In k (map fst f) -> exists r, In (k, r) (map g f) /\ r_alias r = KStr a).
  { intros k Lk Fk. apply in_map_iff in Fk as ([k' r] & E & I). cbn in E. subst k'.
    exists (set_alias r (KStr a)). split; [|reflexivity]. apply in_map_iff. exists (k, r). split; [|exact I].
    unfold g. cbn [fst snd]. assert (Ek : existsb (Z.eqb k) labels = true).
    { apply existsb_exists. exists k. split; [exact Lk|apply Z.eqb_refl]. }
    now rewrite Ek. }
  destruct (G i Li Fi) as (r & I & Er). destruct (G j Lj Fj) as (r' & I' & Er').
  assert (L' : labels_distinct (map g f)).
  { unfold labels_distinct. rewrite map_map. replace (map _ f) with (map fst f); [exact L|]. apply map_ext. intros [k q]. unfold g.
    cbn [fst]. now destruct (existsb _ labels). }
  apply N. eapply (proj1 (distinct_labels _ L') D); eassumption.
Qed.

Lemma C52_clear_refuted_l : forall f i r a, labels_distinct f -> In (i, r) f -> r_alias r = KStr a -> a <> "" ->
  alias_used f "" -> register_alias f (RInt i) "" = (Raise ValueError, f).
Proof.
  intros f i r a L I E N U. apply (C52_when_l f i r "" L I); [exact U|]. rewrite E. congruence.
Qed.

Lemma C53_alias_l : forall W c a r base path t u,
  default_numbering (c_db c) -> c_base c = abs_path base -> Forall plain_name base ->
  first_with (c_db c) a r -> located base r path t u ->
  get_material W c (IdStr a) = loaded (w_read W) path t u.
Proof.
  intros W c a r base path t u D B P F L. unfold get_material. rewrite (find_first _ _ _ D F). cbn [bind].
  destruct (located_file _ _ _ _ _ P L) as (Rf & St & Un). rewrite B, Rf, St, Un. reflexivity.
Qed.

Lemma C53_unknown_l : forall W c a, ~ alias_used (c_db c) a -> get_material W c (IdStr a) = Raise ValueError.
Proof. intros W c a U. unfold get_material. now rewrite find_none. Qed.

Lemma C53_other_type_l : forall W c, get_material W c IdOther = Raise ValueError.
Proof. reflexivity. Qed.

Lemma C53_number_l : forall W c p r base path t u,
  c_base c = abs_path base -> Forall plain_name base ->
  row_at (c_db c) p r -> located base r path t u ->
  get_material W c (IdInt (Z.of_nat p)) = loaded (w_read W) path t u /\
  get_material W c (IdInt (Z.of_nat p - Z.of_nat (length (c_db c)))) = loaded (w_read W) path t u.
Proof.
  intros W c p r base path t u B P (l & N) L. destruct (located_file _ _ _ _ _ P L) as (Rf & St & Un).
  unfold get_material. cbn [find_row]. rewrite (iloc_pos _ _ _ _ N), (iloc_neg _ _ _ _ N). cbn [bind].
  rewrite B, Rf, St, Un. split; reflexivity.
Qed.

Lemma C53_out_of_range_l : forall W c i,
  (i < - Z.of_nat (length (c_db c)))%Z \/ (Z.of_nat (length (c_db c)) <= i)%Z ->
  get_material W c (IdInt i) = Raise IndexError.
Proof. intros W c i H. unfold get_material. cbn [find_row]. now rewrite iloc_out. Qed.

Lemma C53_numbering_l : forall f i a res f', default_numbering f -> (0 <= i <= Z.of_nat (length f))%Z ->
  register_alias f (RInt i) a = (res, f') -> default_numbering f'.
Proof.
  intros f i a res f' D B H. pose proof (default_labels_distinct _ D) as L.
  assert (Lab : map fst f = map Z.of_nat (seq 0 (length f))).
  { rewrite (default_is_numbered _ D) at 1. unfold numbered. rewrite (proj1 (number_from_spec _ _)). unfold rows_of. rewrite map_length. reflexivity. }
  destruct (register_spec _ _ _ _ _ L H) as [(-> & _ & ->)|[(r & -> & _ & _ & _ & ->)|(-> & _ & _ & ->)]]; try exact D.
  destruct (in_dec Z.eq_dec i (map fst f)) as [I|I].
  - pose proof (at_set_present f i a I) as S. intros p Hp. assert (Ln : length (at_set f i a) = length f).
    { rewrite <- (map_length fst (at_set f i a)), (alias_set_labels _ _ _ _ S). apply map_length. }
    destruct (nth_error (at_set f i a) p) as [[l r]|] eqn:E; [|apply nth_error_None in E; lia].
    exists r. f_equal. f_equal. assert (Em : nth_error (map fst (at_set f i a)) p = Some l) by (apply (map_nth_error fst) in E; exact E).
    rewrite (alias_set_labels _ _ _ _ S) in Em. destruct (D p) as (r0 & E0); [lia|].
    apply (map_nth_error fst) in E0. cbn in E0. congruence.
  - rewrite (at_set_absent _ _ _ I). assert (Ei : i = Z.of_nat (length f)).
    { destruct (Z.eq_dec i (Z.of_nat (length f))); [assumption|]. exfalso. apply I. rewrite Lab. apply in_map_iff.
      exists (Z.to_nat i). split; [lia|]. apply in_seq. lia. }
    intros p Hp. rewrite app_length in Hp. cbn in Hp. destruct (Nat.eq_dec p (length f)) as [->|Np].
    + exists (nan_row a). rewrite nth_error_app2, Nat.sub_diag by lia. cbn. now rewrite Ei.
    + destruct (D p) as (r & E); [lia|]. exists r. now rewrite nth_error_app1 by lia.
Qed.

Lemma C53_label_is_position_l : forall W c f1 l r f2 a, c_db c = f1 ++ (l, r) :: f2 -> r_alias r = KStr a ->
  (forall l' r', In (l', r') f1 -> r_alias r' <> KStr a) ->
  get_material W c (IdStr a) = get_material W c (IdInt l).
Proof.
  intros W c f1 l r f2 a E A N. unfold get_material. f_equal. unfold find_row. rewrite E at 1.
  rewrite filter_first; [reflexivity| |].
  - intros [l' r'] I. apply Bool.not_true_is_false. intros K. apply cell_is_iff in K. exact (N _ _ I K).
  - now apply cell_is_iff.
Qed.

Lemma C53_other_row_refuted_l : exists W c a r base path t u m m',
  labels_distinct (c_db c) /\ aliases_distinct (c_db c) /\ c_base c = abs_path base /\ Forall plain_name base /\
  first_with (c_db c) a r /\ located base r path t u /\
  loaded (w_read W) path t u = Ok m /\ get_material W c (IdStr a) = Ok m' /\ m_name m = "eps" /\ m_name m' = "nk".
Proof.
  pose (c := mkCat "/home/cat" "catalogue.csv" false sample_ref [(1%Z, row_metal); (0%Z, row_glass)]).
  destruct (table_loaded sample_read "/home/cat/UserData/metal.csv" "eps" "eps" 3 metal "wavelength" "nm" "wavelength" "nanometer" "wavelength" "nm" "nm")
    as (m & Hm & Nm & _); [cbn; tauto|reflexivity|exact metal_ok|left; split; [reflexivity|discriminate]|left; split; [reflexivity|discriminate]|exists ["nanometer"; "nanometre"; "nm"]; cbn; auto 10|].
  destruct (table_loaded sample_read "/home/cat/UserData/glass.txt" "nk" "nk" 3 glass "" "" "wavelength" "nanometer" "wavelength" "nanometer" "nm")
    as (m' & Hm' & Nm' & _); [cbn; tauto|reflexivity|exact glass_ok|right; split; reflexivity|right; split; reflexivity|exists ["nanometer"; "nanometre"; "nm"]; cbn; auto 10|].
  exists sample_world, c, "mirror", row_metal, ["home"; "cat"], "/home/cat/UserData/metal.csv", "wavelength", "nanometer", m, m'.
  assert (P : forall s, In s ["home"; "cat"; "UserData"; "metal.csv"] -> plain_name s).
  { intros s I. cbn in I. decompose [or] I; try contradiction; subst; repeat split; try discriminate; cbn;
      intros K; decompose [or] K; try contradiction; discriminate. }
  assert (L : labels_distinct (c_db c)).
  { unfold labels_distinct. cbn. repeat (constructor; [cbn; intros H; decompose [or] H; discriminate || assumption|]). constructor. }
  split; [exact L|]. split.
  { apply distinct_labels; [exact L|]. intros l l' r r' a Na I I'. cbn in I, I'.
    decompose [or] I; decompose [or] I'; try contradiction; repeat match goal with H : (_, _) = (_, _) |- _ => injection H as <- <- end;
      intros E E'; try reflexivity; injection E as <-; try discriminate E'; now destruct Na. }
  split; [reflexivity|]. split; [repeat (constructor; [apply P; cbn; tauto|]); constructor|].
  split; [exists [], 1%Z, [(0%Z, row_glass)]; split; [reflexivity|]; split; [reflexivity|]; intros ? ? []|].
  split.
  { exists "UserData", "metal.csv", ["metal.csv"]. split; [reflexivity|]. split; [apply P; cbn; tauto|]. split; [reflexivity|].
    split; [|auto]. split; [discriminate|]. split; [constructor; [apply P; cbn; tauto|constructor]|].
    split; [|left; reflexivity]. constructor; [|constructor]. cbn. intros K; decompose [or] K; try contradiction; discriminate. }
  split; [exact Hm|]. split; [|split; [exact Nm|exact Nm']].
  rewrite <- Hm'. reflexivity.
Qed.

Lemma C53_empty_row_l : forall W c f a, default_numbering (c_db c) -> ~ alias_used (c_db c) a ->
  register_alias (c_db c) (RInt (Z.of_nat (length (c_db c)))) a = (Ok tt, f) ->
  get_material W (mkCat (c_base c) (c_file c) (c_interactive c) (c_ref c) f) (IdStr a) = Raise AttributeError.
Proof.
  intros W c f a D U H. pose proof (default_labels_distinct _ D) as L.
  assert (N : ~ In (Z.of_nat (length (c_db c))) (map fst (c_db c))).
  { intros I. apply in_map_iff in I as ([l r] & E & I). cbn in E. subst l. apply In_nth_error in I as (p & E).
    assert (Hp : (p < length (c_db c))%nat) by (apply nth_error_Some; congruence). destruct (D p Hp) as (r0 & E0).
    rewrite E in E0. injection E0 as E0 _. lia. }
  destruct (C52_missing_row_refuted_l _ _ a L N) as (K & _). destruct (K U) as (r & Er & K'). rewrite K' in H. injection H as <-.
  destruct Er as (Ea & Er). unfold get_material. cbn [c_db].
  rewrite (find_first _ a r).
  - cbn [bind c_base]. unfold row_file. replace (r_path r) with KNaN by (symmetry; tauto). reflexivity.
  - eapply C53_numbering_l; [exact D| |exact K']. lia.
  - exists (c_db c), (Z.of_nat (length (c_db c))), []. split; [reflexivity|]. split; [exact Ea|].
    intros l' r' I E. apply U. now exists l', r'.
Qed.

(** the parts of a successful construction *)
Lemma built_parts X W c rb base file mods ref t u cat : configured c base file mods ref t u ->
  mk_catalogue X W c rb = Ok cat ->
  exists s df, mk_spectrum (InVals (VS ref)) t u = Ok s /\
    (rb = RStr "All" -> df = []) /\
    (rb <> RStr "All" -> exists old, w_csv W (path_join base file) = Ok old /\ df = numbered old) /\
    (rb = RStr "None" -> c_db cat = df) /\
    (rb <> RStr "None" -> c_db cat = numbered (rows_of (c_db cat)) /\
       exists blocks, rows_of (c_db cat) = concat blocks /\ Forall2 (block X W s base rb df) mods blocks).
Proof.
  intros C H. rewrite (mk_catalogue_eq _ _ _ _ _ _ _ _ _ _ C) in H.
  destruct (validate_config _ _); cbn [bind] in H; [|discriminate]. inv_bind H s Es. inv_bind H df Ed. inv_bind H df' Ed'. inv_bind H i Ei.
  destruct (i && negb (w_qgrid W)); [discriminate|]. injection H as <-. cbn [c_db].
  exists s, df. split; [exact Es|]. split.
  { intros ->. cbn in Ed. congruence. }
  split.
  { intros N. destruct (rebuild_is rb "All") eqn:Er; [apply rebuild_is_iff in Er; contradiction|].
    inv_bind Ed old Eo. exists old. split; [exact Eo|]. congruence. }
  split.
  { intros ->. cbn in Ed'. congruence. }
  intros N. destruct (rebuild_is rb "None") eqn:Er; [apply rebuild_is_iff in Er; contradiction|].
  unfold build_catalogue in Ed'. apply loop_spec in Ed'; [|reflexivity]. exact Ed'.
Qed.

Lemma C54_kept_l : forall X W c rb base file mods ref t u cat old m,
  configured c base file mods ref t u -> mk_catalogue X W c rb = Ok cat ->
  w_csv W (path_join base file) = Ok old -> In (m, true) mods -> ~ selects rb m ->
  module_rows m (rows_of (c_db cat)) = module_rows m old.
Proof.
  intros X W c rb base file mods ref t u cat old m C H O I Ns.
  destruct (built_parts _ _ _ _ _ _ _ _ _ _ _ C H) as (s & df & _ & _ & B & N & P).
  assert (Na : rb <> RStr "All") by (intros ->; apply Ns; constructor).
  destruct (B Na) as (old' & O' & ->). rewrite O in O'. injection O' as <-.
  destruct (rebuild_is rb "None") eqn:Er.
  - apply rebuild_is_iff in Er. rewrite (N Er), rows_numbered. reflexivity.
  - assert (Nn : rb <> RStr "None") by (intros ->; discriminate Er). destruct (P Nn) as (_ & blocks & Eb & F).
    rewrite Eb. destruct (blocks_one _ _ _ _ _ _ _ _ _ F (cf_distinct _ _ _ _ _ _ _ C) I) as (rows & Bl & ->).
    unfold block in Bl. cbn [fst snd] in Bl. destruct Bl as [(K & _)|(_ & ->)]; [contradiction|]. now rewrite rows_numbered.
Qed.

Lemma C54_rebuilt_l : forall X W c rb base file mods ref t u cat m,
  configured c base file mods ref t u -> mk_catalogue X W c rb = Ok cat ->
  rb <> RStr "None" -> In (m, true) mods -> selects rb m ->
  exists s, mk_spectrum (InVals (VS ref)) t u = Ok s /\
    read_module X W s (path_join base m) m = Ok (module_rows m (rows_of (c_db cat))) /\
    Forall (fun r => r_alias r = KStr "") (module_rows m (rows_of (c_db cat))).
Proof.
  intros X W c rb base file mods ref t u cat m C H Nn I Sl.
  destruct (built_parts _ _ _ _ _ _ _ _ _ _ _ C H) as (s & df & Es & _ & _ & _ & P).
  exists s. split; [exact Es|]. destruct (P Nn) as (_ & blocks & Eb & F). rewrite Eb.
  destruct (blocks_one _ _ _ _ _ _ _ _ _ F (cf_distinct _ _ _ _ _ _ _ C) I) as (rows & Bl & ->).
  unfold block in Bl. cbn [fst snd] in Bl. destruct Bl as [(_ & K)|(K & _)]; [|contradiction]. split; [exact K|].
  apply module_fresh in K. eapply Forall_impl; [|exact K]. intros r [A _]. exact A.
Qed.

Lemma C54_dropped_l : forall X W c rb base file mods ref t u cat,
  configured c base file mods ref t u -> mk_catalogue X W c rb = Ok cat -> rb <> RStr "None" ->
  Forall (fun r => exists m, r_module r = KStr m /\ In (m, true) mods) (rows_of (c_db cat)).
Proof.
  intros X W c rb base file mods ref t u cat C H Nn.
  destruct (built_parts _ _ _ _ _ _ _ _ _ _ _ C H) as (s & df & Es & _ & _ & _ & P).
  destruct (P Nn) as (_ & blocks & Eb & F). rewrite Eb. clear -F. induction F as [|[m v] rows mods blocks B F IH]; cbn [concat]; [constructor|].
  apply Forall_app. split.
  - destruct v; [|cbn in B; subst; constructor]. apply block_module in B. eapply Forall_impl; [|exact B].
    intros r E. exists m. split; [exact E|now left].
  - eapply Forall_impl; [|exact IH]. intros r (m' & E & I). exists m'. split; [exact E|now right].
Qed.

Lemma C54_order_l : forall X W c rb base file mods ref t u cat,
  configured c base file mods ref t u -> mk_catalogue X W c rb = Ok cat -> rb <> RStr "None" ->
  rows_of (c_db cat) =
  concat (map (fun mv => if snd mv : bool then module_rows (fst mv) (rows_of (c_db cat)) else []) mods).
Proof.
  intros X W c rb base file mods ref t u cat C H Nn.
  destruct (built_parts _ _ _ _ _ _ _ _ _ _ _ C H) as (s & df & Es & _ & _ & _ & P).
  destruct (P Nn) as (_ & blocks & Eb & F). rewrite Eb at 1. f_equal.
  assert (G : forall mv rows, In (mv, rows) (combine mods blocks) -> rows = if snd mv then module_rows (fst mv) (rows_of (c_db cat)) else []).
  { rewrite Eb. intros [m v] rows I. cbn [fst snd].
    assert (B : block X W s base rb df (m, v) rows).
    { clear -F I. induction F; [destruct I|]. destruct I as [E|I]; [injection E as -> ->; assumption|auto]. }
    destruct v; [|exact B].
    pose proof (cf_distinct _ _ _ _ _ _ _ C) as D. clear -F I B D.
    revert I D. induction F as [|[m' v'] rows' mods blocks B' F IH]; intros I D; [destruct I|]. cbn [concat]. rewrite module_rows_app.
    cbn [map] in D. inversion D as [|? ? Nm D']; subst. cbn [fst] in Nm.
    destruct I as [E|I].
    - injection E as -> -> ->. rewrite (module_rows_same m rows (block_module _ _ _ _ _ _ _ _ B')).
      rewrite (blocks_none _ _ _ _ _ _ _ _ m F); [now rewrite app_nil_r|].
      intros K. apply Nm. apply (in_map fst) in K. exact K.
    - assert (Hm : In (m, true) mods) by (apply in_combine_l in I; exact I).
      rewrite (module_rows_other m m' rows'); [now apply IH| |exact (block_module _ _ _ _ _ _ _ _ B')].
      intros ->. apply Nm. apply (in_map fst) in Hm. exact Hm. }
  clear -F G. induction F as [|mv rows mods blocks B F IH]; [reflexivity|]. cbn [map]. f_equal.
  - apply G. now left.
  - apply IH. intros mv' rows' I. apply G. now right.
Qed.

Lemma C54_numbered_l : forall X W c rb base file mods ref t u cat,
  configured c base file mods ref t u -> mk_catalogue X W c rb = Ok cat -> default_numbering (c_db cat).
Proof.
  intros X W c rb base file mods ref t u cat C H.
  destruct (built_parts _ _ _ _ _ _ _ _ _ _ _ C H) as (s & df & _ & A & B & N & P).
  destruct (rebuild_is rb "None") eqn:Er.
  - apply rebuild_is_iff in Er. rewrite (N Er). destruct (B ltac:(subst; discriminate)) as (old & _ & ->). apply numbered_default.
  - assert (Nn : rb <> RStr "None") by (intros ->; discriminate Er). destruct (P Nn) as (-> & _). apply numbered_default.
Qed.

Lemma C54_not_rebuilt_l : forall X W c base file mods ref t u cat,
  configured c base file mods ref t u -> mk_catalogue X W c (RStr "None") = Ok cat ->
  w_csv W (path_join base file) = Ok (rows_of (c_db cat)).
Proof.
  intros X W c base file mods ref t u cat C H.
  destruct (built_parts _ _ _ _ _ _ _ _ _ _ _ C H) as (s & df & _ & A & B & N & P).
  rewrite (N eq_refl). destruct (B ltac:(discriminate)) as (old & -> & ->). now rewrite rows_numbered.
Qed.

Lemma mk_steps X W c rb base file mods ref t u s old :
  configured c base file mods ref t u -> validate_config (w_checks W) c = Ok tt ->
  mk_spectrum (InVals (VS ref)) t u = Ok s ->
  (rb <> RStr "All" -> w_csv W (path_join base file) = Ok old) -> rb <> RStr "None" ->
  mk_catalogue X W c rb =
  do df <- build_loop X W s base rb (if rebuild_is rb "All" then [] else numbered old) mods [];
  do i <- (do v <- dlookup c "Interactive"; check_bool v);
  if i && negb (w_qgrid W) then Raise GenericException else Ok (mkCat base file i s df).
Proof.
  intros C V S O Nn. rewrite (mk_catalogue_eq _ _ _ _ _ _ _ _ _ _ C), V. cbn [bind]. rewrite S. cbn [bind].
  destruct (rebuild_is rb "None") eqn:En; [apply rebuild_is_iff in En; contradiction|].
  destruct (rebuild_is rb "All") eqn:Ea; cbn [bind]; [reflexivity|].
  rewrite O; [reflexivity|]. intros ->. discriminate Ea.
Qed.

Lemma C54_disabled_l : forall X W c base file mods ref t u s old m,
  configured c base file mods ref t u -> validate_config (w_checks W) c = Ok tt ->
  mk_spectrum (InVals (VS ref)) t u = Ok s ->
  (m <> "All" -> w_csv W (path_join base file) = Ok old) -> m <> "None" -> In (m, false) mods ->
  (forall m', In (m', true) mods -> selects (RStr m) m' -> exists rows, read_module X W s (path_join base m') m' = Ok rows) ->
  mk_catalogue X W c (RStr m) = Raise ValueError.
Proof.
  intros X W c base file mods ref t u s old m C V S O Nn I Rd.
  rewrite (mk_steps X W c (RStr m) base file mods ref t u s old C V S); [|intros K; apply O; congruence|congruence].
  rewrite (loop_disabled X W s base m _ mods [] I Rd). reflexivity.
Qed.

Lemma C54_succeeds_l : forall X W c rb base file mods ref t u s old,
  configured c base file mods ref t u -> validate_config (w_checks W) c = Ok tt ->
  mk_spectrum (InVals (VS ref)) t u = Ok s ->
  (rb <> RStr "All" -> w_csv W (path_join base file) = Ok old) -> rb <> RNone -> rb <> RStr "None" ->
  (forall m, In (m, false) mods -> rb <> RStr m) ->
  (forall m, In (m, true) mods -> selects rb m -> exists rows, read_module X W s (path_join base m) m = Ok rows) ->
  (dget c "Interactive" = Some (CBool true) -> w_qgrid W = true) ->
  exists cat, mk_catalogue X W c rb = Ok cat.
Proof.
  intros X W c rb base file mods ref t u s old C V S O Nn Ns Fs Rd Q.
  rewrite (mk_steps X W c rb base file mods ref t u s old C V S O Ns).
  destruct (loop_total X W s base rb (if rebuild_is rb "All" then [] else numbered old) mods [] Nn Fs Rd) as (f & ->). cbn [bind].
  assert (Iv : exists b, dget c "Interactive" = Some (CBool b)).
  { unfold validate_config in V. repeat match type of V with
    | bind (dlookup c "Interactive") _ = _ => fail 1
    | bind ?m _ = Ok _ => destruct m; cbn [bind] in V; [|discriminate V]
    end. unfold dlookup at 1 in V. destruct (dget c "Interactive") as [v|]; cbn [bind] in V; [|discriminate].
    destruct v; try discriminate V. eauto. }
  destruct Iv as (b & Eb). unfold dlookup. rewrite Eb. cbn [bind check_bool].
  destruct b; cbn [andb]; [|eauto]. rewrite Q by exact Eb. cbn. eauto.
Qed.

Lemma C54_errors_l : forall X W c rb base file mods ref t u s old e,
  configured c base file mods ref t u -> validate_config (w_checks W) c = Ok tt ->
  mk_spectrum (InVals (VS ref)) t u = Ok s ->
  (rb <> RStr "All" -> w_csv W (path_join base file) = Ok old) -> rb <> RNone -> rb <> RStr "None" ->
  mk_catalogue X W c rb = Raise e ->
  (exists m, In (m, false) mods /\ rb = RStr m /\ e = ValueError) \/
  (exists m, In (m, true) mods /\ selects rb m /\ read_module X W s (path_join base m) m = Raise e) \/
  (dget c "Interactive" = Some (CBool true) /\ w_qgrid W = false /\ e = GenericException).
Proof.
  intros X W c rb base file mods ref t u s old e C V S O Nn Ns H.
  rewrite (mk_steps X W c rb base file mods ref t u s old C V S O Ns) in H.
  destruct (build_loop X W s base rb _ mods []) as [f|e'] eqn:E; cbn [bind] in H.
  - right. right. assert (Iv : exists b, dget c "Interactive" = Some (CBool b)).
    { unfold validate_config in V. repeat match type of V with
      | bind (dlookup c "Interactive") _ = _ => fail 1
      | bind ?m _ = Ok _ => destruct m; cbn [bind] in V; [|discriminate V]
      end. unfold dlookup at 1 in V. destruct (dget c "Interactive") as [v|]; cbn [bind] in V; [|discriminate].
      destruct v; try discriminate V. eauto. }
    destruct Iv as (b & Eb). unfold dlookup in H. rewrite Eb in H. cbn [bind check_bool] in H.
    destruct b; cbn [andb] in H; [|discriminate]. destruct (w_qgrid W); [discriminate|]. injection H as <-. auto.
  - injection H as ->. destruct (loop_fails _ _ _ _ _ _ _ _ _ Nn E) as [K|K]; auto.
Qed.

Lemma C54_unknown_module_l : forall X W s dir m, m <> "RefractiveIndexInfo" -> m <> "Filmetrics" -> m <> "UserData" ->
  read_module X W s dir m = Raise KeyError.
Proof.
  intros X W s dir m A B C. unfold read_module.
  apply String.eqb_neq in A, B, C. now rewrite A, B, C.
Qed.

Lemma C54_none_refuted_l : forall X W c base file mods ref t u s old m,
  configured c base file mods ref t u -> validate_config (w_checks W) c = Ok tt ->
  mk_spectrum (InVals (VS ref)) t u = Ok s -> w_csv W (path_join base file) = Ok old -> In (m, true) mods ->
  mk_catalogue X W c RNone = Raise TypeError.
Proof.
  intros X W c base file mods ref t u s old m C V S O I.
  rewrite (mk_steps X W c RNone base file mods ref t u s old C V S); [|auto|discriminate].
  assert (L : forall df acc, build_loop X W s base RNone df mods acc = Raise TypeError).
  { intros df. clear -I. induction mods as [|[m' [|]] mods IH]; intros acc; [destruct I| |]; cbn [build_loop in_rebuild rebuild_is bind]; [reflexivity|].
    apply IH. destruct I as [E|I]; [discriminate|exact I]. }
  now rewrite L.
Qed.
