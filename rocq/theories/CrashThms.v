(** Theorems about saving the catalogue with an interruption (C85). *)
From Verif Require Import PyBase PyStr XReal CNum SpectrumModel SpectrumSpec SpectrumProofs SpectralModel SpectralSpec TextModel MaterialModel MaterialSpec MaterialProofs MatFileProofs FileModel IOSpec SaveSpec PathModel ConfigModel CatalogueModel CatalogueSpec CatalogueProofs NormProofs RebuildProofs WalkProofs SaveProofs CatalogueSample SpectralThms CatalogueThms CsvModel CsvSpec CsvProofs CrashSpec CrashProofs.
Open Scope R_scope.
Open Scope string_scope.
Open Scope list_scope.


Lemma C85_interrupted_l : forall X L W cfg rb cat f W',
  csv_ok L -> mk_catalogue X W cfg rb = Ok cat -> Forall (texts_writable L) (rows_of f) ->
  interrupted L W (set_database cat f) W' ->
  mk_catalogue X W' cfg (RStr "None") = Raise ValueError \/
  exists cat' done rest back last, mk_catalogue X W' cfg (RStr "None") = Ok cat' /\
    rows_of f = done ++ rest /\ rows_of (c_db cat') = back ++ last /\ Forall2 (row_back L) done back /\
    (last = [] \/ exists r rest' r', rest = r :: rest' /\ last = [r'] /\ row_cut L r r') /\
    default_numbering (c_db cat') /\ c_base cat' = c_base cat /\ c_file cat' = c_file cat /\ c_ref cat' = c_ref cat.
Proof.
  intros X L W cfg rb cat f W' O H T (text & P1 & P2 & Hc & Hq & _ & _ & _ & Hf & _).
  rewrite (reopen X W cfg rb cat W' H Hc Hq). change (c_base (set_database cat f)) with (c_base cat) in Hf.
  change (c_file (set_database cat f)) with (c_file cat) in Hf. rewrite Hf.
  destruct (read_csv_begun L f text O T P1 P2) as [->|(done & rest & back & last & E & -> & B & K)]; [now left|].
  right. eexists. exists done, rest, back, last. split; [reflexivity|]. split; [exact E|].
  split; [apply rows_numbered|]. split; [exact B|]. split; [exact K|]. split; [apply numbered_default|]. now split.
Qed.

Lemma C85_alias_l : forall X L W cfg rb cat f W' cat' base a l1 r l2 path t u,
  csv_ok L -> mk_catalogue X W cfg rb = Ok cat -> c_base cat = abs_path base -> Forall plain_name base ->
  Forall (texts_writable L) (rows_of f) -> Forall (fun r => r_alias r <> KObj) (rows_of f) ->
  interrupted L W (set_database cat f) W' -> mk_catalogue X W' cfg (RStr "None") = Ok cat' ->
  a <> "" -> rows_of f = l1 ++ r :: l2 -> r_alias r = KStr a -> (forall x, In x l1 -> r_alias x <> KStr a) ->
  (S (length l1) < length (rows_of (c_db cat')))%nat -> located base r path t u ->
  get_material W' cat' (IdStr a) = loaded (w_read W) path t u.
Proof.
  intros X L W cfg rb cat f W' cat' base a l1 r l2 path t u O H Eb Pb T Na I H' Ne E A N Len Lo.
  destruct (C85_interrupted_l X L W cfg rb cat f W' O H T I) as [K|(cat2 & done & rest & back & last & H2 & Ef & Er & B & K & D & Eb' & _)]; [congruence|].
  assert (cat2 = cat') as -> by congruence. rewrite Er, app_length in Len. pose proof (Forall2_len _ _ _ B) as Lb.
  assert (Ll : (length last <= 1)%nat) by (destruct K as [->|(? & ? & ? & _ & -> & _)]; cbn; lia).
  assert (Ed : exists l2', done = l1 ++ r :: l2').
  { assert (Q : firstn (length done) (rows_of f) = done) by (rewrite Ef, firstn_app, Nat.sub_diag, firstn_O, app_nil_r; apply firstn_all).
    rewrite E, firstn_app, firstn_all2 in Q by lia. destruct (length done - length l1)%nat as [|n] eqn:En; [lia|]. cbn [firstn] in Q.
    exists (firstn n l2). now symmetry. }
  destruct Ed as (l2' & Ed). assert (Nd : Forall (fun r => r_alias r <> KObj) done) by (rewrite Ef in Na; apply Forall_app in Na; apply Na).
  destruct (back_first L a r _ _ Ne Nd B l1 l2' Ed A N) as (b1 & r' & b2 & Eb1 & K' & N').
  destruct I as (text & _ & _ & _ & _ & Hr & _). rewrite <- Hr. apply (C53_alias_l W' cat' a r' base).
  - exact D.
  - congruence.
  - exact Pb.
  - apply first_rows. exists b1, (b2 ++ last). split; [rewrite Er, Eb1, <- app_assoc; reflexivity|].
    split; [|exact N']. eapply text_back_same; [apply K'|exact A].
  - eapply located_back; eassumption.
Qed.

Lemma C85_rows_lost_refuted_l : forall X L W cfg rb cat f1 l r f2,
  csv_ok L -> mk_catalogue X W cfg rb = Ok cat ->
  Forall (texts_writable L) (rows_of (f1 ++ (l, r) :: f2)) -> Forall bounded (rows_of (f1 ++ (l, r) :: f2)) ->
  exists W' cat' back r', interrupted L W (set_database cat (f1 ++ (l, r) :: f2)) W' /\
    mk_catalogue X W' cfg (RStr "None") = Ok cat' /\ rows_of (c_db cat') = back ++ [r'] /\
    Forall2 (row_back L) (rows_of f1) back /\ row_cut L r r' /\ r_path r' = KStr "" /\ r_module r' = KStr "".
Proof.
  intros X L W cfg rb cat f1 l r f2 O H T B. unfold rows_of in T, B. rewrite map_app in T, B. cbn [map snd] in T, B.
  apply Forall_app in T. apply Forall_app in B. destruct T as [T1 T2]. destruct B as [B1 B2]. inversion_clear T2 as [|? ? Tr _]. inversion_clear B2 as [|? ? Br _].
  destruct (read_csv_short L f1 r O T1 B1 Tr Br) as (back & r' & E & Bk & C & _ & _ & _ & Ep & Em).
  exists (with_text L W cat (short_text L f1 r)). eexists. exists back, r'. split; [|split; [|split; [|auto 6]]].
  - exists (short_text L f1 r). split; [|split; [apply short_text_prefix|exact (with_text_holding L W cat _)]].
    unfold short_text. cbn [lines_text]. rewrite <- sapp_assoc. eexists. reflexivity.
  - rewrite (reopen X W cfg rb cat (with_text L W cat (short_text L f1 r)) H eq_refl eq_refl). unfold with_text at 1. cbn [w_csv].
    rewrite String.eqb_refl, E. reflexivity.
  - apply rows_numbered.
Qed.
