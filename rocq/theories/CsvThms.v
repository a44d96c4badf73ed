(** Theorems about saving the catalogue and opening it again (C78-C80). *)
From Verif Require Import PyBase PyStr XReal CNum SpectrumModel SpectrumSpec SpectrumProofs SpectralModel SpectralSpec TextModel MaterialModel MaterialSpec MaterialProofs MatFileProofs FileModel IOSpec PathModel ConfigModel CatalogueModel CatalogueSpec CatalogueProofs NormProofs RebuildProofs WalkProofs SaveProofs CatalogueSample SpectralThms CatalogueThms CsvModel CsvSpec CsvProofs.
Open Scope R_scope.
Open Scope string_scope.
Open Scope list_scope.


Lemma C78_reopened_l : forall X L W cfg rb cat f,
  csv_ok L -> mk_catalogue X W cfg rb = Ok cat ->
  Forall (texts_writable L) (rows_of f) -> Forall bounded (rows_of f) ->
  exists cat', mk_catalogue X (save_to_file L W (set_database cat f)) cfg (RStr "None") = Ok cat' /\
    Forall2 (row_back L) (rows_of f) (rows_of (c_db cat')) /\ default_numbering (c_db cat') /\
    c_base cat' = c_base cat /\ c_file cat' = c_file cat /\ c_ref cat' = c_ref cat.
Proof.
  intros X L W cfg rb cat f O H T B. destruct (read_csv_back L f O T B) as (rows & E & F).
  rewrite (reopen X W cfg rb cat _ H) by reflexivity. rewrite saved_csv, E. cbn [bind].
  eexists. split; [reflexivity|]. cbn [c_db c_base c_file c_ref]. rewrite rows_numbered.
  repeat split; try exact F. apply numbered_default.
Qed.

Lemma C78_exact_l : forall X L W cfg rb cat f,
  csv_ok L -> mk_catalogue X W cfg rb = Ok cat ->
  Forall (texts_writable L) (rows_of f) -> Forall bounded (rows_of f) ->
  Forall (fun r => exists a n fu au co re st un pa mo lo hi rn rk,
            r = mkRow (KStr a) (KStr n) (KStr fu) (KStr au) (KStr co) (KStr re) (KStr st) (KStr un) lo hi rn rk (KStr pa) (KStr mo) /\
            number_back L lo lo /\ number_back L hi hi /\ (rn <> NaN -> number_back L rn rn) /\ (rk <> NaN -> number_back L rk rk))
    (rows_of f) ->
  exists cat', mk_catalogue X (save_to_file L W (set_database cat f)) cfg (RStr "None") = Ok cat' /\
    rows_of (c_db cat') = rows_of f.
Proof.
  intros X L W cfg rb cat f O H T B E. destruct (C78_reopened_l X L W cfg rb cat f O H T B) as (cat' & H' & F & _).
  exists cat'. split; [exact H'|]. clear H H' T B. induction F as [|r r' l l' K F IH]; [reflexivity|].
  inversion_clear E as [|? ? Er E']. rewrite IH by exact E'. f_equal.
  destruct Er as (a & n & fu & au & co & re & st & un & pa & mo & lo & hi & rn & rk & -> & N1 & N2 & N3 & N4).
  destruct K as [K1 K2 K3 K4 K5 K6 K7 K8 K9 K10 K11 K12 K13 K14]. destruct r'. cbn in *.
  unfold number_back, reference_back in *. subst. rewrite N1 in K9. rewrite N2 in K10. injection K9 as <-. injection K10 as <-.
  f_equal.
  - destruct K11 as [[-> ->]|[N K]]; [reflexivity|]. unfold number_back in K. rewrite (N3 N) in K. now injection K as <-.
  - destruct K12 as [[-> ->]|[N K]]; [reflexivity|]. unfold number_back in K. rewrite (N4 N) in K. now injection K as <-.
Qed.

Lemma C78_no_bounds_refuted_l : forall X L W cfg rb cat f rb',
  csv_ok L -> mk_catalogue X W cfg rb = Ok cat ->
  Forall (texts_writable L) (rows_of f) -> Exists (fun r => ~ bounded r) (rows_of f) -> rb' <> RStr "All" ->
  mk_catalogue X (save_to_file L W (set_database cat f)) cfg rb' = Raise ValueError.
Proof.
  intros X L W cfg rb cat f rb' O H T B N. apply (reopen_error X W cfg rb cat _ _ _ H); [reflexivity|exact N|].
  rewrite saved_csv. now apply read_csv_unbounded.
Qed.

Lemma C78_wrong_row_refuted_l : forall X L W cfg rb cat f i a f' rb',
  csv_ok L -> mk_catalogue X W cfg rb = Ok cat ->
  Forall (texts_writable L) (rows_of f) -> writable L a -> ~ In i (map fst f) ->
  register_alias f (RInt i) a = (Ok tt, f') -> rb' <> RStr "All" ->
  mk_catalogue X (save_to_file L W (set_database cat f')) cfg rb' = Raise ValueError.
Proof.
  intros X L W cfg rb cat f i a f' rb' O H T Wa Ni R N.
  assert (f' = f ++ [(i, nan_row a)]) as ->.
  { unfold register_alias in R. destruct (existsb _ f).
    - destruct (at_is f i a) as [[]|]; try discriminate R. injection R as <-. now apply at_set_absent.
    - injection R as <-. now apply at_set_absent. }
  apply (C78_no_bounds_refuted_l X L W cfg rb cat _ rb' O H); [| |exact N].
  - unfold rows_of in *. rewrite map_app. apply Forall_app. split; [exact T|]. constructor; [|constructor].
    cbn. unfold texts_writable, cell_writable. cbn. repeat apply conj; intros s E; try discriminate E; injection E as <-; exact Wa.
  - unfold rows_of. rewrite map_app. apply Exists_app. right. apply Exists_cons_hd. cbn. intros [K _]. now apply K.
Qed.

Lemma C78_carriage_return_refuted_l : forall X L W cfg rb cat f1 l r f2 a b rb',
  csv_ok L -> quotes_cr L = false -> mk_catalogue X W cfg rb = Ok cat ->
  Forall (texts_writable L) (rows_of f1) ->
  cell_writable L (r_alias r) -> cell_writable L (r_name r) -> cell_writable L (r_full r) -> cell_writable L (r_author r) ->
  r_comment r = KStr (a ++ String cr b)%string -> writable L a ->
  (forall c, In c (chars (a ++ b)) -> c <> ","%char /\ c <> """"%char /\ c <> nl) -> rb' <> RStr "All" ->
  mk_catalogue X (save_to_file L W (set_database cat (f1 ++ (l, r) :: f2))) cfg rb' = Raise ValueError.
Proof.
  intros X L W cfg rb cat f1 l r f2 a b rb' O Q H T W1 W2 W3 W4 E Wa C N. apply (reopen_error X W cfg rb cat _ _ _ H); [reflexivity|exact N|].
  rewrite saved_csv. now apply (read_csv_cut L f1 l r f2 a b).
Qed.

Lemma C78_empty_file_l : forall X L W cfg rb cat W' rb',
  mk_catalogue X W cfg rb = Ok cat -> w_checks W' = w_checks W ->
  w_csv W' (path_join (c_base cat) (c_file cat)) = read_csv L "" -> rb' <> RStr "All" ->
  mk_catalogue X W' cfg rb' = Raise ValueError.
Proof. intros X L W cfg rb cat W' rb' H C E N. apply (reopen_error X W cfg rb cat _ _ _ H); [exact C|exact N|]. exact E. Qed.

(** numbers for the example: infinite ones and 400 *)
Definition demo_csv (q : bool) : csvlib :=
  mkCsv (fun x => match x with PInf => "inf" | NInf => "-inf" | _ => "400.0" end) (fun _ _ => "[1, 2]")
    (fun s => if String.eqb s "" then None else if String.eqb s "inf" then Some PInf else if String.eqb s "-inf" then Some NInf else Some (Fin 400)) q.
Lemma demo_csv_ok q : csv_ok (demo_csv q).
Proof.
  split; [|reflexivity|].
  - intros x N. destruct x; try congruence; (split; [discriminate|]); (split; [|eexists; reflexivity]);
      (split; [|right]); cbn; intros H; repeat (destruct H as [H|H]; [discriminate H|]); exact H.
  - intros r c. split; [|right]; cbn; intros H; repeat (destruct H as [H|H]; [discriminate H|]); exact H.
Qed.
Definition noted_row (alias comment : string) : row :=
  mkRow (KStr alias) (KStr "metal") KNaN KObj (KStr comment) (KStr "") (KStr "wavelength") (KStr "nanometer")
    (Fin 400) PInf NaN (Fin 400) (KStr "metal.csv") (KStr "UserData").
Ltac no_char := intros H; cbn in H; repeat (destruct H as [H|H]; [discriminate H|]); exact H.
Lemma sample_opened : exists cat, mk_catalogue toy_scipy sample_world (sample_config sample_modules) (RStr "None") = Ok cat /\
  c_base cat = "/home/cat" /\ c_file cat = "catalogue.csv" /\ c_db cat = sample_frame.
Proof. eexists. repeat split; reflexivity. Qed.

Lemma C79_alias_l : forall X L W cfg rb cat f base a r path t u,
  csv_ok L -> mk_catalogue X W cfg rb = Ok cat -> c_base cat = abs_path base -> Forall plain_name base ->
  Forall (texts_writable L) (rows_of f) -> Forall bounded (rows_of f) -> Forall (fun r => r_alias r <> KObj) (rows_of f) ->
  a <> "" -> first_with f a r -> located base r path t u ->
  let W' := save_to_file L W (set_database cat f) in
  exists cat', mk_catalogue X W' cfg (RStr "None") = Ok cat' /\
    get_material W' cat' (IdStr a) = loaded (w_read W) path t u.
Proof.
  intros X L W cfg rb cat f base a r path t u O H Eb Pb T B Na Ne F Lo W'.
  destruct (C78_reopened_l X L W cfg rb cat f O H T B) as (cat' & H' & R & D & Eb' & _).
  exists cat'. split; [exact H'|]. apply first_rows in F. destruct F as (l1 & l2 & E & A & N).
  destruct (back_first L a r _ _ Ne Na R l1 l2 E A N) as (l1' & r' & l2' & E' & K & N').
  change (w_read W) with (w_read W'). apply (C53_alias_l W' cat' a r' base).
  - exact D.
  - congruence.
  - exact Pb.
  - apply first_rows. exists l1', l2'. split; [exact E'|]. split; [|exact N']. eapply text_back_same; [apply K|exact A].
  - eapply located_back; eassumption.
Qed.

Lemma C79_number_l : forall X L W cfg rb cat f base p r path t u,
  csv_ok L -> mk_catalogue X W cfg rb = Ok cat -> c_base cat = abs_path base -> Forall plain_name base ->
  Forall (texts_writable L) (rows_of f) -> Forall bounded (rows_of f) ->
  row_at f p r -> located base r path t u ->
  let W' := save_to_file L W (set_database cat f) in
  get_material W (set_database cat f) (IdInt (Z.of_nat p)) = loaded (w_read W) path t u /\
  exists cat', mk_catalogue X W' cfg (RStr "None") = Ok cat' /\
    get_material W' cat' (IdInt (Z.of_nat p)) = loaded (w_read W) path t u.
Proof.
  intros X L W cfg rb cat f base p r path t u O H Eb Pb T B F Lo W'. split.
  { apply (proj1 (C53_number_l W (set_database cat f) p r base path t u Eb Pb F Lo)). }
  destruct (C78_reopened_l X L W cfg rb cat f O H T B) as (cat' & H' & R & D & Eb' & _).
  exists cat'. split; [exact H'|]. apply row_at_rows in F. destruct (Forall2_nth _ _ _ R p r F) as (r' & F' & K).
  change (w_read W) with (w_read W').
  refine (proj1 (C53_number_l W' cat' p r' base path t u _ Pb _ _)); [congruence|now apply row_at_rows|eapply located_back; eassumption].
Qed.

Lemma C79_registered_l : forall X L W cfg rb cat base a p r path t u f',
  csv_ok L -> mk_catalogue X W cfg rb = Ok cat -> c_base cat = abs_path base -> Forall plain_name base ->
  Forall (texts_writable L) (rows_of (c_db cat)) -> Forall bounded (rows_of (c_db cat)) ->
  Forall (fun r => r_alias r <> KObj) (rows_of (c_db cat)) -> default_numbering (c_db cat) ->
  row_at (c_db cat) p r -> located base r path t u -> a <> "" -> writable L a ->
  register_alias (c_db cat) (RInt (Z.of_nat p)) a = (Ok tt, f') -> ~ alias_used (c_db cat) a ->
  let W' := save_to_file L W (set_database cat f') in
  exists cat', mk_catalogue X W' cfg (RStr "None") = Ok cat' /\
    get_material W' cat' (IdStr a) = loaded (w_read W) path t u /\
    (forall q s b, row_at (c_db cat) q s -> q <> p -> r_alias s = KStr b ->
       exists s', row_at (c_db cat') q s' /\ r_alias s' = KStr b).
Proof.
  intros X L W cfg rb cat base a p r path t u f' O H Eb Pb T B Na D F Lo Ne Wa R U W'.
  assert (La : labels_distinct (c_db cat)) by now apply default_labels_distinct.
  assert (Lp : nth_error (c_db cat) p = Some (Z.of_nat p, r)).
  { destruct F as [l F]. assert (p < length (c_db cat))%nat as Hp by (apply nth_error_Some; congruence).
    destruct (D p Hp) as (r0 & E0). congruence. }
  assert (Ip : In (Z.of_nat p) (map fst (c_db cat))).
  { apply in_map_iff. exists (Z.of_nat p, r). split; [reflexivity|]. eapply nth_error_In; exact Lp. }
  pose proof (C52_success_l _ _ _ _ La Ip R) as S.
  assert (T' : Forall (texts_writable L) (rows_of f') /\ Forall bounded (rows_of f') /\ Forall (fun r => r_alias r <> KObj) (rows_of f')).
  { clear - S T B Na Wa. unfold rows_of in *. induction S as [|x y l l' (E & S1 & S2) S IH]; [repeat constructor|].
    cbn [map] in *. inversion_clear T as [|? ? Tx T']. inversion_clear B as [|? ? Bx B']. inversion_clear Na as [|? ? Nx N'].
    destruct (IH T' B' N') as (I1 & I2 & I3). destruct (Z.eq_dec (fst x) (Z.of_nat p)) as [K|K].
    - specialize (S1 K). apply only_alias_eq in S1. rewrite S1. repeat split; constructor; auto; cbn.
      + unfold texts_writable in *. cbn. destruct Tx as (_ & Tx). split; [|exact Tx]. intros s Es. now injection Es as <-.
      + discriminate.
    - rewrite (S2 K). repeat split; constructor; auto. }
  destruct T' as (T' & B' & Na').
  destruct (C78_reopened_l X L W cfg rb cat f' O H T' B') as (cat' & H' & K & D' & _).
  assert (Pos : forall q x, nth_error (c_db cat) q = Some x -> exists y, nth_error f' q = Some y /\ fst y = fst x /\
             (fst x = Z.of_nat p -> only_alias a (snd x) (snd y)) /\ (fst x <> Z.of_nat p -> snd y = snd x)).
  { intros q x Hx. destruct (Forall2_nth _ _ _ S q x Hx) as (y & Hy & E & S1 & S2). eauto 6. }
  assert (Fw : exists r1, first_with f' a r1 /\ located base r1 path t u).
  { destruct (Pos p _ Lp) as ([l1 r1] & Hy & El & S1 & _). cbn in El, S1. subst l1. specialize (S1 eq_refl).
    exists r1. split.
    - apply nth_error_split in Hy. destruct Hy as (g1 & g2 & Eg & Lg). exists g1, (Z.of_nat p), g2. split; [exact Eg|].
      split; [apply S1|]. intros l' r' I Er. apply U.
      apply In_nth_error in I. destruct I as (q & Hq). assert (q < length g1)%nat as Hl by (apply nth_error_Some; congruence).
      assert (Hq' : nth_error f' q = Some (l', r')) by (rewrite Eg, nth_error_app1; assumption).
      assert (q < length (c_db cat))%nat as Hq2.
      { assert (length f' = length (c_db cat)) by (clear - S; induction S; cbn; auto).
        assert (q < length f')%nat by (apply nth_error_Some; congruence). lia. }
      destruct (nth_error (c_db cat) q) as [[l0 r0]|] eqn:E0; [|apply nth_error_None in E0; lia].
      destruct (Pos q _ E0) as (y & Hy & El & _ & S2). rewrite Hq' in Hy. injection Hy as <-. cbn in El, S2. subst l'.
      destruct (D q Hq2) as (r0' & E0'). rewrite E0 in E0'. injection E0' as -> ->. rewrite S2 in Er by lia.
      exists (Z.of_nat q), r0'. split; [eapply nth_error_In; exact E0|exact Er].
    - apply only_alias_eq in S1. subst r1. exact Lo. }
  destruct Fw as (r1 & Fw & Lo1).
  destruct (C79_alias_l X L W cfg rb cat f' base a r1 path t u O H Eb Pb T' B' Na' Ne Fw Lo1) as (c2 & H2 & G2).
  exists cat'. split; [exact H'|]. fold W' in G2, H2. split; [unfold W' in *; congruence|].
  intros q s b [l0 Hq] Nq As. destruct (Pos q _ Hq) as ([l1 s1] & Hy & El & _ & S2). cbn in El, S2. subst l1.
  assert (l0 = Z.of_nat q) as ->.
  { assert (q < length (c_db cat))%nat as Hl by (apply nth_error_Some; congruence). destruct (D q Hl) as (r0 & E0). congruence. }
  rewrite S2 in Hy by lia. assert (Rq : nth_error (rows_of f') q = Some s) by (unfold rows_of; rewrite nth_error_map, Hy; reflexivity).
  destruct (Forall2_nth _ _ _ K q s Rq) as (s' & Hs & Ks). exists s'. split; [now apply row_at_rows|].
  eapply text_back_same; [apply Ks|exact As].
Qed.

Lemma C79_unknown_l : forall X L W cfg rb cat f a,
  csv_ok L -> mk_catalogue X W cfg rb = Ok cat ->
  Forall (texts_writable L) (rows_of f) -> Forall bounded (rows_of f) -> Forall (fun r => r_alias r <> KObj) (rows_of f) ->
  a <> "" -> ~ alias_used f a ->
  let W' := save_to_file L W (set_database cat f) in
  exists cat', mk_catalogue X W' cfg (RStr "None") = Ok cat' /\ get_material W' cat' (IdStr a) = Raise ValueError.
Proof.
  intros X L W cfg rb cat f a O H T B Na Ne U W'.
  destruct (C78_reopened_l X L W cfg rb cat f O H T B) as (cat' & H' & R & D & _).
  exists cat'. split; [exact H'|]. apply C53_unknown_l. intros (l & r' & I & A). apply U.
  assert (I' : In r' (rows_of (c_db cat'))) by (apply (in_map snd _ _ I)).
  assert (exists r, In r (rows_of f) /\ r_alias r = KStr a) as (r & Ir & Ar).
  { clear - R I' A Na Ne. induction R as [|x y l l' K R IH]; [destruct I'|]. inversion_clear Na as [|? ? Nx N'].
    destruct I' as [->|I'].
    - exists x. split; [now left|]. eapply text_back_inv; [apply K|exact Nx|exact Ne|exact A].
    - destruct (IH N' I') as (r & Ir & Ar). exists r. split; [now right|exact Ar]. }
  apply in_map_iff in Ir. destruct Ir as ([l0 r0] & <- & Ir). exists l0, r0. split; assumption.
Qed.

Lemma field_quoted L s : csv_quoted s (csv_field L s).
Proof.
  unfold csv_field. destruct (needs_quotes L s) eqn:E.
  - right. exists (doubled s). split; [reflexivity|]. clear. induction s as [|c s IH]; [constructor|]. cbn [doubled].
    destruct (Ascii.eqb c quote_char) eqn:E; [apply Ascii.eqb_eq in E; subst c; now constructor|]. apply Ascii.eqb_neq in E. now constructor.
  - left. split; [reflexivity|]. unfold needs_quotes in E. apply negb_false_iff in E. intros c Hc. assert (negb (special L c) = true) as S.
    { clear -Hc E. induction s as [|d s IH]; [destruct Hc|]. cbn in E. apply andb_true_iff in E. destruct E as [E1 E2]. destruct Hc as [<-|Hc]; [exact E1|exact (IH E2 Hc)]. }
    apply negb_true_iff in S. unfold special in S. apply orb_false_iff in S. destruct S as [S _]. apply orb_false_iff in S. destruct S as [S S3].
    apply orb_false_iff in S. destruct S as [S1 S2]. apply Ascii.eqb_neq in S1, S2, S3. now repeat split.
Qed.
Lemma line_record L l : csv_record l (csv_line L l).
Proof. exists (map (csv_field L) l). split; [|reflexivity]. induction l; constructor; [apply field_quoted|assumption]. Qed.
Lemma lines_records L ls : csv_records ls (lines_text L ls).
Proof. exists (map (csv_line L) ls). split; [induction ls; constructor; [apply line_record|assumption]|]. induction ls as [|x ls IH]; [reflexivity|]. cbn. now rewrite IH. Qed.
Lemma cell_text_shown L r col c : cell_shown L r col c (cell_text L r col c).
Proof. destruct c; reflexivity. Qed.
Lemma num_text_shown L x : number_shown L x (num_text L x).
Proof. destruct x; [right|right|right|left]; split; (reflexivity || discriminate). Qed.

Lemma C78_file_l : forall L f,
  exists rows text, to_csv L f = ("Alias,Name,FullName,Author,Comment,Reference,SpectrumType,Unit,SpectrumLowerBound,SpectrumUpperBound,N_Reference,K_Reference,Path,Module" ++ NL ++ text)%string /\
    csv_records rows text /\ Forall2 (row_shown L) (rows_of f) rows.
Proof.
  intros L f. exists (map (row_texts L) (rows_of f)), (lines_text L (map (row_texts L) (rows_of f))).
  split; [|split; [apply lines_records|]].
  - unfold to_csv. cbn [lines_text]. rewrite sapp_assoc. f_equal. unfold csv_line, csv_field, needs_quotes, special. destruct (quotes_cr L); reflexivity.
  - generalize (rows_of f). intros rs. induction rs as [|r rs IH]; cbn [map]; constructor; [|exact IH]. unfold row_shown, row_texts.
    do 14 eexists. split; [reflexivity|]. repeat apply conj; (apply cell_text_shown || apply num_text_shown).
Qed.

Lemma C80_kept_l : forall X L W cfg rb cat f rb' base file mods ref t u cat' m,
  csv_ok L -> configured cfg base file mods ref t u -> mk_catalogue X W cfg rb = Ok cat ->
  Forall (texts_writable L) (rows_of f) -> Forall bounded (rows_of f) -> Forall (fun r => r_module r <> KObj) (rows_of f) ->
  mk_catalogue X (save_to_file L W (set_database cat f)) cfg rb' = Ok cat' ->
  In (m, true) mods -> ~ selects rb' m -> m <> "" ->
  Forall2 (row_back L) (module_rows m (rows_of f)) (module_rows m (rows_of (c_db cat'))).
Proof.
  intros X L W cfg rb cat f rb' base file mods ref t u cat' m O C H T B Nm H' I S Ne.
  destruct (read_csv_back L f O T B) as (rows & E & F).
  assert (Ecat : c_base cat = base /\ c_file cat = file).
  { pose proof (cf_path _ _ _ _ _ _ _ C) as C1. pose proof (cf_file _ _ _ _ _ _ _ C) as C2.
    unfold mk_catalogue, dlookup in H. rewrite C1, C2 in H. inv_bind H z1 E1. inv_bind H z2 E2. cbn [bind check_str] in H.
    inv_bind H z3 E3. inv_bind H z4 E4. inv_bind H z5 E5. inv_bind H z6 E6. inv_bind H z7 E7. inv_bind H z8 E8.
    destruct (z8 && negb (w_qgrid W)); [discriminate|]. injection H as <-. split; reflexivity. }
  destruct Ecat as [<- <-].
  rewrite (C54_kept_l X _ cfg rb' _ _ mods ref t u cat' rows m C H' (eq_trans (saved_csv L W cat f) E) I S).
  now apply module_rows_back.
Qed.
