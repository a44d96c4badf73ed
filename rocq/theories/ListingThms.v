(** Theorems about the rows of the catalogue (C55-C58, C70). *)
From Verif Require Import PyBase PyStr XReal CNum SpectrumModel SpectrumSpec SpectrumProofs SpectralModel SpectralSpec TextModel MaterialModel MaterialSpec MaterialProofs MatFileProofs FileModel IOSpec PathModel ConfigModel CatalogueModel CatalogueSpec CatalogueProofs NormProofs RebuildProofs WalkProofs SaveProofs ListProofs CatalogueSample SpectrumThms SpectralThms MaterialThms CatalogueThms.
Open Scope R_scope.
Open Scope string_scope.
Open Scope list_scope.


Lemma C55_listing_l : forall X W ref x dir folder doc lib,
  sp_values ref = VS x -> data_folder W dir folder -> library_file W dir doc -> library_doc doc lib ->
  listing X ref (w_read W) dir folder (entries lib) (read_module X W ref dir "RefractiveIndexInfo").
Proof.
  intros X W ref x dir folder doc lib V DF LF LD. unfold read_module. rewrite String.eqb_refl. unfold read_ri_info_db.
  assert (E : (match w_yaml W (path_join (path_join dir "database") "catalog-nk.yml") with
               | Raise FileNotFoundError => w_yaml W (path_join (path_join dir "database") "library.yml") | r => r end) = Ok doc).
  { destruct LF as [E|(E & E')]; rewrite E; [reflexivity|exact E']. }
  rewrite E. cbn [bind]. inversion LD as [l lib' F]; subst. unfold iterate_shelves. cbn [items bind].
  eapply shelves_listing; eassumption.
Qed.

Lemma C55_no_folder_l : forall X W ref dir doc lib,
  isdir (w_checks W) (path_join (path_join dir "database") "data") = false ->
  isdir (w_checks W) (path_join (path_join dir "database") "data-nk") = false ->
  library_file W dir doc -> library_doc doc lib ->
  read_module X W ref dir "RefractiveIndexInfo" = match entries lib with [] => Ok [] | _ => Raise ValueError end.
Proof.
  intros X W ref dir doc lib N1 N2 LF LD. unfold read_module. rewrite String.eqb_refl. unfold read_ri_info_db.
  assert (E : (match w_yaml W (path_join (path_join dir "database") "catalog-nk.yml") with
               | Raise FileNotFoundError => w_yaml W (path_join (path_join dir "database") "library.yml") | r => r end) = Ok doc).
  { destruct LF as [E|(E & E')]; rewrite E; [reflexivity|exact E']. }
  rewrite E. cbn [bind]. inversion LD as [l lib' F]; subst. unfold iterate_shelves. cbn [items bind].
  assert (Pf : file_prefix W dir = Raise ValueError) by (unfold file_prefix; now rewrite N1, N2).
  pose proof (shelves_no_folder X W ref dir l lib ValueError Pf F) as H. unfold none_or_fail in H.
  destruct (entries lib); tauto || (apply H; discriminate).
Qed.

Lemma C55_no_library_l : forall X W ref dir e,
  let file n := path_join (path_join dir "database") n in
  (w_yaml W (file "catalog-nk.yml") = Raise e /\ e <> FileNotFoundError) \/
  (w_yaml W (file "catalog-nk.yml") = Raise FileNotFoundError /\ w_yaml W (file "library.yml") = Raise e) ->
  read_module X W ref dir "RefractiveIndexInfo" = Raise e.
Proof.
  intros X W ref dir e file H. unfold read_module. rewrite String.eqb_refl. unfold read_ri_info_db. fold (file "catalog-nk.yml") (file "library.yml").
  destruct H as [(E & N)|(E & E')]; rewrite E; [|rewrite E'; reflexivity]. destruct e; try reflexivity. now destruct N.
Qed.

Lemma plain_dec f : plain_name f -> supported f \/ ~ supported f.
Proof.
  intros (_ & _ & _ & N). destruct (allowed_ext (splitext f)) eqn:E; [left; now apply supported_iff|right].
  intros K. apply (supported_iff f N) in K. congruence.
Qed.
Lemma picked_plain (P : string -> Prop) l : (forall x, In x l -> P x \/ ~ P x) -> exists l', picked P l l'.
Proof.
  induction l as [|x l IH]; intros D; [exists []; constructor|]. destruct IH as (l' & H); [intros y Hy; apply D; now right|].
  destruct (D x (or_introl eq_refl)); [exists (x :: l')|exists l']; now constructor.
Qed.
Lemma text_module X W ref dir module : In module ["UserData"; "Filmetrics"] ->
  read_module X W ref dir module = read_text_db X W ref dir module.
Proof. intros [<-|[<-|[]]]; reflexivity. Qed.

Lemma C56_listing_l : forall X W ref x dir module names, In module ["UserData"; "Filmetrics"] ->
  sp_values ref = VS x -> w_listdir W dir = Ok names -> Forall plain_name names ->
  exists sel, picked (fun f => w_isfile W (path_join dir f) = true /\ supported f) names sel /\
    folder_rows X ref (w_read W) dir module sel (read_module X W ref dir module).
Proof.
  intros X W ref x dir module names M V L P. rewrite (text_module X W ref dir module M).
  destruct (picked_plain (fun f => w_isfile W (path_join dir f) = true /\ supported f) names) as (sel & S).
  { intros f Hf. rewrite Forall_forall in P. destruct (plain_dec f (P f Hf)); destruct (w_isfile W (path_join dir f)); intuition discriminate. }
  exists sel. split; [exact S|]. unfold read_text_db. rewrite L. cbn [bind].
  eapply folder_listing; [exact V| |].
  - apply Forall_forall. intros f Hf. apply filter_In in Hf as [Hf _]. rewrite Forall_forall in P. auto.
  - now apply picked_filter.
Qed.

Lemma C56_no_folder_l : forall X W ref dir module e, In module ["UserData"; "Filmetrics"] ->
  w_listdir W dir = Raise e -> read_module X W ref dir module = Raise e.
Proof.
  intros X W ref dir module e M L. rewrite (text_module X W ref dir module M). unfold read_text_db. now rewrite L.
Qed.

Lemma last_of a b c d : (a ++ String c "")%string = (b ++ String d "")%string -> c = d.
Proof.
  revert b. induction a as [|x a IH]; intros [|y b] H; cbn [append] in H.
  - now injection H.
  - injection H as -> H. destruct b; discriminate.
  - injection H as -> H. destruct a; discriminate.
  - injection H as _ H. eauto.
Qed.
Lemma app_assoc_s a b c : ((a ++ b) ++ c = a ++ (b ++ c))%string.
Proof. induction a as [|x a IH]; [reflexivity|]. cbn [append]. now rewrite IH. Qed.

Lemma C56_ignored_l : forall b, ~ supported (b ++ ".nk") /\ ~ supported (b ++ ".TXT") /\ ~ supported (b ++ ".dat").
Proof.
  assert (G : forall b p c, ~ In c ["t"; "v"; "l"]%char -> ~ supported (b ++ (p ++ String c ""))%string).
  { intros b p c N (base & ext & E & I & _). rewrite <- app_assoc_s in E. cbn in I.
    destruct I as [<-|[<-|[<-|[]]]].
    - change ".txt" with (".tx" ++ String "t" "")%string in E. rewrite <- app_assoc_s in E. apply last_of in E. apply N. left. congruence.
    - change ".csv" with (".cs" ++ String "v" "")%string in E. rewrite <- app_assoc_s in E. apply last_of in E. apply N. right. left. congruence.
    - change ".yml" with (".ym" ++ String "l" "")%string in E. rewrite <- app_assoc_s in E. apply last_of in E. apply N. right. right. left. congruence. }
  intros b. split; [apply (G b ".n" "k"%char)|split; [apply (G b ".TX" "T"%char)|]]; try (cbn; intuition discriminate).
  intros (base & ext & E & I & _). change (b ++ ".dat")%string with (b ++ (".d" ++ "at"))%string in E. rewrite <- app_assoc_s in E.
  change "at" with ("a" ++ String "t" "")%string in E. rewrite <- app_assoc_s in E.
  cbn in I. destruct I as [<-|[<-|[<-|[]]]].
  - change ".txt" with (".t" ++ ("x" ++ String "t" ""))%string in E.
    rewrite <- (app_assoc_s base), <- (app_assoc_s (base ++ ".t")%string) in E.
    assert (D : forall x y c, (x ++ String c "")%string = (y ++ String c "")%string -> x = y).
    { intros x. induction x as [|q x IH]; intros [|r y] c K; cbn [append] in K; try reflexivity; injection K as -> K.
      - destruct y; discriminate.
      - destruct x; discriminate.
      - f_equal. eauto. }
    apply D in E. change "a" with (String "a" "") in E. change "x" with (String "x" "") in E. apply last_of in E. discriminate.
  - change ".csv" with (".cs" ++ String "v" "")%string in E. rewrite <- app_assoc_s in E. apply last_of in E. discriminate.
  - change ".yml" with (".ym" ++ String "l" "")%string in E. rewrite <- app_assoc_s in E. apply last_of in E. discriminate.
Qed.

Lemma C57_columns_l : forall X W ref dir module rows, read_module X W ref dir module = Ok rows ->
  Forall (fun r => exists path u m, loaded (w_read W) path "wavelength" u = Ok m /\ r_unit r = KStr u /\
                     reference_cells X ref m (r_n r) (r_k r)) rows.
Proof.
  intros X W ref dir module rows H. apply module_describes in H. eapply Forall_impl; [|exact H].
  intros r (St & Un & path & m & L & _ & R). eexists _, _, _. split; [exact L|]. auto.
Qed.

Lemma C57_covered_l : forall X ref m rows t u canon w n k, m_name m = "nk" -> m_complex m = None ->
  (2 <= length rows)%nat -> documented (lower t) u canon -> lower t <> "wavenumber" ->
  tabulated (column 1 rows) t u (m_real m) -> tabulated (column 2 rows) t u (m_imag m) ->
  asked (m_real m) ref (lower t) canon w -> asked (m_imag m) ref (lower t) canon w ->
  reference_cells X ref m n k ->
  exists a b a' b',
    adjacent (map (fun r => (nth 0 r 0, nth 1 r 0)) rows) a b /\ fst a <= w <= fst b /\ n = Fin (line a b w) /\
    adjacent (map (fun r => (nth 0 r 0, nth 2 r 0)) rows) a' b' /\ fst a' <= w <= fst b' /\ k = Fin (line a' b' w).
Proof.
  intros X ref m rows t u canon w n k N C L D Nw T1 T2 A1 A2 R.
  apply tabulated_interp in T1; [|exact L]. apply tabulated_interp in T2; [|exact L].
  destruct (C13_interpolates_l X _ _ _ _ _ _ _ T1 D Nw A1) as (a & b & Ad & Bt & E & _).
  destruct (C13_interpolates_l X _ _ _ _ _ _ _ T2 D Nw A2) as (a' & b' & Ad' & Bt' & E' & _).
  destruct (asked_value _ _ _ _ _ A1) as (t0 & u0 & c0 & x & lam & w0 & S & _).
  pose proof (nk_value X m ref _ _ _ _ _ S N C E E') as G.
  exists a, b, a', b'. destruct R as [(o & Ho & -> & ->)|(Ho & _)]; rewrite G in Ho; [|discriminate].
  injection Ho as <-. cbn [onum_cx cx_re cx_im fst snd]. auto 10.
Qed.

Lemma C57_not_covered_l : forall X ref v0 t0 u0 m rows t u canon w, mk_spectrum v0 t0 u0 = Ok ref ->
  m_name m = "nk" \/ m_name m = "eps" -> m_complex m = None ->
  (2 <= length rows)%nat -> documented (lower t) (lower u) canon ->
  tabulated (column 1 rows) t u (m_real m) ->
  convert_to ref (lower t) canon = Ok (VS (Fin w)) ->
  Forall (fun r => w < nth 0 r 0) rows \/ Forall (fun r => nth 0 r 0 < w) rows ->
  (canon <> "cm" -> get_nk_data X m (SObj ref) = Raise ValueError /\
     forall n k, reference_cells X ref m n k -> n = NaN /\ k = NaN) /\
  (canon = "cm" -> get_nk_data X m (SObj ref) = Raise KeyError).
Proof.
  intros X ref v0 t0 u0 m rows t u canon w S N C L D T1 Cv Out.
  apply tabulated_interp in T1; [|exact L].
  assert (ND : NoDup (map fst (pairs 1 rows))).
  { destruct (ListDec.NoDup_dec Req_EM_T (map fst (pairs 1 rows))); [assumption|].
    exfalso. pose proof (C13_rejects_l (pairs 1 rows) t u (or_intror n)) as K. congruence. }
  destruct (C13_accepts_l (pairs 1 rows) t u canon) as (d' & mn & mx & H' & V & Im & IM & B);
    [unfold pairs; now rewrite map_length|exact ND|exact D|].
  rewrite T1 in H'. injection H' as <-.
  pose proof (interp_range _ _ _ _ _ _ T1 V) as M. destruct (mk_spectrum_ok _ _ _ _ M) as (c & w' & Dc & _ & _ & Et & Eu & _).
  pose proof (documented_fun _ _ _ _ D Dc) as <-.
  assert (O : Forall (fun r => w < fst r) (pairs 1 rows) \/ Forall (fun r => fst r < w) (pairs 1 rows)).
  { unfold pairs. destruct Out as [O|O]; [left|right]; apply Forall_forall; intros p Hp; apply in_map_iff in Hp as (r & <- & Hr);
      rewrite Forall_forall in O; exact (O r Hr). }
  assert (Ct : contains (valid_range (m_real m)) ref = Raise (if String.eqb canon "cm" then KeyError else ValueError)).
  { rewrite <- Eu. eapply (C07_out_of_range_exception_l _ _ _ _ ref (VS (Fin w)) M).
    - rewrite Et, Eu. exact Cv.
    - discriminate.
    - rewrite V. discriminate.
    - repeat constructor. discriminate.
    - rewrite V. repeat constructor; discriminate.
    - rewrite V. cbn [elems]. intros F. inversion F as [|? ? ((a & Ia & La) & (b & Ib & Lb)) _]; subst.
      assert (Q : forall y, In y [Fin mn; Fin mx] -> exists q, y = Fin q /\ In q (map fst (pairs 1 rows))).
      { intros y [<-|[<-|[]]]; eauto. }
      destruct (Q a Ia) as (qa & -> & Ha). destruct (Q b Ib) as (qb & -> & Hb).
      apply InterpProofs.xle_fin in La, Lb. apply in_map_iff in Ha as (ra & <- & Ha), Hb as (rb & <- & Hb).
      destruct O as [O|O]; rewrite Forall_forall in O; [specialize (O ra Ha)|specialize (O rb Hb)]; cbn beta in O; lra. }
  assert (Ev : evaluate X (m_real m) ref = (Raise (if String.eqb canon "cm" then KeyError else ValueError), ref)).
  { apply C20_range_checked_l; [|exact Ct]. right. left. eauto. }
  pose proof (nk_raises X m ref _ _ _ _ S N C Ev) as G. split.
  - intros Nc. apply String.eqb_neq in Nc. rewrite Nc in G. split; [exact G|].
    intros n k [(o & Ho & _)|(_ & -> & ->)]; [congruence|auto].
  - intros ->. exact G.
Qed.

Lemma C57_centimetre_refuted_l : forall X, exists W ref dir path m rows, mk_spectrum (InVals (VS (Fin 550))) "wavelength" "nm" = Ok ref /\
  w_listdir W dir = Ok ["wire.txt"] /\ w_isfile W path = true /\ path = path_join dir "wire.txt" /\
  loaded (w_read W) path "wavelength" "nanometer" = Ok m /\ m_unit m = "cm" /\ tabulated (column 1 rows) "wavelength" "cm" (m_real m) /\
  read_module X W ref dir "UserData" = Raise KeyError.
Proof.
  intros X. pose (rows := [[1; 2; 0]; [2; 3; 0]]). assert (TO : table_ok 3 rows).
  { split; [discriminate|]. split; [repeat constructor|]. cbn. constructor; [cbn; intros [H|[]]; lra|]. constructor; [auto|constructor]. }
  pose (W := mkWorld (mkChecks (fun _ => true) (fun _ => Ok true)) (fun _ => true) (fun _ => Ok ["wire.txt"])
               (fun _ => Ok (table_file "nk" "wavelength" "cm" 3 rows)) (fun _ => Raise FileNotFoundError) (fun _ => Raise FileNotFoundError) false).
  assert (D : documented "wavelength" "cm" "cm") by (exists ["centimeter"; "centimetre"; "cm"]; split; cbn; auto 20).
  destruct (table_loaded (w_read W) "/data/wire.txt" "nk" "nk" 3 rows "wavelength" "cm" "wavelength" "nanometer" "wavelength" "cm" "cm")
    as (m & Lm & Nm & Cm & Sm & Um & T1 & T2); [cbn; tauto|reflexivity|exact TO|left; split; [reflexivity|discriminate]|left; split; [reflexivity|discriminate]|exact D|].
  change (tabulated (column 1 rows) "wavelength" "cm" (m_real m)) in T1. change (tabulated (column 2 rows) "wavelength" "cm" (m_imag m)) in T2.
  exists W, sample_ref, "/data", "/data/wire.txt", m, rows. split; [reflexivity|]. split; [reflexivity|]. split; [reflexivity|]. split; [reflexivity|].
  split; [exact Lm|]. split; [exact Um|]. split; [exact T1|].
  assert (Cv : convert_to sample_ref "wavelength" "cm" = Ok (VS (Fin (round_dec 5 (10 ^ 2 * (/ 10 ^ 9 * 550)))))).
  { cbn -[round_dec xmul]. cbn [xmul xround]. reflexivity. }
  assert (Rd : round_dec 5 (10 ^ 2 * (/ 10 ^ 9 * 550)) < 1).
  { pose proof (round_dec_error 5 (10 ^ 2 * (/ 10 ^ 9 * 550))) as K. unfold Rabs in K. destruct (Rcase_abs _) in K; lra. }
  destruct (C57_not_covered_l X sample_ref (InVals (VS (Fin 550))) "wavelength" "nm" m rows "wavelength" "cm" "cm" (round_dec 5 (10 ^ 2 * (/ 10 ^ 9 * 550))) eq_refl (or_introl Nm) Cm) as (_ & K); [cbn; lia|exact D|exact T1|exact Cv| |].
  { left. repeat (constructor; [cbn [nth]; lra|]). constructor. }
  specialize (K eq_refl).
  assert (Ex : exists v, get_maximum_valid_range m = Ok v).
  { destruct (table_bounds rows "wavelength" "cm" "cm" m) as (mn & mx & a & b & G & _); auto.
    - apply TO.
    - repeat (constructor; [cbn; lra|]). constructor.
    - eauto. }
  destruct Ex as (v & Gv). destruct (C56_listing_l X W sample_ref (Fin 550) "/data" "UserData" ["wire.txt"]) as (sel & Pk & F); [cbn; tauto|reflexivity|reflexivity| |].
  { constructor; [|constructor]. repeat split; try discriminate. cbn. intros Q; decompose [or] Q; try contradiction; discriminate. }
  inversion Pk as [|x l l' _ Pk'|x l l' NP Pk']; subst.
  - inversion Pk'; subst. change (path_join "/data" "wire.txt") with "/data/wire.txt" in *.
    inversion F as [|f rest m' w l Lm' Fr Fl Ef|f rest m' w err Lm' Fr Fl Ef|f rest err Lm' Ef|f rest m' err Lm' Re Ef]; subst;
      change (path_join "/data" "wire.txt") with "/data/wire.txt" in Lm'; rewrite Lm in Lm'; try discriminate Lm'; injection Lm' as <-.
    + exfalso. destruct Fr as (_ & _ & _ & _ & _ & _ & _ & _ & _ & [(o & Ho & _)|(Ho & _)] & _); congruence.
    + inversion Fl.
    + destruct Re as [Re|(_ & Re & _)]; [congruence|]. rewrite K in Re. congruence.
  - exfalso. apply NP. split; [reflexivity|]. exists "wire". exists ".txt". split; [reflexivity|]. split; [cbn; tauto|].
    exists "", "w"%char, "ire". split; [reflexivity|discriminate].
Qed.

Lemma C58_bounds_l : forall X W ref dir module rows, read_module X W ref dir module = Ok rows ->
  Forall (fun r => exists path u m, loaded (w_read W) path "wavelength" u = Ok m /\ r_stype r = KStr "wavelength" /\
                     r_unit r = KStr u /\ bound_cells m (r_lo r) (r_hi r)) rows.
Proof.
  intros X W ref dir module rows H. apply module_describes in H. eapply Forall_impl; [|exact H].
  intros r (St & Un & path & m & L & B & _). eexists _, _, _. split; [exact L|]. auto.
Qed.

Lemma C58_table_l : forall rd path fm d id rows u0 t u canon, In id ["nk"; "eps"] ->
  rd path = Ok (mkFdict fm [d]) -> meta_complete fm -> type_words d "tabulated" id ->
  table_ok 3 rows -> (2 <= length rows)%nat -> Forall (fun r => 0 < nth 0 r 0) rows -> MaterialSpec.holds_table (ds_data d) 3 rows ->
  file_or_default (ds_stype d) "wavelength" t -> lower t = "wavelength" ->
  file_or_default (ds_unit d) u0 u -> lower u = u -> documented "wavelength" u canon ->
  exists m mn mx a b, loaded rd path "wavelength" u0 = Ok m /\ m_unit m = u /\
    In mn (map (fun r => nth 0 r 0) rows) /\ In mx (map (fun r => nth 0 r 0) rows) /\
    (forall y, In y (map (fun r => nth 0 r 0) rows) -> mn <= y <= mx) /\
    rounds_for canon mn a /\ rounds_for canon mx b /\
    forall lo hi, bound_cells m lo hi <-> lo = Fin a /\ hi = Fin b.
Proof.
  intros rd path fm d id rows u0 t u canon K Rd M Ty TO L P Ho St T Un Lu D.
  destruct (C26_file_table_l rd [("file_path", PStr path); ("spectrum_type", PStr "wavelength"); ("unit", PStr u0)] path "wavelength" u0 fm d id id 3 rows t u canon)
    as (m & Lm & Nm & Cm & Sm & Um & T1 & T2); try assumption.
  - cbn in *. destruct K as [<-|[<-|[]]]; tauto.
  - a_call.
  - now rewrite T, Lu.
  - assert (T1' : tabulated (column 1 rows) t u (m_real m)) by (destruct K as [<-|[<-|[]]]; exact T1).
    assert (T2' : tabulated (column 2 rows) t u (m_imag m)) by (destruct K as [<-|[<-|[]]]; exact T2).
    destruct (table_bounds rows t u canon m) as (mn & mx & a & b & G & Ra & Rb & Im & IM & B); try assumption.
    + apply TO.
    + now rewrite Lu.
    + rewrite Nm. destruct K as [<-|[<-|[]]]; tauto.
    + exists m, mn, mx, a, b. repeat (split; [assumption|]). intros lo hi. split.
      * intros (v & rest & Gv & Ev). rewrite G in Gv. injection Gv as <-. injection Ev as <- <- _. auto.
      * intros (-> & ->). exists (VA [Fin a; Fin b]), []. auto.
Qed.

Lemma C58_declared_refuted_l : forall X, exists W ref dir r m rows, mk_spectrum (InVals (VS (Fin 550))) "wavelength" "nm" = Ok ref /\
  read_module X W ref dir "UserData" = Ok [r] /\ r_unit r = KStr "nanometer" /\ r_lo r = Fin 1 /\ r_hi r = Fin 2 /\
  loaded (w_read W) (path_join dir "infrared.txt") "wavelength" "nanometer" = Ok m /\ m_unit m = "um" /\
  rows = [[1; 2; 0]; [2; 3; 0]] /\ tabulated (column 1 rows) "wavelength" "um" (m_real m).
Proof.
  intros X. pose (rows := [[1; 2; 0]; [2; 3; 0]]). assert (TO : table_ok 3 rows).
  { split; [discriminate|]. split; [repeat constructor|]. cbn. constructor; [cbn; intros [H|[]]; lra|]. constructor; [auto|constructor]. }
  pose (W := mkWorld (mkChecks (fun _ => true) (fun _ => Ok true)) (fun _ => true) (fun _ => Ok ["infrared.txt"])
               (fun _ => Ok (table_file "nk" "wavelength" "um" 3 rows)) (fun _ => Raise FileNotFoundError) (fun _ => Raise FileNotFoundError) false).
  assert (D : documented "wavelength" "um" "um") by (exists ["micrometer"; "micrometre"; "um"]; split; cbn; auto 20).
  destruct (table_loaded (w_read W) "/data/infrared.txt" "nk" "nk" 3 rows "wavelength" "um" "wavelength" "nanometer" "wavelength" "um" "um")
    as (m & Lm & Nm & Cm & Sm & Um & T1 & T2); [cbn; tauto|reflexivity|exact TO|left; split; [reflexivity|discriminate]|left; split; [reflexivity|discriminate]|exact D|].
  change (tabulated (column 1 rows) "wavelength" "um" (m_real m)) in T1. change (tabulated (column 2 rows) "wavelength" "um" (m_imag m)) in T2.
  assert (Cv : convert_to sample_ref "wavelength" "um" = Ok (VS (Fin (round_dec 9 (10 ^ 6 * (/ 10 ^ 9 * 550)))))).
  { cbn -[round_dec xmul]. cbn [xmul xround]. reflexivity. }
  assert (Rd : round_dec 9 (10 ^ 6 * (/ 10 ^ 9 * 550)) < 1).
  { pose proof (round_dec_error 9 (10 ^ 6 * (/ 10 ^ 9 * 550))) as K. unfold Rabs in K. destruct (Rcase_abs _) in K; lra. }
  destruct (C57_not_covered_l X sample_ref (InVals (VS (Fin 550))) "wavelength" "nm" m rows "wavelength" "um" "um" (round_dec 9 (10 ^ 6 * (/ 10 ^ 9 * 550))) eq_refl (or_introl Nm) Cm) as (K & _); [cbn; lia|exact D|exact T1|exact Cv| |].
  { left. repeat (constructor; [cbn [nth]; lra|]). constructor. }
  destruct (K ltac:(discriminate)) as (Ge & _).
  destruct (table_bounds rows "wavelength" "um" "um" m) as (mn & mx & a & b & G & Ra & Rb & Im & IM & B); auto.
  { apply TO. }
  { repeat (constructor; [cbn; lra|]). constructor. }
  cbn in Im, IM. assert (mn = 1) as ->.
  { pose proof (proj1 (B 1 (or_introl eq_refl))). destruct Im as [<-|[<-|[]]]; [reflexivity|lra]. }
  assert (mx = 2) as ->.
  { pose proof (proj2 (B 2 (or_intror (or_introl eq_refl)))). destruct IM as [<-|[<-|[]]]; [lra|reflexivity]. }
  assert (RI : forall q y, rounds_for "um" (IZR q) y -> y = IZR q).
  { intros q y Hy. exact (SpectralProofs.rounds_to_unique 9 _ _ _ Hy (ExtrapProofs.rounds_int 9 q)). }
  apply (RI 1%Z) in Ra. apply (RI 2%Z) in Rb. subst a b.
  destruct (C56_listing_l X W sample_ref (Fin 550) "/data" "UserData" ["infrared.txt"]) as (sel & Pk & F); [cbn; tauto|reflexivity|reflexivity| |].
  { constructor; [|constructor]. repeat split; try discriminate. cbn. intros Q; decompose [or] Q; try contradiction; discriminate. }
  inversion Pk as [|x l l' _ Pk'|x l l' NP Pk']; subst.
  - inversion Pk'; subst.
    inversion F as [|f rest m' w l Lm' Fr Fl Ef|f rest m' w err Lm' Fr Fl Ef|f rest err Lm' Ef|f rest m' err Lm' Re Ef]; subst;
      change (path_join "/data" "infrared.txt") with "/data/infrared.txt" in Lm'; rewrite Lm in Lm'; try discriminate Lm'; injection Lm' as <-.
    + inversion Fl; subst. exists W, sample_ref, "/data", w, m, rows.
      destruct Fr as (_ & _ & _ & _ & _ & _ & _ & U & (v & rest & Gv & Ev) & _). rewrite G in Gv. injection Gv as <-. injection Ev as Elo Ehi _.
      split; [reflexivity|]. split; [symmetry; assumption|]. split; [exact U|]. split; [now rewrite <- Elo|]. split; [now rewrite <- Ehi|].
      split; [exact Lm|]. split; [exact Um|]. split; [reflexivity|]. exact T1.
    + inversion Fl.
    + exfalso. destruct Re as [Re|(_ & Re & Nv)]; [congruence|]. rewrite Ge in Re. congruence.
  - exfalso. apply NP. split; [reflexivity|]. exists "infrared". exists ".txt". split; [reflexivity|]. split; [cbn; tauto|].
    exists "", "i"%char, "nfrared". split; [reflexivity|discriminate].
Qed.

Lemma built_base X W c rb base file mods ref t u cat : configured c base file mods ref t u ->
  mk_catalogue X W c rb = Ok cat -> c_base cat = base.
Proof.
  intros C H. rewrite (mk_catalogue_eq _ _ _ _ _ _ _ _ _ _ C) in H.
  destruct (validate_config _ _); cbn [bind] in H; [|discriminate]. inv_bind H s Es. inv_bind H df Ed. inv_bind H df' Ed'. inv_bind H i Ei.
  destruct (i && negb (w_qgrid W)); [discriminate|]. injection H as <-. reflexivity.
Qed.
Lemma in_module m l r : In r l -> r_module r = KStr m -> In r (module_rows m l).
Proof.
  intros I E. induction l as [|q l IH]; [destruct I|]. cbn [module_rows]. destruct I as [-> | I].
  - rewrite E. destruct (string_dec m m) as [_|N]; [now left|now destruct N].
  - specialize (IH I). destruct (r_module q); auto. destruct (string_dec s m); [now right|exact IH].
Qed.
Lemma folder_row_of X ref rd dir module l rows r : folder_rows X ref rd dir module l (Ok rows) -> In r rows ->
  exists f m, In f l /\ loaded rd (path_join dir f) "wavelength" "nanometer" = Ok m /\ file_row X ref module f m r.
Proof.
  intros F. remember (Ok rows) as res eqn:E. revert rows E. induction F as [|f rest m w l L Fr F IH| | |]; intros rows E I; try discriminate.
  - injection E as <-. destruct I.
  - injection E as <-. destruct I as [<-|I].
    + exists f, m. split; [now left|auto].
    + destruct (IH _ eq_refl I) as (f' & m' & I' & H). exists f', m'. split; [now right|exact H].
Qed.
Lemma listing_row_of X ref rd dir folder l rows r : listing X ref rd dir folder l (Ok rows) -> In r rows ->
  exists e m, In e l /\ loaded rd (page_file dir folder e) "wavelength" "micrometer" = Ok m /\ page_row X ref folder e m r.
Proof.
  intros F. remember (Ok rows) as res eqn:E. revert rows E.
  induction F as [|e rest r0 err L K F IH|e rest m w l L Fr F IH| | |]; intros rows E I; try discriminate.
  - injection E as <-. destruct I.
  - destruct (IH _ E I) as (e' & m' & I' & H). exists e', m'. split; [now right|exact H].
  - injection E as <-. destruct I as [<-|I].
    + exists e, m. split; [now left|auto].
    + destruct (IH _ eq_refl I) as (e' & m' & I' & H). exists e', m'. split; [now right|exact H].
Qed.
Lemma picked_in P l l' x : picked P l l' -> In x l' -> In x l.
Proof. induction 1; cbn; intuition. Qed.
Lemma no_slash_plain c : In c ["UserData"; "Filmetrics"; "RefractiveIndexInfo"; "database"; "data"; "data-nk"] -> plain_name c /\ ~ In "\"%char (chars c).
Proof.
  intros I. cbn in I. decompose [or] I; try contradiction; subst; repeat split; try discriminate; cbn;
    intros K; decompose [or] K; try contradiction; discriminate.
Qed.

Lemma C70_user_file_l : forall X W c rb base file mods ref t u cat m names p r,
  configured c (abs_path base) file mods ref t u -> Forall plain_name base ->
  mk_catalogue X W c rb = Ok cat -> rb <> RStr "None" ->
  In m ["UserData"; "Filmetrics"] -> In (m, true) mods -> selects rb m ->
  w_listdir W (abs_path (base ++ [m])) = Ok names -> Forall (fun f => plain_name f /\ ~ In "\"%char (chars f)) names ->
  row_at (c_db cat) p r -> r_module r = KStr m ->
  exists s f mat, mk_spectrum (InVals (VS ref)) t u = Ok s /\ In f names /\
    get_material W cat (IdInt (Z.of_nat p)) = Ok mat /\ file_row X s m f mat r.
Proof.
  intros X W c rb base file mods ref t u cat m names p r C P H Nn M I Sl L Pl Rp Em.
  destruct (C54_rebuilt_l _ _ _ _ _ _ _ _ _ _ _ _ C H Nn I Sl) as (s & Es & Rd & _).
  assert (Pm : plain_name m) by (apply no_slash_plain; cbn in *; intuition).
  assert (Ed : path_join (abs_path base) m = abs_path (base ++ [m])).
  { change m with (rel_path [m]) at 1. apply join_abs_any; [discriminate|exact P|]. constructor; [exact Pm|constructor]. }
  rewrite Ed in Rd.
  assert (Vs : exists x, sp_values s = VS x).
  { destruct (mk_spectrum_ok _ _ _ _ Es) as (cn & w & _ & Ew & _ & _ & _ & V). injection Ew as <-. eauto. }
  destruct Vs as (x & V).
  assert (Pn : Forall plain_name names) by (eapply Forall_impl; [|exact Pl]; intros f0 Hf0; apply Hf0).
  destruct (C56_listing_l X W s x _ m names M V L Pn) as (sel & Pk & F). rewrite Rd in F.
  assert (Ir : In r (module_rows m (rows_of (c_db cat)))).
  { apply in_module; [|exact Em]. destruct Rp as (l & El). apply nth_error_In in El. apply (in_map snd) in El. exact El. }
  destruct (folder_row_of _ _ _ _ _ _ _ _ F Ir) as (f & mat & If & Lf & Fr).
  exists s, f, mat. split; [exact Es|]. pose proof (picked_in _ _ _ _ Pk If) as Inf. split; [exact Inf|]. split; [|exact Fr].
  rewrite Forall_forall in Pl. destruct (Pl f Inf) as (Pf & Bf).
  assert (Ef : path_join (abs_path (base ++ [m])) f = abs_path (base ++ m :: [f])).
  { change f with (rel_path [f]) at 1. rewrite join_abs_any; [now rewrite <- app_assoc|discriminate| |].
    - apply Forall_app. split; [exact P|constructor; [exact Pm|constructor]].
    - constructor; [exact Pf|constructor]. }
  rewrite Ef in Lf. rewrite <- Lf.
  refine (proj1 (C53_number_l W cat p r base _ "wavelength" "nanometer" (built_base _ _ _ _ _ _ _ _ _ _ _ C H) P Rp _)).
  destruct Fr as (_ & _ & _ & _ & _ & _ & St & Un & _ & _ & Pth & _).
  exists m, f, [f]. split; [exact Em|]. split; [exact Pm|]. split; [exact Pth|]. split; [|auto].
  split; [discriminate|]. split; [constructor; [exact Pf|constructor]|]. split; [constructor; [exact Bf|constructor]|]. left. reflexivity.
Qed.

Lemma C70_page_l : forall X W c rb base file mods ref t u cat folder doc lib p r,
  configured c (abs_path base) file mods ref t u -> Forall plain_name base ->
  mk_catalogue X W c rb = Ok cat -> rb <> RStr "None" ->
  let m := "RefractiveIndexInfo" in In (m, true) mods -> selects rb m ->
  data_folder W (abs_path (base ++ [m])) folder -> library_file W (abs_path (base ++ [m])) doc -> library_doc doc lib ->
  Forall (fun e => exists comps, path_text (e_data e) comps /\ e_data e = rel_path comps) (entries lib) ->
  row_at (c_db cat) p r -> r_module r = KStr m ->
  exists s e mat, mk_spectrum (InVals (VS ref)) t u = Ok s /\ In e (entries lib) /\
    get_material W cat (IdInt (Z.of_nat p)) = Ok mat /\ page_row X s folder e mat r.
Proof.
  intros X W c rb base file mods ref t u cat folder doc lib p r C P H Nn m I Sl DF LF LD Pl Rp Em.
  destruct (C54_rebuilt_l _ _ _ _ _ _ _ _ _ _ _ _ C H Nn I Sl) as (s & Es & Rd & _).
  assert (Pm : plain_name m) by (apply no_slash_plain; cbn in *; intuition).
  assert (Ed : path_join (abs_path base) m = abs_path (base ++ [m])).
  { change m with (rel_path [m]) at 1. apply join_abs_any; [discriminate|exact P|]. constructor; [exact Pm|constructor]. }
  rewrite Ed in Rd.
  assert (Vs : exists x, sp_values s = VS x).
  { destruct (mk_spectrum_ok _ _ _ _ Es) as (cn & w & _ & Ew & _ & _ & _ & V). injection Ew as <-. eauto. }
  destruct Vs as (x & V).
  pose proof (C55_listing_l X W s x _ _ _ _ V DF LF LD) as F. fold m in F. rewrite Rd in F.
  assert (Ir : In r (module_rows m (rows_of (c_db cat)))).
  { apply in_module; [|exact Em]. destruct Rp as (l & El). apply nth_error_In in El. apply (in_map snd) in El. exact El. }
  destruct (listing_row_of _ _ _ _ _ _ _ _ F Ir) as (e & mat & Ie & Le & Fr).
  exists s, e, mat. split; [exact Es|]. split; [exact Ie|]. split; [|exact Fr].
  rewrite Forall_forall in Pl. destruct (Pl e Ie) as (comps & (Nc & Pc & Bc & _) & Ec).
  assert (Fd : In folder ["data"; "data-nk"]) by (destruct DF as [(_ & ->)|(_ & _ & ->)]; cbn; tauto).
  assert (Pf : plain_name folder /\ ~ In "\"%char (chars folder)) by (apply no_slash_plain; cbn in *; intuition).
  destruct (no_slash_plain "database") as (Pd & Bd); [cbn; tauto|].
  assert (Ef : page_file (abs_path (base ++ [m])) folder e = abs_path (base ++ m :: "database" :: folder :: comps)).
  { unfold page_file. rewrite (prefix_path folder (proj1 Pf)), Ec.
    assert (FD : Forall plain_name ["database"; folder]) by (constructor; [exact Pd|constructor; [tauto|constructor]]).
    rewrite join_rel; [|discriminate|exact Nc|exact FD|exact Pc]. rewrite join_abs_any; [now rewrite <- app_assoc|discriminate| |].
    - apply Forall_app. split; [exact P|constructor; [exact Pm|constructor]].
    - constructor; [exact Pd|]. constructor; [tauto|exact Pc]. }
  rewrite Ef in Le. rewrite <- Le.
  refine (proj1 (C53_number_l W cat p r base _ "wavelength" "micrometer" (built_base _ _ _ _ _ _ _ _ _ _ _ C H) P Rp _)).
  destruct Fr as (_ & _ & _ & _ & _ & _ & St & Un & _ & _ & _ & Pth).
  exists m, (rel_path ("database" :: folder :: comps)), ("database" :: folder :: comps). split; [exact Em|]. split; [exact Pm|].
  split; [now apply Pth|]. split; [|auto].
  split; [discriminate|]. split; [constructor; [exact Pd|constructor; [tauto|exact Pc]]|].
  split; [constructor; [exact Bd|constructor; [tauto|exact Bc]]|]. left. reflexivity.
Qed.
