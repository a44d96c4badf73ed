(** Reading what was saved; write and read cycles *)
From Verif Require Import PyBase PyStr XReal TextModel TextSpec TextProofs TableProofs SpectrumModel SpectralModel MaterialModel MaterialSpec MaterialProofs MatFileProofs FileModel ReaderModel WriterModel IOSpec LineProofs FmtProofs TextFileProofs DisplayProofs SaveProofs PathProofs.
From Coq Require Import Permutation.
Open Scope R_scope.
Open Scope string_scope.
Open Scope list_scope.

(** ** a default dictionary *)
Lemma mk_reader_meta fk path key : Permutation FILE_META_DATA_KEYS fk ->
  In key FILE_META_DATA_KEYS -> dget (rd_meta (mk_reader fk path)) key = Some (MStr "").
Proof.
  intros P Hk. cbn [mk_reader rd_meta]. rewrite dget_dset_other by (intros <-; vm_compute in Hk; intuition discriminate).
  apply (Permutation_in _ P) in Hk. clear P. revert Hk. generalize (@nil (string * mval)). induction fk as [|k l IH]; intros d Hk; [destruct Hk|].
  cbn [fold_left]. destruct (in_dec string_dec key l) as [Hin|Hout]; [now apply IH|].
  destruct Hk as [<-|Hk]; [|contradiction]. clear IH.
  assert (forall l d, ~ In k l -> dget (fold_left (fun d k => dset d k (MStr "")) l d) k = dget d k) as H.
  { clear. induction l as [|q l IH]; intros d Hn; [reflexivity|]. cbn [fold_left]. rewrite IH by (intros Hi; apply Hn; now right).
    apply dget_dset_other. intros ->. apply Hn. now left. }
  rewrite H by exact Hout. apply dget_dset_same.
Qed.
Lemma mk_reader_spec fk path : dget (rd_meta (mk_reader fk path)) "Specification" = Some (MMap []).
Proof. cbn [mk_reader rd_meta]. apply dget_dset_same. Qed.

Section Read.
Variable W : wenv.
Variables fk dk : list string.
Hypothesis Pf : Permutation FILE_META_DATA_KEYS fk.
Hypothesis Pd : Permutation DATASET_META_DATA_KEYS dk.

Definition put_meta (keys : list string) (meta acc : dict mval) : dict mval :=
  fold_left (fun acc key => match dget meta key with Some v => dset acc key (MStr (format_val W v)) | None => acc end) keys acc.
Lemma put_meta_cons q l meta acc : put_meta (q :: l) meta acc =
  put_meta l meta (match dget meta q with Some v => dset acc q (MStr (format_val W v)) | None => acc end).
Proof. reflexivity. Qed.
Lemma put_meta_get keys meta acc k : dget (put_meta keys meta acc) k =
  if in_dec string_dec k keys then match dget meta k with Some v => Some (MStr (format_val W v)) | None => dget acc k end else dget acc k.
Proof.
  revert acc. induction keys as [|q l IH]; intros acc; [reflexivity|]. rewrite put_meta_cons, IH.
  destruct (in_dec string_dec k (q :: l)) as [Hi|Hi].
  - destruct (in_dec string_dec k l) as [Hl|Hl].
    + destruct (dget meta k) eqn:E; [reflexivity|]. destruct (string_dec q k) as [<-|Hq]; [now rewrite E|].
      destruct (dget meta q); [now apply dget_dset_other|reflexivity].
    + destruct Hi as [<-|Hi]; [|contradiction]. destruct (dget meta q) eqn:E; [apply dget_dset_same|reflexivity].
  - assert (q <> k) as Hq by (intros ->; apply Hi; now left). destruct (in_dec string_dec k l) as [Hl|Hl]; [exfalso; apply Hi; now right|].
    destruct (dget meta q); [now apply dget_dset_other|reflexivity].
Qed.

Lemma fold_meta_gen keys meta : (forall k, In k keys -> In k DATA_META_DATA_KEYS) ->
  (forall key v, In key keys -> dget meta key = Some v -> header_value (format_val W v)) ->
  forall acc d multi, fold_left (header_line fk dk) (map (fun x => " " ++ x)%string
    (flat_map (fun key => match dget meta key, dget KEY_ALIASES key with
                       | Some v, Some alias => [(alias ++ ": " ++ format_val W v)%string]
                       | _, _ => []
                       end) keys)) (acc, d, multi) =
  (put_meta keys meta acc, d, multi).
Proof.
  induction keys as [|k l IH]; intros Hin H acc d multi; [reflexivity|]. cbn [flat_map].
  assert (exists a, dget KEY_ALIASES k = Some a /\
    In k FILE_META_DATA_KEYS /\ ~ In ":"%char (chars (" " ++ a)) /\ startswith (upper k) (lstrip (upper (" " ++ a))) = true) as [a [Ea [Hk [Hc Hs]]]].
  { pose proof (Hin k (or_introl eq_refl)) as Hk. clear -Hk. cbn in Hk. destruct Hk as [<-|[<-|[<-|[<-|[<-|[]]]]]]; eexists; (split; [reflexivity|]);
      (split; [cbn; tauto|]); (split; [cbn; intuition discriminate|reflexivity]). }
  rewrite map_app, fold_left_app. rewrite put_meta_cons, Ea.
  destruct (dget meta k) as [v|] eqn:E.
  - cbn [map fold_left]. change (" " ++ a ++ ": " ++ format_val W v)%string with ((" " ++ a) ++ ": " ++ format_val W v)%string.
    rewrite (header_line_file fk dk acc d multi k) by (first [assumption|eapply H; [now left|exact E]]).
    apply IH; [intros q Hq; apply Hin; now right|intros q v' Hq; apply H; now right].
  - cbn [map fold_left]. apply IH; [intros q Hq; apply Hin; now right|intros q v' Hq; apply H; now right].
Qed.

Definition header_fset (d : fset) (st un dt : string) : fset :=
  mkFset (DStr dt) (ds_range d) (DStr st) (DStr un) (ds_yields d) (ds_data d).
Lemma fold_head meta st un dt acc d multi :
  (forall key v, In key DATA_META_DATA_KEYS -> dget meta key = Some v -> header_value (format_val W v)) ->
  header_value st -> header_value un -> header_value dt ->
  fold_left (header_line fk dk) (head_part W meta st un dt) (acc, d, multi) =
  (put_meta DATA_META_DATA_KEYS meta acc, header_fset d st un dt, (multi ++ " " ++ NL)%string).
Proof.
  intros H H1 H2 H3. unfold head_part, header_list. rewrite !map_app, !fold_left_app.
  unfold meta_lines. rewrite fold_meta_gen by (auto; exact H). cbn [map fold_left].
  change (" " ++ "SPECTRUMTYPE: " ++ st)%string with (" SPECTRUMTYPE" ++ ": " ++ st)%string.
  change (" " ++ "UNIT: " ++ un)%string with (" UNIT" ++ ": " ++ un)%string.
  change (" " ++ "DATATYPE: " ++ dt)%string with (" DATATYPE" ++ ": " ++ dt)%string.
  rewrite (header_line_set fk dk _ _ _ "SpectrumType") by (first [assumption|reflexivity|cbn; tauto|cbn; intuition discriminate]).
  rewrite (header_line_set fk dk _ _ _ "Unit") by (first [assumption|reflexivity|cbn; tauto|cbn; intuition discriminate]).
  rewrite (header_line_set fk dk _ _ _ "DataType") by (first [assumption|reflexivity|cbn; tauto|cbn; intuition discriminate]).
  reflexivity.
Qed.

(** header lines leave the table alone *)
Lemma header_line_data st line m d multi : header_line fk dk st line = (m, d, multi) ->
  ds_data d = ds_data (snd (fst st)).
Proof.
  destruct st as [[m0 d0] multi0]. unfold header_line. cbn [fst snd].
  destruct (split_on ":" line) as [|k [|r rest]]; try (intros E; injection E as <- <- <-; reflexivity).
  destruct (match_key fk _); [intros E; injection E as <- <- <-; reflexivity|].
  destruct (match_key dk _) as [key|] eqn:Ek; [|intros E; injection E as <- <- <-; reflexivity].
  intros E. injection E as <- <- <-. apply find_some in Ek. destruct Ek as [Hin _]. apply (Permutation_in _ (Permutation_sym Pd)) in Hin.
  cbn in Hin. destruct Hin as [<-|[<-|[<-|[<-|[<-|[]]]]]]; reflexivity.
Qed.
Lemma fold_header_data lines : forall st m d multi, fold_left (header_line fk dk) lines st = (m, d, multi) ->
  ds_data d = ds_data (snd (fst st)).
Proof.
  induction lines as [|l ls IH]; intros st m d multi E; [cbn in E; now rewrite E|]. cbn [fold_left] in E.
  destruct (header_line fk dk st l) as [[m1 d1] u1] eqn:E1. rewrite (IH _ _ _ _ E). cbn [fst snd]. eapply header_line_data, E1.
Qed.
Lemma fold_plain lines : (forall l kw, In l lines -> In kw keywords -> ~ keyword_line kw l) ->
  forall m d multi, fold_left (header_line fk dk) lines (m, d, multi) = (m, d, (multi ++ lines_text lines)%string).
Proof.
  induction lines as [|l ls IH]; intros H m d multi; [cbn; now rewrite app_empty_r|]. cbn [fold_left].
  rewrite header_line_plain by (first [assumption|intros kw Hkw; apply H; [now left|exact Hkw]]).
  rewrite IH by (intros l' kw Hl; apply H; now right). f_equal. rewrite lines_text_cons. now rewrite !app_assoc_s.
Qed.

(** the result of reading a saved file *)
Lemma read_saved yl fs path ext c meta st un dt n rows : text_ext ext -> splitext path = ext ->
  dget fs path = Some (file_lines (comment_part c ++ head_part W meta st un dt) (delim_of ext) rows) ->
  rows <> [] -> (0 < n)%nat -> Forall (fun r => length r = n) rows -> unix_text c ->
  (forall key v, In key DATA_META_DATA_KEYS -> dget meta key = Some v -> header_value (format_val W v)) ->
  header_value st -> header_value un -> header_value dt -> dt <> ""%string ->
  exists m1 d1 multi1,
    fold_left (header_line fk dk) (comment_part c)
      (rd_meta (mk_reader fk path), fset_set default_data_dict "Data" (DArr (squeeze n (map (map (xround 8)) rows))), ""%string) = (m1, d1, multi1) /\
    ds_data d1 = DArr (squeeze n (map (map (xround 8)) rows)) /\
    read_path fk dk yl fs path =
    Ok (mkFdict (dset (put_meta DATA_META_DATA_KEYS meta m1) "MetaComment" (MStr (multi1 ++ " " ++ NL)%string))
         [header_fset d1 st un dt]).
Proof.
  intros Hext Hse Hfile Hne Hn Hlen Hc Hm H1 H2 H3 Hdt.
  destruct (fold_left (header_line fk dk) (comment_part c)
      (rd_meta (mk_reader fk path), fset_set default_data_dict "Data" (DArr (squeeze n (map (map (xround 8)) rows))), ""%string)) as [[m1 d1] multi1] eqn:E1.
  exists m1, d1, multi1. split; [reflexivity|]. split; [apply fold_header_data in E1; exact E1|].
  set (hl := comment_part c ++ head_part W meta st un dt) in *.
  assert (Forall one_line hl) as Hol.
  { apply Forall_app. split.
    - unfold comment_part. destruct (String.eqb c ""); [constructor|]. apply unix_lines, unix_trim, Hc.
    - unfold head_part. apply Forall_map. apply Forall_app. split.
      + eapply Forall_impl; [|apply (header_list_one_line W meta st un dt)].
        * intros x Hx. apply one_line_cons. split; [reflexivity|exact Hx].
        * intros key v Hk Hv. exact (proj1 (Hm key v Hk Hv)).
        * apply H1.
        * apply H2.
        * apply H3.
      + repeat constructor. intros c2 Hc2. rewrite <- is_break_iff. cbn in Hc2. intuition (subst; discriminate). }
  unfold read_path. cbn [mk_reader rd_ext]. fold (mk_reader fk path).
  assert (smem (splitext path) txt_types = true) as Hs by (rewrite Hse; destruct Hext as [-> | ->]; reflexivity).
  rewrite Hs. cbn [orb]. unfold fs_read. rewrite Hfile. cbn [bind]. unfold read_file. cbn [mk_reader rd_ext]. rewrite Hs. fold (mk_reader fk path).
  unfold read_text_file. cbn [rd_ext mk_reader]. fold (mk_reader fk path).
  assert (read_text_data (splitext path) (file_lines hl (delim_of ext) rows) =
          Ok (fset_set default_data_dict "Data" (DArr (squeeze n (map (map (xround 8)) rows))))) as Hrd.
  { unfold read_text_data. pose proof (loadtxt_lines ext hl rows n Hext Hol Hne Hn Hlen) as L. unfold file_lines. rewrite Hse.
    destruct Hext as [He|He]; rewrite He in *.
    - change (String.eqb ".txt" ".txt") with true in *. cbv iota in *. rewrite L. reflexivity.
    - change (String.eqb ".csv" ".txt") with false in *. change (String.eqb ".csv" ".csv") with true. cbv iota in *. rewrite L. reflexivity. }
  rewrite Hrd. unfold file_lines at 1. rewrite (read_comment_lines ext hl rows n Hext Hol Hne Hn Hlen).
  unfold hl. rewrite fold_left_app, E1, fold_head by assumption.
  destruct (String.eqb (multi1 ++ " " ++ NL) "") eqn:Eq; [apply String.eqb_eq in Eq; destruct multi1; discriminate|].
  cbn [ds_type header_fset]. destruct dt as [|c0 dt0]; [congruence|]. reflexivity.
Qed.
End Read.

(** ** the material read back *)
Lemma file_call path : call [("file_path", PStr path)] "file_path" (PStr path) "wavelength" "nanometer".
Proof. a_call. Qed.
Lemma load_material rd path : mk_material rd [("file_path", PStr path)] =
  do fd <- rd path; do meta <- copy_meta (fd_meta fd);
  do p <- process_datasets (fd_sets fd) (mkP "" None None None "wavelength" "nanometer"); complete meta p.
Proof. apply call_file, file_call. Qed.

Lemma copy_meta_get fm meta k : copy_meta fm = Ok meta -> In k file_meta_keys -> dget meta k = dget fm k.
Proof.
  unfold copy_meta. assert (forall keys meta, map_res (fun k => do v <- dlookup fm k; Ok (k, v)) keys = Ok meta -> In k keys -> dget meta k = dget fm k) as H; [|apply H].
  induction keys as [|q l IH]; intros me E Hk; [destruct Hk|]. cbn [map_res] in E. inv_bind E kv E1. inv_bind E1 v E2. injection E1 as <-.
  inv_bind E rest E3. injection E as <-. cbn [dget]. destruct (String.eqb k q) eqn:Eq.
  - apply String.eqb_eq in Eq. subst. unfold dlookup in E2. destruct (dget fm q); [congruence|discriminate].
  - destruct Hk as [<-|Hk]; [now rewrite String.eqb_refl in Eq|]. now apply IH.
Qed.

Definition header_parts (t u : string) (d : sdata) : Prop := forall b rows, d = DInterp b rows -> d_type b = t /\ d_unit b = u.
Lemma mk_interpolation_parts rows t u d : mk_interpolation rows t u = Ok d -> header_parts t u d.
Proof.
  unfold mk_interpolation. intros H. inv_bind H mn E1. inv_bind H mx E2. inv_bind H b E3. inv_bind H x E4. injection H as <-.
  unfold mk_base in E3. inv_bind E3 r E5. injection E3 as <-. intros b' rows' E. injection E as <- <-. split; reflexivity.
Qed.
Lemma mk_constant_parts c r t u t' u' d : mk_constant c r t' u' = Ok d -> header_parts t u d.
Proof. unfold mk_constant. intros H. inv_bind H b E. injection H as <-. intros b' rows E'. discriminate. Qed.
Lemma pairs_parts rows t u d : spec_data_from_pairs rows t u = Ok d -> header_parts t u d.
Proof.
  destruct rows as [|r [|r2 l]]; cbn [spec_data_from_pairs]; [apply mk_interpolation_parts|apply mk_constant_parts|apply mk_interpolation_parts].
Qed.
Lemma table_parts n rows t u d : spec_data_from_table n rows t u = Ok d -> header_parts t u d.
Proof.
  unfold spec_data_from_table. destruct n as [|[|n]]; [discriminate| |apply pairs_parts].
  intros H. exfalso. destruct rows as [|r [|r2 l]]; try discriminate;
    (inv_bind H mn E1; inv_bind H mx E2; inv_bind H b E3; discriminate).
Qed.
Lemma process_table_parts n rows id p p' t u : (forall d, p_real p = Some d -> header_parts t u d) -> p_stype p = t -> p_unit p = u ->
  process_table n rows id p = Ok p' -> forall d, p_real p' = Some d -> header_parts t u d.
Proof.
  intros Hp <- <- H. unfold process_table in H.
  destruct (String.eqb id "nk").
  { inv_bind H r E1. inv_bind H a E2. inv_bind H i E3. inv_bind H b E4. injection H as <-. intros d Hd. injection Hd as <-. now apply pairs_parts in E2. }
  destruct (String.eqb id "n_alpha").
  { inv_bind H r E1. inv_bind H a E2. inv_bind H i E3. inv_bind H b E4. inv_bind H z E5. inv_bind H bb E6. injection H as <-.
    intros d Hd. injection Hd as <-. now apply pairs_parts in E2. }
  destruct (String.eqb id "n").
  { inv_bind H a E2. injection H as <-. intros d Hd. injection Hd as <-. now apply table_parts in E2. }
  destruct (String.eqb id "k").
  { inv_bind H a E2. injection H as <-. exact Hp. }
  destruct (String.eqb id "eps").
  { inv_bind H r E1. inv_bind H a E2. inv_bind H i E3. inv_bind H b E4. injection H as <-. intros d Hd. injection Hd as <-. now apply pairs_parts in E2. }
  injection H as <-. exact Hp.
Qed.

Lemma const_value (s : string) : existsb is_break (chars s) = false -> lstrip s = s -> header_value s.
Proof.
  intros H Hl. split; [|exact Hl]. intros c Hc. rewrite <- is_break_iff. intros B.
  assert (existsb is_break (chars s) = true) by (apply existsb_exists; eauto). congruence.
Qed.

Lemma process_dataset_parts d st un dt p dre : 
  process_dataset (header_fset d st un dt) (mkP "" None None None "wavelength" "nanometer") = Ok p -> p_real p = Some dre ->
  header_value st -> header_value un -> In dt ["tabulated n"; "tabulated nk"; "tabulated eps_r"] ->
  exists st' un', header_value st' /\ header_value un' /\ header_parts st' un' dre.
Proof.
  intros H Hp Hst Hun Hdt.
  set (st' := if dval_true (DStr st) then st else "wavelength"%string). set (un' := if dval_true (DStr un) then un else "nanometer"%string).
  exists st', un'. split; [unfold st'; destruct (dval_true (DStr st)); [exact Hst|apply const_value; reflexivity]|].
  split; [unfold un'; destruct (dval_true (DStr un)); [exact Hun|apply const_value; reflexivity]|].
  assert (forall id, (do t <- str_table_to_numeric (dval_tab (ds_data d)); do st <- (if dval_true (DStr st) then dval_str (DStr st) else Ok "wavelength"%string);
        do un <- (if dval_true (DStr un) then dval_str (DStr un) else Ok "nanometer"%string);
        match t with
        | ND2 n rows => process_table n rows id (set_defaults (mkP "" None None None "wavelength" "nanometer") st un)
        | ND1 _ => Raise IndexError
        end) = Ok p -> header_parts st' un' dre) as G.
  { intros id H0. inv_bind H0 t E1.
    assert ((if dval_true (DStr st) then dval_str (DStr st) else Ok "wavelength"%string) = Ok st') as Es by (unfold st'; destruct (dval_true (DStr st)); reflexivity).
    assert ((if dval_true (DStr un) then dval_str (DStr un) else Ok "nanometer"%string) = Ok un') as Eu by (unfold un'; destruct (dval_true (DStr un)); reflexivity).
    rewrite Es, Eu in H0. cbn [bind] in H0. destruct t as [|n rows]; [discriminate|].
    refine (process_table_parts n rows id (set_defaults (mkP "" None None None "wavelength" "nanometer") st' un') p st' un' _ eq_refl eq_refl H0 dre Hp). discriminate. }
  cbn in Hdt. destruct Hdt as [<-|[<-|[<-|[]]]]; eapply G; exact H.
Qed.

Section Cycle.
Variable W : wenv.

Lemma header_keys_eq : header_keys = DATA_META_DATA_KEYS. Proof. reflexivity. Qed.

(** one cycle: what was saved and what is read, in full *)
Lemma text_read path m fs ic rii ops meta fk dk yl : text_file path -> m_meta m = Some meta -> header_ready W m ->
  (forall c, comment_of m c -> unix_text c) ->
  Permutation FILE_META_DATA_KEYS fk -> Permutation DATASET_META_DATA_KEYS dk ->
  save_material W path m fs ic rii = (Ok tt, ops) ->
  exists c b rows0 sets d rest dt s n rows m1 d1 multi1,
    dget meta "MetaComment" = Some (MStr c) /\ m_real m = DInterp b rows0 /\ m_complex m = None /\
    prepare_file_dict W m = Ok (kept meta, sets) /\ sets = d :: rest /\ first_set d b dt s /\
    str_table_to_numeric (TStr s) = Ok (ND2 n rows) /\
    fold_left (header_line fk dk) (comment_part c)
      (rd_meta (mk_reader fk path), fset_set default_data_dict "Data" (DArr (squeeze n (map (map (xround 8)) rows))), ""%string) = (m1, d1, multi1) /\
    ds_data d1 = DArr (squeeze n (map (map (xround 8)) rows)) /\
    read_path fk dk yl (fs_run fs ops) path =
      Ok (mkFdict (dset (put_meta W DATA_META_DATA_KEYS meta m1) "MetaComment" (MStr (multi1 ++ " " ++ NL)%string))
         [header_fset d1 (d_type b) (d_unit b) dt]).
Proof.
  intros Hp Hm [Hh1 Hh2] Hc Pf Pd Hs. apply text_file_ext in Hp.
  destruct (save_text_spec W path m fs ic rii ops meta Hp Hm) as (c & b & rows0 & sets & d & rest & dt & s & n & rows & E1 & E2 & E3 & E4 & E5 & E6 & E7 & E8 & E9 & E10 & E11).
  - intros key v Hk Hv. apply (Hh1 meta key v Hm Hk Hv).
  - intros b rows Hr. destruct (Hh2 b rows Hr) as [[A _] [B _]]. split; assumption.
  - exact Hs.
  - destruct (Hh2 _ _ E2) as [Ht Hu].
    assert (In dt ["tabulated n"; "tabulated nk"; "tabulated eps_r"]) as Hdt by (destruct E6 as (_ & _ & _ & _ & _ & _ & _ & _ & Hdt); exact Hdt).
    destruct (read_saved W fk dk Pf Pd yl (fs_run fs ops) path (splitext path) c meta (d_type b) (d_unit b) dt n rows Hp eq_refl E11 E8 E9 E10) as (m1 & d1 & multi1 & F1 & F2 & F3).
    + apply Hc. exists meta. split; assumption.
    + intros key v Hk Hv. apply (Hh1 meta key v Hm Hk Hv).
    + exact Ht.
    + exact Hu.
    + apply dt_one_line, Hdt.
    + intros ->. cbn in Hdt. intuition discriminate.
    + exists c, b, rows0, sets, d, rest, dt, s, n, rows, m1, d1, multi1. repeat (split; [assumption|]). exact F3.
Qed.

Lemma trim_nonempty c : c <> "" -> comment_part c = split_on nl (rstrip_nlcr c).
Proof. intros H. unfold comment_part. destruct (String.eqb c "") eqn:E; [apply String.eqb_eq in E; contradiction|reflexivity]. Qed.
Lemma lines_of_trim c : c <> "" -> lines_text (comment_part c) = (rstrip_nlcr c ++ NL)%string.
Proof.
  intros H. rewrite trim_nonempty by exact H. rewrite <- join_nl_lines.
  - pose proof (proj1 (join_split_gen nl (rstrip_nlcr c))) as E. change (String nl "") with NL in E. now rewrite E.
  - apply (proj2 (join_split_gen nl (rstrip_nlcr c))).
Qed.
Lemma split_app_nl t : forall l, In l (split_on nl t) -> forall e, (forall x, In x (chars e) -> x = nl) -> In l (split_on nl (t ++ e)%string).
Proof.
  induction t as [|c t IH]; intros l H e He; cbn [append].
  - cbn in H. destruct H as [<-|[]]. destruct e as [|d e]; [now left|]. rewrite (He d (or_introl eq_refl)). cbn [split_on]. rewrite Ascii.eqb_refl. now left.
  - cbn [split_on] in *. destruct (Ascii.eqb c nl).
    + destruct H as [<-|H]; [now left|right; now apply IH].
    + destruct (split_on nl t) as [|x r] eqn:E; [exfalso; now apply (proj2 (join_split_gen nl t))|].
      assert (exists r', split_on nl (t ++ e)%string = x :: r' /\ incl r r') as [r' [E' Hi]].
      { clear IH H. revert x r E. induction t as [|d t IHt]; intros x r E; cbn [append].
        - cbn in E. injection E as <- <-. destruct e as [|d e]; [exists []; split; [reflexivity|intros ? []]|].
          rewrite (He d (or_introl eq_refl)). cbn [split_on]. rewrite Ascii.eqb_refl. eexists. split; [reflexivity|intros ? []].
        - cbn [split_on] in *. destruct (Ascii.eqb d nl).
          + injection E as <- <-. eexists. split; [reflexivity|]. intros y Hy.
            destruct (split_on nl t) as [|x r] eqn:Et; [destruct Hy|]. destruct (IHt x r eq_refl) as [r' [-> Hr]].
            destruct Hy as [<-|Hy]; [now left|right; now apply Hr].
          + destruct (split_on nl t) as [|x0 r0] eqn:Et; [exfalso; now apply (proj2 (join_split_gen nl t))|]. injection E as <- <-.
            destruct (IHt x0 r0 eq_refl) as [r' [-> Hr]]. exists r'. split; [reflexivity|exact Hr]. }
      rewrite E'. destruct H as [<-|H]; [now left|right; now apply Hi].
Qed.
Lemma trim_lines c l : unix_text c -> In l (split_on nl (rstrip_nlcr c)) -> In l (split_on nl c).
Proof.
  intros Hu Hl. destruct (rstrip_by_prefix is_nlcr c) as [e [E1 [E2 _]]]. fold (rstrip_nlcr c) in E1. rewrite E1.
  apply split_app_nl; [exact Hl|]. intros x Hx. specialize (E2 x Hx). unfold is_nlcr in E2. apply orb_true_iff in E2.
  destruct E2 as [E2|E2]; apply Ascii.eqb_eq in E2; [exact E2|]. exfalso. subst x.
  assert (In cr (chars c)) as Hc by (rewrite E1, chars_app, in_app_iff; now right).
  destruct (Hu cr Hc) as [H|H]; [discriminate|]. apply H. apply is_break_iff. reflexivity.
Qed.
Lemma plain_part c : unix_text c -> plain_comment c -> forall l kw, In l (comment_part c) -> In kw keywords -> ~ keyword_line kw l.
Proof.
  intros Hu Hp l kw Hl Hk. unfold comment_part in Hl. destruct (String.eqb c ""); [destruct Hl|].
  apply Hp; [now apply trim_lines|exact Hk].
Qed.

(** the comment one cycle later *)
Definition next_comment (c : string) : string := (lines_text (comment_part c) ++ " " ++ NL)%string.
Lemma next_comment_spec c : after_text_cycle c (next_comment c).
Proof.
  unfold next_comment. destruct (string_dec c "") as [-> |Hc]; [left; split; reflexivity|right].
  split; [exact Hc|]. exists (rstrip_nlcr c). split; [now apply trimmed_iff|]. rewrite lines_of_trim by exact Hc. now rewrite !app_assoc_s.
Qed.
Lemma unix_app a b : unix_text a -> unix_text b -> unix_text (a ++ b)%string.
Proof. intros Ha Hb c Hc. rewrite chars_app, in_app_iff in Hc. destruct Hc; auto. Qed.
Lemma unix_blank : unix_text (" " ++ NL)%string.
Proof. intros c Hc. cbn in Hc. destruct Hc as [<-|[<-|[]]]; [right|now left]. rewrite <- is_break_iff. discriminate. Qed.
Lemma next_unix c : unix_text c -> unix_text (next_comment c).
Proof.
  intros H. unfold next_comment. apply unix_app; [|apply unix_blank]. destruct (string_dec c "") as [-> |Hc]; [intros x []|].
  rewrite lines_of_trim by exact Hc. apply unix_app; [now apply unix_trim|]. intros x [<-|[]]. now left.
Qed.
Lemma split_append_lines l rest : Forall no_newline l -> split_on nl (lines_text l ++ rest)%string = l ++ split_on nl rest.
Proof.
  induction l as [|x l IH]; intros H; [reflexivity|]. rewrite lines_text_cons, !app_assoc_s.
  change (NL ++ lines_text l ++ rest)%string with (String nl (lines_text l ++ rest)). rewrite split_first by (now apply Forall_inv in H).
  rewrite IH by (now apply Forall_inv_tail in H). reflexivity.
Qed.
Lemma next_plain c : unix_text c -> plain_comment c -> plain_comment (next_comment c).
Proof.
  intros Hu Hp line kw Hl Hk. unfold next_comment in Hl. rewrite split_append_lines in Hl.
  - apply in_app_iff in Hl. destruct Hl as [Hl|Hl]; [eapply plain_part; eassumption|].
    assert (line = " "%string \/ line = ""%string) as Hl' by (cbn in Hl; intuition auto).
    intros (k & rest & p & s & E & _). assert (In ":"%char (chars line)) as Hc by (rewrite E, chars_app, in_app_iff; right; now left).
    destruct Hl' as [-> | ->]; cbn in Hc; intuition discriminate.
  - unfold comment_part. destruct (String.eqb c ""); [constructor|]. apply join_split.
Qed.

Lemma text_cycle_step path m m' c : text_file path -> header_ready W m -> comment_of m c -> unix_text c -> plain_comment c ->
  file_cycle W path m m' ->
  header_ready W m' /\ comment_of m' (next_comment c) /\
  (forall meta meta', m_meta m = Some meta -> m_meta m' = Some meta' -> forall key, In key header_keys ->
     dget meta' key = Some (MStr (match dget meta key with Some v => format_val W v | None => "" end))).
Proof.
  intros Hp Hr [meta [Hm Hmc]] Hu Hpl Hcyc. destruct Hcyc as [fk dk yl fs ic rii ops Pf Pd Hs Hl].
  destruct (text_read path m fs ic rii ops meta fk dk yl Hp Hm Hr) as (c' & b & rows0 & sets & d & rest & dt & s & n & rows & m1 & d1 & multi1 & E1 & E2 & E3 & E4 & E5 & E6 & E7 & E8 & E9 & E10); try assumption.
  { intros c' [meta' [Hm' Hc']]. rewrite Hm in Hm'. injection Hm' as <-. rewrite Hmc in Hc'. injection Hc' as <-. exact Hu. }
  rewrite Hmc in E1. injection E1 as <-.
  rewrite fold_plain in E8 by (try assumption; now apply plain_part). injection E8 as <- <- <-. cbn [append] in E10.
  rewrite load_material, E10 in Hl. cbn [bind fd_meta fd_sets] in Hl. inv_bind Hl meta' F1. inv_bind Hl p F2.
  unfold complete in Hl. inv_bind Hl re F3. inv_bind Hl im F4. injection Hl as <-.
  assert (forall key, In key header_keys -> dget meta' key = Some (MStr (match dget meta key with Some v => format_val W v | None => "" end))) as Hkeys.
  { intros key Hk. rewrite (copy_meta_get _ _ key F1) by (cbn in Hk |- *; tauto).
    rewrite dget_dset_other by (intros <-; cbn in Hk; intuition discriminate). rewrite put_meta_get.
    destruct (in_dec string_dec key DATA_META_DATA_KEYS) as [Hi|Hi]; [|contradiction].
    destruct (dget meta key); [reflexivity|]. refine (mk_reader_meta fk path key Pf _). cbn in Hk |- *; tauto. }
  assert (forall k v, In k header_keys -> dget meta k = Some v -> header_value (format_val W v)) as Hvals.
  { intros k v Hk Hv. destruct Hr as [Hr _]. apply (Hr meta k v Hm Hk Hv). }
  split; [split|split].
  - intros meta2 key v Hm2 Hk Hv. injection Hm2 as <-. rewrite Hkeys in Hv by exact Hk. injection Hv as <-. cbn [format_val].
    destruct (dget meta key) as [v|] eqn:Ev; [eapply Hvals; eassumption|]. apply const_value; reflexivity.
  - cbn [m_real]. intros b' rows' ->. destruct (p_real p) as [dre|] eqn:Ep.
    2: { unfold constant_default, mk_constant in F3. inv_bind F3 bb F5. discriminate. }
    injection F3 as ->. cbn [process_datasets] in F2. inv_bind F2 p1 F5. injection F2 as ->.
    destruct Hr as [_ Hr]. destruct (Hr _ _ E2) as [Ht Hun].
    assert (exists st un, header_value st /\ header_value un /\ header_parts st un (DInterp b' rows')) as (st & un & H1 & H2 & H3).
    { apply (process_dataset_parts _ _ _ _ _ _ F5 Ep); try assumption.
      destruct E6 as (_ & _ & _ & _ & _ & _ & _ & _ & Hdt). exact Hdt. }
    destruct (H3 _ _ eq_refl) as [<- <-]. split; assumption.
  - exists meta'. split; [reflexivity|]. rewrite (copy_meta_get _ _ "MetaComment" F1) by (cbn; tauto). rewrite dget_dset_same. reflexivity.
  - intros meta0 meta2 H0 H2. rewrite Hm in H0. injection H0 as <-. injection H2 as <-. exact Hkeys.
Qed.
End Cycle.
