(** Saving a material to a text file and reading the file *)
From Verif Require Import PyBase PyStr XReal TextModel TextSpec TextProofs TableProofs SpectrumModel SpectralModel MaterialModel FileModel ReaderModel WriterModel IOSpec LineProofs FmtProofs TextFileProofs DisplayProofs TableThms.
Open Scope R_scope.
Open Scope string_scope.
Open Scope list_scope.

(** ** dictionaries *)
Lemma dget_filter {V} (f : string -> bool) (d : dict V) k : f k = true -> dget (filter (fun kv => f (fst kv)) d) k = dget d k.
Proof.
  intros Hf. induction d as [|[k' v] r IH]; [reflexivity|]. cbn [filter fst dget]. destruct (f k') eqn:E; cbn [dget]; [now rewrite IH|].
  destruct (String.eqb k k') eqn:Ek; [apply String.eqb_eq in Ek; subst; congruence|exact IH].
Qed.
Lemma dget_ddel {V} (d : dict V) k k' : k <> k' -> dget (ddel d k') k = dget d k.
Proof.
  intros Hne. induction d as [|[q v] r IH]; [reflexivity|]. cbn [ddel dget]. destruct (String.eqb k' q) eqn:E.
  - apply String.eqb_eq in E; subst. apply String.eqb_neq in Hne. now rewrite Hne.
  - cbn [dget]. now rewrite IH.
Qed.
Definition kept (meta : dict mval) : dict mval := filter (fun kv => negb (String.eqb (fst kv) "Alias")) meta.
Lemma dget_kept meta k : k <> "Alias" -> dget (kept meta) k = dget meta k.
Proof. intros H. unfold kept. apply (dget_filter (fun k => negb (String.eqb k "Alias"))). apply String.eqb_neq in H. now rewrite H. Qed.

(** ** the data sets *)
Lemma bind_ok {A B} (r : res A) (f : A -> res B) b : bind r f = Ok b -> exists a, r = Ok a /\ f a = Ok b.
Proof. destruct r; cbn; [eauto|discriminate]. Qed.
Lemma bind_raise {A B} (r : res A) (f : A -> res B) e : bind r f = Raise e -> r = Raise e \/ exists a, r = Ok a /\ f a = Raise e.
Proof. destruct r; cbn; [eauto|]. intros H; injection H as ->. now left. Qed.
Tactic Notation "inv_bind" ident(H) ident(a) ident(E) := apply bind_ok in H; destruct H as [a [E H]].

Section Save.
Variable W : wenv.

Definition tab_dict (b : dbase) (rows : list (xr * xr)) (dt : string) : dict dval :=
  [("DataType", DStr dt); ("ValidRange", DStr (numeric_to_string_table W (vals_nd (sp_values (valid_range (DInterp b rows))))));
   ("SpectrumType", DStr (d_type b)); ("Unit", DStr (d_unit b)); ("Data", DStr (numeric_to_string_table W (pairs_nd rows)))].
Lemma part_dict_interp name part b rows :
  part_dict W name part (DInterp b rows) = do t <- add_dtype_suffix name "tabulated" part; Ok (tab_dict b rows t).
Proof. reflexivity. Qed.
Definition merged (u t : dval) (s : string) : dict dval :=
  [("Unit", u); ("SpectrumType", t); ("DataType", DStr "tabulated nk"); ("Data", DStr s)].
Lemma collapse_cases a b sets : collapse_datasets W [a; b] = Ok sets ->
  sets = [a; b] \/ exists u t s, dlookup a "Unit" = Ok u /\ dlookup a "SpectrumType" = Ok t /\ sets = [merged u t s].
Proof.
  unfold collapse_datasets. intros H. inv_bind H f E. destruct f as [[n k] c]. destruct (c <? 2)%nat; [injection H as <-; now left|].
  destruct n as [n|]; [|discriminate]. destruct k as [k|]; [|discriminate].
  inv_bind H gn E1. inv_bind H gk E2. inv_bind H same E3. inv_bind H u0 E4. inv_bind H u1 E5. inv_bind H t0 E6. inv_bind H t1 E7.
  destruct (negb same || dval_neq u0 u1 || dval_neq t0 t1); [injection H as <-; now left|].
  inv_bind H t E8. injection H as <-. right. exists u0, t0, (numeric_to_string_table W t). repeat split; assumption.
Qed.

(** the first data set, when the real part is a table *)
Definition first_set (d : dict dval) (b : dbase) (dt s : string) : Prop :=
  dget d "unit" = None /\ dget d "Unit" = Some (DStr (d_unit b)) /\
  dget d "spectrum_type" = None /\ dget d "SpectrumType" = Some (DStr (d_type b)) /\
  dget d "type" = None /\ dget d "DataType" = Some (DStr dt) /\
  dget d "data" = None /\ dget d "Data" = Some (DStr s) /\
  In dt ["tabulated n"; "tabulated nk"; "tabulated eps_r"].
Lemma first_set_tab b rows dt : In dt ["tabulated n"; "tabulated nk"; "tabulated eps_r"] ->
  first_set (tab_dict b rows dt) b dt (numeric_to_string_table W (pairs_nd rows)).
Proof. intros H. repeat split; assumption. Qed.
Lemma prepare_first m meta b rows meta' sets : m_meta m = Some meta -> m_real m = DInterp b rows ->
  prepare_file_dict W m = Ok (meta', sets) ->
  meta' = kept meta /\ m_complex m = None /\ exists d rest dt s, sets = d :: rest /\ first_set d b dt s.
Proof.
  intros Hm Hr H. unfold prepare_file_dict in H. rewrite Hm in H. inv_bind H sets' E. injection H as <- <-. split; [reflexivity|].
  unfold dataset_to_dict in E. destruct (m_complex m); [discriminate|]. split; [reflexivity|].
  rewrite Hr, part_dict_interp in E. inv_bind E a E1. inv_bind E1 dt E2. injection E1 as <-. inv_bind E bd E3.
  assert (In dt ["tabulated n"; "tabulated nk"; "tabulated eps_r"]) as Hdt.
  { unfold add_dtype_suffix in E2. destruct (String.eqb (m_name m) "nk"); [injection E2 as <-; vm_compute; tauto|].
    destruct (String.eqb (m_name m) "eps"); [injection E2 as <-; vm_compute; tauto|discriminate]. }
  apply collapse_cases in E. destruct E as [-> | [u [t [s [Eu [Et ->]]]]]].
  - eexists _, _, dt, _. split; [reflexivity|]. now apply first_set_tab.
  - injection Eu as <-. injection Et as <-. exists (merged (DStr (d_unit b)) (DStr (d_type b)) s), [], "tabulated nk"%string, s.
    split; [reflexivity|]. repeat split. vm_compute; tauto.
Qed.
(** only tables have something to write *)
Lemma collapse_first a b sets t : dlookup a "DataType" = Ok t -> dstr_eqb t "tabulated n" = false -> dstr_eqb t "tabulated k" = false ->
  collapse_datasets W [a; b] = Ok sets -> sets = [a; b].
Proof.
  intros Ht Hn Hk H. unfold collapse_datasets in H. inv_bind H f E. cbn [find_tables] in E. rewrite Ht in E. cbn [bind] in E.
  rewrite Hn, Hk in E. cbn [bind fst snd] in E. inv_bind E t1 E1. destruct f as [[n k] c].
  assert (c <? 2 = true)%nat as Hc; [|rewrite Hc in H; now injection H].
  destruct (dstr_eqb t1 "tabulated n") eqn:N1.
  - assert (dstr_eqb t1 "tabulated k" = false) as K1.
    { destruct t1; cbn in *; try discriminate. apply String.eqb_eq in N1. subst. reflexivity. }
    rewrite K1 in E. inv_bind E nc E2. inv_bind E2 v E3. inv_bind E2 a1 E4. injection E2 as <-. cbn [bind fst snd] in E. injection E as <- <- <-. reflexivity.
  - cbn [bind fst snd] in E. destruct (dstr_eqb t1 "tabulated k") eqn:K1.
    + inv_bind E kc E2. inv_bind E2 v E3. inv_bind E2 a1 E4. injection E2 as <-. cbn [fst snd] in E. injection E as <- <- <-. reflexivity.
    + cbn [bind fst snd] in E. injection E as <- <- <-. reflexivity.
Qed.
Lemma suffix_constant name part t : add_dtype_suffix name "constant" part = Ok t ->
  dstr_eqb (DStr t) "tabulated n" = false /\ dstr_eqb (DStr t) "tabulated k" = false.
Proof.
  unfold add_dtype_suffix. destruct (String.eqb name "nk"); [intros H; injection H as <-; split; reflexivity|].
  destruct (String.eqb name "eps"); [intros H; injection H as <-; split; reflexivity|discriminate].
Qed.
Lemma no_data_key m meta' sets : prepare_file_dict W m = Ok (meta', sets) ->
  (exists b rows, m_real m = DInterp b rows) \/
  (exists d rest, sets = d :: rest /\ dget d "data" = None /\ dget d "Data" = None).
Proof.
  intros H. unfold prepare_file_dict in H. destruct (m_meta m) as [meta|]; [|discriminate]. inv_bind H sets' E. injection H as <- <-.
  unfold dataset_to_dict in E. destruct (m_complex m); [discriminate|]. inv_bind E a E1. inv_bind E bd E2.
  destruct (m_real m) as [b v|b rows|b k ps|b0 ? ?] eqn:Er.
  - right. unfold part_dict in E1. cbn [dict_repr bind] in E1.
    change (dlookup [("DataType", DStr "constant"); ("ValidRange", DStr (numeric_to_string_table W (vals_nd (sp_values (valid_range (DConst b v))))));
       ("SpectrumType", DStr (d_type b)); ("Unit", DStr (d_unit b)); ("Value", DOther true)] "DataType") with (Ok (DStr "constant")) in E1.
    cbn [bind] in E1. inv_bind E1 t' E3. injection E1 as <-. apply suffix_constant in E3. destruct E3 as [N K].
    apply (collapse_first _ _ _ (DStr t')) in E; [|reflexivity|exact N|exact K]. subst. eexists _, _. split; [reflexivity|]. split; reflexivity.
  - left. eauto.
  - right. cbn [part_dict dict_repr bind] in E1. injection E1 as <-.
    apply (collapse_first _ _ _ (DStr ("model " ++ model_name k)%string)) in E; [|reflexivity|destruct k; reflexivity|destruct k; reflexivity]. subst.
    eexists _, _. split; [reflexivity|]. split; reflexivity.
  - discriminate.
Qed.

(** ** the header *)
Definition meta_lines (meta : dict mval) : list string :=
  flat_map (fun key => match dget meta key, dget KEY_ALIASES key with
                       | Some v, Some alias => [(alias ++ ": " ++ format_val W v)%string]
                       | _, _ => []
                       end) DATA_META_DATA_KEYS.
Lemma meta_header_lines meta : meta_header W meta = lines_text (meta_lines meta).
Proof.
  unfold meta_header, meta_lines. induction DATA_META_DATA_KEYS as [|k l IH]; [reflexivity|]. cbn [map fold_right flat_map].
  rewrite lines_text_app, IH. f_equal. destruct (dget meta k); [|reflexivity]. destruct (dget KEY_ALIASES k); [|reflexivity].
  rewrite lines_text_cons. cbn [lines_text map fold_right]. now rewrite !app_assoc_s, app_empty_r.
Qed.
Definition header_list (meta : dict mval) (st un dt : string) : list string :=
  meta_lines meta ++ ["SPECTRUMTYPE: " ++ st; "UNIT: " ++ un; "DATATYPE: " ++ dt]%string.
Lemma header_is_lines meta st un dt :
  (meta_header W meta ++ "SPECTRUMTYPE: " ++ st ++ NL ++ "UNIT: " ++ un ++ NL ++ "DATATYPE: " ++ dt ++ NL)%string =
  lines_text (header_list meta st un dt).
Proof.
  unfold header_list. rewrite lines_text_app, meta_header_lines. f_equal. rewrite !lines_text_cons. cbn [lines_text map fold_right].
  now rewrite !app_assoc_s, app_empty_r.
Qed.
Definition file_lines (hl : list string) (delim : string) (rows : list (list xr)) : string :=
  lines_text (map (fun x => "#" ++ x)%string hl ++ data_lines delim rows).
Lemma savetxt_lines delim hl n rows : hl <> [] -> Forall one_line hl ->
  savetxt delim (lines_text hl) (ND2 n rows) = file_lines (map (fun x => " " ++ x)%string (hl ++ [""])) delim rows.
Proof.
  intros Hne H1. unfold savetxt, file_lines, header_text.
  destruct (String.eqb (lines_text hl) "") eqn:E.
  { apply String.eqb_eq in E. destruct hl; [congruence|]. rewrite lines_text_cons in E. destruct s; discriminate. }
  rewrite rows_text, lines_text_app. f_equal. rewrite (map_split_lines "# "), split_lines by exact H1. now rewrite map_map.
Qed.
Lemma meta_lines_same meta : meta_lines (ddel (kept meta) "MetaComment") = meta_lines meta.
Proof.
  unfold meta_lines. assert (forall k, In k DATA_META_DATA_KEYS -> k <> "MetaComment"%string /\ k <> "Alias"%string) as Hk.
  { intros k Hk. vm_compute in Hk. intuition (subst; discriminate). }
  induction DATA_META_DATA_KEYS as [|k l IH]; [reflexivity|]. cbn [flat_map]. destruct (Hk k (or_introl eq_refl)) as [H1 H2].
  rewrite dget_ddel, dget_kept by assumption. f_equal. apply IH. intros q Hq. apply Hk. now right.
Qed.

Definition text_ext (e : string) : Prop := e = ".txt"%string \/ e = ".csv"%string.
Definition comment_part (c : string) : list string := if String.eqb c "" then [] else split_on nl (rstrip_nlcr c).
Definition head_part (meta : dict mval) (st un dt : string) : list string :=
  map (fun x => " " ++ x)%string (header_list meta st un dt ++ [""%string]).

Lemma dt_one_line dt : In dt ["tabulated n"; "tabulated nk"; "tabulated eps_r"] -> header_value dt.
Proof.
  intros H. split; [|cbn in H; intuition (subst; reflexivity)].
  cbn in H. destruct H as [<-|[<-|[<-|[]]]]; intros c Hc; rewrite <- is_break_iff; cbn in Hc; intuition (subst; discriminate).
Qed.
Lemma header_list_one_line meta st un dt :
  (forall key v, In key DATA_META_DATA_KEYS -> dget meta key = Some v -> one_line (format_val W v)) ->
  one_line st -> one_line un -> one_line dt -> Forall one_line (header_list meta st un dt).
Proof.
  intros Hm H1 H2 H3. unfold header_list. apply Forall_app. split.
  - apply Forall_forall. intros x Hx. unfold meta_lines in Hx. apply in_flat_map in Hx. destruct Hx as [key [Hk Hx]].
    destruct (dget meta key) as [v|] eqn:E; [|destruct Hx].
    assert (exists a, dget KEY_ALIASES key = Some a /\ one_line (a ++ ": ")) as [a [Ea Ha]].
    { clear -Hk. cbn in Hk. destruct Hk as [<-|[<-|[<-|[<-|[<-|[]]]]]]; eexists; (split; [reflexivity|]);
        intros c Hc; rewrite <- is_break_iff; cbn in Hc; intuition (subst; discriminate). }
    rewrite Ea in Hx. destruct Hx as [<-|[]]. rewrite <- app_assoc_s. apply one_line_app. split; [exact Ha|eauto].
  - assert (forall s, existsb is_break (chars s) = false -> one_line s) as Hs.
    { intros s Hs c Hc. rewrite <- is_break_iff. intros B. assert (existsb is_break (chars s) = true) by (apply existsb_exists; eauto). congruence. }
    repeat constructor; apply one_line_app; (split; [apply Hs; reflexivity|assumption]).
Qed.

Lemma run_write fs p t : fs_run fs [OTrunc p; OAppend p t] = dset (dset fs p "") p t.
Proof. unfold fs_run. cbn [fold_left fs_step]. unfold content. now rewrite dget_dset_same. Qed.

Lemma save_text_spec path m fs ic rii ops meta : text_ext (splitext path) -> m_meta m = Some meta ->
  (forall key v, In key DATA_META_DATA_KEYS -> dget meta key = Some v -> one_line (format_val W v)) ->
  (forall b rows, m_real m = DInterp b rows -> one_line (d_type b) /\ one_line (d_unit b)) ->
  save_material W path m fs ic rii = (Ok tt, ops) ->
  exists c b rows0 sets d rest dt s n rows,
    dget meta "MetaComment" = Some (MStr c) /\ m_real m = DInterp b rows0 /\ m_complex m = None /\
    prepare_file_dict W m = Ok (kept meta, sets) /\ sets = d :: rest /\ first_set d b dt s /\
    str_table_to_numeric (TStr s) = Ok (ND2 n rows) /\ rows <> [] /\ (0 < n)%nat /\ Forall (fun r => length r = n) rows /\
    dget (fs_run fs ops) path =
      Some (file_lines (comment_part c ++ head_part meta (d_type b) (d_unit b) dt) (delim_of (splitext path)) rows).
Proof.
  intros Hext Hm Hv Hb H. unfold save_material, mk_writer in H. destruct (prepare_file_dict W m) as [[meta' sets]|e] eqn:Ep; [|discriminate].
  cbn [bind fst snd] in H. unfold write_file in H. cbn [w_meta w_path w_ext w_sets] in H.
  destruct (dget meta' "MetaComment") as [comment|] eqn:Ec; [|discriminate].
  assert (smem (splitext path) txt_types = true) as Hs by (destruct Hext as [-> | ->]; reflexivity).
  rewrite Hs in H. destruct (write_text_file W (mkWriter path (splitext path) (ddel meta' "MetaComment") sets)) as [text|e] eqn:Et; [|discriminate].
  cbn [bind] in H. unfold write_text_file in Et. cbn [w_meta w_path w_ext w_sets] in Et.
  destruct (no_data_key _ _ _ Ep) as [[b [rows0 Er]]|[d [rest [-> [N1 N2]]]]].
  2: { exfalso. inv_bind Et st E1. inv_bind Et st' E2. inv_bind Et un E3. inv_bind Et un' E4. inv_bind Et dt E5. inv_bind Et dt' E6.
       unfold lookup2, dlookup in Et. rewrite N1, N2 in Et. discriminate. }
  destruct (prepare_first _ _ _ _ _ _ Hm Er Ep) as [-> [Hcx [d [rest [dt [s [-> Hd]]]]]]].
  pose proof Hd as [D1 [D2 [D3 [D4 [D5 [D6 [D7 [D8 D9]]]]]]]].
  unfold lookup2, dlookup in Et. rewrite D1, D2, D3, D4, D5, D6, D7, D8 in Et. cbn [bind format_dval dval_tab] in Et.
  inv_bind Et t Etab. rewrite header_is_lines in Et.
  destruct t as [l|n rows].
  { exfalso. unfold str_table_to_numeric in Etab. inv_bind Etab t1 E1. inv_bind Etab t2 E2.
    destruct t1 as [|[|n1] rows1]; try discriminate. destruct (is_False t2); [|discriminate]. destruct rows1; discriminate. }
  pose proof (proj1 (C24_table_l _ _ _) Etab) as [lines [rest' [toks [_ [_ [Hnb [_ [Hlt [Hnum [Hne Hlen]]]]]]]]]].
  assert (0 < n)%nat as Hn.
  { destruct rows as [|r rows']; [congruence|]. apply Forall_inv in Hlen. subst n. destruct r; [|cbn; lia]. exfalso.
    inversion Hnum as [|x y l1 l2 Hx Hrest]; subst. inversion Hx; subst. inversion Hlt; subst. apply Forall_inv in Hnb. apply Hnb. now apply line_nil_inv. }
  destruct (Hb _ _ Er) as [Hb1 Hb2]. pose proof (dt_one_line dt D9) as [Hdt _].
  set (H0 := head_part meta (d_type b) (d_unit b) dt).
  assert (text = file_lines H0 (delim_of (splitext path)) rows) as Htext.
  { assert (text = savetxt (delim_of (splitext path)) (lines_text (header_list (ddel (kept meta) "MetaComment") (d_type b) (d_unit b) dt)) (ND2 n rows)) as ->.
    { destruct Hext as [Hx|Hx]; rewrite Hx in *.
      - change (String.eqb ".txt" ".txt") with true in Et. injection Et as <-. reflexivity.
      - change (String.eqb ".csv" ".txt") with false in Et. change (String.eqb ".csv" ".csv") with true in Et. injection Et as <-. reflexivity. }
    rewrite savetxt_lines.
    - unfold H0, head_part, header_list. now rewrite meta_lines_same.
    - unfold header_list. destruct (meta_lines _); discriminate.
    - apply header_list_one_line; try assumption. intros key v Hk. rewrite dget_ddel, dget_kept; [apply Hv, Hk| |];
        intros ->; vm_compute in Hk; intuition discriminate. }
  assert (forall c, comment = MStr c -> dget (fs_run fs ops) path = Some (file_lines (comment_part c ++ H0) (delim_of (splitext path)) rows)) as Hfin.
  { intros c ->. unfold comment_part. destruct c as [|c0 c1].
    - injection H as <-. rewrite run_write, dget_dset_same. cbn [String.eqb app]. now rewrite Htext.
    - rewrite run_write in H. unfold prepend_text_to_file, fs_read in H. rewrite dget_dset_same in H. cbn [bind prepended map app] in H.
      injection H as <-. unfold fs_run. cbn [fold_left fs_step]. unfold content. rewrite !dget_dset_same. cbn [append String.eqb].
      f_equal. unfold file_lines. rewrite map_app, <- app_assoc, lines_text_app.
      rewrite univ_id.
      + rewrite Htext. fold (file_lines H0 (delim_of (splitext path)) rows). f_equal. rewrite <- (map_split_lines "#"). reflexivity.
      + rewrite Htext. apply lines_text_cr. apply Forall_app. split.
        * apply Forall_map, Forall_map. apply Forall_app. split.
          -- eapply Forall_impl; [|apply (header_list_one_line meta (d_type b) (d_unit b) dt); assumption].
             intros x Hx. apply one_line_cons. split; [reflexivity|]. apply one_line_cons. split; [reflexivity|exact Hx].
          -- repeat constructor. intros c2 Hc2. rewrite <- is_break_iff. cbn in Hc2. intuition (subst; discriminate).
        * apply Forall_map, Forall_forall. intros r _. apply data_line_one_line. unfold delim_of. destruct (String.eqb _ _); auto. }
  rewrite dget_kept in Ec by discriminate.
  destruct comment as [c| |]; try (destruct (fs_read _ _); discriminate); try discriminate.
  exists c, b, rows0, (d :: rest), d, rest, dt, s, n, rows. repeat (split; [auto|]). apply Hfin. reflexivity.
Qed.
End Save.
