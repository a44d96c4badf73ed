(** Lemmas about the catalogue file *)
From Verif Require Import PyBase PyStr XReal SpectrumModel SpectralModel MaterialModel FileModel IOSpec PathModel ConfigModel CatalogueModel CatalogueSpec CatalogueProofs RebuildProofs SaveProofs LineProofs CsvModel CsvSpec.
Open Scope string_scope.
Open Scope list_scope.

Lemma xr_nan_dec (x : xr) : {x = NaN} + {x <> NaN}.
Proof. destruct x; (now left) || (right; discriminate). Qed.
Lemma lex_app s1 : forall k s2, lex k (s1 ++ s2)%string = lex (lex k s1) s2.
Proof. induction s1 as [|c s1 IH]; intros k s2; cbn; [reflexivity|apply IH]. Qed.

Lemma sapp_nil s : (s ++ "" = s)%string.
Proof. induction s as [|c s IH]; cbn; [reflexivity|now rewrite IH]. Qed.
Lemma sapp_assoc (a b c : string) : (a ++ b ++ c = (a ++ b) ++ c)%string.
Proof. induction a as [|x a IH]; cbn; [reflexivity|now rewrite IH]. Qed.

Lemma lex_quoted s : forall f line lines,
  lex (mkLex InQuoted f line lines) (doubled s) = mkLex InQuoted (f ++ s)%string line lines.
Proof.
  induction s as [|c s IH]; intros f line lines; [cbn; now rewrite sapp_nil|].
  cbn [doubled]. destruct (Ascii.eqb c quote_char) eqn:E.
  - apply Ascii.eqb_eq in E. subst c. cbn [lex lex_char l_state]. rewrite Ascii.eqb_refl. cbn [lex_char to_state l_state].
    rewrite Ascii.eqb_refl. unfold push, to_state. cbn [l_field l_line l_lines]. rewrite IH, <- sapp_assoc. reflexivity.
  - cbn [lex lex_char l_state]. rewrite E. unfold push. cbn [l_field l_line l_lines]. rewrite IH, <- sapp_assoc. reflexivity.
Qed.

Definition bare (c : ascii) : Prop := Ascii.eqb c comma = false /\ Ascii.eqb c quote_char = false /\ Ascii.eqb c nl = false /\ Ascii.eqb c cr = false.
Fixpoint all_bare (s : string) : Prop := match s with EmptyString => True | String c r => bare c /\ all_bare r end.

Lemma lex_bare s : forall f line lines, all_bare s ->
  lex (mkLex InField f line lines) s = mkLex InField (f ++ s)%string line lines.
Proof.
  induction s as [|c s IH]; intros f line lines B; [cbn; now rewrite sapp_nil|].
  destruct B as [(B1 & B2 & B3 & B4) B]. cbn [lex lex_char l_state]. unfold lex_field. rewrite B3, B4, B1.
  unfold push. cbn [l_field l_line l_lines]. rewrite IH by exact B. now rewrite <- sapp_assoc.
Qed.
(** leading blanks of a line *)
Lemma lex_blank s : forall f line lines, all_bare s ->
  exists st, (st = BlankLine \/ st = InField) /\ lex (mkLex BlankLine f line lines) s = mkLex st (f ++ s)%string line lines.
Proof.
  induction s as [|c s IH]; intros f line lines B; [exists BlankLine; cbn; rewrite sapp_nil; auto|].
  destruct B as [(B1 & B2 & B3 & B4) B]. cbn [lex lex_char l_state]. rewrite B3, B4.
  destruct (is_blank c) eqn:E.
  - unfold push. cbn [l_field l_line l_lines]. destruct (IH (f ++ String c "")%string line lines B) as (st & O & H).
    exists st. split; [exact O|]. rewrite H, <- sapp_assoc. reflexivity.
  - exists InField. split; [auto|]. unfold lex_field. rewrite B3, B4, B1. unfold push. cbn [l_field l_line l_lines].
    rewrite lex_bare by exact B. now rewrite <- sapp_assoc.
Qed.

Lemma needs_quotes_not L s : writable L s -> needs_quotes L s = false -> all_bare s.
Proof.
  intros [_ C]. unfold needs_quotes. rewrite negb_false_iff. unfold chars in C.
  induction s as [|c s IH]; intros H; [exact I|]. cbn [all_chars] in H. apply andb_true_iff in H. destruct H as [H H'].
  split.
  - unfold special in H. rewrite negb_true_iff in H. apply orb_false_iff in H. destruct H as [H Hc].
    apply orb_false_iff in H. destruct H as [H Hn]. apply orb_false_iff in H. destruct H as [Ha Hq].
    repeat split; try assumption. destruct C as [C|C].
    + rewrite C in Hc. exact Hc.
    + apply Ascii.eqb_neq. intros ->. apply C. now left.
  - apply IH; [|exact H']. destruct C as [C|C]; [now left|right]. intros I. apply C. now right.
Qed.

Definition open_at (s : lex_state) : Prop := s = StartRecord \/ s = StartField.
(** after a field the lexer is ready for a separator *)
Lemma lex_csv_field L st s line lines : open_at st -> writable L s ->
  exists st', lex (mkLex st "" line lines) (csv_field L s) = mkLex st' s line lines /\
    ((st' = InField \/ st' = QuoteInQuoted) \/ (st' = BlankLine /\ st = StartRecord) \/ (st' = st /\ s = "")).
Proof.
  intros O W. unfold csv_field. destruct (needs_quotes L s) eqn:E.
  - exists QuoteInQuoted. split; [|auto]. rewrite lex_app.
    assert (lex (mkLex st "" line lines) QUOTE = mkLex InQuoted "" line lines) as -> by (destruct O; subst; reflexivity).
    rewrite lex_app, lex_quoted. reflexivity.
  - apply (needs_quotes_not L s W) in E. destruct s as [|c s]; [exists st; auto 6|].
    destruct E as [(B1 & B2 & B3 & B4) B]. cbn [lex].
    destruct O as [->| ->]; cbn [lex_char l_state].
    + unfold lex_record. rewrite B3, B4. destruct (is_blank c) eqn:E.
      * unfold push. cbn [l_field l_line l_lines]. destruct (lex_blank s (String c "") line lines B) as (st' & O' & H).
        exists st'. split; [exact H|]. destruct O'; subst; auto.
      * exists InField. split; [|auto]. unfold lex_start, lex_field. rewrite B2, B3, B4, B1. unfold push. cbn [l_field l_line l_lines].
        apply lex_bare. exact B.
    + exists InField. split; [|auto]. unfold lex_start, lex_field. rewrite B2, B3, B4, B1. unfold push. cbn [l_field l_line l_lines].
      apply lex_bare. exact B.
Qed.
Lemma lex_comma L st s line lines : open_at st -> writable L s ->
  lex (mkLex st "" line lines) (csv_field L s ++ COMMA)%string = mkLex StartField "" (line ++ [s]) lines.
Proof.
  intros O W. rewrite lex_app. destruct (lex_csv_field L st s line lines O W) as (st' & -> & H).
  destruct H as [[->| ->]|[[-> _]|[-> ->]]]; try reflexivity. destruct O; subst; reflexivity.
Qed.
Lemma lex_newline L s line lines : writable L s ->
  lex (mkLex StartField "" line lines) (csv_field L s ++ NL)%string = mkLex StartRecord "" [] (lines ++ [line ++ [s]]).
Proof.
  intros W. rewrite lex_app. destruct (lex_csv_field L StartField s line lines (or_intror eq_refl) W) as (st' & -> & H).
  destruct H as [[->| ->]|[[_ K]|[-> ->]]]; try reflexivity. discriminate K.
Qed.
Lemma lex_rest L rest : forall s line lines, Forall (writable L) (s :: rest) ->
  lex (mkLex StartField "" line lines) (csv_line L (s :: rest)) = mkLex StartRecord "" [] (lines ++ [line ++ s :: rest]).
Proof.
  unfold csv_line. induction rest as [|t rest IH]; intros s line lines F; inversion_clear F as [|? ? W F'].
  - cbn [map join]. now apply (lex_newline L).
  - change (join COMMA (map (csv_field L) (s :: t :: rest))) with (csv_field L s ++ COMMA ++ join COMMA (map (csv_field L) (t :: rest)))%string.
    rewrite !sapp_assoc. rewrite <- (sapp_assoc _ _ NL), lex_app. rewrite (lex_comma L) by (auto; now right).
    rewrite IH by exact F'. now rewrite <- app_assoc.
Qed.
(** a written line of at least two fields is read as these fields *)
Lemma lex_line L s t rest lines : Forall (writable L) (s :: t :: rest) ->
  lex (mkLex StartRecord "" [] lines) (csv_line L (s :: t :: rest)) = mkLex StartRecord "" [] (lines ++ [s :: t :: rest]).
Proof.
  intros F. inversion_clear F as [|? ? W F'].
  unfold csv_line. change (join COMMA (map (csv_field L) (s :: t :: rest))) with (csv_field L s ++ COMMA ++ join COMMA (map (csv_field L) (t :: rest)))%string.
  rewrite !sapp_assoc. rewrite <- (sapp_assoc _ _ NL), lex_app. rewrite (lex_comma L) by (auto; now left).
  apply (lex_rest L rest t [s] lines F').
Qed.
Definition wide (L : csvlib) (l : list string) : Prop := (2 <= length l)%nat /\ Forall (writable L) l.
Lemma lex_lines L ls : forall lines, Forall (wide L) ls ->
  lex (mkLex StartRecord "" [] lines) (lines_text L ls) = mkLex StartRecord "" [] (lines ++ ls).
Proof.
  induction ls as [|l ls IH]; intros lines F; [now rewrite app_nil_r|]. inversion_clear F as [|? ? [Hl W] F'].
  cbn [lines_text]. rewrite lex_app. destruct l as [|s [|t rest]]; cbn in Hl; try lia.
  rewrite lex_line by exact W. rewrite IH by exact F'. now rewrite <- app_assoc.
Qed.
Lemma csv_lines_back L ls : Forall (wide L) ls -> csv_lines (lines_text L ls) = Ok ls.
Proof. intros F. unfold csv_lines. rewrite lex_lines by exact F. reflexivity. Qed.

Lemma c_string_id s : ~ In nul (chars s) -> c_string s = s.
Proof.
  unfold chars. induction s as [|c s IH]; intros H; [reflexivity|]. cbn [c_string].
  destruct (Ascii.eqb c nul) eqn:E; [apply Ascii.eqb_eq in E; subst; exfalso; apply H; now left|].
  rewrite IH; [reflexivity|]. intros I. apply H. now right.
Qed.
Lemma c_string_ids L l : Forall (writable L) l -> map c_string l = l.
Proof. induction 1 as [|s l [H _] F IH]; [reflexivity|]. cbn [map]. now rewrite IH, c_string_id. Qed.

Lemma columns_writable L : Forall (writable L) columns.
Proof.
  unfold columns. repeat (constructor; [split; [|right]; cbn; intros H; repeat (destruct H as [H|H]; [discriminate H|]); exact H|]). constructor.
Qed.
Lemma cell_text_writable L r col c : csv_ok L -> cell_writable L c -> writable L (cell_text L r col c).
Proof.
  intros O H. destruct c; cbn; [now apply H| |apply (ok_obj L O)]. split; [intros []|right; intros []].
Qed.
Lemma num_text_writable L x : csv_ok L -> writable L (num_text L x).
Proof.
  intros O. destruct (xr_nan_dec x) as [->|N].
  - split; [intros []|right; intros []].
  - replace (num_text L x) with (show_num L x) by (destruct x; try reflexivity; congruence). apply (ok_shown L O x N).
Qed.
Lemma row_texts_writable L r : csv_ok L -> texts_writable L r -> Forall (writable L) (row_texts L r).
Proof.
  intros O (H1 & H2 & H3 & H4 & H5 & H6 & H7 & H8 & H9 & H10). unfold row_texts.
  repeat (constructor; [first [now apply cell_text_writable|now apply num_text_writable]|]). constructor.
Qed.
Lemma to_csv_lines L f : csv_ok L -> Forall (texts_writable L) (rows_of f) ->
  csv_lines (to_csv L f) = Ok (columns :: map (row_texts L) (rows_of f)).
Proof.
  intros O F. apply csv_lines_back. constructor.
  - split; [cbn; lia|apply columns_writable].
  - induction F as [|r l W F IH]; constructor; [|exact IH]. split; [cbn; lia|now apply row_texts_writable].
Qed.

Lemma read_reference_back L x : csv_ok L -> exists y, read_reference L (num_text L x) = Ok y /\ reference_back L x y.
Proof.
  intros O. destruct (xr_nan_dec x) as [->|N]; [exists NaN; split; [reflexivity|now left]|].
  replace (num_text L x) with (show_num L x) by (destruct x; try reflexivity; congruence).
  destruct (ok_shown L O x N) as (E & _ & y & H). exists y. split; [|right; auto].
  unfold read_reference, read_bound. apply String.eqb_neq in E. now rewrite E, H.
Qed.
Lemma read_bound_back L x : csv_ok L -> x <> NaN -> exists y, read_bound L (num_text L x) = Ok y /\ number_back L x y.
Proof.
  intros O N. replace (num_text L x) with (show_num L x) by (destruct x; try reflexivity; congruence).
  destruct (ok_shown L O x N) as (E & _ & y & H). exists y. split; [|exact H]. unfold read_bound. now rewrite H.
Qed.
Lemma text_back_cell L r col c : text_back L r col c (KStr (cell_text L r col c)).
Proof. destruct c; reflexivity. Qed.

Lemma read_line_texts L r : csv_ok L -> texts_writable L r ->
  read_line L (row_texts L r) =
  (do lo <- read_bound L (num_text L (r_lo r)); do hi <- read_bound L (num_text L (r_hi r));
   do rn <- read_reference L (num_text L (r_n r)); do rk <- read_reference L (num_text L (r_k r));
   Ok (mkRow (KStr (cell_text L r "Alias" (r_alias r))) (KStr (cell_text L r "Name" (r_name r))) (KStr (cell_text L r "FullName" (r_full r)))
         (KStr (cell_text L r "Author" (r_author r))) (KStr (cell_text L r "Comment" (r_comment r))) (KStr (cell_text L r "Reference" (r_ref r)))
         (KStr (cell_text L r "SpectrumType" (r_stype r))) (KStr (cell_text L r "Unit" (r_unit r)))
         lo hi rn rk (KStr (cell_text L r "Path" (r_path r))) (KStr (cell_text L r "Module" (r_module r))))).
Proof.
  intros O W. unfold read_line. rewrite (c_string_ids L) by now apply row_texts_writable. reflexivity.
Qed.
Lemma read_line_back L r : csv_ok L -> texts_writable L r -> bounded r ->
  exists r', read_line L (row_texts L r) = Ok r' /\ row_back L r r'.
Proof.
  intros O W [B1 B2]. rewrite read_line_texts by assumption.
  destruct (read_bound_back L _ O B1) as (lo & -> & Hlo). destruct (read_bound_back L _ O B2) as (hi & -> & Hhi).
  destruct (read_reference_back L (r_n r) O) as (n & -> & Hn). destruct (read_reference_back L (r_k r) O) as (k & -> & Hk).
  eexists. split; [reflexivity|]. constructor; try apply text_back_cell; assumption.
Qed.
Lemma read_line_unbounded L r : csv_ok L -> texts_writable L r -> ~ bounded r ->
  read_line L (row_texts L r) = Raise ValueError.
Proof.
  intros O W B. rewrite read_line_texts by assumption.
  assert (N : read_bound L (num_text L NaN) = Raise ValueError) by (unfold read_bound, num_text; now rewrite (ok_empty L O)).
  destruct (xr_nan_dec (r_lo r)) as [E|B1]; [now rewrite E, N|].
  destruct (read_bound_back L _ O B1) as (lo & -> & _). cbn [bind].
  destruct (xr_nan_dec (r_hi r)) as [E|B2]; [now rewrite E, N|]. destruct B. split; assumption.
Qed.
Lemma read_lines_back L rows : csv_ok L -> Forall (texts_writable L) rows -> Forall bounded rows ->
  exists rows', map_res (read_line L) (map (row_texts L) rows) = Ok rows' /\ Forall2 (row_back L) rows rows'.
Proof.
  intros O W. induction W as [|r l Wr W IH]; intros B; [exists []; split; [reflexivity|constructor]|].
  inversion_clear B as [|? ? Br B']. destruct (IH B') as (l' & E & F). destruct (read_line_back L r O Wr Br) as (r' & Er & Fr).
  exists (r' :: l'). cbn [map map_res]. rewrite Er. cbn [bind]. rewrite E. split; [reflexivity|now constructor].
Qed.
Lemma read_lines_unbounded L rows : csv_ok L -> Forall (texts_writable L) rows -> Exists (fun r => ~ bounded r) rows ->
  map_res (read_line L) (map (row_texts L) rows) = Raise ValueError.
Proof.
  intros O W. induction W as [|r l Wr W IH]; intros B; [inversion B|]. cbn [map map_res].
  destruct (xr_nan_dec (r_lo r)) as [E1|N1]; [rewrite read_line_unbounded; auto; intros [K _]; contradiction|].
  destruct (xr_nan_dec (r_hi r)) as [E2|N2]; [rewrite read_line_unbounded; auto; intros [_ K]; contradiction|].
  destruct (read_line_back L r O Wr (conj N1 N2)) as (r' & -> & _). cbn [bind].
  inversion_clear B as [? ? K|? ? K]; [destruct K; split; assumption|]. now rewrite IH.
Qed.
Lemma read_csv_back L f : csv_ok L -> Forall (texts_writable L) (rows_of f) -> Forall bounded (rows_of f) ->
  exists rows', read_csv L (to_csv L f) = Ok rows' /\ Forall2 (row_back L) (rows_of f) rows'.
Proof.
  intros O W B. unfold read_csv. rewrite to_csv_lines by assumption. cbn [bind].
  rewrite (c_string_ids L) by apply columns_writable. destruct (list_eq_dec string_dec columns columns) as [_|K]; [|now destruct K].
  now apply read_lines_back.
Qed.
Lemma read_csv_unbounded L f : csv_ok L -> Forall (texts_writable L) (rows_of f) -> Exists (fun r => ~ bounded r) (rows_of f) ->
  read_csv L (to_csv L f) = Raise ValueError.
Proof.
  intros O W B. unfold read_csv. rewrite to_csv_lines by assumption. cbn [bind].
  rewrite (c_string_ids L) by apply columns_writable. destruct (list_eq_dec string_dec columns columns) as [_|K]; [|now destruct K].
  now apply read_lines_unbounded.
Qed.

(** ** opening again *)
Lemma reopen X W cfg rb cat W' : mk_catalogue X W cfg rb = Ok cat ->
  w_checks W' = w_checks W -> w_qgrid W' = w_qgrid W ->
  mk_catalogue X W' cfg (RStr "None") =
  (do rows <- w_csv W' (path_join (c_base cat) (c_file cat));
   Ok (mkCat (c_base cat) (c_file cat) (c_interactive cat) (c_ref cat) (numbered rows))).
Proof.
  intros H C Q. unfold mk_catalogue in *. rewrite C, Q.
  inv_bind H u Eu. rewrite Eu. cbn [bind]. inv_bind H ref Eref. rewrite Eref. cbn [bind].
  inv_bind H v Ev. rewrite Ev. cbn [bind]. inv_bind H base Eb. rewrite Eb. cbn [bind].
  inv_bind H v2 Ev2. rewrite Ev2. cbn [bind]. inv_bind H file Ef. rewrite Ef. cbn [bind].
  inv_bind H df Ed. inv_bind H m Em. inv_bind H mods Emods. inv_bind H df2 Ed2. inv_bind H v3 Ev3. inv_bind H i Ei.
  cbn [rebuild_is String.eqb]. change (rebuild_is (RStr "None") "All") with false. change (rebuild_is (RStr "None") "None") with true.
  destruct (i && negb (w_qgrid W)) eqn:G; [discriminate|]. injection H as <-. cbn [c_base c_file c_interactive c_ref].
  destruct (w_csv W' (path_join base file)) as [rows|e]; cbn [bind]; [|reflexivity].
  rewrite Em. cbn [bind]. rewrite Emods. cbn [bind]. rewrite Ev3. cbn [bind]. rewrite Ei. cbn [bind]. now rewrite G.
Qed.
Lemma reopen_error X W cfg rb cat W' rb' e : mk_catalogue X W cfg rb = Ok cat ->
  w_checks W' = w_checks W -> rb' <> RStr "All" ->
  w_csv W' (path_join (c_base cat) (c_file cat)) = Raise e ->
  mk_catalogue X W' cfg rb' = Raise e.
Proof.
  intros H C N K. unfold mk_catalogue in *. rewrite C.
  inv_bind H u Eu. rewrite Eu. cbn [bind]. inv_bind H ref Eref. rewrite Eref. cbn [bind].
  inv_bind H v Ev. rewrite Ev. cbn [bind]. inv_bind H base Eb. rewrite Eb. cbn [bind].
  inv_bind H v2 Ev2. rewrite Ev2. cbn [bind]. inv_bind H file Ef. rewrite Ef. cbn [bind].
  inv_bind H df Ed. inv_bind H m Em. inv_bind H mods Emods. inv_bind H df2 Ed2. inv_bind H v3 Ev3. inv_bind H i Ei.
  destruct (i && negb (w_qgrid W)) eqn:G; [discriminate|]. injection H as <-. cbn [c_base c_file] in K.
  destruct (rebuild_is rb' "All") eqn:R; [apply rebuild_is_iff in R; contradiction|]. rewrite K. reflexivity.
Qed.
Lemma saved_csv L W c f : w_csv (save_to_file L W (set_database c f)) (path_join (c_base c) (c_file c)) = read_csv L (to_csv L f).
Proof. cbn. now rewrite String.eqb_refl. Qed.

Lemma text_back_str L r col c s : c <> KObj -> s <> "" -> (text_back L r col c (KStr s) <-> c = KStr s).
Proof.
  intros O N. destruct c; cbn; split; intros H; try congruence.
Qed.
Lemma text_back_same L r col c c' s : text_back L r col c c' -> c = KStr s -> c' = KStr s.
Proof. intros H ->. exact H. Qed.
Lemma text_back_inv L r col c c' s : text_back L r col c c' -> c <> KObj -> s <> "" -> c' = KStr s -> c = KStr s.
Proof. intros H O N ->. destruct c; cbn in H; congruence. Qed.

Lemma back_first L a r rows rows' : a <> "" -> Forall (fun r => r_alias r <> KObj) rows -> Forall2 (row_back L) rows rows' ->
  forall l1 l2, rows = l1 ++ r :: l2 -> r_alias r = KStr a -> (forall x, In x l1 -> r_alias x <> KStr a) ->
  exists l1' r' l2', rows' = l1' ++ r' :: l2' /\ row_back L r r' /\ (forall x, In x l1' -> r_alias x <> KStr a).
Proof.
  intros Na O F l1. revert rows rows' O F. induction l1 as [|x l1 IH]; intros rows rows' O F l2 E A N.
  - subst rows. inversion_clear F as [|? r' ? l2' H F']. exists [], r', l2'. repeat split; auto; apply H.
  - subst rows. inversion_clear F as [|? x' ? rows'' H F']. inversion_clear O as [|? ? Ox O'].
    destruct (IH _ _ O' F' l2 eq_refl A (fun y I => N y (or_intror I))) as (l1' & r' & l2' & -> & B & N').
    exists (x' :: l1'), r', l2'. split; [reflexivity|]. split; [exact B|]. intros y [<-|I]; [|now apply N'].
    intros K. eapply text_back_inv in K; [|apply H|exact Ox|exact Na]. revert K. apply N. now left.
Qed.
Lemma first_rows f a r : first_with f a r <-> exists l1 l2, rows_of f = l1 ++ r :: l2 /\ r_alias r = KStr a /\ (forall x, In x l1 -> r_alias x <> KStr a).
Proof.
  unfold rows_of. split.
  - intros (f1 & l & f2 & -> & A & N). exists (map snd f1), (map snd f2). rewrite map_app. repeat split; auto.
    intros x I. apply in_map_iff in I. destruct I as ([l' r'] & <- & I). apply (N l' r' I).
  - intros (l1 & l2 & E & A & N). apply map_eq_app in E. destruct E as (f1 & g & -> & E1 & E2).
    destruct g as [|[l r'] f2]; [discriminate|]. cbn in E2. injection E2 as Er _. subst r'. exists f1, l, f2. repeat split; auto.
    intros l' r' I. apply N. rewrite <- E1. apply (in_map snd _ _ I).
Qed.
Lemma located_back L base r r' path t u : row_back L r r' -> located base r path t u -> located base r' path t u.
Proof.
  intros B (m & p & comps & Hm & Pm & Hp & T & E & Ht & Hu). exists m, p, comps.
  repeat split; try assumption; try apply T; try apply Pm; (eapply text_back_same; [apply B|assumption]).
Qed.
Lemma module_rows_back L m rows rows' : m <> "" -> Forall (fun r => r_module r <> KObj) rows -> Forall2 (row_back L) rows rows' ->
  Forall2 (row_back L) (module_rows m rows) (module_rows m rows').
Proof.
  intros Nm O F. induction F as [|r r' l l' B F IH]; [constructor|]. inversion_clear O as [|? ? Or O'].
  cbn [module_rows]. pose proof (b_module _ _ _ B) as H. destruct (r_module r) as [s| |] eqn:E; cbn in H; [rewrite H| |now destruct Or].
  - destruct (string_dec s m); [constructor; [exact B|]|]; now apply IH.
  - rewrite H. destruct (string_dec "" m) as [K|_]; [now destruct Nm|]. now apply IH.
Qed.
Lemma row_at_rows f p r : row_at f p r <-> nth_error (rows_of f) p = Some r.
Proof.
  unfold row_at, rows_of. rewrite nth_error_map. destruct (nth_error f p) as [[l r']|] eqn:E; cbn; split; intros H.
  - destruct H as [l' H]. injection H as _ <-. reflexivity.
  - injection H as <-. now exists l.
  - destruct H as [l' H]. discriminate.
  - discriminate.
Qed.
Lemma Forall2_nth {A B} (P : A -> B -> Prop) l l' : Forall2 P l l' -> forall p x, nth_error l p = Some x -> exists y, nth_error l' p = Some y /\ P x y.
Proof.
  induction 1 as [|a b l l' H F IH]; intros p x E; [destruct p; discriminate|]. destruct p as [|p]; cbn in *; [injection E as <-; eauto|now apply IH].
Qed.

(** ** carriage returns *)
Lemma lex_char_lines k c : exists more, l_lines (lex_char k c) = l_lines k ++ more.
Proof.
  destruct k as [st fl ln ls]. unfold lex_char, lex_record, lex_start, lex_field, end_line, end_field, push, to_state.
  destruct st; cbn [l_state l_lines l_field l_line];
  repeat match goal with |- context[if ?b then _ else _] => destruct b end; cbn [l_lines];
  solve [exists []; now rewrite app_nil_r | eexists; reflexivity].
Qed.
Lemma lex_lines_grow s : forall k, exists more, l_lines (lex k s) = l_lines k ++ more.
Proof.
  induction s as [|c s IH]; intros k; [exists []; now rewrite app_nil_r|]. cbn [lex].
  destruct (IH (lex_char k c)) as (m & ->). destruct (lex_char_lines k c) as (m' & ->). exists (m' ++ m). now rewrite app_assoc.
Qed.
Lemma csv_lines_prefix s1 s2 ls : lex (mkLex StartRecord "" [] []) s1 = mkLex AfterCr "" [] ls ->
  csv_lines (s1 ++ s2)%string = Raise ValueError \/ exists more, csv_lines (s1 ++ s2)%string = Ok (ls ++ more).
Proof.
  intros H. unfold csv_lines. rewrite lex_app, H. destruct (lex_lines_grow s2 (mkLex AfterCr "" [] ls)) as (more & E). cbn [l_lines] in E.
  unfold lex_end. destruct (l_state _); try (right; exists more; congruence); try (now left);
    (right; unfold end_line; cbn [l_lines]; rewrite E, <- app_assoc; eexists; reflexivity).
Qed.
Lemma bare_unquoted L s : quotes_cr L = false -> (forall c, In c (chars s) -> c <> comma /\ c <> quote_char /\ c <> nl) -> csv_field L s = s.
Proof.
  intros Q H. unfold csv_field, needs_quotes. replace (all_chars (fun c => negb (special L c)) s) with true; [reflexivity|].
  symmetry. unfold chars in H. induction s as [|c s IH]; [reflexivity|]. cbn [all_chars]. rewrite IH by (intros d I; apply H; now right).
  rewrite andb_true_r, negb_true_iff. unfold special. rewrite Q. destruct (H c (or_introl eq_refl)) as (H1 & H2 & H3).
  apply Ascii.eqb_neq in H1. apply Ascii.eqb_neq in H2. apply Ascii.eqb_neq in H3. now rewrite H1, H2, H3.
Qed.
Lemma lines_text_app L a b : lines_text L (a ++ b) = (lines_text L a ++ lines_text L b)%string.
Proof. induction a as [|x a IH]; [reflexivity|]. cbn [app lines_text]. now rewrite IH, sapp_assoc. Qed.
Lemma join_two sep a b l : join sep (a :: b :: l) = (a ++ sep ++ join sep (b :: l))%string.
Proof. reflexivity. Qed.
(** an unquoted carriage return ends the line in the middle of the comment *)
Lemma lex_cut L r a b lines : quotes_cr L = false -> csv_ok L ->
  cell_writable L (r_alias r) -> cell_writable L (r_name r) -> cell_writable L (r_full r) -> cell_writable L (r_author r) ->
  r_comment r = KStr (a ++ String cr b)%string ->
  (forall c, In c (chars (a ++ b)) -> c <> comma /\ c <> quote_char /\ c <> nl) -> writable L a ->
  exists s1 s2, csv_line L (row_texts L r) = (s1 ++ s2)%string /\
    lex (mkLex StartRecord "" [] lines) s1 =
    mkLex AfterCr "" [] (lines ++ [[cell_text L r "Alias" (r_alias r); cell_text L r "Name" (r_name r);
                                    cell_text L r "FullName" (r_full r); cell_text L r "Author" (r_author r); a]]).
Proof.
  intros Q O W1 W2 W3 W4 E H Wa. unfold csv_line, row_texts. rewrite E. cbn [cell_text map].
  assert (C : csv_field L (a ++ String cr b) = (a ++ String cr b)%string).
  { apply bare_unquoted; [exact Q|]. intros c I. change (In c (chars (a ++ String cr b))) in I. rewrite chars_app in I. apply in_app_iff in I.
    destruct I as [I|[<-|I]]; [apply H; rewrite chars_app; apply in_app_iff; now left| |apply H; rewrite chars_app; apply in_app_iff; now right].
    repeat split; discriminate. }
  rewrite C. rewrite !join_two.
  match goal with |- context[join COMMA ?l] => set (rest := join COMMA l) end.
  exists ((csv_field L (cell_text L r "Alias" (r_alias r)) ++ COMMA) ++ (csv_field L (cell_text L r "Name" (r_name r)) ++ COMMA) ++
          (csv_field L (cell_text L r "FullName" (r_full r)) ++ COMMA) ++ (csv_field L (cell_text L r "Author" (r_author r)) ++ COMMA) ++
          a ++ String cr "")%string.
  eexists. split.
  - rewrite <- !sapp_assoc. cbn [append]. reflexivity.
  - rewrite lex_app, (lex_comma L StartRecord) by (auto using cell_text_writable; now left).
    rewrite lex_app, (lex_comma L StartField) by (auto using cell_text_writable; now right).
    rewrite lex_app, (lex_comma L StartField) by (auto using cell_text_writable; now right).
    rewrite lex_app, (lex_comma L StartField) by (auto using cell_text_writable; now right).
    rewrite lex_app. assert (csv_field L a = a) as <-.
    { apply bare_unquoted; [exact Q|]. intros c I. apply H. rewrite chars_app. apply in_app_iff. now left. }
    match goal with |- context[lex (mkLex StartField "" ?ln ?ls) (csv_field L a)] =>
      destruct (lex_csv_field L StartField a ln ls (or_intror eq_refl) Wa) as (st' & -> & K) end.
    assert (csv_field L a = a) as ->.
    { apply bare_unquoted; [exact Q|]. intros c I. apply H. rewrite chars_app. apply in_app_iff. now left. }
    destruct K as [[->| ->]|[[_ K]|[-> ->]]]; try reflexivity. discriminate K.
Qed.
Lemma read_csv_cut L f1 l r f2 a b : quotes_cr L = false -> csv_ok L -> Forall (texts_writable L) (rows_of f1) ->
  cell_writable L (r_alias r) -> cell_writable L (r_name r) -> cell_writable L (r_full r) -> cell_writable L (r_author r) ->
  r_comment r = KStr (a ++ String cr b)%string ->
  (forall c, In c (chars (a ++ b)) -> c <> comma /\ c <> quote_char /\ c <> nl) -> writable L a ->
  read_csv L (to_csv L (f1 ++ (l, r) :: f2)) = Raise ValueError.
Proof.
  intros Q O W1 Wa Wn Wf Wu E H Wt. unfold read_csv, to_csv, rows_of. rewrite !map_app. cbn [map snd].
  change (columns :: map (row_texts L) (map snd f1) ++ row_texts L r :: map (row_texts L) (map snd f2))
    with ((columns :: map (row_texts L) (map snd f1)) ++ row_texts L r :: map (row_texts L) (map snd f2)).
  rewrite lines_text_app. cbn [lines_text].
  destruct (lex_cut L r a b (columns :: map (row_texts L) (map snd f1)) Q O Wa Wn Wf Wu E H Wt) as (s1 & s2 & Es & K).
  change (csv_line L columns ++ lines_text L (map (row_texts L) (map snd f1)))%string with (lines_text L (columns :: map (row_texts L) (map snd f1))).
  rewrite Es. rewrite <- sapp_assoc.
  destruct (csv_lines_prefix (lines_text L (columns :: map (row_texts L) (map snd f1)) ++ s1) (s2 ++ lines_text L (map (row_texts L) (map snd f2)))
     ((columns :: map (row_texts L) (map snd f1)) ++ [[cell_text L r "Alias" (r_alias r); cell_text L r "Name" (r_name r);
                                    cell_text L r "FullName" (r_full r); cell_text L r "Author" (r_author r); a]])) as [G|(more & G)].
  - rewrite lex_app, lex_lines; [exact K|]. constructor; [split; [cbn; lia|apply columns_writable]|].
    clear K. unfold rows_of in W1. induction W1 as [|x rows Wx F IH]; constructor; [|exact IH]. split; [cbn; lia|now apply row_texts_writable].
  - rewrite <- sapp_assoc in G. rewrite G. reflexivity.
  - rewrite <- sapp_assoc in G. rewrite G. cbn [bind app]. rewrite (c_string_ids L) by apply columns_writable.
    destruct (list_eq_dec string_dec columns columns) as [_|D]; [|now destruct D].
    clear - O W1. unfold rows_of in W1. induction W1 as [|x rows Wx F IH].
    + cbn [map app map_res]. unfold read_line at 1. unfold padded. cbn [map length Nat.sub repeat app].
      unfold read_bound. rewrite (ok_empty L O). reflexivity.
    + cbn [map app map_res]. destruct (xr_nan_dec (r_lo x)) as [E1|N1]; [rewrite read_line_unbounded; auto; intros [D _]; contradiction|].
      destruct (xr_nan_dec (r_hi x)) as [E2|N2]; [rewrite read_line_unbounded; auto; intros [_ D]; contradiction|].
      destruct (read_line_back L x O Wx (conj N1 N2)) as (r' & -> & _). cbn [bind]. rewrite IH. reflexivity.
Qed.
