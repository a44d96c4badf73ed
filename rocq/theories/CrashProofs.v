(** Proofs about beginnings of a csv file. *)
From Verif Require Import PyBase PyStr XReal SpectrumModel SpectralModel MaterialModel FileModel IOSpec SaveSpec PathModel ConfigModel CatalogueModel CatalogueSpec CatalogueProofs SaveProofs SaveMoreProofs LineProofs CsvModel CsvSpec CsvProofs CrashSpec.
Open Scope string_scope.
Open Scope list_scope.

Lemma prefix_cons a c s : prefix_of a (String c s) -> a = "" \/ exists b, a = String c b /\ prefix_of b s.
Proof. intros [r E]. destruct a as [|d a]; [now left|]. cbn in E. injection E as <- ->. right. exists a. split; [reflexivity|now exists r]. Qed.
Lemma prefix_add c a s : prefix_of a s -> prefix_of (String c a) (String c s).
Proof. intros [r ->]. now exists r. Qed.
Lemma prefix_front x a s : prefix_of a s -> prefix_of (x ++ a)%string (x ++ s)%string.
Proof. intros [r ->]. exists r. apply sapp_assoc. Qed.
(** a beginning of a concatenation *)
Lemma prefix_app t : forall a b, prefix_of t (a ++ b)%string -> prefix_of t a \/ exists p, t = (a ++ p)%string /\ prefix_of p b.
Proof.
  induction t as [|c t IH]; intros a b H; [left; apply prefix_empty|]. destruct a as [|d a].
  - right. exists (String c t). split; [reflexivity|exact H].
  - cbn in H. apply prefix_cons in H. destruct H as [H|(t' & E & H)]; [discriminate|]. injection E as -> <-.
    destruct (IH a b H) as [P|(p & -> & P)]; [left; now apply prefix_add|right; now exists p].
Qed.

(** ** a beginning of a field *)
Lemma lex_quoted_cut s : forall p f line lines, prefix_of p (doubled s) -> exists st q,
  lex (mkLex InQuoted f line lines) p = mkLex st (f ++ q)%string line lines /\ (st = InQuoted \/ st = QuoteInQuoted) /\ prefix_of q s.
Proof.
  induction s as [|c s IH]; intros p f line lines H.
  - destruct H as [r E]. destruct p; [|discriminate]. exists InQuoted, "". cbn. rewrite sapp_nil. auto using prefix_refl.
  - cbn [doubled] in H. destruct (Ascii.eqb c quote_char) eqn:E.
    + apply prefix_cons in H. destruct H as [->|(p1 & -> & H)].
      { exists InQuoted, "". cbn. rewrite sapp_nil. auto using prefix_empty. }
      apply prefix_cons in H. destruct H as [->|(p2 & -> & H)].
      { exists QuoteInQuoted, "". cbn [lex]. unfold lex_char. cbn [l_state]. rewrite E. unfold to_state. cbn. rewrite sapp_nil. auto using prefix_empty. }
      cbn [lex]. unfold lex_char at 2. cbn [l_state]. rewrite E. unfold lex_char. unfold to_state. cbn [l_state]. rewrite E. unfold push. cbn [l_field l_line l_lines].
      destruct (IH p2 (f ++ String c "")%string line lines H) as (st & q & -> & S & P).
      exists st, (String c q). split; [|split; [exact S|now apply prefix_add]]. f_equal. rewrite <- sapp_assoc. reflexivity.
    + apply prefix_cons in H. destruct H as [->|(p1 & -> & H)].
      { exists InQuoted, "". cbn. rewrite sapp_nil. auto using prefix_empty. }
      cbn [lex lex_char l_state]. rewrite E. unfold push. cbn [l_field l_line l_lines].
      destruct (IH p1 (f ++ String c "")%string line lines H) as (st & q & -> & S & P).
      exists st, (String c q). split; [|split; [exact S|now apply prefix_add]]. f_equal. rewrite <- sapp_assoc. reflexivity.
Qed.
Lemma bare_prefix p s : prefix_of p s -> all_bare s -> all_bare p.
Proof.
  intros [r ->]. induction p as [|c p IH]; [intros; exact I|]. cbn. intros [H1 H2]. split; [exact H1|now apply IH].
Qed.
Lemma bare_field s L : all_bare s -> needs_quotes L s = false -> csv_field L s = s.
Proof. intros _ E. unfold csv_field. now rewrite E. Qed.

(** the states at the end of a beginning of a field *)
Lemma lex_field_cut L st s p line lines : open_at st -> writable L s -> prefix_of p (csv_field L s) ->
  exists st' q, lex (mkLex st "" line lines) p = mkLex st' q line lines /\ prefix_of q s /\
    (st' = InQuoted \/ st' = InField \/ st' = QuoteInQuoted \/ (st' = BlankLine /\ st = StartRecord) \/ (st' = st /\ q = "")).
Proof.
  intros O W. unfold csv_field. destruct (needs_quotes L s) eqn:E; intros H.
  - unfold QUOTE in H. cbn [append] in H. apply prefix_cons in H. destruct H as [->|(p1 & -> & H)].
    { exists st, "". cbn. split; [reflexivity|]. split; [apply prefix_empty|auto 6]. }
    assert (Q : lex (mkLex st "" line lines) (String quote_char p1) = lex (mkLex InQuoted "" line lines) p1)
      by (destruct O; subst; reflexivity).
    rewrite Q. apply prefix_app in H. destruct H as [H|(p2 & -> & H)].
    + destruct (lex_quoted_cut s p1 "" line lines H) as (st' & q & -> & [->| ->] & P); eexists; exists q; (split; [reflexivity|auto 6]).
    + rewrite lex_app, lex_quoted. apply prefix_cons in H. destruct H as [->|(p3 & -> & [r K])].
      * exists InQuoted, s. split; [reflexivity|]. auto using prefix_refl.
      * destruct p3; [|discriminate]. exists QuoteInQuoted, s. split; [reflexivity|]. auto 6 using prefix_refl.
  - pose proof (bare_prefix p s H (needs_quotes_not L s W E)) as B.
    destruct p as [|c p]; [exists st, ""; cbn; split; [reflexivity|]; split; [apply prefix_empty|auto 6]|].
    destruct B as [(B1 & B2 & B3 & B4) B]. destruct O as [->| ->].
    + destruct (is_blank c) eqn:Eb.
      * destruct (lex_blank p (String c "") line lines B) as (st' & S & El). exists st', (String c p).
        split; [|split; [exact H|destruct S as [->| ->]; auto 6]].
        cbn [lex lex_char l_state]. unfold lex_record. rewrite B3, B4, Eb. exact El.
      * exists InField, (String c p). split; [|auto 6].
        cbn [lex lex_char l_state]. unfold lex_record. rewrite B3, B4, Eb. unfold lex_start. rewrite B2. unfold lex_field. rewrite B3, B4, B1.
        apply (lex_bare p (String c "") line lines B).
    + exists InField, (String c p). split; [|auto 6].
      cbn [lex lex_char l_state]. unfold lex_start. rewrite B2. unfold lex_field. rewrite B3, B4, B1.
      apply (lex_bare p (String c "") line lines B).
Qed.

(** ** a beginning of a line *)
Definition cut_line (fields line : list string) : Prop :=
  exists done s rest q, fields = done ++ s :: rest /\ prefix_of q s /\ line = done ++ [q].
Lemma cut_line_cons s fields line : cut_line fields line -> cut_line (s :: fields) (s :: line).
Proof. intros (d & t & rest & q & -> & P & ->). exists (s :: d), t, rest, q. auto. Qed.
Lemma writable_prefix L q s : prefix_of q s -> writable L s -> writable L q.
Proof.
  intros [r ->] [N C]. split.
  - intros I. apply N. rewrite chars_app. apply in_or_app. now left.
  - destruct C as [C|C]; [now left|right]. intros I. apply C. rewrite chars_app. apply in_or_app. now left.
Qed.
(** a beginning of one field, at the end of the file *)
Lemma lex_end_field L st s p line lines : open_at st -> writable L s -> prefix_of p (csv_field L s) ->
  (lex_end (lex (mkLex st "" line lines) p) = Raise ValueError \/
   (st = StartRecord /\ lex_end (lex (mkLex st "" line lines) p) = Ok lines)) \/
  exists q, prefix_of q s /\ lex_end (lex (mkLex st "" line lines) p) = Ok (lines ++ [line ++ [q]]).
Proof.
  intros O W H. destruct (lex_field_cut L st s p line lines O W H) as (st' & q & -> & P & [->|[->|[->|[[-> ->]|[-> ->]]]]]).
  - left. now left.
  - right. now exists q.
  - right. now exists q.
  - left. right. auto.
  - destruct O as [->| ->]; [left; right; auto|right; now exists ""].
Qed.
Lemma lex_rest_cut L rest : forall s p line lines, Forall (writable L) (s :: rest) -> prefix_of p (csv_line L (s :: rest)) ->
  lex_end (lex (mkLex StartField "" line lines) p) = Raise ValueError \/
  exists cut, cut_line (s :: rest) cut /\ lex_end (lex (mkLex StartField "" line lines) p) = Ok (lines ++ [line ++ cut]).
Proof.
  induction rest as [|t rest IH]; intros s p line lines F H; inversion_clear F as [|? ? W F'].
  - unfold csv_line in H. cbn [map join] in H. apply prefix_app in H. destruct H as [H|(p' & -> & H)].
    + destruct (lex_end_field L StartField s p line lines (or_intror eq_refl) W H) as [[E|[K _]]|(q & P & E)]; [auto|discriminate|].
      right. exists [q]. split; [now exists [], s, [], q|exact E].
    + unfold NL in H. apply prefix_cons in H. destruct H as [->|(p2 & -> & [r K])].
      * rewrite sapp_nil. destruct (lex_end_field L StartField s (csv_field L s) line lines (or_intror eq_refl) W (prefix_refl _)) as [[E|[K _]]|(q & P & E)]; [auto|discriminate|].
        right. exists [q]. split; [now exists [], s, [], q|exact E].
      * destruct p2; [|discriminate]. change (String nl "") with NL. rewrite (lex_newline L) by exact W.
        right. exists [s]. split; [exists [], s, [], s; auto using prefix_refl|reflexivity].
  - change (csv_line L (s :: t :: rest)) with ((csv_field L s ++ COMMA ++ join COMMA (map (csv_field L) (t :: rest))) ++ NL)%string in H.
    rewrite !sapp_assoc in H. rewrite <- (sapp_assoc _ _ NL) in H.
    apply prefix_app in H. destruct H as [H|(p' & -> & H)].
    + apply prefix_app in H. destruct H as [H|(p' & -> & H)].
      * destruct (lex_end_field L StartField s p line lines (or_intror eq_refl) W H) as [[E|[K _]]|(q & P & E)]; [auto|discriminate|].
        right. exists [q]. split; [now exists [], s, (t :: rest), q|exact E].
      * apply prefix_cons in H. destruct H as [->|(p2 & -> & [r K])].
        -- rewrite sapp_nil. destruct (lex_end_field L StartField s (csv_field L s) line lines (or_intror eq_refl) W (prefix_refl _)) as [[E|[K _]]|(q & P & E)]; [auto|discriminate|].
           right. exists [q]. split; [now exists [], s, (t :: rest), q|exact E].
        -- destruct p2; [|discriminate]. change (String comma "") with COMMA. rewrite (lex_comma L) by (auto; now right).
           right. exists [s; ""]. split; [exists [s], t, rest, ""; auto using prefix_empty|]. cbn. now rewrite <- app_assoc.
    + rewrite lex_app, (lex_comma L) by (auto; now right).
      destruct (IH t p' (line ++ [s]) lines F' H) as [E|(cut & C & E)]; [now left|]. right. exists (s :: cut).
      split; [now apply cut_line_cons|]. rewrite E. now rewrite <- app_assoc.
Qed.
Lemma lex_line_cut L s t rest p lines : Forall (writable L) (s :: t :: rest) -> prefix_of p (csv_line L (s :: t :: rest)) ->
  lex_end (lex (mkLex StartRecord "" [] lines) p) = Raise ValueError \/
  lex_end (lex (mkLex StartRecord "" [] lines) p) = Ok lines \/
  exists cut, cut_line (s :: t :: rest) cut /\ lex_end (lex (mkLex StartRecord "" [] lines) p) = Ok (lines ++ [cut]).
Proof.
  intros F H. inversion_clear F as [|? ? W F'].
  change (csv_line L (s :: t :: rest)) with ((csv_field L s ++ COMMA ++ join COMMA (map (csv_field L) (t :: rest))) ++ NL)%string in H.
  rewrite !sapp_assoc in H. rewrite <- (sapp_assoc _ _ NL) in H.
  apply prefix_app in H. destruct H as [H|(p' & -> & H)].
  - apply prefix_app in H. destruct H as [H|(p' & -> & H)].
    + destruct (lex_end_field L StartRecord s p [] lines (or_introl eq_refl) W H) as [[E|[_ E]]|(q & P & E)]; [auto|auto|].
      right; right. exists [q]. split; [now exists [], s, (t :: rest), q|exact E].
    + apply prefix_cons in H. destruct H as [->|(p2 & -> & [r K])].
      * rewrite sapp_nil. destruct (lex_end_field L StartRecord s (csv_field L s) [] lines (or_introl eq_refl) W (prefix_refl _)) as [[E|[_ E]]|(q & P & E)]; [auto|auto|].
        right; right. exists [q]. split; [now exists [], s, (t :: rest), q|exact E].
      * destruct p2; [|discriminate]. change (String comma "") with COMMA. rewrite (lex_comma L) by (auto; now left).
        right; right. exists [s; ""]. split; [exists [s], t, rest, ""; auto using prefix_empty|reflexivity].
  - rewrite lex_app, (lex_comma L) by (auto; now left).
    destruct (lex_rest_cut L rest t p' [s] lines F' H) as [E|(cut & C & E)]; [now left|]. right; right. exists (s :: cut).
    split; [now apply cut_line_cons|exact E].
Qed.
(** a beginning of a file *)
Lemma lex_lines_cut L ls : forall p lines, Forall (wide L) ls -> prefix_of p (lines_text L ls) ->
  lex_end (lex (mkLex StartRecord "" [] lines) p) = Raise ValueError \/
  exists done rest last, ls = done ++ rest /\ lex_end (lex (mkLex StartRecord "" [] lines) p) = Ok (lines ++ done ++ last) /\
    (last = [] \/ exists l rest' cut, rest = l :: rest' /\ cut_line l cut /\ last = [cut]).
Proof.
  induction ls as [|l ls IH]; intros p lines F H.
  - destruct H as [r K]. destruct p; [|discriminate]. right. exists [], [], []. cbn. rewrite app_nil_r. auto.
  - inversion_clear F as [|? ? [Hl W] F']. cbn [lines_text] in H. apply prefix_app in H. destruct H as [H|(p' & -> & H)].
    + destruct l as [|s [|t rest]]; cbn in Hl; try lia.
      destruct (lex_line_cut L s t rest p lines W H) as [E|[E|(cut & C & E)]]; [now left| |]; right; exists [], ((s :: t :: rest) :: ls).
      * exists []. cbn. rewrite app_nil_r. auto.
      * exists [cut]. cbn [app]. split; [reflexivity|]. split; [exact E|]. right. now exists (s :: t :: rest), ls, cut.
    + rewrite lex_app. destruct l as [|s [|t rest]]; cbn in Hl; try lia. rewrite lex_line by exact W.
      destruct (IH p' (lines ++ [s :: t :: rest]) F' H) as [E|(done & rest' & last & -> & E & C)]; [now left|].
      right. exists ((s :: t :: rest) :: done), rest', last. split; [reflexivity|]. split; [|exact C].
      rewrite E. now rewrite <- app_assoc.
Qed.

(** ** reading a cut line *)
Lemma read_bound_some L s x : read_bound L s = Ok x -> num_of L s = Some x.
Proof. unfold read_bound. destruct (num_of L s); congruence. Qed.
Lemma read_reference_in L s x : read_reference L s = Ok x -> reference_in L s x.
Proof.
  unfold read_reference. destruct (String.eqb s "") eqn:E; intros H.
  - apply String.eqb_eq in E. injection H as <-. now left.
  - apply String.eqb_neq in E. right. split; [exact E|now apply read_bound_some].
Qed.
Lemma read_bound_error L s e : read_bound L s = Raise e -> e = ValueError.
Proof. unfold read_bound. destruct (num_of L s); congruence. Qed.
Lemma read_reference_error L s e : read_reference L s = Raise e -> e = ValueError.
Proof. unfold read_reference. destruct (String.eqb s ""); [discriminate|apply read_bound_error]. Qed.
Lemma number_back_text L x y : csv_ok L -> num_of L (num_text L x) = Some y -> number_back L x y.
Proof. intros O H. destruct x; try exact H. cbn in H. rewrite (ok_empty L O) in H. discriminate. Qed.

(** a line that ends before the upper bound is refused *)
Lemma read_line_short L l : csv_ok L -> (length l <= 9)%nat -> read_line L l = Raise ValueError.
Proof.
  intros O H. unfold read_line, padded. rewrite map_length.
  assert (B : read_bound L "" = Raise ValueError) by (unfold read_bound; now rewrite (ok_empty L O)).
  do 10 (destruct l as [|? l]; [cbn [map length Nat.sub repeat app]; try (now rewrite B);
    match goal with |- (do lo <- read_bound L ?s; _) = _ => destruct (read_bound L s) as [|e] eqn:E; cbn [bind]; [now rewrite B|now rewrite (read_bound_error L s e E)] end|]).
  cbn in H. lia.
Qed.
(** a line whose upper bound has been begun *)
Lemma read_line_from L r us : csv_ok L -> texts_writable L r ->
  forall hi n k pa mo, us = [hi; n; k; pa; mo] -> Forall (writable L) us ->
  cut_in [num_text L (r_hi r); num_text L (r_n r); num_text L (r_k r); cell_text L r "Path" (r_path r); cell_text L r "Module" (r_module r)] us ->
  forall words, padded 14 (map c_string words) = firstn 9 (row_texts L r) ++ us ->
  read_line L words = Raise ValueError \/ exists r', read_line L words = Ok r' /\ row_cut L r r'.
Proof.
  intros O W hi n k pa mo -> F C words P. unfold read_line. rewrite P. unfold row_texts. cbn [firstn app].
  destruct (read_bound L (num_text L (r_lo r))) as [lo|e] eqn:E1; cbn [bind]; [|left; now rewrite (read_bound_error _ _ _ E1)].
  destruct (read_bound L hi) as [hi'|e] eqn:E2; cbn [bind]; [|left; now rewrite (read_bound_error _ _ _ E2)].
  destruct (read_reference L n) as [n'|e] eqn:E3; cbn [bind]; [|left; now rewrite (read_reference_error _ _ _ E3)].
  destruct (read_reference L k) as [k'|e] eqn:E4; cbn [bind]; [|left; now rewrite (read_reference_error _ _ _ E4)].
  right. eexists. split; [reflexivity|]. constructor; try apply text_back_cell.
  - apply (number_back_text L _ _ O). now apply read_bound_some.
  - exists (cell_text L r "Path" (r_path r)), (cell_text L r "Module" (r_module r)), hi, n, k, pa, mo.
    split; [apply text_back_cell|]. split; [apply text_back_cell|]. split; [exact C|].
    split; [now apply read_bound_some|]. split; [now apply read_reference_in|]. split; [now apply read_reference_in|]. now split.
Qed.
Lemma read_line_cut L r cut : csv_ok L -> texts_writable L r -> cut_line (row_texts L r) cut ->
  read_line L cut = Raise ValueError \/ exists r', read_line L cut = Ok r' /\ row_cut L r r'.
Proof.
  intros O W (done & s & rest & q & E & P & ->).
  destruct (le_lt_dec (length (done ++ [q])) 9) as [H|H]; [left; now apply read_line_short|].
  rewrite app_length in H. cbn in H.
  pose proof (row_texts_writable L r O W) as F. rewrite E in F. apply Forall_app in F. destruct F as [F1 F2].
  inversion_clear F2 as [|? ? Ws F3]. pose proof (writable_prefix L q s P Ws) as Wq.
  assert (C : map c_string (done ++ [q]) = done ++ [q]) by (apply (c_string_ids L); apply Forall_app; split; [exact F1|now constructor]).
  assert (Dn : exists d9 d, done = d9 ++ d /\ length d9 = 9%nat).
  { exists (firstn 9 done), (skipn 9 done). split; [symmetry; apply firstn_skipn|]. rewrite firstn_length. lia. }
  destruct Dn as (d9 & d & -> & L9). rewrite <- app_assoc in E.
  assert (E9 : d9 = firstn 9 (row_texts L r)).
  { rewrite E, firstn_app, L9, Nat.sub_diag, firstn_O, app_nil_r. symmetry. apply firstn_all2. lia. }
  assert (T : skipn 9 (row_texts L r) = d ++ s :: rest).
  { rewrite E, skipn_app, L9, Nat.sub_diag. rewrite skipn_all2 by lia. reflexivity. }
  assert (G : cut_in (skipn 9 (row_texts L r)) (d ++ q :: map (fun _ => "") rest)) by (rewrite T; now exists d, s, rest, q).
  assert (Wu : Forall (writable L) (d ++ q :: map (fun _ => "") rest)).
  { apply Forall_app in F1. apply Forall_app. split; [apply F1|]. constructor; [exact Wq|].
    apply Forall_forall. intros x I. apply in_map_iff in I. destruct I as (y & <- & _). split; [intros []|right; intros []]. }
  assert (Len : length (d ++ q :: map (fun _ => "") rest) = 5%nat).
  { apply (f_equal (@length string)) in T. rewrite app_length in T. cbn in T. rewrite app_length. cbn. rewrite map_length. lia. }
  assert (P14 : padded 14 (map c_string ((d9 ++ d) ++ [q])) = firstn 9 (row_texts L r) ++ (d ++ q :: map (fun _ => "") rest)).
  { rewrite C. unfold padded. rewrite <- E9. rewrite <- !app_assoc. do 2 f_equal. cbn [app]. f_equal.
    rewrite !app_length in *. cbn [length] in Len |- *. rewrite map_length in Len.
    replace (14 - (length d9 + (length d + 1)))%nat with (length rest) by lia.
    clear. induction rest; cbn; congruence. }
  destruct (d ++ q :: map (fun _ => "") rest) as [|hi [|n [|k [|pa [|mo [|]]]]]] eqn:U; cbn in Len; try lia.
  exact (read_line_from L r _ O W hi n k pa mo eq_refl Wu G _ P14).
Qed.

Lemma rows_wide L rows : csv_ok L -> Forall (texts_writable L) rows -> Forall (wide L) (map (row_texts L) rows).
Proof.
  intros O F. induction F as [|r l W F IH]; constructor; [|exact IH]. split; [cbn; lia|now apply row_texts_writable].
Qed.
Lemma map_res_app {A B} (f : A -> res B) a b : map_res f (a ++ b) = (do x <- map_res f a; do y <- map_res f b; Ok (x ++ y)).
Proof.
  induction a as [|x a IH]; cbn [app map_res].
  - cbn. destruct (map_res f b); reflexivity.
  - destruct (f x); cbn [bind]; [|reflexivity]. rewrite IH. destruct (map_res f a); cbn [bind]; [|reflexivity].
    destruct (map_res f b); reflexivity.
Qed.
Lemma read_lines_any L rows : csv_ok L -> Forall (texts_writable L) rows ->
  map_res (read_line L) (map (row_texts L) rows) = Raise ValueError \/
  exists rows', map_res (read_line L) (map (row_texts L) rows) = Ok rows' /\ Forall2 (row_back L) rows rows'.
Proof.
  intros O W. induction W as [|r l Wr W IH]; [right; exists []; split; [reflexivity|constructor]|]. cbn [map map_res].
  destruct (xr_nan_dec (r_lo r)) as [E1|N1]; [left; rewrite read_line_unbounded; auto; intros [D _]; contradiction|].
  destruct (xr_nan_dec (r_hi r)) as [E2|N2]; [left; rewrite read_line_unbounded; auto; intros [_ D]; contradiction|].
  destruct (read_line_back L r O Wr (conj N1 N2)) as (r' & -> & B). cbn [bind].
  destruct IH as [->|(l' & -> & F)]; [now left|]. right. exists (r' :: l'). split; [reflexivity|now constructor].
Qed.
(** what a beginning of the file is read as *)
Lemma read_csv_begun L f text : csv_ok L -> Forall (texts_writable L) (rows_of f) ->
  prefix_of (csv_line L columns) text -> prefix_of text (to_csv L f) ->
  read_csv L text = Raise ValueError \/
  exists done rest back last, rows_of f = done ++ rest /\ read_csv L text = Ok (back ++ last) /\ Forall2 (row_back L) done back /\
    (last = [] \/ exists r rest' r', rest = r :: rest' /\ last = [r'] /\ row_cut L r r').
Proof.
  intros O W [t ->] H. unfold to_csv in H. cbn [lines_text] in H.
  assert (Hp : prefix_of t (lines_text L (map (row_texts L) (rows_of f)))).
  { destruct H as [u H]. exists u. rewrite <- sapp_assoc in H. clear - H. induction (csv_line L columns) as [|c s IH]; [exact H|].
    cbn in H. injection H as H. now apply IH. }
  assert (Hc : lex (mkLex StartRecord "" [] []) (csv_line L columns) = mkLex StartRecord "" [] [columns])
    by exact (lex_line L "Alias" "Name" (skipn 2 columns) [] (columns_writable L)).
  assert (Hr : csv_lines (csv_line L columns ++ t) = lex_end (lex (mkLex StartRecord "" [] [columns]) t)) by (unfold csv_lines; now rewrite lex_app, Hc).
  unfold read_csv. rewrite Hr. clear Hc Hr H.
  destruct (lex_lines_cut L _ t [columns] (rows_wide L _ O W) Hp) as [E|(done & rest & last & E & El & K)].
  - left. now rewrite E.
  - rewrite El. cbn [app bind]. rewrite (c_string_ids L) by apply columns_writable.
    destruct (list_eq_dec string_dec columns columns) as [_|D]; [|now destruct D].
    apply map_eq_app in E. destruct E as (rows1 & rows2 & E & <- & <-). rewrite E in W. apply Forall_app in W. destruct W as [W1 W2].
    rewrite map_res_app. destruct (read_lines_any L rows1 O W1) as [->|(back & -> & B)]; [now left|]. cbn [bind].
    destruct K as [->|(l & rest' & cut & Er & C & ->)].
    + right. exists rows1, rows2, back, []. split; [exact E|]. split; [reflexivity|]. split; [exact B|]. now left.
    + destruct rows2 as [|r rows2]; [discriminate Er|]. cbn [map] in Er. assert (l = row_texts L r) as -> by congruence. inversion_clear W2 as [|? ? Wr _].
      cbn [map_res]. destruct (read_line_cut L r cut O Wr C) as [->|(r' & -> & Cr)]; [now left|].
      right. exists rows1, (r :: rows2), back, [r']. cbn [bind]. split; [exact E|]. split; [reflexivity|]. split; [exact B|].
      right. now exists r, rows2, r'.
Qed.

(** ** a cut right after the upper bound *)
Lemma lex_open L rest : forall s line lines, Forall (writable L) (s :: rest) ->
  lex_end (lex (mkLex StartField "" line lines) (join COMMA (map (csv_field L) (s :: rest)))) = Ok (lines ++ [line ++ s :: rest]).
Proof.
  induction rest as [|t rest IH]; intros s line lines F; inversion_clear F as [|? ? W F'].
  - cbn [map join]. destruct (lex_csv_field L StartField s line lines (or_intror eq_refl) W) as (st' & -> & [[->| ->]|[[_ K]|[-> ->]]]); try reflexivity.
    discriminate K.
  - cbn [map]. rewrite join_two, sapp_assoc, lex_app, (lex_comma L) by (auto; now right).
    change (csv_field L t :: map (csv_field L) rest) with (map (csv_field L) (t :: rest)). rewrite IH by exact F'. now rewrite <- app_assoc.
Qed.
Definition short_line (L : csvlib) (r : row) : string := join COMMA (map (csv_field L) (firstn 10 (row_texts L r))).
Lemma join_app sep a b : forall x y, join sep ((x :: a) ++ y :: b) = (join sep (x :: a) ++ sep ++ join sep (y :: b))%string.
Proof.
  induction a as [|z a IH]; intros x y; [reflexivity|]. cbn [app]. rewrite !join_two.
  change (z :: a ++ y :: b) with ((z :: a) ++ y :: b). rewrite IH. now rewrite !sapp_assoc.
Qed.
Lemma short_line_prefix L r : prefix_of (short_line L r) (csv_line L (row_texts L r)).
Proof.
  unfold short_line, csv_line. rewrite <- (firstn_skipn 10 (row_texts L r)) at 2. rewrite map_app.
  unfold row_texts. cbn [firstn skipn map]. rewrite join_app. eexists. rewrite <- sapp_assoc. reflexivity.
Qed.
Lemma lex_short L r lines : csv_ok L -> texts_writable L r ->
  lex_end (lex (mkLex StartRecord "" [] lines) (short_line L r)) = Ok (lines ++ [firstn 10 (row_texts L r)]).
Proof.
  intros O W. pose proof (row_texts_writable L r O W) as F. rewrite <- (firstn_skipn 10) in F. apply Forall_app in F. destruct F as [F _].
  unfold short_line. revert F. unfold row_texts. cbn [firstn]. intros F. inversion_clear F as [|? ? Wa F'].
  cbn [map]. rewrite join_two, sapp_assoc, lex_app, (lex_comma L) by (auto; now left).
  match goal with |- context[join COMMA (csv_field L ?s :: ?l)] =>
    change l with (map (csv_field L) ltac:(match type of F' with Forall _ (_ :: ?m) => exact m end)) end.
  change (csv_field L (cell_text L r "Name" (r_name r)) :: map (csv_field L) ?m) with (map (csv_field L) (cell_text L r "Name" (r_name r) :: m)).
  now rewrite lex_open by exact F'.
Qed.
Lemma read_short L r : csv_ok L -> texts_writable L r -> bounded r ->
  exists r', read_line L (firstn 10 (row_texts L r)) = Ok r' /\ row_cut L r r' /\
    number_back L (r_hi r) (r_hi r') /\ r_n r' = NaN /\ r_k r' = NaN /\ r_path r' = KStr "" /\ r_module r' = KStr "".
Proof.
  intros O W [B1 B2]. pose proof (row_texts_writable L r O W) as F. rewrite <- (firstn_skipn 10) in F. apply Forall_app in F. destruct F as [F _].
  unfold read_line. rewrite (c_string_ids L) by exact F. unfold row_texts, padded. cbn [firstn length Nat.sub repeat app].
  destruct (read_bound_back L _ O B1) as (lo & -> & Hlo). destruct (read_bound_back L _ O B2) as (hi & Eh & Hhi). rewrite Eh.
  cbn [bind]. eexists. split; [reflexivity|]. split; [|auto]. constructor; try apply text_back_cell; [exact Hlo|].
  exists (cell_text L r "Path" (r_path r)), (cell_text L r "Module" (r_module r)), (num_text L (r_hi r)), "", "", "", "".
  split; [apply text_back_cell|]. split; [apply text_back_cell|].
  split; [exists [], (num_text L (r_hi r)); eexists; exists (num_text L (r_hi r)); split; [reflexivity|]; split; [apply prefix_refl|reflexivity]|].
  split; [now apply read_bound_some|]. split; [now left|]. split; [now left|]. now split.
Qed.
(** the world with the text in the catalogue file *)
Definition with_text (L : csvlib) (W : world) (c : catalogue) (text : string) : world :=
  let path := path_join (c_base c) (c_file c) in
  mkWorld (w_checks W) (fun p => String.eqb p path || w_isfile W p) (w_listdir W) (w_read W) (w_yaml W)
    (fun p => if String.eqb p path then read_csv L text else w_csv W p) (w_qgrid W).
Lemma with_text_holding L W c text : holding L W c text (with_text L W c text).
Proof.
  unfold holding. cbn. rewrite String.eqb_refl. repeat (split; [reflexivity|]). intros p N. apply String.eqb_neq in N. now rewrite N.
Qed.
Definition short_text (L : csvlib) (f1 : frame) (r : row) : string :=
  (lines_text L (columns :: map (row_texts L) (rows_of f1)) ++ short_line L r)%string.
Lemma short_text_prefix L f1 l r f2 : prefix_of (short_text L f1 r) (to_csv L (f1 ++ (l, r) :: f2)).
Proof.
  unfold short_text, to_csv, rows_of. rewrite !map_app. cbn [map snd].
  change (columns :: map (row_texts L) (map snd f1) ++ row_texts L r :: map (row_texts L) (map snd f2))
    with ((columns :: map (row_texts L) (map snd f1)) ++ row_texts L r :: map (row_texts L) (map snd f2)).
  rewrite lines_text_app. apply prefix_front. cbn [lines_text]. destruct (short_line_prefix L r) as [u ->].
  exists (u ++ lines_text L (map (row_texts L) (map snd f2)))%string. now rewrite sapp_assoc.
Qed.
Lemma read_csv_short L f1 r : csv_ok L -> Forall (texts_writable L) (rows_of f1) -> Forall bounded (rows_of f1) ->
  texts_writable L r -> bounded r -> exists back r', read_csv L (short_text L f1 r) = Ok (back ++ [r']) /\
    Forall2 (row_back L) (rows_of f1) back /\ row_cut L r r' /\
    number_back L (r_hi r) (r_hi r') /\ r_n r' = NaN /\ r_k r' = NaN /\ r_path r' = KStr "" /\ r_module r' = KStr "".
Proof.
  intros O W1 B1 Wr Br. unfold read_csv, csv_lines, short_text. rewrite lex_app, lex_lines.
  2:{ constructor; [split; [cbn; lia|apply columns_writable]|now apply rows_wide]. }
  rewrite lex_short by assumption. cbn [app bind]. rewrite (c_string_ids L) by apply columns_writable.
  destruct (list_eq_dec string_dec columns columns) as [_|D]; [|now destruct D].
  rewrite map_res_app. destruct (read_lines_back L _ O W1 B1) as (back & -> & Bk). destruct (read_short L r O Wr Br) as (r' & Er & K).
  exists back, r'. split; [cbn [bind]; cbn [map_res]; rewrite Er; reflexivity|]. split; [exact Bk|exact K].
Qed.
