(** The text of an array and what is read back from it *)
From Verif Require Import PyBase PyStr XReal TextModel TextSpec TextProofs TableProofs SpectrumModel SpectralModel MaterialModel FileModel ReaderModel WriterModel IOSpec LineProofs TableThms.
Open Scope R_scope.
Open Scope string_scope.
Open Scope list_scope.

Lemma forall_in {A n} {l : list (list A)} (H : Forall (fun r => length r = n) l) {r} : In r l -> length r = n.
Proof. intros Hr. apply (proj1 (Forall_forall _ _) H r Hr). Qed.

(** ** tokens *)
Lemma split_ws_iff s l : split_ws s = l <-> line_text s l.
Proof. split; [intros <-; apply split_ws_sound|apply split_ws_complete]. Qed.

Lemma split_aux_space a : forall cur c b, is_space c = true ->
  split_ws_aux cur (a ++ String c b) = split_ws_aux cur a ++ split_ws_aux "" b.
Proof.
  induction a as [|d a IH]; intros cur c b Hc; cbn [append split_ws_aux].
  - rewrite Hc. destruct cur; reflexivity.
  - destruct (is_space d); [|apply IH, Hc]. destruct cur; rewrite IH by exact Hc; reflexivity.
Qed.
Lemma split_ws_space a c b : is_space c = true -> split_ws (a ++ String c b)%string = split_ws a ++ split_ws b.
Proof. apply split_aux_space. Qed.
Lemma split_ws_blank q : blank q -> split_ws q = [].
Proof. intros H. apply split_ws_iff. now apply ln_nil. Qed.
Lemma split_ws_suffix a q : blank q -> split_ws (a ++ q)%string = split_ws a.
Proof.
  destruct q as [|c q]; intros H; [now rewrite app_empty_r|]. apply blank_cons in H. destruct H as [H1 H2].
  rewrite split_ws_space by exact H1. rewrite (split_ws_blank q H2). apply app_nil_r.
Qed.
Lemma split_ws_prefix p a : blank p -> split_ws (p ++ a)%string = split_ws a.
Proof. intros H. unfold split_ws. now apply split_ws_skip. Qed.
Lemma split_ws_rstrip s : split_ws (rstrip s) = split_ws s.
Proof. destruct (rstrip_split s) as [q [E Hq]]. rewrite E at 2. now rewrite split_ws_suffix. Qed.
Lemma split_ws_lstrip s : split_ws (lstrip s) = split_ws s.
Proof. destruct (lstrip_split s) as [p [E Hp]]. rewrite E at 2. now rewrite split_ws_prefix. Qed.
Lemma split_ws_nil s : split_ws s = [] <-> blank s.
Proof. split; [|apply split_ws_blank]. intros H. apply split_ws_iff in H. now apply line_nil_inv. Qed.

Lemma split_aux_unindent n : forall s cur, (String.length s <= n)%nat -> split_ws_aux cur (unindent s) = split_ws_aux cur s.
Proof.
  induction n as [|n IH]; intros s cur H; [destruct s; [reflexivity|cbn in H; lia]|].
  destruct s as [|c r]; [reflexivity|]. cbn [String.length] in H. cbn [unindent].
  destruct (Ascii.eqb c nl) eqn:E.
  - apply Ascii.eqb_eq in E; subst c. destruct r as [|d r]; [reflexivity|]. cbn [String.length] in H.
    destruct (Ascii.eqb d " ") eqn:E2.
    + apply Ascii.eqb_eq in E2; subst d. cbn [split_ws_aux]. change (is_space nl) with true. change (is_space " ") with true. cbn [split_ws_aux].
      destruct cur; rewrite IH by lia; reflexivity.
    + change (String d r) with ("" ++ String d r)%string. cbn [append]. cbn [split_ws_aux]. change (is_space nl) with true.
      destruct cur; rewrite (IH (String d r)) by (cbn [String.length]; lia); reflexivity.
  - cbn [split_ws_aux]. destruct (is_space c); [destruct cur|]; rewrite IH by lia; reflexivity.
Qed.
Lemma split_ws_unindent s : split_ws (unindent s) = split_ws s.
Proof. unfold split_ws. eapply split_aux_unindent. reflexivity. Qed.

(** ** brackets *)
Lemma remove_app f a b : remove_chars f (a ++ b)%string = (remove_chars f a ++ remove_chars f b)%string.
Proof. induction a as [|c r IH]; cbn [append remove_chars]; [reflexivity|]. destruct (f c); rewrite IH; reflexivity. Qed.
Lemma remove_join f sep l : remove_chars f (join sep l) = join (remove_chars f sep) (map (remove_chars f) l).
Proof.
  induction l as [|x [|y l] IH]; [reflexivity|reflexivity|].
  change (join sep (x :: y :: l)) with (x ++ sep ++ join sep (y :: l))%string. rewrite !remove_app, IH. reflexivity.
Qed.
Lemma remove_id f s : (forall c, In c (chars s) -> f c = false) -> remove_chars f s = s.
Proof.
  induction s as [|c r IH]; intros H; [reflexivity|]. cbn [remove_chars]. rewrite (H c) by now left.
  f_equal. apply IH. intros d Hd. apply H. now right.
Qed.
Lemma blanks_blank n : blank (blanks n).
Proof. induction n as [|n IH]; cbn [blanks]; [apply blank_nil|]. apply blank_cons. now split. Qed.
Lemma blanks_chars n c : In c (chars (blanks n)) -> c = " "%char.
Proof. induction n as [|n IH]; cbn [blanks]; [intros []|]. rewrite chars_cons. intros [<-|H]; auto. Qed.

Definition word_char (c : ascii) : Prop := is_bracket c = false /\ c <> nl.
Lemma digits_chars us s ds c : digits_text us s ds -> In c (chars s) -> word_char c.
Proof.
  assert (forall d, (d < 10)%nat -> word_char (digit_char d)) as Hd.
  { intros d Hd. do 10 (destruct d as [|d]; [split; [reflexivity|discriminate]|]). lia. }
  assert (word_char "_") as Hu by (split; [reflexivity|discriminate]).
  induction 1 as [d H|d s ds H H0 IH|d s ds U H H0 IH]; rewrite !chars_cons.
  - intros [<-|[]]. auto.
  - intros [<-|Hc]; auto.
  - intros [<-|[<-|Hc]]; auto.
Qed.
Lemma lower_chars s c : In c (chars s) -> In (lower_char c) (chars (lower s)).
Proof. induction s as [|d r IH]; [intros []|]. intros [<-|H]; [now left|right; auto]. Qed.
Lemma number_chars us s x c : number_text us s x -> In c (chars s) -> word_char c.
Proof.
  assert (word_char ".") as Hdot by (split; [reflexivity|discriminate]).
  assert (word_char "+") as Hplus by (split; [reflexivity|discriminate]).
  assert (word_char "-") as Hminus by (split; [reflexivity|discriminate]).
  assert (word_char "e") as He by (split; [reflexivity|discriminate]).
  assert (word_char "E") as HE by (split; [reflexivity|discriminate]).
  assert (forall g sg c, sign_text g sg -> In c (chars g) -> word_char c) as Hsign.
  { intros g sg d Hg Hd. destruct Hg; cbn in Hd; intuition (subst; auto). }
  assert (forall m v c, mantissa_text us m v -> In c (chars m) -> word_char c) as Hm.
  { intros m v d Hmt Hd. destruct Hmt; rewrite ?chars_app, ?in_app_iff in Hd; cbn [chars list_ascii_of_string In] in Hd;
      intuition (subst; eauto using digits_chars). }
  assert (forall e v c, expo_text us e v -> In c (chars e) -> word_char c) as Hex.
  { intros e v d Het Hd. destruct Het as [|e s0 ds g He' Hds Hg|e s0 ds He' Hds];
      rewrite ?chars_cons, ?chars_app in Hd; cbn [In] in Hd; rewrite ?in_app_iff in Hd.
    - destruct Hd.
    - destruct Hd as [<-|[Hd|Hd]]; [destruct He' as [-> | ->]; auto| |eapply digits_chars; eauto].
      destruct Hg as [-> | ->]; cbn in Hd; intuition (subst; auto).
    - destruct Hd as [<-|[Hd|Hd]]; [destruct He' as [-> | ->]; auto| |eapply digits_chars; eauto].
      cbn in Hd. intuition (subst; auto). }
  assert (forall d, In (lower_char d) (chars "infinity") \/ In (lower_char d) (chars "nan") -> word_char d) as Hl.
  { intros d Hd. split.
    - destruct (is_bracket d) eqn:B; [|reflexivity]. unfold is_bracket in B. apply orb_true_iff in B.
      destruct B as [B|B]; apply Ascii.eqb_eq in B; subst; vm_compute in Hd; intuition discriminate.
    - intros ->. vm_compute in Hd. intuition discriminate. }
  intros H Hc. destruct H as [g sg m mv e ev H1 H2 H3|g sg w H1 H2|g sg w H1 H2]; rewrite ?chars_app, ?in_app_iff in Hc.
  - destruct Hc as [Hc|[Hc|Hc]]; eauto.
  - destruct Hc as [Hc|Hc]; [eauto|]. apply lower_chars in Hc. apply Hl. left.
    destruct H2 as [E|E]; rewrite E in Hc; [|exact Hc]. cbn in *. intuition auto.
  - destruct Hc as [Hc|Hc]; [eauto|]. apply lower_chars in Hc. apply Hl. right. now rewrite <- H2.
Qed.

(** ** substring *)
Lemma substring_all s : substring 0 (String.length s) s = s.
Proof. induction s as [|c r IH]; cbn; [reflexivity|]. now rewrite IH. Qed.
Lemma length_app a b : String.length (a ++ b)%string = (String.length a + String.length b)%nat.
Proof. induction a as [|c r IH]; cbn; [reflexivity|]. now rewrite IH. Qed.
Lemma substring_drop p t n : String.length p = n -> substring n (String.length (p ++ t) - n) (p ++ t)%string = t.
Proof.
  intros <-. rewrite length_app. replace (String.length p + String.length t - String.length p)%nat with (String.length t) by lia.
  induction p as [|c r IH]; cbn; [apply substring_all|exact IH].
Qed.
Lemma blanks_length n : String.length (blanks n) = n.
Proof. induction n as [|n IH]; cbn; [reflexivity|]. now rewrite IH. Qed.

(** ** a row that fits on one line *)
Lemma fold_elems_fits words : forall s line hang w,
  (String.length line + String.length (join " " words) <= w)%nat -> words <> [] ->
  fold_elems words s line hang w = (s, (line ++ join " " words)%string).
Proof.
  induction words as [|x [|y l] IH]; intros s line hang w Hw Hn; [congruence| |].
  - cbn [fold_elems join] in *. unfold extend_line, slen. rewrite (proj2 (Nat.leb_le _ _)) by exact Hw. reflexivity.
  - change (join " " (x :: y :: l)) with (x ++ " " ++ join " " (y :: l))%string in *. rewrite !length_app in Hw. cbn [String.length] in Hw.
    change (fold_elems (x :: y :: l) s line hang w) with
      (let (s', line') := extend_line s line x hang w in fold_elems (y :: l) s' (line' ++ " ")%string hang w).
    unfold extend_line at 1, slen. rewrite (proj2 (Nat.leb_le _ _)) by lia. cbn [orb].
    rewrite IH; [|rewrite !length_app; cbn [String.length]; lia|discriminate]. now rewrite !app_assoc_s.
Qed.
Lemma show_row_fits axes words : words <> [] -> (axes + String.length (join " " words) <= 75 - axes)%nat ->
  show_row axes words = ("[" ++ join " " words ++ "]")%string.
Proof.
  intros Hn Hw. unfold show_row. rewrite fold_elems_fits by (rewrite ?blanks_length; assumption). cbn [append].
  unfold slen. rewrite substring_drop by apply blanks_length. reflexivity.
Qed.

(** ** one element *)
Section Display.
Variable W : wenv.
Variable disp : list xr -> xr -> xr.
Hypothesis HW : shows W disp.

Notation displayable := (Forall (below (10 ^ 309))).
Lemma elem_props all x : displayable all -> In x all -> exists t,
  split_ws (fmt_elem W all x) = [t] /\ number_text true t (disp all x) /\
  (forall c, In c (chars (fmt_elem W all x)) -> word_char c) /\ (String.length (fmt_elem W all x) <= 18)%nat.
Proof.
  intros HD Hx. destruct (shows_text _ _ HW all x HD Hx) as [k [t [l [E Hnum]]]]. exists t. split; [|split; [exact Hnum|split]].
  - rewrite E, split_ws_prefix by apply blanks_blank. rewrite split_ws_suffix by apply blanks_blank.
    apply split_ws_iff. pose proof (ln_last "" t "" blank_nil (number_solid _ _ _ Hnum) blank_nil) as H.
    cbn [append] in H. now rewrite app_empty_r in H.
  - intros c. rewrite E, !chars_app, !in_app_iff. intros [H|[H|H]].
    + apply blanks_chars in H. subst. split; [reflexivity|discriminate].
    + eapply number_chars; eassumption.
    + apply blanks_chars in H. subst. split; [reflexivity|discriminate].
  - apply (shows_width _ _ HW all x HD Hx).
Qed.

(** the words of a row, joined *)
Definition row_str (all r : list xr) : string := join " " (map (fmt_elem W all) r).
Lemma row_str_props all r : displayable all -> incl r all ->
  (exists toks, split_ws (row_str all r) = toks /\ Forall2 (number_text true) toks (map (disp all) r)) /\
  (forall c, In c (chars (row_str all r)) -> word_char c) /\
  (String.length (row_str all r) + 1 <= 19 * length r \/ r = [])%nat.
Proof.
  intros HD. induction r as [|x [|y r] IH]; intros Hincl; unfold row_str in *.
  - split; [exists []; split; [reflexivity|constructor]|]. split; [intros c []|now right].
  - destruct (elem_props all x HD (Hincl x (or_introl eq_refl))) as [t [E1 [E2 [E3 E4]]]].
    split; [exists [t]; split; [exact E1|repeat constructor; exact E2]|]. split; [exact E3|left; cbn [map join length]; lia].
  - destruct (elem_props all x HD (Hincl x (or_introl eq_refl))) as [t [E1 [E2 [E3 E4]]]].
    destruct IH as [[toks [F1 F2]] [F3 F4]]; [intros z Hz; apply Hincl; now right|].
    change (join " " (map (fmt_elem W all) (x :: y :: r))) with (fmt_elem W all x ++ " " ++ join " " (map (fmt_elem W all) (y :: r)))%string.
    set (rest := join " " (map (fmt_elem W all) (y :: r))) in *.
    split; [|split].
    + exists (t :: toks). split; [|constructor; assumption].
      change (fmt_elem W all x ++ " " ++ rest)%string with (fmt_elem W all x ++ String " " rest)%string.
      rewrite split_ws_space by reflexivity. rewrite E1, F1. reflexivity.
    + intros c. rewrite !chars_app, !in_app_iff. intros [H|[H|H]]; [auto| |apply F3, H].
      cbn in H. destruct H as [<-|[]]. split; [reflexivity|discriminate].
    + left. destruct F4 as [F4|F4]; [|discriminate]. rewrite !length_app. cbn [String.length length map] in *. lia.
Qed.
Lemma row_no_newline all r : displayable all -> incl r all -> no_newline (row_str all r).
Proof. intros HD H Hi. destruct (row_str_props all r HD H) as [_ [H2 _]]. destruct (H2 _ Hi). congruence. Qed.
Lemma row_brackets all r : displayable all -> incl r all -> remove_chars is_bracket (row_str all r) = row_str all r.
Proof. intros HD H. apply remove_id. intros c Hc. destruct (row_str_props all r HD H) as [_ [H2 _]]. now destruct (H2 c Hc). Qed.

(** ** the lines of a table text *)
Lemma unindent_join lines : Forall no_newline lines -> unindent (join (NL ++ " ") lines) = join NL lines.
Proof.
  assert (forall x t, no_newline x -> unindent (x ++ t) = (x ++ unindent t)%string) as Hx.
  { induction x as [|c r IH]; intros t H; [reflexivity|]. apply no_newline_cons in H. destruct H as [H1 H2].
    cbn [append unindent]. destruct (Ascii.eqb c nl) eqn:E; [apply Ascii.eqb_eq in E; contradiction|]. now rewrite IH. }
  induction lines as [|x [|y l] IH]; intros H; [reflexivity| |].
  - cbn [join]. pose proof (Hx x "" (Forall_inv H)) as E. now rewrite !app_empty_r in E.
  - change (join (NL ++ " ") (x :: y :: l)) with (x ++ (NL ++ " ") ++ join (NL ++ " ") (y :: l))%string.
    rewrite Hx by (now apply Forall_inv in H). rewrite app_assoc_s.
    change (unindent (NL ++ " " ++ join (NL ++ " ") (y :: l)))%string with (NL ++ unindent (join (NL ++ " ") (y :: l)))%string.
    rewrite IH by (now apply Forall_inv_tail in H). reflexivity.
Qed.
Lemma rstrip_app_nonblank a b : rstrip b <> ""%string -> rstrip (a ++ b)%string = (a ++ rstrip b)%string.
Proof.
  intros H. induction a as [|c r IH]; [reflexivity|]. cbn [append]. unfold rstrip in *. cbn [rstrip_by]. rewrite IH.
  destruct (r ++ rstrip_by is_space b)%string eqn:E; [|reflexivity]. destruct r; [cbn in E; congruence|discriminate].
Qed.
Lemma rstrip_nonblank s : ~ blank s -> rstrip s <> ""%string.
Proof. intros H E. apply H. destruct (rstrip_split s) as [q [Eq Hq]]. rewrite E in Eq. cbn in Eq. now subst. Qed.
Lemma no_newline_lstrip s : no_newline s -> no_newline (lstrip s).
Proof. intros H Hi. apply H. destruct (lstrip_split s) as [p [E _]]. rewrite E. change list_ascii_of_string with chars. rewrite chars_app, in_app_iff. now right. Qed.
Lemma no_newline_rstrip s : no_newline s -> no_newline (rstrip s).
Proof. intros H Hi. apply H. destruct (rstrip_split s) as [p [E _]]. rewrite E. change list_ascii_of_string with chars. rewrite chars_app, in_app_iff. now left. Qed.

Lemma rstrip_lines lines toks : lines <> [] -> Forall no_newline lines -> Forall2 line_text lines toks -> Forall (fun t => t <> []) toks ->
  exists lines', rstrip (join NL lines) = join NL lines' /\ lines' <> [] /\ Forall no_newline lines' /\ Forall2 line_text lines' toks.
Proof.
  intros Hn Hnl H2 Ht. induction H2 as [|x t l ts Hx H2 IH]; [congruence|].
  destruct l as [|y l].
  - inversion H2; subst. exists [rstrip x]. cbn [join]. split; [reflexivity|]. split; [discriminate|].
    split; [repeat constructor; apply no_newline_rstrip; now apply Forall_inv in Hnl|].
    repeat constructor. apply split_ws_iff. rewrite split_ws_rstrip. now apply split_ws_iff.
  - destruct IH as [l' [E [Hne [Hf Hf2]]]]; [discriminate|now apply Forall_inv_tail in Hnl|now apply Forall_inv_tail in Ht|].
    exists (x :: l'). split; [|split; [discriminate|split; [constructor; [now apply Forall_inv in Hnl|exact Hf]|constructor; assumption]]].
    change (join NL (x :: y :: l)) with (x ++ NL ++ join NL (y :: l))%string.
    assert (rstrip (join NL (y :: l)) <> ""%string) as Hb.
    { rewrite E. destruct l' as [|z l']; [congruence|]. inversion Hf2 as [|? t' ? ? Hz ? ]; subst.
      intros Ez. assert (blank z) as Bz.
      { destruct l' as [|z' l']; cbn [join] in Ez; [subst; apply blank_nil|]. destruct z; [apply blank_nil|discriminate]. }
      apply Forall_inv_tail, Forall_inv in Ht. apply Ht. rewrite <- (split_ws_complete _ _ Hz). now apply split_ws_blank. }
    rewrite (rstrip_app_nonblank x) by (rewrite (rstrip_app_nonblank NL) by exact Hb; discriminate).
    rewrite (rstrip_app_nonblank NL) by exact Hb. rewrite E. destruct l'; [congruence|reflexivity].
Qed.
Lemma lstrip_lines lines toks : lines <> [] -> Forall no_newline lines -> Forall2 line_text lines toks -> Forall (fun t => t <> []) toks ->
  exists lines', lstrip (join NL lines) = join NL lines' /\ lines' <> [] /\ Forall no_newline lines' /\ Forall2 line_text lines' toks.
Proof.
  intros Hn Hnl H2 Ht. destruct lines as [|x l]; [congruence|]. inversion H2 as [|? t ? ts Hx H2']; subst.
  assert (exists c r, lstrip x = String c r /\ is_space c = false) as [c [r [E Hc]]].
  { destruct (lstrip x) as [|c r] eqn:E.
    - exfalso. apply Forall_inv in Ht. apply Ht. rewrite <- (split_ws_complete _ _ Hx), <- split_ws_lstrip, E. reflexivity.
    - exists c, r. split; [reflexivity|]. clear -E. unfold lstrip in E. induction x as [|d x IH]; cbn [lstrip_by] in E; [discriminate|].
      destruct (is_space d) eqn:Ed; [auto|]. injection E as <- <-. exact Ed. }
  assert (forall t, lstrip (x ++ t) = (lstrip x ++ t)%string) as Hl.
  { intros t'. destruct (lstrip_split x) as [p [Ep Hp]]. rewrite Ep at 1. rewrite app_assoc_s, lstrip_blank by exact Hp.
    rewrite E. unfold lstrip. cbn [append lstrip_by]. now rewrite Hc. }
  exists (lstrip x :: l). split; [|split; [discriminate|split]].
  - destruct l as [|y l]; cbn [join]; [reflexivity|]. apply Hl.
  - constructor; [apply no_newline_lstrip; now apply Forall_inv in Hnl|now apply Forall_inv_tail in Hnl].
  - constructor; [|exact H2']. apply split_ws_iff. rewrite split_ws_lstrip. now apply split_ws_iff.
Qed.
Lemma strip_lines lines toks : lines <> [] -> Forall no_newline lines -> Forall2 line_text lines toks -> Forall (fun t => t <> []) toks ->
  exists lines', lstrip (rstrip (join NL lines)) = join NL lines' /\ lines' <> [] /\ Forall no_newline lines' /\ Forall2 line_text lines' toks.
Proof.
  intros Hn Hnl H2 Ht. destruct (rstrip_lines lines toks Hn Hnl H2 Ht) as [l1 [E1 [N1 [F1 G1]]]].
  destruct (lstrip_lines l1 toks N1 F1 G1 Ht) as [l2 [E2 R]]. exists l2. split; [now rewrite E1|exact R].
Qed.

(** the table text of rows that are shown completely *)
Lemma show_row_2 all r : displayable all -> incl r all -> r <> [] -> (length r <= 3)%nat -> show_row 2 (map (fmt_elem W all) r) = ("[" ++ row_str all r ++ "]")%string.
Proof.
  intros HD H Hn Hl. destruct (row_str_props all r HD H) as [_ [_ [Hlen|Hlen]]]; [|congruence].
  apply show_row_fits; [destruct r; [congruence|discriminate]|]. fold (row_str all r). lia.
Qed.
Lemma table_body lines toks : lines <> [] ->
  Forall (fun l => no_newline (remove_chars is_bracket l)) lines ->
  Forall2 line_text (map (remove_chars is_bracket) lines) toks -> Forall (fun t => t <> []) toks ->
  exists lines', lstrip (rstrip (unindent (remove_chars is_bracket ("[" ++ join (NL ++ " ") lines ++ "]")%string))) = join NL lines' /\
    lines' <> [] /\ Forall no_newline lines' /\ Forall2 line_text lines' toks.
Proof.
  intros Hn Hnl H2 Ht. rewrite !remove_app. change (remove_chars is_bracket "[") with "". change (remove_chars is_bracket "]") with "".
  cbn [append]. rewrite app_empty_r, remove_join. change (remove_chars is_bracket (NL ++ " ")) with (NL ++ " ")%string.
  rewrite unindent_join by (apply Forall_map; exact Hnl).
  apply strip_lines; [destruct lines; [congruence|discriminate]|apply Forall_map; exact Hnl|exact H2|exact Ht].
Qed.

(** complete rows: reading gives the displayed values *)
Lemma table_round_trip n rows : displayable (concat rows) -> (1 <= n <= 3)%nat -> rows <> [] -> Forall (fun r => length r = n) rows ->
  (n * length rows <= 1000)%nat ->
  str_table_to_numeric (TStr (numeric_to_string_table W (ND2 n rows))) =
  Ok (ND2 n (map (map (disp (concat rows))) rows)).
Proof.
  intros HD Hn Hne Hlen Hsz. unfold numeric_to_string_table, array2string. destruct rows as [|r0 rs] eqn:Er; [congruence|]. rewrite <- Er in *. clear Hne.
  assert (summarised (n * length rows) = false) as -> by (apply Nat.ltb_ge; lia). cbn [andb].
  assert (map (shown_row false) rows = rows) as -> by (clear; induction rows as [|r l IH]; cbn; [reflexivity|f_equal; exact IH]).
  set (all := concat rows) in *.
  assert (forall r, In r rows -> incl r all) as Hincl by (intros r Hr x Hx; apply in_concat; eauto).
  assert (map (fun r => show_row 2 (row_words W false all r)) rows = map (fun r => "[" ++ row_str all r ++ "]")%string rows) as ->.
  { apply map_ext_in. intros r Hr. unfold row_words. cbn [andb]. apply show_row_2; [exact HD|now apply Hincl| |].
    - pose proof (forall_in Hlen Hr) as Hrl. intros ->. cbn in *. lia.
    - pose proof (forall_in Hlen Hr) as Hrl. lia. }
  assert (map (remove_chars is_bracket) (map (fun r => "[" ++ row_str all r ++ "]")%string rows) = map (row_str all) rows) as Erm.
  { rewrite map_map. apply map_ext_in. intros r Hr. rewrite !remove_app, row_brackets by (first [exact HD|now apply Hincl]).
    change (remove_chars is_bracket "[") with "". change (remove_chars is_bracket "]") with "". cbn [append]. apply app_empty_r. }
  destruct (table_body (map (fun r => "[" ++ row_str all r ++ "]")%string rows) (map (fun r => split_ws (row_str all r)) rows)) as [lines' [E1 [E2 [E3 E4]]]].
  - rewrite Er. discriminate.
  - apply (proj1 (Forall_map (remove_chars is_bracket) no_newline _)). rewrite Erm. apply Forall_map, Forall_forall. intros r Hr. apply row_no_newline; [exact HD|now apply Hincl].
  - rewrite Erm. clearbody all. clear. induction rows; constructor; [apply split_ws_sound|assumption].
  - apply Forall_map, Forall_forall. intros r Hr. destruct (row_str_props all r HD (Hincl r Hr)) as [[toks [<- H]] _].
    intros E0. rewrite E0 in H. inversion H as [Hm|]. pose proof (forall_in Hlen Hr) as Hrl. destruct r; [cbn in *; lia|discriminate].
  - rewrite E1. apply (proj2 (C24_table_l _ _ _)). exists lines', [], (map (fun r => split_ws (row_str all r)) rows).
    rewrite app_nil_r. split; [reflexivity|]. split; [exact E3|]. split; [|split; [exact I|split; [exact E4|split; [|split]]]].
    + clear -E4 Hlen Hincl HW Hn HD. assert (forall r, In r rows -> split_ws (row_str all r) <> []) as Hk.
      { intros r Hr. destruct (row_str_props all r HD (Hincl r Hr)) as [[toks [<- H]] _]. intros E0. rewrite E0 in H.
        inversion H as [Hm|]. pose proof (forall_in Hlen Hr) as Hrl. destruct r; [cbn in *; lia|discriminate]. }
      clearbody all. clear Hlen Hincl. revert lines' E4. induction rows as [|r l IH]; intros lines' E4; inversion E4 as [|? ? ? ? Hl1]; subst; constructor.
      * intros B. apply (Hk r (or_introl eq_refl)). rewrite <- (split_ws_complete _ _ Hl1). now apply split_ws_blank.
      * apply IH; [intros q Hq; apply Hk; now right|assumption].
    + clearbody all. clear -Hincl HW HD. induction rows as [|r l IH]; cbn [map]; constructor.
      * destruct (row_str_props all r HD (Hincl r (or_introl eq_refl))) as [[toks [<- H]] _]. exact H.
      * apply IH. intros q Hq. apply Hincl. now right.
    + rewrite Er. discriminate.
    + apply Forall_map. eapply Forall_impl; [|exact Hlen]. intros r Hr. now rewrite map_length.
Qed.

(** summarised tables cannot be read back *)
Lemma dots_not_number x : ~ number_text true "..." x.
Proof.
  intros H. assert (solid "...") as Hs by (split; [discriminate|]; intros c Hc; cbn in Hc; intuition (subst; reflexivity)).
  apply (py_float_token "..." x Hs) in H. vm_compute in H. discriminate.
Qed.
Lemma In_firstn {A} (x : A) n l : In x (firstn n l) -> In x l.
Proof. revert l; induction n as [|n IH]; intros [|y l] H; cbn in *; try contradiction. destruct H; auto. Qed.
Lemma In_skipn {A} (x : A) n l : In x (skipn n l) -> In x l.
Proof. revert l; induction n as [|n IH]; intros [|y l] H; cbn in *; try contradiction; auto. Qed.

Lemma edge_incl {A} (rows : list A) : incl (edge rows) rows.
Proof. intros r Hr. apply in_app_iff in Hr. destruct Hr as [Hr|Hr]; [eapply In_firstn|eapply In_skipn]; eassumption. Qed.
Lemma table_too_large n rows : displayable (concat rows) -> (1 <= n <= 3)%nat -> Forall (fun r => length r = n) rows ->
  (1000 < n * length rows)%nat ->
  str_table_to_numeric (TStr (numeric_to_string_table W (ND2 n rows))) = Raise ValueError.
Proof.
  intros HD0 Hn Hlen Hsz. unfold numeric_to_string_table, array2string. destruct rows as [|r0 rs] eqn:Er; [cbn in Hsz; lia|]. rewrite <- Er in *.
  assert (summarised (n * length rows) = true) as -> by (apply Nat.ltb_lt; lia). cbn [andb].
  assert ((6 <? length rows)%nat = true) as -> by (apply Nat.ltb_lt; clear -Hn Hsz; destruct Hn as [_ Hn]; pose proof (Nat.mul_le_mono_r n 3 (length rows) Hn); lia).
  assert (forall r, In r rows -> shown_row true r = r) as Hsh.
  { intros r Hr. unfold shown_row. pose proof (forall_in Hlen Hr) as Hrl. cbn [andb].
    rewrite (proj2 (Nat.ltb_ge _ _)) by lia. reflexivity. }
  assert (incl (edge rows) rows) as Hedge.
  { intros r Hr. apply in_app_iff in Hr. destruct Hr as [Hr|Hr]; [eapply In_firstn|eapply In_skipn]; eassumption. }
  assert (map (shown_row true) (edge rows) = edge rows) as ->.
  { rewrite <- (map_id (edge rows)) at 2. apply map_ext_in. intros r Hr. apply Hsh, Hedge, Hr. }
  set (all := concat (edge rows)) in *.
  assert (displayable all) as HD.
  { apply Forall_forall. intros x Hx. apply in_concat in Hx. destruct Hx as [r [Hr Hx]]. apply (proj1 (Forall_forall _ _) HD0).
    apply in_concat. exists r. split; [now apply edge_incl|exact Hx]. }
  assert (forall r, In r (edge rows) -> incl r all) as Hincl by (intros r Hr x Hx; apply in_concat; eauto).
  assert (forall r, In r (edge rows) -> show_row 2 (row_words W true all r) = ("[" ++ row_str all r ++ "]")%string) as Hrow.
  { intros r Hr. unfold row_words. pose proof (forall_in Hlen (Hedge r Hr)) as Hrl. cbn [andb].
    rewrite (proj2 (Nat.ltb_ge _ _)) by lia. apply show_row_2; [exact HD|now apply Hincl| |lia]. intros ->. cbn in *. lia. }
  set (show := fun r => show_row 2 (row_words W true all r)).
  set (A := firstn 3 rows) in *. set (B := skipn (length rows - 3) rows) in *.
  assert (forall r, In r A -> In r (edge rows)) as HA by (intros r Hr; apply in_app_iff; now left).
  assert (forall r, In r B -> In r (edge rows)) as HB by (intros r Hr; apply in_app_iff; now right).
  assert (forall L, (forall r, In r L -> In r (edge rows)) ->
     map (remove_chars is_bracket) (map show L) = map (row_str all) L) as Erm.
  { intros L HL. rewrite map_map. apply map_ext_in. intros r Hr. unfold show. rewrite Hrow by (now apply HL).
    rewrite !remove_app, row_brackets by (first [exact HD|apply Hincl; now apply HL]).
    change (remove_chars is_bracket "[") with "". change (remove_chars is_bracket "]") with "". cbn [append]. apply app_empty_r. }
  assert (forall L, (forall r, In r L -> In r (edge rows)) -> Forall (fun t => t <> []) (map (fun r => split_ws (row_str all r)) L)) as Hnn.
  { intros L HL. apply Forall_map, Forall_forall. intros r Hr. destruct (row_str_props all r HD (Hincl r (HL r Hr))) as [[toks [<- H]] _].
    intros E0. rewrite E0 in H. inversion H as [Hm|]. pose proof (forall_in Hlen (Hedge r (HL r Hr))) as Hrl. destruct r; [cbn in *; lia|discriminate]. }
  assert (forall L, Forall2 line_text (map (row_str all) L) (map (fun r => split_ws (row_str all r)) L)) as Hlt.
  { intros L. induction L; constructor; [apply split_ws_sound|assumption]. }
  destruct (table_body (map show A ++ ["..."] ++ map show B)
      (map (fun r => split_ws (row_str all r)) A ++ [["..."%string]] ++ map (fun r => split_ws (row_str all r)) B)) as [lines' [E1 [E2 [E3 E4]]]].
  - destruct (map show A); discriminate.
  - apply (proj1 (Forall_map (remove_chars is_bracket) no_newline _)). rewrite !map_app, !Erm by assumption.
    apply Forall_app. split; [apply Forall_map, Forall_forall; intros r Hr; apply row_no_newline; [exact HD|now apply Hincl, HA]|].
    apply Forall_app. split; [repeat constructor; vm_compute; intuition discriminate|].
    apply Forall_map, Forall_forall. intros r Hr. apply row_no_newline; [exact HD|now apply Hincl, HB].
  - rewrite !map_app, !Erm by assumption. apply Forall2_app; [apply Hlt|]. apply Forall2_app; [|apply Hlt].
    repeat constructor. apply split_ws_iff. reflexivity.
  - apply Forall_app. split; [now apply Hnn|]. apply Forall_app. split; [repeat constructor; discriminate|now apply Hnn].
  - rewrite E1. rewrite <- (app_nil_r lines'). eapply C24_bad_token_l with (bad := "..."%string).
    + rewrite app_nil_r. exact E3.
    + assert (Forall (fun t => t <> []) (map (fun r => split_ws (row_str all r)) A ++ [["..."%string]] ++ map (fun r => split_ws (row_str all r)) B)) as Hk.
      { apply Forall_app. split; [now apply Hnn|]. apply Forall_app. split; [repeat constructor; discriminate|now apply Hnn]. }
      clear -E4 Hk. induction E4 as [|x t l ts Hx E4 IH]; constructor.
      * intros Bx. apply Forall_inv in Hk. apply Hk. rewrite <- (split_ws_complete _ _ Hx). now apply split_ws_blank.
      * apply IH. now apply Forall_inv_tail in Hk.
    + exact E4.
    + rewrite !concat_app. apply in_app_iff. right. apply in_app_iff. left. cbn. now left.
    + apply dots_not_number.
Qed.

(** ** one-dimensional arrays: the tokens, however the line is folded *)
Lemma extend_tokens s line word prefix w s' line' : blank prefix -> (s ++ line = "" \/ exists a c, s ++ line = a ++ String c "" /\ is_space c = true)%string ->
  extend_line s line word prefix w = (s', line') -> split_ws (s' ++ line')%string = split_ws (s ++ line)%string ++ split_ws word.
Proof.
  intros Hp Hsep E. unfold extend_line in E. destruct ((slen line + slen word <=? w)%nat || (slen line <=? slen prefix)%nat); injection E as <- <-.
  - rewrite <- app_assoc_s. destruct Hsep as [-> | [a [c [-> Hc]]]]; [reflexivity|].
    rewrite app_assoc_s. cbn [append]. rewrite split_ws_space by exact Hc. rewrite split_ws_suffix by (apply blank_cons; split; [exact Hc|apply blank_nil]). reflexivity.
  - replace ((s ++ rstrip line ++ NL) ++ prefix ++ word)%string with ((s ++ rstrip line) ++ String nl (prefix ++ word))%string by (now rewrite !app_assoc_s).
    rewrite split_ws_space by reflexivity. rewrite (split_ws_prefix prefix) by exact Hp. f_equal.
    destruct (rstrip_split line) as [q [Eq Hq]]. rewrite Eq at 2. rewrite <- app_assoc_s. now rewrite (split_ws_suffix _ q).
Qed.
Lemma fold_tokens words : forall s line hang w s' line', blank hang ->
  (s ++ line = "" \/ exists a c, s ++ line = a ++ String c "" /\ is_space c = true)%string ->
  fold_elems words s line hang w = (s', line') ->
  split_ws (s' ++ line')%string = split_ws (s ++ line)%string ++ concat (map split_ws words).
Proof.
  induction words as [|x [|y l] IH]; intros s line hang w s' line' Hh Hsep E.
  - injection E as <- <-. cbn. now rewrite app_nil_r.
  - cbn [fold_elems map concat] in *. rewrite app_nil_r. eapply extend_tokens; eassumption.
  - change (fold_elems (x :: y :: l) s line hang w) with
      (let (s1, line1) := extend_line s line x hang w in fold_elems (y :: l) s1 (line1 ++ " ")%string hang w) in E.
    destruct (extend_line s line x hang w) as [s1 line1] eqn:E1.
    pose proof (extend_tokens _ _ _ _ _ _ _ Hh Hsep E1) as T1.
    rewrite (IH _ _ _ _ _ _ Hh) with (2 := E).
    + rewrite <- app_assoc_s, split_ws_suffix by (intros c [<-|[]]; reflexivity). rewrite T1. cbn [map concat]. now rewrite <- app_assoc.
    + right. exists (s1 ++ line1)%string, " "%char. split; [now rewrite app_assoc_s|reflexivity].
Qed.
Lemma extend_first s line word prefix w : exists s' line', extend_line s line word prefix w = (s', line') /\
  (forall f : ascii -> Prop, (forall c, In c (chars s) \/ In c (chars line) \/ In c (chars word) \/ In c (chars prefix) \/ c = nl -> f c) ->
     forall c, In c (chars s') \/ In c (chars line') -> f c) /\
  (forall t, (s ++ line)%string = String " " t -> (~ blank t \/ s ++ line = prefix)%string ->
     exists t', (s' ++ line')%string = String " " t' /\ (blank word \/ ~ blank t')).
Proof.
  unfold extend_line. destruct ((slen line + slen word <=? w)%nat || (slen line <=? slen prefix)%nat) eqn:Ew; eexists; eexists; (split; [reflexivity|split]).
  - intros f Hf c [H|H]; apply Hf; [now left|]. rewrite chars_app, in_app_iff in H. tauto.
  - intros t E Hb. exists (t ++ word)%string. rewrite <- app_assoc_s, E. split; [reflexivity|].
    destruct Hb as [Hb|Hb]; [right; rewrite blank_app; tauto|].
    destruct (split_ws word) eqn:Es; [left; now apply split_ws_nil|right]. rewrite blank_app. intros [_ B]. apply split_ws_nil in B. congruence.
  - intros f Hf c [H|H]; apply Hf; rewrite ?chars_app, ?in_app_iff in H.
    + destruct H as [H|[H|H]]; [now left| |cbn in H; destruct H as [<-|[]]; tauto].
      destruct (rstrip_split line) as [q [Eq _]]. right; left. rewrite Eq, chars_app, in_app_iff. now left.
    + tauto.
  - apply orb_false_iff in Ew. destruct Ew as [_ Ew]. apply Nat.leb_gt in Ew. unfold slen in Ew.
    intros t E Hb. destruct Hb as [Hb|Hb].
    + destruct s as [|c s].
      * cbn [append] in *. subst line.
        assert (rstrip t <> "")%string as Hr by (now apply rstrip_nonblank).
        exists (rstrip t ++ NL ++ prefix ++ word)%string. split.
        -- change (String " " t) with (" " ++ t)%string. rewrite rstrip_app_nonblank by exact Hr. now rewrite !app_assoc_s.
        -- right. rewrite blank_app. intros [B _]. apply Hb. destruct (rstrip_split t) as [q [Eq Hq]]. rewrite Eq. apply blank_app. tauto.
      * cbn [append] in *. injection E as -> E. exists ((s ++ rstrip line ++ NL) ++ prefix ++ word)%string. split; [reflexivity|].
        right. rewrite !blank_app. intros [[B1 [B2 _]] _]. apply Hb. rewrite <- E. apply blank_app. split; [exact B1|].
        destruct (rstrip_split line) as [q [Eq Hq]]. rewrite Eq. apply blank_app. tauto.
    + exfalso. rewrite <- Hb, length_app in Ew. lia.
Qed.
Lemma fold_first words : forall s line hang w s' line', fold_elems words s line hang w = (s', line') ->
  (forall f : ascii -> Prop, (forall c, In c (chars s) \/ In c (chars line) \/ (exists x, In x words /\ In c (chars x)) \/ In c (chars hang) \/ c = nl \/ c = " "%char -> f c) ->
     forall c, In c (chars s') \/ In c (chars line') -> f c) /\
  (forall t, (s ++ line)%string = String " " t -> (~ blank t \/ s ++ line = hang)%string -> Forall (fun x => ~ blank x) words ->
     exists t', (s' ++ line')%string = String " " t').
Proof.
  induction words as [|x [|y l] IH]; intros s line hang w s' line' E.
  - injection E as <- <-. split; [intros f Hf c Hc; apply Hf; tauto|intros t Et _ _; exists t; exact Et].
  - cbn [fold_elems] in E. destruct (extend_first s line x hang w) as [s1 [l1 [E1 [P1 P2]]]]. rewrite E in E1. injection E1 as <- <-. split.
    + intros f Hf c Hc. apply (P1 f); [|exact Hc]. intros d Hd. apply Hf.
      destruct Hd as [Hd|[Hd|[Hd|Hd]]]; [tauto|tauto| |tauto]. right; right; left. exists x. split; [now left|exact Hd].
    + intros t Et Hb Hw. destruct (P2 t Et Hb) as [t' [Et' _]]. exists t'. exact Et'.
  - change (fold_elems (x :: y :: l) s line hang w) with
      (let (s1, line1) := extend_line s line x hang w in fold_elems (y :: l) s1 (line1 ++ " ")%string hang w) in E.
    destruct (extend_first s line x hang w) as [s1 [l1 [E1 [P1 P2]]]]. rewrite E1 in E.
    destruct (IH _ _ _ _ _ _ E) as [Q1 Q2]. split.
    + intros f Hf c Hc. apply (Q1 f); [|exact Hc]. intros d Hd.
      assert (forall d, In d (chars s1) \/ In d (chars l1) -> f d) as Hd1.
      { apply (P1 f). intros e He. apply Hf. destruct He as [He|[He|[He|He]]]; [tauto|tauto| |tauto]. right; right; left. exists x. split; [now left|exact He]. }
      destruct Hd as [Hd|[Hd|[[z [Hz Hd]]|[Hd|[Hd|Hd]]]]]; [apply Hd1; now left| | | | |].
      * rewrite chars_app, in_app_iff in Hd. destruct Hd as [Hd|Hd]; [apply Hd1; now right|]. cbn in Hd. destruct Hd as [<-|[]]. apply Hf. tauto.
      * apply Hf. right; right; left. exists z. split; [now right|exact Hd].
      * apply Hf. tauto.
      * apply Hf. tauto.
      * apply Hf. tauto.
    + intros t Et Hb Hw. destruct (P2 t Et Hb) as [t' [Et' [Hbx|Hnb]]]; [exfalso; now apply Forall_inv in Hw|].
      apply (Q2 (t' ++ " ")%string); [rewrite <- app_assoc_s, Et'; reflexivity| |now apply Forall_inv_tail in Hw].
      left. rewrite blank_app. tauto.
Qed.

Lemma elem_nonblank all x : displayable all -> In x all -> ~ blank (fmt_elem W all x).
Proof. intros HD Hx B. destruct (elem_props all x HD Hx) as [t [E _]]. apply split_ws_blank in B. congruence. Qed.

(** reading back the numbers of a one-dimensional array *)
Lemma vector_round_trip l : displayable l -> (length l <= 1000)%nat ->
  map_res py_float (split_ws (numeric_to_string_table W (ND1 l))) = Ok (map (disp l) l).
Proof.
  intros HD Hl. unfold numeric_to_string_table. rewrite split_ws_lstrip, split_ws_rstrip, split_ws_unindent.
  destruct l as [|x0 l0] eqn:El; [reflexivity|]. rewrite <- El in *. unfold array2string. rewrite El. rewrite <- El.
  assert (summarised (length l) = false) as -> by (apply Nat.ltb_ge; lia). unfold row_words, shown_row. cbn [andb].
  unfold show_row. destruct (fold_elems (map (fmt_elem W l) l) "" (blanks 1) (blanks 1) (75 - 1)) as [s line] eqn:E.
  assert (Forall (fun x => ~ blank x) (map (fmt_elem W l) l)) as Hnb by (apply Forall_map, Forall_forall; intros x Hx; now apply elem_nonblank).
  destruct (fold_first _ _ _ _ _ _ _ E) as [P1 P2].
  destruct (P2 "" eq_refl (or_intror eq_refl) Hnb) as [t Et].
  rewrite Et. unfold slen. cbn [String.length].
  change (String " " t) with (" " ++ t)%string. replace (S (String.length t) - 1)%nat with (String.length (" " ++ t) - 1)%nat by (cbn; lia).
  rewrite substring_drop by reflexivity.
  assert (remove_chars is_bracket ("[" ++ t ++ "]") = t)%string as ->.
  { rewrite !remove_app. change (remove_chars is_bracket "[") with "". change (remove_chars is_bracket "]") with "".
    cbn [append]. rewrite app_empty_r. apply remove_id. intros c Hc.
    apply (P1 (fun c => is_bracket c = false)).
    - intros d [Hd|[Hd|[[z [Hz Hd]]|[Hd|[-> | ->]]]]].
      + destruct Hd.
      + cbn in Hd. destruct Hd as [<-|[]]. reflexivity.
      + apply in_map_iff in Hz. destruct Hz as [y [<- Hy]]. destruct (elem_props l y HD Hy) as [? [_ [_ [H _]]]]. now destruct (H d Hd).
      + cbn in Hd. destruct Hd as [<-|[]]. reflexivity.
      + reflexivity.
      + reflexivity.
    - rewrite <- in_app_iff, <- chars_app, Et, chars_cons. now right. }
  assert (split_ws t = concat (map split_ws (map (fmt_elem W l) l))) as ->.
  { assert (split_ws (String " " t) = split_ws t) as <- by (apply (split_ws_prefix " "); intros c [<-|[]]; reflexivity).
    rewrite <- Et. rewrite (fold_tokens _ _ _ _ _ _ _ (blanks_blank 1)) with (2 := E); [reflexivity|].
    right. exists "", " "%char. split; reflexivity. }
  clear -HW HD. assert (forall k, incl k l -> map_res py_float (concat (map split_ws (map (fmt_elem W l) k))) = Ok (map (disp l) k)) as H; [|apply H, incl_refl].
  induction k as [|x k IH]; intros Hk; [reflexivity|]. cbn [map concat].
  destruct (elem_props l x HD (Hk x (or_introl eq_refl))) as [t [E1 [E2 _]]]. rewrite E1. cbn [app map_res].
  rewrite (proj2 (py_float_token t (disp l x) (number_solid _ _ _ E2)) E2). cbn [bind]. rewrite IH by (intros z Hz; apply Hk; now right). reflexivity.
Qed.
End Display.
