(** Writing a table with savetxt and reading it with loadtxt; header lines *)
From Coq Require Import Permutation.
From Verif Require Import PyBase PyStr XReal TextModel TextSpec TextProofs TableProofs MaterialModel FileModel ReaderModel WriterModel IOSpec LineProofs FmtProofs.
Open Scope R_scope.
Open Scope string_scope.
Open Scope list_scope.

(** ** rows *)
Definition data_line (delim : string) (r : list xr) : string := join delim (map (fmt_f 8) r).
Definition data_lines (delim : string) (rows : list (list xr)) : list string := map (data_line delim) rows.
Definition delim_of (ext : string) : string := if String.eqb ext ".txt" then TAB else ",".

Lemma rows_text delim rows : fold_right append "" (map (row_text delim) rows) = lines_text (data_lines delim rows).
Proof. unfold lines_text, data_lines. rewrite map_map. reflexivity. Qed.

Lemma join_chars sep l c : In c (chars (join sep l)) -> In c (chars sep) \/ exists x, In x l /\ In c (chars x).
Proof.
  induction l as [|x [|y l] IH]; cbn [join]; [intros []|intros H; right; exists x; split; [now left|exact H]|].
  rewrite !chars_app, !in_app_iff. intros [H|[H|H]].
  - right. exists x. split; [now left|exact H].
  - now left.
  - destruct (IH H) as [H'|[z [Hz Hc]]]; [now left|]. right. exists z. split; [now right|exact Hc].
Qed.
Lemma data_line_chars delim r c : In c (chars (data_line delim r)) -> In c (chars delim) \/ num_char c = true.
Proof.
  intros H. apply join_chars in H. destruct H as [H|[x [Hx Hc]]]; [now left|].
  apply in_map_iff in Hx. destruct Hx as [y [<- _]]. right. eapply fmt_f_chars, Hc.
Qed.
Lemma data_line_one_line delim r : delim = TAB \/ delim = "," -> one_line (data_line delim r).
Proof.
  intros Hd c Hc. apply data_line_chars in Hc. intros Hb. apply is_break_iff in Hb. destruct Hc as [Hc|Hc].
  - destruct Hd as [-> | ->]; cbn in Hc; destruct Hc as [<-|[]]; vm_compute in Hb; discriminate.
  - apply num_char_props in Hc. intuition congruence.
Qed.
Lemma before_id c s : ~ In c (chars s) -> before c s = s.
Proof.
  induction s as [|d r IH]; intros H; [reflexivity|]. rewrite chars_cons in H. cbn [before].
  destruct (Ascii.eqb d c) eqn:E; [apply Ascii.eqb_eq in E; subst; exfalso; apply H; now left|].
  f_equal. apply IH. intros Hi; apply H; now right.
Qed.
Lemma data_line_hash delim r : delim = TAB \/ delim = "," -> ~ In "#"%char (chars (data_line delim r)).
Proof.
  intros Hd Hc. apply data_line_chars in Hc. destruct Hc as [Hc|Hc].
  - destruct Hd as [-> | ->]; cbn in Hc; destruct Hc as [Hc|[]]; discriminate Hc.
  - apply num_char_props in Hc. intuition congruence.
Qed.
Lemma data_line_head delim x r : exists c t, data_line delim (x :: r) = String c t /\ num_char c = true.
Proof.
  unfold data_line. cbn [map]. destruct (fmt_f 8 x) as [|c t] eqn:E.
  { destruct (fmt_f_solid 8 x ltac:(lia)) as [H _]. congruence. }
  assert (num_char c = true) as Hc by (apply (fmt_f_chars 8 x); rewrite E; now left).
  destruct (map (fmt_f 8) r); cbn [join append]; eauto.
Qed.

Lemma split_ws_line r : split_ws (data_line TAB r) = map (fmt_f 8) r.
Proof.
  apply split_ws_complete. unfold data_line. induction r as [|x [|y r] IH]; cbn [map join] in *.
  - apply ln_nil, blank_nil.
  - pose proof (ln_last "" (fmt_f 8 x) "" blank_nil (fmt_f_solid 8 x ltac:(lia)) blank_nil) as H. cbn [append] in H. now rewrite app_empty_r in H.
  - apply (ln_cons "" (fmt_f 8 x) TAB); [apply blank_nil|apply fmt_f_solid; lia| |discriminate|exact IH|discriminate].
    intros c [<-|[]]. reflexivity.
Qed.
Lemma split_comma_line x r : split_on "," (data_line "," (x :: r)) = map (fmt_f 8) (x :: r).
Proof.
  assert (forall y, ~ In ","%char (chars (fmt_f 8 y))) as H by (intros y Hc; apply fmt_f_chars, num_char_props in Hc; intuition congruence).
  unfold data_line. revert x. induction r as [|y r IH]; intros x.
  - apply split_single, H.
  - change (join "," (map (fmt_f 8) (x :: y :: r))) with (fmt_f 8 x ++ String "," (join "," (map (fmt_f 8) (y :: r))))%string.
    rewrite split_first by apply H. rewrite IH. reflexivity.
Qed.

Lemma tokens_hash comment delim l : line_tokens comment delim (String comment l) = [].
Proof. unfold line_tokens. cbn [before]. rewrite Ascii.eqb_refl. destruct delim; reflexivity. Qed.
Lemma tokens_data ext x r : ext = ".txt" \/ ext = ".csv" ->
  line_tokens "#" (if String.eqb ext ".txt" then None else Some ","%char) (data_line (delim_of ext) (x :: r)) = map (fmt_f 8) (x :: r).
Proof.
  intros [-> | ->]; unfold delim_of; cbn [String.eqb Ascii.eqb Bool.eqb]; unfold line_tokens; rewrite before_id by (apply data_line_hash; auto).
  - apply split_ws_line.
  - destruct (String.eqb (data_line "," (x :: r)) "") eqn:E; [|apply split_comma_line].
    apply String.eqb_eq in E. destruct (data_line_head "," x r) as [c [t [E' _]]]. congruence.
Qed.

Lemma map_res_fmt r : map_res (parse_float false) (map (fmt_f 8) r) = Ok (map (xround 8) r).
Proof.
  induction r as [|x r IH]; [reflexivity|]. cbn [map map_res]. rewrite fmt_f_parse by lia. cbn [bind]. rewrite IH. reflexivity.
Qed.

Lemma loadtxt_lines ext hl rows n : ext = ".txt" \/ ext = ".csv" -> Forall one_line hl ->
  rows <> [] -> (0 < n)%nat -> Forall (fun r => length r = n) rows ->
  loadtxt "#" (if String.eqb ext ".txt" then None else Some ","%char)
    (lines_text (map (fun x => "#" ++ x)%string hl ++ data_lines (delim_of ext) rows)) =
  Ok (squeeze n (map (map (xround 8)) rows)).
Proof.
  intros Hext Hhl Hne Hn Hlen.
  assert (delim_of ext = TAB \/ delim_of ext = ",") as Hd by (destruct Hext as [-> | ->]; [left|right]; reflexivity).
  assert (Forall one_line (map (fun x => "#" ++ x)%string hl ++ data_lines (delim_of ext) rows)) as Hall.
  { apply Forall_app. split.
    - apply Forall_map. eapply Forall_impl; [|exact Hhl]. intros a Ha. apply one_line_app. split; [|exact Ha].
      apply one_line_cons. split; [reflexivity|apply one_line_nil].
    - apply Forall_map. apply Forall_forall. intros r _. now apply data_line_one_line. }
  unfold loadtxt. rewrite univ_id by (now apply lines_text_cr). rewrite split_lines by exact Hall.
  rewrite !map_app, !filter_app.
  assert (forall l, filter (fun l : list string => match l with [] => false | _ => true end)
     (map (line_tokens "#" (if String.eqb ext ".txt" then None else Some ","%char)) (map (fun x => "#" ++ x)%string l)) = []) as E1.
  { induction l as [|x l IH]; [reflexivity|]. cbn [map append]. rewrite tokens_hash. exact IH. }
  rewrite E1. cbn [app].
  assert (forall d, filter (fun l : list string => match l with [] => false | _ => true end) (map (line_tokens "#" d) [""%string]) = []) as E2
    by (intros [d|]; reflexivity).
  rewrite E2, app_nil_r.
  assert (filter (fun l : list string => match l with [] => false | _ => true end)
     (map (line_tokens "#" (if String.eqb ext ".txt" then None else Some ","%char)) (data_lines (delim_of ext) rows)) = map (map (fmt_f 8)) rows) as E3.
  { unfold data_lines. rewrite map_map. clear -Hext Hn Hlen. induction rows as [|r rows IH]; [reflexivity|].
    assert (length r = n) as Hr by (now apply Forall_inv in Hlen). destruct r as [|x r]; [cbn in Hr; lia|].
    cbn [map]. rewrite tokens_data by exact Hext. cbn [map filter]. f_equal. apply IH. now apply Forall_inv_tail in Hlen. }
  rewrite E3.
  assert (map_res (map_res (parse_float false)) (map (map (fmt_f 8)) rows) = Ok (map (map (xround 8)) rows)) as E4.
  { clear. induction rows as [|r rows IH]; [reflexivity|]. cbn [map map_res]. rewrite map_res_fmt. cbn [bind]. rewrite IH. reflexivity. }
  rewrite E4. cbn [bind].
  rewrite (proj2 (np_array_2d (map (map (xround 8)) rows) n ltac:(lia))); [reflexivity|].
  split; [destruct rows; [congruence|discriminate]|].
  apply Forall_map. eapply Forall_impl; [|exact Hlen]. intros r Hr. now rewrite map_length.
Qed.

(** ** header *)
Lemma read_comment_lines ext hl rows n : ext = ".txt" \/ ext = ".csv" -> Forall one_line hl ->
  rows <> [] -> (0 < n)%nat -> Forall (fun r => length r = n) rows ->
  read_text_comment (lines_text (map (fun x => "#" ++ x)%string hl ++ data_lines (delim_of ext) rows)) = hl.
Proof.
  intros Hext Hhl Hne Hn Hlen. unfold read_text_comment.
  rewrite lines_text_app, splitlines_lines, comment_lines_hash by
    (exact Hhl || (apply Forall_map; eapply Forall_impl; [|exact Hhl]; intros a Ha; apply one_line_app; split; [|exact Ha];
      apply one_line_cons; split; [reflexivity|apply one_line_nil])).
  destruct rows as [|r rows]; [congruence|].
  assert (length r = n) as Hr by (now apply Forall_inv in Hlen). destruct r as [|x r]; [cbn in Hr; lia|].
  assert (delim_of ext = TAB \/ delim_of ext = ",") as Hd by (destruct Hext as [-> | ->]; [left|right]; reflexivity).
  cbn [data_lines map]. rewrite lines_text_cons, splitlines_cons by (now apply data_line_one_line).
  destruct (data_line_head (delim_of ext) x r) as [c [t [-> Hc]]]. cbn [append comment_lines].
  apply num_char_props in Hc. destruct Hc as [_ [_ [H1 [_ [H2 _]]]]].
  destruct (Ascii.eqb c "#") eqn:E1; [apply Ascii.eqb_eq in E1; congruence|].
  destruct (Ascii.eqb c ";") eqn:E2; [apply Ascii.eqb_eq in E2; congruence|]. cbn [orb]. apply app_nil_r.
Qed.

(** the keyword sets are prefix-free, so the iteration order does not matter *)
Lemma prefix_both a b s : String.prefix a s = true -> String.prefix b s = true -> String.prefix a b = true \/ String.prefix b a = true.
Proof.
  revert b s; induction a as [|x a IH]; intros b s Ha Hb; [left; destruct b; reflexivity|].
  destruct b as [|y b]; [right; reflexivity|]. destruct s as [|z s]; [discriminate|]. cbn [String.prefix] in *.
  destruct (ascii_dec x z); [|discriminate]. destruct (ascii_dec y z); [|discriminate]. subst.
  destruct (ascii_dec z z); [|congruence]. eapply IH; eassumption.
Qed.
Definition prefix_free (keys : list string) : Prop :=
  forall a b, In a keys -> In b keys -> String.prefix (upper a) (upper b) = true -> a = b.
Lemma match_key_unique keys kwd k : prefix_free keys -> In k keys -> startswith (upper k) kwd = true ->
  match_key keys kwd = Some k.
Proof.
  intros Hp Hin Hs. unfold match_key. destruct (find _ keys) as [k'|] eqn:E.
  - apply find_some in E. destruct E as [Hi' Hs']. f_equal.
    destruct (prefix_both _ _ _ Hs Hs') as [H|H]; [symmetry|]; apply Hp; assumption.
  - exfalso. apply (find_none _ _ E) in Hin. cbn beta in Hin. congruence.
Qed.
Lemma match_key_perm keys keys' kwd : prefix_free keys -> Permutation keys keys' -> match_key keys' kwd = match_key keys kwd.
Proof.
  intros Hp P. destruct (match_key keys kwd) as [k|] eqn:E.
  - apply find_some in E. destruct E as [Hi Hs]. apply match_key_unique.
    + intros a b Ha Hb. apply Hp; now apply (Permutation_in _ (Permutation_sym P)).
    + now apply (Permutation_in _ P).
    + exact Hs.
  - unfold match_key in *. destruct (find _ keys') as [k'|] eqn:E'; [|reflexivity].
    apply find_some in E'. destruct E' as [Hi Hs]. apply (Permutation_in _ (Permutation_sym P)) in Hi.
    apply (find_none _ _ E) in Hi. cbn beta in *. congruence.
Qed.
Ltac prefix_free_tac := intros a b Ha Hb; cbn in Ha, Hb;
  repeat (destruct Ha as [<-|Ha]; [repeat (destruct Hb as [<-|Hb]; [vm_compute; congruence|]); contradiction|]); contradiction.
Lemma file_keys_free : prefix_free FILE_META_DATA_KEYS. Proof. prefix_free_tac. Qed.
Lemma dataset_keys_free : prefix_free DATASET_META_DATA_KEYS. Proof. prefix_free_tac. Qed.

(** a line with a keyword *)
Lemma header_line_file fk dk meta d multi key k v :
  Permutation FILE_META_DATA_KEYS fk -> In key FILE_META_DATA_KEYS ->
  ~ In ":"%char (chars k) -> startswith (upper key) (lstrip (upper k)) = true -> header_value v ->
  header_line fk dk (meta, d, multi) (k ++ ": " ++ v)%string = (dset meta key (MStr v), d, multi).
Proof.
  intros P Hin Hk Hs [Hv1 Hv2]. unfold header_line. change (": " ++ v)%string with (String ":" (" " ++ v)%string).
  rewrite split_first by exact Hk. destruct (split_on ":" (" " ++ v)) as [|p ps] eqn:E.
  { exfalso. now apply (proj2 (join_split_gen ":" (" " ++ v))). }
  rewrite <- E. rewrite (proj1 (join_split_gen ":" (" " ++ v))).
  rewrite (match_key_perm FILE_META_DATA_KEYS fk _ file_keys_free P), (match_key_unique _ _ key file_keys_free Hin Hs).
  rewrite rstrip_nlcr_one_line by (apply one_line_cons; split; [reflexivity|exact Hv1]).
  unfold lstrip in *. cbn [append lstrip_by]. change (is_space " ") with true. rewrite Hv2. reflexivity.
Qed.
Lemma header_line_set fk dk meta d multi key k v :
  Permutation FILE_META_DATA_KEYS fk -> Permutation DATASET_META_DATA_KEYS dk -> In key DATASET_META_DATA_KEYS ->
  ~ In ":"%char (chars k) -> match_key FILE_META_DATA_KEYS (lstrip (upper k)) = None ->
  startswith (upper key) (lstrip (upper k)) = true -> header_value v ->
  header_line fk dk (meta, d, multi) (k ++ ": " ++ v)%string = (meta, fset_set d key (DStr v), multi).
Proof.
  intros P P' Hin Hk Hn Hs [Hv1 Hv2]. unfold header_line. change (": " ++ v)%string with (String ":" (" " ++ v)%string).
  rewrite split_first by exact Hk. destruct (split_on ":" (" " ++ v)) as [|p ps] eqn:E.
  { exfalso. now apply (proj2 (join_split_gen ":" (" " ++ v))). }
  rewrite <- E. rewrite (proj1 (join_split_gen ":" (" " ++ v))).
  rewrite (match_key_perm FILE_META_DATA_KEYS fk _ file_keys_free P), Hn.
  rewrite (match_key_perm DATASET_META_DATA_KEYS dk _ dataset_keys_free P'), (match_key_unique _ _ key dataset_keys_free Hin Hs).
  rewrite rstrip_nlcr_one_line by (apply one_line_cons; split; [reflexivity|exact Hv1]).
  unfold lstrip in *. cbn [append lstrip_by]. change (is_space " ") with true. rewrite Hv2. reflexivity.
Qed.

(** a line without keyword *)
Lemma prefix_app p s : String.prefix p s = true -> exists t, s = (p ++ t)%string.
Proof.
  revert s; induction p as [|c p IH]; intros s H; [exists s; reflexivity|].
  destruct s as [|d s]; [discriminate|]. cbn [String.prefix] in H. destruct (ascii_dec c d); [|discriminate]. subst.
  destruct (IH s H) as [t ->]. exists t. reflexivity.
Qed.
Lemma keywords_of_keys key : In key (FILE_META_DATA_KEYS ++ DATASET_META_DATA_KEYS) -> In (upper key) keywords.
Proof. cbn. intuition (subst; vm_compute; auto 20). Qed.
Lemma header_line_plain fk dk meta d multi line :
  Permutation FILE_META_DATA_KEYS fk -> Permutation DATASET_META_DATA_KEYS dk ->
  (forall kw, In kw keywords -> ~ keyword_line kw line) ->
  header_line fk dk (meta, d, multi) line = (meta, d, (multi ++ line ++ NL)%string).
Proof.
  intros P P' Hp. unfold header_line. destruct (split_on ":" line) as [|k0 [|q qs]] eqn:E; [reflexivity|reflexivity|].
  destruct (split_inv _ _ _ _ E) as [Hk [[? _]|[t [Et _]]]]; [discriminate|].
  assert (forall keys key, incl keys (FILE_META_DATA_KEYS ++ DATASET_META_DATA_KEYS) ->
            match_key keys (lstrip (upper k0)) = Some key -> False) as Hno.
  { intros keys key Hincl Hm. unfold match_key in Hm. apply find_some in Hm. destruct Hm as [Hi Hs].
    apply (Hp (upper key)); [apply keywords_of_keys, Hincl, Hi|].
    apply prefix_app in Hs. destruct Hs as [s Hs]. destruct (lstrip_split (upper k0)) as [p [Hup Hb]].
    exists k0, t, p, s. split; [exact Et|]. split; [exact Hk|]. split; [rewrite Hup at 1; now rewrite Hs|exact Hb]. }
  destruct (match_key fk _) as [key|] eqn:E1.
  { exfalso. rewrite (match_key_perm FILE_META_DATA_KEYS fk _ file_keys_free P) in E1. apply (Hno _ _ (incl_appl _ (incl_refl _)) E1). }
  destruct (match_key dk _) as [key|] eqn:E2; [|reflexivity].
  exfalso. rewrite (match_key_perm DATASET_META_DATA_KEYS dk _ dataset_keys_free P') in E2. apply (Hno _ _ (incl_appr _ (incl_refl _)) E2).
Qed.
