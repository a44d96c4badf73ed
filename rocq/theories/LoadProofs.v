(** Reading of hand-written text files (C88) *)
From Verif Require Import PyBase PyStr XReal CNum SpectrumModel SpectralModel TextModel TextSpec TextProofs TableProofs MaterialModel MaterialSpec MaterialProofs MatFileProofs FileModel ReaderModel WriterModel IOSpec LineProofs FmtProofs TextFileProofs DisplayProofs PathProofs CycleProofs LoadSpec.
From Coq Require Import Permutation.
Open Scope string_scope.
Open Scope list_scope.

Definition full (l : list string) : bool := match l with [] => false | _ => true end.

(** ** line ends *)
Lemma univ_app_nocr a s : ~ In cr (chars a) -> univ (a ++ s)%string = (a ++ univ s)%string.
Proof.
  induction a as [|c a IH]; intros H; [reflexivity|]. cbn [append univ]. rewrite chars_cons in H.
  destruct (Ascii.eqb c cr) eqn:E; [apply Ascii.eqb_eq in E; subst; exfalso; apply H; now left|].
  rewrite IH; [reflexivity|]. intros K. apply H. now right.
Qed.
Lemma file_univ ls s : file_text ls s -> Forall one_line ls ->
  split_on nl (univ s) = ls \/ split_on nl (univ s) = ls ++ [""].
Proof.
  induction 1 as [|l Hl|l e ls s He Hf IH]; intros Ho.
  - right. reflexivity.
  - left. apply Forall_inv in Ho. rewrite univ_id by now apply one_line_cr. apply split_single. now apply one_line_nl.
  - pose proof (Forall_inv Ho) as H1. specialize (IH (Forall_inv_tail Ho)).
    rewrite univ_app_nocr by now apply one_line_cr.
    assert (univ (e ++ s)%string = String nl (univ s)) as -> by (destruct He as [-> | ->]; reflexivity).
    rewrite split_first by now apply one_line_nl. destruct IH as [-> | ->]; [left|right]; reflexivity.
Qed.
Lemma splitlines_crlf x rest : one_line x -> splitlines (x ++ CRLF ++ rest)%string = (x ++ CRLF)%string :: splitlines rest.
Proof.
  induction x as [|c x IH]; intros H; [reflexivity|]. apply one_line_cons in H. destruct H as [Hc H].
  cbn [append splitlines]. rewrite Hc, IH by exact H. reflexivity.
Qed.
Lemma rstrip_crlf x : one_line x -> rstrip_nlcr (x ++ CRLF)%string = x.
Proof.
  intros H. apply trimmed_iff. exists CRLF. split; [reflexivity|]. split.
  - intros c [<-|[<-|[]]]; auto.
  - intros a c E. assert (one_line (a ++ String c "")%string) as K by now rewrite <- E.
    apply one_line_app in K. destruct K as [_ K]. apply one_line_cons in K. destruct K as [K _].
    split; intros ->; discriminate.
Qed.
Lemma file_comments mk header body s : file_text (map (String mk) header ++ body) s ->
  mk = "#"%char \/ mk = ";"%char -> Forall one_line header -> Forall one_line body ->
  (forall l r, body = l :: r -> no_comment l) -> read_text_comment s = header.
Proof.
  intros Hf Hm Hh Hb Hn. unfold read_text_comment.
  assert (is_break mk = false) as Bm by (destruct Hm as [-> | ->]; reflexivity).
  assert (Ascii.eqb mk "#" || Ascii.eqb mk ";" = true) as Cm by (destruct Hm as [-> | ->]; reflexivity).
  remember (map (String mk) header ++ body) as ls eqn:E. revert header E Hh. 
  induction Hf as [|l Hl|l e ls s He Hf IH]; intros header E Hh.
  - destruct header; [reflexivity|discriminate].
  - destruct header as [|h header].
    + cbn in E. symmetry in E. specialize (Hn _ _ E). rewrite E in Hb. apply Forall_inv in Hb.
      destruct l as [|c l]; [congruence|].
      assert (splitlines (String c l) = [String c l]) as ->.
      { clear -Hb. revert c Hb. induction l as [|d l IH]; intros c Hb; apply one_line_cons in Hb; destruct Hb as [Hc Hb]; cbn [splitlines]; rewrite Hc; [reflexivity|].
        specialize (IH d Hb). cbn [splitlines] in IH. rewrite IH. reflexivity. }
      cbn [comment_lines]. destruct (Ascii.eqb c "#") eqn:E1; [apply Ascii.eqb_eq in E1; subst; destruct (Hn l); congruence|].
      destruct (Ascii.eqb c ";") eqn:E2; [apply Ascii.eqb_eq in E2; subst; destruct (Hn l); congruence|]. reflexivity.
    + cbn in E. injection E as E1 E2. destruct header as [|h' header]; [|discriminate]. subst l.
      apply Forall_inv in Hh.
      assert (one_line (String mk h)) as Ho by (apply one_line_cons; split; assumption).
      assert (splitlines (String mk h) = [String mk h]) as ->.
      { clear -Ho. revert mk Ho. induction h as [|d l IH]; intros c Hb; apply one_line_cons in Hb; destruct Hb as [Hc Hb]; cbn [splitlines]; rewrite Hc; [reflexivity|].
        specialize (IH d Hb). cbn [splitlines] in IH. rewrite IH. reflexivity. }
      cbn [comment_lines]. rewrite Cm. now rewrite rstrip_nlcr_one_line.
  - assert (Forall one_line (map (String mk) header ++ body)) as Ha.
    { apply Forall_app. split; [|exact Hb]. apply Forall_map. eapply Forall_impl; [|exact Hh]. intros h K. apply one_line_cons. now split. }
    assert (one_line l) as Hl by (rewrite <- E in Ha; now apply Forall_inv in Ha).
    assert (splitlines (l ++ e ++ s)%string = (l ++ e)%string :: splitlines s) as ->
      by (destruct He as [-> | ->]; [now apply splitlines_cons|now apply splitlines_crlf]).
    destruct header as [|h header].
    + cbn in E. symmetry in E. specialize (Hn _ _ E).
      assert (exists c r, (l ++ e)%string = String c r /\ Ascii.eqb c "#" || Ascii.eqb c ";" = false) as (c & r & Ec & Eb).
      { destruct l as [|c l].
        - destruct He as [-> | ->]; eexists _, _; split; reflexivity.
        - eexists c, _. split; [reflexivity|].
          destruct (Ascii.eqb c "#") eqn:E1; [apply Ascii.eqb_eq in E1; subst; destruct (Hn l); congruence|].
          destruct (Ascii.eqb c ";") eqn:E2; [apply Ascii.eqb_eq in E2; subst; destruct (Hn l); congruence|]. reflexivity. }
      cbn [comment_lines]. rewrite Ec. cbn [comment_lines]. now rewrite Eb.
    + cbn in E. injection E as -> E2. cbn [append comment_lines]. rewrite Cm.
      rewrite (IH header E2 (Forall_inv_tail Hh)). f_equal.
      apply Forall_inv in Hh. destruct He as [-> | ->]; [now apply rstrip_nlcr_app_nl|now apply rstrip_crlf].
Qed.

(** ** the numbers *)
Lemma before_mark c a r : ~ In c (chars a) -> before c (a ++ String c r)%string = a.
Proof.
  induction a as [|d a IH]; intros H; cbn [append before]; [now rewrite Ascii.eqb_refl|]. rewrite chars_cons in H.
  destruct (Ascii.eqb d c) eqn:E; [apply Ascii.eqb_eq in E; subst; exfalso; apply H; now left|]. rewrite IH; [reflexivity|]. intros K. apply H. now right.
Qed.
Definition delim_char (ext : string) : option ascii := if String.eqb ext ".csv" then Some ","%char else None.
Lemma split_join_comma cs : cs <> [] -> Forall (fun c => ~ In ","%char (chars c)) cs -> split_on "," (join "," cs) = cs.
Proof.
  induction cs as [|a [|b cs] IH]; intros Hn H; [congruence| |].
  - cbn [join]. apply split_single. now apply Forall_inv in H.
  - change (join "," (a :: b :: cs)) with (a ++ String "," (join "," (b :: cs)))%string.
    rewrite split_first by now apply Forall_inv in H. f_equal. apply IH; [discriminate|]. now apply Forall_inv_tail in H.
Qed.
Definition padded (c t : string) : Prop := exists p q, c = (p ++ t ++ q)%string /\ blank p /\ blank q.
Lemma padded_refl t : padded t t.
Proof. exists "", "". split; [now rewrite app_empty_r|]. split; apply blank_nil. Qed.
Lemma body_tokens ext s l : body_line ext s l -> exists cs,
  line_tokens (comment_mark ext) (delim_char ext) s = cs /\ Forall2 padded cs l.
Proof.
  intros (c & Hc & Hm & Hs).
  assert (before (comment_mark ext) s = c) as E.
  { destruct Hs as [-> | [r ->]]; [now apply before_id|now apply before_mark]. }
  unfold line_tokens. rewrite E. unfold delim_char. inversion Hc as [s0 l0 Hx Hl|Hx|cs l0 Hx Hne Hcs Hall]; subst.
  - destruct (String.eqb ext ".csv") eqn:Ex; [apply String.eqb_eq in Ex; congruence|].
    eexists. split; [reflexivity|]. apply split_ws_iff in Hl. rewrite Hl. clear. induction l; constructor; [apply padded_refl|assumption].
  - cbn. eexists. split; [reflexivity|]. constructor.
  - change (String.eqb ".csv" ".csv") with true. cbv iota.
    assert (cs <> []) as Hcn by (intros ->; inversion Hcs; congruence).
    assert (join "," cs <> "") as Hj.
    { destruct cs as [|a cs]; [congruence|]. inversion Hcs as [|a0 t cs0 l0 Ha Hr]; subst. destruct Ha as (p & q & -> & _ & _ & [Ht _] & _).
      destruct cs as [|b cs]; cbn [join]; intros K.
      - destruct p; [|discriminate]. destruct t; [congruence|discriminate].
      - destruct p; [|discriminate]. destruct t; [congruence|discriminate]. }
    destruct (String.eqb (join "," cs) "") eqn:Ej; [apply String.eqb_eq in Ej; congruence|].
    rewrite split_join_comma by assumption. eexists. split; [reflexivity|].
    clear -Hcs. induction Hcs as [|a t cs l (p & q & -> & H1 & H2 & _) Hr IH]; constructor; [now exists p, q|assumption].
Qed.
Lemma padded_parse cs l xs : Forall2 padded cs l -> Forall2 (number_text false) l xs -> map_res (parse_float false) cs = Ok xs.
Proof.
  intros H. revert xs. induction H as [|c t cs l (p & q & -> & Hp & Hq) H IH]; intros xs Hx; inversion Hx as [|a x l0 xs0 Ha Hr]; subst; [reflexivity|].
  cbn [map_res]. rewrite (parse_float_complete false p t q x Hp Hq Ha). cbn [bind]. rewrite (IH _ Hr). reflexivity.
Qed.
Lemma padded_full cs l : Forall2 padded cs l -> full cs = full l.
Proof. now destruct 1. Qed.
Lemma body_rows ext body all nums : Forall2 (body_line ext) body all ->
  Forall2 (Forall2 (number_text false)) (filter full all) nums ->
  map_res (map_res (parse_float false)) (filter full (map (line_tokens (comment_mark ext) (delim_char ext)) body)) = Ok nums.
Proof.
  intros H. revert nums. induction H as [|s l body all Hs H IH]; intros nums Hn; [inversion Hn; reflexivity|].
  destruct (body_tokens _ _ _ Hs) as (cs & E & P). cbn [map filter]. rewrite E, (padded_full _ _ P). cbn [filter] in Hn.
  destruct (full l) eqn:F.
  - inversion Hn as [|a x l0 xs Ha Hr]; subst. cbn [map_res]. rewrite (padded_parse _ _ _ P Ha). cbn [bind]. rewrite (IH _ Hr). reflexivity.
  - now apply IH.
Qed.
Lemma load_rows ext text header rows nums n : In ext text_exts -> text_table ext text header rows ->
  Forall2 (Forall2 (number_text false)) rows nums -> (2 <= length nums)%nat -> (2 <= n)%nat -> Forall (fun r => length r = n) nums ->
  loadtxt (comment_mark ext) (delim_char ext) text = Ok (ND2 n nums) /\ read_text_comment text = header.
Proof.
  intros He (body & all & Hf & Hh & Hb & Ha & Hn & ->) Hnum Hl Hn2 Hlen.
  assert (comment_mark ext = "#"%char \/ comment_mark ext = ";"%char) as Hm by (unfold comment_mark; destruct (String.eqb ext ".nk"); auto).
  split; [|now apply (file_comments (comment_mark ext) header body)].
  assert (Forall one_line (map (String (comment_mark ext)) header ++ body)) as Hall.
  { apply Forall_app. split; [|exact Hb]. apply Forall_map. eapply Forall_impl; [|exact Hh]. intros h K. apply one_line_cons. split; [|exact K].
    destruct Hm as [-> | ->]; reflexivity. }
  unfold loadtxt.
  change (filter (fun l : list string => match l with [] => false | _ :: _ => true end)) with (filter full).
  assert (filter full (map (line_tokens (comment_mark ext) (delim_char ext)) (split_on nl (univ text))) =
          filter full (map (line_tokens (comment_mark ext) (delim_char ext)) body)) as ->.
  { assert (filter full (map (line_tokens (comment_mark ext) (delim_char ext)) (map (String (comment_mark ext)) header)) = []) as E1.
    { clear. induction header as [|h header IH]; [reflexivity|]. cbn [map filter]. rewrite tokens_hash. exact IH. }
    assert (filter full (map (line_tokens (comment_mark ext) (delim_char ext)) [""]) = []) as E2.
    { unfold delim_char. destruct (String.eqb ext ".csv"); reflexivity. }
    destruct (file_univ _ _ Hf Hall) as [-> | ->]; rewrite !map_app, !filter_app, E1; cbn [app]; [reflexivity|]. now rewrite E2, app_nil_r. }
  rewrite (body_rows _ _ _ _ Ha Hnum). cbn [bind].
  rewrite (proj2 (np_array_2d nums n ltac:(lia))) by (split; [destruct nums; [cbn in Hl; lia|discriminate]|exact Hlen]).
  cbn [bind]. f_equal. destruct nums as [|a [|b r]]; cbn in Hl; try lia. cbn. destruct n as [|[|n]]; try lia. reflexivity.
Qed.

(** ** the header *)
Definition fget (d : fset) (k : string) : dval :=
  if String.eqb k "ValidRange" then ds_range d else if String.eqb k "DataType" then ds_type d
  else if String.eqb k "SpectrumType" then ds_stype d else if String.eqb k "Unit" then ds_unit d else ds_yields d.
Lemma fget_set d k k' v : In k DATASET_META_DATA_KEYS -> In k' DATASET_META_DATA_KEYS ->
  fget (fset_set d k' v) k = if String.eqb k k' then v else fget d k.
Proof.
  intros H H'. cbn in H, H'.
  destruct H as [<-|[<-|[<-|[<-|[<-|[]]]]]]; destruct H' as [<-|[<-|[<-|[<-|[<-|[]]]]]]; reflexivity.
Qed.
Lemma data_set d k v : In k DATASET_META_DATA_KEYS -> ds_data (fset_set d k v) = ds_data d.
Proof. intros H. cbn in H. destruct H as [<-|[<-|[<-|[<-|[<-|[]]]]]]; reflexivity. Qed.
Definition all_keys : list string := FILE_META_DATA_KEYS ++ DATASET_META_DATA_KEYS.
Lemma all_keys_free : prefix_free all_keys. Proof. prefix_free_tac. Qed.
Lemma lstrip_kw p kw s : blank p -> In kw (map upper all_keys) -> lstrip (p ++ kw ++ s)%string = (kw ++ s)%string.
Proof.
  intros Hp H. rewrite lstrip_blank by exact Hp. cbn in H.
  repeat (destruct H as [<-|H]; [reflexivity|]). contradiction.
Qed.
Lemma prefix_of p s : String.prefix p (p ++ s)%string = true.
Proof. induction p as [|c p IH]; [destruct s; reflexivity|]. cbn. destruct (ascii_dec c c); [exact IH|congruence]. Qed.
(** what a line does *)
Inductive line_effect (line : string) : dict mval * fset * string -> dict mval * fset * string -> Prop :=
| le_plain meta d multi : (forall kw, In kw keywords -> ~ keyword_line kw line) ->
    line_effect line (meta, d, multi) (meta, d, (multi ++ line ++ NL)%string)
| le_meta meta d multi key v : In key FILE_META_DATA_KEYS -> keyword_value (upper key) line v ->
    line_effect line (meta, d, multi) (dset meta key (MStr v), d, multi)
| le_data meta d multi key v : In key DATASET_META_DATA_KEYS -> keyword_value (upper key) line v ->
    line_effect line (meta, d, multi) (meta, fset_set d key (DStr v), multi).
Lemma prefix_kv key k rest : startswith (upper key) (lstrip (upper k)) = true -> ~ In ":"%char (chars k) ->
  keyword_value (upper key) (k ++ ":" ++ rest)%string (lstrip rest).
Proof.
  intros Hs Hk. apply prefix_app in Hs. destruct Hs as [s Hs]. destruct (lstrip_split (upper k)) as [p [Hup Hb]].
  exists k, rest, p, s. split; [reflexivity|]. split; [exact Hk|]. split; [rewrite Hup at 1; now rewrite Hs|]. split; [exact Hb|reflexivity].
Qed.
Lemma line_step fk dk st line : Permutation FILE_META_DATA_KEYS fk -> Permutation DATASET_META_DATA_KEYS dk -> one_line line ->
  line_effect line st (header_line fk dk st line).
Proof.
  intros P P' Ho. destruct st as [[meta d] multi].
  assert (forall kw, In kw keywords -> exists key, In key all_keys /\ kw = upper key) as Hkw.
  { intros kw H. cbn in H.
    repeat (destruct H as [<-|H]; [first [exists "Comment"; split; [cbn; tauto|reflexivity]|exists "Reference"; split; [cbn; tauto|reflexivity]|exists "Author"; split; [cbn; tauto|reflexivity]|exists "Name"; split; [cbn; tauto|reflexivity]|exists "FullName"; split; [cbn; tauto|reflexivity]|exists "MetaComment"; split; [cbn; tauto|reflexivity]|exists "ValidRange"; split; [cbn; tauto|reflexivity]|exists "DataType"; split; [cbn; tauto|reflexivity]|exists "SpectrumType"; split; [cbn; tauto|reflexivity]|exists "Unit"; split; [cbn; tauto|reflexivity]|exists "Yields"; split; [cbn; tauto|reflexivity]]|]). contradiction. }
  unfold header_line. destruct (split_on ":" line) as [|k0 [|q qs]] eqn:E.
  - apply le_plain. intros kw _ (k & rest & p & s & -> & Hk & _). change (":" ++ rest)%string with (String ":" rest) in E.
    rewrite split_first in E by exact Hk. discriminate.
  - apply le_plain. intros kw _ (k & rest & p & s & -> & Hk & _). change (":" ++ rest)%string with (String ":" rest) in E.
    rewrite split_first in E by exact Hk. injection E as _ E. now apply (proj2 (join_split_gen ":" rest)).
  - destruct (split_inv _ _ _ _ E) as [Hk [[? _]|[t [Et _]]]]; [discriminate|]. cbv zeta.
    assert (join ":" (q :: qs) = t) as ->.
    { subst line. rewrite split_first in E by exact Hk. injection E as E. rewrite <- E. apply join_split_gen. }
    assert (one_line t) as Ht.
    { subst line. apply one_line_app in Ho. destruct Ho as [_ Ho]. apply one_line_cons in Ho. apply Ho. }
    rewrite rstrip_nlcr_one_line by exact Ht.
    rewrite (match_key_perm FILE_META_DATA_KEYS fk _ file_keys_free P), (match_key_perm DATASET_META_DATA_KEYS dk _ dataset_keys_free P').
    destruct (match_key FILE_META_DATA_KEYS _) as [key|] eqn:E1.
    + apply find_some in E1. destruct E1 as [Hi Hs]. apply le_meta; [exact Hi|]. subst line. now apply prefix_kv.
    + destruct (match_key DATASET_META_DATA_KEYS _) as [key|] eqn:E2.
      * apply find_some in E2. destruct E2 as [Hi Hs]. apply le_data; [exact Hi|]. subst line. now apply prefix_kv.
      * apply le_plain. intros kw Hkw' (k & rest & p & s & El & Hk' & Hu & Hb).
        destruct (Hkw kw Hkw') as (key & Hin & ->).
        assert (k = k0) as ->.
        { rewrite El in E. change (":" ++ rest)%string with (String ":" rest) in E. rewrite split_first in E by exact Hk'. now injection E. }
        assert (startswith (upper key) (lstrip (upper k0)) = true) as Hs.
        { rewrite Hu, lstrip_kw by (exact Hb || now apply in_map). apply prefix_of. }
        apply in_app_or in Hin. destruct Hin as [Hin|Hin].
        -- apply (find_none _ _ E1) in Hin. cbn beta in Hin. congruence.
        -- apply (find_none _ _ E2) in Hin. cbn beta in Hin. congruence.
Qed.
(** at most one keyword, with one value *)
Lemma kw_unique key key' line v : In key all_keys -> In key' all_keys -> keyword_value (upper key) line v -> keyword_line (upper key') line -> key = key'.
Proof.
  intros H H' (k & rest & p & s & E & Hk & Hu & Hb & _) (k' & rest' & p' & s' & E' & Hk' & Hu' & Hb').
  assert (k = k') as <-.
  { assert (split_on ":" line = split_on ":" line) as K by reflexivity. rewrite E in K at 1. rewrite E' in K.
    change (":" ++ rest)%string with (String ":" rest) in K. change (":" ++ rest')%string with (String ":" rest') in K.
    rewrite !split_first in K by assumption. now injection K. }
  assert (lstrip (upper k) = (upper key ++ s)%string) as L1 by (rewrite Hu; apply lstrip_kw; [exact Hb|now apply in_map]).
  assert (lstrip (upper k) = (upper key' ++ s')%string) as L2 by (rewrite Hu'; apply lstrip_kw; [exact Hb'|now apply in_map]).
  destruct (prefix_both (upper key) (upper key') (lstrip (upper k))) as [K|K].
  - rewrite L1. apply prefix_of.
  - rewrite L2. apply prefix_of.
  - now apply all_keys_free.
  - symmetry. now apply all_keys_free.
Qed.
Lemma kv_unique kw line v v' : keyword_value kw line v -> keyword_value kw line v' -> v = v'.
Proof.
  intros (k & rest & p & s & E & Hk & _ & _ & ->) (k' & rest' & p' & s' & E' & Hk' & _ & _ & ->).
  assert (split_on ":" line = split_on ":" line) as K by reflexivity. rewrite E in K at 1. rewrite E' in K.
  change (":" ++ rest)%string with (String ":" rest) in K. change (":" ++ rest')%string with (String ":" rest') in K.
  rewrite !split_first in K by assumption. injection K as _ K.
  assert (join ":" (split_on ":" rest) = join ":" (split_on ":" rest')) as J by now rewrite K.
  rewrite !(fun x => proj1 (join_split_gen ":" x)) in J. now subst.
Qed.
Lemma kv_line kw line v : keyword_value kw line v -> keyword_line kw line.
Proof. intros (k & rest & p & s & E & Hk & Hu & Hb & _). now exists k, rest, p, s. Qed.
Lemma in_keywords key : In key all_keys -> In (upper key) keywords. Proof. apply keywords_of_keys. Qed.

(** the whole header *)
Section Header.
Variables fk dk : list string.
Hypothesis Pf : Permutation FILE_META_DATA_KEYS fk.
Hypothesis Pd : Permutation DATASET_META_DATA_KEYS dk.
Definition hmeta (st : dict mval * fset * string) := fst (fst st).
Definition hset (st : dict mval * fset * string) := snd (fst st).
Definition hmulti (st : dict mval * fset * string) := snd st.

Lemma fold_data lines : forall st, Forall one_line lines -> ds_data (hset (fold_left (header_line fk dk) lines st)) = ds_data (hset st).
Proof.
  induction lines as [|l lines IH]; intros st Ho; [reflexivity|]. cbn [fold_left]. rewrite IH by now apply Forall_inv_tail in Ho.
  pose proof (line_step fk dk st l Pf Pd (Forall_inv Ho)) as S. revert S; generalize (header_line fk dk st l); intros st1 S. inversion S; subst; try reflexivity. cbn [hset fst snd]. now apply data_set.
Qed.
Lemma fold_quiet_set key lines : forall st, In key DATASET_META_DATA_KEYS -> Forall one_line lines ->
  (forall l, In l lines -> ~ keyword_line (upper key) l) -> fget (hset (fold_left (header_line fk dk) lines st)) key = fget (hset st) key.
Proof.
  induction lines as [|l lines IH]; intros st Hk Ho Hq; [reflexivity|]. cbn [fold_left].
  rewrite IH by (assumption || (now apply Forall_inv_tail in Ho) || (intros x Hx; apply Hq; now right)).
  pose proof (line_step fk dk st l Pf Pd (Forall_inv Ho)) as S. revert S; generalize (header_line fk dk st l); intros st1 S. inversion S as [m d mu Hn|m d mu k v Hi Hv|m d mu k v Hi Hv]; subst; try reflexivity.
  cbn [hset fst snd]. rewrite fget_set by assumption. destruct (String.eqb key k) eqn:E; [|reflexivity].
  apply String.eqb_eq in E. subst. exfalso. apply (Hq l); [now left|]. now apply kv_line in Hv.
Qed.
Lemma fold_says_set key lines st v : In key DATASET_META_DATA_KEYS -> Forall one_line lines -> fget (hset st) key = DStr "" ->
  says (upper key) lines v -> fget (hset (fold_left (header_line fk dk) lines st)) key = DStr v.
Proof.
  intros Hk Ho H0 [[Hn ->]|(a & l & b & -> & Hv & Hb)].
  - now rewrite fold_quiet_set.
  - apply Forall_app in Ho. destruct Ho as [Ho1 Ho2]. rewrite fold_left_app. cbn [fold_left].
    rewrite fold_quiet_set by (assumption || now apply Forall_inv_tail in Ho2).
    set (st' := fold_left _ a st).
    pose proof (line_step fk dk st' l Pf Pd (Forall_inv Ho2)) as S. revert S; generalize (header_line fk dk st' l); intros st1 S.
    assert (In key all_keys) as Hka by (apply in_or_app; now right).
    inversion S as [m d mu Hn Es En|m d mu k w Hi Hw Es En|m d mu k w Hi Hw Es En].
    + exfalso. apply (Hn (upper key)); [now apply in_keywords|]. now apply kv_line in Hv.
    + exfalso. assert (key = k) as <- by (apply (kw_unique key k l v Hka); [apply in_or_app; now left|exact Hv|now apply kv_line in Hw]).
      clear -Hk Hi. cbn in Hk, Hi. intuition (subst; discriminate).
    + cbn [hset fst snd]. assert (key = k) as <- by (apply (kw_unique key k l v Hka); [apply in_or_app; now right|exact Hv|now apply kv_line in Hw]).
      rewrite fget_set by assumption. rewrite String.eqb_refl. f_equal. now apply (kv_unique (upper key) l).
Qed.
Lemma fold_quiet_meta key lines : forall st, In key FILE_META_DATA_KEYS -> Forall one_line lines ->
  (forall l, In l lines -> ~ keyword_line (upper key) l) -> dget (hmeta (fold_left (header_line fk dk) lines st)) key = dget (hmeta st) key.
Proof.
  induction lines as [|l lines IH]; intros st Hk Ho Hq; [reflexivity|]. cbn [fold_left].
  rewrite IH by (assumption || (now apply Forall_inv_tail in Ho) || (intros x Hx; apply Hq; now right)).
  pose proof (line_step fk dk st l Pf Pd (Forall_inv Ho)) as S. revert S; generalize (header_line fk dk st l); intros st1 S. inversion S as [m d mu Hn|m d mu k v Hi Hv|m d mu k v Hi Hv]; subst; try reflexivity.
  cbn [hmeta fst snd]. destruct (string_dec k key) as [->|N]; [|now rewrite dget_dset_other].
  exfalso. apply (Hq l); [now left|]. now apply kv_line in Hv.
Qed.
Lemma fold_says_meta key lines st v : In key FILE_META_DATA_KEYS -> Forall one_line lines -> dget (hmeta st) key = Some (MStr "") ->
  says (upper key) lines v -> dget (hmeta (fold_left (header_line fk dk) lines st)) key = Some (MStr v).
Proof.
  intros Hk Ho H0 [[Hn ->]|(a & l & b & -> & Hv & Hb)].
  - now rewrite fold_quiet_meta.
  - apply Forall_app in Ho. destruct Ho as [Ho1 Ho2]. rewrite fold_left_app. cbn [fold_left].
    rewrite fold_quiet_meta by (assumption || now apply Forall_inv_tail in Ho2).
    set (st' := fold_left _ a st).
    pose proof (line_step fk dk st' l Pf Pd (Forall_inv Ho2)) as S. revert S; generalize (header_line fk dk st' l); intros st1 S.
    assert (In key all_keys) as Hka by (apply in_or_app; now left).
    inversion S as [m d mu Hn Es En|m d mu k w Hi Hw Es En|m d mu k w Hi Hw Es En].
    + exfalso. apply (Hn (upper key)); [now apply in_keywords|]. now apply kv_line in Hv.
    + cbn [hmeta fst snd]. assert (key = k) as <- by (apply (kw_unique key k l v Hka); [apply in_or_app; now left|exact Hv|now apply kv_line in Hw]).
      rewrite dget_dset_same. do 2 f_equal. now apply (kv_unique (upper key) l).
    + exfalso. assert (key = k) as <- by (apply (kw_unique key k l v Hka); [apply in_or_app; now right|exact Hv|now apply kv_line in Hw]).
      clear -Hk Hi. cbn in Hk, Hi. intuition (subst; discriminate).
Qed.
Lemma fold_multi lines p : plain_lines lines p -> forall st, Forall one_line lines ->
  hmulti (fold_left (header_line fk dk) lines st) = (hmulti st ++ lines_text p)%string.
Proof.
  induction 1 as [|l h p Hl H IH|l h p kw Hkw Hl H IH]; intros st Ho; cbn [fold_left].
  - now rewrite app_empty_r.
  - rewrite IH by now apply Forall_inv_tail in Ho. pose proof (line_step fk dk st l Pf Pd (Forall_inv Ho)) as S. revert S; generalize (header_line fk dk st l); intros st1 S.
    rewrite lines_text_cons. inversion S as [m d mu Hn Es En|m d mu k w Hi Hw Es En|m d mu k w Hi Hw Es En].
    + cbn [hmulti snd]. now rewrite !app_assoc_s.
    + exfalso. apply (Hl (upper k)); [apply in_keywords; apply in_or_app; now left|now apply kv_line in Hw].
    + exfalso. apply (Hl (upper k)); [apply in_keywords; apply in_or_app; now right|now apply kv_line in Hw].
  - rewrite IH by now apply Forall_inv_tail in Ho. pose proof (line_step fk dk st l Pf Pd (Forall_inv Ho)) as S. revert S; generalize (header_line fk dk st l); intros st1 S. f_equal.
    inversion S as [m d mu Hn Es En|m d mu k w Hi Hw Es En|m d mu k w Hi Hw Es En]; [|reflexivity|reflexivity].
    exfalso. now apply (Hn kw).
Qed.
Lemma fold_multi_meta lines : forall st key, key <> "MetaComment" -> dget (dset (hmeta (fold_left (header_line fk dk) lines st)) "MetaComment" (MStr (hmulti (fold_left (header_line fk dk) lines st)))) key = dget (hmeta (fold_left (header_line fk dk) lines st)) key.
Proof. intros. rewrite dget_dset_other; congruence. Qed.
End Header.

(** ** the whole file *)
Lemma mark_delim ext text : In ext text_exts -> read_text_data ext text =
  do a <- loadtxt (comment_mark ext) (delim_char ext) text; Ok (fset_set default_data_dict "Data" (DArr a)).
Proof. intros H. cbn in H. destruct H as [<-|[<-|[<-|[]]]]; reflexivity. Qed.
Lemma ext_named path ext : In ext text_exts -> named path ext -> splitext path = ext.
Proof. intros H. apply named_ext. cbn in H |- *. tauto. Qed.
Lemma read_path_text fk dk yl fs path ext text : In ext text_exts -> named path ext -> dget fs path = Some text ->
  read_path fk dk yl fs path = fst (read_text_file fk dk (mk_reader fk path) text).
Proof.
  intros He Hp Ht. unfold read_path, read_file. pose proof (ext_named path ext He Hp) as X.
  assert (rd_ext (mk_reader fk path) = ext) as -> by exact X. unfold fs_read. rewrite Ht.
  assert (smem ext txt_types = true) as -> by (cbn in He; destruct He as [<-|[<-|[<-|[]]]]; reflexivity). reflexivity.
Qed.
Lemma table_meta fk dk yl fs path ext text header rows nums n : Permutation FILE_META_DATA_KEYS fk -> Permutation DATASET_META_DATA_KEYS dk ->
  In ext text_exts -> named path ext -> dget fs path = Some text -> text_table ext text header rows ->
  Forall2 (Forall2 (number_text false)) rows nums -> (2 <= length nums)%nat -> (2 <= n)%nat -> Forall (fun r => length r = n) nums ->
  exists meta d multi, fold_left (header_line fk dk) header (rd_meta (mk_reader fk path), fset_set default_data_dict "Data" (DArr (ND2 n nums)), "") = (meta, d, multi) /\
  ds_data d = DArr (ND2 n nums) /\
  read_path fk dk yl fs path = Ok (mkFdict (if String.eqb multi "" then meta else dset meta "MetaComment" (MStr multi))
    [match ds_type d with DStr "" => (match n with 2%nat | 3%nat => fset_set d "DataType" (DStr (columns_type n)) | _ => d end) | _ => d end]).
Proof.
  intros Pf Pd He Hp Ht HT Hnum Hl Hn Hlen. rewrite (read_path_text fk dk yl fs path ext text He Hp Ht).
  destruct (load_rows ext text header rows nums n He HT Hnum Hl Hn Hlen) as [L C].
  unfold read_text_file. assert (rd_ext (mk_reader fk path) = ext) as -> by exact (ext_named path ext He Hp).
  rewrite (mark_delim ext text He), L. cbn [bind]. rewrite C.
  pose proof (fold_data fk dk Pf Pd header (rd_meta (mk_reader fk path), fset_set default_data_dict "Data" (DArr (ND2 n nums)), "")) as D.
  destruct (fold_left _ header _) as [[meta d] multi]. exists meta, d, multi. split; [reflexivity|].
  destruct HT as (body & all & _ & Ho & _). specialize (D Ho). cbn [hset fst snd] in D.
  change (ds_data (fset_set default_data_dict "Data" (DArr (ND2 n nums)))) with (DArr (ND2 n nums)) in D. split; [exact D|]. rewrite D.
  destruct (ds_type d) as [[|c s]|a|b]; try reflexivity.
  destruct n as [|[|[|[|n]]]]; try reflexivity.
Qed.

(** ** the other comment character *)
Definition plain_char (c : ascii) : Prop := c <> "#"%char /\ c <> ";"%char.
Lemma digits_plain us s ds c : digits_text us s ds -> In c (chars s) -> plain_char c.
Proof.
  assert (forall d, (d < 10)%nat -> plain_char (digit_char d)) as Hd.
  { intros d Hd. do 10 (destruct d as [|d]; [split; discriminate|]). lia. }
  assert (plain_char "_") as Hu by (split; discriminate).
  induction 1 as [d H|d s ds H H0 IH|d s ds U H H0 IH]; rewrite !chars_cons.
  - intros [<-|[]]. auto.
  - intros [<-|Hc]; auto.
  - intros [<-|[<-|Hc]]; auto.
Qed.
Lemma number_plain us s x c : number_text us s x -> In c (chars s) -> plain_char c.
Proof.
  assert (plain_char ".") as Hdot by (split; discriminate).
  assert (plain_char "+") as Hplus by (split; discriminate).
  assert (plain_char "-") as Hminus by (split; discriminate).
  assert (plain_char "e") as He by (split; discriminate).
  assert (plain_char "E") as HE by (split; discriminate).
  assert (forall g sg c, sign_text g sg -> In c (chars g) -> plain_char c) as Hsign.
  { intros g sg d Hg Hd. destruct Hg; cbn in Hd; intuition (subst; auto). }
  assert (forall m v c, mantissa_text us m v -> In c (chars m) -> plain_char c) as Hm.
  { intros m v d Hmt Hd. destruct Hmt; rewrite ?chars_app, ?in_app_iff in Hd; cbn [chars list_ascii_of_string In] in Hd;
      intuition (subst; eauto using digits_plain). }
  assert (forall e v c, expo_text us e v -> In c (chars e) -> plain_char c) as Hex.
  { intros e v d Het Hd. destruct Het as [|e s0 ds g He' Hds Hg|e s0 ds He' Hds];
      rewrite ?chars_cons, ?chars_app in Hd; cbn [In] in Hd; rewrite ?in_app_iff in Hd.
    - destruct Hd.
    - destruct Hd as [<-|[Hd|Hd]]; [destruct He' as [-> | ->]; auto| |eapply digits_plain; eauto].
      destruct Hg as [-> | ->]; cbn in Hd; intuition (subst; auto).
    - destruct Hd as [<-|[Hd|Hd]]; [destruct He' as [-> | ->]; auto| |eapply digits_plain; eauto].
      cbn in Hd. intuition (subst; auto). }
  assert (forall d, In (lower_char d) (chars "infinity") \/ In (lower_char d) (chars "nan") -> plain_char d) as Hl.
  { intros d Hd. split; intros ->; vm_compute in Hd; intuition discriminate. }
  intros H Hc. destruct H as [g sg m mv e ev H1 H2 H3|g sg w H1 H2|g sg w H1 H2]; rewrite ?chars_app, ?in_app_iff in Hc.
  - destruct Hc as [Hc|[Hc|Hc]]; eauto.
  - destruct Hc as [Hc|Hc]; [eauto|]. apply lower_chars in Hc. apply Hl. left.
    destruct H2 as [E|E]; rewrite E in Hc; [|exact Hc]. cbn in *. intuition auto.
  - destruct Hc as [Hc|Hc]; [eauto|]. apply lower_chars in Hc. apply Hl. right. now rewrite <- H2.
Qed.

Lemma mark_not_number c s x : c = "#"%char \/ c = ";"%char -> parse_float false (String c s) <> Ok x.
Proof.
  intros Hc H. destruct (parse_float_sound _ _ _ H) as (p & t & q & E & Hp & Hq & Hn).
  assert (is_space c = false) as Hs by (destruct Hc as [-> | ->]; reflexivity).
  destruct p as [|d p].
  - cbn [append] in E. assert (In c (chars t)) as Hi.
    { destruct t as [|a t]; [|injection E as <- _; rewrite chars_cons; now left].
      exfalso. cbn [append] in E. subst q. unfold blank in Hq. specialize (Hq c). rewrite chars_cons in Hq. rewrite Hq in Hs; [discriminate|now left]. }
    destruct (number_plain _ _ _ _ Hn Hi) as [K1 K2]. tauto.
  - injection E as <- _. specialize (Hp c). rewrite chars_cons in Hp. rewrite Hp in Hs; [discriminate|now left].
Qed.
Lemma split_ws_head c s : is_space c = false -> exists r t, split_ws (String c s) = String c r :: t.
Proof.
  intros Hc. unfold split_ws. cbn [split_ws_aux]. rewrite Hc. cbn [append].
  assert (forall s cur, exists r t, split_ws_aux (String c cur) s = String c r :: t) as G.
  { clear s. induction s as [|d s IH]; intros cur; cbn [split_ws_aux].
    - now exists cur, [].
    - destruct (is_space d); [now eexists _, _|]. apply IH. }
  apply G.
Qed.
Lemma tokens_other ext s : In ext text_exts -> exists c rest toks, line_tokens (comment_mark ext) (delim_char ext) (String (other_mark ext) s) = String (other_mark ext) rest :: toks /\ c = other_mark ext.
Proof.
  intros He. exists (other_mark ext). cbn in He. destruct He as [<-|[<-|[<-|[]]]]; unfold line_tokens, comment_mark, other_mark, delim_char;
    cbn [String.eqb Ascii.eqb Bool.eqb before].
  - destruct (split_ws_head ";" (before "#" s) eq_refl) as (r & t & ->). now exists r, t.
  - cbn [split_on]. change (Ascii.eqb ";" ",") with false. cbv iota. destruct (split_on "," (before "#" s)) as [|h t]; [now exists "", []|now exists h, t].
  - destruct (split_ws_head "#" (before ";" s) eq_refl) as (r & t & ->). now exists r, t.
Qed.
Lemma map_res_value {A B} (f : A -> res B) l : (forall a e, f a = Raise e -> e = ValueError) -> forall e, map_res f l = Raise e -> e = ValueError.
Proof.
  intros H. induction l as [|a l IH]; intros e; cbn [map_res]; [discriminate|]. destruct (f a) as [b|e'] eqn:E; cbn [bind].
  - destruct (map_res f l); cbn [bind]; [discriminate|]. intros K. injection K as <-. now apply IH.
  - intros K. injection K as <-. exact (H a _ E).
Qed.
Lemma map_res_ok_all {A B} (f : A -> res B) l bs : map_res f l = Ok bs -> forall a, In a l -> exists b, f a = Ok b.
Proof.
  revert bs. induction l as [|a l IH]; intros bs; cbn [map_res]; [intros _ b []|]. destruct (f a) as [b|] eqn:E; [|discriminate]. cbn [bind].
  destruct (map_res f l) as [cs|]; [|discriminate]. cbn [bind]. intros _ a' [<-|K]; [now exists b|]. exact (IH cs eq_refl a' K).
Qed.
Lemma other_raises ext text lines s : In ext text_exts -> file_text lines text -> Forall one_line lines -> In (String (other_mark ext) s) lines ->
  loadtxt (comment_mark ext) (delim_char ext) text = Raise ValueError.
Proof.
  intros He Hf Ho Hi. unfold loadtxt.
  set (toks := filter _ _). destruct (tokens_other ext s He) as (c & r & t & E & _).
  assert (In (String (other_mark ext) r :: t) toks) as K.
  { unfold toks. apply filter_In. split; [|reflexivity]. rewrite <- E. apply in_map.
    destruct (file_univ _ _ Hf Ho) as [-> | ->]; [exact Hi|]. apply in_or_app. now left. }
  destruct (map_res (map_res (parse_float false)) toks) as [rows|e] eqn:M; cbn [bind].
  - destruct (map_res_ok_all _ _ _ M _ K) as [b B]. destruct (map_res_ok_all _ _ _ B _ (or_introl eq_refl)) as [x X].
    exfalso. revert X. apply mark_not_number. unfold other_mark. destruct (String.eqb ext ".nk"); auto.
  - f_equal. eapply (map_res_value (map_res (parse_float false))); [|exact M]. intros a e' Q.
    eapply (map_res_value (parse_float false)); [|exact Q]. intros a0 e0. apply parse_float_raise.
Qed.

(** ** deciding the texts of a header, for the examples *)
Definition is_keyword (kw line : string) : bool :=
  match split_on ":" line with k :: _ :: _ => String.prefix kw (lstrip (upper k)) | _ => false end.
Lemma prefix_app a b : String.prefix a (a ++ b)%string = true.
Proof. induction a as [|c a IH]; cbn; [now destruct b|]. destruct (ascii_dec c c); [exact IH|congruence]. Qed.
Lemma lstrip_blank_app p s : blank p -> lstrip (p ++ s)%string = lstrip s.
Proof.
  induction p as [|c p IH]; intros H; [reflexivity|]. unfold lstrip. cbn [append lstrip_by]. rewrite (H c (or_introl eq_refl)). apply IH. intros d Hd. apply H. now right.
Qed.
Lemma is_keyword_complete c kw line : is_space c = false -> keyword_line (String c kw) line -> is_keyword (String c kw) line = true.
Proof.
  intros Hc (k & rest & p & s & -> & Hk & E & Hp). unfold is_keyword. change (":" ++ rest)%string with (String ":" rest).
  rewrite split_first by exact Hk. destruct (split_on ":" rest) as [|a l] eqn:Q; [destruct rest as [|d r]; cbn in Q; [discriminate|destruct (Ascii.eqb d ":"); [discriminate|destruct (split_on ":" r); discriminate]]|].
  rewrite E, lstrip_blank_app by exact Hp. unfold lstrip. cbn [append lstrip_by]. rewrite Hc. apply (prefix_app (String c kw)).
Qed.
Lemma not_keyword kw line : match kw with String c _ => is_space c = false | _ => False end -> is_keyword kw line = false -> ~ keyword_line kw line.
Proof. destruct kw as [|c kw]; [intros []|]. intros Hc H K. rewrite (is_keyword_complete c kw line Hc K) in H. discriminate. Qed.
