(** Plain paths: join, normpath, splitext. *)
From Verif Require Import PyBase PyStr XReal CNum SpectrumModel SpectralModel TextModel MaterialModel MaterialSpec FileModel IOSpec LineProofs TextProofs PathProofs PathModel ConfigModel CatalogueModel CatalogueSpec.
Open Scope string_scope.
Open Scope list_scope.

Lemma join_cons sep x y l : join sep (x :: y :: l) = (x ++ sep ++ join sep (y :: l))%string.
Proof. reflexivity. Qed.
Lemma join_app sep l l' : l <> [] -> l' <> [] -> join sep (l ++ l') = (join sep l ++ sep ++ join sep l')%string.
Proof.
  intros H H'. induction l as [|x l IH]; [contradiction|]. destruct l as [|y l].
  - cbn [app]. destruct l'; [contradiction|reflexivity].
  - cbn [app]. rewrite join_cons. change (y :: l ++ l') with ((y :: l) ++ l'). rewrite IH by discriminate.
    rewrite join_cons, !app_assoc_s. reflexivity.
Qed.
Lemma split_join c l : l <> [] -> Forall (fun x => ~ In c (chars x)) l -> split_on c (join (String c "") l) = l.
Proof.
  intros H F. induction F as [|x l Hx F IH]; [contradiction|]. destruct l as [|y l]; [now apply split_single|].
  rewrite join_cons. cbn [append]. rewrite split_first by exact Hx. rewrite IH by discriminate. reflexivity.
Qed.
Lemma first_char s c : ~ In c (chars s) -> s <> "" -> startswith (String c "") s = false.
Proof.
  intros H N. destruct s as [|d s]; [contradiction|]. unfold startswith.
  change (String.prefix (String c "") (String d s)) with (if ascii_dec c d then String.prefix "" s else false).
  destruct (ascii_dec c d) as [->|]; [|reflexivity]. exfalso. apply H. now left.
Qed.
Lemma starts_app p a b : a <> "" -> startswith (String p "") (a ++ b)%string = startswith (String p "") a.
Proof. intros H. destruct a as [|d a]; [contradiction|]. cbn. destruct (ascii_dec p d); [destruct a, b; reflexivity|reflexivity]. Qed.
Lemma rel_starts l : l <> [] -> Forall plain_name l -> starts_slash (rel_path l) = false /\ rel_path l <> "".
Proof.
  intros H F. destruct F as [|x l (N & _ & _ & C) F]; [contradiction|]. unfold rel_path, starts_slash.
  assert (E : startswith "/" x = false) by now apply first_char.
  destruct l as [|y l]; [split; [exact E|exact N]|]. rewrite join_cons. split; [now rewrite starts_app|].
  destruct x; [contradiction|discriminate].
Qed.
Lemma ends_app a b : b <> "" -> ends_slash (a ++ b)%string = ends_slash b.
Proof.
  intros H. induction a as [|c a IH]; [reflexivity|]. cbn [append ends_slash].
  destruct (a ++ b)%string eqn:E; [destruct a, b; try discriminate; contradiction|exact IH].
Qed.
Lemma no_slash_end s : ~ In "/"%char (chars s) -> ends_slash s = false.
Proof.
  intros H. induction s as [|c s IH]; [reflexivity|]. cbn [ends_slash]. rewrite chars_cons in H.
  destruct s; [apply Ascii.eqb_neq; intros ->; apply H; now left|]. apply IH. intros A. apply H. now right.
Qed.
Lemma rel_ends l : l <> [] -> Forall plain_name l -> ends_slash (rel_path l) = false.
Proof.
  intros H F. unfold rel_path. induction F as [|x l (N & _ & _ & C) F IH]; [contradiction|].
  destruct l as [|y l]; [now apply no_slash_end|]. rewrite join_cons. rewrite ends_app by discriminate.
  assert (X := IH ltac:(discriminate)). assert (Y : join "/" (y :: l) <> "") by (apply rel_starts; [discriminate|exact F]).
  rewrite ends_app; [exact X|exact Y].
Qed.
Lemma join_rel l l' : l <> [] -> l' <> [] -> Forall plain_name l -> Forall plain_name l' ->
  path_join (rel_path l) (rel_path l') = rel_path (l ++ l').
Proof.
  intros H H' F F'. unfold path_join. destruct (rel_starts l' H' F') as [-> _]. rewrite (rel_ends l H F).
  destruct (rel_starts l H F) as [_ N]. apply String.eqb_neq in N. rewrite N. cbn [orb].
  unfold rel_path. now rewrite join_app.
Qed.
Lemma join_abs l l' : l <> [] -> l' <> [] -> Forall plain_name l -> Forall plain_name l' ->
  path_join (abs_path l) (rel_path l') = abs_path (l ++ l').
Proof.
  intros H H' F F'. unfold path_join. destruct (rel_starts l' H' F') as [-> _]. unfold abs_path.
  change (String.eqb ("/" ++ join "/" l) "") with false. rewrite (ends_app "/") by now apply rel_starts.
  change (join "/" l) with (rel_path l) at 1. rewrite (rel_ends l H F). cbn [orb]. rewrite join_app by assumption. rewrite !app_assoc_s. reflexivity.
Qed.
Lemma join_root l' : l' <> [] -> Forall plain_name l' -> path_join (abs_path []) (rel_path l') = abs_path l'.
Proof. intros H' F'. unfold path_join. destruct (rel_starts l' H' F') as [-> _]. reflexivity. Qed.
Lemma join_abs_any l l' : l' <> [] -> Forall plain_name l -> Forall plain_name l' ->
  path_join (abs_path l) (rel_path l') = abs_path (l ++ l').
Proof. intros H' F F'. destruct l; [now apply join_root|]. now apply join_abs. Qed.

Lemma norm_plain rooted l : forall acc, Forall plain_name l -> norm_comps rooted l acc = rev acc ++ l.
Proof.
  induction l as [|c l IH]; intros acc F; cbn [norm_comps]; [now rewrite app_nil_r|].
  inversion F as [|? ? (N1 & N2 & N3 & _) F']; subst. apply String.eqb_neq in N1, N2, N3. rewrite N1, N2, N3. cbn [orb negb].
  rewrite IH by exact F'. cbn [rev]. now rewrite <- app_assoc.
Qed.
Lemma norm_comps_skip rooted l acc : norm_comps rooted ("" :: l) acc = norm_comps rooted l acc.
Proof. reflexivity. Qed.
Lemma plain_split l : Forall plain_name l -> Forall (fun x => ~ In "/"%char (chars x)) l.
Proof. apply Forall_impl. now intros x (_ & _ & _ & H). Qed.
Lemma normpath_rel l : l <> [] -> Forall plain_name l -> normpath (rel_path l) = rel_path l.
Proof.
  intros H F. destruct (rel_starts l H F) as [S N]. unfold normpath. apply String.eqb_neq in N. rewrite N.
  unfold initial_slashes. rewrite S. unfold rel_path. rewrite split_join by (try exact H; now apply plain_split).
  rewrite norm_plain by exact F. cbn [rev app append]. unfold rel_path in N. now rewrite N.
Qed.
Lemma prefix_nil s : String.prefix "" s = true.
Proof. destruct s; reflexivity. Qed.
Lemma abs_starts l : starts_slash ("/" ++ join "/" l) = true.
Proof. unfold starts_slash, startswith. cbn. apply prefix_nil. Qed.
Lemma normpath_abs l : l <> [] -> Forall plain_name l -> normpath (abs_path l) = abs_path l.
Proof.
  intros H F. destruct (rel_starts l H F) as [S N]. unfold normpath, abs_path.
  change (String.eqb ("/" ++ join "/" l) "") with false. cbv iota.
  assert (I : initial_slashes ("/" ++ join "/" l) = "/").
  { unfold initial_slashes. rewrite abs_starts.
    assert (D : startswith "//" ("/" ++ join "/" l) = startswith "/" (join "/" l)).
    { unfold startswith. cbn. reflexivity. }
    rewrite D. unfold rel_path, starts_slash in S. rewrite S. reflexivity. }
  rewrite I, abs_starts. cbn [append split_on Ascii.eqb Bool.eqb].
  change (Ascii.eqb "/" "/") with true. cbv iota. rewrite norm_comps_skip.
  rewrite split_join by (try exact H; now apply plain_split). rewrite norm_plain by exact F. reflexivity.
Qed.

Lemma replace_none c w s : ~ In c (chars s) -> replace_char c w s = s.
Proof.
  induction s as [|d s IH]; intros H; [reflexivity|]. rewrite chars_cons in H. cbn [replace_char].
  destruct (Ascii.eqb d c) eqn:E; [apply Ascii.eqb_eq in E; subst; exfalso; apply H; now left|].
  rewrite IH; [reflexivity|]. intros A. apply H. now right.
Qed.
Lemma replace_app c w a b : replace_char c w (a ++ b)%string = (replace_char c w a ++ replace_char c w b)%string.
Proof. induction a as [|d a IH]; [reflexivity|]. cbn [append replace_char]. rewrite IH. destruct (Ascii.eqb d c); [now rewrite app_assoc_s|reflexivity]. Qed.
Lemma replace_join c sep w l : replace_char c w sep = w -> Forall (fun x => ~ In c (chars x)) l -> replace_char c w (join sep l) = join w l.
Proof.
  intros E. induction 1 as [|x l H F IH]; [reflexivity|]. destruct l as [|y l]; [now apply replace_none|].
  rewrite !join_cons, !replace_app, E, IH, replace_none by exact H. reflexivity.
Qed.
Lemma path_text_slashes s comps : path_text s comps -> replace_char "\" "/" s = rel_path comps.
Proof.
  intros (_ & _ & B & [->| ->]); unfold rel_path; now apply replace_join.
Qed.
Lemma located_file base r path t u : Forall plain_name base -> located base r path t u ->
  row_file (abs_path base) r = Ok path /\ r_stype r = KStr t /\ r_unit r = KStr u.
Proof.
  intros B (m & p & comps & Hm & Pm & Hp & T & -> & Ht & Hu). split; [|auto]. unfold row_file. rewrite Hp, Hm. cbn [bind].
  rewrite (path_text_slashes _ _ T). destruct T as (N & F & _). f_equal.
  change m with (rel_path [m]) at 1. rewrite join_abs_any; [|discriminate|exact B|constructor; [exact Pm|constructor]].
  rewrite join_abs_any; [|exact N|apply Forall_app; split; [exact B|constructor; [exact Pm|constructor]]|exact F].
  rewrite <- app_assoc. cbn [app]. apply normpath_abs; [intros A; destruct base; discriminate A|].
  apply Forall_app. split; [exact B|]. now constructor.
Qed.

(** ** extensions *)
Lemma chars_app_in c a b : In c (chars (a ++ b)%string) <-> In c (chars a) \/ In c (chars b).
Proof. rewrite chars_app, in_app_iff. reflexivity. Qed.
Lemma no_slash_basename f : ~ In "/"%char (chars f) -> basename f = f.
Proof.
  intros H. unfold basename. destruct (after_last "/" f) as [t|] eqn:E; [|reflexivity].
  apply after_last_inv in E. destruct E as (p & -> & _). exfalso. apply H. apply chars_app_in. right. now left.
Qed.
Lemma lstrip_dots f : exists d, f = (d ++ lstrip_by (Ascii.eqb ".") f)%string /\
  match lstrip_by (Ascii.eqb ".") f with String c _ => c <> "."%char | EmptyString => True end.
Proof.
  induction f as [|c f IH]; [now exists ""|]. cbn [lstrip_by]. destruct (Ascii.eqb "." c) eqn:E.
  - destruct IH as (d & H & K). exists (String c d). cbn [append]. split; [congruence|exact K].
  - exists "". split; [reflexivity|]. intros ->. discriminate.
Qed.
Lemma lstrip_keeps a c b : c <> "."%char -> exists a', lstrip_by (Ascii.eqb ".") (a ++ String c b)%string = (a' ++ String c b)%string.
Proof.
  intros H. induction a as [|d a IH]; cbn [append lstrip_by].
  - exists "". destruct (Ascii.eqb "." c) eqn:E; [apply Ascii.eqb_eq in E; congruence|reflexivity].
  - destruct (Ascii.eqb "." d); [exact IH|]. now exists (String d a).
Qed.
Lemma allowed_iff e : allowed_ext e = true <-> In e [".txt"; ".csv"; ".yml"].
Proof.
  unfold allowed_ext. rewrite !orb_true_iff, !String.eqb_eq. cbn [In]. split; intros H; intuition congruence.
Qed.
Lemma splitext_ext base ext : ~ In "/"%char (chars (base ++ ext)%string) -> In ext [".txt"; ".csv"; ".yml"] ->
  (exists a c b, base = (a ++ String c b)%string /\ c <> "."%char) -> splitext (base ++ ext)%string = ext.
Proof.
  intros N H (a & c & b & -> & K). unfold splitext. rewrite (no_slash_basename _ N). rewrite app_assoc_s. cbn [append].
  destruct (lstrip_keeps a c (b ++ ext)%string K) as (a' & ->).
  cbn [In] in H. destruct H as [<-|[<-|[<-|[]]]];
    match goal with |- context [(a' ++ String c (b ++ String "." ?t))%string] =>
      replace (a' ++ String c (b ++ String "." t))%string with ((a' ++ String c b) ++ String "." t)%string by (now rewrite app_assoc_s);
      rewrite after_last_app by (cbn; intuition discriminate) end; reflexivity.
Qed.
Lemma supported_iff f : ~ In "/"%char (chars f) -> (allowed_ext (splitext f) = true <-> supported f).
Proof.
  intros N. rewrite allowed_iff. split.
  - unfold splitext. rewrite (no_slash_basename f N). intros H. destruct (lstrip_dots f) as (d & E & K).
    destruct (after_last "." _) as [t|] eqn:L; [|cbn in H; intuition discriminate].
    apply after_last_inv in L. destruct L as (p & L & Nt). rewrite L in E, K. exists (d ++ p)%string, (String "." t).
    split; [now rewrite app_assoc_s|]. split; [exact H|]. destruct p as [|c p]; [cbn in K; contradiction|]. exists d, c, p. auto.
  - intros (base & ext & -> & H & K). rewrite splitext_ext; assumption.
Qed.
Lemma substring_app a b : substring 0 (String.length a) (a ++ b)%string = a.
Proof. induction a as [|c a IH]; cbn [String.length append]; [destruct b; reflexivity|]. cbn [substring]. now rewrite IH. Qed.
Lemma length_app_s a b : String.length (a ++ b)%string = (String.length a + String.length b)%nat.
Proof. induction a as [|c a IH]; [reflexivity|]. cbn. now rewrite IH. Qed.
Lemma stem_ext f base : ~ In "/"%char (chars f) -> extension f base -> stem f = base.
Proof.
  intros N (ext & -> & H & K). unfold stem. rewrite splitext_ext by assumption.
  rewrite length_app_s. replace (String.length base + String.length ext - String.length ext)%nat with (String.length base) by lia.
  apply substring_app.
Qed.
Lemma supported_stem f : ~ In "/"%char (chars f) -> allowed_ext (splitext f) = true -> extension f (stem f).
Proof.
  intros N H. destruct (proj1 (supported_iff f N) H) as [base E]. now rewrite (stem_ext f base N E).
Qed.
