(** Lemmas about lines, joins and splits *)
From Verif Require Import PyBase PyStr XReal TextModel TextSpec TextProofs TableProofs MaterialModel FileModel ReaderModel WriterModel IOSpec.
Open Scope string_scope.
Open Scope list_scope.

Lemma chars_app a b : chars (a ++ b)%string = chars a ++ chars b.
Proof. unfold chars. induction a as [|c r IH]; cbn; [reflexivity|]. now rewrite IH. Qed.
Lemma chars_cons c s : chars (String c s) = c :: chars s. Proof. reflexivity. Qed.

Lemma is_break_iff c : is_break c = true <-> In c line_breaks.
Proof.
  split.
  - intros H. destruct c as [[] [] [] [] [] [] [] []]; vm_compute in H; try discriminate H; vm_compute; auto 10.
  - intros H. vm_compute in H. intuition (subst; reflexivity).
Qed.
Lemma is_break_nl : is_break nl = true. Proof. reflexivity. Qed.
Lemma is_break_cr : is_break cr = true. Proof. reflexivity. Qed.
Lemma is_break_space c : is_break c = true -> is_space c = true.
Proof. rewrite is_break_iff. intros H. vm_compute in H. intuition (subst; reflexivity). Qed.

Lemma one_line_cons c s : one_line (String c s) <-> is_break c = false /\ one_line s.
Proof.
  unfold one_line. rewrite chars_cons. split.
  - intros H. split.
    + destruct (is_break c) eqn:E; [|reflexivity]. apply is_break_iff in E. exfalso. apply (H c); [now left|exact E].
    + intros d Hd. apply H. now right.
  - intros [H1 H2] d [<-|Hd]; [|auto]. intros Hi. apply is_break_iff in Hi. congruence.
Qed.
Lemma one_line_nil : one_line "". Proof. intros c []. Qed.
Lemma one_line_app a b : one_line (a ++ b)%string <-> one_line a /\ one_line b.
Proof.
  induction a as [|c r IH]; cbn [append].
  - split; [intros H; split; [apply one_line_nil|exact H]|tauto].
  - rewrite !one_line_cons, IH. tauto.
Qed.
Lemma one_line_nl s : one_line s -> no_newline s.
Proof. intros H Hi. apply (H nl Hi). vm_compute. auto. Qed.
Lemma no_newline_app a b : no_newline (a ++ b)%string <-> no_newline a /\ no_newline b.
Proof. unfold no_newline. change list_ascii_of_string with chars. rewrite chars_app, in_app_iff. tauto. Qed.

(** the lines of a text, each with a newline *)
Definition lines_text (l : list string) : string := fold_right append "" (map (fun x => x ++ NL)%string l).
Lemma lines_text_cons x l : lines_text (x :: l) = (x ++ NL ++ lines_text l)%string.
Proof. unfold lines_text. cbn [map fold_right]. now rewrite app_assoc_s. Qed.
Lemma lines_text_app a b : lines_text (a ++ b) = (lines_text a ++ lines_text b)%string.
Proof. induction a as [|x l IH]; cbn [app]; [reflexivity|]. rewrite !lines_text_cons, IH. now rewrite !app_assoc_s. Qed.

Lemma splitlines_cons x rest : one_line x -> splitlines (x ++ NL ++ rest)%string = (x ++ NL)%string :: splitlines rest.
Proof.
  induction x as [|c r IH]; intros H.
  - cbn [append]. destruct rest as [|d q]; cbn [NL append splitlines]; rewrite is_break_nl; [reflexivity|].
    change (Ascii.eqb nl cr) with false. reflexivity.
  - apply one_line_cons in H. destruct H as [H1 H2]. cbn [append splitlines]. rewrite H1, (IH H2). reflexivity.
Qed.
Lemma splitlines_lines l rest : Forall one_line l ->
  splitlines (lines_text l ++ rest)%string = map (fun x => x ++ NL)%string l ++ splitlines rest.
Proof.
  induction l as [|x l IH]; intros H; [reflexivity|].
  rewrite lines_text_cons. rewrite !app_assoc_s. rewrite splitlines_cons by (now apply Forall_inv in H).
  cbn [map app]. f_equal. apply IH. now apply Forall_inv_tail in H.
Qed.

Lemma rstrip_nlcr_app_nl x : one_line x -> rstrip_nlcr (x ++ NL)%string = x.
Proof.
  induction x as [|c r IH]; intros H; [reflexivity|].
  apply one_line_cons in H. destruct H as [H1 H2]. unfold rstrip_nlcr in *. cbn [append rstrip_by]. rewrite (IH H2).
  destruct r; [|reflexivity]. assert (is_nlcr c = false) as ->; [|reflexivity].
  unfold is_nlcr. destruct (Ascii.eqb c nl) eqn:E; [apply Ascii.eqb_eq in E; subst; discriminate|].
  destruct (Ascii.eqb c cr) eqn:E'; [apply Ascii.eqb_eq in E'; subst; discriminate|]. reflexivity.
Qed.
Lemma rstrip_nlcr_one_line x : one_line x -> rstrip_nlcr x = x.
Proof.
  induction x as [|c r IH]; intros H; [reflexivity|].
  apply one_line_cons in H. destruct H as [H1 H2]. unfold rstrip_nlcr in *. cbn [rstrip_by]. rewrite (IH H2).
  destruct r; [|reflexivity]. assert (is_nlcr c = false) as ->; [|reflexivity].
  unfold is_nlcr. destruct (Ascii.eqb c nl) eqn:E; [apply Ascii.eqb_eq in E; subst; discriminate|].
  destruct (Ascii.eqb c cr) eqn:E'; [apply Ascii.eqb_eq in E'; subst; discriminate|]. reflexivity.
Qed.

Lemma comment_lines_hash l rest : Forall one_line l ->
  comment_lines (map (fun x => x ++ NL)%string (map (fun x => "#" ++ x)%string l) ++ rest) = l ++ comment_lines rest.
Proof.
  induction l as [|x l IH]; intros H; [reflexivity|].
  cbn [map app append comment_lines]. change (Ascii.eqb "#" "#") with true. cbn [orb].
  rewrite rstrip_nlcr_app_nl by (now apply Forall_inv in H). f_equal. apply IH. now apply Forall_inv_tail in H.
Qed.

Lemma univ_id s : ~ In cr (chars s) -> univ s = s.
Proof.
  induction s as [|c r IH]; intros H; [reflexivity|]. rewrite chars_cons in H. cbn [univ].
  destruct (Ascii.eqb c cr) eqn:E; [apply Ascii.eqb_eq in E; subst; exfalso; apply H; now left|].
  f_equal. apply IH. intros Hi. apply H. now right.
Qed.
Lemma one_line_cr s : one_line s -> ~ In cr (chars s).
Proof. intros H Hi. apply (H cr Hi). vm_compute. auto 10. Qed.
Lemma lines_text_cr l : Forall one_line l -> ~ In cr (chars (lines_text l)).
Proof.
  induction l as [|x l IH]; intros H; [intros []|].
  rewrite lines_text_cons, !chars_app, !in_app_iff. intros [Hi|[Hi|Hi]].
  - apply Forall_inv in H. now apply (one_line_cr x H).
  - cbn in Hi. destruct Hi as [Hi|[]]. discriminate Hi.
  - apply Forall_inv_tail in H. now apply IH.
Qed.

Lemma split_lines l : Forall one_line l -> split_on nl (lines_text l) = l ++ [""%string].
Proof.
  induction l as [|x l IH]; intros H; [reflexivity|].
  rewrite lines_text_cons, split_on_app by (apply one_line_nl; now apply Forall_inv in H).
  cbn [app]. f_equal. apply IH. now apply Forall_inv_tail in H.
Qed.

(** splitting at a character and joining again *)
Lemma join_split_gen c s : join (String c "") (split_on c s) = s /\ split_on c s <> [].
Proof.
  induction s as [|d r [IH1 IH2]]; [split; [reflexivity|discriminate]|].
  cbn [split_on]. destruct (Ascii.eqb d c) eqn:E.
  - apply Ascii.eqb_eq in E; subst d. split; [|discriminate].
    destruct (split_on c r) as [|p ps] eqn:Es; [congruence|].
    change (join (String c "") ("" :: p :: ps)) with (String c (join (String c "") (p :: ps))). now rewrite IH1.
  - destruct (split_on c r) as [|p ps] eqn:Es; [congruence|]. split; [|discriminate].
    rewrite <- IH1. destruct ps; reflexivity.
Qed.
Lemma split_first c k rest : ~ In c (chars k) -> split_on c (k ++ String c rest)%string = k :: split_on c rest.
Proof.
  induction k as [|d r IH]; intros H; cbn [append split_on].
  - rewrite Ascii.eqb_refl. reflexivity.
  - rewrite chars_cons in H. destruct (Ascii.eqb d c) eqn:E; [apply Ascii.eqb_eq in E; subst; exfalso; apply H; now left|].
    rewrite IH by (intros Hi; apply H; now right). reflexivity.
Qed.
Lemma split_single c s : ~ In c (chars s) -> split_on c s = [s].
Proof.
  induction s as [|d r IH]; intros H; [reflexivity|]. rewrite chars_cons in H. cbn [split_on].
  destruct (Ascii.eqb d c) eqn:E; [apply Ascii.eqb_eq in E; subst; exfalso; apply H; now left|].
  rewrite IH by (intros Hi; apply H; now right). reflexivity.
Qed.
Lemma split_inv c s k rest : split_on c s = k :: rest ->
  ~ In c (chars k) /\ (rest = [] /\ s = k \/ exists t, s = (k ++ String c t)%string /\ rest = split_on c t).
Proof.
  revert k rest; induction s as [|d r IH]; intros k rest H; cbn [split_on] in H.
  - injection H as <- <-. split; [intros []|]. now left.
  - destruct (Ascii.eqb d c) eqn:E.
    + apply Ascii.eqb_eq in E; subst d. injection H as <- <-. split; [intros []|]. right. exists r. auto.
    + destruct (split_on c r) as [|p ps] eqn:Es.
      { exfalso. now apply (proj2 (join_split_gen c r)). }
      injection H as <- <-. destruct (IH p ps eq_refl) as [H1 H2]. split.
      * rewrite chars_cons. intros [->|Hi]; [rewrite Ascii.eqb_refl in E; discriminate|contradiction].
      * destruct H2 as [[-> ->]|[t [-> ->]]]; [left; auto|right; exists t; auto].
Qed.

(** replacing newlines by a newline and a prefix puts the prefix before every line *)
Lemma replace_lines p s : (p ++ replace_char nl (NL ++ p) s)%string = join NL (map (fun l => p ++ l)%string (split_on nl s)).
Proof.
  destruct (join_split_gen nl s) as [H1 H2]. rewrite <- H1 at 1. clear H1.
  assert (Forall no_newline (split_on nl s)) as Hn by apply join_split.
  destruct (split_on nl s) as [|x l]; [congruence|]. clear H2. revert x Hn.
  induction l as [|y l IH]; intros x Hn.
  - cbn [map join]. f_equal. apply Forall_inv in Hn. clear -Hn. induction x as [|c r IH]; [reflexivity|].
    apply no_newline_cons in Hn. destruct Hn as [H1 H2]. cbn [replace_char].
    destruct (Ascii.eqb c nl) eqn:E; [apply Ascii.eqb_eq in E; contradiction|]. now rewrite IH.
  - change (join (String nl "") (x :: y :: l)) with (x ++ NL ++ join NL (y :: l))%string.
    change (join NL (map (fun l0 => (p ++ l0)%string) (x :: y :: l)))
      with ((p ++ x) ++ NL ++ join NL (map (fun l0 => (p ++ l0)%string) (y :: l)))%string.
    rewrite <- (IH y) by (now apply Forall_inv_tail in Hn).
    assert (forall t, replace_char nl (NL ++ p) (x ++ NL ++ t) = (x ++ NL ++ p ++ replace_char nl (NL ++ p) t)%string) as E.
    { apply Forall_inv in Hn. clear -Hn. induction x as [|c r IH]; intros t.
      - cbn [append NL replace_char]. rewrite Ascii.eqb_refl. reflexivity.
      - apply no_newline_cons in Hn. destruct Hn as [H1 H2]. cbn [append replace_char].
        destruct (Ascii.eqb c nl) eqn:E; [apply Ascii.eqb_eq in E; contradiction|]. now rewrite IH. }
    rewrite E. now rewrite !app_assoc_s.
Qed.
Lemma join_nl_lines l : l <> [] -> (join NL l ++ NL)%string = lines_text l.
Proof.
  induction l as [|x [|y l] IH]; intros H; [congruence|cbn; now rewrite app_empty_r|].
  change (join NL (x :: y :: l)) with (x ++ NL ++ join NL (y :: l))%string.
  rewrite lines_text_cons, !app_assoc_s, IH by discriminate. reflexivity.
Qed.
Lemma map_split_lines p s : (p ++ replace_char nl (NL ++ p) s ++ NL)%string = lines_text (map (fun l => p ++ l)%string (split_on nl s)).
Proof.
  rewrite <- app_assoc_s, replace_lines. apply join_nl_lines.
  destruct (split_on nl s) eqn:E; [|discriminate]. exfalso. now apply (proj2 (join_split_gen nl s)).
Qed.

(** the lines of a unix text *)
Lemma unix_lines s : unix_text s -> Forall one_line (split_on nl s).
Proof.
  induction s as [|c r IH]; intros H; [repeat constructor; apply one_line_nil|].
  assert (unix_text r) as Hr by (intros d Hd; apply H; rewrite chars_cons; now right).
  specialize (IH Hr). cbn [split_on]. destruct (Ascii.eqb c nl) eqn:E; [constructor; [apply one_line_nil|exact IH]|].
  assert (is_break c = false) as Hc.
  { destruct (is_break c) eqn:B; [|reflexivity]. apply is_break_iff in B.
    destruct (H c (or_introl eq_refl)) as [->|Hn]; [discriminate|contradiction]. }
  destruct (split_on nl r) as [|p ps]; [repeat constructor; apply one_line_cons; split; [exact Hc|apply one_line_nil]|].
  constructor; [|now apply Forall_inv_tail in IH]. apply one_line_cons. split; [exact Hc|now apply Forall_inv in IH].
Qed.
Lemma rstrip_by_prefix f s : exists e, s = (rstrip_by f s ++ e)%string /\ (forall c, In c (chars e) -> f c = true) /\
  (forall a x, rstrip_by f s = (a ++ String x "")%string -> f x = false).
Proof.
  induction s as [|c r [e [H1 [H2 H3]]]]; [exists ""; split; [reflexivity|split; [intros d []|]]; intros [|? ?] ?; discriminate|].
  cbn [rstrip_by]. destruct (rstrip_by f r) as [|d q] eqn:Er.
  - cbn [append] in H1. subst e. destruct (f c) eqn:Fc.
    + exists (String c r). split; [reflexivity|]. split; [|intros [|? ?] ?; discriminate].
      intros d. rewrite chars_cons. intros [<-|Hd]; [exact Fc|auto].
    + exists r. split; [reflexivity|]. split; [exact H2|]. intros [|? [|? ?]] x E; cbn in E; injection E; intros; subst; try discriminate; exact Fc.
  - exists e. split; [rewrite H1 at 1; reflexivity|]. split; [exact H2|].
    intros [|y a] x E; cbn in E; injection E; intros; subst; [discriminate|]. eapply H3. eassumption.
Qed.
Lemma trimmed_iff c t : trimmed c t <-> rstrip_nlcr c = t.
Proof.
  assert (forall x, is_nlcr x = true <-> x = nl \/ x = cr) as Hx.
  { intros x. unfold is_nlcr. rewrite orb_true_iff, !Ascii.eqb_eq. tauto. }
  split.
  - intros [e [-> [H2 H3]]]. unfold rstrip_nlcr. induction t as [|d t IH].
    + cbn [append]. clear H3. induction e as [|c r IH]; [reflexivity|]. cbn [rstrip_by].
      rewrite IH by (intros x Hx'; apply H2; now right).
      assert (is_nlcr c = true) as ->; [apply Hx, H2; now left|reflexivity].
    + cbn [append rstrip_by]. rewrite IH by (intros a x E; apply (H3 (String d a) x); cbn; now rewrite E).
      destruct t; [|reflexivity]. destruct (is_nlcr d) eqn:E; [|reflexivity].
      exfalso. apply Hx in E. destruct (H3 "" d eq_refl). tauto.
  - intros <-. destruct (rstrip_by_prefix is_nlcr c) as [e [H1 [H2 H3]]]. exists e. split; [exact H1|]. split.
    + intros x Hi. apply Hx, H2, Hi.
    + intros a x E. specialize (H3 a x E). split; intros ->; vm_compute in H3; discriminate.
Qed.
Lemma unix_trim c : unix_text c -> unix_text (rstrip_nlcr c).
Proof.
  intros H x Hx. apply H. destruct (rstrip_by_prefix is_nlcr c) as [e [H1 _]]. rewrite H1, chars_app, in_app_iff. now left.
Qed.
