(** extensions of paths *)
From Verif Require Import PyBase PyStr FileModel ReaderModel WriterModel IOSpec LineProofs TextProofs.
Open Scope string_scope.
Open Scope list_scope.
Lemma after_last_app c a b : ~ In c (chars b) -> after_last c (a ++ String c b)%string = Some b.
Proof.
  intros H. assert (after_last c b = None) as N.
  { clear a. induction b as [|d b IH]; [reflexivity|]. rewrite chars_cons in H. cbn [after_last].
    rewrite IH by (intros Hi; apply H; now right). destruct (Ascii.eqb d c) eqn:E; [|reflexivity].
    apply Ascii.eqb_eq in E. subst. exfalso. apply H. now left. }
  induction a as [|d a IH]; cbn [append after_last]; [now rewrite N, Ascii.eqb_refl|]. now rewrite IH.
Qed.
Lemma after_last_inv c s t : after_last c s = Some t -> exists p, s = (p ++ String c t)%string /\ ~ In c (chars t).
Proof.
  revert t; induction s as [|d s IH]; intros t H; [discriminate|]. cbn [after_last] in H.
  destruct (after_last c s) as [u|] eqn:E.
  - injection H as <-. destruct (IH u eq_refl) as [p [-> Hn]]. exists (String d p). split; [reflexivity|exact Hn].
  - destruct (Ascii.eqb d c) eqn:Ed; [|discriminate]. injection H as <-. apply Ascii.eqb_eq in Ed. subst. exists "". split; [reflexivity|].
    clear IH. induction s as [|x s IHs]; [intros []|]. cbn [after_last] in E. rewrite chars_cons.
    destruct (after_last c s); [discriminate|]. destruct (Ascii.eqb x c) eqn:Ex; [discriminate|].
    intros [Hx|Hx]; [subst; now rewrite Ascii.eqb_refl in Ex|]. now apply IHs.
Qed.
(** a suffix of a concatenation *)
Lemma suffix_of c t b : forall a p, (p ++ String c t = a ++ b)%string -> ~ In c (chars b) -> exists a', t = (a' ++ b)%string.
Proof.
  induction a as [|d a IH]; intros p E Hb; cbn [append] in E.
  - exfalso. apply Hb. rewrite <- E, chars_app, in_app_iff, chars_cons. right. now left.
  - destruct p as [|q p]; cbn [append] in E; injection E as E1 E2; [exists a; now symmetry|]. now apply IH in E2.
Qed.
Lemma splitext_named path ext e : ext = String "." e -> ~ In "."%char (chars e) -> ~ In "/"%char (chars e) ->
  named path ext -> splitext path = ext.
Proof.
  intros -> He1 He2 [a [c [-> [Hc1 Hc2]]]]. unfold splitext.
  assert (exists a', basename (a ++ String c (String "." e)) = (a' ++ String c (String "." e))%string) as [a' ->].
  { unfold basename. destruct (after_last "/" (a ++ String c (String "." e))) as [t|] eqn:E; [|now exists a].
    apply after_last_inv in E. destruct E as [p [E _]]. symmetry in E. apply (suffix_of _ _ (String c (String "." e))) in E.
    - destruct E as [a' ->]. now exists a'.
    - rewrite !chars_cons. intros [H|[H|H]]; [congruence|discriminate|contradiction]. }
  assert (exists a2, lstrip_by (Ascii.eqb ".") (a' ++ String c (String "." e)) = (a2 ++ String c (String "." e))%string) as [a2 ->].
  { induction a' as [|d a' IH].
    - exists "". cbn [append lstrip_by]. destruct (Ascii.eqb "." c) eqn:E; [apply Ascii.eqb_eq in E; congruence|reflexivity].
    - cbn [append lstrip_by]. destruct (Ascii.eqb "." d); [exact IH|]. exists (String d a'). reflexivity. }
  replace (a2 ++ String c (String "." e))%string with ((a2 ++ String c "") ++ String "." e)%string by now rewrite app_assoc_s.
  now rewrite after_last_app.
Qed.
Lemma named_ext path ext : In ext [".txt"; ".csv"; ".yml"; ".nk"] -> named path ext -> splitext path = ext.
Proof.
  intros H. cbn in H. destruct H as [<-|[<-|[<-|[<-|[]]]]]; intros N; (eapply splitext_named; [reflexivity| | |exact N]);
    cbn; intuition discriminate.
Qed.
Lemma text_file_ext path : text_file path -> splitext path = ".txt" \/ splitext path = ".csv".
Proof. intros [H|H]; [left|right]; (apply named_ext; [cbn; tauto|exact H]). Qed.
