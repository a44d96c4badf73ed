(** A material that can be saved and loaded, for the examples *)
From Verif Require Import PyBase PyStr XReal CNum TextModel TextSpec TextProofs TableProofs SpectrumModel SpectrumSpec SpectralModel SpectralSpec SpectralThms MaterialModel MaterialSpec MaterialProofs MatFileProofs FileModel ReaderModel WriterModel IOSpec LineProofs FmtProofs DisplayProofs SaveProofs PathProofs ExportProofs ShowsProofs.
From Coq Require Import Permutation.
Open Scope R_scope.
Open Scope string_scope.
Open Scope list_scope.

Definition gold_n : list (R * R) := [(400, 1.5); (500, 1.4)].
Definition gold_k : list (R * R) := [(400, 0.1); (500, 0.25)].
Definition gold_meta (c : string) : dict mval :=
  [("Reference", MStr "J. Doe, Opt. Lett. 1 (2000): 5"); ("Comment", MStr "room temperature"); ("Name", MStr "Au");
   ("FullName", MStr "Gold"); ("Author", MStr "J. Doe"); ("Alias", MStr ""); ("MetaComment", MStr c); ("Specification", MMap [])].

Lemma gold_parts l : (2 <= length l)%nat -> NoDup (map fst l) ->
  exists b, mk_interpolation (xrows l) "wavelength" "nanometer" = Ok (DInterp b (xrows l)) /\ d_type b = "wavelength" /\ d_unit b = "nanometer".
Proof.
  intros H N. destruct (C13_accepts_l l "wavelength" "nanometer" "nm" H N) as (d & mn & mx & E & _).
  { exists ["nanometer"; "nanometre"; "nm"]. cbn; auto 10. }
  unfold mk_interpolation in E |- *. apply bind_ok in E. destruct E as [a [-> E]]. apply bind_ok in E. destruct E as [a' [-> E]].
  cbn [bind]. apply bind_ok in E. destruct E as [b [Eb E]]. rewrite Eb. apply bind_ok in E. destruct E as [u [-> E]]. cbn [bind].
  exists b. split; [reflexivity|]. unfold mk_base in Eb. apply bind_ok in Eb. destruct Eb as [s [_ Eb]]. injection Eb as <-. now split.
Qed.
Lemma no_dup_2 (l : list (R * R)) x y a b : l = [(x, a); (y, b)] -> x <> y -> NoDup (map fst l).
Proof. intros -> H. cbn. constructor; [cbn; intuition congruence|]. constructor; [cbn; tauto|constructor]. Qed.
Lemma gold_n_nodup : NoDup (map fst gold_n). Proof. eapply no_dup_2; [reflexivity|lra]. Qed.
Lemma gold_k_nodup : NoDup (map fst gold_k). Proof. eapply no_dup_2; [reflexivity|lra]. Qed.

Lemma header_value_dec s : existsb (fun c => existsb (Ascii.eqb c) line_breaks) (chars s) = false -> lstrip s = s -> header_value s.
Proof.
  intros H L. split; [|exact L]. intros c Hc Hb. assert (existsb (fun c => existsb (Ascii.eqb c) line_breaks) (chars s) = true); [|congruence].
  apply existsb_exists. exists c. split; [exact Hc|]. apply existsb_exists. exists c. split; [exact Hb|apply Ascii.eqb_refl].
Qed.
Lemma gold_exists c : exists m b b', tables_of m b b' (xrows gold_n) (xrows gold_k) /\
  d_type b = "wavelength" /\ d_unit b = "nanometer" /\ d_type b' = "wavelength" /\ d_unit b' = "nanometer" /\
  m_meta m = Some (gold_meta c) /\ forall W, header_ready W m.
Proof.
  destruct (gold_parts gold_n ltac:(cbn; lia) gold_n_nodup) as (b & E1 & E2 & E3).
  destruct (gold_parts gold_k ltac:(cbn; lia) gold_k_nodup) as (b' & E1' & E2' & E3').
  exists (mkMat (Some (gold_meta c)) "nk" (DInterp b (xrows gold_n)) (DInterp b' (xrows gold_k)) None "wavelength" "nanometer"), b, b'.
  split; [repeat split|]. split; [exact E2|]. split; [exact E3|]. split; [exact E2'|]. split; [exact E3'|]. split; [reflexivity|]. intros W. split.
  - cbn [m_meta]. intros meta key v E. injection E as <-. unfold header_keys. cbn [In].
    intros [<-|[<-|[<-|[<-|[<-|[]]]]]] E; cbn [gold_meta dget String.eqb Ascii.eqb Bool.eqb] in E; injection E as <-; cbn [format_val]; apply header_value_dec; reflexivity.
  - cbn [m_real]. intros b0 rows E. injection E as <- _. rewrite E2, E3. split; apply header_value_dec; reflexivity.
Qed.

Lemma gold_float : float_table (xrows gold_n) /\ float_table (xrows gold_k).
Proof.
  assert (10 ^ 3 <= 10 ^ 307) as P by (apply Rle_pow; [lra|lia]).
  split; (constructor; [|constructor; [|constructor]]); split; unfold float_range, below; cbn [fst snd xrows map]; rewrite Rabs_right; lra.
Qed.
Lemma gold_decimal : Forall decimal8 (concat (table_of (xrows gold_n)) ++ concat (table_of (xrows gold_k))).
Proof.
  assert (forall z r, r * 10 ^ 8 = IZR z -> decimal8 (Fin r)) as H by (intros z r E; exists z; rewrite <- E; field; lra).
  cbn [xrows gold_n gold_k map table_of concat app fst snd]. apply Forall_forall. intros x Hx. cbn [In] in Hx.
  destruct Hx as [<-|[<-|[<-|[<-|[<-|[<-|[<-|[<-|[]]]]]]]]].
  - apply (H 40000000000%Z). lra.
  - apply (H 150000000%Z). lra.
  - apply (H 50000000000%Z). lra.
  - apply (H 140000000%Z). lra.
  - apply (H 40000000000%Z). lra.
  - apply (H 10000000%Z). lra.
  - apply (H 50000000000%Z). lra.
  - apply (H 25000000%Z). lra.
Qed.
Lemma sample_exact all x : decimal8 x -> below (10 ^ 7) x -> sample_disp all x = x.
Proof.
  destruct x as [r| | |]; cbn [sample_disp]; try reflexivity. intros H1 H2. destruct (Rlt_dec (Rabs r) (10 ^ 7)) as [_|N]; [|contradiction].
  destruct H1 as [z Hz]. f_equal. now apply (round_dec_exact 8 r z).
Qed.
Lemma gold_display all x : incl all (concat (table_of (xrows gold_n)) ++ concat (table_of (xrows gold_k))) -> In x all -> sample_disp all x = x.
Proof.
  intros H Hx. apply H in Hx. apply sample_exact; [now apply (proj1 (Forall_forall _ _) gold_decimal)|].
  cbn in Hx. unfold below. repeat destruct Hx as [<-|Hx]; try contradiction; rewrite Rabs_right; lra.
Qed.
Lemma gold_share b b' : d_unit b = d_unit b' -> d_type b = d_type b' -> share_grid sample_disp b b' (xrows gold_n) (xrows gold_k).
Proof.
  intros U T. split; [|now split].
  assert (forall t, incl (concat t) (concat (table_of (xrows gold_n)) ++ concat (table_of (xrows gold_k))) -> shown sample_disp t = t) as Hsh.
  { intros t Ht. unfold shown. assert (forall l, incl l t -> map (map (sample_disp (concat t))) l = l) as G; [|apply G, incl_refl].
    induction l as [|r l IH]; intros Hl; [reflexivity|]. cbn [map]. rewrite IH by (intros y Hy; apply Hl; now right). f_equal.
    assert (incl r (concat t)) as Hr by (intros y Hy; apply in_concat; exists r; split; [apply Hl; now left|exact Hy]).
    clear IH Hl. induction r as [|y r IH]; [reflexivity|]. cbn [map]. rewrite IH by (intros z Hz; apply Hr; now right). f_equal. apply gold_display; [exact Ht|apply Hr; now left]. }
  rewrite !Hsh by (intros x Hx; apply in_app_iff; tauto). cbn. repeat constructor; discriminate.
Qed.
Lemma gold_text_file : text_file "data/gold.txt".
Proof. left. exists "data/gol", "d"%char. split; [reflexivity|]. split; discriminate. Qed.
Lemma unix_dec s : forallb (fun c => Ascii.eqb c nl || negb (existsb (Ascii.eqb c) line_breaks)) (chars s) = true -> unix_text s.
Proof.
  intros H c Hc. rewrite forallb_forall in H. specialize (H c Hc). apply orb_true_iff in H. destruct H as [H|H]; [left; now apply Ascii.eqb_eq|].
  right. intros Hb. apply negb_true_iff in H. assert (existsb (Ascii.eqb c) line_breaks = true); [|congruence].
  apply existsb_exists. exists c. split; [exact Hb|apply Ascii.eqb_refl].
Qed.
Lemma plain_dec s : ~ In ":"%char (chars s) -> plain_comment s.
Proof.
  intros H line kw Hl _ (k & rest & p & q & E & _). apply H.
  assert (In ":"%char (chars line)) as Hc by (rewrite E, chars_app, in_app_iff; right; left; reflexivity).
  revert line Hl Hc E. clear H. intros line Hl Hc _. revert line Hl Hc. 
  assert (forall t line, In line (split_on nl t) -> In ":"%char (chars line) -> In ":"%char (chars t)) as G; [|intros; eapply G; eassumption].
  intros t line Hl Hc. pose proof (proj1 (join_split_gen nl t)) as J. rewrite <- J. clear J.
  revert Hl. generalize (split_on nl t). induction l as [|x [|y l] IH]; intros Hl; [destruct Hl| |].
  - destruct Hl as [->|[]]. exact Hc.
  - change (join (String nl "") (x :: y :: l)) with (x ++ String nl "" ++ join (String nl "") (y :: l))%string. rewrite !chars_app, !in_app_iff.
    destruct Hl as [->|Hl]; [now left|]. right. right. now apply IH.
Qed.
