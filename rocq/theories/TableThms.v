(** Theorems about number and table texts and table repair (C23, C24, C67). *)
From Verif Require Import PyBase PyStr XReal TextModel TextSpec TextProofs TableProofs.
Open Scope R_scope.
Open Scope string_scope.
Open Scope list_scope.


Lemma C23_subsequence_l : forall n rows, rows <> [] -> n <> O ->
  exists kept, fix_table (ND2 n rows) = Ok (ND2 n kept) /\ subseq kept rows /\
    hd_error kept = hd_error rows /\ increasing (first_col kept).
Proof.
  intros [|n] [|r t] H Hn; try congruence. exists (r :: fix_loop (col 0 r) t).
  split; [reflexivity|]. split; [constructor; apply fix_loop_subseq|]. split; [reflexivity|].
  apply (fix_loop_increasing (col 0 r) t).
Qed.

Lemma C23_kept_rows_l : forall n first rest, n <> O ->
  exists idx, fix_table (ND2 n (first :: rest)) = Ok (ND2 n (first :: map (fun i => nth i rest []) idx)) /\
    (forall i j a b, nth_error idx i = Some a -> nth_error idx j = Some b -> (i < j)%nat -> (a < b)%nat) /\
    (forall i, In i idx <-> (i < length rest)%nat /\
       xlt (nth 0 first NaN) (nth 0 (nth i rest []) NaN) = true /\
       (forall j, (j < i)%nat -> is_nan (nth 0 (nth j rest []) NaN) = false ->
                  xlt (nth 0 (nth j rest []) NaN) (nth 0 (nth i rest []) NaN) = true)).
Proof.
  intros [|n] first rest Hn; [congruence|].
  destruct (fix_loop_records rest (col 0 first)) as (idx & E1 & E2 & E3).
  exists idx. split; [cbn [fix_table]; now rewrite E1|]. split; [exact E2|exact E3].
Qed.

Lemma C23_valid_unchanged_l : forall n rows b, rows <> [] ->
  validate_table (ND2 n rows) = Ok b -> truth b = true -> fix_table (ND2 n rows) = Ok (ND2 n rows).
Proof.
  intros [|n] [|r t] b H V T; try congruence; [discriminate|].
  cbn [validate_table map] in V. inversion V; subst. cbn [truth] in T. apply increasing_from_spec in T.
  cbn [fix_table]. now rewrite fix_loop_id.
Qed.

Lemma C23_validate_l : forall n rows, n <> O ->
  exists b, validate_table (ND2 n rows) = Ok b /\ (truth b = true <-> increasing (first_col rows)).
Proof.
  intros [|n] rows Hn; [congruence|]. eexists. split; [reflexivity|]. cbn [truth]. change (first_col rows) with (map (col 0) rows).
  destruct (map (col 0) rows); [split; [intros _; constructor|reflexivity]|exact (increasing_from_spec _ _)].
Qed.

Lemma C23_idempotent_l : forall n rows t, fix_table (ND2 n rows) = Ok t -> fix_table t = Ok t.
Proof.
  intros [|n] [|r l] t H; try discriminate. cbn [fix_table] in H. inversion H; subst. cbn [fix_table].
  now rewrite fix_loop_id by apply fix_loop_increasing.
Qed.

Lemma C23_descending_l : forall n r l, n <> O ->
  (forall q, In q l -> xlt (nth 0 r NaN) (nth 0 q NaN) = false) ->
  fix_table (ND2 n (r :: l)) = Ok (ND2 n [r]).
Proof.
  intros [|n] r l Hn H; [congruence|]. cbn [fix_table]. now rewrite fix_loop_descending.
Qed.

Lemma C23_degenerate_l : forall l n rows,
  fix_table (ND1 l) = Raise IndexError /\ fix_table (ND2 n []) = Raise IndexError /\
  fix_table (ND2 0 rows) = Raise IndexError.
Proof. intros l [|n] rows; repeat split. Qed.

Lemma C24_number_l : forall s x, py_float s = Ok x <->
  exists p t q, s = (p ++ t ++ q)%string /\ blank p /\ blank q /\ number_text true t x.
Proof.
  intros s x. split; [apply parse_float_sound|]. intros (p & t & q & -> & Hp & Hq & H).
  now apply parse_float_complete.
Qed.

Lemma C24_number_error_l : forall s e, py_float s = Raise e -> e = ValueError.
Proof. intros s e. apply parse_float_raise. Qed.

Lemma C24_table_l : forall s n nums,
  str_table_to_numeric (TStr s) = Ok (ND2 n nums) <->
  exists lines rest toks,
    s = join NL (lines ++ rest) /\ Forall no_newline (lines ++ rest) /\
    Forall (fun l => ~ blank l) lines /\ ended rest /\
    Forall2 line_text lines toks /\ Forall2 (Forall2 (number_text true)) toks nums /\
    nums <> [] /\ Forall (fun r => length r = n) nums.
Proof.
  intros s n nums. rewrite str_table_text. split.
  - destruct (parse_rows (split_on nl s)) as [rows|] eqn:Ep; cbn [bind]; [|discriminate].
    destruct (np_array rows) as [t|] eqn:Ea; cbn [bind]; [|discriminate].
    destruct (validate_table t) as [b|] eqn:Ev; cbn [bind]; [|discriminate].
    intros E; inversion E; subst. apply parse_rows_spec in Ep.
    destruct Ep as (used & rest & toks & E1 & E2 & E3 & E4 & E5).
    destruct (join_split s) as (J1 & J2 & _). rewrite E1 in J1, J2.
    apply np_array_shape in Ea. destruct Ea as [[_ Ea]|(m & Ea & Ea1 & Ea2)]; [discriminate|].
    inversion Ea; subst. exists used, rest, toks. repeat split; auto.
  - intros (lines & rest & toks & -> & J2 & E3 & E2 & E4 & E5 & N1 & N2).
    assert (Hne : lines <> []).
    { intros ->. inversion E4; subst. inversion E5; subst. congruence. }
    rewrite split_join; [|destruct lines; [congruence|discriminate]|exact J2].
    assert (Ep : parse_rows (lines ++ rest) = Ok nums) by (apply parse_rows_spec; exists lines, rest, toks; auto 6).
    rewrite Ep. cbn [bind].
    assert (Hn : n <> O).
    { destruct lines as [|l0 ls]; [congruence|].
      apply Forall2_cons_inv_l in E4. destruct E4 as (t0 & ts & -> & L0 & _).
      apply Forall2_cons_inv_l in E5. destruct E5 as (n0 & ns & -> & M0 & _).
      apply Forall_inv in N2. subst n. apply Forall2_len in M0. rewrite <- M0.
      apply Forall_inv in E3. apply (line_nonblank _ _ L0) in E3. destruct t0; [congruence|discriminate]. }
    rewrite (proj2 (np_array_2d nums n Hn) (conj N1 N2)). cbn [bind].
    destruct n; [congruence|]. reflexivity.
Qed.

Lemma C24_blank_line_ends_l : forall lines b b' r r', blank b -> blank b' ->
  Forall no_newline (lines ++ b :: r) -> Forall no_newline (lines ++ b' :: r') ->
  str_table_to_numeric (TStr (join NL (lines ++ b :: r))) =
  str_table_to_numeric (TStr (join NL (lines ++ b' :: r'))).
Proof.
  intros lines b b' r r' Hb Hb' F F'. rewrite !str_table_text.
  rewrite !split_join; try (destruct lines; discriminate); try assumption.
  now rewrite !parse_rows_cut.
Qed.

Lemma C24_no_rows_l : forall b r, blank b -> Forall no_newline (b :: r) ->
  str_table_to_numeric (TStr (join NL (b :: r))) = Raise IndexError.
Proof.
  intros b r Hb F. rewrite str_table_text, split_join by (auto; discriminate).
  change (b :: r) with ([] ++ b :: r). now rewrite (parse_rows_cut [] b r Hb).
Qed.

Lemma C24_error_l : forall s e, str_table_to_numeric (TStr s) = Raise e ->
  e = ValueError \/ (e = IndexError /\ exists b r, s = join NL (b :: r) /\ blank b /\ no_newline b).
Proof.
  intros s e. rewrite str_table_text. destruct (join_split s) as (J1 & J2 & J3).
  destruct (parse_rows (split_on nl s)) as [rows|e'] eqn:Ep; cbn [bind].
  - destruct rows as [|r0 rs].
    + cbn. intros E; inversion E; subst. right. split; [reflexivity|].
      destruct (split_on nl s) as [|b r] eqn:Es; [congruence|].
      exists b, r. split; [now symmetry|]. apply Forall_inv in J2. split; [|exact J2].
      apply parse_rows_spec in Ep. destruct Ep as (used & rest & toks & E1 & E2 & E3 & E4 & E5).
      inversion E5; subst. inversion E4; subst. cbn [app] in E1. subst rest. exact E2.
    + unfold np_array. destruct (forallb _ _); cbn [bind]; [|intros E; inversion E; auto].
      destruct (length r0) eqn:El; [|discriminate]. exfalso.
      apply parse_rows_spec in Ep. destruct Ep as (used & rest & toks & E1 & E2 & E3 & E4 & E5).
      destruct r0; [|discriminate]. inversion E5 as [|t0 ? ts ? Ht Hts]; subst. inversion Ht; subst.
      inversion E4 as [|u0 ? us ? Hu Hus]; subst.
      apply Forall_inv in E3. now apply (line_nonblank _ _ Hu) in E3.
  - intros E; inversion E; subst. left. now apply parse_rows_raise in Ep.
Qed.

Lemma C24_bad_token_l : forall lines rest bad toks,
  Forall no_newline (lines ++ rest) -> Forall (fun l => ~ blank l) lines ->
  Forall2 line_text lines toks -> In bad (concat toks) -> (forall x, ~ number_text true bad x) ->
  str_table_to_numeric (TStr (join NL (lines ++ rest))) = Raise ValueError.
Proof.
  intros lines rest bad toks F Hb Hl Hin Hbad. rewrite str_table_text.
  assert (Hne : lines ++ rest <> []).
  { destruct lines; [inversion Hl; subst; destruct Hin|discriminate]. }
  rewrite split_join by assumption.
  assert (E : parse_rows (lines ++ rest) = Raise ValueError); [|now rewrite E].
  clear F Hne. revert toks Hl Hin. induction lines as [|l ls IH]; intros toks Hl Hin.
  - inversion Hl; subst. destruct Hin.
  - apply Forall2_cons_inv_l in Hl. destruct Hl as (t & ts & -> & Ht & Hts).
    cbn [app parse_rows].
    destruct (isspace l || String.eqb l "")%bool eqn:Eb.
    { apply isspace_blank in Eb. apply Forall_inv in Hb. contradiction. }
    rewrite (split_ws_complete _ _ Ht). cbn [concat] in Hin. apply in_app_or in Hin.
    destruct (map_res py_float t) as [cs|e] eqn:Em; cbn [bind].
    + destruct Hin as [Hin|Hin].
      * exfalso.
        apply In_nth_error in Hin. destruct Hin as [i Hi].
        destruct (map_res_nth _ _ _ _ _ Em Hi) as (y & Hy & _).
        apply py_float_token in Hy; [now apply Hbad in Hy|].
        apply line_tokens_solid in Ht. rewrite Forall_forall in Ht. apply Ht. now apply nth_error_In in Hi.
      * rewrite (IH (Forall_inv_tail Hb) ts Hts Hin). reflexivity.
    + apply map_res_raise in Em. destruct Em as (x & _ & Hx). now rewrite (parse_float_raise _ _ _ Hx).
Qed.

Lemma C24_other_type_l : str_table_to_numeric TOther = Raise TypeError.
Proof. reflexivity. Qed.

Lemma C67_array_untouched_l : forall a t, str_table_to_numeric (TArr a) = Ok t -> t = a.
Proof.
  intros [l|[|n] rows] t H; cbn in H; try discriminate. now inversion H.
Qed.

Lemma C67_array_accepted_l : forall n rows, n <> O ->
  str_table_to_numeric (TArr (ND2 n rows)) = Ok (ND2 n rows).
Proof. intros [|n] rows H; [congruence|reflexivity]. Qed.

Lemma C67_not_repaired_refuted_l : exists s n rows rows',
  str_table_to_numeric (TStr s) = Ok (ND2 n rows) /\ ~ increasing (first_col rows) /\
  fix_table (ND2 n rows) = Ok (ND2 n rows') /\ rows' <> rows.
Proof.
  exists ("2 7" ++ NL ++ "1 8")%string. do 3 eexists. split; [reflexivity|]. split; [|split; [|]].
  - unfold first_col. cbn [map nth]. inversion 1 as [| |x y l H1 H2]; subst. cbn [xlt] in H1.
    apply Rltb_true in H1. unfold dec_val in H1. cbn in H1.
    change (digit_val "2") with 2%Z in H1. change (digit_val "1") with 1%Z in H1. lra.
  - cbn [fix_table fix_loop col nth]. unfold xgt. cbn [xlt].
    match goal with |- context [Rltb ?a ?b] => assert (E : Rltb a b = false) end.
    { apply Rltb_false. unfold dec_val. cbn. change (digit_val "2") with 2%Z. change (digit_val "1") with 1%Z. lra. }
    rewrite E. cbn [negb]. reflexivity.
  - discriminate.
Qed.
