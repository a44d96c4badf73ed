(** Lemmas about tables: splitting texts, monotonicity repair *)
From Verif Require Import PyBase PyStr XReal TextModel TextSpec TextProofs.
Open Scope R_scope.
Open Scope list_scope.
Open Scope string_scope.

(** *** str.split() *)
Lemma line_blank_prefix p s l : blank p -> line_text s l -> line_text (p ++ s) l.
Proof.
  intros Hp H. inversion H as [p' Hp'|p' t q Hp' Ht Hq|p' t q s' l' Hp' Ht Hq Hq1 Hs Hl]; subst.
  - constructor. apply blank_app; auto.
  - rewrite <- app_assoc_s. constructor; auto. apply blank_app; auto.
  - rewrite <- app_assoc_s. constructor; auto. apply blank_app; auto.
Qed.

Lemma line_nil_inv s : line_text s [] -> blank s.
Proof. inversion 1; auto. Qed.

Lemma split_ws_aux_sound s : forall cur, no_space cur -> line_text (cur ++ s) (split_ws_aux cur s).
Proof.
  induction s as [|c r IH]; intros cur Hc; cbn [split_ws_aux].
  - rewrite app_empty_r. destruct cur as [|d t]; [constructor; apply blank_nil|].
    rewrite <- (app_empty_r (String d t)) at 1. change (String d t ++ "") with ("" ++ String d t ++ "").
    constructor; [apply blank_nil|split; [discriminate|exact Hc]|apply blank_nil].
  - destruct (is_space c) eqn:E.
    + pose proof (IH "" no_space_nil) as H0. cbn [append] in H0.
      assert (Hb : blank (String c "")) by (apply blank_cons; split; [exact E|apply blank_nil]).
      destruct cur as [|d t].
      * cbn [append]. change (String c r) with (String c "" ++ r). now apply line_blank_prefix.
      * destruct (split_ws_aux "" r) as [|u v] eqn:Er.
        -- apply line_nil_inv in H0. change (String d t ++ String c r) with ("" ++ String d t ++ String c r).
           constructor; [apply blank_nil|split; [discriminate|exact Hc]|]. apply blank_cons; auto.
        -- change (String d t ++ String c r) with ("" ++ String d t ++ String c "" ++ r).
           constructor; auto using blank_nil; try discriminate. split; [discriminate|exact Hc].
    + assert (Hn : no_space (cur ++ String c "")).
      { apply no_space_app. split; [exact Hc|]. apply no_space_cons. split; [exact E|apply no_space_nil]. }
      specialize (IH _ Hn). rewrite app_assoc_s in IH. exact IH.
Qed.
Lemma split_ws_sound s : line_text s (split_ws s).
Proof. apply (split_ws_aux_sound s "" no_space_nil). Qed.

Lemma split_ws_skip p s : blank p -> split_ws_aux "" (p ++ s) = split_ws_aux "" s.
Proof.
  induction p as [|c r IH]; intros H; cbn [append split_ws_aux]; [reflexivity|].
  apply blank_cons in H. destruct H as [-> H]. auto.
Qed.
Lemma split_ws_word t : forall cur s, no_space t -> split_ws_aux cur (t ++ s) = split_ws_aux (cur ++ t) s.
Proof.
  induction t as [|c r IH]; intros cur s H; cbn [append]; [now rewrite app_empty_r|].
  apply no_space_cons in H. destruct H as [Hc H]. cbn [split_ws_aux]. rewrite Hc, IH by exact H.
  now rewrite app_assoc_s.
Qed.
Lemma split_ws_end cur q s : cur <> "" -> blank q -> q <> "" ->
  split_ws_aux cur (q ++ s) = cur :: split_ws_aux "" s.
Proof.
  intros Hc Hq Hn. destruct q as [|c r]; [congruence|]. apply blank_cons in Hq. destruct Hq as [H1 H2].
  cbn [append split_ws_aux]. rewrite H1. destruct cur; [congruence|]. now rewrite split_ws_skip.
Qed.
Lemma split_ws_complete s l : line_text s l -> split_ws s = l.
Proof.
  unfold split_ws. induction 1 as [p Hp|p t q Hp [Ht1 Ht2] Hq|p t q s l Hp [Ht1 Ht2] Hq Hq1 Hs IH Hl].
  - rewrite <- (app_empty_r p). now rewrite split_ws_skip.
  - rewrite split_ws_skip by exact Hp. rewrite split_ws_word by exact Ht2. cbn [append].
    destruct q as [|c r]; [cbn; destruct t; congruence|].
    rewrite <- (app_empty_r (String c r)). rewrite split_ws_end by (auto; discriminate). reflexivity.
  - rewrite split_ws_skip by exact Hp. rewrite split_ws_word by exact Ht2. cbn [append].
    rewrite split_ws_end by auto. now rewrite IH.
Qed.

Lemma line_tokens_solid s l : line_text s l -> Forall solid l.
Proof. induction 1; auto. Qed.

(** *** str.split("\n") *)
Lemma no_newline_cons c s : no_newline (String c s) <-> c <> nl /\ no_newline s.
Proof. unfold no_newline. cbn [list_ascii_of_string In]. intuition congruence. Qed.
Lemma split_on_none s : no_newline s -> split_on nl s = [s].
Proof.
  induction s as [|c r IH]; intros H; [reflexivity|]. apply no_newline_cons in H. destruct H as [H1 H2].
  cbn [split_on]. destruct (Ascii.eqb c nl) eqn:E; [apply Ascii.eqb_eq in E; congruence|]. now rewrite IH.
Qed.
Lemma split_on_app s t : no_newline s -> split_on nl (s ++ NL ++ t) = s :: split_on nl t.
Proof.
  induction s as [|c r IH]; intros H.
  - cbn [append NL split_on]. now rewrite Ascii.eqb_refl.
  - apply no_newline_cons in H. destruct H as [H1 H2]. cbn [append split_on].
    destruct (Ascii.eqb c nl) eqn:E; [apply Ascii.eqb_eq in E; congruence|]. now rewrite IH.
Qed.
Lemma split_join lines : lines <> [] -> Forall no_newline lines -> split_on nl (join NL lines) = lines.
Proof.
  induction lines as [|a r IH]; [congruence|]. intros _ H.
  pose proof (Forall_inv H) as Ha. pose proof (Forall_inv_tail H) as Hr.
  destruct r as [|b r]; [now apply split_on_none|].
  change (join NL (a :: b :: r)) with (a ++ NL ++ join NL (b :: r)).
  rewrite split_on_app by exact Ha. rewrite IH by (auto; discriminate). reflexivity.
Qed.
Lemma join_split s : join NL (split_on nl s) = s /\ Forall no_newline (split_on nl s) /\ split_on nl s <> [].
Proof.
  induction s as [|c r (IH1 & IH2 & IH3)]; cbn [split_on].
  - repeat split; [repeat constructor; intros []|discriminate].
  - destruct (Ascii.eqb c nl) eqn:E.
    + apply Ascii.eqb_eq in E. subst c. destruct (split_on nl r) as [|a l] eqn:Er; [congruence|].
      change (join NL ("" :: a :: l)) with ("" ++ NL ++ join NL (a :: l)). rewrite IH1.
      repeat split; [|discriminate]. constructor; [intros []|exact IH2].
    + apply Ascii.eqb_neq in E. destruct (split_on nl r) as [|a l] eqn:Er; [congruence|].
      repeat split; [|constructor|discriminate].
      * destruct l; cbn [join append] in *; now rewrite IH1.
      * apply no_newline_cons. split; [exact E|]. now apply Forall_inv in IH2.
      * now apply Forall_inv_tail in IH2.
Qed.

(** *** py_float on tokens *)
Lemma py_float_token t x : solid t -> (py_float t = Ok x <-> number_text true t x).
Proof.
  intros Ht. split.
  - intros H. destruct (parse_float_sound _ _ _ H) as (p & u & q & E & Hp & Hq & Hn).
    destruct Ht as [_ Ht]. rewrite E in Ht. change (no_space (p ++ u ++ q)) in Ht.
    rewrite !no_space_app in Ht. destruct Ht as (P & _ & Q).
    assert (Z : forall z, no_space z -> blank z -> z = "").
    { intros [|c r] Hz Hb; [reflexivity|]. apply no_space_cons in Hz. apply blank_cons in Hb.
      destruct Hz, Hb; congruence. }
    rewrite (Z p P Hp), (Z q Q Hq) in E. cbn [append] in E. rewrite app_empty_r in E. now subst.
  - intros H. pose proof (parse_float_complete true "" t "" x blank_nil blank_nil H) as P.
    cbn [append] in P. now rewrite app_empty_r in P.
Qed.

Lemma isspace_blank s : (isspace s || String.eqb s "")%bool = true <-> blank s.
Proof.
  assert (A : forall r, all_chars is_space r = true <-> blank r).
  { induction r as [|c r IH]; cbn [all_chars].
    - split; [intros _; apply blank_nil|reflexivity].
    - rewrite andb_true_iff, IH, blank_cons. tauto. }
  unfold isspace. destruct s as [|c r].
  - cbn. split; [intros _; apply blank_nil|reflexivity].
  - change (String.eqb (String c r) "") with false. rewrite orb_false_r. apply A.
Qed.

Lemma map_res_iff {A B} (f : A -> res B) (P : A -> B -> Prop) l l' :
  (forall x, In x l -> forall y, f x = Ok y <-> P x y) ->
  (map_res f l = Ok l' <-> Forall2 P l l').
Proof.
  revert l'. induction l as [|a r IH]; intros l' H; cbn [map_res].
  - split; [intros E; inversion E; constructor|inversion 1; reflexivity].
  - assert (IH' : forall l', map_res f r = Ok l' <-> Forall2 P r l')
      by (intros; apply IH; intros; apply H; now right).
    split.
    + destruct (f a) as [y|] eqn:Ea; cbn [bind]; [|discriminate].
      destruct (map_res f r) as [ys|] eqn:Er; cbn [bind]; [|discriminate].
      intros E; inversion E; subst. constructor; [apply H; [now left|exact Ea]|now apply IH'].
    + inversion 1 as [|? y ? ys Hy Hys]; subst. apply H in Hy; [|now left]. rewrite Hy. cbn [bind].
      apply IH' in Hys. now rewrite Hys.
Qed.

Lemma map_res_raise {A B} (f : A -> res B) l e : map_res f l = Raise e -> exists x, In x l /\ f x = Raise e.
Proof.
  induction l as [|a r IH]; cbn [map_res]; [discriminate|].
  destruct (f a) as [y|e'] eqn:Ea; cbn [bind].
  - destruct (map_res f r) as [ys|e'] eqn:Er; cbn [bind]; [discriminate|].
    intros E; inversion E; subst. destruct (IH eq_refl) as (x & Hx & Hf). exists x. split; [now right|exact Hf].
  - intros E; inversion E; subst. exists a. split; [now left|exact Ea].
Qed.

Lemma parse_rows_spec lines nums :
  parse_rows lines = Ok nums <->
  exists used rest toks, lines = (used ++ rest)%list /\ ended rest /\ Forall (fun l => ~ blank l) used /\
    Forall2 line_text used toks /\ Forall2 (Forall2 (number_text true)) toks nums.
Proof.
  revert nums. induction lines as [|row r IH]; intros nums; cbn [parse_rows].
  - split.
    + intros E; inversion E; subst. exists [], [], []. repeat split; constructor.
    + intros (used & rest & toks & E & _ & _ & H1 & H2). symmetry in E. apply app_eq_nil in E.
      destruct E as [-> ->]. inversion H1; subst. inversion H2; reflexivity.
  - destruct (isspace row || String.eqb row "")%bool eqn:Eb.
    + apply isspace_blank in Eb. split.
      * intros E; inversion E; subst. exists [], (row :: r), []. repeat split; try constructor. exact Eb.
      * intros (used & rest & toks & E & _ & Hb & H1 & H2). destruct used as [|u us].
        -- inversion H1; subst. inversion H2; reflexivity.
        -- inversion E; subst. apply Forall_inv in Hb. contradiction.
    + assert (Hb : ~ blank row) by (rewrite <- isspace_blank, Eb; discriminate).
      pose proof (split_ws_sound row) as Hl. pose proof (line_tokens_solid _ _ Hl) as Hsol.
      assert (Hm : forall cs, map_res py_float (split_ws row) = Ok cs <-> Forall2 (number_text true) (split_ws row) cs).
      { intros cs. apply map_res_iff. intros t Ht y. apply py_float_token. rewrite Forall_forall in Hsol. auto. }
      split.
      * destruct (map_res py_float (split_ws row)) as [cs|] eqn:Ec; cbn [bind]; [|discriminate].
        destruct (parse_rows r) as [ns|] eqn:Er; cbn [bind]; [|discriminate].
        intros E; inversion E; subst. destruct (proj1 (IH ns) eq_refl) as (used & rest & toks & -> & A & B & C & D).
        exists (row :: used), rest, (split_ws row :: toks). repeat split; auto.
        constructor; [now apply Hm|exact D].
      * intros (used & rest & toks & E & A & B & C & D). destruct used as [|u us].
        -- cbn [app] in E. subst rest. cbn in A. contradiction.
        -- cbn [app] in E. injection E as E1 E2. subst u r.
           inversion C as [|? tk ? tks Hu Hus]; subst. inversion D as [|? ns ? nss Hn Hns]; subst.
           apply split_ws_complete in Hu. rewrite Hu in *.
           rewrite (proj2 (Hm ns) Hn). cbn [bind].
           assert (Er : parse_rows (us ++ rest)%list = Ok nss).
           { apply IH. exists us, rest, tks. repeat split; auto. now apply Forall_inv_tail in B. }
           now rewrite Er.
Qed.

Lemma parse_rows_raise lines e : parse_rows lines = Raise e -> e = ValueError.
Proof.
  induction lines as [|row r IH]; cbn [parse_rows]; [discriminate|].
  destruct (_ || _)%bool; [discriminate|].
  destruct (map_res py_float (split_ws row)) as [cs|e'] eqn:Ec; cbn [bind].
  - destruct (parse_rows r) as [|e'] eqn:Er; cbn [bind]; [discriminate|]. intros E; inversion E; subst. auto.
  - intros E; inversion E; subst. apply map_res_raise in Ec. destruct Ec as (x & _ & Hx).
    now apply parse_float_raise in Hx.
Qed.

(** *** monotonicity *)
Lemma increasing_from_spec x l : increasing_from x l = true <-> increasing (x :: l).
Proof.
  revert x. induction l as [|y r IH]; intros x; cbn [increasing_from].
  - split; [constructor|reflexivity].
  - rewrite andb_true_iff, IH. unfold xgt. split.
    + intros [H1 H2]. now constructor.
    + inversion 1; subst. auto.
Qed.

Lemma validate_spec n rows : validate_table (ND2 (S n) rows) =
  Ok (NpBool (match map (col 0) rows with [] => true | x :: l => increasing_from x l end)).
Proof. reflexivity. Qed.

Lemma str_table_arr n rows : str_table_to_numeric (TArr (ND2 (S n) rows)) = Ok (ND2 (S n) rows).
Proof. reflexivity. Qed.

Lemma fix_loop_subseq x l : subseq (fix_loop x l) l.
Proof.
  revert x. induction l as [|r t IH]; intros x; cbn [fix_loop]; [constructor|].
  destruct (negb _); constructor; auto.
Qed.
Lemma fix_loop_increasing x l : increasing (x :: map (col 0) (fix_loop x l)).
Proof.
  revert x. induction l as [|r t IH]; intros x; cbn [fix_loop]; [constructor|].
  destruct (xgt (col 0 r) x) eqn:E; cbn [negb]; [|apply IH]. cbn [map]. constructor; [exact E|apply IH].
Qed.
Lemma fix_loop_id x l : increasing (x :: map (col 0) l) -> fix_loop x l = l.
Proof.
  revert x. induction l as [|r t IH]; intros x H; cbn [fix_loop]; [reflexivity|].
  cbn [map] in H. inversion H as [| |? ? ? H1 H2]; subst. unfold xgt. rewrite H1. cbn [negb]. f_equal. now apply IH.
Qed.
Lemma fix_loop_descending x l : (forall r, In r l -> xlt x (col 0 r) = false) -> fix_loop x l = [].
Proof.
  induction l as [|r t IH]; intros H; cbn [fix_loop]; [reflexivity|].
  unfold xgt. rewrite (H r) by now left. cbn [negb]. apply IH. intros; apply H; now right.
Qed.

Lemma increasing_lt x l : increasing (x :: l) -> forall y, In y l -> xlt x y = true.
Proof.
  revert x. induction l as [|a r IH]; intros x H y []; inversion H; subst; auto.
  eapply xlt_trans; [eassumption|]. now apply IH.
Qed.

Lemma xlt_not_nan_l x y : xlt x y = true -> is_nan x = false.
Proof. destruct x, y; cbn; congruence. Qed.
Lemma xlt_not_nan_r x y : xlt x y = true -> is_nan y = false.
Proof. destruct x, y; cbn; congruence. Qed.
Lemma xlt_conn x y : is_nan x = false -> is_nan y = false -> xlt x y = false -> xle y x = true.
Proof. intros Hx Hy H. rewrite xle_not_lt by assumption. now rewrite H. Qed.

Lemma xle_lt_trans a b c : xle a b = true -> xlt b c = true -> xlt a c = true.
Proof.
  unfold xle. rewrite orb_true_iff. intros [H|H] H2; [eapply xlt_trans; eassumption|].
  destruct a, b; cbn in H; try discriminate; destruct c; cbn in *; try congruence.
  apply Reqb_true in H. now subst.
Qed.

(** the kept rows of the loop, by index: exactly the new strict maxima *)
Lemma fix_loop_records l : forall x,
  exists idx, fix_loop x l = map (fun i => nth i l []) idx /\
    (forall i j a b, nth_error idx i = Some a -> nth_error idx j = Some b -> (i < j)%nat -> (a < b)%nat) /\
    (forall i, In i idx <-> (i < length l)%nat /\ xlt x (col 0 (nth i l [])) = true /\
        (forall j, (j < i)%nat -> is_nan (col 0 (nth j l [])) = false ->
                   xlt (col 0 (nth j l [])) (col 0 (nth i l [])) = true)).
Proof.
  induction l as [|r t IH]; intros x; cbn [fix_loop].
  - exists []. split; [reflexivity|]. split; [intros [] j a b; discriminate|]. intros i; cbn; split; [intros []|lia].
  - destruct (xgt (col 0 r) x) eqn:E; cbn [negb].
    + destruct (IH (col 0 r)) as (idx & E1 & E2 & E3). exists (0%nat :: map S idx). split.
      { cbn [map nth]. f_equal. rewrite E1, map_map. apply map_ext. reflexivity. }
      split.
      { intros [|i] [|j] a b Ha Hb Hij; try lia; cbn [nth_error] in *.
        - inversion Ha; subst. rewrite nth_error_map in Hb. destruct (nth_error idx j); inversion Hb; lia.
        - rewrite nth_error_map in Ha, Hb. destruct (nth_error idx i) as [a'|] eqn:Ea; [|discriminate].
          destruct (nth_error idx j) as [b'|] eqn:Eb; [|discriminate]. inversion Ha; inversion Hb; subst.
          assert (a' < b')%nat by (apply (E2 i j a' b' Ea Eb); lia). lia. }
      intros [|i]; cbn [In nth length].
      * split; [intros _|intros _; now left]. split; [lia|]. split; [exact E|]. intros j Hj; lia.
      * split.
        { intros [H|H]; [discriminate|]. rewrite in_map_iff in H. destruct H as (k & Hk & Hin).
          inversion Hk; subst k. apply E3 in Hin. destruct Hin as (A & B & C).
          split; [lia|]. split; [eapply xlt_trans; [exact E|exact B]|].
          intros [|j] Hj Hn; [exact B|]. apply C; [lia|exact Hn]. }
        { intros (A & B & C). right. apply in_map. apply E3. split; [lia|].
          split; [apply (C 0%nat); [lia|now apply xlt_not_nan_r in E]|].
          intros j Hj Hn. apply (C (S j)); [lia|exact Hn]. }
    + destruct (IH x) as (idx & E1 & E2 & E3). exists (map S idx). split.
      { rewrite E1, map_map. apply map_ext. reflexivity. }
      split.
      { intros i j a b Ha Hb Hij. rewrite nth_error_map in Ha, Hb.
        destruct (nth_error idx i) as [a'|] eqn:Ea; [|discriminate].
        destruct (nth_error idx j) as [b'|] eqn:Eb; [|discriminate]. inversion Ha; inversion Hb; subst.
        assert (a' < b')%nat by (apply (E2 i j a' b' Ea Eb); lia). lia. }
      intros [|i]; cbn [nth length].
      * split.
        { intros H. rewrite in_map_iff in H. destruct H as (k & Hk & _). discriminate. }
        { intros (_ & B & _). unfold xgt in E. congruence. }
      * rewrite in_map_iff. split.
        { intros (k & Hk & Hin). inversion Hk; subst k. apply E3 in Hin. destruct Hin as (A & B & C).
          split; [lia|]. split; [exact B|]. intros [|j] Hj Hn.
          - unfold xgt in E. eapply xle_lt_trans; [|exact B].
            apply xlt_conn; [now apply xlt_not_nan_l in B|exact Hn|exact E].
          - apply C; [lia|exact Hn]. }
        { intros (A & B & C). exists i. split; [reflexivity|]. apply E3. split; [lia|]. split; [exact B|].
          intros j Hj Hn. apply (C (S j)); [lia|exact Hn]. }
Qed.

Lemma first_col_map rows : first_col rows = map (col 0) rows.
Proof. reflexivity. Qed.

Lemma str_table_text s : str_table_to_numeric (TStr s) =
  (do rows <- parse_rows (split_on nl s); do t <- np_array rows; do_ validate_table t; Ok t).
Proof.
  unfold str_table_to_numeric. destruct (parse_rows _) as [rows|]; [|reflexivity]. cbn [bind].
  destruct (np_array rows) as [t|]; [|reflexivity]. cbn [bind].
  destruct t as [l|[|n] r]; reflexivity.
Qed.

Lemma np_array_2d rows n : n <> O ->
  (np_array rows = Ok (ND2 n rows) <-> rows <> [] /\ Forall (fun r => length r = n) rows).
Proof.
  intros Hn. unfold np_array. destruct rows as [|r t]; [split; [discriminate|intros [H _]; congruence]|].
  destruct (forallb _ _) eqn:E.
  - rewrite forallb_forall in E. split.
    + intros H; inversion H; subst. split; [discriminate|]. rewrite Forall_forall. intros q Hq.
      apply E in Hq. now apply Nat.eqb_eq in Hq.
    + intros [_ H]. apply Forall_inv in H. now subst.
  - split; [discriminate|]. intros [_ H]. exfalso. rewrite <- Bool.not_true_iff_false in E. apply E.
    apply forallb_forall. intros q Hq. rewrite Forall_forall in H. apply Nat.eqb_eq.
    rewrite (H q Hq). symmetry. apply H. now left.
Qed.

Lemma np_array_shape rows t : np_array rows = Ok t -> rows = [] /\ t = ND1 [] \/
  exists n, t = ND2 n rows /\ rows <> [] /\ Forall (fun r => length r = n) rows.
Proof.
  unfold np_array. destruct rows as [|r l]; [intros H; inversion H; auto|].
  destruct (forallb _ _) eqn:E; [|discriminate]. intros H; inversion H; subst. right.
  exists (length r). split; [reflexivity|]. split; [discriminate|]. rewrite forallb_forall in E.
  rewrite Forall_forall. intros q Hq. apply E in Hq. now apply Nat.eqb_eq in Hq.
Qed.

Lemma Forall2_cons_inv_l {A B} (P : A -> B -> Prop) a l m : Forall2 P (a :: l) m ->
  exists b m', m = b :: m' /\ P a b /\ Forall2 P l m'.
Proof. inversion 1; eauto. Qed.

Lemma line_nonblank s l : line_text s l -> ~ blank s -> l <> [].
Proof. intros H Hb ->. apply Hb. now apply line_nil_inv. Qed.

Lemma parse_rows_cut a b r : blank b -> parse_rows (a ++ b :: r)%list = parse_rows a.
Proof.
  intros Hb. induction a as [|x l IH]; cbn [app parse_rows].
  - now rewrite (proj2 (isspace_blank b) Hb).
  - rewrite IH. reflexivity.
Qed.
