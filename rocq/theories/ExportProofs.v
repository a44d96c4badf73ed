(** Tables written and read back *)
From Verif Require Import PyBase PyStr XReal TextModel TextSpec TextProofs TableProofs SpectrumModel SpectralModel MaterialModel MaterialSpec MaterialProofs MatFileProofs FileModel ReaderModel WriterModel IOSpec LineProofs FmtProofs TextFileProofs DisplayProofs SaveProofs PathProofs CycleProofs.
From Coq Require Import Permutation.
Open Scope R_scope.
Open Scope string_scope.
Open Scope list_scope.

Lemma xeqb_same x y : xeqb x y = true <-> same_number x y.
Proof.
  unfold same_number. destruct x as [a| | |], y as [b| | |]; cbn; split; try (intros H; discriminate H); try (intros [H _]; discriminate H); try (split; [reflexivity|discriminate]); try (intros; reflexivity).
  - intros H. apply Reqb_true in H. subst. split; [reflexivity|discriminate].
  - intros [H _]. injection H as ->. now apply Reqb_true.
  - intros [_ H]. congruence.
Qed.
Lemma forallb_grid a b : length a = length b -> forallb (fun p => xeqb (fst p) (snd p)) (combine a b) = true <-> Forall2 same_number a b.
Proof.
  revert b; induction a as [|x a IH]; intros [|y b] H; try discriminate; cbn [combine forallb fst snd].
  - split; [constructor|reflexivity].
  - injection H as H. rewrite andb_true_iff, IH by exact H. rewrite xeqb_same. split; [intros []; now constructor|intros F; inversion F; tauto].
Qed.
Lemma beside_zip t k : zip_with (fun r q => r ++ [col 1 q]) t k = beside t k.
Proof. revert k; induction t as [|r t IH]; intros [|q k]; cbn; try reflexivity. now rewrite IH. Qed.
Lemma beside_length n t k : length t = length k -> Forall (fun r => length r = n) t -> Forall (fun r => length r = S n) (beside t k) /\ length (beside t k) = length t.
Proof.
  revert k; induction t as [|r t IH]; intros [|q k] H F; try discriminate; cbn; [split; [constructor|reflexivity]|].
  injection H as H. destruct (IH k H (Forall_inv_tail F)) as [IH1 IH2]. split; [|now rewrite IH2]. constructor; [|exact IH1].
  rewrite app_length. apply Forall_inv in F. cbn. lia.
Qed.
Lemma table_of_length rows : Forall (fun r => length r = 2%nat) (table_of rows).
Proof. apply Forall_map, Forall_forall. reflexivity. Qed.
Lemma shown_length disp t n : Forall (fun r => length r = n) t -> Forall (fun r => length r = n) (shown disp t).
Proof. intros H. apply Forall_map. eapply Forall_impl; [|exact H]. intros r Hr. now rewrite map_length. Qed.
Lemma shown_rows disp t : length (shown disp t) = length t.
Proof. apply map_length. Qed.

Lemma below_weak a b x : a <= b -> below a x -> below b x.
Proof. destruct x; cbn; lra. Qed.
Lemma float_displayable : 18 * 10 ^ 307 <= 10 ^ 309.
Proof. replace (10 ^ 309) with (100 * 10 ^ 307) by (change 309%nat with (2 + 307)%nat; rewrite pow_add; lra). assert (0 < 10 ^ 307) by (apply pow_lt; lra). lra. Qed.
Lemma shown_displayable x y : float_range x -> shown_near x y -> below (10 ^ 309) y.
Proof.
  unfold float_range, below, shown_near, near. destruct x as [a| | |]; [destruct y as [b| | |]; try contradiction|intros _ ->; exact I..].
  intros H N. replace (10 ^ 309) with (100 * 10 ^ 307) by (change 309%nat with (2 + 307)%nat; rewrite pow_add; lra).
  assert (1 <= 10 ^ 307) as P by (apply pow_R1_Rle; lra). revert H N P. generalize (10 ^ 307). intros p H N P.
  assert (Rmax 1 (Rabs a) <= 18 * p) by (apply Rmax_lub; lra).
  pose proof (Rabs_triang a (b - a)). replace (a + (b - a)) with b in H1 by lra. lra.
Qed.
Lemma float_table_concat rows : float_table rows -> Forall float_range (concat (table_of rows)).
Proof. induction 1 as [|[x y] rows [H1 H2] _ IH]; cbn; [constructor|]. now repeat constructor. Qed.
Lemma float_table_displayable rows : float_table rows -> Forall (below (10 ^ 309)) (concat (table_of rows)).
Proof. intros H. eapply Forall_impl; [|apply (float_table_concat _ H)]. intros x. apply below_weak, float_displayable. Qed.

Section Export.
Variable W : wenv.
Variable disp : list xr -> xr -> xr.
Hypothesis HW : shows W disp.

Lemma pairs_parse rows : float_table rows -> rows <> [] -> (length rows <= 500)%nat ->
  str_table_to_numeric (TStr (numeric_to_string_table W (pairs_nd rows))) = Ok (ND2 2 (shown disp (table_of rows))).
Proof.
  intros HF Hne Hl. unfold pairs_nd. change (map (fun r => [fst r; snd r]) rows) with (table_of rows).
  apply (table_round_trip W disp HW); [now apply float_table_displayable|lia|destruct rows; [congruence|discriminate]|apply table_of_length|].
  unfold table_of. rewrite map_length. lia.
Qed.
Lemma pairs_too_large rows : float_table rows -> (500 < length rows)%nat ->
  str_table_to_numeric (TStr (numeric_to_string_table W (pairs_nd rows))) = Raise ValueError.
Proof.
  intros HF Hl. unfold pairs_nd. change (map (fun r => [fst r; snd r]) rows) with (table_of rows).
  apply (table_too_large W disp HW); [now apply float_table_displayable|lia|apply table_of_length|]. unfold table_of. rewrite map_length. lia.
Qed.

Definition sets_apart (b b' : dbase) (n k : list (xr * xr)) : list (dict dval) :=
  [tab_dict W b n "tabulated n"; tab_dict W b' k "tabulated k"].
Definition set_together (b : dbase) (n k : list (xr * xr)) : dict dval :=
  merged (DStr (d_unit b)) (DStr (d_type b))
    (numeric_to_string_table W (ND2 3 (beside (shown disp (table_of n)) (shown disp (table_of k))))).

Lemma collapse_tables b b' n k : float_table n -> float_table k -> n <> [] -> k <> [] -> (length n <= 500)%nat -> (length k <= 500)%nat ->
  collapse_datasets W (sets_apart b b' n k) =
  do same <- grid_eq W (grid (shown disp (table_of n))) (grid (shown disp (table_of k)));
  if negb same || negb (String.eqb (d_unit b) (d_unit b')) || negb (String.eqb (d_type b) (d_type b'))
  then Ok (sets_apart b b' n k)
  else if Nat.eqb (length n) (length k) then Ok [set_together b n k] else Raise ValueError.
Proof.
  intros Fn Fk Hn Hk Ln Lk. unfold collapse_datasets, sets_apart.
  assert (find_tables [tab_dict W b n "tabulated n"; tab_dict W b' k "tabulated k"] None None 0 =
    Ok (Some (ND2 2 (shown disp (table_of n))), Some (ND2 2 (shown disp (table_of k))), 2%nat)) as ->.
  { pose proof (pairs_parse n Fn Hn Ln) as P1. pose proof (pairs_parse k Fk Hk Lk) as P2.
    cbn [find_tables]. change (dlookup (tab_dict W b n "tabulated n") "DataType") with (Ok (DStr "tabulated n")).
    change (dlookup (tab_dict W b' k "tabulated k") "DataType") with (Ok (DStr "tabulated k")). cbn [bind].
    change (dstr_eqb (DStr "tabulated n") "tabulated n") with true. change (dstr_eqb (DStr "tabulated n") "tabulated k") with false.
    change (dstr_eqb (DStr "tabulated k") "tabulated n") with false. change (dstr_eqb (DStr "tabulated k") "tabulated k") with true. cbv iota.
    change (dlookup (tab_dict W b n "tabulated n") "Data") with (Ok (DStr (numeric_to_string_table W (pairs_nd n)))).
    change (dlookup (tab_dict W b' k "tabulated k") "Data") with (Ok (DStr (numeric_to_string_table W (pairs_nd k)))).
    cbn [bind dval_tab]. rewrite P1, P2. reflexivity. }
  cbn [bind]. change (2 <? 2)%nat with false. cbv iota. cbn [first_column bind].
  change (map (col 0) (shown disp (table_of n))) with (grid (shown disp (table_of n))).
  change (map (col 0) (shown disp (table_of k))) with (grid (shown disp (table_of k))).
  destruct (grid_eq W (grid (shown disp (table_of n))) (grid (shown disp (table_of k)))) as [same|e]; [|reflexivity]. cbn [bind].
  change (dlookup (tab_dict W b n "tabulated n") "Unit") with (Ok (DStr (d_unit b))).
  change (dlookup (tab_dict W b' k "tabulated k") "Unit") with (Ok (DStr (d_unit b'))).
  change (dlookup (tab_dict W b n "tabulated n") "SpectrumType") with (Ok (DStr (d_type b))).
  change (dlookup (tab_dict W b' k "tabulated k") "SpectrumType") with (Ok (DStr (d_type b'))). cbn [bind dval_neq].
  destruct (negb same || negb (String.eqb (d_unit b) (d_unit b')) || negb (String.eqb (d_type b) (d_type b'))); [reflexivity|].
  unfold append_col. change (2 <? 2)%nat with false. cbv iota. rewrite !shown_rows. unfold table_of at 1 2. rewrite !map_length.
  destruct (Nat.eqb (length n) (length k)); [|reflexivity]. cbn [bind]. rewrite beside_zip. reflexivity.
Qed.

Lemma prepare_tables m meta b b' n k : tables_of m b b' n k -> m_meta m = Some meta ->
  prepare_file_dict W m = do sets <- collapse_datasets W (sets_apart b b' n k); Ok (kept meta, sets).
Proof.
  intros [H1 [H2 [H3 H4]]] Hm. unfold prepare_file_dict, dataset_to_dict. rewrite Hm, H1, H2, H3, H4. reflexivity.
Qed.

(** a single table is written first *)
Lemma prepare_no_table m meta b n d : m_meta m = Some meta -> m_name m = "nk" -> m_complex m = None ->
  m_real m = DInterp b n -> (forall bb rows, m_imag m <> DInterp bb rows) -> part_dict W "nk" "imag" (m_imag m) = Ok d ->
  float_table n -> n <> [] -> (length n <= 500)%nat ->
  prepare_file_dict W m = Ok (kept meta, [tab_dict W b n "tabulated n"; d]).
Proof.
  intros Hm Hnm Hc Hr Hi Hd Fn Hn Ln. unfold prepare_file_dict, dataset_to_dict. rewrite Hm, Hnm, Hc, Hr, Hd. cbn [bind].
  change (part_dict W "nk" "real" (DInterp b n)) with (Ok (tab_dict W b n "tabulated n")). cbn [bind].
  assert (exists t, dlookup d "DataType" = Ok t /\ dstr_eqb t "tabulated n" = false /\ dstr_eqb t "tabulated k" = false) as [t [Ht [N K]]].
  { destruct (m_imag m) as [bb v|bb rows|bb kk ps|? ? ?]; [| |injection Hd as <-|discriminate].
    - injection Hd as <-. eexists. split; [reflexivity|]. split; reflexivity.
    - exfalso. now apply (Hi bb rows).
    - eexists. split; [reflexivity|]. destruct kk; split; reflexivity. }
  pose proof (pairs_parse n Fn Hn Ln) as P.
  unfold collapse_datasets. cbn [find_tables]. change (dlookup (tab_dict W b n "tabulated n") "DataType") with (Ok (DStr "tabulated n")). cbn [bind].
  change (dstr_eqb (DStr "tabulated n") "tabulated n") with true. change (dstr_eqb (DStr "tabulated n") "tabulated k") with false. cbv iota.
  change (dlookup (tab_dict W b n "tabulated n") "Data") with (Ok (DStr (numeric_to_string_table W (pairs_nd n)))). cbn [bind dval_tab].
  rewrite P. cbn [bind fst snd]. rewrite Ht. cbn [bind]. rewrite N, K. reflexivity.
Qed.

(** the displayed tables are displayable again *)
Lemma shown_concat t : Forall (below (10 ^ 309)) (concat t) -> Forall float_range (concat t) -> Forall (below (10 ^ 309)) (concat (shown disp t)).
Proof.
  intros HD HF. apply Forall_forall. intros y Hy. apply in_concat in Hy. destruct Hy as [r' [Hr Hy]]. apply in_map_iff in Hr.
  destruct Hr as [r [<- Hr]]. apply in_map_iff in Hy. destruct Hy as [x [<- Hx]].
  assert (In x (concat t)) as Hin by (apply in_concat; exists r; now split).
  apply (shown_displayable x); [now apply (proj1 (Forall_forall _ _) HF)|]. now apply (shows_value _ _ HW).
Qed.
Lemma beside_concat (P : xr -> Prop) t k : P NaN -> Forall P (concat t) -> Forall P (concat k) -> Forall P (concat (beside t k)).
Proof.
  intros PN. revert k; induction t as [|r t IH]; intros [|q k] Ht Hk; cbn; try constructor.
  cbn in Ht, Hk. apply Forall_app in Ht. apply Forall_app in Hk. destruct Ht as [Hr Ht], Hk as [Hq Hk].
  apply Forall_app; split; [apply Forall_app; split; [exact Hr|]|now apply IH]. constructor; [|constructor].
  destruct (Nat.lt_ge_cases 1 (length q)); [|rewrite nth_overflow by assumption; exact PN].
  apply (proj1 (Forall_forall _ _) Hq), nth_In. assumption.
Qed.
Lemma together_displayable n k : float_table n -> float_table k ->
  Forall (below (10 ^ 309)) (concat (beside (shown disp (table_of n)) (shown disp (table_of k)))).
Proof. intros Hn Hk. apply beside_concat; [exact I| |]; (apply shown_concat; [now apply float_table_displayable|now apply float_table_concat]). Qed.

(** writing succeeds *)
Lemma save_text_total path m meta c fs ic rii d rest b dt s n rows : text_file path -> m_meta m = Some meta ->
  dget meta "MetaComment" = Some (MStr c) -> prepare_file_dict W m = Ok (kept meta, d :: rest) -> first_set d b dt s ->
  str_table_to_numeric (TStr s) = Ok (ND2 n rows) -> exists ops, save_material W path m fs ic rii = (Ok tt, ops).
Proof.
  intros Hp Hm Hc Hpre Hd Htab. apply text_file_ext in Hp. unfold save_material, mk_writer. rewrite Hpre. cbn [bind fst snd].
  unfold write_file. cbn [w_meta w_path w_ext w_sets]. rewrite dget_kept, Hc by discriminate.
  assert (smem (splitext path) txt_types = true) as Hs by (destruct Hp as [-> | ->]; reflexivity). rewrite Hs.
  assert (exists text, write_text_file W (mkWriter path (splitext path) (ddel (kept meta) "MetaComment") (d :: rest)) = Ok text) as [text ->].
  { unfold write_text_file. cbn [w_meta w_path w_ext w_sets]. destruct Hd as [D1 [D2 [D3 [D4 [D5 [D6 [D7 [D8 D9]]]]]]]].
    unfold lookup2, dlookup. rewrite D1, D2, D3, D4, D5, D6, D7, D8. cbn [bind format_dval dval_tab]. rewrite Htab. cbn [bind].
    destruct Hp as [-> | ->]; eexists; reflexivity. }
  cbn [bind]. destruct c as [|c0 c1]; [eexists; reflexivity|].
  rewrite run_write. unfold prepend_text_to_file, fs_read. rewrite dget_dset_same. cbn [bind]. eexists; reflexivity.
Qed.
End Export.

(** ** the data read back *)
Lemma near_mono e e' x y : e <= e' -> near e x y -> near e' x y.
Proof. unfold near. destruct x as [a| | |], y as [b| | |]; try tauto. intros H N. pose proof (Rmax_l 1 (Rabs a)). nra. Qed.
Lemma near_refl x : near 0 x x.
Proof. destruct x; cbn; try reflexivity. replace (r - r) with 0 by lra. rewrite Rabs_R0. lra. Qed.
Lemma near_trans e1 e2 x y z : 0 <= e1 -> 0 <= e2 <= 1 -> near e1 x y -> near e2 y z -> near (e1 + e2 + e2 * e1) x z.
Proof.
  unfold near. destruct x as [a| | |].
  - destruct y as [b| | |]; try tauto. destruct z as [c| | |]; try tauto. intros H1 [H2 H3] N1 N2.
    assert (Rmax 1 (Rabs b) <= (1 + e1) * Rmax 1 (Rabs a)) as M.
    { pose proof (Rmax_l 1 (Rabs a)). pose proof (Rmax_r 1 (Rabs a)). apply Rmax_lub; [nra|].
      pose proof (Rabs_triang a (b - a)) as T. replace (a + (b - a)) with b in T by lra. lra. }
    pose proof (Rabs_triang (c - b) (b - a)) as T. replace (c - b + (b - a)) with (c - a) in T by lra.
    pose proof (Rmax_l 1 (Rabs a)).
    assert (e2 * Rmax 1 (Rabs b) <= e2 * ((1 + e1) * Rmax 1 (Rabs a))) by (apply Rmult_le_compat_l; assumption).
    lra.
  - intros _ _ -> N. destruct z; cbn in N; congruence.
  - intros _ _ -> N. destruct z; cbn in N; congruence.
  - intros _ _ -> N. destruct z; cbn in N; congruence.
Qed.
Lemma near_round8 x : near (5 / 10 ^ 9) x (xround 8 x).
Proof.
  destruct x as [a| | |]; cbn [near xround]; try reflexivity. pose proof (round_dec_error 8 a). pose proof (Rmax_l 1 (Rabs a)). lra.
Qed.

Section Read.
Variable W : wenv.
Variable disp : list xr -> xr -> xr.
Hypothesis HW : shows W disp.

Lemma disp_near all x : Forall float_range all -> In x all -> near (5 / 10 ^ 9) x (disp all x).
Proof.
  intros HF Hx. apply (shows_value _ _ HW); [|exact Hx]. eapply Forall_impl; [|exact HF]. intros y. apply below_weak, float_displayable.
Qed.
(** the columns of the merged table *)
Lemma together_parse n k : float_table n -> float_table k -> n <> [] -> length k = length n -> (length n <= 333)%nat ->
  str_table_to_numeric (TStr (numeric_to_string_table W (ND2 3 (beside (shown disp (table_of n)) (shown disp (table_of k)))))) =
  Ok (ND2 3 (shown disp (beside (shown disp (table_of n)) (shown disp (table_of k))))).
Proof.
  intros Fn Fk Hn Hk Hl.
  assert (length (shown disp (table_of n)) = length (shown disp (table_of k))) as HL by (rewrite !shown_rows; unfold table_of; rewrite !map_length; now symmetry).
  destruct (beside_length 2 _ _ HL (shown_length disp _ 2 (table_of_length n))) as [B1 B2].
  apply (table_round_trip W disp HW); [now apply (together_displayable W disp HW)|lia| |exact B1|].
  - intros E. rewrite E in B2. rewrite shown_rows in B2. unfold table_of in B2. rewrite map_length in B2. destruct n; [congruence|discriminate].
  - rewrite B2, shown_rows. unfold table_of. rewrite map_length. lia.
Qed.
Lemma together_too_large n k : float_table n -> float_table k -> length k = length n -> (333 < length n)%nat ->
  str_table_to_numeric (TStr (numeric_to_string_table W (ND2 3 (beside (shown disp (table_of n)) (shown disp (table_of k)))))) = Raise ValueError.
Proof.
  intros Fn Fk Hk Hl.
  assert (length (shown disp (table_of n)) = length (shown disp (table_of k))) as HL by (rewrite !shown_rows; unfold table_of; rewrite !map_length; now symmetry).
  destruct (beside_length 2 _ _ HL (shown_length disp _ 2 (table_of_length n))) as [B1 B2].
  apply (table_too_large W disp HW); [now apply (together_displayable W disp HW)|lia|exact B1|].
  rewrite B2, shown_rows. unfold table_of. rewrite map_length. lia.
Qed.

Lemma grid_same_dec a b : {Forall2 same_number a b} + {~ Forall2 same_number a b}.
Proof.
  destruct (Nat.eq_dec (length a) (length b)) as [E|E].
  - destruct (forallb (fun p => xeqb (fst p) (snd p)) (combine a b)) eqn:F.
    + left. now apply forallb_grid.
    + right. intros G. apply (forallb_grid a b E) in G. congruence.
  - right. intros G. apply E. clear E. induction G; cbn; congruence.
Qed.
Lemma collapse_share b b' n k : float_table n -> float_table k -> n <> [] -> length k = length n -> (length n <= 500)%nat ->
  (share_grid disp b b' n k -> collapse_datasets W (sets_apart W b b' n k) = Ok [set_together W disp b n k]) /\
  (~ share_grid disp b b' n k -> collapse_datasets W (sets_apart W b b' n k) = Ok (sets_apart W b b' n k)).
Proof.
  intros Fn Fk Hn Hk Hl.
  assert (k <> []) as Hk0 by (intros ->; destruct n; [congruence|discriminate]).
  rewrite (collapse_tables W disp HW) by (try assumption; lia).
  assert (length (grid (shown disp (table_of n))) = length (grid (shown disp (table_of k)))) as HL
    by (unfold grid; rewrite !map_length, !shown_rows; unfold table_of; rewrite !map_length; now symmetry).
  unfold grid_eq. rewrite (proj2 (Nat.eqb_eq _ _) HL). cbn [bind]. rewrite Hk, Nat.eqb_refl. unfold share_grid.
  pose proof (forallb_grid _ _ HL) as FG. split.
  - intros [G [U T]]. apply FG in G. rewrite G, U, T, !String.eqb_refl. reflexivity.
  - intros N. destruct (forallb _ _) eqn:G; [|reflexivity].
    destruct (String.eqb_spec (d_unit b) (d_unit b')) as [U|U]; [|reflexivity].
    destruct (String.eqb_spec (d_type b) (d_type b')) as [T|T]; [|reflexivity].
    exfalso. apply N. split; [now apply FG|now split].
Qed.

(** every entry read is near the entry written *)
Lemma beside_map {A B} (f : A -> list xr) (g : B -> list xr) n : forall k, length k = length n ->
  beside (map f n) (map g k) = map (fun p => f (fst p) ++ [nth 1 (g (snd p)) NaN]) (combine n k).
Proof. induction n as [|x n IH]; intros [|y k] H; try discriminate; cbn; [reflexivity|]. injection H as H. now rewrite IH. Qed.
Lemma shown_table n : shown disp (table_of n) = map (fun r => [disp (concat (table_of n)) (fst r); disp (concat (table_of n)) (snd r)]) n.
Proof. unfold shown. unfold table_of at 2. rewrite map_map. reflexivity. Qed.
Definition together_entry (n k : list (xr * xr)) (all : list xr) (x : xr) : xr :=
  xround 8 (disp (concat (beside (shown disp (table_of n)) (shown disp (table_of k)))) (disp all x)).
Lemma together_form n k : length k = length n ->
  rounded8 (shown disp (beside (shown disp (table_of n)) (shown disp (table_of k)))) =
  map (fun p => [together_entry n k (concat (table_of n)) (fst (fst p)); together_entry n k (concat (table_of n)) (snd (fst p));
                 together_entry n k (concat (table_of k)) (snd (snd p))]) (combine n k).
Proof.
  intros H. unfold together_entry. set (C := concat (beside (shown disp (table_of n)) (shown disp (table_of k)))).
  unfold rounded8. unfold shown at 1. fold C. rewrite !shown_table, beside_map by exact H. rewrite !map_map. reflexivity.
Qed.
Lemma combine_fst {A B} (P : A -> A * B -> Prop) n : forall k, length k = length n -> (forall p, In p (combine n k) -> P (fst p) p) ->
  Forall2 P n (combine n k).
Proof.
  induction n as [|x n IH]; intros [|y k] H F; try discriminate; cbn; [now constructor|].
  constructor; [exact (F (x, y) (or_introl eq_refl))|].
  apply IH; [now injection H|]. intros p Hp. apply F. now right.
Qed.
Lemma combine_snd {A B} (P : B -> A * B -> Prop) k : forall n, length k = length n -> (forall p, In p (combine n k) -> P (snd p) p) ->
  Forall2 P k (combine n k).
Proof.
  induction k as [|x k IH]; intros [|y n] H F; try discriminate; cbn; [now constructor|].
  constructor; [exact (F (y, x) (or_introl eq_refl))|].
  apply IH; [now injection H|]. intros p Hp. apply F. now right.
Qed.
Lemma Forall2_map_r' {A B C} (P : A -> C -> Prop) (f : B -> C) l : forall m, Forall2 (fun a b => P a (f b)) l m -> Forall2 P l (map f m).
Proof. induction 1; cbn; constructor; auto. Qed.
Lemma table_in n r : In r n -> In (fst r) (concat (table_of n)) /\ In (snd r) (concat (table_of n)).
Proof.
  intros H. assert (In [fst r; snd r] (table_of n)) as H' by (apply in_map_iff; now exists r).
  split; apply in_concat; exists [fst r; snd r]; split; cbn; auto.
Qed.
Lemma together_in n k p : length k = length n -> In p (combine n k) ->
  let C := concat (beside (shown disp (table_of n)) (shown disp (table_of k))) in
  In (disp (concat (table_of n)) (fst (fst p))) C /\ In (disp (concat (table_of n)) (snd (fst p))) C /\
  In (disp (concat (table_of k)) (snd (snd p))) C.
Proof.
  intros H Hp C. unfold C. rewrite !shown_table, beside_map by exact H.
  set (f := fun q : (xr * xr) * (xr * xr) => _).
  assert (In (f p) (map f (combine n k))) as Hi by now apply in_map.
  repeat split; apply in_concat; exists (f p); (split; [exact Hi|cbn; auto]).
Qed.
Lemma entry_near all C x : Forall float_range all -> In x all -> Forall (below (10 ^ 309)) C -> In (disp all x) C ->
  near (2 / 10 ^ 8) x (xround 8 (disp C (disp all x))).
Proof.
  intros H1 H2 H3 H4. pose proof (disp_near all x H1 H2) as N1. pose proof (shows_value _ _ HW C _ H3 H4) as N2.
  pose proof (near_round8 (disp C (disp all x))) as N3.
  pose proof (near_trans (5 / 10 ^ 9) (5 / 10 ^ 9) _ _ _ ltac:(lra) ltac:(lra) N2 N3) as N4.
  pose proof (near_trans (5 / 10 ^ 9) (5 / 10 ^ 9 + 5 / 10 ^ 9 + 5 / 10 ^ 9 * (5 / 10 ^ 9)) _ _ _ ltac:(lra) ltac:(lra) N1 N4) as N5. eapply near_mono; [|exact N5]. lra.
Qed.
Lemma together_near n k : float_table n -> float_table k -> length k = length n ->
  let data := rounded8 (shown disp (beside (shown disp (table_of n)) (shown disp (table_of k)))) in
  near_table (2 / 10 ^ 8) n (pair_cols 0 1 data) /\ near_values (2 / 10 ^ 8) k (pair_cols 0 2 data).
Proof.
  intros Fn Fk H data. unfold data. rewrite together_form by exact H. unfold pair_cols. rewrite !map_map. cbn [col nth].
  pose proof (together_displayable W disp HW n k Fn Fk) as HC.
  pose proof (float_table_concat _ Fn) as An. pose proof (float_table_concat _ Fk) as Ak. split.
  - apply Forall2_map_r', combine_fst; [exact H|]. intros p Hp. cbn [fst snd].
    destruct (together_in n k p H Hp) as [I1 [I2 I3]]. pose proof (table_in n (fst p)) as T.
    destruct T as [T1 T2]; [destruct p; now apply in_combine_l in Hp|]. split; now apply entry_near.
  - apply Forall2_map_r', combine_snd; [exact H|]. intros p Hp. cbn [fst snd].
    destruct (together_in n k p H Hp) as [I1 [I2 I3]]. pose proof (table_in k (snd p)) as T.
    destruct T as [T1 T2]; [destruct p; now apply in_combine_r in Hp|]. now apply entry_near.
Qed.
Lemma apart_near n : float_table n -> near_table (2 / 10 ^ 8) n (pair_cols 0 1 (rounded8 (shown disp (table_of n)))).
Proof.
  intros Fn. rewrite shown_table. unfold rounded8, pair_cols. rewrite !map_map. cbn [map col nth].
  pose proof (float_table_concat _ Fn) as An.
  assert (forall x, In x (concat (table_of n)) -> near (2 / 10 ^ 8) x (xround 8 (disp (concat (table_of n)) x))) as N.
  { intros x Hx. pose proof (near_trans (5 / 10 ^ 9) (5 / 10 ^ 9) _ _ _ ltac:(lra) ltac:(lra) (disp_near _ x An Hx) (near_round8 _)) as N4. eapply near_mono; [|exact N4]. lra. }
  apply Forall2_map_r'. assert (forall l, incl l n -> Forall2 (fun a b : xr * xr => near (2 / 10 ^ 8) (fst a) (fst (xround 8 (disp (concat (table_of n)) (fst b)), xround 8 (disp (concat (table_of n)) (snd b)))) /\
    near (2 / 10 ^ 8) (snd a) (snd (xround 8 (disp (concat (table_of n)) (fst b)), xround 8 (disp (concat (table_of n)) (snd b))))) l l) as G; [|apply G, incl_refl].
  induction l as [|r l IH]; intros Hl; [now constructor|]. constructor; [|apply IH; intros y Hy; apply Hl; now right].
  destruct (table_in n r (Hl r (or_introl eq_refl))) as [T1 T2]. cbn [fst snd]. split; now apply N.
Qed.
(** tables whose entries are displayed exactly and have at most 8 decimals *)
Lemma round8_exact x : decimal8 x -> xround 8 x = x.
Proof. destruct x as [r| | |]; cbn [xround]; try reflexivity. intros [z Hz]. f_equal. now apply (round_dec_exact 8 r z). Qed.
End Read.
