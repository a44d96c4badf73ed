(** Lemmas about yaml files: data sets on their way back into a Material *)
From Verif Require Import PyBase PyStr XReal CNum SpectrumModel SpectrumSpec SpectralModel SpectralSpec SpectralThms TextModel TextSpec TextProofs MaterialModel MatFileProofs FileModel ReaderModel WriterModel IOSpec LineProofs TextFileProofs DisplayProofs SaveProofs PathProofs CycleProofs OrderProofs ExportProofs SaveSpec SaveMoreProofs SaveThms TextFileThms YamlSpec YamlProofs YamlWriteProofs YamlReadProofs.
From Coq Require Import Permutation.
Open Scope R_scope.
Open Scope string_scope.
Open Scope list_scope.

(** ** which data sets are constants *)
Lemma part_const_iff W name part d s : In part ["real"; "imag"] -> part_dict W name part d = Ok s -> is_const s = true <-> constant_part d.
Proof.
  intros Hp H. destruct d as [b v|b rows|b k ps|b a c].
  - split; [intros _; now exists b, v|intros _]. rewrite part_const in H. inv_bind H t E. injection H as <-. unfold add_dtype_suffix in E.
    destruct (String.eqb name "nk"); [|destruct (String.eqb name "eps"); [|discriminate]]; injection E as <-; cbn in Hp; destruct Hp as [<-|[<-|[]]]; reflexivity.
  - split; [|intros (? & ? & X); discriminate]. rewrite part_dict_interp in H. inv_bind H t E. injection H as <-. unfold add_dtype_suffix in E.
    destruct (String.eqb name "nk"); [|destruct (String.eqb name "eps"); [|discriminate]]; injection E as <-; cbn in Hp; destruct Hp as [<-|[<-|[]]]; discriminate.
  - split; [|intros (? & ? & X); discriminate]. rewrite part_model in H. injection H as <-. intros X.
    change (contains_str "constant" ("model " ++ model_name k)%string = true) in X. now rewrite model_constant in X.
  - discriminate.
Qed.
Lemma find_no_table l n k c : Forall (fun d : dict dval => exists s, dget d "DataType" = Some (DStr s) /\ s <> "tabulated n" /\ s <> "tabulated k") l ->
  find_tables l n k c = Ok (n, k, c).
Proof.
  induction 1 as [|d l (s & E & N1 & N2) _ IH]; [reflexivity|]. cbn [find_tables]. unfold dlookup at 1. rewrite E. cbn [bind dstr_eqb].
  apply String.eqb_neq in N1, N2. rewrite N1, N2. cbn [bind fst snd]. exact IH.
Qed.
Lemma writer_parts W path m w : mk_writer W path m = Ok w -> exists a b,
  part_dict W (m_name m) "real" (m_real m) = Ok a /\ part_dict W (m_name m) "imag" (m_imag m) = Ok b /\
  collapse_datasets W [a; b] = Ok (w_sets w).
Proof.
  intros H. destruct (mk_writer_inv _ _ _ _ H) as (_ & _ & meta & sets & _ & Hc & Ed & _ & ->). unfold dataset_to_dict in Ed. rewrite Hc in Ed.
  inv_bind Ed a Ea. inv_bind Ed b Eb. now exists a, b.
Qed.
Lemma part_type W name part d s : In part ["real"; "imag"] -> part_dict W name part d = Ok s -> exists t, dget s "DataType" = Some (DStr t) /\
  ((exists b r, d = DInterp b r) \/ (t <> "tabulated n" /\ t <> "tabulated k")).
Proof.
  intros Hp H. destruct d as [b v|b rows|b k ps|b a c].
  - rewrite part_const in H. inv_bind H t E. injection H as <-. exists t. split; [reflexivity|]. right. unfold add_dtype_suffix in E.
    destruct (String.eqb name "nk"); [|destruct (String.eqb name "eps"); [|discriminate]]; injection E as <-; cbn in Hp; destruct Hp as [<-|[<-|[]]]; split; discriminate.
  - rewrite part_dict_interp in H. inv_bind H t E. injection H as <-. exists t. split; [reflexivity|]. left. now exists b, rows.
  - rewrite part_model in H. injection H as <-. eexists. split; [reflexivity|]. right. destruct k; split; discriminate.
  - discriminate.
Qed.
(** a constant part is not merged with anything *)
Lemma collapse_const W a b sets : collapse_datasets W [a; b] = Ok sets ->
  (forall t, dget a "DataType" = Some (DStr t) -> t <> "tabulated n" /\ t <> "tabulated k") \/ (forall t, dget b "DataType" = Some (DStr t) -> t <> "tabulated n" /\ t <> "tabulated k") ->
  (exists t, dget a "DataType" = Some (DStr t)) -> (exists t, dget b "DataType" = Some (DStr t)) ->
  sets = [a; b].
Proof.
  intros H Hn [ta Ta] [tb Tb]. unfold collapse_datasets in H. inv_bind H f E. cbn [find_tables] in E. unfold dlookup in E. rewrite Ta, Tb in E. cbn [bind] in E.
  inv_bind E nc E1. inv_bind E kc E2. inv_bind E nc2 E3. inv_bind E kc2 E4. injection E as <-.
  assert (snd kc2 < 2)%nat as HC.
  { destruct Hn as [Hn|Hn]; [specialize (Hn ta Ta)|specialize (Hn tb Tb)]; destruct Hn as [N1 N2].
    - assert (dstr_eqb (DStr ta) "tabulated n" = false /\ dstr_eqb (DStr ta) "tabulated k" = false) as [X1 X2] by (split; now apply String.eqb_neq).
      rewrite X1 in E1. injection E1 as <-. rewrite X2 in E2. injection E2 as <-. cbn [fst snd] in *.
      destruct (dstr_eqb (DStr tb) "tabulated n") eqn:Y1.
      + apply String.eqb_eq in Y1. subst tb. change (dstr_eqb (DStr "tabulated n") "tabulated k") with false in E4. cbv iota in E4. injection E4 as <-.
        inv_bind E3 v V1. inv_bind E3 aa V2. injection E3 as <-. cbn. lia.
      + injection E3 as <-. cbn [snd] in *. destruct (dstr_eqb (DStr tb) "tabulated k"); [|injection E4 as <-; cbn; lia].
        inv_bind E4 v V1. inv_bind E4 aa V2. injection E4 as <-. cbn. lia.
    - assert (dstr_eqb (DStr tb) "tabulated n" = false /\ dstr_eqb (DStr tb) "tabulated k" = false) as [X1 X2] by (split; now apply String.eqb_neq).
      rewrite X1 in E3. injection E3 as <-. rewrite X2 in E4. injection E4 as <-. cbn [fst snd] in *.
      destruct (dstr_eqb (DStr ta) "tabulated n") eqn:Y1.
      + apply String.eqb_eq in Y1. subst ta. change (dstr_eqb (DStr "tabulated n") "tabulated k") with false in E2. cbv iota in E2. injection E2 as <-.
        inv_bind E1 v V1. inv_bind E1 aa V2. injection E1 as <-. cbn. lia.
      + injection E1 as <-. cbn [snd] in *. destruct (dstr_eqb (DStr ta) "tabulated k"); [|injection E2 as <-; cbn; lia].
        inv_bind E2 v V1. inv_bind E2 aa V2. injection E2 as <-. cbn. lia. }
  destruct (snd kc2 <? 2)%nat eqn:L; [injection H as <-; reflexivity|]. apply Nat.ltb_ge in L. lia.
Qed.
Lemma written_no_const W path m w (ic : bool) : mk_writer W path m = Ok w -> ic = true \/ (~ constant_part (m_real m) /\ ~ constant_part (m_imag m)) ->
  forallb (fun d => negb (is_const d)) (written_sets ic (w_sets w)) = true.
Proof.
  intros Hw [->|[N1 N2]].
  - unfold written_sets. apply forallb_forall. intros d Hd. now apply filter_In in Hd.
  - destruct (writer_parts W path m w Hw) as (a & b & Ea & Eb & Ec).
    assert (is_const a = false) as Na by (destruct (is_const a) eqn:X; [|reflexivity]; exfalso; apply N1, (part_const_iff _ _ _ _ _ (or_introl eq_refl) Ea), X).
    assert (is_const b = false) as Nb by (destruct (is_const b) eqn:X; [|reflexivity]; exfalso; apply N2, (part_const_iff _ _ _ _ _ (or_intror (or_introl eq_refl)) Eb), X).
    assert (forallb (fun d => negb (is_const d)) (w_sets w) = true) as G.
    { apply collapse_cases in Ec. destruct Ec as [->|(u & t & s & _ & _ & ->)]; [cbn [forallb]; now rewrite Na, Nb|reflexivity]. }
    destruct ic; [|exact G]. unfold written_sets. apply forallb_forall. intros d Hd. now apply filter_In in Hd.
Qed.
Lemma sets_with_const W path m w a b : mk_writer W path m = Ok w -> constant_part (m_real m) \/ constant_part (m_imag m) ->
  part_dict W (m_name m) "real" (m_real m) = Ok a -> part_dict W (m_name m) "imag" (m_imag m) = Ok b -> w_sets w = [a; b].
Proof.
  intros Hw Hc Ea Eb. destruct (writer_parts W path m w Hw) as (a' & b' & Ea' & Eb' & Ec). rewrite Ea in Ea'. injection Ea' as <-. rewrite Eb in Eb'. injection Eb' as <-.
  destruct (part_type _ _ _ _ _ (or_introl eq_refl) Ea) as (ta & Ta & Pa). destruct (part_type _ _ _ _ _ (or_intror (or_introl eq_refl)) Eb) as (tb & Tb & Pb).
  apply (collapse_const W a b (w_sets w) Ec); [|now exists ta|now exists tb]. destruct Hc as [(x & v & Hc)|(x & v & Hc)]; rewrite Hc in *.
  - left. intros t Ht. destruct Pa as [(? & ? & X)|P]; [discriminate|]. congruence.
  - right. intros t Ht. destruct Pb as [(? & ? & X)|P]; [discriminate|]. congruence.
Qed.
Lemma written_const W path m w : mk_writer W path m = Ok w -> constant_part (m_real m) \/ constant_part (m_imag m) ->
  forallb (fun d => negb (is_const d)) (w_sets w) = false.
Proof.
  intros Hw Hc. destruct (writer_parts W path m w Hw) as (a & b & Ea & Eb & _). rewrite (sets_with_const W path m w a b Hw Hc Ea Eb). cbn [forallb].
  destruct Hc as [Hc|Hc].
  - rewrite (proj2 (part_const_iff _ _ _ _ _ (or_introl eq_refl) Ea) Hc). reflexivity.
  - rewrite (proj2 (part_const_iff _ _ _ _ _ (or_intror (or_introl eq_refl)) Eb) Hc). cbn. apply andb_false_r.
Qed.

(** ** entries of a data set that was read *)
Lemma entry_one d n v w : entry d [n] v -> dget d n = Some w -> v = w.
Proof. intros [(q & [<-|[]] & E)|(E & _)] H; [congruence|]. rewrite (E n) in H by now left. discriminate. Qed.
Lemma read_tab W b rows dt f : set_read (tab_dict W b rows dt) f -> ds_type f = DStr dt /\ ds_stype f = DStr (d_type b) /\ ds_unit f = DStr (d_unit b) /\
  ds_data f = DStr (numeric_to_string_table W (pairs_nd rows)).
Proof.
  intros (A & _ & B & C & _ & D). assert (ds_type f = DStr dt) as -> by (change (Some (DStr dt) = Some (ds_type f)) in A; congruence).
  split; [reflexivity|]. split; [exact (entry_one _ _ _ _ B eq_refl)|]. split; [exact (entry_one _ _ _ _ C eq_refl)|].
  destruct D as [D|[D _]]; [|discriminate]. change (Some (DStr (numeric_to_string_table W (pairs_nd rows))) = Some (ds_data f)) in D. congruence.
Qed.
Lemma read_merged u t s f : set_read (merged (DStr u) (DStr t) s) f -> ds_type f = DStr "tabulated nk" /\ ds_stype f = DStr t /\ ds_unit f = DStr u /\ ds_data f = DStr s.
Proof.
  intros (A & _ & B & C & _ & D). assert (ds_type f = DStr "tabulated nk") as -> by (change (Some (DStr "tabulated nk") = Some (ds_type f)) in A; congruence).
  split; [reflexivity|]. split; [exact (entry_one _ _ _ _ B eq_refl)|]. split; [exact (entry_one _ _ _ _ C eq_refl)|].
  destruct D as [D|[D _]]; [|discriminate]. change (Some (DStr s) = Some (ds_data f)) in D. congruence.
Qed.
Lemma read_model W b k ps f : set_read (model_dict W b k ps) f -> ds_type f = DStr ("model " ++ model_name k)%string /\
  ds_range f = DStr (numeric_to_string_table W (vals_nd (sp_values (d_range b)))) /\
  ds_stype f = DStr (d_type b) /\ ds_unit f = DStr (d_unit b) /\ ds_data f = DStr (numeric_to_string_table W (ND1 ps)).
Proof.
  intros (A & R0 & B & C & _ & D). split; [change (Some (DStr ("model " ++ model_name k)%string) = Some (ds_type f)) in A; congruence|].
  split; [exact (entry_one _ _ _ _ R0 eq_refl)|]. split; [exact (entry_one _ _ _ _ B eq_refl)|]. split; [exact (entry_one _ _ _ _ C eq_refl)|].
  destruct D as [D|[_ D]]; [discriminate|]. change (Some (DStr (numeric_to_string_table W (ND1 ps))) = Some (ds_data f)) in D. congruence.
Qed.

(** ** tables *)
Definition orelse (s d : string) : string := if String.eqb s "" then d else s.
Lemma orelse_text (v : string) d : (if dval_true (DStr v) then dval_str (DStr v) else Ok d) = Ok (orelse v d).
Proof. destruct v; reflexivity. Qed.
Lemma orelse_nonempty s d : s <> "" -> orelse s d = s.
Proof. intros H. unfold orelse. destruct (String.eqb_spec s ""); congruence. Qed.
Definition tab_ids : list string := ["nk"; "n"; "k"; "eps_r"; "eps_k"].
Lemma tab_dataset d id nc data p st un : In id tab_ids -> ds_type d = DStr ("tabulated " ++ id)%string -> ds_stype d = DStr st -> ds_unit d = DStr un ->
  str_table_to_numeric (dval_tab (ds_data d)) = Ok (ND2 nc data) ->
  process_dataset d p = process_table nc data id (set_defaults p (orelse st (p_stype p)) (orelse un (p_unit p))).
Proof.
  intros Hi Ht Hs Hu Hd. unfold process_dataset. rewrite Ht.
  assert (dval_split (DStr ("tabulated " ++ id)%string) = Ok ["tabulated"; id]) as -> by (cbn in Hi; repeat (destruct Hi as [<-|Hi]; [reflexivity|]); destruct Hi).
  cbn [bind]. change (String.eqb "tabulated" "tabulated") with true. cbv iota. rewrite Hd. cbn [bind]. rewrite Hs, Hu, !orelse_text. reflexivity.
Qed.
Lemma pairs_total l st un canon : (2 <= length l)%nat -> NoDup (map fst l) -> documented (lower st) (lower un) canon ->
  exists b, spec_data_from_pairs (xrows l) st un = Ok (DInterp b (xrows l)) /\ d_type b = st /\ d_unit b = un.
Proof.
  intros H0 N0 Hc. destruct (C13_accepts_l l st un canon H0 N0 Hc) as (d0 & mn & mx & E & _).
  assert (spec_data_from_pairs (xrows l) st un = Ok d0) as E'.
  { rewrite <- E. destruct l as [|x [|y l]]; cbn in H0; try lia. reflexivity. }
  destruct (pairs_ok_2 _ _ _ _ ltac:(unfold xrows; rewrite map_length; exact H0) E') as (b & -> & T & U). exists b. now split.
Qed.
Lemma table_nk data p q : process_table 3 data "nk" p = Ok q -> (2 <= length data)%nat ->
  exists b1 b2, q = set_imag (set_real p "nk" (DInterp b1 (pair_cols 0 1 data))) "nk" (DInterp b2 (pair_cols 0 2 data)) /\
    d_type b1 = p_stype p /\ d_unit b1 = p_unit p /\ d_type b2 = p_stype p /\ d_unit b2 = p_unit p.
Proof.
  intros E Hl. unfold process_table in E. change (String.eqb "nk" "nk") with true in E. cbv iota in E. cbn [take_cols Nat.ltb Nat.leb bind] in E.
  inv_bind E a Ea. inv_bind E i Ei. injection E as <-.
  destruct (pairs_ok_2 _ _ _ _ ltac:(unfold pair_cols; rewrite map_length; exact Hl) Ea) as (b1 & -> & T1 & U1).
  destruct (pairs_ok_2 _ _ _ _ ltac:(unfold pair_cols; rewrite map_length; exact Hl) Ei) as (b2 & -> & T2 & U2).
  exists b1, b2. now repeat split.
Qed.
Lemma table_n data p q : process_table 2 data "n" p = Ok q -> (2 <= length data)%nat ->
  exists b1, q = set_real p "nk" (DInterp b1 (pair_cols 0 1 data)) /\ d_type b1 = p_stype p /\ d_unit b1 = p_unit p.
Proof.
  intros E Hl. unfold process_table in E.
  change (String.eqb "n" "nk") with false in E. change (String.eqb "n" "n_alpha") with false in E. change (String.eqb "n" "n") with true in E. cbv iota in E.
  cbn [spec_data_from_table] in E. inv_bind E a Ea. injection E as <-.
  destruct (pairs_ok_2 _ _ _ _ ltac:(unfold pair_cols; rewrite map_length; exact Hl) Ea) as (b1 & -> & T & U).
  exists b1. now repeat split.
Qed.
Lemma table_k data p q : process_table 2 data "k" p = Ok q -> (2 <= length data)%nat ->
  exists b1, q = set_imag p "nk" (DInterp b1 (pair_cols 0 1 data)) /\ d_type b1 = p_stype p /\ d_unit b1 = p_unit p.
Proof.
  intros E Hl. unfold process_table in E.
  change (String.eqb "k" "nk") with false in E. change (String.eqb "k" "n_alpha") with false in E. change (String.eqb "k" "n") with false in E. change (String.eqb "k" "k") with true in E. cbv iota in E.
  cbn [spec_data_from_table] in E. inv_bind E a Ea. injection E as <-.
  destruct (pairs_ok_2 _ _ _ _ ltac:(unfold pair_cols; rewrite map_length; exact Hl) Ea) as (b1 & -> & T & U).
  exists b1. now repeat split.
Qed.
Lemma table_eps_part id nc data p : In id ["eps_r"; "eps_k"] -> process_table nc data id p = Ok p.
Proof. intros H. cbn in H. destruct H as [<-|[<-|[]]]; reflexivity. Qed.

(** ** how close the numbers are *)
Section Near.
Variables (W : wenv) (disp : list xr -> xr -> xr).
Hypothesis HW : shows W disp.
Lemma yaml_entry_near all C x : Forall float_range all -> In x all -> Forall (below (10 ^ 309)) C -> In (disp all x) C ->
  near (11 / 10 ^ 9) x (disp C (disp all x)).
Proof.
  intros H1 H2 H3 H4. pose proof (disp_near W disp HW all x H1 H2) as N1. pose proof (shows_value _ _ HW C _ H3 H4) as N2.
  pose proof (near_trans (5 / 10 ^ 9) (5 / 10 ^ 9) _ _ _ ltac:(lra) ltac:(lra) N1 N2) as N5. eapply near_mono; [|exact N5]. lra.
Qed.
Lemma yaml_form n k : length k = length n ->
  shown disp (beside (shown disp (table_of n)) (shown disp (table_of k))) =
  let C := concat (beside (shown disp (table_of n)) (shown disp (table_of k))) in
  map (fun p => [disp C (disp (concat (table_of n)) (fst (fst p))); disp C (disp (concat (table_of n)) (snd (fst p))); disp C (disp (concat (table_of k)) (snd (snd p)))]) (combine n k).
Proof.
  intros H. cbv zeta. set (C := concat (beside _ _)). unfold shown at 1. fold C. rewrite !shown_table, beside_map by exact H. rewrite map_map. reflexivity.
Qed.
Lemma yaml_together_near n k : float_table n -> float_table k -> length k = length n ->
  let data := shown disp (beside (shown disp (table_of n)) (shown disp (table_of k))) in
  near_table (11 / 10 ^ 9) n (pair_cols 0 1 data) /\ near_values (11 / 10 ^ 9) k (pair_cols 0 2 data).
Proof.
  intros Fn Fk H data. unfold data. rewrite yaml_form by exact H. cbv zeta. unfold pair_cols. rewrite !map_map. cbn [col nth].
  pose proof (together_displayable W disp HW n k Fn Fk) as HC.
  pose proof (float_table_concat _ Fn) as An. pose proof (float_table_concat _ Fk) as Ak. split.
  - apply Forall2_map_r', combine_fst; [exact H|]. intros p Hp. cbn [fst snd].
    destruct (together_in disp n k p H Hp) as [I1 [I2 I3]]. pose proof (table_in n (fst p)) as T.
    destruct T as [T1 T2]; [destruct p; now apply in_combine_l in Hp|]. split; now apply yaml_entry_near.
  - apply Forall2_map_r', combine_snd; [exact H|]. intros p Hp. cbn [fst snd].
    destruct (together_in disp n k p H Hp) as [I1 [I2 I3]]. pose proof (table_in k (snd p)) as T.
    destruct T as [T1 T2]; [destruct p; now apply in_combine_r in Hp|]. now apply yaml_entry_near.
Qed.
Lemma yaml_apart_near n : float_table n -> near_table (5 / 10 ^ 9) n (pair_cols 0 1 (shown disp (table_of n))).
Proof.
  intros Fn. rewrite shown_table. unfold pair_cols. rewrite !map_map. cbn [col nth]. pose proof (float_table_concat _ Fn) as An.
  apply Forall2_map_r'. assert (forall l, incl l n -> Forall2 (fun a b : xr * xr => near (5 / 10 ^ 9) (fst a) (fst (disp (concat (table_of n)) (fst b), disp (concat (table_of n)) (snd b))) /\
    near (5 / 10 ^ 9) (snd a) (snd (disp (concat (table_of n)) (fst b), disp (concat (table_of n)) (snd b)))) l l) as G; [|apply G, incl_refl].
  induction l as [|r l IH]; intros Hl; [now constructor|]. constructor; [|apply IH; intros y Hy; apply Hl; now right].
  destruct (table_in n r (Hl r (or_introl eq_refl))) as [T1 T2]. cbn [fst snd]. split; now apply (disp_near W disp HW).
Qed.
Lemma list_near l : Forall float_range l -> Forall2 shown_near l (map (disp l) l).
Proof.
  intros H. assert (forall q, incl q l -> Forall2 shown_near q (map (disp l) q)) as G; [|apply G, incl_refl].
  induction q as [|x q IH]; intros Hq; [constructor|]. cbn [map]. constructor; [|apply IH; intros y Hy; apply Hq; now right].
  apply (disp_near W disp HW); [exact H|]. apply Hq. now left.
Qed.
Lemma floats_displayable l : Forall float_range l -> Forall (below (10 ^ 309)) l.
Proof. intros H. eapply Forall_impl; [|exact H]. intros y. apply below_weak, float_displayable. Qed.
Lemma shown_len t : length (shown disp t) = length t. Proof. apply map_length. Qed.
Lemma beside_shown_len n k : length k = length n -> length (shown disp (beside (shown disp (table_of n)) (shown disp (table_of k)))) = length n.
Proof. intros H. rewrite yaml_form by exact H. rewrite map_length, combine_length. lia. Qed.
End Near.

(** ** models *)
Lemma model_dataset W disp d b k ps p : shows W disp -> ds_type d = DStr ("model " ++ model_name k)%string -> 
  ds_range d = DStr (numeric_to_string_table W (vals_nd (sp_values (d_range b)))) -> ds_data d = DStr (numeric_to_string_table W (ND1 ps)) ->
  forall st un, ds_stype d = DStr st -> ds_unit d = DStr un ->
  Forall float_range ps -> Forall float_range (elems (sp_values (d_range b))) -> (length ps <= 1000)%nat -> (1 <= length (elems (sp_values (d_range b))) <= 1000)%nat ->
  process_dataset d p = process_model_dict (mkKw (Some (model_name k)) (Some (map (disp ps) ps))
    (Some (InVals (VA (map (disp (elems (sp_values (d_range b)))) (elems (sp_values (d_range b))))))) (Some (orelse st (p_stype p))) (Some (orelse un (p_unit p)))) p.
Proof.
  intros HW Ht Hr Hd st un Hs Hu Fp Fr Lp Lr. unfold process_dataset. rewrite Ht.
  assert (dval_split (DStr ("model " ++ model_name k)%string) = Ok ["model"; model_name k]) as -> by (destruct k; reflexivity). cbn [bind].
  change (String.eqb "model" "tabulated") with false. change (String.eqb "model" "formula" || String.eqb "model" "model") with true. cbv iota.
  unfold process_formula_data. change (String.eqb "model" "formula") with false. cbv iota. cbn [bind]. rewrite Hr, Hd, Hs, Hu.
  pose proof (vector_round_trip W disp HW _ (floats_displayable _ Fr) ltac:(lia)) as VR. pose proof (vector_round_trip W disp HW _ (floats_displayable _ Fp) Lp) as VP.
  fold (vals_nd (sp_values (d_range b))) in VR. set (rt := numeric_to_string_table W (vals_nd (sp_values (d_range b)))) in *.
  assert (dval_true (DStr rt) = true) as ->.
  { destruct rt as [|x r] eqn:E; [|reflexivity]. exfalso. change (map_res py_float (split_ws "")) with (Ok (@nil xr)) in VR. injection VR as VR.
    destruct (elems (sp_values (d_range b))); cbn in Lr; [lia|discriminate VR]. }
  cbn [dval_split bind]. rewrite VR. cbn [bind]. rewrite VP. cbn [bind]. rewrite !orelse_text. reflexivity.
Qed.
Lemma class_of k : str_to_class (model_name k) = Ok (KModel k).
Proof. destruct k; reflexivity. Qed.

(** ** with the names of refractiveindex.info *)
Lemma rii_keep v : (forall s, v = DStr s -> ~ In s rii_names) -> rii_value v = v.
Proof.
  intros H. destruct v as [s|a|b]; try reflexivity. specialize (H s eq_refl). unfold rii_value.
  destruct (dget RII_ALIASES s) as [t|] eqn:E; [|reflexivity]. exfalso. apply H.
  assert (In s (map fst RII_ALIASES)) as X by (apply dget_in_iff; congruence). exact X.
Qed.
Definition rii_read (d : dict dval) (f : fset) : Prop :=
  dget d "DataType" = Some (ds_type f) /\ (match dget d "ValidRange" with Some r => ds_range f = rii_value r | None => ds_range f = DStr "" end) /\
  ds_stype f = DStr "" /\ ds_unit f = DStr "" /\ ds_yields f = DStr "" /\
  (exists v, ds_data f = rii_value v /\ (dget d "Data" = Some v \/ (dget d "Data" = None /\ dget d "Parameters" = Some v))).
Lemma rii_apart_keys d : writer_set d -> keys_apart (rii_dataset d).
Proof.
  intros H. unfold keys_apart.
  destruct H; match goal with |- context [rii_dataset ?d] => let k := eval cbv -[rii_value model_name append] in (map fst (rii_dataset d)) in change (map fst (rii_dataset d)) with k end;
    (split; [repeat (apply NoDup_cons; [cbn; intuition discriminate|]); try apply NoDup_nil|]); intros k1 k2 key Ha Hb;
    repeat (destruct Ha as [<-|Ha]; [repeat (destruct Hb as [<-|Hb]; [try reflexivity; vm_compute; intros E1 E2; try discriminate E1; try discriminate E2; congruence|]); destruct Hb|]); destruct Ha.
Qed.
Lemma rii_set_read d : writer_set d -> is_const d = false -> exists f, process_mat_data DATASET_META_DATA_KEYS (rii_dataset d) = Ok f /\ rii_read d f.
Proof.
  intros H C. destruct H as [r t u s dt Hd|r t u dt Hd|r t u k p y Hy|u t s].
  - exists (mkFset (DStr dt) (rii_value (DStr r)) (DStr "") (DStr "") (DStr "") (rii_value (DStr s))). split.
    + cbn in Hd. destruct Hd as [<-|[<-|[<-|[<-|[]]]]]; reflexivity.
    + unfold rii_read. cbn [ds_type ds_range ds_stype ds_unit ds_yields ds_data]. repeat (split; [reflexivity|]). exists (DStr s). split; [reflexivity|now left].
  - exfalso. cbn in Hd. destruct Hd as [<-|[<-|[<-|[<-|[]]]]]; discriminate C.
  - exists (mkFset (DStr ("model " ++ model_name k)) (rii_value (DStr r)) (DStr "") (DStr "") (DStr "") (rii_value (DStr p))). split.
    + destruct k; reflexivity.
    + unfold rii_read. cbn [ds_type ds_range ds_stype ds_unit ds_yields ds_data]. repeat (split; [reflexivity|]). exists (DStr p). split; [reflexivity|]. right. split; reflexivity.
  - exists (mkFset (DStr "tabulated nk") (DStr "") (DStr "") (DStr "") (DStr "") (rii_value (DStr s))). split; [reflexivity|].
    unfold rii_read. cbn [ds_type ds_range ds_stype ds_unit ds_yields ds_data]. repeat (split; [reflexivity|]). exists (DStr s). split; [reflexivity|now left].
Qed.
Lemma rii_sets_read l : Forall writer_set l -> forallb (fun d => negb (is_const d)) l = true ->
  exists fl, map_res (process_mat_data DATASET_META_DATA_KEYS) (map rii_dataset l) = Ok fl /\ Forall2 rii_read l fl.
Proof.
  induction 1 as [|d l Hd Hl IH]; intros C; [exists []; split; [reflexivity|constructor]|]. cbn [forallb] in C. apply andb_true_iff in C. destruct C as [C1 C2].
  apply negb_true_iff in C1. destruct (rii_set_read d Hd C1) as (f & E & S1). destruct (IH C2) as (fl & E2 & S2).
  exists (f :: fl). cbn [map map_res]. rewrite E. cbn [bind]. rewrite E2. split; [reflexivity|now constructor].
Qed.
Lemma rii_no_number s l : map_res py_float (split_ws s) = Ok l -> ~ In s rii_names.
Proof. intros H X. cbn in X. repeat (destruct X as [<-|X]; [discriminate H|]). destruct X. Qed.
Lemma rii_no_table s a : str_table_to_numeric (TStr s) = Ok a -> ~ In s rii_names.
Proof. intros H X. cbn in X. repeat (destruct X as [<-|X]; [discriminate H|]). destruct X. Qed.
Lemma rii_const_read d : writer_set d -> is_const d = true -> process_mat_data DATASET_META_DATA_KEYS (rii_dataset d) = Raise KeyError.
Proof.
  intros H C. destruct H as [r t u s dt Hd|r t u dt Hd|r t u k p y Hy|u t s].
  - exfalso. cbn in Hd. destruct Hd as [<-|[<-|[<-|[<-|[]]]]]; discriminate C.
  - cbn in Hd. destruct Hd as [<-|[<-|[<-|[<-|[]]]]]; reflexivity.
  - exfalso. change (contains_str "constant" ("model " ++ model_name k)%string = true) in C. now rewrite model_constant in C.
  - discriminate C.
Qed.
Lemma rii_const l : Forall writer_set l -> forallb (fun d => negb (is_const d)) l = false ->
  map_res (process_mat_data DATASET_META_DATA_KEYS) (map rii_dataset l) = Raise KeyError.
Proof.
  induction 1 as [|d l Hd Hl IH]; intros C; [discriminate|]. cbn [forallb] in C. cbn [map map_res]. destruct (is_const d) eqn:E.
  - rewrite (rii_const_read d Hd E). reflexivity.
  - destruct (rii_set_read d Hd E) as (f & -> & _). cbn [bind]. rewrite (IH C). reflexivity.
Qed.
