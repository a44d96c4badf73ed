(** C98: tables in double precision *)
From Coq Require Import Reals Lra Lia ZArith.
From Flocq Require Import Core BinarySingleNaN.
From Verif Require Import PyBase PyStr XReal SpectrumModel SpectrumSpec FloatModel FloatSpec FloatTableModel FloatTableSpec FloatProofs FloatConvProofs FloatRangeProofs FloatCheckProofs FloatTableProofs FloatThms.
Open Scope R_scope. Open Scope string_scope. Open Scope list_scope.


Definition safe_units : list (string * string) :=
  [("wavelength", "nm"); ("wavelength", "um"); ("wavelength", "cm"); ("wavelength", "a"); ("energy", "ev")].
Lemma safe_pair : forall t u d K, In (t, u, d, K) safe_decimals -> In (t, u) safe_units.
Proof. intros t u d K H. apply (in_map (fun q => fst (fst q))) in H. exact H. Qed.
Lemma rows_in : forall d K ks (rows : list (float * float)) x,
  Forall2 (fun k row => (0 < k <= K)%Z /\ written (IZR k / 10 ^ d) (fst row)) ks rows -> In x (map fst rows) ->
  exists k, In k ks /\ (0 < k <= K)%Z /\ written (IZR k / 10 ^ d) x.
Proof.
  intros d K ks rows x H I. induction H as [|k r ks rows [A B] H IH]; [destruct I|]. destruct I as [<-|I].
  - exists k. split; [left; reflexivity|auto].
  - destruct (IH I) as (k' & P & Q). exists k'. split; [right; exact P|exact Q].
Qed.
Lemma ks_in : forall d K ks (rows : list (float * float)) k,
  Forall2 (fun k row => (0 < k <= K)%Z /\ written (IZR k / 10 ^ d) (fst row)) ks rows -> In k ks ->
  exists x, In x (map fst rows) /\ (0 < k <= K)%Z /\ written (IZR k / 10 ^ d) x.
Proof.
  intros d K ks rows x H I. induction H as [|k r ks rows [A B] H IH]; [destruct I|]. destruct I as [<-|I].
  - exists (fst r). split; [left; reflexivity|auto].
  - destruct (IH I) as (k' & P & Q). exists k'. split; [right; exact P|exact Q].
Qed.
Lemma rows_fin : forall d K ks (rows : list (float * float)),
  Forall2 (fun k row => (0 < k <= K)%Z /\ written (IZR k / 10 ^ d) (fst row)) ks rows -> Forall fin (map fst rows).
Proof. intros d K ks rows H. apply Forall_forall. intros x I. destruct (rows_in _ _ _ _ _ H I) as (k & _ & _ & W & _). exact W. Qed.
Lemma same_order : forall t u d K k k' f g, In (t, u, d, K) safe_decimals -> (0 < k <= K)%Z -> (0 < k' <= K)%Z ->
  written (IZR k / 10 ^ d) f -> written (IZR k' / 10 ^ d) g -> (B2R f <= B2R g <-> (k <= k')%Z).
Proof.
  intros t u d K k k' f g S A B W W'. destruct (safe_bounds _ _ _ _ S) as [KB DB]. rewrite pow_Z in W, W'.
  apply (written_order (Z.of_nat d)); auto; lia.
Qed.
Lemma rows_distinct : forall t u d K ks (rows : list (float * float)), In (t, u, d, K) safe_decimals ->
  Forall2 (fun k row => (0 < k <= K)%Z /\ written (IZR k / 10 ^ d) (fst row)) ks rows -> NoDup ks -> NoDup (map (fun r => B2R (fst r)) rows).
Proof.
  intros t u d K ks rows S H. induction H as [|k r ks rows [A B] H IH]; intros N; cbn [map]; [constructor|]. inversion N; subst.
  constructor; [|auto]. intros I. apply in_map_iff in I. destruct I as (r' & E & I).
  destruct (rows_in d K ks rows (fst r') H (in_map fst _ _ I)) as (k' & I' & A' & B').
  assert (k' = k) as ->; [|contradiction].
  pose proof (same_order _ _ _ _ _ _ _ _ S A A' B B') as P. pose proof (same_order _ _ _ _ _ _ _ _ S A' A B' B) as Q.
  rewrite E in P, Q. destruct P as [P _]. destruct Q as [Q _]. specialize (P (Rle_refl _)). specialize (Q (Rle_refl _)). lia.
Qed.
Lemma range_spectrum : forall t u d K, In (t, u, d, K) safe_decimals -> forall mn mx,
  exists s, f_spectrum (FA [mn; mx]) t u = Ok s /\ fp_type s = t /\ fp_unit s = u /\ fp_values s = FA [mn; mx].
Proof.
  intros t u d K H mn mx. apply safe_pair in H. cbn [In safe_units] in H.
  destruct H as [Q|[Q|[Q|[Q|[Q|[]]]]]]; inversion Q; subst; eexists; (split; [reflexivity|]); repeat split.
Qed.
Lemma rows_some : forall (rows : list (float * float)) n, (2 <= n)%nat -> length rows = n -> rows <> [].
Proof. intros [|r rows] n H E; [cbn in E; lia|discriminate]. Qed.
Lemma forall2_length : forall A B (P : A -> B -> Prop) l m, Forall2 P l m -> length l = length m.
Proof. intros A B P l m H. induction H; cbn; congruence. Qed.
(** a decimal table is accepted *)
Lemma decimal_table_ok : forall t u d K ks rows, In (t, u, d, K) safe_decimals -> decimal_table d K ks rows ->
  exists r mn mx, f_table rows t u = Ok (FTable t u r rows) /\ fp_type r = t /\ fp_unit r = u /\ fp_values r = FA [mn; mx] /\
    fin mn /\ fin mx /\ (forall f, in_hull [mn; mx] f <-> in_hull (map fst rows) f).
Proof.
  intros t u d K ks rows S (H & N & L). apply table_ok.
  - eapply Nat.le_trans; [exact L|]. apply Nat.eq_le_incl. exact (forall2_length _ _ _ _ _ H).
  - eapply rows_fin; exact H.
  - eapply rows_distinct; eassumption.
  - eapply range_spectrum; exact S.
Qed.
Lemma one_table : forall rows t u d e, f_table rows t u = Ok d -> f_table rows t u = Ok e -> d = e.
Proof. intros. congruence. Qed.
Lemma refusal : forall t u d K, In (t, u, d, K) safe_decimals ->
  (do_ display_string u; Raise ValueError : res fvals) = Raise (if String.eqb u "cm" then KeyError else ValueError).
Proof.
  intros t u d K H. assert (In u ["nm"; "um"; "cm"; "a"; "ev"]) as I.
  { apply (in_map (fun q => snd (fst (fst q)))) in H. exact H. }
  cbn [In] in I. destruct I as [<-|[<-|[<-|[<-|[<-|[]]]]]]; reflexivity.
Qed.
(** any request written in the unit of the table *)
Lemma decimal_request : forall lib t u d K ks rows k f data, In (t, u, d, K) safe_decimals -> decimal_table d K ks rows ->
  f_table rows t u = Ok data -> (0 < k <= K)%Z -> written (IZR k / 10 ^ d) f ->
  exists s, f_spectrum (FS f) t u = Ok s /\
   (in_hull (map fst rows) f -> f_evaluate lib data s = Ok (FS (lib rows f))) /\
   (~ in_hull (map fst rows) f -> f_evaluate lib data s = (do_ display_string u; Raise ValueError)).
Proof.
  intros lib t u d K ks rows k f data S D E Hk W.
  destruct (decimal_table_ok t u d K ks rows S D) as (r & mn & mx & E' & T & U & V & Fm & Fx & H).
  assert (data = FTable t u r rows) as -> by congruence.
  destruct (C74_round_trip_l t u d K k f S Hk W) as (s & E1 & E2). exists s. split; [exact E1|].
  destruct D as (D1 & D2 & D3). rewrite <- U. apply (eval_scalar lib rows t (fp_unit r) r mn mx s f); rewrite ?T, ?U; auto.
  - eapply rows_some; [exact D3|]. symmetry. eapply forall2_length; exact D1.
  - eapply rows_fin; exact D1.
  - apply W.
Qed.

Lemma C98_own_points_l : forall lib type unit decimals K ks (rows : list (float * float)),
  In (type, unit, decimals, K) safe_decimals -> decimal_table decimals K ks rows -> exact_at_rows lib rows ->
  exists table, f_table rows type unit = Ok table /\
    forall x y, In (x, y) rows -> exists s, f_spectrum (FS x) type unit = Ok s /\ f_evaluate lib table s = Ok (FS y).
Proof.
  intros lib t u d K ks rows S D X. destruct (decimal_table_ok t u d K ks rows S D) as (r & mn & mx & E & _). eexists. split; [exact E|].
  intros x y I. pose proof (in_map fst _ _ I) as I'. cbn [fst] in I'. destruct (rows_in _ _ _ _ _ (proj1 D) I') as (k & _ & Hk & W).
  destruct (decimal_request lib t u d K ks rows k x _ S D E Hk W) as (s & E1 & E2 & _). exists s. split; [exact E1|].
  rewrite E2 by (apply own_in_hull; exact I'). now rewrite (X _ _ I).
Qed.

Lemma C98_between_l : forall lib type unit decimals K ks rows table k f,
  In (type, unit, decimals, K) safe_decimals -> decimal_table decimals K ks rows -> f_table rows type unit = Ok table ->
  (0 < k <= K)%Z -> written (IZR k / 10 ^ decimals) f ->
  exists s, f_spectrum (FS f) type unit = Ok s /\
   ((exists a, In a ks /\ (a <= k)%Z) /\ (exists b, In b ks /\ (k <= b)%Z) -> f_evaluate lib table s = Ok (FS (lib rows f))) /\
   (~ ((exists a, In a ks /\ (a <= k)%Z) /\ (exists b, In b ks /\ (k <= b)%Z)) ->
      f_evaluate lib table s = Raise (if String.eqb unit "cm" then KeyError else ValueError)).
Proof.
  intros lib t u d K ks rows data k f S D E Hk W.
  destruct (decimal_request lib t u d K ks rows k f data S D E Hk W) as (s & E1 & E2 & E3). exists s. split; [exact E1|].
  assert (in_hull (map fst rows) f <-> ((exists a, In a ks /\ (a <= k)%Z) /\ (exists b, In b ks /\ (k <= b)%Z))) as Q.
  { unfold in_hull. destruct D as (D & _). split; intros [(a & A1 & A2) (b & B1 & B2)].
    - destruct (rows_in _ _ _ _ _ D A1) as (ka & Ia & Ha & Wa). destruct (rows_in _ _ _ _ _ D B1) as (kb & Ib & Hb & Wb). split.
      + exists ka. split; [exact Ia|]. apply (same_order t u d K ka k a f S Ha Hk Wa W). exact A2.
      + exists kb. split; [exact Ib|]. apply (same_order t u d K k kb f b S Hk Hb W Wb). exact B2.
    - destruct (ks_in _ _ _ _ _ D A1) as (fa & Ia & Ha & Wa). destruct (ks_in _ _ _ _ _ D B1) as (fb & Ib & Hb & Wb). split.
      + exists fa. split; [exact Ia|]. apply (same_order t u d K a k fa f S Ha Hk Wa W). exact A2.
      + exists fb. split; [exact Ib|]. apply (same_order t u d K k b f fb S Hk Hb W Wb). exact B2. }
  rewrite <- Q. split; [exact E2|]. intros O. rewrite (E3 O). exact (refusal t u d K S).
Qed.

Lemma chosen_decimals : forall d K ks (rows chosen : list (float * float)), 
  Forall2 (fun k row => (0 < k <= K)%Z /\ written (IZR k / 10 ^ d) (fst row)) ks rows -> incl chosen rows ->
  exists ks', Forall2 (fun k f => (0 < k <= K)%Z /\ written (IZR k / 10 ^ d) f) ks' (map fst chosen).
Proof.
  intros d K ks rows chosen D. induction chosen as [|c chosen IH]; intros I; [exists []; constructor|].
  destruct (IH (fun x Hx => I x (or_intror Hx))) as (ks' & P).
  destruct (rows_in _ _ _ _ _ D (in_map fst _ _ (I c (or_introl eq_refl)))) as (k & _ & Hk & W). exists (k :: ks'). constructor; auto.
Qed.
Lemma map_own : forall lib (rows chosen : list (float * float)), exact_at_rows lib rows -> incl chosen rows ->
  map (lib rows) (map fst chosen) = map snd chosen.
Proof.
  intros lib rows chosen X. induction chosen as [|[x y] chosen IH]; intros I; [reflexivity|]. cbn [map fst snd].
  rewrite (X x y (I _ (or_introl eq_refl))), IH; [reflexivity|]. intros z Hz. apply I. right; exact Hz.
Qed.
Lemma incl_fst : forall (rows chosen : list (float * float)), incl chosen rows -> incl (map fst chosen) (map fst rows).
Proof. intros rows chosen I x Hx. apply in_map_iff in Hx. destruct Hx as (r & <- & Hr). apply in_map. auto. Qed.

Lemma C98_arrays_l : forall lib unit decimals K ks (rows : list (float * float)) table,
  In ("wavelength", unit, decimals, K) safe_decimals -> decimal_table decimals K ks rows -> exact_at_rows lib rows ->
  f_table rows "wavelength" unit = Ok table ->
  forall chosen : list (float * float), chosen <> [] -> incl chosen rows ->
    exists s, f_spectrum (FA (map fst chosen)) "wavelength" unit = Ok s /\ f_evaluate lib table s = Ok (FA (map snd chosen)).
Proof.
  intros lib u d K ks rows data S D X E chosen Nc I.
  destruct (decimal_table_ok "wavelength" u d K ks rows S D) as (r & mn & mx & E' & T & U & V & Fm & Fx & H).
  assert (data = FTable "wavelength" u r rows) as -> by congruence.
  destruct (chosen_decimals _ _ _ _ _ (proj1 D) I) as (ks' & D').
  destruct (C74_array_l u d K ks' _ S D') as (s & E1 & E2). exists s. split; [exact E1|].
  destruct D as (D1 & D2 & D3). pose proof (rows_fin _ _ _ _ D1) as F.
  rewrite <- (map_own lib rows chosen X I). apply (eval_array lib rows "wavelength" u r mn mx s (map fst chosen)); rewrite ?T, ?U; auto.
  - eapply rows_some; [exact D3|]. symmetry. eapply forall2_length; exact D1.
  - apply Forall_forall. intros x Hx. rewrite Forall_forall in F. apply F. exact (incl_fst _ _ I x Hx).
  - destruct chosen; [congruence|discriminate].
  - intros x Hx. apply own_in_hull. exact (incl_fst _ _ I x Hx).
Qed.

Lemma C98_metres_l : forall lib (rows : list (float * float)),
  (2 <= length rows)%nat -> (forall x y, In (x, y) rows -> is_finite x = true) -> NoDup (map (fun r => B2R (fst r)) rows) -> exact_at_rows lib rows ->
  exists table, f_table rows "wavelength" "m" = Ok table /\
    (forall x y, In (x, y) rows -> exists s, f_spectrum (FS x) "wavelength" "m" = Ok s /\ f_evaluate lib table s = Ok (FS y)) /\
    (forall chosen : list (float * float), chosen <> [] -> incl chosen rows ->
       exists s, f_spectrum (FA (map fst chosen)) "wavelength" "m" = Ok s /\ f_evaluate lib table s = Ok (FA (map snd chosen))).
Proof.
  intros lib rows L Fi N X.
  assert (Forall fin (map fst rows)) as F by (apply Forall_forall; intros x I; apply in_map_iff in I; destruct I as ([x' y] & <- & I); exact (Fi _ _ I)).
  assert (rows <> []) as Nr by (eapply rows_some; [exact L|reflexivity]).
  destruct (table_ok rows "wavelength" "m" "m" "wavelength" L F N) as (r & mn & mx & E & T & U & V & Fm & Fx & H).
  { intros mn mx. eexists. split; [reflexivity|]. repeat split. }
  eexists. split; [exact E|]. split.
  - intros x y I. pose proof (in_map fst _ _ I) as I'. cbn [fst] in I'. destruct (C74_metres_l (FS x)) as (s & E1 & E2). exists s. split; [exact E1|].
    destruct (eval_scalar lib rows "wavelength" "m" r mn mx s x Nr F V Fm Fx H) as [P _]; rewrite ?T, ?U; auto; [exact (Fi _ _ I)|].
    rewrite P by (apply own_in_hull; exact I'). now rewrite (X _ _ I).
  - intros chosen Nc I. destruct (C74_metres_l (FA (map fst chosen))) as (s & E1 & E2). exists s. split; [exact E1|].
    rewrite <- (map_own lib rows chosen X I). apply (eval_array lib rows "wavelength" "m" r mn mx s (map fst chosen)); rewrite ?T, ?U; auto.
    + apply Forall_forall. intros x Hx. rewrite Forall_forall in F. apply F. exact (incl_fst _ _ I x Hx).
    + destruct chosen; [congruence|discriminate].
    + intros x Hx. apply own_in_hull. exact (incl_fst _ _ I x Hx).
Qed.

Lemma get_scalar : forall lib real imag x t u s n k, f_spectrum (FS x) t u = Ok s -> f_evaluate lib real s = Ok (FS n) -> f_evaluate lib imag s = Ok (FS k) ->
  is_finite n = true -> is_finite k = true ->
  exists z, f_get_nk lib real imag (FS x) t u = Ok (FCS z) /\ exactly (B2R n) (fst z) /\ exactly (B2R k) (snd z).
Proof.
  intros lib real imag x t u s n k E E1 E2 F1 F2. exists (f_complex n k). unfold f_get_nk. rewrite E. cbn [bind]. rewrite E1. cbn [bind]. rewrite E2. cbn [bind f_combine].
  split; [reflexivity|]. destruct (complex_ok n k F1 F2) as (A & B & C & D). split; split; assumption.
Qed.
Lemma get_array : forall lib real imag xs t u s ns ks, f_spectrum (FA xs) t u = Ok s -> f_evaluate lib real s = Ok (FA ns) -> f_evaluate lib imag s = Ok (FA ks) ->
  length ns = length ks -> Forall fin ns -> Forall fin ks ->
  exists zs, f_get_nk lib real imag (FA xs) t u = Ok (FCA zs) /\ Forall2 (fun p z => exactly (B2R (fst p)) (fst z) /\ exactly (B2R (snd p)) (snd z)) (combine ns ks) zs.
Proof.
  intros lib real imag xs t u s ns ks E E1 E2 L F1 F2. eexists. unfold f_get_nk. rewrite E. cbn [bind]. rewrite E1. cbn [bind]. rewrite E2. cbn [bind f_combine felems].
  split; [reflexivity|]. clear -F1 F2. revert ks F2. induction F1 as [|n ns Fn F1 IH]; intros ks F2; cbn [combine map]; [constructor|].
  destruct F2 as [|k ks Fk F2]; cbn [map]; [constructor|]. constructor; [|apply IH; exact F2]. cbn [fst snd].
  destruct (complex_ok n k Fn Fk) as (A & B & C & D). split; split; assumption.
Qed.
(** the default range of a constant accepts every positive wavelength *)
Lemma constant_ok : forall c, exists r, f_constant c = Ok (FConst "wavelength" "m" r c) /\ 
  forall s l, felems (fp_std s) = l -> l <> [] -> Forall (fun x => fin x /\ 0 <= B2R x) l -> f_contains r s = Ok true.
Proof.
  intros c. eexists. split; [reflexivity|]. intros s l El Nl P. unfold f_contains.
  cbn [fp_type fp_unit fp_values felems]. replace (f_convert_to s (lower "wavelength") "m") with (Ok (fp_std s)) by reflexivity. cbn [bind]. rewrite El.
  assert (Forall fin l) as F by (eapply Forall_impl; [|exact P]; intros a Ha; apply Ha).
  destruct (reduce_min l Nl F) as (mn & -> & Fm & Im & _). destruct (reduce_max l Nl F) as (mx & -> & Fx & Ix & _). cbn [bind].
  destruct (of_Z_ok 0) as [Z1 Z2]; [vm_compute; congruence|].
  replace (f_reduce f_min2 [of_Z 0; finf]) with (Ok (of_Z 0) : res float) by (vm_compute; reflexivity).
  replace (f_reduce f_max2 [of_Z 0; finf]) with (Ok finf : res float) by (vm_compute; reflexivity). cbn [bind].
  rewrite flt_ok by assumption. rewrite Rlt_bool_false by (rewrite Z1; rewrite Forall_forall in P; apply P; exact Im).
  replace (flt finf mx) with false; [reflexivity|]. unfold fin in Fx. destruct mx; try discriminate Fx; reflexivity.
Qed.
Lemma unit_value : forall t u d K x, In (t, u, d, K) safe_decimals -> exists w, wavelength_m t u x w.
Proof.
  intros t u d K x H. apply safe_pair in H. cbn [In safe_units] in H.
  destruct H as [Q|[Q|[Q|[Q|[Q|[]]]]]]; inversion Q; subst; eexists; constructor.
Qed.
Lemma written_bounds : forall t u d K k f, In (t, u, d, K) safe_decimals -> (0 < k <= K)%Z -> written (IZR k / 10 ^ d) f -> / 10 ^ 40 <= B2R f <= 10 ^ 40.
Proof.
  intros t u d K k f S Hk W. destruct (safe_bounds _ _ _ _ S) as [KB DB]. rewrite pow_Z in W.
  assert (B53 : (9 * 10 ^ 14 <= 2 ^ 53)%Z) by (vm_compute; congruence).
  pose proof (decimal_bounds k (Z.of_nat d) ltac:(lia) ltac:(lia)) as B.
  assert (near 1 (IZR k / IZR (10 ^ Z.of_nat d)) f) as N.
  { apply near_written; [|exact W]. apply Rle_trans with (bpow radix2 (-1000)); [apply bpow_le; lia|]. apply low_ok. 
    eapply Rle_trans; [|apply B]. apply Rinv_le; [apply IZR_lt; reflexivity|]. apply IZR_le. vm_compute. congruence. }
  pose proof (near_hull 1 _ _ ltac:(lia) N) as Q.
  assert (/ IZR (10 ^ 15) <= IZR k / IZR (10 ^ Z.of_nat d) <= IZR (2 ^ 53)) as R by (destruct B; split; assumption).
  clear -Q R. assert (IZR (2 ^ 53) <= 10 ^ 39) by (rewrite pow_IZR; apply IZR_le; vm_compute; congruence).
  assert (/ IZR (10 ^ 15) = / 10 ^ 15) as E by (now rewrite pow_IZR). rewrite E in R. clear E. cbn [pow] in *. lra.
Qed.
Lemma std_scalar : forall t u d K k f s, In (t, u, d, K) safe_decimals -> (0 < k <= K)%Z -> written (IZR k / 10 ^ d) f -> f_spectrum (FS f) t u = Ok s ->
  fp_values s = FS f /\ exists g, fp_std s = FS g /\ fin g /\ 0 < B2R g.
Proof.
  intros t u d K k f s S Hk W E. destruct (unit_value t u d K (B2R f) S) as (w & Hw).
  rewrite (f_spectrum_scalar t u _ _ f Hw) in E. inversion E; subst. split; [reflexivity|]. eexists. split; [reflexivity|].
  destruct (acc_from t u f w Hw (proj1 W) (written_bounds _ _ _ _ _ _ S Hk W)) as [N _]. split; [apply N|eapply near_pos; exact N].
Qed.
Lemma std_array : forall u d K ks fs s, In ("wavelength", u, d, K) safe_decimals ->
  Forall2 (fun k f => (0 < k <= K)%Z /\ written (IZR k / 10 ^ d) f) ks fs -> f_spectrum (FA fs) "wavelength" u = Ok s ->
  fp_values s = FA fs /\ exists gs, fp_std s = FA gs /\ length gs = length fs /\ Forall (fun x => fin x /\ 0 <= B2R x) gs.
Proof.
  intros u d K ks fs s S H E.
  assert (s = mkFsp "wavelength" u (FA fs) (FA (map (from_u u) fs))) as ->.
  { clear H. apply safe_pair in S. cbn [In safe_units] in S. destruct S as [Q|[Q|[Q|[Q|[Q|[]]]]]]; inversion Q; subst; inversion E; reflexivity. }
  split; [reflexivity|]. eexists. split; [reflexivity|]. split; [apply map_length|].
  clear E. induction H as [|k f ks fs [Hk W] H IH]; cbn [map]; constructor; [|exact IH].
  destruct (unit_value "wavelength" u d K (B2R f) S) as (w & Hw).
  destruct (acc_from "wavelength" u f w Hw (proj1 W) (written_bounds _ _ _ _ _ _ S Hk W)) as [N _]. split; [apply N|]. apply Rlt_le. eapply near_pos; exact N.
Qed.
Lemma fst_in : forall (rows : list (float * float)) x n, In (x, n) rows -> In x (map fst rows).
Proof. intros rows x n H. exact (in_map fst _ _ H). Qed.

Lemma C98_nk_l : forall lib type unit decimals K ks js n_rows k_rows,
  In (type, unit, decimals, K) safe_decimals -> decimal_table decimals K ks n_rows -> decimal_table decimals K js k_rows ->
  exact_at_rows lib n_rows -> exact_at_rows lib k_rows ->
  exists real imag, f_table n_rows type unit = Ok real /\ f_table k_rows type unit = Ok imag /\
    forall x n k, In (x, n) n_rows -> In (x, k) k_rows -> is_finite n = true -> is_finite k = true ->
      exists z, f_get_nk lib real imag (FS x) type unit = Ok (FCS z) /\ exactly (B2R n) (fst z) /\ exactly (B2R k) (snd z).
Proof.
  intros lib t u d K ks js nr kr S D1 D2 X1 X2.
  destruct (C98_own_points_l lib t u d K ks nr S D1 X1) as (real & E1 & P1). destruct (C98_own_points_l lib t u d K js kr S D2 X2) as (imag & E2 & P2).
  exists real, imag. split; [exact E1|]. split; [exact E2|]. intros x n k I1 I2 F1 F2.
  destruct (P1 _ _ I1) as (s & Q1 & Q2). destruct (P2 _ _ I2) as (s' & Q1' & Q2'). assert (s' = s) as -> by congruence.
  eapply get_scalar; eassumption.
Qed.

Lemma C98_nk_arrays_l : forall lib unit decimals K ks (rows : list (float * float * float)),
  In ("wavelength", unit, decimals, K) safe_decimals ->
  decimal_table decimals K ks (map (fun r => (fst (fst r), snd (fst r))) rows) ->
  exact_at_rows lib (map (fun r => (fst (fst r), snd (fst r))) rows) -> exact_at_rows lib (map (fun r => (fst (fst r), snd r)) rows) ->
  exists real imag, f_table (map (fun r => (fst (fst r), snd (fst r))) rows) "wavelength" unit = Ok real /\
    f_table (map (fun r => (fst (fst r), snd r)) rows) "wavelength" unit = Ok imag /\
    forall chosen : list (float * float * float), chosen <> [] -> incl chosen rows -> (forall x n k, In (x, n, k) chosen -> is_finite n = true /\ is_finite k = true) ->
      exists zs, f_get_nk lib real imag (FA (map (fun r => fst (fst r)) chosen)) "wavelength" unit = Ok (FCA zs) /\
        Forall2 (fun r z => exactly (B2R (snd (fst r))) (fst z) /\ exactly (B2R (snd r)) (snd z)) chosen zs.
Proof.
  intros lib u d K ks rows S D X1 X2.
  assert (decimal_table d K ks (map (fun r => (fst (fst r), snd r)) rows)) as D2.
  { destruct D as (D & N & L). split; [|split; [exact N|exact L]]. clear -D. revert ks D. induction rows as [|r rows IH]; intros ks D; inversion D; subst; cbn [map]; constructor; auto. }
  destruct (decimal_table_ok _ _ _ _ _ _ S D) as (r1 & mn1 & mx1 & E1 & _). destruct (decimal_table_ok _ _ _ _ _ _ S D2) as (r2 & mn2 & mx2 & E2 & _).
  eexists. eexists. split; [exact E1|]. split; [exact E2|]. intros chosen Nc I F.
  set (cn := map (fun r : float * float * float => (fst (fst r), snd (fst r))) chosen). set (ck := map (fun r : float * float * float => (fst (fst r), snd r)) chosen).
  assert (map fst cn = map (fun r => fst (fst r)) chosen) as M1 by (unfold cn; rewrite map_map; reflexivity).
  assert (map fst ck = map (fun r => fst (fst r)) chosen) as M2 by (unfold ck; rewrite map_map; reflexivity).
  destruct (C98_arrays_l lib u d K ks _ _ S D X1 E1 cn) as (s & P1 & P2); [unfold cn; destruct chosen; [congruence|discriminate]|unfold cn; intros a Ha; apply in_map_iff in Ha; destruct Ha as (b & <- & Hb); exact (in_map (fun r : float * float * float => (fst (fst r), snd (fst r))) _ _ (I b Hb))|].
  destruct (C98_arrays_l lib u d K ks _ _ S D2 X2 E2 ck) as (s' & Q1 & Q2); [unfold ck; destruct chosen; [congruence|discriminate]|unfold ck; intros a Ha; apply in_map_iff in Ha; destruct Ha as (b & <- & Hb); exact (in_map (fun r : float * float * float => (fst (fst r), snd r)) _ _ (I b Hb))|].
  rewrite M1 in P1. rewrite M2 in Q1. assert (s' = s) as -> by congruence.
  destruct (get_array lib _ _ _ _ _ _ _ _ P1 P2 Q2) as (zs & E & G).
  - unfold cn, ck. now rewrite !map_length.
  - unfold cn. rewrite map_map. apply Forall_forall. intros a Ha. apply in_map_iff in Ha. destruct Ha as ([[x n] k] & <- & Hb). exact (proj1 (F _ _ _ Hb)).
  - unfold ck. rewrite map_map. apply Forall_forall. intros a Ha. apply in_map_iff in Ha. destruct Ha as ([[x n] k] & <- & Hb). exact (proj2 (F _ _ _ Hb)).
  - exists zs. split; [exact E|]. unfold cn, ck in G. rewrite !map_map in G. cbn [fst snd] in G. clear -G. revert zs G.
    induction chosen as [|c chosen IH]; intros zs G; cbn [map combine] in G; inversion G; subst; constructor; auto.
Qed.

Lemma C98_n_only_l : forall lib type unit decimals K ks (rows : list (float * float)) c,
  In (type, unit, decimals, K) safe_decimals -> decimal_table decimals K ks rows -> exact_at_rows lib rows -> is_finite c = true ->
  exists real imag, f_table rows type unit = Ok real /\ f_constant c = Ok imag /\
    (forall x n, In (x, n) rows -> is_finite n = true ->
      exists z, f_get_nk lib real imag (FS x) type unit = Ok (FCS z) /\ exactly (B2R n) (fst z) /\ exactly (B2R c) (snd z)) /\
    (forall chosen : list (float * float), type = "wavelength" -> chosen <> [] -> incl chosen rows -> (forall x n, In (x, n) chosen -> is_finite n = true) ->
      exists zs, f_get_nk lib real imag (FA (map fst chosen)) type unit = Ok (FCA zs) /\
        Forall2 (fun r z => exactly (B2R (snd r)) (fst z) /\ exactly (B2R c) (snd z)) chosen zs).
Proof.
  intros lib t u d K ks rows c S D X Fc. destruct (C98_own_points_l lib t u d K ks rows S D X) as (real & E1 & P1).
  destruct (constant_ok c) as (r & E2 & P2). exists real, (FConst "wavelength" "m" r c). split; [exact E1|]. split; [exact E2|]. split.
  - intros x n I F. destruct (P1 _ _ I) as (s & Q1 & Q2). destruct (rows_in _ _ _ _ _ (proj1 D) (fst_in _ _ _ I)) as (k & _ & Hk & W).
    destruct (std_scalar _ _ _ _ _ _ _ S Hk W Q1) as (V & g & G & Fg & Pg).
    apply (get_scalar lib real (FConst "wavelength" "m" r c) x t u s n c Q1 Q2); [|exact F|exact Fc].
    cbn [f_evaluate]. rewrite (P2 s [g]); [cbn [bind]; rewrite V; reflexivity|rewrite G; reflexivity|discriminate|].
    constructor; [split; [exact Fg|lra]|constructor].
  - intros chosen -> Nc I F. destruct (C98_arrays_l lib u d K ks rows real S D X E1 chosen Nc I) as (s & Q1 & Q2).
    destruct (chosen_decimals _ _ _ _ _ (proj1 D) I) as (ks' & D'). destruct (std_array _ _ _ _ _ _ S D' Q1) as (V & gs & G & L & P).
    destruct (get_array lib real (FConst "wavelength" "m" r c) (map fst chosen) "wavelength" u s (map snd chosen) (map (fun _ => fmul c (of_Z 1)) (map fst chosen)) Q1 Q2) as (zs & E & Z).
    + cbn [f_evaluate]. rewrite (P2 s gs); [cbn [bind]; rewrite V; reflexivity|rewrite G; reflexivity| |exact P].
      intros ->. rewrite map_length in L. destruct chosen; [congruence|discriminate L].
    + now rewrite !map_length.
    + apply Forall_forall. intros a Ha. apply in_map_iff in Ha. destruct Ha as ([x n] & <- & Hb). exact (F _ _ Hb).
    + apply Forall_forall. intros a Ha. apply in_map_iff in Ha. destruct Ha as (x & <- & _). apply mul_one. exact Fc.
    + exists zs. split; [exact E|]. rewrite map_map in Z. clear -Z Fc. revert zs Z. induction chosen as [|h chosen IH]; intros zs Z; cbn [map combine] in Z; inversion Z; subst; constructor; auto.
      cbn [fst snd] in H1. destruct H1 as [A B]. split; [exact A|]. destruct (mul_one c Fc) as [M _]. destruct B as [B1 B2]. split; [exact B1|]. etransitivity; [exact B2|exact M].
Qed.

Lemma table_of : forall rows t u mn mx r, f_reduce f_min2 (map fst rows) = Ok mn -> f_reduce f_max2 (map fst rows) = Ok mx ->
  f_spectrum (FA [mn; mx]) t u = Ok r -> f_interp1d_check rows = Ok tt -> f_table rows t u = Ok (FTable t u r rows).
Proof. intros rows t u mn mx r A B C D. unfold f_table. rewrite A. cbn [bind]. rewrite B. cbn [bind]. rewrite C. cbn [bind]. rewrite D. reflexivity. Qed.
Lemma min2_first : forall a b, BinarySingleNaN.is_nan a = false -> BinarySingleNaN.is_nan b = false -> flt b a = false -> f_min2 a b = a.
Proof. intros a b A B C. unfold f_min2. now rewrite A, B, C. Qed.
Lemma max2_second : forall a b, BinarySingleNaN.is_nan a = false -> BinarySingleNaN.is_nan b = false -> flt a b = true -> f_max2 a b = b.
Proof. intros a b A B C. unfold f_max2. now rewrite A, B, C. Qed.
Lemma two_rows : forall (lo hi y1 y2 : float) t u r, BinarySingleNaN.is_nan lo = false -> BinarySingleNaN.is_nan hi = false -> flt hi lo = false -> flt lo hi = true -> feq lo hi = false ->
  f_spectrum (FA [lo; hi]) t u = Ok r -> f_table [(lo, y1); (hi, y2)] t u = Ok (FTable t u r [(lo, y1); (hi, y2)]).
Proof.
  intros lo hi y1 y2 t u r A B C D E S. apply (table_of _ t u lo hi r).
  - cbn [map fst f_reduce fold_left]. now rewrite min2_first.
  - cbn [map fst f_reduce fold_left]. now rewrite max2_second.
  - exact S.
  - unfold f_interp1d_check. cbn [length Nat.ltb Nat.leb map fst f_dup existsb]. now rewrite E.
Qed.
Lemma refused : forall lib t u r rows s, f_contains r s = Raise ValueError -> f_evaluate lib (FTable t u r rows) s = Raise ValueError.
Proof. intros lib t u r rows s H. cbn [f_evaluate]. rewrite H. reflexivity. Qed.

Lemma C98_last_refuted_l : forall lib type unit m n b y1 y2,
  In (type, unit, m, n, b) [("wavelength", "nm", 400, 20493, 10); ("wavelength", "a", 100, 3006, 10); ("frequency", "hz", 10 ^ 12, 27 * 10 ^ 12, 1)]%Z ->
  exists lo hi table s, written (IZR m) lo /\ written (IZR n / IZR b) hi /\
    f_table [(lo, y1); (hi, y2)] type unit = Ok table /\ f_spectrum (FS hi) type unit = Ok s /\ f_evaluate lib table s = Raise ValueError.
Proof.
  intros lib t u m n b y1 y2 H. cbn [In] in H. destruct H as [Q|[Q|[Q|[]]]]; inversion Q; subst; clear Q.
  - exists (of_Z 400), (fdiv (of_Z 20493) (of_Z 10)). do 2 eexists. split; [apply written_integer; vm_compute; intuition congruence|].
    split; [apply written_quotient; vm_compute; intuition congruence|].
    split; [apply two_rows; [vm_compute; reflexivity|vm_compute; reflexivity|vm_compute; reflexivity|vm_compute; reflexivity|vm_compute; reflexivity|reflexivity]|]. split; [reflexivity|]. apply refused. vm_compute. reflexivity.
  - exists (of_Z 100), (fdiv (of_Z 3006) (of_Z 10)). do 2 eexists. split; [apply written_integer; vm_compute; intuition congruence|].
    split; [apply written_quotient; vm_compute; intuition congruence|].
    split; [apply two_rows; [vm_compute; reflexivity|vm_compute; reflexivity|vm_compute; reflexivity|vm_compute; reflexivity|vm_compute; reflexivity|reflexivity]|]. split; [reflexivity|]. apply refused. vm_compute. reflexivity.
  - exists (of_Z (10 ^ 12)), (of_Z (27 * 10 ^ 12)). do 2 eexists. split; [apply written_integer; vm_compute; intuition congruence|].
    split; [|split; [apply two_rows; [vm_compute; reflexivity|vm_compute; reflexivity|vm_compute; reflexivity|vm_compute; reflexivity|vm_compute; reflexivity|reflexivity]|]; split; [reflexivity|]; apply refused; vm_compute; reflexivity].
    match goal with |- written ?x _ => replace x with (IZR (27 * 10 ^ 12)) by (simpl; lra) end. apply written_integer; vm_compute; intuition congruence.
Qed.

Lemma C98_inner_refuted_l : forall lib y1 y2 y3,
  exists lo x hi g table s, written 400 lo /\ written (20493 / 10) x /\ written 3000 hi /\
    f_table [(lo, y1); (x, y2); (hi, y3)] "wavelength" "nm" = Ok table /\ f_spectrum (FS x) "wavelength" "nm" = Ok s /\
    f_evaluate lib table s = Ok (FS (lib [(lo, y1); (x, y2); (hi, y3)] g)) /\ B2R x < B2R g.
Proof.
  intros lib y1 y2 y3. set (x := fdiv (of_Z 20493) (of_Z 10)).
  assert (exists g s, f_spectrum (FS x) "wavelength" "nm" = Ok s /\ f_convert_to s "wavelength" "nm" = Ok (FS g) /\
     flt x g = true /\ is_finite g = true /\ flt g (of_Z 400) = false /\ flt (of_Z 3000) g = false) as (g & s & A & B & C & D & E & E').
  { eexists. eexists. split; [reflexivity|]. split; [reflexivity|]. split; [vm_compute; reflexivity|]. split; [vm_compute; reflexivity|]. split; vm_compute; reflexivity. }
  assert (written (20493 / 10) x) as Wx by (apply (written_quotient 20493 10); vm_compute; intuition congruence).
  assert (f_reduce f_min2 [of_Z 400; x; of_Z 3000] = Ok (of_Z 400)) as Mn.
  { cbn [f_reduce fold_left]. rewrite (min2_first (of_Z 400) x) by (vm_compute; reflexivity). now rewrite min2_first by (vm_compute; reflexivity). }
  assert (f_reduce f_max2 [of_Z 400; x; of_Z 3000] = Ok (of_Z 3000)) as Mx.
  { cbn [f_reduce fold_left]. rewrite (max2_second (of_Z 400) x) by (vm_compute; reflexivity). now rewrite max2_second by (vm_compute; reflexivity). }
  assert (exists r, f_spectrum (FA [of_Z 400; of_Z 3000]) "wavelength" "nm" = Ok r /\ fp_type r = "wavelength" /\ fp_unit r = "nm" /\ fp_values r = FA [of_Z 400; of_Z 3000]) as (r & Er & R1 & R2 & R3)
    by (eexists; split; [reflexivity|]; repeat split).
  exists (of_Z 400), x, (of_Z 3000), g, (FTable "wavelength" "nm" r [(of_Z 400, y1); (x, y2); (of_Z 3000, y3)]), s.
  split; [apply (written_integer 400); vm_compute; intuition congruence|]. split; [exact Wx|].
  split; [apply (written_integer 3000); vm_compute; intuition congruence|].
  split; [apply (table_of _ _ _ (of_Z 400) (of_Z 3000)); [exact Mn|exact Mx|exact Er|]|].
  { unfold f_interp1d_check. cbn [length Nat.ltb Nat.leb map fst]. replace (f_dup [of_Z 400; x; of_Z 3000]) with false by (vm_compute; reflexivity). reflexivity. }
  split; [exact A|]. split.
  - cbn [f_evaluate]. unfold f_contains. rewrite R1, R2, R3, B. cbn [bind felems]. 
    replace (f_reduce f_min2 [of_Z 400; of_Z 3000]) with (Ok (of_Z 400) : res float) by (cbn [f_reduce fold_left]; now rewrite min2_first by (vm_compute; reflexivity)).
    replace (f_reduce f_max2 [of_Z 400; of_Z 3000]) with (Ok (of_Z 3000) : res float) by (cbn [f_reduce fold_left]; now rewrite max2_second by (vm_compute; reflexivity)).
    cbn [f_reduce fold_left bind]. rewrite E, E'. cbn [orb bind]. unfold f_point. cbn [map fst]. rewrite Mn, Mx. cbn [bind]. rewrite E, E'. reflexivity.
  - rewrite flt_ok in C; [|apply Wx|exact D]. destruct (Rlt_bool_spec (B2R x) (B2R g)); [assumption|discriminate C].
Qed.
