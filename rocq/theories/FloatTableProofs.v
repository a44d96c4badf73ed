(** Lemmas about tables in binary64 *)
From Coq Require Import Reals Lra Lia ZArith.
From Flocq Require Import Core BinarySingleNaN.
From Verif Require Import PyBase PyStr XReal SpectrumModel SpectrumSpec FloatModel FloatSpec FloatTableModel FloatProofs FloatConvProofs FloatRangeProofs FloatCheckProofs.
Open Scope R_scope. Open Scope string_scope. Open Scope list_scope.

Lemma feq_ok : forall f g, fin f -> fin g -> feq f g = Req_bool (B2R f) (B2R g).
Proof. intros. unfold feq. apply Beqb_correct; assumption. Qed.

Lemma reduce_min : forall l, l <> [] -> Forall fin l -> exists m, f_reduce f_min2 l = Ok m /\ fin m /\ In m l /\ forall x, In x l -> B2R m <= B2R x.
Proof.
  intros [|a l] N F; [congruence|]. inversion F; subst. destruct (min_ok l a H1 H2) as (A & B & C).
  exists (fold_left f_min2 l a). split; [reflexivity|]. split; [exact A|]. split; [exact B|exact C].
Qed.
Lemma reduce_max : forall l, l <> [] -> Forall fin l -> exists m, f_reduce f_max2 l = Ok m /\ fin m /\ In m l /\ forall x, In x l -> B2R x <= B2R m.
Proof.
  intros [|a l] N F; [congruence|]. inversion F; subst. destruct (max_ok l a H1 H2) as (A & B & C).
  exists (fold_left f_max2 l a). split; [reflexivity|]. split; [exact A|]. split; [exact B|exact C].
Qed.

Lemma no_dup : forall l, Forall fin l -> NoDup (map B2R l) -> f_dup l = false.
Proof.
  induction l as [|x l IH]; intros F N; [reflexivity|]. inversion F; subst. inversion N; subst. cbn [f_dup].
  rewrite IH by assumption. rewrite Bool.orb_false_r. destruct (existsb (feq x) l) eqn:E; [|reflexivity].
  exfalso. apply existsb_exists in E. destruct E as (y & Hy & Q). rewrite feq_ok in Q; [|assumption|rewrite Forall_forall in H2; auto].
  apply H3. apply in_map_iff. exists y. split; [|exact Hy]. symmetry.
  destruct (Req_bool_spec (B2R x) (B2R y)); [auto|discriminate].
Qed.

Section Lib.
Variable lib : list (float * float) -> float -> float.

Lemma point_in : forall rows x, rows <> [] -> Forall fin (map fst rows) -> fin x -> in_hull (map fst rows) x ->
  f_point lib rows x = Ok (lib rows x).
Proof.
  intros rows x N F Fx [(a & A1 & A2) (b & B1 & B2)]. unfold f_point.
  assert (map fst rows <> []) as N' by (destruct rows; [congruence|discriminate]).
  destruct (reduce_min _ N' F) as (mn & -> & Fm & _ & Lm). destruct (reduce_max _ N' F) as (mx & -> & Fx' & _ & Lx).
  cbn [bind]. rewrite !flt_ok by assumption. rewrite !Rlt_bool_false; [reflexivity| |].
  - specialize (Lx _ B1). lra.
  - specialize (Lm _ A1). lra.
Qed.
Lemma points_in : forall rows l, rows <> [] -> Forall fin (map fst rows) -> Forall fin l -> (forall x, In x l -> in_hull (map fst rows) x) ->
  f_points lib rows l = Ok (map (lib rows) l).
Proof.
  intros rows l N F. induction l as [|x l IH]; intros Fl H; [reflexivity|]. inversion Fl; subst. cbn [f_points map].
  rewrite point_in by (auto; apply H; left; reflexivity). cbn [bind]. rewrite IH; [reflexivity|assumption|]. intros y Hy. apply H. right; exact Hy.
Qed.

(** a table of finite distinct abscissae is accepted; its range holds exactly the hull of the abscissae *)
Lemma table_ok : forall rows type unit canon std, (2 <= length rows)%nat -> Forall fin (map fst rows) -> NoDup (map (fun r => B2R (fst r)) rows) ->
  (forall mn mx, exists s, f_spectrum (FA [mn; mx]) type unit = Ok s /\ fp_type s = std /\ fp_unit s = canon /\ fp_values s = FA [mn; mx]) ->
  exists r mn mx, f_table rows type unit = Ok (FTable type unit r rows) /\ fp_type r = std /\ fp_unit r = canon /\ fp_values r = FA [mn; mx] /\
    fin mn /\ fin mx /\ (forall f, in_hull [mn; mx] f <-> in_hull (map fst rows) f).
Proof.
  intros rows type unit canon std L F N S.
  assert (map fst rows <> []) as N' by (destruct rows; [cbn in L; lia|discriminate]).
  destruct (reduce_min _ N' F) as (mn & E1 & Fm & Im & Lm). destruct (reduce_max _ N' F) as (mx & E2 & Fx & Ix & Lx).
  destruct (S mn mx) as (s & E3 & T & U & V). exists s, mn, mx. unfold f_table. rewrite E1. cbn [bind]. rewrite E2. cbn [bind]. rewrite E3. cbn [bind].
  unfold f_interp1d_check. replace (length rows <? 2)%nat with false by (symmetry; apply Nat.ltb_ge; exact L).
  rewrite no_dup; [|exact F|rewrite map_map; exact N]. cbn [bind].
  split; [reflexivity|]. split; [exact T|]. split; [exact U|]. split; [exact V|]. split; [exact Fm|]. split; [exact Fx|].
  intros f. unfold in_hull. split.
  - intros [(a & A1 & A2) (b & B1 & B2)]. split.
    + exists mn. split; [exact Im|]. destruct A1 as [<-|[<-|[]]]; [exact A2|]. specialize (Lm _ Ix). lra.
    + exists mx. split; [exact Ix|]. destruct B1 as [<-|[<-|[]]]; [|exact B2]. specialize (Lx _ Im). lra.
  - intros [(a & A1 & A2) (b & B1 & B2)]. split.
    + exists mn. split; [left; reflexivity|]. specialize (Lm _ A1). lra.
    + exists mx. split; [right; left; reflexivity|]. specialize (Lx _ B1). lra.
Qed.

(** evaluation of a request that converts back to the numbers asked for *)
Lemma eval_scalar : forall rows type unit r mn mx s x, rows <> [] -> Forall fin (map fst rows) ->
  fp_values r = FA [mn; mx] -> fin mn -> fin mx -> (forall f, in_hull [mn; mx] f <-> in_hull (map fst rows) f) ->
  f_convert_to s (fp_type r) (fp_unit r) = Ok (FS x) -> f_convert_to s type unit = Ok (FS x) -> fin x ->
  (in_hull (map fst rows) x -> f_evaluate lib (FTable type unit r rows) s = Ok (FS (lib rows x))) /\
  (~ in_hull (map fst rows) x -> f_evaluate lib (FTable type unit r rows) s = (do_ display_string (fp_unit r); Raise ValueError)).
Proof.
  intros rows type unit r mn mx s x N F V Fm Fx H C1 C2 Ff.
  destruct (contains_hull r s (FS x) C1) as [K1 K2].
  - repeat constructor; exact Ff.
  - rewrite V. repeat constructor; assumption.
  - discriminate.
  - rewrite V. discriminate.
  - rewrite V in K1, K2. cbn [felems] in K1, K2. split; intros Hh; cbn [f_evaluate].
    + rewrite K1 by (intros f [<-|[]]; apply H; exact Hh). cbn [bind]. rewrite C2. cbn [bind]. now rewrite point_in.
    + rewrite K2 by (exists x; split; [left; reflexivity|rewrite H; exact Hh]). destruct (display_string (fp_unit r)); reflexivity.
Qed.
Lemma eval_array : forall rows type unit r mn mx s l, rows <> [] -> Forall fin (map fst rows) ->
  fp_values r = FA [mn; mx] -> fin mn -> fin mx -> (forall f, in_hull [mn; mx] f <-> in_hull (map fst rows) f) ->
  f_convert_to s (fp_type r) (fp_unit r) = Ok (FA l) -> f_convert_to s type unit = Ok (FA l) -> Forall fin l -> l <> [] ->
  (forall x, In x l -> in_hull (map fst rows) x) -> f_evaluate lib (FTable type unit r rows) s = Ok (FA (map (lib rows) l)).
Proof.
  intros rows type unit r mn mx s l N F V Fm Fx H C1 C2 Ff Nl Hh.
  destruct (contains_hull r s (FA l) C1) as [K1 K2]; [exact Ff| |exact Nl| |].
  - rewrite V. repeat constructor; assumption.
  - rewrite V. discriminate.
  - rewrite V in K1. cbn [felems] in K1. cbn [f_evaluate]. rewrite K1 by (intros f Hf; apply H; auto). cbn [bind]. rewrite C2. cbn [bind felems]. now rewrite points_in.
Qed.
End Lib.

Lemma own_in_hull : forall l x, In x l -> in_hull l x.
Proof. intros l x H. split; exists x; split; auto; apply Rle_refl. Qed.

(** ** n + 1j*k *)
Lemma zero_mul : forall a b, fin a -> fin b -> B2R a * B2R b = 0 -> B2R (fmul a b) = 0 /\ fin (fmul a b).
Proof.
  intros a b A B E. destruct (mul_ok a b) as [P Q].
  - rewrite E. rewrite rnd_generic by apply generic_format_0. rewrite Rabs_R0. apply bpow_gt_0.
  - split; [rewrite P, E; apply rnd_generic, generic_format_0|]. unfold fin in *. rewrite Q, A, B. reflexivity.
Qed.
Lemma one_mul : forall x, fin x -> B2R (fmul (of_Z 1) x) = B2R x /\ fin (fmul (of_Z 1) x).
Proof.
  intros x A. destruct (of_Z_ok 1) as [O1 O2]; [vm_compute; congruence|].
  assert (B2R (of_Z 1) * B2R x = B2R x) as E by (rewrite O1; lra).
  assert (rnd (B2R x) = B2R x) as G by (apply rnd_generic; apply (generic_format_B2R 53 1024 x)).
  destruct (mul_ok (of_Z 1) x) as [P Q].
  - rewrite E, G. apply (abs_B2R_lt_emax 53 1024 x).
  - split; [rewrite P, E; exact G|]. unfold fin in *. rewrite Q, A, O2. reflexivity.
Qed.
Lemma mul_one : forall x, fin x -> B2R (fmul x (of_Z 1)) = B2R x /\ fin (fmul x (of_Z 1)).
Proof.
  intros x A. destruct (of_Z_ok 1) as [O1 O2]; [vm_compute; congruence|].
  assert (B2R x * B2R (of_Z 1) = B2R x) as E by (rewrite O1; lra).
  assert (rnd (B2R x) = B2R x) as G by (apply rnd_generic; apply (generic_format_B2R 53 1024 x)).
  destruct (mul_ok x (of_Z 1)) as [P Q].
  - rewrite E, G. apply (abs_B2R_lt_emax 53 1024 x).
  - split; [rewrite P, E; exact G|]. unfold fin in *. rewrite Q, A, O2. reflexivity.
Qed.
Lemma add_zero : forall a b, fin a -> fin b -> B2R b = 0 -> B2R (fadd a b) = B2R a /\ fin (fadd a b).
Proof.
  intros a b A B E. pose proof (@Bplus_correct 53 1024 prec53 emax1024 mode_NE a b A B) as P.
  rewrite E, Rplus_0_r in P. fold (rnd (B2R a)) in P. 
  rewrite round_generic in P; [|apply valid_rnd_N|apply (generic_format_B2R 53 1024 a)].
  rewrite Rlt_bool_true in P by apply (abs_B2R_lt_emax 53 1024 a). destruct P as (P1 & P2 & _). split; [exact P1|exact P2].
Qed.
Lemma add_zero_l : forall a b, fin a -> fin b -> B2R a = 0 -> B2R (fadd a b) = B2R b /\ fin (fadd a b).
Proof.
  intros a b A B E. pose proof (@Bplus_correct 53 1024 prec53 emax1024 mode_NE a b A B) as P.
  rewrite E, Rplus_0_l in P.
  rewrite round_generic in P; [|apply valid_rnd_N|apply (generic_format_B2R 53 1024 b)].
  rewrite Rlt_bool_true in P by apply (abs_B2R_lt_emax 53 1024 b). destruct P as (P1 & P2 & _). split; [exact P1|exact P2].
Qed.
Lemma sub_zero : forall a b, fin a -> fin b -> B2R b = 0 -> B2R (fsub a b) = B2R a /\ fin (fsub a b).
Proof.
  intros a b A B E. pose proof (@Bminus_correct 53 1024 prec53 emax1024 mode_NE a b A B) as P.
  rewrite E, Rminus_0_r in P.
  rewrite round_generic in P; [|apply valid_rnd_N|apply (generic_format_B2R 53 1024 a)].
  rewrite Rlt_bool_true in P by apply (abs_B2R_lt_emax 53 1024 a). destruct P as (P1 & P2 & _). split; [exact P1|exact P2].
Qed.
Lemma complex_ok : forall r i, fin r -> fin i ->
  B2R (fst (f_complex r i)) = B2R r /\ fin (fst (f_complex r i)) /\ B2R (snd (f_complex r i)) = B2R i /\ fin (snd (f_complex r i)).
Proof.
  intros r i R I. destruct (of_Z_ok 0) as [Z1 Z2]; [vm_compute; congruence|]. destruct (of_Z_ok 1) as [O1 O2]; [vm_compute; congruence|].
  unfold f_complex, f_imaginary. cbn [fst snd].
  destruct (zero_mul (of_Z 0) i Z2 I ltac:(rewrite Z1; apply Rmult_0_l)) as [A1 A2].
  destruct (zero_mul (of_Z 1) (of_Z 0) O2 Z2 ltac:(rewrite Z1; apply Rmult_0_r)) as [B1 B2].
  destruct (zero_mul (of_Z 0) (of_Z 0) Z2 Z2 ltac:(rewrite Z1; apply Rmult_0_r)) as [C1 C2].
  destruct (one_mul i I) as [D1 D2].
  destruct (sub_zero _ _ A2 B2 B1) as [E1 E2]. destruct (add_zero_l _ _ C2 D2 C1) as [F1 F2].
  destruct (add_zero _ _ R E2 ltac:(now rewrite E1, A1)) as [G1 G2]. destruct (add_zero_l _ _ Z2 F2 Z1) as [H1 H2].
  split; [exact G1|]. split; [exact G2|]. split; [rewrite H1, F1; exact D1|exact H2].
Qed.
