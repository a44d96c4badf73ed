(** C104: linear mixing in double precision *)
From Coq Require Import Reals Lra Lia ZArith.
From Flocq Require Import Core BinarySingleNaN.
From Verif Require Import PyBase PyStr XReal SpectrumModel SpectrumSpec FloatModel FloatSpec FloatTableModel FloatTableSpec FloatProofs FloatConvProofs FloatRangeProofs FloatCheckProofs FloatTableProofs FloatThms FloatTableThms FloatMixModel FloatMixSpec FloatMixProofs.
Open Scope R_scope. Open Scope string_scope. Open Scope list_scope.

Lemma C104_accurate_l : forall lib p1 p2 s f (ws : list float) (z1 z2 : list (float * float)),
  exact_at_knots lib -> is_finite f = true -> 0 <= B2R f <= 1 -> fp_std s = FA ws -> tabulable ws ->
  p1 s = Ok (FCA z1) -> p2 s = Ok (FCA z2) -> length z1 = length ws -> length z2 = length ws -> Forall moderate2 z1 -> Forall moderate2 z2 ->
  exists m s' es, f_simple p1 p2 s f = Ok (m, s') /\
    fp_std s' = FA ws /\ fp_values s' = FA ws /\ fp_type s' = "wavelength" /\ fp_unit s' = "m" /\
    f_get_eps lib m s' = Ok (FCA es) /\ f_get_eps lib m s = Ok (FCA es) /\
    Forall2 (fun p e => (is_finite (fst e) = true /\ mixed (B2R f) (B2R (fst (fst p))) (B2R (fst (snd p))) (B2R (fst e))) /\
                        (is_finite (snd e) = true /\ mixed (B2R f) (B2R (snd (fst p))) (B2R (snd (snd p))) (B2R (snd e)))) (combine z1 z2) es.
Proof.
  intros lib p1 p2 s f ws z1 z2 K F B S T P1 P2 L1 L2 M1 M2. destruct (simple_ok lib p1 p2 s f ws z1 z2 K F B S T P1 P2 L1 L2) as (m & s' & E & S' & V & Ty & U & G).
  exists m, s'. eexists. split; [exact E|]. do 4 (split; [assumption|]). split; [now apply G|]. split; [now apply G|].
  apply (mix_values f z1 z2 (fun z w e => (is_finite (fst e) = true /\ mixed (B2R f) (B2R (fst z)) (B2R (fst w)) (B2R (fst e))) /\ (is_finite (snd e) = true /\ mixed (B2R f) (B2R (snd z)) (B2R (snd w)) (B2R (snd e))))); [congruence|].
  intros z w Iz Iw. rewrite Forall_forall in M1, M2. destruct (mix_ok f z w F B (M1 z Iz) (M2 w Iw)) as (A1 & A2 & A3 & A4).
  destruct (complex_ok _ _ A1 A2) as (C1 & C2 & C3 & C4). rewrite C1, C3. repeat split; assumption.
Qed.

Lemma C104_pure_l : forall lib p1 p2 s f (ws : list float) (z1 z2 : list (float * float)),
  exact_at_knots lib -> exactly 0 f \/ exactly 1 f -> fp_std s = FA ws -> tabulable ws ->
  p1 s = Ok (FCA z1) -> p2 s = Ok (FCA z2) -> length z1 = length ws -> length z2 = length ws ->
  Forall (fun z => is_finite (fst z) = true /\ is_finite (snd z) = true) (z1 ++ z2) ->
  exists m s' es, f_simple p1 p2 s f = Ok (m, s') /\ f_get_eps lib m s' = Ok (FCA es) /\ f_get_eps lib m s = Ok (FCA es) /\
    (exactly 0 f -> Forall2 (fun z e => exactly2 (B2R (fst z)) (B2R (snd z)) e) z1 es) /\
    (exactly 1 f -> Forall2 (fun z e => exactly2 (B2R (fst z)) (B2R (snd z)) e) z2 es).
Proof.
  intros lib p1 p2 s f ws z1 z2 K H S T P1 P2 L1 L2 M. apply Forall_app in M. destruct M as [M1 M2]. rewrite Forall_forall in M1, M2.
  assert (fin f /\ 0 <= B2R f <= 1) as [F B] by (destruct H as [[A E]|[A E]]; (split; [exact A|rewrite E; lra])).
  destruct (simple_ok lib p1 p2 s f ws z1 z2 K F B S T P1 P2 L1 L2) as (m & s' & E & S' & _ & _ & _ & G).
  exists m, s'. eexists. split; [exact E|]. split; [now apply G|]. split; [now apply G|].
  assert (forall P : float * float -> float * float -> Prop, forall (sel : (float * float) * (float * float) -> float * float) l m l', map sel l = l' -> Forall2 (fun p e => P (sel p) e) l m -> Forall2 P l' m) as Sel.
  { intros P sel l n l' <-. induction 1; constructor; assumption. }
  split; intros X.
  - apply (Sel (fun z e => exactly2 (B2R (fst z)) (B2R (snd z)) e) fst (combine z1 z2)); [apply map_fst_combine; congruence|].
    apply (mix_values f z1 z2 (fun z w e => exactly2 (B2R (fst z)) (B2R (snd z)) e)); [congruence|]. intros z w Iz Iw. destruct (M1 z Iz) as [A1 A2], (M2 w Iw) as [B1 B2].
    destruct (mix_none f z w X A1 A2 B1 B2) as [[C1 C2] [D1 D2]]. destruct (complex_ok _ _ C1 D1) as (E1 & E2 & E3 & E4).
    split; split; [exact E2|exact (eq_trans E1 C2)|exact E4|exact (eq_trans E3 D2)].
  - apply (Sel (fun z e => exactly2 (B2R (fst z)) (B2R (snd z)) e) snd (combine z1 z2)); [apply map_snd_combine; congruence|].
    apply (mix_values f z1 z2 (fun z w e => exactly2 (B2R (fst w)) (B2R (snd w)) e)); [congruence|]. intros z w Iz Iw. destruct (M1 z Iz) as [A1 A2], (M2 w Iw) as [B1 B2].
    destruct (mix_all f z w X A1 A2 B1 B2) as [[C1 C2] [D1 D2]]. destruct (complex_ok _ _ C1 D1) as (E1 & E2 & E3 & E4).
    split; split; [exact E2|exact (eq_trans E1 C2)|exact E4|exact (eq_trans E3 D2)].
Qed.

Lemma C104_fraction_rejected_l : forall p1 p2 s f, is_finite f = true -> B2R f < 0 \/ 1 < B2R f -> f_simple p1 p2 s f = Raise ValueError.
Proof.
  intros p1 p2 s f F H. unfold f_simple. destruct zero_ok as [O1 O2]. destruct one_ok as [I1 I2]. rewrite !flt_ok by assumption. rewrite O1, I1.
  destruct H as [H|H]; [now rewrite Rlt_bool_true by exact H|]. rewrite (Rlt_bool_true 1) by exact H. now rewrite Bool.orb_true_r.
Qed.

Lemma C104_same_refuted_l : forall lib p1 p2 s f (ws : list float),
  exact_at_knots lib -> written (3 / 10) f -> fp_std s = FA ws -> tabulable ws ->
  p1 s = Ok (FCA (map (fun _ => (of_Z 3, of_Z 0)) ws)) -> p2 s = Ok (FCA (map (fun _ => (of_Z 3, of_Z 0)) ws)) ->
  exists m s' es, f_simple p1 p2 s f = Ok (m, s') /\ f_get_eps lib m s' = Ok (FCA es) /\ length es = length ws /\
    Forall (fun e => is_finite (fst e) = true /\ B2R (fst e) < 3) es.
Proof.
  intros lib p1 p2 s f ws K W S T P1 P2.
  assert (f = fdiv (of_Z 3) (of_Z 10)) as ->.
  { destruct (written_quotient 3 10) as [A B]; [vm_compute; intuition congruence|vm_compute; intuition congruence|]. destruct W as [A' B']. apply (B2R_Bsign_inj _ _ _ _ A' A); [congruence|].
    assert (forall g : float, is_finite g = true -> 0 < B2R g -> Bsign g = false) as Sg.
    { intros g Fg Pg. destruct g as [| | |sg mg eg Hg]; try discriminate Fg; [cbn in Pg; lra|]. destruct sg; [|reflexivity]. exfalso. cbn in Pg. pose proof (F2R_lt_0 radix2 (Float radix2 (Z.neg mg) eg) ltac:(reflexivity)) as Ng. cbn in Ng. unfold F2R in *; cbn in *; lra. }
    assert (0 < nearest_double (3 / 10)) as Pn.
    { rewrite <- B. assert (flt (of_Z 0) (fdiv (of_Z 3) (of_Z 10)) = true) as Lt by (vm_compute; reflexivity). destruct zero_ok as [O1 O2]. rewrite flt_ok in Lt by assumption. rewrite O1 in Lt. destruct (Rlt_bool_spec 0 (B2R (fdiv (of_Z 3) (of_Z 10)))); [assumption|discriminate Lt]. }
    rewrite !Sg; [reflexivity|exact A|rewrite B; exact Pn|exact A'|rewrite B'; exact Pn]. }
  clear W. set (f := fdiv (of_Z 3) (of_Z 10)) in *.
  assert (fin f) as F by (vm_compute; reflexivity).
  assert (0 <= B2R f <= 1) as B.
  { destruct zero_ok as [O1 O2]. destruct one_ok as [I1 I2].
    assert (flt f (of_Z 0) = false) as Q1 by (vm_compute; reflexivity). assert (flt (of_Z 1) f = false) as Q2 by (vm_compute; reflexivity).
    rewrite flt_ok in Q1, Q2 by assumption. rewrite O1 in Q1. rewrite I1 in Q2. destruct (Rlt_bool_spec (B2R f) 0); [discriminate|]. destruct (Rlt_bool_spec 1 (B2R f)); [discriminate|]. lra. }
  destruct (simple_ok lib p1 p2 s f ws _ _ K F B S T P1 P2 ltac:(now rewrite map_length) ltac:(now rewrite map_length)) as (m & s' & E & S' & _ & _ & _ & G).
  exists m, s'. eexists. split; [exact E|]. split; [now apply G|]. split; [rewrite !map_length, combine_length, !map_length; apply Nat.min_id|].
  assert (let e := f_simple_mix f (of_Z 3, of_Z 0) (of_Z 3, of_Z 0) in fin (fst e) /\ fin (snd e) /\ B2R (fst e) < 3) as (X1 & X2 & X3).
  { cbv zeta. split; [vm_compute; reflexivity|]. split; [vm_compute; reflexivity|].
    assert (flt (fst (f_simple_mix f (of_Z 3, of_Z 0) (of_Z 3, of_Z 0))) (of_Z 3) = true) as Q by (vm_compute; reflexivity).
    assert (fin (fst (f_simple_mix f (of_Z 3, of_Z 0) (of_Z 3, of_Z 0)))) as Q' by (vm_compute; reflexivity).
    destruct (of_Z_ok 3) as [T1 T2]; [vm_compute; congruence|]. rewrite flt_ok in Q by assumption. rewrite T1 in Q. destruct (Rlt_bool_spec (B2R (fst (f_simple_mix f (of_Z 3, of_Z 0) (of_Z 3, of_Z 0)))) 3); [assumption|discriminate Q]. }
  destruct (complex_ok _ _ X1 X2) as (C1 & C2 & _).
  clear - C1 C2 X3. induction ws as [|w ws IH]; [constructor|]. cbn [map combine fst snd]. constructor; [|exact IH]. split; [exact C2|]. exact (eq_ind_r (fun r => r < 3) X3 C1).
Qed.
