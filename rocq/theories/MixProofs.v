(** Complex algebra of the mixing rules *)
From Verif Require Import PyBase PyStr XReal CNum SpectrumModel SpectralModel TextModel MaterialModel MaterialSpec EffectiveModel EffectiveSpec InterpProofs.
From Coq Require Import Lra Psatz.
Open Scope R_scope.
Open Scope list_scope.

Ltac cring := apply C_eq; cbn [fst snd Cplus Cmult Cminus Copp RtoC]; ring.

Lemma C_components (a b : CC) : a = b <-> fst a = fst b /\ snd a = snd b.
Proof. split; [intros ->; auto|intros [H1 H2]; now apply C_eq]. Qed.

Lemma Cmult_zero (a b : CC) : Cmult a b = RtoC 0 -> a = RtoC 0 \/ b = RtoC 0.
Proof.
  intros H. destruct (Ceqb0 a) eqn:E; [left; now apply Ceqb0_true|right].
  apply Ceqb0_false in E. assert (b = Cmult (Cinv a) (Cmult a b)) as ->.
  { rewrite Cmult_assoc, Cinv_l, Cmult_1_l by assumption. reflexivity. }
  rewrite H. cring.
Qed.
Lemma Cminus_zero (a b : CC) : Cminus a b = RtoC 0 -> a = b.
Proof.
  intros H. apply C_components in H. cbn in H. apply C_eq; lra.
Qed.
Lemma Cmult_cancel (a b c : CC) : c <> RtoC 0 -> Cmult c a = Cmult c b -> a = b.
Proof.
  intros H E. apply Cminus_zero. destruct (Cmult_zero c (Cminus a b)) as [K|K]; [|contradiction|exact K].
  replace (Cmult c (Cminus a b)) with (Cminus (Cmult c a) (Cmult c b)) by cring. rewrite E. cring.
Qed.

(** ** linear mixing *)
Lemma simple_mix_fin f z w : simple_mix (Fin f) (CF z) (CF w) = CF ((1 - f) * z + f * w)%C.
Proof. cbn. f_equal. cring. Qed.

(** ** Maxwell-Garnett *)
Lemma mg_down_fin f z w : mg_down (Fin f) (CF z) (CF w) = CF ((2 + f) * z + (1 - f) * w)%C.
Proof. cbn. f_equal. cring. Qed.
Lemma mg_up_fin f z w : mg_up (Fin f) (CF z) (CF w) = CF (2 * (1 - f) * z + (1 + 2 * f) * w)%C.
Proof. cbn. f_equal. cring. Qed.

Lemma mg_mix_fin f z w : ~ mg_pole f z w -> exists e, mg_mix (Fin f) (CF z) (CF w) = CF e /\
  Cmult e ((2 + f) * z + (1 - f) * w)%C = Cmult z (2 * (1 - f) * z + (1 + 2 * f) * w)%C.
Proof.
  intros H. unfold mg_mix. rewrite mg_down_fin, mg_up_fin. cbn [cxmul cx2].
  unfold mg_pole in H. rewrite cxdiv_fin by exact H. eexists. split; [reflexivity|].
  unfold Cdiv. rewrite <- Cmult_assoc, Cinv_l, Cmult_1_r by exact H. reflexivity.
Qed.
Lemma mg_mix_pole f z w : mg_pole f z w -> mg_mix (Fin f) (CF z) (CF w) = CNan.
Proof.
  intros H. unfold mg_mix. rewrite mg_down_fin, mg_up_fin. cbn [cxmul cx2 cxdiv].
  unfold mg_pole in H. rewrite H. now rewrite (proj2 (Ceqb0_true (RtoC 0)) eq_refl).
Qed.
(** the rule determines the value off the pole *)
Lemma mg_rule_iff f z w e : maxwell_garnett_rule f z w e <->
  Cmult e ((2 + f) * z + (1 - f) * w)%C = Cmult z (2 * (1 - f) * z + (1 + 2 * f) * w)%C.
Proof.
  unfold maxwell_garnett_rule.
  assert (E : ((e - z) * (w + 2 * z) - f * (w - z) * (e + 2 * z) =
               e * ((2 + f) * z + (1 - f) * w) - z * (2 * (1 - f) * z + (1 + 2 * f) * w))%C).
  { cring. }
  split; intros H; apply Cminus_zero; [rewrite <- E|rewrite E]; rewrite H; cring.
Qed.
Lemma mg_rule_unique f z w e e' : ~ mg_pole f z w ->
  maxwell_garnett_rule f z w e -> maxwell_garnett_rule f z w e' -> e = e'.
Proof.
  intros P H H'. apply mg_rule_iff in H, H'. apply (Cmult_cancel _ _ ((2 + f) * z + (1 - f) * w)%C P).
  rewrite !(Cmult_comm ((2 + f) * z + (1 - f) * w)%C). congruence.
Qed.
Lemma mg_rule_0 z w : maxwell_garnett_rule 0 z w z.
Proof. unfold maxwell_garnett_rule. cring. Qed.
Lemma mg_rule_1 z w : maxwell_garnett_rule 1 z w w.
Proof. unfold maxwell_garnett_rule. cring. Qed.

Lemma positive_real_eq z : positive_real z -> z = RtoC (fst z).
Proof. intros [_ H]. apply C_eq; [reflexivity|exact H]. Qed.

Lemma mg_real f a b : 0 <= f <= 1 -> 0 < a -> 0 < b -> exists x,
  maxwell_garnett_rule f (RtoC a) (RtoC b) (RtoC x) /\ between a b x.
Proof.
  intros F A B. set (d := (2 + f) * a + (1 - f) * b).
  assert (D : 0 < d).
  { unfold d. assert (0 <= (1 - f) * b) by (apply Rmult_le_pos; lra).
    assert (0 < (2 + f) * a) by (apply Rmult_lt_0_compat; lra). lra. }
  set (x := a * (2 * (1 - f) * a + (1 + 2 * f) * b) / d).
  exists x. split.
  - apply mg_rule_iff. apply C_eq; cbn [fst snd Cplus Cmult Cminus Copp RtoC]; [|ring].
    assert (K : x * d = a * (2 * (1 - f) * a + (1 + 2 * f) * b)) by (unfold x; field; lra).
    unfold d in K. lra.
  - assert (K1 : x - a = 3 * f * a * (b - a) / d) by (unfold x, d in *; field; lra).
    assert (K2 : x - b = (1 - f) * (a - b) * (2 * a + b) / d) by (unfold x, d in *; field; lra).
    assert (I : 0 < / d) by now apply Rinv_0_lt_compat.
    assert (Q1 : 0 <= 3 * f * a / d).
    { unfold Rdiv. apply Rmult_le_pos; [|lra]. apply Rmult_le_pos; [|lra]. lra. }
    assert (Q2 : 0 <= (1 - f) * (2 * a + b) / d).
    { unfold Rdiv. apply Rmult_le_pos; [|lra]. apply Rmult_le_pos; lra. }
    replace (3 * f * a * (b - a) / d) with (3 * f * a / d * (b - a)) in K1 by (field; lra).
    replace ((1 - f) * (a - b) * (2 * a + b) / d) with ((1 - f) * (2 * a + b) / d * (a - b)) in K2 by (field; lra).
    unfold between, Rmin, Rmax. destruct (Rle_dec a b).
    + assert (0 <= 3 * f * a / d * (b - a)) by (apply Rmult_le_pos; lra).
      assert (0 <= (1 - f) * (2 * a + b) / d * (b - a)) by (apply Rmult_le_pos; lra). lra.
    + assert (0 <= 3 * f * a / d * (a - b)) by (apply Rmult_le_pos; lra).
      assert (0 <= (1 - f) * (2 * a + b) / d * (a - b)) by (apply Rmult_le_pos; lra). lra.
Qed.

Lemma mg_pole_real f a b : 0 <= f <= 1 -> 0 < a -> 0 < b -> ~ mg_pole f (RtoC a) (RtoC b).
Proof.
  intros F A B H. apply C_components in H. cbn in H. destruct H as [H _].
  assert (0 <= (1 - f) * b) by (apply Rmult_le_pos; lra).
  assert (0 < (2 + f) * a) by (apply Rmult_lt_0_compat; lra). lra.
Qed.

(** passive constituents give a passive mixture *)
Lemma mg_passive f z w e : 0 <= f <= 1 -> passive z -> passive w -> ~ mg_pole f z w ->
  maxwell_garnett_rule f z w e -> passive e.
Proof.
  intros F Pz Pw N H. apply mg_rule_iff in H.
  destruct z as [x1 y1], w as [x2 y2], e as [x y]. unfold passive in *. cbn [fst snd] in *.
  apply C_components in H. cbn [fst snd Cplus Cmult Cminus Copp RtoC] in H. destruct H as [H1 H2].
  set (u := (2 + f) * x1 + (1 - f) * x2). set (v := (2 + f) * y1 + (1 - f) * y2).
  assert (D : 0 < u * u + v * v).
  { destruct (Req_dec u 0) as [U|U]; destruct (Req_dec v 0) as [V|V]; try nra.
    exfalso. apply N. unfold mg_pole. apply C_eq; cbn [fst snd Cplus Cmult Cminus Copp RtoC]; unfold u, v in *; lra. }
  (* y |d|^2 = 2(1-f)/(2+f) y1 |d|^2 + 9 f /(2+f)^2 ... *)
  assert (K : (2 + f) * (y * (u * u + v * v)) =
              2 * (1 - f) * y1 * (u * u + v * v) +
              9 * f * ((2 + f) * (x1 * x1 + y1 * y1) * y2 + (1 - f) * (x2 * x2 + y2 * y2) * y1)).
  { assert (E1 : x * u - y * v = x1 * (2 * (1 - f) * x1 + (1 + 2 * f) * x2) - y1 * (2 * (1 - f) * y1 + (1 + 2 * f) * y2))
      by (unfold u, v; lra).
    assert (E2 : x * v + y * u = x1 * (2 * (1 - f) * y1 + (1 + 2 * f) * y2) + y1 * (2 * (1 - f) * x1 + (1 + 2 * f) * x2))
      by (unfold u, v; lra).
    replace (y * (u * u + v * v)) with (u * (x * v + y * u) - v * (x * u - y * v)) by ring.
    rewrite E1, E2. unfold u, v. ring. }
  assert (0 <= 2 * (1 - f) * y1 * (u * u + v * v)).
  { apply Rmult_le_pos; [|lra]. apply Rmult_le_pos; lra. }
  assert (0 <= 9 * f * ((2 + f) * (x1 * x1 + y1 * y1) * y2 + (1 - f) * (x2 * x2 + y2 * y2) * y1)).
  { apply Rmult_le_pos; [lra|]. apply Rplus_le_le_0_compat.
    - apply Rmult_le_pos; [|lra]. apply Rmult_le_pos; [lra|nra].
    - apply Rmult_le_pos; [|lra]. apply Rmult_le_pos; [lra|nra]. }
  destruct (Rle_dec 0 y) as [L|L]; [exact L|exfalso].
  assert (0 < - y * (u * u + v * v)) by (apply Rmult_lt_0_compat; lra).
  assert (0 < (2 + f) * (- y * (u * u + v * v))) by (apply Rmult_lt_0_compat; lra). lra.
Qed.

(** ** Bruggeman *)
Definition bp (f : R) (eb ea : CC) : CC := (/ 2 * (f * (eb - 2 * ea) + (1 - f) * (ea - 2 * eb)))%C.
Definition bq (eb ea : CC) : CC := (- / 2 * ea * eb)%C.
Lemma half_c : RtoC (1 / 2) = Cinv (RtoC 2).
Proof. apply C_eq; cbn; field. Qed.

Lemma br_cand f z w : exists h r, br_half (Fin f) (CF z) (CF w) = CF h /\ br_root (Fin f) (CF z) (CF w) = CF r /\
  Cmult (RtoC 2) h = Copp (bp f z w) /\ Cmult r r = Cminus (Cmult h h) (bq z w) /\
  (0 < fst r \/ fst r = 0 /\ 0 <= snd r).
Proof.
  unfold br_half, br_root, br_p, br_q, one_minus, fac, xsub. cbn [cx_of_xr xadd xopp cxmul cxadd cxsub cxsqrt cx1 cx2].
  eexists. eexists. split; [reflexivity|]. split; [reflexivity|]. split; [|split].
  - unfold bp. rewrite <- half_c. apply C_eq; cbn; field.
  - rewrite csqrt_sq. unfold bq. rewrite <- half_c. apply C_eq; cbn; field.
  - match goal with |- 0 < fst (csqrt ?z0) \/ _ => set (zz := z0) end.
    pose proof (csqrt_re zz) as R1. destruct (Req_dec (fst (csqrt zz)) 0) as [E|E]; [|left; lra].
    right. split; [assumption|]. apply csqrt_im_nonneg.
    pose proof (csqrt_sq zz) as Q. apply C_components in Q. destruct Q as [_ Q]. cbn [snd Cmult] in Q.
    rewrite E in Q. lra.
Qed.

Lemma rule_quadratic (f : R) (z w e : CC) :
  ((1 - f) * (z - e) * (w + 2 * e) + f * (w - e) * (z + 2 * e))%C =
  Cmult (RtoC (- 2)) (e * e + bp f z w * e + bq z w)%C.
Proof. unfold bp, bq. rewrite <- half_c. apply C_eq; cbn; field. Qed.

Lemma br_pair f z w h r : Cmult (RtoC 2) h = Copp (bp f z w) -> Cmult r r = Cminus (Cmult h h) (bq z w) ->
  (0 < fst r \/ fst r = 0 /\ 0 <= snd r) -> bruggeman_pair f z w (Cplus h r) (Cminus h r).
Proof.
  intros H R P. split.
  - intros e. unfold bruggeman_rule. rewrite rule_quadratic.
    assert (B : bp f z w = Copp (Cmult (RtoC 2) h)) by (rewrite H; cring).
    assert (Q : bq z w = Cminus (Cmult h h) (Cmult r r)) by (rewrite R; cring).
    rewrite B, Q.
    replace (e * e + - (2 * h) * e + (h * h - r * r))%C with (Cmult (Cminus e (Cplus h r)) (Cminus e (Cminus h r))) by cring.
    split.
    + intros E. apply Cmult_zero in E. destruct E as [E|E].
      * apply C_components in E. cbn in E. lra.
      * apply Cmult_zero in E. destruct E as [E|E]; apply Cminus_zero in E; auto.
    + intros [-> | ->]; cring.
  - cbn [fst snd Cplus Cminus Copp]. lra.
Qed.

Lemma br_mix_fin f z w : exists e, br_mix (Fin f) (CF z) (CF w) = CF e /\ bruggeman_choice f z w e.
Proof.
  destruct (br_cand f z w) as (h & r & Eh & Er & H & R & P).
  pose proof (br_pair f z w h r H R P) as B.
  unfold br_mix, br_sol1, br_sol2. rewrite Eh, Er. cbn [cxadd cxsub cx2 cx_im].
  destruct (xle (Fin 0) (Fin (snd (Cplus h r)))) eqn:L1.
  { apply xle_fin in L1. eexists. split; [reflexivity|]. exists (Cplus h r), (Cminus h r). split; [exact B|]. left. split; [exact L1|reflexivity]. }
  apply xle_fin_false in L1.
  destruct (xle (Fin 0) (Fin (snd (Cminus h r)))) eqn:L2.
  { apply xle_fin in L2. eexists. split; [reflexivity|]. exists (Cplus h r), (Cminus h r). split; [exact B|]. right; left. split; [exact L1|]. split; [exact L2|reflexivity]. }
  apply xle_fin_false in L2. eexists. split; [reflexivity|]. exists (Cplus h r), (Cminus h r). split; [exact B|]. right; right. split; [exact L1|]. split; [exact L2|reflexivity].
Qed.

Lemma pair_unique f z w a b a' b' : bruggeman_pair f z w a b -> bruggeman_pair f z w a' b' -> a = a' /\ b = b'.
Proof.
  intros [H P] [H' P'].
  assert (K : forall e, e = a \/ e = b <-> e = a' \/ e = b') by (intros e; rewrite <- H, <- H'; tauto).
  assert (Ka := proj1 (K a) (or_introl eq_refl)). assert (Kb := proj1 (K b) (or_intror eq_refl)).
  assert (Ka' := proj2 (K a') (or_introl eq_refl)). assert (Kb' := proj2 (K b') (or_intror eq_refl)).
  destruct Ka as [Ka|Ka], Kb as [Kb|Kb].
  - subst a' b. destruct Kb' as [->| ->]; auto.
  - auto.
  - subst a b. assert (a' = b') by (apply C_eq; lra). auto.
  - subst b b'. destruct Ka' as [->| ->]; auto.
Qed.

(** the pair exists *)
Lemma pair_exists f z w : exists a b, bruggeman_pair f z w a b.
Proof.
  destruct (br_cand f z w) as (h & r & _ & _ & H & R & P). eauto using br_pair.
Qed.

(** Vieta *)
Lemma pair_vieta f z w a b : bruggeman_pair f z w a b ->
  Cplus a b = Copp (bp f z w) /\ Cmult a b = bq z w.
Proof.
  intros B. destruct (br_cand f z w) as (h & r & _ & _ & H & R & P).
  destruct (pair_unique _ _ _ _ _ _ _ B (br_pair f z w h r H R P)) as [-> ->]. split.
  - rewrite <- H. cring.
  - replace (Cmult (Cplus h r) (Cminus h r)) with (Cminus (Cmult h h) (Cmult r r)) by cring. rewrite R. cring.
Qed.

(** the coefficients in components *)
Lemma bp_parts f x1 y1 x2 y2 :
  fst (bp f (x1, y1) (x2, y2)) = / 2 * (f * (x1 - 2 * x2) + (1 - f) * (x2 - 2 * x1)) /\
  snd (bp f (x1, y1) (x2, y2)) = / 2 * (f * (y1 - 2 * y2) + (1 - f) * (y2 - 2 * y1)).
Proof. unfold bp. rewrite <- half_c. cbn. split; field. Qed.
Lemma bq_parts x1 y1 x2 y2 :
  fst (bq (x1, y1) (x2, y2)) = - / 2 * (x1 * x2 - y1 * y2) /\
  snd (bq (x1, y1) (x2, y2)) = - / 2 * (x1 * y2 + x2 * y1).
Proof. unfold bq. rewrite <- half_c. cbn. split; field. Qed.

Lemma br_real f a b e : 0 <= f <= 1 -> 0 < a -> 0 < b -> bruggeman_choice f (RtoC a) (RtoC b) e ->
  bruggeman_rule f (RtoC a) (RtoC b) e /\ snd e = 0 /\ 0 < fst e /\ between a b (fst e).
Proof.
  intros F A B (u & v & P & Ch). pose proof P as [P1 P2].
  destruct (pair_vieta _ _ _ _ _ P) as [V1 V2].
  destruct (bp_parts f a 0 b 0) as [Bp1 Bp2]. destruct (bq_parts a 0 b 0) as [Bq1 Bq2].
  change (a, 0) with (RtoC a) in *. change (b, 0) with (RtoC b) in *.
  apply C_components in V1, V2. cbn [fst snd Cplus Cmult Cminus Copp] in V1, V2.
  rewrite Bp1, Bp2 in V1. rewrite Bq1, Bq2 in V2.
  destruct u as [u1 u2], v as [v1 v2]. cbn [fst snd] in *.
  assert (AB : 0 < a * b) by now apply Rmult_lt_0_compat.
  assert (I1 : v2 = - u2) by lra. subst v2.
  assert (U2 : u2 = 0).
  { assert (K : u2 * (v1 - u1) = 0) by lra. apply Rmult_integral in K. destruct K as [K|K]; [exact K|].
    assert (v1 = u1) by lra. subst v1. nra. }
  subst u2. assert (Q : u1 * v1 < 0) by lra.
  assert (L : v1 < u1) by (destruct P2 as [P2|[P2 _]]; [exact P2|subst; nra]).
  assert (U : 0 < u1 /\ v1 < 0) by nra.
  destruct Ch as [[_ ->]|[[K _]|[K _]]]; [|lra|lra].
  split; [apply P1; auto|]. cbn [fst snd]. split; [reflexivity|]. split; [lra|].
  assert (G : forall t, (t - u1) * (t - v1) = - / 2 * ((1 - f) * (a - t) * (b + 2 * t) + f * (b - t) * (a + 2 * t))).
  { intros t. assert (v1 = - / 2 * (f * (a - 2 * b) + (1 - f) * (b - 2 * a)) - u1) by lra.
    replace ((t - u1) * (t - v1)) with (t * t - (u1 + v1) * t + u1 * v1) by ring.
    replace (u1 * v1) with (- / 2 * (a * b - 0 * 0)) by lra.
    replace (u1 + v1) with (- / 2 * (f * (a - 2 * b) + (1 - f) * (b - 2 * a))) by lra. field. }
  pose proof (G a) as Ga. pose proof (G b) as Gb.
  replace ((1 - f) * (a - a) * (b + 2 * a) + f * (b - a) * (a + 2 * a)) with (f * 3 * a * (b - a)) in Ga by ring.
  replace ((1 - f) * (a - b) * (b + 2 * b) + f * (b - b) * (a + 2 * b)) with ((1 - f) * 3 * b * (a - b)) in Gb by ring.
  assert (Fa : 0 <= f * 3 * a) by (apply Rmult_le_pos; lra).
  assert (Fb : 0 <= (1 - f) * 3 * b) by (apply Rmult_le_pos; lra).
  unfold between, Rmin, Rmax. destruct (Rle_dec a b).
  - assert (0 <= f * 3 * a * (b - a)) by (apply Rmult_le_pos; lra).
    assert (0 <= (1 - f) * 3 * b * (b - a)) by (apply Rmult_le_pos; lra).
    split; apply Rnot_lt_le; intro.
    + assert (0 < (a - u1) * (a - v1)) by (apply Rmult_lt_0_compat; lra). lra.
    + assert (0 < (u1 - b) * (b - v1)) by (apply Rmult_lt_0_compat; lra). lra.
  - assert (0 <= f * 3 * a * (a - b)) by (apply Rmult_le_pos; lra).
    assert (0 <= (1 - f) * 3 * b * (a - b)) by (apply Rmult_le_pos; lra).
    split; apply Rnot_lt_le; intro.
    + assert (0 < (b - u1) * (b - v1)) by (apply Rmult_lt_0_compat; lra). lra.
    + assert (0 < (u1 - a) * (a - v1)) by (apply Rmult_lt_0_compat; lra). lra.
Qed.

(** the discriminating quantity: non-negative for passive constituents *)
Definition bD (p1 p2 q1 q2 : R) : R := q2 * q2 - p1 * p2 * q2 + p2 * p2 * q1.
Lemma bD_nonneg f x1 y1 x2 y2 : 0 <= f <= 1 -> 0 <= y1 -> 0 <= y2 ->
  0 <= bD (/ 2 * (f * (x1 - 2 * x2) + (1 - f) * (x2 - 2 * x1))) (/ 2 * (f * (y1 - 2 * y2) + (1 - f) * (y2 - 2 * y1)))
          (- / 2 * (x1 * x2 - y1 * y2)) (- / 2 * (x1 * y2 + x2 * y1)).
Proof.
  intros F Y1 Y2.
  set (p1 := / 2 * (f * (x1 - 2 * x2) + (1 - f) * (x2 - 2 * x1))).
  set (p2 := / 2 * (f * (y1 - 2 * y2) + (1 - f) * (y2 - 2 * y1))).
  set (q1 := - / 2 * (x1 * x2 - y1 * y2)). set (q2 := - / 2 * (x1 * y2 + x2 * y1)).
  assert (Id : 2 * (f * y1 + (1 - f) * y2) * bD p1 p2 q1 q2 =
    (1 - f) * y1 * ((p2 * x2 - 2 * q2) * (p2 * x2 - 2 * q2) + p2 * y2 * (p2 * y2)) +
    f * y2 * ((p2 * x1 - 2 * q2) * (p2 * x1 - 2 * q2) + p2 * y1 * (p2 * y1))).
  { unfold bD, p1, p2, q1, q2. field. }
  assert (R1 : 0 <= (1 - f) * y1 * ((p2 * x2 - 2 * q2) * (p2 * x2 - 2 * q2) + p2 * y2 * (p2 * y2))).
  { apply Rmult_le_pos; [apply Rmult_le_pos; lra|]. apply Rplus_le_le_0_compat; apply Rle_0_sqr. }
  assert (R2 : 0 <= f * y2 * ((p2 * x1 - 2 * q2) * (p2 * x1 - 2 * q2) + p2 * y1 * (p2 * y1))).
  { apply Rmult_le_pos; [apply Rmult_le_pos; lra|]. apply Rplus_le_le_0_compat; apply Rle_0_sqr. }
  assert (S1 : 0 <= f * y1) by (apply Rmult_le_pos; lra).
  assert (S2 : 0 <= (1 - f) * y2) by (apply Rmult_le_pos; lra).
  destruct (Rlt_dec 0 (f * y1 + (1 - f) * y2)) as [L|L].
  - apply Rnot_lt_le. intro N.
    assert (0 < 2 * (f * y1 + (1 - f) * y2) * (- bD p1 p2 q1 q2)) by (apply Rmult_lt_0_compat; lra). lra.
  - assert (E1 : f * y1 = 0) by lra. assert (E2 : (1 - f) * y2 = 0) by lra. clear Id R1 R2 L.
    apply Req_le. symmetry. unfold bD, p1, p2, q1, q2.
    apply Rmult_integral in E1. apply Rmult_integral in E2. destruct E1 as [E1|E1], E2 as [E2|E2].
    + lra.
    + subst f y2. field.
    + assert (f = 1) by lra. subst f y1. field.
    + subst y1 y2. field.
Qed.

Lemma br_signs f z w a b : 0 <= f <= 1 -> passive z -> passive w -> bruggeman_pair f z w a b -> snd a * snd b <= 0.
Proof.
  intros F Pz Pw P. destruct (pair_vieta _ _ _ _ _ P) as [V1 V2].
  destruct z as [x1 y1], w as [x2 y2]. unfold passive in *. cbn [fst snd] in *.
  pose proof (bD_nonneg f x1 y1 x2 y2 F Pz Pw) as D.
  destruct (bp_parts f x1 y1 x2 y2) as [Bp1 Bp2]. destruct (bq_parts x1 y1 x2 y2) as [Bq1 Bq2].
  rewrite <- Bp1, <- Bp2, <- Bq1, <- Bq2 in D.
  assert (E : bp f (x1, y1) (x2, y2) = Copp (Cplus a b)) by (rewrite V1; cring).
  rewrite E, <- V2 in D. clear - D. destruct a as [a1 a2], b as [b1 b2].
  cbn [fst snd Cplus Cmult Copp] in D. cbn [snd].
  replace (bD (- (a1 + b1)) (- (a2 + b2)) (a1 * b1 - a2 * b2) (a1 * b2 + a2 * b1))
    with (- (a2 * b2) * ((a1 - b1) * (a1 - b1) + (a2 + b2) * (a2 + b2))) in D by (unfold bD; ring).
  apply Rnot_lt_le. intro N.
  assert (K : 0 < (a2 + b2) * (a2 + b2)) by nra.
  assert (0 <= (a1 - b1) * (a1 - b1)) by apply Rle_0_sqr.
  assert (0 < a2 * b2 * ((a1 - b1) * (a1 - b1) + (a2 + b2) * (a2 + b2))) by (apply Rmult_lt_0_compat; lra). lra.
Qed.

Lemma br_passive f z w e : 0 <= f <= 1 -> passive z -> passive w -> bruggeman_choice f z w e ->
  bruggeman_rule f z w e /\ passive e.
Proof.
  intros F Pz Pw (a & b & P & Ch). pose proof (br_signs _ _ _ _ _ F Pz Pw P) as Sg. destruct P as [P1 P2].
  destruct Ch as [[K ->]|[(K1 & K2 & ->)|(K1 & K2 & _)]].
  - split; [apply P1; auto|exact K].
  - split; [apply P1; auto|exact K2].
  - exfalso. assert (0 < snd a * snd b) by (replace (snd a * snd b) with (- snd a * - snd b) by ring; apply Rmult_lt_0_compat; lra). lra.
Qed.

(** for absorbing constituents no solution is real *)
Lemma br_not_real f z w e : 0 < f < 1 -> 0 < snd z -> 0 < snd w -> bruggeman_rule f z w e -> snd e <> 0.
Proof.
  intros F Yz Yw H E. destruct z as [x1 y1], w as [x2 y2], e as [t e2]. cbn [fst snd] in *. subst e2.
  unfold bruggeman_rule in H. apply C_components in H. cbn [fst snd Cplus Cmult Cminus Copp RtoC] in H. destruct H as [H1 H2].
  (* (1-f) A (w+2t) + f B (z+2t) = 0 with A = z-t, B = w-t; multiply by the conjugate of (z+2t)(w+2t) *)
  set (c1 := x1 + 2 * t) in *. set (c2 := x2 + 2 * t) in *.
  assert (K : 3 * t * ((1 - f) * y1 * (c2 * c2 + y2 * y2) + f * y2 * (c1 * c1 + y1 * y1)) = 0).
  { set (A1 := (1 - f) * ((x1 - t) * c2 - y1 * y2) + f * ((x2 - t) * c1 - y2 * y1)).
    set (A2 := (1 - f) * ((x1 - t) * y2 + y1 * c2) + f * ((x2 - t) * y1 + y2 * c1)).
    assert (Z1 : A1 = 0) by (unfold A1, c1, c2 in *; lra).
    assert (Z2 : A2 = 0) by (unfold A2, c1, c2 in *; lra).
    replace (3 * t * ((1 - f) * y1 * (c2 * c2 + y2 * y2) + f * y2 * (c1 * c1 + y1 * y1)))
      with (A2 * (c1 * c2 - y1 * y2) - A1 * (c1 * y2 + y1 * c2)) by (unfold A1, A2, c1, c2; ring).
    rewrite Z1, Z2. ring. }
  assert (Pos : 0 < (1 - f) * y1 * (c2 * c2 + y2 * y2) + f * y2 * (c1 * c1 + y1 * y1)).
  { assert (0 < y2 * y2) by nra. assert (0 < y1 * y1) by nra.
    assert (0 <= c1 * c1) by apply Rle_0_sqr. assert (0 <= c2 * c2) by apply Rle_0_sqr.
    apply Rplus_lt_0_compat; (apply Rmult_lt_0_compat; [apply Rmult_lt_0_compat|]); lra. }
  assert (T : t = 0) by (apply Rmult_integral in K; destruct K; lra). subst t. unfold c1, c2 in *.
  (* then z w = 0 *)
  assert (M1 : x1 * x2 - y1 * y2 = 0) by lra. assert (M2 : x1 * y2 + x2 * y1 = 0) by lra.
  assert (M3 : (x1 * x1 + y1 * y1) * (x2 * x2 + y2 * y2) = 0).
  { replace ((x1 * x1 + y1 * y1) * (x2 * x2 + y2 * y2)) with
      ((x1 * x2 - y1 * y2) * (x1 * x2 - y1 * y2) + (x1 * y2 + x2 * y1) * (x1 * y2 + x2 * y1)) by ring.
    rewrite M1, M2. ring. }
  apply Rmult_integral in M3. destruct M3; nra.
Qed.

Lemma br_passive_unique f z w e : 0 < f < 1 -> 0 < snd z -> 0 < snd w -> bruggeman_choice f z w e ->
  0 < snd e /\ forall e', bruggeman_rule f z w e' -> passive e' -> e' = e.
Proof.
  intros F Yz Yw Ch. assert (F' : 0 <= f <= 1) by lra.
  assert (Pz : passive z) by (unfold passive; lra). assert (Pw : passive w) by (unfold passive; lra).
  destruct (br_passive _ _ _ _ F' Pz Pw Ch) as [R P].
  pose proof (br_not_real _ _ _ _ F Yz Yw R) as N. unfold passive in P. split; [lra|].
  destruct Ch as (a & b & Pr & _). pose proof (br_signs _ _ _ _ _ F' Pz Pw Pr) as Sg. destruct Pr as [Pr _].
  intros e' R' P'. pose proof (br_not_real _ _ _ _ F Yz Yw R') as N'. unfold passive in P'.
  assert (E1 : 0 < snd e) by lra. assert (E2 : 0 < snd e') by lra.
  apply Pr in R, R'. destruct R as [->| ->], R' as [->| ->]; try reflexivity; exfalso;
    (assert (0 < snd a * snd b) by (apply Rmult_lt_0_compat; lra)); lra.
Qed.

(** pure constituents *)
Lemma br_rule_0 z w e : bruggeman_rule 0 z w e <-> e = z \/ e = (- / 2 * w)%C.
Proof.
  unfold bruggeman_rule. rewrite <- half_c.
  replace ((1 - 0) * (z - e) * (w + 2 * e) + 0 * (w - e) * (z + 2 * e))%C
    with (Cmult (RtoC (- 2)) (Cmult (Cminus e z) (Cminus e (- RtoC (1 / 2) * w)%C))) by (apply C_eq; cbn; field).
  split.
  - intros E. apply Cmult_zero in E. destruct E as [E|E]; [apply C_components in E; cbn in E; lra|].
    apply Cmult_zero in E. destruct E as [E|E]; apply Cminus_zero in E; auto.
  - intros [-> | ->]; cring.
Qed.
Lemma br_swap f z w e : bruggeman_rule f z w e <-> bruggeman_rule (1 - f) w z e.
Proof.
  unfold bruggeman_rule.
  replace ((1 - (1 - f)%R) * (w - e) * (z + 2 * e) + (1 - f)%R * (z - e) * (w + 2 * e))%C
    with ((1 - f) * (z - e) * (w + 2 * e) + f * (w - e) * (z + 2 * e))%C; [tauto|]. cring.
Qed.
Lemma br_choice_swap f z w e : bruggeman_choice f z w e -> bruggeman_choice (1 - f) w z e.
Proof.
  intros (a & b & [P1 P2] & Ch). exists a, b. split; [|exact Ch]. split; [|exact P2].
  intros e'. rewrite <- P1. symmetry. apply br_swap.
Qed.
Lemma br_pure_0 z w e : passive z -> 0 < snd w -> bruggeman_choice 0 z w e -> e = z.
Proof.
  intros Pz Pw Ch. destruct (br_passive 0 z w e) as [R P]; [lra|assumption|unfold passive; lra|assumption|].
  apply br_rule_0 in R. destruct R as [R|R]; [exact R|exfalso]. subst e. rewrite <- half_c in P.
  unfold passive in P. cbn in P. lra.
Qed.
Lemma br_pure_1 z w e : 0 < snd z -> passive w -> bruggeman_choice 1 z w e -> e = w.
Proof.
  intros Pz Pw Ch. apply br_choice_swap in Ch. replace (1 - 1) with 0 in Ch by ring. eapply br_pure_0; eassumption.
Qed.
Lemma br_lossless_metal a b e : 0 < a -> b < - 2 * a -> bruggeman_choice 0 (RtoC a) (RtoC b) e -> e = RtoC (- b / 2).
Proof.
  intros A B (u & v & [P1 P2] & Ch).
  assert (K : forall e, e = u \/ e = v <-> e = RtoC a \/ e = RtoC (- b / 2)).
  { intros t. rewrite <- P1, br_rule_0.
    replace (- / 2 * b)%C with (RtoC (- b / 2)); [tauto|]. rewrite <- half_c. apply C_eq; cbn; field. }
  assert (Ku := proj1 (K u) (or_introl eq_refl)). assert (Kv := proj1 (K v) (or_intror eq_refl)).
  assert (Kb := proj2 (K (RtoC (- b / 2))) (or_intror eq_refl)).
  assert (U : u = RtoC (- b / 2)).
  { destruct Ku as [->|Ku]; [|exact Ku]. destruct Kb as [Kb|Kb]; [congruence|]. subst v. cbn in P2. lra. }
  subst u. destruct Ch as [[_ H]|[[H _]|[H _]]]; [exact H|cbn in H; lra|cbn in H; lra].
Qed.
