(** Theorems about the mixing rules of the effective media against each other (C103). *)
From Verif Require Import PyBase PyStr XReal CNum SpectrumModel SpectrumSpec SpectralModel SpectralSpec TextModel MaterialModel MaterialSpec EffectiveModel EffectiveSpec MixProofs EffectiveProofs EffectiveThms MixingSpec.
From Coq Require Import Lra.
Open Scope R_scope.
Open Scope string_scope.
Open Scope list_scope.

(** *** the rules over the positive reals *)
Definition mg_real (f z w e : R) : Prop := (e - z) * (w + 2 * z) = f * (w - z) * (e + 2 * z).
Definition br_poly (f z w e : R) : R := (1 - f) * (z - e) * (w + 2 * e) + f * (w - e) * (z + 2 * e).
Definition mg_den (f z w : R) : R := w + 2 * z - f * (w - z).
Lemma den_pos f z w : 0 < z -> 0 < w -> 0 <= f <= 1 -> 0 < mg_den f z w.
Proof. intros Z W F. unfold mg_den. assert (0 <= (1 - f) * w) by (apply Rmult_le_pos; lra). assert (0 <= f * z) by (apply Rmult_le_pos; lra). lra. Qed.
Lemma mg_host f z w e : mg_real f z w e -> (e - z) * mg_den f z w = 3 * f * z * (w - z).
Proof. unfold mg_real, mg_den. intros H. replace ((e - z) * (w + 2 * z - f * (w - z))) with ((e - z) * (w + 2 * z) - f * (w - z) * (e - z)) by ring. rewrite H. ring. Qed.
Lemma mg_guest f z w e : mg_real f z w e -> (w - e) * mg_den f z w = (1 - f) * (w - z) * (w + 2 * z).
Proof. intros H. apply mg_host in H. replace ((w - e) * mg_den f z w) with ((w - z) * mg_den f z w - (e - z) * mg_den f z w) by ring. rewrite H. unfold mg_den. ring. Qed.
Lemma mg_poly f z w e : mg_real f z w e -> mg_den f z w * mg_den f z w * br_poly f z w e = 6 * (f * f) * (1 - f) * z * ((w - z) * (w - z)) * (w - z).
Proof.
  intros H. pose proof (mg_host _ _ _ _ H) as A. pose proof (mg_guest _ _ _ _ H) as B. unfold br_poly.
  replace (mg_den f z w * mg_den f z w * ((1 - f) * (z - e) * (w + 2 * e) + f * (w - e) * (z + 2 * e)))
    with (mg_den f z w * ((1 - f) * (- ((e - z) * mg_den f z w)) * (w + 2 * e) + f * ((w - e) * mg_den f z w) * (z + 2 * e))) by ring.
  rewrite A, B.
  replace (mg_den f z w * ((1 - f) * - (3 * f * z * (w - z)) * (w + 2 * e) + f * ((1 - f) * (w - z) * (w + 2 * z)) * (z + 2 * e)))
    with (2 * f * (1 - f) * ((w - z) * (w - z)) * ((e - z) * mg_den f z w)) by ring.
  rewrite A. ring.
Qed.
Lemma sq_pos a : 0 <= a * a.
Proof. pose proof (Rle_0_sqr a) as H. exact H. Qed.
Lemma br_root f z w b x : br_poly f z w b = 0 -> b * br_poly f z w x = (b - x) * (2 * x * b + z * w).
Proof.
  intros H. replace (b * br_poly f z w x) with (b * br_poly f z w x - x * br_poly f z w b) by (rewrite H; ring). unfold br_poly. ring.
Qed.
Lemma sign_of a d x : 0 < a -> a * x = d -> (0 <= d -> 0 <= x) /\ (d <= 0 -> x <= 0).
Proof.
  intros A E. split; intros D; apply Rnot_lt_le; intros L.
  - assert (0 < a * - x) by (apply Rmult_lt_0_compat; lra). lra.
  - assert (0 < a * x) by (apply Rmult_lt_0_compat; lra). lra.
Qed.
Lemma br_side f z w b x : 0 < z -> 0 < w -> 0 < b -> br_poly f z w b = 0 -> 0 <= x ->
  (0 <= br_poly f z w x -> x <= b) /\ (br_poly f z w x <= 0 -> b <= x).
Proof.
  intros Z W B H X. pose proof (br_root f z w b x H) as E.
  assert (0 < 2 * x * b + z * w) as P.
  { assert (0 < z * w) by (apply Rmult_lt_0_compat; lra). assert (0 <= x * b) by (apply Rmult_le_pos; lra). lra. }
  assert ((2 * x * b + z * w) * (b - x) = b * br_poly f z w x) as E' by lra. destruct (sign_of _ _ _ P E') as [S1 S2]. split; intros K.
  - assert (0 <= b * br_poly f z w x) by (apply Rmult_le_pos; lra). specialize (S1 H0). lra.
  - assert (0 <= b * - br_poly f z w x) by (apply Rmult_le_pos; lra). assert (b * br_poly f z w x <= 0) by lra. specialize (S2 H1). lra.
Qed.
Lemma ff_pos f : 0 <= f <= 1 -> 0 <= f * (1 - f).
Proof. intros F. apply Rmult_le_pos; lra. Qed.
Lemma rules_ordered f z w mg br : 0 < z -> 0 < w -> 0 <= f <= 1 -> mg_real f z w mg -> 0 < mg -> br_poly f z w br = 0 -> 0 < br ->
  ordered f z w mg br ((1 - f) * z + f * w).
Proof.
  intros Z W F M Pm B Pb.
  pose proof (den_pos f z w Z W F) as D. pose proof (ff_pos f F) as FF. pose proof (sq_pos (w - z)) as SQ.
  pose proof (mg_poly _ _ _ _ M) as MP. pose proof (mg_host _ _ _ _ M) as MH.
  assert (0 < mg_den f z w * mg_den f z w) as DD by now apply Rmult_lt_0_compat.
  set (S := (1 - f) * w + f * z). assert (0 < S) as PS.
  { unfold S. destruct (Req_dec f 0) as [->|N]; [lra|]. assert (0 < f * z) by (apply Rmult_lt_0_compat; lra). assert (0 <= (1 - f) * w) by (apply Rmult_le_pos; lra). lra. }
  assert (harmonic f z w = z * w / S) as Hh by (unfold harmonic, S in *; field; repeat split; lra). set (h := z * w / S) in *.
  assert (h * S = z * w) as HS by (unfold h; field; lra).
  assert (0 < h) as Ph by (unfold h; apply Rdiv_lt_0_compat; [now apply Rmult_lt_0_compat|exact PS]).
  assert (0 <= f * (1 - f) * ((w - z) * (w - z))) as K0 by (apply Rmult_le_pos; assumption).
  (* harmonic mean and Bruggeman *)
  assert (h <= br) as HB.
  { apply (br_side f z w br h Z W Pb B (Rlt_le _ _ Ph)). apply (proj1 (sign_of S (f * (1 - f) * ((w - z) * (w - z)) * (2 * h)) _ PS
      ltac:(replace (S * br_poly f z w h) with ((1 - f) * (z * S - h * S) * (w + 2 * h) + f * (w * S - h * S) * (z + 2 * h)) by (unfold br_poly; ring); rewrite HS; unfold S; ring))).
    apply Rmult_le_pos; lra. }
  (* harmonic mean and Maxwell-Garnett *)
  assert (h <= mg) as HM.
  { assert ((mg_den f z w * S) * (mg - h) = 2 * z * (f * (1 - f) * ((w - z) * (w - z)))) as E.
    { replace (mg_den f z w * S * (mg - h)) with (S * ((mg - z) * mg_den f z w) + mg_den f z w * (z * S - h * S)) by ring. rewrite MH, HS. unfold S, mg_den. ring. }
    destruct (sign_of _ _ _ (Rmult_lt_0_compat _ _ D PS) E) as [S1 _]. assert (0 <= 2 * z * (f * (1 - f) * ((w - z) * (w - z)))) as K by (apply Rmult_le_pos; lra). specialize (S1 K). lra. }
  set (lin := (1 - f) * z + f * w). assert (0 <= lin) as Pl.
  { unfold lin. assert (0 <= (1 - f) * z) by (apply Rmult_le_pos; lra). assert (0 <= f * w) by (apply Rmult_le_pos; lra). lra. }
  (* Bruggeman and linear *)
  assert (br <= lin) as BL.
  { apply (br_side f z w br lin Z W Pb B Pl). replace (br_poly f z w lin) with (- (f * (1 - f) * ((w - z) * (w - z)))) by (unfold br_poly, lin; ring). lra. }
  (* Maxwell-Garnett and linear *)
  assert (mg <= lin) as ML.
  { assert (mg_den f z w * (lin - mg) = f * (1 - f) * ((w - z) * (w - z))) as E.
    { replace (mg_den f z w * (lin - mg)) with (mg_den f z w * (lin - z) - (mg - z) * mg_den f z w) by ring. rewrite MH. unfold lin, mg_den. ring. }
    destruct (sign_of _ _ _ D E) as [S1 _]. specialize (S1 K0). lra. }
  assert (0 <= 6 * (f * f) * (1 - f) * z * ((w - z) * (w - z))) as K1.
  { apply Rmult_le_pos; [|exact SQ]. apply Rmult_le_pos; [|lra]. apply Rmult_le_pos; [|lra]. pose proof (sq_pos f). lra. }
  destruct (sign_of _ _ _ DD MP) as [S1 S2]. destruct (br_side f z w br mg Z W Pb B (Rlt_le _ _ Pm)) as [T1 T2].
  unfold ordered. rewrite Hh. split; intros L.
  - assert (mg <= br) by (apply T1, S1; apply Rmult_le_pos; lra). repeat split; assumption.
  - assert (br <= mg). { apply T2, S2. assert (0 <= 6 * (f * f) * (1 - f) * z * ((w - z) * (w - z)) * (z - w)) by (apply Rmult_le_pos; lra). lra. }
    repeat split; assumption.
Qed.
(** *** samples *)
Lemma pw_nth {A B C} (P : A -> B -> C -> Prop) l m n : pointwise3 P l m n -> forall i a b, nth_error l i = Some a -> nth_error m i = Some b ->
  exists c, nth_error n i = Some c /\ P a b c.
Proof.
  induction 1 as [|a b c l m n H _ IH]; intros i x y Hx Hy; [destruct i; discriminate Hx|]. destruct i as [|i]; cbn in *; [|now apply IH].
  injection Hx as <-. injection Hy as <-. now exists c.
Qed.
Lemma real_pair e : snd e = 0 -> e = RtoC (fst e).
Proof. destruct e as [a b]. cbn. now intros ->. Qed.
Lemma mg_rule_real f z w e : maxwell_garnett_rule f (RtoC z) (RtoC w) (RtoC e) -> mg_real f z w e.
Proof. intros H. apply C_components in H. destruct H as [H _]. cbn in H. unfold mg_real. lra. Qed.
Lemma br_rule_real f z w e : bruggeman_rule f (RtoC z) (RtoC w) (RtoC e) -> br_poly f z w e = 0.
Proof. intros H. apply C_components in H. destruct H as [H _]. cbn in H. unfold br_poly. lra. Qed.
Lemma lin_rule_real f z w e : linear_rule f (RtoC z) (RtoC w) e -> e = RtoC ((1 - f) * z + f * w).
Proof. intros ->. apply C_eq; cbn; ring. Qed.
Lemma positive_nth l i z : Forall positive_real l -> nth_error l i = Some z -> 0 < fst z /\ z = RtoC (fst z).
Proof. intros F H. apply nth_error_In in H. rewrite Forall_forall in F. destruct (F z H) as [P I]. split; [exact P|]. now apply real_pair. Qed.

Lemma C103_order_l : forall X py s m1 m2 lams e1 e2 f, sampled X s m1 m2 lams e1 e2 -> 0 <= f <= 1 -> shape_known py s m1 ->
  Forall positive_real e1 -> Forall positive_real e2 ->
  exists mg br lin, mixes_to X py MaxwellGarnett s m1 m2 f lams mg /\ mixes_to X py Bruggeman s m1 m2 f lams br /\ mixes_to X py Simple s m1 m2 f lams lin /\
    at_every_sample e1 e2 (fun z w i => exists x y v, real_value mg i x /\ real_value br i y /\ real_value lin i v /\ ordered f (fst z) (fst w) x y v).
Proof.
  intros X py s m1 m2 lams e1 e2 f S F Sh P1 P2.
  destruct (C49_between_l X py s m1 m2 lams e1 e2 f S F P1 P2) as (mg & Hm & Pm).
  destruct (C50_between_l X py s m1 m2 lams e1 e2 f S F Sh P1 P2) as (br & Hb & Pb).
  destruct (C48_linear_l X py s m1 m2 lams e1 e2 f S F) as (lin & Hl & Pl).
  exists mg, br, lin. split; [exact Hm|]. split; [exact Hb|]. split; [exact Hl|]. intros i z w Iz Iw.
  destruct (pw_nth _ _ _ _ Pm i z w Iz Iw) as (x & Ix & Rx & Sx & Bx). destruct (pw_nth _ _ _ _ Pb i z w Iz Iw) as (y & Iy & Ry & [Gy Sy] & By). destruct (pw_nth _ _ _ _ Pl i z w Iz Iw) as (v & Iv & Rv).
  destruct (positive_nth _ _ _ P1 Iz) as [Z Ez], (positive_nth _ _ _ P2 Iw) as [W Ew]. pose proof (real_pair _ Sx) as Ex. pose proof (real_pair _ Sy) as Ey.
  rewrite Ez, Ew in Rv. apply lin_rule_real in Rv. rewrite Ez, Ew, Ex in Rx. rewrite Ez, Ew, Ey in Ry.
  exists (fst x), (fst y), ((1 - f) * fst z + f * fst w). unfold real_value. rewrite <- Ex, <- Ey, <- Rv. split; [exact Ix|]. split; [exact Iy|]. split; [exact Iv|].
  apply rules_ordered; try assumption; [now apply mg_rule_real| |now apply br_rule_real].
  destruct Bx as [Bx _]. pose proof (Rmin_glb_lt _ _ _ Z W). lra.
Qed.

Lemma sampled_swap X s m1 m2 lams e1 e2 : sampled X s m1 m2 lams e1 e2 -> sampled X s m2 m1 lams e2 e1.
Proof. intros []. now constructor. Qed.
Lemma pw_swap {A B C} (P : A -> B -> C -> Prop) (Q : B -> A -> C -> Prop) : (forall a b c, P a b c -> Q b a c) -> forall l m n, pointwise3 P l m n -> pointwise3 Q m l n.
Proof. intros H. induction 1; constructor; auto. Qed.
Lemma pw_unique {A B C} (P : A -> B -> C -> Prop) : (forall a b c d, P a b c -> P a b d -> c = d) -> forall l m n n', pointwise3 P l m n -> pointwise3 P l m n' -> n = n'.
Proof. intros H l m n n' K. revert n'. induction K as [|a b c l m n Pc _ IH]; intros n' K'; inversion K'; subst; [reflexivity|]. f_equal; eauto. Qed.
Lemma br_rule_swap f z w e : bruggeman_rule f z w e <-> bruggeman_rule (1 - f) w z e.
Proof.
  unfold bruggeman_rule. replace ((1 - RtoC (1 - f)) * (w - e) * (z + 2 * e) + RtoC (1 - f) * (z - e) * (w + 2 * e))%C
    with ((1 - RtoC f) * (z - e) * (w + 2 * e) + RtoC f * (w - e) * (z + 2 * e))%C; [reflexivity|].
  apply C_eq; cbn; ring.
Qed.
Lemma br_choice_swap f z w e : bruggeman_choice f z w e -> bruggeman_choice (1 - f) w z e.
Proof. intros (a & b & (P & O) & C). exists a, b. split; [|exact C]. split; [|exact O]. intros e0. rewrite <- br_rule_swap. apply P. Qed.
Lemma br_choice_unique f z w e e' : bruggeman_choice f z w e -> bruggeman_choice f z w e' -> e = e'.
Proof.
  intros (a & b & P & C) (a' & b' & P' & C'). destruct (C50_two_solutions_l f z w) as (a0 & b0 & _ & U). destruct (U _ _ P) as [-> ->], (U _ _ P') as [-> ->].
  destruct C as [[C ->]|[(C & D & ->)|(C & D & ->)]], C' as [[C' ->]|[(C' & D' & ->)|(C' & D' & ->)]]; try reflexivity; lra.
Qed.

Lemma C103_swap_l : forall X py k s m1 m2 lams e1 e2 f, k = Simple \/ k = Bruggeman -> sampled X s m1 m2 lams e1 e2 -> 0 <= f <= 1 ->
  (k = Bruggeman -> shape_known py s m1 /\ shape_known py s m2) ->
  exists es, mixes_to X py k s m1 m2 f lams es /\ mixes_to X py k s m2 m1 (1 - f) lams es.
Proof.
  intros X py k s m1 m2 lams e1 e2 f [->| ->] S F Sh; pose proof (sampled_swap _ _ _ _ _ _ _ S) as S'.
  - destruct (C48_linear_l X py s m1 m2 lams e1 e2 f S F) as (es & H & P). destruct (C48_linear_l X py s m2 m1 lams e2 e1 (1 - f) S' ltac:(lra)) as (es' & H' & P').
    exists es. split; [exact H|]. replace es with es'; [exact H'|]. eapply pw_unique; [|exact P'|].
    + intros a b c d. unfold linear_rule. congruence.
    + eapply pw_swap; [|exact P]. intros a b c ->. unfold linear_rule. apply C_eq; cbn; ring.
  - destruct (Sh eq_refl) as [Sh1 Sh2]. destruct (C50_choice_l X py s m1 m2 lams e1 e2 f S F Sh1) as (es & H & P). destruct (C50_choice_l X py s m2 m1 lams e2 e1 (1 - f) S' ltac:(lra) Sh2) as (es' & H' & P').
    exists es. split; [exact H|]. replace es with es'; [exact H'|]. eapply pw_unique; [|exact P'|].
    + intros a b c d. apply br_choice_unique.
    + eapply pw_swap; [|exact P]. intros a b c. apply br_choice_swap.
Qed.

Lemma C103_garnett_host_l : forall X py s m1 m2 lams e1 e2 f, sampled X s m1 m2 lams e1 e2 -> 0 < f < 1 ->
  Forall positive_real e1 -> Forall positive_real e2 ->
  exists es es', mixes_to X py MaxwellGarnett s m1 m2 f lams es /\ mixes_to X py MaxwellGarnett s m2 m1 (1 - f) lams es' /\
    at_every_sample e1 e2 (fun z w i => exists x y, real_value es i x /\ real_value es' i y /\ (fst z < fst w -> x < y) /\ (fst w < fst z -> y < x)).
Proof.
  intros X py s m1 m2 lams e1 e2 f S F P1 P2. pose proof (sampled_swap _ _ _ _ _ _ _ S) as S'.
  destruct (C49_between_l X py s m1 m2 lams e1 e2 f S ltac:(lra) P1 P2) as (es & H & P). destruct (C49_between_l X py s m2 m1 lams e2 e1 (1 - f) S' ltac:(lra) P2 P1) as (es' & H' & P').
  exists es, es'. split; [exact H|]. split; [exact H'|]. intros i z w Iz Iw.
  destruct (pw_nth _ _ _ _ P i z w Iz Iw) as (x & Ix & Rx & Sx & _), (pw_nth _ _ _ _ P' i w z Iw Iz) as (y & Iy & Ry & Sy & _).
  destruct (positive_nth _ _ _ P1 Iz) as [Z Ez], (positive_nth _ _ _ P2 Iw) as [W Ew]. pose proof (real_pair _ Sx) as Ex. pose proof (real_pair _ Sy) as Ey.
  rewrite Ez, Ew, Ex in Rx. rewrite Ez, Ew, Ey in Ry. apply mg_rule_real in Rx, Ry. exists (fst x), (fst y). unfold real_value. rewrite <- Ex, <- Ey. split; [exact Ix|]. split; [exact Iy|].
  revert Rx Ry Z W. clear - F. generalize (fst x), (fst y), (fst z), (fst w). clear x y z w. intros x y a b Rx Ry A B.
  pose proof (den_pos f a b A B ltac:(lra)) as D. pose proof (den_pos (1 - f) b a B A ltac:(lra)) as D'.
  apply mg_host in Rx. apply mg_guest in Ry.
  assert (mg_den f a b * mg_den (1 - f) b a * (y - x) = 2 * f * (1 - f) * ((b - a) * (b - a)) * (b - a)) as E.
  { replace (mg_den f a b * mg_den (1 - f) b a * (y - x)) with (mg_den (1 - f) b a * (mg_den f a b * (a - x)) - mg_den f a b * ((a - y) * mg_den (1 - f) b a)) by ring.
    replace (mg_den f a b * (a - x)) with (- ((x - a) * mg_den f a b)) by ring. rewrite Rx, Ry. unfold mg_den. ring. }
  assert (0 < mg_den f a b * mg_den (1 - f) b a) as DD by now apply Rmult_lt_0_compat.
  assert (0 < f * (1 - f)) as FF by (apply Rmult_lt_0_compat; lra).
  split; intros L.
  - assert (0 < (b - a) * (b - a)) as Q by (apply Rmult_lt_0_compat; lra).
    assert (0 < f * (1 - f) * ((b - a) * (b - a)) * (b - a)) as K by (apply Rmult_lt_0_compat; [now apply Rmult_lt_0_compat|lra]).
    apply Rnot_le_lt. intros C. assert (0 <= mg_den f a b * mg_den (1 - f) b a * (x - y)) by (apply Rmult_le_pos; lra). lra.
  - assert (0 < (a - b) * (a - b)) as Q by (apply Rmult_lt_0_compat; lra).
    assert (0 < f * (1 - f) * ((a - b) * (a - b)) * (a - b)) as K by (apply Rmult_lt_0_compat; [now apply Rmult_lt_0_compat|lra]).
    apply Rnot_le_lt. intros C. assert (0 <= mg_den f a b * mg_den (1 - f) b a * (y - x)) by (apply Rmult_le_pos; lra). lra.
Qed.

Lemma mg_mono f g z w x y : 0 < z -> 0 < w -> 0 <= f <= g -> g <= 1 -> mg_real f z w x -> mg_real g z w y -> (z <= w -> x <= y) /\ (w <= z -> y <= x).
Proof.
  intros Z W F G X Y. pose proof (den_pos f z w Z W ltac:(lra)) as D. pose proof (den_pos g z w Z W ltac:(lra)) as D'. apply mg_host in X, Y.
  assert (mg_den f z w * mg_den g z w * (y - x) = 3 * z * (w + 2 * z) * (g - f) * (w - z)) as E.
  { replace (mg_den f z w * mg_den g z w * (y - x)) with (mg_den f z w * ((y - z) * mg_den g z w) - mg_den g z w * ((x - z) * mg_den f z w)) by ring. rewrite X, Y. unfold mg_den. ring. }
  destruct (sign_of _ _ _ (Rmult_lt_0_compat _ _ D D') E) as [S1 S2].
  assert (0 <= z * (w + 2 * z) * (g - f)) as K by (apply Rmult_le_pos; [apply Rmult_le_pos; lra|lra]). split; intros L.
  - assert (0 <= z * (w + 2 * z) * (g - f) * (w - z)) by (apply Rmult_le_pos; lra). assert (0 <= y - x) by (apply S1; lra). lra.
  - assert (0 <= z * (w + 2 * z) * (g - f) * (z - w)) by (apply Rmult_le_pos; lra). assert (y - x <= 0) by (apply S2; lra). lra.
Qed.
Lemma br_mono f g z w x y : 0 < z -> 0 < w -> f <= g -> br_poly f z w x = 0 -> 0 < x -> br_poly g z w y = 0 -> 0 < y -> (z <= w -> x <= y) /\ (w <= z -> y <= x).
Proof.
  intros Z W G X Px Y Py. destruct (br_side g z w y x Z W Py Y ltac:(lra)) as [T1 T2].
  assert (br_poly g z w x = 3 * x * (g - f) * (w - z)) as E by (replace (br_poly g z w x) with (br_poly f z w x + 3 * x * (g - f) * (w - z)) by (unfold br_poly; ring); rewrite X; ring).
  assert (0 <= x * (g - f)) as K by (apply Rmult_le_pos; lra). split; intros L.
  - apply T1. rewrite E. assert (0 <= x * (g - f) * (w - z)) by (apply Rmult_le_pos; lra). lra.
  - apply T2. rewrite E. assert (0 <= x * (g - f) * (z - w)) by (apply Rmult_le_pos; lra). lra.
Qed.

Lemma C103_monotone_l : forall X py k s m1 m2 lams e1 e2 f g, k <> EffectiveMedium -> sampled X s m1 m2 lams e1 e2 -> 0 <= f <= g -> g <= 1 ->
  (k = Bruggeman -> shape_known py s m1) -> Forall positive_real e1 -> Forall positive_real e2 ->
  exists es es', mixes_to X py k s m1 m2 f lams es /\ mixes_to X py k s m1 m2 g lams es' /\
    at_every_sample e1 e2 (fun z w i => exists x y, real_value es i x /\ real_value es' i y /\ (fst z <= fst w -> x <= y) /\ (fst w <= fst z -> y <= x)).
Proof.
  intros X py k s m1 m2 lams e1 e2 f g Nk S F G Sh P1 P2. destruct k; [congruence| | |].
  - destruct (C48_linear_l X py s m1 m2 lams e1 e2 f S ltac:(lra)) as (es & H & P). destruct (C48_linear_l X py s m1 m2 lams e1 e2 g S ltac:(lra)) as (es' & H' & P').
    exists es, es'. split; [exact H|]. split; [exact H'|]. intros i z w Iz Iw. destruct (pw_nth _ _ _ _ P i z w Iz Iw) as (x & Ix & Rx), (pw_nth _ _ _ _ P' i z w Iz Iw) as (y & Iy & Ry).
    destruct (positive_nth _ _ _ P1 Iz) as [Z Ez], (positive_nth _ _ _ P2 Iw) as [W Ew]. rewrite Ez, Ew in Rx, Ry. apply lin_rule_real in Rx, Ry.
    exists ((1 - f) * fst z + f * fst w), ((1 - g) * fst z + g * fst w). unfold real_value. rewrite <- Rx, <- Ry. split; [exact Ix|]. split; [exact Iy|]. split; intros L.
    + assert (0 <= (g - f) * (fst w - fst z)) by (apply Rmult_le_pos; lra). lra.
    + assert (0 <= (g - f) * (fst z - fst w)) by (apply Rmult_le_pos; lra). lra.
  - destruct (C49_between_l X py s m1 m2 lams e1 e2 f S ltac:(lra) P1 P2) as (es & H & P). destruct (C49_between_l X py s m1 m2 lams e1 e2 g S ltac:(lra) P1 P2) as (es' & H' & P').
    exists es, es'. split; [exact H|]. split; [exact H'|]. intros i z w Iz Iw. destruct (pw_nth _ _ _ _ P i z w Iz Iw) as (x & Ix & Rx & Sx & _), (pw_nth _ _ _ _ P' i z w Iz Iw) as (y & Iy & Ry & Sy & _).
    destruct (positive_nth _ _ _ P1 Iz) as [Z Ez], (positive_nth _ _ _ P2 Iw) as [W Ew]. pose proof (real_pair _ Sx) as Ex. pose proof (real_pair _ Sy) as Ey.
    rewrite Ez, Ew, Ex in Rx. rewrite Ez, Ew, Ey in Ry. apply mg_rule_real in Rx, Ry. exists (fst x), (fst y). unfold real_value. rewrite <- Ex, <- Ey. split; [exact Ix|]. split; [exact Iy|].
    eapply mg_mono; eassumption.
  - destruct (C50_between_l X py s m1 m2 lams e1 e2 f S ltac:(lra) (Sh eq_refl) P1 P2) as (es & H & P). destruct (C50_between_l X py s m1 m2 lams e1 e2 g S ltac:(lra) (Sh eq_refl) P1 P2) as (es' & H' & P').
    exists es, es'. split; [exact H|]. split; [exact H'|]. intros i z w Iz Iw. destruct (pw_nth _ _ _ _ P i z w Iz Iw) as (x & Ix & Rx & [Gx Sx] & _), (pw_nth _ _ _ _ P' i z w Iz Iw) as (y & Iy & Ry & [Gy Sy] & _).
    destruct (positive_nth _ _ _ P1 Iz) as [Z Ez], (positive_nth _ _ _ P2 Iw) as [W Ew]. pose proof (real_pair _ Sx) as Ex. pose proof (real_pair _ Sy) as Ey.
    rewrite Ez, Ew, Ex in Rx. rewrite Ez, Ew, Ey in Ry. apply br_rule_real in Rx, Ry. exists (fst x), (fst y). unfold real_value. rewrite <- Ex, <- Ey. split; [exact Ix|]. split; [exact Iy|].
    apply (br_mono f g); try assumption; lra.
Qed.

Lemma pw_diag {A B} (P : A -> A -> B -> Prop) (h : A -> B) l : Forall (fun z => P z z (h z)) l -> pointwise3 P l l (map h l).
Proof. induction 1; constructor; assumption. Qed.
Lemma br_same f z e : bruggeman_rule f z z e <-> e = z \/ e = (- fst z / 2, - snd z / 2).
Proof.
  unfold bruggeman_rule. replace ((1 - RtoC f) * (z - e) * (z + 2 * e) + RtoC f * (z - e) * (z + 2 * e))%C with ((z - e) * (z + 2 * e))%C by (apply C_eq; cbn; ring).
  split.
  - intros H. destruct (Cmult_zero _ _ H) as [K|K]; [left|right]; apply C_components in K; destruct K as [K1 K2], z as [a b], e as [c d]; cbn in *; apply C_eq; cbn; lra.
  - intros [->| ->]; apply C_eq; cbn; field.
Qed.
Lemma br_choice_same f z : 0 < snd z \/ snd z = 0 /\ 0 <= fst z -> bruggeman_choice f z z z.
Proof.
  intros H. destruct (Rlt_dec (fst z) 0) as [L|L].
  - exists (- fst z / 2, - snd z / 2), z. split; [split; [intros e; rewrite br_same; tauto|cbn; lra]|]. right; left. cbn. split; [lra|]. split; [lra|reflexivity].
  - exists z, (- fst z / 2, - snd z / 2). split; [split; [intros e; apply br_same|cbn; lra]|]. left. split; [lra|reflexivity].
Qed.
Lemma br_choice_metal f z : fst z < 0 /\ snd z = 0 -> bruggeman_choice f z z (RtoC (- fst z / 2)).
Proof.
  intros [L E]. exists (- fst z / 2, - snd z / 2), z. split; [split; [intros e; rewrite br_same; tauto|cbn; lra]|]. left. cbn. split; [lra|]. unfold RtoC. f_equal. lra.
Qed.

Lemma C103_same_l : forall X py k s m1 m2 lams es f, k <> EffectiveMedium -> sampled X s m1 m2 lams es es -> 0 <= f <= 1 ->
  (k = MaxwellGarnett -> Forall (fun z => z <> RtoC 0) es) ->
  (k = Bruggeman -> shape_known py s m1 /\ Forall (fun z => 0 < snd z \/ snd z = 0 /\ 0 <= fst z) es) ->
  mixes_to X py k s m1 m2 f lams es.
Proof.
  intros X py k s m1 m2 lams es f Nk S F Mg Br. destruct k; [congruence| | |].
  - destruct (C48_linear_l X py s m1 m2 lams es es f S F) as (es' & H & P). replace es with es'; [exact H|]. eapply pw_unique; [|exact P|].
    + intros a b c d. unfold linear_rule. congruence.
    + rewrite <- (map_id es) at 3. apply pw_diag, Forall_forall. intros z _. unfold linear_rule. apply C_eq; cbn; ring.
  - specialize (Mg eq_refl). destruct (C49_rule_l X py s m1 m2 lams es es f S F) as (es' & H & P).
    { intros z w I. assert (z = w /\ In z es) as [<- Iz].
      { clear - I. induction es as [|a l IH]; [destruct I|]. cbn in I. destruct I as [I|I]; [injection I as <- <-; split; [reflexivity|now left]|]. destruct (IH I) as [A B]. split; [exact A|now right]. }
      rewrite Forall_forall in Mg. specialize (Mg z Iz). unfold mg_pole. intros K. apply Mg. apply C_components in K. destruct K as [K1 K2], z as [a b]. cbn in *. apply C_eq; cbn; lra. }
    replace es with es'; [exact H|]. eapply pw_unique; [|exact P|].
    + intros a b c d [A _] [_ B]. now apply B.
    + rewrite <- (map_id es) at 3. apply pw_diag, Forall_forall. intros z Iz. rewrite Forall_forall in Mg. specialize (Mg z Iz).
      assert (forall e, maxwell_garnett_rule f z z e <-> e = z) as U.
      { intros e. unfold maxwell_garnett_rule. split.
        - intros K. assert (((e - z) * z)%C = RtoC 0) as K'. { apply C_components in K. destruct K as [K1 K2], z as [a b], e as [c d]. cbn in *. apply C_eq; cbn; lra. }
          destruct (Cmult_zero _ _ K') as [Z|Z]; [|contradiction]. apply C_components in Z. destruct Z as [Z1 Z2], z as [a b], e as [c d]. cbn in *. apply C_eq; cbn; lra.
        - intros ->. apply C_eq; cbn; ring. }
      split; [now apply U|]. intros e' K. now apply U.
  - destruct (Br eq_refl) as [Sh Fo]. destruct (C50_choice_l X py s m1 m2 lams es es f S F Sh) as (es' & H & P). replace es with es'; [exact H|]. eapply pw_unique; [|exact P|].
    + intros a b c d. apply br_choice_unique.
    + rewrite <- (map_id es) at 3. apply pw_diag. eapply Forall_impl; [|exact Fo]. intros z. apply br_choice_same.
Qed.

Lemma C103_same_metal_refuted_l : forall X py s m1 m2 lams es f, sampled X s m1 m2 lams es es -> 0 <= f <= 1 -> shape_known py s m1 ->
  Forall (fun z => fst z < 0 /\ snd z = 0) es ->
  mixes_to X py Bruggeman s m1 m2 f lams (map (fun z => RtoC (- fst z / 2)) es).
Proof.
  intros X py s m1 m2 lams es f S F Sh Fo. destruct (C50_choice_l X py s m1 m2 lams es es f S F Sh) as (es' & H & P).
  replace (map (fun z => RtoC (- fst z / 2)) es) with es'; [exact H|]. eapply pw_unique; [|exact P|].
  - intros a b c d. apply br_choice_unique.
  - apply pw_diag. eapply Forall_impl; [|exact Fo]. intros z. apply br_choice_metal.
Qed.
