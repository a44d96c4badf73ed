(** Theorems about the mixing rules of the effective media against each other (C103). *)
From Verif Require Import PyBase PyStr XReal CNum SpectrumModel SpectrumSpec SpectralModel SpectralSpec TextModel MaterialModel MaterialSpec EffectiveModel EffectiveSpec MixProofs EffectiveProofs EffectiveThms MixingSpec.
From Coq Require Import Lra.
From Verif Require Import MixingThms.
Open Scope R_scope.
Open Scope string_scope.
Open Scope list_scope.

(** C103: for positive permittivities the three mixtures are real and ordered at every sample *)
Theorem C103_order : forall X py s m1 m2 lams e1 e2 f, sampled X s m1 m2 lams e1 e2 -> 0 <= f <= 1 -> shape_known py s m1 ->
  Forall positive_real e1 -> Forall positive_real e2 ->
  exists mg br lin, mixes_to X py MaxwellGarnett s m1 m2 f lams mg /\ mixes_to X py Bruggeman s m1 m2 f lams br /\ mixes_to X py Simple s m1 m2 f lams lin /\
    at_every_sample e1 e2 (fun z w i => exists x y v, real_value mg i x /\ real_value br i y /\ real_value lin i v /\ ordered f (fst z) (fst w) x y v).
Proof. exact C103_order_l. Qed.
Print Assumptions C103_order.

(** C103: linear and Bruggeman mixing do not distinguish host and inclusion: f of the second
    constituent in the first is 1 - f of the first in the second, for all permittivities *)
Theorem C103_swap : forall X py k s m1 m2 lams e1 e2 f, k = Simple \/ k = Bruggeman -> sampled X s m1 m2 lams e1 e2 -> 0 <= f <= 1 ->
  (k = Bruggeman -> shape_known py s m1 /\ shape_known py s m2) ->
  exists es, mixes_to X py k s m1 m2 f lams es /\ mixes_to X py k s m2 m1 (1 - f) lams es.
Proof. exact C103_swap_l. Qed.
Print Assumptions C103_swap.

(** C103: Maxwell-Garnett mixing does: exchanging the roles of two different positive constituents
    always changes a true mixture, the one with the smaller permittivity as host being smaller *)
Theorem C103_garnett_host : forall X py s m1 m2 lams e1 e2 f, sampled X s m1 m2 lams e1 e2 -> 0 < f < 1 ->
  Forall positive_real e1 -> Forall positive_real e2 ->
  exists es es', mixes_to X py MaxwellGarnett s m1 m2 f lams es /\ mixes_to X py MaxwellGarnett s m2 m1 (1 - f) lams es' /\
    at_every_sample e1 e2 (fun z w i => exists x y, real_value es i x /\ real_value es' i y /\ (fst z < fst w -> x < y) /\ (fst w < fst z -> y < x)).
Proof. exact C103_garnett_host_l. Qed.
Print Assumptions C103_garnett_host.

(** C103: more of the constituent with the larger permittivity never gives a smaller permittivity *)
Theorem C103_monotone : forall X py k s m1 m2 lams e1 e2 f g, k <> EffectiveMedium -> sampled X s m1 m2 lams e1 e2 -> 0 <= f <= g -> g <= 1 ->
  (k = Bruggeman -> shape_known py s m1) -> Forall positive_real e1 -> Forall positive_real e2 ->
  exists es es', mixes_to X py k s m1 m2 f lams es /\ mixes_to X py k s m1 m2 g lams es' /\
    at_every_sample e1 e2 (fun z w i => exists x y, real_value es i x /\ real_value es' i y /\ (fst z <= fst w -> x <= y) /\ (fst w <= fst z -> y <= x)).
Proof. exact C103_monotone_l. Qed.
Print Assumptions C103_monotone.

Example C103_instance : forall X py rd, exists s m1 m2 e1 e2, sampled X s m1 m2 [/ 10 ^ 6 * 2; / 10 ^ 6 * 1] e1 e2 /\
  mk_material rd [("fixed_eps", PComplex (CF (RtoC 2)))] = Ok m1 /\ mk_material rd [("fixed_eps", PComplex (CF (RtoC 9)))] = Ok m2 /\
  shape_known py s m1 /\ shape_known py s m2 /\ Forall positive_real e1 /\ Forall positive_real e2 /\
  nth_error e1 0 = Some (RtoC 2) /\ nth_error e2 0 = Some (RtoC 9).
Proof.
  intros X py rd. destruct (fixed_sampled X rd (RtoC 2) (RtoC 9)) as (m1 & m2 & s & E1 & E2 & Es & N & S0).
  exists s, m1, m2. do 2 eexists. split; [exact S0|]. split; [exact E1|]. split; [exact E2|]. split; [now apply array_shape|]. split; [now apply array_shape|].
  do 2 (split; [repeat constructor; cbn; lra|]). split; reflexivity.
Qed.

(** C103: a medium mixed with itself, in any fraction, is that medium *)
Theorem C103_same : forall X py k s m1 m2 lams es f, k <> EffectiveMedium -> sampled X s m1 m2 lams es es -> 0 <= f <= 1 ->
  (k = MaxwellGarnett -> Forall (fun z => z <> RtoC 0) es) ->
  (k = Bruggeman -> shape_known py s m1 /\ Forall (fun z => 0 < snd z \/ snd z = 0 /\ 0 <= fst z) es) ->
  mixes_to X py k s m1 m2 f lams es.
Proof. exact C103_same_l. Qed.
Print Assumptions C103_same.

(** C103: but a lossless metal mixed with itself by the Bruggeman medium is a dielectric *)
Theorem C103_same_metal_refuted : forall X py s m1 m2 lams es f, sampled X s m1 m2 lams es es -> 0 <= f <= 1 -> shape_known py s m1 ->
  Forall (fun z => fst z < 0 /\ snd z = 0) es ->
  mixes_to X py Bruggeman s m1 m2 f lams (map (fun z => RtoC (- fst z / 2)) es).
Proof. exact C103_same_metal_refuted_l. Qed.
Print Assumptions C103_same_metal_refuted.

Example C103_same_instance : forall X (py : bool) rd, exists s m1 m2 m1' m2', mixes_to X py Bruggeman s m1 m2 (1 / 3) [/ 10 ^ 6 * 2; / 10 ^ 6 * 1] [(-1, 3); (-1, 3)] /\
  mixes_to X py MaxwellGarnett s m1 m2 (1 / 3) [/ 10 ^ 6 * 2; / 10 ^ 6 * 1] [(-1, 3); (-1, 3)] /\
  mixes_to X py Bruggeman s m1' m2' (1 / 3) [/ 10 ^ 6 * 2; / 10 ^ 6 * 1] [RtoC 5; RtoC 5] /\
  mk_material rd [("fixed_eps", PComplex (CF (-1, 3)))] = Ok m1 /\ mk_material rd [("fixed_eps", PComplex (CF (-10, 0)))] = Ok m1'.
Proof.
  intros X py rd. destruct (fixed_sampled X rd (-1, 3) (-1, 3)) as (m1 & m2 & s & E1 & E2 & Es & N & S0). destruct (fixed_sampled X rd (-10, 0) (-10, 0)) as (m1' & m2' & s' & E1' & E2' & Es' & N' & S0').
  rewrite Es in Es'. injection Es' as <-.
  exists s, m1, m2, m1', m2'. split; [|split; [|split; [|split; assumption]]].
  - apply C103_same; [discriminate|exact S0|lra|discriminate|]. intros _. split; [now apply array_shape|repeat constructor; cbn; lra].
  - apply C103_same; [discriminate|exact S0|lra| |discriminate]. intros _. repeat constructor; intros K; apply C_components in K; cbn in K; lra.
  - assert (M := C103_same_metal_refuted X py s m1' m2' _ _ (1 / 3) S0' ltac:(lra) (array_shape _ _ _ N)). cbn [map fst] in M. replace (- -10 / 2) with 5 in M by lra. apply M. repeat constructor; cbn; lra.
Qed.
