(** C104: linear mixing in double precision *)
From Coq Require Import Reals Lra Lia ZArith.
From Flocq Require Import Core BinarySingleNaN.
From Verif Require Import PyBase PyStr XReal SpectrumModel SpectrumSpec FloatModel FloatSpec FloatTableModel FloatTableSpec FloatProofs FloatConvProofs FloatRangeProofs FloatCheckProofs FloatTableProofs FloatThms FloatTableThms FloatMixModel FloatMixSpec FloatMixProofs.
From Verif Require Import FloatMixThms.
Open Scope R_scope. Open Scope string_scope. Open Scope list_scope.

(** C104: the medium answers at the wavelengths it was built for with the mixture of the two
    permittivities, up to a few roundings; the spectrum object is then in metres *)
Theorem C104_accurate : forall lib p1 p2 s f (ws : list float) (z1 z2 : list (float * float)),
  exact_at_knots lib -> is_finite f = true -> 0 <= B2R f <= 1 -> fp_std s = FA ws -> tabulable ws ->
  p1 s = Ok (FCA z1) -> p2 s = Ok (FCA z2) -> length z1 = length ws -> length z2 = length ws -> Forall moderate2 z1 -> Forall moderate2 z2 ->
  exists m s' es, f_simple p1 p2 s f = Ok (m, s') /\
    fp_std s' = FA ws /\ fp_values s' = FA ws /\ fp_type s' = "wavelength" /\ fp_unit s' = "m" /\
    f_get_eps lib m s' = Ok (FCA es) /\ f_get_eps lib m s = Ok (FCA es) /\
    Forall2 (fun p e => (is_finite (fst e) = true /\ mixed (B2R f) (B2R (fst (fst p))) (B2R (fst (snd p))) (B2R (fst e))) /\
                        (is_finite (snd e) = true /\ mixed (B2R f) (B2R (snd (fst p))) (B2R (snd (snd p))) (B2R (snd e)))) (combine z1 z2) es.
Proof. exact C104_accurate_l. Qed.
Print Assumptions C104_accurate.

(** C104: with fraction 0 the medium is the first constituent and with fraction 1 the second, to the last bit *)
Theorem C104_pure : forall lib p1 p2 s f (ws : list float) (z1 z2 : list (float * float)),
  exact_at_knots lib -> exactly 0 f \/ exactly 1 f -> fp_std s = FA ws -> tabulable ws ->
  p1 s = Ok (FCA z1) -> p2 s = Ok (FCA z2) -> length z1 = length ws -> length z2 = length ws ->
  Forall (fun z => is_finite (fst z) = true /\ is_finite (snd z) = true) (z1 ++ z2) ->
  exists m s' es, f_simple p1 p2 s f = Ok (m, s') /\ f_get_eps lib m s' = Ok (FCA es) /\ f_get_eps lib m s = Ok (FCA es) /\
    (exactly 0 f -> Forall2 (fun z e => exactly2 (B2R (fst z)) (B2R (snd z)) e) z1 es) /\
    (exactly 1 f -> Forall2 (fun z e => exactly2 (B2R (fst z)) (B2R (snd z)) e) z2 es).
Proof. exact C104_pure_l. Qed.
Print Assumptions C104_pure.

(** C104: every double below 0 or above 1, however close, is refused as a fraction *)
Theorem C104_fraction_rejected : forall p1 p2 s f, is_finite f = true -> B2R f < 0 \/ 1 < B2R f -> f_simple p1 p2 s f = Raise ValueError.
Proof. exact C104_fraction_rejected_l. Qed.
Print Assumptions C104_fraction_rejected.

(** C104: but the mixture can leave the range between the two values: 30 percent of a medium with
    permittivity 3 in a medium with permittivity 3 is smaller than 3 *)
Theorem C104_same_refuted : forall lib p1 p2 s f (ws : list float),
  exact_at_knots lib -> written (3 / 10) f -> fp_std s = FA ws -> tabulable ws ->
  p1 s = Ok (FCA (map (fun _ => (of_Z 3, of_Z 0)) ws)) -> p2 s = Ok (FCA (map (fun _ => (of_Z 3, of_Z 0)) ws)) ->
  exists m s' es, f_simple p1 p2 s f = Ok (m, s') /\ f_get_eps lib m s' = Ok (FCA es) /\ length es = length ws /\
    Forall (fun e => is_finite (fst e) = true /\ B2R (fst e) < 3) es.
Proof. exact C104_same_refuted_l. Qed.
Print Assumptions C104_same_refuted.

(** a routine that looks the abscissa up satisfies the hypothesis about the interpolation *)
Definition look_up (rows : list (float * float)) (x : float) : float :=
  match find (fun r => feq (fst r) x) rows with Some r => snd r | None => of_Z 0 end.
Lemma look_up_exact : exact_at_knots look_up.
Proof.
  intros rows (_ & F & N) x y I. unfold look_up.
  assert (forall l : list (float * float), Forall fin (map fst l) -> NoDup (map (fun r => B2R (fst r)) l) -> In (x, y) l -> exists r, find (fun r => feq (fst r) x) l = Some r /\ snd r = y) as H.
  { induction l as [|r l IH]; [intros _ _ []|]. cbn [map find]. intros Fl Nl Il. inversion Fl as [|? ? Fr Fl']; subst. inversion Nl as [|? ? Nr Nl']; subst.
    assert (fin x) as Fx by (pose proof (in_map fst _ _ Il) as J; rewrite Forall_forall in Fl; apply Fl; exact J).
    rewrite feq_ok by assumption. destruct (Req_bool_spec (B2R (fst r)) (B2R x)) as [Q|Q].
    - exists r. split; [reflexivity|]. destruct Il as [->|Il]; [reflexivity|]. exfalso. apply Nr. apply in_map_iff. exists (x, y). split; [symmetry; exact Q|exact Il].
    - destruct Il as [->|Il]; [exfalso; apply Q; reflexivity|]. now apply IH. }
  destruct (H rows F) as (r & -> & E); [|exact I|exact E].
  exact (eq_ind _ (@NoDup R) N _ (map_map fst (@B2R 53 1024) rows)).
Qed.
(** 20 percent of a medium with permittivity 9+1j in glass with 2.25, at 500 nm and 1 um: one of the
    constituents is really a material with constant data, the other any that yields these doubles *)
Example C104_instance : exists s ws z1 z2 c0 c1 p2 f, f_spectrum (FA [of_Z 500; of_Z 1000]) "wavelength" "nm" = Ok s /\ fp_std s = FA ws /\ tabulable ws /\
  f_constant (fdiv (of_Z 9) (of_Z 4)) = Ok c0 /\ f_constant (of_Z 0) = Ok c1 /\ f_get_eps look_up (c0, c1) s = Ok (FCA z1) /\ p2 s = Ok (FCA z2) /\
  length z1 = length ws /\ length z2 = length ws /\ Forall moderate2 z1 /\ Forall moderate2 z2 /\ written (2 / 10) f /\ 0 <= B2R f <= 1 /\
  map (fun z => B2R (fst z)) z1 = [9 / 4; 9 / 4] /\ map (fun z => B2R (fst z)) z2 = [9; 9].
Proof.
  set (ws := [fmul (of_Z 500) (lit_neg 9); fmul (of_Z 1000) (lit_neg 9)]).
  assert (forall w, In w ws -> fin w /\ 0 <= B2R w) as W.
  { destruct zero_ok as [O1 O2]. intros w [<-|[<-|[]]]; (split; [vm_compute; reflexivity|]).
    - assert (flt (fmul (of_Z 500) (lit_neg 9)) (of_Z 0) = false) as Q by (vm_compute; reflexivity). rewrite flt_ok in Q by (first [exact O2|vm_compute; reflexivity]). rewrite O1 in Q. destruct (Rlt_bool_spec (B2R (fmul (of_Z 500) (lit_neg 9))) 0); [discriminate|lra].
    - assert (flt (fmul (of_Z 1000) (lit_neg 9)) (of_Z 0) = false) as Q by (vm_compute; reflexivity). rewrite flt_ok in Q by (first [exact O2|vm_compute; reflexivity]). rewrite O1 in Q. destruct (Rlt_bool_spec (B2R (fmul (of_Z 1000) (lit_neg 9))) 0); [discriminate|lra]. }
  set (c := fdiv (of_Z 9) (of_Z 4)).
  destruct (constant_ok c) as (r0 & E0 & C0). destruct (constant_ok (of_Z 0)) as (r1 & E1 & C1).
  set (s := mkFsp "wavelength" "nm" (FA [of_Z 500; of_Z 1000]) (FA ws)).
  assert (Forall (fun x => fin x /\ 0 <= B2R x) ws) as Fw by (apply Forall_forall; exact W).
  assert (B2R c = 9 / 4 /\ fin c) as [Vc Fc].
  { assert (rnd (9 / 4) = 9 / 4) as G.
    { apply rnd_generic. apply generic_format_FLT. apply (FLT_spec _ _ _ _ (Float radix2 9 (-2))); [unfold F2R; cbn; lra|cbn; lia|cbn; lia]. }
    destruct (of_Z_ok 9) as [A1 A2]; [vm_compute; congruence|]. destruct (of_Z_ok 4) as [B1 B2]; [vm_compute; congruence|].
    destruct (div_ok (of_Z 9) (of_Z 4)) as [P Q]; [rewrite B1; lra|rewrite A1, B1, G, Rabs_pos_eq by lra; apply Rlt_trans with (bpow radix2 4); [cbn; lra|now apply bpow_lt]|].
    fold c in P, Q. rewrite A1, B1, G in P. split; [exact P|]. unfold fin. rewrite Q. exact A2. }
  destruct (mul_one c Fc) as [V1 F1]. destruct (mul_one (of_Z 0) (proj2 zero_ok)) as [V0 F0]. rewrite Vc in V1. rewrite (proj1 zero_ok) in V0.
  destruct (complex_ok _ _ F1 F0) as (D1 & D2 & D3 & D4). rewrite V1 in D1. rewrite V0 in D3. set (z := f_complex (fmul c (of_Z 1)) (fmul (of_Z 0) (of_Z 1))) in *.
  assert (1 <= 2 ^ 990) as Big by (apply pow_R1_Rle; lra). assert (2 ^ 1000 = 2 ^ 990 * 1024) as Big2 by (replace 1000%nat with (990 + 10)%nat by reflexivity; rewrite pow_add; f_equal; simpl; lra).
  destruct (of_Z_ok 9) as [N1 N2]; [vm_compute; congruence|]. destruct one_ok as [I1 I2].
  destruct (written_quotient 2 10) as [Wf Wv]; [vm_compute; intuition congruence|vm_compute; intuition congruence|].
  exists s, ws, [z; z], [(of_Z 9, of_Z 1); (of_Z 9, of_Z 1)], (FConst "wavelength" "m" r0 c), (FConst "wavelength" "m" r1 (of_Z 0)), (fun _ => Ok (FCA [(of_Z 9, of_Z 1); (of_Z 9, of_Z 1)])), (fdiv (of_Z 2) (of_Z 10)).
  split; [reflexivity|]. split; [reflexivity|]. split.
  { split; [cbn; lia|]. split; [apply Forall_forall; intros w I; exact (proj1 (W w I))|]. constructor; [|constructor; [intros []|constructor]]. intros [Q|[]].
    assert (feq (fmul (of_Z 1000) (lit_neg 9)) (fmul (of_Z 500) (lit_neg 9)) = false) as Q' by (vm_compute; reflexivity). rewrite (feq_ok _ _ (proj1 (W (fmul (of_Z 1000) (lit_neg 9)) (or_intror (or_introl eq_refl)))) (proj1 (W (fmul (of_Z 500) (lit_neg 9)) (or_introl eq_refl)))) in Q'. rewrite Q in Q'. rewrite Req_bool_true in Q' by exact eq_refl. discriminate Q'. }
  split; [exact E0|]. split; [exact E1|]. split.
  { unfold f_get_eps. cbn [fst snd f_evaluate]. rewrite (C0 s ws eq_refl ltac:(discriminate) Fw). cbn [bind]. rewrite (C1 s ws eq_refl ltac:(discriminate) Fw). reflexivity. }
  split; [reflexivity|]. split; [reflexivity|]. split; [reflexivity|].
  split; [|split; [|split; [split; assumption|split]]].
  - assert (moderate2 z) as Mz.
    { assert (forall v, 0 <= v <= 9 -> Rabs v <= 2 ^ 1000) as Sm by (intros v Hv; rewrite Rabs_pos_eq, Big2 by lra; lra).
      split; split; [exact D2|exact (eq_ind_r (fun v => Rabs v <= 2 ^ 1000) (Sm (9 / 4) ltac:(lra)) D1)|exact D4|exact (eq_ind_r (fun v => Rabs v <= 2 ^ 1000) (Sm 0 ltac:(lra)) D3)]. }
    constructor; [exact Mz|constructor; [exact Mz|constructor]].
  - assert (moderate2 (of_Z 9, of_Z 1)) as Mz.
    { split; split; cbn [fst snd]; [exact N2| |exact I2|]; rewrite Big2; [rewrite N1|rewrite I1]; rewrite Rabs_pos_eq by lra; lra. }
    constructor; [exact Mz|constructor; [exact Mz|constructor]].
  - destruct zero_ok as [O1 O2]. assert (flt (fdiv (of_Z 2) (of_Z 10)) (of_Z 0) = false) as Q1 by (vm_compute; reflexivity). assert (flt (of_Z 1) (fdiv (of_Z 2) (of_Z 10)) = false) as Q2 by (vm_compute; reflexivity).
    rewrite flt_ok in Q1, Q2 by assumption. rewrite O1 in Q1. rewrite I1 in Q2. destruct (Rlt_bool_spec (B2R (fdiv (of_Z 2) (of_Z 10))) 0); [discriminate|]. destruct (Rlt_bool_spec 1 (B2R (fdiv (of_Z 2) (of_Z 10)))); [discriminate|]. lra.
  - split; cbn [map fst]; [exact (f_equal2 (fun a b => [a; b]) D1 D1)|exact (f_equal2 (fun a b => [a; b]) N1 N1)].
Qed.
