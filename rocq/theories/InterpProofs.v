(** Proofs about tabulated data. *)
From Verif Require Import PyBase PyStr XReal CNum SpectrumModel SpectrumSpec SpectrumProofs SpectralModel SpectralSpec SpectralProofs.
From Coq Require Import Permutation Sorted.
Open Scope R_scope.
Open Scope list_scope.

(** sorting tables with real abscissae *)
Fixpoint insR {A} (r : R * A) (l : list (R * A)) : list (R * A) :=
  match l with
  | [] => [r]
  | h :: t => if Rlt_dec (fst h) (fst r) then h :: insR r t else r :: h :: t
  end.
Definition sortR {A} (l : list (R * A)) : list (R * A) := fold_right insR [] l.
(** rows whose ordinates may be anything *)
Definition grows (l : list (R * xr)) : list (xr * xr) := map (fun r => (Fin (fst r), snd r)) l.

Lemma insR_g r l : insert_row (Fin (fst r), snd r) (grows l) = grows (insR r l).
Proof.
  induction l as [|h t IH]; [reflexivity|]. cbn [insR grows map insert_row fst snd xlt is_nan andb].
  rewrite orb_false_r. unfold Rltb. destruct (Rlt_dec (fst h) (fst r)); [|reflexivity].
  cbn [map]. unfold grows in IH. now rewrite IH.
Qed.
Lemma sort_g l : sort_rows (grows l) = grows (sortR l).
Proof.
  induction l as [|h t IH]; [reflexivity|]. cbn [grows map sort_rows fold_right sortR].
  unfold sort_rows, grows in IH. rewrite IH. exact (insR_g h (sortR t)).
Qed.
Definition lift (r : R * R) : R * xr := (fst r, Fin (snd r)).
Lemma grows_lift l : grows (map lift l) = xrows l.
Proof. unfold grows, xrows. rewrite map_map. reflexivity. Qed.
Lemma sortR_lift l : sortR (map lift l) = map lift (sortR l).
Proof.
  induction l as [|h t IH]; [reflexivity|]. cbn [map sortR fold_right]. unfold sortR in IH. rewrite IH.
  generalize (fold_right insR [] t). intros q. induction q as [|c q IHq]; [reflexivity|].
  cbn [insR map lift fst snd]. destruct (Rlt_dec (fst c) (fst h)); [|reflexivity]. cbn [map]. f_equal. exact IHq.
Qed.
Lemma sort_x l : sort_rows (xrows l) = xrows (sortR l).
Proof. now rewrite <- !grows_lift, sort_g, sortR_lift. Qed.

Lemma insR_perm {A} (r : R * A) l : Permutation (r :: l) (insR r l).
Proof.
  induction l as [|h t IH]; cbn; [auto|]. destruct (Rlt_dec _ _); [|auto].
  eapply perm_trans; [apply perm_swap|]. now constructor.
Qed.
Lemma sortR_perm {A} (l : list (R * A)) : Permutation l (sortR l).
Proof.
  induction l as [|h t IH]; cbn; [auto|]. eapply perm_trans; [|apply insR_perm]. now constructor.
Qed.

Definition rle {A} (a b : R * A) := fst a <= fst b.
Definition rlt {A} (a b : R * A) := fst a < fst b.
Lemma insR_sorted {A} (r : R * A) l : StronglySorted rle l -> StronglySorted rle (insR r l).
Proof.
  induction 1 as [|h t S IH F]; cbn; [repeat constructor|].
  destruct (Rlt_dec (fst h) (fst r)) as [L|L].
  - constructor; [assumption|]. apply Permutation_Forall with (1 := insR_perm r t).
    constructor; [unfold rle; lra|assumption].
  - constructor; [now constructor|]. constructor; [unfold rle; lra|].
    eapply Forall_impl; [|exact F]. unfold rle; intros; lra.
Qed.
Lemma sortR_sorted {A} (l : list (R * A)) : StronglySorted rle (sortR l).
Proof. induction l; cbn; [constructor|now apply insR_sorted]. Qed.

Lemma sorted_strict {A} (l : list (R * A)) : StronglySorted rle l -> NoDup (map fst l) -> StronglySorted rlt l.
Proof.
  induction 1 as [|h t S IH F]; intros N; constructor.
  - apply IH. now inversion N.
  - inversion N as [|? ? N1 N2]; subst. rewrite Forall_forall in *. intros x Hx.
    specialize (F x Hx). unfold rle, rlt in *.
    assert (fst h <> fst x) by (intros E; apply N1; rewrite E; now apply in_map). lra.
Qed.
Lemma sortR_strict {A} (l : list (R * A)) : NoDup (map fst l) -> StronglySorted rlt (sortR l).
Proof.
  intros N. apply sorted_strict; [apply sortR_sorted|].
  apply Permutation_NoDup with (2 := N). apply Permutation_map, sortR_perm.
Qed.
Lemma strict_nodup {A} (l : list (R * A)) : StronglySorted rlt l -> NoDup (map fst l).
Proof.
  induction 1 as [|h t S IH F]; cbn; constructor; [|assumption].
  intros Hin. apply in_map_iff in Hin. destruct Hin as (x & E & Hx).
  rewrite Forall_forall in F. specialize (F x Hx). unfold rlt in F. lra.
Qed.

Lemma strict_unique {A} (l1 l2 : list (R * A)) : StronglySorted rlt l1 -> StronglySorted rlt l2 -> Permutation l1 l2 -> l1 = l2.
Proof.
  intros S1. revert l2. induction S1 as [|h t S IH F]; intros l2 S2 P.
  - apply Permutation_nil in P. now subst.
  - destruct S2 as [|h2 t2 S2 F2]; [apply Permutation_sym, Permutation_nil in P; discriminate|].
    rewrite Forall_forall in F, F2. unfold rlt in *.
    assert (h = h2).
    { assert (In h (h2 :: t2)) by (eapply Permutation_in; [exact P|now left]).
      assert (In h2 (h :: t)) by (eapply Permutation_in; [apply Permutation_sym; exact P|now left]).
      destruct H as [H|H]; [auto|]. destruct H0 as [H0|H0]; [auto|].
      specialize (F _ H0). specialize (F2 _ H). lra. }
    subst h2. f_equal. apply IH; [assumption|]. now apply Permutation_cons_inv in P.
Qed.

(** duplicates *)
Lemma adj_dup_g l : StronglySorted rle l ->
  (adj_dup (grows l) = false <-> NoDup (map fst l)).
Proof.
  induction 1 as [|a t S IH F]; [split; [constructor|reflexivity]|].
  destruct t as [|b t]; [split; [repeat constructor; auto|reflexivity]|].
  change (adj_dup (grows (a :: b :: t))) with (Reqb (fst a) (fst b) || adj_dup (grows (b :: t))).
  rewrite orb_false_iff, IH, Reqb_false. rewrite Forall_forall in F.
  split.
  - intros [N H]. constructor; [|assumption]. intros Hin. apply (in_map_iff fst (b :: t)) in Hin.
    destruct Hin as (x & E & Hx). assert (F1 := F b (or_introl eq_refl)). unfold rle in F1.
    destruct Hx as [->|Hx]; [congruence|]. inversion S as [|? ? S' F']; subst.
    rewrite Forall_forall in F'. specialize (F' _ Hx). unfold rle in F'. lra.
  - intros N. inversion N as [|? ? N1 N2]; subst. split; [|assumption].
    intros E. apply N1. rewrite E. now left.
Qed.

Lemma interp1d_check_g l :
  ((2 <= length l)%nat /\ NoDup (map fst l) /\ interp1d_check (grows l) = Ok tt) \/
  (((length l < 2)%nat \/ ~ NoDup (map fst l)) /\ interp1d_check (grows l) = Raise ValueError).
Proof.
  assert (Len : length (grows l) = length l) by (unfold grows; now rewrite map_length).
  unfold interp1d_check. rewrite Len.
  destruct (Nat.ltb_spec (length l) 2) as [H|H]; [right; auto|].
  rewrite sort_g.
  pose proof (adj_dup_g (sortR l) (sortR_sorted l)) as A.
  assert (P : NoDup (map fst (sortR l)) <-> NoDup (map fst l)).
  { split; apply Permutation_NoDup, Permutation_map; [apply Permutation_sym|]; apply sortR_perm. }
  destruct (adj_dup (grows (sortR l))).
  - right. split; [|reflexivity]. right. rewrite <- P. intros N. apply A in N. discriminate.
  - left. rewrite <- P. split; [assumption|]. split; [now apply A|reflexivity].
Qed.
Lemma map_fst_lift l : map fst (map lift l) = map fst l.
Proof. rewrite map_map. reflexivity. Qed.
Lemma interp1d_check_x l :
  ((2 <= length l)%nat /\ NoDup (map fst l) /\ interp1d_check (xrows l) = Ok tt) \/
  (((length l < 2)%nat \/ ~ NoDup (map fst l)) /\ interp1d_check (xrows l) = Raise ValueError).
Proof.
  pose proof (interp1d_check_g (map lift l)) as H. now rewrite map_length, map_fst_lift, grows_lift in H.
Qed.

(** evaluation *)
Lemma lin_line a b v : fst a < fst b ->
  lin (Fin (fst a), Fin (snd a)) (Fin (fst b), Fin (snd b)) (Fin v) = Fin (line a b v).
Proof.
  intros H. unfold lin. cbn [fst snd]. rewrite !xsub_fin. rewrite !xdiv_fin by lra.
  cbn [xmul xadd]. f_equal. unfold line. field. lra.
Qed.

Lemma xle_fin a b : xle (Fin a) (Fin b) = true <-> a <= b.
Proof. unfold xle. cbn. rewrite orb_true_iff, Rltb_true, Reqb_true. lra. Qed.
Lemma xle_fin_false a b : xle (Fin a) (Fin b) = false <-> b < a.
Proof.
  unfold xle. cbn. rewrite orb_false_iff, Rltb_false, Reqb_false. lra.
Qed.

Lemma seg_eval_g pre (a b : R * xr) post v :
  StronglySorted rlt (pre ++ a :: b :: post) -> fst a <= v < fst b \/ v = fst b /\ post = [] ->
  seg_eval (grows (pre ++ a :: b :: post)) (Fin v) = lin (Fin (fst a), snd a) (Fin (fst b), snd b) (Fin v).
Proof.
  intros S H. induction pre as [|c pre IH].
  - cbn [app grows map seg_eval]. destruct post as [|d post]; [reflexivity|]. cbn [map fst].
    destruct H as [H|[_ H]]; [|discriminate]. cbn [xlt]. now rewrite (proj2 (Rltb_true v (fst b))) by lra.
  - cbn [app] in S. apply StronglySorted_inv in S. destruct S as [S F]. specialize (IH S).
    assert (L : forall h r X, r <> [] -> seg_eval (grows (c :: h :: r)) X =
       if xlt X (Fin (fst h)) then lin (Fin (fst c), snd c) (Fin (fst h), snd h) X else seg_eval (grows (h :: r)) X).
    { intros h r X Hr. destruct r; [congruence|reflexivity]. }
    assert (G : forall h, In h (pre ++ [a]) -> fst h <= v).
    { assert (Ha : fst a <= v).
      { destruct H as [H|[-> _]]; [lra|]. clear - S. induction pre as [|d pre IH]; cbn in S.
        - apply StronglySorted_inv in S. destruct S as [_ F]. apply Forall_inv in F. unfold rlt in F. lra.
        - apply StronglySorted_inv in S. destruct S as [S _]. auto. }
      intros h Hh. apply in_app_or in Hh. destruct Hh as [Hh|[->|[]]]; [|exact Ha].
      assert (fst h < fst a); [|lra]. clear - S Hh. induction pre as [|d pre IH]; [destruct Hh|]. cbn in S.
      apply StronglySorted_inv in S. destruct S as [S F]. destruct Hh as [->|Hh]; [|auto].
      rewrite Forall_forall in F. apply F. apply in_or_app; right; now left. }
    destruct pre as [|h pre]; cbn [app] in *.
    + rewrite L by discriminate. cbn [xlt]. rewrite (proj2 (Rltb_false v (fst a))); [exact IH|]. apply G. now left.
    + rewrite L by (destruct pre; discriminate). cbn [xlt]. rewrite (proj2 (Rltb_false v (fst h))); [exact IH|]. apply G. now left.
Qed.

Lemma seg_eval_ok pre a b post v :
  StronglySorted rlt (pre ++ a :: b :: post) -> fst a <= v <= fst b ->
  seg_eval (xrows (pre ++ a :: b :: post)) (Fin v) = Fin (line a b v).
Proof.
  intros S [Ha Hb].
  assert (K : forall pre a b post, StronglySorted rlt (pre ++ a :: b :: post) -> fst a <= v < fst b \/ v = fst b /\ post = [] ->
            seg_eval (xrows (pre ++ a :: b :: post)) (Fin v) = Fin (line a b v)).
  { clear. intros pre a b post S H. rewrite <- grows_lift, map_app. cbn [map].
    rewrite (seg_eval_g (map lift pre) (lift a) (lift b) (map lift post) v).
    - apply lin_line. clear - S. induction pre as [|d pre IH]; cbn in S.
      + apply StronglySorted_inv in S. destruct S as [_ F]. now apply Forall_inv in F.
      + apply StronglySorted_inv in S. destruct S as [S _]. auto.
    - change (lift a :: lift b :: map lift post) with (map lift (a :: b :: post)). rewrite <- map_app.
      clear - S. revert S. generalize (pre ++ a :: b :: post). intros q. induction 1 as [|h t S IH F]; constructor; [exact IH|].
      rewrite Forall_forall in F |- *. intros x Hx. apply in_map_iff in Hx. destruct Hx as (y & <- & Hy). exact (F y Hy).
    - cbn [lift fst]. destruct H as [H|[H ->]]; [now left|right; auto]. }
  destruct (Rlt_le_dec v (fst b)) as [L|L]; [apply K; auto; lra|].
  assert (v = fst b) by lra. destruct post as [|c post]; [apply K; auto|].
  assert (Sab : fst a < fst b /\ fst b < fst c).
  { clear - S. induction pre as [|d pre IH]; cbn in S.
    - apply StronglySorted_inv in S. destruct S as [S F]. apply Forall_inv in F.
      apply StronglySorted_inv in S. destruct S as [S G]. apply Forall_inv in G. auto.
    - apply StronglySorted_inv in S. destruct S as [S _]. auto. }
  replace (pre ++ a :: b :: c :: post) with ((pre ++ [a]) ++ b :: c :: post) in * by now rewrite <- app_assoc.
  rewrite K; [|assumption|left; lra]. f_equal. subst v. unfold line. field. lra.
Qed.

(** two rows of a table, neighbours in the abscissa *)
Definition next_to {A} (l : list (R * A)) (a b : R * A) : Prop :=
  In a l /\ In b l /\ fst a < fst b /\ forall c, In c l -> fst c <= fst a \/ fst b <= fst c.
Lemma next_split {A} (l : list (R * A)) a b : StronglySorted rlt l -> next_to l a b ->
  exists pre post, l = pre ++ a :: b :: post.
Proof.
  intros S (Ia & Ib & L & N). apply in_split in Ia. destruct Ia as (pre & rest & ->).
  exists pre.
  assert (Sp : forall x, In x pre -> fst x < fst a).
  { clear - S. intros x Hx. induction pre as [|c pre IH]; [destruct Hx|].
    cbn in S. apply StronglySorted_inv in S. destruct S as [S F]. destruct Hx as [->|Hx]; [|now apply IH].
    rewrite Forall_forall in F. apply (F a). apply in_or_app; right; now left. }
  assert (Sr : StronglySorted rlt (a :: rest)).
  { clear - S. induction pre; [exact S|]. cbn in S. apply StronglySorted_inv in S. now apply IHpre. }
  assert (Ir : In b rest).
  { apply in_app_or in Ib. destruct Ib as [Ib|[Ib|Ib]].
    - specialize (Sp _ Ib). lra.
    - subst; lra.
    - assumption. }
  destruct rest as [|c post]; [destruct Ir|]. exists post. f_equal. f_equal.
  apply StronglySorted_inv in Sr. destruct Sr as [Sr Fr].
  destruct Ir as [->|Ir]; [reflexivity|].
  apply StronglySorted_inv in Sr. destruct Sr as [_ Fc]. rewrite Forall_forall in Fr, Fc.
  specialize (Fc _ Ir). specialize (Fr c (or_introl eq_refl)). unfold rlt in *.
  destruct (N c); [apply in_or_app; right; right; now left| |]; lra.
Qed.
Lemma adjacent_split l a b : StronglySorted rlt l -> adjacent l a b ->
  exists pre post, l = pre ++ a :: b :: post.
Proof. intros S H. now apply next_split. Qed.
Lemma next_perm {A} (l l' : list (R * A)) a b : Permutation l l' -> next_to l a b -> next_to l' a b.
Proof.
  intros P (Ia & Ib & L & N). split; [now apply (Permutation_in _ P)|].
  split; [now apply (Permutation_in _ P)|]. split; [assumption|].
  intros c Hc. apply N. now apply (Permutation_in _ (Permutation_sym P)).
Qed.

Lemma adjacent_perm l l' a b : Permutation l l' -> adjacent l a b -> adjacent l' a b.
Proof.
  intros P (Ia & Ib & L & N). split; [now apply (Permutation_in _ P)|].
  split; [now apply (Permutation_in _ P)|]. split; [assumption|].
  intros c Hc. apply N. now apply (Permutation_in _ (Permutation_sym P)).
Qed.

Lemma seg_adjacent l a b v : NoDup (map fst l) -> adjacent l a b -> fst a <= v <= fst b ->
  seg_eval (sort_rows (xrows l)) (Fin v) = Fin (line a b v).
Proof.
  intros N A H. rewrite sort_x.
  destruct (adjacent_split (sortR l) a b) as (pre & post & E).
  - now apply sortR_strict.
  - eapply adjacent_perm; [apply sortR_perm|exact A].
  - rewrite E. apply seg_eval_ok; [|assumption]. rewrite <- E. now apply sortR_strict.
Qed.

(** every value in the hull lies between two adjacent rows *)
Lemma adjacent_exists_sorted {A} (l : list (R * A)) v : StronglySorted rlt l -> (2 <= length l)%nat ->
  (exists r, In r l /\ fst r <= v) -> (exists r, In r l /\ v <= fst r) ->
  exists pre a b post, l = pre ++ a :: b :: post /\ fst a <= v <= fst b.
Proof.
  induction l as [|a l IH]; intros S L (r1 & I1 & H1) (r2 & I2 & H2); [cbn in L; lia|].
  destruct l as [|b l]; [cbn in L; lia|].
  apply StronglySorted_inv in S as S'. destruct S' as [S1 F]. rewrite Forall_forall in F. unfold rlt in F.
  assert (Ha : fst a <= v).
  { destruct I1 as [->|I1]; [assumption|]. specialize (F _ I1). lra. }
  destruct (Rle_dec v (fst b)) as [Hb|Hb].
  - exists [], a, b, l. split; [reflexivity|lra].
  - destruct l as [|c l].
    + exfalso. destruct I2 as [->|[->|[]]]; [|lra]. specialize (F b (or_introl eq_refl)). lra.
    + destruct IH as (pre & a' & b' & post & E & Hv).
      * assumption.
      * cbn; lia.
      * exists b. split; [now left|lra].
      * destruct I2 as [->|I2]; [|now exists r2]. specialize (F b (or_introl eq_refl)). lra.
      * exists (a :: pre), a', b', post. rewrite E. split; [reflexivity|assumption].
Qed.

Lemma split_adjacent pre a b post : StronglySorted rlt (pre ++ a :: b :: post) ->
  adjacent (pre ++ a :: b :: post) a b.
Proof.
  intros S. split; [apply in_or_app; right; now left|].
  split; [apply in_or_app; right; right; now left|].
  induction pre as [|c pre IH].
  - cbn in *. apply StronglySorted_inv in S. destruct S as [S F].
    apply StronglySorted_inv in S. destruct S as [_ F2]. rewrite Forall_forall in F, F2. unfold rlt in *.
    split; [apply F; now left|]. intros x [->|[->|Hx]]; [left; lra|right; lra|].
    right. specialize (F2 _ Hx). lra.
  - cbn in S. apply StronglySorted_inv in S. destruct S as [S F]. destruct (IH S) as [L N].
    split; [assumption|]. intros x [->|Hx]; [|now apply N]. left.
    rewrite Forall_forall in F. unfold rlt in F. left. apply F. apply in_or_app; right; now left.
Qed.

Lemma adjacent_exists l v : NoDup (map fst l) -> (2 <= length l)%nat ->
  (exists r, In r l /\ fst r <= v) -> (exists r, In r l /\ v <= fst r) ->
  exists a b, adjacent l a b /\ fst a <= v <= fst b.
Proof.
  intros N L (r1 & I1 & H1) (r2 & I2 & H2). pose proof (sortR_perm l) as P.
  destruct (adjacent_exists_sorted (sortR l) v) as (pre & a & b & post & E & Hv).
  - now apply sortR_strict.
  - now rewrite <- (Permutation_length P).
  - exists r1. split; [now apply (Permutation_in _ P)|assumption].
  - exists r2. split; [now apply (Permutation_in _ P)|assumption].
  - exists a, b. split; [|assumption]. apply adjacent_perm with (sortR l); [now apply Permutation_sym|].
    rewrite E. apply split_adjacent. rewrite <- E. now apply sortR_strict.
Qed.

(** extremes of a finite list *)
Lemma np_min_fin l : l <> [] -> exists m, np_min (map Fin l) = Ok (Fin m) /\ In m l /\ forall y, In y l -> m <= y.
Proof.
  intros H. destruct (np_min_ok (map Fin l)) as (m & E & C); [destruct l; [congruence|discriminate]|].
  destruct C as [(_ & y & Hy & Ny)|(_ & Im & Lm)].
  - apply in_map_iff in Hy. destruct Hy as (z & <- & _). discriminate.
  - apply in_map_iff in Im. destruct Im as (z & <- & Iz). exists z. split; [assumption|]. split; [assumption|].
    intros y Hy. apply xle_fin. apply Lm. now apply in_map.
Qed.
Lemma np_max_fin l : l <> [] -> exists m, np_max (map Fin l) = Ok (Fin m) /\ In m l /\ forall y, In y l -> y <= m.
Proof.
  intros H. destruct (np_max_ok (map Fin l)) as (m & E & C); [destruct l; [congruence|discriminate]|].
  destruct C as [(_ & y & Hy & Ny)|(_ & Im & Lm)].
  - apply in_map_iff in Hy. destruct Hy as (z & <- & _). discriminate.
  - apply in_map_iff in Im. destruct Im as (z & <- & Iz). exists z. split; [assumption|]. split; [assumption|].
    intros y Hy. apply xle_fin. apply Lm. now apply in_map.
Qed.

Lemma xrows_fst l : map fst (xrows l) = map Fin (map fst l).
Proof. unfold xrows. rewrite !map_map. reflexivity. Qed.

Lemma grows_fst l : map fst (grows l) = map Fin (map fst l).
Proof. unfold grows. rewrite !map_map. reflexivity. Qed.
Lemma mk_interp_spec_g l t u :
  match mk_interpolation (grows l) t u with
  | Ok d => (2 <= length l)%nat /\ NoDup (map fst l) /\
      exists canon mn mx r, documented (lower t) (lower u) canon /\
        mk_spectrum (InVals (VA [Fin mn; Fin mx])) t u = Ok r /\ d = DInterp (mkBase t u r) (grows l) /\
        In mn (map fst l) /\ In mx (map fst l) /\ forall y, In y (map fst l) -> mn <= y <= mx
  | Raise e => e = ValueError /\
      ((length l < 2)%nat \/ ~ NoDup (map fst l) \/ forall c, ~ documented (lower t) (lower u) c)
  end.
Proof.
  unfold mk_interpolation. rewrite grows_fst. destruct l as [|r0 l0] eqn:El.
  { cbn. split; [reflexivity|left; lia]. }
  rewrite <- El in *.
  assert (Nl : map fst l <> []) by (subst; discriminate).
  destruct (np_min_fin _ Nl) as (mn & -> & In1 & L1). destruct (np_max_fin _ Nl) as (mx & -> & In2 & L2).
  cbn [bind]. unfold mk_base.
  destruct (documented_dec (lower t) (lower u)) as [[c D]|D].
  2:{ rewrite (mk_spectrum_undocumented _ _ _ D). cbn. auto. }
  destruct (std_form _ _ _ D) as (g & G1 & G2 & _).
  destruct (mk_spectrum (InVals (VA [Fin mn; Fin mx])) t u) as [r|e] eqn:Er.
  2:{ rewrite (mk_spectrum_unfold _ _ _ _ D), G2 in Er. discriminate. }
  cbn [bind].
  destruct (interp1d_check_g l) as [(H1 & H2 & ->)|(H & ->)]; cbn [bind].
  - split; [assumption|]. split; [assumption|]. exists c, mn, mx, r.
    split; [assumption|]. split; [exact Er|]. split; [reflexivity|]. auto.
  - split; [reflexivity|]. tauto.
Qed.

Lemma mk_interp_spec l t u :
  match mk_interpolation (xrows l) t u with
  | Ok d => (2 <= length l)%nat /\ NoDup (map fst l) /\
      exists canon mn mx r, documented (lower t) (lower u) canon /\
        mk_spectrum (InVals (VA [Fin mn; Fin mx])) t u = Ok r /\ d = DInterp (mkBase t u r) (xrows l) /\
        In mn (map fst l) /\ In mx (map fst l) /\ forall y, In y (map fst l) -> mn <= y <= mx
  | Raise e => e = ValueError /\
      ((length l < 2)%nat \/ ~ NoDup (map fst l) \/ forall c, ~ documented (lower t) (lower u) c)
  end.
Proof.
  pose proof (mk_interp_spec_g (map lift l) t u) as H. now rewrite map_length, map_fst_lift, grows_lift in H.
Qed.

Lemma interp_bounds_x l : l <> [] -> exists mn mx, interp_bounds (xrows l) = (Fin mn, Fin mx) /\
  In mn (map fst l) /\ In mx (map fst l) /\ forall y, In y (map fst l) -> mn <= y <= mx.
Proof.
  intros H. unfold interp_bounds. rewrite xrows_fst.
  assert (Nl : map fst l <> []) by (destruct l; [congruence|discriminate]).
  destruct (np_max_fin _ Nl) as (mx & -> & In2 & L2).
  assert (F : filter (fun x => negb (is_nan x)) (map Fin (map fst l)) = map Fin (map fst l)).
  { generalize (map fst l). intros q. induction q; [reflexivity|]. cbn. now rewrite IHq. }
  rewrite F. destruct (np_min_fin _ Nl) as (mn & -> & In1 & L1).
  exists mn, mx. split; [reflexivity|]. split; [assumption|]. split; [assumption|].
  intros y Hy. split; auto.
Qed.

Lemma interp_point_ok l a b v : NoDup (map fst l) -> adjacent l a b -> fst a <= v <= fst b ->
  interp_point (xrows l) (Fin v) = Ok (Fin (line a b v)).
Proof.
  intros N A H. unfold interp_point.
  assert (Nl : l <> []) by (destruct A as (I & _); intros ->; destruct I).
  destruct (interp_bounds_x l Nl) as (mn & mx & -> & I1 & I2 & L).
  assert (Ia : In a l) by apply A. assert (Ib : In b l) by apply A.
  assert (L1 : mn <= fst a) by (apply L, in_map; assumption).
  assert (L2 : fst b <= mx) by (apply L, in_map; assumption).
  cbn [xlt]. rewrite (proj2 (Rltb_false v mn)) by lra. rewrite (proj2 (Rltb_false mx v)) by lra.
  cbn [orb]. f_equal. now apply seg_adjacent.
Qed.

Lemma interp_range_g l t u d : mk_interpolation (grows l) t u = Ok d ->
  exists mn mx, sp_values (valid_range d) = VA [Fin mn; Fin mx] /\
    In mn (map fst l) /\ In mx (map fst l) /\ (forall y, In y (map fst l) -> mn <= y <= mx) /\
    exists canon, documented (lower t) (lower u) canon /\
      sp_type (valid_range d) = lower t /\ sp_unit (valid_range d) = canon.
Proof.
  intros H. pose proof (mk_interp_spec_g l t u) as S. rewrite H in S.
  destruct S as (_ & _ & c & mn & mx & r & D & Er & -> & I1 & I2 & L).
  unfold valid_range; cbn [dbase_of d_range].
  destruct (mk_spectrum_ok _ _ _ _ Er) as (c' & w & D' & Ew & _ & E1 & E2 & E3). injection Ew as <-.
  exists mn, mx. split; [assumption|]. split; [assumption|]. split; [assumption|]. split; [assumption|].
  exists c'. split; [assumption|]. split; [assumption|]. assumption.
Qed.

Lemma interp_range_x l t u d : mk_interpolation (xrows l) t u = Ok d ->
  exists mn mx, sp_values (valid_range d) = VA [Fin mn; Fin mx] /\
    In mn (map fst l) /\ In mx (map fst l) /\ (forall y, In y (map fst l) -> mn <= y <= mx) /\
    exists canon, documented (lower t) (lower u) canon /\
      sp_type (valid_range d) = lower t /\ sp_unit (valid_range d) = canon.
Proof.
  intros H. rewrite <- grows_lift in H. pose proof (interp_range_g _ _ _ _ H) as K. now rewrite map_fst_lift in K.
Qed.

(** evaluation of a table at an asked value *)
Definition onsnd {A B} (f : A -> B) (r : R * A) : R * B := (fst r, f (snd r)).
Lemma sortR_onsnd {A B} (f : A -> B) l : sortR (map (onsnd f) l) = map (onsnd f) (sortR l).
Proof.
  induction l as [|h t IH]; [reflexivity|]. cbn [map sortR fold_right]. unfold sortR in IH. rewrite IH.
  generalize (fold_right insR [] t). intros q. induction q as [|c q IHq]; [reflexivity|].
  cbn [insR map onsnd fst snd]. destruct (Rlt_dec (fst c) (fst h)); [|reflexivity]. cbn [map]. f_equal. exact IHq.
Qed.
Lemma fst_onsnd {A B} (f : A -> B) l : map fst (map (onsnd f) l) = map fst l.
Proof. rewrite map_map. reflexivity. Qed.

Lemma half_open {A} (l : list (R * A)) v : StronglySorted rlt l -> (2 <= length l)%nat ->
  (exists r, In r l /\ fst r <= v) -> (exists r, In r l /\ v <= fst r) ->
  exists pre a b post, l = pre ++ a :: b :: post /\ (fst a <= v < fst b \/ v = fst b /\ post = []).
Proof.
  intros S L H1 H2. destruct (adjacent_exists_sorted l v S L H1 H2) as (pre & a & b & post & E & H).
  destruct (Rlt_le_dec v (fst b)) as [K|K]; [exists pre, a, b, post; split; [exact E|left; lra]|].
  assert (v = fst b) by lra. destruct post as [|c post]; [exists pre, a, b, []; auto|].
  exists (pre ++ [a]), b, c, post. split; [now rewrite <- app_assoc|]. left.
  assert (fst b < fst c); [|lra]. subst l. clear - S. induction pre as [|d pre IH]; cbn in S.
  - apply StronglySorted_inv in S. destruct S as [S _]. apply StronglySorted_inv in S. destruct S as [_ F]. now apply Forall_inv in F.
  - apply StronglySorted_inv in S. destruct S as [S _]. auto.
Qed.

Lemma split_next {A} pre (a b : R * A) post : StronglySorted rlt (pre ++ a :: b :: post) ->
  next_to (pre ++ a :: b :: post) a b.
Proof.
  intros S. split; [apply in_or_app; right; now left|].
  split; [apply in_or_app; right; right; now left|].
  induction pre as [|c pre IH].
  - cbn in *. apply StronglySorted_inv in S. destruct S as [S F].
    apply StronglySorted_inv in S. destruct S as [_ F2]. rewrite Forall_forall in F, F2. unfold rlt in *.
    split; [apply F; now left|]. intros x [->|[->|Hx]]; [left; lra|right; lra|].
    right. specialize (F2 _ Hx). lra.
  - cbn in S. apply StronglySorted_inv in S. destruct S as [S F]. destruct (IH S) as [L N].
    split; [assumption|]. intros x [->|Hx]; [|now apply N]. left.
    rewrite Forall_forall in F. unfold rlt in F. left. apply F. apply in_or_app; right; now left.
Qed.

Lemma gen_segment {A} (T : list (R * A)) v : NoDup (map fst T) -> (2 <= length T)%nat ->
  (exists r, In r T /\ fst r <= v) -> (exists r, In r T /\ v <= fst r) ->
  exists a b, next_to T a b /\ (fst a <= v < fst b \/ v = fst b /\ forall c, In c T -> fst c <= fst b) /\
    forall f : A -> xr, interp_point (grows (map (onsnd f) T)) (Fin v) = Ok (lin (Fin (fst a), f (snd a)) (Fin (fst b), f (snd b)) (Fin v)).
Proof.
  intros N L (r1 & I1 & H1) (r2 & I2 & H2). pose proof (sortR_perm T) as P. pose proof (sortR_strict T N) as S.
  destruct (half_open (sortR T) v S) as (pre & a & b & post & E & H).
  - now rewrite <- (Permutation_length P).
  - exists r1. split; [now apply (Permutation_in _ P)|assumption].
  - exists r2. split; [now apply (Permutation_in _ P)|assumption].
  - exists a, b. split.
    { apply next_perm with (sortR T); [now apply Permutation_sym|]. rewrite E. apply split_next. now rewrite <- E. }
    split.
    { destruct H as [H|[-> ->]]; [now left|right]. split; [reflexivity|]. intros c Hc.
      apply (Permutation_in _ P) in Hc. rewrite E in Hc, S. clear - Hc S.
      apply in_app_or in Hc. destruct Hc as [Hc|[<-|[<-|[]]]].
      - induction pre as [|d pre IH]; [destruct Hc|]. cbn in S. apply StronglySorted_inv in S. destruct S as [S F].
        destruct Hc as [->|Hc]; [|auto]. rewrite Forall_forall in F. left. apply (F b). apply in_or_app; right; right; now left.
      - left. induction pre as [|d pre IH]; cbn in S; apply StronglySorted_inv in S; destruct S as [S F]; [|auto].
        apply Forall_inv in F. exact F.
      - right. reflexivity. }
    intros f. unfold interp_point, interp_bounds. rewrite grows_fst, fst_onsnd.
    assert (Ne : map fst T <> []) by (destruct T; [destruct I1|discriminate]).
    assert (F : filter (fun x => negb (is_nan x)) (map Fin (map fst T)) = map Fin (map fst T)).
    { generalize (map fst T). intros q. induction q; [reflexivity|]. cbn. now rewrite IHq. }
    rewrite F. destruct (np_min_fin _ Ne) as (mn & -> & J1 & G1). destruct (np_max_fin _ Ne) as (mx & -> & J2 & G2).
    pose proof (G1 _ (in_map fst _ _ I1)). pose proof (G2 _ (in_map fst _ _ I2)). cbn [xlt].
    rewrite (proj2 (Rltb_false v mn)) by lra. rewrite (proj2 (Rltb_false mx v)) by lra. cbn [orb]. f_equal.
    rewrite sort_g, sortR_onsnd, E, map_app. cbn [map].
    rewrite (seg_eval_g (map (onsnd f) pre) (onsnd f a) (onsnd f b) (map (onsnd f) post) v); [reflexivity| |].
    + change (onsnd f a :: onsnd f b :: map (onsnd f) post) with (map (onsnd f) (a :: b :: post)). rewrite <- map_app, <- E.
      clear - S. induction S as [|h t S IH F]; constructor; [exact IH|].
      rewrite Forall_forall in F |- *. intros x Hx. apply in_map_iff in Hx. destruct Hx as (y & <- & Hy). exact (F y Hy).
    + cbn [onsnd fst]. destruct H as [H|[H ->]]; auto.
Qed.

Lemma lin_nan a b x y v : x = NaN \/ y = NaN -> lin (Fin a, x) (Fin b, y) v = NaN.
Proof.
  intros H. unfold lin. cbn [fst snd]. destruct H as [->| ->].
  - destruct (xdiv (xsub (Fin b) v) _), (xmul y _); reflexivity.
  - destruct (xmul x _), (xdiv (xsub v (Fin a)) _); reflexivity.
Qed.
Lemma eval_interp_g X l t u canon d s w :
  mk_interpolation (grows l) t u = Ok d -> documented (lower t) u canon ->
  lower t <> "wavenumber"%string -> asked d s (lower t) canon w ->
  exists a b, next_to l a b /\ (fst a <= w < fst b \/ w = fst b /\ forall c, In c l -> fst c <= fst b) /\
    evaluate X d s = (Ok (OS (ORe (lin (Fin (fst a), snd a) (Fin (fst b), snd b) (Fin w)))), s).
Proof.
  intros H D Hn A. pose proof (mk_interp_spec_g l t u) as S. rewrite H in S.
  destruct S as (L2 & N & c & mn & mx & r & D' & Er & -> & I1 & I2 & L).
  destruct (interp_range_g _ _ _ _ H) as (mn' & mx' & Ev & J1 & J2 & L' & c' & D'' & Et & Eu).
  unfold valid_range in *; cbn [dbase_of d_range] in *.
  pose proof (asked_convert _ _ _ _ _ t u A eq_refl D Hn) as C.
  pose proof (asked_inside _ _ _ _ _ A) as Ins. unfold valid_range in Ins; cbn [dbase_of d_range] in Ins.
  assert (Hu : c' = canon).
  { destruct (documented_lower _ _ _ D) as [Eu2 _]. rewrite Eu2 in D''. eapply documented_fun; eassumption. }
  rewrite Hu in Eu.
  assert (C2 : convert_to s (sp_type r) (sp_unit r) = Ok (VS (Fin w))).
  { apply (asked_convert _ _ _ _ _ _ _ A); [|rewrite Eu|assumption].
    - rewrite Et. destruct (documented_lower _ _ _ D) as [_ E]. exact E.
    - now apply documented_canon in D. }
  assert (B : mn' <= w <= mx').
  { unfold contains in Ins. rewrite C2, Ev in Ins. unfold vmin, vmax in Ins.
    cbn [bind elems np_min np_max fold_left] in Ins.
    assert (Q : mn' <= mx') by (apply (L' mx' J2)).
    assert (M1 : xmin2 (Fin mn') (Fin mx') = Fin mn').
    { unfold xmin2. cbn [is_nan xlt]. now rewrite (proj2 (Rltb_false mx' mn')) by lra. }
    assert (M2 : xmax2 (Fin mn') (Fin mx') = Fin mx').
    { unfold xmax2. cbn [is_nan xlt]. destruct (Rltb mn' mx') eqn:E; [reflexivity|].
      apply Rltb_false in E. f_equal; lra. }
    rewrite M1, M2 in Ins. unfold xgt in Ins. cbn [xlt] in Ins.
    destruct (Rltb w mn') eqn:Q1; [cbn [orb] in Ins; destruct (display_string _); discriminate|].
    destruct (Rltb mx' w) eqn:Q2; [cbn [orb] in Ins; destruct (display_string _); discriminate|].
    apply Rltb_false in Q1, Q2. lra. }
  destruct (gen_segment l w N L2) as (a & b & Ad & Hab & Ip).
  { apply in_map_iff in J1. destruct J1 as (r1 & E1 & Hr1). exists r1. split; [assumption|lra]. }
  { apply in_map_iff in J2. destruct J2 as (r1 & E1 & Hr1). exists r1. split; [assumption|lra]. }
  exists a, b. split; [assumption|]. split; [assumption|].
  cbn [evaluate d_range d_type d_unit]. rewrite Ins, C. cbn [bind map_vals].
  specialize (Ip (fun x => x)). assert (Id : map (onsnd (fun x : xr => x)) l = l).
  { clear. induction l as [|[x y] l IH]; [reflexivity|]. cbn [map onsnd fst snd]. now rewrite IH. }
  rewrite Id in Ip. rewrite Ip. reflexivity.
Qed.

Lemma eval_interp_scalar X l t u canon d s w :
  mk_interpolation (xrows l) t u = Ok d -> documented (lower t) u canon ->
  lower t <> "wavenumber"%string -> asked d s (lower t) canon w ->
  exists a b, adjacent l a b /\ fst a <= w <= fst b /\
    evaluate X d s = (Ok (OS (ORe (Fin (line a b w)))), s).
Proof.
  intros H D Hn A. pose proof (mk_interp_spec l t u) as S. rewrite H in S.
  destruct S as (L2 & N & c & mn & mx & r & D' & Er & -> & I1 & I2 & L).
  destruct (interp_range_x _ _ _ _ H) as (mn' & mx' & Ev & J1 & J2 & L' & c' & D'' & Et & Eu).
  unfold valid_range in *; cbn [dbase_of d_range] in *.
  pose proof (asked_convert _ _ _ _ _ t u A eq_refl D Hn) as C.
  pose proof (asked_inside _ _ _ _ _ A) as Ins. unfold valid_range in Ins; cbn [dbase_of d_range] in Ins.
  assert (Hu : c' = canon).
  { destruct (documented_lower _ _ _ D) as [Eu2 _]. rewrite Eu2 in D''. eapply documented_fun; eassumption. }
  rewrite Hu in Eu.
  assert (C2 : convert_to s (sp_type r) (sp_unit r) = Ok (VS (Fin w))).
  { apply (asked_convert _ _ _ _ _ _ _ A); [|rewrite Eu|assumption].
    - rewrite Et. destruct (documented_lower _ _ _ D) as [_ E]. exact E.
    - now apply documented_canon in D. }
  assert (B : mn' <= w <= mx').
  { unfold contains in Ins. rewrite C2, Ev in Ins. unfold vmin, vmax in Ins.
    cbn [bind elems np_min np_max fold_left] in Ins.
    assert (Q : mn' <= mx') by (apply (L' mx' J2)).
    assert (M1 : xmin2 (Fin mn') (Fin mx') = Fin mn').
    { unfold xmin2. cbn [is_nan xlt]. now rewrite (proj2 (Rltb_false mx' mn')) by lra. }
    assert (M2 : xmax2 (Fin mn') (Fin mx') = Fin mx').
    { unfold xmax2. cbn [is_nan xlt]. destruct (Rltb mn' mx') eqn:E; [reflexivity|].
      apply Rltb_false in E. f_equal; lra. }
    rewrite M1, M2 in Ins. unfold xgt in Ins. cbn [xlt] in Ins.
    destruct (Rltb w mn') eqn:Q1; [cbn [orb] in Ins; destruct (display_string _); discriminate|].
    destruct (Rltb mx' w) eqn:Q2; [cbn [orb] in Ins; destruct (display_string _); discriminate|].
    apply Rltb_false in Q1, Q2. lra. }
  destruct (adjacent_exists l w N L2) as (a & b & Ad & Hab).
  { apply in_map_iff in J1. destruct J1 as (r1 & E1 & Hr1). exists r1. split; [assumption|lra]. }
  { apply in_map_iff in J2. destruct J2 as (r1 & E1 & Hr1). exists r1. split; [assumption|lra]. }
  exists a, b. split; [assumption|]. split; [assumption|].
  cbn [evaluate d_range d_type d_unit]. rewrite Ins, C. cbn [bind map_vals].
  rewrite (interp_point_ok l a b w N Ad Hab). reflexivity.
Qed.

Lemma line_at_a a b : fst a < fst b -> line a b (fst a) = snd a.
Proof. intros H. unfold line. field. lra. Qed.
Lemma line_at_b a b : fst a < fst b -> line a b (fst b) = snd b.
Proof. intros H. unfold line. field. lra. Qed.

Lemma line_between a b v : fst a < fst b -> fst a <= v <= fst b ->
  Rmin (snd a) (snd b) <= line a b v <= Rmax (snd a) (snd b).
Proof.
  intros H [H1 H2]. set (t := (v - fst a) / (fst b - fst a)).
  assert (E : line a b v = snd a + t * (snd b - snd a)) by (unfold line, t; field; lra).
  assert (T0 : 0 <= t) by (apply Rmult_le_pos; [lra|left; apply Rinv_0_lt_compat; lra]).
  assert (T1 : t <= 1).
  { unfold t. apply Rmult_le_reg_r with (fst b - fst a); [lra|]. unfold Rdiv.
    rewrite Rmult_assoc, Rinv_l by lra. lra. }
  rewrite E. unfold Rmin, Rmax.
  destruct (Rle_dec (snd a) (snd b)).
  - assert (0 <= t * (snd b - snd a)) by (apply Rmult_le_pos; lra).
    assert (t * (snd b - snd a) <= 1 * (snd b - snd a)) by (apply Rmult_le_compat_r; lra). lra.
  - assert (0 <= t * (snd a - snd b)) by (apply Rmult_le_pos; lra).
    assert (t * (snd a - snd b) <= 1 * (snd a - snd b)) by (apply Rmult_le_compat_r; lra). lra.
Qed.

Lemma adjacent_row l a b r v : NoDup (map fst l) -> adjacent l a b -> fst a <= v <= fst b ->
  In r l -> fst r = v -> line a b v = snd r.
Proof.
  intros N (Ia & Ib & L & Nb) H Ir E.
  assert (K : forall x y, In x l -> In y l -> fst x = fst y -> x = y).
  { clear - N. induction l as [|h t IH]; intros x y Hx Hy E; [destruct Hx|].
    cbn in N. inversion N as [|? ? N1 N2]; subst. destruct Hx as [->|Hx], Hy as [->|Hy]; auto.
    - exfalso. apply N1. rewrite E. now apply in_map.
    - exfalso. apply N1. rewrite <- E. now apply in_map. }
  destruct (Nb r Ir) as [C|C].
  - assert (r = a) by (apply K; auto; lra). subst r. rewrite <- E. now apply line_at_a.
  - assert (r = b) by (apply K; auto; lra). subst r. rewrite <- E. now apply line_at_b.
Qed.

(** row order *)
Lemma interp_perm X l l' t u : Permutation l l' -> NoDup (map fst l) ->
  match mk_interpolation (xrows l) t u, mk_interpolation (xrows l') t u with
  | Ok d, Ok d' => (forall s, evaluate X d s = evaluate X d' s) /\ valid_range d = valid_range d'
  | Raise e, Raise e' => e = e'
  | _, _ => False
  end.
Proof.
  intros P N. assert (Pf : Permutation (map fst l) (map fst l')) by now apply Permutation_map.
  assert (N' : NoDup (map fst l')) by now apply (Permutation_NoDup Pf).
  pose proof (mk_interp_spec l t u) as S. pose proof (mk_interp_spec l' t u) as S'.
  assert (Len := Permutation_length P).
  destruct (mk_interpolation (xrows l) t u) as [d|e], (mk_interpolation (xrows l') t u) as [d'|e'].
  - destruct S as (_ & _ & c & mn & mx & r & D & Er & -> & I1 & I2 & L).
    destruct S' as (_ & _ & c' & mn' & mx' & r' & D' & Er' & -> & I1' & I2' & L').
    assert (mn = mn').
    { pose proof (L mn' (Permutation_in _ (Permutation_sym Pf) I1')).
      pose proof (L' mn (Permutation_in _ Pf I1)). lra. }
    assert (mx = mx').
    { pose proof (L mx' (Permutation_in _ (Permutation_sym Pf) I2')).
      pose proof (L' mx (Permutation_in _ Pf I2)). lra. }
    subst mn' mx'. rewrite Er in Er'. injection Er' as <-.
    split; [|reflexivity]. intros s. cbn [evaluate d_range d_type d_unit].
    destruct (contains r s); [|reflexivity]. cbn [bind].
    destruct (convert_to s t u) as [v|]; [|reflexivity]. cbn [bind].
    assert (IP : forall x, interp_point (xrows l) x = interp_point (xrows l') x).
    { intros x. unfold interp_point.
      assert (Nl : l <> []) by (intros ->; destruct I1).
      assert (Nl' : l' <> []) by (intros ->; destruct I1').
      destruct (interp_bounds_x l Nl) as (m1 & m2 & -> & J1 & J2 & M).
      destruct (interp_bounds_x l' Nl') as (m1' & m2' & -> & J1' & J2' & M').
      assert (m1 = m1').
      { pose proof (M m1' (Permutation_in _ (Permutation_sym Pf) J1')).
        pose proof (M' m1 (Permutation_in _ Pf J1)). lra. }
      assert (m2 = m2').
      { pose proof (M m2' (Permutation_in _ (Permutation_sym Pf) J2')).
        pose proof (M' m2 (Permutation_in _ Pf J2)). lra. }
      subst m1' m2'. rewrite !sort_x.
      rewrite (strict_unique (sortR l) (sortR l')); [reflexivity| | |].
      - now apply sortR_strict.
      - now apply sortR_strict.
      - eapply perm_trans; [apply Permutation_sym, sortR_perm|].
        eapply perm_trans; [exact P|apply sortR_perm]. }
    f_equal. destruct v as [x|q|q]; cbn [map_vals]; [now rewrite IP| |];
      (rewrite (map_res_ext _ (fun x => do y <- interp_point (xrows l') x; Ok (ORe y)));
       [reflexivity|intros; now rewrite IP]).
  - destruct S as (L2 & _ & c & _ & _ & _ & D & _). destruct S' as (_ & [H|[H|H]]).
    + lia. + contradiction. + eapply H; eassumption.
  - destruct S' as (L2 & _ & c & _ & _ & _ & D & _). destruct S as (_ & [H|[H|H]]).
    + lia. + contradiction. + eapply H; eassumption.
  - destruct S, S'. congruence.
Qed.
