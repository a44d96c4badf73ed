(** Theorems about what a saved and loaded material answers (C100). *)
From Verif Require Import PyBase PyStr XReal CNum TextModel SpectrumModel SpectrumSpec SpectrumProofs SpectralModel SpectralSpec SpectralProofs MaterialModel MaterialSpec FileModel ReaderModel WriterModel IOSpec SaveSpec SaveProofs YamlSpec YamlWriteProofs YamlReadProofs CycleProofs ExportProofs ShowsProofs IOExamples InterpProofs YamlDataProofs SaveThms TextFileThms YamlThms YamlSample ListedSpec ListedThms SavedSpec.
From Coq Require Import Permutation Sorting.Sorted.
Open Scope R_scope.
Open Scope string_scope.
Open Scope list_scope.

Lemma abs_between x d : Rabs x <= d <-> - d <= x <= d.
Proof. split; [intros H; split; unfold Rabs in H; destruct (Rcase_abs x); lra|intros [A B]; unfold Rabs; destruct (Rcase_abs x); lra]. Qed.
(** *** linear interpolation depends continuously on the table *)
Definition close_rows (d B : R) (p p' : R * R) : Prop := fst p' = fst p /\ Rabs (snd p' - snd p) <= d /\ Rabs (snd p) <= B.
Definition close_x (d B : R) (x y : xr) : Prop :=
  match x, y with Fin a, Fin b => Rabs (b - a) <= d /\ Rabs a <= B | NaN, NaN => True | _, _ => False end.
Lemma line_close d B a b a' b' v : close_rows d B a a' -> close_rows d B b b' -> fst a < fst b -> fst a <= v <= fst b ->
  Rabs (line a' b' v - line a b v) <= d /\ Rabs (line a b v) <= B.
Proof.
  intros (Ea & Da & Ba) (Eb & Db & Bb) L [V1 V2]. unfold line. rewrite Ea, Eb.
  set (h := fst b - fst a). assert (0 < h) as Hh by (unfold h; lra). set (w := (v - fst a) / h).
  assert (0 <= w <= 1) as [W0 W1].
  { unfold w. split; [apply Rmult_le_reg_r with h; [exact Hh|]|apply Rmult_le_reg_r with h; [exact Hh|]]; unfold Rdiv; rewrite Rmult_assoc, Rinv_l by lra; unfold h; lra. }
  assert (forall x y, x + (v - fst a) * (y - x) / h = (1 - w) * x + w * y) as K by (intros x y; unfold w; field; lra).
  rewrite !K. apply abs_between in Da, Db, Ba, Bb. split; apply abs_between.
  - replace ((1 - w) * snd a' + w * snd b' - ((1 - w) * snd a + w * snd b)) with ((1 - w) * (snd a' - snd a) + w * (snd b' - snd b)) by ring. split; nra.
  - split; nra.
Qed.
Lemma ins_close d B r r' l : forall l', close_rows d B r r' -> Forall2 (close_rows d B) l l' -> Forall2 (close_rows d B) (insR r l) (insR r' l').
Proof.
  induction l as [|h t IH]; intros l' Hr H; inversion H as [|? h' ? t' Hh Ht]; subst; [cbn [insR]; constructor; [exact Hr|constructor]|]. cbn [insR].
  destruct Hr as (E & Hr). destruct Hh as (Eh & Hh). rewrite E, Eh. destruct (Rlt_dec (fst h) (fst r)).
  - constructor; [now split|]. apply IH; [now split|exact Ht].
  - constructor; [now split|]. constructor; [now split|exact Ht].
Qed.
Lemma sort_close d B l l' : Forall2 (close_rows d B) l l' -> Forall2 (close_rows d B) (sortR l) (sortR l').
Proof. induction 1; cbn; [constructor|now apply ins_close]. Qed.
Lemma seg_close d B s : forall s' v, Forall2 (close_rows d B) s s' -> StronglySorted rlt s -> (2 <= length s)%nat ->
  (forall h, hd_error s = Some h -> fst h <= v) -> (exists y, In y s /\ v <= fst y) ->
  exists x x', seg_eval (xrows s) (Fin v) = Fin x /\ seg_eval (xrows s') (Fin v) = Fin x' /\ Rabs (x' - x) <= d /\ Rabs x <= B.
Proof.
  induction s as [|a s IH]; intros s' v F S L H0 (y & Iy & Hy); [cbn in L; lia|].
  destruct s as [|b r]; [cbn in L; lia|].
  inversion F as [|? a' ? t' Fa Ft]; subst. inversion Ft as [|? b' ? r' Fb Fr]; subst.
  specialize (H0 a eq_refl). apply StronglySorted_inv in S. destruct S as [S Fs]. pose proof (Forall_inv Fs) as Lab. unfold rlt in Lab.
  assert (v <= fst b -> exists x x', lin (Fin (fst a), Fin (snd a)) (Fin (fst b), Fin (snd b)) (Fin v) = Fin x /\
            lin (Fin (fst a'), Fin (snd a')) (Fin (fst b'), Fin (snd b')) (Fin v) = Fin x' /\ Rabs (x' - x) <= d /\ Rabs x <= B) as K.
  { intros Hb. exists (line a b v), (line a' b' v). rewrite !lin_line by (try rewrite (proj1 Fa), (proj1 Fb); exact Lab).
    split; [reflexivity|]. split; [reflexivity|]. apply line_close; try assumption. now split. }
  destruct r as [|c r].
  - inversion Fr; subst. cbn [xrows map seg_eval]. apply K. destruct Iy as [<-|[<-|[]]]; lra.
  - inversion Fr as [|? c' ? r1 Fc Fr1]; subst.
    change (seg_eval (xrows (a :: b :: c :: r)) (Fin v)) with (if xlt (Fin v) (Fin (fst b)) then lin (Fin (fst a), Fin (snd a)) (Fin (fst b), Fin (snd b)) (Fin v) else seg_eval (xrows (b :: c :: r)) (Fin v)).
    change (seg_eval (xrows (a' :: b' :: c' :: r1)) (Fin v)) with (if xlt (Fin v) (Fin (fst b')) then lin (Fin (fst a'), Fin (snd a')) (Fin (fst b'), Fin (snd b')) (Fin v) else seg_eval (xrows (b' :: c' :: r1)) (Fin v)).
    rewrite (proj1 Fb) in K |- *. cbn [xlt]. unfold Rltb. destruct (Rlt_dec v (fst b)) as [V|V].
    + apply Rlt_le in V. exact (K V).
    + apply IH; try assumption; [cbn; lia| |].
      * intros h E. injection E as <-. lra.
      * exists y. split; [|exact Hy]. destruct Iy as [<-|Iy]; [lra|exact Iy].
Qed.
Lemma xadd_nan x : xadd NaN x = NaN. Proof. destruct x; reflexivity. Qed.
Lemma xmul_nan x : xmul x NaN = NaN. Proof. destruct x; reflexivity. Qed.
Lemma xdiv_nan x : xdiv NaN x = NaN. Proof. destruct x; reflexivity. Qed.
Lemma xsub_nan_r x : xsub x NaN = NaN. Proof. destruct x; reflexivity. Qed.
Lemma lin_nan a b : lin a b NaN = NaN.
Proof. unfold lin. now rewrite xsub_nan_r, xdiv_nan, xmul_nan, xadd_nan. Qed.
Lemma seg_nan s : seg_eval s NaN = NaN.
Proof.
  induction s as [|a [|b r] IH]; try reflexivity. cbn [seg_eval]. destruct r as [|c r]; [apply lin_nan|]. exact IH.
Qed.
Lemma point_close d B l l' v : Forall2 (close_rows d B) l l' -> (2 <= length l)%nat -> NoDup (map fst l) ->
  match interp_point (xrows l) v, interp_point (xrows l') v with
  | Ok x, Ok y => close_x d B x y
  | Raise e, Raise e' => e' = e
  | _, _ => False
  end.
Proof.
  intros F L N. assert (map fst (xrows l') = map fst (xrows l)) as E.
  { clear -F. induction F as [|p p' l l' (E & _) F IH]; [reflexivity|]. cbn. rewrite E. f_equal. exact IH. }
  unfold interp_point. assert (interp_bounds (xrows l') = interp_bounds (xrows l)) as -> by (unfold interp_bounds; now rewrite E).
  destruct (interp_bounds_x l) as (mn & mx & -> & I1 & I2 & HB); [intros ->; cbn in L; lia|].
  destruct v as [v| | |]; cbn [xlt orb]; try reflexivity.
  - destruct (Rltb v mn) eqn:E1; [reflexivity|]. destruct (Rltb mx v) eqn:E2; [reflexivity|]. cbn [orb].
    apply Rltb_false in E1, E2. rewrite !sort_x.
    destruct (seg_close d B (sortR l) (sortR l') v) as (x & x' & -> & -> & D1 & D2).
    + now apply sort_close.
    + now apply sortR_strict.
    + rewrite <- (Permutation_length (sortR_perm l)). exact L.
    + intros h Hh. assert (In h (sortR l)) as Ih by (destruct (sortR l); [discriminate|injection Hh as ->; now left]).
      pose proof (sortR_sorted l) as Ss. apply in_map_iff in I1. destruct I1 as (p & <- & Ip).
      apply (Permutation_in _ (sortR_perm l)) in Ip. destruct (sortR l) as [|h0 s]; [discriminate|]. injection Hh as ->.
      apply StronglySorted_inv in Ss. destruct Ss as [_ Fs]. destruct Ip as [<-|Ip]; [lra|]. apply (proj1 (Forall_forall _ _) Fs) in Ip. unfold rle in Ip. lra.
    + apply in_map_iff in I2. destruct I2 as (p & <- & Ip). exists p. split; [|lra]. exact (Permutation_in _ (sortR_perm l) Ip).
    + now split.
  - rewrite !seg_nan. exact I.
Qed.
(** *** evaluation *)
Definition close_o (d B : R) (o o' : onum) : Prop := exists x y, o = ORe x /\ o' = ORe y /\ close_x d B x y.
Definition close_r (d B : R) (r r' : res ovals) : Prop :=
  match r, r' with
  | Ok (OS o), Ok (OS o') => close_o d B o o'
  | Ok (OA l), Ok (OA l') => Forall2 (close_o d B) l l'
  | Raise e, Raise e' => e' = e
  | _, _ => False
  end.
Lemma map_res_close d B l l' vs : Forall2 (close_rows d B) l l' -> (2 <= length l)%nat -> NoDup (map fst l) ->
  match map_res (fun x => do y <- interp_point (xrows l) x; Ok (ORe y)) vs, map_res (fun x => do y <- interp_point (xrows l') x; Ok (ORe y)) vs with
  | Ok q, Ok q' => Forall2 (close_o d B) q q'
  | Raise e, Raise e' => e' = e
  | _, _ => False
  end.
Proof.
  intros F L N. induction vs as [|v vs IH]; cbn [map_res]; [constructor|].
  pose proof (point_close d B l l' v F L N) as P. destruct (interp_point (xrows l) v) as [x|e], (interp_point (xrows l') v) as [y|e']; cbn [bind]; try contradiction; [|exact P].
  destruct (map_res _ vs) as [q|e], (map_res _ vs) as [q'|e'] in IH |- *; cbn [bind]; try contradiction; [|exact IH].
  constructor; [|exact IH]. now exists x, y.
Qed.
Lemma interp_same_base l l' t u r r' : map fst l' = map fst l -> mk_interpolation (xrows l) t u = Ok r -> mk_interpolation (xrows l') t u = Ok r' ->
  exists b, r = DInterp b (xrows l) /\ r' = DInterp b (xrows l').
Proof.
  intros E H H'. assert (map fst (xrows l') = map fst (xrows l)) as E' by (rewrite !xrows_fst; now rewrite E).
  unfold mk_interpolation in H, H'. rewrite E' in H'. inv_bind H a Ea. inv_bind H' a' Ea'. rewrite Ea in Ea'. injection Ea' as <-.
  inv_bind H c Ec. inv_bind H' c' Ec'. rewrite Ec in Ec'. injection Ec' as <-. inv_bind H b Eb. inv_bind H' b' Eb'. rewrite Eb in Eb'. injection Eb' as <-.
  inv_bind H x Ex. inv_bind H' x' Ex'. injection H as <-. injection H' as <-. now exists b.
Qed.
Lemma close_grid d B l l' : Forall2 (close_rows d B) l l' -> map fst l' = map fst l.
Proof. induction 1 as [|p p' l l' (E & _) F IH]; [reflexivity|]. cbn. now rewrite E, IH. Qed.
Lemma within_close d B l l' : values_within d l l' -> values_below B l -> Forall2 (close_rows d B) l l'.
Proof.
  induction 1 as [|p p' l l' (E & D) F IH]; intros H; [constructor|]. inversion_clear H as [|? ? H1 H2]. constructor; [|auto]. now split.
Qed.
Lemma evaluate_close X d B l l' t u r r' s : Forall2 (close_rows d B) l l' -> mk_interpolation (xrows l) t u = Ok r -> mk_interpolation (xrows l') t u = Ok r' ->
  close_r d B (fst (evaluate X r s)) (fst (evaluate X r' s)) /\ snd (evaluate X r s) = s /\ snd (evaluate X r' s) = s.
Proof.
  intros F H H'. pose proof (mk_interp_spec l t u) as Sp. rewrite H in Sp. destruct Sp as (L & N & _).
  destruct (interp_same_base l l' t u r r' (close_grid _ _ _ _ F) H H') as (b & -> & ->).
  cbn [evaluate fst snd]. split; [|split; reflexivity]. destruct (contains (d_range b) s) as [x0|e]; cbn [bind]; [|reflexivity].
  destruct (convert_to s (d_type b) (d_unit b)) as [v|e]; cbn [bind]; [|reflexivity].
  destruct v as [x|vl|vl]; cbn [map_vals].
  - pose proof (point_close d B l l' x F L N) as P. destruct (interp_point (xrows l) x), (interp_point (xrows l') x); cbn [bind]; try contradiction; [|exact P].
    cbn. eexists _, _. split; [reflexivity|]. split; [reflexivity|exact P].
  - pose proof (map_res_close d B l l' (elems (VA vl)) F L N) as P. destruct (map_res _ _), (map_res _ _) in P |- *; cbn [bind]; try contradiction; exact P.
  - pose proof (map_res_close d B l l' (elems (VI vl)) F L N) as P. destruct (map_res _ _), (map_res _ _) in P |- *; cbn [bind]; try contradiction; exact P.
Qed.
(** *** the complex value *)
Definition close_c (d B : R) (o o' : onum) : Prop :=
  match onum_cx o, onum_cx o' with
  | CF z, CF z' => Rabs (fst z' - fst z) <= d /\ Rabs (snd z' - snd z) <= d /\ Rabs (fst z) <= B /\ Rabs (snd z) <= B
  | CNan, CNan => True
  | _, _ => False
  end.
Definition join1 (x y : onum) : onum := OCx (cxadd (onum_cx x) (cxmul (CF Ci) (onum_cx y))).
Lemma join_close d B o o' p p' : close_o d B o o' -> close_o d B p p' -> close_c d B (join1 o p) (join1 o' p').
Proof.
  intros (x0 & x0' & -> & -> & H) (y0 & y0' & -> & -> & H'). unfold close_c, join1. cbn [onum_cx].
  destruct x0 as [x| | |], x0' as [x'| | |]; try contradiction; [|destruct y0, y0'; try contradiction; exact I].
  destruct y0 as [y| | |], y0' as [y'| | |]; try contradiction; [|exact I].
  cbn [cx_of_xr cxmul cxadd cx2]. destruct H as [H1 H2], H' as [H3 H4].
  unfold Ci, RtoC, Cplus, Cmult. cbn [fst snd].
  replace (x' + (0 * y' - 1 * 0)) with x' by ring. replace (x + (0 * y - 1 * 0)) with x by ring.
  replace (0 + (0 * 0 + 1 * y')) with y' by ring. replace (0 + (0 * 0 + 1 * y)) with y by ring. now repeat split.
Qed.
Lemma zip_close d B l l' (F : Forall2 (close_o d B) l l') : forall m m', Forall2 (close_o d B) m m' -> Forall2 (close_c d B) (zip_with join1 l m) (zip_with join1 l' m').
Proof.
  induction F as [|o o' l l' Ho F IH]; intros m m' G; [constructor|]. inversion G as [|p p' m0 m0' Hp G']; subst; cbn [zip_with]; [constructor|].
  constructor; [now apply join_close|now apply IH].
Qed.
Lemma map_close {A} (P Q : A -> A -> Prop) f g l l' : Forall2 P l l' -> (forall x y, P x y -> Q (f x) (g y)) -> Forall2 Q (map f l) (map g l').
Proof. induction 1; cbn; constructor; auto. Qed.
Lemma F2_length {A} (P : A -> A -> Prop) l l' : Forall2 P l l' -> length l = length l'.
Proof. induction 1; cbn; congruence. Qed.
Definition close_v (d B : R) (r r' : res ovals) : Prop :=
  match r, r' with
  | Ok (OS o), Ok (OS o') => close_c d B o o'
  | Ok (OA l), Ok (OA l') => Forall2 (close_c d B) l l'
  | Raise e, Raise e' => e' = e
  | _, _ => False
  end.
Lemma complex_close X d B m m' l q l' q' t u s : has_tables m l q t u -> has_tables m' l' q' t u ->
  Forall2 (close_rows d B) l l' -> Forall2 (close_rows d B) q q' ->
  close_v d B (fst (complex_value X m s)) (fst (complex_value X m' s)) .
Proof.
  intros (_ & C & Hr & Hi & _) (_ & C' & Hr' & Hi' & _) F G. unfold complex_value. rewrite C, C'.
  destruct (evaluate_close X d B l l' t u _ _ s F Hr Hr') as (K1 & S1 & S1').
  destruct (evaluate_close X d B q q' t u _ _ s G Hi Hi') as (K2 & _ & _).
  destruct (evaluate X (m_real m) s) as [r s1]. destruct (evaluate X (m_real m') s) as [r' s1']. cbn [fst snd] in K1, S1, S1'. subst s1 s1'.
  destruct r as [r|e], r' as [r'|e']; cbn in K1; try (destruct r; contradiction); try contradiction; [|exact K1].
  destruct (evaluate X (m_imag m) s) as [i s2]. destruct (evaluate X (m_imag m') s) as [i' s2']. cbn [fst] in K2.
  destruct i as [i|e], i' as [i'|e']; cbn in K2; try (destruct i; contradiction); try contradiction; [|exact K2].
  cbn [fst]. unfold join_parts, obin.
  destruct r as [o|rl], r' as [o'|rl']; try contradiction; destruct i as [p|il], i' as [p'|il']; try contradiction; cbn [close_v].
  - now apply (join_close d B o o' p p').
  - apply (map_close (close_o d B)) with (1 := K2). intros x y Hxy. exact (join_close d B o o' x y K1 Hxy).
  - apply (map_close (close_o d B)) with (1 := K1). intros x y Hxy. exact (join_close d B x y p p' Hxy K2).
  - rewrite <- (F2_length _ _ _ K1), <- (F2_length _ _ _ K2). destruct (Nat.eqb (length rl) (length il)); [|reflexivity].
    exact (zip_close d B rl rl' K1 il il' K2).
Qed.
Lemma square_close d B z z' : Rabs (fst z' - fst z) <= d -> Rabs (snd z' - snd z) <= d -> Rabs (fst z) <= B -> Rabs (snd z) <= B ->
  Rabs (fst (Cmult z' z') - fst (Cmult z z)) <= 2 * d * (2 * B + d) /\ Rabs (snd (Cmult z' z') - snd (Cmult z z)) <= 2 * d * (2 * B + d).
Proof.
  destruct z as [x y], z' as [x' y']. unfold Cmult. cbn [fst snd]. intros H1 H2 H3 H4.
  assert (Rabs (x' + x) <= 2 * B + d) as S1 by (apply abs_between in H1, H3; apply abs_between; lra).
  assert (Rabs (y' + y) <= 2 * B + d) as S2 by (apply abs_between in H2, H4; apply abs_between; lra).
  assert (forall a b, Rabs a <= d -> Rabs b <= 2 * B + d -> Rabs (a * b) <= d * (2 * B + d)) as P.
  { intros a b Ha Hb. rewrite Rabs_mult. apply Rmult_le_compat; try assumption; apply Rabs_pos. }
  split.
  - replace (x' * x' - y' * y' - (x * x - y * y)) with ((x' - x) * (x' + x) + - ((y' - y) * (y' + y))) by ring.
    eapply Rle_trans; [apply Rabs_triang|]. rewrite Rabs_Ropp. pose proof (P _ _ H1 S1). pose proof (P _ _ H2 S2). lra.
  - replace (x' * y' + y' * x' - (x * y + y * x)) with ((x' - x) * (y' + y) + (y' - y) * (x' + x)) by ring.
    eapply Rle_trans; [apply Rabs_triang|]. pose proof (P _ _ H1 S2). pose proof (P _ _ H2 S1). lra.
Qed.
Lemma square_within d B o o' : close_c d B o o' -> number_within (2 * d * (2 * B + d)) (OCx ((fun z => cxmul z z) (onum_cx o))) (OCx ((fun z => cxmul z z) (onum_cx o'))).
Proof.
  unfold close_c, number_within. cbn [onum_cx]. destruct (onum_cx o) as [z|], (onum_cx o') as [z'|]; try contradiction; [|intros _; exact I].
  intros (H1 & H2 & H3 & H4). cbn [cxmul cx2]. now apply square_close.
Qed.
Lemma plain_within d B o o' : close_c d B o o' -> number_within d (OCx ((fun z => z) (onum_cx o))) (OCx ((fun z => z) (onum_cx o'))).
Proof.
  unfold close_c, number_within. cbn [onum_cx]. destruct (onum_cx o) as [z|], (onum_cx o') as [z'|]; try contradiction; [|intros _; exact I]. tauto.
Qed.

Lemma C100_stable_l : forall X m m' l q l' q' t u d B,
  has_tables m l q t u -> has_tables m' l' q' t u ->
  values_within d l l' -> values_within d q q' -> values_below B l -> values_below B q ->
  optics_within X d B m m'.
Proof.
  intros X m m' l q l' q' t u d B T T' V1 V2 B1 B2.
  pose proof (within_close d B l l' V1 B1) as F. pose proof (within_close d B q q' V2 B2) as G.
  pose proof (fun s => complex_close X d B m m' l q l' q' t u s T T' F G) as K.
  destruct T as (Nm & C & Hr & Hi & St & Un). destruct T' as (Nm' & C' & Hr' & Hi' & St' & Un').
  assert (valid_name m = true) as Vm by (unfold valid_name; now rewrite Nm). assert (valid_name m' = true) as Vm' by (unfold valid_name; now rewrite Nm').
  assert (forall s, answer_within (2 * d * (2 * B + d)) (fst (get_permittivity_obj X m s)) (fst (get_permittivity_obj X m' s))) as P.
  { intros s. specialize (K s). unfold get_permittivity_obj. rewrite Vm, Vm', Nm, Nm'. cbn [negb]. change (String.eqb "nk" "nk") with true. cbv iota.
    destruct (complex_value X m s) as [c s1], (complex_value X m' s) as [c' s1']. cbn [fst] in K |- *.
    destruct c as [[o|ol]|e], c' as [[o'|ol']|e']; cbn [close_v] in K; try contradiction; cbn [bind answer_within omap]; [|  |exact K].
    - now apply (square_within d B).
    - apply (map_close (close_c d B)) with (1 := K). intros x y. apply square_within. }
  split; [|split].
  - intros a. unfold get_nk_data. destruct (match a with SObj s => _ | SRaw v t0 u0 => _ end) as [s|e]; cbn [bind]; [|reflexivity].
    rewrite Vm, Vm', Nm, Nm'. cbn [negb]. change (String.eqb "nk" "eps") with false. cbv iota. specialize (K s).
    destruct (fst (complex_value X m s)) as [[o|ol]|e], (fst (complex_value X m' s)) as [[o'|ol']|e']; cbn [close_v] in K; try contradiction; cbn [bind answer_within omap]; [| |exact K].
    + now apply (plain_within d B).
    + apply (map_close (close_c d B)) with (1 := K). intros x y. apply plain_within.
  - intros a. unfold get_permittivity. destruct a as [s|v t0 u0]; [apply P|]. destruct (mk_spectrum v t0 u0) as [s|e]; cbn [bind]; [apply P|reflexivity].
    destruct (interp_same_base l l' t u _ _ (close_grid _ _ _ _ F) Hr Hr') as (b1 & R1 & R1').
    destruct (interp_same_base q q' t u _ _ (close_grid _ _ _ _ G) Hi Hi') as (b2 & R2 & R2').
    unfold get_maximum_valid_range. rewrite Vm, Vm', C, C', R1, R1', R2, R2', St, St', Un, Un'. reflexivity.
Qed.

Lemma tabulated_tables m l q t u : has_tables m l q t u -> exists b b' canon, tables_of m b b' (xrows l) (xrows q) /\
  d_type b = t /\ d_unit b = u /\ d_type b' = t /\ d_unit b' = u /\ documented (lower t) (lower u) canon /\ (2 <= length l)%nat /\ NoDup (map fst l).
Proof.
  intros (Nm & C & Hr & Hi & _). pose proof (mk_interp_spec l t u) as S1. rewrite Hr in S1. destruct S1 as (L & N & canon & _ & _ & r & Doc & _ & E & _).
  pose proof (mk_interp_spec q t u) as S2. rewrite Hi in S2. destruct S2 as (_ & _ & _ & _ & _ & r' & _ & _ & E' & _).
  exists (mkBase t u r), (mkBase t u r'), canon. split; [now repeat split|]. repeat (split; [reflexivity|]). now repeat split.
Qed.
Lemma loaded_tabulated rd path m b b' l q t u : mk_material rd [("file_path", PStr path)] = Ok m -> tables_of m b b' (xrows l) (xrows q) ->
  d_type b = t -> d_unit b = u -> d_type b' = t -> d_unit b' = u -> m_stype m = t -> m_unit m = u -> has_tables m l q t u.
Proof.
  intros Mk (Nm & C & Hr & Hi) T U T' U' St Un. destruct (loaded_made _ _ _ Mk) as [A B]. rewrite Hr in A. rewrite Hi in B. cbn [made] in A, B.
  rewrite T, U in A. rewrite T', U' in B. split; [exact Nm|]. split; [exact C|]. rewrite Hr, Hi. now repeat split.
Qed.
Lemma tabulated_same X m m' l q t u : has_tables m l q t u -> has_tables m' l q t u -> same_optics X m m'.
Proof.
  intros (Nm & C & Hr & Hi & St & Un) (Nm' & C' & Hr' & Hi' & St' & Un').
  assert (m_real m' = m_real m) as E1 by congruence. assert (m_imag m' = m_imag m) as E2 by congruence.
  assert (forall s, complex_value X m' s = complex_value X m s) as K by (intros s; unfold complex_value; now rewrite C, C', E1, E2).
  assert (forall s, get_permittivity_obj X m' s = get_permittivity_obj X m s) as P by (intros s; unfold get_permittivity_obj, valid_name; now rewrite Nm, Nm', K).
  split; [|split].
  - intros a. unfold get_nk_data, valid_name. rewrite Nm, Nm'. destruct (match a with SObj s => _ | SRaw v t0 u0 => _ end) as [s|e]; cbn [bind]; [|reflexivity]. now rewrite K.
  - intros a. unfold get_permittivity. destruct a as [s|v t0 u0]; [now rewrite P|]. destruct (mk_spectrum v t0 u0); cbn [bind]; [now rewrite P|reflexivity].
  - unfold get_maximum_valid_range, valid_name. now rewrite Nm, Nm', C, C', E1, E2, St, St', Un, Un'.
Qed.

Lemma C100_text_l : forall X W disp path m c l q t u fs ic rii fk dk yl,
  shows W disp -> text_file path -> header_ready W m -> comment_of m c -> unix_text c ->
  has_tables m l q t u -> float_table (xrows l) -> float_table (xrows q) -> (length l <= 333)%nat ->
  map fst q = map fst l -> t <> "" -> u <> "" ->
  Forall decimal8 (concat (table_of (xrows l)) ++ concat (table_of (xrows q))) ->
  (forall all x, incl all (concat (table_of (xrows l)) ++ concat (table_of (xrows q))) -> In x all -> disp all x = x) ->
  Permutation FILE_META_DATA_KEYS fk -> Permutation DATASET_META_DATA_KEYS dk ->
  exists ops m', save_material W path m fs ic rii = (Ok tt, ops) /\
    mk_material (read_path fk dk yl (fs_run fs ops)) [("file_path", PStr path)] = Ok m' /\
    has_tables m' l q t u /\ same_optics X m m'.
Proof.
  intros X W disp path m c l q t u fs ic rii fk dk yl HW Hp Hh Hc Hu HT F1 F2 L Eg Nt Nu Dc Ex Pf Pd.
  destruct (tabulated_tables m l q t u HT) as (b & b' & canon & Tm & T & U & T' & U' & Doc & L2 & N).
  destruct (C41_cycle_exact_l W disp path m c b b' l q fs ic rii fk dk yl canon) as (ops & m' & b1 & b1' & Sv & Mk & Tm' & V1 & V2 & V3 & V4 & V5 & V6);
    try assumption; try congruence; [now split|].
  exists ops, m'. split; [exact Sv|]. split; [exact Mk|].
  assert (has_tables m' l q t u) as HT' by (eapply loaded_tabulated; [exact Mk|exact Tm'|congruence..]).
  split; [exact HT'|]. eapply tabulated_same; eassumption.
Qed.

Lemma C100_yaml_l : forall X W disp yl path m c meta sp l q t u fs ic fk dk,
  shows W disp -> yaml_library W yl -> named path ".yml" -> m_meta m = Some meta -> dget meta "MetaComment" = Some (MStr c) -> yaml_text c ->
  standard_meta meta -> dget meta "Specification" = Some (MMap sp) ->
  has_tables m l q t u -> float_table (xrows l) -> float_table (xrows q) -> (length l <= 333)%nat ->
  map fst q = map fst l -> t <> "" -> u <> "" ->
  (forall all x, incl all (concat (table_of (xrows l)) ++ concat (table_of (xrows q))) -> In x all -> disp all x = x) ->
  Permutation FILE_META_DATA_KEYS fk -> Permutation DATASET_META_DATA_KEYS dk ->
  exists ops m', save_material W path m fs ic false = (Ok tt, ops) /\
    mk_material (read_path fk dk yl (fs_run fs ops)) [("file_path", PStr path)] = Ok m' /\
    has_tables m' l q t u /\ same_optics X m m'.
Proof.
  intros X W disp yl path m c meta sp l q t u fs ic fk dk HW HY Hp Hm Hc Hy Sm Hs HT F1 F2 L Eg Nt Nu Ex Pf Pd.
  destruct (tabulated_tables m l q t u HT) as (b & b' & canon & Tm & T & U & T' & U' & Doc & L2 & N).
  destruct (C43_cycle_exact_l W disp yl path m c meta sp b b' l q fs ic fk dk canon) as (ops & m' & b1 & b1' & Sv & Mk & Tm' & V1 & V2 & V3 & V4 & V5 & V6);
    try assumption; try congruence; [now split|].
  exists ops, m'. split; [exact Sv|]. split; [exact Mk|].
  assert (has_tables m' l q t u) as HT' by (eapply loaded_tabulated; [exact Mk|exact Tm'|congruence..]).
  split; [exact HT'|]. eapply tabulated_same; eassumption.
Qed.

(** *** numbers that do not fit *)
Definition toR (x : xr) : R := match x with Fin r => r | _ => 0 end.
Lemma near_fin eps x y : near eps (Fin x) y -> exists r, y = Fin r /\ Rabs (r - x) <= eps * Rmax 1 (Rabs x).
Proof. destruct y as [r| | |]; cbn; try contradiction. intros H. now exists r. Qed.
Lemma exact_all disp x all : shown_in_full disp x -> Forall (below (10 ^ 309)) all -> In (Fin x) all -> disp all (Fin x) = Fin x.
Proof. intros H F I. apply H; [|exact I]. intros y Iy. exact (proj1 (Forall_forall _ _) F _ Iy). Qed.
Lemma float_below n : float_table n -> Forall (below (10 ^ 309)) (concat (table_of n)).
Proof. intros F. apply Forall_impl with (2 := float_table_concat _ F). intros y. apply below_weak, float_displayable. Qed.
Lemma exact_grid W disp b b' l q : shows W disp -> float_table (xrows l) -> float_table (xrows q) -> map fst q = map fst l ->
  Forall (shown_in_full disp) (map fst l) -> d_unit b = d_unit b' -> d_type b = d_type b' -> share_grid disp b b' (xrows l) (xrows q).
Proof.
  intros HW F1 F2 Eg Ex U T. split; [|now split].
  assert (forall s : list (R * R), float_table (xrows s) -> Forall (shown_in_full disp) (map fst s) -> grid (shown disp (table_of (xrows s))) = map Fin (map fst s)) as G.
  { intros s Fs Es. rewrite shown_table. unfold grid. rewrite map_map. cbn [nth]. pose proof (float_below _ Fs) as Bs.
    assert (forall r, In r s -> disp (concat (table_of (xrows s))) (Fin (fst r)) = Fin (fst r)) as K.
    { intros r Ir. apply exact_all; [apply (proj1 (Forall_forall _ _) Es), in_map; exact Ir|exact Bs|].
      apply (proj1 (table_in (xrows s) (Fin (fst r), Fin (snd r)) ltac:(unfold xrows; apply in_map_iff; now exists r))). }
    unfold xrows at 2. rewrite !map_map. apply map_ext_in. intros r Ir. cbn [fst]. now apply K. }
  rewrite (G l F1 Ex), (G q F2) by (now rewrite Eg). rewrite Eg. generalize (map fst l). intros g. induction g; cbn; constructor; [split; [reflexivity|discriminate]|assumption].
Qed.
Lemma rows_combine (en ek : xr -> xr) e l : forall q, length q = length l ->
  (forall p p', In (p, p') (combine l q) -> en (Fin (fst p)) = Fin (fst p) /\
     (exists r, en (Fin (snd p)) = Fin r /\ Rabs (r - snd p) <= e) /\ (exists r, ek (Fin (snd p')) = Fin r /\ Rabs (r - snd p') <= e)) ->
  map fst q = map fst l ->
  exists l' q', map (fun p => [en (fst (fst p)); en (snd (fst p)); ek (snd (snd p))]) (combine (xrows l) (xrows q)) =
      map (fun p => [fst (fst p); snd (fst p); snd (snd p)]) (combine (xrows l') (xrows q')) /\
    values_within e l l' /\ values_within e q q'.
Proof.
  induction l as [|a l IH]; intros [|b q] Lq K Eg; try discriminate; [exists [], []; repeat split; constructor|].
  destruct (K a b (or_introl eq_refl)) as (E1 & (r & E2 & D) & (r' & E3 & D')). injection Eg as E Eg.
  destruct (IH q ltac:(now injection Lq) (fun p p' I => K p p' (or_intror I)) Eg) as (l' & q' & J1 & J2 & J3).
  exists ((fst a, r) :: l'), ((fst b, r') :: q'). split; [|split; (constructor; [now split|assumption])].
  cbn [xrows map combine fst snd]. rewrite E1, E2, E3. f_equal. exact J1.
Qed.
Lemma entries_back W disp l q B eps (post : xr -> xr) : shows W disp -> float_table (xrows l) -> float_table (xrows q) -> map fst q = map fst l -> 0 <= eps ->
  Forall (shown_in_full disp) (map fst l) -> (forall x, In x (map fst l) -> post (Fin x) = Fin x) ->
  (forall all C x, Forall float_range all -> In x all -> Forall (below (10 ^ 309)) C -> In (disp all x) C -> near eps x (post (disp C (disp all x)))) ->
  1 <= B -> values_below B l -> values_below B q ->
  let C := concat (beside (shown disp (table_of (xrows l))) (shown disp (table_of (xrows q)))) in
  let en x := post (disp C (disp (concat (table_of (xrows l))) x)) in let ek x := post (disp C (disp (concat (table_of (xrows q))) x)) in
  exists l' q', map (fun p => [en (fst (fst p)); en (snd (fst p)); ek (snd (snd p))]) (combine (xrows l) (xrows q)) =
      map (fun p => [fst (fst p); snd (fst p); snd (snd p)]) (combine (xrows l') (xrows q')) /\
    values_within (eps * B) l l' /\ values_within (eps * B) q q'.
Proof.
  intros HW F1 F2 Eg He Ex Px Pn HB B1 B2 C en ek.
  assert (length q = length l) as Lq by (rewrite <- (map_length fst q), Eg; apply map_length).
  assert (length (xrows q) = length (xrows l)) as Lx by (unfold xrows; now rewrite !map_length).
  pose proof (together_displayable W disp HW (xrows l) (xrows q) F1 F2) as HC. fold C in HC.
  pose proof (float_table_concat _ F1) as An. pose proof (float_table_concat _ F2) as Ak.
  apply rows_combine; [exact Lq| |exact Eg].
  intros p p' I. assert (In ((Fin (fst p), Fin (snd p)), (Fin (fst p'), Fin (snd p'))) (combine (xrows l) (xrows q))) as Ix.
  { clear -I. unfold xrows. revert q I. induction l as [|a l IH]; intros [|b q] I; cbn in *; try contradiction. destruct I as [E|I]; [left; now injection E as -> ->|right; now apply IH]. }
  pose proof (in_combine_l _ _ _ _ I) as Il. pose proof (in_combine_r _ _ _ _ I) as Iq.
  destruct (together_in disp (xrows l) (xrows q) _ Lx Ix) as (I1 & I2 & I3). fold C in I1, I2, I3. cbn [fst snd] in I1, I2, I3.
  destruct (table_in (xrows l) _ (in_combine_l _ _ _ _ Ix)) as [T1 T2]. destruct (table_in (xrows q) _ (in_combine_r _ _ _ _ Ix)) as [T3 T4]. cbn [fst snd] in T1, T2, T3, T4.
  assert (shown_in_full disp (fst p)) as Xp by (apply (proj1 (Forall_forall _ _) Ex), in_map; exact Il).
  assert (forall x : R, Rabs x <= B -> eps * Rmax 1 (Rabs x) <= eps * B) as Mx by (intros x Hx; apply Rmult_le_compat_l; [exact He|]; now apply Rmax_lub).
  split; [|split].
  - unfold en. rewrite (exact_all disp (fst p) (concat (table_of (xrows l))) Xp) in I1 |- * by (try exact T1; now apply float_below).
    rewrite exact_all by assumption. apply Px. now apply in_map.
  - destruct (near_fin _ _ _ (Pn (concat (table_of (xrows l))) C (Fin (snd p)) An T2 HC I2)) as (r & E & D). exists r. split; [exact E|].
    eapply Rle_trans; [exact D|]. apply Mx. exact (proj1 (Forall_forall _ _) B1 _ Il).
  - destruct (near_fin _ _ _ (Pn (concat (table_of (xrows q))) C (Fin (snd p')) Ak T4 HC I3)) as (r & E & D). exists r. split; [exact E|].
    eapply Rle_trans; [exact D|]. apply Mx. exact (proj1 (Forall_forall _ _) B2 _ Iq).
Qed.
Lemma text_back W disp l q B : shows W disp -> float_table (xrows l) -> float_table (xrows q) -> map fst q = map fst l ->
  Forall (shown_in_full disp) (map fst l) -> Forall eight_decimals (map fst l) -> 1 <= B -> values_below B l -> values_below B q ->
  exists l' q', rounded8 (shown disp (beside (shown disp (table_of (xrows l))) (shown disp (table_of (xrows q))))) =
      map (fun p => [fst (fst p); snd (fst p); snd (snd p)]) (combine (xrows l') (xrows q')) /\
    values_within (2 / 10 ^ 8 * B) l l' /\ values_within (2 / 10 ^ 8 * B) q q'.
Proof.
  intros HW F1 F2 Eg Ex E8 HB B1 B2.
  assert (length q = length l) as Lq by (rewrite <- (map_length fst q), Eg; apply map_length).
  rewrite together_form by (unfold xrows; now rewrite !map_length).
  apply (entries_back W disp l q B (2 / 10 ^ 8) (xround 8)); try assumption; [lra| |intros; now apply (entry_near W disp HW)].
  intros x Ix. apply round8_exact. exact (proj1 (Forall_forall _ _) E8 _ Ix).
Qed.
Lemma yaml_rows_back W disp l q B : shows W disp -> float_table (xrows l) -> float_table (xrows q) -> map fst q = map fst l ->
  Forall (shown_in_full disp) (map fst l) -> 1 <= B -> values_below B l -> values_below B q ->
  exists l' q', shown disp (beside (shown disp (table_of (xrows l))) (shown disp (table_of (xrows q)))) =
      map (fun p => [fst (fst p); snd (fst p); snd (snd p)]) (combine (xrows l') (xrows q')) /\
    values_within (11 / 10 ^ 9 * B) l l' /\ values_within (11 / 10 ^ 9 * B) q q'.
Proof.
  intros HW F1 F2 Eg Ex HB B1 B2.
  assert (length q = length l) as Lq by (rewrite <- (map_length fst q), Eg; apply map_length).
  rewrite yaml_form by (unfold xrows; now rewrite !map_length). cbv zeta.
  apply (entries_back W disp l q B (11 / 10 ^ 9) (fun x => x)); try assumption; [lra|reflexivity|intros; now apply (yaml_entry_near W disp HW)].
Qed.
Lemma within_grid d s s' : values_within d s s' -> map fst s' = map fst s.
Proof. intros V. induction V as [|p p' s s' (E & _) V IH]; [reflexivity|]. cbn. now rewrite E, IH. Qed.

Lemma C100_near_l : forall X W disp path m c l q t u fs ic rii fk dk yl B,
  shows W disp -> text_file path -> header_ready W m -> comment_of m c -> unix_text c ->
  has_tables m l q t u -> float_table (xrows l) -> float_table (xrows q) -> (length l <= 333)%nat ->
  map fst q = map fst l -> t <> "" -> u <> "" ->
  Forall (shown_in_full disp) (map fst l) -> Forall eight_decimals (map fst l) -> 1 <= B -> values_below B l -> values_below B q ->
  Permutation FILE_META_DATA_KEYS fk -> Permutation DATASET_META_DATA_KEYS dk ->
  exists ops m' l' q', save_material W path m fs ic rii = (Ok tt, ops) /\
    mk_material (read_path fk dk yl (fs_run fs ops)) [("file_path", PStr path)] = Ok m' /\
    has_tables m' l' q' t u /\ values_within (2 / 10 ^ 8 * B) l l' /\ values_within (2 / 10 ^ 8 * B) q q' /\
    optics_within X (2 / 10 ^ 8 * B) B m m'.
Proof.
  intros X W disp path m c l q t u fs ic rii fk dk yl B HW Hp Hh Hc Hu HT F1 F2 L Eg Nt Nu Ex E8 HB B1 B2 Pf Pd.
  destruct (tabulated_tables m l q t u HT) as (b & b' & canon & Tm & T & U & T' & U' & Doc & L2 & N).
  destruct (text_back W disp l q B HW F1 F2 Eg Ex E8 HB B1 B2) as (l' & q' & ER & V1 & V2).
  assert (share_grid disp b b' (xrows l) (xrows q)) as Hs by (apply (exact_grid W); try assumption; congruence).
  assert (length q = length l) as Lq by (rewrite <- (map_length fst q), Eg; apply map_length).
  destruct Hc as [meta [Hm Hc]].
  destruct (together_read W disp path m meta c b b' (xrows l) (xrows q) fs ic rii fk dk yl) as (ops & d1 & fm & A' & B' & C' & K); try assumption.
  { unfold xrows. rewrite map_length. now split. }
  { unfold xrows. now rewrite !map_length. }
  rewrite ER in B'. rewrite T, U in C'.
  assert (length l' = length l) as Ll by (rewrite <- (map_length fst l'), (within_grid _ _ _ V1); apply map_length).
  destruct (process_nk_total d1 t u l' q') as (p & b1 & b2 & P0 & P1 & P2 & P3 & P4 & P5 & P6 & P7 & P8 & P9 & P10); try assumption.
  { now rewrite (within_grid _ _ _ V1), (within_grid _ _ _ V2). }
  { lia. }
  { now rewrite (within_grid _ _ _ V1). }
  { now exists canon. }
  destruct (copy_meta_total fm K) as [meta' HM].
  set (m' := mkMat (Some meta') "nk" (DInterp b1 (xrows l')) (DInterp b2 (xrows q')) None (p_stype p) (p_unit p)).
  assert (mk_material (read_path fk dk yl (fs_run fs ops)) [("file_path", PStr path)] = Ok m') as Mk.
  { rewrite load_material, C'. cbn [bind fd_meta fd_sets process_datasets]. rewrite HM, P0. cbn [bind]. unfold complete. rewrite P1, P2, P3, P4. reflexivity. }
  assert (has_tables m' l' q' t u) as HT' by (apply (loaded_tabulated _ _ m' b1 b2 l' q' t u Mk); [now repeat split|assumption..]).
  exists ops, m', l', q'. split; [exact A'|]. split; [exact Mk|]. split; [exact HT'|]. split; [exact V1|]. split; [exact V2|].
  eapply C100_stable_l; eassumption.
Qed.

Lemma C100_yaml_near_l : forall X W disp yl path m c meta sp l q t u fs ic fk dk B,
  shows W disp -> yaml_library W yl -> named path ".yml" -> m_meta m = Some meta -> dget meta "MetaComment" = Some (MStr c) -> yaml_text c ->
  standard_meta meta -> dget meta "Specification" = Some (MMap sp) ->
  has_tables m l q t u -> float_table (xrows l) -> float_table (xrows q) -> (length l <= 333)%nat ->
  map fst q = map fst l -> t <> "" -> u <> "" ->
  Forall (shown_in_full disp) (map fst l) -> 1 <= B -> values_below B l -> values_below B q ->
  Permutation FILE_META_DATA_KEYS fk -> Permutation DATASET_META_DATA_KEYS dk ->
  exists ops m' l' q', save_material W path m fs ic false = (Ok tt, ops) /\
    mk_material (read_path fk dk yl (fs_run fs ops)) [("file_path", PStr path)] = Ok m' /\
    has_tables m' l' q' t u /\ values_within (11 / 10 ^ 9 * B) l l' /\ values_within (11 / 10 ^ 9 * B) q q' /\
    optics_within X (11 / 10 ^ 9 * B) B m m'.
Proof.
  intros X W disp yl path m c meta sp l q t u fs ic fk dk B HW HY Hp Hm Hc Hy Hst Hsp HT0 Fn Fk Hl Hg NT NU Ex HB B1 B2 Pf Pd.
  destruct (tabulated_tables m l q t u HT0) as (b & b' & canon & HT & T & U & T' & U' & Doc & L2 & HN).
  destruct (yaml_rows_back W disp l q B HW Fn Fk Hg Ex HB B1 B2) as (l' & q' & ES & V1 & V2).
  assert (length q = length l) as Hq by (rewrite <- (map_length fst q), Hg; apply map_length).
  assert (length (xrows q) = length (xrows l)) as Hq' by (unfold xrows; now rewrite !map_length).
  assert (length (xrows l) = length l) as Hll by (unfold xrows; now rewrite map_length).
  assert (xrows l <> []) as Hne by (intros X0; rewrite X0 in Hll; cbn in Hll; lia).
  assert (share_grid disp b b' (xrows l) (xrows q)) as Hs by (apply (exact_grid W); try assumption; congruence).
  assert (mk_writer W path m = Ok (mkWriter path (splitext path) (kept meta) [set_together W disp b (xrows l) (xrows q)])) as Hw.
  { unfold mk_writer. rewrite (prepare_tables W m meta b b' _ _ HT Hm), (proj1 (collapse_share W disp HW b b' _ _ Fn Fk Hne Hq' ltac:(lia)) Hs). reflexivity. }
  destruct (yaml_save_total W path m _ meta c sp fs ic false Hp Hw Hm Hc Hst Hsp ltac:(intros _; now right)) as [ops HS].
  assert (ic = true \/ (~ constant_part (m_real m) /\ ~ constant_part (m_imag m))) as Hic.
  { right. destruct HT as (_ & _ & -> & ->). split; intros (? & ? & X0); discriminate. }
  destruct (yaml_back W yl path m c meta fs ic ops fk dk Hp HY Pf Pd HS Hm Hc Hy Hst Hic) as (w & fd & Hw' & ER & _ & HF & _ & HK).
  rewrite Hw in Hw'. injection Hw' as <-. cbn [w_sets] in HF.
  assert (written_sets ic [set_together W disp b (xrows l) (xrows q)] = [set_together W disp b (xrows l) (xrows q)]) as E0 by (destruct ic; reflexivity). rewrite E0 in HF.
  inversion HF as [|x f l0 l1 Hf HF' E1 E2]; subst l0 x. inversion HF'; subst. clear HF HF'.
  destruct (read_merged _ _ _ _ Hf) as (R1 & R2 & R3 & R4).
  pose proof (together_parse W disp HW (xrows l) (xrows q) Fn Fk Hne Hq' ltac:(lia)) as EP.
  rewrite ES in EP.
  assert (length l' = length l) as Ll by (rewrite <- (map_length fst l'), (within_grid _ _ _ V1); apply map_length).
  destruct (exact_loads l' q' (d_type b) (d_unit b) canon (set_defaults p_start (d_type b) (d_unit b))) as (b1 & b2 & EL & T1 & U1 & T2 & U2); try assumption; try reflexivity.
  { lia. }
  { now rewrite (within_grid _ _ _ V1), (within_grid _ _ _ V2). }
  { now rewrite (within_grid _ _ _ V1). }
  destruct (copy_meta_total (fd_meta fd) HK) as [meta' HM].
  set (m' := mkMat (Some meta') "nk" (DInterp b1 (xrows l')) (DInterp b2 (xrows q')) None (d_type b) (d_unit b)).
  assert (mk_material (read_path fk dk yl (fs_run fs ops)) [("file_path", PStr path)] = Ok m') as Mk.
  { rewrite load_material, ER. cbn [bind]. rewrite HM. cbn [bind]. rewrite <- E2. cbn [process_datasets].
    rewrite (tab_dataset f "nk" 3 _ _ _ _ (or_introl eq_refl) R1 R2 R3 (eq_trans (f_equal (fun v => str_table_to_numeric (dval_tab v)) R4) EP)).
    rewrite !orelse_nonempty by assumption. fold p_start. rewrite EL. cbn [bind]. unfold complete. cbn [set_real set_imag set_defaults p_real p_imag p_name p_complex bind]. reflexivity. }
  assert (has_tables m' l' q' (d_type b) (d_unit b)) as HT' by (apply (loaded_tabulated _ _ m' b1 b2 l' q' _ _ Mk); [now repeat split|assumption..|reflexivity|reflexivity]).
  exists ops, m', l', q'. split; [exact HS|]. split; [exact Mk|]. split; [exact HT'|]. split; [exact V1|]. split; [exact V2|].
  eapply C100_stable_l; eassumption.
Qed.

(** *** formulas *)
Lemma map_exact (f : xr -> xr) l : (forall x, In x l -> f x = x) -> map f l = l.
Proof. induction l as [|a l IH]; intros H; [reflexivity|]. cbn. rewrite (H a (or_introl eq_refl)), IH; [reflexivity|]. intros x Ix. apply H. now right. Qed.
Lemma formula_base m k ps l t u c : formula_material m k ps l t u c -> exists b bc, m_real m = DModel b k ps /\ m_imag m = DConst bc (ORe (Fin c)) /\
  d_type b = t /\ d_unit b = u /\ sp_values (d_range b) = VA l.
Proof.
  intros (_ & _ & Hr & Hi & _). unfold mk_model in Hr. inv_bind Hr b Eb. inv_bind Hr v Ev. injection Hr as <-.
  unfold constant_default, mk_constant in Hi. inv_bind Hi bc Ec. injection Hi as <-. exists b, bc. split; [reflexivity|]. split; [reflexivity|].
  unfold mk_base in Eb. inv_bind Eb s Es. injection Eb as <-. cbn [d_type d_unit d_range]. split; [reflexivity|]. split; [reflexivity|].
  destruct (mk_spectrum_ok _ _ _ _ Es) as (_ & w & _ & E & _ & _ & _ & ->). now injection E as <-.
Qed.
Lemma formula_loads W disp yl path m c meta sp k ps l t u fs fk dk v :
  shows W disp -> yaml_library W yl -> named path ".yml" -> Permutation FILE_META_DATA_KEYS fk -> Permutation DATASET_META_DATA_KEYS dk ->
  m_meta m = Some meta -> dget meta "MetaComment" = Some (MStr c) -> yaml_text c -> standard_meta meta -> dget meta "Specification" = Some (MMap sp) ->
  formula_material m k ps l t u v -> output k = Some "n" -> Forall float_range ps -> (length ps <= 1000)%nat -> Forall float_range l -> (1 <= length l <= 1000)%nat ->
  t <> "" -> u <> "" -> (forall x, In x ps -> disp ps x = x) -> (forall x, In x l -> disp l x = x) ->
  exists ops m', save_material W path m fs true false = (Ok tt, ops) /\
    mk_material (read_path fk dk yl (fs_run fs ops)) [("file_path", PStr path)] = Ok m' /\ formula_material m' k ps l t u 0.
Proof.
  intros HW HY Hp Pf Pd Hm Hc Ht Hst Hsp HF Ho Fp Lp Fr Lr NT NU Ep El.
  destruct (formula_base m k ps l t u v HF) as (b & bc & Hr & Hi & T & U & V).
  destruct HF as (Hn & Hx & Hmk & Hcd & St & Un).
  assert (savable_part (m_real m)) as Hsv by (rewrite Hr; cbn [savable_part]; rewrite T, U, V; cbn [elems]; now repeat (split; [assumption|])).
  assert (constant_part (m_imag m)) as Hcp by (now exists bc, (ORe (Fin v))).
  destruct (C43_model_cycle_l W disp yl path m c meta sp b k ps (InVals (VA l)) fs fk dk) as (ops & m1 & HS & _); try assumption; [now rewrite T, U, <- Hr|].
  destruct (yaml_back W yl path m c meta fs true ops fk dk Hp HY Pf Pd HS Hm Hc Ht Hst (or_introl eq_refl)) as (w & fd & Hw & ER & _ & HF & _ & HK).
  destruct (writer_parts W path m w Hw) as (a & i & Ea & Ei & Ec). rewrite Hn in Ea, Ei. rewrite <- Hn in Ea, Ei.
  rewrite (sets_with_const W path m w a i Hw (or_intror Hcp) Ea Ei) in HF. rewrite Hn, Hr, part_model in Ea. injection Ea as <-.
  cbn [written_sets filter] in HF. rewrite (proj2 (part_const_iff _ _ _ _ _ (or_intror (or_introl eq_refl)) Ei) Hcp) in HF.
  change (is_const (model_dict W b k ps)) with (contains_str "constant" ("model " ++ model_name k)%string) in HF. rewrite model_constant in HF. cbn [negb] in HF.
  inversion HF as [|x f l0 l1 Hf HF' E1 E2]; subst x l0. inversion HF'; subst l1. clear HF HF'.
  destruct (copy_meta_total (fd_meta fd) HK) as [meta' HM].
  destruct (read_model W b k ps f Hf) as (R1 & R2 & R3 & R4 & R5).
  assert (process_dataset f p_start = Ok (set_real (set_defaults p_start t u) "nk" (m_real m))) as Eq.
  { rewrite (model_dataset W disp f b k ps p_start HW R1 R2 R5 _ _ R3 R4 Fp) by (rewrite ?V; assumption). rewrite V, T, U. cbn [elems].
    rewrite !orelse_nonempty by assumption. rewrite (map_exact _ _ Ep), (map_exact _ _ El).
    unfold process_model_dict. cbn [kw_name kw_stype kw_unit kw_params kw_range opt_key bind]. rewrite class_of. cbn [bind]. rewrite Ho, Hmk. reflexivity. }
  assert (exists z, constant_default (ORe (Fin 0)) = Ok z) as [z Ez] by (eexists; reflexivity).
  exists ops, (mkMat (Some meta') "nk" (m_real m) z None t u). split; [exact HS|]. split; [|now repeat split].
  rewrite load_material, ER. cbn [bind]. rewrite HM. cbn [bind]. rewrite <- E2. cbn [process_datasets]. fold p_start. rewrite Eq. cbn [bind].
  unfold complete. cbn [set_real set_defaults p_real p_imag p_name p_complex bind]. rewrite Ez. reflexivity.
Qed.
Lemma same_parts X m m' : m_name m' = m_name m -> m_complex m' = m_complex m -> m_real m' = m_real m -> m_imag m' = m_imag m -> m_stype m' = m_stype m -> m_unit m' = m_unit m ->
  same_optics X m m'.
Proof.
  intros Nm C E1 E2 St Un.
  assert (forall s, complex_value X m' s = complex_value X m s) as K by (intros s; unfold complex_value; now rewrite C, E1, E2).
  assert (forall s, get_permittivity_obj X m' s = get_permittivity_obj X m s) as P by (intros s; unfold get_permittivity_obj, valid_name; now rewrite Nm, K).
  split; [|split].
  - intros a. unfold get_nk_data, valid_name. rewrite Nm. destruct (match a with SObj s => _ | SRaw v t0 u0 => _ end) as [s|e]; cbn [bind]; [|reflexivity]. now rewrite K.
  - intros a. unfold get_permittivity. destruct a as [s|v t0 u0]; [now rewrite P|]. destruct (mk_spectrum v t0 u0); cbn [bind]; [now rewrite P|reflexivity].
  - unfold get_maximum_valid_range, valid_name. now rewrite Nm, C, E1, E2, St, Un.
Qed.

Lemma C101_transparent_l : forall X W disp yl path m c meta sp k ps l t u fs fk dk,
  shows W disp -> yaml_library W yl -> named path ".yml" -> Permutation FILE_META_DATA_KEYS fk -> Permutation DATASET_META_DATA_KEYS dk ->
  m_meta m = Some meta -> dget meta "MetaComment" = Some (MStr c) -> yaml_text c -> standard_meta meta -> dget meta "Specification" = Some (MMap sp) ->
  formula_material m k ps l t u 0 -> output k = Some "n" -> Forall float_range ps -> (length ps <= 1000)%nat -> Forall float_range l -> (1 <= length l <= 1000)%nat ->
  t <> "" -> u <> "" -> (forall x, In x ps -> disp ps x = x) -> (forall x, In x l -> disp l x = x) ->
  exists ops m', save_material W path m fs true false = (Ok tt, ops) /\
    mk_material (read_path fk dk yl (fs_run fs ops)) [("file_path", PStr path)] = Ok m' /\
    formula_material m' k ps l t u 0 /\ same_optics X m m'.
Proof.
  intros X W disp yl path m c meta sp k ps l t u fs fk dk HW HY Hp Pf Pd Hm Hc Ht Hst Hsp HF Ho Fp Lp Fr Lr NT NU Ep El.
  destruct (formula_loads W disp yl path m c meta sp k ps l t u fs fk dk 0) as (ops & m' & HS & HL & HF'); try assumption.
  exists ops, m'. split; [exact HS|]. split; [exact HL|]. split; [exact HF'|].
  destruct HF as (Nm & C & Hr & Hi & St & Un), HF' as (Nm' & C' & Hr' & Hi' & St' & Un'). apply same_parts; congruence.
Qed.

Lemma real_answers k ps x y : output k = Some "n" -> model_point k ps x = Ok y -> exists r, y = ORe r.
Proof. intros Ho H. destruct k; try discriminate Ho; cbn [model_point] in H; inv_bind H r Er; injection H as <-; now exists r. Qed.
Definition reals (v : ovals) : Prop := match v with OS o => exists r, o = ORe r | OA l => Forall (fun o => exists r, o = ORe r) l end.
Lemma map_vals_real k ps v r : output k = Some "n" -> map_vals (model_point k ps) v = Ok r -> reals r.
Proof.
  intros Ho H. assert (forall vs q, map_res (model_point k ps) vs = Ok q -> Forall (fun o => exists r, o = ORe r) q) as G.
  { induction vs as [|x vs IH]; intros q Hq; cbn [map_res] in Hq; [injection Hq as <-; constructor|]. inv_bind Hq y Ey. inv_bind Hq ys Eys. injection Hq as <-.
    constructor; [now apply (real_answers k ps x)|now apply IH]. }
  destruct v as [x|vl|vl]; cbn [map_vals] in H; inv_bind H o Eo; injection H as <-; cbn [reals]; [now apply (real_answers k ps x)|now apply (G (elems (VA vl)))|now apply (G (elems (VI vl)))].
Qed.
Lemma join_lost v o : (exists r, o = ORe r) ->
  number_lost v (OCx (cxadd (onum_cx o) (cxmul (CF Ci) (onum_cx (ORe (Fin v)))))) (OCx (cxadd (onum_cx o) (cxmul (CF Ci) (onum_cx (ORe (Fin 0)))))).
Proof.
  intros [r ->]. unfold number_lost. cbn [onum_cx]. destruct r as [r| | |]; cbn [cx_of_xr cxmul cxadd cx2]; try exact I. unfold Ci, RtoC, Cplus, Cmult. cbn [fst snd]. repeat split; ring.
Qed.
Lemma zip_lost v (q : list xr) : forall ol, Forall (fun o => exists r, o = ORe r) ol ->
  Forall2 (number_lost v) (map (fun x => OCx (onum_cx x)) (zip_with (fun x y => OCx (cxadd (onum_cx x) (cxmul (CF Ci) (onum_cx y)))) ol (map (fun _ => ORe (Fin v)) q)))
    (map (fun x => OCx (onum_cx x)) (zip_with (fun x y => OCx (cxadd (onum_cx x) (cxmul (CF Ci) (onum_cx y)))) ol (map (fun _ => ORe (Fin 0)) q))).
Proof.
  induction q as [|z q IH]; intros ol Fo; [destruct ol; constructor|]. destruct Fo as [|o ol Ho' Fo]; cbn; constructor; [now apply join_lost|now apply IH].
Qed.
Lemma map_lost v (A : Type) (f g : A -> onum) (q : list A) : (forall x, In x q -> number_lost v (f x) (g x)) -> Forall2 (number_lost v) (map f q) (map g q).
Proof. induction q as [|x q IH]; intros H; cbn; constructor; [apply H; now left|apply IH; intros y Hy; apply H; now right]. Qed.
Lemma formula_lost X m m' k ps l t u v a : formula_material m k ps l t u v -> formula_material m' k ps l t u 0 -> output k = Some "n" ->
  absorption_lost v (get_nk_data X m a) (get_nk_data X m' a).
Proof.
  intros HF HF' Ho. destruct (formula_base m k ps l t u v HF) as (b & bc & Hr & Hi & _), (formula_base m' k ps l t u 0 HF') as (b' & bc' & Hr' & Hi' & _).
  destruct HF as (Hn & Hx & M1 & C1 & _), HF' as (Hn' & Hx' & M2 & C2 & _).
  assert (b' = b) as -> by congruence.
  assert (bc' = bc) as ->.
  { rewrite Hi in C1. rewrite Hi' in C2. unfold constant_default, mk_constant in C1, C2. inv_bind C1 x E1. inv_bind C2 y E2. congruence. }
  unfold get_nk_data, valid_name. rewrite Hn, Hn'. destruct (match a with SObj s => _ | SRaw v t0 u0 => _ end) as [s|e]; cbn [bind]; [|reflexivity].
  change (negb (String.eqb "nk" "nk" || String.eqb "nk" "eps")) with false. change (String.eqb "nk" "eps") with false. cbv iota.
  unfold complex_value. rewrite Hx, Hr, Hi, Hx', Hr', Hi'. cbn [evaluate].
  set (re := do_ contains (d_range b) s; _). assert (forall r, re = Ok r -> reals r) as Rr.
  { intros r E. unfold re in E. inv_bind E x0 E0. inv_bind E v0 E1. destruct k; try discriminate Ho; eapply map_vals_real; try exact E; reflexivity. }
  destruct re as [r|e]; [|reflexivity]. specialize (Rr r eq_refl). destruct (contains (d_range bc) s) as [x1|e]; [|reflexivity]. cbn [bind fst].
  destruct (sp_values s) as [x|vl|vl]; cbn [fst]; unfold join_parts, obin.
  - destruct r as [o|ol]; cbn [bind omap absorption_lost]; [now apply join_lost|]. rewrite !map_map. apply map_lost. cbn [reals] in Rr. rewrite Forall_forall in Rr.
    intros o Io. apply join_lost. now apply Rr.
  - destruct r as [o|ol]; cbn [reals] in Rr.
    + cbn [bind omap absorption_lost]. rewrite !map_map. apply map_lost. intros z _. now apply join_lost.
    + rewrite !map_length. match goal with |- context [if ?e then _ else _] => destruct e end; cbn [bind omap absorption_lost]; [|reflexivity]. now apply zip_lost.
  - destruct r as [o|ol]; cbn [reals] in Rr.
    + cbn [bind omap absorption_lost]. rewrite !map_map. apply map_lost. intros z _. now apply join_lost.
    + rewrite !map_length. match goal with |- context [if ?e then _ else _] => destruct e end; cbn [bind omap absorption_lost]; [|reflexivity]. now apply zip_lost.
Qed.

Lemma C101_absorption_lost_refuted_l : forall X W disp yl path m c meta sp k ps l t u fs fk dk v,
  shows W disp -> yaml_library W yl -> named path ".yml" -> Permutation FILE_META_DATA_KEYS fk -> Permutation DATASET_META_DATA_KEYS dk ->
  m_meta m = Some meta -> dget meta "MetaComment" = Some (MStr c) -> yaml_text c -> standard_meta meta -> dget meta "Specification" = Some (MMap sp) ->
  formula_material m k ps l t u v -> output k = Some "n" -> Forall float_range ps -> (length ps <= 1000)%nat -> Forall float_range l -> (1 <= length l <= 1000)%nat ->
  t <> "" -> u <> "" -> (forall x, In x ps -> disp ps x = x) -> (forall x, In x l -> disp l x = x) ->
  exists ops m', save_material W path m fs true false = (Ok tt, ops) /\
    mk_material (read_path fk dk yl (fs_run fs ops)) [("file_path", PStr path)] = Ok m' /\
    forall a, absorption_lost v (get_nk_data X m a) (get_nk_data X m' a).
Proof.
  intros X W disp yl path m c meta sp k ps l t u fs fk dk v HW HY Hp Pf Pd Hm Hc Ht Hst Hsp HF Ho Fp Lp Fr Lr NT NU Ep El.
  destruct (formula_loads W disp yl path m c meta sp k ps l t u fs fk dk v) as (ops & m' & HS & HL & HF'); try assumption.
  exists ops, m'. split; [exact HS|]. split; [exact HL|]. intros a. eapply formula_lost; eassumption.
Qed.

(** a film with values that no decimal text shows exactly *)
Definition film_n : list (R * R) := [(400, 1 / 3); (500, 2 / 3)].
Definition film_k : list (R * R) := [(400, 1 / 7); (500, 0)].
Lemma tabulated_exists c l q : (2 <= length l)%nat -> NoDup (map fst l) -> (2 <= length q)%nat -> NoDup (map fst q) ->
  exists m, has_tables m l q "wavelength" "nanometer" /\ m_meta m = Some (gold_meta c) /\ forall W, header_ready W m.
Proof.
  intros L1 N1 L2 N2.
  destruct (gold_parts l L1 N1) as (b & E1 & E2 & E3). destruct (gold_parts q L2 N2) as (b' & E1' & E2' & E3').
  exists (mkMat (Some (gold_meta c)) "nk" (DInterp b (xrows l)) (DInterp b' (xrows q)) None "wavelength" "nanometer").
  split; [now repeat split|]. split; [reflexivity|]. intros W. split.
  - cbn [m_meta]. intros meta key v E. injection E as <-. unfold header_keys. cbn [In].
    intros [<-|[<-|[<-|[<-|[<-|[]]]]]] E; cbn [gold_meta dget String.eqb Ascii.eqb Bool.eqb] in E; injection E as <-; cbn [format_val]; apply header_value_dec; reflexivity.
  - cbn [m_real]. intros b0 rows E. injection E as <- _. rewrite E2, E3. split; apply header_value_dec; reflexivity.
Qed.
Lemma film_n_nodup : NoDup (map fst film_n). Proof. eapply no_dup_2; [reflexivity|lra]. Qed.
Lemma film_k_nodup : NoDup (map fst film_k). Proof. eapply no_dup_2; [reflexivity|lra]. Qed.
Lemma film_float : float_table (xrows film_n) /\ float_table (xrows film_k).
Proof.
  assert (10 ^ 3 <= 10 ^ 307) as P by (apply Rle_pow; [lra|lia]).
  split; (constructor; [|constructor; [|constructor]]); split; unfold float_range, below; cbn [fst snd xrows map]; rewrite Rabs_right; lra.
Qed.
Lemma film_shown : Forall (shown_in_full sample_disp) (map fst film_n) /\ Forall eight_decimals (map fst film_n).
Proof.
  assert (forall z r, r * 10 ^ 8 = IZR z -> Rabs r < 10 ^ 7 -> shown_in_full sample_disp r /\ eight_decimals r) as H.
  { intros z r E D. assert (eight_decimals r) as K by (exists z; rewrite <- E; field; lra). split; [|exact K]. intros all _ _. now apply sample_exact. }
  cbn [film_n map fst].
  destruct (H 40000000000%Z 400) as [A1 A2]; [lra|rewrite Rabs_right; lra|]. destruct (H 50000000000%Z 500) as [A3 A4]; [lra|rewrite Rabs_right; lra|].
  split; (constructor; [assumption|constructor; [assumption|constructor]]).
Qed.

Lemma glass_formula v : exists m, formula_material m Sellmeier [Fin 0; Fin 1.04; Fin 0.006] [Fin 0.3; Fin 2.5] "wavelength" "um" v /\ m_meta m = Some (gold_meta "glass").
Proof.
  destruct glass_exists as (_ & b & Hb & _).
  assert (exists z, constant_default (ORe (Fin v)) = Ok z) as [z Ez] by (eexists; reflexivity).
  exists (mkMat (Some (gold_meta "glass")) "nk" (DModel b Sellmeier [Fin 0; Fin 1.04; Fin 0.006]) z None "wavelength" "um"). now repeat split.
Qed.
Lemma glass_numbers x : In x [Fin 0; Fin 1.04; Fin 0.006; Fin 0.3; Fin 2.5] -> float_range x /\ forall all, sample_disp all x = x.
Proof.
  intros Hx.
  assert (forall r z, r * 10 ^ 8 = IZR z -> 0 <= r < 10 -> float_range (Fin r) /\ forall all, sample_disp all (Fin r) = Fin r) as G.
  { intros r z E D. split.
    - cbn. assert (10 ^ 0 <= 10 ^ 307) as P by (apply Rle_pow; [lra|lia]). cbn [pow] in P. rewrite Rabs_right; lra.
    - intros all. apply sample_exact; [exists z; f_equal; rewrite <- E; field; lra|cbn; rewrite Rabs_right; lra]. }
  destruct Hx as [<-|[<-|[<-|[<-|[<-|[]]]]]]; [apply (G 0 0%Z)|apply (G 1.04 104000000%Z)|apply (G 0.006 600000%Z)|apply (G 0.3 30000000%Z)|apply (G 2.5 250000000%Z)]; lra.
Qed.
