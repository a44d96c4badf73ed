(** A display that meets the conditions of [shows] *)
From Verif Require Import PyBase PyStr XReal SpectrumModel SpectralModel TextModel TextSpec TextProofs TableProofs MaterialModel FileModel ReaderModel WriterModel IOSpec LineProofs FmtProofs DisplayProofs.
From Flocq Require Import Core.
Open Scope R_scope.
Open Scope string_scope.
Open Scope list_scope.

Fixpoint find_exp (fuel k : nat) (r : R) : nat :=
  match fuel with O => k | S f => if Rlt_dec (Rabs r) (10 ^ (k + 7)) then k else find_exp f (S k) r end.
Definition exponent_of (r : R) : nat := find_exp 302 1 r.
Definition sample_fmt (all : list xr) (x : xr) : string :=
  match x with
  | Fin r => if Rlt_dec (Rabs r) (10 ^ 7) then fmt_f 8 x
             else (fmt_f 2 (Fin (r / 10 ^ exponent_of r)) ++ String "e" (digit_string (int_digits (Z.of_nat (exponent_of r)))))%string
  | _ => fmt_f 8 x
  end.
Definition sample_disp (all : list xr) (x : xr) : xr :=
  match x with
  | Fin r => if Rlt_dec (Rabs r) (10 ^ 7) then Fin (round_dec 8 r)
             else Fin (round_dec 2 (r / 10 ^ exponent_of r) * 10 ^ exponent_of r)
  | _ => x
  end.
Definition sample_env : wenv := mkWenv sample_fmt (fun _ => "1") (Raise ValueError) (fun _ => "").

Lemma find_exp_spec fuel : forall k r, 10 ^ (k + 6) <= Rabs r < 10 ^ (fuel + k + 7) ->
  (k <= find_exp fuel k r <= fuel + k)%nat /\ 10 ^ (find_exp fuel k r + 6) <= Rabs r < 10 ^ (find_exp fuel k r + 7).
Proof.
  induction fuel as [|f IH]; intros k r H; cbn [find_exp]; [split; [lia|exact H]|].
  destruct (Rlt_dec (Rabs r) (10 ^ (k + 7))) as [L|L]; [split; [lia|split; [apply H|exact L]]|].
  destruct (IH (S k) r) as [I1 I2].
  - replace (S k + 6)%nat with (k + 7)%nat by lia. replace (f + S k + 7)%nat with (S f + k + 7)%nat by lia. lra.
  - split; [lia|exact I2].
Qed.
Lemma exponent_spec r : 10 ^ 7 <= Rabs r < 10 ^ 309 -> (1 <= exponent_of r <= 303)%nat /\ 10 ^ (exponent_of r + 6) <= Rabs r < 10 ^ (exponent_of r + 7).
Proof.
  intros [H1 H2]. unfold exponent_of. pose proof (find_exp_spec 302 1 r) as F. destruct F as [F1 F2].
  - split; [exact H1|]. eapply Rlt_trans; [exact H2|]. apply Rlt_pow; [lra|lia].
  - split; [lia|exact F2].
Qed.

Lemma count_le m : (1 <= m)%nat -> forall f z, (0 <= z < 10 ^ Z.of_nat m)%Z -> (count_digits f z <= m)%nat.
Proof.
  induction m as [|m IH]; [lia|]. intros _ f z Hz. destruct f as [|f]; cbn [count_digits]; [lia|].
  destruct (Z.ltb_spec z 10); [lia|]. destruct m as [|m]; [change (Z.of_nat 1) with 1%Z in Hz; lia|].
  apply le_n_S, IH; [lia|]. split; [apply Z.div_pos; lia|]. apply Z.div_lt_upper_bound; [lia|].
  rewrite (Nat2Z.inj_succ (S m)), Z.pow_succ_r in Hz by lia. lia.
Qed.
Lemma digit_string_length ds : String.length (digit_string ds) = length ds.
Proof. induction ds as [|d ds IH]; [reflexivity|]. cbn [digit_string fold_right String.length length]. unfold digit_string in IH. now rewrite IH. Qed.
Lemma int_digits_length m z : (1 <= m)%nat -> (0 <= z < 10 ^ Z.of_nat m)%Z -> (length (int_digits z) <= m)%nat.
Proof. intros Hm Hz. unfold int_digits. rewrite fixed_digits_length. now apply count_le. Qed.

Lemma fmt_f_length d p r : Rabs r < 10 ^ p -> (String.length (fmt_f d (Fin r)) <= p + d + 3)%nat.
Proof.
  intros H. cbn [fmt_f]. set (z := ZnearestE (Rabs r * 10 ^ d)).
  assert (0 < 10 ^ d) as Hd by (apply pow_lt; lra).
  assert (0 <= z)%Z as Hz by (apply ZnearestE_nonneg; pose proof (Rabs_pos r); nra).
  assert (z <= 10 ^ Z.of_nat (p + d))%Z as Hz2.
  { unfold z. pose proof (@Zrnd_le ZnearestE (valid_rnd_N _) (Rabs r * 10 ^ d) (IZR (10 ^ Z.of_nat (p + d)))) as M.
    rewrite (@Zrnd_IZR ZnearestE (valid_rnd_N _)) in M. apply M.
    rewrite <- pow_IZR, pow_add. change (IZR 10) with 10. nra. }
  assert (z / 10 ^ Z.of_nat d < 10 ^ Z.of_nat (S p))%Z as Hq.
  { apply Z.div_lt_upper_bound; [apply Z.pow_pos_nonneg; lia|].
    eapply Z.le_lt_trans; [exact Hz2|]. rewrite <- Z.pow_add_r by lia. apply Z.pow_lt_mono_r; lia. }
  assert (0 <= z / 10 ^ Z.of_nat d)%Z as Hq0 by (apply Z.div_pos; [exact Hz|apply Z.pow_pos_nonneg; lia]).
  pose proof (int_digits_length (S p) (z / 10 ^ Z.of_nat d) ltac:(lia) (conj Hq0 Hq)).
  rewrite !length_app, !digit_string_length, fixed_digits_length. destruct (Rlt_dec r 0); cbn [String.length]; lia.
Qed.

Lemma fmt_f_expo us d r e ev : (0 < d)%nat -> expo_text us e ev -> number_text us (fmt_f d (Fin r) ++ e)%string (Fin (round_dec d r * ev)).
Proof.
  intros Hd He. cbn [fmt_f]. rewrite round_dec_sign. set (z := ZnearestE (Rabs r * 10 ^ d)).
  assert (0 <= z)%Z as Hz by (apply ZnearestE_nonneg; pose proof (Rabs_pos r); assert (0 < 10 ^ d) by (apply pow_lt; lra); nra).
  assert (0 <= z / 10 ^ Z.of_nat d)%Z as Hq by (apply Z.div_pos; [exact Hz|apply Z.pow_pos_nonneg; lia]).
  destruct (int_digits_val _ Hq) as [V [D N]].
  assert (IZR z / 10 ^ d = positional (int_digits (z / 10 ^ Z.of_nat d)) + positional (fixed_digits d z) / 10 ^ length (fixed_digits d z)) as ->.
  { rewrite V, fixed_digits_val, fixed_digits_length.
    assert (10 ^ d = IZR (10 ^ Z.of_nat d)) as -> by (rewrite <- pow_IZR; reflexivity).
    rewrite (Z.div_mod z (10 ^ Z.of_nat d)) at 1 by (apply Z.pow_nonzero; lia).
    rewrite plus_IZR, mult_IZR. field. apply not_0_IZR, Z.pow_nonzero; lia. }
  rewrite Rmult_assoc. rewrite app_assoc_s. apply nt_fin.
  - destruct (Rlt_dec r 0); constructor.
  - apply mt_frac; apply digits_text_of; auto.
    + intros E. pose proof (fixed_digits_length d z). rewrite E in H. cbn in H. lia.
    + apply fixed_digits_digit.
  - exact He.
Qed.
Lemma fmt_0 x : (x = PInf \/ x = NInf \/ x = NaN) -> number_text true (fmt_f 8 x) x /\ (String.length (fmt_f 8 x) <= 18)%nat.
Proof. intros H. split; [|destruct H as [->|[->| ->]]; cbn; lia]. pose proof (fmt_f_number true 8 x ltac:(lia)). destruct H as [->|[->| ->]]; exact H0. Qed.

Lemma sample_shows_gen W : fmt_elem W = sample_fmt -> shows W sample_disp.
Proof.
  intros HW. split; rewrite ?HW; intros all x HD Hx; pose proof (proj1 (Forall_forall _ _) HD x Hx) as Hb; clear HD Hx; cbn [below] in Hb.
  - assert (number_text true (sample_fmt all x) (sample_disp all x)) as Hn; [|exists 0%nat, (sample_fmt all x), 0%nat; cbn [blanks append]; rewrite app_empty_r; now split].
    destruct x as [r| | |]; [|apply fmt_0; auto..]. cbn [sample_fmt sample_disp].
    destruct (Rlt_dec (Rabs r) (10 ^ 7)) as [L|L]; [apply fmt_f_number; lia|].
    destruct (int_digits_val (Z.of_nat (exponent_of r)) ltac:(lia)) as [V [D N]].
    apply fmt_f_expo; [lia|].
    replace (10 ^ exponent_of r) with (Rpower 10 (positional (int_digits (Z.of_nat (exponent_of r))))).
    + apply (ex_pos true "e"%char (digit_string _) _ ""); [now left| |now left]. now apply digits_text_of.
    + rewrite V. rewrite <- INR_IZR_INZ. apply Rpower_pow. lra.
  - destruct x as [r| | |]; [|apply fmt_0; auto..]. cbn [sample_fmt].
    destruct (Rlt_dec (Rabs r) (10 ^ 7)) as [L|L]; [pose proof (fmt_f_length 8 7 r L); lia|].
    destruct (exponent_spec r (conj (Rnot_lt_le _ _ L) Hb)) as [B1 B2].
    rewrite length_app. cbn [String.length]. rewrite digit_string_length.
    pose proof (int_digits_length 3 (Z.of_nat (exponent_of r)) ltac:(lia) ltac:(split; [lia|change (10 ^ Z.of_nat 3)%Z with 1000%Z; lia])).
    assert (Rabs (r / 10 ^ exponent_of r) < 10 ^ 7) as Hs.
    { unfold Rdiv. rewrite Rabs_mult, Rabs_inv. assert (0 < 10 ^ exponent_of r) as P by (apply pow_lt; lra).
      rewrite (Rabs_right (10 ^ _)) by lra. apply Rmult_lt_reg_r with (10 ^ exponent_of r); [exact P|].
      rewrite Rmult_assoc, Rinv_l by lra. rewrite Rmult_1_r. destruct B2 as [_ B2]. rewrite Nat.add_comm, pow_add in B2. exact B2. }
    pose proof (fmt_f_length 2 7 _ Hs). lia.
  - unfold shown_near, near. destruct x as [r| | |]; [|reflexivity..]. cbn [sample_disp].
    assert (1 <= Rmax 1 (Rabs r)) as M1 by apply Rmax_l. assert (Rabs r <= Rmax 1 (Rabs r)) as M2 by apply Rmax_r.
    destruct (Rlt_dec (Rabs r) (10 ^ 7)) as [L|L].
    + pose proof (round_dec_error 8 r). lra.
    + destruct (exponent_spec r (conj (Rnot_lt_le _ _ L) Hb)) as [B1 [B2 B3]].
      assert (0 < 10 ^ exponent_of r) as P by (apply pow_lt; lra).
      pose proof (round_dec_error 2 (r / 10 ^ exponent_of r)) as E. rewrite Nat.add_comm, pow_add in B2.
      revert P E B2. generalize (10 ^ exponent_of r). intros p P E B2.
      replace (round_dec 2 (r / p) * p - r) with ((round_dec 2 (r / p) - r / p) * p) by (field; lra).
      rewrite Rabs_mult, (Rabs_right p) by lra. nra.
Qed.
Lemma sample_shows : shows sample_env sample_disp.
Proof. now apply sample_shows_gen. Qed.
