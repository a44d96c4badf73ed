(** The "%.8f" format denotes the value rounded to 8 decimals *)
From Verif Require Import PyBase PyStr XReal SpectrumSpec SpectrumProofs TextModel TextSpec TextProofs TableProofs MaterialModel FileModel ReaderModel WriterModel IOSpec LineProofs.
From Flocq Require Import Core.
Open Scope R_scope.
Open Scope string_scope.
Open Scope list_scope.

Definition digit (d : Z) : Prop := (0 <= d < 10)%Z.

Lemma fixed_digits_digit k : forall z, Forall digit (fixed_digits k z).
Proof.
  induction k as [|k IH]; intros z; cbn [fixed_digits]; [constructor|].
  apply Forall_app. split; [apply IH|]. repeat constructor; pose proof (Z.mod_pos_bound z 10); lia.
Qed.
Lemma fixed_digits_length k : forall z, length (fixed_digits k z) = k.
Proof. induction k as [|k IH]; intros z; cbn [fixed_digits]; [reflexivity|]. rewrite app_length, IH. cbn. lia. Qed.

Lemma fixed_digits_val k : forall z, positional (fixed_digits k z) = IZR (z mod 10 ^ Z.of_nat k).
Proof.
  induction k as [|k IH]; intros z.
  - cbn. now rewrite Z.mod_1_r.
  - cbn [fixed_digits]. rewrite positional_app, IH. cbn [length positional]. 
    rewrite Nat2Z.inj_succ, Z.pow_succ_r by lia.
    rewrite (Z.rem_mul_r z 10 (10 ^ Z.of_nat k)) by lia.
    rewrite plus_IZR, mult_IZR. cbn [pow length]. lra.
Qed.

Lemma count_enough f : forall z, (0 <= z < 2 ^ (Z.of_nat f + 1))%Z -> (z < 10 ^ Z.of_nat (count_digits f z))%Z.
Proof.
  induction f as [|f IH]; intros z Hz; cbn [count_digits].
  - cbn in *. lia.
  - destruct (Z.ltb_spec z 10); [change (Z.of_nat 1) with 1%Z; lia|].
    assert (z / 10 < 10 ^ Z.of_nat (count_digits f (z / 10)))%Z as H'.
    { apply IH. split; [apply Z.div_pos; lia|]. apply Z.div_lt_upper_bound; [lia|].
      replace (Z.of_nat (S f) + 1)%Z with (Z.succ (Z.of_nat f + 1)) in Hz by lia.
      rewrite Z.pow_succ_r in Hz by lia. lia. }
    rewrite Nat2Z.inj_succ, Z.pow_succ_r by lia. pose proof (Z.div_mod z 10). pose proof (Z.mod_pos_bound z 10). lia.
Qed.
Lemma int_digits_val z : (0 <= z)%Z -> positional (int_digits z) = IZR z /\ Forall digit (int_digits z) /\ int_digits z <> [].
Proof.
  intros Hz. unfold int_digits. split; [|split; [apply fixed_digits_digit|]].
  - rewrite fixed_digits_val. f_equal. apply Z.mod_small. split; [exact Hz|]. apply count_enough. split; [exact Hz|].
    rewrite Z2Nat.id by apply Z.log2_nonneg.
    destruct (Z.eq_dec z 0) as [->|Hn]; [reflexivity|]. apply Z.log2_spec. lia.
  - intros E. assert (length (fixed_digits (count_digits (Z.to_nat (Z.log2 z)) z) z) = 0)%nat by now rewrite E.
    rewrite fixed_digits_length in H. destruct (Z.to_nat (Z.log2 z)); cbn in H; [discriminate|].
    destruct (z <? 10)%Z; discriminate.
Qed.

Lemma digits_text_of us ds : ds <> [] -> Forall digit ds -> digits_text us (digit_string ds) ds.
Proof.
  induction ds as [|d ds IH]; intros Hn Hd; [congruence|].
  pose proof (Forall_inv Hd) as Hd0. unfold digit in Hd0.
  replace d with (Z.of_nat (Z.to_nat d)) at 2 by (rewrite Z2Nat.id; lia).
  cbn [digit_string fold_right]. destruct ds as [|e ds].
  - apply dt_one. lia.
  - apply dt_cons; [lia|]. apply IH; [discriminate|]. now apply Forall_inv_tail in Hd.
Qed.

Lemma ZnearestE_opp x : ZnearestE (- x) = (- ZnearestE x)%Z.
Proof.
  rewrite Znearest_opp. f_equal. unfold Znearest. destruct (Rcompare (x - IZR (Zfloor x)) (/ 2)); try reflexivity.
  assert (negb (negb (Z.even (- (Zfloor x + 1)))) = negb (Z.even (Zfloor x))) as ->; [|reflexivity].
  rewrite Z.even_opp, Z.add_1_r, Z.even_succ, negb_involutive. apply eq_sym, Z.negb_even.
Qed.
Lemma round_dec_sign d r : round_dec d r = (if Rlt_dec r 0 then -1 else 1) * (IZR (ZnearestE (Rabs r * 10 ^ d)) / 10 ^ d).
Proof.
  unfold round_dec. destruct (Rlt_dec r 0) as [H|H].
  - rewrite Rabs_left by exact H. rewrite <- Ropp_mult_distr_l, ZnearestE_opp, opp_IZR. lra.
  - rewrite Rabs_right by lra. lra.
Qed.
Lemma ZnearestE_nonneg x : 0 <= x -> (0 <= ZnearestE x)%Z.
Proof.
  intros H. pose proof (@Zrnd_le ZnearestE (valid_rnd_N _) 0 x H) as H1.
  rewrite (@Zrnd_IZR ZnearestE (valid_rnd_N _) 0) in H1. exact H1.
Qed.

Lemma fmt_f_number us d x : (0 < d)%nat -> number_text us (fmt_f d x) (xround d x).
Proof.
  intros Hd. destruct x as [r| | |].
  - cbn [fmt_f xround]. rewrite round_dec_sign. set (z := ZnearestE (Rabs r * 10 ^ d)).
    assert (0 <= z)%Z as Hz by (apply ZnearestE_nonneg; pose proof (Rabs_pos r); assert (0 < 10 ^ d) by (apply pow_lt; lra); nra).
    assert (0 <= z / 10 ^ Z.of_nat d)%Z as Hq by (apply Z.div_pos; [exact Hz|apply Z.pow_pos_nonneg; lia]).
    destruct (int_digits_val _ Hq) as [V [D N]].
    assert (IZR z / 10 ^ d = positional (int_digits (z / 10 ^ Z.of_nat d)) + positional (fixed_digits d z) / 10 ^ length (fixed_digits d z)) as ->.
    { rewrite V, fixed_digits_val, fixed_digits_length.
      assert (10 ^ d = IZR (10 ^ Z.of_nat d)) as -> by (rewrite <- pow_IZR; reflexivity).
      rewrite (Z.div_mod z (10 ^ Z.of_nat d)) at 1 by (apply Z.pow_nonzero; lia).
      rewrite plus_IZR, mult_IZR. field. apply not_0_IZR, Z.pow_nonzero; lia. }
    match goal with |- number_text _ _ (Fin (?s * ?v)) => replace (s * v) with (s * (v * 1)) by ring end.
    match goal with |- number_text _ (?g ++ ?q)%string _ => replace (g ++ q)%string with (g ++ q ++ "")%string by now rewrite app_empty_r end.
    apply nt_fin.
    + destruct (Rlt_dec r 0); constructor.
    + apply mt_frac; apply digits_text_of; auto.
      * intros E. pose proof (fixed_digits_length d z). rewrite E in H. cbn in H. lia.
      * apply fixed_digits_digit.
    + constructor.
  - cbn. match goal with |- number_text _ _ ?y => replace y with (if Rlt_dec 1 0 then NInf else PInf) by (destruct (Rlt_dec 1 0); [lra|reflexivity]) end.
    change "inf" with ("" ++ "inf")%string. apply nt_inf; [constructor|now left].
  - cbn. match goal with |- number_text _ _ ?y => replace y with (if Rlt_dec (-1) 0 then NInf else PInf) by (destruct (Rlt_dec (-1) 0); [reflexivity|lra]) end.
    change "-inf" with ("-" ++ "inf")%string. apply nt_inf; [constructor|now left].
  - cbn. change "nan" with ("" ++ "nan")%string. eapply nt_nan; [constructor|reflexivity].
Qed.

(** characters of a formatted number *)
Definition num_char (c : ascii) : bool :=
  is_digit c || existsb (Ascii.eqb c) ["."; "-"; "i"; "n"; "f"; "a"]%char.
Lemma digit_string_chars ds : Forall digit ds -> forall c, In c (chars (digit_string ds)) -> is_digit c = true.
Proof.
  induction ds as [|d ds IH]; intros H c; [intros []|]. cbn [digit_string fold_right]. rewrite chars_cons.
  intros [<-|Hc]; [|apply IH; [now apply Forall_inv_tail in H|exact Hc]].
  apply Forall_inv in H. unfold digit in H. apply is_digit_char. lia.
Qed.
Lemma fmt_f_chars d x c : In c (chars (fmt_f d x)) -> num_char c = true.
Proof.
  destruct x as [r| | |].
  - cbn [fmt_f]. rewrite !chars_app, !in_app_iff. intros [H|[H|[H|H]]].
    + destruct (Rlt_dec r 0); cbn in H; [destruct H as [<-|[]]; reflexivity|contradiction].
    + apply digit_string_chars in H; [unfold num_char; now rewrite H|]. apply fixed_digits_digit.
    + cbn in H. destruct H as [<-|[]]. reflexivity.
    + apply digit_string_chars in H; [unfold num_char; now rewrite H|]. apply fixed_digits_digit.
  - cbn. intuition (subst; reflexivity).
  - cbn. intuition (subst; reflexivity).
  - cbn. intuition (subst; reflexivity).
Qed.
Lemma num_char_props c : num_char c = true -> is_space c = false /\ is_break c = false /\ c <> "#"%char /\ c <> ","%char /\ c <> ";"%char /\ c <> cr /\ c <> nl.
Proof.
  intros H. destruct c as [[] [] [] [] [] [] [] []]; vm_compute in H; try discriminate H; repeat split; try reflexivity; intros E; discriminate E.
Qed.
Lemma fmt_f_solid d x : (0 < d)%nat -> solid (fmt_f d x).
Proof. intros H. eapply number_solid. apply (fmt_f_number true d x H). Qed.
Lemma fmt_f_parse us d x : (0 < d)%nat -> parse_float us (fmt_f d x) = Ok (xround d x).
Proof.
  intros H. pose proof (parse_float_complete us "" (fmt_f d x) "" (xround d x) blank_nil blank_nil (fmt_f_number us d x H)) as P.
  cbn [append] in P. now rewrite app_empty_r in P.
Qed.
