(** Complex values of the model (numpy complex128, exact arithmetic).
    Simplification: every complex number with a NaN or infinite component is the single
    value [CNan]; zero is unsigned. *)
From Verif Require Import PyBase XReal.
From Coquelicot Require Export Complex.
Open Scope R_scope.

(** complex numbers (the name C alone clashes with the binomial coefficient of Reals) *)
Notation CC := Coquelicot.Complex.C.

Inductive cx := CF (z : CC) | CNan.

Definition Ceqb0 (z : CC) : bool := Reqb (fst z) 0 && Reqb (snd z) 0.

Definition cx_of_xr (x : xr) : cx := match x with Fin r => CF (RtoC r) | _ => CNan end.
Definition cx1 (f : CC -> CC) (a : cx) : cx := match a with CF z => CF (f z) | CNan => CNan end.
Definition cx2 (f : CC -> CC -> CC) (a b : cx) : cx :=
  match a, b with CF z, CF w => CF (f z w) | _, _ => CNan end.
Definition cxadd := cx2 Cplus.
Definition cxsub := cx2 Cminus.
Definition cxmul := cx2 Cmult.
(** complex division by zero gives a non-finite value *)
Definition cxdiv (a b : cx) : cx :=
  match a, b with
  | CF z, CF w => if Ceqb0 w then CNan else CF (Cdiv z w)
  | _, _ => CNan
  end.
Definition cxconj := cx1 Cconj.

(** np.sqrt on complex input: principal root; a negative real (imaginary part +0) gives +i *)
Definition csqrt (z : CC) : CC :=
  (sqrt ((Cmod z + fst z) / 2),
   (if Rlt_dec (snd z) 0 then - 1 else 1) * sqrt ((Cmod z - fst z) / 2)).
Definition cxsqrt := cx1 csqrt.

(** np.real / np.imag *)
Definition cx_re (a : cx) : xr := match a with CF z => Fin (fst z) | CNan => NaN end.
Definition cx_im (a : cx) : xr := match a with CF z => Fin (snd z) | CNan => NaN end.

(** one number as returned by an evaluation: real or complex *)
Inductive onum := ORe (x : xr) | OCx (c : cx).
Definition onum_cx (o : onum) : cx := match o with ORe x => cx_of_xr x | OCx c => c end.

(** results of evaluations: a scalar or a one-dimensional array *)
Inductive ovals := OS (o : onum) | OA (l : list onum).

(** ** facts *)
Lemma Ceqb0_true z : Ceqb0 z = true <-> z = RtoC 0.
Proof.
  unfold Ceqb0. rewrite andb_true_iff, !Reqb_true. split.
  - intros [H1 H2]. destruct z; cbn in *; subst. reflexivity.
  - intros ->. split; reflexivity.
Qed.
Lemma Ceqb0_false z : Ceqb0 z = false <-> z <> RtoC 0.
Proof.
  rewrite <- not_true_iff_false, Ceqb0_true. tauto.
Qed.

Lemma cxdiv_fin z w : w <> RtoC 0 -> cxdiv (CF z) (CF w) = CF (Cdiv z w).
Proof. intros H. cbn. apply Ceqb0_false in H. now rewrite H. Qed.

Lemma C_eq (a b : CC) : fst a = fst b -> snd a = snd b -> a = b.
Proof. destruct a, b; cbn; intros; subst; reflexivity. Qed.

Lemma Cmod_ge_re z : Rabs (fst z) <= Cmod z.
Proof. apply Rmax_Cmod_l || (pose proof (Rmax_Cmod z); eapply Rle_trans; [apply Rmax_l|eassumption]). Qed.

Lemma Cmod_sqr z : Cmod z * Cmod z = fst z * fst z + snd z * snd z.
Proof.
  unfold Cmod. rewrite sqrt_sqrt; [ring|]. nra.
Qed.

Lemma csqrt_sq z : Cmult (csqrt z) (csqrt z) = z.
Proof.
  pose proof (Cmod_ge_re z) as H. pose proof (Cmod_ge_0 z) as H0. pose proof (Cmod_sqr z) as Hs.
  assert (Ha : 0 <= (Cmod z + fst z) / 2).
  { unfold Rabs in H. destruct (Rcase_abs (fst z)); lra. }
  assert (Hb : 0 <= (Cmod z - fst z) / 2).
  { unfold Rabs in H. destruct (Rcase_abs (fst z)); lra. }
  pose proof (sqrt_sqrt _ Ha) as Qa. pose proof (sqrt_sqrt _ Hb) as Qb.
  assert (Qab : sqrt ((Cmod z + fst z) / 2) * sqrt ((Cmod z - fst z) / 2) = Rabs (snd z) / 2).
  { rewrite <- sqrt_mult by assumption.
    replace ((Cmod z + fst z) / 2 * ((Cmod z - fst z) / 2)) with ((snd z / 2) * (snd z / 2)) by nra.
    rewrite sqrt_Rsqr_abs || (change (snd z / 2 * (snd z / 2)) with (Rsqr (snd z / 2)); rewrite sqrt_Rsqr_abs).
    unfold Rdiv. rewrite Rabs_mult. rewrite (Rabs_pos_eq (/ 2)) by lra. reflexivity. }
  apply C_eq; unfold csqrt, Cmult; cbn [fst snd].
  - destruct (Rlt_dec (snd z) 0); nra.
  - destruct (Rlt_dec (snd z) 0) as [L|L].
    + rewrite Rabs_left in Qab by assumption. nra.
    + rewrite Rabs_pos_eq in Qab by lra. nra.
Qed.

Lemma csqrt_re z : 0 <= fst (csqrt z).
Proof. cbn. apply sqrt_pos. Qed.
(** on the imaginary axis the root with non-negative imaginary part is chosen *)
Lemma csqrt_im_nonneg z : 0 <= snd z -> 0 <= snd (csqrt z).
Proof.
  intros H. cbn. destruct (Rlt_dec (snd z) 0); [lra|]. rewrite Rmult_1_l. apply sqrt_pos.
Qed.
Lemma csqrt_im_neg z : snd z < 0 -> snd (csqrt z) <= 0.
Proof.
  intros H. cbn. destruct (Rlt_dec (snd z) 0); [|lra]. pose proof (sqrt_pos ((Cmod z - fst z) / 2)). lra.
Qed.
