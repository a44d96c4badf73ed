(** Numbers of the model: real arithmetic extended with the IEEE special values.
    Idealisation (see DESIGN.md): finite arithmetic is exact, zero is unsigned. *)
From Coq Require Export Reals Lra.
From Flocq Require Import Core.
From Verif Require Import PyBase.
Open Scope R_scope.

Inductive xr := Fin (r : R) | PInf | NInf | NaN.

Definition Rltb (x y : R) : bool := if Rlt_dec x y then true else false.
Definition Rleb (x y : R) : bool := if Rle_dec x y then true else false.
Definition Reqb (x y : R) : bool := if Req_EM_T x y then true else false.

Lemma Rltb_true x y : Rltb x y = true <-> x < y.
Proof. unfold Rltb; destruct (Rlt_dec x y); split; congruence. Qed.
Lemma Rltb_false x y : Rltb x y = false <-> y <= x.
Proof. unfold Rltb; destruct (Rlt_dec x y); split; intros; try congruence; lra. Qed.
Lemma Rleb_true x y : Rleb x y = true <-> x <= y.
Proof. unfold Rleb; destruct (Rle_dec x y); split; congruence. Qed.
Lemma Rleb_false x y : Rleb x y = false <-> y < x.
Proof. unfold Rleb; destruct (Rle_dec x y); split; intros; try congruence; lra. Qed.
Lemma Reqb_true x y : Reqb x y = true <-> x = y.
Proof. unfold Reqb; destruct (Req_EM_T x y); split; congruence. Qed.
Lemma Reqb_false x y : Reqb x y = false <-> x <> y.
Proof. unfold Reqb; destruct (Req_EM_T x y); split; congruence. Qed.

(** comparison [a < b]; false as soon as one side is NaN *)
Definition xlt (a b : xr) : bool :=
  match a, b with
  | NaN, _ | _, NaN => false
  | Fin x, Fin y => Rltb x y
  | Fin _, PInf => true
  | Fin _, NInf => false
  | PInf, _ => false
  | NInf, NInf => false
  | NInf, _ => true
  end.
Definition xgt (a b : xr) : bool := xlt b a.
Definition xeqb (a b : xr) : bool :=
  match a, b with
  | Fin x, Fin y => Reqb x y
  | PInf, PInf => true
  | NInf, NInf => true
  | _, _ => false
  end.
Definition xle (a b : xr) : bool := xlt a b || xeqb a b.
Definition xge (a b : xr) : bool := xle b a.
Definition is_nan (a : xr) : bool := match a with NaN => true | _ => false end.
Definition is_fin (a : xr) : bool := match a with Fin _ => true | _ => false end.

Definition xopp (a : xr) : xr :=
  match a with Fin x => Fin (- x) | PInf => NInf | NInf => PInf | NaN => NaN end.
Definition xadd (a b : xr) : xr :=
  match a, b with
  | NaN, _ | _, NaN => NaN
  | Fin x, Fin y => Fin (x + y)
  | Fin _, i => i
  | i, Fin _ => i
  | PInf, PInf => PInf
  | NInf, NInf => NInf
  | _, _ => NaN
  end.
Definition xsub (a b : xr) : xr := xadd a (xopp b).
(** infinity of the sign of [s] times +1/-1 *)
Definition xinf_sign (s : R) : xr :=
  if Rlt_dec 0 s then PInf else if Rlt_dec s 0 then NInf else NaN.
Definition xmul (a b : xr) : xr :=
  match a, b with
  | NaN, _ | _, NaN => NaN
  | Fin x, Fin y => Fin (x * y)
  | Fin x, PInf | PInf, Fin x => xinf_sign x
  | Fin x, NInf | NInf, Fin x => xinf_sign (- x)
  | PInf, PInf | NInf, NInf => PInf
  | PInf, NInf | NInf, PInf => NInf
  end.
(** numpy division: x/0 is +-inf (0 counts as +0), 0/0 NaN *)
Definition xdiv (a b : xr) : xr :=
  match a, b with
  | NaN, _ | _, NaN => NaN
  | Fin x, Fin y => if Req_EM_T y 0 then xinf_sign x else Fin (x / y)
  | Fin _, _ => Fin 0
  | PInf, Fin y => if Rlt_dec y 0 then NInf else PInf
  | NInf, Fin y => if Rlt_dec y 0 then PInf else NInf
  | _, _ => NaN
  end.
Definition xabs (a : xr) : xr :=
  match a with Fin x => Fin (Rabs x) | NaN => NaN | _ => PInf end.
(** np.sqrt on real input: NaN for negative arguments *)
Definition xsqrt (a : xr) : xr :=
  match a with
  | Fin x => if Rlt_dec x 0 then NaN else Fin (sqrt x)
  | PInf => PInf
  | _ => NaN
  end.

(** is the real number an integer, and which *)
Definition int_of (r : R) : option Z :=
  if Req_EM_T r (IZR (Int_part r)) then Some (Int_part r) else None.

(** np.power on finite arguments (C pow) *)
Definition rpow (x y : R) : xr :=
  if Req_EM_T y 0 then Fin 1
  else if Rlt_dec 0 x then Fin (Rpower x y)
  else if Req_EM_T x 0 then (if Rlt_dec 0 y then Fin 0 else PInf)
  else match int_of y with
       | Some n => Fin (powerRZ x n)
       | None => NaN
       end.
Definition xpow (a b : xr) : xr :=
  match a, b with
  | Fin x, Fin y => rpow x y
  | _, Fin y => if Req_EM_T y 0 then Fin 1 else
      match a with
      | PInf => if Rlt_dec 0 y then PInf else Fin 0
      | NInf => match int_of y with
                | Some n => if Z.odd n then (if Rlt_dec 0 y then NInf else Fin 0)
                            else (if Rlt_dec 0 y then PInf else Fin 0)
                | None => if Rlt_dec 0 y then PInf else Fin 0
                end
      | _ => NaN
      end
  | Fin x, PInf => if Req_EM_T (Rabs x) 1 then Fin 1
                   else if Rlt_dec 1 (Rabs x) then PInf else Fin 0
  | Fin x, NInf => if Req_EM_T (Rabs x) 1 then Fin 1
                   else if Rlt_dec 1 (Rabs x) then Fin 0 else PInf
  | Fin x, NaN => if Req_EM_T x 1 then Fin 1 else NaN
  | NaN, _ | _, NaN => NaN
  | _, PInf => PInf
  | _, NInf => Fin 0
  end.
(** squares and other small integer powers written x**2 / np.power(x, n) *)
Definition xpowz (a : xr) (n : Z) : xr := xpow a (Fin (IZR n)).

(** np.round(x, decimals=d): round half to even of x*10^d, divided by 10^d *)
Definition round_dec (d : nat) (x : R) : R := IZR (ZnearestE (x * 10 ^ d)) / 10 ^ d.
Definition xround (d : nat) (a : xr) : xr :=
  match a with Fin x => Fin (round_dec d x) | _ => a end.

(** np.minimum/np.maximum reductions: NaN propagates *)
Definition xmin2 (a b : xr) : xr :=
  if is_nan a then NaN else if is_nan b then NaN else if xlt b a then b else a.
Definition xmax2 (a b : xr) : xr :=
  if is_nan a then NaN else if is_nan b then NaN else if xlt a b then b else a.

(** np.min / np.max of a one-dimensional array: ValueError when empty *)
Definition np_min (l : list xr) : res xr :=
  match l with [] => Raise ValueError | x :: r => Ok (fold_left xmin2 r x) end.
Definition np_max (l : list xr) : res xr :=
  match l with [] => Raise ValueError | x :: r => Ok (fold_left xmax2 r x) end.

(** ** Facts *)
Lemma xlt_irrefl a : xlt a a = false.
Proof. destruct a; cbn; auto. apply Rltb_false; lra. Qed.

Lemma xlt_trans a b c : xlt a b = true -> xlt b c = true -> xlt a c = true.
Proof.
  destruct a, b, c; cbn; intros H1 H2; try congruence.
  rewrite Rltb_true in *; lra.
Qed.

Lemma xlt_asym a b : xlt a b = true -> xlt b a = false.
Proof.
  intros H. destruct (xlt b a) eqn:E; [|reflexivity].
  pose proof (xlt_irrefl a).
  pose proof (xlt_trans _ _ _ H E). congruence.
Qed.

(** on non-NaN values [xle] is the negation of the converse [xlt] *)
Lemma xle_not_lt a b : is_nan a = false -> is_nan b = false -> xle a b = negb (xlt b a).
Proof.
  destruct a as [x| | |], b as [y| | |]; cbn; intros; try congruence; auto.
  unfold xle; cbn. unfold Rltb, Reqb.
  destruct (Rlt_dec x y), (Rlt_dec y x), (Req_EM_T x y); cbn; auto; lra.
Qed.

Lemma xmul_fin x y : xmul (Fin x) (Fin y) = Fin (x * y).
Proof. reflexivity. Qed.

Lemma xdiv_fin x y : y <> 0 -> xdiv (Fin x) (Fin y) = Fin (x / y).
Proof. intros H; cbn; destruct (Req_EM_T y 0); [contradiction|reflexivity]. Qed.

Lemma xsub_fin x y : xsub (Fin x) (Fin y) = Fin (x - y).
Proof. reflexivity. Qed.

Lemma int_of_IZR n : int_of (IZR n) = Some n.
Proof.
  unfold int_of.
  assert (H : Int_part (IZR n) = n).
  { destruct (base_Int_part (IZR n)) as [H1 H2]. apply le_IZR in H1.
    assert (H3 : (n - 1 < Int_part (IZR n))%Z) by (apply lt_IZR; rewrite minus_IZR; lra). lia. }
  rewrite H. destruct (Req_EM_T (IZR n) (IZR n)); congruence.
Qed.

(** integer exponents: the model's power is the ordinary one *)
Lemma rpow_pos_nat x n : (0 < n)%nat -> rpow x (INR n) = Fin (x ^ n).
Proof.
  intros Hn. assert (Hn' : 0 < INR n) by (apply lt_0_INR; exact Hn).
  unfold rpow. destruct (Req_EM_T (INR n) 0); [lra|].
  destruct (Rlt_dec 0 x).
  - now rewrite Rpower_pow.
  - destruct (Req_EM_T x 0).
    + subst. destruct (Rlt_dec 0 (INR n)); [|lra]. now rewrite pow_i.
    + rewrite INR_IZR_INZ, int_of_IZR. f_equal.
      now rewrite <- pow_powerRZ.
Qed.

Lemma xpowz_fin_nat x n : (0 < n)%nat -> xpowz (Fin x) (Z.of_nat n) = Fin (x ^ n).
Proof. intros Hn. unfold xpowz; cbn [xpow]. rewrite <- INR_IZR_INZ. now apply rpow_pos_nat. Qed.

Lemma xpowz_2 x : xpowz (Fin x) 2 = Fin (x * x).
Proof. change 2%Z with (Z.of_nat 2). rewrite xpowz_fin_nat by lia. f_equal; ring. Qed.

(** integer powers of non-zero reals, negative exponents included *)
Lemma xpowz_fin x n : x <> 0 -> xpowz (Fin x) n = Fin (powerRZ x n).
Proof.
  intros Hx. unfold xpowz; cbn [xpow]. unfold rpow.
  destruct (Req_EM_T (IZR n) 0) as [E|E].
  - apply eq_IZR in E; subst; reflexivity.
  - destruct (Rlt_dec 0 x).
    + f_equal. now rewrite powerRZ_Rpower.
    + destruct (Req_EM_T x 0); [contradiction|]. now rewrite int_of_IZR.
Qed.

Lemma round_dec_error d x : Rabs (round_dec d x - x) <= / 2 * / 10 ^ d.
Proof.
  unfold round_dec.
  assert (Hp : 0 < 10 ^ d) by (apply pow_lt; lra).
  pose proof (Znearest_half (fun z => negb (Z.even z)) (x * 10 ^ d)) as H.
  replace (IZR (ZnearestE (x * 10 ^ d)) / 10 ^ d - x)
    with ((IZR (ZnearestE (x * 10 ^ d)) - x * 10 ^ d) * / 10 ^ d) by (field; lra).
  rewrite Rabs_mult, (Rabs_pos_eq (/ 10 ^ d)) by (left; now apply Rinv_0_lt_compat).
  apply Rmult_le_compat_r; [left; now apply Rinv_0_lt_compat|].
  rewrite Rabs_minus_sym. lra.
Qed.

Lemma round_dec_exact d x n : x = IZR n / 10 ^ d -> round_dec d x = x.
Proof.
  intros ->. unfold round_dec.
  assert (Hp : 0 < 10 ^ d) by (apply pow_lt; lra).
  replace (IZR n / 10 ^ d * 10 ^ d) with (IZR n) by (field; lra).
  rewrite Znearest_imp with (n := n); [reflexivity|].
  rewrite Rminus_diag_eq by reflexivity. rewrite Rabs_R0; lra.
Qed.

Lemma round_dec_mono d x y : x <= y -> round_dec d x <= round_dec d y.
Proof.
  intros H. unfold round_dec.
  assert (Hp : 0 < 10 ^ d) by (apply pow_lt; lra).
  apply Rmult_le_compat_r; [left; now apply Rinv_0_lt_compat|].
  apply IZR_le. apply (Zrnd_le (Znearest (fun z => negb (Z.even z)))). apply Rmult_le_compat_r; lra.
Qed.

Lemma round_dec_idem d x : round_dec d (round_dec d x) = round_dec d x.
Proof. now apply round_dec_exact with (n := ZnearestE (x * 10 ^ d)). Qed.

Lemma round_dec_0 d : round_dec d 0 = 0.
Proof. apply round_dec_exact with (n := 0%Z). unfold Rdiv; ring. Qed.

Lemma round_dec_nonneg d x : 0 <= x -> 0 <= round_dec d x.
Proof. intros H. rewrite <- (round_dec_0 d). now apply round_dec_mono. Qed.
