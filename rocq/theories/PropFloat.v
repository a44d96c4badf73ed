(** C74-C77: double precision *)
From Coq Require Import Reals Lra Lia ZArith.
From Flocq Require Import Core BinarySingleNaN.
From Verif Require Import PyBase PyStr XReal SpectrumModel SpectrumSpec FloatModel FloatSpec FloatProofs FloatConvProofs FloatRangeProofs FloatCheckProofs FloatOrderProofs SpectrumThms.
From Verif Require Import FloatThms.
Open Scope R_scope. Open Scope string_scope. Open Scope list_scope.

(** C74: a float written with at most the kept number of decimals comes back unchanged *)
Theorem C74_round_trip : forall type unit decimals K k f,
  In (type, unit, decimals, K) safe_decimals -> (0 < k <= K)%Z -> written (IZR k / 10 ^ decimals) f ->
  exists s, f_spectrum (FS f) type unit = Ok s /\ f_convert_to s type unit = Ok (FS f).
Proof. exact C74_round_trip_l. Qed.
Print Assumptions C74_round_trip.

(** C74: wavelengths in metres always do, whatever the value or array *)
Theorem C74_metres : forall v,
  exists s, f_spectrum v "wavelength" "m" = Ok s /\ f_convert_to s "wavelength" "m" = Ok v.
Proof. exact C74_metres_l. Qed.
Print Assumptions C74_metres.

(** C74: arrays of wavelengths, element by element *)
Theorem C74_array : forall unit decimals K ks fs,
  In ("wavelength", unit, decimals, K) safe_decimals ->
  Forall2 (fun k f => (0 < k <= K)%Z /\ written (IZR k / 10 ^ decimals) f) ks fs ->
  exists s, f_spectrum (FA fs) "wavelength" unit = Ok s /\ f_convert_to s "wavelength" unit = Ok (FA fs).
Proof. exact C74_array_l. Qed.
Print Assumptions C74_array.

(** C74: beyond, it fails: 2049.3 nm comes back larger, and so does 300.6 angstrom *)
Theorem C74_round_trip_refuted : forall type unit n,
  In (type, unit, n) [("wavelength", "nm", 20493); ("wavelength", "a", 3006)]%Z ->
  exists f g s, written (IZR n / 10) f /\ f_spectrum (FS f) type unit = Ok s /\
    f_convert_to s type unit = Ok (FS g) /\ flt f g = true.
Proof. exact C74_round_trip_refuted_l. Qed.
Print Assumptions C74_round_trip_refuted.

(** C74: frequencies are not rounded, so a round trip may miss: 27 THz comes back larger, 1 THz smaller *)
Theorem C74_frequency_refuted :
  (exists f g s, written 27000000000000 f /\ f_spectrum (FS f) "frequency" "hz" = Ok s /\
     f_convert_to s "frequency" "hz" = Ok (FS g) /\ flt f g = true) /\
  (exists f g s, written 1000000000000 f /\ f_spectrum (FS f) "frequency" "hz" = Ok s /\
     f_convert_to s "frequency" "hz" = Ok (FS g) /\ flt g f = true).
Proof. exact C74_frequency_refuted_l. Qed.
Print Assumptions C74_frequency_refuted.

(** the green line of mercury, 546.074 nm, is covered by C74 *)
Example C74_instance : exists f s, written (546074 / 1000) f /\
  f_spectrum (FS f) "wavelength" "nm" = Ok s /\ f_convert_to s "wavelength" "nm" = Ok (FS f).
Proof.
  exists (fdiv (of_Z 546074) (of_Z 1000)).
  assert (W : written (546074 / 1000) (fdiv (of_Z 546074) (of_Z 1000))) by (apply (written_quotient 546074 1000); vm_compute; intuition congruence).
  destruct (C74_round_trip "wavelength" "nm" 12 (9 * 10 ^ 14) (546074 * 10 ^ 9) (fdiv (of_Z 546074) (of_Z 1000))) as (s & A & B).
  - left. reflexivity.
  - vm_compute. intuition congruence.
  - replace (IZR (546074 * 10 ^ 9) / 10 ^ 12) with (546074 / 1000) by (simpl; lra). exact W.
  - exists s. auto.
Qed.

(** C75: for numbers written in the unit of the range, the range check is right: accepted exactly when the
    number lies between the smallest and the largest value of the range *)
Theorem C75_decimals : forall type unit decimals K range_decimals range k f,
  In (type, unit, decimals, K) safe_decimals -> range <> [] ->
  Forall2 (fun k f => (0 < k <= K)%Z /\ written (IZR k / 10 ^ decimals) f) range_decimals range ->
  (0 < k <= K)%Z -> written (IZR k / 10 ^ decimals) f ->
  exists request, f_spectrum (FS f) type unit = Ok request /\
  forall r, fp_type r = type -> fp_unit r = unit -> fp_values r = FA range ->
    ((exists a, In a range_decimals /\ (a <= k)%Z) /\ (exists b, In b range_decimals /\ (k <= b)%Z) ->
       f_contains r request = Ok true) /\
    (~ ((exists a, In a range_decimals /\ (a <= k)%Z) /\ (exists b, In b range_decimals /\ (k <= b)%Z)) ->
       f_contains r request = Raise (if String.eqb unit "cm" then KeyError else ValueError)).
Proof. exact C75_decimals_l. Qed.
Print Assumptions C75_decimals.

(** C75: a range that ends at 2049.3 nm refuses 2049.3 nm, one that ends at 300.6 angstrom refuses
    300.6 angstrom and one that ends at 27 THz refuses 27 THz *)
Theorem C75_own_end_refuted : forall type unit m n b,
  In (type, unit, m, n, b) [("wavelength", "nm", 400, 20493, 10); ("wavelength", "a", 100, 3006, 10); ("frequency", "hz", 10 ^ 12, 27 * 10 ^ 12, 1)]%Z ->
  exists lo hi range request, written (IZR m) lo /\ written (IZR n / IZR b) hi /\
    f_spectrum (FA [lo; hi]) type unit = Ok range /\ f_spectrum (FS hi) type unit = Ok request /\
    f_contains range request = Raise ValueError.
Proof. exact C75_own_end_refuted_l. Qed.
Print Assumptions C75_own_end_refuted.

(** a table from 400 nm to 800.5 nm accepts its own end points and refuses the next picometre *)
Example C75_instance : exists lo hi out range a b c,
  f_spectrum (FA [lo; hi]) "wavelength" "nm" = Ok range /\
  f_spectrum (FS lo) "wavelength" "nm" = Ok a /\ f_spectrum (FS hi) "wavelength" "nm" = Ok b /\ f_spectrum (FS out) "wavelength" "nm" = Ok c /\
  f_contains range a = Ok true /\ f_contains range b = Ok true /\ f_contains range c = Raise ValueError.
Proof.
  exists (of_Z 400), (fdiv (of_Z 8005) (of_Z 10)), (fdiv (of_Z 800501) (of_Z 1000)). do 4 eexists.
  do 4 (split; [reflexivity|]). split; [|split]; vm_compute; reflexivity.
Qed.

(** C76: the standard representation is within 7 roundings of the vacuum wavelength *)
Theorem C76_standard : forall type unit f w,
  wavelength_m type unit (B2R f) w -> is_finite f = true -> / 10 ^ 40 <= B2R f <= 10 ^ 40 ->
  exists s std, f_spectrum (FS f) type unit = Ok s /\ fp_std s = FS std /\
    is_finite std = true /\ Rabs (B2R std - w) <= 7 * half_ulp * w.
Proof. exact C76_standard_l. Qed.
Print Assumptions C76_standard.

(** C76: a converted value is within 15 roundings and half a kept decimal of the exact one *)
Theorem C76_converted : forall type unit type' unit' f w y,
  wavelength_m type unit (B2R f) w -> wavelength_m type' unit' y w -> 0 < y -> unit' <> "1/cm" ->
  is_finite f = true -> / 10 ^ 40 <= B2R f <= 10 ^ 40 ->
  exists s g, f_spectrum (FS f) type unit = Ok s /\ f_convert_to s type' unit' = Ok (FS g) /\
    is_finite g = true /\
    Rabs (B2R g - y) <= 15 * half_ulp * y +
                        match doc_decimals unit' with Some d => (/ 2 + / 1000) / 10 ^ d | None => 0 end.
Proof. exact C76_converted_l. Qed.
Print Assumptions C76_converted.

(** C76: converted to wavenumbers the result is within 13 roundings of 10^4 times the value (see C03) *)
Theorem C76_wavenumber_refuted : forall type unit f w y,
  wavelength_m type unit (B2R f) w -> wavelength_m "wavenumber" "1/cm" y w -> 0 < y ->
  is_finite f = true -> / 10 ^ 40 <= B2R f <= 10 ^ 40 ->
  exists s g, f_spectrum (FS f) type unit = Ok s /\ f_convert_to s "wavenumber" "1/cm" = Ok (FS g) /\
    is_finite g = true /\ Rabs (B2R g - 10 ^ 4 * y) <= 13 * half_ulp * (10 ^ 4 * y).
Proof. exact C76_wavenumber_refuted_l. Qed.
Print Assumptions C76_wavenumber_refuted.

(** C76: so the exact-arithmetic model used for the other properties and double precision agree up to
    15 roundings and, for the rounded units, one kept decimal *)
Theorem C76_models_agree : forall type unit type' unit' f w,
  wavelength_m type unit (B2R f) w -> documented type unit unit -> documented type' unit' unit' ->
  lower type = type -> lower unit = unit -> lower type' = type' -> unit' <> "1/cm" ->
  is_finite f = true -> / 10 ^ 40 <= B2R f <= 10 ^ 40 ->
  exists s s' g r, f_spectrum (FS f) type unit = Ok s /\ f_convert_to s type' unit' = Ok (FS g) /\ is_finite g = true /\
    mk_spectrum (InVals (VS (Fin (B2R f)))) type unit = Ok s' /\ convert_to s' type' unit' = Ok (VS (Fin r)) /\
    match doc_decimals unit' with
    | Some d => Rabs (B2R g - r) <= 16 * half_ulp * r + (1 + / 100) / 10 ^ d
    | None => Rabs (B2R g - r) <= 15 * half_ulp * r
    end.
Proof. exact C76_models_agree_l. Qed.
Print Assumptions C76_models_agree.

Example C76_instance : exists s g, f_spectrum (FS (of_Z 500)) "wavelength" "nm" = Ok s /\
  f_convert_to s "energy" "ev" = Ok (FS g) /\ is_finite g = true /\ Rabs (B2R g - 2.479683968) <= / 10 ^ 8.
Proof.
  destruct (of_Z_ok 500) as [A B]; [vm_compute; congruence|].
  destruct (C76_converted "wavelength" "nm" "energy" "ev" (of_Z 500) (500 / 10 ^ 9)
      (planck * speed_of_light / (elementary_charge * (500 / 10 ^ 9)))) as (s & g & E1 & E2 & E3 & E4).
  - rewrite A. constructor.
  - assert (Q : forall p q l : R, p <> 0 -> q <> 0 -> l <> 0 -> p / (q * (p / (q * l))) = l) by (intros; field; auto).
    rewrite <- (Q (planck * speed_of_light) elementary_charge (500 / 10 ^ 9)) at 2 by (unfold planck, speed_of_light, elementary_charge; lra).
    constructor.
  - unfold planck, speed_of_light, elementary_charge. lra.
  - discriminate.
  - exact B.
  - rewrite A. lra.
  - exists s, g. split; auto. split; auto. split; auto.
    set (y := planck * speed_of_light / (elementary_charge * (500 / 10 ^ 9))) in *.
    assert (Y : 2.4796839 + / 10 ^ 8 <= y <= 2.4796841 - / 10 ^ 8) by (unfold y, planck, speed_of_light, elementary_charge; lra).
    assert (Y2 : Rabs (y - 2.479683968) <= / 10 ^ 9 * 3) by (apply Rabs_le; unfold y, planck, speed_of_light, elementary_charge; lra).
    apply Rabs_le_inv in Y2. cbn in E4. apply Rabs_le_inv in E4. unfold half_ulp in E4. apply Rabs_le. lra.
Qed.

(** C77: conversions keep the order of floats, or reverse it if exactly one of the two types is
    reciprocal; only equality may be introduced *)
Theorem C77_order : forall type unit type' unit' f g y w,
  documented type unit unit -> wavelength_m type' unit' y w ->
  is_finite f = true -> is_finite g = true -> / 10 ^ 40 <= B2R f -> B2R f <= B2R g -> B2R g <= 10 ^ 40 ->
  exists s t a b, f_spectrum (FS f) type unit = Ok s /\ f_spectrum (FS g) type unit = Ok t /\
    f_convert_to s type' unit' = Ok (FS a) /\ f_convert_to t type' unit' = Ok (FS b) /\
    is_finite a = true /\ is_finite b = true /\
    ((reciprocal_type type <-> reciprocal_type type') -> B2R a <= B2R b) /\
    (~ (reciprocal_type type <-> reciprocal_type type') -> B2R b <= B2R a).
Proof. exact C77_order_l. Qed.
Print Assumptions C77_order.

(** C77: hence a range that accepts two numbers accepts every number between them, whatever the range,
    its type and its unit *)
Theorem C77_between : forall type unit range f g h s t u y w,
  documented type unit unit -> wavelength_m (fp_type range) (fp_unit range) y w ->
  is_finite f = true -> is_finite g = true -> is_finite h = true ->
  / 10 ^ 40 <= B2R f -> B2R f <= B2R g -> B2R g <= B2R h -> B2R h <= 10 ^ 40 ->
  f_spectrum (FS f) type unit = Ok s -> f_spectrum (FS g) type unit = Ok t -> f_spectrum (FS h) type unit = Ok u ->
  f_contains range s = Ok true -> f_contains range u = Ok true -> f_contains range t = Ok true.
Proof. exact C77_between_l. Qed.
Print Assumptions C77_between.

(** a range in electron volts, requests in nanometres *)
Example C77_instance : exists range s t u,
  f_spectrum (FA [of_Z 1; of_Z 4]) "energy" "ev" = Ok range /\
  f_spectrum (FS (of_Z 400)) "wavelength" "nm" = Ok s /\ f_spectrum (FS (of_Z 500)) "wavelength" "nm" = Ok t /\ f_spectrum (FS (of_Z 1200)) "wavelength" "nm" = Ok u /\
  f_contains range s = Ok true /\ f_contains range u = Ok true /\ f_contains range t = Ok true.
Proof.
  do 4 eexists. do 4 (split; [reflexivity|]). split; [|split]; vm_compute; reflexivity.
Qed.

(** C76: arrays are converted element by element as scalars are, as long as no element and no
    wavelength in metres is below 1e-8 (1e-6 for a conversion to wavenumbers) *)
Theorem C76_arrays : forall type unit type' unit' fs y v,
  documented type unit unit -> wavelength_m type' unit' y v ->
  (forall f, In f fs -> is_finite f = true /\ / 10 ^ 40 <= B2R f <= 10 ^ 40 /\
     (reciprocal_type type -> (1 + / 10 ^ 6) / 10 ^ 8 <= B2R f) /\
     exists w, wavelength_m type unit (B2R f) w /\ (reciprocal_type type' -> (1 + / 10 ^ 6) / 10 ^ 8 <= w) /\
       (unit' = "1/cm" -> (1 + / 10 ^ 6) / 10 ^ 6 <= w)) ->
  exists s gs, f_spectrum (FA fs) type unit = Ok s /\ f_convert_to s type' unit' = Ok (FA gs) /\
    Forall2 (fun f g => exists s1, f_spectrum (FS f) type unit = Ok s1 /\ f_convert_to s1 type' unit' = Ok (FS g)) fs gs.
Proof. exact C76_arrays_l. Qed.
Print Assumptions C76_arrays.

(** C76: below, arrays are wrong: wavelengths under 1 micrometre in an array become infinite
    wavenumbers, those under 10 nanometres infinite frequencies, energies and angular frequencies,
    although a single wavelength gives a finite number *)
Theorem C76_small_arrays_refuted : forall unit type' unit' y v fs f w,
  documented "wavelength" unit unit -> wavelength_m type' unit' y v -> reciprocal_type type' ->
  In f fs -> is_finite f = true -> / 10 ^ 40 <= B2R f <= 10 ^ 40 -> wavelength_m "wavelength" unit (B2R f) w ->
  w <= 0.99 / 10 ^ (if String.eqb unit' "1/cm" then 6 else 8) ->
  exists s l, f_spectrum (FA fs) "wavelength" unit = Ok s /\ f_convert_to s type' unit' = Ok (FA l) /\ In (B754_infinity false) l /\
    exists s1 g, f_spectrum (FS f) "wavelength" unit = Ok s1 /\ f_convert_to s1 type' unit' = Ok (FS g) /\ is_finite g = true.
Proof. exact C76_small_arrays_refuted_l. Qed.
Print Assumptions C76_small_arrays_refuted.

(** 546 and 633 nm as an array: their energies are those of the scalars, their wavenumbers are infinite *)
Example C76_arrays_instance : forall f g, written 546 f -> written 633 g ->
  (exists s gs, f_spectrum (FA [f; g]) "wavelength" "nm" = Ok s /\ f_convert_to s "energy" "ev" = Ok (FA gs) /\ length gs = 2%nat) /\
  exists s l, f_spectrum (FA [f; g]) "wavelength" "nm" = Ok s /\ f_convert_to s "wavenumber" "1/cm" = Ok (FA l) /\ In (B754_infinity false) l.
Proof.
  assert (forall k f, In k [546; 633] -> written k f -> is_finite f = true /\ B2R f = k) as W.
  { intros k f Hk [F E]. split; [exact F|]. rewrite E. unfold nearest_double. apply round_generic; [apply valid_rnd_N|].
    cbn in Hk. destruct Hk as [<-|[<-|[]]]; apply generic_format_FLT; [exists (Float radix2 546 0)|exists (Float radix2 633 0)]; (unfold F2R; simpl; lra) || (simpl; lia) || reflexivity. }
  intros f g Hf Hg. destruct (W 546 f ltac:(cbn; tauto) Hf) as [Ff Ef]. destruct (W 633 g ltac:(cbn; tauto) Hg) as [Fg Eg].
  assert (documented "wavelength" "nm" "nm") as D by (eexists; split; [cbn; do 3 right; left; reflexivity|cbn; tauto]).
  split.
  - destruct (C76_arrays "wavelength" "nm" "energy" "ev" [f; g] 1 _ D (wl_ev 1)) as (s & gs & E1 & E2 & E3).
    + intros h [<-|[<-|[]]]; (split; [assumption|]); (split; [rewrite ?Ef, ?Eg; lra|]); (split; [intros X; exfalso; cbn in X; repeat (destruct X as [X|X]; [discriminate X|]); destruct X|]);
        eexists; (split; [constructor|]); (split; [rewrite ?Ef, ?Eg; lra|discriminate]).
    + exists s, gs. split; [exact E1|]. split; [exact E2|]. inversion E3 as [|? ? ? ? _ E4]; subst. inversion E4 as [|? ? ? ? _ E5]; subst. inversion E5; subst. reflexivity.
  - destruct (C76_small_arrays_refuted "nm" "wavenumber" "1/cm" 1 _ [f; g] f _ D (wl_icm 1) ltac:(cbn; tauto) (or_introl eq_refl) Ff ltac:(rewrite Ef; lra) (wl_nm _)) as (s & l & E1 & E2 & E3 & _).
    + rewrite Ef. cbn [String.eqb Ascii.eqb Bool.eqb]. lra.
    + now exists s, l.
Qed.
