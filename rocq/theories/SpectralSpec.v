(** Specification vocabulary for spectral data: the published dispersion formulas over the
    reals, linear interpolation, and what "data asked at a value" means. *)
From Verif Require Import PyBase PyStr XReal CNum SpectrumModel SpectrumSpec SpectralModel.
Open Scope R_scope.
Open Scope list_scope.

(** ** published formulas (refractiveindex.info "Dispersion formulas"), wavelength [w] in um *)

Definition total (l : list R) : R := fold_right Rplus 0 l.

(** coefficient list [a1; b1; a2; b2; ...] of a list of terms *)
Fixpoint flat (ts : list (R * R)) : list R :=
  match ts with [] => [] | (a, b) :: r => a :: b :: flat r end.

(** formula 1 and 2: n^2 - 1 *)
Definition sellmeier_sum (c0 : R) (ts : list (R * R)) (w : R) : R :=
  c0 + total (map (fun t => fst t * w ^ 2 / (w ^ 2 - snd t ^ 2)) ts).
Definition sellmeier2_sum (c0 : R) (ts : list (R * R)) (w : R) : R :=
  c0 + total (map (fun t => fst t * w ^ 2 / (w ^ 2 - snd t)) ts).
(** formulas 3 and 5: polynomial, resp. Cauchy; any real exponents *)
Definition power_sum (c0 : R) (ts : list (R * R)) (w : R) : R :=
  c0 + total (map (fun t => fst t * Rpower w (snd t)) ts).
(** formula 4: at most two terms a w^p / (w^2 - b^q), then powers *)
Record rterm := mkRT { rt_a : R; rt_p : R; rt_b : R; rt_q : R; rt_v : R (* b^q *) }.
(** [v] is [x] to the power [y] *)
Inductive power : R -> R -> R -> Prop :=
| power_pos x y : 0 < x -> power x y (Rpower x y)
| power_int x n : x <> 0 -> power x (IZR n) (powerRZ x n)
| power_of_0 y : 0 < y -> power 0 y 0
| power_0 x : power x 0 1.
Definition rterm_list (t : rterm) : list R := [rt_a t; rt_p t; rt_b t; rt_q t].
Definition rii_sum (c0 : R) (fs : list rterm) (ts : list (R * R)) (w : R) : R :=
  c0 + total (map (fun t => rt_a t * Rpower w (rt_p t) / (w ^ 2 - rt_v t)) fs)
     + total (map (fun t => fst t * Rpower w (snd t)) ts).
(** formula 6: n - 1 *)
Definition gases_sum (c0 : R) (ts : list (R * R)) (w : R) : R :=
  c0 + total (map (fun t => fst t / (snd t - / w ^ 2)) ts).
(** formula 7 *)
Definition herzberger (c0 c1 c2 c3 c4 c5 w : R) : R :=
  c0 + c1 / (w ^ 2 - 0.028) + c2 * (1 / (w ^ 2 - 0.028)) ^ 2 + c3 * w ^ 2 + c4 * w ^ 4 + c5 * w ^ 6.
(** formula 8: (n^2-1)/(n^2+2) = ... *)
Definition retro_rhs (c0 c1 c2 c3 w : R) : R := c0 + c1 * w ^ 2 / (w ^ 2 - c2) + c3 * w ^ 2.
(** formula 9: n^2 *)
Definition exotic_sq (c0 c1 c2 c3 c4 c5 w : R) : R :=
  c0 + c1 / (w ^ 2 - c2) + c3 * (w - c4) / ((w - c4) ^ 2 + c5).
(** what the library computes instead of formula 9: an extra factor w^2 in the second term *)
Definition exotic_sq_coded (c0 c1 c2 c3 c4 c5 w : R) : R :=
  c0 + c1 * w ^ 2 / (w ^ 2 - c2) + c3 * (w - c4) / ((w - c4) ^ 2 + c5).

(** Drude and Drude-Lorentz permittivity, energy [e] in eV *)
Definition drude (wp g e : R) : CC := Cminus (RtoC 1) (Cdiv (RtoC (wp ^ 2)) (e ^ 2, g * e)).
Definition drude_lorentz (wp f w0 g e : R) : CC :=
  Cplus (RtoC 1) (Cdiv (RtoC (f * wp ^ 2)) (w0 ^ 2 - e ^ 2, - (g * e))).

(** Tauc-Lorentz: Jellison and Modine, Appl. Phys. Lett. 69, 371 (1996), with erratum 69, 2137 *)
Definition tl_eps2 (A E0 C Eg E : R) : R :=
  if Rle_dec Eg E then A * E0 * C * (E - Eg) ^ 2 / ((E ^ 2 - E0 ^ 2) ^ 2 + C ^ 2 * E ^ 2) * / E else 0.
Definition tl_eps1 (A E0 C Eg einf E : R) : R :=
  let alpha := sqrt (4 * E0 ^ 2 - C ^ 2) in
  let gamma2 := E0 ^ 2 - C ^ 2 / 2 in
  let zeta4 := (E ^ 2 - gamma2) ^ 2 + alpha ^ 2 * C ^ 2 / 4 in
  let aln := (Eg ^ 2 - E0 ^ 2) * E ^ 2 + Eg ^ 2 * C ^ 2 - E0 ^ 2 * (E0 ^ 2 + 3 * Eg ^ 2) in
  let aatan := (E ^ 2 - E0 ^ 2) * (E0 ^ 2 + Eg ^ 2) + Eg ^ 2 * C ^ 2 in
  einf
  + A * C * aln / (2 * PI * zeta4 * alpha * E0)
    * ln ((E0 ^ 2 + Eg ^ 2 + alpha * Eg) / (E0 ^ 2 + Eg ^ 2 - alpha * Eg))
  - A * aatan / (PI * zeta4 * E0)
    * (PI - atan ((2 * Eg + alpha) / C) + atan ((- 2 * Eg + alpha) / C))
  + 2 * A * E0 / (PI * zeta4 * alpha) * Eg * (E ^ 2 - gamma2)
    * (PI + 2 * atan (2 * (gamma2 - Eg ^ 2) / (alpha * C)))
  - A * E0 * C / (PI * zeta4) * ((E ^ 2 + Eg ^ 2) / E) * ln (Rabs (E - Eg) / (E + Eg))
  + 2 * A * E0 * C / (PI * zeta4) * Eg
    * ln (Rabs (E - Eg) * (E + Eg) / sqrt ((E0 ^ 2 - Eg ^ 2) ^ 2 + Eg ^ 2 * C ^ 2)).

(** Fano line shape normalised to 1 at its maximum *)
Definition fano (q er g e : R) : R :=
  let eps := (e - er) / (g / 2) in (eps + q) ^ 2 / ((eps ^ 2 + 1) * (1 + q ^ 2)).

(** ** requests *)

(** [s] is one positive spectral value inside the range of [d]; [w] is that value in the unit
    [canon] of the data (type [t]), rounded to the documented number of decimals *)
Record asked (d : sdata) (s : spectrum) (t canon : string) (w : R) : Prop := mkAsked {
  asked_value : exists t0 u0 canon0 x lam w0,
    mk_spectrum (InVals (VS (Fin x))) t0 u0 = Ok s /\ 0 < x /\
    documented (lower t0) (lower u0) canon0 /\ wavelength_m (lower t0) canon0 x lam /\
    wavelength_m t canon w0 lam /\ rounds_for canon w0 w;
  asked_inside : contains (valid_range d) s = Ok true
}.

(** same for an array of values, all long enough in metres for array conversion *)
Record asked_all (d : sdata) (s : spectrum) (t canon : string) (ws : list R) : Prop := mkAskedAll {
  asked_all_values : exists t0 u0 canon0 xs lams w0s,
    mk_spectrum (InVals (VA (map Fin xs))) t0 u0 = Ok s /\
    Forall (fun x => 0 < x) xs /\ (reciprocal_type (lower t0) -> Forall (fun x => / 10 ^ 8 < x) xs) /\
    documented (lower t0) (lower u0) canon0 /\ Forall2 (wavelength_m (lower t0) canon0) xs lams /\
    Forall (fun l => / 10 ^ 8 < l) lams /\
    Forall2 (fun lam w0 => wavelength_m t canon w0 lam) lams w0s /\
    Forall2 (rounds_for canon) w0s ws;
  asked_all_inside : contains (valid_range d) s = Ok true
}.

(** ** tables *)

Definition table := list (R * R).
Definition xrows (tb : table) : list (xr * xr) := map (fun r => (Fin (fst r), Fin (snd r))) tb.
(** [a] and [b] are neighbouring rows: no row has a spectral value strictly between *)
Definition adjacent (tb : table) (a b : R * R) : Prop :=
  In a tb /\ In b tb /\ fst a < fst b /\ forall c, In c tb -> fst c <= fst a \/ fst b <= fst c.
(** a table in which some values are missing (NaN) *)
Definition holed := list (R * option R).
Definition hrows (l : holed) : list (xr * xr) :=
  map (fun r => (Fin (fst r), match snd r with Some y => Fin y | None => NaN end)) l.
(** value at [v] of the straight line through [a] and [b] *)
Definition line (a b : R * R) (v : R) : R :=
  snd a + (v - fst a) * (snd b - snd a) / (fst b - fst a).

(** ** data objects as the API builds them *)
(** constants, tables and formula models with scalar support (not Tauc-Lorentz) *)
Definition plain_data (d : sdata) : Prop :=
  (exists c rng t u, mk_constant c rng t u = Ok d) \/
  (exists rows t u, mk_interpolation rows t u = Ok d) \/
  (exists k p rng t u, k <> TaucLorentz /\ mk_model k p rng t u = Ok d).

(** magnitudes that array construction for type [t] treats like scalar construction *)
Definition array_input_ok (t : string) (x : xr) : Prop :=
  reciprocal_type t -> match x with Fin r => / 10 ^ 8 < Rabs r \/ r = 0 | _ => True end.

(** every data object a program can build, with scipy [X] *)
Inductive built (X : scipy) : sdata -> Prop :=
| built_plain d : plain_data d -> built X d
| built_tl p rng t u d : mk_model TaucLorentz p rng t u = Ok d -> built X d
| built_ext base ext order d ext' :
    built X base -> mk_extrapolation X base ext order = (Ok d, ext') -> built X d.

(** ** extending a range *)
(** [v] lies outside the interval [lo, hi] *)
Definition out_of (lo hi v : R) : Prop := v < lo \/ hi < v.
(** [vs] can be added one after the other, each outside the range reached so far *)
Fixpoint extends (lo hi : R) (vs : list R) : Prop :=
  match vs with
  | [] => True
  | v :: r => out_of lo hi v /\ extends (Rmin v lo) (Rmax v hi) r
  end.

(** ** non-negative values, infinity included *)
Definition xnn (x : xr) : Prop := match x with Fin r => 0 <= r | PInf => True | _ => False end.
Definition vnn (v : vals) : Prop := Forall xnn (elems v).

(** domain of the Tauc-Lorentz formula in the library: overdamped oscillators (C^2 > 2 E0^2)
    and the gap energy itself are excluded *)
Definition tl_dom (E0 C Eg E : R) : Prop :=
  0 < E /\ E <> Eg /\ 0 < Eg /\ 0 < E0 /\ 0 < C /\ C ^ 2 <= 2 * E0 ^ 2.
