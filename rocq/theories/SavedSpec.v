(** Specification for C100: what a material that was saved and loaded again answers, compared with
    the original. *)
From Verif Require Import PyBase PyStr XReal CNum SpectrumModel SpectralModel SpectralSpec MaterialModel.
Open Scope R_scope.
Open Scope string_scope.
Open Scope list_scope.

(** a material with the tables l for n and q for k, both over the spectrum type t and unit u *)
Definition has_tables (m : material) (l q : list (R * R)) (t u : string) : Prop :=
  m_name m = "nk" /\ m_complex m = None /\
  mk_interpolation (xrows l) t u = Ok (m_real m) /\ mk_interpolation (xrows q) t u = Ok (m_imag m) /\
  m_stype m = t /\ m_unit m = u.

(** the same answer to every question: n and k, permittivity, range of validity *)
Definition same_optics (X : scipy) (m m' : material) : Prop :=
  (forall a, get_nk_data X m' a = get_nk_data X m a) /\
  (forall a, get_permittivity X m' a = get_permittivity X m a) /\
  get_maximum_valid_range m' = get_maximum_valid_range m.

(** answers of the same form: the same refusal, or numbers whose real and imaginary parts differ
    by at most d each; not-a-number exactly where the other one has it *)
Definition number_within (d : R) (o o' : onum) : Prop :=
  match onum_cx o, onum_cx o' with
  | CF z, CF z' => Rabs (fst z' - fst z) <= d /\ Rabs (snd z' - snd z) <= d
  | CNan, CNan => True
  | _, _ => False
  end.
Definition answer_within (d : R) (r r' : res ovals) : Prop :=
  match r, r' with
  | Ok (OS o), Ok (OS o') => number_within d o o'
  | Ok (OA l), Ok (OA l') => Forall2 (number_within d) l l'
  | Raise e, Raise e' => e' = e
  | _, _ => False
  end.

(** n and k within d; the permittivity (n + ik)^2 within 2 d (2 B + d), where B bounds n and k in
    the tables; the same range of validity *)
Definition optics_within (X : scipy) (d B : R) (m m' : material) : Prop :=
  (forall a, answer_within d (get_nk_data X m a) (get_nk_data X m' a)) /\
  (forall a, answer_within (2 * d * (2 * B + d)) (get_permittivity X m a) (get_permittivity X m' a)) /\
  get_maximum_valid_range m' = get_maximum_valid_range m.

(** tables over the same points, whose values differ by at most d *)
Definition values_within (d : R) (l l' : list (R * R)) : Prop :=
  Forall2 (fun p p' => fst p' = fst p /\ Rabs (snd p' - snd p) <= d) l l'.
Definition values_below (B : R) (l : list (R * R)) : Prop := Forall (fun p => Rabs (snd p) <= B) l.

(** a number that numpy shows without loss beside any others; text files keep 8 decimals only *)
Definition shown_in_full (disp : list xr -> xr -> xr) (x : R) : Prop :=
  forall all, (forall y, In (Fin y) all -> Rabs y < 10 ^ 309) -> In (Fin x) all -> disp all (Fin x) = Fin x.
Definition eight_decimals (x : R) : Prop := exists z, x = IZR z / 10 ^ 8.

(** a material given by a formula for n, with the coefficients ps and the range l, and a constant k *)
Definition formula_material (m : material) (k : mkind) (ps l : list xr) (t u : string) (c : R) : Prop :=
  m_name m = "nk" /\ m_complex m = None /\
  mk_model k ps (InVals (VA l)) t u = Ok (m_real m) /\ constant_default (ORe (Fin c)) = Ok (m_imag m) /\
  m_stype m = t /\ m_unit m = u.
(** the second answer is the first one with the same n at every number, but k is v in the first and
    0 in the second *)
Definition number_lost (v : R) (o o' : onum) : Prop :=
  match onum_cx o, onum_cx o' with
  | CF z, CF z' => fst z = fst z' /\ snd z = v /\ snd z' = 0
  | CNan, CNan => True
  | _, _ => False
  end.
Definition absorption_lost (v : R) (r r' : res ovals) : Prop :=
  match r, r' with
  | Ok (OS o), Ok (OS o') => number_lost v o o'
  | Ok (OA l), Ok (OA l') => Forall2 (number_lost v) l l'
  | Raise e, Raise e' => e = e'
  | _, _ => False
  end.
