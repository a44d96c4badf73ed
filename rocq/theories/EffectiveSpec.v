(** What the effective-medium properties C48-C51 talk about: the textbook mixing rules and the
    spectra and materials involved *)
From Verif Require Import PyBase PyStr XReal CNum SpectrumModel SpectralModel SpectralSpec TextModel MaterialModel MaterialSpec EffectiveModel.
Open Scope R_scope.
Open Scope string_scope.
Open Scope list_scope.

(** ** mixing rules: [e] mixes [e1] (host) and [e2] (inclusion) with fraction [f] of [e2] *)
Delimit Scope C_scope with C.
Definition linear_rule (f : R) (e1 e2 e : CC) : Prop := (e = (1 - f) * e1 + f * e2)%C.
Definition maxwell_garnett_rule (f : R) (e1 e2 e : CC) : Prop :=
  ((e - e1) * (e2 + 2 * e1) = f * (e2 - e1) * (e + 2 * e1))%C.
Definition bruggeman_rule (f : R) (e1 e2 e : CC) : Prop :=
  ((1 - f) * (e1 - e) * (e2 + 2 * e) + f * (e2 - e) * (e1 + 2 * e) = 0)%C.
(** no finite permittivity satisfies the Maxwell-Garnett rule (or all do) *)
Definition mg_pole (f : R) (e1 e2 : CC) : Prop := ((2 + f) * e1 + (1 - f) * e2 = 0)%C.
(** the two solutions of the Bruggeman rule, the one with the larger real part first (for equal
    real parts, the one with the larger imaginary part) *)
Definition bruggeman_pair (f : R) (e1 e2 a b : CC) : Prop :=
  (forall e, bruggeman_rule f e1 e2 e <-> e = a \/ e = b) /\
  (fst b < fst a \/ fst a = fst b /\ snd b <= snd a).
(** the choice the code makes *)
Definition bruggeman_choice (f : R) (e1 e2 e : CC) : Prop :=
  exists a b, bruggeman_pair f e1 e2 a b /\
    (0 <= snd a /\ e = a \/
     snd a < 0 /\ 0 <= snd b /\ e = b \/
     snd a < 0 /\ snd b < 0 /\ e = RtoC 0).

(** no gain *)
Definition passive (e : CC) : Prop := 0 <= snd e.
Definition positive_real (e : CC) : Prop := 0 < fst e /\ snd e = 0.
Definition between (a b x : R) : Prop := Rmin a b <= x <= Rmax a b.

(** ** spectra *)
(** spectrum objects: built by the constructor, then converted in place any number of times *)
Inductive spectrum_object : spectrum -> Prop :=
| so_new v t u s : mk_spectrum v t u = Ok s -> spectrum_object s
| so_converted s t u s' : spectrum_object s -> convert_in_place s t u = (Ok tt, s') -> spectrum_object s'.
(** the wavelengths in metres the spectrum stands for *)
Definition wavelengths (s : spectrum) (lams : list R) : Prop := elems (sp_std s) = map Fin lams.
Definition is_scalar (s : spectrum) : Prop := exists x, sp_std s = VS x.

(** the material has the (finite) permittivities [es] at the samples of [s] *)
Definition permittivities (X : scipy) (m : material) (s : spectrum) (es : list CC) : Prop :=
  exists o s', get_permittivity_obj X m s = (Ok o, s') /\ out_elems o = map (fun z => OCx (CF z)) es.

(** values in the shape of the spectrum *)
Definition in_shape (s : spectrum) (os : list onum) : ovals :=
  match sp_std s, os with VS _, [o] => OS o | _, _ => OA os end.
(** whoever asks [m] for its permittivity at wavelengths among [lams], in whatever unit and in
    whatever order, gets the corresponding values among [es] *)
Definition answers (X : scipy) (m : material) (lams : list R) (es : list CC) : Prop :=
  forall q ls vs, spectrum_object q -> wavelengths q ls -> ls <> [] ->
    Forall2 (fun l v => In (l, v) (combine lams es)) ls vs ->
    get_permittivity_obj X m q = (Ok (in_shape q (map (fun v => OCx (CF v)) vs)), q).
(** the effective material could be built and answers [es] at the samples *)
Definition mixes_to (X : scipy) (py : bool) (k : medium) (s : spectrum) (m1 m2 : material) (f : R)
  (lams : list R) (es : list CC) : Prop :=
  exists m s', effective X py k s m1 m2 (Fin f) = (Ok m, s') /\ answers X m lams es.
(** the situation of the theorems: a spectrum with at least one sample, distinct
    finite wavelengths, at which both constituents have finite permittivities *)
Record sampled (X : scipy) (s : spectrum) (m1 m2 : material) (lams : list R) (e1 e2 : list CC) : Prop := mkSampled {
  sa_obj : spectrum_object s;
  sa_lams : wavelengths s lams;
  sa_some : lams <> [];
  sa_distinct : NoDup lams;
  sa_e1 : permittivities X m1 s e1;
  sa_e2 : permittivities X m2 s e2
}.
(** the material answers every request between the smallest and largest sample with NaN *)
Definition answers_nan (X : scipy) (m : material) (lams : list R) : Prop :=
  forall q ls, spectrum_object q -> wavelengths q ls -> ls <> [] ->
    (forall l, In l ls -> exists a b, In a lams /\ In b lams /\ a <= l <= b) ->
    get_permittivity_obj X m q = (Ok (in_shape q (map (fun _ => OCx CNan) ls)), q).
(** the value at [l] of a material with samples [es] at [lams]: real and imaginary part on the straight
    lines between the two neighbouring samples. A sample without a value has none for the segments
    that end in it (a segment contains its lower end, the last one also its upper end). *)
Definition interpolates (lams : list R) (es : list cx) (l : R) (o : cx) : Prop :=
  exists a za b zb, In (a, za) (combine lams es) /\ In (b, zb) (combine lams es) /\ a < b /\
    (forall c, In c lams -> c <= a \/ b <= c) /\
    (a <= l < b \/ l = b /\ forall c, In c lams -> c <= b) /\
    o = match za, zb with
        | CF u, CF w => CF (line (a, fst u) (b, fst w) l, line (a, snd u) (b, snd w) l)
        | _, _ => CNan
        end.
(** every request between the smallest and the largest sample is answered that way *)
Definition answers_between (X : scipy) (m : material) (lams : list R) (es : list cx) : Prop :=
  forall q ls, spectrum_object q -> wavelengths q ls -> ls <> [] ->
    (forall l, In l ls -> exists a b, In a lams /\ In b lams /\ a <= l <= b) ->
    exists os, get_permittivity_obj X m q = (Ok (in_shape q (map OCx os)), q) /\
      Forall2 (interpolates lams es) ls os.
(** a request with a wavelength below or above all samples is refused *)
Definition refuses_outside (X : scipy) (m : material) (lams : list R) : Prop :=
  forall q ls, spectrum_object q -> wavelengths q ls ->
    (exists l, In l ls /\ ((forall a, In a lams -> l < a) \/ (forall a, In a lams -> a < l))) ->
    get_permittivity_obj X m q = (Raise ValueError, q).
(** [P] relates the three lists element by element *)
Inductive pointwise3 {A B C} (P : A -> B -> C -> Prop) : list A -> list B -> list C -> Prop :=
| pw_nil : pointwise3 P [] [] []
| pw_cons a b c l m n : P a b c -> pointwise3 P l m n -> pointwise3 P (a :: l) (b :: m) (c :: n).
(** what Bruggeman needs of a scalar spectrum: an n/k material, or numpy numbers *)
Definition shape_known (py : bool) (s : spectrum) (m1 : material) : Prop :=
  is_scalar s -> m_name m1 = "nk" \/ py = false.
(** the rule of each class *)
Definition rule_of (k : medium) (f : R) : CC -> CC -> CC -> Prop :=
  match k with
  | EffectiveMedium => fun _ _ _ => False
  | Simple => linear_rule f
  | MaxwellGarnett => maxwell_garnett_rule f
  | Bruggeman => bruggeman_choice f
  end.
(** no sample is at the Maxwell-Garnett pole *)
Definition off_pole (f : R) (e1 e2 : list CC) : Prop := forall z w, In (z, w) (combine e1 e2) -> ~ mg_pole f z w.
