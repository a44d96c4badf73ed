(** Specification for C103: the mixing rules of the effective media against each other. *)
From Verif Require Import PyBase XReal CNum SpectrumModel SpectralModel MaterialModel EffectiveModel EffectiveSpec.
Open Scope R_scope.
Open Scope list_scope.

(** [P] holds for every sample: the permittivities of the two constituents and the values in the lists *)
Definition at_every_sample (e1 e2 : list CC) (P : CC -> CC -> nat -> Prop) : Prop :=
  forall i z w, nth_error e1 i = Some z -> nth_error e2 i = Some w -> P z w i.
(** the i-th value of the list is real and has the property *)
Definition real_value (l : list CC) (i : nat) (x : R) : Prop := nth_error l i = Some (RtoC x).
(** the harmonic mean: constituents in series *)
Definition harmonic (f z w : R) : R := / ((1 - f) / z + f / w).
(** Wiener and Hashin-Shtrikman: harmonic mean, Maxwell-Garnett with the smaller permittivity as host,
    Bruggeman, linear mixing; with the larger permittivity as host Maxwell-Garnett is above Bruggeman *)
Definition ordered (f z w mg br lin : R) : Prop :=
  (z <= w -> harmonic f z w <= mg <= br /\ br <= lin) /\
  (w <= z -> harmonic f z w <= br <= mg /\ mg <= lin).
