(** What the plotting and printing properties C81-C84 talk about *)
From Coq Require Import Ascii.
From Verif Require Import PyBase PyStr XReal CNum SpectrumModel SpectrumSpec SpectralModel MaterialModel MaterialSpec PlotModel.
Open Scope R_scope.
Open Scope string_scope.
Open Scope list_scope.

(** the keyword, or the default of the material *)
Definition chosen (given : option string) (default : string) : string :=
  match given with Some s => s | None => default end.
(** the numbers passed as keyword argument values *)
Definition gives (p : plotvals) (v : vals) : Prop := p = PSeq v \/ p = PVal (InVals v).
Definition is_array (v : vals) : Prop := forall x, v <> VS x.

(** how units are written on an axis *)
Definition axis_units : list (string * string) :=
  [("m", "m"); ("um", "μm"); ("nm", "nm"); ("a", "Å"); ("hz", "Hz"); ("ev", "eV"); ("1/s", "1/s"); ("1/cm", "1/cm")].
(** the axis names the type [t] and the unit [canon] *)
Definition axis_label (t canon label : string) : Prop :=
  exists d, In (canon, d) axis_units /\ label = (t ++ " (" ++ d ++ ")")%string.

(** real parts solid, imaginary parts dashed, at the positions [xs]; a single value is drawn
    as a pair of horizontal lines *)
Definition drawn (xs : list xr) (zs : list cx) (re im : string) (lines : list artist) : Prop :=
  length zs = length xs /\
  match zs with
  | [z] => lines = [Level (cx_re z) re false; Level (cx_im z) im true]
  | _ => lines = [Curve xs (map cx_re zs) re false; Curve xs (map cx_im zs) im true]
  end.
Definition numbers (o : ovals) : list cx := map onum_cx (out_elems o).

(** data that no extrapolation was added to *)
Definition not_extended (d : sdata) : Prop := forall b base spl, d <> DExtrap b base spl.
Definition parts_not_extended (m : material) : Prop :=
  match m_complex m with Some d => not_extended d | None => not_extended (m_real m) /\ not_extended (m_imag m) end.

(** ** text *)
Definition ascii_text (s : string) : Prop := Forall (fun c => (nat_of_ascii c < 128)%nat) (list_ascii_of_string s).

(** ** tables *)
(** the pairs of spectral value and value of a table, as handed to the interpolation *)
Definition own_table (l : list (R * R)) (t u : string) (d : sdata) : Prop :=
  mk_interpolation (map (fun r => (Fin (fst r), Fin (snd r))) l) t u = Ok d.
(** magnitudes resolved by the conversions of arrays: for energies, frequencies and angular
    frequencies, the value and its wavelength in metres exceed 1e-8 *)
Definition resolved (t canon : string) (x : R) : Prop :=
  reciprocal_type t -> / 10 ^ 8 < x /\ forall lam, wavelength_m t canon x lam -> / 10 ^ 8 < lam.
