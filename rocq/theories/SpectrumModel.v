(** Model of src/dispersion/spectrum.py *)
From Verif Require Import PyBase PyStr XReal.
Open Scope R_scope.

(** Value containers: a float scalar, a float ndarray, an integer ndarray.
    Simplification: one-dimensional arrays only; a Python list/tuple argument is the
    array np.array makes of it (integer when all entries are ints). *)
Inductive vals := VS (x : xr) | VA (l : list xr) | VI (l : list Z).

(** Arguments of Spectrum(...): anything else (int, str, None, ...) is [InOther]. *)
Inductive pyin := InVals (v : vals) | InOther.

Definition elems (v : vals) : list xr :=
  match v with VS x => [x] | VA l => l | VI l => map (fun z => Fin (IZR z)) l end.

(** element-wise float operation; on an integer array numpy promotes to float *)
Definition vmap (f : xr -> xr) (v : vals) : vals :=
  match v with VS x => VS (f x) | VA l => VA (map f l) | VI l => VA (map f (elems (VI l))) end.
Definition vscale (k : R) (v : vals) : vals := vmap (xmul (Fin k)) v.

(** scipy.constants (CODATA 2018 exact values) *)
Definition const_c : R := 299792458.
Definition const_h : R := 662607015 / 10 ^ 42.        (* 6.62607015e-34 *)
Definition const_e : R := 1602176634 / 10 ^ 28.       (* 1.602176634e-19 *)

(** np.isclose(v, 0.0) with default rtol=1e-5, atol=1e-8 *)
Definition isclose_zero (x : xr) : bool :=
  match x with Fin r => Rleb (Rabs r) (/ 10 ^ 8) | _ => false end.
(** np.isclose(v, np.inf): only +inf itself *)
Definition isclose_inf (x : xr) : bool := match x with PInf => true | _ => false end.

(** spectrum.py:35-45 safe_inverse_scalar *)
Definition safe_inverse_scalar (x : xr) : xr :=
  if xeqb x (Fin 0) then PInf
  else if xeqb x PInf then Fin 0
  else xdiv (Fin 1) x.

(** spectrum.py:21-33 safe_inverse_array, one element *)
Definition safe_inverse_elem (x : xr) : xr :=
  if isclose_zero x then PInf
  else if isclose_inf x then Fin 0
  else xdiv (Fin 1) x.

(** spectrum.py:10-33 safe_inverse. On an integer array [inverse[zero_ind] = np.inf]
    (line 30) raises OverflowError: numpy converts the assigned float to the array's
    integer dtype before looking at the mask. *)
Definition safe_inverse (v : vals) : res vals :=
  match v with
  | VS x => Ok (VS (safe_inverse_scalar x))
  | VA l => Ok (VA (map safe_inverse_elem l))
  | VI _ => Raise OverflowError
  end.

(** spectrum.py:47-54 *)
Definition frequency_to_standard (unit : string) (v : vals) : res vals :=
  if negb (String.eqb unit "hz") then Raise NotImplementedError
  else do inv <- safe_inverse v; Ok (vscale const_c inv).
(** spectrum.py:57-64 *)
Definition energy_to_standard (unit : string) (v : vals) : res vals :=
  if negb (String.eqb unit "ev") then Raise NotImplementedError
  else do inv <- safe_inverse v; Ok (vscale (const_h * const_c / const_e) inv).
(** spectrum.py:67-75 *)
Definition ang_freq_to_standard (unit : string) (v : vals) : res vals :=
  if negb (String.eqb unit "1/s") then Raise NotImplementedError
  else do inv <- safe_inverse v; Ok (vscale (2 * PI * const_c) inv).
(** spectrum.py:78-85: 2*pi*inverse*1e-2 *)
Definition wavenumber_to_standard (unit : string) (v : vals) : res vals :=
  if negb (String.eqb unit "1/cm") then Raise NotImplementedError
  else do inv <- safe_inverse v; Ok (vscale (/ 10 ^ 2) (vscale (2 * PI) inv)).
(** spectrum.py:88-100 *)
Definition wavelength_to_standard (unit : string) (v : vals) : res vals :=
  if String.eqb unit "nm" then Ok (vscale (/ 10 ^ 9) v)
  else if String.eqb unit "cm" then Ok (vscale (/ 10 ^ 2) v)
  else if String.eqb unit "um" then Ok (vscale (/ 10 ^ 6) v)
  else if String.eqb unit "a" then Ok (vscale (/ 10 ^ 10) v)
  else Ok v.

(** spectrum.py:102-114; no branch taken leaves converted_values unbound *)
Definition to_wavelength (unit : string) (v : vals) : res vals :=
  if String.eqb unit "m" then Ok v
  else if String.eqb unit "cm" then Ok (vmap (xround 5) (vscale (10 ^ 2) v))
  else if String.eqb unit "nm" then Ok (vmap (xround 12) (vscale (10 ^ 9) v))
  else if String.eqb unit "um" then Ok (vmap (xround 9) (vscale (10 ^ 6) v))
  else if String.eqb unit "a" then Ok (vmap (xround 13) (vscale (10 ^ 10) v))
  else Raise UnboundLocalError.
(** spectrum.py:116-122 *)
Definition to_frequency (unit : string) (v : vals) : res vals :=
  if negb (String.eqb unit "hz") then Raise NotImplementedError
  else do inv <- safe_inverse v; Ok (vscale const_c inv).
(** spectrum.py:124-130 *)
Definition to_energy (unit : string) (v : vals) : res vals :=
  if negb (String.eqb unit "ev") then Raise NotImplementedError
  else do inv <- safe_inverse v;
       Ok (vmap (xround 9) (vscale (const_h * const_c / const_e) inv)).
(** spectrum.py:132-138 *)
Definition to_ang_freq (unit : string) (v : vals) : res vals :=
  if negb (String.eqb unit "1/s") then Raise NotImplementedError
  else do inv <- safe_inverse v; Ok (vscale (2 * PI * const_c) inv).
(** spectrum.py:140-146 *)
Definition to_wavenumber (unit : string) (v : vals) : res vals :=
  if negb (String.eqb unit "1/cm") then Raise NotImplementedError
  else do inv <- safe_inverse (vscale (/ 10 ^ 2) v); Ok (vscale (2 * PI) inv).

(** spectrum.py:154-158 (set contents as lists; only membership is used) *)
Definition SPECTRUM_TYPES : dict (list string) :=
  [("wavelength", ["m"; "cm"; "um"; "nm"; "a"]);
   ("frequency", ["hz"]);
   ("energy", ["ev"]);
   ("angularfrequency", ["1/s"]);
   ("wavenumber", ["1/cm"])]%string.

(** spectrum.py:160-168 *)
Definition UNIT_TYPES : dict (list string) :=
  [("m", ["meter"; "metre"; "m"]);
   ("cm", ["centimeter"; "centimetre"; "cm"]);
   ("um", ["micrometer"; "micrometre"; "um"]);
   ("nm", ["nanometer"; "nanometre"; "nm"]);
   ("hz", ["hertz"; "hz"]);
   ("ev", ["electronvolt"; "ev"]);
   ("1/s", ["1/s"; "rad/s"]);
   ("1/cm", ["1/cm"]);
   ("a", ["a"; "angstrom"])]%string.

(** spectrum.py:170-177; note: no entry for "cm" *)
Definition DISPLAY_NAMES : dict string :=
  [("m", "m"); ("um", "μm"); ("nm", "nm"); ("hz", "Hz"); ("ev", "eV");
   ("1/s", "1/s"); ("1/cm", "1/cm"); ("a", "Å")]%string.

Record spectrum := mkSp {
  sp_type : string;       (* self.spectrum_type *)
  sp_unit : string;       (* self.unit *)
  sp_values : vals;       (* self.values *)
  sp_std : vals           (* self.standard_rep *)
}.

(** spectrum.py:197-213 standardise_unit. SPECTRUM_TYPES[spectrum_type] is only
    evaluated when the unit is an alias ("and" is lazy); callers have checked the type,
    an unknown type with a known alias would raise KeyError. *)
Definition standardise_unit (stype unit : string) : res string :=
  (fix go (l : dict (list string)) : res string :=
     match l with
     | [] => Raise ValueError
     | (unit_type, aliases) :: r =>
         if smem unit aliases then
           match dget SPECTRUM_TYPES stype with
           | None => Raise KeyError
           | Some us => if smem unit_type us then Ok unit_type else go r
           end
         else go r
     end) UNIT_TYPES.

(** spectrum.py:265-268 display_string *)
Definition display_string (unit : string) : res string := dlookup DISPLAY_NAMES unit.

(** spectrum.py:280-295 convert_from *)
Definition convert_from (stype unit : string) (v : vals) : res vals :=
  if negb (dhas SPECTRUM_TYPES stype) then Raise ValueError
  else if String.eqb stype "frequency" then frequency_to_standard unit v
  else if String.eqb stype "energy" then energy_to_standard unit v
  else if String.eqb stype "angularfrequency" then ang_freq_to_standard unit v
  else if String.eqb stype "wavenumber" then wavenumber_to_standard unit v
  else if String.eqb stype "wavelength" then wavelength_to_standard unit v
  else Raise KeyError.

(** spectrum.py:308-314 the dispatch of convert_to *)
Definition to_dispatch (stype unit : string) (v : vals) : res vals :=
  if String.eqb stype "frequency" then to_frequency unit v
  else if String.eqb stype "energy" then to_energy unit v
  else if String.eqb stype "angularfrequency" then to_ang_freq unit v
  else if String.eqb stype "wavenumber" then to_wavenumber unit v
  else if String.eqb stype "wavelength" then to_wavelength unit v
  else Raise KeyError.

(** spectrum.py:270-278 standardise_values *)
Definition standardise_values (stype unit : string) (v : vals) : res vals :=
  if negb (String.eqb stype "wavelength" && String.eqb unit "m") then convert_from stype unit v
  else Ok v.

(** spectrum.py:179-195 __init__ *)
Definition mk_spectrum (values : pyin) (spectrum_type unit : string) : res spectrum :=
  let stype := lower spectrum_type in
  if negb (dhas SPECTRUM_TYPES stype) then Raise ValueError
  else do u <- standardise_unit stype (lower unit);
  match values with
  | InOther => Raise ValueError
  | InVals v => do std <- standardise_values stype u v; Ok (mkSp stype u v std)
  end.

(** spectrum.py:297-321 convert_to with in_place=False. The type is lower-cased (301),
    the unit is not (305). *)
Definition convert_to (s : spectrum) (spectrum_type unit : string) : res vals :=
  let stype := lower spectrum_type in
  if negb (dhas SPECTRUM_TYPES stype) then Raise ValueError
  else do u <- standardise_unit stype unit; to_dispatch stype u (sp_std s).

(** spectrum.py:297-321 convert_to with in_place=True: exception or None, and the
    object afterwards (the assignments 316-318 happen after everything that can raise). *)
Definition convert_in_place (s : spectrum) (spectrum_type uname : string) : res unit * spectrum :=
  let stype := lower spectrum_type in
  if negb (dhas SPECTRUM_TYPES stype) then (Raise ValueError, s)
  else match standardise_unit stype uname with
       | Raise e => (Raise e, s)
       | Ok u => match to_dispatch stype u (sp_std s) with
                 | Raise e => (Raise e, s)
                 | Ok v => (Ok tt, mkSp stype u v (sp_std s))
                 end
       end.

Definition vmin (v : vals) : res xr := np_min (elems v).
Definition vmax (v : vals) : res xr := np_max (elems v).

(** spectrum.py:221-245 contains: returns True or raises *)
Definition contains (self other : spectrum) : res bool :=
  do ov <- convert_to other (sp_type self) (sp_unit self);
  do other_min <- vmin ov;
  do other_max <- vmax ov;
  do self_min <- vmin (sp_values self);
  do self_max <- vmax (sp_values self);
  if xlt other_min self_min || xgt other_max self_max then
    do_ display_string (sp_unit self); Raise ValueError
  else Ok true.

(** spectrum.py:215-219 get_type_unit_string *)
Definition get_type_unit_string (s : spectrum) : res string :=
  do u <- display_string (sp_unit s); Ok (sp_type s ++ " (" ++ u ++ ")")%string.

(** spectrum.py:247-256 check_type *)
Definition check_type (type_to_check is_type : string) : res bool :=
  let t := lower type_to_check in
  if negb (dhas SPECTRUM_TYPES t) then Raise ValueError else Ok (String.eqb t is_type).
(** spectrum.py:258-263 check_unit: no alias handling, despite the docstring *)
Definition check_unit (unit is_unit : string) : bool := String.eqb (lower unit) is_unit.
