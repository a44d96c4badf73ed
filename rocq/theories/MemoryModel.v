(** The arrays behind the objects: spectrum.py and the constructors of spectral_data.py and
    material.py again, this time with numpy arrays that live in memory and are shared by reference.
    (SpectrumModel, SpectralModel and MaterialModel treat arrays as values.) *)
From Verif Require Import PyBase PyStr XReal CNum SpectrumModel SpectralModel TextModel MaterialModel.
Open Scope R_scope.
Open Scope string_scope.
Open Scope list_scope.

(** ** memory. An array is one-dimensional (of floats or ints), a table with [n] columns, or the
    result of an evaluation. A name refers to a number, which is immutable, or to an array. *)
Inductive arr := A1 (v : vals) | A2 (n : nat) (rows : list (list xr)) | AO (l : list onum).
Definition mem := list arr.
Inductive ref := RNum (x : xr) | RArr (a : nat).

Definition vec (m : mem) (a : nat) : vals := match nth_error m a with Some (A1 v) => v | _ => VA [] end.
Definition load (m : mem) (r : ref) : vals := match r with RNum x => VS x | RArr a => vec m a end.
Definition store (m : mem) (a : nat) (x : arr) : mem := firstn a m ++ x :: skipn (S a) m.

(** computations that use the memory *)
Definition mm (A : Type) := mem -> res A * mem.
Definition mret {A} (a : A) : mm A := fun m => (Ok a, m).
Definition mfail {A} (e : exn) : mm A := fun m => (Raise e, m).
Definition mpure {A} (r : res A) : mm A := fun m => (r, m).
Definition mbind {A B} (x : mm A) (f : A -> mm B) : mm B :=
  fun m => match x m with (Ok a, m') => f a m' | (Raise e, m') => (Raise e, m') end.
Notation "'let*' x := m 'in' k" := (mbind m (fun x => k)) (at level 200, x name, k at level 200).

(** a new array *)
Definition new_array (x : arr) : mm nat := fun m => (Ok (length m), m ++ [x]).
(** np.array(values), and every arithmetic result *)
Definition np_array (v : vals) : mm ref :=
  match v with VS x => mret (RNum x) | _ => let* a := new_array (A1 v) in mret (RArr a) end.
Definition read (r : ref) : mm vals := fun m => (Ok (load m r), m).
(** an arithmetic expression with one array: the result is a new array *)
Definition compute (f : vals -> vals) (r : ref) : mm ref := let* v := read r in np_array (f v).

(** a[mask] = new: an assignment into the array. (An integer array refuses np.inf, see
    SpectrumModel.safe_inverse.) *)
Fixpoint put (mask : list bool) (new old : list xr) : list xr :=
  match mask, new, old with
  | b :: mask, x :: new, y :: old => (if b then x else y) :: put mask new old
  | _, _, _ => old
  end.
Definition assign_where (a : nat) (mask : list bool) (new : list xr) : mm unit := fun m =>
  match vec m a with
  | VA l => (Ok tt, store m a (A1 (VA (put mask new l))))
  | _ => (Raise OverflowError, m)
  end.

(** ** spectrum.py *)
(** spectrum.py:21-33 safe_inverse_array, and 10-19 safe_inverse *)
Definition m_safe_inverse (r : ref) : mm ref :=
  let* v := read r in
  match v with
  | VS x => mret (RNum (safe_inverse_scalar x))
  | _ =>
      let* inverse := new_array (A1 v) in
      let zero := map isclose_zero (elems v) in
      let inf := map isclose_inf (elems v) in
      let safe := map (fun x => negb (isclose_zero x || isclose_inf x)) (elems v) in
      let* _ := assign_where inverse zero (map (fun _ => PInf) (elems v)) in
      let* _ := assign_where inverse inf (map (fun _ => Fin 0) (elems v)) in
      let* v := read r in
      let* _ := assign_where inverse safe (map (xdiv (Fin 1)) (elems v)) in
      mret (RArr inverse)
  end.

(** spectrum.py:47-86 *)
Definition m_reciprocal_to_standard (name unit : string) (f : vals -> vals) (r : ref) : mm ref :=
  if negb (String.eqb unit name) then mfail NotImplementedError
  else let* inv := m_safe_inverse r in compute f inv.
(** spectrum.py:88-100 wavelength_to_standard: metres are handed through *)
Definition m_wavelength_to_standard (unit : string) (r : ref) : mm ref :=
  if String.eqb unit "nm" then compute (vscale (/ 10 ^ 9)) r
  else if String.eqb unit "cm" then compute (vscale (/ 10 ^ 2)) r
  else if String.eqb unit "um" then compute (vscale (/ 10 ^ 6)) r
  else if String.eqb unit "a" then compute (vscale (/ 10 ^ 10)) r
  else mret r.
(** spectrum.py:102-114 to_wavelength: metres are handed through *)
Definition m_to_wavelength (unit : string) (r : ref) : mm ref :=
  if String.eqb unit "m" then mret r
  else if String.eqb unit "cm" then compute (fun v => vmap (xround 5) (vscale (10 ^ 2) v)) r
  else if String.eqb unit "nm" then compute (fun v => vmap (xround 12) (vscale (10 ^ 9) v)) r
  else if String.eqb unit "um" then compute (fun v => vmap (xround 9) (vscale (10 ^ 6) v)) r
  else if String.eqb unit "a" then compute (fun v => vmap (xround 13) (vscale (10 ^ 10) v)) r
  else mfail UnboundLocalError.
(** spectrum.py:280-295 convert_from *)
Definition m_convert_from (stype unit : string) (r : ref) : mm ref :=
  if negb (dhas SPECTRUM_TYPES stype) then mfail ValueError
  else if String.eqb stype "frequency" then m_reciprocal_to_standard "hz" unit (vscale const_c) r
  else if String.eqb stype "energy" then m_reciprocal_to_standard "ev" unit (vscale (const_h * const_c / const_e)) r
  else if String.eqb stype "angularfrequency" then m_reciprocal_to_standard "1/s" unit (vscale (2 * PI * const_c)) r
  else if String.eqb stype "wavenumber" then
    m_reciprocal_to_standard "1/cm" unit (fun v => vscale (/ 10 ^ 2) (vscale (2 * PI) v)) r
  else if String.eqb stype "wavelength" then m_wavelength_to_standard unit r
  else mfail KeyError.
(** spectrum.py:116-146 and the dispatch of convert_to, 308-314 *)
Definition m_to_dispatch (stype unit : string) (r : ref) : mm ref :=
  if String.eqb stype "frequency" then m_reciprocal_to_standard "hz" unit (vscale const_c) r
  else if String.eqb stype "energy" then
    m_reciprocal_to_standard "ev" unit (fun v => vmap (xround 9) (vscale (const_h * const_c / const_e) v)) r
  else if String.eqb stype "angularfrequency" then m_reciprocal_to_standard "1/s" unit (vscale (2 * PI * const_c)) r
  else if String.eqb stype "wavenumber" then
    if negb (String.eqb unit "1/cm") then mfail NotImplementedError
    else let* q := compute (vscale (/ 10 ^ 2)) r in let* inv := m_safe_inverse q in compute (vscale (2 * PI)) inv
  else if String.eqb stype "wavelength" then m_to_wavelength unit r
  else mfail KeyError.
(** spectrum.py:270-278 standardise_values: metres are handed through *)
Definition m_standardise (stype unit : string) (r : ref) : mm ref :=
  if negb (String.eqb stype "wavelength" && String.eqb unit "m") then m_convert_from stype unit r else mret r.

(** a Spectrum object *)
Record mspec := mkMs { ms_type : string; ms_unit : string; ms_values : ref; ms_std : ref }.
(** the first argument of Spectrum: an array or float by reference, a list or tuple, anything else *)
Inductive marg := ByRef (r : ref) | Listed (v : vals) | NoValues.
(** spectrum.py:179-195 __init__: np.array copies a list, an array is kept as it is *)
Definition m_spectrum (values : marg) (spectrum_type unit : string) : mm mspec :=
  let stype := lower spectrum_type in
  if negb (dhas SPECTRUM_TYPES stype) then mfail ValueError
  else let* u := mpure (standardise_unit stype (lower unit)) in
  let* r := (match values with ByRef r => mret r | Listed v => np_array v | NoValues => mfail ValueError end) in
  let* std := m_standardise stype u r in
  mret (mkMs stype u r std).
(** spectrum.py:297-321 convert_to: the type and unit after normalising, and the result *)
Definition m_convert (s : mspec) (spectrum_type unit : string) : mm (string * string * ref) :=
  let stype := lower spectrum_type in
  if negb (dhas SPECTRUM_TYPES stype) then mfail ValueError
  else let* u := mpure (standardise_unit stype unit) in
  let* r := m_to_dispatch stype u (ms_std s) in
  mret (stype, u, r).
Definition m_convert_in_place (s : mspec) (spectrum_type unit : string) : mm mspec :=
  let* c := m_convert s spectrum_type unit in
  mret (mkMs (fst (fst c)) (snd (fst c)) (snd c) (ms_std s)).
(** spectrum.py:221-245 contains *)
Definition m_contains (self other : mspec) : mm bool :=
  let* c := m_convert other (ms_type self) (ms_unit self) in
  let* ov := read (snd c) in
  let* sv := read (ms_values self) in
  mpure (do other_min <- vmin ov; do other_max <- vmax ov;
         do self_min <- vmin sv; do self_max <- vmax sv;
         if xlt other_min self_min || xgt other_max self_max then
           do_ display_string (ms_unit self); Raise ValueError
         else Ok true).

(** ** data objects *)
Record mbase := mkMb { mb_type : string; mb_unit : string; mb_range : mspec }.
(** Interpolation: the array self.data, and what interp1d has copied (scipy's default copy=True).
    Model: the array self.model_parameters. *)
Inductive mdata :=
| MConst (b : mbase) (c : onum)
| MInterp (b : mbase) (data : nat) (rows : list (xr * xr))
| MModel (b : mbase) (k : mkind) (params : nat).

Definition table_at (m : mem) (a : nat) : list (list xr) := match nth_error m a with Some (A2 _ rows) => rows | _ => [] end.
Definition params_at (m : mem) (a : nat) : list xr := elems (vec m a).

(** spectral_data.py:61-68 SpectralData.__init__ *)
Definition m_base (valid_range : marg) (stype unit : string) : mm mbase :=
  let* r := m_spectrum valid_range stype unit in mret (mkMb stype unit r).
(** spectral_data.py:202-216 Interpolation.__init__: the array is kept *)
Definition m_interpolation (data : nat) (stype unit : string) : mm mdata :=
  fun m => let rows := pair_cols 0 1 (table_at m data) in
  (let* mn := mpure (np_min (map fst rows)) in let* mx := mpure (np_max (map fst rows)) in
   let* b := m_base (Listed (VA [mn; mx])) stype unit in
   let* _ := mpure (interp1d_check rows) in
   mret (MInterp b data rows)) m.
(** spectral_data.py:240-248 Model.__init__ and the subclasses: the coefficients are kept *)
Definition m_model (k : mkind) (params : nat) (rng : marg) (stype unit : string) : mm mdata :=
  let* b := m_base rng stype unit in
  let* _ := mpure (validate_spectrum_type k stype unit) in
  mret (MModel b k params).
(** spectral_data.py:88-94 Constant.__init__ *)
Definition m_constant (c : onum) (rng : vals) (stype unit : string) : mm mdata :=
  let* b := m_base (Listed rng) stype unit in mret (MConst b c).
(** material.py:494-519 _spec_data_from_table *)
Definition m_spec_data (data : nat) (stype unit : string) : mm mdata :=
  fun m => match pair_cols 0 1 (table_at m data) with
           | [r] => m_constant (ORe (snd r)) (VA [fst r; fst r]) stype unit m
           | _ => m_interpolation data stype unit m
           end.
(** table[:, [0, j]]: a new array *)
Definition take_columns (data j : nat) : mm nat :=
  fun m => new_array (A2 2 (map (fun r => [col 0 r; col j r]) (table_at m data))) m.

(** ** materials *)
Record mmat := mkMm { mm_name : string; mm_real : mdata; mm_imag : mdata; mm_complex : option mdata;
                      mm_stype : string; mm_unit : string }.
Definition m_zero : mm mdata := m_constant (ORe (Fin 0)) (VA [Fin 0; PInf]) "wavelength" "m".
(** material.py:98-139 Material(tabulated_nk=..) and tabulated_eps: 453-491 _process_table copies
    the columns (471-472, 488-490; nk copies the last two columns twice) *)
Definition m_table3 (name : string) (data : nat) (stype unit : string) : mm mmat :=
  let* a := take_columns data 1 in let* re := m_spec_data a stype unit in
  let* b := take_columns data 2 in let* im := m_spec_data b stype unit in
  mret (mkMm name re im None stype unit).
(** Material(tabulated_n=..): the table itself is used (484-485) *)
Definition m_table2 (data : nat) (stype unit : string) : mm mmat :=
  let* re := m_spec_data data stype unit in let* im := m_zero in
  mret (mkMm "nk" re im None stype unit).
(** material.py:41-48 _check_table_shape *)
Definition m_table (id : string) (data : nat) (stype unit : string) : mm mmat :=
  fun m => match nth_error m data with
           | Some (A2 n rows) =>
               if String.eqb id "n" then (if Nat.eqb n 2 then m_table2 data stype unit m else (Raise ValueError, m))
               else (if Nat.eqb n 3 then m_table3 id data stype unit m else (Raise ValueError, m))
           | _ => (Raise ValueError, m)
           end.
(** material.py:336-396 Material(model_kw={name, parameters, valid_range, spectrum_type, unit}) *)
Definition m_model_material (k : mkind) (params : nat) (rng : marg) (stype unit : string) : mm mmat :=
  let* d := m_model k params rng stype unit in
  match output k with
  | Some "n" => let* z := m_zero in mret (mkMm "nk" d z None stype unit)
  | Some "eps" => let* z := m_zero in let* z' := m_zero in mret (mkMm "eps" z z' (Some d) stype unit)
  | _ => mfail ValueError
  end.

(** ** what the objects show *)
Definition spec_of (m : mem) (s : mspec) : spectrum := mkSp (ms_type s) (ms_unit s) (load m (ms_values s)) (load m (ms_std s)).
Definition base_of (m : mem) (b : mbase) : dbase := mkBase (mb_type b) (mb_unit b) (spec_of m (mb_range b)).
(** as evaluate sees it: the copies of interp1d *)
Definition data_of (m : mem) (d : mdata) : sdata :=
  match d with
  | MConst b c => DConst (base_of m b) c
  | MInterp b _ rows => DInterp (base_of m b) rows
  | MModel b k a => DModel (base_of m b) k (params_at m a)
  end.
(** as dict_repr sees it (spectral_data.py:225-235): self.data *)
Definition repr_of (m : mem) (d : mdata) : sdata :=
  match d with
  | MInterp b a _ => DInterp (base_of m b) (pair_cols 0 1 (table_at m a))
  | _ => data_of m d
  end.
Definition mat_with (f : mdata -> sdata) (x : mmat) : material :=
  mkMat (Some default_meta) (mm_name x) (f (mm_real x)) (f (mm_imag x)) (option_map f (mm_complex x)) (mm_stype x) (mm_unit x).

Section Session.
Variable X : scipy.
(** material.py:573-618 get_nk_data on an array (by reference) or on a Spectrum object. The
    arithmetic of the evaluate methods only makes new arrays; it is that of SpectralModel. The
    data objects are no extrapolations, which alone change the spectrum. *)
Definition m_get_nk_data (x : mmat) (r : ref) (stype unit : string) : mm ovals :=
  let* s := m_spectrum (ByRef r) stype unit in
  fun m => (let M := mat_with (data_of m) x in
            if negb (valid_name M) then Raise ValueError
            else do c <- fst (complex_value X M (spec_of m s));
                 Ok (if String.eqb (m_name M) "eps" then omap cxsqrt c else omap (fun z => z) c), m).

(** ** sessions: what a user of the package does, one line after the other. The result of line [k]
    is kept in variable [k]; lines refer to earlier results by number. *)
Inductive range_arg := RangeVar (j : nat) | RangeList (v : vals).
Inductive op :=
| NewArray (x : arr)                                     (* a = np.array(...) *)
| NewSpectrum (i : nat) (stype unit : string)            (* s = Spectrum(a, ...) *)
| ListSpectrum (v : pyin) (stype unit : string)          (* s = Spectrum([...], ...) or a float *)
| Convert (s : nat) (stype unit : string)                (* a = s.convert_to(...) *)
| ConvertInPlace (s : nat) (stype unit : string)         (* s.convert_to(..., in_place=True) *)
| Contains (s s' : nat)                                  (* s.contains(s') *)
| Values (s : nat)                                       (* a = s.values *)
| NewTable (id : string) (i : nat) (stype unit : string) (* m = Material(tabulated_<id>=a, ...) *)
| NewModel (name : string) (i : nat) (rng : range_arg) (stype unit : string) (* m = Material(model_kw=...) *)
| Evaluate (x i : nat) (stype unit : string)             (* a = m.get_nk_data(a, ...) *)
| EvaluateAt (x s : nat)                                 (* a = m.get_nk_data(s) *)
| Saved (x : nat)                                        (* m.save(...) *)
| Look (i : nat)                                         (* print(a) *)
| Assign (i k : nat) (v : xr).                           (* a[k] = v *)

(** what a line shows: nothing, an exception, a number or array, the content of a file; [Senseless]
    if the line refers to something of the wrong kind *)
Inductive out := Silent | Failed (e : exn) | Truth (b : bool) | Number (x : xr) | Complex (o : onum)
               | Array (a : arr) | Written (c : material) | Senseless.

(** a[k] = v: IndexError if there is no such element; an integer array truncates. Simplification:
    k >= 0, one-dimensional arrays, and tables by the number of the element in reading order *)
Definition replace {A} (k : nat) (v : A) (l : list A) : list A := firstn k l ++ v :: skipn (S k) l.
Definition assigned (x : arr) (k : nat) (v : xr) : res arr :=
  match x with
  | A1 w => if Nat.ltb k (length (elems w)) then do w <- range_set w k v; Ok (A1 w) else Raise IndexError
  | A2 n rows => let i := (k / n)%nat in let j := (k mod n)%nat in
                 match nth_error rows i with
                 | Some r => if Nat.ltb j (length r) then Ok (A2 n (replace i (replace j v r) rows)) else Raise IndexError
                 | None => Raise IndexError
                 end
  | AO l => if Nat.ltb k (length l) then Ok (AO (replace k (ORe v) l)) else Raise IndexError
  end.

Inductive hvar := HRef (r : ref) | HSpec (s : mspec) | HMat (x : mmat) | HVal (o : onum) | HNone.
Record hstate := mkH { h_mem : mem; h_vars : list hvar }.
Definition start : hstate := mkH [] [].
Definition h_spec (st : hstate) (i : nat) : option mspec := match nth_error (h_vars st) i with Some (HSpec s) => Some s | _ => None end.
Definition h_ref (st : hstate) (i : nat) : option ref := match nth_error (h_vars st) i with Some (HRef r) => Some r | _ => None end.
Definition h_mat (st : hstate) (i : nat) : option mmat := match nth_error (h_vars st) i with Some (HMat x) => Some x | _ => None end.
(** a number, or a one-dimensional array of numbers *)
Definition plain (m : mem) (r : ref) : bool :=
  match r with RNum _ => true | RArr a => match nth_error m a with Some (A1 (VA _ | VI _)) => true | _ => false end end.
Definition show (m : mem) (r : ref) : out :=
  match r with RNum x => Number x | RArr a => match nth_error m a with Some x => Array x | None => Senseless end end.

Definition finish {A} (st : hstate) (r : res A * mem) (f : A -> mem -> out * hvar) : out * hstate :=
  match r with
  | (Raise e, m) => (Failed e, mkH m (h_vars st ++ [HNone]))
  | (Ok a, m) => let (o, v) := f a m in (o, mkH m (h_vars st ++ [v]))
  end.
Definition senseless (st : hstate) : out * hstate := (Senseless, mkH (h_mem st) (h_vars st ++ [HNone])).
Definition set_var {A} (i : nat) (v : A) (l : list A) : list A := replace i v l.

(** the result of an evaluation is a number or a new array *)
Definition evaluated (x : mmat) (r : ref) (stype unit : string) : mm (out * hvar) :=
  let* v := m_get_nk_data x r stype unit in
  match v with
  | OS o => mret (Complex o, HVal o)
  | OA l => let* a := new_array (AO l) in mret (Array (AO l), HRef (RArr a))
  end.

Definition h_step (st : hstate) (o : op) : out * hstate :=
  let m := h_mem st in
  match o with
  | NewArray (A1 (VS x)) => (Number x, mkH m (h_vars st ++ [HRef (RNum x)]))
  | NewArray x => finish st (new_array x m) (fun a m => (Array x, HRef (RArr a)))
  | NewSpectrum i t u =>
      match h_ref st i with
      | Some r => if plain m r then finish st (m_spectrum (ByRef r) t u m) (fun s _ => (Silent, HSpec s)) else senseless st
      | None => senseless st
      end
  | ListSpectrum v t u =>
      finish st (m_spectrum (match v with InVals v => Listed v | InOther => NoValues end) t u m) (fun s _ => (Silent, HSpec s))
  | Convert s t u =>
      match h_spec st s with
      | Some s => finish st (m_convert s t u m) (fun c m => (show m (snd c), HRef (snd c)))
      | None => senseless st
      end
  | ConvertInPlace i t u =>
      match h_spec st i with
      | Some s => match m_convert_in_place s t u m with
                  | (Raise e, m) => (Failed e, mkH m (h_vars st ++ [HNone]))
                  | (Ok s', m) => (Silent, mkH m (set_var i (HSpec s') (h_vars st) ++ [HNone]))
                  end
      | None => senseless st
      end
  | Contains s s' =>
      match h_spec st s, h_spec st s' with
      | Some s, Some s' => finish st (m_contains s s' m) (fun b _ => (Truth b, HNone))
      | _, _ => senseless st
      end
  | Values s =>
      match h_spec st s with
      | Some s => (show m (ms_values s), mkH m (h_vars st ++ [HRef (ms_values s)]))
      | None => senseless st
      end
  | NewTable id i t u =>
      match h_ref st i with
      | Some (RArr a) =>
          match nth_error m a with
          | Some (A2 _ _) => if smem id ["nk"; "n"; "eps"] then finish st (m_table id a t u m) (fun x _ => (Silent, HMat x)) else senseless st
          | _ => senseless st
          end
      | _ => senseless st
      end
  | NewModel name i rng t u =>
      match dget model_names name, h_ref st i with
      | Some k, Some (RArr a) =>
          match nth_error m a with
          | Some (A1 (VA _)) =>
              match rng with
              | RangeList v => finish st (m_model_material k a (Listed v) t u m) (fun x _ => (Silent, HMat x))
              | RangeVar j => match h_ref st j with
                              | Some r => if plain m r then finish st (m_model_material k a (ByRef r) t u m) (fun x _ => (Silent, HMat x)) else senseless st
                              | None => senseless st
                              end
              end
          | _ => senseless st
          end
      | _, _ => senseless st
      end
  | Evaluate x i t u =>
      match h_mat st x, h_ref st i with
      | Some x, Some r => if plain m r then finish st (evaluated x r t u m) (fun v _ => v) else senseless st
      | _, _ => senseless st
      end
  | EvaluateAt x s =>
      match h_mat st x, h_spec st s with
      | Some x, Some s => finish st (evaluated x (ms_values s) (ms_type s) (ms_unit s) m) (fun v _ => v)
      | _, _ => senseless st
      end
  | Saved x =>
      match h_mat st x with
      | Some x => (Written (mat_with (repr_of m) x), mkH m (h_vars st ++ [HNone]))
      | None => senseless st
      end
  | Look i =>
      match h_ref st i with
      | Some r => (show m r, mkH m (h_vars st ++ [HNone]))
      | None => senseless st
      end
  | Assign i k v =>
      match h_ref st i with
      | Some (RArr a) =>
          match nth_error m a with
          | Some x => match assigned x k v with
                      | Ok y => (Silent, mkH (store m a y) (h_vars st ++ [HNone]))
                      | Raise e => (Failed e, mkH m (h_vars st ++ [HNone]))
                      end
          | None => senseless st
          end
      | _ => senseless st
      end
  end.
(** the lines of a session: what they show, and the state afterwards *)
Fixpoint h_run (st : hstate) (h : list op) : list out * hstate :=
  match h with
  | [] => ([], st)
  | o :: h => let (x, st) := h_step st o in let (xs, st) := h_run st h in (x :: xs, st)
  end.
End Session.
