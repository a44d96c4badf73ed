(** What the material properties C25-C36 talk about, independently of the model's helpers *)
From Verif Require Import PyBase PyStr XReal CNum SpectrumModel SpectrumSpec SpectralModel SpectralSpec TextModel TextSpec MaterialModel.
Open Scope R_scope.
Open Scope string_scope.
Open Scope list_scope.

(** ** keyword arguments *)
(** the ten data sources of the documentation *)
Definition data_sources : list string :=
  ["file_path"; "fixed_n"; "fixed_nk"; "fixed_eps_r"; "fixed_eps"; "tabulated_nk";
   "tabulated_n_alpha"; "tabulated_n"; "tabulated_eps"; "model_kw"].
(** given with a value other than None *)
Definition given (kw : dict pyval) (n : string) (v : pyval) : Prop := In (n, v) kw /\ v <> PNone.
Definition some_source (kw : dict pyval) (n : string) : Prop := In n data_sources /\ exists v, given kw n v.
Definition exactly_one_source (kw : dict pyval) : Prop :=
  exists n, some_source kw n /\ forall m, some_source kw m -> m = n.
(** keyword arguments have distinct names *)
Definition kwargs_ok (kw : dict pyval) : Prop := NoDup (map fst kw).

(** the type each argument must have *)
Definition of_type (v : pyval) (t : pytype) : Prop :=
  match t with
  | TyStr => exists s, v = PStr s | TyInt => exists z, v = PInt z | TyFloat => exists x, v = PFloat x
  | TyComplex => exists c, v = PComplex c | TyDict => exists m, v = PDict m | TyArray => exists a, v = PArr a
  end.
Definition arg_types : list (string * pytype) :=
  [("file_path", TyStr); ("spectrum_type", TyStr); ("unit", TyStr); ("interp_oder", TyInt);
   ("fixed_n", TyFloat); ("fixed_eps_r", TyFloat); ("fixed_nk", TyComplex); ("fixed_eps", TyComplex);
   ("model_kw", TyDict); ("tabulated_nk", TyArray); ("tabulated_n", TyArray);
   ("tabulated_eps", TyArray); ("tabulated_n_alpha", TyArray)].
Definition well_typed (kw : dict pyval) : Prop :=
  forall n t v, In (n, t) arg_types -> given kw n v -> of_type v t.

(** [kw] is a call with the one source [n]=[v], the spectrum type [t] and the unit [u]
    (wavelength and nanometer when not given) *)
Record call (kw : dict pyval) (n : string) (v : pyval) (t u : string) : Prop := mkCall {
  call_ok : kwargs_ok kw;
  call_typed : well_typed kw;
  call_source : In n data_sources /\ given kw n v;
  call_only : forall m, some_source kw m -> m = n;
  call_type : given kw "spectrum_type" (PStr t) \/ (t = "wavelength" /\ forall w, ~ given kw "spectrum_type" w);
  call_unit : given kw "unit" (PStr u) \/ (u = "nanometer" /\ forall w, ~ given kw "unit" w)
}.

(** ** tables *)
(** at least one row, [n] finite entries per row, distinct spectral values *)
Definition table_ok (n : nat) (rows : list (list R)) : Prop :=
  rows <> [] /\ Forall (fun r => length r = n) rows /\ NoDup (map (fun r => nth 0 r 0) rows).
Definition to_xr (rows : list (list R)) : list (list xr) := map (map Fin) rows.
(** column [j] against the spectral values *)
Definition column (j : nat) (rows : list (list R)) : list (xr * xr) :=
  map (fun r => (Fin (nth 0 r 0), Fin (nth j r 0))) rows.
(** the data object for the pairs: a constant on a one-point range for one row, otherwise
    linear interpolation *)
Definition tabulated (rows : list (xr * xr)) (t u : string) (d : sdata) : Prop :=
  match rows with
  | [(x, y)] => mk_constant (ORe y) (InVals (VA [x; x])) t u = Ok d
  | _ => mk_interpolation rows t u = Ok d
  end.
(** the constant zero used for a part that was not given *)
Definition zero_data (d : sdata) : Prop :=
  mk_constant (ORe (Fin 0)) (InVals (VA [Fin 0; PInf])) "wavelength" "m" = Ok d.
Definition constant_data (x : xr) (d : sdata) : Prop :=
  mk_constant (ORe x) (InVals (VA [Fin 0; PInf])) "wavelength" "m" = Ok d.

(** ** values *)
Definition out_elems (o : ovals) : list onum := match o with OS x => [x] | OA l => l end.
(** every value is a finite number *)
Definition all_finite (o : ovals) : Prop := Forall (fun x => exists z, onum_cx x = CF z) (out_elems o).
(** apply a function on complex numbers to every value *)
Definition map_out (f : CC -> CC) (o : ovals) : ovals :=
  let g x := match onum_cx x with CF z => OCx (CF (f z)) | CNan => OCx CNan end in
  match o with OS x => OS (g x) | OA l => OA (map g l) end.
(** the value [z] for every spectral value of [v] *)
Definition everywhere (z : CC) (v : vals) : ovals :=
  match v with VS _ => OS (OCx (CF z)) | _ => OA (map (fun _ => OCx (CF z)) (elems v)) end.
(** non-negative floats, as scalar or non-empty array *)
Definition nonneg_floats (v : vals) : Prop :=
  vnn v /\ elems v <> [] /\ forall l, v <> VI l.

(** ** materials a program can build, with scipy [X] and a file reader *)
Inductive made (X : scipy) (rd : string -> res fdict) : material -> Prop :=
| made_new kw m : kwargs_ok kw -> mk_material rd kw = Ok m -> made X rd m
| made_noabs m m' : made X rd m -> remove_absorption m = Ok m' -> made X rd m'
| made_ext m s order r m' s' : made X rd m -> extrapolate X m s order = (r, m', s') -> made X rd m'.

Definition no_nan (l : list xr) : Prop := Forall (fun x => x <> NaN) l.
(** [x] is not below, resp. not above, all of the range *)
Definition not_below (range : list xr) (x : xr) : Prop := exists a, In a range /\ xle a x = true.
Definition not_above (range : list xr) (x : xr) : Prop := exists b, In b range /\ xle x b = true.
(** the wavelengths (in metres) bounding the validity of a data object *)
Definition wavelengths_of (d : sdata) : list xr := elems (sp_std (valid_range d)).

(** ** numpy.geomspace, as used by get_sample_spectrum. The values in between lie between the
    two ends; the end points themselves may be off by rounding *)
Definition geomspace_ok (X : scipy) : Prop :=
  forall a b, 0 < a -> a <= b -> exists first mid fin,
    geomspace X (Fin a) (Fin b) 1000 = Ok (map Fin (first :: mid ++ [fin])) /\
    length mid = 998%nat /\ Forall (fun x => a <= x <= b) mid /\
    first <= b /\ a <= fin.
(** the same with exact end points *)
Definition geomspace_exact (X : scipy) : Prop :=
  forall a b, 0 < a -> 0 < b -> exists mid,
    geomspace X (Fin a) (Fin b) 1000 = Ok (map Fin (a :: mid ++ [b])) /\
    length mid = 998%nat /\ Forall (fun x => Rmin a b <= x <= Rmax a b) mid.
(** a geometric sequence cannot include zero *)
Definition geomspace_zero (X : scipy) : Prop :=
  forall x n, geomspace X (Fin 0) x n = Raise ValueError /\ geomspace X x (Fin 0) n = Raise ValueError.

(** ** formula data sets *)
Definition documented_formulas : list (string * mkind) :=
  [("1", Sellmeier); ("2", Sellmeier2); ("3", Polynomial); ("4", RefractiveIndexInfo); ("5", Cauchy);
   ("6", Gases); ("7", Herzberger); ("8", Retro); ("9", Exotic)].
Definition documented_models : list (string * mkind) :=
  [("Sellmeier", Sellmeier); ("Sellmeier2", Sellmeier2); ("Polynomial", Polynomial);
   ("RefractiveIndexInfo", RefractiveIndexInfo); ("Cauchy", Cauchy); ("Gases", Gases);
   ("Herzberger", Herzberger); ("Retro", Retro); ("Exotic", Exotic); ("Drude", Drude);
   ("DrudeLorentz", DrudeLorentz); ("TaucLorentz", TaucLorentz)].
(** models of the permittivity (complex); the others give the refractive index *)
Definition permittivity_model (k : mkind) : Prop := In k [Drude; DrudeLorentz; TaucLorentz].

(** a white-space separated list of numbers *)
Definition numbers_text (s : string) (l : list xr) : Prop :=
  exists toks, line_text s toks /\ Forall2 (number_text true) toks l.
(** a file's entry, or the default where the file has the empty string *)
Definition file_or_default (v : dval) (dflt s : string) : Prop :=
  (v = DStr s /\ s <> "") \/ (v = DStr "" /\ s = dflt).

(** all seven metadata entries of a file are present *)
Definition file_metadata : list string :=
  ["Reference"; "Comment"; "Name"; "FullName"; "Author"; "MetaComment"; "Specification"].
Definition meta_complete (fm : dict mval) : Prop := forall k, In k file_metadata -> dget fm k <> None.

(** ** metadata *)
(** Python dictionaries have distinct keys *)
Definition value_ok (v : mval) : Prop := match v with MMap d => NoDup (map fst d) | _ => True end.
Definition same_value (v w : mval) : Prop :=
  match v, w with
  | MStr s, MStr t => s = t
  | MMap d, MMap e => forall k, dget d k = dget e k
  | MOther x, MOther y => x = y
  | _, _ => False
  end.
(** the same keys with the same values *)
Definition same_metadata (a b : dict mval) : Prop :=
  forall k, match dget a k, dget b k with
            | Some v, Some w => same_value v w
            | None, None => True
            | _, _ => False
            end.
(** the metadata of directly built materials has one entry more, Alias *)
Definition direct_metadata : list string :=
  ["Reference"; "Comment"; "Name"; "FullName"; "Author"; "Alias"; "MetaComment"; "Specification"].
(** a reader whose metadata mappings are proper dictionaries *)
Definition reader_ok (rd : string -> res fdict) : Prop :=
  forall path fd k v, rd path = Ok fd -> dget (fd_meta fd) k = Some v -> value_ok v.

(** ** data sets of a file *)
(** the type entry of a data set: two words *)
Definition type_words (d : fset) (a b : string) : Prop := exists s, ds_type d = DStr s /\ line_text s [a; b].
(** the data of a tabulated set: an array (text files) or a text table (yaml files) *)
Definition holds_table (v : dval) (n : nat) (rows : list (list R)) : Prop :=
  v = DArr (ND2 n (to_xr rows)) \/
  exists s lines rest toks, v = DStr s /\
    s = join NL (lines ++ rest) /\ Forall no_newline (lines ++ rest) /\
    Forall (fun l => ~ blank l) lines /\ ended rest /\
    Forall2 line_text lines toks /\ Forall2 (Forall2 (number_text true)) toks (to_xr rows).
(** an integer literal *)
Definition integer_text (s : string) (i : Z) : Prop :=
  exists g sg w ds, s = (g ++ w)%string /\ sign_text g sg /\ digits_text true w ds /\ IZR i = sg * positional ds.
(** row [kr] = (x, k) of the absorption table made of row [r] = (x, n, alpha): alpha times the
    wavelength in cm, rounded to five decimals, over 4 pi *)
Definition coded_k_row (t canon : string) (r kr : list R) : Prop :=
  exists lam w, wavelength_m t canon (nth 0 r 0) lam /\ rounds_to 5 (100 * lam) w /\
    kr = [nth 0 r 0; nth 2 r 0 * w / (4 * PI)].

(** ** shapes of spectra and results *)
(** None: scalar; Some n: array of n values *)
Definition shape (v : vals) : option nat := match v with VS _ => None | _ => Some (length (elems v)) end.
Definition oshape (o : ovals) : option nat := match o with OS _ => None | OA l => Some (length l) end.
(** values and standard values have the same shape (true of every spectrum object) *)
Definition regular (s : spectrum) : Prop := shape (sp_values s) = shape (sp_std s).
Definition arg_shape (a : sarg) : option nat :=
  match a with SObj s => shape (sp_values s) | SRaw (InVals v) _ _ => shape v | SRaw InOther _ _ => None end.

(** ** without absorption *)
(** the number without its imaginary part *)
Definition drop_im (z : CC) : CC := (fst z, 0).
(** a value without imaginary part (or not a number at all) *)
Definition im_zero (x : onum) : Prop := onum_cx x = CNan \/ exists r, onum_cx x = CF (r, 0).
