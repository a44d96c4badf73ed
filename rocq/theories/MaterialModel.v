(** Model of src/dispersion/material.py (class Material) *)
From Verif Require Import PyBase PyStr XReal CNum SpectrumModel SpectralModel TextModel.
Open Scope R_scope.
Open Scope string_scope.
Open Scope list_scope.

(** ** metadata values: a string, a mapping of scalars, or another yaml value, which the code
    only stores and compares. Simplification: mapping values are strings; NaN is excluded. *)
Inductive mval := MStr (s : string) | MMap (d : dict string) | MOther (z : Z).

(** dict == dict: same keys with equal values, in any order *)
Definition dict_eqb (a b : dict string) : bool :=
  Nat.eqb (length a) (length b) &&
  forallb (fun kv => match dget b (fst kv) with Some v => String.eqb (snd kv) v | None => false end) a.
Definition mval_eqb (a b : mval) : bool :=
  match a, b with
  | MStr s, MStr t => String.eqb s t
  | MMap d, MMap e => dict_eqb d e
  | MOther x, MOther y => Z.eqb x y
  | _, _ => false
  end.

(** ** what a Reader returns (io.py): metadata and data sets, with all six keys *)
Inductive dval := DStr (s : string) | DArr (a : nd) | DOther (truthy : bool).
Record fset := mkFset { ds_type : dval; ds_range : dval; ds_stype : dval; ds_unit : dval;
                        ds_yields : dval; ds_data : dval }.
Record fdict := mkFdict { fd_meta : dict mval; fd_sets : list fset }.

(** ** the object. [m_meta] is None for effective media, which never set meta_data *)
Record material := mkMat {
  m_meta : option (dict mval);
  m_name : string;                       (* data['name'] *)
  m_real : sdata; m_imag : sdata;        (* data['real'], data['imag'] *)
  m_complex : option sdata;              (* data['complex'] *)
  m_stype : string; m_unit : string      (* defaults *)
}.
(** during construction the parts may still be None *)
Record pmat := mkP {
  p_name : string; p_real : option sdata; p_imag : option sdata; p_complex : option sdata;
  p_stype : string; p_unit : string }.
Definition set_defaults (p : pmat) (t u : string) : pmat :=
  mkP (p_name p) (p_real p) (p_imag p) (p_complex p) t u.
Definition set_real (p : pmat) (n : string) (d : sdata) : pmat :=
  mkP n (Some d) (p_imag p) (p_complex p) (p_stype p) (p_unit p).
Definition set_imag (p : pmat) (n : string) (d : sdata) : pmat :=
  mkP n (p_real p) (Some d) (p_complex p) (p_stype p) (p_unit p).
Definition set_complex (p : pmat) (n : string) (d : sdata) : pmat :=
  mkP n (p_real p) (p_imag p) (Some d) (p_stype p) (p_unit p).

(** ** keyword arguments *)
(** model_kw: the five entries the code looks at; parameters are floats *)
Record model_kw := mkKw { kw_name : option string; kw_params : option (list xr);
                          kw_range : option pyin; kw_stype : option string; kw_unit : option string }.
Inductive pyval := PNone | PStr (s : string) | PFloat (x : xr) | PComplex (c : cx) | PInt (z : Z)
                 | PArr (a : nd) | PDict (m : model_kw) | POther.
Definition as_str (v : pyval) : option string := match v with PStr s => Some s | _ => None end.
Definition as_float (v : pyval) : option xr := match v with PFloat x => Some x | _ => None end.
Definition as_complex (v : pyval) : option cx := match v with PComplex z => Some z | _ => None end.
Definition as_dict (v : pyval) : option model_kw := match v with PDict m => Some m | _ => None end.
Definition is_none (v : pyval) : bool := match v with PNone => true | _ => false end.

(** material.py:164-168 *)
Definition mutually_exclusive : list string :=
  ["file_path"; "fixed_n"; "fixed_nk"; "fixed_eps_r"; "fixed_eps"; "tabulated_nk";
   "tabulated_n_alpha"; "tabulated_n"; "tabulated_eps"; "model_kw"].

Inductive pytype := TyStr | TyInt | TyFloat | TyComplex | TyDict | TyArray.
(** isinstance(v, T) *)
Definition isinstance (v : pyval) (t : pytype) : bool :=
  match v, t with
  | PStr _, TyStr | PInt _, TyInt | PFloat _, TyFloat | PComplex _, TyComplex
  | PDict _, TyDict | PArr _, TyArray => true
  | _, _ => false
  end.
(** args[name], None when absent *)
Definition arg (args : dict pyval) (name : string) : pyval :=
  match dget args name with Some v => v | None => PNone end.
(** material.py:229-245 _check_type, result: the updated dictionary. The names form a set,
    iterated here in list order; the only effects are TypeError and "absent becomes None". *)
Fixpoint check_arg_types (args : dict pyval) (names : list string) (t : pytype) : res (dict pyval) :=
  match names with
  | [] => Ok args
  | n :: r =>
      if is_none (arg args n) then check_arg_types (dset args n PNone) r t
      else if isinstance (arg args n) t then check_arg_types args r t else Raise TypeError
  end.
(** material.py:41-48 _check_table_shape; [PNone] (and anything without shape): AttributeError *)
Definition check_table_shape (v : pyval) (ncols : nat) : res unit :=
  match v with
  | PArr (ND2 n _) => if Nat.eqb n ncols then Ok tt else Raise ValueError
  | PArr (ND1 _) => Raise ValueError
  | _ => Raise AttributeError
  end.

Definition source_count (args : dict pyval) : nat :=
  length (filter (fun kv => negb (is_none (snd kv)) && smem (fst kv) mutually_exclusive) args).

(** material.py:160-227 _parse_args *)
Definition parse_args (args : dict pyval) : res (dict pyval) :=
  if Nat.eqb (source_count args) 0 then Raise ValueError
  else if Nat.ltb 1 (source_count args) then Raise ValueError
  else
  do i <- check_arg_types args ["file_path"; "spectrum_type"; "unit"] TyStr;
  let i := if is_none (arg i "spectrum_type") then dset i "spectrum_type" (PStr "wavelength") else i in
  let i := if is_none (arg i "unit") then dset i "unit" (PStr "nanometer") else i in
  let i := if dhas i "interp_order" then i else dset i "interp_order" (PInt 1) in
  do i <- check_arg_types i ["interp_oder"] TyInt;
  do i <- check_arg_types i ["fixed_n"; "fixed_eps_r"] TyFloat;
  do i <- check_arg_types i ["fixed_nk"; "fixed_eps"] TyComplex;
  do i <- check_arg_types i ["model_kw"] TyDict;
  do i <- check_arg_types i ["tabulated_nk"; "tabulated_n"; "tabulated_eps"; "tabulated_n_alpha"] TyArray;
  do_ (if is_none (arg i "tabulated_nk") then Ok tt else check_table_shape (arg i "tabulated_nk") 3);
  do_ (if is_none (arg i "tabulated_n_alpha") then Ok tt else check_table_shape (arg i "tabulated_nk") 3);
  do_ (if is_none (arg i "tabulated_n") then Ok tt else check_table_shape (arg i "tabulated_n") 2);
  do_ (if is_none (arg i "tabulated_eps") then Ok tt else check_table_shape (arg i "tabulated_eps") 3);
  Ok i.

(** ** fixed values and models *)

(** material.py:306-334 _process_fixed_value (the values were type checked) *)
Definition process_fixed_value (i : dict pyval) (p : pmat) : res pmat :=
  match as_float (arg i "fixed_n") with
  | Some x => do c <- constant_default (ORe x); Ok (set_real p "nk" c)
  | _ =>
  match as_complex (arg i "fixed_nk") with
  | Some z => do a <- constant_default (ORe (cx_re z)); do b <- constant_default (ORe (cx_im z));
                  Ok (set_imag (set_real p "nk" a) "nk" b)
  | _ =>
  match as_float (arg i "fixed_eps_r") with
  | Some x => do c <- constant_default (ORe x); Ok (set_real p "eps" c)
  | _ =>
  match as_complex (arg i "fixed_eps") with
  | Some z => do a <- constant_default (ORe (cx_re z)); do b <- constant_default (ORe (cx_im z));
                  Ok (set_imag (set_real p "eps" a) "eps" b)
  | _ => Raise RuntimeError
  end end end end.

(** the classes of the module spectral_data that subclass Model *)
Definition model_names : dict mkind :=
  [("Sellmeier", Sellmeier); ("Sellmeier2", Sellmeier2); ("Polynomial", Polynomial);
   ("RefractiveIndexInfo", RefractiveIndexInfo); ("Cauchy", Cauchy); ("Gases", Gases);
   ("Herzberger", Herzberger); ("Retro", Retro); ("Exotic", Exotic); ("Drude", Drude);
   ("DrudeLorentz", DrudeLorentz); ("TaucLorentz", TaucLorentz); ("Fano", Fano)].
Inductive pyclass := KModel (k : mkind) | KModelBase | KConstant | KOther.
(** material.py:398-422 _str_to_class: other classes visible in the module; modules, functions
    and module attributes are not classes *)
Definition str_to_class (field : string) : res pyclass :=
  match dget model_names field with
  | Some k => Ok (KModel k)
  | None =>
      if String.eqb field "Model" then Ok KModelBase
      else if String.eqb field "Constant" then Ok KConstant
      else if smem field ["SpectralData"; "Interpolation"; "Extrapolation"; "Spectrum"; "interp1d"] then Ok KOther
      else if smem field ["np"; "re"; "splrep"; "splev"; "_numeric_to_string_table"; "__name__";
                          "__doc__"; "__file__"; "__package__"; "__spec__"; "__loader__";
                          "__builtins__"; "__cached__"] then Raise TypeError
      else Raise NameError
  end.

Definition opt_key {A} (o : option A) : res A := match o with Some a => Ok a | None => Raise KeyError end.

(** material.py:336-396 _process_model_dict. Simplification: the classes that are no models are
    taken to reject the keyword arguments (TypeError), Constant and Model get past construction
    and fail at the output attribute. Default type and unit: those of the model classes. *)
Definition process_model_dict (m : model_kw) (p : pmat) : res pmat :=
  do name <- opt_key (kw_name m);
  do cls <- str_to_class name;
  let p := set_defaults p (match kw_stype m with Some t => t | None => p_stype p end)
                          (match kw_unit m with Some u => u | None => p_unit p end) in
  let st := match kw_stype m with Some t => t | None => "wavelength" end in
  let un := match kw_unit m with Some u => u | None => "m" end in
  do params <- opt_key (kw_params m);
  do rng <- opt_key (kw_range m);
  match cls with
  | KModel k =>
      do d <- mk_model k params rng st un;
      match output k with
      | Some "n" => Ok (set_real p "nk" d)
      | Some "k" => Ok (set_imag p "nk" d)
      | Some "nk" => Ok (set_complex p "nk" d)
      | Some "epsr" => Ok (set_real p "eps" d)
      | Some "epsi" => Ok (set_imag p "eps" d)
      | Some "eps" => Ok (set_complex p "eps" d)
      | _ => Raise ValueError
      end
  | KModelBase => do_ mk_base rng st un; Raise ValueError
  | KConstant => do_ mk_base rng st un; Raise AttributeError
  | KOther => Raise TypeError
  end%string.

(** ** tables *)
Definition pair_cols (i j : nat) (rows : list (list xr)) : list (xr * xr) :=
  map (fun r => (col i r, col j r)) rows.

(** material.py:494-519 _spec_data_from_table on a table of pairs *)
Definition spec_data_from_pairs (rows : list (xr * xr)) (stype unit : string) : res sdata :=
  match rows with
  | [r] => mk_constant (ORe (snd r)) (InVals (VA [fst r; fst r])) stype unit
  | _ => mk_interpolation rows stype unit
  end.
(** the same on a table with [n] columns: columns 0 and 1 are used *)
Definition spec_data_from_table (n : nat) (rows : list (list xr)) (stype unit : string) : res sdata :=
  match n, rows with
  | O, _ => Raise IndexError
  | 1%nat, [r] => Raise IndexError
  | 1%nat, _ => do mn <- np_min (map (col 0) rows); do mx <- np_max (map (col 0) rows);
                do_ mk_base (InVals (VA [mn; mx])) stype unit; Raise IndexError
  | _, _ => spec_data_from_pairs (pair_cols 0 1 rows) stype unit
  end.
(** table[:, [i, j]] with i <= j *)
Definition take_cols (n i j : nat) (rows : list (list xr)) : res (list (xr * xr)) :=
  if Nat.ltb j n then Ok (pair_cols i j rows) else Raise IndexError.

(** elements of convert_to's result, as an array *)
Fixpoint zip_with {A B C} (f : A -> B -> C) (l : list A) (m : list B) : list C :=
  match l, m with a :: l', b :: m' => f a b :: zip_with f l' m' | _, _ => [] end.

(** material.py:453-491 _process_table, after the defaults were set *)
Definition process_table (n : nat) (rows : list (list xr)) (identifier : string) (p : pmat) : res pmat :=
  let t := p_stype p in let u := p_unit p in
  if String.eqb identifier "nk" then
    do r <- take_cols n 0 1 rows; do a <- spec_data_from_pairs r t u;
    do i <- take_cols n 0 2 rows; do b <- spec_data_from_pairs i t u;
    Ok (set_imag (set_real p "nk" a) "nk" b)
  else if String.eqb identifier "n_alpha" then
    do r <- take_cols n 0 1 rows; do a <- spec_data_from_pairs r t u;
    do s <- mk_spectrum (InVals (VA (map (col 0) rows))) t u;
    do wvls <- convert_to s "wavelength" "cm";
    do_ (if Nat.ltb 2 n then Ok tt else Raise IndexError);
    let k := zip_with (fun al w => xdiv (xmul al w) (Fin (PI * 4))) (map (col 2) rows) (elems wvls) in
    do b <- spec_data_from_pairs (combine (map (col 0) rows) k) t u;
    Ok (set_imag (set_real p "nk" a) "nk" b)
  else if String.eqb identifier "n" then
    do a <- spec_data_from_table n rows t u; Ok (set_real p "nk" a)
  else if String.eqb identifier "k" then
    do b <- spec_data_from_table n rows t u; Ok (set_imag p "nk" b)
  else if String.eqb identifier "eps" then
    do r <- take_cols n 0 1 rows; do a <- spec_data_from_pairs r t u;
    do i <- take_cols n 0 2 rows; do b <- spec_data_from_pairs i t u;
    Ok (set_imag (set_real p "eps" a) "eps" b)
  else Ok p.

(** ** file contents *)
Definition dval_tab (v : dval) : tabarg :=
  match v with DStr s => TStr s | DArr a => TArr a | DOther _ => TOther end.
(** v.split() *)
Definition dval_split (v : dval) : res (list string) :=
  match v with DStr s => Ok (split_ws s) | _ => Raise AttributeError end.
(** bool(v); arrays occur only under the key Data, whose truth value is never taken *)
Definition dval_true (v : dval) : bool :=
  match v with DStr "" => false | DStr _ => true | DArr _ => true | DOther b => b end.
(** the string of a spectrum type or unit; other values fail later in str.lower *)
Definition dval_str (v : dval) : res string := match v with DStr s => Ok s | _ => Raise AttributeError end.

(** Python's int(str) *)
Definition py_int (s : string) : res Z :=
  let (neg, t) := scan_sign (rstrip (lstrip s)) in
  match scan_digits true false t with
  | ((_ :: _) as ds, EmptyString) => Ok (if neg then (- digits_val ds)%Z else digits_val ds)
  | _ => Raise ValueError
  end.

(** material.py:558-562 *)
Definition method_ids (i : Z) : res string :=
  match i with
  | 1 => Ok "Sellmeier" | 2 => Ok "Sellmeier2" | 3 => Ok "Polynomial" | 4 => Ok "RefractiveIndexInfo"
  | 5 => Ok "Cauchy" | 6 => Ok "Gases" | 7 => Ok "Herzberger" | 8 => Ok "Retro" | 9 => Ok "Exotic"
  | _ => Raise KeyError
  end%Z.

(** material.py:521-570 _process_formula_data *)
Definition process_formula_data (d : fset) (data_type identifier : string) (p : pmat) : res pmat :=
  do ident <- (if String.eqb data_type "formula" then do i <- py_int identifier; Ok (inl i) else Ok (inr identifier));
  do vr <- (if dval_true (ds_range d) then dval_split (ds_range d) else Raise UnboundLocalError);
  do rng <- map_res py_float vr;
  do cs <- dval_split (ds_data d);
  do params <- map_res py_float cs;
  do st <- (if dval_true (ds_stype d) then dval_str (ds_stype d) else Ok (p_stype p));
  do un <- (if dval_true (ds_unit d) then dval_str (ds_unit d) else Ok (p_unit p));
  do name <- (match ident with inl i => method_ids i | inr s => Ok s end);
  process_model_dict (mkKw (Some name) (Some params) (Some (InVals (VA rng))) (Some st) (Some un)) p.

(** material.py:437-451 one data set of _process_file_data *)
Definition process_dataset (d : fset) (p : pmat) : res pmat :=
  do toks <- dval_split (ds_type d);
  match toks with
  | [data_type; identifier] =>
      if String.eqb data_type "tabulated" then
        do t <- str_table_to_numeric (dval_tab (ds_data d));
        do st <- (if dval_true (ds_stype d) then dval_str (ds_stype d) else Ok (p_stype p));
        do un <- (if dval_true (ds_unit d) then dval_str (ds_unit d) else Ok (p_unit p));
        match t with
        | ND2 n rows => process_table n rows identifier (set_defaults p st un)
        | ND1 _ => Raise IndexError
        end
      else if String.eqb data_type "formula" || String.eqb data_type "model" then
        process_formula_data d data_type identifier p
      else Raise ValueError
  | _ => Raise ValueError
  end.
Fixpoint process_datasets (l : list fset) (p : pmat) : res pmat :=
  match l with [] => Ok p | d :: r => do p' <- process_dataset d p; process_datasets r p' end.

(** material.py:428-435 the metadata copied from a file *)
Definition file_meta_keys : list string :=
  ["Reference"; "Comment"; "Name"; "FullName"; "Author"; "MetaComment"; "Specification"].
Definition copy_meta (fm : dict mval) : res (dict mval) :=
  map_res (fun k => do v <- dlookup fm k; Ok (k, v)) file_meta_keys.

(** material.py:104-112 metadata of a directly built material *)
Definition default_meta : dict mval :=
  [("Reference", MStr ""); ("Comment", MStr ""); ("Name", MStr ""); ("FullName", MStr "");
   ("Author", MStr ""); ("Alias", MStr ""); ("MetaComment", MStr ""); ("Specification", MMap [])].

(** material.py:248-256 _complete_partial_data *)
Definition complete (meta : dict mval) (p : pmat) : res material :=
  do r <- (match p_real p with Some d => Ok d | None => constant_default (ORe (Fin 0)) end);
  do i <- (match p_imag p with Some d => Ok d | None => constant_default (ORe (Fin 0)) end);
  Ok (mkMat (Some meta) (p_name p) r i (p_complex p) (p_stype p) (p_unit p)).

Section Material.
Variable X : scipy.
(** Reader(path).read_file(), see ReaderModel *)
Variable read_file : string -> res fdict.

(** material.py:98-139 __init__ *)
Definition mk_material (kwargs : dict pyval) : res material :=
  do i <- parse_args kwargs;
  let str_arg n := match as_str (arg i n) with Some s => s | None => "" end in
  let p := mkP "" None None None (str_arg "spectrum_type") (str_arg "unit") in
  let tab v f := match v with PArr (ND2 n rows) => f n rows | _ => Raise RuntimeError end in
  match as_str (arg i "file_path") with
  | Some path =>
      do fd <- read_file path;
      do meta <- copy_meta (fd_meta fd);
      do p <- process_datasets (fd_sets fd) p;
      complete meta p
  | _ =>
      do p <- (match as_dict (arg i "model_kw") with
               | Some m => process_model_dict m p
               | _ =>
                 if negb (is_none (arg i "tabulated_nk")) then
                   tab (arg i "tabulated_nk") (fun n rows => process_table n rows "nk" p)
                 else if negb (is_none (arg i "tabulated_n_alpha")) then
                   tab (arg i "tabulated_n_alpha") (fun n rows => process_table n rows "n_alpha" p)
                 else if negb (is_none (arg i "tabulated_n")) then
                   tab (arg i "tabulated_n") (fun n rows => process_table n rows "n" p)
                 else if negb (is_none (arg i "tabulated_eps")) then
                   tab (arg i "tabulated_eps") (fun n rows => process_table n rows "eps" p)
                 else process_fixed_value i p
               end);
      complete default_meta p
  end.

(** material.py:141-156 __eq__; [None]: the other object is not a Material *)
Fixpoint meta_eq (a b : dict mval) : res bool :=
  match a with
  | [] => Ok true
  | (k, v) :: r => do w <- dlookup b k; if mval_eqb v w then meta_eq r b else Ok false
  end.
Definition mat_eq (self : material) (other : option material) : res bool :=
  match other with
  | None => Ok false
  | Some o =>
      match m_meta self with
      | None => Raise AttributeError
      | Some a =>
          do e <- (match a, m_meta o with
                   | [], _ => Ok true
                   | _, None => Raise AttributeError
                   | _, Some b => meta_eq a b
                   end);
          if e then Ok (String.eqb (m_name self) (m_name o)) else Ok false
      end
  end.

(** ** evaluation *)
(** numpy broadcasting of a binary operation *)
Definition obin (f : cx -> cx -> cx) (a b : ovals) : res ovals :=
  let g x y := OCx (f (onum_cx x) (onum_cx y)) in
  match a, b with
  | OS x, OS y => Ok (OS (g x y))
  | OS x, OA m => Ok (OA (map (g x) m))
  | OA l, OS y => Ok (OA (map (fun x => g x y) l))
  | OA l, OA m => if Nat.eqb (length l) (length m) then Ok (OA (zip_with g l m)) else Raise ValueError
  end.
Definition omap (f : cx -> cx) (a : ovals) : ovals :=
  match a with OS x => OS (OCx (f (onum_cx x))) | OA l => OA (map (fun x => OCx (f (onum_cx x))) l) end.
(** real + 1j*imag *)
Definition join_parts (re im : ovals) : res ovals :=
  obin (fun a b => cxadd a (cxmul (CF Ci) b)) re im.

(** material.py:609-614 resp. 654-659: the complex value and the spectrum afterwards *)
Definition complex_value (m : material) (s : spectrum) : res ovals * spectrum :=
  match m_complex m with
  | None =>
      match evaluate X (m_real m) s with
      | (Raise e, s1) => (Raise e, s1)
      | (Ok re, s1) =>
          match evaluate X (m_imag m) s1 with
          | (Raise e, s2) => (Raise e, s2)
          | (Ok im, s2) => (join_parts re im, s2)
          end
      end
  | Some d => evaluate X d s
  end.
Definition valid_name (m : material) : bool := String.eqb (m_name m) "nk" || String.eqb (m_name m) "eps".

(** the spectrum argument: a Spectrum object, or values with a type and unit *)
Inductive sarg := SObj (s : spectrum) | SRaw (v : pyin) (stype unit : string).

(** material.py:573-618 get_nk_data (the caller's spectrum is never touched: a new one is
    built from its values) *)
Definition get_nk_data (m : material) (a : sarg) : res ovals :=
  do s <- (match a with
           | SObj s => mk_spectrum (InVals (sp_values s)) (sp_type s) (sp_unit s)
           | SRaw v t u => mk_spectrum v t u
           end);
  if negb (valid_name m) then Raise ValueError
  else do c <- fst (complex_value m s);
       Ok (if String.eqb (m_name m) "eps" then omap cxsqrt c else omap (fun z => z) c).

(** material.py:620-663 get_permittivity with a Spectrum: result and the caller's object *)
Definition get_permittivity_obj (m : material) (s : spectrum) : res ovals * spectrum :=
  if negb (valid_name m) then (Raise ValueError, s)
  else let (c, s1) := complex_value m s in
       (do c <- c; Ok (if String.eqb (m_name m) "nk" then omap (fun z => cxmul z z) c else omap (fun z => z) c), s1).
Definition get_permittivity (m : material) (a : sarg) : res ovals :=
  match a with
  | SObj s => fst (get_permittivity_obj m s)
  | SRaw v t u => do s <- mk_spectrum v t u; fst (get_permittivity_obj m s)
  end.

(** material.py:665-696 get_maximum_valid_range *)
Definition get_maximum_valid_range (m : material) : res vals :=
  if negb (valid_name m) then Raise RuntimeError
  else
  do b <- (match m_complex m with
           | None =>
               do rl <- vmin (sp_std (valid_range (m_real m))); do ru <- vmax (sp_std (valid_range (m_real m)));
               do il <- vmin (sp_std (valid_range (m_imag m))); do iu <- vmax (sp_std (valid_range (m_imag m)));
               do lower <- np_max [rl; il]; do upper <- np_min [ru; iu];
               Ok (lower, upper)
           | Some d =>
               do lower <- vmin (sp_values (valid_range d)); do upper <- vmax (sp_values (valid_range d));
               Ok (lower, upper)
           end);
  do s <- mk_spectrum (InVals (VA [fst b; snd b])) "wavelength" "m";
  convert_to s (m_stype m) (m_unit m).

(** material.py:789-805 get_sample_spectrum. Simplification: values[0] and values[-1] of the
    1000 values of geomspace exist. *)
Definition set_first (x : xr) (l : list xr) : list xr := match l with [] => [] | _ :: r => x :: r end.
Fixpoint set_last (x : xr) (l : list xr) : list xr :=
  match l with [] => [] | [_] => [x] | a :: r => a :: set_last x r end.
Definition get_sample_spectrum (m : material) : res spectrum :=
  do mr <- get_maximum_valid_range m;
  match elems mr with
  | [r0; r1] =>
      if xeqb r0 (Fin 0) || xeqb r1 PInf then
        do v <- geomspace X (Fin 100) (Fin 2000) 1000;
        mk_spectrum (InVals (VA v)) "wavelength" "nm"
      else
        do v <- geomspace X r0 r1 1000;
        let v := if xlt (hd NaN v) r0 then set_first r0 v else v in
        let v := if xgt (last v NaN) r1 then set_last r1 v else v in
        mk_spectrum (InVals (VA v)) (m_stype m) (m_unit m)
  | _ => Raise IndexError
  end.

(** ** changes *)
(** material.py:258-267 remove_absorption *)
Definition remove_absorption (m : material) : res material :=
  do z <- constant_default (ORe (Fin 0));
  Ok (mkMat (m_meta m) (m_name m) (m_real m) z (m_complex m) (m_stype m) (m_unit m)).

Definition is_constant (d : sdata) : bool := match d with DConst _ _ => true | _ => false end.
(** material.py:269-304 extrapolate: result, the material and the caller's spectrum afterwards *)
Definition extrapolate (m : material) (s : spectrum) (order : Z) : res unit * material * spectrum :=
  match m_complex m with
  | Some _ => (Raise NotImplementedError, m, s)
  | None =>
      let step (d : sdata) (s : spectrum) : res sdata * spectrum :=
        if is_constant d then (Ok d, s) else mk_extrapolation X d s order in
      match step (m_real m) s with
      | (Raise e, s1) => (Raise e, m, s1)
      | (Ok r, s1) =>
          let m1 := mkMat (m_meta m) (m_name m) r (m_imag m) None (m_stype m) (m_unit m) in
          match step (m_imag m) s1 with
          | (Raise e, s2) => (Raise e, m1, s2)
          | (Ok i, s2) => (Ok tt, mkMat (m_meta m) (m_name m) r i None (m_stype m) (m_unit m), s2)
          end
      end
  end.
End Material.
