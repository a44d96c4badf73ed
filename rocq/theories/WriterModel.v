(** Model of the class Writer of src/dispersion/io.py and of the methods of Material and of the
    spectral data classes that prepare the dictionaries to be written *)
From Verif Require Import PyBase PyStr XReal SpectrumModel SpectralModel TextModel MaterialModel FileModel ReaderModel.
Open Scope R_scope.
Open Scope string_scope.
Open Scope list_scope.

(** ** external functions *)
Record wenv := mkWenv {
  (* the text numpy's array2string shows for one element; the format (fixed or scientific) is
     chosen from all elements shown *)
  fmt_elem : list xr -> xr -> string;
  (* str() of metadata that is no text *)
  str_of : mval -> string;
  (* comparing grids of different length with ==: False (numpy < 1.25) or ValueError *)
  ragged_eq : res bool;
  (* the yaml emitter *)
  yaml_dump : dict ynode -> string
}.

Section Writer.
Variable W : wenv.

(** ** np.array2string(a) with the default options: 75 columns, at most 1000 elements *)
(** numpy's _extendLine: text so far (in lines), current line *)
Definition slen := String.length.
Definition extend_line (s line word prefix : string) (width : nat) : string * string :=
  if (slen line + slen word <=? width)%nat || (slen line <=? slen prefix)%nat then (s, (line ++ word)%string)
  else ((s ++ rstrip line ++ NL)%string, (prefix ++ word)%string).
(** the elements of the innermost axis, separated by blanks: numpy's _formatArray, last axis.
    [hang] is the indentation *)
Fixpoint fold_elems (words : list string) (s line hang : string) (width : nat) : string * string :=
  match words with
  | [] => (s, line)
  | [w] => extend_line s line w hang width
  | w :: r => let (s', line') := extend_line s line w hang width in
              fold_elems r s' (line' ++ " ")%string hang width
  end.
Fixpoint blanks (n : nat) : string := match n with O => "" | S k => String " " (blanks k) end.
(** one row: [axes] is the number of axes of the whole array; the closing brackets need one
    column per axis; the indentation of the first line is removed *)
Definition show_row (axes : nat) (words : list string) : string :=
  let hang := blanks axes in
  let (s, line) := fold_elems words "" hang hang (75 - axes) in
  ("[" ++ substring axes (slen (s ++ line) - axes) (s ++ line) ++ "]")%string.
(** first and last three, with dots between *)
Definition edge {A} (l : list A) : list A := firstn 3 l ++ skipn (length l - 3) l.
Definition summarised (size : nat) : bool := (1000 <? size)%nat.
(** the words of a row: [sum]: dots replace the elements between the first and last three *)
Definition row_words (sum : bool) (all : list xr) (r : list xr) : list string :=
  if sum && (6 <? length r)%nat
  then map (fmt_elem W all) (firstn 3 r) ++ ["..."] ++ map (fmt_elem W all) (skipn (length r - 3) r)
  else map (fmt_elem W all) r.
(** the elements shown *)
Definition shown_row (sum : bool) (r : list xr) : list xr :=
  if sum && (6 <? length r)%nat then edge r else r.
Definition array2string (a : nd) : string :=
  match a with
  | ND1 [] => "[]"
  | ND1 l => let sum := summarised (length l) in show_row 1 (row_words sum (shown_row sum l) l)
  | ND2 _ [] => "[]"
  | ND2 n rows =>
      let sum := summarised (n * length rows) in
      let cut := sum && (6 <? length rows)%nat in
      let all := concat (map (shown_row sum) (if cut then edge rows else rows)) in
      let show r := show_row 2 (row_words sum all r) in
      let lines := if cut then map show (firstn 3 rows) ++ ["..."] ++ map show (skipn (length rows - 3) rows)
                   else map show rows in
      ("[" ++ join (NL ++ " ") lines ++ "]")%string
  end.

(** io.py:61-69 _numeric_to_string_table *)
Definition is_bracket (c : ascii) : bool := Ascii.eqb c "[" || Ascii.eqb c "]".
Definition numeric_to_string_table (a : nd) : string :=
  lstrip (rstrip (unindent (remove_chars is_bracket (array2string a)))).

(** ** dict_repr of the spectral data *)
Definition vals_nd (v : vals) : nd := ND1 (elems v).
Definition pairs_nd (rows : list (xr * xr)) : nd := ND2 2 (map (fun r => [fst r; snd r]) rows).
Definition model_name (k : mkind) : string :=
  match k with
  | Sellmeier => "Sellmeier" | Sellmeier2 => "Sellmeier2" | Polynomial => "Polynomial"
  | RefractiveIndexInfo => "RefractiveIndexInfo" | Cauchy => "Cauchy" | Gases => "Gases"
  | Herzberger => "Herzberger" | Retro => "Retro" | Exotic => "Exotic" | Drude => "Drude"
  | DrudeLorentz => "DrudeLorentz" | TaucLorentz => "TaucLorentz" | Fano => "Fano"
  end.
(** spectral_data.py:103-113 Constant, 225-235 Interpolation, 265-276 Model; Extrapolation has no
    such method. Simplification: the float under Value is opaque. *)
Definition dict_repr (d : sdata) : res (dict dval) :=
  let range := DStr (numeric_to_string_table (vals_nd (sp_values (valid_range d)))) in
  match d with
  | DConst b _ => Ok [("DataType", DStr "constant"); ("ValidRange", range); ("SpectrumType", DStr (d_type b));
                      ("Unit", DStr (d_unit b)); ("Value", DOther true)]
  | DInterp b rows => Ok [("DataType", DStr "tabulated"); ("ValidRange", range); ("SpectrumType", DStr (d_type b));
                          ("Unit", DStr (d_unit b)); ("Data", DStr (numeric_to_string_table (pairs_nd rows)))]
  | DModel b k params =>
      Ok [("DataType", DStr ("model " ++ model_name k)%string); ("ValidRange", range); ("SpectrumType", DStr (d_type b));
          ("Unit", DStr (d_unit b)); ("Yields", match output k with Some o => DStr o | None => DOther false end);
          ("Parameters", DStr (numeric_to_string_table (ND1 params)))]
  | DExtrap _ _ _ => Raise AttributeError
  end.

(** ** preparing the dictionary: material.py:807-907 *)
(** material.py:820-837 add_dtype_suffix, for the parts that occur *)
Definition add_dtype_suffix (name dtype part : string) : res string :=
  if String.eqb name "nk" then
    Ok (dtype ++ (if String.eqb part "real" then " n" else if String.eqb part "imag" then " k"
                  else if String.eqb part "complex" then " nk" else ""))%string
  else if String.eqb name "eps" then
    Ok (dtype ++ (if String.eqb part "real" then " eps_r" else if String.eqb part "imag" then " eps_k"
                  else if String.eqb part "complex" then " eps" else ""))%string
  else Raise ValueError.

(** material.py:863-869 one part *)
Definition part_dict (name part : string) (d : sdata) : res (dict dval) :=
  do dd <- dict_repr d;
  match d with
  | DConst _ _ | DInterp _ _ =>
      do t <- dlookup dd "DataType";
      match t with
      | DStr t => do t' <- add_dtype_suffix name t part; Ok (dset dd "DataType" (DStr t'))
      | _ => Raise TypeError
      end
  | _ => Ok dd
  end.

Definition dstr_eqb (v : dval) (s : string) : bool := match v with DStr t => String.eqb t s | _ => false end.
(** v != w for the values that occur *)
Definition dval_neq (v w : dval) : bool := match v, w with DStr s, DStr t => negb (String.eqb s t) | _, _ => true end.
Definition first_column (t : nd) : res (list xr) :=
  match t with ND2 (S _) rows => Ok (map (col 0) rows) | _ => Raise IndexError end.
(** np.all(a == b) *)
Definition grid_eq (a b : list xr) : res bool :=
  if Nat.eqb (length a) (length b) then Ok (forallb (fun p => xeqb (fst p) (snd p)) (combine a b))
  else ragged_eq W.
(** material.py:875-882 the tables found, and their number *)
Fixpoint find_tables (l : list (dict dval)) (n k : option nd) (c : nat) : res (option nd * option nd * nat) :=
  match l with
  | [] => Ok (n, k, c)
  | d :: r =>
      do t <- dlookup d "DataType";
      do nc <- (if dstr_eqb t "tabulated n"
                then do v <- dlookup d "Data"; do a <- str_table_to_numeric (dval_tab v); Ok (Some a, S c)
                else Ok (n, c));
      do kc <- (if dstr_eqb t "tabulated k"
                then do v <- dlookup d "Data"; do a <- str_table_to_numeric (dval_tab v); Ok (Some a, S (snd nc))
                else Ok (k, snd nc));
      find_tables r (fst nc) (fst kc) (snd kc)
  end.
(** k_data[:, 1].reshape(-1, 1) and np.concatenate(..., axis=1) *)
Definition append_col (n k : nd) : res nd :=
  match n, k with
  | ND2 a rows, ND2 b krows =>
      if (b <? 2)%nat then Raise IndexError
      else if Nat.eqb (length rows) (length krows)
           then Ok (ND2 (S a) (zip_with (fun r q => r ++ [col 1 q]) rows krows)) else Raise ValueError
  | _, _ => Raise IndexError
  end.
(** material.py:874-907 collapse_datasets *)
Definition collapse_datasets (l : list (dict dval)) : res (list (dict dval)) :=
  do f <- find_tables l None None 0;
  match f with
  | (n, k, c) =>
      if (c <? 2)%nat then Ok l
      else match n, k, l with
      | Some n, Some k, d0 :: d1 :: _ =>
          do gn <- first_column n; do gk <- first_column k;
          do same <- grid_eq gn gk;
          do u0 <- dlookup d0 "Unit"; do u1 <- dlookup d1 "Unit";
          do t0 <- dlookup d0 "SpectrumType"; do t1 <- dlookup d1 "SpectrumType";
          if negb same || dval_neq u0 u1 || dval_neq t0 t1 then Ok l
          else do t <- append_col n k;
               Ok [[("Unit", u0); ("SpectrumType", t0); ("DataType", DStr "tabulated nk");
                    ("Data", DStr (numeric_to_string_table t))]]
      | _, _, _ => Raise UnboundLocalError
      end
  end.
(** material.py:840-872 dataset_to_dict: with complex data the code iterates the letters of
    'complex' and looks up data['c'] *)
Definition dataset_to_dict (m : material) : res (list (dict dval)) :=
  match m_complex m with
  | Some _ => Raise KeyError
  | None =>
      do a <- part_dict (m_name m) "real" (m_real m);
      do b <- part_dict (m_name m) "imag" (m_imag m);
      collapse_datasets [a; b]
  end.
(** material.py:807-818 prepare_file_dict; effective media have no meta_data *)
Definition prepare_file_dict (m : material) : res (dict mval * list (dict dval)) :=
  match m_meta m with
  | None => Raise AttributeError
  | Some meta =>
      do sets <- dataset_to_dict m;
      Ok (filter (fun kv => negb (String.eqb (fst kv) "Alias")) meta, sets)
  end.

(** ** the Writer *)
Record writer := mkWriter { w_path : string; w_ext : string; w_meta : dict mval; w_sets : list (dict dval) }.
(** io.py:587-594 __init__ *)
Definition mk_writer (path : string) (m : material) : res writer :=
  do fd <- prepare_file_dict m; Ok (mkWriter path (splitext path) (fst fd) (snd fd)).

(** io.py:559-565, 581-582 *)
Definition KEY_ALIASES : dict string :=
  [("Reference", "REFERENCES"); ("Author", "AUTHOR"); ("FullName", "FULLNAME"); ("Name", "NAME");
   ("Comment", "COMMENTS"); ("Specification", "SPECS"); ("Datasets", "DATA")].
Definition DATA_META_DATA_KEYS : list string := ["Reference"; "Author"; "FullName"; "Name"; "Comment"].
(** "{}".format(v) *)
Definition format_val (v : mval) : string := match v with MStr s => s | _ => str_of W v end.
(** io.py:626-631 the metadata part of the header *)
Definition meta_header (meta : dict mval) : string :=
  fold_right append "" (map (fun key =>
    match dget meta key, dget KEY_ALIASES key with
    | Some v, Some alias => (alias ++ ": " ++ format_val v ++ NL)%string
    | _, _ => ""
    end) DATA_META_DATA_KEYS).
(** io.py:53-59 multi_key; at most one of the two keys occurs in the dictionaries built above *)
Definition format_dval (v : dval) : res string := match v with DStr s => Ok s | _ => Raise GenericException end.

(** io.py:622-662 _write_text_file: the text written *)
Definition write_text_file (w : writer) : res string :=
  match w_sets w with
  | [] => Raise ValueError
  | d :: _ =>
      do st <- lookup2 d "spectrum_type" "SpectrumType"; do st <- format_dval st;
      do un <- lookup2 d "unit" "Unit"; do un <- format_dval un;
      do dt <- lookup2 d "type" "DataType"; do dt <- format_dval dt;
      let header := (meta_header (w_meta w) ++ "SPECTRUMTYPE: " ++ st ++ NL ++ "UNIT: " ++ un ++ NL ++
                     "DATATYPE: " ++ dt ++ NL)%string in
      let delim := if String.eqb (w_ext w) ".txt" then Some TAB
                   else if String.eqb (w_ext w) ".csv" then Some "," else None in
      do v <- lookup2 d "data" "Data";
      do t <- str_table_to_numeric (dval_tab v);
      match delim with
      | None => Raise UnboundLocalError
      | Some delim => Ok (savetxt delim header t)
      end
  end.

(** io.py:678-683 the constant data sets are removed by position, one after the other *)
Definition is_constant (d : dict dval) : res bool :=
  do t <- dlookup d "DataType";
  match t with DStr s => Ok (contains_str "constant" s) | _ => Raise TypeError end.
Fixpoint constant_ids (i : nat) (l : list (dict dval)) : res (list nat) :=
  match l with
  | [] => Ok []
  | d :: r => do c <- is_constant d; do ids <- constant_ids (S i) r; Ok (if c then i :: ids else ids)
  end.
Definition pop_at {A} (i : nat) (l : list A) : res (list A) :=
  if (i <? length l)%nat then Ok (firstn i l ++ skipn (S i) l) else Raise IndexError.
Fixpoint pop_all {A} (ids : list nat) (l : list A) : res (list A) :=
  match ids with [] => Ok l | i :: r => do l' <- pop_at i l; pop_all r l' end.

(** io.py:691-697 metadata under its alias; other keys get the value of the key before them *)
Fixpoint alias_meta (meta : dict mval) (last : option mval) : res (dict mval) :=
  match meta with
  | [] => Ok []
  | (k, v) :: r =>
      match dget KEY_ALIASES k with
      | Some a => do rest <- alias_meta r (Some v); Ok ((a, v) :: rest)
      | None => match last with
                | Some v' => do rest <- alias_meta r last; Ok ((k, v') :: rest)
                | None => Raise UnboundLocalError
                end
      end
  end.

(** io.py:567-579, 702-718 *)
Definition RII_ALIASES : dict string :=
  [("ValidRange", "wavelength_range"); ("DataType", "type"); ("Parameters", "coefficients"); ("Data", "data");
   ("Model:Sellmeier", "formula 1"); ("Model:Sellmeier2", "formula 2"); ("Model:Polynomial", "formula 3");
   ("Model:RefractiveIndexInfo", "formula 4"); ("Model:Cauchy", "formula 5"); ("Model:Gases", "formula 6");
   ("Model:Herzberger", "formula 7"); ("Model:Retro", "formula 8"); ("Model:Exotic", "formula 9")].
Definition rii_value (v : dval) : dval :=
  match v with DStr s => match dget RII_ALIASES s with Some t => DStr t | None => v end | _ => v end.
Definition rii_dataset (d : dict dval) : dict dval :=
  fold_left (fun acc kv => if smem (fst kv) ["SpectrumType"; "Unit"; "Yields"] then acc
                           else dset acc (match dget RII_ALIASES (fst kv) with Some a => a | None => fst kv end)
                                     (rii_value (snd kv))) d [].

(** io.py:719-738 the specification: known keys only, in fixed order *)
Definition spec_order : list string :=
  ["n_absolute"; "wavelength_vacuum"; "film_thickness"; "substrate"; "temperature"; "pressure";
   "deposition_temperature"; "direction"].
Definition filter_specs (specs : dict string) : dict string :=
  fold_left (fun acc k => match dget specs k with Some v => dset acc k v | None => acc end) spec_order [].
Definition write_specs (specs : mval) : res (option mval) :=
  match specs with
  | MStr "" | MMap [] => Ok None
  | MMap d => Ok (Some (MMap (filter_specs d)))
  | MStr _ => Raise AttributeError
  | MOther _ => Raise TypeError
  end.

(** io.py:665-740 _write_yaml_file: the mapping handed to the yaml emitter *)
Definition yaml_doc (w : writer) (ignore_constant use_rii_aliases : bool) : res (dict ynode) :=
  do ids <- constant_ids 0 (w_sets w);
  do sets <- pop_all (if ignore_constant then ids else []) (w_sets w);
  do top <- alias_meta (w_meta w) None;
  let d := dset (fold_left (fun d kv => dset d (fst kv) (NVal (snd kv))) top []) "DATA"
                (NSeq (if use_rii_aliases then map rii_dataset sets else sets)) in
  do specs <- dlookup d "SPECS";
  do s <- write_specs (node_val specs);
  let d := ddel d "SPECS" in
  Ok (match s with Some s => dset d "SPECS" (NVal s) | None => d end).

(** io.py:597-619 write_file: result, effects on the file system, the object afterwards (the
    MetaComment is removed before anything else) *)
Definition write_file (w : writer) (fs : dict string) (ignore_constant use_rii_aliases : bool) :
  res unit * list fsop * writer :=
  match dget (w_meta w) "MetaComment" with
  | None => (Raise KeyError, [], w)
  | Some comment =>
      let w := mkWriter (w_path w) (w_ext w) (ddel (w_meta w) "MetaComment") (w_sets w) in
      let body := if smem (w_ext w) txt_types then do t <- write_text_file w; Ok (t, false)
                  else if String.eqb (w_ext w) ".yml"
                       then do d <- yaml_doc w ignore_constant use_rii_aliases; Ok (yaml_dump W d, true)
                       else Raise ValueError in
      match body with
      | Raise e => (Raise e, [], w)
      | Ok (text, extra) =>
          let ops := [OTrunc (w_path w); OAppend (w_path w) text] in
          match comment with
          | MStr "" => (Ok tt, ops, w)
          | MStr c =>
              match prepend_text_to_file (w_path w) c extra (fs_run fs ops) with
              | Ok more => (Ok tt, ops ++ more, w)
              | Raise e => (Raise e, ops, w)
              end
          | _ => (Raise AttributeError, ops ++ [OTrunc (w_path w)], w)
          end
      end
  end.

(** Writer(path, material).write_file(...) in a file system *)
Definition save_material (path : string) (m : material) (fs : dict string) (ignore_constant use_rii_aliases : bool) :
  res unit * list fsop :=
  match mk_writer path m with
  | Raise e => (Raise e, [])
  | Ok w => match write_file w fs ignore_constant use_rii_aliases with (r, ops, _) => (r, ops) end
  end.
End Writer.
