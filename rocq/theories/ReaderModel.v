(** Model of the class Reader of src/dispersion/io.py *)
From Verif Require Import PyBase PyStr XReal SpectrumModel SpectralModel TextModel MaterialModel FileModel.
Open Scope string_scope.
Open Scope list_scope.

(** ** what the yaml library returns for a file (the parser itself is external).
    Simplification: sequences occur only below DATA; a sequence elsewhere is an opaque value. *)
Inductive ynode := NVal (v : mval) | NSeq (l : list (dict dval)).
Inductive ydoc := YNone | YDict (d : dict ynode).    (* an empty file gives None *)
Definition node_val (n : ynode) : mval := match n with NVal v => v | NSeq _ => MOther 0 end.

(** io.py:272-277 the keyword sets. Their iteration order differs from process to process: the
    model takes the order as an argument. *)
Definition FILE_META_DATA_KEYS : list string :=
  ["Comment"; "Reference"; "Author"; "Name"; "FullName"; "MetaComment"].
Definition DATASET_META_DATA_KEYS : list string :=
  ["ValidRange"; "DataType"; "SpectrumType"; "Unit"; "Yields"].

(** a data set under construction: key -> value, all six keys present *)
Definition fset_set (d : fset) (k : string) (v : dval) : fset :=
  if String.eqb k "ValidRange" then mkFset (ds_type d) v (ds_stype d) (ds_unit d) (ds_yields d) (ds_data d)
  else if String.eqb k "DataType" then mkFset v (ds_range d) (ds_stype d) (ds_unit d) (ds_yields d) (ds_data d)
  else if String.eqb k "SpectrumType" then mkFset (ds_type d) (ds_range d) v (ds_unit d) (ds_yields d) (ds_data d)
  else if String.eqb k "Unit" then mkFset (ds_type d) (ds_range d) (ds_stype d) v (ds_yields d) (ds_data d)
  else if String.eqb k "Yields" then mkFset (ds_type d) (ds_range d) (ds_stype d) (ds_unit d) v (ds_data d)
  else if String.eqb k "Data" then mkFset (ds_type d) (ds_range d) (ds_stype d) (ds_unit d) (ds_yields d) v
  else d.

(** io.py:296-303 _create_default_data_dict. [DOther false] stands for the empty list. *)
Definition default_data_dict : fset := mkFset (DStr "") (DStr "") (DStr "") (DStr "") (DStr "") (DOther false).

Section Reader.
(** iteration orders of the two keyword sets *)
Variables fkeys dkeys : list string.
(** the yaml parser *)
Variable yaml_load : string -> res ydoc.

(** the object: extension and default_file_dict, whose two parts are shared with every dictionary
    returned by read_file (dict(...) copies one level only) *)
Record reader := mkReader { rd_ext : string; rd_meta : dict mval; rd_sets : list fset }.

(** io.py:279-294 __init__, _create_default_file_dict *)
Definition mk_reader (file_path : string) : reader :=
  mkReader (splitext file_path)
    (dset (fold_left (fun d k => dset d k (MStr "")) fkeys []) "Specification" (MMap []))
    [default_data_dict].

(** io.py:323-351 _read_text_data *)
Definition read_text_data (ext text : string) : res fset :=
  do a <- (if String.eqb ext ".txt" then loadtxt "#" None text
           else if String.eqb ext ".csv" then loadtxt "#" (Some ","%char) text
           else if String.eqb ext ".nk" then loadtxt ";" None text
           else Raise UnboundLocalError);
  Ok (fset_set default_data_dict "Data" (DArr a)).

(** io.py:353-364 _read_text_comment *)
Fixpoint comment_lines (l : list string) : list string :=
  match l with
  | String c line :: r =>
      if Ascii.eqb c "#" || Ascii.eqb c ";" then rstrip_nlcr line :: comment_lines r else []
  | _ => []
  end.
Definition read_text_comment (text : string) : list string := comment_lines (splitlines text).

(** the first key whose upper case form starts the keyword *)
Definition match_key (keys : list string) (kwd : string) : option string :=
  find (fun key => startswith (upper key) kwd) keys.

(** io.py:380-408 one header line: metadata, first data set, multi line comment *)
Definition header_line (st : dict mval * fset * string) (line : string) : dict mval * fset * string :=
  match st with (meta, d, multi) =>
  match split_on ":" line with
  | kwd0 :: ((_ :: _) as rest) =>
      let kwd := lstrip (upper kwd0) in
      let arg := lstrip (rstrip_nlcr (join ":" rest)) in
      match match_key fkeys kwd with
      | Some key => (dset meta key (MStr arg), d, multi)
      | None => match match_key dkeys kwd with
                | Some key => (meta, fset_set d key (DStr arg), multi)
                | None => (meta, d, (multi ++ line ++ NL)%string)
                end
      end
  | _ => (meta, d, (multi ++ line ++ NL)%string)
  end end.

(** io.py:366-419 _read_text_file: the result and the object afterwards *)
Definition read_text_file (r : reader) (text : string) : res fdict * reader :=
  match read_text_data (rd_ext r) text with
  | Raise e => (Raise e, r)
  | Ok d =>
      match fold_left header_line (read_text_comment text) (rd_meta r, d, ""%string) with
      | (meta, d, multi) =>
          let meta := if String.eqb multi "" then meta else dset meta "MetaComment" (MStr multi) in
          let finish d := let r' := mkReader (rd_ext r) meta [d] in (Ok (mkFdict meta [d]), r') in
          match ds_type d, ds_data d with
          | DStr "", DArr (ND2 3 _) => finish (fset_set d "DataType" (DStr "tabulated nk"))
          | DStr "", DArr (ND2 2 _) => finish (fset_set d "DataType" (DStr "tabulated n"))
          | DStr "", DArr (ND1 _) => (Raise IndexError, mkReader (rd_ext r) meta [d])
          | _, _ => finish d
          end
      end
  end.

(** ** yaml files *)
(** io.py:486-488, 519-524 the names a key of a data set may have; the value of DataType is a string,
    which the code iterates letter by letter *)
Definition key_names (key : string) : list string :=
  if String.eqb key "ValidRange" then ["validRange"; "range"; "spectra_range"; "wavelength_range"]
  else if String.eqb key "DataType" then ["t"; "y"; "p"; "e"]
  else [key].
Definition dataset_key (kwd : string) : option string :=
  find (fun key => existsb (fun alias => String.eqb (upper kwd) (upper alias)) (key_names key)) dkeys.

(** v.lstrip() *)
Definition dval_lstrip (v : dval) : res string :=
  match v with DStr s => Ok (lstrip s) | _ => Raise AttributeError end.
(** d[a], or d[b] if there is no a *)
Definition lookup2 {V} (d : dict V) (a b : string) : res V :=
  match dget d a with Some v => Ok v | None => dlookup d b end.

(** io.py:490-529 one data set *)
Definition process_mat_data (dataset : dict dval) : res fset :=
  do t <- lookup2 dataset "type" "DataType";
  do data_type <- dval_lstrip t;
  do data <- (if startswith "formula" data_type || startswith "model" data_type
              then lookup2 dataset "coefficients" "Parameters"
              else if startswith "tabulated" data_type then lookup2 dataset "data" "Data"
              else Raise KeyError);
  Ok (fold_left (fun d kv => match dataset_key (fst kv) with Some key => fset_set d key (snd kv) | None => d end)
       dataset (fset_set (fset_set default_data_dict "DataType" (DStr data_type)) "Data" data)).
(** io.py:472-531 _process_mat_data_dict. Iterating a text or a mapping yields texts, which
    cannot be indexed by a text *)
Definition process_mat_data_dict (arg : ynode) : res (list fset) :=
  match arg with
  | NSeq l => map_res process_mat_data l
  | NVal (MStr "") | NVal (MMap []) => Ok []
  | NVal _ => Raise TypeError
  end.

(** io.py:436-470 _process_mat_dict: metadata (also after a failure) and data sets *)
Fixpoint process_mat_dict (keys : list string) (doc : dict ynode) (meta : dict mval) (sets : list fset) :
  res (list fset) * dict mval :=
  match keys with
  | [] => (Ok sets, meta)
  | k :: r =>
      let kwd := upper k in
      match dget doc kwd with
      | None => (Raise KeyError, meta)
      | Some arg =>
          if String.eqb kwd "DATA" then
            match process_mat_data_dict arg with
            | Raise e => (Raise e, meta)
            | Ok l => process_mat_dict r doc meta l
            end
          else if String.eqb kwd "SPECS" then
            process_mat_dict r doc (dset meta "Specification" (node_val arg)) sets
          else match match_key fkeys kwd with
               | Some key => process_mat_dict r doc (dset meta key (node_val arg)) sets
               | None => process_mat_dict r doc meta sets
               end
      end
  end.

(** io.py:421-434 _read_yaml_mat_file. Without a DATA entry the data sets are those of the object *)
Definition read_yaml_mat_file (r : reader) (text : string) : res fdict * reader :=
  match yaml_load text with
  | Raise e => (Raise e, r)
  | Ok YNone => (Raise TypeError, r)
  | Ok (YDict doc) =>
      match process_mat_dict (map fst doc) doc (rd_meta r) (rd_sets r) with
      | (Raise e, meta) => (Raise e, mkReader (rd_ext r) meta (rd_sets r))
      | (Ok sets, meta) =>
          let meta := dset meta "MetaComment" (MStr (drop_last (join NL (read_text_comment text)))) in
          (Ok (mkFdict meta sets), mkReader (rd_ext r) meta (rd_sets r))
      end
  end.

Definition txt_types : list string := [".txt"; ".csv"; ".nk"].

(** io.py:305-321 read_file, given the content of the file *)
Definition read_file (r : reader) (text : string) : res fdict * reader :=
  if smem (rd_ext r) txt_types then read_text_file r text
  else if String.eqb (rd_ext r) ".yml" then read_yaml_mat_file r text
  else (Raise ValueError, r).

(** Reader(path).read_file() in a file system *)
Definition read_path (fs : dict string) (path : string) : res fdict :=
  let r := mk_reader path in
  if smem (rd_ext r) txt_types || String.eqb (rd_ext r) ".yml" then
    do text <- fs_read fs path; fst (read_file r text)
  else Raise ValueError.
End Reader.
