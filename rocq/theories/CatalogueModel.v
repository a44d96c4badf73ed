(** Model of src/dispersion/catalogue.py *)
From Verif Require Import PyBase PyStr XReal CNum SpectrumModel SpectralModel TextModel MaterialModel FileModel PathModel ConfigModel.
Open Scope string_scope.
Open Scope list_scope.

(** ** the data frame: rows with integer labels and the columns of META_DATA (catalogue.py:80-93).
    A text column holds strings, NaN in rows pandas has created itself, or another object taken
    from a yaml file. Simplification: labels are integers. *)
Inductive cell := KStr (s : string) | KNaN | KObj.
Record row := mkRow {
  r_alias : cell; r_name : cell; r_full : cell; r_author : cell; r_comment : cell; r_ref : cell;
  r_stype : cell; r_unit : cell;
  r_lo : xr; r_hi : xr; r_n : xr; r_k : xr;
  r_path : cell; r_module : cell }.
Definition frame := list (Z * row).
Definition rows_of (f : frame) : list row := map snd f.
(** consecutive labels from 0: what read_csv and ignore_index=True give *)
Fixpoint number_from (i : Z) (l : list row) : frame :=
  match l with [] => [] | r :: t => (i, r) :: number_from (i + 1) t end.
Definition numbered (l : list row) : frame := number_from 0 l.
(** catalogue.py:145-149, 152-156 df_new.append(dframe, ignore_index=True) *)
Definition df_append (a b : frame) : frame := numbered (rows_of a ++ rows_of b).
Definition set_alias (r : row) (a : cell) : row :=
  mkRow a (r_name r) (r_full r) (r_author r) (r_comment r) (r_ref r) (r_stype r) (r_unit r)
    (r_lo r) (r_hi r) (r_n r) (r_k r) (r_path r) (r_module r).
Definition cell_is (c : cell) (s : string) : bool := match c with KStr t => String.eqb t s | _ => false end.

(** ** trees read from the library file of refractiveindex.info *)
Inductive lnode :=
| LStr (s : string) | LSeq (l : list lnode) | LMap (d : list (string * lnode)) | LOther.
(** for x in node *)
Fixpoint char_nodes (s : string) : list lnode :=
  match s with EmptyString => [] | String c r => LStr (String c EmptyString) :: char_nodes r end.
Definition items (n : lnode) : res (list lnode) :=
  match n with
  | LSeq l => Ok l
  | LMap d => Ok (map (fun kv => LStr (fst kv)) d)
  | LStr s => Ok (char_nodes s)
  | LOther => Raise TypeError
  end.
(** node[key] *)
Definition node_item (n : lnode) (k : string) : res lnode :=
  match n with LMap d => dlookup d k | _ => Raise TypeError end.
(** key in node.keys() *)
Definition in_keys (n : lnode) (k : string) : res bool :=
  match n with LMap d => Ok (dhas d k) | _ => Raise AttributeError end.
(** key in node *)
Definition in_node (n : lnode) (k : string) : res bool :=
  match n with
  | LMap d => Ok (dhas d k)
  | LStr s => Ok (contains_str k s)
  | LSeq l => Ok (existsb (fun x => match x with LStr s => String.eqb s k | _ => false end) l)
  | LOther => Raise TypeError
  end.
Definition node_str (n : lnode) : res string := match n with LStr s => Ok s | _ => Raise TypeError end.
Definition node_cell (n : lnode) : cell := match n with LStr s => KStr s | _ => KObj end.

(** ** the outside world while the catalogue is being read *)
Record world := mkWorld {
  w_checks : checks;
  w_isfile : string -> bool;
  w_listdir : string -> res (list string);
  w_read : string -> res fdict;          (* Reader(path).read_file() *)
  w_yaml : string -> res lnode;          (* read_yaml_file *)
  w_csv : string -> res (list row);      (* pd.read_csv with the options of catalogue.py:109-114 *)
  w_qgrid : bool                         (* qgrid can be imported *)
}.

Inductive rebuild := RNone | RStr (s : string) | RList (l : list string).
Definition rebuild_is (r : rebuild) (s : string) : bool := match r with RStr t => String.eqb t s | _ => false end.
(** catalogue.py:139 module in rebuild: substring test for a string *)
Definition in_rebuild (m : string) (r : rebuild) : res bool :=
  match r with
  | RNone => Raise TypeError
  | RStr s => Ok (contains_str m s)
  | RList l => Ok (existsb (String.eqb m) l)
  end.

Section Catalogue.
Variable X : scipy.
Variable W : world.

(** catalogue.py:263-265, 346-348, 399-401 Material(file_path=..., spectrum_type=..., unit=...) *)
Definition file_material (path : string) (stype unit : pyval) : res material :=
  mk_material (w_read W) [("file_path", PStr path); ("spectrum_type", stype); ("unit", unit)].

(** catalogue.py:365-366, 406-410 mat.meta_data[key] *)
Definition meta_item (m : material) (k : string) : res cell :=
  match m_meta m with
  | Some d => do v <- dlookup d k; Ok (match v with MStr s => KStr s | _ => KObj end)
  | None => Raise AttributeError
  end.
(** catalogue.py:363-364, 414-415 valid_range[i] *)
Definition bound (v : vals) (i : nat) : res xr :=
  match v with
  | VS _ => Raise TypeError
  | _ => match nth_error (elems v) i with Some x => Ok x | None => Raise IndexError end
  end.
(** catalogue.py:367-374 and 417-423: the index at the reference spectrum, NaN on ValueError.
    The reference spectrum is a single value (validate_config), so the index is one. *)
Definition reference_index (m : material) (s : spectrum) : res (xr * xr) :=
  match get_nk_data X m (SObj s) with
  | Ok (OS o) => Ok (cx_re (onum_cx o), cx_im (onum_cx o))
  | Ok (OA _) => Raise RuntimeError
  | Raise ValueError => Ok (NaN, NaN)
  | Raise e => Raise e
  end.

(** catalogue.py:335-342 where the data files are *)
Definition file_prefix (db_path : string) : res string :=
  if isdir (w_checks W) (path_join (path_join db_path "database") "data") then Ok (path_join "database" "data")
  else if isdir (w_checks W) (path_join (path_join db_path "database") "data-nk") then Ok (path_join "database" "data-nk")
  else Raise ValueError.

(** catalogue.py:331-375 one entry of _iterate_pages *)
Definition read_page (ref : spectrum) (db_path : string) (book full : lnode) (page : lnode) : res (list row) :=
  do d <- in_node page "DIVIDER";
  if d then Ok []
  else do p <- in_node page "PAGE";
  if negb p then Ok []
  else
    do prefix <- file_prefix db_path;
    do data <- node_item page "data"; do data <- node_str data;
    let rel_path := path_join prefix data in
    let full_file := path_join db_path rel_path in
    match file_material full_file (PStr "wavelength") (PStr "micrometer") with
    | Raise e => if catches OSError e then Ok [] else Raise e
    | Ok mat =>
        do author <- node_item page "PAGE";
        do vr <- get_maximum_valid_range mat;
        do lo <- bound vr 0; do hi <- bound vr 1;
        do rf <- meta_item mat "Reference";
        do cm <- meta_item mat "Comment";
        do nk <- reference_index mat ref;
        Ok [mkRow (KStr "") (node_cell book) (node_cell full) (node_cell author) cm rf
              (KStr "wavelength") (KStr "micrometer") lo hi (fst nk) (snd nk)
              (KStr (normpath rel_path)) (KStr "RefractiveIndexInfo")]
    end.
Fixpoint seq_res {A B} (f : A -> res (list B)) (l : list A) : res (list B) :=
  match l with [] => Ok [] | x :: r => do a <- f x; do b <- seq_res f r; Ok (a ++ b) end.
(** catalogue.py:322-375 _iterate_pages *)
Definition iterate_pages (ref : spectrum) (db_path : string) (book full : lnode) (pages : lnode) : res (list row) :=
  do l <- items pages; seq_res (read_page ref db_path book full) l.
(** catalogue.py:307-319 _iterate_books *)
Definition read_book (ref : spectrum) (db_path : string) (book : lnode) : res (list row) :=
  do d <- in_keys book "DIVIDER";
  if d then Ok []
  else do b <- in_keys book "BOOK";
  if negb b then Ok []
  else do n <- node_item book "BOOK"; do f <- node_item book "name"; do pages <- node_item book "content";
       iterate_pages ref db_path n f pages.
Definition iterate_books (ref : spectrum) (db_path : string) (books : lnode) : res (list row) :=
  do l <- items books; seq_res (read_book ref db_path) l.
(** catalogue.py:296-304 _iterate_shelves *)
Definition read_shelf (ref : spectrum) (db_path : string) (shelf : lnode) : res (list row) :=
  do_ node_item shelf "name"; do books <- node_item shelf "content"; iterate_books ref db_path books.
Definition iterate_shelves (ref : spectrum) (db_path : string) (shelves : lnode) : res (list row) :=
  do l <- items shelves; seq_res (read_shelf ref db_path) l.
(** catalogue.py:278-294 read_ri_info_db *)
Definition read_ri_info_db (ref : spectrum) (db_path : string) : res (list row) :=
  do data <- (match w_yaml W (path_join (path_join db_path "database") "catalog-nk.yml") with
              | Raise FileNotFoundError => w_yaml W (path_join (path_join db_path "database") "library.yml")
              | r => r
              end);
  iterate_shelves ref db_path data.

(** catalogue.py:385-427 _read_text_db *)
Definition allowed_ext (e : string) : bool := String.eqb e ".txt" || String.eqb e ".csv" || String.eqb e ".yml".
Definition read_user_file (ref : spectrum) (db_path db_name : string) (filename : string) : res (list row) :=
  if negb (allowed_ext (splitext filename)) then Ok []
  else
    do mat <- file_material (path_join db_path filename) (PStr "wavelength") (PStr "nanometer");
    do full <- meta_item mat "FullName"; do author <- meta_item mat "Author";
    do cm <- meta_item mat "Comment"; do rf <- meta_item mat "Reference";
    do vr <- get_maximum_valid_range mat;
    do lo <- bound vr 0; do hi <- bound vr 1;
    do nk <- reference_index mat ref;
    Ok [mkRow (KStr "") (KStr (stem filename)) full author cm rf (KStr "wavelength") (KStr "nanometer")
          lo hi (fst nk) (snd nk) (KStr (normpath filename)) (KStr db_name)].
Definition read_text_db (ref : spectrum) (db_path db_name : string) : res (list row) :=
  do l <- w_listdir W db_path;
  seq_res (read_user_file ref db_path db_name) (filter (fun f => w_isfile W (path_join db_path f)) l).

(** catalogue.py:133-135 all_modules, 377-383 *)
Definition read_module (ref : spectrum) (dir : string) (m : string) : res (list row) :=
  if String.eqb m "RefractiveIndexInfo" then read_ri_info_db ref dir
  else if String.eqb m "Filmetrics" then read_text_db ref dir "Filmetrics"
  else if String.eqb m "UserData" then read_text_db ref dir "UserData"
  else Raise KeyError.

(** catalogue.py:137-163 the loop of build_catalogue *)
Definition of_module (m : string) (df : frame) : frame := filter (fun r => cell_is (r_module (snd r)) m) df.
Fixpoint build_loop (ref : spectrum) (base : string) (rb : rebuild) (df : frame) (mods : list (string * bool)) (acc : frame) : res frame :=
  match mods with
  | [] => Ok acc
  | (m, valid) :: rest =>
      if valid then
        do sel <- in_rebuild m rb;
        if sel || rebuild_is rb "All" then
          do rows <- read_module ref (path_join base m) m;
          build_loop ref base rb df rest (df_append acc (numbered rows))
        else build_loop ref base rb df rest (df_append acc (of_module m df))
      else if rebuild_is rb m then Raise ValueError
      else build_loop ref base rb df rest acc
  end.
(** catalogue.py:128-164 build_catalogue *)
Definition build_catalogue (ref : spectrum) (base : string) (mods : list (string * bool)) (df : frame) (rb : rebuild) : res frame :=
  build_loop ref base rb df mods [].

(** the object *)
Record catalogue := mkCat { c_base : string; c_file : string; c_interactive : bool; c_ref : spectrum; c_db : frame }.

(** catalogue.py:268-275 make_reference_spectrum. (A validated value is a float, type and unit are
    strings.) *)
Definition make_reference_spectrum (c : cfg) : res spectrum :=
  do r <- dlookup c "ReferenceSpectrum";
  do v <- map_item r "Value"; do v <- check_float v;
  do t <- map_item r "SpectrumType"; do t <- check_str t;
  do u <- map_item r "Unit"; do u <- check_str u;
  mk_spectrum (InVals (VS v)) t u.

(** catalogue.py:98-126 __init__ with a configuration; the accesses repeat checks that
    validate_config has made *)
Definition mk_catalogue (c : cfg) (rb : rebuild) : res catalogue :=
  do_ validate_config (w_checks W) c;
  do ref <- make_reference_spectrum c;
  do v <- dlookup c "Path"; do base <- check_str v;
  do v <- dlookup c "File"; do file <- check_str v;
  do df <- (if rebuild_is rb "All" then Ok []
            else do rows <- w_csv W (path_join base file); Ok (numbered rows));
  do m <- dlookup c "Modules";
  do mods <- (match m with
              | CMap d => map_res (fun kv => do b <- check_bool (snd kv); Ok (fst kv, b)) d
              | _ => Raise AttributeError
              end);
  do df <- (if rebuild_is rb "None" then Ok df else build_catalogue ref base mods df rb);
  do v <- dlookup c "Interactive"; do i <- check_bool v;
  if i && negb (w_qgrid W) then Raise GenericException
  else Ok (mkCat base file i ref df).

(** ** aliases *)
Definition has_label (f : frame) (i : Z) : bool := existsb (fun r => Z.eqb (fst r) i) f.
(** a row pandas adds when a value is assigned to a label that does not exist *)
Definition nan_row (alias : string) : row :=
  mkRow (KStr alias) KNaN KNaN KNaN KNaN KNaN KNaN KNaN NaN NaN NaN NaN KNaN KNaN.
(** catalogue.py:237 self.database.at[i, 'Alias'] == alias: KeyError for an unknown label; several rows with the
    label give an array, whose truth value is an error *)
Definition at_is (f : frame) (i : Z) (alias : string) : res bool :=
  match filter (fun r => Z.eqb (fst r) i) f with
  | [] => Raise KeyError
  | [r] => Ok (cell_is (r_alias (snd r)) alias)
  | _ => Raise ValueError
  end.
(** catalogue.py:242 self.database.at[i, 'Alias'] = alias *)
Definition at_set (f : frame) (i : Z) (alias : string) : frame :=
  if has_label f i then map (fun r => if Z.eqb (fst r) i then (fst r, set_alias (snd r) (KStr alias)) else r) f
  else f ++ [(i, nan_row alias)].

(** the argument row_id: an int, a DataFrame (of which only the labels are used), anything else *)
Inductive row_id := RInt (i : Z) | RFrame (labels : list Z) | ROther.
(** catalogue.py:217-242 register_alias. With a DataFrame, [index] is an Index object. pandas
    (1.x, the releases that still have DataFrame.append) cannot look an Index up with .at
    (TypeError), but assigns through .loc, to all its labels, all of which must exist. *)
Definition register_alias (f : frame) (id : row_id) (alias : string) : res unit * frame :=
  let used := existsb (fun r => cell_is (r_alias (snd r)) alias) f in
  match id with
  | ROther => (Raise ValueError, f)
  | RInt i =>
      if used then
        match at_is f i alias with
        | Raise e => (Raise e, f)
        | Ok false => (Raise ValueError, f)
        | Ok true => (Ok tt, at_set f i alias)
        end
      else (Ok tt, at_set f i alias)
  | RFrame labels =>
      if used then (Raise TypeError, f)
      else if forallb (has_label f) labels then
        (Ok tt, map (fun r => if existsb (Z.eqb (fst r)) labels then (fst r, set_alias (snd r) (KStr alias)) else r) f)
      else (Raise KeyError, f)
  end.

(** ** materials *)
(** catalogue.py:254, 257 self.database.iloc[i, :] *)
Definition iloc (f : frame) (i : Z) : res row :=
  let n := Z.of_nat (length f) in
  let j := if (i <? 0)%Z then (i + n)%Z else i in
  if (j <? 0)%Z then Raise IndexError
  else match nth_error f (Z.to_nat j) with Some r => Ok (snd r) | None => Raise IndexError end.
Inductive ident := IdStr (s : string) | IdInt (i : Z) | IdOther.
(** catalogue.py:246-259: the row. The label of the first match is used as a position. *)
Definition find_row (f : frame) (id : ident) : res row :=
  match id with
  | IdStr s => match filter (fun r => cell_is (r_alias (snd r)) s) f with
               | [] => Raise ValueError
               | r :: _ => iloc f (fst r)
               end
  | IdInt i => iloc f i
  | IdOther => Raise ValueError
  end.
(** a cell as an argument: NaN is a float *)
Definition cell_py (c : cell) : pyval := match c with KStr s => PStr s | KNaN => PFloat NaN | KObj => POther end.
(** catalogue.py:260-262 row.Path.replace('\\', '/') needs a string, os.path.join too *)
Definition row_file (base : string) (r : row) : res string :=
  do p <- (match r_path r with KStr s => Ok s | _ => Raise AttributeError end);
  do m <- (match r_module r with KStr s => Ok s | _ => Raise TypeError end);
  Ok (normpath (path_join (path_join base m) (replace_char "\" "/" p))).
(** catalogue.py:244-266 get_material *)
Definition get_material (c : catalogue) (id : ident) : res material :=
  do r <- find_row (c_db c) id;
  do p <- row_file (c_base c) r;
  file_material p (cell_py (r_stype r)) (cell_py (r_unit r)).
End Catalogue.
