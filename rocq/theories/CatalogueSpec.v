(** Specification vocabulary for the catalogue (C52-C58, C70). *)
From Verif Require Import PyBase PyStr XReal CNum SpectrumModel SpectralModel MaterialModel MaterialSpec IOSpec PathModel ConfigModel CatalogueModel.
Open Scope string_scope.
Open Scope list_scope.

(** ** rows *)
(** position [p] of the catalogue holds row [r] *)
Definition row_at (f : frame) (p : nat) (r : row) : Prop := exists l, nth_error f p = Some (l, r).
(** no two positions carry the same non-empty alias *)
Definition aliases_distinct (f : frame) : Prop :=
  forall p q r r' a, a <> "" -> row_at f p r -> row_at f q r' ->
    r_alias r = KStr a -> r_alias r' = KStr a -> p = q.
(** the index labels are pairwise different *)
Definition labels_distinct (f : frame) : Prop := NoDup (map fst f).
(** the default numbering: position = label *)
Definition default_numbering (f : frame) : Prop :=
  forall p, (p < length f)%nat -> exists r, nth_error f p = Some (Z.of_nat p, r).
(** some row carries the alias *)
Definition alias_used (f : frame) (a : string) : Prop := exists l r, In (l, r) f /\ r_alias r = KStr a.

(** [r'] is [r] except for the alias, which is [a] *)
Definition only_alias (a : string) (r r' : row) : Prop :=
  r_alias r' = KStr a /\ r_name r' = r_name r /\ r_full r' = r_full r /\ r_author r' = r_author r /\
  r_comment r' = r_comment r /\ r_ref r' = r_ref r /\ r_stype r' = r_stype r /\ r_unit r' = r_unit r /\
  r_lo r' = r_lo r /\ r_hi r' = r_hi r /\ r_n r' = r_n r /\ r_k r' = r_k r /\
  r_path r' = r_path r /\ r_module r' = r_module r.
(** the rows with a chosen label got the alias, the others are untouched *)
Definition alias_set (chosen : Z -> Prop) (a : string) (f f' : frame) : Prop :=
  Forall2 (fun x y => fst y = fst x /\ (chosen (fst x) -> only_alias a (snd x) (snd y)) /\
                      (~ chosen (fst x) -> snd y = snd x)) f f'.
(** a row with an alias and nothing else *)
Definition empty_row (a : string) (r : row) : Prop :=
  r_alias r = KStr a /\ r_name r = KNaN /\ r_full r = KNaN /\ r_author r = KNaN /\ r_comment r = KNaN /\
  r_ref r = KNaN /\ r_stype r = KNaN /\ r_unit r = KNaN /\ r_lo r = NaN /\ r_hi r = NaN /\ r_n r = NaN /\
  r_k r = NaN /\ r_path r = KNaN /\ r_module r = KNaN.

(** the catalogue after a sequence of register_alias(row number, alias) calls, those that raise
    included *)
Inductive registered : frame -> list (Z * string) -> frame -> Prop :=
| reg_nil f : registered f [] f
| reg_cons f i a res f1 rest f2 : register_alias f (RInt i) a = (res, f1) -> registered f1 rest f2 ->
    registered f ((i, a) :: rest) f2.

(** [r] is the first row with the alias *)
Definition first_with (f : frame) (a : string) (r : row) : Prop :=
  exists f1 l f2, f = f1 ++ (l, r) :: f2 /\ r_alias r = KStr a /\ forall l' r', In (l', r') f1 -> r_alias r' <> KStr a.

(** ** plain paths *)
Definition plain_name (c : string) : Prop :=
  c <> "" /\ c <> "." /\ c <> ".." /\ ~ In "/"%char (chars c).
(** /a/b/c and a/b/c *)
Definition abs_path (l : list string) : string := ("/" ++ join "/" l)%string.
Definition rel_path (l : list string) : string := join "/" l.
(** a relative path written with slashes, or with backslashes *)
Definition path_text (s : string) (comps : list string) : Prop :=
  comps <> [] /\ Forall plain_name comps /\ Forall (fun c => ~ In "\"%char (chars c)) comps /\
  (s = join "/" comps \/ s = join "\" comps).
(** a name with one of the supported extensions; before the extension there is something other
    than dots *)
Definition extension (name base : string) : Prop :=
  exists ext, name = (base ++ ext)%string /\ In ext [".txt"; ".csv"; ".yml"] /\
    exists a c b, base = (a ++ String c b)%string /\ c <> "."%char.
Definition supported (name : string) : Prop := exists base, extension name base.
(** the members of a list for which [P] holds, in order *)
Inductive picked (P : string -> Prop) : list string -> list string -> Prop :=
| pick_nil : picked P [] []
| pick_yes x l l' : P x -> picked P l l' -> picked P (x :: l) (x :: l')
| pick_no x l l' : ~ P x -> picked P l l' -> picked P (x :: l) l'.

(** the material read from a file with the given default type and unit *)
Definition loaded (rd : string -> res fdict) (path stype unit : string) : res material :=
  mk_material rd [("file_path", PStr path); ("spectrum_type", PStr stype); ("unit", PStr unit)].
(** the row stands for this file and these defaults, below the folder /base *)
Definition located (base : list string) (r : row) (path stype unit : string) : Prop :=
  exists m p comps, r_module r = KStr m /\ plain_name m /\ r_path r = KStr p /\ path_text p comps /\
    path = abs_path (base ++ m :: comps) /\ r_stype r = KStr stype /\ r_unit r = KStr unit.

(** ** rebuilding *)
(** the rows of one module, in order *)
Fixpoint module_rows (m : string) (l : list row) : list row :=
  match l with
  | [] => []
  | r :: t => match r_module r with
              | KStr s => if string_dec s m then r :: module_rows m t else module_rows m t
              | _ => module_rows m t
              end
  end.
(** which modules a rebuild argument selects: 'All' every one, a list its members, another
    string the names contained in it *)
Definition part_of (w s : string) : Prop := exists a b, s = (a ++ w ++ b)%string.
Inductive selects : rebuild -> string -> Prop :=
| sel_all m : selects (RStr "All") m
| sel_list l m : In m l -> selects (RList l) m
| sel_str s m : part_of m s -> selects (RStr s) m.

(** a configuration that asks for these values *)
Record configured (c : cfg) (base file : string) (mods : list (string * bool)) (ref : xr) (t u : string) : Prop := mkConfigured {
  cf_path : dget c "Path" = Some (CStr base);
  cf_file : dget c "File" = Some (CStr file);
  cf_mods : dget c "Modules" = Some (CMap (map (fun p => (fst p, CBool (snd p))) mods));
  cf_distinct : NoDup (map fst mods);
  cf_ref : exists d, dget c "ReferenceSpectrum" = Some (CMap d) /\ dget d "Value" = Some (CFloat ref) /\
                     dget d "SpectrumType" = Some (CStr t) /\ dget d "Unit" = Some (CStr u)
}.

(** ** what a row says about a material *)
Section Rows.
Variable X : scipy.
(** the reference spectrum *)
Variable ref : spectrum.

(** the text of a metadata entry *)
Definition meta_cell (m : material) (k : string) (c : cell) : Prop :=
  exists d v, m_meta m = Some d /\ dget d k = Some v /\
    ((exists s, v = MStr s /\ c = KStr s) \/ ((forall s, v <> MStr s) /\ c = KObj)).
(** real and imaginary part of the index at the reference spectrum, NaN if it cannot be evaluated *)
Definition reference_cells (m : material) (n k : xr) : Prop :=
  (exists o, get_nk_data X m (SObj ref) = Ok (OS o) /\ n = cx_re (onum_cx o) /\ k = cx_im (onum_cx o)) \/
  (get_nk_data X m (SObj ref) = Raise ValueError /\ n = NaN /\ k = NaN).
Definition bound_cells (m : material) (lo hi : xr) : Prop :=
  exists v rest, get_maximum_valid_range m = Ok v /\ elems v = lo :: hi :: rest.

(** ** the refractiveindex.info library: shelves with books with pages; dividers *)
Inductive page := Page (author data : string) | PDivider.
Inductive book := Book (name full : string) (pages : list page) | BDivider.
Definition shelf := list book.

(** how the yaml library shows it; further keys are allowed; entries that are neither a book (page)
    nor a divider count as dividers *)
Inductive page_doc : lnode -> page -> Prop :=
| page_page d a f : dget d "DIVIDER" = None -> dget d "PAGE" = Some (LStr a) -> dget d "data" = Some (LStr f) ->
    page_doc (LMap d) (Page a f)
| page_other d : dget d "DIVIDER" = None -> dget d "PAGE" = None -> page_doc (LMap d) PDivider
| page_div d v : dget d "DIVIDER" = Some v -> page_doc (LMap d) PDivider.
Inductive book_doc : lnode -> book -> Prop :=
| book_book d n f l pages : dget d "DIVIDER" = None -> dget d "BOOK" = Some (LStr n) -> dget d "name" = Some (LStr f) ->
    dget d "content" = Some (LSeq l) -> Forall2 page_doc l pages -> book_doc (LMap d) (Book n f pages)
| book_other d : dget d "DIVIDER" = None -> dget d "BOOK" = None -> book_doc (LMap d) BDivider
| book_div d v : dget d "DIVIDER" = Some v -> book_doc (LMap d) BDivider.
Inductive shelf_doc : lnode -> shelf -> Prop :=
| shelf_shelf d v l books : dget d "name" = Some v -> dget d "content" = Some (LSeq l) -> Forall2 book_doc l books ->
    shelf_doc (LMap d) books.
Inductive library_doc : lnode -> list shelf -> Prop :=
| library_library l shelves : Forall2 shelf_doc l shelves -> library_doc (LSeq l) shelves.

(** the pages in document order, each with the names of its book *)
Record entry := mkEntry { e_book : string; e_full : string; e_author : string; e_data : string }.
Definition book_entries (b : book) : list entry :=
  match b with
  | BDivider => []
  | Book n f pages => flat_map (fun p => match p with Page a d => [mkEntry n f a d] | PDivider => [] end) pages
  end.
Definition entries (lib : list shelf) : list entry := flat_map (flat_map book_entries) lib.

(** the row of a page *)
Definition page_row (folder : string) (e : entry) (m : material) (r : row) : Prop :=
  r_alias r = KStr "" /\ r_name r = KStr (e_book e) /\ r_full r = KStr (e_full e) /\ r_author r = KStr (e_author e) /\
  meta_cell m "Comment" (r_comment r) /\ meta_cell m "Reference" (r_ref r) /\
  r_stype r = KStr "wavelength" /\ r_unit r = KStr "micrometer" /\
  bound_cells m (r_lo r) (r_hi r) /\ reference_cells m (r_n r) (r_k r) /\
  r_module r = KStr "RefractiveIndexInfo" /\
  (forall comps, e_data e = rel_path comps -> comps <> [] -> Forall plain_name comps ->
     r_path r = KStr (rel_path ("database" :: folder :: comps))).
(** the row of a user file *)
Definition file_row (module filename : string) (m : material) (r : row) : Prop :=
  r_alias r = KStr "" /\ (exists base, extension filename base /\ r_name r = KStr base) /\
  meta_cell m "FullName" (r_full r) /\ meta_cell m "Author" (r_author r) /\
  meta_cell m "Comment" (r_comment r) /\ meta_cell m "Reference" (r_ref r) /\
  r_stype r = KStr "wavelength" /\ r_unit r = KStr "nanometer" /\
  bound_cells m (r_lo r) (r_hi r) /\ reference_cells m (r_n r) (r_k r) /\
  r_path r = KStr filename /\ r_module r = KStr module.

(** what can go wrong with an opened material: it has no range, or the index fails with something
    else than ValueError *)
Definition row_error (m : material) (e : exn) : Prop :=
  get_maximum_valid_range m = Raise e \/
  ((exists v, get_maximum_valid_range m = Ok v) /\ get_nk_data X m (SObj ref) = Raise e /\ e <> ValueError).

(** the data file of a page *)
Definition page_file (dir folder : string) (e : entry) : string :=
  path_join dir (path_join ("database/" ++ folder)%string (e_data e)).
(** the rows of a list of pages: one per page that opens, in order; the first other error aborts *)
Inductive listing (rd : string -> res fdict) (dir folder : string) : list entry -> res (list row) -> Prop :=
| lst_nil : listing rd dir folder [] (Ok [])
| lst_skip e rest r err :
    loaded rd (page_file dir folder e) "wavelength" "micrometer" = Raise err ->
    (err = OSError \/ err = FileNotFoundError) ->
    listing rd dir folder rest r -> listing rd dir folder (e :: rest) r
| lst_row e rest m w l :
    loaded rd (page_file dir folder e) "wavelength" "micrometer" = Ok m ->
    page_row folder e m w ->
    listing rd dir folder rest (Ok l) -> listing rd dir folder (e :: rest) (Ok (w :: l))
| lst_later e rest m w err :
    loaded rd (page_file dir folder e) "wavelength" "micrometer" = Ok m ->
    page_row folder e m w ->
    listing rd dir folder rest (Raise err) -> listing rd dir folder (e :: rest) (Raise err)
| lst_bad_file e rest err :
    loaded rd (page_file dir folder e) "wavelength" "micrometer" = Raise err ->
    err <> OSError -> err <> FileNotFoundError -> listing rd dir folder (e :: rest) (Raise err)
| lst_bad_row e rest m err :
    loaded rd (page_file dir folder e) "wavelength" "micrometer" = Ok m ->
    row_error m err -> listing rd dir folder (e :: rest) (Raise err).

(** the rows of a folder *)
Inductive folder_rows (rd : string -> res fdict) (dir module : string) : list string -> res (list row) -> Prop :=
| fld_nil : folder_rows rd dir module [] (Ok [])
| fld_row f rest m w l :
    loaded rd (path_join dir f) "wavelength" "nanometer" = Ok m -> file_row module f m w ->
    folder_rows rd dir module rest (Ok l) -> folder_rows rd dir module (f :: rest) (Ok (w :: l))
| fld_later f rest m w err :
    loaded rd (path_join dir f) "wavelength" "nanometer" = Ok m -> file_row module f m w ->
    folder_rows rd dir module rest (Raise err) -> folder_rows rd dir module (f :: rest) (Raise err)
| fld_bad_file f rest err :
    loaded rd (path_join dir f) "wavelength" "nanometer" = Raise err -> folder_rows rd dir module (f :: rest) (Raise err)
| fld_bad_row f rest m err :
    loaded rd (path_join dir f) "wavelength" "nanometer" = Ok m ->
    row_error m err -> folder_rows rd dir module (f :: rest) (Raise err).
End Rows.


(** the folder with the data files of refractiveindex.info *)
Definition data_folder (W : world) (dir folder : string) : Prop :=
  (isdir (w_checks W) (path_join (path_join dir "database") "data") = true /\ folder = "data") \/
  (isdir (w_checks W) (path_join (path_join dir "database") "data") = false /\
   isdir (w_checks W) (path_join (path_join dir "database") "data-nk") = true /\ folder = "data-nk").
(** the parsed library file: catalog-nk.yml, or library.yml if there is no such file *)
Definition library_file (W : world) (dir : string) (doc : lnode) : Prop :=
  let file n := path_join (path_join dir "database") n in
  w_yaml W (file "catalog-nk.yml") = Ok doc \/
  (w_yaml W (file "catalog-nk.yml") = Raise FileNotFoundError /\ w_yaml W (file "library.yml") = Ok doc).
