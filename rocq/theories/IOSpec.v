(** Notions used in the statements of C37-C47 *)
From Verif Require Import PyBase PyStr XReal SpectrumModel SpectralModel TextModel TextSpec MaterialModel FileModel ReaderModel WriterModel.
From Coq Require Import Permutation.
Open Scope R_scope.
Open Scope string_scope.
Open Scope list_scope.

Definition chars (s : string) : list ascii := list_ascii_of_string s.

(** characters that end a line for str.splitlines: \n \v \f \r FS GS RS *)
Definition line_breaks : list ascii := map ascii_of_nat [10; 11; 12; 13; 28; 29; 30]%nat.
(** a text without line breaks *)
Definition one_line (s : string) : Prop := forall c, In c (chars s) -> ~ In c line_breaks.
(** ... that does not start with white space *)
Definition header_value (s : string) : Prop := one_line s /\ lstrip s = s.
(** a text of lines separated by \n only *)
Definition unix_text (s : string) : Prop := forall c, In c (chars s) -> c = nl \/ ~ In c line_breaks.

(** [kw] (upper case) starts the part of the line before the first colon, apart from leading
    white space and case *)
Definition keyword_line (kw line : string) : Prop :=
  exists k rest p s, line = (k ++ ":" ++ rest)%string /\ ~ In ":"%char (chars k) /\ upper k = (p ++ kw ++ s)%string /\ blank p.
Definition keywords : list string :=
  ["COMMENT"; "REFERENCE"; "AUTHOR"; "NAME"; "FULLNAME"; "METACOMMENT";
   "VALIDRANGE"; "DATATYPE"; "SPECTRUMTYPE"; "UNIT"; "YIELDS"].
(** a comment none of whose lines is mistaken for a keyword *)
Definition plain_comment (c : string) : Prop :=
  forall line kw, In line (split_on nl c) -> In kw keywords -> ~ keyword_line kw line.

(** the text without its trailing line ends *)
Definition trimmed (c t : string) : Prop :=
  exists e, c = (t ++ e)%string /\ (forall x, In x (chars e) -> x = nl \/ x = cr) /\
            (forall a x, t = (a ++ String x "")%string -> x <> nl /\ x <> cr).

(** ** numpy's number display: every element is shown as a text, padded with blanks, of at most 18
    characters, that denotes [disp all x], a value within 5e-9 (absolute below 1, relative above) *)
Definition near (eps : R) (x y : xr) : Prop :=
  match x, y with
  | Fin a, Fin b => Rabs (b - a) <= eps * Rmax 1 (Rabs a)
  | Fin _, _ => False
  | _, _ => y = x
  end.
Definition shown_near : xr -> xr -> Prop := near (5 / 10 ^ 9).
(** a number that is displayed like that: all floating point numbers are below 1.8e308 *)
Definition below (bound : R) (x : xr) : Prop := match x with Fin r => Rabs r < bound | _ => True end.
Definition float_range : xr -> Prop := below (18 * 10 ^ 307).
Record shows (W : wenv) (disp : list xr -> xr -> xr) : Prop := {
  shows_text : forall all x, Forall (below (10 ^ 309)) all -> In x all -> exists k t l,
    fmt_elem W all x = (blanks k ++ t ++ blanks l)%string /\ number_text true t (disp all x);
  shows_width : forall all x, Forall (below (10 ^ 309)) all -> In x all -> (String.length (fmt_elem W all x) <= 18)%nat;
  shows_value : forall all x, Forall (below (10 ^ 309)) all -> In x all -> shown_near x (disp all x)
}.

(** ** crashes: a state the disk may be left in when the process dies during the effects [l] *)
Inductive crash_state (fs : dict string) : list fsop -> dict string -> Prop :=
| cr_now l : crash_state fs l fs
| cr_torn p a b l : crash_state fs (OAppend p (a ++ b) :: l) (fs_step fs (OAppend p a))
| cr_later o l fs' : crash_state (fs_step fs o) l fs' -> crash_state fs (o :: l) fs'.

(** a path with the given extension, e.g. "dir/gold.txt" *)
Definition named (path ext : string) : Prop :=
  exists a c, path = (a ++ String c ext)%string /\ c <> "."%char /\ c <> "/"%char.
Definition text_file (path : string) : Prop := named path ".txt" \/ named path ".csv".

(** the metadata written to the header of a text file *)
Definition header_keys : list string := ["Reference"; "Author"; "FullName"; "Name"; "Comment"].
(** ... is free of line breaks and leading white space *)
Definition header_ready (W : wenv) (m : material) : Prop :=
  (forall meta key v, m_meta m = Some meta -> In key header_keys -> dget meta key = Some v -> header_value (format_val W v)) /\
  (forall b rows, m_real m = DInterp b rows -> header_value (d_type b) /\ header_value (d_unit b)).
Definition comment_of (m : material) (c : string) : Prop :=
  exists meta, m_meta m = Some meta /\ dget meta "MetaComment" = Some (MStr c).

(** ** saving and loading again; the iteration orders of the keyword sets and the yaml parser's
    view of the file may differ from cycle to cycle *)
Inductive file_cycle (W : wenv) (path : string) (m m' : material) : Prop :=
| one_cycle fk dk yl fs ic rii ops :
    Permutation FILE_META_DATA_KEYS fk -> Permutation DATASET_META_DATA_KEYS dk ->
    save_material W path m fs ic rii = (Ok tt, ops) ->
    mk_material (read_path fk dk yl (fs_run fs ops)) [("file_path", PStr path)] = Ok m' ->
    file_cycle W path m m'.
Inductive file_cycles (W : wenv) (path : string) : nat -> material -> material -> Prop :=
| cycles_0 m : file_cycles W path 0 m m
| cycles_S n m m' m'' : file_cycles W path n m m' -> file_cycle W path m' m'' -> file_cycles W path (S n) m m''.

(** the meta comment after one cycle through a text file *)
Definition after_text_cycle (c c' : string) : Prop :=
  (c = "" /\ c' = (" " ++ NL)%string) \/
  (c <> "" /\ exists t, trimmed c t /\ c' = (t ++ NL ++ " " ++ NL)%string).
Fixpoint rep_str (n : nat) (s : string) : string := match n with O => "" | S k => (s ++ rep_str k s)%string end.

(** ** tables on their way through a file *)
(** the table of an interpolated quantity *)
Definition table_of (rows : list (xr * xr)) : list (list xr) := map (fun r => [fst r; snd r]) rows.
Definition float_table (rows : list (xr * xr)) : Prop := Forall (fun r => float_range (fst r) /\ float_range (snd r)) rows.
(** every entry as numpy displays it *)
Definition shown (disp : list xr -> xr -> xr) (t : list (list xr)) : list (list xr) := map (map (disp (concat t))) t.
(** every entry rounded to 8 decimals *)
Definition rounded8 (t : list (list xr)) : list (list xr) := map (map (xround 8)) t.
(** the columns of the first table and the second column of the second one *)
Fixpoint beside (t k : list (list xr)) : list (list xr) :=
  match t, k with r :: t', q :: k' => (r ++ [nth 1 q NaN]) :: beside t' k' | _, _ => [] end.
(** equal grids: numpy's ==, for which NaN differs from everything *)
Definition same_number (x y : xr) : Prop := x = y /\ x <> NaN.
Definition grid (t : list (list xr)) : list xr := map (fun r => nth 0 r NaN) t.
(** the table a data set of a Writer holds *)
Definition holds_table (d : dict dval) (dt un st : string) (n : nat) (t : list (list xr)) : Prop :=
  dget d "DataType" = Some (DStr dt) /\ dget d "Unit" = Some (DStr un) /\ dget d "SpectrumType" = Some (DStr st) /\
  exists s, dget d "Data" = Some (DStr s) /\ str_table_to_numeric (TStr s) = Ok (ND2 n t).
(** ... or a text that is no table *)
Definition holds_no_table (d : dict dval) : Prop :=
  exists s, dget d "Data" = Some (DStr s) /\ str_table_to_numeric (TStr s) = Raise ValueError.
(** tables whose entries agree up to [eps] *)
Definition near_table (eps : R) (n n' : list (xr * xr)) : Prop :=
  Forall2 (fun p q => near eps (fst p) (fst q) /\ near eps (snd p) (snd q)) n n'.
Definition near_values (eps : R) (n n' : list (xr * xr)) : Prop := Forall2 (fun p q => near eps (snd p) (snd q)) n n'.
(** a number with at most 8 decimals *)
Definition decimal8 (x : xr) : Prop := match x with Fin r => exists z, r = IZR z / 10 ^ 8 | _ => True end.
(** a material with tables for n and k *)
Definition tables_of (m : material) (b b' : dbase) (n k : list (xr * xr)) : Prop :=
  m_name m = "nk" /\ m_complex m = None /\ m_real m = DInterp b n /\ m_imag m = DInterp b' k.

(** the displayed tables share the grid, the unit and the type *)
Definition share_grid (disp : list xr -> xr -> xr) (b b' : dbase) (n k : list (xr * xr)) : Prop :=
  Forall2 same_number (grid (shown disp (table_of n))) (grid (shown disp (table_of k))) /\
  d_unit b = d_unit b' /\ d_type b = d_type b'.

(** ** results of reading: equal values for every key, equal data sets, or the same exception *)
Definition same_lookups (a b : dict mval) : Prop := forall k, dget a k = dget b k.
Definition same_reading (a b : res fdict) : Prop :=
  match a, b with
  | Ok a, Ok b => same_lookups (fd_meta a) (fd_meta b) /\ fd_sets a = fd_sets b
  | Raise e, Raise e' => e = e'
  | _, _ => False
  end.
