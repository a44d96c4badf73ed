(** Model of the catalogue file: DataFrame.to_csv (catalogue.py:211-215) and pandas.read_csv with
    the options of catalogue.py:109-114 *)
From Verif Require Import PyBase PyStr XReal SpectrumModel SpectralModel MaterialModel FileModel PathModel ConfigModel CatalogueModel.
Open Scope string_scope.
Open Scope list_scope.

Definition quote_char : ascii := ascii_of_nat 34.
Definition comma : ascii := ascii_of_nat 44.
Definition nul : ascii := ascii_of_nat 0.
Definition QUOTE : string := String quote_char EmptyString.
Definition COMMA : string := String comma EmptyString.

(** what the libraries do with numbers and other objects:
    the text of a number that is not NaN, str() of an object in a text column (row, column name),
    the number a text stands for, and whether csv.writer quotes a carriage return (the releases
    of Python differ) *)
Record csvlib := mkCsv {
  show_num : xr -> string;
  obj_text : row -> string -> string;
  num_of : string -> option xr;
  quotes_cr : bool }.

(** ** writing *)
Section Writing.
Variable L : csvlib.

(** csv.writer, QUOTE_MINIMAL, line terminator "\n": fields with a separator, a quote or a line
    break are quoted *)
Definition special (c : ascii) : bool :=
  Ascii.eqb c comma || Ascii.eqb c quote_char || Ascii.eqb c nl || (quotes_cr L && Ascii.eqb c cr).
Definition needs_quotes (s : string) : bool := negb (all_chars (fun c => negb (special c)) s).
(** quotes inside a quoted field are doubled *)
Fixpoint doubled (s : string) : string :=
  match s with
  | EmptyString => EmptyString
  | String c r => if Ascii.eqb c quote_char then String c (String c (doubled r)) else String c (doubled r)
  end.
Definition csv_field (s : string) : string :=
  if needs_quotes s then QUOTE ++ doubled s ++ QUOTE else s.
(** csv.writer.writerow; the catalogue has fourteen columns *)
Definition csv_line (fields : list string) : string := join COMMA (map csv_field fields) ++ NL.

(** catalogue.py:80-93 the columns *)
Definition columns : list string :=
  ["Alias"; "Name"; "FullName"; "Author"; "Comment"; "Reference"; "SpectrumType"; "Unit";
   "SpectrumLowerBound"; "SpectrumUpperBound"; "N_Reference"; "K_Reference"; "Path"; "Module"].
(** DataFrame.to_csv: na_rep is the empty text *)
Definition cell_text (r : row) (col : string) (c : cell) : string :=
  match c with KStr s => s | KNaN => "" | KObj => obj_text L r col end.
Definition num_text (x : xr) : string := match x with NaN => "" | _ => show_num L x end.
Definition row_texts (r : row) : list string :=
  [cell_text r "Alias" (r_alias r); cell_text r "Name" (r_name r); cell_text r "FullName" (r_full r);
   cell_text r "Author" (r_author r); cell_text r "Comment" (r_comment r); cell_text r "Reference" (r_ref r);
   cell_text r "SpectrumType" (r_stype r); cell_text r "Unit" (r_unit r);
   num_text (r_lo r); num_text (r_hi r); num_text (r_n r); num_text (r_k r);
   cell_text r "Path" (r_path r); cell_text r "Module" (r_module r)].
(** index=False: the labels are not written *)
Fixpoint lines_text (l : list (list string)) : string :=
  match l with [] => "" | x :: t => csv_line x ++ lines_text t end.
Definition to_csv (f : frame) : string := lines_text (columns :: map row_texts (rows_of f)).
End Writing.

(** ** reading: the tokenizer of pandas' C parser *)
Inductive lex_state :=
| StartRecord (* at the beginning of a line *)
| AfterCr     (* the same, after a carriage return: a following "\n" belongs to it *)
| BlankLine   (* only blanks and tabs so far: skipped if the line ends here *)
| StartField | InField | InQuoted | QuoteInQuoted.
Record lexer := mkLex { l_state : lex_state; l_field : string; l_line : list string; l_lines : list (list string) }.
Definition is_blank (c : ascii) : bool := Ascii.eqb c (ascii_of_nat 32) || Ascii.eqb c tab.
Definition push (s : lex_state) (k : lexer) (c : ascii) : lexer :=
  mkLex s (l_field k ++ String c EmptyString) (l_line k) (l_lines k).
Definition end_field (k : lexer) : lexer := mkLex StartField "" (l_line k ++ [l_field k]) (l_lines k).
Definition end_line (s : lex_state) (k : lexer) : lexer :=
  mkLex s "" [] (l_lines k ++ [l_line k ++ [l_field k]]).
Definition to_state (s : lex_state) (k : lexer) : lexer := mkLex s (l_field k) (l_line k) (l_lines k).

Definition lex_field (k : lexer) (c : ascii) : lexer :=
  if Ascii.eqb c nl then end_line StartRecord k
  else if Ascii.eqb c cr then end_line AfterCr k
  else if Ascii.eqb c comma then end_field k
  else push InField k c.
Definition lex_start (k : lexer) (c : ascii) : lexer :=
  if Ascii.eqb c quote_char then to_state InQuoted k else lex_field k c.
Definition lex_record (k : lexer) (c : ascii) : lexer :=
  if Ascii.eqb c nl then to_state StartRecord k
  else if Ascii.eqb c cr then to_state AfterCr k
  else if is_blank c then push BlankLine k c
  else lex_start k c.
Definition lex_char (k : lexer) (c : ascii) : lexer :=
  match l_state k with
  | StartRecord => lex_record k c
  | AfterCr => if Ascii.eqb c nl then to_state StartRecord k else lex_record k c
  | BlankLine =>
      if Ascii.eqb c nl then mkLex StartRecord "" [] (l_lines k)
      else if Ascii.eqb c cr then mkLex AfterCr "" [] (l_lines k)
      else if is_blank c then push BlankLine k c
      else lex_field k c
  | StartField => lex_start k c
  | InField => lex_field k c
  | InQuoted => if Ascii.eqb c quote_char then to_state QuoteInQuoted k else push InQuoted k c
  | QuoteInQuoted => if Ascii.eqb c quote_char then push InQuoted k c else lex_field k c
  end.
Fixpoint lex (k : lexer) (s : string) : lexer :=
  match s with EmptyString => k | String c r => lex (lex_char k c) r end.
(** end of file: an open quote is a ParserError, which is a ValueError *)
Definition lex_end (k : lexer) : res (list (list string)) :=
  match l_state k with
  | StartRecord | AfterCr | BlankLine => Ok (l_lines k)
  | InQuoted => Raise ValueError
  | StartField | InField | QuoteInQuoted => Ok (l_lines (end_line StartRecord k))
  end.
Definition csv_lines (text : string) : res (list (list string)) := lex_end (lex (mkLex StartRecord "" [] []) text).

(** the words of the parser are C strings *)
Fixpoint c_string (s : string) : string :=
  match s with EmptyString => "" | String c r => if Ascii.eqb c nul then "" else String c (c_string r) end.
(** short lines are filled with empty words *)
Definition padded (n : nat) (l : list string) : list string := l ++ repeat "" (n - length l).

Section Reading.
Variable L : csvlib.
(** catalogue.py:94-95, 109-114: keep_default_na=False, the empty text is a missing value only in
    the reference columns. A text that is no number in a float column is a ValueError. *)
Definition read_bound (s : string) : res xr := match num_of L s with Some x => Ok x | None => Raise ValueError end.
Definition read_reference (s : string) : res xr := if String.eqb s "" then Ok NaN else read_bound s.
(** one line. Longer lines are a ParserError. *)
Definition read_line (words : list string) : res row :=
  match padded 14 (map c_string words) with
  | [a; n; f; au; co; re; st; un; lo; hi; rn; rk; pa; mo] =>
      do lo <- read_bound lo; do hi <- read_bound hi;
      do rn <- read_reference rn; do rk <- read_reference rk;
      Ok (mkRow (KStr a) (KStr n) (KStr f) (KStr au) (KStr co) (KStr re) (KStr st) (KStr un)
            lo hi rn rk (KStr pa) (KStr mo))
  | _ => Raise ValueError
  end.
(** pd.read_csv. An empty file is an EmptyDataError, which is a ValueError. Simplification: a file
    with other columns is refused here. *)
Definition read_csv (text : string) : res (list row) :=
  do lines <- csv_lines text;
  match lines with
  | [] => Raise ValueError
  | header :: data =>
      if list_eq_dec string_dec (map c_string header) columns then map_res read_line data else Raise KeyError
  end.

(** catalogue.py:211-215 save_to_file. Afterwards the file holds the text. Simplification: the
    directory is writable, and the catalogue file is not also a data file. *)
Definition save_to_file (W : world) (c : catalogue) : world :=
  let path := path_join (c_base c) (c_file c) in
  mkWorld (w_checks W) (fun p => String.eqb p path || w_isfile W p) (w_listdir W) (w_read W) (w_yaml W)
    (fun p => if String.eqb p path then read_csv (to_csv L (c_db c)) else w_csv W p) (w_qgrid W).
End Reading.

(** catalogue.py:207-209 set_database *)
Definition set_database (c : catalogue) (f : frame) : catalogue :=
  mkCat (c_base c) (c_file c) (c_interactive c) (c_ref c) f.
