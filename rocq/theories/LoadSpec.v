(** What a text file of tabulated data says (C88), independently of the Reader *)
From Verif Require Import PyBase PyStr XReal SpectralModel TextModel TextSpec MaterialModel FileModel ReaderModel WriterModel IOSpec.
Open Scope string_scope.
Open Scope list_scope.

(** ** lines: each ended by a line feed (Unix) or by carriage return and line feed (Windows); the
    last one possibly by nothing *)
Definition CRLF : string := String cr NL.
Inductive file_text : list string -> string -> Prop :=
| ft_nil : file_text [] ""
| ft_open l : l <> "" -> file_text [l] l
| ft_line l e ls s : e = NL \/ e = CRLF -> file_text ls s -> file_text (l :: ls) (l ++ e ++ s).

(** ** the character that starts a comment *)
Definition comment_mark (ext : string) : ascii := if String.eqb ext ".nk" then ";"%char else "#"%char.
Definition text_exts : list string := [".txt"; ".csv"; ".nk"].

(** ** numbers on a line: separated by white space, by commas in a .csv file *)
Inductive cells (ext : string) : string -> list string -> Prop :=
| cells_space s l : ext <> ".csv" -> line_text s l -> cells ext s l
| cells_none : ext = ".csv" -> cells ext "" []
| cells_comma cs l : ext = ".csv" -> l <> [] ->
    Forall2 (fun c t => exists p q, c = (p ++ t ++ q)%string /\ blank p /\ blank q /\ solid t /\ ~ In ","%char (chars t)) cs l ->
    Forall (fun c => ~ In ","%char (chars c)) cs -> cells ext (join "," cs) l.
(** ... and possibly a comment after them *)
Definition body_line (ext s : string) (l : list string) : Prop :=
  exists c, cells ext c l /\ ~ In (comment_mark ext) (chars c) /\
            (s = c \/ exists r, s = (c ++ String (comment_mark ext) r)%string).
(** a line that is not taken for one of the comment lines of the header *)
Definition no_comment (s : string) : Prop := forall r, s <> String "#" r /\ s <> String ";" r.

(** the file consists of comment lines with the texts [header], followed by lines (of which the
    first is no comment) that hold the number texts [rows]; lines without number are left out *)
Definition text_table (ext text : string) (header : list string) (rows : list (list string)) : Prop :=
  exists body all,
    file_text (map (String (comment_mark ext)) header ++ body) text /\
    Forall one_line header /\ Forall one_line body /\ Forall2 (body_line ext) body all /\
    (forall l r, body = l :: r -> no_comment l) /\
    rows = filter (fun l => match l with [] => false | _ => true end) all.

(** ** the value the header gives to a keyword: the last line with the keyword counts *)
Definition keyword_value (kw line v : string) : Prop :=
  exists k rest p s, line = (k ++ ":" ++ rest)%string /\ ~ In ":"%char (chars k) /\
    upper k = (p ++ kw ++ s)%string /\ blank p /\ v = lstrip rest.
Definition says (kw : string) (header : list string) (v : string) : Prop :=
  ((forall l, In l header -> ~ keyword_line kw l) /\ v = "") \/
  exists a line b, header = a ++ line :: b /\ keyword_value kw line v /\ forall l, In l b -> ~ keyword_line kw l.
Definition or_default (v d : string) : string := if String.eqb v "" then d else v.

(** ** the optical data of two materials are the same, or both calls raise the same exception *)
Definition same_data (a b : res material) : Prop :=
  match a, b with
  | Ok m, Ok m' => m_name m = m_name m' /\ m_real m = m_real m' /\ m_imag m = m_imag m' /\
                   m_complex m = m_complex m' /\ m_stype m = m_stype m' /\ m_unit m = m_unit m'
  | Raise e, Raise e' => e = e'
  | _, _ => False
  end.

(** the lines of the header that start with none of the keywords *)
Inductive plain_lines : list string -> list string -> Prop :=
| pl_nil : plain_lines [] []
| pl_keep l h p : (forall kw, In kw keywords -> ~ keyword_line kw l) -> plain_lines h p -> plain_lines (l :: h) (l :: p)
| pl_drop l h p kw : In kw keywords -> keyword_line kw l -> plain_lines h p -> plain_lines (l :: h) p.
(** the keys of the metadata and of a data set, and their keywords *)
Definition meta_keywords : list (string * string) :=
  [("Reference", "REFERENCE"); ("Comment", "COMMENT"); ("Name", "NAME"); ("FullName", "FULLNAME"); ("Author", "AUTHOR")].
Definition each_line (l : list string) : string := fold_right append "" (map (fun x => x ++ NL)%string l).
(** what the number of columns means when the header does not say it *)
Definition columns_type (n : nat) : string :=
  match n with 2%nat => "tabulated n" | 3%nat => "tabulated nk" | _ => "" end.
(** the other of the two characters *)
Definition other_mark (ext : string) : ascii := if String.eqb ext ".nk" then "#"%char else ";"%char.
