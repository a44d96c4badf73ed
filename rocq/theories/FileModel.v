(** Files, text lines and numpy's loadtxt/savetxt, as far as src/dispersion/io.py uses them.
    Simplifications: contents are 8-bit strings, decoding and encoding are the identity; POSIX
    line ends and path separators. *)
From Verif Require Import PyBase PyStr XReal TextModel.
From Flocq Require Import Core.
Open Scope R_scope.
Open Scope string_scope.
Open Scope list_scope.

(** ** the file system: path -> content, changed by two primitive effects *)
Inductive fsop :=
| OTrunc (path : string)                 (* open(path, 'w'): created or emptied *)
| OAppend (path text : string).          (* write(text) *)
Definition content (fs : dict string) (path : string) : string :=
  match dget fs path with Some s => s | None => "" end.
Definition fs_step (fs : dict string) (o : fsop) : dict string :=
  match o with
  | OTrunc p => dset fs p ""
  | OAppend p t => dset fs p (content fs p ++ t)%string
  end.
Definition fs_run (fs : dict string) (l : list fsop) : dict string := fold_left fs_step l fs.
(** open(path, 'r').read(): FileNotFoundError when absent *)
Definition fs_read (fs : dict string) (p : string) : res string :=
  match dget fs p with Some s => Ok s | None => Raise FileNotFoundError end.

(** os.path.splitext(path)[1]: from the last dot of the last component, leading dots apart *)
Fixpoint after_last (c : ascii) (s : string) : option string :=
  match s with
  | EmptyString => None
  | String d r => match after_last c r with
                  | Some t => Some t
                  | None => if Ascii.eqb d c then Some r else None
                  end
  end.
Definition basename (p : string) : string :=
  match after_last "/" p with Some t => t | None => p end.
Definition splitext (p : string) : string :=
  match after_last "." (lstrip_by (Ascii.eqb ".") (basename p)) with
  | Some t => String "." t
  | None => ""
  end.

(** ** lines *)
(** text-mode reading: \r\n and \r become \n *)
Fixpoint univ (s : string) : string :=
  match s with
  | EmptyString => EmptyString
  | String c r =>
      if Ascii.eqb c cr then
        match r with
        | String d r' => if Ascii.eqb d nl then String nl (univ r') else String nl (univ r)
        | EmptyString => NL
        end
      else String c (univ r)
  end.
(** str.splitlines boundaries: \n \v \f \r FS GS RS *)
Definition is_break (c : ascii) : bool :=
  let n := nat_of_ascii c in
  (((10 <=? n) && (n <=? 13)) || ((28 <=? n) && (n <=? 30)))%nat.
(** s.splitlines(keepends=True), the iteration of a codecs.open stream *)
Fixpoint splitlines (s : string) : list string :=
  match s with
  | EmptyString => []
  | String c r =>
      if is_break c then
        match r with
        | String d r' => if Ascii.eqb c cr && Ascii.eqb d nl then String c NL :: splitlines r'
                         else String c EmptyString :: splitlines r
        | EmptyString => [String c EmptyString]
        end
      else match splitlines r with
           | [] => [String c EmptyString]
           | l :: ls => String c l :: ls
           end
  end.

(** ** np.loadtxt(path, encoding='utf-8', delimiter=..., comments=...) *)
(** the part of a line before the comment character *)
Fixpoint before (c : ascii) (s : string) : string :=
  match s with
  | EmptyString => EmptyString
  | String d r => if Ascii.eqb d c then EmptyString else String d (before c r)
  end.
Definition line_tokens (comment : ascii) (delim : option ascii) (line : string) : list string :=
  let l := before comment line in
  match delim with
  | None => split_ws l
  | Some d => if String.eqb l "" then [] else split_on d l
  end.
(** axes of length one are removed. Simplification: a zero-dimensional array counts as
    one-dimensional (both have no shape[1] and no [:, 0]) *)
Definition squeeze (n : nat) (rows : list (list xr)) : nd :=
  match rows with
  | [] => ND1 []
  | [r] => ND1 r
  | _ => if Nat.eqb n 1 then ND1 (concat rows) else ND2 n rows
  end.
Definition loadtxt (comment : ascii) (delim : option ascii) (text : string) : res nd :=
  let toks := filter (fun l => match l with [] => false | _ => true end)
                     (map (line_tokens comment delim) (split_on nl (univ text))) in
  do rows <- map_res (map_res (parse_float false)) toks;
  do a <- np_array rows;
  Ok (match a with ND2 n rows => squeeze n rows | ND1 l => ND1 l end).

(** ** "%.8f" % x : the decimal with 8 places nearest to x, ties to even.
    Simplification: zero has no sign. *)
Definition digit_string (ds : list Z) : string :=
  fold_right (fun d s => String (ascii_of_nat (48 + Z.to_nat d)) s) EmptyString ds.
(** the last [k] decimal digits of [z] *)
Fixpoint fixed_digits (k : nat) (z : Z) : list Z :=
  match k with O => [] | S k' => fixed_digits k' (z / 10) ++ [z mod 10]%Z end.
(** number of decimal digits, at least one *)
Fixpoint count_digits (fuel : nat) (z : Z) : nat :=
  match fuel with O => 1 | S f => if (z <? 10)%Z then 1 else S (count_digits f (z / 10)) end.
Definition int_digits (z : Z) : list Z := fixed_digits (count_digits (Z.to_nat (Z.log2 z)) z) z.
Definition fmt_f (d : nat) (x : xr) : string :=
  match x with
  | NaN => "nan" | PInf => "inf" | NInf => "-inf"
  | Fin r =>
      let z := ZnearestE (Rabs r * 10 ^ d) in
      ((if Rlt_dec r 0 then "-" else "") ++ digit_string (int_digits (z / 10 ^ Z.of_nat d)) ++ "." ++
       digit_string (fixed_digits d z))%string
  end.

(** np.savetxt(path, data, delimiter, header, fmt="%.8f"): the text written *)
Definition header_text (header : string) : string :=
  if String.eqb header "" then "" else ("# " ++ replace_char nl (NL ++ "# ") header ++ NL)%string.
Definition row_text (delim : string) (r : list xr) : string := (join delim (map (fmt_f 8) r) ++ NL)%string.
Definition savetxt (delim header : string) (t : nd) : string :=
  (header_text header ++
   fold_right append "" (map (row_text delim) (match t with ND1 l => map (fun x => [x]) l | ND2 _ rows => rows end)))%string.

(** io.py:217-232 prepend_text_to_file: the effects, given the content of the file *)
Definition prepended (text : string) (extra_line : bool) (current : string) : list string :=
  [("#" ++ replace_char nl (NL ++ "#") (rstrip_nlcr text) ++ NL ++ (if extra_line then NL else ""))%string;
   univ current].
Definition prepend_text_to_file (path text : string) (extra_line : bool) (fs : dict string) : res (list fsop) :=
  do current <- fs_read fs path;
  Ok (OTrunc path :: map (OAppend path) (prepended text extra_line current)).
