(** Model of the number and table parsing of src/dispersion/io.py *)
From Verif Require Import PyBase PyStr XReal.
Open Scope R_scope.
Open Scope list_scope.

(** ** float(str)
    Simplification: the value is the exact decimal, not its nearest double.
    [us]: whether digit groups may be separated by underscores (Python's float accepts
    them, numpy's text reader does not). *)
Definition is_digit (c : ascii) : bool :=
  let n := nat_of_ascii c in ((48 <=? n) && (n <=? 57))%nat.
Definition digit_val (c : ascii) : Z := Z.of_nat (nat_of_ascii c - 48).
Definition us_char : ascii := "_"%char.

(** longest run of digits and single underscores between digits; [after]: the previous
    character was a digit *)
Fixpoint scan_digits (us after : bool) (s : string) : list Z * string :=
  match s with
  | EmptyString => ([], EmptyString)
  | String c r =>
      if is_digit c then let (ds, t) := scan_digits us true r in (digit_val c :: ds, t)
      else if us && after && Ascii.eqb c us_char then
        match r with
        | String d _ => if is_digit d then scan_digits us false r else ([], s)
        | EmptyString => ([], s)
        end
      else ([], s)
  end.

Definition digits_val (ds : list Z) : Z := fold_left (fun a d => (10 * a + d)%Z) ds 0%Z.

(** optional sign: true for minus *)
Definition scan_sign (s : string) : bool * string :=
  match s with
  | String c r => if Ascii.eqb c "-" then (true, r) else if Ascii.eqb c "+" then (false, r) else (false, s)
  | EmptyString => (false, s)
  end.

(** optional exponent; None if malformed *)
Definition scan_exp (us : bool) (s : string) : option Z :=
  match s with
  | EmptyString => Some 0%Z
  | String c r =>
      if Ascii.eqb c "e" || Ascii.eqb c "E" then
        let (neg, t) := scan_sign r in
        match scan_digits us false t with
        | ((_ :: _) as ds, EmptyString) => Some (if neg then (- digits_val ds)%Z else digits_val ds)
        | _ => None
        end
      else None
  end.

Definition dec_val (neg : bool) (m e : Z) : R :=
  (if neg then -1 else 1) * (IZR m * powerRZ 10 e).

Definition parse_unsigned (us neg : bool) (s : string) : res xr :=
  let (ip, t) := scan_digits us false s in
  let (fp, t) := match t with
                 | String c r => if Ascii.eqb c "." then scan_digits us false r else ([], t)
                 | EmptyString => ([], t)
                 end in
  match ip ++ fp with
  | [] => Raise ValueError
  | ds => match scan_exp us t with
          | None => Raise ValueError
          | Some e => Ok (Fin (dec_val neg (digits_val ds) (e - Z.of_nat (length fp))))
          end
  end.

Definition parse_float (us : bool) (s : string) : res xr :=
  let (neg, t) := scan_sign (rstrip (lstrip s)) in
  let w := lower t in
  if (String.eqb w "inf" || String.eqb w "infinity")%string then Ok (if neg then NInf else PInf)
  else if String.eqb w "nan" then Ok NaN
  else parse_unsigned us neg t.
(** Python's float(s) *)
Definition py_float (s : string) : res xr := parse_float true s.

(** ** arrays of floats: one- and two-dimensional (with the number of columns) *)
Inductive nd := ND1 (l : list xr) | ND2 (ncols : nat) (rows : list (list xr)).

(** np.array(rows) of a list of lists of floats. Ragged rows: ValueError (numpy >= 1.24) *)
Definition np_array (rows : list (list xr)) : res nd :=
  match rows with
  | [] => Ok (ND1 [])
  | r :: _ => if forallb (fun q => Nat.eqb (length q) (length r)) rows
              then Ok (ND2 (length r) rows) else Raise ValueError
  end.

(** a boolean is Python's own or numpy's: [x is False] distinguishes them *)
Inductive anybool := PyBool (b : bool) | NpBool (b : bool).
Definition is_False (b : anybool) : bool := match b with PyBool false => true | _ => false end.
Definition truth (b : anybool) : bool := match b with PyBool b | NpBool b => b end.

Definition col (i : nat) (r : list xr) : xr := nth i r NaN.

Fixpoint increasing_from (x : xr) (l : list xr) : bool :=
  match l with [] => true | y :: r => xgt y x && increasing_from y r end.
(** io.py:100-105 validate_table: IndexError unless two-dimensional with a column;
    np.all returns a numpy boolean *)
Definition validate_table (t : nd) : res anybool :=
  match t with
  | ND2 (S _) rows =>
      Ok (NpBool (match map (col 0) rows with [] => true | x :: l => increasing_from x l end))
  | _ => Raise IndexError
  end.

(** io.py:113-120 the loop of fix_table *)
Fixpoint fix_loop (last_valid : xr) (l : list (list xr)) : list (list xr) :=
  match l with
  | [] => []
  | row :: r => if negb (xgt (col 0 row) last_valid) then fix_loop last_valid r
                else row :: fix_loop (col 0 row) r
  end.
(** io.py:108-121 fix_table: IndexError for an array without rows or columns or that is
    not two-dimensional *)
Definition fix_table (t : nd) : res nd :=
  match t with
  | ND2 (S n) (row :: r) => Ok (ND2 (S n) (row :: fix_loop (col 0 row) r))
  | _ => Raise IndexError
  end.

(** io.py:82-88 the loop over the lines of a table *)
Fixpoint parse_rows (rows : list string) : res (list (list xr)) :=
  match rows with
  | [] => Ok []
  | row :: r =>
      if isspace row || String.eqb row "" then Ok []
      else do c <- map_res py_float (split_ws row); do rest <- parse_rows r; Ok (c :: rest)
  end.

(** the argument: an ndarray, a string, something else *)
Inductive tabarg := TArr (a : nd) | TStr (s : string) | TOther.

(** io.py:71-96 _str_table_to_numeric *)
Definition str_table_to_numeric (table : tabarg) : res nd :=
  do t <- match table with
          | TArr a => Ok a
          | TStr s => do rows <- parse_rows (split_on nl s); np_array rows
          | TOther => Raise TypeError
          end;
  do v <- validate_table t;
  if is_False v then fix_table t else Ok t.
