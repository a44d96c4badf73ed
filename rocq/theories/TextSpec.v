(** What the number and table texts of C23, C24 and C67 mean, independently of the parser *)
From Verif Require Import PyBase PyStr XReal TextModel.
Open Scope R_scope.
Open Scope list_scope.
Open Scope string_scope.

(** the characters 0..9 *)
Definition digit_char (d : nat) : ascii := ascii_of_nat (48 + d).

(** a run of digits, single underscores allowed between two digits when [us] *)
Inductive digits_text (us : bool) : string -> list Z -> Prop :=
| dt_one d : (d < 10)%nat -> digits_text us (String (digit_char d) "") [Z.of_nat d]
| dt_cons d s ds : (d < 10)%nat -> digits_text us s ds ->
    digits_text us (String (digit_char d) s) (Z.of_nat d :: ds)
| dt_us d s ds : us = true -> (d < 10)%nat -> digits_text us s ds ->
    digits_text us (String (digit_char d) (String "_" s)) (Z.of_nat d :: ds).

(** positional value of a digit list *)
Fixpoint positional (ds : list Z) : R :=
  match ds with [] => 0 | d :: r => IZR d * 10 ^ length r + positional r end.

(** mantissa 12, 12., 12.5, .5 : its value *)
Inductive mantissa_text (us : bool) : string -> R -> Prop :=
| mt_int s ds : digits_text us s ds -> mantissa_text us s (positional ds)
| mt_dot s ds : digits_text us s ds -> mantissa_text us (s ++ ".") (positional ds)
| mt_frac s ds t es : digits_text us s ds -> digits_text us t es ->
    mantissa_text us (s ++ "." ++ t) (positional ds + positional es / 10 ^ length es)
| mt_lead t es : digits_text us t es ->
    mantissa_text us ("." ++ t) (positional es / 10 ^ length es).

(** optional sign and the factor it stands for *)
Inductive sign_text : string -> R -> Prop :=
| sg_none : sign_text "" 1
| sg_plus : sign_text "+" 1
| sg_minus : sign_text "-" (-1).

(** optional exponent and the power of ten it stands for *)
Inductive expo_text (us : bool) : string -> R -> Prop :=
| ex_none : expo_text us "" 1
| ex_pos e s ds g : (e = "e"%char \/ e = "E"%char) -> digits_text us s ds ->
    (g = "" \/ g = "+") -> expo_text us (String e (g ++ s)) (Rpower 10 (positional ds))
| ex_neg e s ds : (e = "e"%char \/ e = "E"%char) -> digits_text us s ds ->
    expo_text us (String e ("-" ++ s)) (Rpower 10 (- positional ds)).

(** the texts that denote a float, and which one *)
Inductive number_text (us : bool) : string -> xr -> Prop :=
| nt_fin g sg m mv e ev : sign_text g sg -> mantissa_text us m mv -> expo_text us e ev ->
    number_text us (g ++ m ++ e) (Fin (sg * (mv * ev)))
| nt_inf g sg w : sign_text g sg -> (lower w = "inf" \/ lower w = "infinity") ->
    number_text us (g ++ w) (if Rlt_dec sg 0 then NInf else PInf)
| nt_nan g sg w : sign_text g sg -> lower w = "nan" -> number_text us (g ++ w) NaN.

(** white space only / no white space at all *)
Definition blank (s : string) : Prop := forall c, In c (list_ascii_of_string s) -> is_space c = true.
Definition solid (s : string) : Prop :=
  s <> "" /\ forall c, In c (list_ascii_of_string s) -> is_space c = false.

(** a line made of the tokens [l], with arbitrary white space around and at least one
    white space character (not a line break) between *)
Inductive line_text : string -> list string -> Prop :=
| ln_nil p : blank p -> line_text p []
| ln_last p t q : blank p -> solid t -> blank q -> line_text (p ++ t ++ q) [t]
| ln_cons p t q s l : blank p -> solid t -> blank q -> q <> "" -> line_text s l ->
    l <> [] -> line_text (p ++ t ++ q ++ s) (t :: l).

Definition no_newline (s : string) : Prop := ~ In nl (list_ascii_of_string s).

(** [s] is the text of a table with the number texts [rows], one row per line *)
Definition table_text (s : string) (rows : list (list string)) : Prop :=
  exists lines, s = join NL lines /\ Forall no_newline lines /\ Forall2 line_text lines rows.

(** strictly increasing first column *)
Inductive increasing : list xr -> Prop :=
| inc_nil : increasing []
| inc_one x : increasing [x]
| inc_cons x y l : xlt x y = true -> increasing (y :: l) -> increasing (x :: y :: l).

Definition first_col (rows : list (list xr)) : list xr := map (fun r => nth 0 r NaN) rows.

(** [sub] keeps some of the elements of [l], in order *)
Inductive subseq {A} : list A -> list A -> Prop :=
| ss_nil : subseq [] []
| ss_keep x l l' : subseq l l' -> subseq (x :: l) (x :: l')
| ss_drop x l l' : subseq l l' -> subseq l (x :: l').

(** the rest of a table text: nothing, or a blank line and whatever follows *)
Definition ended (rest : list string) : Prop :=
  match rest with [] => True | b :: _ => blank b end.
