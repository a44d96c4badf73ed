(** Theorems about number and table texts and table repair (C23, C24, C67). *)
From Verif Require Import PyBase PyStr XReal TextModel TextSpec TextProofs TableProofs.
From Verif Require Import TableThms.
Open Scope R_scope.
Open Scope string_scope.
Open Scope list_scope.

(** C23: fix_table keeps the first row and a strictly increasing subsequence *)
Theorem C23_subsequence : forall n rows, rows <> [] -> n <> O ->
  exists kept, fix_table (ND2 n rows) = Ok (ND2 n kept) /\ subseq kept rows /\
    hd_error kept = hd_error rows /\ increasing (first_col kept).
Proof. exact C23_subsequence_l. Qed.
Print Assumptions C23_subsequence.

(** C23: exactly which rows are kept: the first one, and every later one whose grid value
    exceeds the first one and every earlier one (NaN values are never kept and never
    stand in the way, except that a NaN in the first row loses everything else) *)
Theorem C23_kept_rows : forall n first rest, n <> O ->
  exists idx, fix_table (ND2 n (first :: rest)) = Ok (ND2 n (first :: map (fun i => nth i rest []) idx)) /\
    (forall i j a b, nth_error idx i = Some a -> nth_error idx j = Some b -> (i < j)%nat -> (a < b)%nat) /\
    (forall i, In i idx <-> (i < length rest)%nat /\
       xlt (nth 0 first NaN) (nth 0 (nth i rest []) NaN) = true /\
       (forall j, (j < i)%nat -> is_nan (nth 0 (nth j rest []) NaN) = false ->
                  xlt (nth 0 (nth j rest []) NaN) (nth 0 (nth i rest []) NaN) = true)).
Proof. exact C23_kept_rows_l. Qed.
Print Assumptions C23_kept_rows.

(** C23: a table that validates is returned unchanged *)
Theorem C23_valid_unchanged : forall n rows b, rows <> [] ->
  validate_table (ND2 n rows) = Ok b -> truth b = true -> fix_table (ND2 n rows) = Ok (ND2 n rows).
Proof. exact C23_valid_unchanged_l. Qed.
Print Assumptions C23_valid_unchanged.

(** C23: validation is truthful *)
Theorem C23_validate : forall n rows, n <> O ->
  exists b, validate_table (ND2 n rows) = Ok b /\ (truth b = true <-> increasing (first_col rows)).
Proof. exact C23_validate_l. Qed.
Print Assumptions C23_validate.

(** C23: repairing twice is repairing once *)
Theorem C23_idempotent : forall n rows t, fix_table (ND2 n rows) = Ok t -> fix_table t = Ok t.
Proof. exact C23_idempotent_l. Qed.
Print Assumptions C23_idempotent.

(** C23: a table none of whose rows exceeds the first is reduced to its first row *)
Theorem C23_descending : forall n r l, n <> O ->
  (forall q, In q l -> xlt (nth 0 r NaN) (nth 0 q NaN) = false) ->
  fix_table (ND2 n (r :: l)) = Ok (ND2 n [r]).
Proof. exact C23_descending_l. Qed.
Print Assumptions C23_descending.

(** C23: without rows, without columns, or one-dimensional: IndexError *)
Theorem C23_degenerate : forall l n rows,
  fix_table (ND1 l) = Raise IndexError /\ fix_table (ND2 n []) = Raise IndexError /\
  fix_table (ND2 0 rows) = Raise IndexError.
Proof. exact C23_degenerate_l. Qed.
Print Assumptions C23_degenerate.

Definition zigzag : list (list xr) :=
  [[Fin 2; Fin 10]; [Fin 1; Fin 11]; [NaN; Fin 12]; [Fin 3; Fin 13]; [Fin 3; Fin 14]; [Fin 5; Fin 15]].
Example C23_example : fix_table (ND2 2 zigzag) = Ok (ND2 2 [[Fin 2; Fin 10]; [Fin 3; Fin 13]; [Fin 5; Fin 15]]).
Proof.
  unfold zigzag, fix_table, fix_loop, col, xgt, xlt, nth, Rltb.
  repeat match goal with |- context [Rlt_dec ?a ?b] => destruct (Rlt_dec a b); try lra end; reflexivity.
Qed.

(** C24: float(text) returns x exactly for the texts that denote x, surrounded by white space *)
Theorem C24_number : forall s x, py_float s = Ok x <->
  exists p t q, s = (p ++ t ++ q)%string /\ blank p /\ blank q /\ number_text true t x.
Proof. exact C24_number_l. Qed.
Print Assumptions C24_number.

(** C24: every other text raises ValueError *)
Theorem C24_number_error : forall s e, py_float s = Raise e -> e = ValueError.
Proof. exact C24_number_error_l. Qed.
Print Assumptions C24_number_error.

(** C24: the parsed table consists of the displayed numbers, row by row, of all lines before
    the first blank one; and nothing else parses *)
Theorem C24_table : forall s n nums,
  str_table_to_numeric (TStr s) = Ok (ND2 n nums) <->
  exists lines rest toks,
    s = join NL (lines ++ rest) /\ Forall no_newline (lines ++ rest) /\
    Forall (fun l => ~ blank l) lines /\ ended rest /\
    Forall2 line_text lines toks /\ Forall2 (Forall2 (number_text true)) toks nums /\
    nums <> [] /\ Forall (fun r => length r = n) nums.
Proof. exact C24_table_l. Qed.
Print Assumptions C24_table.

(** C24: whatever follows a blank line has no influence *)
Theorem C24_blank_line_ends : forall lines b b' r r', blank b -> blank b' ->
  Forall no_newline (lines ++ b :: r) -> Forall no_newline (lines ++ b' :: r') ->
  str_table_to_numeric (TStr (join NL (lines ++ b :: r))) =
  str_table_to_numeric (TStr (join NL (lines ++ b' :: r'))).
Proof. exact C24_blank_line_ends_l. Qed.
Print Assumptions C24_blank_line_ends.

(** C24: a text whose first line is blank has no table: IndexError *)
Theorem C24_no_rows : forall b r, blank b -> Forall no_newline (b :: r) ->
  str_table_to_numeric (TStr (join NL (b :: r))) = Raise IndexError.
Proof. exact C24_no_rows_l. Qed.
Print Assumptions C24_no_rows.

(** C24: every other text raises ValueError *)
Theorem C24_error : forall s e, str_table_to_numeric (TStr s) = Raise e ->
  e = ValueError \/ (e = IndexError /\ exists b r, s = join NL (b :: r) /\ blank b /\ no_newline b).
Proof. exact C24_error_l. Qed.
Print Assumptions C24_error.

(** C24: a non-numeric token in a line before the first blank one raises ValueError *)
Theorem C24_bad_token : forall lines rest bad toks,
  Forall no_newline (lines ++ rest) -> Forall (fun l => ~ blank l) lines ->
  Forall2 line_text lines toks -> In bad (concat toks) -> (forall x, ~ number_text true bad x) ->
  str_table_to_numeric (TStr (join NL (lines ++ rest))) = Raise ValueError.
Proof. exact C24_bad_token_l. Qed.
Print Assumptions C24_bad_token.

(** C24: an argument that is neither text nor array raises TypeError *)
Theorem C24_other_type : str_table_to_numeric TOther = Raise TypeError.
Proof. exact C24_other_type_l. Qed.
Print Assumptions C24_other_type.

(** "0.5 15e-1", "1_0	 -.25 ", a blank line and junk *)
Definition sample_text : string :=
  ("0.5 15e-1" ++ NL ++ "1_0" ++ TAB ++ " -.25 " ++ NL ++ "  " ++ NL ++ "junk")%string.
Example C24_example : exists a b c d,
  str_table_to_numeric (TStr sample_text) = Ok (ND2 2 [[Fin a; Fin b]; [Fin c; Fin d]]) /\
  a = 0.5 /\ b = 1.5 /\ c = 10 /\ d = -0.25.
Proof.
  do 4 eexists. split; [reflexivity|]. unfold dec_val.
  repeat split; cbn;
    repeat match goal with |- context [digit_val ?c] => let v := eval compute in (digit_val c) in change (digit_val c) with v end;
    cbn; try change (Pos.to_nat 1) with 1%nat; try change (Pos.to_nat 2) with 2%nat; lra.
Qed.
Example C24_example_text : exists lines rest toks,
  sample_text = join NL (lines ++ rest) /\ Forall (fun l => ~ blank l) lines /\ ended rest /\
  Forall2 line_text lines toks /\ toks = [["0.5"; "15e-1"]; ["1_0"; "-.25"]].
Proof.
  exists ["0.5 15e-1"; "1_0" ++ TAB ++ " -.25 "]%string, ["  "; "junk"], [["0.5"; "15e-1"]; ["1_0"; "-.25"]].
  split; [reflexivity|]. split.
  { repeat constructor; intros H; [specialize (H "0"%char)|specialize (H "1"%char)]; cbn in H; intuition discriminate. }
  split; [intros c Hc; cbn in Hc; intuition (subst; reflexivity)|]. split; [|reflexivity].
  repeat constructor; apply split_ws_sound.
Qed.
Example C24_bad_example : str_table_to_numeric (TStr ("1 2" ++ NL ++ "3 x4")%string) = Raise ValueError.
Proof. reflexivity. Qed.

(** C67: reading an array never changes it, increasing or not *)
Theorem C67_array_untouched : forall a t, str_table_to_numeric (TArr a) = Ok t -> t = a.
Proof. exact C67_array_untouched_l. Qed.
Print Assumptions C67_array_untouched.

(** C67: reading a table from an array succeeds for every table, increasing or not *)
Theorem C67_array_accepted : forall n rows, n <> O ->
  str_table_to_numeric (TArr (ND2 n rows)) = Ok (ND2 n rows).
Proof. exact C67_array_accepted_l. Qed.
Print Assumptions C67_array_accepted.

(** C67: the repair is never applied: some table fails the check, would be repaired by
    fix_table, and is nevertheless returned with all its rows *)
Theorem C67_not_repaired_refuted : exists s n rows rows',
  str_table_to_numeric (TStr s) = Ok (ND2 n rows) /\ ~ increasing (first_col rows) /\
  fix_table (ND2 n rows) = Ok (ND2 n rows') /\ rows' <> rows.
Proof. exact C67_not_repaired_refuted_l. Qed.
Print Assumptions C67_not_repaired_refuted.

Example C67_example : exists n rows b, n <> O /\ validate_table (ND2 n rows) = Ok b /\ truth b = false /\
  is_False b = false.
Proof.
  exists 2%nat, [[Fin 2; Fin 7]; [Fin 1; Fin 8]]. eexists. split; [discriminate|]. split; [reflexivity|].
  split; [|reflexivity]. cbn. unfold xgt; cbn. rewrite andb_true_r. apply Rltb_false. lra.
Qed.
