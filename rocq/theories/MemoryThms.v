(** C92, C93: which arrays the objects of the library share with the user's variables. Sessions are
    lists of lines a user types; [h_run] executes them with arrays by reference, [v_run] with every
    variable holding a value of its own. *)
From Verif Require Import PyBase PyStr XReal CNum SpectrumModel SpectralModel TextModel MaterialModel MaterialSpec MaterialProofs MatFileProofs MemoryModel MemorySpec MemoryProofs.
From Coq Require Import Lia Lra.
Open Scope R_scope.
Open Scope string_scope.
Open Scope list_scope.

Lemma C92_unchanged_l : forall X h1 h2 i x, read_only h2 ->
  fst (h_run X start (h1 ++ [Look i])) = fst (h_run X start h1) ++ [x] -> x <> Senseless ->
  exists ys, fst (h_run X start (h1 ++ h2 ++ [Look i])) = fst (h_run X start h1) ++ ys ++ [x].
Proof. intros X h1 h2 i x. apply look_kept. Qed.

Lemma C92_values_l : forall X h, polite h -> fst (h_run X start h) = fst (v_run X [] h).
Proof. intros X h. apply polite_values. Qed.

Lemma C93_copied_l : forall X id n rows t u pts t' u' k v, In id ["nk"; "eps"] ->
  let before := [NewArray (A2 n rows); NewTable id 0 t u; NewArray (A1 (VA pts))] in
  nth_error (fst (h_run X start (before ++ [Assign 0 k v; Evaluate 1 2 t' u'; Saved 1]))) 4 =
  nth_error (fst (h_run X start (before ++ [Evaluate 1 2 t' u'; Saved 1]))) 3 /\
  nth_error (fst (h_run X start (before ++ [Assign 0 k v; Evaluate 1 2 t' u'; Saved 1]))) 5 =
  nth_error (fst (h_run X start (before ++ [Evaluate 1 2 t' u'; Saved 1]))) 4.
Proof. exact table_copied. Qed.

Lemma C93_table_refuted_l : forall X rows rows' t u pts t' u' k v, (2 <= length rows)%nat -> assigned (A2 2 rows) k v = Ok (A2 2 rows') ->
  nth_error (fst (h_run X start [NewArray (A2 2 rows); NewTable "n" 0 t u])) 1 = Some Silent ->
  exists e b z, fst (h_run X start [NewArray (A2 2 rows); NewTable "n" 0 t u; NewArray (A1 (VA pts)); Evaluate 1 2 t' u'; Saved 1;
                                    Assign 0 k v; Evaluate 1 2 t' u'; Saved 1]) =
    [Array (A2 2 rows); Silent; Array (A1 (VA pts)); e; Written (mkMat (Some default_meta) "nk" (DInterp b (pair_cols 0 1 rows)) z None t u);
     Silent; e; Written (mkMat (Some default_meta) "nk" (DInterp b (pair_cols 0 1 rows')) z None t u)].
Proof. exact table_written. Qed.

Lemma C93_coefficients_refuted_l : forall X name p j c v t u pts t' u', (j < length p)%nat ->
  nth_error (fst (h_run X start [NewArray (A1 (VA p)); NewModel name 0 (RangeList v) t u])) 1 = Some Silent ->
  nth_error (fst (h_run X start [NewArray (A1 (VA p)); NewModel name 0 (RangeList v) t u; NewArray (A1 (VA pts)); Assign 0 j c; Evaluate 1 2 t' u'])) 4 =
  nth_error (fst (h_run X start [NewArray (A1 (VA (replace j c p))); NewModel name 0 (RangeList v) t u; NewArray (A1 (VA pts)); Evaluate 1 2 t' u'])) 3.
Proof. exact model_written. Qed.

Lemma C93_metres_refuted_l : forall X l k v, (k < length l)%nat ->
  fst (h_run X start [NewArray (A1 (VA l)); NewSpectrum 0 "wavelength" "m"; Convert 1 "wavelength" "m"; Assign 2 k v; Look 0; Convert 1 "wavelength" "m"]) =
  [Array (A1 (VA l)); Silent; Array (A1 (VA l)); Silent; Array (A1 (VA (replace k v l))); Array (A1 (VA (replace k v l)))].
Proof. exact metres_written. Qed.

Lemma C93_values_refuted_l : forall X l k v, (k < length l)%nat ->
  exists y, fst (h_run X start [NewArray (A1 (VA l)); NewSpectrum 0 "wavelength" "nm"; Convert 1 "wavelength" "nm"; Assign 0 k v; Values 1; Convert 1 "wavelength" "nm"]) =
  [Array (A1 (VA l)); Silent; Array (A1 (VA y)); Silent; Array (A1 (VA (replace k v l))); Array (A1 (VA y))].
Proof. exact values_written. Qed.
