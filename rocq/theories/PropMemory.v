(** C92, C93: which arrays the objects of the library share with the user's variables. Sessions are
    lists of lines a user types; [h_run] executes them with arrays by reference, [v_run] with every
    variable holding a value of its own. *)
From Verif Require Import PyBase PyStr XReal CNum SpectrumModel SpectralModel TextModel MaterialModel MaterialSpec MaterialProofs MatFileProofs MemoryModel MemorySpec MemoryProofs.
From Coq Require Import Lia Lra.
From Verif Require Import MemoryThms.
Open Scope R_scope.
Open Scope string_scope.
Open Scope list_scope.

(** C92: no call of the library changes an array that exists: what an array variable shows is the
    same after any further session in which the user assigns to no array, whatever was done and
    shared before. *)
Theorem C92_unchanged : forall X h1 h2 i x, read_only h2 ->
  fst (h_run X start (h1 ++ [Look i])) = fst (h_run X start h1) ++ [x] -> x <> Senseless ->
  exists ys, fst (h_run X start (h1 ++ h2 ++ [Look i])) = fst (h_run X start h1) ++ ys ++ [x].
Proof. exact C92_unchanged_l. Qed.
Print Assumptions C92_unchanged.

Definition wavelengths : list op := [NewArray (A1 (VA [Fin 400; Fin 0])); NewSpectrum 0 "wavelength" "nm"].
Definition queries : list op := [Convert 1 "energy" "ev"; ConvertInPlace 1 "frequency" "hz"; Contains 1 1; Convert 1 "wavelength" "m"].
Example C92_unchanged_ex X : read_only queries /\
  fst (h_run X start (wavelengths ++ [Look 0])) = fst (h_run X start wavelengths) ++ [Array (A1 (VA [Fin 400; Fin 0]))] /\
  exists ys, fst (h_run X start (wavelengths ++ queries ++ [Look 0])) = fst (h_run X start wavelengths) ++ ys ++ [Array (A1 (VA [Fin 400; Fin 0]))].
Proof.
  assert (R : read_only queries) by (intros i k v J; cbn in J; repeat (destruct J as [J|J]; [discriminate|]); exact J).
  assert (H : fst (h_run X start (wavelengths ++ [Look 0])) = fst (h_run X start wavelengths) ++ [Array (A1 (VA [Fin 400; Fin 0]))]) by reflexivity.
  split; [exact R|]. split; [exact H|]. apply C92_unchanged; [exact R|exact H|discriminate].
Qed.

(** C92: as long as the user assigns only to arrays that were not made into a Spectrum, a table
    tabulated_n or the coefficients or range of a model, and not obtained as s.values or by converting
    to metres, every line shows what it shows if all arrays are copied. *)
Theorem C92_values : forall X h, polite h -> fst (h_run X start h) = fst (v_run X [] h).
Proof. exact C92_values_l. Qed.
Print Assumptions C92_values.

(** a table of n and k, changed after the material was made *)
Definition table_session (v : xr) : list op :=
  [NewArray (A2 3 [[Fin 1; Fin 2; Fin 3]; [Fin 2; Fin 2; Fin 3]]); NewTable "nk" 0 "wavelength" "m"; Assign 0 1 v; Look 0; Saved 1].
Example C92_values_ex X v : polite (table_session v) /\
  exists b z, fst (h_run X start (table_session v)) = [Array (A2 3 [[Fin 1; Fin 2; Fin 3]; [Fin 2; Fin 2; Fin 3]]); Silent; Silent;
    Array (A2 3 [[Fin 1; v; Fin 3]; [Fin 2; Fin 2; Fin 3]]);
    Written (mkMat (Some default_meta) "nk" (DInterp b [(Fin 1, Fin 2); (Fin 2, Fin 2)]) z None "wavelength" "m")].
Proof.
  assert (P : polite (table_session v)).
  { intros b i q w a E. unfold table_session in E. destruct b as [|o1 b]; [discriminate|]. injection E as E1 E. destruct b as [|o2 b]; [discriminate|]. injection E as E2 E.
    destruct b as [|o3 b]; [injection E as <- <- <- _; subst o1 o2; cbn; intros []|]. injection E as E3 E. destruct b as [|o4 b]; [discriminate|]. injection E as E4 E.
    destruct b as [|o5 b]; [discriminate|]. injection E as E5 E. now destruct b. }
  split; [exact P|]. rewrite (C92_values X _ P). unfold table_session. cbn [v_run v_step nth_error smem].
  eassert (M : mk_material no_file [("tabulated_" ++ "nk", PArr (ND2 3 [[Fin 1; Fin 2; Fin 3]; [Fin 2; Fin 2; Fin 3]])); ("spectrum_type", PStr "wavelength"); ("unit", PStr "m")]%string = Ok _) by (rcv; reflexivity).
  change (smem "nk" ["nk"; "n"; "eps"]) with true. cbv iota. cbn [app nth_error]. rewrite M. eexists. eexists. reflexivity.
Qed.

(** C93: a table of n and k or of the permittivity is copied: assigning to the array afterwards
    changes neither the evaluation nor the saved file. *)
Theorem C93_copied : forall X id n rows t u pts t' u' k v, In id ["nk"; "eps"] ->
  let before := [NewArray (A2 n rows); NewTable id 0 t u; NewArray (A1 (VA pts))] in
  nth_error (fst (h_run X start (before ++ [Assign 0 k v; Evaluate 1 2 t' u'; Saved 1]))) 4 =
  nth_error (fst (h_run X start (before ++ [Evaluate 1 2 t' u'; Saved 1]))) 3 /\
  nth_error (fst (h_run X start (before ++ [Assign 0 k v; Evaluate 1 2 t' u'; Saved 1]))) 5 =
  nth_error (fst (h_run X start (before ++ [Evaluate 1 2 t' u'; Saved 1]))) 4.
Proof. exact C93_copied_l. Qed.
Print Assumptions C93_copied.

(** C93 refuted for tabulated_n: the array is shared. Assigning to it afterwards leaves the evaluation
    as it was and changes the table that is written to the file. *)
Theorem C93_table_refuted : forall X rows rows' t u pts t' u' k v, (2 <= length rows)%nat -> assigned (A2 2 rows) k v = Ok (A2 2 rows') ->
  nth_error (fst (h_run X start [NewArray (A2 2 rows); NewTable "n" 0 t u])) 1 = Some Silent ->
  exists e b z, fst (h_run X start [NewArray (A2 2 rows); NewTable "n" 0 t u; NewArray (A1 (VA pts)); Evaluate 1 2 t' u'; Saved 1;
                                    Assign 0 k v; Evaluate 1 2 t' u'; Saved 1]) =
    [Array (A2 2 rows); Silent; Array (A1 (VA pts)); e; Written (mkMat (Some default_meta) "nk" (DInterp b (pair_cols 0 1 rows)) z None t u);
     Silent; e; Written (mkMat (Some default_meta) "nk" (DInterp b (pair_cols 0 1 rows')) z None t u)].
Proof. exact C93_table_refuted_l. Qed.
Print Assumptions C93_table_refuted.

Definition glass : list (list xr) := [[Fin 1; Fin 10]; [Fin 2; Fin 20]].
Example C93_table_ex X : nth_error (fst (h_run X start [NewArray (A2 2 glass); NewTable "n" 0 "wavelength" "m"])) 1 = Some Silent /\
  assigned (A2 2 glass) 3 (Fin 7) = Ok (A2 2 [[Fin 1; Fin 10]; [Fin 2; Fin 7]]).
Proof.
  split; [|reflexivity]. rewrite C92_values by (intros [|? [|? [|? ?]]] i k v a E; discriminate E). unfold glass. cbn [v_run v_step nth_error app].
  eassert (M : mk_material no_file [("tabulated_" ++ "n", PArr (ND2 2 [[Fin 1; Fin 10]; [Fin 2; Fin 20]])); ("spectrum_type", PStr "wavelength"); ("unit", PStr "m")]%string = Ok _) by (rcv; reflexivity).
  change (smem "n" ["nk"; "n"; "eps"]) with true. cbv iota. rewrite M. reflexivity.
Qed.

(** C93 refuted for the coefficients of a model: assigning to the array afterwards gives the material
    of the new coefficients. *)
Theorem C93_coefficients_refuted : forall X name p j c v t u pts t' u', (j < length p)%nat ->
  nth_error (fst (h_run X start [NewArray (A1 (VA p)); NewModel name 0 (RangeList v) t u])) 1 = Some Silent ->
  nth_error (fst (h_run X start [NewArray (A1 (VA p)); NewModel name 0 (RangeList v) t u; NewArray (A1 (VA pts)); Assign 0 j c; Evaluate 1 2 t' u'])) 4 =
  nth_error (fst (h_run X start [NewArray (A1 (VA (replace j c p))); NewModel name 0 (RangeList v) t u; NewArray (A1 (VA pts)); Evaluate 1 2 t' u'])) 3.
Proof. exact C93_coefficients_refuted_l. Qed.
Print Assumptions C93_coefficients_refuted.

Example C93_coefficients_ex X : nth_error (fst (h_run X start [NewArray (A1 (VA [Fin 0; Fin 1; Fin 0.01])); NewModel "Sellmeier" 0 (RangeList (VA [Fin 0.5; Fin 2])) "wavelength" "um"])) 1 = Some Silent.
Proof.
  rewrite C92_values by (intros [|? [|? [|? ?]]] i k v a E; discriminate E). cbn [v_run v_step nth_error app].
  eassert (M : mk_material no_file [("model_kw", PDict (mkKw (Some "Sellmeier") (Some [Fin 0; Fin 1; Fin 0.01]) (Some (InVals (VA [Fin 0.5; Fin 2]))) (Some "wavelength") (Some "um")))] = Ok _) by (rcv; reflexivity).
  change (dget model_names "Sellmeier") with (Some Sellmeier). cbv iota. rewrite M. reflexivity.
Qed.

(** C93 refuted for spectra in metres: the result of convert_to is the array the spectrum was made of. *)
Theorem C93_metres_refuted : forall X l k v, (k < length l)%nat ->
  fst (h_run X start [NewArray (A1 (VA l)); NewSpectrum 0 "wavelength" "m"; Convert 1 "wavelength" "m"; Assign 2 k v; Look 0; Convert 1 "wavelength" "m"]) =
  [Array (A1 (VA l)); Silent; Array (A1 (VA l)); Silent; Array (A1 (VA (replace k v l))); Array (A1 (VA (replace k v l)))].
Proof. exact C93_metres_refuted_l. Qed.
Print Assumptions C93_metres_refuted.

(** C93 refuted for spectra in other units: assigning to the array afterwards changes s.values and not
    what s converts to, not even in the unit of s. *)
Theorem C93_values_refuted : forall X l k v, (k < length l)%nat ->
  exists y, fst (h_run X start [NewArray (A1 (VA l)); NewSpectrum 0 "wavelength" "nm"; Convert 1 "wavelength" "nm"; Assign 0 k v; Values 1; Convert 1 "wavelength" "nm"]) =
  [Array (A1 (VA l)); Silent; Array (A1 (VA y)); Silent; Array (A1 (VA (replace k v l))); Array (A1 (VA y))].
Proof. exact C93_values_refuted_l. Qed.
Print Assumptions C93_values_refuted.
