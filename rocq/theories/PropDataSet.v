(** Theorems about reading yaml data files (C89). *)
From Verif Require Import PyBase PyStr XReal CNum SpectrumModel SpectrumSpec SpectralModel SpectralSpec TextModel TextSpec TextProofs TableProofs MaterialModel MaterialSpec MaterialProofs MatFileProofs FileModel ReaderModel WriterModel IOSpec LineProofs TextFileProofs DisplayProofs PathProofs CycleProofs MaterialThms LoadSpec LoadProofs LoadThms SaveSpec DataSetSpec DataSetProofs.
From Coq Require Import Permutation.
From Verif Require Import DataSetThms.
Open Scope R_scope.
Open Scope string_scope.
Open Scope list_scope.

(** C89: what the Reader returns for a yaml file: the data sets in the order of the file, with the
    values of their keys, and the metadata of the top level *)
Theorem C89_reads : forall fk dk yl fs path text doc l,
  Permutation FILE_META_DATA_KEYS fk -> Permutation DATASET_META_DATA_KEYS dk ->
  named path ".yml" -> dget fs path = Some text -> yl text = Ok (YDict doc) ->
  top_level doc -> dget doc "DATA" = Some (NSeq l) -> (forall ds, In ds l -> exists v, set_data ds v) ->
  exists fd, read_path fk dk yl fs path = Ok fd /\
    Forall2 (fun ds f =>
      (forall v, set_data ds v -> ds_data f = v) /\
      (forall t, kind ds t -> (forall k w, In (k, w) ds -> ~ In (upper k) letters) -> ds_type f = DStr t) /\
      (forall v, gives ds range_keys v -> ds_range f = v) /\
      (forall v, gives ds ["SPECTRUMTYPE"] v -> ds_stype f = v) /\
      (forall v, gives ds ["UNIT"] v -> ds_unit f = v) /\
      (forall v, gives ds ["YIELDS"] v -> ds_yields f = v)) l (fd_sets fd) /\
    (forall key kw v, In (key, kw) meta_keywords -> doc_says doc kw v -> dget (fd_meta fd) key = Some v) /\
    dget (fd_meta fd) "Specification" = Some match dget doc "SPECS" with Some n => node_val n | None => MMap [] end /\
    meta_complete (fd_meta fd).
Proof. exact C89_reads_l. Qed.
Print Assumptions C89_reads.

(** C89: DATA that is not a list of data sets (a single mapping without the dash, a number, a text) makes the file unreadable *)
Theorem C89_not_a_list : forall fk dk yl fs path text doc v,
  Permutation FILE_META_DATA_KEYS fk -> Permutation DATASET_META_DATA_KEYS dk ->
  named path ".yml" -> dget fs path = Some text -> yl text = Ok (YDict doc) ->
  top_level doc -> dget doc "DATA" = Some (NVal v) -> v <> MStr "" -> v <> MMap [] ->
  read_path fk dk yl fs path = Raise TypeError.
Proof. exact C89_not_a_list_l. Qed.
Print Assumptions C89_not_a_list.

(** C89: a data set without type, of unknown type or without data makes the whole file unreadable *)
Theorem C89_unusable : forall fk dk yl fs path text doc a ds b,
  Permutation FILE_META_DATA_KEYS fk -> Permutation DATASET_META_DATA_KEYS dk ->
  named path ".yml" -> dget fs path = Some text -> yl text = Ok (YDict doc) ->
  top_level doc -> dget doc "DATA" = Some (NSeq (a ++ ds :: b)) -> (forall d, In d a -> exists v, set_data d v) -> unusable ds ->
  read_path fk dk yl fs path = Raise KeyError.
Proof. exact C89_unusable_l. Qed.
Print Assumptions C89_unusable.

(** C89: a key of a data set that is one of the letters t, y, p, e (a temperature T, say) replaces
    the type of the data, so that the file cannot be used *)
Theorem C89_letter_key_refuted : forall fk dk yl fs path text doc ds v k w kw t0 u0,
  Permutation FILE_META_DATA_KEYS fk -> Permutation DATASET_META_DATA_KEYS dk ->
  named path ".yml" -> dget fs path = Some text -> yl text = Ok (YDict doc) ->
  top_level doc -> dget doc "DATA" = Some (NSeq [ds]) -> set_data ds v -> gives ds letters w -> In (k, w) ds -> In (upper k) letters ->
  (exists fd f, read_path fk dk yl fs path = Ok fd /\ fd_sets fd = [f] /\ ds_type f = w) /\
  (call kw "file_path" (PStr path) t0 u0 -> (forall s, w <> DStr s) -> mk_material (read_path fk dk yl fs) kw = Raise AttributeError).
Proof. exact C89_letter_key_refuted_l. Qed.
Print Assumptions C89_letter_key_refuted.

(** C89: a file with one table gives the same optical data, or raises the same exception, as giving
    the numbers to the constructor as an array *)
Theorem C89_same_as_array : forall fk dk yl rd fs path text doc ds kd s n id src rows t u kw kw' t0 u0,
  Permutation FILE_META_DATA_KEYS fk -> Permutation DATASET_META_DATA_KEYS dk ->
  named path ".yml" -> dget fs path = Some text -> yl text = Ok (YDict doc) ->
  top_level doc -> dget doc "DATA" = Some (NSeq [ds]) ->
  kind ds kd -> line_text kd ["tabulated"; id] -> set_data ds (DStr s) -> MaterialSpec.holds_table (DStr s) n rows -> table_ok n rows ->
  In (id, src, n) [("nk", "tabulated_nk", 3%nat); ("eps", "tabulated_eps", 3%nat); ("n", "tabulated_n", 2%nat)] ->
  (forall k w, In (k, w) ds -> ~ In (upper k) letters) ->
  gives ds ["SPECTRUMTYPE"] (DStr t) -> gives ds ["UNIT"] (DStr u) ->
  call kw "file_path" (PStr path) t0 u0 -> call kw' src (PArr (ND2 n (to_xr rows))) (or_default t t0) (or_default u u0) ->
  same_data (mk_material (read_path fk dk yl fs) kw) (mk_material rd kw').
Proof. exact C89_same_as_array_l. Qed.
Print Assumptions C89_same_as_array.

(** C89: a file with one formula or model builds the model of that number or name with the
    coefficients and the range of the file *)
Theorem C89_formula : forall fk dk yl fs path text doc ds kd dt id k cs params rs rng t u kw t0 u0 d,
  Permutation FILE_META_DATA_KEYS fk -> Permutation DATASET_META_DATA_KEYS dk ->
  named path ".yml" -> dget fs path = Some text -> yl text = Ok (YDict doc) ->
  top_level doc -> dget doc "DATA" = Some (NSeq [ds]) ->
  kind ds kd -> line_text kd [dt; id] ->
  (dt = "formula" /\ In (id, k) documented_formulas) \/ (dt = "model" /\ In (id, k) documented_models) ->
  set_data ds (DStr cs) -> numbers_text cs params -> gives ds range_keys (DStr rs) -> rs <> "" -> numbers_text rs rng ->
  (forall k w, In (k, w) ds -> ~ In (upper k) letters) ->
  gives ds ["SPECTRUMTYPE"] (DStr t) -> gives ds ["UNIT"] (DStr u) -> call kw "file_path" (PStr path) t0 u0 ->
  mk_model k params (InVals (VA rng)) (or_default t t0) (or_default u u0) = Ok d ->
  exists m, mk_material (read_path fk dk yl fs) kw = Ok m /\ m_stype m = or_default t t0 /\ m_unit m = or_default u u0 /\
    ((permittivity_model k /\ m_name m = "eps" /\ m_complex m = Some d) \/
     (~ permittivity_model k /\ m_name m = "nk" /\ m_complex m = None /\ m_real m = d /\ zero_data (m_imag m))).
Proof. exact C89_formula_l. Qed.
Print Assumptions C89_formula.

(** a file in the format of refractiveindex.info with a table, and one with a formula *)
Definition ag_set : dict dval := [("type", DStr "tabulated nk"); ("data", DStr ("0.4 1.5 2" ++ NL ++ "0.5 1.25 1e-1" ++ NL))].
Definition bk7_set : dict dval := [("type", DStr "formula 2"); ("wavelength_range", DStr "0.3 2.5"); ("coefficients", DStr "0 1.04 0.006")].
Definition ag_doc (ds : dict dval) : dict ynode :=
  [("REFERENCES", NVal (MStr "P. B. Johnson and R. W. Christy")); ("COMMENTS", NVal (MStr "20 C")); ("DATA", NSeq [ds])].
Example C89_table_set : kind ag_set "tabulated nk" /\ set_data ag_set (DStr ("0.4 1.5 2" ++ NL ++ "0.5 1.25 1e-1" ++ NL)) /\
  gives ag_set ["UNIT"] (DStr "") /\ forall k w, In (k, w) ag_set -> ~ In (upper k) letters.
Proof.
  assert (kind ag_set "tabulated nk") as K by (exists "tabulated nk"; split; [now left|reflexivity]).
  split; [exact K|]. split.
  { exists "tabulated nk", "data", "Data". split; [exact K|]. split; [right; split; [now exists " nk"|split; reflexivity]|now left]. }
  split.
  - left. split; [|reflexivity]. intros k w [E|[E|[]]]; injection E as <- _; cbn; intuition discriminate.
  - intros k w [E|[E|[]]]; injection E as <- _; cbn; intuition discriminate.
Qed.
Example C89_formula_set : kind bk7_set "formula 2" /\ line_text "formula 2" ["formula"; "2"] /\ set_data bk7_set (DStr "0 1.04 0.006") /\
  gives bk7_set range_keys (DStr "0.3 2.5") /\ In ("2", Sellmeier2) documented_formulas /\ forall k w, In (k, w) bk7_set -> ~ In (upper k) letters.
Proof.
  assert (kind bk7_set "formula 2") as K by (exists "formula 2"; split; [now left|reflexivity]).
  split; [exact K|]. split; [exact (split_ws_sound "formula 2")|]. split.
  { exists "formula 2", "coefficients", "Parameters". split; [exact K|]. split; [left; split; [left; now exists " 2"|split; reflexivity]|now left]. }
  split.
  - right. exists [("type", DStr "formula 2")], "wavelength_range", [("coefficients", DStr "0 1.04 0.006")]. split; [reflexivity|].
    split; [cbn; tauto|]. intros k w [E|[]]; injection E as <- _; cbn; intuition discriminate.
  - split; [cbn; tauto|]. intros k w [E|[E|[E|[]]]]; injection E as <- _; cbn; intuition discriminate.
Qed.
Example C89_document : forall ds, top_level (ag_doc ds) /\ dget (ag_doc ds) "DATA" = Some (NSeq [ds]) /\
  doc_says (ag_doc ds) "REFERENCE" (MStr "P. B. Johnson and R. W. Christy") /\ doc_says (ag_doc ds) "AUTHOR" (MStr "").
Proof.
  intros ds. split; [split; [repeat (constructor; [cbn; intuition discriminate|]); constructor|]|].
  { intros k Hk. cbn in Hk. destruct Hk as [<-|[<-|[<-|[]]]]; reflexivity. }
  split; [reflexivity|]. split.
  - right. eexists [], "REFERENCES", _, _. split; [reflexivity|]. split; [now exists "S"|]. split; [reflexivity|].
    intros k n [E|[E|[]]] [r P]; injection E as <- _; discriminate P.
  - left. split; [|reflexivity]. intros k n [E|[E|[E|[]]]] [r P]; injection E as <- _; discriminate P.
Qed.
(** the dash before the data set forgotten *)
Example C89_no_dash : let doc := [("DATA", NVal (MMap [("type", "tabulated nk"); ("data", "0.4 1.5 2")])); ("COMMENTS", NVal (MStr "without dash"))] in
  top_level doc /\ dget doc "DATA" = Some (NVal (MMap [("type", "tabulated nk"); ("data", "0.4 1.5 2")])).
Proof.
  split; [|reflexivity]. split; [repeat constructor; cbn; intuition discriminate|]. intros k [<-|[<-|[]]]; reflexivity.
Qed.
Example C89_unusable_set : unusable [("type", DStr "tabulated nk"); ("DATA", DStr "1 2 3")] /\ unusable [("type", DStr "table nk"); ("data", DStr "1 2 3")] /\ unusable [("data", DStr "1 2 3")].
Proof.
  split; [|split].
  - right. right. exists "tabulated nk", "data", "Data". split; [exists "tabulated nk"; split; [now left|reflexivity]|].
    split; [right; split; [now exists " nk"|split; reflexivity]|split; reflexivity].
  - right. left. exists "table nk". split; [exists "table nk"; split; [now left|reflexivity]|].
    intros a b [([[r E]|[r E]] & _)|([r E] & _)]; discriminate E.
  - left. split; reflexivity.
Qed.
(** a temperature of 300 beside the table *)
Example C89_temperature : let ds := ag_set ++ [("T", DOther true)] in
  set_data ds (DStr ("0.4 1.5 2" ++ NL ++ "0.5 1.25 1e-1" ++ NL)) /\ gives ds letters (DOther true) /\ In ("T", DOther true) ds.
Proof.
  split; [|split].
  - exists "tabulated nk", "data", "Data". split; [exists "tabulated nk"; split; [now left|reflexivity]|]. split; [right; split; [now exists " nk"|split; reflexivity]|now left].
  - right. exists ag_set, "T", []. split; [reflexivity|]. split; [cbn; tauto|]. intros k w [].
  - cbn; tauto.
Qed.
