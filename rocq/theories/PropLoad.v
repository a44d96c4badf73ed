(** Theorems about loading text files (C88). *)
From Verif Require Import PyBase PyStr XReal CNum SpectrumModel SpectrumSpec SpectralModel SpectralSpec TextModel TextSpec TextProofs TableProofs MaterialModel MaterialSpec MaterialProofs MatFileProofs FileModel ReaderModel WriterModel IOSpec LineProofs FmtProofs TextFileProofs DisplayProofs PathProofs CycleProofs LoadSpec LoadProofs.
From Coq Require Import Permutation.
From Verif Require Import LoadThms.
Open Scope R_scope.
Open Scope string_scope.
Open Scope list_scope.

(** C88: what the Reader returns for a text file: the numbers, and the values the header gives *)
Theorem C88_reads : forall fk dk yl fs path ext text header rows nums n,
  Permutation FILE_META_DATA_KEYS fk -> Permutation DATASET_META_DATA_KEYS dk ->
  In ext text_exts -> named path ext -> dget fs path = Some text -> text_table ext text header rows ->
  Forall2 (Forall2 (number_text false)) rows nums -> (2 <= length nums)%nat -> (2 <= n)%nat -> Forall (fun r => length r = n) nums ->
  exists fd d, read_path fk dk yl fs path = Ok fd /\ fd_sets fd = [d] /\ ds_data d = DArr (ND2 n nums) /\
    (forall v, says "SPECTRUMTYPE" header v -> ds_stype d = DStr v) /\
    (forall v, says "UNIT" header v -> ds_unit d = DStr v) /\
    (forall v, says "DATATYPE" header v -> ds_type d = DStr (or_default v (columns_type n))) /\
    (forall key kw v, In (key, kw) meta_keywords -> says kw header v -> dget (fd_meta fd) key = Some (MStr v)) /\
    dget (fd_meta fd) "Specification" = Some (MMap []) /\
    (forall p, plain_lines header p -> p <> [] -> dget (fd_meta fd) "MetaComment" = Some (MStr (each_line p))) /\
    (forall v, plain_lines header [] -> says "METACOMMENT" header v -> dget (fd_meta fd) "MetaComment" = Some (MStr v)).
Proof. exact C88_reads_l. Qed.
Print Assumptions C88_reads.

(** C88: loading such a file gives the same optical data, or raises the same exception, as giving
    the numbers to the constructor as an array; type and unit come from the header or, if it does
    not give them, from the arguments, and the data type from the header or from the number of columns *)
Theorem C88_same_as_array : forall fk dk yl rd fs path ext text header rows nums n id src dt t u kw kw' t0 u0,
  Permutation FILE_META_DATA_KEYS fk -> Permutation DATASET_META_DATA_KEYS dk ->
  In ext text_exts -> named path ext -> dget fs path = Some text -> text_table ext text header rows ->
  Forall2 (Forall2 (number_text false)) rows nums -> (2 <= length nums)%nat -> Forall (fun r => length r = n) nums ->
  In (id, src, n) [("nk", "tabulated_nk", 3%nat); ("eps", "tabulated_eps", 3%nat); ("n", "tabulated_n", 2%nat)] ->
  says "DATATYPE" header dt -> line_text (or_default dt (columns_type n)) ["tabulated"; id] ->
  says "SPECTRUMTYPE" header t -> says "UNIT" header u ->
  call kw "file_path" (PStr path) t0 u0 -> call kw' src (PArr (ND2 n nums)) (or_default t t0) (or_default u u0) ->
  same_data (mk_material (read_path fk dk yl fs) kw) (mk_material rd kw').
Proof. exact C88_same_as_array_l. Qed.
Print Assumptions C88_same_as_array.

(** C88: a file whose name does not end in .txt, .csv, .nk or .yml is refused whatever it contains, and whether it exists or not *)
Theorem C88_extension : forall fk dk yl fs path,
  (forall a ext, In ext [".txt"; ".csv"; ".nk"; ".yml"] -> path <> (a ++ ext)%string) ->
  read_path fk dk yl fs path = Raise ValueError /\
  mk_material (read_path fk dk yl fs) [("file_path", PStr path)] = Raise ValueError.
Proof. exact C88_extension_l. Qed.
Print Assumptions C88_extension.

(** an office document with the table in it *)
Example C88_extension_instance : forall a ext, In ext [".txt"; ".csv"; ".nk"; ".yml"] -> "data/silver.xlsx" <> (a ++ ext)%string.
Proof.
  intros a ext H E. apply (f_equal chars) in E. rewrite chars_app in E. apply (f_equal (@rev Ascii.ascii)) in E. rewrite rev_app_distr in E.
  cbn in H. destruct H as [<-|[<-|[<-|[<-|[]]]]]; cbn in E; discriminate E.
Qed.

(** C88: the documentation allows comment lines that start with '#' or ';', but only one of the two
    may be used: ';' in a .nk file, '#' in a .txt or .csv file. A line that starts with the other one
    makes the file unreadable. *)
Theorem C88_other_mark_refuted : forall fk dk yl fs path ext text lines s,
  In ext text_exts -> named path ext -> dget fs path = Some text ->
  file_text lines text -> Forall one_line lines -> In (String (other_mark ext) s) lines ->
  read_path fk dk yl fs path = Raise ValueError /\
  mk_material (read_path fk dk yl fs) [("file_path", PStr path)] = Raise ValueError.
Proof. exact C88_other_mark_refuted_l. Qed.
Print Assumptions C88_other_mark_refuted.

(** a file with a header, Windows line ends, a comment after a row and an empty line *)
Definition gold_lines : list string :=
  ["; NAME: Au"; ";measured at 300 K"; "; UNIT: um"; ";"; "0.4  1.5 2"; "0.5" ++ TAB ++ "1.25 1e-1 ; checked"; ""; " 0.6 1 0"]%string.
Definition gold_text : string := fold_right append "" (map (fun l => l ++ CRLF)%string gold_lines).
Definition gold_rows : list (list string) := [["0.4"; "1.5"; "2"]; ["0.5"; "1.25"; "1e-1"]; ["0.6"; "1"; "0"]].
Definition gold_nums : list (list R) := [[0.4; 1.5; 2]; [0.5; 1.25; 0.1]; [0.6; 1; 0]].
Local Ltac one_dec := intros c Hc; vm_compute in Hc; repeat (destruct Hc as [<-|Hc]; [vm_compute; intuition discriminate|]); destruct Hc.
Example C88_table : text_table ".nk" gold_text [" NAME: Au"; "measured at 300 K"; " UNIT: um"; ""] gold_rows.
Proof.
  exists (skipn 4 gold_lines), [["0.4"; "1.5"; "2"]; ["0.5"; "1.25"; "1e-1"]; []; ["0.6"; "1"; "0"]].
  split. { cbn [skipn gold_lines map app comment_mark String.eqb Ascii.eqb Bool.eqb].
    unfold gold_text, gold_lines. cbn [map fold_right].
    do 8 (rewrite app_assoc_s; apply ft_line; [now right|]). apply ft_nil. }
  split; [repeat (apply Forall_cons || apply Forall_nil); one_dec|]. split; [cbn [skipn gold_lines]; repeat (apply Forall_cons || apply Forall_nil); one_dec|].
  split; [|split; [|reflexivity]].
  - cbn [skipn gold_lines]. constructor; [|constructor; [|constructor; [|constructor; [|constructor]]]].
    + exists "0.4  1.5 2". split; [|split; [|now left]]; [apply cells_space; [discriminate|]; apply split_ws_iff; reflexivity|vm_compute; intuition discriminate].
    + exists ("0.5" ++ TAB ++ "1.25 1e-1 ")%string. split; [|split; [|right; now exists " checked"]]; [apply cells_space; [discriminate|]; apply split_ws_iff; reflexivity|vm_compute; intuition discriminate].
    + exists "". split; [|split; [|now left]]; [apply cells_space; [discriminate|]; apply split_ws_iff; reflexivity|vm_compute; intuition discriminate].
    + exists " 0.6 1 0". split; [|split; [|now left]]; [apply cells_space; [discriminate|]; apply split_ws_iff; reflexivity|vm_compute; intuition discriminate].
  - cbn [skipn gold_lines]. intros l r E. injection E as <- _. intros r'. split; discriminate.
Qed.
Local Ltac number := match goal with |- number_text false ?t (Fin ?y) =>
  let So := fresh in
  assert (So : solid t) by (split; [discriminate|cbn; intros c H; repeat (destruct H as [<-|H]; [reflexivity|]); destruct H]);
  let K := fresh in
  eassert (K : number_text false t _) by (apply (number_of t _ So); reflexivity);
  match type of K with number_text _ _ (Fin ?x) => replace y with x; [exact K|] end;
  match goal with |- dec_val ?b ?m ?e = _ => let m' := eval vm_compute in m in let e' := eval vm_compute in e in change (dec_val b m' e' = y) end;
  unfold dec_val; simpl; lra end.
Example C88_numbers : Forall2 (Forall2 (number_text false)) gold_rows (map (map Fin) gold_nums).
Proof. cbn [gold_rows gold_nums map]. repeat (apply Forall2_cons || apply Forall2_nil); number. Qed.
Local Ltac no_kw := apply not_keyword; reflexivity.
Example C88_says : says "UNIT" [" NAME: Au"; "measured at 300 K"; " UNIT: um"; ""] "um" /\
  says "DATATYPE" [" NAME: Au"; "measured at 300 K"; " UNIT: um"; ""] "" /\
  says "NAME" [" NAME: Au"; "measured at 300 K"; " UNIT: um"; ""] "Au" /\
  plain_lines [" NAME: Au"; "measured at 300 K"; " UNIT: um"; ""] ["measured at 300 K"; ""].
Proof.
  split. { right. exists [" NAME: Au"; "measured at 300 K"], " UNIT: um", [""]. split; [reflexivity|]. split.
    - exists " UNIT", " um", " ", "". split; [reflexivity|]. split; [vm_compute; intuition discriminate|]. split; [reflexivity|]. split; [|reflexivity]. intros c Hc; cbn in Hc; intuition (subst; reflexivity).
    - intros l [<-|[]]. no_kw. }
  split. { left. split; [|reflexivity]. intros l H. cbn [In] in H. destruct H as [<-|[<-|[<-|[<-|[]]]]]; no_kw. }
  split. { right. exists [], " NAME: Au", ["measured at 300 K"; " UNIT: um"; ""]. split; [reflexivity|]. split.
    - exists " NAME", " Au", " ", "". split; [reflexivity|]. split; [vm_compute; intuition discriminate|]. split; [reflexivity|]. split; [|reflexivity]. intros c Hc; cbn in Hc; intuition (subst; reflexivity).
    - intros l H. cbn [In] in H. destruct H as [<-|[<-|[<-|[]]]]; no_kw. }
  assert (forall l, In l ["measured at 300 K"; ""] -> forall kw, In kw keywords -> ~ keyword_line kw l) as N.
  { intros l Hl kw Hkw. cbn [In] in Hl. cbn [In keywords] in Hkw. destruct Hl as [<-|[<-|[]]]; repeat (destruct Hkw as [<-|Hkw]; [no_kw|]); destruct Hkw. }
  apply (pl_drop _ _ _ "NAME"); [cbn; tauto| |].
  { exists " NAME", " Au", " ", "". split; [reflexivity|]. split; [vm_compute; intuition discriminate|]. split; [reflexivity|]. intros c Hc; cbn in Hc; intuition (subst; reflexivity). }
  apply pl_keep; [apply N; cbn; tauto|]. apply (pl_drop _ _ _ "UNIT"); [cbn; tauto| |].
  { exists " UNIT", " um", " ", "". split; [reflexivity|]. split; [vm_compute; intuition discriminate|]. split; [reflexivity|]. intros c Hc; cbn in Hc; intuition (subst; reflexivity). }
  apply pl_keep; [apply N; cbn; tauto|]. apply pl_nil.
Qed.
(** ... loads as the array *)
Example C88_gold : forall fk dk yl, Permutation FILE_META_DATA_KEYS fk -> Permutation DATASET_META_DATA_KEYS dk ->
  same_data (mk_material (read_path fk dk yl [("au.nk", gold_text)]) [("file_path", PStr "au.nk")])
    (mk_material (read_path fk dk yl []) [("tabulated_nk", PArr (ND2 3 (map (map Fin) gold_nums))); ("spectrum_type", PStr "wavelength"); ("unit", PStr "um")]).
Proof.
  intros fk dk yl Pf Pd. destruct C88_says as (S1 & S2 & _).
  apply (C88_same_as_array fk dk yl (read_path fk dk yl []) _ "au.nk" ".nk" gold_text [" NAME: Au"; "measured at 300 K"; " UNIT: um"; ""] gold_rows (map (map Fin) gold_nums) 3 "nk" "tabulated_nk" "" "" "um" _ _ "wavelength" "nanometer" Pf Pd);
    try assumption.
  - cbn; tauto.
  - exists "a", "u"%char. repeat split; discriminate.
  - reflexivity.
  - apply C88_table.
  - apply C88_numbers.
  - cbn; lia.
  - repeat constructor.
  - cbn; tauto.
  - apply split_ws_iff. reflexivity.
  - left. split; [|reflexivity]. intros l H. cbn [In] in H. destruct H as [<-|[<-|[<-|[<-|[]]]]]; no_kw.
  - a_call.
  - a_call.
Qed.
(** ... and is not readable under the name au.txt *)
Example C88_gold_txt : forall fk dk yl,
  mk_material (read_path fk dk yl [("au.txt", gold_text)]) [("file_path", PStr "au.txt")] = Raise ValueError.
Proof.
  intros fk dk yl. refine (proj2 (C88_other_mark_refuted fk dk yl [("au.txt", gold_text)] "au.txt" ".txt" gold_text gold_lines " NAME: Au" _ _ _ _ _ _)).
  - cbn; tauto.
  - exists "a", "u"%char. repeat split; discriminate.
  - reflexivity.
  - unfold gold_text, gold_lines. cbn [map fold_right]. do 8 (rewrite app_assoc_s; apply ft_line; [now right|]). apply ft_nil.
  - unfold gold_lines. repeat (apply Forall_cons || apply Forall_nil); one_dec.
  - now left.
Qed.
