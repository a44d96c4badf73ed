(** Theorems about the catalogue rows of the example files that the setup script writes (C94). *)
From Verif Require Import PyBase PyStr XReal CNum TextModel SpectrumModel SpectrumSpec SpectrumProofs SpectralModel SpectralSpec SpectralProofs InterpProofs ExtrapProofs SpectrumThms SpectralThms MaterialModel MaterialSpec MaterialProofs MatFileProofs MaterialThms FileModel ReaderModel WriterModel PathModel IOSpec SaveProofs CycleProofs YamlSpec CatalogueModel CatalogueSpec NormProofs ListProofs ListingThms ExampleModel ExampleSpec ExampleThms ListedSpec.
From Coq Require Import Permutation.
From Verif Require Import ListedThms.
Open Scope R_scope.
Open Scope string_scope.
Open Scope list_scope.

(** C94: the catalogue of the folder that the setup script has filled: the two example files in the
    order of the listing, each with the texts of the script; the table from 400 to 700 nm with the
    index and extinction at the reference wavelength [r], the formula with the range that it shares
    with its table *)
Theorem C94_examples_listed : forall W disp yl dir fs fk dk X r u ref w v,
  shows W disp -> yaml_library W yl -> Permutation FILE_META_DATA_KEYS fk -> Permutation DATASET_META_DATA_KEYS dk ->
  (forall all x, incl all (concat (table_of (xrows table_n)) ++ concat (table_of (xrows table_k))) -> In x all -> disp all x = x) ->
  In u ["nm"; "nanometer"] -> mk_spectrum (InVals (VS (Fin r))) "wavelength" u = Ok ref ->
  401 <= r <= 699 -> rounds_for "nm" r w -> rounds_for "um" (r / 1000) v ->
  exists ops, make_examples W dir fs = (Ok tt, ops) /\
    forall C, (forall f, In f ["example_file.txt"; "example_file2.yml"] ->
        w_read C (path_join dir f) = read_path fk dk yl (fs_run fs ops) (path_join dir f) /\ w_isfile C (path_join dir f) = true) ->
      (w_listdir C dir = Ok ["example_file.txt"; "example_file2.yml"] ->
        exists a b, read_module X C ref dir "UserData" = Ok [a; b] /\ txt_row w a /\ yml_row w v b) /\
      (w_listdir C dir = Ok ["example_file2.yml"; "example_file.txt"] ->
        exists a b, read_module X C ref dir "UserData" = Ok [b; a] /\ txt_row w a /\ yml_row w v b).
Proof. exact C94_examples_listed_l. Qed.
Print Assumptions C94_examples_listed.

From Verif Require Import ConfigModel ShowsProofs YamlCodec YamlSample.
Open Scope string_scope. Open Scope list_scope.
(** the hypotheses hold: the reference wavelength of the default configuration, 632.8 nm *)
Example C94_instance X : exists ref ops, mk_spectrum (InVals (VS (Fin 632.8))) "wavelength" "nm" = Ok ref /\
  make_examples yaml_env "/home/user/UserData" [] = (Ok tt, ops) /\
  let C := mkWorld (mkChecks (fun _ => true) (fun _ => Ok true)) (fun _ => true) (fun _ => Ok ["example_file.txt"; "example_file2.yml"])
             (read_path FILE_META_DATA_KEYS DATASET_META_DATA_KEYS sample_load (fs_run [] ops)) (fun _ => Raise FileNotFoundError) (fun _ => Raise FileNotFoundError) false in
  exists a b, read_module X C ref "/home/user/UserData" "UserData" = Ok [a; b] /\ r_n a = Fin 1.4672 /\ r_k a = Fin 0 /\ r_lo a = Fin 400 /\ r_hi a = Fin 700 /\ r_name b = KStr "example_file2".
Proof.
  destruct (mk_spectrum (InVals (VS (Fin 632.8))) "wavelength" "nm") as [ref|] eqn:M; [|discriminate].
  assert (rounds_for "nm" 632.8 632.8) as Rw by (apply rounds_decimal with (n := 632800000000000%Z); lra).
  assert (rounds_for "um" (632.8 / 1000) 0.6328) as Rv by (replace (632.8 / 1000) with 0.6328 by lra; apply rounds_decimal_um with (n := 632800000%Z); lra).
  destruct (C94_examples_listed yaml_env sample_disp sample_load "/home/user/UserData" [] FILE_META_DATA_KEYS DATASET_META_DATA_KEYS X 632.8 "nm" ref 632.8 0.6328
    yaml_env_shows sample_library (Permutation_refl _) (Permutation_refl _) example_display (or_introl eq_refl) M ltac:(lra) Rw Rv) as (ops & S & H).
  exists ref, ops. split; [reflexivity|]. split; [exact S|]. intros C. destruct (H C ltac:(intros; split; reflexivity)) as [K _].
  destruct (K eq_refl) as (a & b & E & (_ & A1 & A2 & A3 & A4) & (_ & B1 & _) & _). exists a, b. split; [exact E|].
  unfold table_index in A3. unfold table_extinction in A4. rewrite Rmax_left in A4 by lra.
  split; [rewrite A3; f_equal; lra|]. split; [exact A4|]. split; [exact A1|]. split; [exact A2|exact B1].
Qed.
