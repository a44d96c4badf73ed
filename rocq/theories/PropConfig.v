(** Theorems about the configuration: lookup, validation, file names (C59, C60, C71). *)
From Verif Require Import PyBase PyStr XReal IOSpec LineProofs FileModel PathModel ConfigModel CatalogueSpec NormProofs DiskModel SetupModel SetupSpec DiskProofs SetupProofs.
From Verif Require Import ConfigThms.
Open Scope R_scope.
Open Scope string_scope.
Open Scope list_scope.

(** a home directory, a package directory and a file system *)
Definition some_home := ["home"; "ada"].
Definition some_package := ["usr"; "lib"; "dispersion"].
Definition some_dirs := map abs_path [[]; ["home"]; ["home"; "ada"]; ["home"; "ada"; ".config"]; ["usr"]; ["usr"; "lib"]; ["usr"; "lib"; "dispersion"]; ["tmp"]].
Lemma some_names : Forall os_name some_home /\ Forall os_name some_package.
Proof.
  unfold os_name, plain_name, chars, some_home, some_package. split; repeat constructor; try discriminate; cbn; intros H; repeat (destruct H as [H|H]; [discriminate|]); exact H.
Qed.

(** C59: the user's configuration file is used if there is one *)
Theorem C59_user : forall parse h package fs text, Forall os_name h -> can_open h fs -> is_file fs (user_file h) text ->
  exists fs', with_user_dir h fs fs' /\ read_config (Some (abs_path h)) package parse fs = (parse text, fs').
Proof. exact C59_user_l. Qed.
Print Assumptions C59_user.

(** C59: otherwise the file in the directory of the package *)
Theorem C59_package : forall parse h p fs text, Forall os_name h -> Forall os_name p -> can_open h fs ->
  no_file fs (user_file h) -> is_file fs (p ++ ["config.yaml"]) text ->
  exists fs', with_user_dir h fs fs' /\ read_config (Some (abs_path h)) (abs_path p) parse fs = (parse text, fs').
Proof. exact C59_package_l. Qed.
Print Assumptions C59_package.

(** C59: get_config returns a configuration that could be read *)
Theorem C59_found : forall home package parse fs c fs', read_config home package parse fs = (Ok c, fs') ->
  get_config home package parse fs = (Ok c, fs').
Proof. exact C59_found_l. Qed.
Print Assumptions C59_found.

(** C59: looking for the configuration changes no file; at most the user's directory is created *)
Theorem C59_looking : forall parse h package fs, Forall os_name h ->
  (forall r fs', read_config (Some (abs_path h)) package parse fs = (r, fs') -> with_user_dir h fs fs') /\
  (forall r fs', get_config (Some (abs_path h)) package parse fs = (r, fs') -> with_user_dir h fs fs') /\
  (forall r fs', import_config (Some (abs_path h)) package parse fs = (r, fs') -> with_user_dir h fs fs').
Proof. exact C59_looking_l. Qed.
Print Assumptions C59_looking.

(** C59 fails: without a configuration file get_config does not return the default values, as
    documented, but raises ValueError. (It is the import of the package that falls back.) *)
Theorem C59_no_file_refuted : forall parse h p fs, Forall os_name h -> Forall os_name p -> can_open h fs ->
  no_file fs (user_file h) -> no_file fs (p ++ ["config.yaml"]) ->
  exists fs', with_user_dir h fs fs' /\
    get_config (Some (abs_path h)) (abs_path p) parse fs = (Raise ValueError, fs') /\
    import_config (Some (abs_path h)) (abs_path p) parse fs = (parse (documented_text (abs_path (user_dir h))), fs').
Proof. exact C59_no_file_refuted_l. Qed.
Print Assumptions C59_no_file_refuted.

(** C59: the default values are never used: what get_config returns was read from one of the files *)
Theorem C59_never_default : forall parse h p fs c fs', Forall os_name h -> Forall os_name p -> no_os_error parse ->
  get_config (Some (abs_path h)) (abs_path p) parse fs = (Ok c, fs') ->
  exists text, parse text = Ok c /\ (is_file fs (user_file h) text \/ no_file fs (user_file h) /\ is_file fs (p ++ ["config.yaml"]) text).
Proof. exact C59_never_default_l. Qed.
Print Assumptions C59_never_default.

(** C59 fails: without the directory .config in the home directory, get_config raises
    FileNotFoundError even if the package has a configuration file; so does importing the package,
    and default_config *)
Theorem C59_no_directory_refuted : forall parse h package fs, Forall os_name h -> nothing_at fs (user_dir h) -> ~ is_dir fs (h ++ [".config"]) ->
  get_config (Some (abs_path h)) package parse fs = (Raise FileNotFoundError, fs) /\
  import_config (Some (abs_path h)) package parse fs = (Raise FileNotFoundError, fs) /\
  default_config (Some (abs_path h)) parse fs = (Raise FileNotFoundError, fs).
Proof. exact C59_no_directory_refuted_l. Qed.
Print Assumptions C59_no_directory_refuted.

(** C59: without HOME (and it is never consulted otherwise) everything raises KeyError *)
Theorem C59_no_home : forall parse package fs,
  get_config None package parse fs = (Raise KeyError, fs) /\ import_config None package parse fs = (Raise KeyError, fs).
Proof. exact C59_no_home_l. Qed.
Print Assumptions C59_no_home.

(** C59: a configuration written to the user's directory is what will be read, and nothing else
    on the disk changes *)
Theorem C59_written : forall creatable parse dump h package fs c, Forall os_name h -> creatable "config.yaml" = true ->
  is_dir fs (user_dir h) -> ~ is_dir fs (user_file h) -> parse (dump c) = Ok c ->
  exists fs', write_config creatable (Some (abs_path h)) package dump fs c (Some (abs_path (user_dir h))) = (Ok tt, fs') /\
    stored fs fs' (user_file h) (dump c) /\ get_config (Some (abs_path h)) package parse fs' = (Ok c, fs').
Proof. exact C59_written_l. Qed.
Print Assumptions C59_written.

(** C59: without a directory, write_config overwrites the file that read_config would read: here
    the one of the package *)
Theorem C59_written_package : forall creatable dump h p fs c, Forall os_name h -> Forall os_name p -> creatable "config.yaml" = true -> can_open h fs ->
  no_file fs (user_file h) -> (exists text, is_file fs (p ++ ["config.yaml"]) text) -> is_dir fs p -> ~ is_dir fs (p ++ ["config.yaml"]) ->
  user_dir h <> p ++ ["config.yaml"] ->
  exists fs1 fs', with_user_dir h fs fs1 /\ write_config creatable (Some (abs_path h)) (abs_path p) dump fs c None = (Ok tt, fs') /\
    stored fs1 fs' (p ++ ["config.yaml"]) (dump c).
Proof. exact C59_written_package_l. Qed.
Print Assumptions C59_written_package.

Example C59_example : exists fs fs' text, can_open some_home fs /\ no_file fs (user_file some_home) /\ is_file fs (some_package ++ ["config.yaml"]) text /\
  ~ is_dir fs (user_dir some_home) /\
  read_config (Some (abs_path some_home)) (abs_path some_package) (fun t => Ok [("File", CStr t)]) fs = (Ok [("File", CStr text)], fs').
Proof.
  set (fs := mkFs some_dirs [(abs_path (some_package ++ ["config.yaml"]), "text")]).
  assert (C : can_open some_home fs).
  { right. split; [split; [|reflexivity]|]; cbn; [intros H; repeat (destruct H as [H|H]; [discriminate|]); exact H|auto 10]. }
  destruct (C59_package (fun t => Ok [("File", CStr t)]) some_home some_package fs "text" (proj1 some_names) (proj2 some_names) C eq_refl eq_refl) as (fs' & W & R).
  exists fs, fs', "text". split; [exact C|]. split; [reflexivity|]. split; [reflexivity|]. split; [|exact R].
  cbn. intros H; repeat (destruct H as [H|H]; [discriminate|]); exact H.
Qed.
Example C59_written_example : exists fs fs', get_config (Some (abs_path some_home)) (abs_path some_package) (fun t => Ok [("File", CStr t)]) fs = (Ok [("File", CStr "my.csv")], fs') /\
  is_file fs (some_package ++ ["config.yaml"]) "theirs.csv".
Proof.
  set (fs := mkFs (abs_path (user_dir some_home) :: some_dirs) [(abs_path (some_package ++ ["config.yaml"]), "theirs.csv")]).
  destruct (C59_written (fun _ => true) (fun t => Ok [("File", CStr t)]) (fun c => match dget c "File" with Some (CStr t) => t | _ => "" end)
    some_home (abs_path some_package) fs [("File", CStr "my.csv")] (proj1 some_names) eq_refl) as (fs' & _ & S & G).
  - cbn. auto.
  - cbn. intros H; repeat (destruct H as [H|H]; [discriminate|]); exact H.
  - reflexivity.
  - exists fs', fs'. split; [exact G|]. destruct S as (_ & _ & S). unfold is_file. rewrite S by (vm_compute; discriminate). reflexivity.
Qed.
(** a home directory without .config *)
Example C59_no_directory_example : exists fs, nothing_at fs (user_dir ["root"]) /\ ~ is_dir fs (["root"] ++ [".config"]) /\ is_dir fs ["root"].
Proof.
  exists (mkFs [abs_path []; abs_path ["root"]] []). unfold nothing_at, is_dir, no_file. cbn. repeat split; auto; intros H; repeat (destruct H as [H|H]; [discriminate|]); exact H.
Qed.

(** C60: validate_config accepts exactly the valid configurations *)
Theorem C60_accepts : forall W c, validate_config W c = Ok tt <-> valid_config W c.
Proof. exact C60_accepts_l. Qed.
Print Assumptions C60_accepts.

(** C60: everything else raises. (Further entries are ignored: [valid_config] does not mention
    them.) *)
Theorem C60_rejects : forall W c, ~ valid_config W c -> exists e, validate_config W c = Raise e.
Proof. exact C60_rejects_l. Qed.
Print Assumptions C60_rejects.

(** C60: the first defect decides the error. A missing path is a KeyError, a path of another type
    a ValueError, a path that is no directory an OSError; likewise for the file name; a missing
    section is an AssertionError *)
Theorem C60_errors : forall W c,
  (dget c "Path" = None -> validate_config W c = Raise KeyError) /\
  (forall v, dget c "Path" = Some v -> (forall s, v <> CStr s) -> validate_config W c = Raise ValueError) /\
  (forall p, dget c "Path" = Some (CStr p) -> isdir W p = false -> validate_config W c = Raise OSError) /\
  (forall p, dget c "Path" = Some (CStr p) -> isdir W p = true ->
    (dget c "File" = None -> validate_config W c = Raise KeyError) /\
    (forall v, dget c "File" = Some v -> (forall s, v <> CStr s) -> validate_config W c = Raise ValueError) /\
    (forall f, dget c "File" = Some (CStr f) ->
       (forall e, valid_file_name W f = Raise e -> validate_config W c = Raise e) /\
       (valid_file_name W f = Ok false -> validate_config W c = Raise OSError) /\
       (forall i w, valid_file_name W f = Ok true -> dget c "Interactive" = Some (CBool i) -> dget c "WarnMissingPackages" = Some (CBool w) ->
          (dget c "Modules" = None -> validate_config W c = Raise AssertionError) /\
          (forall d, dget c "Modules" = Some (CMap d) -> (exists m v, In (m, v) d /\ forall b, v <> CBool b) -> validate_config W c = Raise ValueError) /\
          (forall d, dget c "Modules" = Some (CMap d) -> (forall m v, In (m, v) d -> exists b, v = CBool b) ->
             dget c "ReferenceSpectrum" = None -> validate_config W c = Raise AssertionError)))).
Proof. exact C60_errors_l. Qed.
Print Assumptions C60_errors.

(** C60: one entry of another type makes a valid configuration a ValueError *)
Theorem C60_wrong_type : forall W c, valid_config W c ->
  (forall k v, In k ["Interactive"; "WarnMissingPackages"] -> (forall b, v <> CBool b) -> validate_config W (dset c k v) = Raise ValueError) /\
  forall r, dget c "ReferenceSpectrum" = Some (CMap r) ->
    (forall v, (forall x, v <> CFloat x) -> validate_config W (dset c "ReferenceSpectrum" (CMap (dset r "Value" v))) = Raise ValueError) /\
    (forall k v, In k ["SpectrumType"; "Unit"] -> (forall s, v <> CStr s) -> validate_config W (dset c "ReferenceSpectrum" (CMap (dset r k v))) = Raise ValueError).
Proof. exact C60_wrong_type_l. Qed.
Print Assumptions C60_wrong_type.

(** C60: a section of a valid configuration that is no mapping (left empty, or a list): AttributeError for the
    modules, TypeError for the reference spectrum; an entry missing in the reference spectrum: KeyError *)
Theorem C60_sections : forall W c v, valid_config W c -> (forall d, v <> CMap d) ->
  validate_config W (dset c "Modules" v) = Raise AttributeError /\
  validate_config W (dset c "ReferenceSpectrum" v) = Raise TypeError /\
  forall r, dget r "Value" = None -> validate_config W (dset c "ReferenceSpectrum" (CMap r)) = Raise KeyError.
Proof. exact C60_sections_l. Qed.
Print Assumptions C60_sections.

(** C60: a reference value written as an integer ("Value: 600") is turned down *)
Theorem C60_integer : forall W c r, dget c "ReferenceSpectrum" = Some (CMap r) -> dget r "Value" = Some COther ->
  exists e, validate_config W c = Raise e.
Proof. exact C60_integer_l. Qed.
Print Assumptions C60_integer.

(** C60: the default configuration is valid, if the user's directory exists and "catalogue.csv" is
    a possible name *)
Theorem C60_default : forall W dir, isdir W dir = true -> valid_file_name W "catalogue.csv" = Ok true ->
  validate_config W (documented_default dir) = Ok tt.
Proof. exact C60_default_l. Qed.
Print Assumptions C60_default.

(** C60: and this is what default_config returns, with the user's directory as the path, if the yaml
    library reads the documented text *)
Theorem C60_default_config : forall parse h fs, Forall os_name h -> can_open h fs ->
  parse (documented_text (abs_path (user_dir h))) = Ok (documented_default (abs_path (user_dir h))) ->
  exists fs', with_user_dir h fs fs' /\ is_dir fs' (user_dir h) /\
    default_config (Some (abs_path h)) parse fs = (Ok (documented_default (abs_path (user_dir h))), fs').
Proof. exact C60_default_config_l. Qed.
Print Assumptions C60_default_config.

Example C60_example : valid_config (mkChecks (fun _ => true) (fun _ => Ok true)) (documented_default "/home/ada/.config/dispersion") /\
  ~ valid_config (mkChecks (fun _ => true) (fun _ => Ok true)) (dset (documented_default "/home/ada/.config/dispersion") "Modules" (CMap [("UserData", CStr "yes")])).
Proof.
  split; [apply C60_accepts, C60_default; reflexivity|]. intros [_ _ _ _ (d & E & B) _]. cbn in E. injection E as <-.
  destruct (B "UserData" (CStr "yes")) as [b K]; [now left|discriminate].
Qed.

(** C71: a plain name is accepted exactly when a file of that name can be created, and asking
    leaves no trace *)
Theorem C71_plain : forall creatable t fs name, Forall os_name t -> t <> [] -> fresh_dir fs (abs_path t) -> os_name name ->
  try_file_name creatable (abs_path t) fs name = (Ok (creatable name), fs).
Proof. exact C71_plain_l. Qed.
Print Assumptions C71_plain.

(** C71: the empty name is turned down *)
Theorem C71_empty : forall creatable t fs, Forall os_name t -> t <> [] -> fresh_dir fs (abs_path t) ->
  try_file_name creatable (abs_path t) fs "" = (Ok false, fs).
Proof. exact C71_empty_l. Qed.
Print Assumptions C71_empty.

(** C71: no file that exists is changed and no directory removed, whatever the name *)
Theorem C71_preserves : forall creatable t fs name r fs', Forall os_name t -> t <> [] -> fresh_dir fs (abs_path t) ->
  try_file_name creatable (abs_path t) fs name = (r, fs') -> preserves fs fs'.
Proof. exact C71_preserves_l. Qed.
Print Assumptions C71_preserves.

(** C71 fails for a name with a NUL character: ValueError instead of False *)
Theorem C71_nul_refuted : forall creatable t fs name, Forall os_name t -> t <> [] -> fresh_dir fs (abs_path t) -> In "000"%char (chars name) ->
  try_file_name creatable (abs_path t) fs name = (Raise ValueError, fs).
Proof. exact C71_nul_refuted_l. Qed.
Print Assumptions C71_nul_refuted.

(** C71 fails for absolute names: asking whether the name is valid creates an empty file of that
    name, outside the temporary directory, and leaves it there *)
Theorem C71_absolute_refuted : forall creatable t fs l x, Forall os_name t -> t <> [] -> fresh_dir fs (abs_path t) ->
  Forall os_name (l ++ [x]) -> in_dir (abs_path t) (abs_path (l ++ [x])) = false -> is_dir fs l -> nothing_at fs (l ++ [x]) -> creatable x = true ->
  exists fs', try_file_name creatable (abs_path t) fs (abs_path (l ++ [x])) = (Ok true, fs') /\ stored fs fs' (l ++ [x]) "".
Proof. exact C71_absolute_refuted_l. Qed.
Print Assumptions C71_absolute_refuted.

Example C71_example : exists fs, fresh_dir fs (abs_path ["tmp"; "x1"]) /\ try_file_name (fun _ => true) (abs_path ["tmp"; "x1"]) fs "catalogue.csv" = (Ok true, fs) /\
  fst (try_file_name (fun _ => true) (abs_path ["tmp"; "x1"]) fs "no/such/folder.csv") = Ok false /\
  fst (try_file_name (fun _ => true) (abs_path ["tmp"; "x1"]) fs ".") = Ok false /\
  fst (try_file_name (fun _ => true) (abs_path ["tmp"; "x1"]) fs "..") = Ok false /\
  try_file_name (fun _ => true) (abs_path ["tmp"; "x1"]) fs "/home/ada/empty" = (Ok true, mkFs (fs_dirs fs) (dset (fs_files fs) "/home/ada/empty" "")) /\
  try_file_name (fun _ => true) (abs_path ["tmp"; "x1"]) fs "../../home/ada/empty" = (Ok true, mkFs (fs_dirs fs) (dset (fs_files fs) "/home/ada/empty" "")).
Proof.
  exists (mkFs some_dirs [("/home/ada/notes", "n")]). split; [|repeat split; vm_compute; reflexivity].
  split; intros p.
  - cbn. intros H. split; [intros ->|intros r ->]; repeat (destruct H as [H|H]; [discriminate|]); exact H.
  - intros text H. cbn in H. destruct (String.eqb_spec p "/home/ada/notes") as [->|N]; [|discriminate]. split; [discriminate|]. intros r; discriminate.
Qed.
