(** Theorems about the setup script: questions, modules, the configuration it writes (C61, C62, C72,
    C73). *)
From Verif Require Import PyBase PyStr XReal IOSpec LineProofs FileModel PathModel ConfigModel CatalogueSpec NormProofs DiskModel SetupModel SetupSpec DiskProofs SetupProofs InstallProofs ScriptProofs ConfigThms.
From Verif Require Import SetupThms.
Open Scope R_scope.
Open Scope string_scope.
Open Scope list_scope.

(** C61: ask returns the first acceptable answer (the default for an empty line), and never another
    one; the lines after it are not read. The validator may change the file system. *)
Theorem C61_ask : forall validator default answers fs u rest fs',
  ask validator default (mkSys answers fs) = (Ok u, mkSys rest fs') <-> asked validator default fs answers u rest fs'.
Proof. exact C61_ask_l. Qed.
Print Assumptions C61_ask.

(** C61: for a validator that only looks at the answer *)
Theorem C61_ask_pure : forall (valid : string -> bool) default answers fs u rest fs',
  ask (fun fs x => (Ok (valid x), fs)) default (mkSys answers fs) = (Ok u, mkSys rest fs') <->
  fs' = fs /\ exists skipped a, answers = skipped ++ a :: rest /\ given default a u /\ valid u = true /\
    (forall x y, In x skipped -> given default x y -> valid y = false).
Proof. exact C61_ask_pure_l. Qed.
Print Assumptions C61_ask_pure.

(** C61: without an acceptable answer the question never ends: it raises EOFError when the input does *)
Theorem C61_ask_end : forall (valid : string -> bool) default answers fs,
  (ask (fun fs x => (Ok (valid x), fs)) default (mkSys answers fs) = (Raise EOFError, mkSys [] fs)) <->
  (forall x y, In x answers -> given default x y -> valid y = false).
Proof. exact C61_ask_end_l. Qed.
Print Assumptions C61_ask_end.

(** C61: get_confirmation returns True exactly when the first recognised answer is y or yes, and
    False exactly when it is n or no *)
Theorem C61_confirmation : forall answers fs b rest fs',
  get_confirmation (mkSys answers fs) = (Ok b, mkSys rest fs') <-> fs' = fs /\ answered answers b rest.
Proof. exact C61_confirmation_l. Qed.
Print Assumptions C61_confirmation.

(** C61: with no recognised answer it raises EOFError when the input ends *)
Theorem C61_confirmation_end : forall answers fs,
  get_confirmation (mkSys answers fs) = (Raise EOFError, mkSys [] fs) <-> Forall (fun x => ~ yes x /\ ~ no x) answers.
Proof. exact C61_confirmation_end_l. Qed.
Print Assumptions C61_confirmation_end.

(** C61: ask_and_confirm is the one question after the other *)
Theorem C61_both : forall validator default answers fs u b rest fs',
  ask_and_confirm validator default (mkSys answers fs) = (Ok (u, b), mkSys rest fs') <->
  exists r1, asked validator default fs answers u r1 fs' /\ answered r1 b rest.
Proof. exact C61_both_l. Qed.
Print Assumptions C61_both.

(** C61: the loops of the script end with a value that was accepted and confirmed, after any number
    of values that were accepted and not confirmed *)
Theorem C61_loop : forall validator default answers fs u rest fs',
  confirm_loop (ask_and_confirm validator default) (mkSys answers fs) = (Ok u, mkSys rest fs') <->
  agreed validator default fs answers u rest fs'.
Proof. exact C61_loop_l. Qed.
Print Assumptions C61_loop.

Example C61_example : exists fs, answered ["maybe"; ""; "Y"; "yes"; "n"] true ["n"] /\
  asked abs_validator "/home" fs ["data"; ""; "y"] "/home" ["y"] fs /\
  agreed abs_validator "/home" fs ["data"; ""; "n"; "/srv"; "y"; "rest"] "/srv" ["rest"] fs.
Proof.
  exists (mkFs [] []). split; [|split].
  - exists ["maybe"; ""; "Y"], "yes". split; [reflexivity|]. split; [|left; split; [reflexivity|now right]].
    unfold yes, no. repeat constructor; intros [H|H]; discriminate.
  - apply C61_ask. reflexivity.
  - apply C61_loop. reflexivity.
Qed.

(** C62: after install_modules the configuration has the same entries; the modules are the same in
    the same order; UserData is enabled; RefractiveIndexInfo is enabled only if its folder exists and
    the database is there or was downloaded; no other module is enabled. No file or directory
    disappears. *)
Theorem C62_enabled : forall creatable txt yml clone conf s conf' s', clone_keeps clone ->
  install_modules creatable txt yml clone conf s = (Ok conf', s') ->
  map fst conf' = map fst conf /\ (forall k, k <> "Modules" -> dget conf' k = dget conf k) /\
  exists d d', dget conf "Modules" = Some (CMap d) /\ dget conf' "Modules" = Some (CMap d') /\ map fst d' = map fst d /\
    (forall m v, dget d' m = Some v -> module_flag clone conf (disk s') m v) /\ keeps (disk s) (disk s').
Proof. exact C62_enabled_l. Qed.
Print Assumptions C62_enabled.

(** C62: the two modules of the default configuration, RefractiveIndexInfo declined: the flags are
    True and False, and the only effect is the folder with the two example files *)
Theorem C62_declined : forall creatable txt yml clone conf root answers fs rest, Forall os_name root -> two_modules conf root ->
  folder_ready creatable root fs -> answered answers false rest ->
  exists fs', examples_installed txt yml root fs fs' /\
    install_modules creatable txt yml clone conf (mkSys answers fs) = (Ok (with_flags conf true false), mkSys rest fs').
Proof. exact C62_declined_l. Qed.
Print Assumptions C62_declined.

(** C62: confirmed, download declined: the flag says whether the database is there (its folder and
    the file library.yml); the folders of both modules exist afterwards *)
Theorem C62_present : forall creatable txt yml clone conf root answers fs r1 rest, Forall os_name root -> two_modules conf root ->
  folder_ready creatable root fs -> is_dir fs (root ++ ["RefractiveIndexInfo"]) \/ no_file fs (root ++ ["RefractiveIndexInfo"]) ->
  answered answers true r1 -> answered r1 false rest ->
  exists fs' b, install_modules creatable txt yml clone conf (mkSys answers fs) = (Ok (with_flags conf true b), mkSys rest fs') /\
    (b = true <-> is_dir fs (root ++ ["RefractiveIndexInfo"; "database"]) /\
                  exists text, is_file fs (root ++ ["RefractiveIndexInfo"; "database"; "library.yml"]) text) /\
    (forall p, In p (fs_dirs fs') <-> In p (fs_dirs fs) \/ p = abs_path (root ++ ["UserData"]) \/ p = abs_path (root ++ ["RefractiveIndexInfo"])).
Proof. exact C62_present_l. Qed.
Print Assumptions C62_present.

(** C62: confirmed and download confirmed: the database is cloned into the folder, and an error of
    the download ends the script *)
Theorem C62_download : forall creatable txt yml clone conf root answers fs r1 rest, Forall os_name root -> two_modules conf root ->
  folder_ready creatable root fs -> is_dir fs (root ++ ["RefractiveIndexInfo"]) \/ no_file fs (root ++ ["RefractiveIndexInfo"]) ->
  answered answers true r1 -> answered r1 true rest ->
  exists fs', (forall p, In p (fs_dirs fs') <-> In p (fs_dirs fs) \/ p = abs_path (root ++ ["UserData"]) \/ p = abs_path (root ++ ["RefractiveIndexInfo"])) /\
    install_modules creatable txt yml clone conf (mkSys answers fs) =
      match clone fs' (abs_path (root ++ ["RefractiveIndexInfo"])) with
      | Ok fs2 => (Ok (with_flags conf true true), mkSys rest fs2)
      | Raise e => (Raise e, mkSys rest fs')
      end.
Proof. exact C62_download_l. Qed.
Print Assumptions C62_download.

(** C62 fails: a module that is present but not one of the two (Filmetrics, which the catalogue can
    read) cannot be enabled: confirming it raises KeyError, after its folder has been created *)
Theorem C62_other_refuted : forall creatable txt yml clone conf m v d answers fs rest root, Forall os_name root -> os_name m ->
  m <> "UserData" -> m <> "RefractiveIndexInfo" ->
  dget conf "Modules" = Some (CMap ((m, v) :: d)) -> dget conf "Path" = Some (CStr (abs_path root)) -> is_dir fs root ->
  is_dir fs (root ++ [m]) \/ no_file fs (root ++ [m]) -> answered answers true rest ->
  exists fs', install_modules creatable txt yml clone conf (mkSys answers fs) = (Raise KeyError, mkSys rest fs') /\ is_dir fs' (root ++ [m]).
Proof. exact C62_other_refuted_l. Qed.
Print Assumptions C62_other_refuted.

(** C62: the root folder is not created: if it does not exist, FileNotFoundError *)
Theorem C62_no_root : forall creatable txt yml clone conf root s, Forall os_name root -> two_modules conf root -> ~ is_dir (disk s) root ->
  nothing_at (disk s) (root ++ ["UserData"]) ->
  install_modules creatable txt yml clone conf s = (Raise FileNotFoundError, s).
Proof. exact C62_no_root_l. Qed.
Print Assumptions C62_no_root.

Definition some_root := ["home"; "ada"; ".config"; "dispersion"].
Lemma root_names : Forall os_name some_root.
Proof.
  unfold os_name, plain_name, chars, some_root. repeat constructor; try discriminate; cbn; intros H; repeat (destruct H as [H|H]; [discriminate|]); exact H.
Qed.
Definition some_disk := mkFs (abs_path some_root :: some_dirs) [].

Example C62_example : exists conf, two_modules conf some_root /\ folder_ready (fun _ => true) some_root some_disk /\
  (is_dir some_disk (some_root ++ ["RefractiveIndexInfo"]) \/ no_file some_disk (some_root ++ ["RefractiveIndexInfo"])) /\
  exists fs', install_modules (fun _ => true) "txt" "yml" (fun fs _ => Ok fs) conf (mkSys ["y"; "n"; "left"] some_disk) =
    (Ok (with_flags conf true false), mkSys ["left"] fs').
Proof.
  exists (documented_default (abs_path some_root)). assert (R : folder_ready (fun _ => true) some_root some_disk).
  { unfold folder_ready, is_dir, no_file. cbn. repeat split; auto; try (now right); intros H; repeat (destruct H as [H|H]; [discriminate|]); exact H. }
  assert (M : two_modules (documented_default (abs_path some_root)) some_root) by (split; [reflexivity|now exists (CBool true), (CBool true)]).
  split; [exact M|]. split; [exact R|]. split; [now right|].
  destruct (C62_present (fun _ => true) "txt" "yml" (fun fs _ => Ok fs) _ some_root ["y"; "n"; "left"] some_disk ["n"; "left"] ["left"] root_names M R) as (fs' & b & E & B & _).
  - now right.
  - exists [], "y". repeat split; auto. left. split; [reflexivity|now left].
  - exists [], "n". repeat split; auto. right. split; [reflexivity|now left].
  - exists fs'. rewrite E. destruct b; [|reflexivity]. exfalso. destruct (proj1 B eq_refl) as [D _]. cbn in D.
    repeat (destruct D as [D|D]; [discriminate|]). exact D.
Qed.

(** C72: when the script ends without an error, the user's configuration file holds the path and the
    file name that were confirmed, the flags of the modules, and the default values otherwise -
    unless the catalogue was saved under that very path. The path is absolute. *)
Theorem C72_stored : forall creatable package parse dump tmp txt yml clone catalogue_text h s s',
  Forall os_name h -> clone_keeps clone ->
  parse (documented_text (abs_path (user_dir h))) = Ok (documented_default (abs_path (user_dir h))) ->
  main creatable (Some (abs_path h)) package parse dump tmp txt yml clone catalogue_text s = (Ok tt, s') ->
  exists fs0 path r1 name r2 fs1 rii,
    with_user_dir h (disk s) fs0 /\ agreed abs_validator (abs_path (user_dir h)) fs0 (typed s) path r1 fs0 /\ isabs path = true /\
    agreed (try_file_name creatable tmp) "catalogue.csv" fs0 r1 name r2 fs1 /\
    (rii = true -> rii_present clone [("Path", CStr path)] (disk s')) /\
    (normpath (path_join path name) <> abs_path (user_file h) -> is_file (disk s') (user_file h) (dump (setup_result path name rii))).
Proof. exact C72_stored_l. Qed.
Print Assumptions C72_stored.

(** C72: and that is the configuration in use from then on *)
Theorem C72_used : forall creatable package parse dump tmp txt yml clone catalogue_text h s s',
  Forall os_name h -> clone_keeps clone -> (forall path name rii, parse (dump (setup_result path name rii)) = Ok (setup_result path name rii)) ->
  parse (documented_text (abs_path (user_dir h))) = Ok (documented_default (abs_path (user_dir h))) ->
  main creatable (Some (abs_path h)) package parse dump tmp txt yml clone catalogue_text s = (Ok tt, s') ->
  exists fs0 path r1 name r2 fs1 rii,
    agreed abs_validator (abs_path (user_dir h)) fs0 (typed s) path r1 fs0 /\
    agreed (try_file_name creatable tmp) "catalogue.csv" fs0 r1 name r2 fs1 /\
    (normpath (path_join path name) <> abs_path (user_file h) ->
     get_config (Some (abs_path h)) package parse (disk s') = (Ok (setup_result path name rii), disk s')).
Proof. exact C72_used_l. Qed.
Print Assumptions C72_used.

From Verif Require Import ConfigSample.
Open Scope string_scope. Open Scope list_scope.
(** the hypotheses hold: a library that reads what it writes, and a user who types a relative path
    first *)
Example C72_used_example : exists s s', let parse := sample_yaml_parse (abs_path (user_dir some_home)) in
  (forall path name rii, parse (sample_yaml_dump (setup_result path name rii)) = Ok (setup_result path name rii)) /\
  parse (documented_text (abs_path (user_dir some_home))) = Ok (documented_default (abs_path (user_dir some_home))) /\
  main (fun _ => true) (Some (abs_path some_home)) (abs_path some_package) parse sample_yaml_dump "/tmp/x1" "txt" "yml" (fun fs _ => Ok fs)
    (fun _ _ => Ok "the catalogue") s = (Ok tt, s') /\
  typed s = ["data"; ""; "n"; "/home/ada"; "y"; "my.csv"; "y"; "n"; "y"; "left"] /\ typed s' = ["left"] /\
  get_config (Some (abs_path some_home)) (abs_path some_package) parse (disk s') = (Ok (setup_result "/home/ada" "my.csv" false), disk s').
Proof.
  eexists (mkSys ["data"; ""; "n"; "/home/ada"; "y"; "my.csv"; "y"; "n"; "y"; "left"] (mkFs some_dirs [])), _. intros parse. 
  split; [intros; apply sample_yaml_back|]. split; [apply sample_yaml_default|]. split; [vm_compute; reflexivity|]. split; [reflexivity|]. split; reflexivity.
Qed.

(** C72 fails: with the default root folder and "config.yaml" as the name of the catalogue, which is
    accepted, the catalogue is written over the configuration *)
Theorem C72_overwritten_refuted : exists s s', 
  main (fun _ => true) (Some (abs_path some_home)) (abs_path some_package) (fun _ => Ok (documented_default (abs_path (user_dir some_home))))
    (fun _ => "the configuration") "/tmp/x1" "txt" "yml" (fun fs _ => Ok fs) (fun _ _ => Ok "the catalogue") s = (Ok tt, s') /\
  typed s = [""; "y"; "config.yaml"; "y"; "n"; "y"] /\ is_file (disk s') (user_file some_home) "the catalogue".
Proof. exact C72_overwritten_refuted_l. Qed.
Print Assumptions C72_overwritten_refuted.

(** C72 fails: an absolute path that does not exist is accepted and confirmed, but then the script
    ends with FileNotFoundError and no configuration is stored *)
Theorem C72_missing_root_refuted : exists s s',
  main (fun _ => true) (Some (abs_path some_home)) (abs_path some_package) (fun _ => Ok (documented_default (abs_path (user_dir some_home))))
    (fun _ => "the configuration") "/tmp/x1" "txt" "yml" (fun fs _ => Ok fs) (fun _ _ => Ok "the catalogue") s = (Raise FileNotFoundError, s') /\
  typed s = ["/data"; "y"; ""; "y"; "n"; "n"] /\ no_file (disk s') (user_file some_home).
Proof. exact C72_missing_root_refuted_l. Qed.
Print Assumptions C72_missing_root_refuted.

Example C72_example : exists s s', 
  main (fun _ => true) (Some (abs_path some_home)) (abs_path some_package) (fun _ => Ok (documented_default (abs_path (user_dir some_home))))
    (fun _ => "the configuration") "/tmp/x1" "txt" "yml" (fun fs _ => Ok fs) (fun _ _ => Ok "the catalogue") s = (Ok tt, s') /\
  typed s = ["data"; ""; "n"; "/home/ada"; "y"; ""; "y"; "y"; "y"; "y"] /\ is_file (disk s') (user_file some_home) "the configuration" /\
  is_file (disk s') ["home"; "ada"; "catalogue.csv"] "the catalogue".
Proof.
  eexists (mkSys ["data"; ""; "n"; "/home/ada"; "y"; ""; "y"; "y"; "y"; "y"] (mkFs some_dirs [])), _. split; [|split; [reflexivity|split]].
  - vm_compute. reflexivity.
  - vm_compute. reflexivity.
  - vm_compute. reflexivity.
Qed.

(** C73: dispersion_catalogue_rebuild rebuilds exactly when the first of the answers "y" and "n" is
    "y"; any other line (also "yes") is asked again *)
Theorem C73_question : forall answers fs b rest fs', ask_rebuild (mkSys answers fs) = (Ok b, mkSys rest fs') <->
  fs' = fs /\ exists skipped, answers = skipped ++ (if b then "y" else "n") :: rest /\ Forall (fun x => x <> "y" /\ x <> "n") skipped.
Proof. exact C73_question_l. Qed.
Print Assumptions C73_question.

(** C73: after "n" nothing has changed *)
Theorem C73_no : forall creatable home package parse catalogue_text answers fs rest,
  ask_rebuild (mkSys answers fs) = (Ok false, mkSys rest fs) ->
  rebuild_catalogue creatable home package parse catalogue_text (mkSys answers fs) = (Ok tt, mkSys rest fs).
Proof. exact C73_no_l. Qed.
Print Assumptions C73_no.

(** C73: after "y" the catalogue file of the current configuration is replaced by the rebuilt one,
    and no other file changes; if the catalogue cannot be built, no file changes at all *)
Theorem C73_yes : forall creatable h package parse catalogue_text answers fs rest c base file, Forall os_name h ->
  ask_rebuild (mkSys answers fs) = (Ok true, mkSys rest fs) ->
  fst (get_config (Some (abs_path h)) package parse fs) = Ok c -> dget c "Path" = Some (CStr base) -> dget c "File" = Some (CStr file) ->
  exists r s', rebuild_catalogue creatable (Some (abs_path h)) package parse catalogue_text (mkSys answers fs) = (r, s') /\ typed s' = rest /\
    (forall p, p <> normpath (path_join base file) -> dget (fs_files (disk s')) p = dget (fs_files fs) p) /\
    (r = Ok tt -> exists text fs1, with_user_dir h fs fs1 /\ catalogue_text fs1 c = Ok text /\
       dget (fs_files (disk s')) (normpath (path_join base file)) = Some text) /\
    (r <> Ok tt -> fs_files (disk s') = fs_files fs).
Proof. exact C73_yes_l. Qed.
Print Assumptions C73_yes.

Example C73_example : exists fs', 
  rebuild_catalogue (fun _ => true) (Some (abs_path some_home)) (abs_path some_package)
    (fun _ => Ok (setup_result "/home/ada" "my.csv" false)) (fun _ _ => Ok "rebuilt")
    (mkSys ["yes"; "y"; "left"] (mkFs some_dirs [(abs_path (some_package ++ ["config.yaml"]), "text"); ("/home/ada/my.csv", "old")])) = (Ok tt, mkSys ["left"] fs') /\
  is_file fs' ["home"; "ada"; "my.csv"] "rebuilt".
Proof. eexists. split; vm_compute; reflexivity. Qed.
