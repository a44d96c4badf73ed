(** Theorems about the first use of the package: setup, catalogue, materials (C95). *)
From Verif Require Import PyBase PyStr XReal CNum TextModel SpectrumModel SpectrumSpec SpectralModel SpectralSpec MaterialModel MaterialSpec FileModel ReaderModel WriterModel PathModel PathProofs ConfigModel CatalogueModel CatalogueSpec CatalogueProofs IOSpec SaveSpec SaveProofs YamlSpec CsvModel CsvSpec CsvProofs NormProofs DiskModel DiskProofs SetupModel SetupSpec SetupProofs InstallProofs ScriptProofs SaveThms CatalogueThms CsvThms SetupThms ConfigThms ExampleModel ExampleSpec ExampleThms ListedSpec ListedThms StartModel StartSpec.
From Coq Require Import Permutation.
From Verif Require Import StartThms.
Open Scope R_scope.
Open Scope string_scope.
Open Scope list_scope.

(** C95: the texts of the two example files do not depend on the folder or on what was there before *)
Theorem C95_texts : forall M dir fs ops, make_examples (mc_write M) dir fs = (Ok tt, ops) ->
  dget (fs_run fs ops) (path_join dir "example_file.txt") = Some (example_txt M) /\
  dget (fs_run fs ops) (path_join dir "example_file2.yml") = Some (example_yaml M).
Proof. exact C95_texts_l. Qed.
Print Assumptions C95_texts.

(** C95: after the setup script has been answered, the catalogue it has built can be opened in a new
    session: it lists the two example materials, and loading either gives the material of the
    example; nothing else on the disk has changed. The same holds after any runs of
    dispersion_catalogue_rebuild, whatever they are answered and however they end. *)
Theorem C95_first_run : forall M disp h fs fs0 root name answers rest,
  machine_ok M disp -> ready M h fs fs0 root name -> dialogue M h fs fs0 root name answers true rest ->
  exists fs', run_setup M (abs_path h) (mkSys answers fs) = (Ok tt, mkSys rest fs') /\
    forall fs'', rebuilds M (abs_path h) fs' fs'' -> written M h root name fs0 fs'' /\ in_use M h root name fs''.
Proof. exact C95_first_run_l. Qed.
Print Assumptions C95_first_run.

(** C95: a user who declines the last question has no catalogue: opening it raises FileNotFoundError,
    until dispersion_catalogue_rebuild has been answered with "y" *)
Theorem C95_declined : forall M disp h fs fs0 root name answers rest,
  machine_ok M disp -> ready M h fs fs0 root name -> dialogue M h fs fs0 root name answers false rest -> SetupSpec.no_file fs0 (root ++ [name]) ->
  exists fs', run_setup M (abs_path h) (mkSys answers fs) = (Ok tt, mkSys rest fs') /\ written M h root name fs0 fs' /\
    open_catalogue M (abs_path h) (RStr "None") fs' = (Raise FileNotFoundError, fs') /\
    forall skipped rest', Forall (fun x => x <> "y" /\ x <> "n") skipped ->
      exists fs1, run_rebuild M (abs_path h) (mkSys (skipped ++ "y" :: rest') fs') = (Ok tt, mkSys rest' fs1) /\
        forall fs'', rebuilds M (abs_path h) fs1 fs'' -> written M h root name fs0 fs'' /\ in_use M h root name fs''.
Proof. exact C95_declined_l. Qed.
Print Assumptions C95_declined.

(** C95: running the script again, after a complete or an interrupted run, ends in the same way,
    whatever is now in the files it writes *)
Theorem C95_again : forall M disp h fs fs0 root name fs1 answers rest,
  machine_ok M disp -> ready M h fs fs0 root name -> left_over h root name fs0 fs1 ->
  dialogue M h fs1 fs1 root name answers true rest ->
  exists fs', run_setup M (abs_path h) (mkSys answers fs1) = (Ok tt, mkSys rest fs') /\
    forall fs'', rebuilds M (abs_path h) fs' fs'' -> written M h root name fs0 fs'' /\ in_use M h root name fs''.
Proof. exact C95_again_l. Qed.
Print Assumptions C95_again.

From Verif Require Import SpectralThms ShowsProofs YamlCodec YamlSample ConfigSample CatalogueSample.
Open Scope string_scope. Open Scope list_scope.
(** ** a machine on which the hypotheses hold *)
Ltac no_char := let K := fresh in intros K; cbn in K; repeat (destruct K as [K|K]; [discriminate K|]); exact K.
Definition plain_csv : csvlib :=
  mkCsv (fun x => match x with Fin _ => "0.0" | PInf => "inf" | NInf => "-inf" | NaN => "" end) (fun _ _ => "[1, 2]")
    (fun s => if String.eqb s "" then None else if String.eqb s "inf" then Some PInf else if String.eqb s "-inf" then Some NInf else Some (Fin 0)) true.
Lemma plain_csv_ok : csv_ok plain_csv.
Proof.
  split; [|reflexivity|intros; split; [no_char|now left]].
  intros x N. destruct x; try congruence; cbn; (split; [discriminate|]); (split; [split; [no_char|now left]|eexists; reflexivity]).
Qed.
(** a name longer than every path *)
Fixpoint long_name (n : nat) : string := match n with O => "x" | S n => String "x" (long_name n) end.
Definition longest (fs : fsys) : nat := list_max (map String.length (fs_dirs fs ++ map fst (fs_files fs))).
Definition temp_name (fs : fsys) : string := abs_path [long_name (longest fs)].
(** the entries of a directory *)
Definition os_nameb (n : string) : bool :=
  negb (String.eqb n "" || String.eqb n "." || String.eqb n ".." || existsb (Ascii.eqb "/"%char) (chars n) || existsb (Ascii.eqb "000"%char) (chars n)).
Definition entries (fs : fsys) (d : string) : list string :=
  let all := fs_dirs fs ++ map fst (fs_files fs) in
  filter (fun n => os_nameb n && existsb (String.eqb (path_join d n)) all) (nodup string_dec (map basename all)).
Lemma os_nameb_iff n : os_nameb n = true <-> os_name n.
Proof.
  unfold os_nameb, os_name, plain_name. rewrite negb_true_iff, !orb_false_iff, !String.eqb_neq.
  assert (forall c, existsb (Ascii.eqb c) (chars n) = false <-> ~ In c (chars n)) as K.
  { intros c. rewrite <- not_true_iff_false, existsb_exists. split; intros H I; apply H; [exists c; split; [exact I|apply Ascii.eqb_refl]|].
    destruct I as (x & I & E). apply Ascii.eqb_eq in E. now subst. }
  rewrite !K. tauto.
Qed.
Lemma file_listed {A} (d : list (string * A)) p : In p (map fst d) <-> exists v, dget d p = Some v.
Proof.
  induction d as [|[k v] d IH]; cbn; [split; [intros []|intros [? E]; discriminate E]|].
  destruct (String.eqb p k) eqn:E.
  - apply String.eqb_eq in E. subst. split; eauto.
  - apply String.eqb_neq in E. rewrite <- IH. split; [intros [K|K]; [congruence|exact K]|auto].
Qed.
Lemma entries_ok fs l : Forall os_name l -> NoDup (entries fs (abs_path l)) /\
  forall n, In n (entries fs (abs_path l)) <-> os_name n /\ (is_dir fs (l ++ [n]) \/ exists text, is_file fs (l ++ [n]) text).
Proof.
  intros F. split; [apply NoDup_filter, NoDup_nodup|]. intros n. unfold entries. rewrite filter_In, nodup_In, andb_true_iff, os_nameb_iff, existsb_exists. split.
  - intros (_ & On & p & I & E). split; [exact On|]. apply String.eqb_eq in E. subst p. rewrite join_name in I by (try apply On; now apply os_plain).
    apply in_app_or in I. destruct I as [I|I]; [now left|right]. now apply file_listed.
  - intros (On & K). assert (In (abs_path (l ++ [n])) (fs_dirs fs ++ map fst (fs_files fs))) as I by (apply in_or_app; destruct K as [K|K]; [now left|right; now apply file_listed]).
    split; [|split; [exact On|]].
    + apply in_map_iff. exists (abs_path (l ++ [n])). split; [apply basename_abs; apply On|exact I].
    + exists (abs_path (l ++ [n])). split; [exact I|]. apply String.eqb_eq. apply join_name; [now apply os_plain|apply On].
Qed.
Lemma long_chars n c : In c (chars (long_name n)) -> c = "x"%char.
Proof. induction n as [|n IH]; cbn; [intros [<-|[]]; reflexivity|intros [<-|I]; [reflexivity|now apply IH]]. Qed.
Lemma long_length n : String.length (long_name n) = S n.
Proof. induction n as [|n IH]; [reflexivity|]. cbn. now rewrite IH. Qed.
Lemma text_length (a b : string) : String.length (a ++ b)%string = (String.length a + String.length b)%nat.
Proof. induction a as [|c a IH]; [reflexivity|]. exact (f_equal S IH). Qed.
Lemma longest_ok fs p : In p (fs_dirs fs ++ map fst (fs_files fs)) -> (String.length p <= longest fs)%nat.
Proof. intros I. unfold longest. apply (proj1 (Forall_forall (fun k => (k <= _)%nat) _) (proj1 (list_max_le _ _) (le_n _))). now apply in_map. Qed.
Lemma temp_ok fs : exists t, Forall os_name t /\ t <> [] /\ temp_name fs = abs_path t /\ fresh_dir fs (abs_path t).
Proof.
  exists [long_name (longest fs)]. split; [|split; [discriminate|split; [reflexivity|]]].
  - constructor; [|constructor]. assert (forall c, c <> "x"%char -> ~ In c (chars (long_name (longest fs)))) as K by (intros c N I; apply N; now apply long_chars in I).
    repeat apply conj; try (apply K; discriminate); destruct (longest fs); cbn; try discriminate; destruct n; discriminate.
  - assert (forall p r, In p (fs_dirs fs ++ map fst (fs_files fs)) -> p <> (temp_name fs ++ r)%string) as K.
    { intros p r I ->. apply longest_ok in I. rewrite text_length in I. unfold temp_name, abs_path in I. rewrite text_length in I. change (join "/" [long_name (longest fs)]) with (long_name (longest fs)) in I. rewrite long_length in I. lia. }
    assert (forall s, s = (s ++ "")%string) as N by (induction s as [|c s IH]; [reflexivity|exact (f_equal (String c) IH)]).
    split; intros p; [intros I|intros text I]; (assert (In p (fs_dirs fs ++ map fst (fs_files fs))) as J by (apply in_or_app; first [now left|right; apply file_listed; eauto]));
      (split; [rewrite (N (abs_path _)); now apply K|intros r; now apply K]).
Qed.
Definition a_machine (h : list string) : machine :=
  mkMachine (fun _ => true) "/usr/lib/dispersion" temp_name entries (sample_yaml_parse (abs_path (user_dir h))) sample_yaml_dump (fun _ => Raise ValueError)
    sample_load yaml_env FILE_META_DATA_KEYS DATASET_META_DATA_KEYS plain_csv toy_scipy false (fun fs _ => Ok fs).
Lemma a_machine_ok h : machine_ok (a_machine h) sample_disp.
Proof.
  constructor; cbn [a_machine mc_write mc_material mc_files mc_sets mc_config mc_dump mc_csv mc_temp mc_listdir].
  - exact yaml_env_shows.
  - exact example_display.
  - exact sample_library.
  - apply Permutation_refl.
  - apply Permutation_refl.
  - intros. apply sample_yaml_back.
  - exact plain_csv_ok.
  - exact temp_ok.
  - intros. now apply entries_ok.
Qed.

(** Ada, whose disk has a directory .config only, types a relative path first, declines the download
    and has the catalogue built; or declines that, too *)
Definition first_disk := mkFs some_dirs [].
Definition home_disk := mkFs (abs_path (user_dir some_home) :: some_dirs) [].
Definition a_name := "my.csv".
Ltac no_path := let K := fresh in intros K; cbn in K; repeat (destruct K as [K|K]; [discriminate K|]); exact K.
Lemma first_ready : ready (a_machine some_home) some_home first_disk home_disk some_home a_name.
Proof.
  assert (Forall os_name some_home) as F by (unfold os_name, plain_name, chars, some_home; repeat constructor; try discriminate; no_char).
  assert (os_name a_name) as Fn by (unfold os_name, plain_name, chars, a_name; repeat constructor; try discriminate; no_char).
  assert (~ is_dir first_disk (user_dir some_home)) as Nd by no_path.
  split; [exact F|]. split; [exact F|]. split; [exact Fn|]. split; [apply sample_yaml_default|].
  split; [right; split; [split; [exact Nd|reflexivity]|cbn; tauto]|]. split; [split; [reflexivity|right; split; [exact Nd|reflexivity]]|].
  split; [now left|]. constructor.
  - cbn. tauto.
  - reflexivity.
  - intros n _. split; [no_path|reflexivity].
  - no_path.
  - split; [no_path|]. split; discriminate.
  - reflexivity.
Qed.
Lemma first_dialogue (b : bool) : dialogue (a_machine some_home) some_home first_disk home_disk some_home a_name
  ["data"; "/home/ada"; "y"; "my.csv"; "yes"; "what"; "n"; if b then "y" else "no"; "left"] b ["left"].
Proof.
  exists ["my.csv"; "yes"; "what"; "n"; if b then "y" else "no"; "left"], ["what"; "n"; if b then "y" else "no"; "left"], [if b then "y" else "no"; "left"].
  split; [|split; [|split]].
  - apply loop_iff. destruct b; vm_compute; reflexivity.
  - apply loop_iff. destruct b; vm_compute; reflexivity.
  - exists ["what"], "n". split; [reflexivity|]. split; [constructor; [split; intros [K|K]; discriminate K|constructor]|]. right. split; [reflexivity|now left].
  - exists [], (if b then "y" else "no"). split; [reflexivity|]. split; [constructor|]. destruct b; [left; split; [reflexivity|now left]|right; split; [reflexivity|now right]].
Qed.
Example C95_instance : exists fs', let M := a_machine some_home in
  run_setup M "/home/ada" (mkSys ["data"; "/home/ada"; "y"; "my.csv"; "yes"; "what"; "n"; "y"; "left"] first_disk) = (Ok tt, mkSys ["left"] fs') /\
  in_use M some_home some_home "my.csv" fs'.
Proof.
  destruct (C95_first_run _ _ _ _ _ _ _ _ _ (a_machine_ok some_home) first_ready (first_dialogue true)) as (fs' & Run & K).
  exists fs'. split; [exact Run|]. apply (K fs' (rebuilds_none _ _ _)).
Qed.
Example C95_declined_instance : exists fs', let M := a_machine some_home in
  run_setup M "/home/ada" (mkSys ["data"; "/home/ada"; "y"; "my.csv"; "yes"; "what"; "n"; "no"; "left"] first_disk) = (Ok tt, mkSys ["left"] fs') /\
  open_catalogue M "/home/ada" (RStr "None") fs' = (Raise FileNotFoundError, fs') /\
  exists fs'', run_rebuild M "/home/ada" (mkSys ["yes"; "y"; "left"] fs') = (Ok tt, mkSys ["left"] fs'') /\ in_use M some_home some_home "my.csv" fs''.
Proof.
  destruct (C95_declined _ _ _ _ _ _ _ _ _ (a_machine_ok some_home) first_ready (first_dialogue false) eq_refl) as (fs' & Run & W & O & K).
  exists fs'. split; [exact Run|]. split; [exact O|]. destruct (K ["yes"] ["left"]) as (fs1 & R & U); [constructor; [split; discriminate|constructor]|].
  exists fs1. split; [exact R|]. apply (U fs1 (rebuilds_none _ _ _)).
Qed.
(** the run of the script was killed while it wrote the second example: the configuration is an old
    one, the catalogue is missing *)
Definition broken_disk := mkFs (fs_dirs home_disk ++ ["/home/ada/UserData"]) [("/home/ada/UserData/example_file.txt", "# cut"); ("/home/ada/.config/dispersion/config.yaml", "Path: /hom")].
Example C95_again_instance : left_over some_home some_home a_name home_disk broken_disk /\
  exists fs', run_setup (a_machine some_home) "/home/ada" (mkSys ["/home/ada"; "y"; "my.csv"; "y"; "n"; "y"] broken_disk) = (Ok tt, mkSys [] fs') /\
    in_use (a_machine some_home) some_home some_home "my.csv" fs'.
Proof.
  assert (left_over some_home some_home a_name home_disk broken_disk) as L.
  { split; [intros p I; apply in_or_app; now left|]. split.
    - intros p I. apply in_app_or in I. destruct I as [I|[<-|[]]]; [now left|now right].
    - intros p P1 P2 P3 P4. change (dget [("/home/ada/UserData/example_file.txt", "# cut"); ("/home/ada/.config/dispersion/config.yaml", "Path: /hom")] p = None).
      change (p <> "/home/ada/UserData/example_file.txt") in P1. change (p <> "/home/ada/.config/dispersion/config.yaml") in P3.
      destruct (dget _ p) as [v|] eqn:E; [|reflexivity]. exfalso. destruct (proj2 (file_listed _ p) (ex_intro _ v E)) as [K|[K|[]]]; cbn in K; congruence. }
  split; [exact L|].
  assert (dialogue (a_machine some_home) some_home broken_disk broken_disk some_home a_name ["/home/ada"; "y"; "my.csv"; "y"; "n"; "y"] true []) as D.
  { exists ["my.csv"; "y"; "n"; "y"], ["n"; "y"], ["y"]. split; [apply loop_iff; vm_compute; reflexivity|]. split; [apply loop_iff; vm_compute; reflexivity|].
    split; [exists [], "n"|exists [], "y"]; (split; [reflexivity|]); (split; [constructor|]); [right|left]; (split; [reflexivity|now left]). }
  destruct (C95_again _ _ _ _ _ _ _ _ _ _ (a_machine_ok some_home) first_ready L D) as (fs' & Run & K). exists fs'. split; [exact Run|]. apply (K fs' (rebuilds_none _ _ _)).
Qed.
