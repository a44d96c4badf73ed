(** Theorems about the setup script: questions, modules, the configuration it writes (C61, C62, C72,
    C73). *)
From Verif Require Import PyBase PyStr XReal IOSpec LineProofs FileModel PathModel ConfigModel CatalogueSpec NormProofs DiskModel SetupModel SetupSpec DiskProofs SetupProofs InstallProofs ScriptProofs ConfigThms.
Open Scope R_scope.
Open Scope string_scope.
Open Scope list_scope.


Lemma C61_ask_l : forall validator default answers fs u rest fs',
  ask validator default (mkSys answers fs) = (Ok u, mkSys rest fs') <-> asked validator default fs answers u rest fs'.
Proof. exact ask_iff. Qed.

Lemma C61_ask_pure_l : forall (valid : string -> bool) default answers fs u rest fs',
  ask (fun fs x => (Ok (valid x), fs)) default (mkSys answers fs) = (Ok u, mkSys rest fs') <->
  fs' = fs /\ exists skipped a, answers = skipped ++ a :: rest /\ given default a u /\ valid u = true /\
    (forall x y, In x skipped -> given default x y -> valid y = false).
Proof.
  intros valid default answers fs u rest fs'. rewrite C61_ask_l. unfold asked. split.
  - intros (sk & a & fs1 & -> & T & G & V). injection V as V ->. 
    assert (Z : fs' = fs /\ forall x y, In x sk -> given default x y -> valid y = false).
    { clear G V. induction T as [|fs b w fs1 l fs2 Gb Vb T IH]; [split; [reflexivity|intros ? ? []]|].
      injection Vb as Vb <-. destruct IH as [-> IH]. split; [reflexivity|]. intros x y [<-|I] Gy; [|eauto].
      apply given_iff in Gb, Gy. now subst. }
    destruct Z as [-> Z]. split; [reflexivity|]. exists sk, a. auto.
  - intros (-> & sk & a & -> & G & V & Z). exists sk, a, fs. split; [reflexivity|]. split; [|rewrite V; auto].
    induction sk as [|b sk IH]; [constructor|]. econstructor; [now apply given_iff| |apply IH; intros x y I; apply Z; now right].
    rewrite (Z b _ (or_introl eq_refl)); [reflexivity|now apply given_iff].
Qed.

Lemma C61_ask_end_l : forall (valid : string -> bool) default answers fs,
  (ask (fun fs x => (Ok (valid x), fs)) default (mkSys answers fs) = (Raise EOFError, mkSys [] fs)) <->
  (forall x y, In x answers -> given default x y -> valid y = false).
Proof.
  intros valid default answers fs. unfold ask. cbn [typed disk]. split.
  - induction answers as [|a l IH]; intros H x y I G; [contradiction|]. cbn [ask_from] in H.
    destruct (valid (if String.eqb a "" then default else a)) eqn:E; [discriminate|]. destruct I as [<-|I]; [apply given_iff in G; now subst|eauto].
  - induction answers as [|a l IH]; intros H; [reflexivity|]. cbn [ask_from]. rewrite (H a _ (or_introl eq_refl)); [|now apply given_iff].
    apply IH. intros x y I. apply H. now right.
Qed.

Lemma C61_confirmation_l : forall answers fs b rest fs',
  get_confirmation (mkSys answers fs) = (Ok b, mkSys rest fs') <-> fs' = fs /\ answered answers b rest.
Proof. exact confirm_iff. Qed.

Lemma C61_confirmation_end_l : forall answers fs,
  get_confirmation (mkSys answers fs) = (Raise EOFError, mkSys [] fs) <-> Forall (fun x => ~ yes x /\ ~ no x) answers.
Proof. exact confirm_eof. Qed.

Lemma C61_both_l : forall validator default answers fs u b rest fs',
  ask_and_confirm validator default (mkSys answers fs) = (Ok (u, b), mkSys rest fs') <->
  exists r1, asked validator default fs answers u r1 fs' /\ answered r1 b rest.
Proof. exact ask_confirm_iff. Qed.

Lemma C61_loop_l : forall validator default answers fs u rest fs',
  confirm_loop (ask_and_confirm validator default) (mkSys answers fs) = (Ok u, mkSys rest fs') <->
  agreed validator default fs answers u rest fs'.
Proof. exact loop_iff. Qed.

Lemma C62_enabled_l : forall creatable txt yml clone conf s conf' s', clone_keeps clone ->
  install_modules creatable txt yml clone conf s = (Ok conf', s') ->
  map fst conf' = map fst conf /\ (forall k, k <> "Modules" -> dget conf' k = dget conf k) /\
  exists d d', dget conf "Modules" = Some (CMap d) /\ dget conf' "Modules" = Some (CMap d') /\ map fst d' = map fst d /\
    (forall m v, dget d' m = Some v -> module_flag clone conf (disk s') m v) /\ keeps (disk s) (disk s').
Proof.
  intros creatable txt yml clone conf s conf' s' K H. apply (install_modules_flags creatable txt yml clone K) in H.
  destruct H as (d & d' & E & -> & Ek & Fl & Kp). split.
  { apply dset_same_keys. destruct (in_dec string_dec "Modules" (map fst conf)) as [I|I]; [exact I|]. apply dget_None_keys in I. congruence. }
  split; [intros k N; apply dget_dset_other; congruence|]. exists d, d'. split; [exact E|]. split; [apply dget_dset_same|]. auto.
Qed.

Lemma C62_declined_l : forall creatable txt yml clone conf root answers fs rest, Forall os_name root -> two_modules conf root ->
  folder_ready creatable root fs -> answered answers false rest ->
  exists fs', examples_installed txt yml root fs fs' /\
    install_modules creatable txt yml clone conf (mkSys answers fs) = (Ok (with_flags conf true false), mkSys rest fs').
Proof. intros. now apply two_declined. Qed.

Lemma C62_present_l : forall creatable txt yml clone conf root answers fs r1 rest, Forall os_name root -> two_modules conf root ->
  folder_ready creatable root fs -> is_dir fs (root ++ ["RefractiveIndexInfo"]) \/ no_file fs (root ++ ["RefractiveIndexInfo"]) ->
  answered answers true r1 -> answered r1 false rest ->
  exists fs' b, install_modules creatable txt yml clone conf (mkSys answers fs) = (Ok (with_flags conf true b), mkSys rest fs') /\
    (b = true <-> is_dir fs (root ++ ["RefractiveIndexInfo"; "database"]) /\
                  exists text, is_file fs (root ++ ["RefractiveIndexInfo"; "database"; "library.yml"]) text) /\
    (forall p, In p (fs_dirs fs') <-> In p (fs_dirs fs) \/ p = abs_path (root ++ ["UserData"]) \/ p = abs_path (root ++ ["RefractiveIndexInfo"])).
Proof. intros. now apply (two_present creatable txt yml clone conf root answers fs) with r1. Qed.

Lemma C62_download_l : forall creatable txt yml clone conf root answers fs r1 rest, Forall os_name root -> two_modules conf root ->
  folder_ready creatable root fs -> is_dir fs (root ++ ["RefractiveIndexInfo"]) \/ no_file fs (root ++ ["RefractiveIndexInfo"]) ->
  answered answers true r1 -> answered r1 true rest ->
  exists fs', (forall p, In p (fs_dirs fs') <-> In p (fs_dirs fs) \/ p = abs_path (root ++ ["UserData"]) \/ p = abs_path (root ++ ["RefractiveIndexInfo"])) /\
    install_modules creatable txt yml clone conf (mkSys answers fs) =
      match clone fs' (abs_path (root ++ ["RefractiveIndexInfo"])) with
      | Ok fs2 => (Ok (with_flags conf true true), mkSys rest fs2)
      | Raise e => (Raise e, mkSys rest fs')
      end.
Proof. intros. now apply (two_download creatable txt yml clone conf root answers fs) with r1. Qed.

Lemma C62_other_refuted_l : forall creatable txt yml clone conf m v d answers fs rest root, Forall os_name root -> os_name m ->
  m <> "UserData" -> m <> "RefractiveIndexInfo" ->
  dget conf "Modules" = Some (CMap ((m, v) :: d)) -> dget conf "Path" = Some (CStr (abs_path root)) -> is_dir fs root ->
  is_dir fs (root ++ [m]) \/ no_file fs (root ++ [m]) -> answered answers true rest ->
  exists fs', install_modules creatable txt yml clone conf (mkSys answers fs) = (Raise KeyError, mkSys rest fs') /\ is_dir fs' (root ++ [m]).
Proof. intros creatable txt yml clone conf m v d answers fs rest root. apply (install_unknown creatable txt yml clone). Qed.

Lemma C62_no_root_l : forall creatable txt yml clone conf root s, Forall os_name root -> two_modules conf root -> ~ is_dir (disk s) root ->
  nothing_at (disk s) (root ++ ["UserData"]) ->
  install_modules creatable txt yml clone conf s = (Raise FileNotFoundError, s).
Proof. intros creatable txt yml clone conf root s. apply (install_no_root creatable txt yml clone). Qed.

Definition some_root := ["home"; "ada"; ".config"; "dispersion"].
Lemma root_names : Forall os_name some_root.
Proof.
  unfold os_name, plain_name, chars, some_root. repeat constructor; try discriminate; cbn; intros H; repeat (destruct H as [H|H]; [discriminate|]); exact H.
Qed.
Definition some_disk := mkFs (abs_path some_root :: some_dirs) [].

Lemma C72_stored_l : forall creatable package parse dump tmp txt yml clone catalogue_text h s s',
  Forall os_name h -> clone_keeps clone ->
  parse (documented_text (abs_path (user_dir h))) = Ok (documented_default (abs_path (user_dir h))) ->
  main creatable (Some (abs_path h)) package parse dump tmp txt yml clone catalogue_text s = (Ok tt, s') ->
  exists fs0 path r1 name r2 fs1 rii,
    with_user_dir h (disk s) fs0 /\ agreed abs_validator (abs_path (user_dir h)) fs0 (typed s) path r1 fs0 /\ isabs path = true /\
    agreed (try_file_name creatable tmp) "catalogue.csv" fs0 r1 name r2 fs1 /\
    (rii = true -> rii_present clone [("Path", CStr path)] (disk s')) /\
    (normpath (path_join path name) <> abs_path (user_file h) -> is_file (disk s') (user_file h) (dump (setup_result path name rii))).
Proof.
  intros creatable package parse dump tmp txt yml clone catalogue_text h s s' F K Y H.
  destruct (main_inv creatable package parse dump tmp txt yml clone catalogue_text h s s' F K Y H) as (fs0 & path & r1 & name & r2 & fs1 & rii & A & B & C & D & _ & E).
  exists fs0, path, r1, name, r2, fs1, rii. split; [exact A|]. split; [exact B|]. split; [now apply agreed_abs in B|]. auto.
Qed.

Lemma C72_used_l : forall creatable package parse dump tmp txt yml clone catalogue_text h s s',
  Forall os_name h -> clone_keeps clone -> (forall path name rii, parse (dump (setup_result path name rii)) = Ok (setup_result path name rii)) ->
  parse (documented_text (abs_path (user_dir h))) = Ok (documented_default (abs_path (user_dir h))) ->
  main creatable (Some (abs_path h)) package parse dump tmp txt yml clone catalogue_text s = (Ok tt, s') ->
  exists fs0 path r1 name r2 fs1 rii,
    agreed abs_validator (abs_path (user_dir h)) fs0 (typed s) path r1 fs0 /\
    agreed (try_file_name creatable tmp) "catalogue.csv" fs0 r1 name r2 fs1 /\
    (normpath (path_join path name) <> abs_path (user_file h) ->
     get_config (Some (abs_path h)) package parse (disk s') = (Ok (setup_result path name rii), disk s')).
Proof.
  intros creatable package parse dump tmp txt yml clone catalogue_text h s s' F K L Y H.
  destruct (main_inv creatable package parse dump tmp txt yml clone catalogue_text h s s' F K Y H) as (fs0 & path & r1 & name & r2 & fs1 & rii & A & B & C & D & U & E).
  exists fs0, path, r1, name, r2, fs1, rii. split; [exact B|]. split; [exact C|]. intros N. specialize (E N).
  destruct (read_user parse h package (disk s') _ F (or_introl U) E) as (fs2 & [A2 [B2|[B2 _]]] & R); [|contradiction].
  unfold get_config. rewrite R, L. f_equal. destruct (disk s'), fs2. cbn in *. now subst.
Qed.

Lemma C72_overwritten_refuted_l : exists s s', 
  main (fun _ => true) (Some (abs_path some_home)) (abs_path some_package) (fun _ => Ok (documented_default (abs_path (user_dir some_home))))
    (fun _ => "the configuration") "/tmp/x1" "txt" "yml" (fun fs _ => Ok fs) (fun _ _ => Ok "the catalogue") s = (Ok tt, s') /\
  typed s = [""; "y"; "config.yaml"; "y"; "n"; "y"] /\ is_file (disk s') (user_file some_home) "the catalogue".
Proof.
  eexists (mkSys [""; "y"; "config.yaml"; "y"; "n"; "y"] (mkFs some_dirs [])), _. split; [|split; [reflexivity|]].
  - vm_compute. reflexivity.
  - vm_compute. reflexivity.
Qed.

Lemma C72_missing_root_refuted_l : exists s s',
  main (fun _ => true) (Some (abs_path some_home)) (abs_path some_package) (fun _ => Ok (documented_default (abs_path (user_dir some_home))))
    (fun _ => "the configuration") "/tmp/x1" "txt" "yml" (fun fs _ => Ok fs) (fun _ _ => Ok "the catalogue") s = (Raise FileNotFoundError, s') /\
  typed s = ["/data"; "y"; ""; "y"; "n"; "n"] /\ no_file (disk s') (user_file some_home).
Proof.
  eexists (mkSys ["/data"; "y"; ""; "y"; "n"; "n"] (mkFs some_dirs [])), _. split; [|split; [reflexivity|]].
  - vm_compute. reflexivity.
  - vm_compute. reflexivity.
Qed.

Lemma C73_question_l : forall answers fs b rest fs', ask_rebuild (mkSys answers fs) = (Ok b, mkSys rest fs') <->
  fs' = fs /\ exists skipped, answers = skipped ++ (if b then "y" else "n") :: rest /\ Forall (fun x => x <> "y" /\ x <> "n") skipped.
Proof. exact rebuild_iff. Qed.

Lemma C73_no_l : forall creatable home package parse catalogue_text answers fs rest,
  ask_rebuild (mkSys answers fs) = (Ok false, mkSys rest fs) ->
  rebuild_catalogue creatable home package parse catalogue_text (mkSys answers fs) = (Ok tt, mkSys rest fs).
Proof. intros creatable home package parse catalogue_text answers fs rest H. unfold rebuild_catalogue, ibind at 1. now rewrite H. Qed.

Lemma C73_yes_l : forall creatable h package parse catalogue_text answers fs rest c base file, Forall os_name h ->
  ask_rebuild (mkSys answers fs) = (Ok true, mkSys rest fs) ->
  fst (get_config (Some (abs_path h)) package parse fs) = Ok c -> dget c "Path" = Some (CStr base) -> dget c "File" = Some (CStr file) ->
  exists r s', rebuild_catalogue creatable (Some (abs_path h)) package parse catalogue_text (mkSys answers fs) = (r, s') /\ typed s' = rest /\
    (forall p, p <> normpath (path_join base file) -> dget (fs_files (disk s')) p = dget (fs_files fs) p) /\
    (r = Ok tt -> exists text fs1, with_user_dir h fs fs1 /\ catalogue_text fs1 c = Ok text /\
       dget (fs_files (disk s')) (normpath (path_join base file)) = Some text) /\
    (r <> Ok tt -> fs_files (disk s') = fs_files fs).
Proof.
  intros creatable h package parse catalogue_text answers fs rest c base file F A G P Fi.
  unfold rebuild_catalogue, ibind at 1. rewrite A. unfold ibind at 1, on_disk. cbn [disk typed].
  destruct (get_config (Some (abs_path h)) package parse fs) as [g fs1] eqn:Gc. cbn in G. subst g.
  assert (W := get_frame parse h package _ _ _ F Gc). destruct (proj1 W).
  unfold ibind at 1, look, ibind at 1, pure. cbn [disk].
  destruct (catalogue_text fs1 c) as [text|e] eqn:T.
  - unfold save_catalogue, ibind, pure, dlookup. rewrite P, Fi. cbn [check_str]. unfold change_disk. cbn [disk typed].
    destruct (open_w creatable fs1 (path_join base file) text) as [fs2|e] eqn:O.
    + apply open_w_inv in O. destruct O as [-> _]. eexists _, _. split; [reflexivity|]. split; [reflexivity|]. cbn [disk fs_files]. split; [|split].
      * intros p N. apply dget_dset_other. congruence.
      * intros _. exists text, fs1. split; [exact W|]. split; [exact T|]. apply dget_dset_same.
      * congruence.
    + eexists _, _. split; [reflexivity|]. split; [reflexivity|]. cbn [disk]. split; [auto|]. split; [discriminate|auto].
  - eexists _, _. split; [reflexivity|]. split; [reflexivity|]. cbn [disk]. split; [auto|]. split; [discriminate|auto].
Qed.
