(** Theorems about the configuration: lookup, validation, file names (C59, C60, C71). *)
From Verif Require Import PyBase PyStr XReal IOSpec LineProofs FileModel PathModel ConfigModel CatalogueSpec NormProofs DiskModel SetupModel SetupSpec DiskProofs SetupProofs.
Open Scope R_scope.
Open Scope string_scope.
Open Scope list_scope.


(** a home directory, a package directory and a file system *)
Definition some_home := ["home"; "ada"].
Definition some_package := ["usr"; "lib"; "dispersion"].
Definition some_dirs := map abs_path [[]; ["home"]; ["home"; "ada"]; ["home"; "ada"; ".config"]; ["usr"]; ["usr"; "lib"]; ["usr"; "lib"; "dispersion"]; ["tmp"]].
Lemma some_names : Forall os_name some_home /\ Forall os_name some_package.
Proof.
  unfold os_name, plain_name, chars, some_home, some_package. split; repeat constructor; try discriminate; cbn; intros H; repeat (destruct H as [H|H]; [discriminate|]); exact H.
Qed.

Lemma C59_user_l : forall parse h package fs text, Forall os_name h -> can_open h fs -> is_file fs (user_file h) text ->
  exists fs', with_user_dir h fs fs' /\ read_config (Some (abs_path h)) package parse fs = (parse text, fs').
Proof. intros. now apply read_user. Qed.

Lemma C59_package_l : forall parse h p fs text, Forall os_name h -> Forall os_name p -> can_open h fs ->
  no_file fs (user_file h) -> is_file fs (p ++ ["config.yaml"]) text ->
  exists fs', with_user_dir h fs fs' /\ read_config (Some (abs_path h)) (abs_path p) parse fs = (parse text, fs').
Proof. intros. now apply read_package. Qed.

Lemma C59_found_l : forall home package parse fs c fs', read_config home package parse fs = (Ok c, fs') ->
  get_config home package parse fs = (Ok c, fs').
Proof. intros home package parse fs c fs' H. unfold get_config. now rewrite H. Qed.

Lemma C59_looking_l : forall parse h package fs, Forall os_name h ->
  (forall r fs', read_config (Some (abs_path h)) package parse fs = (r, fs') -> with_user_dir h fs fs') /\
  (forall r fs', get_config (Some (abs_path h)) package parse fs = (r, fs') -> with_user_dir h fs fs') /\
  (forall r fs', import_config (Some (abs_path h)) package parse fs = (r, fs') -> with_user_dir h fs fs').
Proof. intros parse h package fs F. split; [|split]; intros r fs' H; [eapply read_frame|eapply get_frame|eapply import_frame]; eauto. Qed.

Lemma C59_no_file_refuted_l : forall parse h p fs, Forall os_name h -> Forall os_name p -> can_open h fs ->
  no_file fs (user_file h) -> no_file fs (p ++ ["config.yaml"]) ->
  exists fs', with_user_dir h fs fs' /\
    get_config (Some (abs_path h)) (abs_path p) parse fs = (Raise ValueError, fs') /\
    import_config (Some (abs_path h)) (abs_path p) parse fs = (parse (documented_text (abs_path (user_dir h))), fs').
Proof.
  intros parse h p fs F P C N M. destruct (read_none parse h p fs F P C N M) as (fs' & W & D & R). exists fs'. split; [exact W|].
  assert (G : get_config (Some (abs_path h)) (abs_path p) parse fs = (Raise ValueError, fs')) by (unfold get_config; now rewrite R).
  split; [exact G|]. unfold import_config. rewrite G. change (catches ValueError ValueError) with true. cbv iota.
  unfold default_config. destruct (user_dir_open h fs' F (or_introl D)) as (fs2 & E & W2 & _). rewrite E, default_text_documented. f_equal.
  destruct W2 as [A [B|[B _]]]; [|contradiction]. destruct fs', fs2. cbn in *. now subst.
Qed.

Lemma C59_never_default_l : forall parse h p fs c fs', Forall os_name h -> Forall os_name p -> no_os_error parse ->
  get_config (Some (abs_path h)) (abs_path p) parse fs = (Ok c, fs') ->
  exists text, parse text = Ok c /\ (is_file fs (user_file h) text \/ no_file fs (user_file h) /\ is_file fs (p ++ ["config.yaml"]) text).
Proof. intros parse h p fs c fs' F P Y G. now apply (get_config_source parse h p fs c fs'). Qed.

Lemma C59_no_directory_refuted_l : forall parse h package fs, Forall os_name h -> nothing_at fs (user_dir h) -> ~ is_dir fs (h ++ [".config"]) ->
  get_config (Some (abs_path h)) package parse fs = (Raise FileNotFoundError, fs) /\
  import_config (Some (abs_path h)) package parse fs = (Raise FileNotFoundError, fs) /\
  default_config (Some (abs_path h)) parse fs = (Raise FileNotFoundError, fs).
Proof. intros parse h package fs F N D. destruct (no_dot_config parse h package fs F N D) as (_ & _ & A & B & C). auto. Qed.

Lemma C59_no_home_l : forall parse package fs,
  get_config None package parse fs = (Raise KeyError, fs) /\ import_config None package parse fs = (Raise KeyError, fs).
Proof. intros. split; reflexivity. Qed.

Lemma C59_written_l : forall creatable parse dump h package fs c, Forall os_name h -> creatable "config.yaml" = true ->
  is_dir fs (user_dir h) -> ~ is_dir fs (user_file h) -> parse (dump c) = Ok c ->
  exists fs', write_config creatable (Some (abs_path h)) package dump fs c (Some (abs_path (user_dir h))) = (Ok tt, fs') /\
    stored fs fs' (user_file h) (dump c) /\ get_config (Some (abs_path h)) package parse fs' = (Ok c, fs').
Proof.
  intros creatable parse dump h package fs c F C D N Y. destruct (write_user creatable dump h package fs c F C D N) as (fs' & W & S).
  exists fs'. split; [exact W|]. split; [exact S|]. destruct S as (Ed & T & _).
  assert (D' : is_dir fs' (user_dir h)) by (unfold is_dir; now rewrite Ed).
  destruct (read_user parse h package fs' _ F (or_introl D') T) as (fs2 & [A [B|[B _]]] & R); [|contradiction].
  unfold get_config. rewrite R, Y. f_equal. destruct fs', fs2. cbn in *. now subst.
Qed.

Lemma C59_written_package_l : forall creatable dump h p fs c, Forall os_name h -> Forall os_name p -> creatable "config.yaml" = true -> can_open h fs ->
  no_file fs (user_file h) -> (exists text, is_file fs (p ++ ["config.yaml"]) text) -> is_dir fs p -> ~ is_dir fs (p ++ ["config.yaml"]) ->
  user_dir h <> p ++ ["config.yaml"] ->
  exists fs1 fs', with_user_dir h fs fs1 /\ write_config creatable (Some (abs_path h)) (abs_path p) dump fs c None = (Ok tt, fs') /\
    stored fs1 fs' (p ++ ["config.yaml"]) (dump c).
Proof. intros. now apply write_package. Qed.

Lemma C60_accepts_l : forall W c, validate_config W c = Ok tt <-> valid_config W c.
Proof. exact validate_iff. Qed.

Lemma C60_rejects_l : forall W c, ~ valid_config W c -> exists e, validate_config W c = Raise e.
Proof. intros W c H. destruct (validate_config W c) as [[]|e] eqn:E; [apply validate_iff in E; contradiction|eauto]. Qed.

Lemma C60_errors_l : forall W c,
  (dget c "Path" = None -> validate_config W c = Raise KeyError) /\
  (forall v, dget c "Path" = Some v -> (forall s, v <> CStr s) -> validate_config W c = Raise ValueError) /\
  (forall p, dget c "Path" = Some (CStr p) -> isdir W p = false -> validate_config W c = Raise OSError) /\
  (forall p, dget c "Path" = Some (CStr p) -> isdir W p = true ->
    (dget c "File" = None -> validate_config W c = Raise KeyError) /\
    (forall v, dget c "File" = Some v -> (forall s, v <> CStr s) -> validate_config W c = Raise ValueError) /\
    (forall f, dget c "File" = Some (CStr f) ->
       (forall e, valid_file_name W f = Raise e -> validate_config W c = Raise e) /\
       (valid_file_name W f = Ok false -> validate_config W c = Raise OSError) /\
       (forall i w, valid_file_name W f = Ok true -> dget c "Interactive" = Some (CBool i) -> dget c "WarnMissingPackages" = Some (CBool w) ->
          (dget c "Modules" = None -> validate_config W c = Raise AssertionError) /\
          (forall d, dget c "Modules" = Some (CMap d) -> (exists m v, In (m, v) d /\ forall b, v <> CBool b) -> validate_config W c = Raise ValueError) /\
          (forall d, dget c "Modules" = Some (CMap d) -> (forall m v, In (m, v) d -> exists b, v = CBool b) ->
             dget c "ReferenceSpectrum" = None -> validate_config W c = Raise AssertionError)))).
Proof.
  intros W c. unfold validate_config, dlookup. split; [intros ->; reflexivity|]. split.
  { intros v -> H. cbn [bind]. destruct v; try reflexivity. now destruct (H s). }
  split; [intros p -> D; cbn [bind check_str]; now rewrite D|].
  intros p -> D. cbn [bind check_str]. rewrite D. cbn [bind]. split; [intros ->; reflexivity|]. split.
  { intros v -> H. cbn [bind]. destruct v; try reflexivity. now destruct (H s). }
  intros f ->. cbn [bind check_str]. split; [intros e ->; reflexivity|]. split; [intros ->; reflexivity|].
  intros i w -> -> ->. cbn [bind check_bool]. split; [intros ->; reflexivity|]. split.
  - intros d -> (m & v & I & N). cbn [bind map_values].
    assert (G : map_res check_bool (map snd d) = Raise ValueError).
    { induction d as [|[k x] d IH]; [contradiction|]. cbn [map snd map_res]. destruct x as [s|b|x|d'|]; try reflexivity. cbn [check_bool bind].
      destruct I as [I|I]; [injection I as -> <-; now destruct (N b)|]. rewrite IH by exact I. reflexivity. }
    now rewrite G.
  - intros d -> H ->. cbn [bind map_values]. destruct (proj2 (bools_ok (map snd d))) as [bs ->]; [|reflexivity].
    intros v I. apply in_map_iff in I. destruct I as ((k & v') & <- & I). eauto.
Qed.

Lemma C60_wrong_type_l : forall W c, valid_config W c ->
  (forall k v, In k ["Interactive"; "WarnMissingPackages"] -> (forall b, v <> CBool b) -> validate_config W (dset c k v) = Raise ValueError) /\
  forall r, dget c "ReferenceSpectrum" = Some (CMap r) ->
    (forall v, (forall x, v <> CFloat x) -> validate_config W (dset c "ReferenceSpectrum" (CMap (dset r "Value" v))) = Raise ValueError) /\
    (forall k v, In k ["SpectrumType"; "Unit"] -> (forall s, v <> CStr s) -> validate_config W (dset c "ReferenceSpectrum" (CMap (dset r k v))) = Raise ValueError).
Proof.
  intros W c [(p & Ep & Dp) (f & Ef & Vf) (i & Ei) (w & Ew) (d & Ed & Bd) (r0 & x & t & u & Er & Vr & Tr & Ur)].
  destruct (proj2 (bools_ok (map snd d))) as [bs Ebs].
  { intros v I. apply in_map_iff in I. destruct I as ((k & v') & <- & I). eauto. }
  split.
  - intros k v Hk Hv. unfold validate_config, dlookup. rewrite !(dget_dset_other c k "Path"), !(dget_dset_other c k "File"), !(dget_dset_other c k "Modules"), !(dget_dset_other c k "ReferenceSpectrum")
      by (cbn in Hk; destruct Hk as [<-|[<-|[]]]; discriminate).
    rewrite Ep. cbn [bind check_str]. rewrite Dp. cbn [bind]. rewrite Ef. cbn [bind check_str]. rewrite Vf. cbn [bind].
    cbn in Hk. destruct Hk as [<-|[<-|[]]].
    + rewrite dget_dset_same. cbn [bind]. destruct v; try reflexivity. now destruct (Hv b).
    + rewrite dget_dset_other by discriminate. rewrite Ei, dget_dset_same. cbn [bind check_bool]. destruct v; try reflexivity. now destruct (Hv b).
  - intros r Er'. rewrite Er in Er'. injection Er' as <-.
    assert (forall rr, validate_config W (dset c "ReferenceSpectrum" (CMap rr)) =
      (do v <- dlookup rr "Value"; do_ check_float v; do v <- dlookup rr "SpectrumType"; do_ check_str v; do v <- dlookup rr "Unit"; do_ check_str v; Ok tt)) as Q.
    { intros rr. unfold validate_config, dlookup. rewrite !dget_dset_other by discriminate. rewrite Ep. cbn [bind check_str]. rewrite Dp. cbn [bind]. rewrite Ef. cbn [bind check_str]. rewrite Vf. cbn [bind].
      rewrite Ei, Ew. cbn [bind check_bool]. rewrite Ed. cbn [bind map_values]. rewrite Ebs, dget_dset_same. reflexivity. }
    split; [intros v Hv|intros k v Hk Hv]; rewrite Q; unfold dlookup.
    + rewrite dget_dset_same. cbn [bind]. destruct v; try reflexivity. now destruct (Hv x0).
    + rewrite (dget_dset_other r0 k "Value") by (cbn in Hk; destruct Hk as [<-|[<-|[]]]; discriminate). rewrite Vr. cbn [bind check_float].
      cbn in Hk. destruct Hk as [<-|[<-|[]]].
      * rewrite dget_dset_same. cbn [bind]. destruct v; try reflexivity. now destruct (Hv s).
      * rewrite dget_dset_other by discriminate. rewrite Tr. cbn [bind check_str]. rewrite dget_dset_same. cbn [bind]. destruct v; try reflexivity. now destruct (Hv s).
Qed.

Lemma C60_sections_l : forall W c v, valid_config W c -> (forall d, v <> CMap d) ->
  validate_config W (dset c "Modules" v) = Raise AttributeError /\
  validate_config W (dset c "ReferenceSpectrum" v) = Raise TypeError /\
  forall r, dget r "Value" = None -> validate_config W (dset c "ReferenceSpectrum" (CMap r)) = Raise KeyError.
Proof.
  intros W c v [(p & Ep & Dp) (f & Ef & Vf) (i & Ei) (w & Ew) (d & Ed & Bd) (r0 & x & t & u & Er & Vr & Tr & Ur)] Hv.
  destruct (proj2 (bools_ok (map snd d))) as [bs Ebs].
  { intros v' I. apply in_map_iff in I. destruct I as ((k & v'') & <- & I). eauto. }
  assert (forall s, validate_config W (dset c "ReferenceSpectrum" s) =
      (do v <- map_item s "Value"; do_ check_float v; do v <- map_item s "SpectrumType"; do_ check_str v; do v <- map_item s "Unit"; do_ check_str v; Ok tt)) as Q.
  { intros s. unfold validate_config, dlookup. rewrite !dget_dset_other by discriminate. rewrite Ep. cbn [bind check_str]. rewrite Dp. cbn [bind]. rewrite Ef. cbn [bind check_str]. rewrite Vf. cbn [bind].
    rewrite Ei, Ew. cbn [bind check_bool]. rewrite Ed. cbn [bind map_values]. rewrite Ebs, dget_dset_same. reflexivity. }
  split; [|split].
  - unfold validate_config, dlookup. rewrite !(dget_dset_other c "Modules") by discriminate. rewrite Ep. cbn [bind check_str]. rewrite Dp. cbn [bind]. rewrite Ef. cbn [bind check_str]. rewrite Vf. cbn [bind].
    rewrite Ei, Ew. cbn [bind check_bool]. rewrite dget_dset_same. cbn [bind]. destruct v; try reflexivity. now destruct (Hv d0).
  - rewrite Q. destruct v; try reflexivity. now destruct (Hv d0).
  - intros r Hr. rewrite Q. cbn [map_item]. unfold dlookup at 1. rewrite Hr. reflexivity.
Qed.

Lemma C60_integer_l : forall W c r, dget c "ReferenceSpectrum" = Some (CMap r) -> dget r "Value" = Some COther ->
  exists e, validate_config W c = Raise e.
Proof.
  intros W c r E V. apply C60_rejects_l. intros [_ _ _ _ _ (r' & x & t & u & E' & V' & _)]. rewrite E in E'. injection E' as <-. rewrite V in V'. discriminate.
Qed.

Lemma C60_default_l : forall W dir, isdir W dir = true -> valid_file_name W "catalogue.csv" = Ok true ->
  validate_config W (documented_default dir) = Ok tt.
Proof.
  intros W dir D V. apply validate_iff. constructor.
  - exists dir. auto.
  - exists "catalogue.csv". auto.
  - now exists false.
  - now exists false.
  - eexists. split; [reflexivity|]. intros m v [H|[H|[]]]; injection H as <- <-; eauto.
  - eexists _, _, _, _. repeat split; reflexivity.
Qed.

Lemma C60_default_config_l : forall parse h fs, Forall os_name h -> can_open h fs ->
  parse (documented_text (abs_path (user_dir h))) = Ok (documented_default (abs_path (user_dir h))) ->
  exists fs', with_user_dir h fs fs' /\ is_dir fs' (user_dir h) /\
    default_config (Some (abs_path h)) parse fs = (Ok (documented_default (abs_path (user_dir h))), fs').
Proof.
  intros parse h fs F C Y. destruct (user_dir_open h fs F C) as (fs' & E & W & D). exists fs'. split; [exact W|]. split; [exact D|].
  unfold default_config. rewrite E, default_text_documented. now rewrite Y.
Qed.

Lemma C71_plain_l : forall creatable t fs name, Forall os_name t -> t <> [] -> fresh_dir fs (abs_path t) -> os_name name ->
  try_file_name creatable (abs_path t) fs name = (Ok (creatable name), fs).
Proof. intros. now apply try_plain. Qed.

Lemma C71_empty_l : forall creatable t fs, Forall os_name t -> t <> [] -> fresh_dir fs (abs_path t) ->
  try_file_name creatable (abs_path t) fs "" = (Ok false, fs).
Proof. intros. now apply try_empty. Qed.

Lemma C71_preserves_l : forall creatable t fs name r fs', Forall os_name t -> t <> [] -> fresh_dir fs (abs_path t) ->
  try_file_name creatable (abs_path t) fs name = (r, fs') -> preserves fs fs'.
Proof. intros creatable t fs name r fs' F N Fr H. eapply try_preserves; eauto. Qed.

Lemma C71_nul_refuted_l : forall creatable t fs name, Forall os_name t -> t <> [] -> fresh_dir fs (abs_path t) -> In "000"%char (chars name) ->
  try_file_name creatable (abs_path t) fs name = (Raise ValueError, fs).
Proof. intros. now apply try_nul. Qed.

Lemma C71_absolute_refuted_l : forall creatable t fs l x, Forall os_name t -> t <> [] -> fresh_dir fs (abs_path t) ->
  Forall os_name (l ++ [x]) -> in_dir (abs_path t) (abs_path (l ++ [x])) = false -> is_dir fs l -> nothing_at fs (l ++ [x]) -> creatable x = true ->
  exists fs', try_file_name creatable (abs_path t) fs (abs_path (l ++ [x])) = (Ok true, fs') /\ stored fs fs' (l ++ [x]) "".
Proof.
  intros creatable t fs l x Ht Hn Hf F O D N C. eexists. split; [now apply try_absolute|]. apply stored_dset.
Qed.
