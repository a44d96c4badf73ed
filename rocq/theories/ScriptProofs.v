(** Lemmas about the setup script as a whole *)
From Verif Require Import PyBase PyStr XReal IOSpec LineProofs TextProofs PathProofs FileModel PathModel ConfigModel CatalogueSpec NormProofs SaveProofs DiskModel SetupModel SetupSpec DiskProofs SetupProofs InstallProofs.
Open Scope string_scope.
Open Scope list_scope.

Lemma open_w_inv cr fs p t fs' : open_w cr fs p t = Ok fs' ->
  fs' = mkFs (fs_dirs fs) (dset (fs_files fs) (normpath p) t) /\ dir_exists fs (parent p) = true.
Proof.
  unfold open_w. intros H. destruct (has_nul p); [discriminate|]. destruct (_ || _ || _); [discriminate|]. destruct (dir_exists fs p); [discriminate|].
  destruct (dir_exists fs (parent p)) eqn:D; cbn [negb] in H; [|discriminate]. destruct (negb _); [discriminate|]. injection H as <-. auto.
Qed.
Lemma asked_abs d fs ans u r fs' : asked abs_validator d fs ans u r fs' -> fs' = fs /\ isabs u = true.
Proof.
  intros (sk & a & fs1 & -> & T & G & V). unfold abs_validator in V. injection V as V <-. split; [|exact V].
  induction T as [|? ? ? ? ? ? ? V1 T IH]; [reflexivity|]. unfold abs_validator in V1. injection V1 as _ ->. now apply IH.
Qed.
Lemma agreed_abs d fs ans u r fs' : agreed abs_validator d fs ans u r fs' -> fs' = fs /\ isabs u = true.
Proof.
  induction 1 as [? ? ? ? ? ? A _|? ? ? ? ? ? ? ? ? A _ _ [IH1 IH2]]; apply asked_abs in A; destruct A as [-> A]; auto.
Qed.
Lemma ibind_ok {A B} (m : io A) (f : A -> io B) s b s' : ibind m f s = (Ok b, s') -> exists a s1, m s = (Ok a, s1) /\ f a s1 = (Ok b, s').
Proof. unfold ibind. destruct (m s) as [[a|e] s1]; [eauto|discriminate]. Qed.
Lemma rebuild_iff answers fs b rest fs' : ask_rebuild (mkSys answers fs) = (Ok b, mkSys rest fs') <->
  fs' = fs /\ exists skipped, answers = skipped ++ (if b then "y" else "n") :: rest /\ Forall (fun x => x <> "y" /\ x <> "n") skipped.
Proof.
  unfold ask_rebuild. cbn [typed disk]. split.
  - induction answers as [|a l IH]; intros H; [discriminate|]. cbn [rebuild_from] in H.
    destruct (String.eqb_spec a "n") as [->|N]; [injection H as <- <- <-; split; [reflexivity|]; exists []; split; [reflexivity|constructor]|].
    destruct (String.eqb_spec a "y") as [->|Y]; [injection H as <- <- <-; split; [reflexivity|]; exists []; split; [reflexivity|constructor]|].
    destruct (IH H) as (E & sk & -> & F). split; [exact E|]. exists (a :: sk). split; [reflexivity|]. constructor; auto.
  - intros (-> & sk & -> & F). induction F as [|c l [N1 N2] F IH]; cbn [app rebuild_from].
    + destruct b; reflexivity.
    + rewrite (proj2 (String.eqb_neq c "n") N2), (proj2 (String.eqb_neq c "y") N1). exact IH.
Qed.
Lemma rebuild_eof answers fs : ask_rebuild (mkSys answers fs) = (Raise EOFError, mkSys [] fs) <-> Forall (fun x => x <> "y" /\ x <> "n") answers.
Proof.
  unfold ask_rebuild. cbn [typed disk]. split.
  - induction answers as [|a l IH]; intros H; [constructor|]. cbn [rebuild_from] in H.
    destruct (String.eqb_spec a "n") as [->|N]; [discriminate|]. destruct (String.eqb_spec a "y") as [->|Y]; [discriminate|]. constructor; auto.
  - induction 1 as [|c l [N1 N2] F IH]; [reflexivity|]. cbn [rebuild_from].
    rewrite (proj2 (String.eqb_neq c "n") N2), (proj2 (String.eqb_neq c "y") N1). exact IH.
Qed.

Section Script.
Variable creatable : string -> bool.
Variable pkg : string.
Variable parse : string -> res cfg.
Variable dump : cfg -> string.
Variable tmp : string.
Variable txt yml : string.
Variable clone : fsys -> string -> res fsys.
Variable catalogue_text : fsys -> cfg -> res string.

Lemma save_inv conf base file text s s' : dget conf "Path" = Some (CStr base) -> dget conf "File" = Some (CStr file) ->
  save_catalogue creatable conf text s = (Ok tt, s') ->
  typed s' = typed s /\ disk s' = mkFs (fs_dirs (disk s)) (dset (fs_files (disk s)) (normpath (path_join base file)) text).
Proof.
  intros P Fi. unfold save_catalogue, ibind, pure, dlookup. rewrite P, Fi. cbn [check_str]. unfold change_disk. intros H.
  destruct (open_w _ _ _ _) as [fs|e] eqn:W; [|discriminate]. injection H as <-. apply open_w_inv in W. cbn. split; [reflexivity|apply W].
Qed.
Lemma main_inv h s s' : Forall os_name h -> clone_keeps clone ->
  parse (documented_text (abs_path (user_dir h))) = Ok (documented_default (abs_path (user_dir h))) ->
  main creatable (Some (abs_path h)) pkg parse dump tmp txt yml clone catalogue_text s = (Ok tt, s') ->
  exists fs0 path r1 name r2 fs1 rii,
    with_user_dir h (disk s) fs0 /\ agreed abs_validator (abs_path (user_dir h)) fs0 (typed s) path r1 fs0 /\
    agreed (try_file_name creatable tmp) "catalogue.csv" fs0 r1 name r2 fs1 /\
    (rii = true -> rii_present clone [("Path", CStr path)] (disk s')) /\
    is_dir (disk s') (user_dir h) /\
    (normpath (path_join path name) <> abs_path (user_file h) ->
       is_file (disk s') (user_file h) (dump (setup_result path name rii))).
Proof.
  intros F K Y H. rewrite <- default_text_documented in Y. destruct (user_names h F) as (F1 & F2 & F3). unfold main in H.
  apply ibind_ok in H. destruct H as (conf & s0 & D & H). unfold on_disk in D.
  destruct (default_config (Some (abs_path h)) parse (disk s)) as [r fs0] eqn:Dc. injection D as -> <-.
  assert (W0 := default_frame parse h _ _ _ F Dc).
  assert (Ec : conf = documented_default (abs_path (user_dir h))).
  { unfold default_config in Dc. destruct (user_dir_cases h (disk s) F) as [[E G]|[(N & D' & G)|(N & D' & G)]]; rewrite G in Dc.
    - rewrite Y in Dc. now injection Dc.
    - rewrite Y in Dc. now injection Dc.
    - discriminate. }
  subst conf. apply ibind_ok in H. destruct H as (path & s1 & A1 & H).
  assert (Q1 : confirm_loop (ask_and_confirm abs_validator (abs_path (user_dir h))) (mkSys (typed s) fs0) = (Ok path, s1)).
  { exact A1. }
  destruct s1 as [r1 fs0']. apply loop_iff in Q1. destruct (agreed_abs _ _ _ _ _ _ Q1) as [-> Iabs].
  apply ibind_ok in H. destruct H as (name & s2 & A2 & H). destruct s2 as [r2 fs1].
  assert (Q2 : agreed (try_file_name creatable tmp) "catalogue.csv" fs0 r1 name r2 fs1).
  { apply loop_iff. exact A2. }
  apply ibind_ok in H. destruct H as (conf & s3 & A3 & H).
  apply (install_modules_flags creatable txt yml clone K) in A3. destruct A3 as (d & d' & Em & -> & Ek & Fl & Kp).
  cbn in Em. injection Em as <-.
  assert (Ed : exists rii, d' = [("UserData", CBool true); ("RefractiveIndexInfo", CBool rii)] /\
    (rii = true -> rii_present clone [("Path", CStr path)] (disk s3))).
  { destruct d' as [|[k1 v1] [|[k2 v2] [|? ?]]]; try discriminate. cbn in Ek. injection Ek as -> ->.
    assert (G1 := Fl "UserData" v1 eq_refl). assert (G2 := Fl "RefractiveIndexInfo" v2 eq_refl).
    destruct G1 as [[_ ->]|[[E _]|(E & _)]]; [|discriminate|congruence].
    destruct G2 as [[E _]|[[_ [->|[-> (p & Pp & G2)]]]|(_ & E & _)]]; [discriminate| | |congruence].
    - exists false. split; [reflexivity|discriminate].
    - exists true. split; [reflexivity|]. intros _. cbn in Pp. injection Pp as <-. exists path. split; [reflexivity|exact G2]. }
  destruct Ed as (rii & -> & Pr). clear Fl Ek.
  change (dset _ "Modules" _) with (setup_result path name rii) in H.
  apply ibind_ok in H. destruct H as (ud & s4 & A4 & H). unfold on_disk in A4.
  destruct (get_user_config_dir (Some (abs_path h)) (disk s3)) as [r fs4] eqn:Gu. injection A4 as -> <-.
  assert (W4 := user_dir_frame h _ _ _ F Gu).
  assert (Eu : ud = abs_path (user_dir h)).
  { destruct (user_dir_cases h (disk s3) F) as [[E G]|[(N & D' & G)|(N & D' & G)]]; rewrite G in Gu; congruence. }
  subst ud. apply ibind_ok in H. destruct H as (u & s5 & A5 & H). unfold on_disk, write_config in A5. cbn [disk typed] in A5.
  rewrite config_path, user_file_snoc in A5 by exact F2.
  destruct (open_w creatable fs4 (abs_path (user_file h)) (dump (setup_result path name rii))) as [fs5|e] eqn:Ow; [|discriminate].
  injection A5 as <- <-. apply open_w_inv in Ow. destruct Ow as [E5 Du].
  rewrite norm_abs in E5 by now apply os_plain. rewrite <- user_file_snoc, parent_abs in Du by (try apply dot_config; now apply os_plain).
  apply dir_exists_abs in Du; [|now apply os_plain].
  assert (K4 : keeps (disk s3) fs4).
  { destruct W4 as [Wf Wd]. split; [|rewrite Wf; eauto]. intros p I. destruct Wd as [->|[_ ->]]; [exact I|now right]. }
  assert (K5 : keeps fs4 fs5).
  { subst fs5. split; [auto|]. cbn [fs_files]. intros q text Q. destruct (String.eqb_spec q (abs_path (user_file h))) as [->|N]; [rewrite dget_dset_same; eauto|].
    rewrite dget_dset_other by congruence. eauto. }
  assert (Z : exists fs6, disk s' = fs6 /\ keeps fs5 fs6 /\ fs_dirs fs6 = fs_dirs fs5 /\
     (normpath (path_join path name) <> abs_path (user_file h) -> is_file fs6 (user_file h) (dump (setup_result path name rii)))).
  { unfold maybe_rebuild_catalogue in H. apply ibind_ok in H. destruct H as (b & s6 & A6 & H). apply confirmation_disk in A6. cbn [disk] in A6.
    assert (I5 : is_file fs5 (user_file h) (dump (setup_result path name rii))) by (subst fs5; unfold is_file; cbn; apply dget_dset_same).
    destruct b; cycle 1.
    - unfold ret in H. injection H as <-. exists fs5. rewrite A6. split; [reflexivity|]. split; [apply keeps_refl|]. split; [reflexivity|auto].
    - apply ibind_ok in H. destruct H as (r & s7 & A7 & H). unfold look in A7. injection A7 as <- <-.
      apply ibind_ok in H. destruct H as (text & s8 & A8 & H). unfold pure in A8. injection A8 as A8 <-.
      apply (save_inv _ path name) in H; [|reflexivity|reflexivity]. destruct H as [_ H]. rewrite A6 in H. rewrite H. eexists. split; [reflexivity|].
      split; [|split; [reflexivity|]].
      + split; [auto|]. cbn [fs_files]. intros q t Q. destruct (String.eqb_spec q (normpath (path_join path name))) as [->|N]; [rewrite dget_dset_same; eauto|].
        rewrite dget_dset_other by congruence. eauto.
      + intros N. unfold is_file. cbn [fs_files]. rewrite dget_dset_other by congruence. exact I5. }
  destruct Z as (fs6 & <- & K6 & E6 & I6).
  exists fs0, path, r1, name, r2, fs1, rii. split; [exact W0|]. split; [exact Q1|]. split; [exact Q2|]. split; [|split; [|exact I6]].
  - intros R. destruct (Pr R) as (p & Pp & Dp & Wp). exists p. assert (Kall := keeps_trans _ _ _ (keeps_trans _ _ _ K4 K5) K6).
    split; [exact Pp|]. split; [eapply keeps_dir; eauto|]. destruct Wp as [Wp|Wp]; [now left|right; eapply keeps_file; eauto].
  - unfold is_dir. rewrite E6, E5. exact Du.
Qed.
(** the root directory has to exist *)
Lemma install_no_root conf root s : Forall os_name root -> two_modules conf root -> ~ is_dir (disk s) root ->
  nothing_at (disk s) (root ++ ["UserData"]) ->
  install_modules creatable txt yml clone conf s = (Raise FileNotFoundError, s).
Proof.
  intros F (P & v & w & M) N [N1 N2]. destruct setup_names as (U & _). assert (Fu := sub_names _ _ F U).
  unfold install_modules, ibind at 1, pure, dlookup. rewrite M. cbn [map fst install_each].
  unfold ibind at 1, ibind at 1. unfold install_module, ibind at 1. change (String.eqb "UserData" "UserData") with true. cbv iota. unfold ret at 1.
  unfold ibind, pure, look, dlookup. rewrite P. cbn [check_str]. rewrite join_name by (try apply U; now apply os_plain).
  rewrite (proj2 (dir_exists_false (disk s) _ (os_plain _ Fu)) N1). unfold change_disk, mkdir, path_exists.
  rewrite (proj2 (dir_exists_false (disk s) _ (os_plain _ Fu)) N1). rewrite file_exists_abs by now apply os_plain. unfold no_file in N2. rewrite N2. cbn [orb].
  rewrite parent_abs by (try apply U; now apply os_plain). rewrite (proj2 (dir_exists_false (disk s) _ (os_plain _ F)) N). reflexivity.
Qed.
(** an unknown module *)
Lemma install_unknown conf m v d ans fs rest root : Forall os_name root -> os_name m -> m <> "UserData" -> m <> "RefractiveIndexInfo" ->
  dget conf "Modules" = Some (CMap ((m, v) :: d)) -> dget conf "Path" = Some (CStr (abs_path root)) -> is_dir fs root ->
  is_dir fs (root ++ [m]) \/ no_file fs (root ++ [m]) -> answered ans true rest ->
  exists fs', install_modules creatable txt yml clone conf (mkSys ans fs) = (Raise KeyError, mkSys rest fs') /\ is_dir fs' (root ++ [m]).
Proof.
  intros F Fm N1 N2 M P D O A. destruct (module_folder creatable txt clone conf root m fs F Fm P D O) as (fs' & Hd & Hf & Run). exists fs'. split; [|apply Hd; now right].
  unfold install_modules, ibind at 1, pure, dlookup. rewrite M. cbn [map fst install_each].
  unfold ibind at 1, ibind at 1. unfold install_module, ibind at 1. rewrite (proj2 (String.eqb_neq m "UserData") N1).
  rewrite (proj2 (confirm_iff ans fs true rest fs)) by auto.
  unfold ibind, pure, look, dlookup. rewrite P. cbn [check_str disk]. rewrite join_name by (try apply Fm; now apply os_plain). rewrite Run.
  unfold install_func. rewrite (proj2 (String.eqb_neq m "UserData") N1), (proj2 (String.eqb_neq m "RefractiveIndexInfo") N2). reflexivity.
Qed.
End Script.
