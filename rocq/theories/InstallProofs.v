(** Lemmas about the installation of modules and the setup script *)
From Verif Require Import PyBase PyStr XReal IOSpec LineProofs TextProofs PathProofs FileModel PathModel ConfigModel CatalogueSpec NormProofs SaveProofs DiskModel SetupModel SetupSpec DiskProofs SetupProofs.
Open Scope string_scope.
Open Scope list_scope.

Lemma keeps_refl fs : keeps fs fs.
Proof. split; eauto. Qed.
Lemma keeps_trans a b c : keeps a b -> keeps b c -> keeps a c.
Proof. intros [A B] [C D]. split; [auto|]. intros p t H. destruct (B p t H) as [t' H']. eauto. Qed.
Lemma open_w_keeps cr fs p t fs' : open_w cr fs p t = Ok fs' -> keeps fs fs'.
Proof.
  unfold open_w. intros H. destruct (has_nul p); [discriminate|]. destruct (_ || _ || _); [discriminate|]. destruct (dir_exists fs p); [discriminate|].
  destruct (negb _); [discriminate|]. destruct (negb _); [discriminate|]. injection H as <-. split; [auto|]. cbn. intros q text Q.
  destruct (String.eqb_spec q (normpath p)) as [->|N]; [rewrite dget_dset_same; eauto|]. rewrite dget_dset_other by congruence. eauto.
Qed.
Lemma mkdir_keeps fs p fs' : mkdir fs p = Ok fs' -> keeps fs fs' /\ dir_exists fs' p = true.
Proof.
  unfold mkdir. intros H. destruct (path_exists fs p); [discriminate|]. destruct (dir_exists fs (parent p)); [|discriminate].
  injection H as <-. split; [split; cbn; [intros q; now right|eauto]|]. unfold dir_exists. cbn. now rewrite String.eqb_refl.
Qed.
Lemma keeps_dir fs fs' p : keeps fs fs' -> dir_exists fs p = true -> dir_exists fs' p = true.
Proof. intros [A _]. unfold dir_exists. rewrite !existsb_exists. intros (x & H & E). eauto. Qed.
Lemma keeps_file fs fs' p : keeps fs fs' -> file_exists fs p = true -> file_exists fs' p = true.
Proof.
  intros [_ A]. unfold file_exists, dhas. destruct (dget (fs_files fs) (normpath p)) eqn:E; [|discriminate]. intros _.
  destruct (A _ _ E) as [t ->]. reflexivity.
Qed.
Lemma keeps_flag clone conf fs fs' m v : keeps fs fs' -> module_flag clone conf fs m v -> module_flag clone conf fs' m v.
Proof.
  intros K [H|[[E [H|[H (p & P & D & W)]]]|H]]; [now left|right; left; auto| |now right; right].
  right. left. split; [exact E|]. right. split; [exact H|]. exists p. split; [exact P|]. split; [eapply keeps_dir; eauto|].
  destruct W as [W|W]; [now left|right; eapply keeps_file; eauto].
Qed.
Lemma dset_same_keys {V} (d : dict V) k v : In k (map fst d) -> map fst (dset d k v) = map fst d.
Proof.
  induction d as [|[k' v'] d IH]; intros H; [contradiction|]. cbn [dset]. destruct (String.eqb k k') eqn:E; [reflexivity|].
  cbn [map fst]. f_equal. apply IH. destruct H as [H|H]; [cbn in H; subst; now rewrite String.eqb_refl in E|exact H].
Qed.

Ltac run H := match type of H with
  | context [match ?x with _ => _ end] => let E := fresh "E" in destruct x eqn:E
  end.

Section Setup.
Variable creatable : string -> bool.
Variable txt yml : string.
Variable clone : fsys -> string -> res fsys.
Hypothesis Hclone : clone_keeps clone.

Lemma confirmation_disk s b s' : get_confirmation s = (Ok b, s') -> disk s' = disk s.
Proof. destruct s as [a fs], s' as [a' fs']. intros H. apply confirm_iff in H. cbn. now destruct H. Qed.
Lemma change_keeps f s s' : (forall fs', f (disk s) = Ok fs' -> keeps (disk s) fs') -> change_disk f s = (Ok tt, s') -> keeps (disk s) (disk s').
Proof. unfold change_disk. intros K H. destruct (f (disk s)) as [fs|e]; [|discriminate]. injection H as <-. cbn. now apply K. Qed.

Lemma install_module_flag conf m s ok s' : install_module creatable txt yml clone conf m s = (Ok ok, s') ->
  keeps (disk s) (disk s') /\ module_flag clone conf (disk s') m (CBool ok).
Proof.
  unfold install_module, ibind at 1. intros H.
  destruct ((if String.eqb m "UserData" then ret true else get_confirmation) s) as [[b|e] s1] eqn:B; [|discriminate].
  assert (D1 : disk s1 = disk s).
  { destruct (String.eqb m "UserData"); [unfold ret in B; now injection B as <- <-|]. now apply confirmation_disk in B. }
  destruct b; cycle 1.
  { unfold ret in H. injection H as <- <-. rewrite D1. split; [apply keeps_refl|].
    destruct (String.eqb_spec m "UserData") as [->|N]; [unfold ret in B; discriminate|]. destruct (string_dec m "RefractiveIndexInfo") as [->|N2].
    - right. left. auto.
    - right. right. auto. }
  clear B. unfold ibind, pure, look in H. destruct (dlookup conf "Path") as [v|e] eqn:P; [|discriminate].
  destruct (check_str v) as [p|e] eqn:C; [|discriminate]. apply dlookup_ok in P. apply check_str_ok in C. subst v.
  destruct ((if dir_exists (disk s1) (path_join p m) then ret tt else change_disk (fun fs => mkdir fs (path_join p m))) s1) as [[u|e] s2] eqn:M; [|discriminate].
  assert (K2 : keeps (disk s) (disk s2) /\ dir_exists (disk s2) (path_join p m) = true).
  { rewrite <- D1. destruct (dir_exists (disk s1) (path_join p m)) eqn:D.
    - unfold ret in M. injection M as _ <-. split; [apply keeps_refl|exact D].
    - unfold change_disk in M. destruct (mkdir _ _) as [fs|] eqn:Mk; [|discriminate]. injection M as _ <-. cbn. now apply mkdir_keeps in Mk. }
  clear M. destruct K2 as [K2 D2]. unfold install_func in H. destruct (String.eqb_spec m "UserData") as [->|N].
  - unfold install_userdata, ibind in H.
    destruct (change_disk _ s2) as [[[]|e] s3] eqn:W1; [|discriminate]. apply change_keeps in W1; [|intros fs'; apply open_w_keeps].
    destruct (change_disk _ s3) as [[[]|e] s4] eqn:W2; [|discriminate]. apply change_keeps in W2; [|intros fs'; apply open_w_keeps].
    unfold ret in H. injection H as <- <-. split; [|now left; auto]. eapply keeps_trans; [exact K2|]. eapply keeps_trans; eauto.
  - destruct (String.eqb_spec m "RefractiveIndexInfo") as [->|N2]; [|discriminate].
    unfold install_rii, ibind at 1 in H. destruct (get_confirmation s2) as [[b|e] s3] eqn:Cf; [|discriminate]. apply confirmation_disk in Cf.
    destruct b.
    + unfold ibind, change_disk in H. destruct (clone (disk s3) _) as [fs|e] eqn:Cl; [|discriminate]. unfold ret in H. injection H as <- <-. cbn [disk].
      assert (K3 := Hclone _ _ _ Cl). rewrite Cf in K3. split; [eapply keeps_trans; eauto|]. right. left. split; [reflexivity|]. right. split; [reflexivity|].
      exists p. split; [exact P|]. split; [eapply keeps_dir; eauto|]. left. eauto.
    + unfold ibind, look, ret in H. rewrite Cf in H.
      assert (Z : forall b : bool, (b = true -> file_exists (disk s2) (path_join (path_join (path_join p "RefractiveIndexInfo") "database") "library.yml") = true) ->
        (Ok b, s3) = (Ok ok, s') -> keeps (disk s) (disk s') /\ module_flag clone conf (disk s') "RefractiveIndexInfo" (CBool ok)).
      { intros b Q E. injection E as <- <-. rewrite Cf. split; [exact K2|]. right. left. split; [reflexivity|]. destruct b; [right|now left].
        split; [reflexivity|]. exists p. split; [exact P|]. split; [exact D2|]. right. now apply Q. }
      rewrite D2 in H. cbn [negb] in H. rewrite Cf in H.
      destruct (dir_exists (disk s2) (path_join (path_join p "RefractiveIndexInfo") "database")); cbn [negb] in H; [|apply (Z false); [discriminate|exact H]].
      rewrite Cf in H. destruct (file_exists (disk s2) _) eqn:Lf; cbn [negb] in H; [apply (Z true); [auto|exact H]|apply (Z false); [discriminate|exact H]].
Qed.
Lemma install_each_flags conf names : forall mods s mods' s',
  install_each creatable txt yml clone conf names mods s = (Ok mods', s') -> incl names (map fst mods) ->
  map fst mods' = map fst mods /\ keeps (disk s) (disk s') /\
  (forall m, In m names -> exists v, dget mods' m = Some v /\ module_flag clone conf (disk s') m v) /\
  (forall m, ~ In m names -> dget mods' m = dget mods m).
Proof.
  induction names as [|m names IH]; intros mods s mods' s' H I.
  - unfold install_each, ret in H. injection H as <- <-. split; [reflexivity|]. split; [apply keeps_refl|]. split; [intros ? []|auto].
  - cbn [install_each] in H. unfold ibind in H. destruct (install_module creatable txt yml clone conf m s) as [[ok|e] s1] eqn:E; [|discriminate].
    apply install_module_flag in E. destruct E as [K1 F1].
    assert (Im : In m (map fst mods)) by (apply I; now left).
    destruct (IH _ _ _ _ H) as (Hk & K2 & In2 & Out2).
    { rewrite dset_same_keys by exact Im. intros q Q. apply I. now right. }
    rewrite dset_same_keys in Hk by exact Im. split; [exact Hk|]. split; [eapply keeps_trans; eauto|]. split.
    + intros q [<-|Q]; [|now apply In2]. destruct (in_dec string_dec m names) as [Q|Q]; [now apply In2|].
      exists (CBool ok). split; [rewrite Out2 by exact Q; apply dget_dset_same|]. eapply keeps_flag; eauto.
    + intros q Q. rewrite Out2 by (intros J; apply Q; now right). apply dget_dset_other. intros ->. apply Q. now left.
Qed.
Lemma install_modules_flags conf s conf' s' : install_modules creatable txt yml clone conf s = (Ok conf', s') ->
  exists d d', dget conf "Modules" = Some (CMap d) /\ conf' = dset conf "Modules" (CMap d') /\ map fst d' = map fst d /\
    (forall m v, dget d' m = Some v -> module_flag clone conf (disk s') m v) /\ keeps (disk s) (disk s').
Proof.
  unfold install_modules, ibind at 1, pure. intros H. destruct (dlookup conf "Modules") as [v|e] eqn:E; [|discriminate]. apply dlookup_ok in E.
  destruct v as [| | |d|]; try discriminate. unfold ibind in H. destruct (install_each _ _ _ _ _ _ _ s) as [[d'|e] s1] eqn:G; [|discriminate].
  unfold ret in H. injection H as <- <-. apply install_each_flags in G; [|apply incl_refl]. destruct G as (Hk & K & In2 & Out2).
  exists d, d'. split; [exact E|]. split; [reflexivity|]. split; [exact Hk|]. split; [|exact K]. intros m v V.
  destruct (in_dec string_dec m (map fst d)) as [Q|Q].
  - destruct (In2 m Q) as (w & W & F). congruence.
  - exfalso. rewrite <- Hk in Q. apply dget_None_keys in Q. congruence.
Qed.
End Setup.

(** ** the two modules of the default configuration *)
Section Two.
Variable creatable : string -> bool.
Variable txt yml : string.
Variable clone : fsys -> string -> res fsys.

Lemma setup_names : os_name "UserData" /\ os_name "RefractiveIndexInfo" /\ os_name "database" /\ os_name "library.yml" /\
  os_name "example_file.txt" /\ os_name "example_file2.yml".
Proof. unfold os_name, plain_name, chars. cbn. repeat split; try discriminate; intros H; repeat (destruct H as [H|H]; [discriminate|]); exact H. Qed.
Lemma sub_names l x : Forall os_name l -> os_name x -> Forall os_name (l ++ [x]).
Proof. intros F X. apply Forall_app. auto. Qed.
Lemma snoc2 (l : list string) x y : (l ++ [x]) ++ [y] = l ++ [x; y].
Proof. now rewrite <- app_assoc. Qed.
Lemma snoc_neq (l : list string) x : l <> l ++ [x].
Proof. intros H. apply (f_equal (@length string)) in H. rewrite app_length in H. cbn in H. lia. Qed.

(** the directory of a module is there, or is created *)
Lemma module_folder conf root m fs : Forall os_name root -> os_name m -> dget conf "Path" = Some (CStr (abs_path root)) -> is_dir fs root ->
  is_dir fs (root ++ [m]) \/ no_file fs (root ++ [m]) ->
  exists fs', (forall p, In p (fs_dirs fs') <-> In p (fs_dirs fs) \/ p = abs_path (root ++ [m])) /\ fs_files fs' = fs_files fs /\
    forall ans, (if dir_exists fs (abs_path (root ++ [m])) then ret tt else change_disk (fun fs => mkdir fs (abs_path (root ++ [m])))) (mkSys ans fs) = (Ok tt, mkSys ans fs').
Proof.
  intros F Fm P D O. assert (Fr := sub_names _ _ F Fm). destruct (dir_exists fs (abs_path (root ++ [m]))) eqn:E.
  - exists fs. apply dir_exists_abs in E; [|now apply os_plain]. split; [|split; [reflexivity|reflexivity]].
    intros p. split; [now left|]. intros [H| ->]; [exact H|exact E].
  - assert (E' := E). apply dir_exists_false in E; [|now apply os_plain]. destruct O as [O|O]; [contradiction|].
    exists (mkFs (abs_path (root ++ [m]) :: fs_dirs fs) (fs_files fs)). split; [cbn; intros p; intuition congruence|]. split; [reflexivity|].
    intros ans. unfold change_disk, mkdir, path_exists. cbn [disk typed]. rewrite E'. rewrite file_exists_abs by now apply os_plain. unfold no_file in O. rewrite O. cbn [orb].
    rewrite parent_abs by (try apply Fm; now apply os_plain). rewrite (proj2 (dir_exists_abs fs root (os_plain _ F)) D).
    rewrite norm_abs by now apply os_plain. reflexivity.
Qed.
Lemma user_step conf root ans fs : Forall os_name root -> dget conf "Path" = Some (CStr (abs_path root)) -> folder_ready creatable root fs ->
  exists fs', install_module creatable txt yml clone conf "UserData" (mkSys ans fs) = (Ok true, mkSys ans fs') /\ examples_installed txt yml root fs fs'.
Proof.
  intros F P (D & O & N1 & N2 & C1 & C2). destruct setup_names as (U & _ & _ & _ & X1 & X2).
  destruct (module_folder conf root "UserData" fs F U P D O) as (fs1 & Hd & Hf & Run).
  assert (Fu := sub_names _ _ F U). assert (F1 := sub_names _ _ Fu X1). assert (F2 := sub_names _ _ Fu X2). rewrite snoc2 in F1, F2.
  assert (Du : is_dir fs1 (root ++ ["UserData"])) by (apply Hd; now right).
  assert (M1 : ~ is_dir fs1 (root ++ ["UserData"; "example_file.txt"])).
  { intros H. apply Hd in H. destruct H as [H|H]; [contradiction|]. apply abs_inj in H; try now apply os_plain. symmetry in H. rewrite <- snoc2 in H. now apply snoc_neq in H. }
  assert (M2 : ~ is_dir fs1 (root ++ ["UserData"; "example_file2.yml"])).
  { intros H. apply Hd in H. destruct H as [H|H]; [contradiction|]. apply abs_inj in H; try now apply os_plain. symmetry in H. rewrite <- snoc2 in H. now apply snoc_neq in H. }
  set (fs2 := mkFs (fs_dirs fs1) (dset (fs_files fs1) (abs_path (root ++ ["UserData"; "example_file.txt"])) txt)).
  set (fs3 := mkFs (fs_dirs fs2) (dset (fs_files fs2) (abs_path (root ++ ["UserData"; "example_file2.yml"])) yml)).
  exists fs3. split.
  - unfold install_module, ibind at 1. change (String.eqb "UserData" "UserData") with true. cbv iota. unfold ret at 1.
    unfold ibind, pure, look. cbn [typed disk]. unfold dlookup. rewrite P. cbn [check_str]. rewrite join_name by (try apply U; now apply os_plain).
    rewrite Run. unfold install_func. change (String.eqb "UserData" "UserData") with true. cbv iota.
    unfold install_userdata, ibind, change_disk. cbn [disk typed].
    rewrite !join_name by (try apply X1; try apply X2; now apply os_plain). 
    rewrite (open_w_abs creatable fs1 (root ++ ["UserData"]) "example_file.txt") by (rewrite ?snoc2; auto).
    rewrite (snoc2 root "UserData" "example_file.txt"). cbn [disk typed]. fold fs2.
    rewrite (open_w_abs creatable fs2 (root ++ ["UserData"]) "example_file2.yml") by (rewrite ?snoc2; auto).
    rewrite (snoc2 root "UserData" "example_file2.yml"). reflexivity.
  - unfold examples_installed. split; [exact Hd|]. unfold fs3, fs2, is_file. cbn [fs_files fs_dirs].
    assert (Ne : abs_path (root ++ ["UserData"; "example_file2.yml"]) <> abs_path (root ++ ["UserData"; "example_file.txt"])).
    { intros H. apply abs_inj in H; try now apply os_plain. apply app_inv_head in H. discriminate. }
    split; [rewrite dget_dset_other by congruence; apply dget_dset_same|]. split; [apply dget_dset_same|].
    intros p Q1 Q2. rewrite !dget_dset_other by congruence. now rewrite Hf.
Qed.

Section Run.
Variables (conf : cfg) (root : list string) (ans : list string) (fs : fsys).
Hypothesis F : Forall os_name root.
Hypothesis T : two_modules conf root.
Hypothesis Rd : folder_ready creatable root fs.

Lemma two_start : exists fs1, examples_installed txt yml root fs fs1 /\
  forall s, s = mkSys ans fs -> install_modules creatable txt yml clone conf s =
    match install_module creatable txt yml clone conf "RefractiveIndexInfo" (mkSys ans fs1) with
    | (Ok b, s') => (Ok (with_flags conf true b), s')
    | (Raise e, s') => (Raise e, s')
    end.
Proof.
  destruct T as (P & v & w & M). destruct (user_step conf root ans fs F P Rd) as (fs1 & E & X). exists fs1. split; [exact X|].
  intros s ->. unfold install_modules, ibind at 1, pure, dlookup. rewrite M. cbn [map fst install_each]. unfold ibind. rewrite E.
  destruct (install_module creatable txt yml clone conf "RefractiveIndexInfo" (mkSys ans fs1)) as [[b|e] s'] eqn:G; reflexivity.
Qed.
Lemma two_declined rest : answered ans false rest ->
  exists fs1, examples_installed txt yml root fs fs1 /\
    install_modules creatable txt yml clone conf (mkSys ans fs) = (Ok (with_flags conf true false), mkSys rest fs1).
Proof.
  intros A. destruct two_start as (fs1 & X & E). exists fs1. split; [exact X|]. rewrite E by reflexivity.
  unfold install_module, ibind at 1. change (String.eqb "RefractiveIndexInfo" "UserData") with false. cbv iota.
  rewrite (proj2 (confirm_iff ans fs1 false rest fs1)) by auto. reflexivity.
Qed.
Hypothesis Rf : is_dir fs (root ++ ["RefractiveIndexInfo"]) \/ no_file fs (root ++ ["RefractiveIndexInfo"]).
Lemma rii_neq l : Forall os_name l -> ~ In "UserData" l -> abs_path (root ++ "RefractiveIndexInfo" :: l) <> abs_path (root ++ ["UserData"; "example_file.txt"]) /\
  abs_path (root ++ "RefractiveIndexInfo" :: l) <> abs_path (root ++ ["UserData"; "example_file2.yml"]) /\
  abs_path (root ++ "RefractiveIndexInfo" :: l) <> abs_path (root ++ ["UserData"]).
Proof.
  intros Fl N. destruct setup_names as (U & Ri & _ & _ & X1 & X2). assert (Fp := os_plain _ F).
  assert (G : Forall plain_name (root ++ "RefractiveIndexInfo" :: l)) by (apply Forall_app; split; [exact Fp|constructor; [apply Ri|now apply os_plain]]).
  repeat split; intros H; apply abs_inj in H; try exact G;
    try (apply app_inv_head in H; discriminate); apply Forall_app; (split; [exact Fp|]); repeat (constructor; [first [apply U|apply X1|apply X2]|]); constructor.
Qed.
(** confirmed: the directory is made, then the question about the download *)
Lemma two_confirmed r1 : answered ans true r1 ->
  exists fs1 fs2, examples_installed txt yml root fs fs1 /\
    (forall p, In p (fs_dirs fs2) <-> In p (fs_dirs fs1) \/ p = abs_path (root ++ ["RefractiveIndexInfo"])) /\ fs_files fs2 = fs_files fs1 /\
    install_modules creatable txt yml clone conf (mkSys ans fs) =
      match install_rii clone (abs_path (root ++ ["RefractiveIndexInfo"])) true (mkSys r1 fs2) with
      | (Ok b, s') => (Ok (with_flags conf true b), s')
      | (Raise e, s') => (Raise e, s')
      end.
Proof.
  intros A. destruct two_start as (fs1 & X & E). destruct setup_names as (U & Ri & Da & Li & X1 & X2). assert (P := proj1 T).
  assert (D1 : is_dir fs1 root) by (apply (proj1 X); left; apply (proj1 Rd)).
  assert (O1 : is_dir fs1 (root ++ ["RefractiveIndexInfo"]) \/ no_file fs1 (root ++ ["RefractiveIndexInfo"])).
  { destruct Rf as [R|R]; [left; apply (proj1 X); now left|right]. unfold no_file. destruct (rii_neq [] (Forall_nil _)) as (Z1 & Z2 & _); [intros []|].
    destruct X as (_ & _ & _ & X). rewrite X by assumption. exact R. }
  destruct (module_folder conf root "RefractiveIndexInfo" fs1 F Ri P D1 O1) as (fs2 & Hd & Hf & Run).
  exists fs1, fs2. split; [exact X|]. split; [exact Hd|]. split; [exact Hf|]. rewrite E by reflexivity.
  assert (Q : install_module creatable txt yml clone conf "RefractiveIndexInfo" (mkSys ans fs1) =
              install_rii clone (abs_path (root ++ ["RefractiveIndexInfo"])) true (mkSys r1 fs2)).
  { unfold install_module, ibind at 1. change (String.eqb "RefractiveIndexInfo" "UserData") with false. cbv iota.
    rewrite (proj2 (confirm_iff ans fs1 true r1 fs1)) by auto.
    unfold ibind, pure, look. cbn [typed disk]. unfold dlookup. rewrite P. cbn [check_str]. rewrite join_name by (try apply Ri; now apply os_plain).
    rewrite Run. unfold install_func. change (String.eqb "RefractiveIndexInfo" "UserData") with false.
    change (String.eqb "RefractiveIndexInfo" "RefractiveIndexInfo") with true. reflexivity. }
  rewrite Q. reflexivity.
Qed.
Lemma two_present r1 rest : answered ans true r1 -> answered r1 false rest ->
  exists fs' b, install_modules creatable txt yml clone conf (mkSys ans fs) = (Ok (with_flags conf true b), mkSys rest fs') /\
    (b = true <-> is_dir fs (root ++ ["RefractiveIndexInfo"; "database"]) /\ exists text, is_file fs (root ++ ["RefractiveIndexInfo"; "database"; "library.yml"]) text) /\
    (forall p, In p (fs_dirs fs') <-> In p (fs_dirs fs) \/ p = abs_path (root ++ ["UserData"]) \/ p = abs_path (root ++ ["RefractiveIndexInfo"])).
Proof.
  intros A B. destruct (two_confirmed r1 A) as (fs1 & fs2 & X & Hd & Hf & E). destruct setup_names as (U & Ri & Da & Li & X1 & X2).
  assert (Fr := sub_names _ _ F Ri). assert (Fd := sub_names _ _ Fr Da). assert (Fl := sub_names _ _ Fd Li).
  assert (Dirs : forall p, In p (fs_dirs fs2) <-> In p (fs_dirs fs) \/ p = abs_path (root ++ ["UserData"]) \/ p = abs_path (root ++ ["RefractiveIndexInfo"])).
  { intros p. rewrite Hd. rewrite (proj1 X p). tauto. }
  unfold install_rii, ibind at 1 in E. rewrite (proj2 (confirm_iff r1 fs2 false rest fs2)) in E by auto.
  unfold ibind, look, ret in E. cbn [disk typed] in E.
  rewrite (proj2 (dir_exists_abs fs2 _ (os_plain _ Fr))) in E by (apply Hd; now right). cbn [negb disk] in E.
  rewrite !join_name in E by (try apply Da; try apply Li; now apply os_plain).
  assert (S1 : (root ++ ["RefractiveIndexInfo"]) ++ ["database"] = root ++ ["RefractiveIndexInfo"; "database"]) by now rewrite <- app_assoc.
  assert (S2 : ((root ++ ["RefractiveIndexInfo"]) ++ ["database"]) ++ ["library.yml"] = root ++ ["RefractiveIndexInfo"; "database"; "library.yml"]) by now rewrite <- !app_assoc.
  assert (Dd : is_dir fs2 (root ++ ["RefractiveIndexInfo"; "database"]) <-> is_dir fs (root ++ ["RefractiveIndexInfo"; "database"])).
  { unfold is_dir at 1. rewrite Dirs. split; [|now left]. intros [H|[H|H]]; [exact H| |]; exfalso.
    - destruct (rii_neq ["database"]) as (_ & _ & Z); [now constructor|intros [H'|[]]; discriminate|]. contradiction.
    - rewrite <- S1 in H. apply abs_inj in H; try now apply os_plain. symmetry in H. now apply snoc_neq in H. }
  assert (Df : forall text, is_file fs2 (root ++ ["RefractiveIndexInfo"; "database"; "library.yml"]) text <-> is_file fs (root ++ ["RefractiveIndexInfo"; "database"; "library.yml"]) text).
  { intros text. unfold is_file. rewrite Hf. destruct (rii_neq ["database"; "library.yml"]) as (Z1 & Z2 & _); [repeat (constructor; auto)|intros [H'|[H'|[]]]; discriminate|].
    destruct X as (_ & _ & _ & X). rewrite X by assumption. reflexivity. }
  destruct (dir_exists fs2 (abs_path ((root ++ ["RefractiveIndexInfo"]) ++ ["database"]))) eqn:G; cbn [negb] in E.
  - apply dir_exists_abs in G; [|now apply os_plain]. rewrite file_exists_abs in E by now apply os_plain. rewrite S1 in G. rewrite S2 in E. cbn [disk] in E.
    destruct (dget (fs_files fs2) (abs_path (root ++ ["RefractiveIndexInfo"; "database"; "library.yml"]))) as [text|] eqn:L; cbn [negb] in E.
    + exists fs2, true. split; [exact E|]. split; [|exact Dirs]. split; [intros _|reflexivity]. split; [now apply Dd|]. exists text. now apply Df.
    + exists fs2, false. split; [exact E|]. split; [|exact Dirs]. split; [discriminate|]. intros [_ [text K]]. apply Df in K. unfold is_file in K. congruence.
  - apply dir_exists_false in G; [|now apply os_plain]. rewrite S1 in G. exists fs2, false. split; [exact E|]. split; [|exact Dirs]. split; [discriminate|].
    intros [K _]. apply Dd in K. contradiction.
Qed.
Lemma two_download r1 rest : answered ans true r1 -> answered r1 true rest ->
  exists fs2, (forall p, In p (fs_dirs fs2) <-> In p (fs_dirs fs) \/ p = abs_path (root ++ ["UserData"]) \/ p = abs_path (root ++ ["RefractiveIndexInfo"])) /\
    install_modules creatable txt yml clone conf (mkSys ans fs) =
      match clone fs2 (abs_path (root ++ ["RefractiveIndexInfo"])) with
      | Ok fs3 => (Ok (with_flags conf true true), mkSys rest fs3)
      | Raise e => (Raise e, mkSys rest fs2)
      end.
Proof.
  intros A B. destruct (two_confirmed r1 A) as (fs1 & fs2 & X & Hd & Hf & E). exists fs2. split.
  { intros p. rewrite Hd. rewrite (proj1 X p). tauto. }
  rewrite E. unfold install_rii, ibind at 1. rewrite (proj2 (confirm_iff r1 fs2 true rest fs2)) by auto.
  unfold ibind, change_disk, ret. cbn [disk typed]. destruct (clone fs2 _); reflexivity.
Qed.
End Run.
End Two.
