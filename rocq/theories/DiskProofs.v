(** Lemmas about the file system, configuration files and configurations *)
From Verif Require Import PyBase PyStr XReal IOSpec LineProofs TextProofs PathProofs FileModel PathModel ConfigModel CatalogueSpec NormProofs SaveProofs DiskModel SetupModel SetupSpec.
Open Scope string_scope.
Open Scope list_scope.

(** ** paths *)
Lemma os_plain l : Forall os_name l -> Forall plain_name l.
Proof. apply Forall_impl. now intros x []. Qed.
Lemma norm_abs l : Forall plain_name l -> normpath (abs_path l) = abs_path l.
Proof. intros F. destruct l as [|x l]; [reflexivity|]. apply normpath_abs; [discriminate|exact F]. Qed.
Lemma join_name l x : Forall plain_name l -> plain_name x -> path_join (abs_path l) x = abs_path (l ++ [x]).
Proof. intros F P. change x with (rel_path [x]) at 1. apply join_abs_any; [discriminate|exact F|now constructor]. Qed.
Lemma abs_snoc l x : exists a, abs_path (l ++ [x]) = (a ++ String "/" x)%string /\
  (l = [] /\ a = "" \/ l <> [] /\ a = abs_path l).
Proof.
  unfold abs_path. destruct l as [|y l].
  - exists "". split; [reflexivity|]. now left.
  - exists ("/" ++ join "/" (y :: l))%string. split; [|right; split; [discriminate|reflexivity]].
    rewrite join_app by discriminate. now rewrite app_assoc_s.
Qed.
Lemma before_last_app c a b : ~ In c (chars b) -> before_last c (a ++ String c b)%string = Some a.
Proof.
  intros H. assert (N : before_last c b = None).
  { clear a. induction b as [|d b IH]; [reflexivity|]. rewrite chars_cons in H. cbn [before_last].
    rewrite IH by (intros Hi; apply H; now right). destruct (Ascii.eqb d c) eqn:E; [|reflexivity].
    apply Ascii.eqb_eq in E. subst. exfalso. apply H. now left. }
  induction a as [|d a IH]; cbn [append before_last]; [now rewrite N, Ascii.eqb_refl|]. now rewrite IH.
Qed.
Lemma parent_abs l x : Forall plain_name l -> plain_name x -> parent (abs_path (l ++ [x])) = abs_path l.
Proof.
  intros F P. unfold parent. rewrite norm_abs by (apply Forall_app; auto).
  destruct (abs_snoc l x) as (a & -> & K). rewrite before_last_app by apply P.
  destruct K as [[-> ->]|[N ->]]; [reflexivity|]. unfold abs_path at 1. reflexivity.
Qed.
Lemma basename_abs l x : plain_name x -> basename (abs_path (l ++ [x])) = x.
Proof. intros P. unfold basename. destruct (abs_snoc l x) as (a & -> & _). now rewrite after_last_app by apply P. Qed.
Lemma has_nul_iff p : has_nul p = false <-> ~ In "000"%char (chars p).
Proof.
  unfold has_nul, chars. split.
  - intros H I. enough (existsb (Ascii.eqb "000") (list_ascii_of_string p) = true) by congruence.
    apply existsb_exists. exists "000"%char. split; [exact I|reflexivity].
  - intros H. destruct (existsb _ _) eqn:E; [|reflexivity]. apply existsb_exists in E. destruct E as (c & I & E).
    apply Ascii.eqb_eq in E. subst. contradiction.
Qed.
Lemma no_nul_abs l : Forall os_name l -> has_nul (abs_path l) = false.
Proof.
  intros F. apply has_nul_iff. unfold abs_path. rewrite chars_app_in. intros [[H|[]]|H]; [discriminate|].
  induction F as [|x l [P N] F IH]; [exact H|]. destruct l as [|y l]; [contradiction|].
  rewrite join_cons in H. apply chars_app_in in H. destruct H as [H|H]; [contradiction|].
  apply chars_app_in in H. destruct H as [[H|[]]|H]; [discriminate|]. contradiction.
Qed.
Lemma abs_inj l l' : Forall plain_name l -> Forall plain_name l' -> abs_path l = abs_path l' -> l = l'.
Proof.
  intros F F' E. unfold abs_path in E. injection E as E.
  assert (Z : forall x l, Forall plain_name (x :: l) -> join "/" (x :: l) <> "").
  { intros x r G H. destruct (rel_starts (x :: r)) as [_ K]; [discriminate|exact G|]. now apply K. }
  destruct l as [|x l], l' as [|y l'].
  - reflexivity.
  - symmetry in E. now apply Z in E.
  - now apply Z in E.
  - rewrite <- (split_join "/" (x :: l)), <- (split_join "/" (y :: l')); try discriminate; try now apply plain_split. now rewrite E.
Qed.

(** ** looking *)
Lemma dir_exists_abs fs l : Forall plain_name l -> dir_exists fs (abs_path l) = true <-> is_dir fs l.
Proof.
  intros F. unfold dir_exists, is_dir. rewrite norm_abs by exact F. rewrite existsb_exists. split.
  - intros (x & H & E). apply String.eqb_eq in E. now subst.
  - intros H. exists (abs_path l). split; [exact H|apply String.eqb_refl].
Qed.
Lemma dir_exists_false fs l : Forall plain_name l -> dir_exists fs (abs_path l) = false <-> ~ is_dir fs l.
Proof. intros F. rewrite <- dir_exists_abs by exact F. destruct (dir_exists _ _); intuition congruence. Qed.
Lemma file_exists_abs fs l : Forall plain_name l -> file_exists fs (abs_path l) = match dget (fs_files fs) (abs_path l) with Some _ => true | None => false end.
Proof. intros F. unfold file_exists, dhas. now rewrite norm_abs by exact F. Qed.
Lemma open_r_abs fs l x : Forall os_name (l ++ [x]) -> open_r fs (abs_path (l ++ [x])) =
  match dget (fs_files fs) (abs_path (l ++ [x])) with
  | Some text => Ok text
  | None => if dir_exists fs (abs_path (l ++ [x])) then Raise OSError else Raise FileNotFoundError
  end.
Proof.
  intros F. assert (P := os_plain _ F). apply Forall_app in P as G. destruct G as [Fl Fx]. inversion_clear Fx as [|? ? Px _].
  unfold open_r. rewrite no_nul_abs by exact F. rewrite basename_abs by exact Px. rewrite norm_abs by exact P.
  destruct x; [now destruct Px|]. reflexivity.
Qed.
Lemma open_w_abs creatable fs l x text : Forall os_name (l ++ [x]) -> ~ is_dir fs (l ++ [x]) -> is_dir fs l -> creatable x = true ->
  open_w creatable fs (abs_path (l ++ [x])) text = Ok (mkFs (fs_dirs fs) (dset (fs_files fs) (abs_path (l ++ [x])) text)).
Proof.
  intros F N D C. assert (P := os_plain _ F). apply Forall_app in P as G. destruct G as [Fl Fx]. inversion_clear Fx as [|? ? Px _].
  unfold open_w. rewrite no_nul_abs by exact F. rewrite basename_abs by exact Px. destruct Px as (N1 & N2 & N3 & N4).
  rewrite (proj2 (String.eqb_neq x "") N1), (proj2 (String.eqb_neq x ".") N2), (proj2 (String.eqb_neq x "..") N3).
  cbn [orb]. rewrite (proj2 (dir_exists_false fs (l ++ [x]) P) N).
  rewrite parent_abs by (try exact Fl; repeat split; assumption).
  rewrite (proj2 (dir_exists_abs fs l Fl) D), C. cbn [negb]. rewrite norm_abs by exact P. reflexivity.
Qed.
Lemma stored_dset fs l text : stored fs (mkFs (fs_dirs fs) (dset (fs_files fs) (abs_path l) text)) l text.
Proof.
  unfold stored, is_file. cbn. repeat split; [apply dget_dset_same|]. intros p H. apply dget_dset_other. congruence.
Qed.

(** ** the configuration file *)
Lemma dot_config : os_name ".config" /\ os_name "dispersion" /\ os_name "config.yaml".
Proof. unfold os_name, plain_name, chars. cbn. repeat split; try discriminate; intros H; repeat (destruct H as [H|H]; [discriminate|]); exact H. Qed.
Lemma user_names h : Forall os_name h -> Forall os_name (h ++ [".config"]) /\ Forall os_name (user_dir h) /\ Forall os_name (user_file h).
Proof.
  intros F. destruct dot_config as (A & B & C). unfold user_dir, user_file. rewrite !Forall_app. repeat split; auto.
Qed.
Lemma user_dir_path h : Forall os_name h -> path_join (path_join (abs_path h) ".config") "dispersion" = abs_path (user_dir h).
Proof.
  intros F. destruct dot_config as ([A _] & [B _] & _). rewrite join_name by (auto using os_plain).
  rewrite join_name by (try exact B; apply os_plain; now apply user_names). unfold user_dir. now rewrite <- app_assoc.
Qed.
Lemma config_path l : Forall os_name l -> path_join (abs_path l) "config.yaml" = abs_path (l ++ ["config.yaml"]).
Proof. intros F. destruct dot_config as (_ & _ & [C _]). now rewrite join_name by (auto using os_plain). Qed.
Lemma user_file_snoc h : user_dir h ++ ["config.yaml"] = user_file h.
Proof. unfold user_dir, user_file. now rewrite <- app_assoc. Qed.
Lemma user_dir_snoc h : user_dir h = (h ++ [".config"]) ++ ["dispersion"].
Proof. unfold user_dir. now rewrite <- app_assoc. Qed.

(** all that _get_user_config_dir can do *)
Lemma user_dir_cases h fs : Forall os_name h ->
  (path_exists fs (abs_path (user_dir h)) = true /\ get_user_config_dir (Some (abs_path h)) fs = (Ok (abs_path (user_dir h)), fs)) \/
  (nothing_at fs (user_dir h) /\ is_dir fs (h ++ [".config"]) /\
   get_user_config_dir (Some (abs_path h)) fs = (Ok (abs_path (user_dir h)), mkFs (abs_path (user_dir h) :: fs_dirs fs) (fs_files fs))) \/
  (nothing_at fs (user_dir h) /\ ~ is_dir fs (h ++ [".config"]) /\
   get_user_config_dir (Some (abs_path h)) fs = (Raise FileNotFoundError, fs)).
Proof.
  intros F. destruct (user_names h F) as (F1 & F2 & F3). unfold get_user_config_dir. rewrite user_dir_path by exact F.
  destruct (path_exists fs (abs_path (user_dir h))) eqn:E; [now left|right].
  assert (N : nothing_at fs (user_dir h)).
  { unfold path_exists in E. apply orb_false_iff in E. destruct E as [E1 E2]. split.
    - now apply dir_exists_false in E1; [|apply os_plain].
    - rewrite file_exists_abs in E2 by now apply os_plain. unfold no_file. now destruct (dget _ _). }
  unfold mkdir. rewrite E. rewrite user_dir_snoc, parent_abs, <- user_dir_snoc by (try apply dot_config; now apply os_plain).
  destruct (dir_exists fs (abs_path (h ++ [".config"]))) eqn:D.
  - left. rewrite norm_abs by now apply os_plain. apply dir_exists_abs in D; [|now apply os_plain]. auto.
  - right. apply dir_exists_false in D; [|now apply os_plain]. auto.
Qed.
Lemma user_dir_open h fs : Forall os_name h -> can_open h fs -> exists fs',
  get_user_config_dir (Some (abs_path h)) fs = (Ok (abs_path (user_dir h)), fs') /\ with_user_dir h fs fs' /\ is_dir fs' (user_dir h).
Proof.
  intros F C. destruct (user_names h F) as (F1 & F2 & F3). destruct (user_dir_cases h fs F) as [[E G]|[(N & D & G)|(N & D & G)]].
  - exists fs. split; [exact G|]. split; [now split; [|left]|]. destruct C as [C|[N _]]; [exact C|]. exfalso.
    unfold path_exists in E. apply orb_true_iff in E. destruct N as [N1 N2]. destruct E as [E|E].
    + apply dir_exists_abs in E; [contradiction|now apply os_plain].
    + rewrite file_exists_abs in E by now apply os_plain. unfold no_file in N2. now rewrite N2 in E.
  - eexists. split; [exact G|]. split; [split; [reflexivity|right; split; [apply N|reflexivity]]|]. now left.
  - exfalso. destruct C as [C|[_ C]]; [destruct N; contradiction|contradiction].
Qed.
Lemma with_user_file h fs fs' l text : with_user_dir h fs fs' -> is_file fs l text <-> is_file fs' l text.
Proof. intros [E _]. unfold is_file. now rewrite E. Qed.

Section Config.
Variable creatable : string -> bool.
Variable parse : string -> res cfg.
Variable dump : cfg -> string.

Lemma read_user h pkg fs text : Forall os_name h -> can_open h fs -> is_file fs (user_file h) text ->
  exists fs', with_user_dir h fs fs' /\ read_config (Some (abs_path h)) pkg parse fs = (parse text, fs').
Proof.
  intros F C T. destruct (user_names h F) as (F1 & F2 & F3). destruct (user_dir_open h fs F C) as (fs' & G & W & D).
  exists fs'. split; [exact W|]. unfold read_config, get_config_dir. rewrite G. rewrite config_path by exact F2.
  rewrite user_file_snoc, file_exists_abs by now apply os_plain.
  assert (T' : dget (fs_files fs') (abs_path (user_file h)) = Some text) by (now apply (with_user_file h fs)).
  rewrite T'. rewrite config_path by exact F2.
  rewrite open_r_abs by (rewrite user_file_snoc; exact F3). rewrite user_file_snoc, T'. reflexivity.
Qed.
Lemma read_package h p fs text : Forall os_name h -> Forall os_name p -> can_open h fs -> no_file fs (user_file h) ->
  is_file fs (p ++ ["config.yaml"]) text ->
  exists fs', with_user_dir h fs fs' /\ read_config (Some (abs_path h)) (abs_path p) parse fs = (parse text, fs').
Proof.
  intros F P C N T. destruct (user_names h F) as (F1 & F2 & F3). destruct (user_dir_open h fs F C) as (fs' & G & W & D).
  exists fs'. split; [exact W|]. unfold read_config, get_config_dir. rewrite G. rewrite config_path by exact F2.
  assert (Q : Forall os_name (p ++ ["config.yaml"])) by (apply Forall_app; split; [exact P|constructor; [apply dot_config|constructor]]).
  rewrite user_file_snoc, file_exists_abs by now apply os_plain.
  assert (N' : dget (fs_files fs') (abs_path (user_file h)) = None) by (destruct W as [-> _]; exact N). rewrite N'.
  rewrite config_path by exact P. rewrite file_exists_abs by now apply os_plain.
  assert (T' : dget (fs_files fs') (abs_path (p ++ ["config.yaml"])) = Some text) by (now apply (with_user_file h fs)).
  rewrite T'. rewrite config_path by exact P. rewrite open_r_abs by exact Q. now rewrite T'.
Qed.
Lemma read_none h p fs : Forall os_name h -> Forall os_name p -> can_open h fs -> no_file fs (user_file h) ->
  no_file fs (p ++ ["config.yaml"]) ->
  exists fs', with_user_dir h fs fs' /\ is_dir fs' (user_dir h) /\ read_config (Some (abs_path h)) (abs_path p) parse fs = (Raise ValueError, fs').
Proof.
  intros F P C N T. destruct (user_names h F) as (F1 & F2 & F3). destruct (user_dir_open h fs F C) as (fs' & G & W & D).
  exists fs'. split; [exact W|]. split; [exact D|]. unfold read_config, get_config_dir. rewrite G. rewrite config_path by exact F2.
  assert (Q : Forall os_name (p ++ ["config.yaml"])) by (apply Forall_app; split; [exact P|constructor; [apply dot_config|constructor]]).
  rewrite user_file_snoc, file_exists_abs by now apply os_plain. destruct W as [W _]. unfold no_file in *. rewrite W, N.
  rewrite config_path by exact P. rewrite file_exists_abs by now apply os_plain. now rewrite W, T.
Qed.
Lemma no_dot_config h p fs : Forall os_name h -> nothing_at fs (user_dir h) -> ~ is_dir fs (h ++ [".config"]) ->
  get_user_config_dir (Some (abs_path h)) fs = (Raise FileNotFoundError, fs) /\
  read_config (Some (abs_path h)) p parse fs = (Raise FileNotFoundError, fs) /\
  get_config (Some (abs_path h)) p parse fs = (Raise FileNotFoundError, fs) /\
  import_config (Some (abs_path h)) p parse fs = (Raise FileNotFoundError, fs) /\
  default_config (Some (abs_path h)) parse fs = (Raise FileNotFoundError, fs).
Proof.
  intros F [N1 N2] D. destruct (user_names h F) as (F1 & F2 & F3).
  assert (G : get_user_config_dir (Some (abs_path h)) fs = (Raise FileNotFoundError, fs)).
  { destruct (user_dir_cases h fs F) as [[E G]|[(N & D' & G)|(N & D' & G)]]; [|contradiction|exact G]. exfalso.
    unfold path_exists in E. apply orb_true_iff in E. destruct E as [E|E].
    - apply dir_exists_abs in E; [contradiction|now apply os_plain].
    - rewrite file_exists_abs in E by now apply os_plain. unfold no_file in N2. now rewrite N2 in E. }
  assert (G1 : default_config (Some (abs_path h)) parse fs = (Raise FileNotFoundError, fs)) by (unfold default_config; now rewrite G).
  assert (G2 : read_config (Some (abs_path h)) p parse fs = (Raise FileNotFoundError, fs)) by (unfold read_config, get_config_dir; now rewrite G).
  assert (G3 : get_config (Some (abs_path h)) p parse fs = (Raise FileNotFoundError, fs)).
  { unfold get_config. rewrite G2. exact G1. }
  repeat split; try assumption. unfold import_config. rewrite G3. reflexivity.
Qed.
(** whatever get_config returns comes from one of the two files *)
Lemma get_config_source h p fs c fs' : Forall os_name h -> Forall os_name p -> no_os_error parse ->
  get_config (Some (abs_path h)) (abs_path p) parse fs = (Ok c, fs') ->
  exists text, parse text = Ok c /\ (is_file fs (user_file h) text \/ no_file fs (user_file h) /\ is_file fs (p ++ ["config.yaml"]) text).
Proof.
  intros F P Y G. destruct (user_names h F) as (F1 & F2 & F3). unfold get_config in G.
  assert (Q : Forall os_name (p ++ ["config.yaml"])) by (apply Forall_app; split; [exact P|constructor; [apply dot_config|constructor]]).
  assert (K : exists fs1, fs_files fs1 = fs_files fs /\ (get_user_config_dir (Some (abs_path h)) fs = (Ok (abs_path (user_dir h)), fs1) \/
                          get_user_config_dir (Some (abs_path h)) fs = (Raise FileNotFoundError, fs) /\ fs1 = fs)).
  { destruct (user_dir_cases h fs F) as [[E K]|[(N & D & K)|(N & D & K)]]; eexists; (split; [|first [left; exact K|right; split; [exact K|reflexivity]]]); reflexivity. }
  destruct K as (fs1 & Ef & [K|[K ->]]).
  - unfold read_config, get_config_dir in G. rewrite K in G. rewrite config_path in G by exact F2.
    rewrite user_file_snoc, file_exists_abs in G by now apply os_plain. rewrite Ef in G.
    destruct (dget (fs_files fs) (abs_path (user_file h))) as [text|] eqn:T.
    + rewrite config_path in G by exact F2. rewrite open_r_abs in G by (rewrite user_file_snoc; exact F3).
      rewrite user_file_snoc, Ef, T in G. cbn [bind] in G.
      destruct (parse text) as [c'|e] eqn:Et.
      * injection G as -> <-. exists text. split; [exact Et|]. now left.
      * destruct (Y _ _ Et) as [Y1 Y2]. destruct e; try discriminate; congruence.
    + rewrite config_path in G by exact P. rewrite file_exists_abs in G by now apply os_plain. rewrite Ef in G.
      destruct (dget (fs_files fs) (abs_path (p ++ ["config.yaml"]))) as [text|] eqn:T'.
      * rewrite config_path in G by exact P. rewrite open_r_abs in G by exact Q. rewrite Ef, T' in G. cbn [bind] in G.
        destruct (parse text) as [c'|e] eqn:Et.
        -- injection G as -> <-. exists text. split; [exact Et|]. right. now split.
        -- destruct (Y _ _ Et) as [Y1 Y2]. destruct e; try discriminate; congruence.
      * discriminate.
  - unfold read_config, get_config_dir in G. unfold default_config in G. rewrite !K in G. discriminate.
Qed.
(** nothing else on the disk changes *)
Lemma user_dir_frame h fs r fs' : Forall os_name h -> get_user_config_dir (Some (abs_path h)) fs = (r, fs') -> with_user_dir h fs fs'.
Proof.
  intros F G. destruct (user_dir_cases h fs F) as [[E K]|[(N & D & K)|(N & D & K)]]; rewrite K in G; injection G as <- <-.
  - split; [reflexivity|now left].
  - split; [reflexivity|right]. split; [apply N|reflexivity].
  - split; [reflexivity|now left].
Qed.
Lemma read_frame h p fs r fs' : Forall os_name h -> read_config (Some (abs_path h)) p parse fs = (r, fs') -> with_user_dir h fs fs'.
Proof.
  intros F G. unfold read_config, get_config_dir in G. destruct (get_user_config_dir (Some (abs_path h)) fs) as [[d|e] fs1] eqn:E;
    apply user_dir_frame in E; try exact F.
  - destruct (file_exists _ _); [|destruct (file_exists _ _)]; injection G as <- <-; exact E.
  - injection G as <- <-. exact E.
Qed.
Lemma default_frame h fs r fs' : Forall os_name h -> default_config (Some (abs_path h)) parse fs = (r, fs') -> with_user_dir h fs fs'.
Proof.
  intros F G. unfold default_config in G. destruct (get_user_config_dir (Some (abs_path h)) fs) as [[d|e] fs1] eqn:E;
    apply user_dir_frame in E; try exact F; injection G as <- <-; exact E.
Qed.
Lemma with_twice h fs fs1 fs2 : with_user_dir h fs fs1 -> with_user_dir h fs1 fs2 -> with_user_dir h fs fs2.
Proof.
  intros [A B] [A' B']. split; [congruence|]. destruct B as [B|[N B]], B' as [B'|[N' B']].
  - left. congruence.
  - right. unfold is_dir in *. rewrite B in *. auto.
  - right. rewrite B'. auto.
  - exfalso. apply N'. unfold is_dir. rewrite B. now left.
Qed.
Lemma get_frame h p fs r fs' : Forall os_name h -> get_config (Some (abs_path h)) p parse fs = (r, fs') -> with_user_dir h fs fs'.
Proof.
  intros F G. unfold get_config in G. destruct (read_config (Some (abs_path h)) p parse fs) as [[c|e] fs1] eqn:E; apply read_frame in E; try exact F.
  - injection G as <- <-. exact E.
  - destruct (catches OSError e); [|injection G as <- <-; exact E]. apply default_frame in G; [|exact F]. eapply with_twice; eauto.
Qed.
Lemma import_frame h p fs r fs' : Forall os_name h -> import_config (Some (abs_path h)) p parse fs = (r, fs') -> with_user_dir h fs fs'.
Proof.
  intros F G. unfold import_config in G. destruct (get_config (Some (abs_path h)) p parse fs) as [[c|e] fs1] eqn:E; apply get_frame in E; try exact F.
  - injection G as <- <-. exact E.
  - destruct (catches ValueError e); [|injection G as <- <-; exact E]. apply default_frame in G; [|exact F]. eapply with_twice; eauto.
Qed.
(** saving a configuration in the user's directory *)
Lemma write_user h p fs c : Forall os_name h -> creatable "config.yaml" = true -> is_dir fs (user_dir h) -> ~ is_dir fs (user_file h) ->
  exists fs', write_config creatable (Some (abs_path h)) p dump fs c (Some (abs_path (user_dir h))) = (Ok tt, fs') /\
    stored fs fs' (user_file h) (dump c).
Proof.
  intros F C D N. destruct (user_names h F) as (F1 & F2 & F3). eexists. split; [|apply stored_dset].
  unfold write_config. rewrite config_path by exact F2. rewrite open_w_abs; rewrite ?user_file_snoc; auto.
Qed.
Lemma write_package h p fs c : Forall os_name h -> Forall os_name p -> creatable "config.yaml" = true -> can_open h fs ->
  no_file fs (user_file h) -> (exists text, is_file fs (p ++ ["config.yaml"]) text) -> is_dir fs p -> ~ is_dir fs (p ++ ["config.yaml"]) ->
  user_dir h <> p ++ ["config.yaml"] ->
  exists fs1 fs', with_user_dir h fs fs1 /\ write_config creatable (Some (abs_path h)) (abs_path p) dump fs c None = (Ok tt, fs') /\
    stored fs1 fs' (p ++ ["config.yaml"]) (dump c).
Proof.
  intros F P C O N [text T] D ND U. destruct (user_names h F) as (F1 & F2 & F3). destruct (user_dir_open h fs F O) as (fs1 & G & W & Du).
  assert (Q : Forall os_name (p ++ ["config.yaml"])) by (apply Forall_app; split; [exact P|constructor; [apply dot_config|constructor]]).
  exists fs1. eexists. split; [exact W|]. split; [|apply stored_dset].
  unfold write_config, get_config_dir. rewrite G. rewrite config_path by exact F2. rewrite user_file_snoc, file_exists_abs by now apply os_plain.
  destruct W as [Wf Wd]. unfold no_file, is_file in *. rewrite Wf, N. rewrite config_path by exact P. rewrite file_exists_abs by now apply os_plain. rewrite Wf, T.
  rewrite config_path by exact P. rewrite open_w_abs; auto; rewrite ?Wf; auto.
  - intros H. destruct Wd as [E|[_ E]]; unfold is_dir in H; rewrite E in H; [contradiction|].
    destruct H as [H|H]; [|contradiction]. apply abs_inj in H; try now apply os_plain. congruence.
  - unfold is_dir. destruct Wd as [E|[_ E]]; rewrite E; [exact D|now right].
Qed.
End Config.

(** ** validate_config *)
Lemma check_str_ok v s : check_str v = Ok s <-> v = CStr s.
Proof. destruct v; cbn; split; intros H; inversion H; reflexivity. Qed.
Lemma check_bool_ok v s : check_bool v = Ok s <-> v = CBool s.
Proof. destruct v; cbn; split; intros H; inversion H; reflexivity. Qed.
Lemma check_float_ok v s : check_float v = Ok s <-> v = CFloat s.
Proof. destruct v; cbn; split; intros H; inversion H; reflexivity. Qed.
Lemma dlookup_ok {V} (d : dict V) k v : dlookup d k = Ok v <-> dget d k = Some v.
Proof. unfold dlookup. destruct (dget d k); split; intros H; inversion H; reflexivity. Qed.
Lemma bools_ok l : (exists r, map_res check_bool l = Ok r) <-> forall v, In v l -> exists b, v = CBool b.
Proof.
  split.
  - induction l as [|v l IH]; intros [r H]; [intros ? []|]. cbn in H. inv_bind H b E. inv_bind H bs E'.
    intros w [<-|I]; [apply check_bool_ok in E; eauto|]. apply IH; eauto.
  - intros H. induction l as [|v l IH]; [now exists []|]. destruct (H v (or_introl eq_refl)) as [b ->].
    destruct IH as [r E]; [intros w I; apply H; now right|]. exists (b :: r). cbn. now rewrite E.
Qed.
Lemma validate_iff W c : validate_config W c = Ok tt <-> valid_config W c.
Proof.
  split.
  - intros H. unfold validate_config in H.
    inv_bind H v E1. inv_bind H p E2. inv_bind H u1 E3. inv_bind H v2 E4. inv_bind H f E5. inv_bind H ok E6. inv_bind H u2 E7.
    inv_bind H v3 E8. inv_bind H b1 E9. inv_bind H v4 E10. inv_bind H b2 E11. inv_bind H m E12. inv_bind H vs E13. inv_bind H bs E14.
    inv_bind H r E15. inv_bind H v5 E16. inv_bind H x E17. inv_bind H v6 E18. inv_bind H t E19. inv_bind H v7 E20. inv_bind H w E21.
    apply dlookup_ok in E1, E4, E8, E10. apply check_str_ok in E2, E5, E19, E21. apply check_bool_ok in E9, E11. apply check_float_ok in E17. subst.
    destruct (isdir W p) eqn:D; [|discriminate]. destruct ok; [|discriminate].
    destruct (dget c "Modules") as [m'|] eqn:M; [|discriminate]. injection E12 as ->.
    destruct (dget c "ReferenceSpectrum") as [r'|] eqn:Rr; [|discriminate]. injection E15 as ->.
    destruct m as [| | |d|]; try discriminate. injection E13 as <-.
    destruct r as [| | |d'|]; try discriminate. cbn in E16, E18, E20. apply dlookup_ok in E16, E18, E20.
    constructor; eauto 10.
    exists d. split; [exact M|]. intros k v I. apply (proj1 (bools_ok (map snd d))); [eauto|]. now apply (in_map snd) in I.
  - intros [(p & P & D) (f & Fi & V) (b1 & I1) (b2 & I2) (d & M & B) (r & x & t & u & Rr & Vx & Vt & Vu)].
    unfold validate_config, dlookup. rewrite P. cbn [bind check_str]. rewrite D. cbn [bind]. rewrite Fi. cbn [bind check_str].
    rewrite V. cbn [bind]. rewrite I1. cbn [bind check_bool]. rewrite I2. cbn [bind check_bool]. rewrite M. cbn [bind map_values].
    destruct (proj2 (bools_ok (map snd d))) as [bs ->].
    { intros v I. apply in_map_iff in I. destruct I as ((k & v') & <- & I). eauto. }
    cbn [bind]. rewrite Rr. cbn [bind map_item]. unfold dlookup. rewrite Vx. cbn [bind check_float]. rewrite Vt. cbn [bind check_str]. rewrite Vu. reflexivity.
Qed.
