(** Lemmas about file names and the setup dialogue *)
From Verif Require Import PyBase PyStr XReal IOSpec LineProofs TextProofs PathProofs FileModel PathModel ConfigModel CatalogueSpec NormProofs SaveProofs DiskModel SetupModel SetupSpec DiskProofs.
Open Scope string_scope.
Open Scope list_scope.

(** ** the default text *)
Lemma default_text_documented dir : default_text dir = documented_text dir.
Proof. unfold default_text, documented_text. cbn [String.concat]. now rewrite app_assoc_s. Qed.

(** ** file names *)
Lemma startswith_app a r : startswith a (a ++ r)%string = true.
Proof. unfold startswith. induction a as [|c a IH]; cbn; [apply prefix_nil|]. destruct (ascii_dec c c); [exact IH|congruence]. Qed.
Lemma startswith_inv a s : startswith a s = true -> exists r, s = (a ++ r)%string.
Proof.
  unfold startswith. revert s; induction a as [|c a IH]; intros s H; [now exists s|]. destruct s as [|d s]; [discriminate|].
  cbn in H. destruct (ascii_dec c d); [|discriminate]. subst. destruct (IH s H) as [r ->]. now exists r.
Qed.
Lemma in_dir_iff d p : in_dir d p = true <-> p = d \/ exists r, p = (d ++ "/" ++ r)%string.
Proof.
  unfold in_dir. rewrite orb_true_iff, String.eqb_eq. split; intros [H|H]; auto.
  - right. apply startswith_inv in H. destruct H as [r ->]. exists r. now rewrite app_assoc_s.
  - right. destruct H as [r ->]. rewrite <- app_assoc_s. apply startswith_app.
Qed.
Lemma not_in_dir d p : (p <> d /\ forall r, p <> (d ++ "/" ++ r)%string) -> in_dir d p = false.
Proof. intros [A B]. destruct (in_dir d p) eqn:E; [|reflexivity]. apply in_dir_iff in E. destruct E as [E|[r E]]; [contradiction|now apply B in E]. Qed.
Lemma filter_all {A} (f : A -> bool) l : (forall x, In x l -> f x = true) -> filter f l = l.
Proof. induction l as [|x l IH]; intros H; [reflexivity|]. cbn. rewrite (H x (or_introl eq_refl)). f_equal. apply IH. intros y I. apply H. now right. Qed.
Lemma dget_of_In {V} (d : dict V) k v : In (k, v) d -> exists v', dget d k = Some v'.
Proof.
  induction d as [|[k' v'] d IH]; intros H; [contradiction|]. cbn. destruct (String.eqb k k') eqn:E; [eauto|].
  destruct H as [H|H]; [injection H as <- <-; now rewrite String.eqb_refl in E|]. now apply IH.
Qed.
Lemma fresh_files fs d : fresh_dir fs d -> filter (fun e : string * string => negb (in_dir d (fst e))) (fs_files fs) = fs_files fs.
Proof.
  intros [_ F]. apply filter_all. intros [k v] I. cbn. destruct (dget_of_In _ _ _ I) as [v' G]. rewrite not_in_dir by eauto. reflexivity.
Qed.
Lemma remove_fresh fs d : fresh_dir fs d -> remove_tree (mkFs (d :: fs_dirs fs) (fs_files fs)) d = fs.
Proof.
  intros F. unfold remove_tree. cbn [fs_dirs fs_files filter]. rewrite (proj2 (in_dir_iff d d)) by now left. cbn [negb].
  rewrite fresh_files by exact F. rewrite filter_all; [now destruct fs|]. intros p I. rewrite not_in_dir by now apply F. reflexivity.
Qed.
Lemma filter_dset_in {V} (d : dict V) k v f : f k = false -> filter (fun e => f (fst e)) (dset d k v) = filter (fun e => f (fst e)) d.
Proof.
  intros H. induction d as [|[k' v'] d IH]; cbn; [now rewrite H|]. destruct (String.eqb k k') eqn:E; cbn.
  - apply String.eqb_eq in E. subst. now rewrite H.
  - now rewrite IH.
Qed.
Lemma filter_dset_out {V} (d : dict V) k v f : f k = true -> filter (fun e => f (fst e)) (dset d k v) = dset (filter (fun e => f (fst e)) d) k v.
Proof.
  intros H. induction d as [|[k' v'] d IH]; cbn; [now rewrite H|]. destruct (String.eqb k k') eqn:E; cbn.
  - apply String.eqb_eq in E. subst. rewrite H. cbn. now rewrite String.eqb_refl.
  - destruct (f k') eqn:G; cbn; rewrite ?E; now rewrite IH.
Qed.
Lemma abs_child t l : l <> [] -> t <> [] -> exists r, abs_path (t ++ l) = (abs_path t ++ "/" ++ r)%string.
Proof. intros H T. exists (join "/" l). unfold abs_path. rewrite join_app by assumption. now rewrite !app_assoc_s. Qed.

Section Names.
Variable creatable : string -> bool.
Variables (t : list string) (fs : fsys).
Hypothesis Ht : Forall os_name t.
Hypothesis Hn : t <> [].
Hypothesis Hf : fresh_dir fs (abs_path t).
Let fs1 := mkFs (abs_path t :: fs_dirs fs) (fs_files fs).

Lemma fresh_file l : no_file fs (t ++ l).
Proof.
  unfold no_file. destruct (dget _ _) as [text|] eqn:E; [|reflexivity]. apply (proj2 Hf) in E. exfalso.
  destruct l as [|x l]; [rewrite app_nil_r in E; now destruct E|].
  destruct (abs_child t (x :: l)) as [r G]; [discriminate|exact Hn|]. destruct E as [_ E]. now apply (E r).
Qed.
Lemma try_plain name : os_name name -> try_file_name creatable (abs_path t) fs name = (Ok (creatable name), fs).
Proof.
  intros N. unfold try_file_name. assert (P := os_plain _ Ht). rewrite join_name by (try exact P; apply N).
  assert (F : Forall os_name (t ++ [name])) by (apply Forall_app; auto). fold fs1.
  rewrite open_r_abs by exact F. change (fs_files fs1) with (fs_files fs). rewrite (fresh_file [name]).
  assert (D : ~ is_dir fs1 (t ++ [name])).
  { intros [H|H].
    - destruct (abs_child t [name]) as [r G]; [discriminate|exact Hn|]. rewrite G in H.
      assert (L : String.length (abs_path t) = String.length (abs_path t ++ "/" ++ r)) by now rewrite <- H.
      rewrite length_app_s in L. cbn in L. lia.
    - apply (proj1 Hf) in H. destruct (abs_child t [name]) as [r G]; [discriminate|exact Hn|]. destruct H as [_ H]. now apply (H r). }
  rewrite (proj2 (dir_exists_false fs1 _ (os_plain _ F)) D). cbn [catches].
  destruct (creatable name) eqn:C.
  - rewrite open_w_abs; auto; [|now left]. unfold remove_tree. cbn [fs_dirs fs_files fs1]. f_equal.
    rewrite (filter_dset_in (fs_files fs) (abs_path (t ++ [name])) "" (fun p => negb (in_dir (abs_path t) p))).
    + assert (G := remove_fresh fs (abs_path t) Hf). unfold remove_tree in G. cbn [fs_dirs fs_files] in G. exact G.
    + destruct (abs_child t [name]) as [r ->]; [discriminate|exact Hn|]. rewrite (proj2 (in_dir_iff _ _)) by eauto. reflexivity.
  - assert (W : open_w creatable fs1 (abs_path (t ++ [name])) "" = Raise OSError).
    { unfold open_w. rewrite no_nul_abs by exact F. destruct N as [N _]. rewrite basename_abs by exact N. destruct (N) as (N1 & N2 & N3 & N4).
      rewrite (proj2 (String.eqb_neq name "") N1), (proj2 (String.eqb_neq name ".") N2), (proj2 (String.eqb_neq name "..") N3).
      cbn [orb]. rewrite (proj2 (dir_exists_false fs1 _ (os_plain _ F)) D). rewrite parent_abs by assumption.
      rewrite (proj2 (dir_exists_abs fs1 t P)) by now left. rewrite C. reflexivity. }
    rewrite W. cbn [catches]. unfold fs1. rewrite remove_fresh by exact Hf. reflexivity.
Qed.
Lemma try_nul name : In "000"%char (chars name) -> try_file_name creatable (abs_path t) fs name = (Raise ValueError, fs).
Proof.
  intros N. unfold try_file_name. fold fs1.
  assert (H : has_nul (path_join (abs_path t) name) = true).
  { destruct (has_nul _) eqn:E; [reflexivity|]. apply has_nul_iff in E. exfalso. apply E. unfold path_join.
    destruct (starts_slash name); [exact N|]. destruct (_ || _); rewrite !chars_app_in; auto. }
  unfold open_r. rewrite H. cbn. unfold fs1. now rewrite remove_fresh.
Qed.
Lemma abs_ends l x : plain_name x -> ends_slash (abs_path (l ++ [x])) = false.
Proof.
  intros P. destruct (abs_snoc l x) as (a & -> & _). rewrite ends_app by discriminate.
  assert (G := no_slash_end x (proj2 (proj2 (proj2 P)))). cbn [ends_slash]. destruct x; [now destruct P|exact G].
Qed.
Lemma try_empty : try_file_name creatable (abs_path t) fs "" = (Ok false, fs).
Proof.
  unfold try_file_name. fold fs1.
  assert (E : path_join (abs_path t) "" = (abs_path t ++ String "/" "")%string).
  { unfold path_join. change (starts_slash "") with false. cbv iota.
    destruct (exists_last Hn) as (l & x & ->). apply Forall_app in Ht. destruct Ht as [_ Hx]. inversion_clear Hx as [|? ? [Px _] _].
    rewrite (abs_ends l x Px). reflexivity. }
  rewrite E. assert (B : basename (abs_path t ++ String "/" "") = "") by (unfold basename; rewrite after_last_app; [reflexivity|intros []]).
  assert (N : has_nul (abs_path t ++ String "/" "") = false).
  { apply has_nul_iff. rewrite chars_app_in. intros [H|[H|[]]]; [|discriminate]. revert H. apply has_nul_iff. now apply no_nul_abs. }
  unfold open_r, open_w. rewrite N, B. change (String.eqb "" "") with true. cbn [orb catches]. unfold fs1. now rewrite remove_fresh.
Qed.
(** an absolute name is not looked for in the temporary directory *)
Lemma try_absolute l x : Forall os_name (l ++ [x]) -> in_dir (abs_path t) (abs_path (l ++ [x])) = false ->
  is_dir fs l -> nothing_at fs (l ++ [x]) -> creatable x = true ->
  try_file_name creatable (abs_path t) fs (abs_path (l ++ [x])) = (Ok true, mkFs (fs_dirs fs) (dset (fs_files fs) (abs_path (l ++ [x])) "")).
Proof.
  intros F O D [N1 N2] C. unfold try_file_name. fold fs1.
  assert (J : path_join (abs_path t) (abs_path (l ++ [x])) = abs_path (l ++ [x])) by (unfold path_join, abs_path; now rewrite abs_starts).
  rewrite J. rewrite open_r_abs by exact F. change (fs_files fs1) with (fs_files fs). rewrite N2.
  assert (D' : ~ is_dir fs1 (l ++ [x])).
  { intros [H|H]; [|contradiction]. rewrite H in O. rewrite (proj2 (in_dir_iff _ _)) in O; [discriminate|now left]. }
  rewrite (proj2 (dir_exists_false fs1 _ (os_plain _ F)) D'). cbn [catches]. rewrite open_w_abs; auto; [|now right].
  unfold remove_tree. cbn [fs_dirs fs_files fs1]. f_equal.
  rewrite (filter_dset_out (fs_files fs) (abs_path (l ++ [x])) "" (fun p => negb (in_dir (abs_path t) p))) by (rewrite O; reflexivity).
  assert (G := remove_fresh fs (abs_path t) Hf). assert (G1 := f_equal fs_dirs G). unfold remove_tree in G1. cbn [fs_dirs] in G1.
  rewrite fresh_files by exact Hf. now rewrite G1.
Qed.
(** no existing file is changed *)
Lemma try_preserves name r fs' : try_file_name creatable (abs_path t) fs name = (r, fs') -> preserves fs fs'.
Proof.
  unfold try_file_name. fold fs1. intros H.
  assert (G := remove_fresh fs (abs_path t) Hf). fold fs1 in G.
  assert (K : preserves fs (remove_tree fs1 (abs_path t))) by (rewrite G; split; auto).
  destruct (open_r fs1 _) as [c|e] eqn:E; [injection H as <- <-; exact K|].
  destruct (catches OSError e) eqn:Ce; [|injection H as <- <-; exact K].
  destruct (open_w creatable fs1 _ "") as [fs2|e'] eqn:W; [|destruct (catches OSError e'); injection H as <- <-; exact K].
  injection H as <- <-. set (p := path_join (abs_path t) name) in *.
  unfold open_w in W. destruct (has_nul p) eqn:Np; [discriminate|]. destruct (_ || _ || _) eqn:B; [discriminate|].
  destruct (dir_exists fs1 p) eqn:D; [discriminate|]. destruct (negb _); [discriminate|]. destruct (negb _); [discriminate|].
  injection W as <-. assert (A : dget (fs_files fs) (normpath p) = None).
  { unfold open_r in E. rewrite Np in E. destruct (dget (fs_files fs1) (normpath p)) eqn:Ed; [|exact Ed].
    destruct (basename p) eqn:Eb; [discriminate|discriminate]. }
  unfold remove_tree in *. cbn [fs_dirs fs_files fs1] in *. split.
  - intros q I. rewrite <- G in I. cbn [fs_dirs] in I. exact I.
  - intros q text Q. cbn [fs_files]. destruct (in_dir (abs_path t) (normpath p)) eqn:O.
    + rewrite (filter_dset_in (fs_files fs) (normpath p) "" (fun p => negb (in_dir (abs_path t) p))) by (rewrite O; reflexivity).
      rewrite fresh_files by exact Hf. exact Q.
    + rewrite (filter_dset_out (fs_files fs) (normpath p) "" (fun p => negb (in_dir (abs_path t) p))) by (rewrite O; reflexivity).
      rewrite fresh_files by exact Hf. rewrite dget_dset_other; [exact Q|]. congruence.
Qed.
End Names.

(** ** questions *)
Lemma given_iff default a u : given default a u <-> u = (if String.eqb a "" then default else a).
Proof.
  unfold given. destruct (String.eqb a "") eqn:E; [apply String.eqb_eq in E|apply String.eqb_neq in E]; intuition congruence.
Qed.
Lemma ask_iff v d answers fs u rest fs' : ask v d (mkSys answers fs) = (Ok u, mkSys rest fs') <-> asked v d fs answers u rest fs'.
Proof.
  unfold ask, asked. cbn [typed disk]. split.
  - revert fs. induction answers as [|a l IH]; intros fs H; [discriminate|]. cbn [ask_from] in H.
    destruct (v fs (if String.eqb a "" then d else a)) as [[[]|e] fs1] eqn:E.
    + injection H as <- <- <-. exists [], a, fs. split; [reflexivity|]. split; [constructor|]. split; [now apply given_iff|exact E].
    + destruct (IH fs1 H) as (sk & b & fs2 & -> & T & G & V). exists (a :: sk), b, fs2. split; [reflexivity|].
      split; [|auto]. econstructor; [now apply given_iff|exact E|exact T].
    + discriminate.
  - intros (sk & a & fs1 & -> & T & G & V). induction T as [fs|fs b w fs1 l fs2 Gb Vb T IH]; cbn [app ask_from].
    + apply given_iff in G. rewrite <- G. now rewrite V.
    + apply given_iff in Gb. rewrite <- Gb, Vb. now apply IH.
Qed.
Lemma ask_eof v d answers fs : (forall fs0 u fs1, v fs0 u <> (Ok true, fs1)) -> (forall fs0 u e fs1, v fs0 u <> (Raise e, fs1)) ->
  exists fs', ask v d (mkSys answers fs) = (Raise EOFError, mkSys [] fs').
Proof.
  intros N R. unfold ask. cbn [typed disk]. revert fs. induction answers as [|a l IH]; intros fs; cbn [ask_from]; [eauto|].
  destruct (v fs _) as [[[]|e] fs1] eqn:E; [now apply N in E|apply IH|now apply R in E].
Qed.
Lemma is_yes a : (String.eqb a "y" || String.eqb a "yes") = true <-> yes a.
Proof. unfold yes. rewrite orb_true_iff, !String.eqb_eq. reflexivity. Qed.
Lemma is_no a : (String.eqb a "n" || String.eqb a "no") = true <-> no a.
Proof. unfold no. rewrite orb_true_iff, !String.eqb_eq. reflexivity. Qed.
Lemma confirm_iff answers fs b rest fs' : get_confirmation (mkSys answers fs) = (Ok b, mkSys rest fs') <-> fs' = fs /\ answered answers b rest.
Proof.
  unfold get_confirmation, answered. cbn [typed disk]. split.
  - induction answers as [|a l IH]; intros H; [discriminate|]. cbn [confirmation_from] in H.
    destruct (String.eqb a "y" || String.eqb a "yes") eqn:Y; [|destruct (String.eqb a "n" || String.eqb a "no") eqn:N].
    + injection H as <- <- <-. split; [reflexivity|]. exists [], a. repeat split; auto. left. split; [reflexivity|now apply is_yes].
    + injection H as <- <- <-. split; [reflexivity|]. exists [], a. repeat split; auto. right. split; [reflexivity|now apply is_no].
    + destruct (IH H) as (E & sk & c & -> & F & K). split; [exact E|]. exists (a :: sk), c. split; [reflexivity|]. split; [|exact K].
      constructor; [|exact F]. split; intros Q; [apply is_yes in Q|apply is_no in Q]; congruence.
  - intros (-> & sk & a & -> & F & K). induction F as [|c l [N1 N2] F IH]; cbn [app confirmation_from].
    + destruct K as [[-> K]|[-> K]].
      * rewrite (proj2 (is_yes a) K). reflexivity.
      * destruct (String.eqb a "y" || String.eqb a "yes") eqn:Y.
        { apply is_yes in Y. destruct Y as [->| ->], K as [K|K]; discriminate. }
        rewrite (proj2 (is_no a) K). reflexivity.
    + destruct (String.eqb c "y" || String.eqb c "yes") eqn:Y; [apply is_yes in Y; contradiction|].
      destruct (String.eqb c "n" || String.eqb c "no") eqn:N; [apply is_no in N; contradiction|]. exact IH.
Qed.
Lemma confirm_eof answers fs : get_confirmation (mkSys answers fs) = (Raise EOFError, mkSys [] fs) <-> Forall (fun x => ~ yes x /\ ~ no x) answers.
Proof.
  unfold get_confirmation. cbn [typed disk]. split.
  - induction answers as [|a l IH]; intros H; [constructor|]. cbn [confirmation_from] in H.
    destruct (String.eqb a "y" || String.eqb a "yes") eqn:Y; [discriminate|]. destruct (String.eqb a "n" || String.eqb a "no") eqn:N; [discriminate|].
    constructor; [|now apply IH]. split; intros Q; [apply is_yes in Q|apply is_no in Q]; congruence.
  - induction 1 as [|c l [N1 N2] F IH]; [reflexivity|]. cbn [confirmation_from].
    destruct (String.eqb c "y" || String.eqb c "yes") eqn:Y; [apply is_yes in Y; contradiction|].
    destruct (String.eqb c "n" || String.eqb c "no") eqn:N; [apply is_no in N; contradiction|]. exact IH.
Qed.
Lemma confirm_cases answers fs : (exists b rest, get_confirmation (mkSys answers fs) = (Ok b, mkSys rest fs) /\ answered answers b rest) \/
  get_confirmation (mkSys answers fs) = (Raise EOFError, mkSys [] fs).
Proof.
  destruct (get_confirmation (mkSys answers fs)) as [[b|e] [rest fs']] eqn:E.
  - left. apply confirm_iff in E. destruct E as [-> A]. exists b, rest. split; [reflexivity|exact A].
  - right. unfold get_confirmation in E. cbn [typed disk] in E. induction answers as [|a l IH]; [cbn in E; congruence|].
    cbn [confirmation_from] in E. destruct (_ || _); [discriminate|]. destruct (_ || _); [discriminate|]. now apply IH.
Qed.
Lemma answered_length answers b rest : answered answers b rest -> (length rest < length answers)%nat.
Proof. intros (sk & a & -> & _). rewrite app_length. cbn. lia. Qed.
Lemma asked_length v d fs answers u rest fs' : asked v d fs answers u rest fs' -> (length rest < length answers)%nat.
Proof. intros (sk & a & fs1 & -> & _). rewrite app_length. cbn. lia. Qed.
Lemma ask_confirm_iff v d answers fs u b rest fs' : ask_and_confirm v d (mkSys answers fs) = (Ok (u, b), mkSys rest fs') <->
  exists r1, asked v d fs answers u r1 fs' /\ answered r1 b rest.
Proof.
  unfold ask_and_confirm, ibind, ret. split.
  - intros H. destruct (ask v d (mkSys answers fs)) as [[w|e] [r1 fs1]] eqn:A; [|discriminate]. apply ask_iff in A.
    destruct (get_confirmation (mkSys r1 fs1)) as [[c|e] [r2 fs2]] eqn:C; [|discriminate]. apply confirm_iff in C. destruct C as [-> C].
    injection H as <- <- <- <-. eauto.
  - intros (r1 & A & C). apply ask_iff in A. rewrite A. rewrite (proj2 (confirm_iff r1 fs' b rest fs')) by auto. reflexivity.
Qed.
Lemma until_iff v d n answers fs u rest fs' : (length answers < n)%nat ->
  until_confirmed n (ask_and_confirm v d) (mkSys answers fs) = (Ok u, mkSys rest fs') <-> agreed v d fs answers u rest fs'.
Proof.
  revert answers fs. induction n as [|n IH]; intros answers fs L; [lia|]. cbn [until_confirmed]. unfold ibind. split.
  - intros H. destruct (ask_and_confirm v d (mkSys answers fs)) as [[[w b]|e] [r1 fs1]] eqn:A; [|discriminate].
    apply ask_confirm_iff in A. destruct A as (r0 & A & C). cbn [fst snd] in H. destruct b.
    + injection H as <- <- <-. eapply agreed_now; eauto.
    + apply IH in H; [eapply agreed_later; eauto|]. apply asked_length in A. apply answered_length in C. lia.
  - intros H. inversion H as [? ? ? r1 fs1 r2 A C|? ? w r1 fs1 r2 ? ? ? A C K]; subst.
    + rewrite (proj2 (ask_confirm_iff v d answers fs u true rest fs')) by eauto. reflexivity.
    + rewrite (proj2 (ask_confirm_iff v d answers fs w false r2 fs1)) by eauto. cbn [fst snd]. apply IH; [|exact K].
      apply asked_length in A. apply answered_length in C. lia.
Qed.
Lemma loop_iff v d answers fs u rest fs' :
  confirm_loop (ask_and_confirm v d) (mkSys answers fs) = (Ok u, mkSys rest fs') <-> agreed v d fs answers u rest fs'.
Proof. unfold confirm_loop. cbn [typed]. apply until_iff. lia. Qed.
