(** Lemmas about building the catalogue. *)
From Verif Require Import PyBase PyStr XReal CNum SpectrumModel SpectrumSpec SpectrumProofs SpectralModel TextModel MaterialModel MaterialSpec MaterialProofs MatFileProofs FileModel IOSpec LineProofs TextProofs PathProofs PathModel ConfigModel CatalogueModel CatalogueSpec CatalogueProofs SaveProofs.
Open Scope string_scope.
Open Scope list_scope.

(** ** substrings *)
Lemma prefix_iff w s : String.prefix w s = true <-> exists b, s = (w ++ b)%string.
Proof.
  revert s; induction w as [|c w IH]; intros s.
  - split; [intros _; now exists s|]. destruct s; reflexivity.
  - destruct s as [|d s]; [split; [discriminate|intros [b H]; discriminate]|].
    cbn [append]. change (String.prefix (String c w) (String d s)) with (if ascii_dec c d then String.prefix w s else false).
    destruct (ascii_dec c d) as [->|N].
    + rewrite IH. split; intros [b H]; exists b; congruence.
    + split; [discriminate|]. intros [b H]. congruence.
Qed.
Lemma contains_iff w s : contains_str w s = true <-> part_of w s.
Proof.
  unfold part_of. induction s as [|c s IH]; cbn [contains_str].
  - rewrite orb_false_r, prefix_iff. split.
    + intros [b H]. exists "", b. exact H.
    + intros (a & b & H). destruct a; [|discriminate]. exists b. exact H.
  - rewrite orb_true_iff, prefix_iff, IH. split.
    + intros [[b H]|(a & b & H)]; [exists "", b; exact H|exists (String c a), b; cbn; now rewrite H].
    + intros (a & b & H). destruct a as [|d a]; [left; exists b; exact H|]. right. cbn in H. injection H as _ H. eauto.
Qed.

Lemma rebuild_is_iff rb s : rebuild_is rb s = true <-> rb = RStr s.
Proof. destruct rb; cbn; split; intros H; try discriminate; [apply String.eqb_eq in H; congruence|]. injection H as ->. apply String.eqb_refl. Qed.
Lemma selected_iff rb m b : in_rebuild m rb = Ok b -> (b || rebuild_is rb "All" = true <-> selects rb m).
Proof.
  intros H. rewrite orb_true_iff, rebuild_is_iff. destruct rb as [|s|l]; cbn [in_rebuild] in H; [discriminate| |]; injection H as <-.
  - rewrite contains_iff. split; [intros [A|A]; [now constructor|injection A as ->; constructor]|].
    intros A. inversion A; subst; [now right|now left].
  - rewrite existsb_exists. split.
    + intros [(x & Hi & E)|A]; [|discriminate]. apply String.eqb_eq in E. subst. now constructor.
    + intros A. inversion A; subst. left. exists m. split; [assumption|apply String.eqb_refl].
Qed.
Lemma in_rebuild_ok rb m : rb <> RNone -> exists b, in_rebuild m rb = Ok b.
Proof. destruct rb; intros H; [contradiction| |]; eexists; reflexivity. Qed.
Lemma selects_dec rb m : {selects rb m} + {~ selects rb m}.
Proof.
  destruct rb as [|s|l].
  - right. intros H. inversion H.
  - destruct (in_rebuild m (RStr s)) as [b|] eqn:E; [|discriminate]. pose proof (selected_iff _ _ _ E) as S.
    destruct (b || rebuild_is (RStr s) "All"); [left; now apply S|right; intros H; apply S in H; discriminate].
  - destruct (in_dec string_dec m l) as [H|H]; [left; now constructor|right; intros A; inversion A; contradiction].
Qed.

(** ** rows of modules *)
Lemma module_rows_app m a b : module_rows m (a ++ b) = module_rows m a ++ module_rows m b.
Proof.
  induction a as [|r a IH]; [reflexivity|]. cbn [app module_rows]. destruct (r_module r); try exact IH.
  destruct (string_dec s m); [cbn [app]; now rewrite IH|exact IH].
Qed.
Lemma of_module_rows m f : rows_of (of_module m f) = module_rows m (rows_of f).
Proof.
  unfold rows_of, of_module. induction f as [|[l r] f IH]; [reflexivity|]. cbn [filter map module_rows snd].
  destruct (r_module r) as [s| |]; cbn [cell_is]; try exact IH.
  destruct (String.eqb s m) eqn:E; destruct (string_dec s m) as [D|D]; cbn [map snd].
  - now rewrite IH.
  - apply String.eqb_eq in E. contradiction.
  - apply String.eqb_neq in E. contradiction.
  - exact IH.
Qed.
Lemma module_rows_same m l : Forall (fun r => r_module r = KStr m) l -> module_rows m l = l.
Proof. induction 1 as [|r l E F IH]; [reflexivity|]. cbn [module_rows]. rewrite E. destruct (string_dec m m); [now rewrite IH|contradiction]. Qed.
Lemma module_rows_other m m' l : m' <> m -> Forall (fun r => r_module r = KStr m') l -> module_rows m l = [].
Proof. intros N. induction 1 as [|r l E F IH]; [reflexivity|]. cbn [module_rows]. rewrite E. destruct (string_dec m' m); [contradiction|exact IH]. Qed.
Lemma module_rows_module m l : Forall (fun r => r_module r = KStr m) (module_rows m l).
Proof.
  induction l as [|r l IH]; [constructor|]. cbn [module_rows]. destruct (r_module r) eqn:E; try exact IH.
  destruct (string_dec s m); [constructor; [congruence|exact IH]|exact IH].
Qed.

Lemma seq_res_forall {A B} (P : B -> Prop) (f : A -> res (list B)) l rows :
  (forall x rs, In x l -> f x = Ok rs -> Forall P rs) -> seq_res f l = Ok rows -> Forall P rows.
Proof.
  revert rows; induction l as [|x l IH]; intros rows H E; cbn [seq_res] in E; [inversion E; constructor|].
  inv_bind E a Ea. inv_bind E b Eb. injection E as <-. apply Forall_app. split.
  - eapply H; [now left|exact Ea].
  - apply IH; [|exact Eb]. intros y rs Hy. apply H. now right.
Qed.

Section Build.
Variable X : scipy.
Variable W : world.

Definition fresh (m : string) (r : row) : Prop := r_alias r = KStr "" /\ r_module r = KStr m.

Lemma rii_fresh ref dir rows : read_ri_info_db X W ref dir = Ok rows -> Forall (fresh "RefractiveIndexInfo") rows.
Proof.
  unfold read_ri_info_db, iterate_shelves. intros H. inv_bind H d Ed. inv_bind H l El.
  eapply seq_res_forall; [|exact H]. clear H. intros sh rs _ H. unfold read_shelf, iterate_books in H.
  inv_bind H nm En. inv_bind H bk Eb. inv_bind H bl Ebl.
  eapply seq_res_forall; [|exact H]. clear H. intros b rs' _ H. unfold read_book in H.
  inv_bind H dv Ed'. destruct dv; [injection H as <-; constructor|].
  inv_bind H bb Ebb. destruct (negb bb); [injection H as <-; constructor|].
  inv_bind H n Enn. inv_bind H ff Eff. inv_bind H pg Epg. unfold iterate_pages in H. inv_bind H pl Epl.
  eapply seq_res_forall; [|exact H]. clear H. intros p rs'' _ H. unfold read_page in H.
  inv_bind H d1 Ed1. destruct d1; [injection H as <-; constructor|].
  inv_bind H p1 Ep1. destruct (negb p1); [injection H as <-; constructor|].
  inv_bind H pf Epf. inv_bind H dt Edt. inv_bind H ds Eds.
  destruct (file_material W _ _ _) as [mat|e].
  - repeat (let a := fresh "a" in let E := fresh "E" in inv_bind H a E). injection H as <-. constructor; [|constructor]. now split.
  - destruct (catches OSError e); [injection H as <-; constructor|discriminate].
Qed.
Lemma text_fresh ref dir m rows : read_text_db X W ref dir m = Ok rows -> Forall (fresh m) rows.
Proof.
  unfold read_text_db. intros H. inv_bind H l El. eapply seq_res_forall; [|exact H]. clear H. intros f rs _ H.
  unfold read_user_file in H. destruct (negb (allowed_ext _)); [injection H as <-; constructor|].
  repeat (let a := fresh "a" in let E := fresh "E" in inv_bind H a E). injection H as <-. constructor; [|constructor]. now split.
Qed.
Lemma module_fresh ref dir m rows : read_module X W ref dir m = Ok rows -> Forall (fresh m) rows.
Proof.
  unfold read_module. destruct (String.eqb m "RefractiveIndexInfo") eqn:E1; [apply String.eqb_eq in E1; subst; apply rii_fresh|].
  destruct (String.eqb m "Filmetrics") eqn:E2; [apply String.eqb_eq in E2; subst; apply text_fresh|].
  destruct (String.eqb m "UserData") eqn:E3; [apply String.eqb_eq in E3; subst; apply text_fresh|discriminate].
Qed.

(** ** the build loop *)
Lemma df_append_numbered a b : df_append a b = numbered (rows_of (df_append a b)).
Proof. unfold df_append at 2. now rewrite rows_numbered. Qed.
(** the rows the build contributes for one module of the configuration *)
Definition block (ref : spectrum) (base : string) (rb : rebuild) (df : frame) (mv : string * bool) (rows : list row) : Prop :=
  if snd mv then
    (selects rb (fst mv) /\ read_module X W ref (path_join base (fst mv)) (fst mv) = Ok rows) \/
    (~ selects rb (fst mv) /\ rows = module_rows (fst mv) (rows_of df))
  else rows = [].

Lemma loop_spec ref base rb df mods : forall acc f, acc = numbered (rows_of acc) ->
  build_loop X W ref base rb df mods acc = Ok f ->
  f = numbered (rows_of f) /\
  exists blocks, rows_of f = rows_of acc ++ concat blocks /\ Forall2 (block ref base rb df) mods blocks.
Proof.
  induction mods as [|[m v] mods IH]; intros acc f N H; cbn [build_loop] in H.
  - injection H as <-. split; [exact N|]. exists []. split; [now rewrite app_nil_r|constructor].
  - destruct v.
    + inv_bind H sel Es. pose proof (selected_iff _ _ _ Es) as S.
      destruct (sel || rebuild_is rb "All") eqn:E.
      * inv_bind H rows Er. apply IH in H; [|apply df_append_numbered].
        destruct H as (Nf & bl & R & F). split; [exact Nf|]. exists (rows :: bl). split.
        -- rewrite R. unfold df_append. rewrite !rows_numbered. cbn [concat]. now rewrite app_assoc.
        -- constructor; [|exact F]. left. split; [now apply S|exact Er].
      * apply IH in H; [|apply df_append_numbered].
        destruct H as (Nf & bl & R & F). split; [exact Nf|]. exists (module_rows m (rows_of df) :: bl). split.
        -- rewrite R. unfold df_append. rewrite !rows_numbered, of_module_rows. cbn [concat]. now rewrite app_assoc.
        -- constructor; [|exact F]. right. split; [intros A; apply S in A; congruence|reflexivity].
    + destruct (rebuild_is rb m); [discriminate|]. apply IH in H; [|exact N].
      destruct H as (Nf & bl & R & F). split; [exact Nf|]. exists ([] :: bl). split; [exact R|constructor; [reflexivity|exact F]].
Qed.
Lemma block_module ref base rb df mv rows : block ref base rb df mv rows -> Forall (fun r => r_module r = KStr (fst mv)) rows.
Proof.
  unfold block. destruct (snd mv); [|intros ->; constructor].
  intros [[_ H]|[_ ->]]; [|apply module_rows_module].
  eapply Forall_impl; [|exact (module_fresh _ _ _ _ H)]. now intros r [_ A].
Qed.
Lemma blocks_none ref base rb df mods blocks m : Forall2 (block ref base rb df) mods blocks ->
  ~ In (m, true) mods -> module_rows m (concat blocks) = [].
Proof.
  induction 1 as [|[m' v] rows mods blocks B F IH]; intros N; [reflexivity|]. cbn [concat]. rewrite module_rows_app, IH by (intros A; apply N; now right).
  rewrite app_nil_r. destruct v; [|cbn in B; subst; reflexivity].
  apply (module_rows_other m m'); [intros ->; apply N; now left|exact (block_module _ _ _ _ _ _ B)].
Qed.
Lemma blocks_one ref base rb df mods blocks m : Forall2 (block ref base rb df) mods blocks ->
  NoDup (map fst mods) -> In (m, true) mods ->
  exists rows, block ref base rb df (m, true) rows /\ module_rows m (concat blocks) = rows.
Proof.
  induction 1 as [|[m' v] rows mods blocks B F IH]; intros N Hi; [destruct Hi|]. cbn [map fst] in N. inversion N as [|? ? Hn N']; subst.
  cbn [concat]. rewrite module_rows_app. destruct Hi as [E|Hi].
  - injection E as -> ->. exists rows. split; [exact B|]. rewrite (module_rows_same m rows (block_module _ _ _ _ _ _ B)).
    rewrite (blocks_none _ _ _ _ _ _ _ F); [apply app_nil_r|]. intros A. apply Hn, in_map_iff. now exists (m, true).
  - destruct (IH N' Hi) as (rows' & B' & E). exists rows'. split; [exact B'|]. rewrite E.
    rewrite (module_rows_other m m'); [reflexivity| |exact (block_module _ _ _ _ _ _ B)].
    intros ->. apply Hn, in_map_iff. now exists (m, true).
Qed.
Lemma loop_total ref base rb df mods : forall acc, rb <> RNone ->
  (forall m, In (m, false) mods -> rb <> RStr m) ->
  (forall m, In (m, true) mods -> selects rb m -> exists rows, read_module X W ref (path_join base m) m = Ok rows) ->
  exists f, build_loop X W ref base rb df mods acc = Ok f.
Proof.
  induction mods as [|[m v] mods IH]; intros acc N D E; cbn [build_loop]; [eauto|].
  assert (D' : forall m, In (m, false) mods -> rb <> RStr m) by (intros; apply D; now right).
  assert (E' : forall m, In (m, true) mods -> selects rb m -> exists rows, read_module X W ref (path_join base m) m = Ok rows)
    by (intros; apply E; [now right|assumption]).
  destruct v.
  - destruct (in_rebuild_ok rb m N) as [b Eb]. rewrite Eb. cbn [bind]. pose proof (selected_iff _ _ _ Eb) as S.
    destruct (b || rebuild_is rb "All").
    + destruct (E m (or_introl eq_refl) (proj1 S eq_refl)) as [rows Er]. rewrite Er. cbn [bind]. now apply IH.
    + now apply IH.
  - destruct (rebuild_is rb m) eqn:R; [apply rebuild_is_iff in R; exfalso; eapply D; [now left|exact R]|]. now apply IH.
Qed.
(** a disabled module named alone: an error, ValueError unless reading an earlier module fails *)
Lemma loop_disabled ref base m df mods : forall acc, In (m, false) mods ->
  (forall m', In (m', true) mods -> selects (RStr m) m' -> exists rows, read_module X W ref (path_join base m') m' = Ok rows) ->
  build_loop X W ref base (RStr m) df mods acc = Raise ValueError.
Proof.
  induction mods as [|[m' v] mods IH]; intros acc Hi E; [destruct Hi|]. cbn [build_loop].
  assert (E' : forall m', In (m', true) mods -> selects (RStr m) m' -> exists rows, read_module X W ref (path_join base m') m' = Ok rows)
    by (intros; apply E; [now right|assumption]).
  destruct v.
  - destruct Hi as [A|Hi]; [discriminate|]. destruct (in_rebuild_ok (RStr m) m') as [b Eb]; [discriminate|]. rewrite Eb. cbn [bind].
    pose proof (selected_iff _ _ _ Eb) as S. destruct (b || rebuild_is (RStr m) "All").
    + destruct (E m' (or_introl eq_refl) (proj1 S eq_refl)) as [rows Er]. rewrite Er. cbn [bind]. now apply IH.
    + now apply IH.
  - destruct (rebuild_is (RStr m) m') eqn:R; [reflexivity|]. apply IH; [|exact E']. destruct Hi as [A|Hi]; [|exact Hi].
    injection A as ->. assert (X0 : rebuild_is (RStr m) m = true) by now apply rebuild_is_iff. congruence.
Qed.
(** the first failing module decides *)
Lemma loop_fails ref base rb df mods : forall acc e, rb <> RNone -> build_loop X W ref base rb df mods acc = Raise e ->
  (exists m, In (m, false) mods /\ rb = RStr m /\ e = ValueError) \/
  (exists m, In (m, true) mods /\ selects rb m /\ read_module X W ref (path_join base m) m = Raise e).
Proof.
  induction mods as [|[m v] mods IH]; intros acc e N H; cbn [build_loop] in H; [discriminate|].
  assert (R : forall acc, build_loop X W ref base rb df mods acc = Raise e ->
    (exists m0, In (m0, false) ((m, v) :: mods) /\ rb = RStr m0 /\ e = ValueError) \/
    (exists m0, In (m0, true) ((m, v) :: mods) /\ selects rb m0 /\ read_module X W ref (path_join base m0) m0 = Raise e)).
  { intros a Ha. destruct (IH a e N Ha) as [(m0 & A & B)|(m0 & A & B)]; [left|right]; exists m0; (split; [now right|exact B]). }
  destruct v.
  - destruct (in_rebuild_ok rb m N) as [b Eb]. rewrite Eb in H. cbn [bind] in H. pose proof (selected_iff _ _ _ Eb) as S.
    destruct (b || rebuild_is rb "All"); [|now apply (R _ H)].
    destruct (read_module X W ref (path_join base m) m) as [rows|e'] eqn:Er; cbn [bind] in H; [now apply (R _ H)|].
    injection H as ->. right. exists m. split; [now left|]. split; [now apply S|exact Er].
  - destruct (rebuild_is rb m) eqn:E; [|now apply (R _ H)]. injection H as <-. left. exists m. apply rebuild_is_iff in E.
    split; [now left|]. now split.
Qed.

(** ** opening a catalogue *)
Lemma mods_bool (mods : list (string * bool)) :
  map_res (fun kv => do b <- check_bool (snd kv); Ok (fst kv, b)) (map (fun p => (fst p, CBool (snd p))) mods) = Ok mods.
Proof.
  induction mods as [|[m b] mods IH]; [reflexivity|]. cbn [map map_res fst snd check_bool bind]. now rewrite IH.
Qed.
Lemma mk_catalogue_eq c rb base file mods v t u : configured c base file mods v t u ->
  mk_catalogue X W c rb =
  do_ validate_config (w_checks W) c;
  do ref <- mk_spectrum (InVals (VS v)) t u;
  do df <- (if rebuild_is rb "All" then Ok [] else do rows <- w_csv W (path_join base file); Ok (numbered rows));
  do df <- (if rebuild_is rb "None" then Ok df else build_catalogue X W ref base mods df rb);
  do i <- (do v <- dlookup c "Interactive"; check_bool v);
  if i && negb (w_qgrid W) then Raise GenericException else Ok (mkCat base file i ref df).
Proof.
  intros [P F M _ (d & Rf & V & T & U)]. unfold mk_catalogue. destruct (validate_config (w_checks W) c); [|reflexivity]. cbn [bind].
  unfold make_reference_spectrum. unfold dlookup at 1. rewrite Rf. cbn [bind]. cbn [map_item].
  unfold dlookup at 1. rewrite V. cbn [bind check_float]. unfold dlookup at 1. rewrite T. cbn [bind check_str].
  unfold dlookup at 1. rewrite U. cbn [bind check_str].
  destruct (mk_spectrum (InVals (VS v)) t u); [|reflexivity]. cbn [bind].
  unfold dlookup at 1. rewrite P. cbn [bind check_str]. unfold dlookup at 1. rewrite F. cbn [bind check_str].
  unfold dlookup at 1. rewrite M. cbn [bind]. rewrite mods_bool. cbn [bind].
  destruct (if rebuild_is rb "All" then _ else _); [|reflexivity]. cbn [bind].
  destruct (if rebuild_is rb "None" then _ else _); [|reflexivity]. cbn [bind].
  destruct (dlookup c "Interactive") as [x|]; reflexivity.
Qed.
End Build.
