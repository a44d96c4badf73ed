(** Lemmas about reading the modules of a catalogue. *)
From Verif Require Import PyBase PyStr XReal CNum SpectrumModel SpectrumSpec SpectrumProofs SpectralModel TextModel MaterialModel MaterialSpec MaterialProofs MatEvalProofs MatFileProofs FileModel IOSpec LineProofs TextProofs PathProofs PathModel ConfigModel CatalogueModel CatalogueSpec CatalogueProofs NormProofs RebuildProofs SaveProofs.
Open Scope string_scope.
Open Scope list_scope.

(** ** materials from files *)
Notation opened rd path u := (loaded rd path "wavelength" u).
Lemma opened_call path u : call [("file_path", PStr path); ("spectrum_type", PStr "wavelength"); ("unit", PStr u)]
  "file_path" (PStr path) "wavelength" u.
Proof. a_call. Qed.
Lemma opened_meta rd path u m : opened rd path u = Ok m ->
  exists d, m_meta m = Some d /\ forall k, In k file_metadata -> exists v, dget d k = Some v.
Proof.
  unfold loaded. rewrite (call_file rd _ _ _ _ (opened_call path u)). intros H.
  inv_bind H fd E1. inv_bind H meta E2. inv_bind H p E3. destruct (complete_fields _ _ _ H) as (M & _).
  exists meta. split; [exact M|]. intros k Hk. destruct (copy_meta_spec _ _ E2) as (K & _).
  destruct (dget meta k) as [v|] eqn:E; [eauto|]. exfalso. apply dget_None_keys in E. unfold dkeys in E. rewrite K in E. contradiction.
Qed.
Lemma meta_item_ok m d k : m_meta m = Some d -> (exists v, dget d k = Some v) ->
  exists c, meta_item m k = Ok c /\ meta_cell m k c.
Proof.
  intros M [v E]. unfold meta_item. rewrite M. unfold dlookup. rewrite E. cbn [bind]. eexists. split; [reflexivity|].
  exists d, v. split; [exact M|]. split; [exact E|]. destruct v; [left; eauto|right|right]; (split; [intros; discriminate|reflexivity]).
Qed.
Lemma range_two m v : get_maximum_valid_range m = Ok v ->
  exists lo hi, elems v = [lo; hi] /\ bound v 0 = Ok lo /\ bound v 1 = Ok hi.
Proof.
  intros H. unfold get_maximum_valid_range in H. destruct (negb (valid_name m)); [discriminate|].
  inv_bind H b Eb. inv_bind H s Es. apply shape_convert in H.
  assert (E : sp_std s = VA [fst b; snd b]) by (revert Es; generalize (fst b), (snd b); intros x y Es; vm_compute in Es; injection Es as <-; reflexivity).
  rewrite E in H. destruct v as [x|l|l]; cbn [shape elems length] in H; [discriminate| |].
  - injection H as H. destruct l as [|lo [|hi [|? ?]]]; try discriminate. exists lo, hi. auto.
  - injection H as H. rewrite map_length in H. destruct l as [|lo [|hi [|? ?]]]; try discriminate. eexists _, _. cbn. auto.
Qed.

Section Walk.
Variable X : scipy.
Variable W : world.
Variable ref : spectrum.
(** the reference spectrum is a single value *)
Variable x0 : xr.
Hypothesis scalar : sp_values ref = VS x0.

Lemma reference_ok m p : reference_index X m ref = Ok p -> reference_cells X ref m (fst p) (snd p).
Proof.
  unfold reference_index, reference_cells. intros H. destruct (get_nk_data X m (SObj ref)) as [[o|l]|e] eqn:E.
  - injection H as <-. left. exists o. auto.
  - discriminate.
  - destruct e; try discriminate. injection H as <-. right. auto.
Qed.
Lemma reference_err m e : reference_index X m ref = Raise e -> get_nk_data X m (SObj ref) = Raise e /\ e <> ValueError.
Proof.
  unfold reference_index. destruct (get_nk_data X m (SObj ref)) as [[o|l]|e'] eqn:E; intros H.
  - discriminate.
  - exfalso. apply nk_shape in E. cbn [oshape arg_shape] in E. rewrite scalar in E. discriminate.
  - destruct e'; try discriminate; injection H as <-; (split; [reflexivity|discriminate]).
Qed.

(** one page *)
Lemma folder_prefix dir folder : data_folder W dir folder ->
  file_prefix W dir = Ok ("database/" ++ folder)%string /\ plain_name folder.
Proof.
  intros [[A ->]|(A & B & ->)]; unfold file_prefix; rewrite A; [|rewrite B]; (split; [reflexivity|]);
    (repeat split; try discriminate; cbn; intuition discriminate).
Qed.
Lemma prefix_path folder : plain_name folder -> ("database/" ++ folder)%string = rel_path ["database"; folder].
Proof. reflexivity. Qed.
Lemma plain_database : plain_name "database".
Proof. repeat split; try discriminate. cbn. intuition discriminate. Qed.
Lemma page_spec dir folder b f n a d : data_folder W dir folder -> page_doc n (Page a d) ->
  let e := mkEntry b f a d in
  let path := page_file dir folder e in
  (exists err, opened (w_read W) path "micrometer" = Raise err /\ (err = OSError \/ err = FileNotFoundError) /\
     read_page X W ref dir (LStr b) (LStr f) n = Ok []) \/
  (exists m w, opened (w_read W) path "micrometer" = Ok m /\ page_row X ref folder e m w /\
     read_page X W ref dir (LStr b) (LStr f) n = Ok [w]) \/
  (exists err, opened (w_read W) path "micrometer" = Raise err /\ err <> OSError /\ err <> FileNotFoundError /\
     read_page X W ref dir (LStr b) (LStr f) n = Raise err) \/
  (exists m err, opened (w_read W) path "micrometer" = Ok m /\ row_error X ref m err /\
     read_page X W ref dir (LStr b) (LStr f) n = Raise err).
Proof.
  intros DF D e path. destruct (folder_prefix dir folder DF) as [P PN]. inversion D as [d' a' f' Dv Pg Dt| |]; subst.
  assert (E0 : read_page X W ref dir (LStr b) (LStr f) (LMap d') =
    match opened (w_read W) path "micrometer" with
    | Raise e => if catches OSError e then Ok [] else Raise e
    | Ok mat =>
        do vr <- get_maximum_valid_range mat;
        do lo <- bound vr 0; do hi <- bound vr 1;
        do rf <- meta_item mat "Reference";
        do cm <- meta_item mat "Comment";
        do nk <- reference_index X mat ref;
        Ok [mkRow (KStr "") (KStr b) (KStr f) (KStr a) cm rf
              (KStr "wavelength") (KStr "micrometer") lo hi (fst nk) (snd nk)
              (KStr (normpath (path_join ("database/" ++ folder)%string d))) (KStr "RefractiveIndexInfo")]
    end).
  { unfold read_page. cbn [in_node]. unfold dhas. rewrite Dv, Pg. cbn [bind negb].
    rewrite P. cbn [bind node_item]. unfold dlookup. rewrite Dt. cbn [bind node_str]. rewrite Pg. reflexivity. }
  rewrite E0. clear E0.
  destruct (opened (w_read W) path "micrometer") as [m|err] eqn:O.
  - destruct (opened_meta _ _ _ _ O) as (md & M & K).
    destruct (meta_item_ok m md "Reference" M) as (c1 & E1 & C1); [apply K; cbn; tauto|].
    destruct (meta_item_ok m md "Comment" M) as (c2 & E2 & C2); [apply K; cbn; tauto|].
    destruct (get_maximum_valid_range m) as [v|err] eqn:R; cbn [bind].
    + destruct (range_two _ _ R) as (lo & hi & Ev & -> & ->). cbn [bind]. rewrite E1, E2. cbn [bind].
      destruct (reference_index X m ref) as [p|err] eqn:N; cbn [bind].
      * right. left. eexists m, _. split; [reflexivity|]. split; [|reflexivity].
        unfold page_row. cbn [r_alias r_name r_full r_author r_comment r_ref r_stype r_unit r_lo r_hi r_n r_k r_path r_module e e_book e_full e_author e_data].
        repeat (split; [solve [reflexivity | assumption]|]). split; [|split; [|split; [reflexivity|]]].
        -- exists v, []. auto.
        -- now apply reference_ok.
        -- intros comps -> NE FP. rewrite (prefix_path folder PN).
           assert (FD : Forall plain_name ["database"; folder]) by (constructor; [exact plain_database|constructor; [exact PN|constructor]]).
           rewrite join_rel by (try discriminate; assumption). f_equal. cbn [app]. apply normpath_rel; [discriminate|].
           constructor; [exact plain_database|]. now constructor.
      * right. right. right. exists m, err. split; [reflexivity|]. split; [|reflexivity]. right. split; [eauto|now apply reference_err].
    + right. right. right. exists m, err. split; [reflexivity|]. split; [|reflexivity]. left. exact R.
  - unfold catches. destruct err; cbn [exn_eq_dec];
      try (left; eexists; split; [reflexivity|]; split; [tauto|reflexivity]);
      (right; right; left; eexists; split; [reflexivity|]; split; [discriminate|]; split; [discriminate|reflexivity]).
Qed.
Lemma page_divider dir b f n : page_doc n PDivider -> read_page X W ref dir b f n = Ok [].
Proof. intros D. inversion D as [|d E E'|d v E]; subst; unfold read_page; cbn [in_node]; unfold dhas; rewrite E; [cbn [bind]; now rewrite E'|reflexivity]. Qed.

Lemma seq_res_app {A B} (g : A -> res (list B)) l l' : seq_res g (l ++ l') =
  do a <- seq_res g l; do b <- seq_res g l'; Ok (a ++ b).
Proof.
  induction l as [|x l IH]; cbn [app seq_res bind]; [destruct (seq_res g l'); reflexivity|].
  destruct (g x); [|reflexivity]. cbn [bind]. rewrite IH. destruct (seq_res g l); [|reflexivity]. cbn [bind].
  destruct (seq_res g l'); [|reflexivity]. cbn [bind]. now rewrite app_assoc.
Qed.
Notation listing' dir folder := (listing X ref (w_read W) dir folder).

Lemma listing_app dir folder l l' : forall r r', listing' dir folder l r -> listing' dir folder l' r' ->
  listing' dir folder (l ++ l') (do a <- r; do b <- r'; Ok (a ++ b)).
Proof.
  induction 1; intros H'; cbn [app bind] in *.
  - destruct r'; exact H'.
  - eapply lst_skip; eauto.
  - specialize (IHlisting H'). destruct r' as [b|err]; cbn [bind] in *; [eapply lst_row|eapply lst_later]; eauto.
  - eapply lst_later; eauto.
  - eapply lst_bad_file; eauto.
  - eapply lst_bad_row; eauto.
Qed.
(** pages of a book *)
Lemma pages_listing dir folder b f docs pages : data_folder W dir folder -> Forall2 page_doc docs pages ->
  listing' dir folder (book_entries (Book b f pages)) (seq_res (read_page X W ref dir (LStr b) (LStr f)) docs).
Proof.
  intros P. cbn [book_entries]. induction 1 as [|n p docs pages D F IH]; cbn [flat_map seq_res]; [constructor|].
  destruct p as [a d|].
  - cbn [app]. destruct (page_spec dir folder b f n a d P D) as [(err & O & K & E)|[(m & w & O & R & E)|[(err & O & K1 & K2 & E)|(m & err & O & K & E)]]];
      rewrite E; cbn [bind].
    + eapply lst_skip; [exact O|exact K|]. destruct (seq_res _ docs); exact IH.
    + destruct (seq_res _ docs); cbn [bind app]; [eapply lst_row|eapply lst_later]; eauto.
    + eapply lst_bad_file; eauto.
    + eapply lst_bad_row; eauto.
  - rewrite (page_divider _ _ _ _ D). cbn [bind app]. destruct (seq_res _ docs); exact IH.
Qed.
Lemma book_listing dir folder n bk : data_folder W dir folder -> book_doc n bk ->
  listing' dir folder (book_entries bk) (read_book X W ref dir n).
Proof.
  intros P D. inversion D as [d nm fl l pages E1 E2 E3 E4 F|d E1 E2|d v E]; subst; unfold read_book; cbn [in_keys]; unfold dhas.
  - rewrite E1, E2. cbn [bind negb node_item]. unfold dlookup. rewrite E2, E3, E4. cbn [bind]. now apply pages_listing.
  - rewrite E1. cbn [bind]. rewrite E2. constructor.
  - rewrite E. cbn. constructor.
Qed.
Lemma books_listing dir folder docs books : data_folder W dir folder -> Forall2 book_doc docs books ->
  listing' dir folder (flat_map book_entries books) (seq_res (read_book X W ref dir) docs).
Proof.
  intros P. induction 1 as [|n b docs books D F IH]; cbn [flat_map seq_res]; [constructor|].
  apply listing_app; [now apply book_listing|exact IH].
Qed.
Lemma shelves_listing dir folder docs lib : data_folder W dir folder -> Forall2 shelf_doc docs lib ->
  listing' dir folder (entries lib) (seq_res (read_shelf X W ref dir) docs).
Proof.
  intros P. unfold entries. induction 1 as [|n b docs lib D F IH]; cbn [flat_map seq_res]; [constructor|].
  apply listing_app; [|exact IH]. inversion D as [d v l books E1 E2 F']; subst. unfold read_shelf. cbn [node_item].
  unfold dlookup. rewrite E1, E2. cbn [bind]. unfold iterate_books. cbn [items bind]. now apply books_listing.
Qed.

(** no data folder *)
Lemma page_no_folder dir b f n a d err : file_prefix W dir = Raise err -> page_doc n (Page a d) -> read_page X W ref dir b f n = Raise err.
Proof.
  intros P D. inversion D as [d' a' f' Dv Pg Dt| |]; subst. unfold read_page. cbn [in_node]. unfold dhas. rewrite Dv, Pg. cbn [bind negb].
  now rewrite P.
Qed.
Definition none_or_fail {A} (es : list entry) (err : exn) (r : res (list A)) : Prop :=
  r = match es with [] => Ok [] | _ => Raise err end.
Lemma nof_app {A} es es' err (r r' : res (list A)) : none_or_fail es err r -> none_or_fail es' err r' ->
  none_or_fail (es ++ es') err (do a <- r; do b <- r'; Ok (a ++ b)).
Proof. unfold none_or_fail. intros -> ->. destruct es; cbn [bind app]; [destruct es'; reflexivity|reflexivity]. Qed.
Lemma shelves_no_folder dir docs lib err : file_prefix W dir = Raise err -> Forall2 shelf_doc docs lib ->
  none_or_fail (entries lib) err (seq_res (read_shelf X W ref dir) docs).
Proof.
  intros P. unfold entries. induction 1 as [|n b docs lib D F IH]; cbn [flat_map seq_res]; [reflexivity|].
  apply nof_app; [|exact IH]. inversion D as [d v l books E1 E2 F']; subst. unfold read_shelf. cbn [node_item].
  unfold dlookup. rewrite E1, E2. cbn [bind]. unfold iterate_books. cbn [items bind].
  clear D E1 E2 F IH. induction F' as [|n bk l books D F IH]; cbn [flat_map seq_res]; [reflexivity|].
  apply nof_app; [|exact IH]. clear IH. inversion D as [d' nm fl l' pages E1 E2 E3 E4 F2|d' E1 E2|d' v' E]; subst; unfold read_book; cbn [in_keys]; unfold dhas.
  - rewrite E1, E2. cbn [bind negb node_item]. unfold dlookup. rewrite E2, E3, E4. cbn [bind]. unfold iterate_pages. cbn [items bind book_entries].
    clear D E4. induction F2 as [|x p docs' pages D F3 IH]; cbn [flat_map seq_res]; [reflexivity|].
    apply nof_app; [|exact IH]. destruct p; [rewrite (page_no_folder _ _ _ _ _ _ _ P D)|rewrite (page_divider _ _ _ _ D)]; reflexivity.
  - rewrite E1. cbn [bind]. rewrite E2. reflexivity.
  - rewrite E. reflexivity.
Qed.

(** ** user folders *)
Lemma user_file_spec dir module f : plain_name f -> allowed_ext (splitext f) = true ->
  (exists m w, opened (w_read W) (path_join dir f) "nanometer" = Ok m /\ file_row X ref module f m w /\
     read_user_file X W ref dir module f = Ok [w]) \/
  (exists err, opened (w_read W) (path_join dir f) "nanometer" = Raise err /\ read_user_file X W ref dir module f = Raise err) \/
  (exists m err, opened (w_read W) (path_join dir f) "nanometer" = Ok m /\ row_error X ref m err /\
     read_user_file X W ref dir module f = Raise err).
Proof.
  intros PN A. unfold read_user_file. rewrite A. cbn [negb].
  change (file_material W (path_join dir f) (PStr "wavelength") (PStr "nanometer")) with (opened (w_read W) (path_join dir f) "nanometer").
  destruct (opened (w_read W) (path_join dir f) "nanometer") as [m|err] eqn:O; cbn [bind]; [|right; left; eauto].
  destruct (opened_meta _ _ _ _ O) as (md & M & K).
  destruct (meta_item_ok m md "Reference" M) as (c1 & E1 & C1); [apply K; cbn; tauto|].
  destruct (meta_item_ok m md "Comment" M) as (c2 & E2 & C2); [apply K; cbn; tauto|].
  destruct (meta_item_ok m md "FullName" M) as (c3 & E3 & C3); [apply K; cbn; tauto|].
  destruct (meta_item_ok m md "Author" M) as (c4 & E4 & C4); [apply K; cbn; tauto|].
  rewrite E3, E4, E2, E1. cbn [bind].
  destruct (get_maximum_valid_range m) as [v|err] eqn:R; cbn [bind].
  - destruct (range_two _ _ R) as (lo & hi & Ev & -> & ->). cbn [bind].
    destruct (reference_index X m ref) as [p|err] eqn:N; cbn [bind].
    + left. eexists m, _. split; [reflexivity|]. split; [|reflexivity].
      unfold file_row. cbn [r_alias r_name r_full r_author r_comment r_ref r_stype r_unit r_lo r_hi r_n r_k r_path r_module].
      split; [reflexivity|]. split; [exists (stem f); split; [apply supported_stem; [apply PN|exact A]|reflexivity]|].
      repeat (split; [solve [reflexivity | assumption]|]). split; [|split; [|split; [|reflexivity]]].
      * exists v, []. auto.
      * now apply reference_ok.
      * f_equal. apply (normpath_rel [f]); [discriminate|constructor; [exact PN|constructor]].
    + right. right. exists m, err. split; [reflexivity|]. split; [|reflexivity]. right. split; [eauto|now apply reference_err].
  - right. right. exists m, err. split; [reflexivity|]. split; [|reflexivity]. left. exact R.
Qed.
Lemma folder_listing dir module names sel : Forall plain_name names -> picked supported names sel ->
  folder_rows X ref (w_read W) dir module sel (seq_res (read_user_file X W ref dir module) names).
Proof.
  intros F P. induction P as [|f names sel S P IH|f names sel S P IH]; cbn [seq_res]; [constructor| |]; inversion F as [|? ? PN F']; subst.
  - assert (A : allowed_ext (splitext f) = true) by (apply supported_iff; [apply PN|exact S]).
    destruct (user_file_spec dir module f PN A) as [(m & w & O & R & E)|[(err & O & E)|(m & err & O & K & E)]]; rewrite E; cbn [bind].
    + specialize (IH F'). destruct (seq_res _ names); cbn [bind app]; [eapply fld_row|eapply fld_later]; eauto.
    + eapply fld_bad_file; eauto.
    + eapply fld_bad_row; eauto.
  - assert (A : allowed_ext (splitext f) = false) by (destruct (allowed_ext (splitext f)) eqn:A; [exfalso; apply S, supported_iff; [apply PN|exact A]|reflexivity]).
    unfold read_user_file at 1. rewrite A. cbn [negb bind app]. specialize (IH F'). destruct (seq_res _ names); exact IH.
Qed.
End Walk.
Lemma picked_exists (P : string -> Prop) (dec : forall x, P x \/ ~ P x) l : exists l', picked P l l'.
Proof.
  induction l as [|x l [l' IH]]; [exists []; constructor|]. destruct (dec x); [exists (x :: l')|exists l']; now constructor.
Qed.
Lemma picked_filter (P : string -> Prop) (g : string -> bool) l l' :
  picked (fun x => g x = true /\ P x) l l' -> picked P (filter g l) l'.
Proof.
  induction 1 as [|x l l' [G H] P' IH|x l l' N P' IH]; cbn [filter]; [constructor| |].
  - rewrite G. now constructor.
  - destruct (g x); [|exact IH]. constructor; [|exact IH]. intros H. apply N. now split.
Qed.
