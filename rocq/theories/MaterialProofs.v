(** Proofs about material construction: arguments, fixed values, tables. *)
From Verif Require Import PyBase PyStr XReal CNum SpectrumModel SpectrumSpec SpectrumProofs SpectralModel SpectralSpec SpectralProofs InterpProofs EvalProofs ExtrapProofs TextModel TextSpec TextProofs TableProofs MaterialModel MaterialSpec.
Open Scope R_scope.
Open Scope string_scope.
Open Scope list_scope.

(** ** arguments *)
Lemma dget_NoDup {V} (d : dict V) k v : NoDup (map fst d) -> (dget d k = Some v <-> In (k, v) d).
Proof.
  induction d as [|[k' v'] r IH]; cbn [dget map fst]; intros H; [split; [discriminate|intros []]|].
  inversion H; subst. specialize (IH H3). destruct (String.eqb k k') eqn:E.
  - apply String.eqb_eq in E; subst. split.
    + intros [= ->]. now left.
    + intros [[= ->]|Hin]; [reflexivity|]. exfalso. apply H2. exact (in_map fst _ _ Hin).
  - rewrite IH. split; [now right|]. intros [[= -> ->]|]; [|assumption]. now rewrite String.eqb_refl in E.
Qed.

Lemma given_arg kw n v : kwargs_ok kw -> (given kw n v <-> arg kw n = v /\ v <> PNone).
Proof.
  intros K. unfold given, arg. rewrite <- (dget_NoDup _ _ _ K). destruct (dget kw n); split; intros [H H1].
  - inversion H; subst; auto.
  - subst; auto.
  - discriminate.
  - now subst.
Qed.
Lemma not_given kw n : kwargs_ok kw -> ((forall v, ~ given kw n v) <-> arg kw n = PNone).
Proof.
  intros K. split.
  - intros H. destruct (arg kw n) eqn:E; try reflexivity;
      exfalso; apply (H (arg kw n)); apply given_arg; rewrite ?E; auto; split; congruence.
  - intros H v Hv. apply given_arg in Hv; [|assumption]. destruct Hv. congruence.
Qed.

Lemma is_none_iff v : is_none v = true <-> v = PNone.
Proof. destruct v; cbn; split; congruence. Qed.
Lemma is_none_false v : is_none v = false <-> v <> PNone.
Proof. destruct v; cbn; split; congruence. Qed.

Lemma isinstance_iff v t : isinstance v t = true <-> of_type v t.
Proof.
  destruct v, t; cbn; split; try discriminate; try reflexivity; eauto;
    intros [? H]; discriminate.
Qed.

Lemma arg_dset_none d n m : arg d n = PNone -> arg (dset d n PNone) m = arg d m.
Proof.
  intros H. unfold arg. destruct (string_dec n m) as [->|N].
  - rewrite dget_dset_same. unfold arg in H. symmetry; exact H.
  - now rewrite dget_dset_other.
Qed.
Lemma arg_dset d n v m : arg (dset d n v) m = if String.eqb n m then v else arg d m.
Proof.
  unfold arg. destruct (String.eqb n m) eqn:E.
  - apply String.eqb_eq in E; subst. now rewrite dget_dset_same.
  - apply String.eqb_neq in E. now rewrite dget_dset_other.
Qed.

Definition typed1 (a : string -> pyval) (t : pytype) (n : string) : bool :=
  is_none (a n) || isinstance (a n) t.
Lemma check_spec names t : forall d,
  match check_arg_types d names t with
  | Ok i => forallb (typed1 (arg d) t) names = true /\ forall m, arg i m = arg d m
  | Raise e => e = TypeError /\ forallb (typed1 (arg d) t) names = false
  end.
Proof.
  induction names as [|n r IH]; intros d; cbn [check_arg_types forallb]; [split; reflexivity|].
  unfold typed1 at 1 3. destruct (is_none (arg d n)) eqn:E.
  - specialize (IH (dset d n PNone)). apply is_none_iff in E.
    assert (A : forall m, arg (dset d n PNone) m = arg d m) by (intros; now apply arg_dset_none).
    assert (F : forallb (typed1 (arg (dset d n PNone)) t) r = forallb (typed1 (arg d) t) r).
    { clear IH. induction r as [|x r IHr]; [reflexivity|]. cbn [forallb]. rewrite IHr. unfold typed1. now rewrite A. }
    destruct (check_arg_types (dset d n PNone) r t); cbn [orb andb]; rewrite <- F; [|exact IH].
    destruct IH as [I1 I2]. split; [assumption|]. intros m. rewrite I2. apply A.
  - destruct (isinstance (arg d n) t); cbn [orb andb]; [apply IH|split; reflexivity].
Qed.

(** number of sources with a value *)
Definition sources_of (a : string -> pyval) : list string :=
  filter (fun n => negb (is_none (a n))) mutually_exclusive.
Lemma source_count_spec kw : kwargs_ok kw -> source_count kw = length (sources_of (arg kw)).
Proof.
  intros K. unfold source_count, sources_of.
  rewrite <- (map_length fst (filter _ kw)).
  apply Nat.le_antisymm; apply NoDup_incl_length.
  - unfold kwargs_ok in K. induction kw as [|[k v] r IH]; [constructor|]. cbn [filter map fst snd] in *.
    inversion K; subst. destruct (negb (is_none v) && smem k mutually_exclusive); [|auto].
    cbn [map fst]. constructor; [|auto]. intros H. apply H1. apply in_map_iff in H. destruct H as ([k' v'] & H & H').
    apply filter_In in H'. cbn in H; subst. apply in_map_iff. exists (k, v'). tauto.
  - intros n H. apply in_map_iff in H. destruct H as ([k v] & <- & H). apply filter_In in H. cbn [fst snd] in *.
    destruct H as [H1 H2]. apply andb_true_iff in H2. destruct H2 as [H2 H3].
    apply filter_In. split; [now apply smem_In|]. unfold arg. apply (dget_NoDup _ _ _ K) in H1. now rewrite H1.
  - apply NoDup_filter. unfold mutually_exclusive. repeat constructor; cbn; intuition discriminate.
  - intros n H. apply filter_In in H. destruct H as [H1 H2]. apply in_map_iff. exists (n, arg kw n). split; [reflexivity|].
    apply filter_In. cbn [fst snd]. split.
    + unfold arg in *. destruct (dget kw n) eqn:E; [now apply dget_In|discriminate].
    + rewrite H2. cbn [andb]. now apply smem_In.
Qed.

(** the arguments after parsing: defaults filled in *)
Definition eff (a : string -> pyval) (n : string) : pyval :=
  if String.eqb "spectrum_type" n && is_none (a n) then PStr "wavelength"
  else if String.eqb "unit" n && is_none (a n) then PStr "nanometer" else a n.

Definition typed_all (a : string -> pyval) : bool :=
  forallb (fun nt => typed1 a (snd nt) (fst nt)) arg_types.

Definition shapes (a : string -> pyval) : res unit :=
  do_ (if is_none (a "tabulated_nk") then Ok tt else check_table_shape (a "tabulated_nk") 3);
  do_ (if is_none (a "tabulated_n_alpha") then Ok tt else check_table_shape (a "tabulated_nk") 3);
  do_ (if is_none (a "tabulated_n") then Ok tt else check_table_shape (a "tabulated_n") 2);
  if is_none (a "tabulated_eps") then Ok tt else check_table_shape (a "tabulated_eps") 3.

Lemma parse_spec kw : kwargs_ok kw ->
  (length (sources_of (arg kw)) <> 1%nat /\ parse_args kw = Raise ValueError) \/
  (length (sources_of (arg kw)) = 1%nat /\ typed_all (arg kw) = false /\ parse_args kw = Raise TypeError) \/
  (length (sources_of (arg kw)) = 1%nat /\ typed_all (arg kw) = true /\
   match shapes (arg kw) with
   | Raise e => parse_args kw = Raise e
   | Ok _ => exists i, parse_args kw = Ok i /\ forall n, n <> "interp_order" -> arg i n = eff (arg kw) n
   end).
Proof.
  intros K. unfold parse_args. rewrite (source_count_spec _ K).
  destruct (Nat.eqb (length (sources_of (arg kw))) 0) eqn:E0.
  { left. apply Nat.eqb_eq in E0. split; [lia|reflexivity]. }
  destruct (Nat.ltb 1 (length (sources_of (arg kw)))) eqn:E1.
  { left. apply Nat.ltb_lt in E1. split; [lia|reflexivity]. }
  apply Nat.eqb_neq in E0. apply Nat.ltb_ge in E1. assert (L : length (sources_of (arg kw)) = 1%nat) by lia.
  right. rewrite L. assert (T : forall P Q : Prop, (1%nat = 1%nat /\ P) \/ (1%nat = 1%nat /\ Q) <-> P \/ Q) by (intuition).
  rewrite <- !(and_assoc). clear T.
  pose proof (check_spec ["file_path"; "spectrum_type"; "unit"] TyStr kw) as C1.
  destruct (check_arg_types kw ["file_path"; "spectrum_type"; "unit"] TyStr) as [i1|e1]; cbn [bind].
  2: { destruct C1 as [-> C1]. left. rewrite and_assoc. split; [reflexivity|]. split; [|reflexivity].
       unfold typed_all, arg_types. cbn [forallb fst snd] in *. unfold typed1 in *.
       destruct (is_none (arg kw "file_path") || isinstance (arg kw "file_path") TyStr); cbn [andb] in *; [|reflexivity].
       destruct (is_none (arg kw "spectrum_type") || isinstance (arg kw "spectrum_type") TyStr); cbn [andb] in *; [|reflexivity].
       destruct (is_none (arg kw "unit") || isinstance (arg kw "unit") TyStr); cbn [andb] in *; [discriminate|reflexivity]. }
  destruct C1 as [C1 A1]. cbn [forallb] in C1. rewrite !andb_true_iff in C1. destruct C1 as (C1a & C1b & C1c & _).
  set (i2 := if is_none (arg i1 "spectrum_type") then dset i1 "spectrum_type" (PStr "wavelength") else i1).
  set (i3 := if is_none (arg i2 "unit") then dset i2 "unit" (PStr "nanometer") else i2).
  set (i4 := if dhas i3 "interp_order" then i3 else dset i3 "interp_order" (PInt 1)).
  assert (A2 : forall n, arg i2 n = if String.eqb "spectrum_type" n && is_none (arg kw n) then PStr "wavelength" else arg kw n).
  { intros n. unfold i2. rewrite A1. destruct (is_none (arg kw "spectrum_type")) eqn:E.
    - rewrite arg_dset. destruct (String.eqb "spectrum_type" n) eqn:E'; cbn [andb].
      + apply String.eqb_eq in E'. subst. now rewrite E.
      + apply A1.
    - rewrite A1. destruct (String.eqb "spectrum_type" n) eqn:E'; cbn [andb]; [|reflexivity].
      apply String.eqb_eq in E'. subst. now rewrite E. }
  assert (A3 : forall n, arg i3 n = eff (arg kw) n).
  { intros n. unfold i3, eff. rewrite (A2 "unit"). change (String.eqb "spectrum_type" "unit") with false. cbn [andb].
    destruct (is_none (arg kw "unit")) eqn:E.
    - rewrite arg_dset. destruct (String.eqb "unit" n) eqn:E'; cbn [andb].
      + apply String.eqb_eq in E'. subst. rewrite E. change (String.eqb "spectrum_type" "unit") with false. change (String.eqb "unit" "unit") with true. reflexivity.
      + rewrite A2. reflexivity.
    - rewrite A2. destruct (String.eqb "unit" n) eqn:E'; cbn [andb]; [|reflexivity].
      apply String.eqb_eq in E'. subst. rewrite E. change (String.eqb "spectrum_type" "unit") with false. change (String.eqb "unit" "unit") with true. reflexivity. }
  assert (A4 : forall n, n <> "interp_order" -> arg i4 n = eff (arg kw) n).
  { intros n Hn. unfold i4. destruct (dhas i3 "interp_order"); [apply A3|]. rewrite arg_dset.
    replace (String.eqb "interp_order" n) with false; [apply A3|]. symmetry. apply String.eqb_neq. congruence. }
  assert (E4 : forall n, n <> "spectrum_type" -> n <> "unit" -> n <> "interp_order" -> arg i4 n = arg kw n).
  { intros n H1 H2 H3. rewrite A4 by assumption. unfold eff.
    replace (String.eqb "spectrum_type" n) with false by (symmetry; apply String.eqb_neq; congruence).
    replace (String.eqb "unit" n) with false by (symmetry; apply String.eqb_neq; congruence). reflexivity. }
  assert (F : forall names t, forallb (fun n => negb (smem n ["spectrum_type"; "unit"; "interp_order"])) names = true ->
            forall i, (forall m, arg i m = arg i4 m) ->
            forallb (typed1 (arg i) t) names = forallb (typed1 (arg kw) t) names).
  { intros names t Hn i Hi. induction names as [|x r IH]; [reflexivity|]. cbn [forallb] in *. apply andb_true_iff in Hn. destruct Hn as [Hx Hn].
    rewrite IH by assumption. unfold typed1. rewrite Hi. apply negb_true_iff, smem_not_In in Hx.
    rewrite E4; [reflexivity|..]; intros ->; apply Hx; cbn; auto. }
  assert (Fin4 : forall m : string, arg i4 m = arg i4 m) by reflexivity.
  pose proof (check_spec ["interp_oder"] TyInt i4) as C2.
  rewrite (F ["interp_oder"] TyInt eq_refl i4 Fin4) in C2.
  destruct (check_arg_types i4 ["interp_oder"] TyInt) as [i5|e]; cbn [bind].
  2: { destruct C2 as [-> C2]. left. split; [split; [reflexivity|]|reflexivity].
       unfold typed_all, arg_types. cbn [forallb fst snd] in *. rewrite andb_true_r in C2. rewrite C2. rewrite !andb_false_r. reflexivity. }
  destruct C2 as [C2 A5].
  pose proof (check_spec ["fixed_n"; "fixed_eps_r"] TyFloat i5) as C3.
  rewrite (F ["fixed_n"; "fixed_eps_r"] TyFloat eq_refl i5 A5) in C3.
  destruct (check_arg_types i5 ["fixed_n"; "fixed_eps_r"] TyFloat) as [i6|e]; cbn [bind].
  2: { destruct C3 as [-> C3]. left. split; [split; [reflexivity|]|reflexivity].
       unfold typed_all, arg_types. cbn [forallb fst snd] in *. rewrite andb_true_r in C3.
       destruct (typed1 (arg kw) TyFloat "fixed_n"); cbn [andb] in C3; [rewrite C3|]; cbn [andb]; rewrite ?andb_false_r; reflexivity. }
  destruct C3 as [C3 A6]. assert (B6 : forall m, arg i6 m = arg i4 m) by (intros; now rewrite A6, A5).
  pose proof (check_spec ["fixed_nk"; "fixed_eps"] TyComplex i6) as C4.
  rewrite (F ["fixed_nk"; "fixed_eps"] TyComplex eq_refl i6 B6) in C4.
  destruct (check_arg_types i6 ["fixed_nk"; "fixed_eps"] TyComplex) as [i7|e]; cbn [bind].
  2: { destruct C4 as [-> C4]. left. split; [split; [reflexivity|]|reflexivity].
       unfold typed_all, arg_types. cbn [forallb fst snd] in *. rewrite andb_true_r in C4.
       destruct (typed1 (arg kw) TyComplex "fixed_nk"); cbn [andb] in C4; [rewrite C4|]; cbn [andb]; rewrite ?andb_false_r; reflexivity. }
  destruct C4 as [C4 A7]. assert (B7 : forall m, arg i7 m = arg i4 m) by (intros; now rewrite A7, B6).
  pose proof (check_spec ["model_kw"] TyDict i7) as C5.
  rewrite (F ["model_kw"] TyDict eq_refl i7 B7) in C5.
  destruct (check_arg_types i7 ["model_kw"] TyDict) as [i8|e]; cbn [bind].
  2: { destruct C5 as [-> C5]. left. split; [split; [reflexivity|]|reflexivity].
       unfold typed_all, arg_types. cbn [forallb fst snd] in *. rewrite andb_true_r in C5. rewrite C5. rewrite ?andb_false_r. reflexivity. }
  destruct C5 as [C5 A8]. assert (B8 : forall m, arg i8 m = arg i4 m) by (intros; now rewrite A8, B7).
  pose proof (check_spec ["tabulated_nk"; "tabulated_n"; "tabulated_eps"; "tabulated_n_alpha"] TyArray i8) as C6.
  rewrite (F ["tabulated_nk"; "tabulated_n"; "tabulated_eps"; "tabulated_n_alpha"] TyArray eq_refl i8 B8) in C6.
  destruct (check_arg_types i8 ["tabulated_nk"; "tabulated_n"; "tabulated_eps"; "tabulated_n_alpha"] TyArray) as [i9|e]; cbn [bind].
  2: { destruct C6 as [-> C6]. left. split; [split; [reflexivity|]|reflexivity].
       unfold typed_all, arg_types. cbn [forallb fst snd] in *. rewrite C6. rewrite ?andb_false_r. reflexivity. }
  destruct C6 as [C6 A9]. assert (B9 : forall m, arg i9 m = arg i4 m) by (intros; now rewrite A9, B8).
  right. split; [split; [reflexivity|]|].
  { unfold typed_all, arg_types. cbn [forallb fst snd] in *. rewrite !andb_true_iff in *. intuition. }
  unfold shapes. rewrite !B9, !E4 by discriminate.
  destruct (if is_none (arg kw "tabulated_nk") then Ok tt else check_table_shape (arg kw "tabulated_nk") 3); cbn [bind]; [|reflexivity].
  destruct (if is_none (arg kw "tabulated_n_alpha") then Ok tt else check_table_shape (arg kw "tabulated_nk") 3); cbn [bind]; [|reflexivity].
  destruct (if is_none (arg kw "tabulated_n") then Ok tt else check_table_shape (arg kw "tabulated_n") 2); cbn [bind]; [|reflexivity].
  destruct (if is_none (arg kw "tabulated_eps") then Ok tt else check_table_shape (arg kw "tabulated_eps") 3); cbn [bind]; [|reflexivity].
  exists i9. split; [reflexivity|]. intros n Hn. rewrite B9. now apply A4.
Qed.

(** ** construction as a function of the arguments *)
Definition build (rd : string -> res fdict) (a : string -> pyval) : res material :=
  let str_arg n := match as_str (a n) with Some s => s | None => "" end in
  let p := mkP "" None None None (str_arg "spectrum_type") (str_arg "unit") in
  let tab v f := match v with PArr (ND2 n rows) => f n rows | _ => Raise RuntimeError end in
  match as_str (a "file_path") with
  | Some path =>
      do fd <- rd path;
      do meta <- copy_meta (fd_meta fd);
      do p <- process_datasets (fd_sets fd) p;
      complete meta p
  | _ =>
      do p <- (match as_dict (a "model_kw") with
               | Some m => process_model_dict m p
               | _ =>
                 if negb (is_none (a "tabulated_nk")) then
                   tab (a "tabulated_nk") (fun n rows => process_table n rows "nk" p)
                 else if negb (is_none (a "tabulated_n_alpha")) then
                   tab (a "tabulated_n_alpha") (fun n rows => process_table n rows "n_alpha" p)
                 else if negb (is_none (a "tabulated_n")) then
                   tab (a "tabulated_n") (fun n rows => process_table n rows "n" p)
                 else if negb (is_none (a "tabulated_eps")) then
                   tab (a "tabulated_eps") (fun n rows => process_table n rows "eps" p)
                 else
                   match as_float (a "fixed_n") with
                   | Some x => do c <- constant_default (ORe x); Ok (set_real p "nk" c)
                   | _ =>
                   match as_complex (a "fixed_nk") with
                   | Some z => do r <- constant_default (ORe (cx_re z)); do i <- constant_default (ORe (cx_im z));
                                   Ok (set_imag (set_real p "nk" r) "nk" i)
                   | _ =>
                   match as_float (a "fixed_eps_r") with
                   | Some x => do c <- constant_default (ORe x); Ok (set_real p "eps" c)
                   | _ =>
                   match as_complex (a "fixed_eps") with
                   | Some z => do r <- constant_default (ORe (cx_re z)); do i <- constant_default (ORe (cx_im z));
                                   Ok (set_imag (set_real p "eps" r) "eps" i)
                   | _ => Raise RuntimeError
                   end end end end
               end);
      complete default_meta p
  end.

Lemma mk_material_build rd kw i :
  parse_args kw = Ok i -> (forall n, n <> "interp_order" -> arg i n = eff (arg kw) n) ->
  mk_material rd kw = build rd (eff (arg kw)).
Proof.
  intros P A. unfold mk_material, build, process_fixed_value. rewrite P. cbn [bind].
  rewrite !A by discriminate. reflexivity.
Qed.

Lemma eff_ext a b n : a n = b n -> eff a n = eff b n.
Proof. intros H. unfold eff. now rewrite H. Qed.

Definition known_args : list string := data_sources ++ ["spectrum_type"; "unit"; "interp_oder"].

Lemma build_ext rd a b : (forall n, In n known_args -> a n = b n) -> build rd a = build rd b.
Proof. intros H. unfold build. rewrite !H by (cbn; tauto). reflexivity. Qed.

Lemma sources_ext a b : (forall n, In n data_sources -> a n = b n) -> sources_of a = sources_of b.
Proof.
  intros H. apply filter_ext_in. intros n Hn. now rewrite H.
Qed.
Lemma typed_ext a b : (forall n, In n known_args -> a n = b n) -> typed_all a = typed_all b.
Proof.
  intros H. unfold typed_all, arg_types. cbn [forallb fst snd]. unfold typed1.
  rewrite !H by (cbn; tauto). reflexivity.
Qed.
Lemma shapes_ext a b : (forall n, In n known_args -> a n = b n) -> shapes a = shapes b.
Proof. intros H. unfold shapes. rewrite !H by (cbn; tauto). reflexivity. Qed.

Lemma mk_material_ext rd kw kw' : kwargs_ok kw -> kwargs_ok kw' ->
  (forall n, In n known_args -> arg kw n = arg kw' n) -> mk_material rd kw = mk_material rd kw'.
Proof.
  intros K K' H.
  assert (S : sources_of (arg kw) = sources_of (arg kw')) by (apply sources_ext; intros; apply H, in_or_app; tauto).
  assert (T : typed_all (arg kw) = typed_all (arg kw')) by (apply typed_ext, H).
  assert (Sh : shapes (arg kw) = shapes (arg kw')) by (apply shapes_ext, H).
  destruct (parse_spec kw K) as [[H1 H2]|[(H1 & H2 & H3)|(H1 & H2 & H3)]];
  destruct (parse_spec kw' K') as [[G1 G2]|[(G1 & G2 & G3)|(G1 & G2 & G3)]];
    try (exfalso; congruence); unfold mk_material at 1 2.
  - now rewrite H2, G2.
  - now rewrite H3, G3.
  - fold (mk_material rd kw). fold (mk_material rd kw'). rewrite Sh in H3. destruct (shapes (arg kw')).
    + destruct H3 as (i & P & A). destruct G3 as (i' & P' & A').
      rewrite (mk_material_build rd _ _ P A), (mk_material_build rd _ _ P' A').
      apply build_ext. intros n Hn. apply eff_ext, H, Hn.
    + unfold mk_material. now rewrite H3, G3.
Qed.

Lemma typed_all_iff kw : kwargs_ok kw -> (typed_all (arg kw) = true <-> well_typed kw).
Proof.
  intros K. unfold typed_all, well_typed. rewrite forallb_forall. split.
  - intros H n t v Hn Hg. apply given_arg in Hg; [|assumption]. destruct Hg as [Hg Hv].
    specialize (H _ Hn). cbn [fst snd] in H. unfold typed1 in H. rewrite Hg in H.
    apply orb_true_iff in H. destruct H as [H|H]; [apply is_none_iff in H; contradiction|]. now apply isinstance_iff.
  - intros H [n t] Hn. cbn [fst snd]. unfold typed1. destruct (is_none (arg kw n)) eqn:E; [reflexivity|].
    cbn [orb]. apply isinstance_iff, (H n t); [assumption|]. apply given_arg; [assumption|]. split; [reflexivity|].
    now apply is_none_false.
Qed.

Lemma sources_of_In kw n : kwargs_ok kw -> (In n (sources_of (arg kw)) <-> some_source kw n).
Proof.
  intros K. unfold sources_of, some_source. rewrite filter_In. split; intros [H1 H2]; (split; [exact H1|]).
  - exists (arg kw n). apply given_arg; [assumption|]. split; [reflexivity|].
    apply is_none_false. now destruct (is_none (arg kw n)).
  - destruct H2 as [v H2]. apply given_arg in H2; [|assumption]. destruct H2 as [H2 H3]. rewrite H2.
    apply is_none_false in H3. now rewrite H3.
Qed.
Lemma sources_NoDup a : NoDup (sources_of a).
Proof. apply NoDup_filter. unfold mutually_exclusive. repeat constructor; cbn; intuition discriminate. Qed.

Lemma one_source kw : kwargs_ok kw -> (exactly_one_source kw <-> length (sources_of (arg kw)) = 1%nat).
Proof.
  intros K. split.
  - intros (n & Hn & Hu). apply Nat.le_antisymm.
    + apply (NoDup_incl_length (l' := [n]) (sources_NoDup _)). intros m Hm. left. symmetry. apply Hu. now apply sources_of_In.
    + apply (NoDup_incl_length (l := [n])); [repeat constructor; intros []|].
      intros m [<-|[]]. now apply sources_of_In.
  - intros H. destruct (sources_of (arg kw)) as [|n [|? ?]] eqn:E; try discriminate.
    exists n. split; [apply sources_of_In; [assumption|rewrite E; now left]|].
    intros m Hm. apply sources_of_In in Hm; [|assumption]. rewrite E in Hm. destruct Hm as [->|[]]. reflexivity.
Qed.

Lemma call_facts kw n v t u : call kw n v t u ->
  length (sources_of (arg kw)) = 1%nat /\ typed_all (arg kw) = true /\
  arg kw n = v /\ v <> PNone /\
  (forall m, In m data_sources -> m <> n -> arg kw m = PNone) /\
  eff (arg kw) "spectrum_type" = PStr t /\ eff (arg kw) "unit" = PStr u.
Proof.
  intros [K T [S1 S2] O Ht Hu].
  pose proof (proj1 (given_arg _ _ _ K) S2) as [Sa Sb].
  split. { apply one_source; [assumption|]. exists n. split; [split; eauto|assumption]. }
  split; [now apply typed_all_iff|]. split; [assumption|]. split; [assumption|]. split.
  { intros m Hm Hne. apply (not_given _ _ K). intros w Hw. apply Hne, O. split; eauto. }
  unfold eff. change (String.eqb "spectrum_type" "spectrum_type") with true.
  change (String.eqb "spectrum_type" "unit") with false. change (String.eqb "unit" "unit") with true.
  change (String.eqb "unit" "spectrum_type") with false. cbn [andb]. split.
  - destruct Ht as [Ht|[-> Ht]].
    + apply (given_arg _ _ _ K) in Ht. destruct Ht as [Ht _]. now rewrite Ht.
    + apply (not_given _ _ K) in Ht. now rewrite Ht.
  - destruct Hu as [Hu|[-> Hu]].
    + apply (given_arg _ _ _ K) in Hu. destruct Hu as [Hu _]. now rewrite Hu.
    + apply (not_given _ _ K) in Hu. now rewrite Hu.
Qed.

Lemma call_build rd kw n v t u : call kw n v t u ->
  match shapes (arg kw) with
  | Raise e => mk_material rd kw = Raise e
  | Ok _ => mk_material rd kw = build rd (eff (arg kw))
  end.
Proof.
  intros C. destruct (call_facts _ _ _ _ _ C) as (F1 & F2 & _). destruct C as [K _ _ _ _ _].
  destruct (parse_spec kw K) as [[H1 H2]|[(H1 & H2 & H3)|(H1 & H2 & H3)]]; try congruence.
  destruct (shapes (arg kw)).
  - destruct H3 as (i & P & A). exact (mk_material_build rd _ _ P A).
  - unfold mk_material. now rewrite H3.
Qed.

Lemma eff_other a n : n <> "spectrum_type" -> n <> "unit" -> eff a n = a n.
Proof.
  intros H1 H2. unfold eff.
  replace (String.eqb "spectrum_type" n) with false by (symmetry; apply String.eqb_neq; congruence).
  replace (String.eqb "unit" n) with false by (symmetry; apply String.eqb_neq; congruence). reflexivity.
Qed.

(** rewrite the arguments of a call with source [n] *)
Ltac call_args C :=
  let F := fresh in
  pose proof (call_facts _ _ _ _ _ C) as F;
  let Fv := fresh "Fv" in let Fn := fresh "Fn" in let Ft := fresh "Ft" in let Fu := fresh "Fu" in let Fs := fresh "Fs" in
  destruct F as (_ & _ & Fs & Fv & Fn & Ft & Fu).

Lemma constant_ok x : exists d, constant_default (ORe x) = Ok d /\ constant_data x d.
Proof. destruct (constant_default_spec (ORe x)) as (r & E & _). rewrite E. eexists. split; [reflexivity|exact E]. Qed.
Lemma zero_ok : exists d, constant_default (ORe (Fin 0)) = Ok d /\ zero_data d.
Proof. exact (constant_ok (Fin 0)). Qed.

Ltac others Fn := rewrite !Fn by (first [discriminate | cbn; tauto]).

Ltac reduce_args Fn Fs Ft Fu B :=
  unfold shapes in B; rewrite ?Fs in B; rewrite ?Fn in B by (first [discriminate | cbn; tauto]);
  cbn [is_none bind] in B.
Ltac reduce_goal Fn Fs Ft Fu :=
  unfold build; rewrite Ft, Fu, !eff_other by discriminate;
  rewrite ?Fn by (first [discriminate | cbn; tauto]); rewrite ?Fs;
  cbn [is_none negb as_str as_float as_complex as_dict bind].

Lemma call_fixed_n rd kw x t u : call kw "fixed_n" (PFloat x) t u ->
  exists r z, constant_data x r /\ zero_data z /\
    mk_material rd kw = Ok (mkMat (Some default_meta) "nk" r z None t u).
Proof.
  intros C. call_args C. pose proof (call_build rd _ _ _ _ _ C) as B. reduce_args Fn Fs Ft Fu B.
  rewrite B. reduce_goal Fn Fs Ft Fu.
  destruct (constant_ok x) as (r & E & D). destruct zero_ok as (z & Ez & Dz). exists r, z.
  split; [assumption|]. split; [assumption|]. rewrite E. cbn [bind]. unfold complete, set_real.
  cbn [p_real p_imag p_name p_complex p_stype p_unit bind]. rewrite Ez. reflexivity.
Qed.
Lemma call_fixed_eps_r rd kw x t u : call kw "fixed_eps_r" (PFloat x) t u ->
  exists r z, constant_data x r /\ zero_data z /\
    mk_material rd kw = Ok (mkMat (Some default_meta) "eps" r z None t u).
Proof.
  intros C. call_args C. pose proof (call_build rd _ _ _ _ _ C) as B. reduce_args Fn Fs Ft Fu B.
  rewrite B. reduce_goal Fn Fs Ft Fu.
  destruct (constant_ok x) as (r & E & D). destruct zero_ok as (z & Ez & Dz). exists r, z.
  split; [assumption|]. split; [assumption|]. rewrite E. cbn [bind]. unfold complete, set_real.
  cbn [p_real p_imag p_name p_complex p_stype p_unit bind]. rewrite Ez. reflexivity.
Qed.
Lemma call_fixed_nk rd kw z t u : call kw "fixed_nk" (PComplex z) t u ->
  exists r i, constant_data (cx_re z) r /\ constant_data (cx_im z) i /\
    mk_material rd kw = Ok (mkMat (Some default_meta) "nk" r i None t u).
Proof.
  intros C. call_args C. pose proof (call_build rd _ _ _ _ _ C) as B. reduce_args Fn Fs Ft Fu B.
  rewrite B. reduce_goal Fn Fs Ft Fu.
  destruct (constant_ok (cx_re z)) as (r & E & D). destruct (constant_ok (cx_im z)) as (i & E' & D'). exists r, i.
  split; [assumption|]. split; [assumption|]. rewrite E. cbn [bind]. rewrite E'. reflexivity.
Qed.
Lemma call_fixed_eps rd kw z t u : call kw "fixed_eps" (PComplex z) t u ->
  exists r i, constant_data (cx_re z) r /\ constant_data (cx_im z) i /\
    mk_material rd kw = Ok (mkMat (Some default_meta) "eps" r i None t u).
Proof.
  intros C. call_args C. pose proof (call_build rd _ _ _ _ _ C) as B. reduce_args Fn Fs Ft Fu B.
  rewrite B. reduce_goal Fn Fs Ft Fu.
  destruct (constant_ok (cx_re z)) as (r & E & D). destruct (constant_ok (cx_im z)) as (i & E' & D'). exists r, i.
  split; [assumption|]. split; [assumption|]. rewrite E. cbn [bind]. rewrite E'. reflexivity.
Qed.

(** n_alpha never constructs *)
Lemma call_n_alpha rd kw v t u : call kw "tabulated_n_alpha" v t u -> mk_material rd kw = Raise AttributeError.
Proof.
  intros C. call_args C. pose proof (call_build rd _ _ _ _ _ C) as B. unfold shapes in B.
  rewrite Fs in B. rewrite (Fn "tabulated_nk") in B by (first [discriminate | cbn; tauto]).
  apply is_none_false in Fv. rewrite Fv in B. exact B.
Qed.

(** ** tables *)
Lemma col_fin i r : (i < length r)%nat -> col i (map Fin r) = Fin (nth i r 0).
Proof.
  intros H. unfold col. rewrite (nth_indep _ NaN (Fin 0)) by (now rewrite map_length). apply map_nth.
Qed.
Lemma pair_cols_fin n j rows : (0 < n)%nat -> (j < n)%nat -> Forall (fun r => length r = n) rows ->
  pair_cols 0 j (to_xr rows) = column j rows.
Proof.
  intros H0 Hj F. unfold pair_cols, to_xr, column. rewrite map_map. apply map_ext_in. intros r Hr.
  rewrite Forall_forall in F. specialize (F r Hr). now rewrite !col_fin by lia.
Qed.
Definition rtable (j : nat) (rows : list (list R)) : table := map (fun r => (nth 0 r 0, nth j r 0)) rows.
Lemma column_xrows j rows : column j rows = xrows (rtable j rows).
Proof. unfold column, xrows, rtable. rewrite map_map. reflexivity. Qed.

Lemma mk_const_ok c l t u canon : documented (lower t) (lower u) canon ->
  exists d, mk_constant c (InVals (VA l)) t u = Ok d.
Proof.
  intros D. unfold mk_constant, mk_base. rewrite (mk_spectrum_unfold _ _ _ _ D).
  destruct (std_form _ _ _ D) as (g & _ & G & _). rewrite G. cbn. eauto.
Qed.
Lemma tab_ok n j rows t u canon : table_ok n rows -> (1 < n)%nat -> documented (lower t) (lower u) canon ->
  exists d, spec_data_from_pairs (column j rows) t u = Ok d /\ tabulated (column j rows) t u d.
Proof.
  intros (Hne & F & ND) Hn D. destruct rows as [|r [|r2 rest]]; [congruence| |].
  - cbn [column map]. unfold spec_data_from_pairs, tabulated. cbn [fst snd].
    destruct (mk_const_ok (ORe (Fin (nth j r 0))) [Fin (nth 0 r 0); Fin (nth 0 r 0)] t u canon D) as (d & E).
    exists d. split; exact E.
  - set (l := column j (r :: r2 :: rest)).
    assert (E : spec_data_from_pairs l t u = mk_interpolation l t u) by reflexivity.
    assert (E' : forall d, tabulated l t u d <-> mk_interpolation l t u = Ok d) by reflexivity.
    rewrite E. unfold l in *. rewrite column_xrows in *.
    pose proof (mk_interp_spec (rtable j (r :: r2 :: rest)) t u) as S.
    destruct (mk_interpolation (xrows (rtable j (r :: r2 :: rest))) t u) as [d|e] eqn:Em.
    + exists d. split; [reflexivity|]. apply E', eq_refl.
    + exfalso. destruct S as (_ & S). assert (N : NoDup (map fst (rtable j (r :: r2 :: rest)))).
      { unfold rtable. rewrite map_map. exact ND. }
      destruct S as [S|[S|S]].
      * cbn [rtable map length] in S. lia.
      * contradiction.
      * apply (S canon D).
Qed.
Lemma tabulated_spec_data l t u d : tabulated l t u d <-> spec_data_from_pairs l t u = Ok d.
Proof. destruct l as [|[x y] [|b r]]; reflexivity. Qed.

Lemma take_cols_ok n j rows : (0 < n)%nat -> (j < n)%nat -> Forall (fun r => length r = n) rows ->
  take_cols n 0 j (to_xr rows) = Ok (column j rows).
Proof.
  intros H0 Hj F. unfold take_cols. rewrite (proj2 (Nat.ltb_lt j n) Hj).
  now rewrite (pair_cols_fin n).
Qed.

Lemma table_three id name rows t u canon p : (id = "nk" /\ name = "nk") \/ (id = "eps" /\ name = "eps") ->
  table_ok 3 rows -> documented (lower t) (lower u) canon -> p_stype p = t -> p_unit p = u ->
  exists a b, tabulated (column 1 rows) t u a /\ tabulated (column 2 rows) t u b /\
    process_table 3 (to_xr rows) id p = Ok (set_imag (set_real p name a) name b).
Proof.
  intros Hid T D Ht Hu.
  destruct (tab_ok 3 1 rows t u canon T ltac:(lia) D) as (a & Ea & Ta).
  destruct (tab_ok 3 2 rows t u canon T ltac:(lia) D) as (b & Eb & Tb).
  exists a, b. split; [assumption|]. split; [assumption|].
  destruct T as (_ & F & _).
  pose proof (take_cols_ok 3 1 rows ltac:(lia) ltac:(lia) F) as K1.
  pose proof (take_cols_ok 3 2 rows ltac:(lia) ltac:(lia) F) as K2.
  unfold process_table. rewrite Ht, Hu, K1, K2.
  destruct Hid as [[-> ->]|[-> ->]]; cbn [String.eqb Ascii.eqb Bool.eqb bind]; rewrite Ea; cbn [bind]; rewrite Eb; reflexivity.
Qed.
Lemma table_two id rows t u canon p : (id = "n" \/ id = "k") -> forall n, (1 < n)%nat ->
  table_ok n rows -> documented (lower t) (lower u) canon -> p_stype p = t -> p_unit p = u ->
  exists a, tabulated (column 1 rows) t u a /\
    process_table n (to_xr rows) id p = Ok (if String.eqb id "n" then set_real p "nk" a else set_imag p "nk" a).
Proof.
  intros Hid n Hn T D Ht Hu.
  destruct (tab_ok n 1 rows t u canon T Hn D) as (a & Ea & Ta).
  exists a. split; [assumption|]. destruct T as (_ & F & _).
  assert (E : spec_data_from_table n (to_xr rows) t u = Ok a).
  { destruct n as [|[|n]]; try lia. cbn [spec_data_from_table].
    rewrite (pair_cols_fin (S (S n)) 1) by (try lia; assumption). exact Ea. }
  unfold process_table. rewrite Ht, Hu, E.
  destruct Hid as [-> | ->]; reflexivity.
Qed.

Lemma call_tab_three rd kw src id rows t u canon :
  (src = "tabulated_nk" /\ id = "nk") \/ (src = "tabulated_eps" /\ id = "eps") ->
  call kw src (PArr (ND2 3 (to_xr rows))) t u -> table_ok 3 rows -> documented (lower t) (lower u) canon ->
  exists a b, tabulated (column 1 rows) t u a /\ tabulated (column 2 rows) t u b /\
    mk_material rd kw = Ok (mkMat (Some default_meta) id a b None t u).
Proof.
  intros Hs C T D. call_args C.
  pose proof (call_build rd _ _ _ _ _ C) as B.
  assert (Hid : (id = "nk" /\ id = "nk") \/ (id = "eps" /\ id = "eps")) by (destruct Hs as [[_ ->]|[_ ->]]; auto).
  destruct (table_three id id rows t u canon (mkP "" None None None t u) Hid T D eq_refl eq_refl) as (a & b & Ta & Tb & E).
  exists a, b. split; [assumption|]. split; [assumption|].
  destruct Hs as [[-> ->]|[-> ->]]; reduce_args Fn Fs Ft Fu B; cbn [check_table_shape Nat.eqb bind] in B;
    rewrite B; reduce_goal Fn Fs Ft Fu; rewrite E; reflexivity.
Qed.
Lemma call_tab_n rd kw rows t u canon :
  call kw "tabulated_n" (PArr (ND2 2 (to_xr rows))) t u -> table_ok 2 rows -> documented (lower t) (lower u) canon ->
  exists a z, tabulated (column 1 rows) t u a /\ zero_data z /\
    mk_material rd kw = Ok (mkMat (Some default_meta) "nk" a z None t u).
Proof.
  intros C T D. call_args C.
  pose proof (call_build rd _ _ _ _ _ C) as B.
  destruct (table_two "n" rows t u canon (mkP "" None None None t u) (or_introl eq_refl) 2 ltac:(lia) T D eq_refl eq_refl) as (a & Ta & E).
  destruct zero_ok as (z & Ez & Dz). exists a, z. split; [assumption|]. split; [assumption|].
  reduce_args Fn Fs Ft Fu B; cbn [check_table_shape Nat.eqb bind] in B.
  rewrite B; reduce_goal Fn Fs Ft Fu; rewrite E. cbn [bind]. change (String.eqb "n" "n") with true. cbv iota.
  unfold complete, set_real. cbn [p_real p_imag p_name p_complex p_stype p_unit bind]. rewrite Ez. reflexivity.
Qed.
(** tables of another shape *)
Lemma call_tab_shape rd kw src ncols a t u :
  In (src, ncols) [("tabulated_nk", 3%nat); ("tabulated_eps", 3%nat); ("tabulated_n", 2%nat)] ->
  call kw src (PArr a) t u -> (forall rows, a <> ND2 ncols rows) ->
  mk_material rd kw = Raise ValueError.
Proof.
  intros Hs C N. call_args C. pose proof (call_build rd _ _ _ _ _ C) as B.
  assert (S : check_table_shape (PArr a) ncols = Raise ValueError).
  { destruct a as [|n rows]; [reflexivity|]. cbn. destruct (Nat.eqb n ncols) eqn:E; [|reflexivity].
    apply Nat.eqb_eq in E. subst. exfalso. exact (N rows eq_refl). }
  cbn [In] in Hs. decompose [or] Hs; try contradiction;
    match goal with H : (_, _) = (_, _) |- _ => inversion H; subst end;
    unfold shapes in B; rewrite ?Fs in B; rewrite ?Fn in B by (first [discriminate | cbn; tauto]);
    cbn [is_none bind] in B; rewrite S in B; exact B.
Qed.

(** ** models *)
Definition place (k : mkind) (p : pmat) (d : sdata) : pmat :=
  match k with
  | Drude | DrudeLorentz | TaucLorentz => set_complex p "eps" d
  | _ => set_real p "nk" d
  end.
Lemma model_dict_ok name k params rng st un t u p :
  In (name, k) documented_models ->
  t = match st with Some t => t | None => p_stype p end ->
  u = match un with Some u => u | None => p_unit p end ->
  process_model_dict (mkKw (Some name) (Some params) (Some rng) st un) p =
  do d <- mk_model k params rng (match st with Some t => t | None => "wavelength" end) (match un with Some u => u | None => "m" end);
  Ok (place k (set_defaults p t u) d).
Proof.
  intros Hin -> ->. unfold process_model_dict. cbn [kw_name kw_params kw_range kw_stype kw_unit opt_key bind].
  unfold documented_models in Hin. cbn [In] in Hin.
  decompose [or] Hin; try contradiction;
    match goal with H : (_, _) = (_, _) |- _ => inversion H; subst end;
    (match goal with |- context [str_to_class ?s] => 
       let r := eval vm_compute in (str_to_class s) in change (str_to_class s) with r end); cbn [bind];
    (match goal with |- context [output ?k] => let r := eval vm_compute in (output k) in change (output k) with r end);
    reflexivity.
Qed.
