(** Theorems about the whole way of a material from the constructor to a later session (C102). *)
From Verif Require Import PyBase PyStr XReal CNum TextModel SpectrumModel SpectrumSpec SpectralModel SpectralSpec MaterialModel MaterialSpec MaterialProofs MaterialThms FileModel ReaderModel WriterModel PathModel CatalogueModel CatalogueSpec IOSpec SaveSpec SaveProofs YamlSpec DiskModel SetupModel SetupSpec ExampleModel ExampleSpec StartModel StartSpec ListedSpec ListedThms SaveThms YamlThms StartThms OwnSpec OwnThms InterpProofs ExampleThms SavedSpec SavedThms WaySpec.
From Coq Require Import Permutation.
From Verif Require Import WayThms.
Open Scope R_scope.
Open Scope string_scope.
Open Scope list_scope.

(** C102: from an array of wavelengths (frequencies, ...), n and k to a text file that every later
    catalogue hands out with the same answers *)
Theorem C102_array_text : forall M disp root fs f rd kw rows t u canon,
  machine_ok M disp -> Forall os_name root -> os_name f -> ~ In "\"%char (chars f) -> text_file f -> is_dir fs (root ++ ["UserData"]) ->
  call kw "tabulated_nk" (PArr (ND2 3 (to_xr rows))) t u -> table_ok 3 rows -> (2 <= length rows <= 333)%nat -> documented (lower t) (lower u) canon ->
  Forall (Forall (exact_number disp)) rows -> Forall (Forall eight_decimals) rows ->
  exists m, mk_material rd kw = Ok m /\ forall ic rii, stays_available M root fs f ic rii m.
Proof. exact C102_array_text_l. Qed.
Print Assumptions C102_array_text.

(** C102: ... to a yaml file, without the limit of 8 decimals *)
Theorem C102_array_yaml : forall M disp root fs f rd kw rows t u canon,
  machine_ok M disp -> Forall os_name root -> os_name f -> ~ In "\"%char (chars f) -> named f ".yml" -> is_dir fs (root ++ ["UserData"]) ->
  call kw "tabulated_nk" (PArr (ND2 3 (to_xr rows))) t u -> table_ok 3 rows -> (2 <= length rows <= 333)%nat -> documented (lower t) (lower u) canon ->
  Forall (Forall (exact_number disp)) rows ->
  exists m, mk_material rd kw = Ok m /\ forall ic, stays_available M root fs f ic false m.
Proof. exact C102_array_yaml_l. Qed.
Print Assumptions C102_array_yaml.

(** C102: ... and from a formula for n with its coefficients and range to a yaml file *)
Theorem C102_formula : forall M disp root fs f rd kw name k ps l t u t0 u0 d,
  machine_ok M disp -> Forall os_name root -> os_name f -> ~ In "\"%char (chars f) -> named f ".yml" -> is_dir fs (root ++ ["UserData"]) ->
  In (name, k) documented_models -> ~ permittivity_model k ->
  call kw "model_kw" (PDict (mkKw (Some name) (Some (map Fin ps)) (Some (InVals (VA (map Fin l)))) (Some t) (Some u))) t0 u0 ->
  mk_model k (map Fin ps) (InVals (VA (map Fin l))) t u = Ok d -> (length ps <= 1000)%nat -> (1 <= length l <= 1000)%nat -> t <> "" -> u <> "" ->
  Forall (exact_number disp) ps -> Forall (exact_number disp) l ->
  exists m, mk_material rd kw = Ok m /\ stays_available M root fs f true false m.
Proof. exact C102_formula_l. Qed.
Print Assumptions C102_formula.

From Verif Require Import MatFileProofs ShowsProofs IOExamples ConfigThms StartThms PropStart PropOwn.
Open Scope R_scope. Open Scope string_scope. Open Scope list_scope.
Lemma short_number r z : r * 10 ^ 8 = IZR z -> 0 <= r < 10 ^ 4 -> exact_number sample_disp r /\ eight_decimals r.
Proof.
  intros E D. split; [split|].
  - unfold float_range, below. assert (10 ^ 4 <= 10 ^ 307) as P by (apply Rle_pow; [lra|lia]). rewrite Rabs_right by lra. lra.
  - intros all _ _. apply sample_exact; [exists z; rewrite <- E; field; lra|unfold below; rewrite Rabs_right; lra].
  - exists z. rewrite <- E. field.
Qed.
Definition measured : list (list R) := [[400; 1.5; 0]; [500; 1.6; 0.1]].
Definition measured_call : dict pyval := [("tabulated_nk", PArr (ND2 3 (to_xr measured))); ("unit", PStr "nm")].
Definition glass_kw : pyval := PDict (mkKw (Some "Sellmeier") (Some (map Fin [0; 1; 0.1])) (Some (InVals (VA (map Fin [0.5; 2])))) (Some "wavelength") (Some "um")).
Example C102_instance : exists fs, let M := a_machine some_home in
  machine_ok M sample_disp /\ Forall os_name some_home /\ is_dir fs (some_home ++ ["UserData"]) /\
  (forall rd, exists m, mk_material rd measured_call = Ok m /\ forall ic rii, stays_available M some_home fs "film.txt" ic rii m) /\
  (forall rd, exists m, mk_material rd measured_call = Ok m /\ forall ic, stays_available M some_home fs "film.yml" ic false m) /\
  (forall rd, exists m, mk_material rd [("model_kw", glass_kw)] = Ok m /\ stays_available M some_home fs "film.yml" true false m).
Proof.
  destruct ada_settled as [fs S]. exists fs. intros M. pose proof first_ready as (_ & Fr & _). pose proof S as (_ & Du & _).
  split; [apply a_machine_ok|]. split; [exact Fr|]. split; [exact Du|].
  assert (os_name "film.txt" /\ os_name "film.yml") as [N1 N2] by (split; unfold os_name, plain_name, chars; repeat constructor; try discriminate; no_char).
  assert (text_file "film.txt") as Tf by (left; exists "fil", "m"%char; split; [reflexivity|]; split; discriminate).
  assert (named "film.yml" ".yml") as Ty by (exists "fil", "m"%char; split; [reflexivity|]; split; discriminate).
  assert (call measured_call "tabulated_nk" (PArr (ND2 3 (to_xr measured))) "wavelength" "nm") as C by a_call.
  assert (table_ok 3 measured) as T.
  { split; [discriminate|]. split; [repeat constructor|]. cbn. repeat (constructor; [cbn; intros [H|[]]; lra || auto|]); constructor; [auto|constructor]. }
  assert (documented (lower "wavelength") (lower "nm") "nm") as D by (exists ["nanometer"; "nanometre"; "nm"]; cbn; auto 10).
  assert (Forall (Forall (fun x => exact_number sample_disp x /\ eight_decimals x)) measured) as F.
  { repeat constructor; first [apply (short_number 400 40000000000)|apply (short_number 1.5 150000000)|apply (short_number 0 0)
      |apply (short_number 500 50000000000)|apply (short_number 1.6 160000000)|apply (short_number 0.1 10000000)]; lra. }
  assert (Forall (Forall (exact_number sample_disp)) measured /\ Forall (Forall eight_decimals) measured) as [Fx F8].
  { split; (eapply Forall_impl; [|exact F]); intros r; apply Forall_impl; tauto. }
  split; [|split]; intros rd.
  - apply (C102_array_text M sample_disp some_home fs "film.txt" rd measured_call measured "wavelength" "nm" "nm" (a_machine_ok _) Fr N1 ltac:(no_char) Tf Du C T ltac:(cbn; lia) D Fx F8).
  - apply (C102_array_yaml M sample_disp some_home fs "film.yml" rd measured_call measured "wavelength" "nm" "nm" (a_machine_ok _) Fr N2 ltac:(no_char) Ty Du C T ltac:(cbn; lia) D Fx).
  - assert (exists d, mk_model Sellmeier (map Fin [0; 1; 0.1]) (InVals (VA (map Fin [0.5; 2]))) "wavelength" "um" = Ok d) as [d Md] by (eexists; reflexivity).
    apply (C102_formula M sample_disp some_home fs "film.yml" rd [("model_kw", glass_kw)] "Sellmeier" Sellmeier [0; 1; 0.1] [0.5; 2] "wavelength" "um" "wavelength" "nanometer" d
      (a_machine_ok _) Fr N2 ltac:(no_char) Ty Du ltac:(cbn; tauto)); try assumption; try discriminate; try (cbn; lia).
    + cbn. intuition discriminate.
    + unfold glass_kw. a_call.
    + constructor; [apply (short_number 0 0); lra|]. constructor; [apply (short_number 1 100000000); lra|]. constructor; [apply (short_number 0.1 10000000); lra|constructor].
    + constructor; [apply (short_number 0.5 50000000); lra|]. constructor; [apply (short_number 2 200000000); lra|constructor].
Qed.
