(** Lemmas about the memory model: the methods allocate only, and compute what the value models
    compute *)
From Verif Require Import PyBase PyStr XReal CNum SpectrumModel SpectralModel TextModel MaterialModel MaterialSpec MaterialProofs MemoryModel MemorySpec.
From Coq Require Import Lia.
Open Scope R_scope.
Open Scope string_scope.
Open Scope list_scope.

Definition ext (m m' : mem) : Prop := exists e, m' = m ++ e.
Lemma ext_refl m : ext m m. Proof. exists []. now rewrite app_nil_r. Qed.
Lemma ext_trans a b c : ext a b -> ext b c -> ext a c.
Proof. intros [x ->] [y ->]. exists (x ++ y). now rewrite app_assoc. Qed.
Lemma ext_len m m' : ext m m' -> (length m <= length m')%nat.
Proof. intros [e ->]. rewrite app_length. lia. Qed.
Lemma ext_nth m m' a x : ext m m' -> nth_error m a = Some x -> nth_error m' a = Some x.
Proof. intros [e ->] E. rewrite nth_error_app1; [exact E|]. apply nth_error_Some. congruence. Qed.
Lemma ext_new m x : ext m (m ++ [x]). Proof. now exists [x]. Qed.

Definition near (n : nat) (F : list nat) (r : ref) : Prop := forall a, r = RArr a -> (n <= a)%nat \/ In a F.
Definition isref (n : nat) (F : list nat) (m : mem) (r : ref) (v : vals) : Prop := plain m r = true /\ load m r = v /\ near n F r.

Lemma plain_ext m m' r : ext m m' -> plain m r = true -> plain m' r = true.
Proof.
  destruct r as [x|a]; [easy|]. intros E P. cbn in *. destruct (nth_error m a) as [y|] eqn:Ea; [|discriminate].
  now rewrite (ext_nth _ _ _ _ E Ea).
Qed.
Lemma load_ext m m' r : ext m m' -> plain m r = true -> load m' r = load m r.
Proof.
  destruct r as [x|a]; [easy|]. intros E P. cbn in *. unfold vec. destruct (nth_error m a) as [y|] eqn:Ea; [|discriminate].
  now rewrite (ext_nth _ _ _ _ E Ea).
Qed.
Lemma isref_ext n F m m' r v : ext m m' -> isref n F m r v -> isref n F m' r v.
Proof. intros E (P & L & N). split; [now apply (plain_ext m)|]. split; [now rewrite (load_ext m)|exact N]. Qed.
Lemma plain_kind m a : plain m (RArr a) = true -> exists v, nth_error m a = Some (A1 v) /\ (forall x, v <> VS x).
Proof.
  cbn. destruct (nth_error m a) as [[v| |]|]; try discriminate. destruct v; try discriminate; intros _; eexists; split; try reflexivity; discriminate.
Qed.

(** a computation that allocates only and agrees with a value computation *)
Definition refines {A B} (P : mem -> A -> B -> Prop) (c : mm A) (p : res B) (m : mem) : Prop :=
  exists m', ext m m' /\ match p with
                         | Ok b => exists a, c m = (Ok a, m') /\ P m' a b
                         | Raise e => c m = (Raise e, m')
                         end.
Lemma refines_ret {A B} (P : mem -> A -> B -> Prop) a b m : P m a b -> refines P (mret a) (Ok b) m.
Proof. intros H. exists m. split; [apply ext_refl|]. exists a. now split. Qed.
Lemma refines_fail {A B} (P : mem -> A -> B -> Prop) e m : refines P (mfail e) (Raise e) m.
Proof. exists m. split; [apply ext_refl|reflexivity]. Qed.
Lemma refines_bind {A B C D} (P : mem -> A -> B -> Prop) (Q : mem -> C -> D -> Prop) c p f g m :
  refines P c p m -> (forall a b m', ext m m' -> P m' a b -> refines Q (f a) (g b) m') -> refines Q (mbind c f) (bind p g) m.
Proof.
  intros (m' & E & H) K. unfold refines, mbind. destruct p as [b|e]; cbn.
  - destruct H as (a & C0 & Pa). destruct (K a b m' E Pa) as (m'' & E' & H'). exists m''. rewrite C0. split; [now apply (ext_trans m m')|exact H'].
  - exists m'. split; [exact E|]. now rewrite H.
Qed.
Lemma refines_pure {A} (p : res A) m : refines (fun _ a b => a = b) (mpure p) p m.
Proof. exists m. split; [apply ext_refl|]. unfold mpure. destruct p as [x|]; [exists x; now split|reflexivity]. Qed.
Lemma refines_weaken {A B} (P Q : mem -> A -> B -> Prop) c p m : (forall m' a b, ext m m' -> P m' a b -> Q m' a b) -> refines P c p m -> refines Q c p m.
Proof. intros W (m' & E & H). exists m'. split; [exact E|]. destruct p as [y|]; [|exact H]. destruct H as (a & C & Pa). exists a. split; [exact C|now apply W]. Qed.
Lemma refines_read {A B} (Q : mem -> A -> B -> Prop) (k : vals -> mm A) (g : res B) r m :
  refines Q (k (load m r)) g m -> refines Q (mbind (read r) k) g m.
Proof. easy. Qed.

Lemma refines_new n F v m : (forall x, v <> VS x) -> (n <= length m)%nat -> refines (fun m a v => isref n F m (RArr a) v) (new_array (A1 v)) (Ok v) m.
Proof.
  intros V L. exists (m ++ [A1 v]). split; [apply ext_new|]. exists (length m). split; [reflexivity|].
  assert (E : nth_error (m ++ [A1 v]) (length m) = Some (A1 v)) by (rewrite nth_error_app2, Nat.sub_diag by lia; reflexivity).
  split; [|split].
  - cbn. rewrite E. destruct v; [now destruct (V x)|reflexivity|reflexivity].
  - cbn. unfold vec. now rewrite E.
  - intros a Ha. injection Ha as <-. now left.
Qed.
Lemma refines_np_array n F v m : (n <= length m)%nat -> refines (isref n F) (np_array v) (Ok v) m.
Proof.
  intros L. unfold np_array. destruct v as [x|l|l].
  - apply refines_ret. split; [reflexivity|]. split; [reflexivity|]. intros a H. discriminate.
  - change (Ok (VA l)) with (bind (Ok (VA l)) (fun v => Ok v)). apply refines_bind with (P := fun m a v => isref n F m (RArr a) v);
      [now apply refines_new|]. intros a b m' E H. apply refines_ret. exact H.
  - change (Ok (VI l)) with (bind (Ok (VI l)) (fun v => Ok v)). apply refines_bind with (P := fun m a v => isref n F m (RArr a) v);
      [now apply refines_new|]. intros a b m' E H. apply refines_ret. exact H.
Qed.
Lemma refines_compute n F f r v m : (n <= length m)%nat -> load m r = v -> refines (isref n F) (compute f r) (Ok (f v)) m.
Proof. intros L <-. unfold compute. now apply (refines_np_array n F (f (load m r)) m). Qed.

(** ** the inverse *)
Lemma store_last (m : mem) x y : store (m ++ [x]) (length m) y = m ++ [y].
Proof. unfold store. rewrite firstn_app, Nat.sub_diag, firstn_all, skipn_all2 by (rewrite app_length; cbn; lia). cbn. now rewrite app_nil_r. Qed.
Lemma vec_last (m : mem) v : vec (m ++ [A1 v]) (length m) = v.
Proof. unfold vec. now rewrite nth_error_app2, Nat.sub_diag by lia. Qed.
Lemma assign_last m mask new l :
  assign_where (length m) mask new (m ++ [A1 (VA l)]) = (Ok tt, m ++ [A1 (VA (put mask new l))]).
Proof. unfold assign_where. now rewrite vec_last, store_last. Qed.
Lemma put_three l :
  put (map (fun x => negb (isclose_zero x || isclose_inf x)) l) (map (xdiv (Fin 1)) l)
      (put (map isclose_inf l) (map (fun _ => Fin 0) l) (put (map isclose_zero l) (map (fun _ => PInf) l) l))
  = map safe_inverse_elem l.
Proof.
  induction l as [|x l IH]; [reflexivity|]. cbn [map put]. rewrite IH. f_equal. unfold safe_inverse_elem.
  destruct (isclose_zero x) eqn:Z, (isclose_inf x) eqn:I; cbn; try reflexivity.
  destruct x; cbn in *; discriminate.
Qed.
Lemma refines_inverse n F r v m : (n <= length m)%nat -> plain m r = true -> load m r = v ->
  refines (isref n F) (m_safe_inverse r) (safe_inverse v) m.
Proof.
  intros L P E. unfold m_safe_inverse. apply refines_read. rewrite E. destruct v as [x|l|l].
  - cbn. apply (refines_ret (isref n F)). split; [reflexivity|]. split; [reflexivity|]. intros a H. discriminate.
  - exists (m ++ [A1 (VA (map safe_inverse_elem l))]). split; [apply ext_new|]. exists (RArr (length m)). split.
    + cbn [elems]. unfold mbind, new_array. rewrite assign_last, assign_last. unfold read.
      rewrite (load_ext m) by (try apply ext_new; assumption). rewrite E. cbn [elems]. rewrite assign_last. unfold mret. now rewrite put_three.
    + split; [cbn; now rewrite nth_error_app2, Nat.sub_diag by lia|]. split; [apply vec_last|]. intros a H. injection H as <-. now left.
  - exists (m ++ [A1 (VI l)]). split; [apply ext_new|]. cbn [safe_inverse]. unfold mbind, new_array, assign_where. now rewrite vec_last.
Qed.

(** ** conversions *)
Lemma refines_reciprocal n F name unit f r v m : (n <= length m)%nat -> plain m r = true -> load m r = v ->
  refines (isref n F) (m_reciprocal_to_standard name unit f r)
    (if negb (String.eqb unit name) then Raise NotImplementedError else do inv <- safe_inverse v; Ok (f inv)) m.
Proof.
  intros L P E. unfold m_reciprocal_to_standard. destruct (negb _); [apply refines_fail|].
  apply refines_bind with (P := isref n F); [now apply refines_inverse|].
  intros a b m' X (_ & H & _). apply refines_compute; [apply ext_len in X; lia|exact H].
Qed.
Lemma refines_same n F r v m : isref n F m r v -> refines (isref n F) (mret r) (Ok v) m.
Proof. apply refines_ret. Qed.
Ltac scase := match goal with |- refines _ (if ?b then _ else _) _ _ => destruct b end.
Lemma refines_from_wavelength n F unit r v m : (n <= length m)%nat -> isref n F m r v ->
  refines (isref n F) (m_wavelength_to_standard unit r) (wavelength_to_standard unit v) m.
Proof.
  intros L H. unfold m_wavelength_to_standard, wavelength_to_standard.
  repeat (scase; [apply refines_compute; [exact L|apply H]|]). now apply refines_same.
Qed.
Lemma refines_to_wavelength n F unit r v m : (n <= length m)%nat -> isref n F m r v ->
  refines (isref n F) (m_to_wavelength unit r) (to_wavelength unit v) m.
Proof.
  intros L H. unfold m_to_wavelength, to_wavelength.
  scase; [now apply refines_same|].
  repeat (scase; [apply (refines_compute n F (fun v => vmap (xround _) (vscale _ v))); [exact L|apply H]|]). apply refines_fail.
Qed.
Lemma refines_from n F t u r v m : (n <= length m)%nat -> isref n F m r v ->
  refines (isref n F) (m_convert_from t u r) (convert_from t u v) m.
Proof.
  intros L H. unfold m_convert_from, convert_from.
  scase; [apply refines_fail|].
  scase; [apply (refines_reciprocal n F "hz"); [exact L|apply H|apply H]|].
  scase; [apply (refines_reciprocal n F "ev"); [exact L|apply H|apply H]|].
  scase; [apply (refines_reciprocal n F "1/s"); [exact L|apply H|apply H]|].
  scase; [apply (refines_reciprocal n F "1/cm"); [exact L|apply H|apply H]|].
  scase; [now apply refines_from_wavelength|apply refines_fail].
Qed.
Lemma refines_to n F t u r v m : (n <= length m)%nat -> isref n F m r v ->
  refines (isref n F) (m_to_dispatch t u r) (to_dispatch t u v) m.
Proof.
  intros L H. unfold m_to_dispatch, to_dispatch.
  scase; [apply (refines_reciprocal n F "hz"); [exact L|apply H|apply H]|].
  scase; [apply (refines_reciprocal n F "ev" u (fun v => vmap (xround 9) (vscale (const_h * const_c / const_e) v))); [exact L|apply H|apply H]|].
  scase; [apply (refines_reciprocal n F "1/s"); [exact L|apply H|apply H]|].
  scase.
  - unfold to_wavenumber. scase; [apply refines_fail|].
    change (do inv <- safe_inverse (vscale (/ 10 ^ 2) v); Ok (vscale (2 * PI) inv))
      with (do q <- Ok (vscale (/ 10 ^ 2) v); do inv <- safe_inverse q; Ok (vscale (2 * PI) inv)).
    apply refines_bind with (P := isref n F); [apply refines_compute; [exact L|apply H]|].
    intros q w m1 E1 (Pq & Lq & _). apply refines_bind with (P := isref n F); [apply refines_inverse; try assumption; apply ext_len in E1; lia|].
    intros i z m2 E2 (_ & Li & _). apply refines_compute; [apply ext_len in E1; apply ext_len in E2; lia|exact Li].
  - scase; [now apply refines_to_wavelength|apply refines_fail].
Qed.
(** to anything but metres: a new array *)
Lemma refines_to_new n t u r v m : (n <= length m)%nat -> isref n [] m r v \/ (isref n (match r with RArr a => [a] | _ => [] end) m r v /\ ~ (t = "wavelength" /\ u = "m")) ->
  refines (isref n []) (m_to_dispatch t u r) (to_dispatch t u v) m.
Proof.
  intros L [H|[H U]]; [now apply refines_to|]. unfold m_to_dispatch, to_dispatch.
  scase; [apply (refines_reciprocal n [] "hz"); [exact L|apply H|apply H]|].
  scase; [apply (refines_reciprocal n [] "ev" u (fun v => vmap (xround 9) (vscale (const_h * const_c / const_e) v))); [exact L|apply H|apply H]|].
  scase; [apply (refines_reciprocal n [] "1/s"); [exact L|apply H|apply H]|].
  scase.
  - unfold to_wavenumber. scase; [apply refines_fail|].
    change (do inv <- safe_inverse (vscale (/ 10 ^ 2) v); Ok (vscale (2 * PI) inv))
      with (do q <- Ok (vscale (/ 10 ^ 2) v); do inv <- safe_inverse q; Ok (vscale (2 * PI) inv)).
    apply refines_bind with (P := isref n []); [apply refines_compute; [exact L|apply H]|].
    intros q w m1 E1 (Pq & Lq & _). apply refines_bind with (P := isref n []); [apply refines_inverse; try assumption; apply ext_len in E1; lia|].
    intros i z m2 E2 (_ & Li & _). apply refines_compute; [apply ext_len in E1; apply ext_len in E2; lia|exact Li].
  - destruct (String.eqb_spec t "wavelength"); [|apply refines_fail]. unfold m_to_wavelength, to_wavelength.
    destruct (String.eqb_spec u "m"); [now destruct U|].
    repeat (scase; [apply (refines_compute n [] (fun v => vmap (xround _) (vscale _ v))); [exact L|apply H]|]). apply refines_fail.
Qed.
Lemma refines_standardise n F t u r v m : (n <= length m)%nat -> isref n F m r v ->
  refines (isref n F) (m_standardise t u r) (standardise_values t u v) m.
Proof.
  intros L H. unfold m_standardise, standardise_values. scase; [now apply refines_from|now apply refines_same].
Qed.

(** ** spectra *)
Definition isspec (n : nat) (F : list nat) (m : mem) (s : mspec) (S : spectrum) : Prop :=
  isref n F m (ms_values s) (sp_values S) /\ isref n F m (ms_std s) (sp_std S) /\ ms_type s = sp_type S /\ ms_unit s = sp_unit S.
Lemma isspec_of n F m s S : isspec n F m s S -> spec_of m s = S.
Proof. intros ((_ & V & _) & (_ & D & _) & T & U). destruct S. unfold spec_of. cbn in *. now rewrite V, D, T, U. Qed.
Lemma isspec_ext n F m m' s S : ext m m' -> isspec n F m s S -> isspec n F m' s S.
Proof. intros E (V & D & T & U). split; [now apply (isref_ext n F m)|]. split; [now apply (isref_ext n F m)|]. now split. Qed.
(** the argument of Spectrum *)
Definition isarg (n : nat) (F : list nat) (m : mem) (a : marg) (p : pyin) : Prop :=
  match a, p with
  | ByRef r, InVals v => isref n F m r v
  | Listed v, InVals w => v = w
  | NoValues, InOther => True
  | _, _ => False
  end.
Lemma refines_spectrum n F a p t u m : (n <= length m)%nat -> isarg n F m a p -> refines (isspec n F) (m_spectrum a t u) (mk_spectrum p t u) m.
Proof.
  intros L H. unfold m_spectrum, mk_spectrum. scase; [apply refines_fail|].
  apply refines_bind with (P := fun _ a b => a = b); [apply refines_pure|]. intros u' u0 m1 E1 ->.
  assert (H1 : isarg n F m1 a p) by (destruct a, p; cbn in *; try exact H; now apply (isref_ext n F m)).
  assert (L1 : (n <= length m1)%nat) by (apply ext_len in E1; lia).
  destruct a as [r|w|], p as [v|]; cbn in H1; try easy.
  - change (do std <- standardise_values (lower t) u0 v; Ok (mkSp (lower t) u0 v std))
      with (do x <- Ok v; do std <- standardise_values (lower t) u0 x; Ok (mkSp (lower t) u0 x std)).
    apply refines_bind with (P := isref n F); [now apply refines_same|]. intros r' v' m2 E2 H2.
    apply refines_bind with (P := isref n F); [apply refines_standardise; [apply ext_len in E2; lia|exact H2]|].
    intros s d m3 E3 H3. apply refines_ret. split; [now apply (isref_ext n F m2)|]. now split.
  - subst w. change (do std <- standardise_values (lower t) u0 v; Ok (mkSp (lower t) u0 v std))
      with (do x <- Ok v; do std <- standardise_values (lower t) u0 x; Ok (mkSp (lower t) u0 x std)).
    apply refines_bind with (P := isref n F); [now apply refines_np_array|]. intros r' v' m2 E2 H2.
    apply refines_bind with (P := isref n F); [apply refines_standardise; [apply ext_len in E2; lia|exact H2]|].
    intros s d m3 E3 H3. apply refines_ret. split; [now apply (isref_ext n F m2)|]. now split.
  - exists m1. split; [apply ext_refl|reflexivity].
Qed.
(** convert_to: the type, unit and values *)
Definition converted (s : spectrum) (t u : string) : res (string * string * vals) :=
  let stype := lower t in
  if negb (dhas SPECTRUM_TYPES stype) then Raise ValueError
  else do u' <- standardise_unit stype u; do v <- to_dispatch stype u' (sp_std s); Ok (stype, u', v).
Lemma converted_to s t u : convert_to s t u = (do c <- converted s t u; Ok (snd c)).
Proof.
  unfold convert_to, converted. destruct (negb _); [reflexivity|]. destruct (standardise_unit _ _) as [x|]; cbn; [|reflexivity].
  destruct (to_dispatch _ _ _); reflexivity.
Qed.
Lemma converted_in_place s t u : convert_in_place s t u =
  match converted s t u with Ok c => (Ok tt, mkSp (fst (fst c)) (snd (fst c)) (snd c) (sp_std s)) | Raise e => (Raise e, s) end.
Proof.
  unfold convert_in_place, converted. destruct (negb _); [reflexivity|]. destruct (standardise_unit _ _) as [x|]; cbn; [|reflexivity].
  destruct (to_dispatch _ _ _); reflexivity.
Qed.
Definition isconv (n : nat) (F : list nat) (m : mem) (a : string * string * ref) (b : string * string * vals) : Prop :=
  fst a = fst b /\ isref n F m (snd a) (snd b).
Lemma refines_convert n F s S t u m : (n <= length m)%nat -> isspec n F m s S ->
  refines (isconv n F) (m_convert s t u) (converted S t u) m.
Proof.
  intros L H. unfold m_convert, converted. scase; [apply refines_fail|].
  apply refines_bind with (P := fun _ a b => a = b); [apply refines_pure|]. intros u' u0 m1 E1 ->.
  apply refines_bind with (P := isref n F).
  - apply refines_to; [apply ext_len in E1; lia|]. apply (isref_ext n F m); [exact E1|apply H].
  - intros r v m2 E2 H2. apply refines_ret. now split.
Qed.
Lemma unit_metre t u : standardise_unit t u = Ok "m" -> t = "wavelength" -> smem u ["m"; "meter"; "metre"] = true.
Proof.
  intros H ->. destruct (smem u ["meter"; "metre"; "m"]) eqn:E.
  - unfold smem in *. cbn in *. rewrite !orb_true_iff in *. tauto.
  - exfalso. revert H. unfold standardise_unit, UNIT_TYPES. cbn [dget]. rewrite E.
    repeat match goal with |- context [if smem u ?l then _ else _] => destruct (smem u l) end; cbn; intros H; discriminate.
Qed.
Lemma table_material id rows n t u : In (id, n) [("nk", 3%nat); ("n", 2%nat); ("eps", 3%nat)] ->
  forall k, mk_material no_file [("tabulated_" ++ id, PArr (ND2 k rows)); ("spectrum_type", PStr t); ("unit", PStr u)]%string =
  if Nat.eqb k n then (do p <- process_table n rows id (mkP "" None None None t u); complete default_meta p) else Raise ValueError.
Proof.
  intros I k. destruct I as [I|[I|[I|[]]]]; injection I as <- <-; unfold mk_material, parse_args, check_arg_types, check_table_shape; cbn -[Nat.eqb process_table complete]; 
  match goal with |- context [Nat.eqb k ?x] => destruct (Nat.eqb_spec k x) end; cbn -[process_table complete]; subst; try reflexivity.
Qed.
Lemma model_material name k p v t u : dget model_names name = Some k ->
  mk_material no_file [("model_kw", PDict (mkKw (Some name) (Some p) (Some (InVals v)) (Some t) (Some u)))] =
  (do d <- mk_model k p (InVals v) t u;
   match output k with
   | Some "n" => complete default_meta (mkP "nk" (Some d) None None t u)
   | Some "eps" => complete default_meta (mkP "eps" None None (Some d) t u)
   | _ => Raise ValueError
   end).
Proof.
  intros D. unfold mk_material, parse_args, check_arg_types. cbn -[process_model_dict complete].
  unfold process_model_dict. cbn [opt_key kw_name kw_params kw_range kw_stype kw_unit bind]. unfold str_to_class. rewrite D. cbn [bind].
  destruct (mk_model k p (InVals v) t u); cbn [bind]; [|reflexivity]. destruct k; reflexivity.
Qed.

Lemma refines_contains n F s S s' S' m : (n <= length m)%nat -> isspec n F m s S -> isspec n F m s' S' ->
  refines (fun _ a b => a = b) (m_contains s s') (contains S S') m.
Proof.
  intros L H H'. unfold m_contains, contains. rewrite converted_to.
  assert (A : forall k, (do ov <- (do c <- converted S' (sp_type S) (sp_unit S); Ok (snd c)); k ov) =
    (do c <- converted S' (sp_type S) (sp_unit S); k (snd c) : res bool)) by (intros k; destruct (converted _ _ _); reflexivity).
  rewrite A. destruct H as ((Pv & Lv & Nv) & HS & T & U). rewrite T, U.
  apply refines_bind with (P := isconv n F); [now apply refines_convert|]. intros a b m1 E1 (_ & _ & Lc & _).
  apply refines_read. rewrite Lc. apply refines_read. rewrite (load_ext m) by assumption. rewrite Lv. apply refines_pure.
Qed.

(** ** data objects *)
Definition isbase (n : nat) (F : list nat) (m : mem) (b : mbase) (B : dbase) : Prop :=
  mb_type b = d_type B /\ mb_unit b = d_unit B /\ isspec n F m (mb_range b) (d_range B).
Definition isdata (n : nat) (F : list nat) (m : mem) (d : mdata) (D : sdata) : Prop :=
  match d, D with
  | MConst b c, DConst B c' => isbase n F m b B /\ c = c'
  | MInterp b a rows, DInterp B rows' => isbase n F m b B /\ rows = rows' /\
      (exists k tab, nth_error m a = Some (A2 k tab) /\ pair_cols 0 1 tab = rows) /\ ((n <= a)%nat \/ In a F)
  | MModel b k a, DModel B k' p => isbase n F m b B /\ k = k' /\ nth_error m a = Some (A1 (VA p)) /\ ((n <= a)%nat \/ In a F)
  | _, _ => False
  end.
Definition ismat (n : nat) (F : list nat) (m : mem) (x : mmat) (M : material) : Prop :=
  m_meta M = Some default_meta /\ mm_name x = m_name M /\ isdata n F m (mm_real x) (m_real M) /\ isdata n F m (mm_imag x) (m_imag M) /\
  (match mm_complex x, m_complex M with None, None => True | Some d, Some D => isdata n F m d D | _, _ => False end) /\
  mm_stype x = m_stype M /\ mm_unit x = m_unit M.
Lemma isbase_of n F m b B : isbase n F m b B -> base_of m b = B.
Proof. intros (T & U & R). destruct B. unfold base_of. cbn in *. now rewrite T, U, (isspec_of _ _ _ _ _ R). Qed.
Lemma isdata_of n F m d D : isdata n F m d D -> data_of m d = D /\ repr_of m d = D.
Proof.
  destruct d, D; cbn; try easy.
  - intros (B & ->). now rewrite (isbase_of _ _ _ _ _ B).
  - intros (B & -> & (k & tab & E & P) & _). rewrite (isbase_of _ _ _ _ _ B). unfold table_at. rewrite E. now rewrite P.
  - intros (B & -> & E & _). rewrite (isbase_of _ _ _ _ _ B). unfold params_at, vec. now rewrite E.
Qed.
Lemma ismat_of n F m x M : ismat n F m x M -> mat_with (data_of m) x = M /\ mat_with (repr_of m) x = M.
Proof.
  intros (Me & N & R & I & C & T & U). destruct M as [me nm re im co st un]. cbn in *. unfold mat_with. rewrite Me, N, T, U.
  destruct (isdata_of _ _ _ _ _ R) as [-> ->], (isdata_of _ _ _ _ _ I) as [-> ->].
  destruct (mm_complex x) as [d|], co as [D|]; try easy. cbn. now destruct (isdata_of _ _ _ _ _ C) as [-> ->].
Qed.
Lemma isbase_ext n F m m' b B : ext m m' -> isbase n F m b B -> isbase n F m' b B.
Proof. intros E (T & U & R). split; [exact T|]. split; [exact U|]. now apply (isspec_ext n F m). Qed.
Lemma isdata_ext n F m m' d D : ext m m' -> isdata n F m d D -> isdata n F m' d D.
Proof.
  intros E. destruct d, D; cbn; try easy.
  - intros (B & C). split; [now apply (isbase_ext n F m)|exact C].
  - intros (B & C & (k & tab & Ek & P) & Nn). split; [now apply (isbase_ext n F m)|]. split; [exact C|]. split; [|exact Nn].
    exists k, tab. split; [now apply (ext_nth m)|exact P].
  - intros (B & C & Ek & Nn). split; [now apply (isbase_ext n F m)|]. split; [exact C|]. split; [now apply (ext_nth m)|exact Nn].
Qed.
Lemma ismat_ext n F m m' x M : ext m m' -> ismat n F m x M -> ismat n F m' x M.
Proof.
  intros E (Me & N & R & I & C & T & U). split; [exact Me|]. split; [exact N|]. split; [now apply (isdata_ext n F m)|].
  split; [now apply (isdata_ext n F m)|]. split; [|now split]. destruct (mm_complex x), (m_complex M); try easy. now apply (isdata_ext n F m).
Qed.

Lemma refines_base n F a p t u m : (n <= length m)%nat -> isarg n F m a p -> refines (isbase n F) (m_base a t u) (mk_base p t u) m.
Proof.
  intros L H. unfold m_base, mk_base. apply refines_bind with (P := isspec n F); [now apply refines_spectrum|].
  intros s S m1 E1 H1. apply refines_ret. now split.
Qed.
Lemma refines_constant n F c v t u m : (n <= length m)%nat -> refines (isdata n F) (m_constant c v t u) (mk_constant c (InVals v) t u) m.
Proof.
  intros L. unfold m_constant, mk_constant. apply refines_bind with (P := isbase n F); [now apply refines_base|].
  intros b B m1 E1 H1. apply refines_ret. now split.
Qed.
Lemma refines_zero n F m : (n <= length m)%nat -> refines (isdata n F) m_zero (constant_default (ORe (Fin 0))) m.
Proof. now apply refines_constant. Qed.
Lemma refines_interp n F a k tab t u m : (n <= length m)%nat -> nth_error m a = Some (A2 k tab) -> (n <= a)%nat \/ In a F ->
  refines (isdata n F) (m_interpolation a t u) (mk_interpolation (pair_cols 0 1 tab) t u) m.
Proof.
  intros L E Nn. unfold m_interpolation, mk_interpolation.
  assert (T : table_at m a = tab) by (unfold table_at; now rewrite E).
  unfold refines. rewrite T. change (refines (isdata n F) (let* mn := mpure (np_min (map fst (pair_cols 0 1 tab))) in
    let* mx := mpure (np_max (map fst (pair_cols 0 1 tab))) in let* b := m_base (Listed (VA [mn; mx])) t u in
    let* _ := mpure (interp1d_check (pair_cols 0 1 tab)) in mret (MInterp b a (pair_cols 0 1 tab)))
    (do mn <- np_min (map fst (pair_cols 0 1 tab)); do mx <- np_max (map fst (pair_cols 0 1 tab));
     do b <- mk_base (InVals (VA [mn; mx])) t u; do_ interp1d_check (pair_cols 0 1 tab); Ok (DInterp b (pair_cols 0 1 tab))) m).
  apply refines_bind with (P := fun _ a b => a = b); [apply refines_pure|]. intros mn mn' m1 E1 ->.
  apply refines_bind with (P := fun _ a b => a = b); [apply refines_pure|]. intros mx mx' m2 E2 ->.
  assert (E12 : ext m m2) by now apply (ext_trans m m1).
  apply refines_bind with (P := isbase n F); [apply refines_base; [apply ext_len in E12; lia|reflexivity]|]. intros b B m3 E3 HB.
  apply refines_bind with (P := fun _ a b => a = b); [apply refines_pure|]. intros x x' m4 E4 _.
  apply refines_ret. split; [now apply (isbase_ext n F m3)|]. split; [reflexivity|]. split; [|exact Nn].
  exists k, tab. split; [|reflexivity]. apply (ext_nth m); [|exact E]. apply (ext_trans m m2); [exact E12|]. now apply (ext_trans m2 m3).
Qed.
Lemma refines_spec_data n F a k tab t u m : (n <= length m)%nat -> nth_error m a = Some (A2 k tab) -> (n <= a)%nat \/ In a F ->
  refines (isdata n F) (m_spec_data a t u) (spec_data_from_pairs (pair_cols 0 1 tab) t u) m.
Proof.
  intros L E Nn. unfold m_spec_data, spec_data_from_pairs. unfold refines. assert (T : table_at m a = tab) by (unfold table_at; now rewrite E). rewrite T.
  destruct (pair_cols 0 1 tab) as [|r [|r' l]] eqn:Pc; [rewrite <- Pc; now apply (refines_interp n F a k)|now apply refines_constant|rewrite <- Pc; now apply (refines_interp n F a k)].
Qed.
Lemma refines_model n F k a p rng r t u m : (n <= length m)%nat -> nth_error m a = Some (A1 (VA p)) -> (n <= a)%nat \/ In a F -> isarg n F m rng r ->
  refines (isdata n F) (m_model k a rng t u) (mk_model k p r t u) m.
Proof.
  intros L E Nn R. unfold m_model, mk_model. apply refines_bind with (P := isbase n F); [now apply refines_base|]. intros b B m1 E1 HB.
  apply refines_bind with (P := fun _ a b => a = b); [apply refines_pure|]. intros x x' m2 E2 _.
  apply refines_ret. split; [now apply (isbase_ext n F m1)|]. split; [reflexivity|]. split; [|exact Nn].
  apply (ext_nth m); [|exact E]. now apply (ext_trans m m1).
Qed.

(** ** materials *)
Lemma pair_cols_take j rows : pair_cols 0 1 (map (fun r => [col 0 r; col j r]) rows) = pair_cols 0 j rows.
Proof. unfold pair_cols. rewrite map_map. reflexivity. Qed.
Lemma refines_columns n F j a k tab t u m : (n <= length m)%nat -> nth_error m a = Some (A2 k tab) ->
  refines (isdata n F) (let* c := take_columns a j in m_spec_data c t u) (spec_data_from_pairs (pair_cols 0 j tab) t u) m.
Proof.
  intros L E. unfold refines, mbind, take_columns, new_array. assert (T : table_at m a = tab) by (unfold table_at; now rewrite E). rewrite T.
  set (m1 := m ++ [A2 2 (map (fun r => [col 0 r; col j r]) tab)]).
  assert (E1 : ext m m1) by apply ext_new.
  destruct (refines_spec_data n F (length m) 2 (map (fun r => [col 0 r; col j r]) tab) t u m1) as (m2 & E2 & H).
  - apply ext_len in E1. lia.
  - unfold m1. now rewrite nth_error_app2, Nat.sub_diag by lia.
  - left. exact L.
  - rewrite pair_cols_take in H. exists m2. split; [now apply (ext_trans m m1)|exact H].
Qed.
Lemma mbind_assoc {A B C} (x : mm A) (f : A -> mm B) (g : B -> mm C) m : mbind (mbind x f) g m = mbind x (fun a => mbind (f a) g) m.
Proof. unfold mbind. destruct (x m) as [[a|e] m']; reflexivity. Qed.
Lemma refines_ext {A B} (P : mem -> A -> B -> Prop) c c' p m : c m = c' m -> refines P c p m -> refines P c' p m.
Proof. unfold refines. now intros ->. Qed.

Lemma refines_table3 n F id a tab t u m : In id ["nk"; "eps"] -> (n <= length m)%nat -> nth_error m a = Some (A2 3 tab) ->
  refines (ismat n F) (m_table3 id a t u) (do p <- process_table 3 tab id (mkP "" None None None t u); complete default_meta p) m.
Proof.
  intros I L E.
  assert (P : (do p <- process_table 3 tab id (mkP "" None None None t u); complete default_meta p) =
    (do re <- spec_data_from_pairs (pair_cols 0 1 tab) t u; do im <- spec_data_from_pairs (pair_cols 0 2 tab) t u;
     Ok (mkMat (Some default_meta) id re im None t u))).
  { destruct I as [<-|[<-|[]]]; unfold process_table, take_cols; cbn [p_stype p_unit String.eqb Ascii.eqb eqb Nat.ltb Nat.leb bind];
      destruct (spec_data_from_pairs (pair_cols 0 1 tab) t u); try reflexivity; cbn [bind];
      destruct (spec_data_from_pairs (pair_cols 0 2 tab) t u); reflexivity. }
  rewrite P. apply refines_ext with (c := let* re := (let* c := take_columns a 1 in m_spec_data c t u) in
    let* im := (let* c := take_columns a 2 in m_spec_data c t u) in mret (mkMm id re im None t u)).
  { unfold m_table3. rewrite mbind_assoc. unfold mbind. destruct (take_columns a 1 m) as [[c|] m1]; [|reflexivity].
    destruct (m_spec_data c t u m1) as [[re|] m2]; [|reflexivity]. destruct (take_columns a 2 m2) as [[c'|] m3]; reflexivity. }
  apply refines_bind with (P := isdata n F); [now apply (refines_columns n F 1 a 3 tab)|]. intros re RE m1 E1 H1.
  apply refines_bind with (P := isdata n F); [apply (refines_columns n F 2 a 3 tab); [apply ext_len in E1; lia|now apply (ext_nth m)]|]. intros im IM m2 E2 H2.
  apply refines_ret. split; [reflexivity|]. split; [reflexivity|]. split; [now apply (isdata_ext n F m1)|]. now split.
Qed.
Lemma refines_table2 n F a tab t u m : (n <= length m)%nat -> nth_error m a = Some (A2 2 tab) -> In a F ->
  refines (ismat n F) (m_table2 a t u) (do p <- process_table 2 tab "n" (mkP "" None None None t u); complete default_meta p) m.
Proof.
  intros L E I.
  assert (P : (do p <- process_table 2 tab "n" (mkP "" None None None t u); complete default_meta p) =
    (do re <- spec_data_from_pairs (pair_cols 0 1 tab) t u; do im <- constant_default (ORe (Fin 0)); Ok (mkMat (Some default_meta) "nk" re im None t u))).
  { unfold process_table. cbn [p_stype p_unit String.eqb Ascii.eqb eqb]. unfold spec_data_from_table.
    destruct (spec_data_from_pairs (pair_cols 0 1 tab) t u); reflexivity. }
  rewrite P. unfold m_table2. apply refines_bind with (P := isdata n F); [apply (refines_spec_data n F a 2); try assumption; now right|]. intros re RE m1 E1 H1.
  apply refines_bind with (P := isdata n F); [apply refines_zero; apply ext_len in E1; lia|]. intros im IM m2 E2 H2.
  apply refines_ret. split; [reflexivity|]. split; [reflexivity|]. split; [now apply (isdata_ext n F m1)|]. now split.
Qed.
Lemma refines_table n F id a k tab t u m : In id ["nk"; "n"; "eps"] -> (n <= length m)%nat -> nth_error m a = Some (A2 k tab) ->
  (id = "n" -> In a F) ->
  refines (ismat n F) (m_table id a t u) (mk_material no_file [("tabulated_" ++ id, PArr (ND2 k tab)); ("spectrum_type", PStr t); ("unit", PStr u)])%string m.
Proof.
  intros I L E HF. unfold m_table, refines. rewrite E.
  destruct I as [<-|[<-|[<-|[]]]].
  - rewrite (table_material "nk" tab 3) by (cbn; tauto). cbn [String.eqb Ascii.eqb eqb]. destruct (Nat.eqb_spec k 3) as [->|]; [|exists m; split; [apply ext_refl|reflexivity]].
    apply refines_table3; [cbn; tauto|exact L|exact E].
  - rewrite (table_material "n" tab 2) by (cbn; tauto). cbn [String.eqb Ascii.eqb eqb]. destruct (Nat.eqb_spec k 2) as [->|]; [|exists m; split; [apply ext_refl|reflexivity]].
    apply refines_table2; [exact L|exact E|now apply HF].
  - rewrite (table_material "eps" tab 3) by (cbn; tauto). cbn [String.eqb Ascii.eqb eqb]. destruct (Nat.eqb_spec k 3) as [->|]; [|exists m; split; [apply ext_refl|reflexivity]].
    apply refines_table3; [cbn; tauto|exact L|exact E].
Qed.
Lemma refines_model_material n F name k a p rng v t u m : dget model_names name = Some k -> (n <= length m)%nat ->
  nth_error m a = Some (A1 (VA p)) -> In a F -> isarg n F m rng (InVals v) ->
  refines (ismat n F) (m_model_material k a rng t u)
    (mk_material no_file [("model_kw", PDict (mkKw (Some name) (Some p) (Some (InVals v)) (Some t) (Some u)))]) m.
Proof.
  intros D L E I R. rewrite (model_material name k) by exact D. unfold m_model_material.
  apply refines_bind with (P := isdata n F); [apply refines_model; try assumption; now right|]. intros d DD m1 E1 H1.
  assert (L1 : (n <= length m1)%nat) by (apply ext_len in E1; lia).
  assert (N : refines (ismat n F) (let* z := m_zero in mret (mkMm "nk" d z None t u)) (complete default_meta (mkP "nk" (Some DD) None None t u)) m1).
  { unfold complete. cbn [p_real p_imag bind p_name p_complex p_stype p_unit]. apply refines_bind with (P := isdata n F); [now apply refines_zero|]. intros z Z m2 E2 H2.
    apply refines_ret. split; [reflexivity|]. split; [reflexivity|]. split; [now apply (isdata_ext n F m1)|]. now split. }
  assert (C : refines (ismat n F) (let* z := m_zero in let* z' := m_zero in mret (mkMm "eps" z z' (Some d) t u)) (complete default_meta (mkP "eps" None None (Some DD) t u)) m1).
  { unfold complete. cbn [p_real p_imag bind p_name p_complex p_stype p_unit]. apply refines_bind with (P := isdata n F); [now apply refines_zero|]. intros z Z m2 E2 H2.
    apply refines_bind with (P := isdata n F); [apply refines_zero; apply ext_len in E2; lia|]. intros z' Z' m3 E3 H3.
    apply refines_ret. split; [reflexivity|]. split; [reflexivity|]. split; [now apply (isdata_ext n F m2)|]. split; [exact H3|].
    split; [|now split]. cbn. apply (isdata_ext n F m1); [|exact H1]. now apply (ext_trans m1 m2). }
  destruct k; cbn [output]; first [exact N | exact C | apply refines_fail].
Qed.

(** ** what an object refers to *)
Definition addr (r : ref) : list nat := match r with RArr a => [a] | RNum _ => [] end.
Definition foot_spec (s : mspec) : list nat := addr (ms_values s) ++ addr (ms_std s).
Definition foot_data (d : mdata) : list nat :=
  match d with
  | MConst b _ => foot_spec (mb_range b)
  | MInterp b a _ => a :: foot_spec (mb_range b)
  | MModel b _ a => a :: foot_spec (mb_range b)
  end.
Definition foot_mat (x : mmat) : list nat :=
  foot_data (mm_real x) ++ foot_data (mm_imag x) ++ match mm_complex x with Some d => foot_data d | None => [] end.
Definition foot (h : hvar) : list nat :=
  match h with HRef r => addr r | HSpec s => foot_spec s | HMat x => foot_mat x | _ => [] end.
Definition within (n : nat) (F l : list nat) : Prop := forall a, In a l -> (n <= a)%nat \/ In a F.
Lemma within_app n F l l' : within n F (l ++ l') <-> within n F l /\ within n F l'.
Proof.
  unfold within. split.
  - intros H. split; intros a I; apply H; apply in_or_app; tauto.
  - intros [H H'] a I. apply in_app_or in I. destruct I; [now apply H|now apply H'].
Qed.
Lemma within_cons n F a l : within n F (a :: l) <-> ((n <= a)%nat \/ In a F) /\ within n F l.
Proof. unfold within. cbn. split; [intros H; split; [apply H; tauto|intros; apply H; tauto]|]. intros [H H'] b [<-|I]; [exact H|now apply H']. Qed.
Lemma within_nil n F : within n F []. Proof. easy. Qed.
Lemma near_within n F r : near n F r <-> within n F (addr r).
Proof.
  unfold near, within. destruct r as [x|a]; cbn; split; try easy.
  - intros H b [<-|[]]. now apply H.
  - intros H b E. injection E as <-. apply H. tauto.
Qed.
Lemma near_all F r : near 0 F r. Proof. intros a _. left. lia. Qed.
Lemma isref_split n F m r v : isref n F m r v <-> isref 0 [] m r v /\ within n F (addr r).
Proof.
  unfold isref. rewrite (near_within n). split; [intros (P & L & N); repeat split; try assumption; apply near_all|tauto].
Qed.
Lemma isspec_split n F m s S : isspec n F m s S <-> isspec 0 [] m s S /\ within n F (foot_spec s).
Proof. unfold isspec, foot_spec. rewrite within_app, (isref_split n F m (ms_values s)), (isref_split n F m (ms_std s)). tauto. Qed.
Lemma isbase_split n F m b B : isbase n F m b B <-> isbase 0 [] m b B /\ within n F (foot_spec (mb_range b)).
Proof. unfold isbase. rewrite (isspec_split n F). tauto. Qed.
Lemma isdata_split n F m d D : isdata n F m d D <-> isdata 0 [] m d D /\ within n F (foot_data d).
Proof.
  destruct d as [b c|b a rows|b k a], D as [B C|B R|B K P|]; cbn [isdata foot_data]; rewrite ?within_cons, ?(isbase_split n F m b); try tauto.
  all: assert (0 <= a)%nat by lia; tauto.
Qed.
Lemma ismat_split n F m x M : ismat n F m x M <-> ismat 0 [] m x M /\ within n F (foot_mat x).
Proof.
  unfold ismat, foot_mat. rewrite !within_app, (isdata_split n F m (mm_real x)), (isdata_split n F m (mm_imag x)).
  destruct (mm_complex x) as [d|], (m_complex M) as [D|]; rewrite ?(isdata_split n F m d); pose proof (within_nil n F); tauto.
Qed.

(** a variable of the memory model and one of the value model *)
Definition rep (m : mem) (h : hvar) (x : var) : Prop :=
  match h, x with
  | HRef (RNum a), XNum b => a = b
  | HRef (RArr a), XArr A => nth_error m a = Some A /\ forall x, A <> A1 (VS x)
  | HSpec s, XSpec sp => isspec 0 [] m s sp
  | HMat x, XMat M => ismat 0 [] m x M
  | HVal o, XVal o' => o = o'
  | HNone, XNone => True
  | _, _ => False
  end.
Lemma rep_ext m m' h x : ext m m' -> rep m h x -> rep m' h x.
Proof.
  intros E. destruct h as [[a|a]|s|y| |], x; cbn; try easy.
  - intros [H N]. split; [now apply (ext_nth m)|exact N].
  - now apply isspec_ext.
  - now apply ismat_ext.
Qed.
Lemma plain_bound m r a : plain m r = true -> In a (addr r) -> (a < length m)%nat.
Proof. destruct r as [x|b]; cbn; [easy|]. intros P [<-|[]]. apply nth_error_Some. now destruct (nth_error m b). Qed.
Lemma isspec_bound n F m s S a : isspec n F m s S -> In a (foot_spec s) -> (a < length m)%nat.
Proof. intros ((P & _) & (P' & _) & _) I. apply in_app_or in I. destruct I as [I|I]; [now apply (plain_bound m (ms_values s))|now apply (plain_bound m (ms_std s))]. Qed.
Lemma isdata_bound n F m d D a : isdata n F m d D -> In a (foot_data d) -> (a < length m)%nat.
Proof.
  destruct d as [b c|b a' rows|b k a'], D as [B C|B R|B K P|]; cbn [isdata foot_data]; try easy.
  - intros ((_ & _ & H) & _) I. now apply (isspec_bound n F m (mb_range b) (d_range B)).
  - intros ((_ & _ & H) & _ & (k & tab & E & _) & _) [<-|I]; [apply nth_error_Some; congruence|now apply (isspec_bound n F m (mb_range b) (d_range B))].
  - intros ((_ & _ & H) & _ & E & _) [<-|I]; [apply nth_error_Some; congruence|now apply (isspec_bound n F m (mb_range b) (d_range B))].
Qed.
Lemma rep_bound m h x a : rep m h x -> In a (foot h) -> (a < length m)%nat.
Proof.
  destruct h as [[b|b]|s|y| |], x; cbn; try easy.
  - intros [H _] [<-|[]]. apply nth_error_Some. congruence.
  - apply isspec_bound.
  - intros (_ & _ & R & I & C & _) J. unfold foot_mat in J. rewrite !in_app_iff in J. destruct J as [J|[J|J]].
    + now apply (isdata_bound _ _ _ _ _ _ R).
    + now apply (isdata_bound _ _ _ _ _ _ I).
    + destruct (mm_complex y), (m_complex x); try easy. now apply (isdata_bound _ _ _ _ _ _ C).
Qed.

(** assigning to an array that an object does not refer to *)
Lemma nth_store m a x b : (a < length m)%nat -> nth_error (store m a x) b = if Nat.eqb b a then Some x else nth_error m b.
Proof.
  intros L. unfold store. assert (Lf : length (firstn a m) = a) by (rewrite firstn_length; lia).
  destruct (Nat.eqb_spec b a) as [->|N].
  - rewrite nth_error_app2 by lia. now rewrite Lf, Nat.sub_diag.
  - destruct (Nat.lt_ge_cases b a) as [B|B].
    + rewrite nth_error_app1 by lia. rewrite <- (firstn_skipn a m) at 2. now rewrite nth_error_app1 by lia.
    + rewrite nth_error_app2 by lia. rewrite Lf. rewrite <- (firstn_skipn (S a) m) at 2.
      assert (Ls : length (firstn (S a) m) = S a) by (rewrite firstn_length; lia).
      rewrite nth_error_app2 by lia. rewrite Ls. replace (b - a)%nat with (S (b - S a)) by lia. reflexivity.
Qed.
Section Frame.
Variables (m m' : mem) (a : nat).
Hypothesis same : forall b, b <> a -> nth_error m' b = nth_error m b.
Lemma isref_frame r v : ~ In a (addr r) -> isref 0 [] m r v -> isref 0 [] m' r v.
Proof.
  intros N (P & L & _). destruct r as [x|b]; [now split|]. unfold isref, plain, load, vec in *. cbn in N.
  rewrite !same by (intros ->; tauto). repeat split; try assumption. apply near_all.
Qed.
Lemma isspec_frame s S : ~ In a (foot_spec s) -> isspec 0 [] m s S -> isspec 0 [] m' s S.
Proof.
  unfold foot_spec. rewrite in_app_iff. intros N (V & D & T). split; [apply isref_frame; tauto|]. split; [apply isref_frame; tauto|exact T].
Qed.
Lemma isdata_frame d D : ~ In a (foot_data d) -> isdata 0 [] m d D -> isdata 0 [] m' d D.
Proof.
  destruct d as [b c|b a' rows|b k a'], D as [B C|B R|B K P|]; cbn [isdata foot_data In]; try easy.
  - intros N ((T & U & H) & E). split; [|exact E]. split; [exact T|]. split; [exact U|now apply isspec_frame].
  - intros N ((T & U & H) & E & (k & tab & Ek & P) & Q). split; [split; [exact T|]; split; [exact U|apply isspec_frame; tauto]|].
    split; [exact E|]. split; [|exact Q]. exists k, tab. split; [rewrite same; [exact Ek|intros ->; tauto]|exact P].
  - intros N ((T & U & H) & E & Ek & Q). split; [split; [exact T|]; split; [exact U|apply isspec_frame; tauto]|].
    split; [exact E|]. split; [|exact Q]. rewrite same; [exact Ek|intros ->; tauto].
Qed.
Lemma rep_frame h x : ~ In a (foot h) -> rep m h x -> rep m' h x.
Proof.
  destruct h as [[b|b]|s|y| |], x; cbn; try easy.
  - intros N [H K]. split; [rewrite same; [exact H|intros ->; tauto]|exact K].
  - apply isspec_frame.
  - unfold foot_mat. rewrite !in_app_iff. intros N (Me & Nm & R & I & C & T). split; [exact Me|]. split; [exact Nm|].
    split; [apply isdata_frame; tauto|]. split; [apply isdata_frame; tauto|]. split; [|exact T].
    destruct (mm_complex y), (m_complex x); try easy. apply isdata_frame; tauto.
Qed.
End Frame.

(** ** the invariant of a session *)
Record inv (m : mem) (hv : list hvar) (l : list var) (S : list nat) : Prop := {
  inv_len : length hv = length l;
  inv_rep : forall i h, nth_error hv i = Some h -> exists x, nth_error l i = Some x /\ rep m h x;
  inv_sep : forall i a j h, nth_error hv i = Some (HRef (RArr a)) -> ~ In i S -> nth_error hv j = Some h -> i <> j -> ~ In a (foot h)
}.
Lemma nth_last {A} (l : list A) x i y : nth_error (l ++ [x]) i = Some y -> (nth_error l i = Some y /\ (i < length l)%nat) \/ (i = length l /\ y = x).
Proof.
  intros H. destruct (Nat.lt_ge_cases i (length l)) as [L|L].
  - left. rewrite nth_error_app1 in H by exact L. now split.
  - right. rewrite nth_error_app2 in H by exact L. destruct (i - length l)%nat as [|k] eqn:E; cbn in H; [|now destruct k].
    injection H as <-. split; [lia|reflexivity].
Qed.
Lemma inv_none_rep m hv l S i : inv m hv l S -> nth_error hv i = None -> nth_error l i = None.
Proof. intros I H. apply nth_error_None in H. apply nth_error_None. now rewrite <- (inv_len _ _ _ _ I). Qed.
Lemma inv_add F m hv l S m' h x S' : inv m hv l S -> ext m m' -> rep m' h x -> within (length m) F (foot h) ->
  (forall i a, nth_error hv i = Some (HRef (RArr a)) -> ~ In i S' -> ~ In a F) -> incl S S' ->
  (~ In (length hv) S' -> forall a, h = HRef (RArr a) -> (length m <= a)%nat) -> inv m' (hv ++ [h]) (l ++ [x]) S'.
Proof.
  intros I E R W P IS New. split.
  - rewrite !app_length, (inv_len _ _ _ _ I). reflexivity.
  - intros i g H. apply nth_last in H. destruct H as [[H L]|[-> ->]].
    + destruct (inv_rep _ _ _ _ I i g H) as (y & Hy & Ry). exists y. split; [|now apply (rep_ext m)].
      rewrite nth_error_app1; [exact Hy|]. now rewrite <- (inv_len _ _ _ _ I).
    + exists x. split; [|exact R]. rewrite (inv_len _ _ _ _ I), nth_error_app2, Nat.sub_diag by lia. reflexivity.
  - intros i a j g H N H' Nij. apply nth_last in H. apply nth_last in H'. destruct H as [[H L]|[-> H]], H' as [[H' L']|[-> ->]].
    + apply (inv_sep _ _ _ _ I i a j g H); [|exact H'|exact Nij]. intros K. apply N. now apply IS.
    + intros K. destruct (W a K) as [K'|K'].
      * destruct (inv_rep _ _ _ _ I i _ H) as (y & Hy & Ry). assert (a < length m)%nat by (apply (rep_bound m _ y a Ry); cbn; tauto). lia.
      * now apply (P i a).
    + intros K. specialize (New N a (eq_sym H)). destruct (inv_rep _ _ _ _ I j _ H') as (y & Hy & Ry). pose proof (rep_bound m _ y a Ry K). lia.
    + now destruct Nij.
Qed.
Lemma inv_nothing m hv l S m' S' : inv m hv l S -> ext m m' -> incl S S' -> inv m' (hv ++ [HNone]) (l ++ [XNone]) S'.
Proof. intros I E IS. apply (inv_add [] m hv l S); try easy. Qed.
(** a variable that keeps its own array *)
Lemma inv_own m hv l S S' i a j h : inv m hv l S -> incl S S' -> nth_error hv i = Some (HRef (RArr a)) -> ~ In i S' ->
  nth_error hv j = Some h -> In j S' \/ (forall r, h <> HRef r) -> ~ In a (foot h).
Proof.
  intros I IS H N H' D. apply (inv_sep _ _ _ _ I i a j h H); [|exact H'|].
  - intros K. apply N. now apply IS.
  - intros ->. destruct D as [D|D]; [now apply N|]. rewrite H in H'. injection H' as <-. now apply (D (RArr a)).
Qed.

(** ** one line of a session *)
Lemma refines_convert_to n F s sp t u m : (n <= length m)%nat -> isspec n F m s sp ->
  refines (fun m a v => isref n F m (snd a) v) (m_convert s t u) (convert_to sp t u) m.
Proof.
  intros L H. rewrite converted_to. destruct (refines_convert n F s sp t u m L H) as (m' & E & K). exists m'. split; [exact E|].
  destruct (converted sp t u) as [c|e]; cbn; [|exact K]. destruct K as (a & C & _ & R). exists a. now split.
Qed.
Lemma refines_convert_new s sp t u m : isspec 0 [] m s sp -> to_metres t u = false ->
  refines (fun m' a v => isref (length m) [] m' (snd a) v) (m_convert s t u) (convert_to sp t u) m.
Proof.
  intros H N. rewrite converted_to. unfold m_convert, converted. scase; [apply refines_fail|].
  assert (K : refines (fun m' a v => isref (length m) [] m' (snd a) (snd v)) (let* u' := mpure (standardise_unit (lower t) u) in let* r := m_to_dispatch (lower t) u' (ms_std s) in mret (lower t, u', r))
    (do u' <- standardise_unit (lower t) u; do v <- to_dispatch (lower t) u' (sp_std sp); Ok (lower t, u', v)) m).
  { destruct (standardise_unit (lower t) u) as [u'|e] eqn:Su; [|apply refines_fail].
    change (refines (fun m' a v => isref (length m) [] m' (snd a) (snd v)) (let* r := m_to_dispatch (lower t) u' (ms_std s) in mret (lower t, u', r))
      (do v <- to_dispatch (lower t) u' (sp_std sp); Ok (lower t, u', v)) m).
    apply refines_bind with (P := isref (length m) []).
    - apply refines_to_new; [lia|]. right. split.
      + destruct H as (_ & H & _). apply isref_split. split; [exact H|]. intros a I. right. exact I.
      + intros [Et ->]. unfold to_metres in N. rewrite Et in N, Su. rewrite (unit_metre _ _ Su eq_refl) in N. discriminate.
    - intros r v m2 E2 H2. apply refines_ret. exact H2. }
  destruct K as (m' & E & K). exists m'. split; [exact E|].
  destruct (do u' <- standardise_unit (lower t) u; do v <- to_dispatch (lower t) u' (sp_std sp); Ok (lower t, u', v)) as [c|e]; cbn; [|exact K].
  destruct K as (a & C & R). exists a. now split.
Qed.
Lemma refines_in_place s sp t u m : isspec (length m) (foot_spec s) m s sp ->
  refines (isspec (length m) (foot_spec s)) (m_convert_in_place s t u)
    (match convert_in_place sp t u with (Ok _, s') => Ok s' | (Raise e, _) => Raise e end) m.
Proof.
  intros H. rewrite converted_in_place.
  replace (match (match converted sp t u with Ok c => (Ok tt, mkSp (fst (fst c)) (snd (fst c)) (snd c) (sp_std sp)) | Raise e => (Raise e, sp) end) with
           | (Ok _, s') => Ok s' | (Raise e, _) => Raise e end) with
    (do c <- converted sp t u; Ok (mkSp (fst (fst c)) (snd (fst c)) (snd c) (sp_std sp))) by (destruct (converted sp t u); reflexivity).
  apply refines_bind with (P := isconv (length m) (foot_spec s)); [now apply refines_convert|]. intros [[a1 a2] r] [[b1 b2] v] m' E (Hf & R).
  injection Hf as -> ->. apply refines_ret. split; [exact R|]. split; [|now split]. apply (isref_ext _ _ m); [exact E|]. apply H.
Qed.
Lemma isspec_self m s sp : isspec 0 [] m s sp -> isspec (length m) (foot_spec s) m s sp.
Proof. intros H. apply isspec_split. split; [exact H|]. intros a I. now right. Qed.
Lemma isref_arr n F m r v : isref n F m r v -> match v with VS x => r = RNum x | _ => exists a, r = RArr a /\ nth_error m a = Some (A1 v) end.
Proof.
  intros (P & L & _). destruct r as [x|a]; [now subst v|]. destruct (plain_kind m a P) as (w & E & N). cbn in L. unfold vec in L. rewrite E in L. subst w.
  destruct v; [now destruct (N x)| |]; exists a; now split.
Qed.
Lemma rep_shown n F m r v : isref n F m r v -> fst (shown v) = show m r /\ rep m (HRef r) (snd (shown v)).
Proof.
  intros H. pose proof (isref_arr _ _ _ _ _ H) as K. destruct v as [x|l|l]; [now subst r| |]; destruct K as (a & -> & E); cbn; rewrite E; (split; [reflexivity|split; [reflexivity|discriminate]]).
Qed.
Lemma as_values_isref m r x : rep m (HRef r) x -> plain m r = true -> exists v, as_values (Some x) = Some v /\ isref 0 [] m r v.
Proof.
  destruct r as [y|a], x as [z|A| | | |]; cbn [rep]; try easy.
  - intros -> _. exists (VS z). split; [reflexivity|]. now split.
  - intros [E N] P. pose proof (plain_kind m a P) as (v & E' & K). rewrite E in E'. injection E' as ->. exists v.
    split; [cbn; destruct v; [now destruct (K x)| |]; reflexivity|]. split; [exact P|]. split; [cbn; unfold vec; now rewrite E|apply near_all].
Qed.
Lemma as_values_none m r x : rep m (HRef r) x -> plain m r = false -> as_values (Some x) = None.
Proof.
  destruct r as [y|a], x as [z|A| | | |]; cbn [rep]; try easy. intros [E N] P. cbn in *. rewrite E in P. destruct A as [[]| |]; easy.
Qed.

Definition agree (r : out * hstate) (q : out * list var) (S : list nat) : Prop :=
  fst r = fst q /\ inv (h_mem (snd r)) (h_vars (snd r)) (snd q) S.
Lemma agree_senseless st l S S' : inv (h_mem st) (h_vars st) l S -> incl S S' -> agree (senseless st) (no_sense l) S'.
Proof. intros I IS. split; [reflexivity|]. cbn. apply (inv_nothing (h_mem st) _ _ S); [exact I|apply ext_refl|exact IS]. Qed.
Lemma agree_finish {A B} (P : mem -> A -> B -> Prop) c p f g st l S S' : inv (h_mem st) (h_vars st) l S -> incl S S' ->
  refines P c p (h_mem st) ->
  (forall a b m', ext (h_mem st) m' -> P m' a b -> fst (f a m') = fst (g b) /\ inv m' (h_vars st ++ [snd (f a m')]) (l ++ [snd (g b)]) S') ->
  agree (finish st (c (h_mem st)) f) (outcome l p g) S'.
Proof.
  intros I IS (m' & E & H) K. unfold finish, outcome. destruct p as [b|e].
  - destruct H as (a & -> & Pa). destruct (K a b m' E Pa) as [K1 K2]. destruct (f a m') as [o h], (g b) as [o' x]. cbn in *. now split.
  - rewrite H. split; [reflexivity|]. cbn. now apply (inv_nothing (h_mem st) _ _ S).
Qed.
(** the kinds of variables agree *)
Lemma get_ref st l S i : inv (h_mem st) (h_vars st) l S -> match h_ref st i with
  | Some r => exists x, nth_error (h_vars st) i = Some (HRef r) /\ nth_error l i = Some x /\ rep (h_mem st) (HRef r) x
  | None => as_values (nth_error l i) = None /\ (forall x, nth_error l i <> Some (XNum x)) /\ (forall a, nth_error l i <> Some (XArr a)) end.
Proof.
  intros I. unfold h_ref. destruct (nth_error (h_vars st) i) as [h|] eqn:E.
  - destruct (inv_rep _ _ _ _ I i h E) as (x & Hx & R). destruct h as [r|s|y|o|].
    + exists x. now repeat split.
    + rewrite Hx. destruct x; try easy; repeat split; intros; discriminate.
    + rewrite Hx. destruct x; try easy; repeat split; intros; discriminate.
    + rewrite Hx. destruct x; try easy; repeat split; intros; discriminate.
    + rewrite Hx. destruct x; try easy; repeat split; intros; discriminate.
  - rewrite (inv_none_rep _ _ _ _ _ I E). repeat split; intros; discriminate.
Qed.
Lemma get_spec st l S i : inv (h_mem st) (h_vars st) l S -> match h_spec st i with
  | Some s => exists sp, nth_error (h_vars st) i = Some (HSpec s) /\ as_spec (nth_error l i) = Some sp /\ nth_error l i = Some (XSpec sp) /\ isspec 0 [] (h_mem st) s sp
  | None => as_spec (nth_error l i) = None end.
Proof.
  intros I. unfold h_spec. destruct (nth_error (h_vars st) i) as [h|] eqn:E.
  - destruct (inv_rep _ _ _ _ I i h E) as (x & Hx & R). rewrite Hx. destruct h as [[r|r]|s|y|o|], x as [ | |sp| | | ]; try easy. exists sp. split; [reflexivity|]. split; [reflexivity|]. split; [reflexivity|exact R].
  - now rewrite (inv_none_rep _ _ _ _ _ I E).
Qed.
Lemma get_mat st l S i : inv (h_mem st) (h_vars st) l S -> match h_mat st i with
  | Some x => exists M, nth_error (h_vars st) i = Some (HMat x) /\ as_mat (nth_error l i) = Some M /\ ismat 0 [] (h_mem st) x M
  | None => as_mat (nth_error l i) = None end.
Proof.
  intros I. unfold h_mat. destruct (nth_error (h_vars st) i) as [h|] eqn:E.
  - destruct (inv_rep _ _ _ _ I i h E) as (x & Hx & R). rewrite Hx. destruct h as [[r|r]|s|y|o|], x as [ | | |M| | ]; try easy. exists M. split; [reflexivity|]. split; [reflexivity|exact R].
  - now rewrite (inv_none_rep _ _ _ _ _ I E).
Qed.

Lemma refines_evaluate X n F x M r v t u m : (n <= length m)%nat -> ismat 0 [] m x M -> isref n F m r v ->
  refines (fun _ a b => a = b) (m_get_nk_data X x r t u) (get_nk_data X M (SRaw (InVals v) t u)) m.
Proof.
  intros L HM H. unfold m_get_nk_data, get_nk_data. apply refines_bind with (P := isspec n F); [now apply refines_spectrum|].
  intros s sp m1 E1 H1. unfold refines. rewrite (isspec_of _ _ _ _ _ H1).
  destruct (ismat_of 0 [] m1 x M) as [-> _]; [now apply (ismat_ext 0 [] m)|]. exists m1. split; [apply ext_refl|].
  match goal with |- match ?p with Ok _ => _ | Raise _ => _ end => destruct p as [b|e]; [exists b; now split|reflexivity] end.
Qed.
Lemma refines_evaluated X x M r v t u m : ismat 0 [] m x M -> isref 0 [] m r v ->
  refines (fun m' a b => fst a = fst (shown_result b) /\ rep m' (snd a) (snd (shown_result b)) /\ within (length m) [] (foot (snd a)))
    (evaluated X x r t u) (get_nk_data X M (SRaw (InVals v) t u)) m.
Proof.
  intros HM H. destruct (refines_evaluate X 0 [] x M r v t u m) as (m1 & E & K); [lia|exact HM|exact H|]. unfold evaluated, refines, mbind.
  destruct (get_nk_data X M (SRaw (InVals v) t u)) as [b|e].
  - destruct K as (a & C & ->). destruct b as [o|l].
    + exists m1. split; [exact E|]. exists (Complex o, HVal o). rewrite C. split; [reflexivity|]. repeat split. easy.
    + exists (m1 ++ [AO l]). split; [apply (ext_trans m m1); [exact E|apply ext_new]|]. exists (Array (AO l), HRef (RArr (length m1))). rewrite C. split; [reflexivity|].
      split; [reflexivity|]. split; [split; [rewrite nth_error_app2, Nat.sub_diag by lia; reflexivity|discriminate]|].
      intros c [<-|[]]. left. now apply ext_len in E.
  - exists m1. split; [exact E|]. now rewrite K.
Qed.

Lemma nth_replace {A} i (x : A) l j : (i < length l)%nat -> nth_error (replace i x l) j = if Nat.eqb j i then Some x else nth_error l j.
Proof.
  intros L. unfold replace. assert (Lf : length (firstn i l) = i) by (rewrite firstn_length; lia).
  destruct (Nat.eqb_spec j i) as [->|N].
  - rewrite nth_error_app2 by lia. now rewrite Lf, Nat.sub_diag.
  - destruct (Nat.lt_ge_cases j i) as [B|B].
    + rewrite nth_error_app1 by lia. rewrite <- (firstn_skipn i l) at 2. now rewrite nth_error_app1 by lia.
    + rewrite nth_error_app2 by lia. rewrite Lf. rewrite <- (firstn_skipn (S i) l) at 2.
      assert (Ls : length (firstn (S i) l) = S i) by (rewrite firstn_length; lia).
      rewrite nth_error_app2 by lia. rewrite Ls. replace (j - i)%nat with (S (j - S i)) by lia. reflexivity.
Qed.
Lemma length_replace {A} i (x : A) l : (i < length l)%nat -> length (replace i x l) = length l.
Proof. intros L. unfold replace. rewrite app_length, firstn_length. cbn [length]. rewrite skipn_length. lia. Qed.
Lemma assigned_kind A k v B : assigned A k v = Ok B -> (forall x, A <> A1 (VS x)) -> forall x, B <> A1 (VS x).
Proof.
  intros H N x ->. unfold assigned in H. destruct A as [w|n rows|w].
  - destruct (Nat.ltb k _); [|discriminate]. destruct w as [y|w|w]; [discriminate|discriminate|destruct v; discriminate].
  - destruct (nth_error rows _); [|discriminate]. destruct (Nat.ltb _ _); discriminate.
  - destruct (Nat.ltb _ _); discriminate.
Qed.
Lemma get_plain st l S i r : inv (h_mem st) (h_vars st) l S -> h_ref st i = Some r -> nth_error (h_vars st) i = Some (HRef r) /\
  if plain (h_mem st) r then exists v, as_values (nth_error l i) = Some v /\ isref 0 [] (h_mem st) r v else as_values (nth_error l i) = None.
Proof.
  intros I H. pose proof (get_ref st l S i I) as K. rewrite H in K. destruct K as (x & K & -> & R). split; [exact K|].
  destruct (plain (h_mem st) r) eqn:P; [now apply (as_values_isref _ _ _ R)|now apply (as_values_none _ _ _ R)].
Qed.
Lemma isref_self m r v : isref 0 [] m r v -> isref (length m) (addr r) m r v.
Proof. intros H. apply isref_split. split; [exact H|]. intros a I. now right. Qed.
Lemma isref_more n F G m r v : isref n F m r v -> incl F G -> isref n G m r v.
Proof. rewrite !(isref_split n). intros [H W] IG. split; [exact H|]. intros a I. destruct (W a I); [now left|right; now apply IG]. Qed.

Lemma sim_convert_in_place X st l S i t u : inv (h_mem st) (h_vars st) l S ->
  agree (h_step X st (ConvertInPlace i t u)) (v_step X l (ConvertInPlace i t u)) (S ++ []).
Proof.
  intros I. assert (IS : incl S (S ++ [])) by apply incl_appl, incl_refl. cbn [h_step v_step]. pose proof (get_spec st l S i I) as G.
  destruct (h_spec st i) as [s|]; [|rewrite G; now apply (agree_senseless st l S)]. destruct G as (sp & Hi & -> & Hl & R).
  destruct (refines_in_place s sp t u (h_mem st) (isspec_self _ _ _ R)) as (m' & E & K).
  destruct (convert_in_place sp t u) as [[[]|e] s'].
  - destruct K as (s1 & -> & K). split; [reflexivity|]. cbn [h_mem h_vars snd fst]. apply isspec_split in K. destruct K as [K W].
    assert (Li : (i < length (h_vars st))%nat) by (apply nth_error_Some; congruence).
    assert (Lx : (i < length l)%nat) by now rewrite <- (inv_len _ _ _ _ I).
    apply (inv_nothing m' _ _ S); [|apply ext_refl|exact IS].
    change (set_var i (HSpec s1) (h_vars st)) with (replace i (HSpec s1) (h_vars st)). change (set_var i (XSpec s') l) with (replace i (XSpec s') l).
    assert (N1 : forall j, nth_error (replace i (HSpec s1) (h_vars st)) j = if Nat.eqb j i then Some (HSpec s1) else nth_error (h_vars st) j).
    { intros j. now apply nth_replace. }
    assert (N2 : forall j, nth_error (replace i (XSpec s') l) j = if Nat.eqb j i then Some (XSpec s') else nth_error l j).
    { intros j. now apply nth_replace. }
    split.
    + rewrite !length_replace by assumption. apply (inv_len _ _ _ _ I).
    + intros j h. rewrite N1, N2. destruct (Nat.eqb_spec j i) as [->|N].
      * intros H. injection H as <-. exists (XSpec s'). now split.
      * intros H. destruct (inv_rep _ _ _ _ I j h H) as (x & Hx & Rx). exists x. split; [exact Hx|now apply (rep_ext (h_mem st))].
    + intros j a k h. rewrite !N1. destruct (Nat.eqb_spec j i) as [->|N]; [discriminate|]. intros Hj Nj.
      destruct (Nat.eqb_spec k i) as [->|N'].
      * intros H Njk. injection H as <-. intros J. cbn in J. destruct (W a J) as [B|B].
        -- destruct (inv_rep _ _ _ _ I j _ Hj) as (x & Hx & Rx). assert (a < length (h_mem st))%nat by (apply (rep_bound _ _ x a Rx); cbn; tauto). lia.
        -- now apply (inv_sep _ _ _ _ I j a i (HSpec s) Hj Nj Hi N).
      * intros H Njk. now apply (inv_sep _ _ _ _ I j a k h).
  - rewrite K. split; [reflexivity|]. cbn. now apply (inv_nothing (h_mem st) _ _ S).
Qed.
Lemma sim_assign X st l S i k v : inv (h_mem st) (h_vars st) l S -> ~ In i S ->
  agree (h_step X st (Assign i k v)) (v_step X l (Assign i k v)) (S ++ []).
Proof.
  intros I NS. assert (IS : incl S (S ++ [])) by apply incl_appl, incl_refl. cbn [h_step v_step]. pose proof (get_ref st l S i I) as G.
  destruct (h_ref st i) as [[x|a]|].
  - destruct G as (y & _ & -> & R). destruct y; try easy. now apply (agree_senseless st l S).
  - destruct G as (y & Hi & Hl & R). rewrite Hl. destruct y as [ |A| | | | ]; try easy. destruct R as [E NA]. rewrite E.
    destruct (assigned A k v) as [B|e] eqn:EB; [|split; [reflexivity|]; cbn; apply (inv_nothing (h_mem st) _ _ S); [exact I|apply ext_refl|exact IS]].
    split; [reflexivity|]. cbn [h_mem h_vars snd fst].
    assert (La : (a < length (h_mem st))%nat) by (apply nth_error_Some; congruence).
    apply (inv_nothing (store (h_mem st) a B) _ _ S); [|apply ext_refl|exact IS].
    assert (Lx : (i < length l)%nat) by (apply nth_error_Some; congruence).
    assert (N2 : forall j, nth_error (set_var i (XArr B) l) j = if Nat.eqb j i then Some (XArr B) else nth_error l j) by (intros j; now apply nth_replace).
    split.
    + unfold set_var. rewrite length_replace by assumption. apply (inv_len _ _ _ _ I).
    + intros j h Hj. rewrite N2. destruct (Nat.eqb_spec j i) as [->|N].
      * exists (XArr B). split; [reflexivity|]. rewrite Hi in Hj. injection Hj as <-. split; [rewrite nth_store, Nat.eqb_refl by exact La; reflexivity|].
        apply (assigned_kind A k v B EB NA).
      * destruct (inv_rep _ _ _ _ I j h Hj) as (x & Hx & Rx). exists x. split; [exact Hx|]. apply (rep_frame (h_mem st) (store (h_mem st) a B) a).
        -- intros b Nb. rewrite nth_store by exact La. destruct (Nat.eqb_spec b a); [easy|reflexivity].
        -- apply (inv_sep _ _ _ _ I i a j h Hi NS Hj). congruence.
        -- exact Rx.
    + apply (inv_sep _ _ _ _ I).
  - destruct G as (_ & G1 & G2). assert (K : forall A (f : arr -> A) (d : A), match nth_error l i with Some (XArr a) => f a | _ => d end = d).
    { intros A f d. destruct (nth_error l i) as [[ | | | | | ]|]; try reflexivity. now destruct (G2 a). }
    rewrite K. now apply (agree_senseless st l S).
Qed.
Lemma not_in_app {A} (a : A) l l' : ~ In a (l ++ l') -> ~ In a l /\ ~ In a l'. Proof. rewrite in_app_iff. tauto. Qed.

Lemma sim_step X st l S o : inv (h_mem st) (h_vars st) l S -> (forall i k v, o = Assign i k v -> ~ In i S) ->
  agree (h_step X st o) (v_step X l o) (S ++ shares (length (h_vars st)) o).
Proof.
  intros I Po. assert (IS : incl S (S ++ shares (length (h_vars st)) o)) by apply incl_appl, incl_refl.
  set (S' := S ++ shares (length (h_vars st)) o) in *.
  destruct o as [x|i t u|v t u|s t u|i t u|s s'|s|id i t u|name i rng t u|x i t u|x s|x|i|i k v].
  - unfold S', shares. rewrite app_nil_r.
    assert (K : forall x, (forall y, x <> A1 (VS y)) -> agree (finish st (new_array x (h_mem st)) (fun a m => (Array x, HRef (RArr a)))) (Array x, l ++ [XArr x]) S).
    { clear x S' IS Po. intros x N. split; [reflexivity|]. cbn. apply (inv_add [] (h_mem st) _ _ S).
      - exact I.
      - apply ext_new.
      - split; [rewrite nth_error_app2, Nat.sub_diag by lia; reflexivity|exact N].
      - intros a [<-|[]]. now left.
      - intros i a _ _ [].
      - apply incl_refl.
      - intros _ a H. injection H as <-. lia. }
    destruct x as [[x|w|w]|n rows|w]; try (apply K; discriminate). split; [reflexivity|]. cbn. apply (inv_add [] (h_mem st) _ _ S); try easy. apply ext_refl.
  - cbn [h_step v_step]. pose proof (get_plain st l S i) as G. pose proof (get_ref st l S i I) as G0.
    destruct (h_ref st i) as [r|]; [|destruct G0 as [-> _]; now apply (agree_senseless st l S)].
    destruct (G r I eq_refl) as [Hi K]. destruct (plain (h_mem st) r); [|rewrite K; now apply (agree_senseless st l S)]. destruct K as (v & -> & R).
    apply (agree_finish (isspec (length (h_mem st)) (addr r))) with (S := S); try assumption.
    + apply refines_spectrum; [lia|]. now apply isref_self.
    + intros a b m' E H. split; [reflexivity|]. cbn [snd fst]. apply isspec_split in H. destruct H as [H W].
      apply (inv_add (addr r) (h_mem st) _ _ S); try assumption; try easy.
      intros j a0 Hj Nj. apply (inv_own _ _ _ _ S' j a0 i _ I IS Hj Nj Hi). left. apply in_or_app. right. now left.
  - cbn [h_step v_step]. apply (agree_finish (isspec (length (h_mem st)) [])) with (S := S); try assumption.
    + apply refines_spectrum; [lia|]. now destruct v.
    + intros a b m' E H. split; [reflexivity|]. cbn [snd fst]. apply isspec_split in H. destruct H as [H W].
      apply (inv_add [] (h_mem st) _ _ S); try assumption; try easy.
  - cbn [h_step v_step]. pose proof (get_spec st l S s I) as G. destruct (h_spec st s) as [s0|]; [|rewrite G; now apply (agree_senseless st l S)].
    destruct G as (sp & Hi & -> & Hl & R). destruct (to_metres t u) eqn:T.
    + apply (agree_finish (fun m a v => isref (length (h_mem st)) (foot_spec s0) m (snd a) v)) with (S := S); try assumption.
      * apply refines_convert_to; [lia|now apply isspec_self].
      * intros a b m' E H. destruct (rep_shown _ _ _ _ _ H) as [K1 K2]. split; [symmetry; exact K1|]. cbn [snd fst]. apply isref_split in H. destruct H as [H W].
        apply (inv_add (foot_spec s0) (h_mem st) _ _ S); try assumption.
        -- intros j a0 Hj Nj. apply (inv_own _ _ _ _ S' j a0 s _ I IS Hj Nj Hi). right. discriminate.
        -- intros N. destruct N. unfold S', shares. rewrite T. apply in_or_app. right. now left.
    + apply (agree_finish (fun m a v => isref (length (h_mem st)) [] m (snd a) v)) with (S := S); try assumption.
      * now apply refines_convert_new.
      * intros a b m' E H. destruct (rep_shown _ _ _ _ _ H) as [K1 K2]. split; [symmetry; exact K1|]. cbn [snd fst]. apply isref_split in H. destruct H as [H W].
        apply (inv_add [] (h_mem st) _ _ S); try assumption.
        -- intros j a0 _ _ [].
        -- intros N a0 H0. injection H0 as H0. destruct (W a0) as [B|[]]; [rewrite H0; now left|exact B].
  - unfold S'. now apply sim_convert_in_place.
  - cbn [h_step v_step]. pose proof (get_spec st l S s I) as G. destruct (h_spec st s) as [s0|]; [|rewrite G; now apply (agree_senseless st l S)].
    destruct G as (sp & Hi & -> & Hl & R). pose proof (get_spec st l S s' I) as G'. destruct (h_spec st s') as [s1|]; [|rewrite G'; now apply (agree_senseless st l S)].
    destruct G' as (sp' & Hi' & -> & Hl' & R'). apply (agree_finish (fun _ a b => a = b)) with (S := S); try assumption.
    + apply (refines_contains 0 []); [lia|exact R|exact R'].
    + intros a b m' E ->. split; [reflexivity|]. now apply (inv_nothing (h_mem st) _ _ S).
  - cbn [h_step v_step]. pose proof (get_spec st l S s I) as G. destruct (h_spec st s) as [s0|]; [|rewrite G; now apply (agree_senseless st l S)].
    destruct G as (sp & Hi & -> & Hl & R). assert (H : isref 0 [] (h_mem st) (ms_values s0) (sp_values sp)) by apply R.
    destruct (rep_shown _ _ _ _ _ H) as [K1 K2]. destruct (shown (sp_values sp)) as [o x]. cbn in K1, K2. split; [symmetry; exact K1|]. cbn [h_mem h_vars snd].
    apply (inv_add (foot_spec s0) (h_mem st) _ _ S); try assumption.
    + apply ext_refl.
    + intros a J. right. apply in_or_app. left. exact J.
    + intros j a0 Hj Nj. apply (inv_own _ _ _ _ S' j a0 s _ I IS Hj Nj Hi). right. discriminate.
    + intros N. destruct N. apply in_or_app. right. now left.
  - cbn [h_step v_step]. pose proof (get_ref st l S i I) as G.
    destruct (h_ref st i) as [[x|a]|].
    + destruct G as (y & _ & -> & R). destruct y; try easy. now apply (agree_senseless st l S).
    + destruct G as (y & Hi & -> & R). destruct y as [ |A| | | | ]; try easy. destruct R as [E NA]. rewrite E.
      destruct A as [ |n rows| ]; try now apply (agree_senseless st l S).
      destruct (smem id ["nk"; "n"; "eps"]) eqn:M; [|now apply (agree_senseless st l S)].
      assert (Id : In id ["nk"; "n"; "eps"]) by now apply smem_In.
      destruct (string_dec id "n") as [->|Nid].
      * apply (agree_finish (ismat (length (h_mem st)) [a])) with (S := S); try assumption.
        -- apply (refines_table _ [a] "n" a n); [exact Id|lia|exact E|intros _; now left].
        -- intros x M0 m' E' H. split; [reflexivity|]. cbn [snd fst]. apply ismat_split in H. destruct H as [H W].
           apply (inv_add [a] (h_mem st) _ _ S); try assumption; try easy.
           intros j a0 Hj Nj. apply (inv_own _ _ _ _ S' j a0 i _ I IS Hj Nj Hi). left. apply in_or_app. right. now left.
      * apply (agree_finish (ismat (length (h_mem st)) [])) with (S := S); try assumption.
        -- apply (refines_table _ [] id a n); [exact Id|lia|exact E|intros Hn; now destruct Nid].
        -- intros x M0 m' E' H. split; [reflexivity|]. cbn [snd fst]. apply ismat_split in H. destruct H as [H W].
           apply (inv_add [] (h_mem st) _ _ S); try assumption; try easy.
    + destruct G as (_ & G1 & G2). assert (K : forall A (f : nat -> list (list xr) -> A) (d : A), match nth_error l i with Some (XArr (A2 n rows)) => f n rows | _ => d end = d).
      { intros A f d. destruct (nth_error l i) as [[ |b| | | | ]|]; try reflexivity. now destruct (G2 b). }
      rewrite K. now apply (agree_senseless st l S).
  - cbn [h_step v_step]. destruct (dget model_names name) as [k|] eqn:D; [|now apply (agree_senseless st l S)].
    pose proof (get_ref st l S i I) as G.
    destruct (h_ref st i) as [[x|a]|].
    + destruct G as (y & _ & -> & R). destruct y; try easy. now apply (agree_senseless st l S).
    + destruct G as (y & Hi & -> & R). destruct y as [ |A| | | | ]; try easy. destruct R as [E NA]. rewrite E.
      destruct A as [[ |p| ]| | ]; try now apply (agree_senseless st l S).
      destruct rng as [j|w].
      * pose proof (get_plain st l S j) as G. pose proof (get_ref st l S j I) as G0.
        destruct (h_ref st j) as [r|]; [|destruct G0 as [-> _]; now apply (agree_senseless st l S)].
        destruct (G r I eq_refl) as [Hj K]. destruct (plain (h_mem st) r); [|rewrite K; now apply (agree_senseless st l S)]. destruct K as (w & -> & R).
        apply (agree_finish (ismat (length (h_mem st)) (a :: addr r))) with (S := S); try assumption.
        -- apply refines_model_material; try assumption; [lia|now left|]. apply (isref_more _ (addr r)); [now apply isref_self|]. intros b J. now right.
        -- intros x M0 m' E' H. split; [reflexivity|]. cbn [snd fst]. apply ismat_split in H. destruct H as [H W].
           apply (inv_add (a :: addr r) (h_mem st) _ _ S); try assumption; try easy.
           intros q a0 Hq Nq [J|J].
           ++ apply (inv_own _ _ _ _ S' q a0 i _ I IS Hq Nq Hi); [left; apply in_or_app; right; now left|now left].
           ++ apply (inv_own _ _ _ _ S' q a0 j _ I IS Hq Nq Hj); [left; apply in_or_app; right; right; now left|exact J].
      * apply (agree_finish (ismat (length (h_mem st)) [a])) with (S := S); try assumption.
        -- apply refines_model_material; try assumption; [lia|now left|reflexivity].
        -- intros x M0 m' E' H. split; [reflexivity|]. cbn [snd fst]. apply ismat_split in H. destruct H as [H W].
           apply (inv_add [a] (h_mem st) _ _ S); try assumption; try easy.
           intros q a0 Hq Nq. apply (inv_own _ _ _ _ S' q a0 i _ I IS Hq Nq Hi). left. apply in_or_app. right. now left.
    + destruct G as (_ & G1 & G2). assert (K : forall A (f : list xr -> A) (d : A), match nth_error l i with Some (XArr (A1 (VA p))) => f p | _ => d end = d).
      { intros A f d. destruct (nth_error l i) as [[ |b| | | | ]|]; try reflexivity. now destruct (G2 b). }
      rewrite K. now apply (agree_senseless st l S).
  - cbn [h_step v_step]. pose proof (get_mat st l S x I) as G. destruct (h_mat st x) as [y|]; [|rewrite G; now apply (agree_senseless st l S)].
    destruct G as (M & Hx & -> & RM). pose proof (get_plain st l S i) as G. pose proof (get_ref st l S i I) as G0.
    destruct (h_ref st i) as [r|]; [|destruct G0 as [-> _]; now apply (agree_senseless st l S)].
    destruct (G r I eq_refl) as [Hj K]. destruct (plain (h_mem st) r); [|rewrite K; now apply (agree_senseless st l S)]. destruct K as (w & -> & R).
    apply (agree_finish _ _ _ _ _ _ _ S _ I IS (refines_evaluated X y M r w t u _ RM R)).
    intros a b m' E (H1 & H2 & H3). split; [exact H1|]. apply (inv_add [] (h_mem st) _ _ S); try assumption.
    + intros j a0 _ _ [].
    + intros _ a0 H0. rewrite H0 in H3. destruct (H3 a0) as [B|[]]; [now left|exact B].
  - cbn [h_step v_step]. pose proof (get_mat st l S x I) as G. destruct (h_mat st x) as [y|]; [|rewrite G; now apply (agree_senseless st l S)].
    destruct G as (M & Hx & -> & RM). pose proof (get_spec st l S s I) as G. destruct (h_spec st s) as [s0|]; [|rewrite G; now apply (agree_senseless st l S)].
    destruct G as (sp & Hi & -> & Hl & R). destruct R as (Rv & _ & Rt & Ru). rewrite Rt, Ru.
    change (get_nk_data X M (SObj sp)) with (get_nk_data X M (SRaw (InVals (sp_values sp)) (sp_type sp) (sp_unit sp))).
    apply (agree_finish _ _ _ _ _ _ _ S _ I IS (refines_evaluated X y M _ _ _ _ _ RM Rv)).
    intros a b m' E (H1 & H2 & H3). split; [exact H1|]. apply (inv_add [] (h_mem st) _ _ S); try assumption.
    + intros j a0 _ _ [].
    + intros _ a0 H0. rewrite H0 in H3. destruct (H3 a0) as [B|[]]; [now left|exact B].
  - cbn [h_step v_step]. pose proof (get_mat st l S x I) as G. destruct (h_mat st x) as [y|]; [|rewrite G; now apply (agree_senseless st l S)].
    destruct G as (M & Hx & -> & RM). destruct (ismat_of _ _ _ _ _ RM) as [_ ->]. split; [reflexivity|]. apply (inv_nothing (h_mem st) _ _ S); [exact I|apply ext_refl|exact IS].
  - cbn [h_step v_step]. pose proof (get_ref st l S i I) as G.
    destruct (h_ref st i) as [r|].
    + destruct G as (y & Hi & -> & R). assert (N : inv (h_mem st) (h_vars st ++ [HNone]) (l ++ [XNone]) S') by (apply (inv_nothing (h_mem st) _ _ S); [exact I|apply ext_refl|exact IS]).
      destruct r as [x|a], y as [z|A| | | | ]; try easy; cbn in R; [subst x|destruct R as [E NA]; cbn; rewrite E]; split; try reflexivity; exact N.
    + destruct G as (_ & G1 & G2). destruct (nth_error l i) as [[x|b| | | | ]|]; try now apply (agree_senseless st l S). now destruct (G1 x). now destruct (G2 b).
  - unfold S'. apply sim_assign; [exact I|now apply (Po i k v)].
Qed.

(** ** sessions *)
Lemma length_add {A} (l : list A) x : length (l ++ [x]) = S (length l). Proof. rewrite app_length. cbn. lia. Qed.
Lemma length_outcome {A} l (r : res A) f : length (snd (outcome l r f)) = S (length l).
Proof. unfold outcome. destruct r as [a|e]; [destruct (f a)|]; cbn; apply length_add. Qed.
Lemma v_step_length X l o : length (snd (v_step X l o)) = S (length l).
Proof.
  assert (K : forall i (f : spectrum -> out * list var), (forall s, nth_error l i = Some (XSpec s) -> length (snd (f s)) = S (length l)) ->
    length (snd (match as_spec (nth_error l i) with Some s => f s | None => no_sense l end)) = S (length l)).
  { intros i f H. destruct (nth_error l i) as [[ | | s| | | ]|]; cbn [as_spec no_sense snd]; try apply length_add. now apply H. }
  destruct o; cbn [v_step];
    repeat match goal with
    | |- length (snd (outcome _ _ _)) = _ => apply length_outcome
    | |- length (snd (no_sense _)) = _ => apply length_add
    | |- length (snd (_, _ ++ _)) = _ => cbn [snd]; rewrite app_length; cbn [length]; try lia
    | |- length (snd (match as_spec _ with _ => _ end)) = _ => apply K; intros
    | |- length (snd (let (_, _) := shown ?v in _)) = _ => destruct (shown v)
    | |- length (snd (match convert_in_place ?a ?b ?c with _ => _ end)) = _ => destruct (convert_in_place a b c) as [[]]
    | |- length (snd (match assigned ?a ?b ?c with _ => _ end)) = _ => destruct (assigned a b c)
    | H : nth_error ?l ?i = Some _ |- (length (set_var ?i _ ?l) + 1 = _)%nat => unfold set_var; rewrite length_replace by (apply nth_error_Some; congruence); lia
    | |- length (snd (match ?e with _ => _ end)) = _ => destruct e eqn:?
    end.
Qed.
Lemma shared_app h h' : forall k, shared_from k (h ++ h') = shared_from k h ++ shared_from (k + length h) h'.
Proof.
  induction h as [|o h IH]; intros k; cbn; [now rewrite Nat.add_0_r|]. rewrite IH, app_assoc. do 2 f_equal. lia.
Qed.
Lemma shared_snoc h o : shared (h ++ [o]) = shared h ++ shares (length h) o.
Proof. unfold shared. rewrite shared_app. cbn. now rewrite app_nil_r. Qed.
Lemma sim_run X h : forall st l before, inv (h_mem st) (h_vars st) l (shared before) -> length (h_vars st) = length before ->
  polite (before ++ h) -> fst (h_run X st h) = fst (v_run X l h) /\ inv (h_mem (snd (h_run X st h))) (h_vars (snd (h_run X st h))) (snd (v_run X l h)) (shared (before ++ h)).
Proof.
  induction h as [|o h IH]; intros st l before I L P; [rewrite app_nil_r; now split|]. cbn [h_run v_run].
  assert (Po : forall i k v, o = Assign i k v -> ~ In i (shared before)).
  { intros i k v ->. now apply (P before i k v h). }
  destruct (sim_step X st l (shared before) o I Po) as [E I']. pose proof (v_step_length X l o) as LV.
  destruct (h_step X st o) as [x st'], (v_step X l o) as [y l']. cbn [fst snd] in E, I', LV. subst y.
  rewrite L, <- shared_snoc in I'.
  destruct (IH st' l' (before ++ [o])) as [E2 I2].
  - exact I'.
  - rewrite (inv_len _ _ _ _ I'), LV, app_length, <- L, (inv_len _ _ _ _ I). cbn. lia.
  - intros b i k v a H. apply (P b i k v a). rewrite <- H, <- app_assoc. reflexivity.
  - destruct (h_run X st' h) as [xs st''], (v_run X l' h) as [ys l'']. cbn [fst snd] in *. rewrite <- app_assoc in I2. cbn [app] in I2. split; [now rewrite E2|exact I2].
Qed.
Lemma inv_start : inv [] [] [] []. 
Proof. split; [reflexivity| |]; intros [|i]; discriminate. Qed.
Lemma polite_values X h : polite h -> fst (h_run X start h) = fst (v_run X [] h).
Proof. intros P. now apply (sim_run X h start [] []); [apply inv_start| |]. Qed.

(** ** the library writes into no array that exists *)
Definition keeps {A} (c : mm A) : Prop := forall m a x, nth_error m a = Some x -> nth_error (snd (c m)) a = Some x.
Lemma keeps_ret {A} (a : A) : keeps (mret a). Proof. easy. Qed.
Lemma keeps_fail {A} e : keeps (@mfail A e). Proof. easy. Qed.
Lemma keeps_pure {A} (r : res A) : keeps (mpure r). Proof. easy. Qed.
Lemma keeps_read r : keeps (read r). Proof. easy. Qed.
Lemma keeps_bind {A B} (c : mm A) (f : A -> mm B) : keeps c -> (forall a, keeps (f a)) -> keeps (mbind c f).
Proof.
  intros K L m a x H. unfold mbind. specialize (K m a x H). destruct (c m) as [[b|e] m']; cbn in *; [now apply L|exact K].
Qed.
Lemma keeps_new x : keeps (new_array x). Proof. intros m a y H. cbn. rewrite nth_error_app1; [exact H|]. apply nth_error_Some. congruence. Qed.
Lemma keeps_local {A} (f : mem -> mm A) : (forall m, keeps (f m)) -> keeps (fun m => f m m).
Proof. intros K m. apply (K m). Qed.
Lemma keeps_np_array v : keeps (np_array v).
Proof. unfold np_array. destruct v; [apply keeps_ret| |]; (apply keeps_bind; [apply keeps_new|intros; apply keeps_ret]). Qed.
Lemma keeps_compute f r : keeps (compute f r).
Proof. unfold compute. apply keeps_bind; [apply keeps_read|]. intros; apply keeps_np_array. Qed.
(** an array made within the computation may be changed *)
Definition keeps_but {A} (n : nat) (c : mm A) : Prop := forall m a x, (a < n)%nat -> nth_error m a = Some x -> nth_error (snd (c m)) a = Some x.
Lemma keeps_but_bind {A B} n (c : mm A) (f : A -> mm B) : keeps_but n c -> (forall a, keeps_but n (f a)) -> keeps_but n (mbind c f).
Proof.
  intros K L m a x N H. unfold mbind. specialize (K m a x N H). destruct (c m) as [[b|e] m']; cbn in *; [now apply L|exact K].
Qed.
Lemma store_other m a x b y : b <> a -> nth_error m b = Some y -> nth_error (store m a x) b = Some y.
Proof.
  intros N H. destruct (Nat.lt_ge_cases a (length m)) as [L|L].
  - rewrite nth_store by exact L. now destruct (Nat.eqb_spec b a).
  - assert (b < length m)%nat by (apply nth_error_Some; congruence). unfold store. rewrite firstn_all2 by exact L. now rewrite nth_error_app1.
Qed.
Lemma keeps_but_assign n a mask new : (n <= a)%nat -> keeps_but n (assign_where a mask new).
Proof. intros L m b x N H. unfold assign_where. destruct (vec m a); cbn; try exact H. apply store_other; [lia|exact H]. Qed.
Lemma keeps_inverse r : keeps (m_safe_inverse r).
Proof.
  unfold m_safe_inverse. apply keeps_bind; [apply keeps_read|]. intros v.
  assert (K : keeps (let* inverse := new_array (A1 v) in
      let* _ := assign_where inverse (map isclose_zero (elems v)) (map (fun _ => PInf) (elems v)) in
      let* _ := assign_where inverse (map isclose_inf (elems v)) (map (fun _ => Fin 0) (elems v)) in
      let* v' := read r in
      let* _ := assign_where inverse (map (fun x => negb (isclose_zero x || isclose_inf x)) (elems v)) (map (xdiv (Fin 1)) (elems v')) in
      mret (RArr inverse))).
  { intros m a x H. assert (La : (a < length m)%nat) by (apply nth_error_Some; congruence).
    assert (N : nth_error (m ++ [A1 v]) a = Some x) by now rewrite nth_error_app1.
    unfold mbind at 1. cbn [new_array].
    match goal with |- nth_error (snd (?c (m ++ [A1 v]))) a = _ => assert (Q : keeps_but (length m) c) end.
    - repeat (apply keeps_but_bind; [first [apply keeps_but_assign; lia | intros ? ? ? ? E; exact E]|intros]). intros ? ? ? ? E. exact E.
    - now apply Q. }
  destruct v; [apply keeps_ret|exact K|exact K].
Qed.
Ltac keeps_tac := repeat match goal with
  | |- keeps (mbind _ _) => apply keeps_bind; [|intros]
  | |- keeps (mret _) => apply keeps_ret
  | |- keeps (mfail _) => apply keeps_fail
  | |- keeps (mpure _) => apply keeps_pure
  | |- keeps (read _) => apply keeps_read
  | |- keeps (new_array _) => apply keeps_new
  | |- keeps (np_array _) => apply keeps_np_array
  | |- keeps (compute _ _) => apply keeps_compute
  | |- keeps (m_safe_inverse _) => apply keeps_inverse
  | |- keeps (if ?b then _ else _) => destruct b
  | |- keeps (match ?b with _ => _ end) => destruct b
  end.
Lemma keeps_from t u r : keeps (m_convert_from t u r).
Proof. unfold m_convert_from, m_reciprocal_to_standard, m_wavelength_to_standard. keeps_tac. Qed.
Lemma keeps_to t u r : keeps (m_to_dispatch t u r).
Proof. unfold m_to_dispatch, m_reciprocal_to_standard, m_to_wavelength. keeps_tac. Qed.
Lemma keeps_spectrum a t u : keeps (m_spectrum a t u).
Proof. unfold m_spectrum, m_standardise. keeps_tac; apply keeps_from. Qed.
Lemma keeps_convert s t u : keeps (m_convert s t u).
Proof. unfold m_convert. keeps_tac. apply keeps_to. Qed.
Lemma keeps_in_place s t u : keeps (m_convert_in_place s t u).
Proof. unfold m_convert_in_place. keeps_tac. apply keeps_convert. Qed.
Lemma keeps_contains s s' : keeps (m_contains s s').
Proof. unfold m_contains. keeps_tac. apply keeps_convert. Qed.
Lemma keeps_base a t u : keeps (m_base a t u).
Proof. unfold m_base. keeps_tac. apply keeps_spectrum. Qed.
Lemma keeps_constant c v t u : keeps (m_constant c v t u).
Proof. unfold m_constant. keeps_tac. apply keeps_base. Qed.
Lemma keeps_interpolation a t u : keeps (m_interpolation a t u).
Proof.
  apply (keeps_local (fun m => let rows := pair_cols 0 1 (table_at m a) in
    let* mn := mpure (np_min (map fst rows)) in let* mx := mpure (np_max (map fst rows)) in
    let* b := m_base (Listed (VA [mn; mx])) t u in let* _ := mpure (interp1d_check rows) in mret (MInterp b a rows))).
  intros m. cbv zeta. keeps_tac. apply keeps_base.
Qed.
Lemma keeps_spec_data a t u : keeps (m_spec_data a t u).
Proof. intros m. unfold m_spec_data. destruct (pair_cols 0 1 (table_at m a)) as [|r [|]]; first [apply keeps_constant|apply keeps_interpolation]. Qed.
Lemma keeps_columns a j : keeps (take_columns a j).
Proof. intros m. unfold take_columns. apply keeps_new. Qed.
Lemma keeps_model k a rng t u : keeps (m_model_material k a rng t u).
Proof. unfold m_model_material, m_model, m_zero. keeps_tac; first [apply keeps_base|apply keeps_constant]. Qed.
Lemma keeps_table id a t u : keeps (m_table id a t u).
Proof.
  intros m b x H. unfold m_table. destruct (nth_error m a) as [[ |n rows| ]|]; try exact H.
  destruct (String.eqb id "n"), (Nat.eqb n _); try exact H; revert H.
  - apply (fun K : keeps (m_table2 a t u) => K m). unfold m_table2, m_zero. keeps_tac; first [apply keeps_spec_data|apply keeps_constant].
  - apply (fun K : keeps (m_table3 id a t u) => K m). unfold m_table3. keeps_tac; first [apply keeps_spec_data|apply keeps_columns].
Qed.
Lemma keeps_evaluated X x r t u : keeps (evaluated X x r t u).
Proof. unfold evaluated, m_get_nk_data. keeps_tac; [apply keeps_spectrum|easy]. Qed.

(** what a line keeps: the arrays and the variables that refer to them *)
Definition kept (st st' : hstate) : Prop :=
  (forall a x, nth_error (h_mem st) a = Some x -> nth_error (h_mem st') a = Some x) /\
  (forall i r, nth_error (h_vars st) i = Some (HRef r) -> nth_error (h_vars st') i = Some (HRef r)).
Lemma kept_add m hv m' h : (forall a x, nth_error m a = Some x -> nth_error m' a = Some x) -> kept (mkH m hv) (mkH m' (hv ++ [h])).
Proof. intros H. split; [exact H|]. cbn. intros i r E. rewrite nth_error_app1; [exact E|]. apply nth_error_Some. congruence. Qed.
Lemma kept_finish {A} st (c : mm A) f : keeps c -> kept st (snd (finish st (c (h_mem st)) f)).
Proof.
  intros K. specialize (K (h_mem st)). destruct st as [m hv]. cbn [h_mem h_vars] in *. unfold finish. destruct (c m) as [[a|e] m']; cbn in K.
  - destruct (f a m') as [o h]. cbn. now apply kept_add.
  - cbn. now apply kept_add.
Qed.
Lemma kept_same st h : kept st (mkH (h_mem st) (h_vars st ++ [h])).
Proof. destruct st. now apply kept_add. Qed.
Lemma kept_step X st o : (forall i k v, o <> Assign i k v) -> kept st (snd (h_step X st o)).
Proof.
  intros N. destruct o as [x|i t u|v t u|s t u|i t u|s s'|s|id i t u|name i rng t u|x i t u|x s|x|i|i k v]; cbn [h_step].
  5: { unfold h_spec. destruct (nth_error (h_vars st) i) as [[ |s| | | ]|] eqn:E; try apply kept_same.
       pose proof (keeps_in_place s t u (h_mem st)) as K. destruct (m_convert_in_place s t u (h_mem st)) as [[s'|e] m'].
       - cbn [snd] in *. split; [exact K|]. cbn. intros j r H. assert (Li : (i < length (h_vars st))%nat) by (apply nth_error_Some; congruence).
         rewrite nth_error_app1; [|unfold set_var; rewrite length_replace by exact Li; apply nth_error_Some; congruence].
         unfold set_var. rewrite nth_replace by exact Li. destruct (Nat.eqb_spec j i) as [->|]; [congruence|exact H].
       - cbn [snd] in *. destruct st. now apply kept_add. }
  13: now destruct (N i k v).
  all: repeat match goal with
    | |- kept _ (snd (senseless _)) => apply kept_same
    | |- kept _ (snd (_, mkH _ _)) => apply kept_same
    | |- kept _ (snd (finish _ (new_array _ _) _)) => apply kept_finish, keeps_new
    | |- kept _ (snd (finish _ (m_spectrum _ _ _ _) _)) => apply kept_finish, keeps_spectrum
    | |- kept _ (snd (finish _ (m_convert _ _ _ _) _)) => apply kept_finish, keeps_convert
    | |- kept _ (snd (finish _ (m_contains _ _ _) _)) => apply kept_finish, keeps_contains
    | |- kept _ (snd (finish _ (m_table _ _ _ _ _) _)) => apply kept_finish, keeps_table
    | |- kept _ (snd (finish _ (m_model_material _ _ _ _ _ _) _)) => apply kept_finish, keeps_model
    | |- kept _ (snd (finish _ (evaluated _ _ _ _ _ _) _)) => apply kept_finish, keeps_evaluated
    | |- kept _ (snd (match ?e with _ => _ end)) => destruct e
    end.
Qed.
Lemma kept_refl st : kept st st. Proof. now split. Qed.
Lemma kept_trans a b c : kept a b -> kept b c -> kept a c.
Proof. intros [H H'] [K K']. split; intros; [now apply K, H|now apply K', H']. Qed.
Lemma kept_run X h : forall st, read_only h -> kept st (snd (h_run X st h)).
Proof.
  induction h as [|o h IH]; intros st R; [apply kept_refl|]. cbn [h_run].
  assert (K : kept st (snd (h_step X st o))) by (apply kept_step; intros i k v ->; apply (R i k v); now left).
  assert (R' : read_only h) by (intros i k v J; apply (R i k v); now right).
  destruct (h_step X st o) as [x st']. cbn [snd] in K. specialize (IH st' R'). destruct (h_run X st' h) as [xs st'']. cbn [snd] in *. now apply (kept_trans st st').
Qed.
Lemma run_app X h h' : forall st, h_run X st (h ++ h') = (let (xs, st1) := h_run X st h in let (ys, st2) := h_run X st1 h' in (xs ++ ys, st2)).
Proof.
  induction h as [|o h IH]; intros st; cbn; [now destruct (h_run X st h')|]. destruct (h_step X st o) as [x st']. rewrite IH.
  destruct (h_run X st' h) as [xs st1]. now destruct (h_run X st1 h') as [ys st2].
Qed.
(** an array variable shows the same after any session without assignments *)
Lemma look_kept X h1 h2 i x : read_only h2 -> fst (h_run X start (h1 ++ [Look i])) = fst (h_run X start h1) ++ [x] -> x <> Senseless ->
  exists ys, fst (h_run X start (h1 ++ h2 ++ [Look i])) = fst (h_run X start h1) ++ ys ++ [x].
Proof.
  intros R H NS. rewrite run_app in H. rewrite !run_app. destruct (h_run X start h1) as [xs st1] eqn:E1. rewrite run_app.
  pose proof (kept_run X h2 st1 R) as K. destruct (h_run X st1 h2) as [ys st2] eqn:E2. cbn [snd] in K. exists ys. cbn [h_run h_step] in *. unfold h_ref in *.
  destruct K as [K1 K2]. destruct (nth_error (h_vars st1) i) as [[r| | | | ]|] eqn:Ei; cbn [senseless fst] in H; 
    try (apply app_inv_head in H; injection H as <-; now destruct NS).
  rewrite (K2 i r Ei). cbn [fst] in H |- *. apply app_inv_head in H. injection H as <-. cbn [fst]. do 3 f_equal.
  destruct r as [y|a]; [reflexivity|]. cbn in *. destruct (nth_error (h_mem st1) a) as [z|] eqn:Ea; [|now destruct NS]. now rewrite (K1 a z Ea).
Qed.

(** ** shared arrays: what an assignment changes *)
Lemma refines_evaluate_of X n F x M r v t u m : (n <= length m)%nat -> (forall m1, ext m m1 -> mat_with (data_of m1) x = M) -> isref n F m r v ->
  refines (fun _ a b => a = b) (m_get_nk_data X x r t u) (get_nk_data X M (SRaw (InVals v) t u)) m.
Proof.
  intros L HM H. unfold m_get_nk_data, get_nk_data. apply refines_bind with (P := isspec n F); [now apply refines_spectrum|].
  intros s sp m1 E1 H1. unfold refines. rewrite (isspec_of _ _ _ _ _ H1), (HM m1 E1). exists m1. split; [apply ext_refl|].
  match goal with |- match ?p with Ok _ => _ | Raise _ => _ end => destruct p as [b|e]; [exists b; now split|reflexivity] end.
Qed.
Definition eval_out (r : res ovals) : out := match r with Ok b => fst (shown_result b) | Raise e => Failed e end.
Lemma evaluate_line X x M st r v t u xi i : (forall m1, ext (h_mem st) m1 -> mat_with (data_of m1) x = M) -> isref 0 [] (h_mem st) r v ->
  nth_error (h_vars st) xi = Some (HMat x) -> nth_error (h_vars st) i = Some (HRef r) ->
  exists m' h, h_step X st (Evaluate xi i t u) = (eval_out (get_nk_data X M (SRaw (InVals v) t u)), mkH m' (h_vars st ++ [h])) /\ ext (h_mem st) m'.
Proof.
  intros HM H Hx Hi. destruct (refines_evaluate_of X 0 [] x M r v t u (h_mem st) (Nat.le_0_l _) HM H) as (m1 & E & K).
  cbn [h_step]. unfold h_mat, h_ref. rewrite Hx, Hi, (proj1 H). unfold evaluated, finish, mbind.
  destruct (get_nk_data X M (SRaw (InVals v) t u)) as [[o|l]|e].
  - destruct K as (a & -> & ->). exists m1, (HVal o). now split.
  - destruct K as (a & -> & ->). cbn. exists (m1 ++ [AO l]), (HRef (RArr (length m1))). split; [reflexivity|]. apply (ext_trans _ m1); [exact E|apply ext_new].
  - rewrite K. exists m1, HNone. now split.
Qed.
Lemma base_frame m m' b B : (forall c, (1 <= c)%nat -> nth_error m' c = nth_error m c) -> isbase 1 [] m b B -> isbase 1 [] m' b B.
Proof.
  intros H (T & U & R). split; [exact T|]. split; [exact U|]. apply isspec_split in R. apply isspec_split. destruct R as [R W]. split; [|exact W].
  apply (isspec_frame m m' 0); [intros c N; apply H; lia| |exact R]. intros I. destruct (W 0%nat I) as [|[]]. lia.
Qed.
Lemma data_frame m m' d D : (forall c, (1 <= c)%nat -> nth_error m' c = nth_error m c) -> isdata 1 [] m d D -> isdata 1 [] m' d D.
Proof.
  intros H R. apply isdata_split in R. apply isdata_split. destruct R as [R W]. split; [|exact W].
  apply (isdata_frame m m' 0); [intros c N; apply H; lia| |exact R]. intros I. destruct (W 0%nat I) as [|[]]. lia.
Qed.
Lemma table_own rows t u : (2 <= length rows)%nat ->
  match m_table "n" 0 t u [A2 2 rows] with
  | (Ok x, m2) => ext [A2 2 rows] m2 /\ exists b z B Z, x = mkMm "nk" (MInterp b 0 (pair_cols 0 1 rows)) z None t u /\ isbase 1 [] m2 b B /\ isdata 1 [] m2 z Z
  | (Raise e, m2) => True
  end.
Proof.
  intros L. set (m := [A2 2 rows]). change (m_table "n" 0 t u m) with (m_table2 0 t u m).
  assert (R : refines (fun m2 x (_ : material) => exists b z B Z, x = mkMm "nk" (MInterp b 0 (pair_cols 0 1 rows)) z None t u /\ isbase 1 [] m2 b B /\ isdata 1 [] m2 z Z)
    (m_table2 0 t u) (do re <- mk_interpolation (pair_cols 0 1 rows) t u; do z <- constant_default (ORe (Fin 0)); Ok (mkMat (Some default_meta) "nk" re z None t u)) m).
  { unfold m_table2. apply refines_bind with (P := fun m2 d D => exists b B, d = MInterp b 0 (pair_cols 0 1 rows) /\ isbase 1 [] m2 b B).
    - unfold refines, m_spec_data. cbn [table_at nth_error m]. destruct rows as [|r [|r' rows]]; [cbn in L; lia|cbn in L; lia|]. set (rs := r :: r' :: rows) in *.
      change (pair_cols 0 1 rs) with ((col 0 r, col 1 r) :: (col 0 r', col 1 r') :: pair_cols 0 1 rows) at 1. cbv iota.
      change (refines (fun m2 d (D : sdata) => exists b B, d = MInterp b 0 (pair_cols 0 1 rs) /\ isbase 1 [] m2 b B)
        (m_interpolation 0 t u) (mk_interpolation (pair_cols 0 1 rs) t u) m).
      unfold m_interpolation, mk_interpolation, refines. cbn [table_at nth_error m].
      change (refines (fun m2 d (D : sdata) => exists b B, d = MInterp b 0 (pair_cols 0 1 rs) /\ isbase 1 [] m2 b B)
        (let* mn := mpure (np_min (map fst (pair_cols 0 1 rs))) in let* mx := mpure (np_max (map fst (pair_cols 0 1 rs))) in
         let* b := m_base (Listed (VA [mn; mx])) t u in let* _ := mpure (interp1d_check (pair_cols 0 1 rs)) in mret (MInterp b 0 (pair_cols 0 1 rs)))
        (do mn <- np_min (map fst (pair_cols 0 1 rs)); do mx <- np_max (map fst (pair_cols 0 1 rs));
         do b <- mk_base (InVals (VA [mn; mx])) t u; do_ interp1d_check (pair_cols 0 1 rs); Ok (DInterp b (pair_cols 0 1 rs))) m).
      apply refines_bind with (P := fun _ a b => a = b); [apply refines_pure|]. intros mn mn' m1 E1 ->.
      apply refines_bind with (P := fun _ a b => a = b); [apply refines_pure|]. intros mx mx' m2 E2 ->.
      assert (L2 : (1 <= length m2)%nat) by (apply ext_len in E1; apply ext_len in E2; cbn in E1; lia).
      apply refines_bind with (P := isbase 1 []); [apply refines_base; [exact L2|reflexivity]|]. intros b B m3 E3 HB.
      apply refines_bind with (P := fun _ a b => a = b); [apply refines_pure|]. intros x x' m4 E4 _.
      apply refines_ret. exists b, B. split; [reflexivity|now apply (isbase_ext 1 [] m3)].
    - intros d D m1 E1 (b & B & -> & HB). apply refines_bind with (P := isdata 1 []); [apply refines_zero; apply ext_len in E1; exact E1|]. intros z Z m2 E2 HZ.
      apply refines_ret. exists b, z, B, Z. split; [reflexivity|]. split; [now apply (isbase_ext 1 [] m1)|exact HZ]. }
  destruct R as (m2 & E & K). destruct (m_table2 0 t u m) as [[x|e] m2']; [|exact I].
  match type of K with match ?p with Ok _ => _ | Raise _ => _ end => destruct p as [M|e] end; [|discriminate].
  destruct K as (a & K & H). injection K as -> ->. now split.
Qed.
Lemma isref_at m c v : nth_error m c = Some (A1 (VA v)) -> isref 0 [] m (RArr c) (VA v).
Proof. intros E. split; [cbn; now rewrite E|]. split; [cbn; unfold vec; now rewrite E|apply near_all]. Qed.

Lemma run_cons X st o h x st' : h_step X st o = (x, st') -> fst (h_run X st (o :: h)) = x :: fst (h_run X st' h).
Proof. intros H. cbn [h_run]. rewrite H. now destruct (h_run X st' h). Qed.
Lemma store_rest m x m6 c : (0 < length m)%nat -> ext (store m 0 x) m6 -> (1 <= c)%nat -> nth_error m6 c = nth_error (m ++ skipn (length (store m 0 x)) m6) c.
Proof.
  intros L [q ->] Lc. assert (E : length (store m 0 x) = length m) by (unfold store; destruct m; cbn in *; [lia|reflexivity]).
  rewrite skipn_app, skipn_all2, Nat.sub_diag by lia. cbn [app skipn]. destruct (Nat.lt_ge_cases c (length m)).
  - rewrite !nth_error_app1 by lia. rewrite nth_store by exact L. destruct (Nat.eqb_spec c 0); [lia|reflexivity].
  - rewrite !nth_error_app2 by lia. now rewrite E.
Qed.

Lemma assign_line X st i a k v x y : nth_error (h_vars st) i = Some (HRef (RArr a)) -> nth_error (h_mem st) a = Some x -> assigned x k v = Ok y ->
  h_step X st (Assign i k v) = (Silent, mkH (store (h_mem st) a y) (h_vars st ++ [HNone])).
Proof. intros Hi Ha A. cbn [h_step]. unfold h_ref. now rewrite Hi, Ha, A. Qed.
Lemma table_written X rows rows' t u pts t' u' k v : (2 <= length rows)%nat -> assigned (A2 2 rows) k v = Ok (A2 2 rows') ->
  nth_error (fst (h_run X start [NewArray (A2 2 rows); NewTable "n" 0 t u])) 1 = Some Silent ->
  exists e b z, fst (h_run X start [NewArray (A2 2 rows); NewTable "n" 0 t u; NewArray (A1 (VA pts)); Evaluate 1 2 t' u'; Saved 1;
                                    Assign 0 k v; Evaluate 1 2 t' u'; Saved 1]) =
    [Array (A2 2 rows); Silent; Array (A1 (VA pts)); e; Written (mkMat (Some default_meta) "nk" (DInterp b (pair_cols 0 1 rows)) z None t u);
     Silent; e; Written (mkMat (Some default_meta) "nk" (DInterp b (pair_cols 0 1 rows')) z None t u)].
Proof.
  intros L A. pose proof (table_own rows t u L) as T.
  set (st1 := mkH [A2 2 rows] [HRef (RArr 0)]).
  assert (S1 : h_step X start (NewArray (A2 2 rows)) = (Array (A2 2 rows), st1)) by reflexivity.
  destruct (m_table "n" 0 t u [A2 2 rows]) as [[x|e] m2] eqn:ET.
  2: { rewrite (run_cons _ _ _ _ _ _ S1), (run_cons _ _ _ _ (Failed e) (mkH m2 [HRef (RArr 0); HNone])); [discriminate|].
       cbn [h_step h_ref nth_error st1 h_vars h_mem]. change (smem "n" ["nk"; "n"; "eps"]) with true. cbv iota. now rewrite ET. }
  intros _. destruct T as (E2 & b & z & B & Z & Hx & HB & HZ).
  assert (S2 : h_step X st1 (NewTable "n" 0 t u) = (Silent, mkH m2 [HRef (RArr 0); HMat x])).
  { cbn [h_step h_ref nth_error st1 h_vars h_mem]. change (smem "n" ["nk"; "n"; "eps"]) with true. cbv iota. now rewrite ET. }
  set (st3 := mkH (m2 ++ [A1 (VA pts)]) [HRef (RArr 0); HMat x; HRef (RArr (length m2))]).
  assert (S3 : h_step X (mkH m2 [HRef (RArr 0); HMat x]) (NewArray (A1 (VA pts))) = (Array (A1 (VA pts)), st3)) by reflexivity.
  assert (L2 : (1 <= length m2)%nat) by (apply ext_len in E2; exact E2).
  assert (N2 : forall m3, ext m2 m3 -> forall m4, (forall c, (1 <= c)%nat -> nth_error m4 c = nth_error m3 c) ->
    mat_with (data_of m4) x = mkMat (Some default_meta) "nk" (DInterp B (pair_cols 0 1 rows)) Z None t u /\
    mat_with (repr_of m4) x = mkMat (Some default_meta) "nk" (DInterp B (pair_cols 0 1 (table_at m4 0))) Z None t u).
  { intros m3 E3 m4 E4. rewrite Hx. unfold mat_with. cbn [mm_name mm_real mm_imag mm_complex mm_stype mm_unit data_of repr_of option_map].
    assert (HB4 : isbase 1 [] m4 b B) by (apply (base_frame m3); [exact E4|now apply (isbase_ext 1 [] m2)]).
    assert (HZ4 : isdata 1 [] m4 z Z) by (apply (data_frame m3); [exact E4|now apply (isdata_ext 1 [] m2)]).
    rewrite (isbase_of _ _ _ _ _ HB4). destruct (isdata_of _ _ _ _ _ HZ4) as [-> ->]. now split. }
  assert (E3 : ext m2 (h_mem st3)) by apply ext_new.
  set (M := mkMat (Some default_meta) "nk" (DInterp B (pair_cols 0 1 rows)) Z None t u) in *.
  destruct (evaluate_line X x M st3 (RArr (length m2)) (VA pts) t' u' 1 2) as (m4 & h4 & S4 & E4).
  { intros m1 E1. apply (N2 m1); [now apply (ext_trans m2 (h_mem st3))|reflexivity]. }
  { apply isref_at. cbn. rewrite nth_error_app2, Nat.sub_diag by lia. reflexivity. }
  { reflexivity. }
  { reflexivity. }
  assert (X4 : ext m2 m4) by now apply (ext_trans m2 (h_mem st3)).
  assert (C0 : nth_error m4 0 = Some (A2 2 rows)).
  { apply (ext_nth m2); [exact X4|]. apply (ext_nth [A2 2 rows]); [exact E2|reflexivity]. }
  set (m5 := store m4 0 (A2 2 rows')).
  assert (L4 : (0 < length m4)%nat) by (apply ext_len in X4; lia).
  assert (F5 : forall m6, ext m5 m6 -> forall c, (1 <= c)%nat -> nth_error m6 c = nth_error (m4 ++ skipn (length m5) m6) c) by (intros m6 E6 c Lc; now apply store_rest).
  set (st4 := mkH m4 (h_vars st3 ++ [h4])). set (st4' := mkH m4 ((h_vars st3 ++ [h4]) ++ [HNone])).
  assert (S4' : h_step X st4 (Saved 1) = (Written (mat_with (repr_of m4) x), st4')) by reflexivity.
  set (st5 := mkH m5 (((h_vars st3 ++ [h4]) ++ [HNone]) ++ [HNone])).
  assert (S5 : h_step X st4' (Assign 0 k v) = (Silent, st5)).
  { now apply assign_line with (x := A2 2 rows). }
  destruct (evaluate_line X x M st5 (RArr (length m2)) (VA pts) t' u' 1 2) as (m6 & h6 & S6 & E6).
  { intros m1 E1. apply (N2 (m4 ++ skipn (length m5) m1)); [apply (ext_trans m2 m4); [exact X4|now exists (skipn (length m5) m1)]|now apply F5]. }
  { apply isref_at. cbn [st5 h_mem]. unfold m5. rewrite nth_store by exact L4. destruct (Nat.eqb_spec (length m2) 0); [lia|].
    apply (ext_nth (h_mem st3)); [exact E4|]. cbn. rewrite nth_error_app2, Nat.sub_diag by lia. reflexivity. }
  { reflexivity. }
  { reflexivity. }
  assert (S7 : h_step X (mkH m6 (h_vars st5 ++ [h6])) (Saved 1) = (Written (mat_with (repr_of m6) x), mkH m6 ((h_vars st5 ++ [h6]) ++ [HNone]))) by reflexivity.
  rewrite (run_cons _ _ _ _ _ _ S1), (run_cons _ _ _ _ _ _ S2), (run_cons _ _ _ _ _ _ S3), (run_cons _ _ _ _ _ _ S4), (run_cons _ _ _ _ _ _ S4'),
    (run_cons _ _ _ _ _ _ S5), (run_cons _ _ _ _ _ _ S6), (run_cons _ _ _ _ _ _ S7). cbn [h_run fst].
  exists (eval_out (get_nk_data X M (SRaw (InVals (VA pts)) t' u'))), B, Z.
  destruct (N2 m4 X4 m4 (fun c _ => eq_refl)) as [_ W1]. rewrite W1.
  destruct (N2 (m4 ++ skipn (length m5) m6)) with (m4 := m6) as [_ W2]; [apply (ext_trans m2 m4); [exact X4|now exists (skipn (length m5) m6)]|now apply F5|]. rewrite W2.
  assert (T4 : table_at m4 0 = rows) by (unfold table_at; now rewrite C0).
  assert (T6 : table_at m6 0 = rows').
  { unfold table_at. rewrite (ext_nth m5 m6 0 (A2 2 rows')); [reflexivity|exact E6|]. unfold m5. now rewrite nth_store by exact L4. }
  rewrite T4, T6. reflexivity.
Qed.

Lemma model_own k p v t u :
  match m_model_material k 0 (Listed v) t u [A1 (VA p)] with
  | (Ok x, m2) => ext [A1 (VA p)] m2 /\ exists b B, isbase 1 [] m2 b B /\
     ((output k = Some "n" /\ exists z Z, x = mkMm "nk" (MModel b k 0) z None t u /\ isdata 1 [] m2 z Z /\
        forall q, (do d <- mk_model k q (InVals v) t u; complete default_meta (mkP "nk" (Some d) None None t u)) = Ok (mkMat (Some default_meta) "nk" (DModel B k q) Z None t u)) \/
      (output k = Some "eps" /\ exists z Z z' Z', x = mkMm "eps" z z' (Some (MModel b k 0)) t u /\ isdata 1 [] m2 z Z /\ isdata 1 [] m2 z' Z' /\
        forall q, (do d <- mk_model k q (InVals v) t u; complete default_meta (mkP "eps" None None (Some d) t u)) = Ok (mkMat (Some default_meta) "eps" Z Z' (Some (DModel B k q)) t u)))
  | (Raise e, m2) => True
  end.
Proof.
  set (m := [A1 (VA p)]). unfold m_model_material, m_model, mk_model.
  unfold mbind at 1 2 3. destruct (refines_base 1 [] (Listed v) (InVals v) t u m) as (m1 & E1 & K1); [cbn; lia|reflexivity|].
  destruct (mk_base (InVals v) t u) as [B|e]; [|rewrite K1; exact I]. destruct K1 as (b & -> & HB). cbn [bind]. unfold mpure.
  destruct (validate_spectrum_type k t u) as [[]|e]; [|exact I]. cbn [mret bind].
  assert (L1 : (1 <= length m1)%nat) by (apply ext_len in E1; exact E1).
  destruct (refines_zero 1 [] m1 L1) as (m2 & E2 & K2).
  assert (Q : output k = Some "n" \/ output k = Some "eps" \/ (output k <> Some "n" /\ output k <> Some "eps")).
  { destruct (output k) as [s|]; [|right; right; split; discriminate]. destruct (string_dec s "n") as [->|]; [now left|].
    destruct (string_dec s "eps") as [->|]; [right; now left|]. right. right. split; congruence. }
  destruct Q as [Q|[Q|[Q Q']]].
  - rewrite Q. unfold mbind. destruct (constant_default (ORe (Fin 0))) as [Z|e] eqn:CZ; [|rewrite K2; exact I].
    destruct K2 as (z & -> & HZ). cbn [mret]. split; [now apply (ext_trans m m1)|]. exists b, B. split; [now apply (isbase_ext 1 [] m1)|]. left. split; [reflexivity|].
    exists z, Z. split; [reflexivity|]. split; [exact HZ|]. intros q. unfold complete. cbn [p_real p_imag bind p_name p_complex p_stype p_unit]. now rewrite CZ.
  - rewrite Q. unfold mbind. destruct (constant_default (ORe (Fin 0))) as [Z|e] eqn:CZ; [|rewrite K2; exact I].
    destruct K2 as (z & -> & HZ). assert (L2 : (1 <= length m2)%nat) by (apply ext_len in E2; lia).
    destruct (refines_zero 1 [] m2 L2) as (m3 & E3 & K3). rewrite CZ in K3. destruct K3 as (z' & -> & HZ'). cbn [mret].
    split; [apply (ext_trans m m1); [exact E1|now apply (ext_trans m1 m2)]|]. exists b, B. split; [apply (isbase_ext 1 [] m1); [now apply (ext_trans m1 m2)|exact HB]|].
    right. split; [reflexivity|]. exists z, Z, z', Z. split; [reflexivity|]. split; [now apply (isdata_ext 1 [] m2)|]. split; [exact HZ'|].
    intros q. unfold complete. cbn [p_real p_imag bind p_name p_complex p_stype p_unit]. now rewrite CZ.
  - destruct k; cbn [output] in *; first [now destruct Q | now destruct Q' | exact I].
Qed.
Lemma model_written X name p j c v t u pts t' u' : (j < length p)%nat ->
  nth_error (fst (h_run X start [NewArray (A1 (VA p)); NewModel name 0 (RangeList v) t u])) 1 = Some Silent ->
  nth_error (fst (h_run X start [NewArray (A1 (VA p)); NewModel name 0 (RangeList v) t u; NewArray (A1 (VA pts)); Assign 0 j c; Evaluate 1 2 t' u'])) 4 =
  nth_error (fst (h_run X start [NewArray (A1 (VA (replace j c p))); NewModel name 0 (RangeList v) t u; NewArray (A1 (VA pts)); Evaluate 1 2 t' u'])) 3.
Proof.
  intros Lj. set (p' := replace j c p).
  set (st1 := mkH [A1 (VA p)] [HRef (RArr 0)]).
  assert (S1 : h_step X start (NewArray (A1 (VA p))) = (Array (A1 (VA p)), st1)) by reflexivity.
  assert (SM : h_step X st1 (NewModel name 0 (RangeList v) t u) = match dget model_names name with
    | Some k => finish st1 (m_model_material k 0 (Listed v) t u [A1 (VA p)]) (fun x _ => (Silent, HMat x)) | None => senseless st1 end).
  { cbn [h_step]. destruct (dget model_names name); reflexivity. }
  intros H0. rewrite (run_cons _ _ _ _ _ _ S1) in H0.
  destruct (dget model_names name) as [k|] eqn:D; [|rewrite (run_cons _ _ _ _ _ _ SM) in H0; discriminate].
  pose proof (model_own k p v t u) as T. unfold finish in SM. destruct (m_model_material k 0 (Listed v) t u [A1 (VA p)]) as [[x|e] m2];
    [|rewrite (run_cons _ _ _ _ _ _ SM) in H0; discriminate].
  destruct T as (E2 & b & B & HB & T). clear H0.
  assert (L2 : (1 <= length m2)%nat) by (apply ext_len in E2; exact E2).
  assert (N2 : exists M, mk_material no_file [("model_kw", PDict (mkKw (Some name) (Some p') (Some (InVals v)) (Some t) (Some u)))] = Ok M /\
    forall m3, ext m2 m3 -> forall m4, (forall c, (1 <= c)%nat -> nth_error m4 c = nth_error m3 c) -> nth_error m4 0 = Some (A1 (VA p')) -> mat_with (data_of m4) x = M).
  { rewrite (model_material name k p' v t u D). destruct T as [(O & z & Z & -> & HZ & HM)|(O & z & Z & z' & Z' & -> & HZ & HZ' & HM)].
    - rewrite O. exists (mkMat (Some default_meta) "nk" (DModel B k p') Z None t u). split; [apply HM|]. intros m3 E3 m4 E4 C0.
      unfold mat_with. cbn [mm_name mm_real mm_imag mm_complex mm_stype mm_unit data_of option_map]. unfold params_at, vec. rewrite C0. cbn [elems].
      assert (HB4 : isbase 1 [] m4 b B) by (apply (base_frame m3); [exact E4|now apply (isbase_ext 1 [] m2)]).
      assert (HZ4 : isdata 1 [] m4 z Z) by (apply (data_frame m3); [exact E4|now apply (isdata_ext 1 [] m2)]).
      rewrite (isbase_of _ _ _ _ _ HB4). now destruct (isdata_of _ _ _ _ _ HZ4) as [-> _].
    - rewrite O. exists (mkMat (Some default_meta) "eps" Z Z' (Some (DModel B k p')) t u). split; [apply HM|]. intros m3 E3 m4 E4 C0.
      unfold mat_with. cbn [mm_name mm_real mm_imag mm_complex mm_stype mm_unit data_of option_map]. unfold params_at, vec. rewrite C0. cbn [elems].
      assert (HB4 : isbase 1 [] m4 b B) by (apply (base_frame m3); [exact E4|now apply (isbase_ext 1 [] m2)]).
      assert (HZ4 : isdata 1 [] m4 z Z) by (apply (data_frame m3); [exact E4|now apply (isdata_ext 1 [] m2)]).
      assert (HZ4' : isdata 1 [] m4 z' Z') by (apply (data_frame m3); [exact E4|now apply (isdata_ext 1 [] m2)]).
      rewrite (isbase_of _ _ _ _ _ HB4). destruct (isdata_of _ _ _ _ _ HZ4) as [-> _]. now destruct (isdata_of _ _ _ _ _ HZ4') as [-> _]. }
  destruct N2 as (M & HM & N2). clear T.
  set (st3 := mkH (m2 ++ [A1 (VA pts)]) [HRef (RArr 0); HMat x; HRef (RArr (length m2))]).
  assert (S3 : h_step X (mkH m2 ([HRef (RArr 0)] ++ [HMat x])) (NewArray (A1 (VA pts))) = (Array (A1 (VA pts)), st3)) by reflexivity.
  assert (C3 : nth_error (h_mem st3) 0 = Some (A1 (VA p))).
  { apply (ext_nth m2); [apply ext_new|]. apply (ext_nth [A1 (VA p)]); [exact E2|reflexivity]. }
  assert (A : assigned (A1 (VA p)) j c = Ok (A1 (VA p'))).
  { cbn [assigned elems]. apply Nat.ltb_lt in Lj. rewrite Lj. reflexivity. }
  pose proof (assign_line X st3 0 0 j c _ _ eq_refl C3 A) as S4.
  assert (L3 : (0 < length (h_mem st3))%nat) by (cbn; rewrite app_length; cbn; lia).
  set (m5 := store (h_mem st3) 0 (A1 (VA p'))) in *.
  destruct (evaluate_line X x M (mkH m5 (h_vars st3 ++ [HNone])) (RArr (length m2)) (VA pts) t' u' 1 2) as (m6 & h6 & S6 & E6).
  { intros m1 E1. apply (N2 (h_mem st3 ++ skipn (length m5) m1)).
    - apply (ext_trans m2 (h_mem st3)); [apply ext_new|now exists (skipn (length m5) m1)].
    - intros c0 Lc. now apply store_rest.
    - apply (ext_nth m5); [exact E1|]. unfold m5. now rewrite nth_store by exact L3. }
  { apply isref_at. cbn [h_mem]. unfold m5. rewrite nth_store by exact L3. destruct (Nat.eqb_spec (length m2) 0); [lia|].
    cbn. rewrite nth_error_app2, Nat.sub_diag by lia. reflexivity. }
  { reflexivity. }
  { reflexivity. }
  rewrite (run_cons _ _ _ _ _ _ S1), (run_cons _ _ _ _ _ _ SM), (run_cons _ _ _ _ _ _ S3), (run_cons _ _ _ _ _ _ S4), (run_cons _ _ _ _ _ _ S6). rewrite (polite_values X [NewArray (A1 (VA p')); _; _; _]).
  - cbn [h_run fst nth_error]. cbn [v_run v_step nth_error app]. rewrite D. cbn [outcome as_values]. rewrite HM. cbn [outcome app nth_error as_mat as_values].
    destruct (get_nk_data X M (SRaw (InVals (VA pts)) t' u')) as [[o|q]|e]; reflexivity.
  - intros before i q w after E. exfalso. assert (In (Assign i q w) (before ++ Assign i q w :: after)) as J by (apply in_or_app; right; now left).
    rewrite <- E in J. cbn in J. repeat (destruct J as [J|J]; [discriminate|]). exact J.
Qed.

(** arrays made into spectra, and converted to metres *)
Lemma metres_written X l k v : (k < length l)%nat ->
  fst (h_run X start [NewArray (A1 (VA l)); NewSpectrum 0 "wavelength" "m"; Convert 1 "wavelength" "m"; Assign 2 k v; Look 0; Convert 1 "wavelength" "m"]) =
  [Array (A1 (VA l)); Silent; Array (A1 (VA l)); Silent; Array (A1 (VA (replace k v l))); Array (A1 (VA (replace k v l)))].
Proof.
  intros L. apply Nat.ltb_lt in L.
  assert (A : assigned (A1 (VA l)) k v = Ok (A1 (VA (replace k v l)))) by (cbn [assigned elems]; rewrite L; reflexivity).
  set (s := mkMs "wavelength" "m" (RArr 0) (RArr 0)).
  rewrite (run_cons X start _ _ _ (mkH [A1 (VA l)] [HRef (RArr 0)])) by reflexivity.
  rewrite (run_cons X _ _ _ _ (mkH [A1 (VA l)] [HRef (RArr 0); HSpec s])) by reflexivity.
  rewrite (run_cons X _ _ _ _ (mkH [A1 (VA l)] [HRef (RArr 0); HSpec s; HRef (RArr 0)])) by reflexivity.
  rewrite (run_cons _ _ _ _ _ _ (assign_line X (mkH [A1 (VA l)] [HRef (RArr 0); HSpec s; HRef (RArr 0)]) 2 0 k v _ _ eq_refl eq_refl A)).
  reflexivity.
Qed.
Lemma values_written X l k v : (k < length l)%nat ->
  exists y, fst (h_run X start [NewArray (A1 (VA l)); NewSpectrum 0 "wavelength" "nm"; Convert 1 "wavelength" "nm"; Assign 0 k v; Values 1; Convert 1 "wavelength" "nm"]) =
  [Array (A1 (VA l)); Silent; Array (A1 (VA y)); Silent; Array (A1 (VA (replace k v l))); Array (A1 (VA y))].
Proof.
  intros L. apply Nat.ltb_lt in L.
  assert (A : assigned (A1 (VA l)) k v = Ok (A1 (VA (replace k v l)))) by (cbn [assigned elems]; rewrite L; reflexivity).
  set (s := mkMs "wavelength" "nm" (RArr 0) (RArr 1)).
  rewrite (run_cons X start _ _ _ (mkH [A1 (VA l)] [HRef (RArr 0)])) by reflexivity.
  set (d := map (xmul (Fin (/ 10 ^ 9))) l).
  rewrite (run_cons X _ _ _ _ (mkH [A1 (VA l); A1 (VA d)] [HRef (RArr 0); HSpec s])) by reflexivity.
  set (y := map (xround 12) (map (xmul (Fin (10 ^ 9))) d)).
  rewrite (run_cons X _ _ _ _ (mkH [A1 (VA l); A1 (VA d); A1 (VA y)] [HRef (RArr 0); HSpec s; HRef (RArr 2)])) by reflexivity.
  rewrite (run_cons _ _ _ _ _ _ (assign_line X (mkH [A1 (VA l); A1 (VA d); A1 (VA y)] [HRef (RArr 0); HSpec s; HRef (RArr 2)]) 0 0 k v _ _ eq_refl eq_refl A)).
  exists y. reflexivity.
Qed.
(** a table that is copied *)
Lemma table_copied X id n rows t u pts t' u' k v : In id ["nk"; "eps"] ->
  let before := [NewArray (A2 n rows); NewTable id 0 t u; NewArray (A1 (VA pts))] in
  nth_error (fst (h_run X start (before ++ [Assign 0 k v; Evaluate 1 2 t' u'; Saved 1]))) 4 =
  nth_error (fst (h_run X start (before ++ [Evaluate 1 2 t' u'; Saved 1]))) 3 /\
  nth_error (fst (h_run X start (before ++ [Assign 0 k v; Evaluate 1 2 t' u'; Saved 1]))) 5 =
  nth_error (fst (h_run X start (before ++ [Evaluate 1 2 t' u'; Saved 1]))) 4.
Proof.
  intros I before.
  assert (P1 : polite (before ++ [Assign 0 k v; Evaluate 1 2 t' u'; Saved 1])).
  { intros b i q w a E. unfold before in E. cbn [app] in E.
    destruct b as [|o1 b]; [discriminate|]. injection E as E1 E. destruct b as [|o2 b]; [discriminate|]. injection E as E2 E.
    destruct b as [|o3 b]; [discriminate|]. injection E as E3 E. destruct b as [|o4 b].
    - injection E as <- <- <- _. subst o1 o2 o3. unfold shared. cbn [shared_from shares app]. destruct I as [<-|[<-|[]]]; cbn; intros [].
    - injection E as E4 E. destruct b as [|o5 b]; [discriminate|]. injection E as E5 E. destruct b as [|o6 b]; [discriminate|]. injection E as E6 E. now destruct b. }
  assert (P2 : polite (before ++ [Evaluate 1 2 t' u'; Saved 1])).
  { intros b i q w a E. exfalso. assert (In (Assign i q w) (b ++ Assign i q w :: a)) as J by (apply in_or_app; right; now left).
    rewrite <- E in J. cbn in J. repeat (destruct J as [J|J]; [discriminate|]). exact J. }
  rewrite (polite_values X _ P1), (polite_values X _ P2). unfold before. cbn [app v_run v_step nth_error].
  assert (Sm : smem id ["nk"; "n"; "eps"] = true) by (apply smem_In; destruct I as [<-|[<-|[]]]; cbn; tauto). rewrite Sm.
  destruct (mk_material _ _) as [M|e]; cbn [outcome app nth_error v_run v_step as_mat as_values].
  - destruct (assigned (A2 n rows) k v) as [b|e]; cbn [app set_var replace firstn skipn nth_error as_mat as_values];
      destruct (get_nk_data X M (SRaw (InVals (VA pts)) t' u')) as [o|e']; cbn [outcome]; try (destruct (shown_result o)); cbn; now split.
  - destruct (assigned (A2 n rows) k v) as [b|e']; cbn; now split.
Qed.
