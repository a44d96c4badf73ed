(** Theorems about editing the catalogue interactively (C86). *)
From Coq Require Import Permutation.
From Verif Require Import PyBase PyStr XReal CNum SpectrumModel SpectralModel MaterialModel FileModel IOSpec PathModel ConfigModel CatalogueModel CatalogueSpec CatalogueProofs NormProofs CatalogueSample SpectralThms CatalogueThms CsvModel InteractiveModel InteractiveSpec.
Open Scope R_scope.
Open Scope string_scope.
Open Scope list_scope.


Lemma C86_disabled_l : forall s, c_interactive (s_cat s) = false ->
  view_interactive s = (Raise ValueError, s) /\ edit_interactive s = (Raise ValueError, s) /\ save_interactive s = (Raise ValueError, s).
Proof.
  intros [c w] H. cbn in H. unfold view_interactive, edit_interactive, make_widget, save_interactive. cbn [s_cat s_widget]. now rewrite H.
Qed.

Lemma C86_no_grid_l : forall c es s', c_interactive c = true -> history (opened c) es s' ->
  (forall e, In e es -> e <> View /\ e <> Edit) -> save_interactive s' = (Raise AttributeError, s').
Proof.
  intros c es s' Hi H N. assert (G : c_interactive (s_cat s') = true /\ s_widget s' = None).
  { assert (G0 : c_interactive (s_cat (opened c)) = true /\ s_widget (opened c) = None) by (split; [exact Hi|reflexivity]).
    revert G0. induction H as [s|s e s1 es s2 K H IH]; [auto|]. intros [G1 G2]. apply IH; [intros e' I; apply N; now right|].
    destruct (N e (or_introl eq_refl)) as [N1 N2]. destruct K; try congruence.
    - unfold save_interactive. rewrite G1, G2. auto.
    - discriminate G2.
    - unfold s_register. destruct (register_alias _ id a). auto.
    - auto. }
  destruct G as [G1 G2]. unfold save_interactive. now rewrite G1, G2.
Qed.

Lemma C86_untouched_l : forall s es s', history s es s' -> (forall e, In e es -> e = View \/ e = Edit \/ e = User) ->
  s_cat s' = s_cat s.
Proof.
  intros s es s' H. induction H as [s|s e s1 es s2 K H IH]; intros N; [reflexivity|].
  rewrite IH by (intros e' I; apply N; now right).
  destruct K; try reflexivity; try (destruct (N _ (or_introl eq_refl)) as [K|[K|K]]; discriminate K).
  - unfold view_interactive, make_widget. destruct (c_interactive (s_cat s)); reflexivity.
  - unfold edit_interactive, make_widget. destruct (c_interactive (s_cat s)); reflexivity.
Qed.

Lemma history_cat s es s' : history s es s' -> c_base (s_cat s') = c_base (s_cat s) /\ c_file (s_cat s') = c_file (s_cat s) /\
  c_interactive (s_cat s') = c_interactive (s_cat s) /\ c_ref (s_cat s') = c_ref (s_cat s).
Proof.
  intros H. induction H as [s|s e s1 es s2 K H IH]; [auto|].
  assert (G : c_base (s_cat s1) = c_base (s_cat s) /\ c_file (s_cat s1) = c_file (s_cat s) /\
              c_interactive (s_cat s1) = c_interactive (s_cat s) /\ c_ref (s_cat s1) = c_ref (s_cat s)).
  { destruct K.
    - unfold view_interactive, make_widget. destruct (c_interactive (s_cat s)) eqn:E; cbn; auto.
    - unfold edit_interactive, make_widget. destruct (c_interactive (s_cat s)) eqn:E; cbn; auto.
    - unfold save_interactive. destruct (c_interactive (s_cat s)) eqn:E; [|cbn; auto]. destruct (s_widget s); cbn; auto.
    - cbn; auto.
    - unfold s_register. destruct (register_alias _ id a). cbn; auto.
    - cbn; auto. }
  destruct G as (G1 & G2 & G3 & G4). destruct IH as (I1 & I2 & I3 & I4). repeat split; congruence.
Qed.
(** the grid while no other is opened *)
Lemma history_grid s es s' e f : history s es s' -> (forall x, In x es -> x <> View /\ x <> Edit) ->
  s_widget s = Some (mkWidget e f) -> exists f', s_widget s' = Some (mkWidget e f') /\
    handled e f f' /\ ((forall x, In x es -> x <> User) -> f' = f).
Proof.
  intros H. revert f. induction H as [s|s x s1 es s2 K H IH]; intros f N Hw; [exists f; split; [exact Hw|]; split; [apply h_sorted, Permutation_refl|auto]|].
  assert (N' : forall x, In x es -> x <> View /\ x <> Edit) by (intros y I; apply N; now right).
  assert (G : exists f1, s_widget s1 = Some (mkWidget e f1) /\ handled e f f1 /\ (x <> User -> f1 = f)).
  { destruct (N _ (or_introl eq_refl)) as [N1 N2]. pose proof (h_sorted e f f (Permutation_refl f)) as Hr. destruct K; try congruence.
    - exists f. unfold save_interactive. destruct (c_interactive (s_cat s)); [|cbn; auto]. rewrite Hw. cbn. auto.
    - cbn in Hw. injection Hw as -> ->. exists f'. cbn. split; [reflexivity|]. split; [assumption|congruence].
    - exists f. unfold s_register. destruct (register_alias _ id a). cbn. auto.
    - exists f. cbn. auto. }
  destruct G as (f1 & Hw1 & G1 & G2). destruct (IH f1 N' Hw1) as (f2 & Hw2 & G3 & G4). exists f2. split; [exact Hw2|]. split.
  - now apply (h_more e f f1 f2).
  - intros Nu. rewrite G4 by (intros y I; apply Nu; now right). apply G2. apply Nu. now left.
Qed.

Lemma C86_saved_l : forall s b es s1, c_interactive (s_cat s) = true -> b = View \/ b = Edit ->
  history s (b :: es) s1 -> (forall e, In e es -> e <> View /\ e <> Edit) ->
  exists s2, save_interactive s1 = (Ok tt, s2) /\
    handled (match b with Edit => true | _ => false end) (c_db (s_cat s)) (c_db (s_cat s2)) /\
    ((forall e, In e es -> e <> User) -> c_db (s_cat s2) = c_db (s_cat s)) /\
    c_base (s_cat s2) = c_base (s_cat s) /\ c_file (s_cat s2) = c_file (s_cat s) /\ c_ref (s_cat s2) = c_ref (s_cat s).
Proof.
  intros s b es s1 Hi Hb H N. destruct (history_cat s _ s1 H) as (C1 & C2 & C3 & C4). inversion H as [|s0 e0 sa es0 sb K H1]; subst.
  set (ed := match b with Edit => true | _ => false end).
  assert (Hw : s_widget sa = Some (mkWidget ed (c_db (s_cat s)))).
  { destruct Hb as [-> | ->]; inversion K; subst; unfold view_interactive, edit_interactive, make_widget; rewrite Hi; reflexivity. }
  destruct (history_grid sa es s1 ed _ H1 N Hw) as (f' & Hw1 & G1 & G2).
  assert (Hi1 : c_interactive (s_cat s1) = true) by congruence.
  unfold save_interactive. rewrite Hi1, Hw1. cbn [g_frame]. eexists. split; [reflexivity|]. cbn [s_cat set_database c_db c_base c_file c_ref]. auto.
Qed.

Lemma handled_view f f' : handled false f f' -> incl f' f /\ (labels_distinct f -> labels_distinct f') /\ (aliases_distinct f -> aliases_distinct f').
Proof.
  assert (Al : forall f, aliases_distinct f <-> forall f1 f2 x y a, f = f1 ++ x :: f2 -> In y (f1 ++ f2) -> a <> "" -> r_alias (snd x) = KStr a -> r_alias (snd y) <> KStr a).
  { clear. intros f. split.
    - intros D f1 f2 [l r] [l' r'] a -> I Na A A'. cbn [snd] in A, A'. apply in_app_or in I. destruct I as [I|I]; apply In_nth_error in I; destruct I as [p Hp].
      + assert (Hl : (p < length f1)%nat) by (apply nth_error_Some; congruence).
        assert (p = length f1); [|lia]. apply (D p (length f1) r' r a Na); [| |exact A'|exact A].
        * exists l'. now rewrite nth_error_app1.
        * exists l. rewrite nth_error_app2, Nat.sub_diag by lia. reflexivity.
      + assert (length f1 = S (length f1 + p)); [|lia]. apply (D _ _ r r' a Na); [| |exact A|exact A'].
        * exists l. rewrite nth_error_app2, Nat.sub_diag by lia. reflexivity.
        * exists l'. rewrite nth_error_app2 by lia. replace (S (length f1 + p) - length f1)%nat with (S p) by lia. exact Hp.
    - intros D p q r r' a Na [l Hp] [l' Hq] A A'. destruct (Nat.eq_dec p q) as [E|E]; [exact E|exfalso].
      assert (Hl : (p < length f)%nat) by (apply nth_error_Some; congruence).
      destruct (nth_error_split f p Hp) as (f1 & f2 & -> & Hf). subst p.
      apply (D f1 f2 (l, r) (l', r') a eq_refl); auto.
      destruct (le_lt_dec (length f1) q) as [Hle|Hlt].
      + rewrite nth_error_app2 in Hq by lia. destruct (q - length f1)%nat as [|n] eqn:En; [lia|]. cbn in Hq. apply nth_error_In in Hq.
        apply in_or_app. now right.
      + rewrite nth_error_app1 in Hq by lia. apply nth_error_In in Hq. apply in_or_app. now left. }
  intros H. remember false as e. induction H as [f f' P|f1 x f2|f f' K|f f' f'' H1 IH1 H2 IH2].
  - split; [intros y I; now apply (Permutation_in y (Permutation_sym P))|]. split.
    + intros D. unfold labels_distinct in *. now apply (Permutation_NoDup (Permutation_map fst P)).
    + intros D. apply (proj2 (Al _)). intros g1 g2 x y a -> I Na A. pose proof (proj1 (Al _) D) as D0; clear D; rename D0 into D.
      assert (Ix : In x f) by (apply (Permutation_in x (Permutation_sym P)); apply in_or_app; right; now left).
      apply in_split in Ix. destruct Ix as (h1 & h2 & ->). apply (D h1 h2 x y a eq_refl); auto.
      apply Permutation_in with (2 := I). apply Permutation_sym. now apply Permutation_app_inv with x.
  - split; [intros y I; apply in_app_or in I; apply in_or_app; destruct I; [now left|right; now right]|]. split.
    + unfold labels_distinct. rewrite !map_app. cbn. apply NoDup_remove_1.
    + intros D. apply (proj2 (Al _)). intros g1 g2 z y a E I Na A. pose proof (proj1 (Al _) D) as D0; clear D; rename D0 into D.
      assert (Iz : In z (f1 ++ f2)) by (rewrite E; apply in_or_app; right; now left).
      assert (Iy : In y (f1 ++ f2)) by (rewrite E; apply in_app_or in I; apply in_or_app; destruct I; [now left|right; now right]).
      assert (Sp : Permutation (f1 ++ x :: f2) (z :: x :: g1 ++ g2)).
      { apply Permutation_trans with (x :: f1 ++ f2); [apply Permutation_sym, Permutation_middle|]. rewrite E.
        apply Permutation_trans with (x :: z :: g1 ++ g2); [|apply perm_swap]. apply perm_skip. apply Permutation_sym, Permutation_middle. }
      assert (Iz' : In z (f1 ++ x :: f2)) by (apply in_app_or in Iz; apply in_or_app; destruct Iz; [now left|right; now right]).
      apply in_split in Iz'. destruct Iz' as (h1 & h2 & Eh). apply (D h1 h2 z y a Eh); auto.
      rewrite Eh in Sp. apply Permutation_sym, Permutation_trans with (2 := Permutation_sym (Permutation_middle h1 h2 z)) in Sp.
      apply Permutation_cons_inv in Sp. apply (Permutation_in y Sp). now right.
  - congruence.
  - destruct IH1 as (A1 & A2 & A3). destruct IH2 as (B1 & B2 & B3). split; [intros y I; apply A1, B1, I|]. auto.
Qed.

Lemma C86_view_only_l : forall s es s1 s2, c_interactive (s_cat s) = true ->
  history s (View :: es) s1 -> (forall e, In e es -> e <> View /\ e <> Edit) -> save_interactive s1 = (Ok tt, s2) ->
  incl (c_db (s_cat s2)) (c_db (s_cat s)) /\
  (labels_distinct (c_db (s_cat s)) -> labels_distinct (c_db (s_cat s2))) /\
  (aliases_distinct (c_db (s_cat s)) -> aliases_distinct (c_db (s_cat s2))).
Proof.
  intros s es s1 s2 Hi H N Hs. destruct (C86_saved_l s View es s1 Hi (or_introl eq_refl) H N) as (s2' & Hs' & G & _).
  assert (s2' = s2) as -> by congruence. now apply handled_view.
Qed.

Lemma C86_filtered_refuted_l : forall c f1 x f2, c_interactive c = true -> c_db c = f1 ++ x :: f2 ->
  exists s1 s2, history (opened c) [View; User] s1 /\ save_interactive s1 = (Ok tt, s2) /\ c_db (s_cat s2) = f1 ++ f2.
Proof.
  intros c f1 x f2 Hi E. exists (mkSession c (Some (mkWidget false (f1 ++ f2)))). eexists. split; [|split].
  - apply hist_cons with (mkSession c (Some (mkWidget false (f1 ++ x :: f2)))).
    + rewrite <- E. pose proof (on_view (opened c)) as K. unfold view_interactive, make_widget in K. cbn [opened s_cat] in K. rewrite Hi in K. exact K.
    + eapply hist_cons; [apply on_user; apply h_filtered|apply hist_nil].
  - unfold save_interactive. cbn [s_cat s_widget]. rewrite Hi. reflexivity.
  - reflexivity.
Qed.

Lemma C86_sorted_refuted_l : forall W c r1 r2 rest a base path t u, c_interactive c = true -> c_base c = abs_path base -> Forall plain_name base ->
  c_db c = numbered (r1 :: r2 :: rest) -> r_alias r1 = KStr a -> r_alias r2 <> KStr a -> located base r2 path t u ->
  exists s1 s2, history (opened c) [View; User] s1 /\ save_interactive s1 = (Ok tt, s2) /\
    get_material W (s_cat s2) (IdStr a) = loaded (w_read W) path t u.
Proof.
  intros W c r1 r2 rest a base path t u Hi Eb Pb E A1 A2 Lo.
  assert (Ec : exists tl, c_db c = (0%Z, r1) :: (1%Z, r2) :: tl) by (rewrite E; eexists; reflexivity). destruct Ec as (tl & Ec).
  exists (mkSession c (Some (mkWidget false ((1%Z, r2) :: (0%Z, r1) :: tl)))). eexists. split; [|split].
  - apply hist_cons with (mkSession c (Some (mkWidget false ((0%Z, r1) :: (1%Z, r2) :: tl)))).
    + rewrite <- Ec. pose proof (on_view (opened c)) as K. unfold view_interactive, make_widget in K. cbn [opened s_cat] in K. rewrite Hi in K. exact K.
    + eapply hist_cons; [apply on_user; apply h_sorted; apply perm_swap|apply hist_nil].
  - unfold save_interactive. cbn [s_cat s_widget]. rewrite Hi. reflexivity.
  - cbn [s_cat g_frame]. rewrite (C53_label_is_position_l W _ [(1%Z, r2)] 0%Z r1 tl a); [|reflexivity|exact A1|].
    + apply (C53_number_l W _ 0%nat r2 base path t u); [exact Eb|exact Pb| |exact Lo]. now exists 1%Z.
    + intros l r [K|[]]. injection K as <- <-. exact A2.
Qed.

Lemma at_set_used f i a : alias_used (at_set f i a) a.
Proof.
  destruct (in_dec Z.eq_dec i (map fst f)) as [H|H].
  - pose proof (at_set_present f i a H) as P. unfold alias_set in P. revert H. induction P as [|[l r] [l' r'] f1 f2 (K1 & K2 & _) F IH]; [intros []|].
    cbn [map fst snd] in *. intros [H|H].
    + exists l', r'. split; [now left|]. now apply K2.
    + destruct (IH H) as (l0 & r0 & I & E). exists l0, r0. split; [now right|exact E].
  - rewrite at_set_absent by exact H. exists i, (nan_row a). split; [apply in_or_app; right; now left|reflexivity].
Qed.

Lemma C86_lost_alias_refuted_l : forall s i a s1 s2 s3 b, c_interactive (s_cat s) = true -> b = View \/ b = Edit ->
  ~ alias_used (c_db (s_cat s)) a ->
  history s [b] s1 -> s_register s1 (RInt i) a = (Ok tt, s2) -> save_interactive s2 = (Ok tt, s3) ->
  alias_used (c_db (s_cat s2)) a /\ c_db (s_cat s3) = c_db (s_cat s) /\ ~ alias_used (c_db (s_cat s3)) a.
Proof.
  intros s i a s1 s2 s3 b Hi Hb U H1 H2 H3.
  assert (H12 : history s1 [Register (RInt i) a] s2).
  { apply hist_cons with s2; [|apply hist_nil]. pose proof (on_register s1 (RInt i) a) as K. now rewrite H2 in K. }
  assert (H : history s [b; Register (RInt i) a] s2).
  { inversion H1 as [|? ? sa ? ? K Hn]; subst. inversion Hn; subst. now apply hist_cons with s1. }
  assert (E1 : s_cat s1 = s_cat s).
  { apply (C86_untouched_l s [b] s1 H1). intros e [<-|[]]. tauto. }
  destruct (C86_saved_l s b [Register (RInt i) a] s2 Hi Hb H) as (s3' & Hs & _ & G & _).
  { intros e [<-|[]]. split; discriminate. }
  assert (s3' = s3) as -> by congruence. assert (Ef : c_db (s_cat s3) = c_db (s_cat s)) by (apply G; intros e [<-|[]]; discriminate).
  split; [|split; [exact Ef|now rewrite Ef]].
  unfold s_register in H2. rewrite E1 in H2. unfold register_alias in H2.
  destruct (existsb (fun r => cell_is (r_alias (snd r)) a) (c_db (s_cat s))) eqn:Ex.
  { exfalso. apply U. apply existsb_exists in Ex. destruct Ex as ([l r] & I & K). exists l, r. split; [exact I|]. cbn in K.
    destruct (r_alias r); cbn in K; try discriminate. now apply String.eqb_eq in K; subst. }
  injection H2 as <-. cbn [s_cat set_database c_db]. apply at_set_used.
Qed.

Lemma C86_duplicate_alias_refuted_l : forall c i j r1 r2 a, c_interactive c = true ->
  nth_error (c_db c) i = Some r1 -> nth_error (c_db c) j = Some r2 -> (i < j)%nat -> r_alias (snd r1) = KStr a -> a <> "" ->
  exists s1 s2, history (opened c) [Edit; User] s1 /\ save_interactive s1 = (Ok tt, s2) /\ ~ aliases_distinct (c_db (s_cat s2)) /\
    (forall p, p <> j -> nth_error (c_db (s_cat s2)) p = nth_error (c_db c) p).
Proof.
  intros c i j [l1 r1] [l2 r2] a Hi E1 E2 Hij A Na. cbn [snd] in A.
  destruct (nth_error_split _ _ E2) as (f1 & f2 & E & Lj).
  exists (mkSession c (Some (mkWidget true (f1 ++ (l2, set_alias r2 (KStr a)) :: f2)))). eexists. split; [|split; [|split]].
  - apply hist_cons with (mkSession c (Some (mkWidget true (c_db c)))).
    + pose proof (on_edit (opened c)) as K. unfold edit_interactive, make_widget in K. cbn [opened s_cat] in K. rewrite Hi in K. exact K.
    + eapply hist_cons; [apply on_user; apply h_edited; reflexivity|apply hist_nil].
  - unfold save_interactive. cbn [s_cat s_widget]. rewrite Hi. reflexivity.
  - cbn [s_cat set_database c_db g_frame]. intros D. rewrite E in E1. rewrite nth_error_app1 in E1 by lia.
    assert (i = j); [|lia]. apply (D i j r1 (set_alias r2 (KStr a)) a Na); [| |exact A|reflexivity].
    + exists l1. rewrite nth_error_app1 by lia. exact E1.
    + exists l2. rewrite <- Lj, nth_error_app2, Nat.sub_diag by lia. reflexivity.
  - intros p Np. cbn [s_cat set_database c_db g_frame]. rewrite E. destruct (le_lt_dec (length f1) p) as [Hl|Hl].
    + rewrite !nth_error_app2 by lia. destruct (p - length f1)%nat as [|n] eqn:En; [lia|]. reflexivity.
    + now rewrite !nth_error_app1 by lia.
Qed.
