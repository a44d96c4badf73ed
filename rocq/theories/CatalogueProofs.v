(** Lemmas about the catalogue: aliases, rows, rebuilding. *)
From Verif Require Import PyBase PyStr XReal CNum SpectrumModel SpectralModel TextModel MaterialModel MaterialSpec FileModel IOSpec PathModel ConfigModel CatalogueModel CatalogueSpec.
Open Scope string_scope.
Open Scope list_scope.

(** ** aliases *)
Lemma cell_is_iff c s : cell_is c s = true <-> c = KStr s.
Proof.
  destruct c; cbn [cell_is]; split; intros H; try discriminate; [apply String.eqb_eq in H; now subst|].
  injection H as ->. apply String.eqb_refl.
Qed.
Lemma used_iff f a : existsb (fun r => cell_is (r_alias (snd r)) a) f = true <-> alias_used f a.
Proof.
  rewrite existsb_exists. split.
  - intros ([l r] & Hi & H). apply cell_is_iff in H. now exists l, r.
  - intros (l & r & Hi & H). exists (l, r). split; [exact Hi|]. now apply cell_is_iff.
Qed.
Lemma has_label_iff f i : has_label f i = true <-> In i (map fst f).
Proof.
  unfold has_label. rewrite existsb_exists, in_map_iff. split.
  - intros (x & Hi & H). apply Z.eqb_eq in H. eauto.
  - intros (x & H & Hi). exists x. split; [exact Hi|]. now apply Z.eqb_eq.
Qed.
Lemma only_alias_set a r : only_alias a r (set_alias r (KStr a)).
Proof. repeat split. Qed.
Lemma only_alias_eq a r r' : only_alias a r r' -> r' = set_alias r (KStr a).
Proof. unfold only_alias. destruct r, r'; cbn. intros H. intuition subst. reflexivity. Qed.
Lemma alias_set_map (chosen : Z -> bool) a f :
  alias_set (fun i => chosen i = true) a f (map (fun r => if chosen (fst r) then (fst r, set_alias (snd r) (KStr a)) else r) f).
Proof.
  unfold alias_set. induction f as [|[l r] f IH]; cbn [map]; constructor; [|exact IH]. cbn [fst snd].
  destruct (chosen l) eqn:E; cbn [fst snd]; split; try reflexivity; (split; [intros H|intros H]); try congruence.
  apply only_alias_set.
Qed.
Lemma alias_set_ext (c c' : Z -> Prop) a f f' : (forall i, c i <-> c' i) -> alias_set c a f f' -> alias_set c' a f f'.
Proof.
  intros H. unfold alias_set. induction 1 as [|x y f f' (A & B & C) F IH]; constructor; [|exact IH].
  split; [exact A|]. rewrite <- (H (fst x)). auto.
Qed.
Lemma alias_set_labels c a f f' : alias_set c a f f' -> map fst f' = map fst f.
Proof. unfold alias_set. induction 1 as [|x y f f' (A & _) F IH]; cbn [map]; [reflexivity|]. now rewrite A, IH. Qed.

Lemma at_is_one f i a b : labels_distinct f -> at_is f i a = Ok b ->
  exists r, In (i, r) f /\ (b = true <-> r_alias r = KStr a).
Proof.
  intros _ H. unfold at_is in H. destruct (filter _ f) as [|[l r] [|? ?]] eqn:E; try discriminate.
  assert (Hin : In (l, r) (filter (fun r => Z.eqb (fst r) i) f)) by (rewrite E; now left).
  apply filter_In in Hin. destruct Hin as [Hi Hl]. apply Z.eqb_eq in Hl. cbn in Hl. subst.
  exists r. split; [exact Hi|]. injection H as <-. cbn [snd]. apply cell_is_iff.
Qed.
Lemma filter_label f i : labels_distinct f ->
  filter (fun r => Z.eqb (fst r) i) f = [] /\ ~ In i (map fst f) \/
  exists r, filter (fun r => Z.eqb (fst r) i) f = [(i, r)] /\ In (i, r) f.
Proof.
  unfold labels_distinct. induction f as [|[l r] f IH]; cbn [map filter fst]; intros N.
  - left. split; [reflexivity|intros []].
  - inversion N as [|? ? Hn N']; subst. destruct (Z.eqb l i) eqn:E.
    + apply Z.eqb_eq in E. subst. right. exists r. split; [|now left]. f_equal.
      destruct (IH N') as [[-> _]|(r' & _ & Hin)]; [reflexivity|]. exfalso. apply Hn. apply in_map_iff. now exists (i, r').
    + apply Z.eqb_neq in E. destruct (IH N') as [[-> Hi]|(r' & -> & Hin)].
      * left. split; [reflexivity|]. intros [H|H]; contradiction.
      * right. exists r'. split; [reflexivity|now right].
Qed.
Lemma label_row f i r r' : labels_distinct f -> In (i, r) f -> In (i, r') f -> r = r'.
Proof.
  unfold labels_distinct. induction f as [|[l w] f IH]; cbn [map fst]; intros N; [intros []|].
  inversion N as [|? ? Hn N']; subst.
  assert (X : forall w', In (l, w') f -> False) by (intros w' Hi; apply Hn, in_map_iff; now exists (l, w')).
  intros [A|A] [B|B]; [congruence| | |now apply IH].
  - injection A as -> ->. exfalso. eauto.
  - injection B as -> ->. exfalso. eauto.
Qed.

Lemma register_spec f i a res f' : labels_distinct f -> register_alias f (RInt i) a = (res, f') ->
  (res = Ok tt /\ (~ alias_used f a \/ exists r, In (i, r) f /\ r_alias r = KStr a) /\ f' = at_set f i a) \/
  (exists r, res = Raise ValueError /\ alias_used f a /\ In (i, r) f /\ r_alias r <> KStr a /\ f' = f) \/
  (res = Raise KeyError /\ alias_used f a /\ ~ In i (map fst f) /\ f' = f).
Proof.
  intros N H. cbn [register_alias] in H. cbv zeta in H.
  destruct (existsb _ f) eqn:U.
  - apply used_iff in U. unfold at_is in H. destruct (filter_label f i N) as [[E Hn]|(r & E & Hi)]; rewrite E in H.
    + right. right. injection H as <- <-. auto.
    + cbn [snd] in H. destruct (cell_is (r_alias r) a) eqn:C; injection H as <- <-.
      * left. apply cell_is_iff in C. eauto 6.
      * right. left. exists r. assert (r_alias r <> KStr a) by (rewrite <- cell_is_iff, C; discriminate). auto 6.
  - left. injection H as <- <-. split; [reflexivity|]. split; [|reflexivity]. left. intros X. apply used_iff in X. congruence.
Qed.
Lemma at_set_present f i a : In i (map fst f) -> alias_set (fun j => j = i) a f (at_set f i a).
Proof.
  intros H. unfold at_set. apply has_label_iff in H. rewrite H.
  apply (alias_set_ext (fun j => Z.eqb j i = true)); [intros j; apply Z.eqb_eq|]. apply (alias_set_map (fun j => Z.eqb j i)).
Qed.
Lemma at_set_absent f i a : ~ In i (map fst f) -> at_set f i a = f ++ [(i, nan_row a)].
Proof. intros H. unfold at_set. destruct (has_label f i) eqn:E; [apply has_label_iff in E; contradiction|reflexivity]. Qed.
Lemma at_set_labels f i a : labels_distinct f -> labels_distinct (at_set f i a).
Proof.
  intros N. destruct (in_dec Z.eq_dec i (map fst f)) as [H|H].
  - unfold labels_distinct. now rewrite (alias_set_labels _ _ _ _ (at_set_present f i a H)).
  - rewrite at_set_absent by assumption. unfold labels_distinct. rewrite map_app. cbn [map fst].
    apply NoDup_Add with (a := i) (l := map fst f); [|now split].
    replace (map fst f) with (map fst f ++ []) at 1 by apply app_nil_r. apply Add_app.
Qed.

(** aliases with their positions, through labels *)
Lemma distinct_labels f : labels_distinct f ->
  (aliases_distinct f <-> forall l l' r r' a, a <> "" -> In (l, r) f -> In (l', r') f -> r_alias r = KStr a -> r_alias r' = KStr a -> l = l').
Proof.
  intros N. split; intros H.
  - intros l l' r r' a Ha Hi Hi' A A'. apply In_nth_error in Hi, Hi'. destruct Hi as [p Hp], Hi' as [q Hq].
    assert (p = q) by (eapply (H p q r r' a); eauto; eexists; eauto). subst. rewrite Hp in Hq. congruence.
  - intros p q r r' a Ha [l Hp] [l' Hq] A A'.
    assert (l = l') by (eapply (H l l' r r' a); eauto using nth_error_In). subst.
    unfold labels_distinct in N. rewrite NoDup_nth_error in N. apply N.
    + apply nth_error_Some. rewrite nth_error_map, Hp. discriminate.
    + now rewrite !nth_error_map, Hp, Hq.
Qed.
Lemma alias_set_in c a f f' l r : alias_set c a f f' -> In (l, r) f' ->
  exists r0, In (l, r0) f /\ (c l -> only_alias a r0 r) /\ (~ c l -> r = r0).
Proof.
  unfold alias_set. induction 1 as [|[x w] [y w'] f f' (A & B & C) F IH]; [intros []|]. cbn [fst snd] in *. subst y.
  intros [E|Hi]; [injection E as <- <-; exists w; auto using in_eq|].
  destruct (IH Hi) as (r0 & ? & ? & ?). exists r0. auto using in_cons.
Qed.

Lemma register_keeps f i a res f' : labels_distinct f -> aliases_distinct f ->
  register_alias f (RInt i) a = (res, f') -> labels_distinct f' /\ aliases_distinct f'.
Proof.
  intros N D H. destruct (register_spec _ _ _ _ _ N H) as [(_ & G & ->)|[(r & _ & _ & _ & _ & ->)|(_ & _ & _ & ->)]]; [|auto|auto].
  split; [now apply at_set_labels|]. apply distinct_labels; [now apply at_set_labels|].
  rewrite (distinct_labels f N) in D.
  (* a row of the new frame with the alias a has the label i *)
  assert (New : forall l r, a <> "" -> In (l, r) f -> r_alias r = KStr a -> l = i).
  { intros l r Ha Hi E. destruct G as [G|(r0 & Hi0 & E0)]; [exfalso; apply G; now exists l, r|]. eapply D; eauto. }
  destruct (in_dec Z.eq_dec i (map fst f)) as [P|P].
  - pose proof (at_set_present f i a P) as AS. intros l l' r r' b Hb Hi Hi' E E'.
    destruct (alias_set_in _ _ _ _ _ _ AS Hi) as (r0 & I0 & S0 & T0). destruct (alias_set_in _ _ _ _ _ _ AS Hi') as (r1 & I1 & S1 & T1).
    destruct (Z.eq_dec l i) as [Hl|Hl], (Z.eq_dec l' i) as [Hl'|Hl'].
    + congruence.
    + destruct (S0 Hl) as (A0 & _). rewrite A0 in E. injection E as <-. rewrite (T1 Hl') in E'.
      exfalso. apply Hl'. now apply (New l' r1).
    + destruct (S1 Hl') as (A0 & _). rewrite A0 in E'. injection E' as <-. rewrite (T0 Hl) in E.
      exfalso. apply Hl. now apply (New l r0).
    + rewrite (T0 Hl) in E. rewrite (T1 Hl') in E'. eapply D; eauto.
  - rewrite at_set_absent by assumption.
    assert (NU : ~ alias_used f a). { destruct G as [G|(r0 & Hi0 & _)]; [exact G|]. exfalso. apply P, in_map_iff. now exists (i, r0). }
    intros l l' r r' b Hb Hi Hi' E E'. apply in_app_iff in Hi, Hi'.
    destruct Hi as [Hi|[Hi|[]]], Hi' as [Hi'|[Hi'|[]]].
    + eapply D; eauto.
    + injection Hi' as <- <-. cbn in E'. injection E' as <-. exfalso. apply NU. now exists l, r.
    + injection Hi as <- <-. cbn in E. injection E as <-. exfalso. apply NU. now exists l', r'.
    + congruence.
Qed.

(** ** looking rows up *)
Lemma number_from_spec l : forall i, map fst (number_from i l) = map (fun k => (i + Z.of_nat k)%Z) (seq 0 (length l)) /\ map snd (number_from i l) = l.
Proof.
  induction l as [|r l IH]; intros i; cbn [number_from map length seq]; [auto|]. destruct (IH (i + 1)%Z) as [A B]. split.
  - cbn [fst]. f_equal; [lia|]. rewrite A, <- seq_shift, map_map. apply map_ext. intros. lia.
  - cbn [snd]. now rewrite B.
Qed.
Lemma rows_numbered l : rows_of (numbered l) = l.
Proof. apply number_from_spec. Qed.
Lemma number_from_nth l : forall i p r, nth_error l p = Some r -> nth_error (number_from i l) p = Some ((i + Z.of_nat p)%Z, r).
Proof.
  induction l as [|w l IH]; intros i p r H; [destruct p; discriminate|]. destruct p as [|p]; cbn [nth_error number_from] in *.
  - injection H as ->. do 2 f_equal. lia.
  - rewrite (IH (i + 1)%Z p r H). do 2 f_equal. lia.
Qed.
Lemma numbered_length l : length (numbered l) = length l.
Proof. rewrite <- (rows_numbered l) at 2. unfold rows_of. now rewrite map_length. Qed.
Lemma numbered_default l : default_numbering (numbered l).
Proof.
  intros p H. rewrite numbered_length in H. destruct (nth_error l p) as [r|] eqn:E.
  - exists r. unfold numbered. now rewrite (number_from_nth l 0 p r E).
  - apply nth_error_None in E. lia.
Qed.
Lemma default_is_numbered f : default_numbering f -> f = numbered (rows_of f).
Proof.
  intros H. apply nth_ext with (d := (0%Z, nan_row "")) (d' := (0%Z, nan_row "")).
  - now rewrite numbered_length; unfold rows_of; rewrite map_length.
  - intros p Hp. destruct (H p Hp) as [r E]. apply nth_error_nth with (d := (0%Z, nan_row "")) in E as E'. rewrite E'.
    symmetry. apply nth_error_nth. assert (X : nth_error (rows_of f) p = Some r) by (unfold rows_of; now rewrite nth_error_map, E).
    unfold numbered. now rewrite (number_from_nth _ 0 p r X).
Qed.
Lemma default_labels_distinct f : default_numbering f -> labels_distinct f.
Proof.
  intros H. rewrite (default_is_numbered f H). unfold labels_distinct, numbered. rewrite (proj1 (number_from_spec _ 0)).
  apply FinFun.Injective_map_NoDup; [intros x y E; lia|apply seq_NoDup].
Qed.

Lemma iloc_pos f p l r : nth_error f p = Some (l, r) -> iloc f (Z.of_nat p) = Ok r.
Proof.
  intros H. unfold iloc. cbv zeta. assert ((Z.of_nat p <? 0)%Z = false) as -> by (apply Z.ltb_ge; lia).
  assert ((Z.of_nat p <? 0)%Z = false) as -> by (apply Z.ltb_ge; lia). now rewrite Nat2Z.id, H.
Qed.
Lemma iloc_neg f p l r : nth_error f p = Some (l, r) -> iloc f (Z.of_nat p - Z.of_nat (length f)) = Ok r.
Proof.
  intros H. assert (p < length f)%nat by (apply nth_error_Some; congruence). unfold iloc. cbv zeta.
  assert ((Z.of_nat p - Z.of_nat (length f) <? 0)%Z = true) as -> by (apply Z.ltb_lt; lia).
  replace (Z.of_nat p - Z.of_nat (length f) + Z.of_nat (length f))%Z with (Z.of_nat p) by lia.
  assert ((Z.of_nat p <? 0)%Z = false) as -> by (apply Z.ltb_ge; lia). now rewrite Nat2Z.id, H.
Qed.
Lemma iloc_out f i : (i < - Z.of_nat (length f) \/ Z.of_nat (length f) <= i)%Z -> iloc f i = Raise IndexError.
Proof.
  intros H. unfold iloc. cbv zeta. destruct (Z.ltb_spec i 0) as [L|L].
  - assert ((i + Z.of_nat (length f) <? 0)%Z = true) as -> by (apply Z.ltb_lt; lia). reflexivity.
  - assert ((i <? 0)%Z = false) as -> by (apply Z.ltb_ge; lia).
    assert (nth_error f (Z.to_nat i) = None) as -> by (apply nth_error_None; lia). reflexivity.
Qed.
Lemma filter_first {A} (g : A -> bool) f1 x f2 : (forall y, In y f1 -> g y = false) -> g x = true ->
  filter g (f1 ++ x :: f2) = x :: filter g f2.
Proof.
  intros H Hx. induction f1 as [|y f1 IH]; cbn [app filter]; [now rewrite Hx|].
  rewrite (H y (or_introl eq_refl)). apply IH. intros z Hz. apply H. now right.
Qed.
Lemma find_first f a r : default_numbering f -> first_with f a r -> find_row f (IdStr a) = Ok r.
Proof.
  intros D (f1 & l & f2 & E & A & N). unfold find_row. rewrite E at 1. rewrite filter_first.
  - assert (P : nth_error f (length f1) = Some (l, r)) by (rewrite E, nth_error_app2, Nat.sub_diag by lia; reflexivity).
    assert (L : (length f1 < length f)%nat) by (apply nth_error_Some; congruence).
    destruct (D _ L) as [r' E']. rewrite P in E'. injection E' as -> <-. cbn [fst]. eapply iloc_pos. exact P.
  - intros [l' r'] Hi. cbn [snd]. destruct (cell_is (r_alias r') a) eqn:C; [|reflexivity]. apply cell_is_iff in C.
    exfalso. eapply N; eauto.
  - cbn [snd]. now apply cell_is_iff.
Qed.
Lemma find_none f a : ~ alias_used f a -> find_row f (IdStr a) = Raise ValueError.
Proof.
  intros H. unfold find_row. destruct (filter _ f) as [|[l r] t] eqn:E; [reflexivity|].
  exfalso. apply H. assert (X : In (l, r) (filter (fun r => cell_is (r_alias (snd r)) a) f)) by (rewrite E; now left).
  apply filter_In in X. destruct X as [X Y]. apply cell_is_iff in Y. now exists l, r.
Qed.
