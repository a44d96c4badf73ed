(** Theorems about using the catalogue in several sessions (C87). *)
From Verif Require Import PyBase PyStr XReal CNum SpectrumModel SpectralModel SpectralSpec TextModel MaterialModel MaterialSpec MaterialProofs MatFileProofs FileModel IOSpec PathModel ConfigModel CatalogueModel CatalogueSpec CatalogueProofs NormProofs RebuildProofs SaveProofs CatalogueSample SpectralThms CatalogueThms CsvModel CsvSpec CsvProofs CsvThms SessionSpec.
Open Scope R_scope.
Open Scope string_scope.
Open Scope list_scope.


Lemma lasting_exact L r : lasting L r -> exists a n fu au co re st un pa mo lo hi rn rk,
  r = mkRow (KStr a) (KStr n) (KStr fu) (KStr au) (KStr co) (KStr re) (KStr st) (KStr un) lo hi rn rk (KStr pa) (KStr mo) /\
  number_back L lo lo /\ number_back L hi hi /\ (rn <> NaN -> number_back L rn rn) /\ (rk <> NaN -> number_back L rk rk).
Proof.
  intros [_ C _ (N1 & N2 & N3 & N4)]. destruct r as [a n fu au co re st un lo hi rn rk pa mo]. cbn in *.
  destruct (C a) as [sa ->]; [auto 12|]. destruct (C n) as [sn ->]; [auto 12|]. destruct (C fu) as [sf ->]; [auto 12|].
  destruct (C au) as [su ->]; [auto 12|]. destruct (C co) as [sc ->]; [auto 12|]. destruct (C re) as [sr ->]; [auto 12|].
  destruct (C st) as [ss ->]; [auto 12|]. destruct (C un) as [sv ->]; [auto 12|]. destruct (C pa) as [sp ->]; [auto 12|].
  destruct (C mo) as [sm ->]; [auto 12|].
  do 14 eexists. split; [reflexivity|]. auto.
Qed.
Lemma lasting_alias L r r' a : lasting L r -> writable L a -> only_alias a r r' -> lasting L r'.
Proof.
  intros [(T1 & T2 & T3 & T4 & T5 & T6 & T7 & T8 & T9 & T10) C [B1 B2] (N1 & N2 & N3 & N4)] W (E0 & E1 & E2 & E3 & E4 & E5 & E6 & E7 & E8 & E9 & E10 & E11 & E12 & E13).
  split.
  - unfold texts_writable. rewrite E0, E1, E2, E3, E4, E5, E6, E7, E12, E13.
    split; [intros s K; injection K as <-; exact W|]. auto 12.
  - rewrite E0, E1, E2, E3, E4, E5, E6, E7, E12, E13. intros c [<-|I]; [eauto|]. apply C. now right.
  - unfold bounded. rewrite E8, E9. now split.
  - rewrite E8, E9, E10, E11. auto.
Qed.
Lemma registered_lasting L f calls f' : registered f calls f' -> default_numbering f -> Forall (lasting L) (rows_of f) ->
  (forall i b, In (i, b) calls -> (0 <= i < Z.of_nat (length f))%Z /\ writable L b) ->
  default_numbering f' /\ Forall (lasting L) (rows_of f') /\ length f' = length f.
Proof.
  induction 1 as [f|f i a res f1 rest f2 H K IH]; intros D F B; [auto|].
  destruct (B i a (or_introl eq_refl)) as [Bi Wa]. pose proof (default_labels_distinct _ D) as Ld.
  assert (D1 : default_numbering f1) by (apply (C53_numbering_l f i a res f1 D); [lia|exact H]).
  assert (G : Forall (lasting L) (rows_of f1) /\ length f1 = length f).
  { destruct (register_spec _ _ _ _ _ Ld H) as [(_ & _ & ->)|[(r & _ & _ & _ & _ & ->)|(_ & _ & _ & ->)]]; [|auto|auto].
    assert (I : In i (map fst f)).
    { destruct (D (Z.to_nat i)) as (r & E); [lia|]. apply nth_error_In in E. apply in_map_iff. exists (Z.of_nat (Z.to_nat i), r). split; [cbn; lia|exact E]. }
    pose proof (at_set_present f i a I) as As. unfold alias_set in As. split; [|symmetry; apply (Forall2_len _ _ _ As)].
    clear - F As Wa. unfold rows_of in *. induction As as [|[l r] [l' r'] g g' (K1 & K2 & K3) G IH]; [constructor|]. cbn [map snd fst] in *.
    inversion_clear F as [|? ? Fr Fg]. constructor; [|now apply IH]. destruct (Z.eq_dec l i) as [E|E].
    - eapply lasting_alias; [exact Fr|exact Wa|auto].
    - now rewrite (K3 E). }
  destruct G as [F1 L1]. destruct (IH D1 F1) as (D2 & F2 & L2).
  { intros j b I. rewrite L1. apply B. now right. }
  rewrite L2. auto.
Qed.
Lemma reopened_same X L W cfg rb cat f : csv_ok L -> mk_catalogue X W cfg rb = Ok cat -> default_numbering f -> Forall (lasting L) (rows_of f) ->
  exists cat', mk_catalogue X (save_to_file L W (set_database cat f)) cfg (RStr "None") = Ok cat' /\ c_db cat' = f /\ c_base cat' = c_base cat.
Proof.
  intros O H D F.
  assert (T : Forall (texts_writable L) (rows_of f)) by (eapply Forall_impl; [|exact F]; intros r Hr; apply Hr).
  assert (B : Forall bounded (rows_of f)) by (eapply Forall_impl; [|exact F]; intros r Hr; apply Hr).
  destruct (C78_exact_l X L W cfg rb cat f O H T B) as (cat' & H' & E).
  { eapply Forall_impl; [|exact F]. intros r Hr. now apply lasting_exact. }
  destruct (C78_reopened_l X L W cfg rb cat f O H T B) as (cat2 & H2 & _ & D2 & Eb & _).
  assert (cat2 = cat') as -> by congruence. exists cat'. split; [exact H'|]. split; [|exact Eb].
  rewrite (default_is_numbered _ D2), (default_is_numbered _ D). now rewrite E.
Qed.
Lemma registered_app f a b f' : registered f (a ++ b) f' -> exists f1, registered f a f1 /\ registered f1 b f'.
Proof.
  revert f. induction a as [|[i s] a IH]; intros f H; [exists f; split; [constructor|exact H]|].
  inversion H as [|? ? ? res f1 ? ? K H1]; subst. destruct (IH f1 H1) as (f2 & A & B). exists f2. split; [econstructor; eassumption|exact B].
Qed.
Lemma registered_fun f calls f1 : registered f calls f1 -> forall f2, registered f calls f2 -> f1 = f2.
Proof.
  induction 1 as [f|f i a res f1 rest f2 H K IH]; intros g G; inversion G as [|? ? ? res' g1 ? ? H' K']; subst; [reflexivity|].
  apply IH. congruence.
Qed.

Lemma C87_sessions_l : forall X L cfg W cat calls W' f,
  csv_ok L -> mk_catalogue X W cfg (RStr "None") = Ok cat -> Forall (lasting L) (rows_of (c_db cat)) -> default_numbering (c_db cat) ->
  (forall i b, In (i, b) calls -> (0 <= i < Z.of_nat (length (c_db cat)))%Z /\ writable L b) ->
  sessions X L cfg W calls W' -> registered (c_db cat) calls f ->
  exists cat', mk_catalogue X W' cfg (RStr "None") = Ok cat' /\ c_db cat' = f /\ c_base cat' = c_base cat /\ w_read W' = w_read W.
Proof.
  intros X L cfg W cat calls W' f O H F D B S. revert cat f H F D B. induction S as [W|W cat0 calls f0 rest W' H0 R0 S IH]; intros cat f H F D B R.
  - inversion R; subst. exists cat. auto.
  - assert (cat0 = cat) as -> by congruence. destruct (registered_app _ _ _ _ R) as (f1 & R1 & R2).
    assert (f1 = f0) as -> by (eapply registered_fun; eassumption).
    destruct (registered_lasting L _ _ _ R0 D F) as (D0 & F0 & L0); [intros i b I; apply B; apply in_or_app; now left|].
    destruct (reopened_same X L W cfg (RStr "None") cat f0 O H D0 F0) as (cat1 & H1 & E1 & Eb1). subst f0.
    destruct (IH cat1 f H1 F0 D0) as (cat' & H' & E' & Eb' & Er'); [|exact R2|].
    + intros i b I. rewrite L0. apply B. apply in_or_app. now right.
    + exists cat'. split; [exact H'|]. split; [exact E'|]. split; [congruence|exact Er'].
Qed.

Lemma registered_rows f calls f' : registered f calls f' -> default_numbering f ->
  (forall i b, In (i, b) calls -> (0 <= i < Z.of_nat (length f))%Z) ->
  default_numbering f' /\ length f' = length f /\
  forall p r, row_at f p r -> exists r', row_at f' p r' /\ r_path r' = r_path r /\ r_module r' = r_module r /\ r_stype r' = r_stype r /\ r_unit r' = r_unit r /\
    ((forall i b, In (i, b) calls -> i <> Z.of_nat p) -> r' = r).
Proof.
  induction 1 as [f|f i a res f1 rest f2 H K IH]; intros D B.
  { split; [exact D|]. split; [reflexivity|]. intros p r Hp. exists r. auto 7. }
  pose proof (B i a (or_introl eq_refl)) as Bi. pose proof (default_labels_distinct _ D) as Ld.
  assert (D1 : default_numbering f1) by (apply (C53_numbering_l f i a res f1 D); [lia|exact H]).
  assert (G : length f1 = length f /\ forall p r, row_at f p r -> exists r', row_at f1 p r' /\ r_path r' = r_path r /\ r_module r' = r_module r /\ r_stype r' = r_stype r /\ r_unit r' = r_unit r /\ (i <> Z.of_nat p -> r' = r)).
  { destruct (register_spec _ _ _ _ _ Ld H) as [(_ & _ & ->)|[(r & _ & _ & _ & _ & ->)|(_ & _ & _ & ->)]];
      [|split; [reflexivity|]; intros p r' Hp; exists r'; auto 7|split; [reflexivity|]; intros p r' Hp; exists r'; auto 7].
    assert (I : In i (map fst f)).
    { destruct (D (Z.to_nat i)) as (r & E); [lia|]. apply nth_error_In in E. apply in_map_iff. exists (Z.of_nat (Z.to_nat i), r). split; [cbn; lia|exact E]. }
    pose proof (at_set_present f i a I) as As. unfold alias_set in As. split; [symmetry; apply (Forall2_len _ _ _ As)|].
    intros p r [l Hp]. destruct (Forall2_nth _ _ _ As p (l, r) Hp) as ([l' r'] & Hp' & K1 & K2 & K3). cbn [fst snd] in *. subst l'.
    assert (l = Z.of_nat p). { destruct (D p) as (r0 & E0); [apply nth_error_Some; congruence|]. congruence. }
    exists r'. split; [now exists l|]. destruct (Z.eq_dec l i) as [E|E].
    - destruct (K2 E) as (_ & _ & _ & _ & _ & _ & S1 & S2 & _ & _ & _ & _ & S3 & S4). rewrite S1, S2, S3, S4. repeat (split; [reflexivity|]). intros N. congruence.
    - rewrite (K3 E). auto 7. }
  destruct G as [L1 G]. destruct (IH D1) as (D2 & L2 & G2); [intros j b I; rewrite L1; apply (B j b); now right|].
  split; [exact D2|]. split; [congruence|]. intros p r Hp. destruct (G p r Hp) as (r1 & Hp1 & P1 & P2 & P3 & P4 & P5).
  destruct (G2 p r1 Hp1) as (r2 & Hp2 & Q1 & Q2 & Q3 & Q4 & Q5). exists r2. split; [exact Hp2|].
  split; [congruence|]. split; [congruence|]. split; [congruence|]. split; [congruence|].
  intros N. rewrite Q5 by (intros j b I; apply (N j b); now right). apply P5. apply (N i a). now left.
Qed.

Lemma C87_alias_l : forall X L cfg W cat calls W' base p r a path t u,
  csv_ok L -> mk_catalogue X W cfg (RStr "None") = Ok cat -> Forall (lasting L) (rows_of (c_db cat)) -> default_numbering (c_db cat) ->
  aliases_distinct (c_db cat) ->
  (forall i b, In (i, b) calls -> (0 <= i < Z.of_nat (length (c_db cat)))%Z /\ writable L b) ->
  sessions X L cfg W calls W' ->
  c_base cat = abs_path base -> Forall plain_name base -> row_at (c_db cat) p r -> r_alias r = KStr a -> a <> "" -> located base r path t u ->
  (forall i b, In (i, b) calls -> i <> Z.of_nat p) ->
  exists cat', mk_catalogue X W' cfg (RStr "None") = Ok cat' /\ length (c_db cat') = length (c_db cat) /\ aliases_distinct (c_db cat') /\
    get_material W' cat' (IdStr a) = loaded (w_read W) path t u /\ get_material W' cat' (IdInt (Z.of_nat p)) = loaded (w_read W) path t u.
Proof.
  intros X L cfg W cat calls W' base p r a path t u O H F D A B S Eb Pb Hp Ha Na Lo N.
  assert (R : exists f, registered (c_db cat) calls f).
  { clear. generalize (c_db cat). induction calls as [|[i b] calls IH]; intros f; [exists f; constructor|].
    destruct (register_alias f (RInt i) b) as [res f1] eqn:E. destruct (IH f1) as (f2 & R). exists f2. econstructor; eassumption. }
  destruct R as (f & R). destruct (C87_sessions_l X L cfg W cat calls W' f O H F D B S R) as (cat' & H' & E' & Eb' & Er').
  destruct (registered_rows _ _ _ R D) as (D' & L' & G); [intros i b I; apply (B i b I)|]. destruct (G p r Hp) as (r' & Hp' & _ & _ & _ & _ & Q).
  rewrite (Q N) in Hp'. destruct (C52_distinct_l _ _ _ (default_labels_distinct _ D) A R) as [_ A'].
  exists cat'. split; [exact H'|]. rewrite E'. split; [exact L'|]. split; [exact A'|]. rewrite <- Er'. split.
  - apply (C53_alias_l W' cat' a r base); [now rewrite E'|congruence|exact Pb| |exact Lo]. rewrite E'.
    destruct Hp' as [l Hl]. destruct (nth_error_split _ _ Hl) as (f1 & f2 & E & Lf). exists f1, l, f2. split; [exact E|]. split; [exact Ha|].
    intros l' r2 I K. apply In_nth_error in I. destruct I as [q Hq]. assert (Hlq : (q < length f1)%nat) by (apply nth_error_Some; congruence).
    assert (q = p); [|lia]. apply (A' q p r2 r a Na); [|exists l; exact Hl|exact K|exact Ha]. exists l'. rewrite E, nth_error_app1 by exact Hlq. exact Hq.
  - apply (C53_number_l W' cat' p r base path t u); [congruence|exact Pb|now rewrite E'|exact Lo].
Qed.
