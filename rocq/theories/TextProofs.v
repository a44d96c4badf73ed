(** Lemmas about number and table texts *)
From Verif Require Import PyBase PyStr XReal TextModel TextSpec.
Open Scope R_scope.
Open Scope list_scope.
Open Scope string_scope.

Lemma is_digit_char d : (d < 10)%nat -> is_digit (digit_char d) = true /\ digit_val (digit_char d) = Z.of_nat d.
Proof. intros H. do 10 (destruct d as [|d]; [split; reflexivity|]). lia. Qed.

Lemma is_digit_inv c : is_digit c = true -> exists d, (d < 10)%nat /\ c = digit_char d /\ digit_val c = Z.of_nat d.
Proof.
  unfold is_digit, digit_val, digit_char. rewrite andb_true_iff, !Nat.leb_le. intros [H1 H2].
  exists (nat_of_ascii c - 48)%nat. split; [lia|]. split; [|reflexivity].
  replace (48 + (nat_of_ascii c - 48))%nat with (nat_of_ascii c) by lia.
  now rewrite ascii_nat_embedding.
Qed.

Lemma us_not_digit : is_digit "_" = false. Proof. reflexivity. Qed.

(** the rest begins with something that cannot continue a digit run *)
Definition stops (us : bool) (t : string) : Prop :=
  match t with
  | EmptyString => True
  | String c r => is_digit c = false /\
      (c = "_"%char -> us = true -> match r with String d _ => is_digit d = false | _ => True end)
  end.

Lemma digits_head us s ds : digits_text us s ds -> exists c r, s = String c r /\ is_digit c = true.
Proof. inversion 1; subst; do 2 eexists; (split; [reflexivity|]); now apply is_digit_char. Qed.

Lemma scan_complete us s ds t b : digits_text us s ds -> stops us t ->
  scan_digits us b (s ++ t) = (ds, t).
Proof.
  intros H St. revert b. induction H as [d Hd|d s ds Hd Hs IH|d s ds Hu Hd Hs IH]; intros b;
    destruct (is_digit_char d Hd) as [H1 H2]; cbn [append scan_digits]; rewrite ?H1, ?H2.
  - destruct t as [|c r]; [reflexivity|]. cbn [append scan_digits]. destruct St as [Sc Su].
    rewrite Sc. destruct us; cbn [andb]; [|reflexivity].
    destruct (Ascii.eqb c us_char) eqn:E; [|reflexivity].
    apply Ascii.eqb_eq in E. specialize (Su E eq_refl).
    destruct r as [|e r]; [reflexivity|]. now rewrite Su.
  - now rewrite IH.
  - rewrite us_not_digit, Hu. cbn [andb]. change (Ascii.eqb "_" us_char) with true. cbn [andb].
    destruct (digits_head _ _ _ Hs) as (c & r & -> & Hc). cbn [append]. rewrite Hc.
    change (String c (r ++ t)) with (String c r ++ t).
    subst us. now rewrite IH.
Qed.

Lemma scan_sound us s : forall b ds t, scan_digits us b s = (ds, t) ->
  (ds = [] /\ t = s) \/
  (exists p, s = p ++ t /\ digits_text us p ds) \/
  (b = true /\ us = true /\ exists p, s = String "_" (p ++ t) /\ digits_text us p ds).
Proof.
  induction s as [|c r IH]; intros b ds t H; cbn [scan_digits] in H.
  - inversion H; auto.
  - destruct (is_digit c) eqn:D.
    + destruct (scan_digits us true r) as [ds' t'] eqn:E. inversion H; subst; clear H.
      destruct (is_digit_inv c D) as (d & Hd & -> & Hv). rewrite Hv.
      right; left. specialize (IH true ds' t E). destruct IH as [[-> ->]|[(p & -> & Hp)|(_ & Hu & p & -> & Hp)]].
      * exists (String (digit_char d) ""). split; [reflexivity|]. now constructor.
      * exists (String (digit_char d) p). split; [reflexivity|]. now constructor.
      * exists (String (digit_char d) (String "_" p)). split; [reflexivity|]. now constructor.
    + destruct (us && b && Ascii.eqb c us_char)%bool eqn:U; [|inversion H; auto].
      apply andb_true_iff in U. destruct U as [U Ec]. apply andb_true_iff in U. destruct U as [-> ->].
      apply Ascii.eqb_eq in Ec. subst c.
      destruct r as [|d r']; [inversion H; auto|].
      destruct (is_digit d) eqn:Dd; [|inversion H; auto].
      specialize (IH false ds t H). destruct IH as [[-> ->]|[(p & Ep & Hp)|(Hf & _)]]; [| |discriminate].
      * cbn [scan_digits] in H. rewrite Dd in H. destruct (scan_digits true true r'). discriminate.
      * right; right. split; [reflexivity|]. split; [reflexivity|]. exists p. rewrite <- Ep. auto.
Qed.

Lemma scan_sound_first us s ds t : scan_digits us false s = (ds, t) ->
  (ds = [] /\ t = s) \/ (exists p, s = p ++ t /\ digits_text us p ds).
Proof. intros H. destruct (scan_sound us s false ds t H) as [A|[A|(A & _)]]; auto; discriminate. Qed.

Lemma digits_nonempty us s ds : digits_text us s ds -> ds <> [].
Proof. inversion 1; discriminate. Qed.

Lemma positional_app a b : positional (a ++ b) = positional a * 10 ^ length b + positional b.
Proof.
  induction a as [|d r IH]; cbn [app positional]; [lra|].
  rewrite IH, app_length, pow_add. ring.
Qed.

Lemma digits_val_pos ds : IZR (digits_val ds) = positional ds.
Proof.
  unfold digits_val.
  assert (G : forall l a, IZR (fold_left (fun a d => (10 * a + d)%Z) l a) = IZR a * 10 ^ length l + positional l).
  { induction l as [|d r IH]; intros a; cbn [fold_left positional length pow]; [lra|].
    rewrite IH, plus_IZR, mult_IZR. cbn [length pow]. ring. }
  rewrite G. lra.
Qed.

Lemma powerRZ_Rpower10 n : powerRZ 10 n = Rpower 10 (IZR n).
Proof. apply powerRZ_Rpower; lra. Qed.

Lemma powerRZ_sub a n : powerRZ 10 (a - Z.of_nat n) = powerRZ 10 a / 10 ^ n.
Proof.
  unfold Zminus. rewrite powerRZ_add by lra. unfold Rdiv. f_equal.
  rewrite powerRZ_neg'. now rewrite <- pow_powerRZ.
Qed.

Lemma stops_nil us : stops us "". Proof. exact I. Qed.
Lemma stops_dot us r : stops us (String "." r).
Proof. split; [reflexivity|discriminate]. Qed.
Lemma expo_stops us e v : expo_text us e v -> stops us e.
Proof.
  inversion 1 as [|c s ds g Hc|c s ds Hc]; subst; [exact I| |];
    destruct Hc; subst; (split; [reflexivity|discriminate]).
Qed.

Lemma digits_not_signed us s ds t : digits_text us s ds -> scan_sign (s ++ t) = (false, s ++ t).
Proof.
  intros H. destruct (digits_head _ _ _ H) as (c & r & -> & Hc). cbn [append scan_sign].
  destruct (Ascii.eqb c "-") eqn:E1; [apply Ascii.eqb_eq in E1; subst; discriminate|].
  destruct (Ascii.eqb c "+") eqn:E2; [apply Ascii.eqb_eq in E2; subst; discriminate|]. reflexivity.
Qed.

Lemma scan_exp_complete us e v : expo_text us e v -> exists z, scan_exp us e = Some z /\ v = powerRZ 10 z.
Proof.
  inversion 1 as [|c s ds g Hc Hd Hg|c s ds Hc Hd]; subst.
  - exists 0%Z. split; reflexivity.
  - assert (Ec : (Ascii.eqb c "e" || Ascii.eqb c "E")%bool = true) by (destruct Hc; subst; reflexivity).
    exists (digits_val ds). split; [|rewrite powerRZ_Rpower10, digits_val_pos; reflexivity].
    unfold scan_exp. rewrite Ec.
    assert (Es : scan_sign (g ++ s) = (false, s)).
    { destruct Hg; subst; cbn [append]; [|reflexivity].
      rewrite <- (app_empty_r s) at 1. rewrite (digits_not_signed us s ds "" Hd). now rewrite app_empty_r. }
    rewrite Es. pose proof (scan_complete us s ds "" false Hd I) as Hs. rewrite app_empty_r in Hs.
    rewrite Hs. destruct ds; [now apply digits_nonempty in Hd|reflexivity].
  - assert (Ec : (Ascii.eqb c "e" || Ascii.eqb c "E")%bool = true) by (destruct Hc; subst; reflexivity).
    exists (- digits_val ds)%Z. split; [|rewrite powerRZ_Rpower10, opp_IZR, digits_val_pos; reflexivity].
    unfold scan_exp. rewrite Ec. cbn [append scan_sign]. rewrite Ascii.eqb_refl.
    pose proof (scan_complete us s ds "" false Hd I) as Hs. rewrite app_empty_r in Hs.
    rewrite Hs. destruct ds; [now apply digits_nonempty in Hd|reflexivity].
Qed.

Lemma scan_sign_sound s n t : scan_sign s = (n, t) ->
  exists g, s = g ++ t /\ sign_text g (if n then -1 else 1).
Proof.
  unfold scan_sign. destruct s as [|c r].
  - intros H; inversion H; subst. exists "". split; [reflexivity|constructor].
  - destruct (Ascii.eqb c "-") eqn:E1.
    { apply Ascii.eqb_eq in E1. intros H; inversion H; subst. exists "-". split; [reflexivity|constructor]. }
    destruct (Ascii.eqb c "+") eqn:E2.
    { apply Ascii.eqb_eq in E2. intros H; inversion H; subst. exists "+". split; [reflexivity|constructor]. }
    intros H; inversion H; subst. exists "". split; [reflexivity|constructor].
Qed.

Lemma scan_exp_sound us e z : scan_exp us e = Some z -> expo_text us e (powerRZ 10 z).
Proof.
  unfold scan_exp. destruct e as [|c r].
  - intros H; inversion H; subst. constructor.
  - destruct (Ascii.eqb c "e" || Ascii.eqb c "E")%bool eqn:Ec; [|discriminate].
    assert (Hc : c = "e"%char \/ c = "E"%char)
      by (apply orb_true_iff in Ec; destruct Ec as [Ec|Ec]; apply Ascii.eqb_eq in Ec; auto).
    destruct (scan_sign r) as [n t] eqn:Es.
    destruct (scan_digits us false t) as [ds u] eqn:Ed.
    destruct ds as [|d ds]; [discriminate|]. destruct u as [|]; [|discriminate].
    destruct (scan_sound_first _ _ _ _ Ed) as [[A _]|(p & Ep & Hp)]; [discriminate|].
    rewrite app_empty_r in Ep. subst t.
    destruct (scan_sign_sound _ _ _ Es) as (g & -> & Hg).
    intros H; inversion H; subst; clear H. rewrite powerRZ_Rpower10.
    inversion Hg as [A B|A B|A B]; subst; destruct n; try lra.
    + rewrite digits_val_pos. apply (ex_pos us c p (d :: ds) "" Hc Hp). auto.
    + rewrite digits_val_pos. apply (ex_pos us c p (d :: ds) "+" Hc Hp). auto.
    + rewrite opp_IZR, digits_val_pos. now apply (ex_neg us c p (d :: ds)).
Qed.

Lemma append_cons_assoc c r t : (String c r) ++ t = String c (r ++ t). Proof. reflexivity. Qed.

Lemma dec_val_split n ip fp z :
  dec_val n (digits_val (ip ++ fp)) (z - Z.of_nat (length fp)) =
  (if n then -1 else 1) * ((positional ip + positional fp / 10 ^ length fp) * powerRZ 10 z).
Proof.
  unfold dec_val. rewrite digits_val_pos, positional_app, powerRZ_sub.
  assert (10 ^ length fp <> 0) by (apply pow_nonzero; lra). now field.
Qed.

Lemma parse_unsigned_complete us n m mv e ev : mantissa_text us m mv -> expo_text us e ev ->
  parse_unsigned us n (m ++ e) = Ok (Fin ((if n then -1 else 1) * (mv * ev))).
Proof.
  intros Hm He. destruct (scan_exp_complete _ _ _ He) as (z & Ez & ->).
  pose proof (expo_stops _ _ _ He) as Se. unfold parse_unsigned.
  assert (Edot : forall c r, e = String c r -> Ascii.eqb c "." = false).
  { intros c r ->. inversion He as [|c' s ds g Hc|c' s ds Hc]; subst; destruct Hc; subst; reflexivity. }
  inversion Hm as [s ds Hd|s ds Hd|s ds t es Hd Ht|t es Ht]; subst.
  - rewrite (scan_complete us m ds e false Hd Se).
    assert (Ee : (match e with String c r => if Ascii.eqb c "." then scan_digits us false r else ([], e)
                             | EmptyString => ([], e) end) = ([], e)).
    { destruct e as [|c r]; [reflexivity|]. now rewrite (Edot c r eq_refl). }
    rewrite Ee. rewrite List.app_nil_r. destruct ds as [|d0 ds0]; [now apply digits_nonempty in Hd|].
    rewrite Ez. do 2 f_equal. rewrite <- (List.app_nil_r (d0 :: ds0)) at 1. rewrite dec_val_split.
    cbn [positional length pow]. replace (0 / 1) with 0 by field. ring.
  - rewrite app_assoc_s. cbn [append]. rewrite (scan_complete us s ds (String "." e) false Hd (stops_dot us e)).
    rewrite Ascii.eqb_refl.
    assert (Ee : scan_digits us false e = ([], e)).
    { destruct e as [|c r]; [reflexivity|]. cbn [scan_digits]. destruct Se as [Sc _]. rewrite Sc.
      now rewrite Bool.andb_false_r. }
    rewrite Ee, List.app_nil_r. destruct ds as [|d0 ds0]; [now apply digits_nonempty in Hd|].
    rewrite Ez. do 2 f_equal. rewrite <- (List.app_nil_r (d0 :: ds0)) at 1. rewrite dec_val_split.
    cbn [positional length pow]. replace (0 / 1) with 0 by field. ring.
  - rewrite !app_assoc_s. cbn [append].
    rewrite (scan_complete us s ds (String "." (t ++ e)) false Hd (stops_dot us _)).
    rewrite Ascii.eqb_refl, (scan_complete us t es e false Ht Se).
    destruct (ds ++ es)%list as [|d0 l0] eqn:El.
    { apply app_eq_nil in El. destruct El as [-> _]. now apply digits_nonempty in Hd. }
    rewrite Ez, <- El, dec_val_split. do 2 f_equal.
  - cbn [append]. cbn [scan_digits]. change (is_digit ".") with false. rewrite Bool.andb_false_r. cbn [andb].
    rewrite Ascii.eqb_refl, (scan_complete us t es e false Ht Se). cbn [app].
    destruct es as [|d0 l0]; [now apply digits_nonempty in Ht|].
    rewrite Ez. do 2 f_equal. change (d0 :: l0) with (([] : list Z) ++ d0 :: l0)%list at 1.
    rewrite dec_val_split. cbn [positional]. rewrite Rplus_0_l. reflexivity.
Qed.

Lemma parse_unsigned_raise us n s e : parse_unsigned us n s = Raise e -> e = ValueError.
Proof.
  unfold parse_unsigned. destruct (scan_digits us false s) as [ip t].
  destruct (match t with String c r => if Ascii.eqb c "." then scan_digits us false r else ([], t)
                        | EmptyString => ([], t) end) as [fp t'].
  destruct (ip ++ fp)%list; [intros H; inversion H; reflexivity|].
  destruct (scan_exp us t'); intros H; inversion H; reflexivity.
Qed.

Lemma parse_unsigned_sound us n s x : parse_unsigned us n s = Ok x ->
  exists m mv e ev, s = m ++ e /\ mantissa_text us m mv /\ expo_text us e ev /\
                    x = Fin ((if n then -1 else 1) * (mv * ev)).
Proof.
  unfold parse_unsigned. destruct (scan_digits us false s) as [ip t] eqn:Ei.
  destruct (match t with String c r => if Ascii.eqb c "." then scan_digits us false r else ([], t)
                        | EmptyString => ([], t) end) as [fp t'] eqn:Ef.
  destruct (ip ++ fp)%list as [|d0 l0] eqn:El; [discriminate|].
  destruct (scan_exp us t') as [z|] eqn:Ez; [|discriminate].
  intros H; inversion H; subst; clear H. rewrite <- El, dec_val_split.
  apply scan_exp_sound in Ez.
  assert (Hip : (ip = [] /\ t = s) \/ (exists p, s = p ++ t /\ digits_text us p ip))
    by now apply scan_sound_first.
  (* with or without a dot *)
  assert (Hfp : (fp = [] /\ t' = t) \/
                (exists r, t = String "." r /\ ((fp = [] /\ t' = r) \/ exists q, r = q ++ t' /\ digits_text us q fp))).
  { destruct t as [|c r]; [inversion Ef; auto|].
    destruct (Ascii.eqb c ".") eqn:Ed; [|inversion Ef; auto].
    apply Ascii.eqb_eq in Ed. subst c. right. exists r. split; [reflexivity|].
    apply scan_sound_first in Ef. destruct Ef as [[-> ->]|(q & -> & Hq)]; [auto|right; eauto]. }
  destruct Hip as [[-> ->]|(p & -> & Hp)].
  - destruct Hfp as [[-> _]|(r & -> & [[-> _]|(q & -> & Hq)])]; try discriminate.
    exists ("." ++ q), (positional fp / 10 ^ length fp), t', (powerRZ 10 z).
    split; [reflexivity|]. split; [now constructor|]. split; [exact Ez|].
    cbn [positional]. now rewrite Rplus_0_l.
  - destruct Hfp as [[-> ->]|(r & -> & [[-> ->]|(q & -> & Hq)])].
    + exists p, (positional ip), t, (powerRZ 10 z). split; [reflexivity|]. split; [now constructor|].
      split; [exact Ez|]. cbn [positional length pow]. replace (0 / 1) with 0 by field. now rewrite Rplus_0_r.
    + exists (p ++ "."), (positional ip), r, (powerRZ 10 z).
      split; [now rewrite app_assoc_s|]. split; [now constructor|].
      split; [exact Ez|]. cbn [positional length pow]. replace (0 / 1) with 0 by field. now rewrite Rplus_0_r.
    + exists (p ++ "." ++ q), (positional ip + positional fp / 10 ^ length fp), t', (powerRZ 10 z).
      split; [now rewrite !app_assoc_s|]. split; [now constructor|]. split; [exact Ez|]. reflexivity.
Qed.

(** *** stripping *)
Lemma blank_nil : blank "". Proof. intros c []. Qed.
Lemma blank_cons c r : blank (String c r) <-> is_space c = true /\ blank r.
Proof.
  unfold blank. cbn [list_ascii_of_string In]. split.
  - intros H; split; [apply H; auto|]. intros; apply H; auto.
  - intros [H1 H2] d [->|Hd]; auto.
Qed.

Definition no_space (s : string) : Prop := forall c, In c (list_ascii_of_string s) -> is_space c = false.
Lemma no_space_cons c r : no_space (String c r) <-> is_space c = false /\ no_space r.
Proof.
  unfold no_space. cbn [list_ascii_of_string In]. split.
  - intros H; split; [apply H; auto|]. intros; apply H; auto.
  - intros [H1 H2] d [->|Hd]; auto.
Qed.
Lemma no_space_nil : no_space "". Proof. intros c []. Qed.
Lemma no_space_app a b : no_space (a ++ b) <-> no_space a /\ no_space b.
Proof.
  induction a as [|c r IH]; cbn [append].
  - split; [intros; split; auto; apply no_space_nil|tauto].
  - rewrite !no_space_cons, IH. tauto.
Qed.
Lemma blank_app a b : blank (a ++ b) <-> blank a /\ blank b.
Proof.
  induction a as [|c r IH]; cbn [append].
  - split; [intros; split; auto; apply blank_nil|tauto].
  - rewrite !blank_cons, IH. tauto.
Qed.

Lemma lstrip_split s : exists p, s = p ++ lstrip s /\ blank p.
Proof.
  induction s as [|c r IH]; cbn [lstrip lstrip_by]; [exists ""; split; [reflexivity|apply blank_nil]|].
  destruct (is_space c) eqn:E.
  - destruct IH as (p & E1 & Hp). exists (String c p). split; [cbn [append]; f_equal; exact E1|].
    apply blank_cons; auto.
  - exists "". split; [reflexivity|apply blank_nil].
Qed.
Lemma rstrip_split s : exists q, s = rstrip s ++ q /\ blank q.
Proof.
  unfold rstrip. induction s as [|c r IH]; cbn [rstrip_by]; [exists ""; split; [reflexivity|apply blank_nil]|].
  destruct IH as (q & E1 & Hq).
  destruct (rstrip_by is_space r) as [|d r'] eqn:Er.
  - cbn [append] in E1. subst q. destruct (is_space c) eqn:E.
    + exists (String c r). split; [reflexivity|]. apply blank_cons; auto.
    + exists r. auto.
  - exists q. split; [cbn [append]; now rewrite E1|exact Hq].
Qed.
Lemma lstrip_blank p s : blank p -> lstrip (p ++ s) = lstrip s.
Proof.
  induction p as [|c r IH]; intros H; cbn [append]; [reflexivity|].
  apply blank_cons in H. destruct H as [H1 H2]. unfold lstrip in *. cbn [lstrip_by]. rewrite H1. auto.
Qed.
Lemma rstrip_blank q : blank q -> rstrip q = "".
Proof.
  unfold rstrip. induction q as [|c r IH]; intros H; [reflexivity|].
  apply blank_cons in H. destruct H as [H1 H2]. cbn [rstrip_by]. now rewrite IH, H1.
Qed.
Lemma rstrip_solid t q : no_space t -> blank q -> rstrip (t ++ q) = t.
Proof.
  unfold rstrip. intros Ht Hq. induction t as [|c r IH]; cbn [append]; [now apply rstrip_blank|].
  apply no_space_cons in Ht. destruct Ht as [H1 H2]. cbn [rstrip_by]. rewrite IH, H1 by assumption.
  destruct r; reflexivity.
Qed.
Lemma lstrip_no_space t s : t <> "" -> no_space t -> lstrip (t ++ s) = t ++ s.
Proof.
  destruct t as [|c r]; [congruence|]. intros _ H. apply no_space_cons in H. destruct H as [H _].
  unfold lstrip. cbn [append lstrip_by]. now rewrite H.
Qed.
Lemma strip_solid p t q : blank p -> solid t -> blank q -> rstrip (lstrip (p ++ t ++ q)) = t.
Proof.
  intros Hp [Ht1 Ht2] Hq. rewrite lstrip_blank by assumption.
  rewrite lstrip_no_space by assumption. now apply rstrip_solid.
Qed.

Lemma lower_solid w : no_space (lower w) -> no_space w.
Proof.
  induction w as [|c r IH]; [intros _; apply no_space_nil|].
  unfold lower in *. cbn [smap]. rewrite !no_space_cons. intros [H1 H2]. split; [|auto].
  unfold lower_char in H1. destruct (is_upper c) eqn:E; [|exact H1].
  revert E. destruct c as [[] [] [] [] [] [] [] []]; vm_compute; auto.
Qed.

Lemma digit_no_space c : is_digit c = true -> is_space c = false.
Proof. destruct c as [[] [] [] [] [] [] [] []]; vm_compute; auto; discriminate. Qed.

Lemma digits_no_space us s ds : digits_text us s ds -> no_space s.
Proof.
  induction 1 as [d Hd|d s ds Hd Hs IH|d s ds Hu Hd Hs IH]; rewrite ?no_space_cons;
    repeat split; auto using no_space_nil; apply digit_no_space; now apply is_digit_char.
Qed.
Lemma mantissa_no_space us m v : mantissa_text us m v -> no_space m /\ m <> "".
Proof.
  inversion 1 as [s ds Hd|s ds Hd|s ds t es Hd Ht|t es Ht]; subst; rewrite ?no_space_app;
    repeat match goal with H : digits_text _ _ _ |- _ =>
             pose proof (digits_no_space _ _ _ H); destruct (digits_head _ _ _ H) as (? & ? & ? & ?); clear H end;
    subst; cbn [append]; (split; [repeat split; auto; intros ? [<-|[]]; reflexivity|discriminate]).
Qed.
Lemma sign_no_space g v : sign_text g v -> no_space g.
Proof. inversion 1; intros c Hc; cbn in Hc; intuition (subst; reflexivity). Qed.
Lemma expo_no_space us e v : expo_text us e v -> no_space e.
Proof.
  inversion 1 as [|c s ds g Hc Hd Hg|c s ds Hc Hd]; subst; [apply no_space_nil| |].
  - apply no_space_cons. split; [destruct Hc; subst; reflexivity|]. apply no_space_app.
    split; [destruct Hg; subst; intros ? Hx; cbn in Hx; intuition (subst; reflexivity)|].
    eapply digits_no_space; eassumption.
  - apply no_space_cons. split; [destruct Hc; subst; reflexivity|]. apply no_space_cons.
    split; [reflexivity|]. eapply digits_no_space; eassumption.
Qed.

Lemma number_solid us s x : number_text us s x -> solid s.
Proof.
  assert (A : forall g w, no_space g -> no_space w -> w <> "" -> solid (g ++ w)).
  { intros g w Hg Hw Hn. split; [destruct g, w; cbn [append]; congruence|].
    apply no_space_app; auto. }
  assert (L : forall w u, lower w = u -> no_space u -> u <> "" -> no_space w /\ w <> "").
  { intros w u <- H1 H2. split; [now apply lower_solid|]. intros ->. now apply H2. }
  inversion 1 as [g sg m mv e ev Hg Hm He|g sg w Hg Hw|g sg w Hg Hw]; subst.
  - destruct (mantissa_no_space _ _ _ Hm) as [M1 M2].
    apply A; [eapply sign_no_space; eassumption| |].
    + apply no_space_app. split; [assumption|]. eapply expo_no_space; eassumption.
    + destruct m; cbn [append]; congruence.
  - assert (W : no_space w /\ w <> "").
    { destruct Hw as [Hw|Hw]; apply (L w _ Hw); try discriminate;
        intros c Hc; cbn in Hc; intuition (subst; reflexivity). }
    apply A; [eapply sign_no_space; eassumption| |]; tauto.
  - assert (W : no_space w /\ w <> "").
    { apply (L w _ Hw); try discriminate; intros c Hc; cbn in Hc; intuition (subst; reflexivity). }
    apply A; [eapply sign_no_space; eassumption| |]; tauto.
Qed.

Lemma lower_head w c r : lower w = String c r -> exists d s, w = String d s /\ lower_char d = c.
Proof. destruct w as [|d s]; [discriminate|]. cbn. intros H; inversion H. eauto. Qed.

Definition signchar (c : ascii) : bool := Ascii.eqb c "-" || Ascii.eqb c "+".
Lemma scan_sign_app g sg c r : sign_text g sg -> signchar c = false ->
  scan_sign (g ++ String c r) = (if Rlt_dec sg 0 then true else false, String c r).
Proof.
  unfold signchar. rewrite orb_false_iff. intros Hg [E1 E2].
  inversion Hg; subst; cbn [append scan_sign]; destruct (Rlt_dec _ 0); try lra; try reflexivity.
  now rewrite E1, E2.
Qed.
Lemma lower_letter_not_sign d c : lower_char d = c -> is_lower c = true -> signchar d = false.
Proof.
  intros <-. unfold signchar. destruct d as [[] [] [] [] [] [] [] []]; vm_compute; auto; discriminate.
Qed.

Lemma mantissa_head us m v : mantissa_text us m v ->
  exists c r, m = String c r /\ (is_digit c = true \/ c = "."%char).
Proof.
  inversion 1 as [s ds Hd|s ds Hd|s ds t es Hd Ht|t es Ht]; subst;
    try (destruct (digits_head _ _ _ Hd) as (c & r & -> & Hc); cbn [append]; do 2 eexists; split; [reflexivity|auto]).
  cbn [append]. do 2 eexists. split; [reflexivity|auto].
Qed.

Lemma parse_float_complete us p t q x : blank p -> blank q -> number_text us t x ->
  parse_float us (p ++ t ++ q) = Ok x.
Proof.
  intros Hp Hq Hn. unfold parse_float. rewrite strip_solid by (auto; eapply number_solid; eassumption).
  inversion Hn as [g sg m mv e ev Hg Hm He|g sg w Hg Hw|g sg w Hg Hw]; subst.
  - destruct (mantissa_head _ _ _ Hm) as (c & r & Em & Hc).
    assert (Hs : signchar c = false /\ lower_char c <> "i"%char /\ lower_char c <> "n"%char).
    { clear - Hc. destruct Hc as [Hc| ->]; [|repeat split; discriminate].
      revert Hc. destruct c as [[] [] [] [] [] [] [] []]; vm_compute; intros Hc; try discriminate Hc; repeat split; discriminate. }
    destruct Hs as (S1 & S2 & S3).
    replace (scan_sign (g ++ m ++ e)) with (if Rlt_dec sg 0 then true else false, m ++ e)
      by (rewrite Em; cbn [append]; symmetry; now apply scan_sign_app).
    assert (El : lower (m ++ e) = String (lower_char c) (lower (r ++ e))) by (rewrite Em; reflexivity).
    rewrite El. cbn [String.eqb].
    assert (N1 : Ascii.eqb (lower_char c) "i" = false) by now apply Ascii.eqb_neq.
    assert (N2 : Ascii.eqb (lower_char c) "n" = false) by now apply Ascii.eqb_neq.
    rewrite N1, N2. cbn [orb]. rewrite (parse_unsigned_complete us _ m mv e ev Hm He). do 3 f_equal.
    inversion Hg; subst; destruct (Rlt_dec _ 0); try lra; reflexivity.
  - destruct Hw as [Hw|Hw].
    + destruct (lower_head _ _ _ Hw) as (d & s & -> & Hd).
      rewrite (scan_sign_app g sg d s Hg) by (eapply lower_letter_not_sign; [exact Hd|reflexivity]).
      rewrite Hw. cbn. destruct (Rlt_dec sg 0); reflexivity.
    + destruct (lower_head _ _ _ Hw) as (d & s & -> & Hd).
      rewrite (scan_sign_app g sg d s Hg) by (eapply lower_letter_not_sign; [exact Hd|reflexivity]).
      rewrite Hw. cbn. destruct (Rlt_dec sg 0); reflexivity.
  - destruct (lower_head _ _ _ Hw) as (d & s & -> & Hd).
    rewrite (scan_sign_app g sg d s Hg) by (eapply lower_letter_not_sign; [exact Hd|reflexivity]).
    rewrite Hw. cbn. reflexivity.
Qed.

Lemma parse_float_sound us s x : parse_float us s = Ok x ->
  exists p t q, s = p ++ t ++ q /\ blank p /\ blank q /\ number_text us t x.
Proof.
  unfold parse_float. destruct (lstrip_split s) as (p & Ep & Hp).
  destruct (rstrip_split (lstrip s)) as (q & Eq & Hq).
  destruct (scan_sign (rstrip (lstrip s))) as [n t] eqn:Es.
  destruct (scan_sign_sound _ _ _ Es) as (g & Eg & Hg).
  intros H. exists p, (rstrip (lstrip s)), q. split; [congruence|]. split; [exact Hp|]. split; [exact Hq|].
  rewrite Eg.
  destruct (String.eqb (lower t) "inf" || String.eqb (lower t) "infinity")%bool eqn:Ei.
  - apply orb_true_iff in Ei. rewrite !String.eqb_eq in Ei. inversion H; subst.
    pose proof (nt_inf us g _ t Hg Ei) as Hn. destruct n; destruct (Rlt_dec _ 0) in Hn; try lra; exact Hn.
  - destruct (String.eqb (lower t) "nan") eqn:En.
    + apply String.eqb_eq in En. inversion H; subst. eapply nt_nan; eassumption.
    + destruct (parse_unsigned_sound _ _ _ _ H) as (m & mv & e & ev & -> & Hm & He & ->). now constructor.
Qed.

Lemma parse_float_raise us s e : parse_float us s = Raise e -> e = ValueError.
Proof.
  unfold parse_float. destruct (scan_sign _) as [n t].
  destruct (_ || _)%bool; [discriminate|]. destruct (String.eqb _ _); [discriminate|].
  apply parse_unsigned_raise.
Qed.
