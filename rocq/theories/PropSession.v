(** Theorems about using the catalogue in several sessions (C87). *)
From Verif Require Import PyBase PyStr XReal CNum SpectrumModel SpectralModel SpectralSpec TextModel MaterialModel MaterialSpec MaterialProofs MatFileProofs FileModel IOSpec PathModel ConfigModel CatalogueModel CatalogueSpec CatalogueProofs NormProofs RebuildProofs SaveProofs CatalogueSample SpectralThms CatalogueThms CsvModel CsvSpec CsvProofs CsvThms SessionSpec.
From Verif Require Import SessionThms.
Open Scope R_scope.
Open Scope string_scope.
Open Scope list_scope.

(** C87: any number of sessions, each saving its aliases, leaves the catalogue that one session with
    all the calls has at its end; aliases refused in one session because of an earlier one are
    refused in both *)
Theorem C87_sessions : forall X L cfg W cat calls W' f,
  csv_ok L -> mk_catalogue X W cfg (RStr "None") = Ok cat -> Forall (lasting L) (rows_of (c_db cat)) -> default_numbering (c_db cat) ->
  (forall i b, In (i, b) calls -> (0 <= i < Z.of_nat (length (c_db cat)))%Z /\ writable L b) ->
  sessions X L cfg W calls W' -> registered (c_db cat) calls f ->
  exists cat', mk_catalogue X W' cfg (RStr "None") = Ok cat' /\ c_db cat' = f /\ c_base cat' = c_base cat /\ w_read W' = w_read W.
Proof. exact C87_sessions_l. Qed.
Print Assumptions C87_sessions.

(** C87: so an alias a row carried at the beginning still loads that row's file after any number of
    sessions in which the row was given no other alias; no session can take it away; non-empty
    aliases stay distinct *)
Theorem C87_alias : forall X L cfg W cat calls W' base p r a path t u,
  csv_ok L -> mk_catalogue X W cfg (RStr "None") = Ok cat -> Forall (lasting L) (rows_of (c_db cat)) -> default_numbering (c_db cat) ->
  aliases_distinct (c_db cat) ->
  (forall i b, In (i, b) calls -> (0 <= i < Z.of_nat (length (c_db cat)))%Z /\ writable L b) ->
  sessions X L cfg W calls W' ->
  c_base cat = abs_path base -> Forall plain_name base -> row_at (c_db cat) p r -> r_alias r = KStr a -> a <> "" -> located base r path t u ->
  (forall i b, In (i, b) calls -> i <> Z.of_nat p) ->
  exists cat', mk_catalogue X W' cfg (RStr "None") = Ok cat' /\ length (c_db cat') = length (c_db cat) /\ aliases_distinct (c_db cat') /\
    get_material W' cat' (IdStr a) = loaded (w_read W) path t u /\ get_material W' cat' (IdInt (Z.of_nat p)) = loaded (w_read W) path t u.
Proof. exact C87_alias_l. Qed.
Print Assumptions C87_alias.

(** numbers for the example: the library writes 400, 800, 1.5, 0 and the infinite ones *)
Definition session_csv : csvlib :=
  mkCsv (fun x => match x with PInf => "inf" | NInf => "-inf"
                  | Fin x => if Req_EM_T x 400 then "400.0" else if Req_EM_T x 800 then "800.0" else if Req_EM_T x 1.5 then "1.5" else "0.0"
                  | NaN => "" end) (fun _ _ => "[1, 2]")
    (fun s => if String.eqb s "" then None else if String.eqb s "inf" then Some PInf else if String.eqb s "-inf" then Some NInf
              else if String.eqb s "400.0" then Some (Fin 400) else if String.eqb s "800.0" then Some (Fin 800)
              else if String.eqb s "1.5" then Some (Fin 1.5) else Some (Fin 0)) true.
Ltac session_char := let K := fresh in intros K; cbn in K; repeat (destruct K as [K|K]; [discriminate K|]); exact K.
Lemma session_csv_ok : csv_ok session_csv.
Proof.
  split; [|reflexivity|intros; split; [session_char|now left]].
  intros x N. destruct x; try congruence; cbn -[Req_EM_T]; repeat match goal with |- context[Req_EM_T ?a ?b] => destruct (Req_EM_T a b) end;
    (split; [discriminate|]); (split; [split; [session_char|now left]|eexists; reflexivity]).
Qed.
Lemma session_lasting : Forall (lasting session_csv) (rows_of sample_frame).
Proof.
  assert (G : forall x, In x [Fin 400; Fin 800; Fin 1.5; Fin 0] -> number_back session_csv x x).
  { intros x I. cbn in I. decompose [or] I; try contradiction; subst; unfold number_back; cbn -[Req_EM_T];
      repeat match goal with |- context[Req_EM_T ?a ?b] => destruct (Req_EM_T a b); try (exfalso; lra) end; reflexivity. }
  cbn. repeat (constructor; [split;
    [unfold texts_writable, cell_writable; cbn; repeat apply conj; intros s E; try discriminate E; injection E as <-; (split; [session_char|now left])
    |cbn; intros c I; decompose [or] I; try contradiction; subst; eauto
    |split; discriminate
    |cbn [r_lo r_hi r_n r_k row_glass row_metal row_silver sample_row]; repeat apply conj; intros; apply G; cbn; auto 6]|]).
  constructor.
Qed.
Lemma session_distinct : aliases_distinct sample_frame.
Proof.
  apply (distinct_labels _ (default_labels_distinct _ (numbered_default _))). intros l l' r r' a Ha I I' E E'. cbn in I, I'.
  decompose [or] I; decompose [or] I'; try contradiction;
    repeat match goal with H : (_, _) = (_, _) |- _ => injection H as <- <- end; cbn in E, E'; congruence.
Qed.
(** two sessions: one registers "window", the other tries it again for the second row, in vain, and
    registers "Ag" for the third row, which loses its old alias. The alias "mirror" of the second
    row stays. *)
Example C87_instance : exists W' cat' f,
  sessions toy_scipy session_csv (sample_config sample_modules) sample_world [(0%Z, "window"); (1%Z, "window"); (2%Z, "Ag")] W' /\
  registered sample_frame [(0%Z, "window"); (1%Z, "window"); (2%Z, "Ag")] f /\
  map r_alias (rows_of f) = [KStr "window"; KStr "mirror"; KStr "Ag"] /\
  mk_catalogue toy_scipy W' (sample_config sample_modules) (RStr "None") = Ok cat' /\ c_db cat' = f /\ aliases_distinct (c_db cat').
Proof.
  set (cat := mkCat "/home/cat" "catalogue.csv" false sample_ref sample_frame).
  assert (H : mk_catalogue toy_scipy sample_world (sample_config sample_modules) (RStr "None") = Ok cat) by reflexivity.
  pose proof session_csv_ok as O.
  assert (B : forall i b, In (i, b) [(0%Z, "window"); (1%Z, "window"); (2%Z, "Ag")] -> (0 <= i < Z.of_nat (length (c_db cat)))%Z /\ writable session_csv b).
  { intros i b I. cbn in I. decompose [or] I; try contradiction; repeat match goal with K : (_, _) = (_, _) |- _ => injection K as <- <- end;
      (split; [cbn; lia|split; [session_char|now left]]). }
  assert (R1 : exists f1, registered sample_frame [(0%Z, "window")] f1 /\ registered f1 [(1%Z, "window"); (2%Z, "Ag")]
      (numbered [sample_row "window" "glass" "glass.txt" "UserData" "nanometer"; row_metal; set_alias row_silver (KStr "Ag")])).
  { eexists. split; [econstructor; [reflexivity|constructor]|]. econstructor; [reflexivity|]. econstructor; [reflexivity|constructor]. }
  destruct R1 as (f1 & R1 & R2).
  assert (R : registered sample_frame [(0%Z, "window"); (1%Z, "window"); (2%Z, "Ag")]
      (numbered [sample_row "window" "glass" "glass.txt" "UserData" "nanometer"; row_metal; set_alias row_silver (KStr "Ag")])).
  { inversion R1; subst. econstructor; [eassumption|]. match goal with K : registered _ [] _ |- _ => inversion K; subst end. exact R2. }
  destruct (registered_lasting session_csv _ _ _ R1 (numbered_default _) session_lasting) as (D1 & F1 & _).
  { intros i b [K|[]]. apply B. rewrite K. now left. }
  destruct (reopened_same toy_scipy session_csv sample_world _ _ cat f1 O H D1 F1) as (cat1 & H1 & E1 & _).
  assert (S : exists W', sessions toy_scipy session_csv (sample_config sample_modules) sample_world [(0%Z, "window"); (1%Z, "window"); (2%Z, "Ag")] W').
  { eexists. apply (ses_one _ _ _ sample_world cat [(0%Z, "window")] f1 [(1%Z, "window"); (2%Z, "Ag")] _ H R1).
    eapply (ses_one _ _ _ _ cat1 [(1%Z, "window"); (2%Z, "Ag")] _ [] _ H1); [rewrite E1; exact R2|apply ses_none]. }
  destruct S as (W' & Sx).
  destruct (C87_sessions toy_scipy session_csv _ sample_world cat _ W' _ O H session_lasting (numbered_default _) B Sx R) as (cat' & H' & E' & _).
  exists W', cat'. eexists. split; [exact Sx|]. split; [exact R|]. split; [reflexivity|]. split; [exact H'|]. split; [exact E'|].
  rewrite E'. apply (C52_distinct_l _ _ _ (default_labels_distinct _ (numbered_default _)) session_distinct R).
Qed.
