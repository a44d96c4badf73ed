(** A yaml library that meets the assumptions, for the examples *)
From Verif Require Import PyBase PyStr XReal SpectrumModel SpectralModel TextModel MaterialModel FileModel ReaderModel WriterModel IOSpec SaveSpec LineProofs TextFileProofs ShowsProofs YamlSpec YamlCodec.
From Coq Require Import Permutation.
Open Scope string_scope.
Open Scope list_scope.

Definition plain_mval (v : mval) : plain_val := match v with MStr s => inl s | MMap d => inr (inl d) | MOther z => inr (inr z) end.
Definition mval_of (v : plain_val) : mval := match v with inl s => MStr s | inr (inl d) => MMap d | inr (inr z) => MOther z end.
Definition plain_dval (v : dval) : string + bool := match v with DStr s => inl s | DOther b => inr b | DArr _ => inr false end.
Definition dval_of (v : string + bool) : dval := match v with inl s => DStr s | inr b => DOther b end.
Definition plain_node (n : ynode) : plain_val + list plain_set :=
  match n with NVal v => inl (plain_mval v) | NSeq l => inr (map (map (fun kv => (fst kv, plain_dval (snd kv)))) l) end.
Definition node_of (n : plain_val + list plain_set) : ynode :=
  match n with inl v => NVal (mval_of v) | inr l => NSeq (map (map (fun kv => (fst kv, dval_of (snd kv)))) l) end.
Definition sample_dump (d : dict ynode) : string := plain_text (map (fun kv => (fst kv, plain_node (snd kv))) d).
Definition sample_load (text : string) : res ydoc :=
  match plain_load (last (split_on nl text) "") with
  | Some d => Ok (YDict (map (fun kv => (fst kv, node_of (snd kv))) d))
  | None => Raise ValueError
  end.
Definition yaml_env : wenv := mkWenv (fmt_elem sample_env) (str_of sample_env) (Ok false) sample_dump.

Lemma yaml_env_shows : shows yaml_env sample_disp.
Proof. destruct sample_shows as [A B C]. constructor; assumption. Qed.
Lemma restores (d : dict ynode) : (forall k l s key a, In (k, NSeq l) d -> In s l -> ~ In (key, DArr a) s) ->
  map (fun kv => (fst kv, node_of (snd kv))) (map (fun kv => (fst kv, plain_node (snd kv))) d) = d.
Proof.
  intros H. rewrite map_map. cbn [fst snd]. induction d as [|[k n] d IH]; [reflexivity|]. cbn [map]. f_equal; [|apply IH; intros q l s key a H1; apply (H q); now right].
  f_equal. cbn [snd]. destruct n as [[s|m|z]|l]; try reflexivity. cbn [plain_node node_of]. f_equal. rewrite map_map.
  assert (forall s : dict dval, In s l -> map (fun kv => (fst kv, dval_of (snd kv))) (map (fun kv => (fst kv, plain_dval (snd kv))) s) = s) as G.
  { intros s Hs. rewrite map_map. cbn [fst snd]. pose proof (fun key a => H k l s key a (or_introl eq_refl) Hs) as X. clear -X. induction s as [|[q v] s IH]; [reflexivity|]. cbn [map fst snd]. rewrite IH by (intros key a Y; apply (X key a); now right).
    destruct v as [t|a|b]; [reflexivity| |reflexivity]. exfalso. apply (X q a). now left. }
  clear -G. induction l as [|s l IH]; [reflexivity|]. cbn [map]. rewrite G by now left. apply (f_equal (cons s)). apply IH. intros q Hq. apply G. now right.
Qed.
Lemma same_doc_refl d : same_doc d d.
Proof.
  exists d. split; [apply Permutation_refl|]. induction d as [|[k n] d IH]; constructor; [|exact IH]. split; [reflexivity|].
  destruct n as [[s|m|z]|l]; cbn; [reflexivity|apply Permutation_refl|reflexivity|]. induction l; constructor; [apply Permutation_refl|assumption].
Qed.
Lemma last_of_block block t : block = "" \/ yaml_comment block -> ~ In nl (chars t) -> last (split_on nl (block ++ t)%string) "" = t.
Proof.
  intros Hb Ht. assert (split_on nl t = [t]) as E0 by now apply split_single.
  destruct Hb as [->|(lines & -> & F)]; [change ("" ++ t)%string with t; now rewrite E0|].
  assert (forall a b, split_on nl (a ++ NL ++ b)%string <> [] /\ last (split_on nl (a ++ NL ++ b)%string) "" = last (split_on nl b) "") as G.
  { intros a b. induction a as [|x a [IH1 IH2]].
    - change ("" ++ NL ++ b)%string with (String nl b). cbn [split_on]. rewrite Ascii.eqb_refl. split; [discriminate|].
      pose proof (proj2 (join_split_gen nl b)) as N.
      destruct (split_on nl b); [congruence|reflexivity].
    - change ((String x a ++ NL ++ b)%string) with (String x (a ++ NL ++ b)). cbn [split_on]. destruct (Ascii.eqb x nl).
      + split; [discriminate|]. rewrite <- IH2. destruct (split_on nl (a ++ NL ++ b)%string); [congruence|reflexivity].
      + rewrite <- IH2. assert (exists y z r, split_on nl (a ++ NL ++ b)%string = y :: z :: r) as (y & z & r & ->).
        { clear. induction a as [|u a IH].
          - change ("" ++ NL ++ b)%string with (String nl b). cbn [split_on]. rewrite Ascii.eqb_refl. pose proof (proj2 (join_split_gen nl b)) as N. destruct (split_on nl b); [congruence|eauto].
          - change ((String u a ++ NL ++ b)%string) with (String u (a ++ NL ++ b)). cbn [split_on]. destruct IH as (y & z & r & ->). destruct (Ascii.eqb u nl); eauto. }
        split; [discriminate|reflexivity]. }
  clear F. induction lines as [|l lines IH]; cbn [fold_right].
  - change (NL ++ t)%string with ("" ++ NL ++ t)%string. rewrite (proj2 (G "" t)), E0. reflexivity.
  - rewrite !app_assoc_s. rewrite <- (app_assoc_s "#" l). rewrite (proj2 (G _ _)). exact IH.
Qed.
Lemma sample_library : yaml_library yaml_env sample_load.
Proof.
  constructor.
  - intros block d Hb [_ He]. exists d. split; [|apply same_doc_refl]. unfold sample_load. cbn [yaml_env yaml_dump].
    rewrite last_of_block; [|exact Hb|].
    + unfold sample_dump. rewrite plain_round_trip. now rewrite restores.
    + intros X. destruct (plain_chars _ _ X) as [Y|[Y|Y]]; discriminate Y.
  - intros d _. cbn [yaml_env yaml_dump]. unfold sample_dump. destruct (plain_first (map (fun kv => (fst kv, plain_node (snd kv))) d)) as [r [E|E]]; rewrite E; eexists _, r; (split; [reflexivity|split; discriminate]).
  - intros d _ X. destruct (plain_chars _ _ X) as [Y|[Y|Y]]; discriminate Y.
Qed.
