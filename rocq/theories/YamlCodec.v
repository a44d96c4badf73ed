(** A text for every mapping without arrays, from which the mapping can be recovered: used to show
    that the assumptions about the yaml library can be met. Countability is stdpp's. *)
From stdpp Require Import base countable strings list.
From Coq Require Import ZArith List String Ascii.

Definition plain_set : Type := list (string * (string + bool)).
Definition plain_val : Type := string + (list (string * string) + Z).
Definition plain_doc : Type := list (string * (plain_val + list plain_set)).

Fixpoint show_pos (p : positive) : string :=
  match p with xH => "1" | xO q => String "0" (show_pos q) | xI q => String "1" (String "x" (show_pos q)) end%string.
Fixpoint read_pos (s : string) : option positive :=
  match s with
  | String a r =>
      if Ascii.eqb a "0" then option_map xO (read_pos r)
      else match r with
           | EmptyString => Some xH
           | String _ r' => option_map xI (read_pos r')
           end
  | EmptyString => None
  end.
Lemma read_show p : read_pos (show_pos p) = Some p.
Proof. induction p as [p IH|p IH|]; cbn [show_pos read_pos]; [|now rewrite Ascii.eqb_refl, IH|reflexivity]. change (Ascii.eqb "1" "0") with false. cbv iota. now rewrite IH. Qed.
Lemma show_first p : exists r, show_pos p = String "0" r \/ show_pos p = String "1" r.
Proof. destruct p; cbn [show_pos]; eexists; eauto. Qed.
Lemma show_chars p : forall c, In c (list_ascii_of_string (show_pos p)) -> c = "0"%char \/ c = "1"%char \/ c = "x"%char.
Proof. induction p as [p IH|p IH|]; cbn; intros c H; [destruct H as [<-|[<-|H]]|destruct H as [<-|H]|destruct H as [<-|[]]]; auto. Qed.

Definition plain_text (d : plain_doc) : string := show_pos (encode d).
Definition plain_load (s : string) : option plain_doc := match read_pos s with Some p => decode p | None => None end.
Lemma plain_round_trip d : plain_load (plain_text d) = Some d.
Proof. unfold plain_load, plain_text. rewrite read_show. apply decode_encode. Qed.
Lemma plain_first d : exists r, plain_text d = String "0" r \/ plain_text d = String "1" r.
Proof. apply show_first. Qed.
Lemma plain_chars d : forall c, In c (list_ascii_of_string (plain_text d)) -> c = "0"%char \/ c = "1"%char \/ c = "x"%char.
Proof. apply show_chars. Qed.
