(** A toy yaml library for the examples: it writes the configurations of the setup script and reads
    them back. It models no code. *)
From Verif Require Import PyBase PyStr XReal IOSpec PathModel ConfigModel CatalogueSpec DiskModel SetupModel SetupSpec.
Open Scope string_scope.
Open Scope list_scope.

Fixpoint marked (s : string) : string := match s with "" => "b" | String c s => String "a" (String c (marked s)) end.
Fixpoint unmarked (s : string) : string * string :=
  match s with
  | String "a" (String c s) => let (x, r) := unmarked s in (String c x, r)
  | String _ s => ("", s)
  | "" => ("", "")
  end.
Definition sample_yaml_dump (c : cfg) : string :=
  match c with
  | (_, CStr path) :: (_, CStr name) :: _ :: _ :: (_, CMap [_; (_, CBool rii)]) :: _ => String (if rii then "y" else "n") (marked path ++ marked name)
  | _ => ""
  end.
Definition sample_yaml_parse (dir text : string) : res cfg :=
  match text with
  | String c text =>
      let (path, rest) := unmarked text in let name := fst (unmarked rest) in
      if Ascii.eqb c "y" then Ok (setup_result path name true)
      else if Ascii.eqb c "n" then Ok (setup_result path name false) else Ok (documented_default dir)
  | "" => Raise ValueError
  end.
Lemma unmarked_marked s r : unmarked (marked s ++ r)%string = (s, r).
Proof. induction s as [|c s IH]; [reflexivity|]. cbn. now rewrite IH. Qed.
Lemma marked_nil s : unmarked (marked s) = (s, "").
Proof. induction s as [|c s IH]; [reflexivity|]. cbn. now rewrite IH. Qed.
Lemma sample_yaml_back dir path name rii : sample_yaml_parse dir (sample_yaml_dump (setup_result path name rii)) = Ok (setup_result path name rii).
Proof. unfold sample_yaml_dump, setup_result at 1. unfold sample_yaml_parse. rewrite unmarked_marked, marked_nil. now destruct rii. Qed.
Lemma sample_yaml_default dir d : sample_yaml_parse dir (documented_text d) = Ok (documented_default dir).
Proof. unfold documented_text. cbn [String.concat append]. unfold sample_yaml_parse. match goal with |- context[unmarked ?t] => now destruct (unmarked t) end. Qed.
