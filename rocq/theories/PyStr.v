(** Python [str] operations used by the code, over 8-bit characters.
    Simplification: characters >= 128 are opaque (uncased, never white space);
    Python's Unicode case mapping and Unicode white space are not modelled. *)
From Verif Require Import PyBase.
Open Scope string_scope.

Definition is_upper (c : ascii) : bool :=
  let n := nat_of_ascii c in ((65 <=? n) && (n <=? 90))%nat.
Definition is_lower (c : ascii) : bool :=
  let n := nat_of_ascii c in ((97 <=? n) && (n <=? 122))%nat.

Definition lower_char (c : ascii) : ascii :=
  if is_upper c then ascii_of_nat (nat_of_ascii c + 32) else c.
Definition upper_char (c : ascii) : ascii :=
  if is_lower c then ascii_of_nat (nat_of_ascii c - 32) else c.

Fixpoint smap (f : ascii -> ascii) (s : string) : string :=
  match s with EmptyString => EmptyString | String c r => String (f c) (smap f r) end.

Definition lower (s : string) : string := smap lower_char s.   (* str.lower *)
Definition upper (s : string) : string := smap upper_char s.   (* str.upper *)

(** str.isspace / str.split() white space: \t \n \v \f \r FS GS RS US and blank *)
Definition is_space (c : ascii) : bool :=
  let n := nat_of_ascii c in
  (((9 <=? n) && (n <=? 13)) || ((28 <=? n) && (n <=? 32)))%nat.

Definition nl : ascii := ascii_of_nat 10.
Definition cr : ascii := ascii_of_nat 13.
Definition tab : ascii := ascii_of_nat 9.
Definition NL : string := String nl EmptyString.
Definition TAB : string := String tab EmptyString.

(** generic strip: drop leading characters satisfying [f] *)
Fixpoint lstrip_by (f : ascii -> bool) (s : string) : string :=
  match s with
  | EmptyString => EmptyString
  | String c r => if f c then lstrip_by f r else s
  end.
(** drop trailing characters satisfying [f] *)
Fixpoint rstrip_by (f : ascii -> bool) (s : string) : string :=
  match s with
  | EmptyString => EmptyString
  | String c r =>
      match rstrip_by f r with
      | EmptyString => if f c then EmptyString else String c EmptyString
      | r' => String c r'
      end
  end.
Definition lstrip := lstrip_by is_space.
Definition rstrip := rstrip_by is_space.
Definition is_nlcr (c : ascii) : bool := Ascii.eqb c nl || Ascii.eqb c cr.
Definition rstrip_nlcr := rstrip_by is_nlcr.                  (* s.rstrip("\n\r") *)

(** s.isspace(): non-empty and all white space *)
Fixpoint all_chars (f : ascii -> bool) (s : string) : bool :=
  match s with EmptyString => true | String c r => f c && all_chars f r end.
Definition isspace (s : string) : bool :=
  match s with EmptyString => false | _ => all_chars is_space s end.

Definition startswith (p s : string) : bool := String.prefix p s.  (* s.startswith(p) *)

(** s.split(c) for a one-character separator: always at least one piece *)
Fixpoint split_on (sep : ascii) (s : string) : list string :=
  match s with
  | EmptyString => [EmptyString]
  | String c r =>
      if Ascii.eqb c sep then EmptyString :: split_on sep r
      else match split_on sep r with
           | [] => [String c EmptyString]
           | p :: ps => String c p :: ps
           end
  end.

(** sep.join(l) *)
Fixpoint join (sep : string) (l : list string) : string :=
  match l with
  | [] => EmptyString
  | [x] => x
  | x :: r => x ++ sep ++ join sep r
  end.

(** s.split(): maximal runs of non white space *)
Fixpoint split_ws_aux (cur : string) (s : string) : list string :=
  match s with
  | EmptyString => match cur with EmptyString => [] | _ => [cur] end
  | String c r =>
      if is_space c then
        match cur with
        | EmptyString => split_ws_aux EmptyString r
        | _ => cur :: split_ws_aux EmptyString r
        end
      else split_ws_aux (cur ++ String c EmptyString) r
  end.
Definition split_ws (s : string) : list string := split_ws_aux EmptyString s.

(** s.replace(c, w) for a one-character pattern *)
Fixpoint replace_char (c : ascii) (w : string) (s : string) : string :=
  match s with
  | EmptyString => EmptyString
  | String d r => if Ascii.eqb d c then w ++ replace_char c w r else String d (replace_char c w r)
  end.

(** delete all characters satisfying [f] (re.sub of a character class by '') *)
Fixpoint remove_chars (f : ascii -> bool) (s : string) : string :=
  match s with
  | EmptyString => EmptyString
  | String c r => if f c then remove_chars f r else String c (remove_chars f r)
  end.

(** re.sub(r'\n ', "\n"): newline followed by a blank loses the blank
    (non-overlapping matches left to right) *)
Fixpoint unindent (s : string) : string :=
  match s with
  | EmptyString => EmptyString
  | String c r =>
      if Ascii.eqb c nl then
        match r with
        | String d r' => if Ascii.eqb d " " then String c (unindent r') else String c (unindent r)
        | EmptyString => String c EmptyString
        end
      else String c (unindent r)
  end.

(** s[:-1] *)
Fixpoint drop_last (s : string) : string :=
  match s with
  | EmptyString => EmptyString
  | String c EmptyString => EmptyString
  | String c r => String c (drop_last r)
  end.

(** iteration over the lines of a text file, line terminator kept.
    Lines end at \n; a last line without terminator is yielded as is. *)
Fixpoint lines_keep_aux (cur : string) (s : string) : list string :=
  match s with
  | EmptyString => match cur with EmptyString => [] | _ => [cur] end
  | String c r =>
      if Ascii.eqb c nl then (cur ++ NL) :: lines_keep_aux EmptyString r
      else lines_keep_aux (cur ++ String c EmptyString) r
  end.
Definition lines_keep (s : string) : list string := lines_keep_aux EmptyString s.

(** sub in s *)
Fixpoint contains_str (sub s : string) : bool :=
  String.prefix sub s ||
  match s with EmptyString => false | String _ r => contains_str sub r end.

(** ** Facts *)
Lemma smap_app f a b : smap f (a ++ b) = smap f a ++ smap f b.
Proof. induction a as [|c r IH]; cbn [smap append]; [reflexivity|]; now rewrite IH. Qed.

Lemma app_empty_r s : s ++ EmptyString = s.
Proof. induction s as [|c r IH]; cbn [append]; [reflexivity|]; now rewrite IH. Qed.

Lemma app_assoc_s a b c : (a ++ b) ++ c = a ++ b ++ c.
Proof. induction a as [|x r IH]; cbn [append]; [reflexivity|]; now rewrite IH. Qed.

Lemma lower_char_idem c : lower_char (lower_char c) = lower_char c.
Proof. destruct c as [[] [] [] [] [] [] [] []]; vm_compute; reflexivity. Qed.

Lemma upper_char_idem c : upper_char (upper_char c) = upper_char c.
Proof. destruct c as [[] [] [] [] [] [] [] []]; vm_compute; reflexivity. Qed.

Lemma smap_idem f : (forall c, f (f c) = f c) -> forall s, smap f (smap f s) = smap f s.
Proof. intros H s; induction s as [|c r IH]; cbn [smap]; [reflexivity|]; now rewrite H, IH. Qed.

Lemma lower_idem s : lower (lower s) = lower s.
Proof. apply smap_idem, lower_char_idem. Qed.

Lemma upper_idem s : upper (upper s) = upper s.
Proof. apply smap_idem, upper_char_idem. Qed.
