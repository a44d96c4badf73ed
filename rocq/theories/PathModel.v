(** os.path on POSIX, as far as catalogue.py, config.py and setup_dispersion.py use it. The code
    modelled is the standard library's posixpath.py. *)
From Verif Require Import PyBase PyStr FileModel.
Open Scope string_scope.
Open Scope list_scope.

Definition starts_slash (s : string) : bool := startswith "/" s.
Fixpoint ends_slash (s : string) : bool :=
  match s with
  | EmptyString => false
  | String c EmptyString => Ascii.eqb c "/"
  | String _ r => ends_slash r
  end.
(** os.path.join(a, b) *)
Definition path_join (a b : string) : string :=
  if starts_slash b then b
  else if String.eqb a "" || ends_slash a then (a ++ b)%string
  else (a ++ "/" ++ b)%string.
(** os.path.isabs *)
Definition isabs (s : string) : bool := starts_slash s.

(** os.path.normpath *)
Fixpoint norm_comps (rooted : bool) (l : list string) (rev_new : list string) : list string :=
  match l with
  | [] => rev rev_new
  | c :: r =>
      if String.eqb c "" || String.eqb c "." then norm_comps rooted r rev_new
      else if negb (String.eqb c "..") || (negb rooted && match rev_new with [] => true | _ => false end)
                || match rev_new with p :: _ => String.eqb p ".." | [] => false end
           then norm_comps rooted r (c :: rev_new)
      else match rev_new with _ :: t => norm_comps rooted r t | [] => norm_comps rooted r [] end
  end.
Definition initial_slashes (s : string) : string :=
  if starts_slash s then (if startswith "//" s && negb (startswith "///" s) then "//" else "/") else "".
Definition normpath (s : string) : string :=
  if String.eqb s "" then "."
  else let p := (initial_slashes s ++ join "/" (norm_comps (starts_slash s) (split_on "/" s) []))%string in
       if String.eqb p "" then "." else p.

(** os.path.splitext(path)[0] *)
Definition stem (p : string) : string :=
  substring 0 (String.length p - String.length (splitext p)) p.
