(** Notions used in the statements of C44-C47 *)
From Verif Require Import PyBase PyStr XReal SpectrumModel SpectralModel TextModel MaterialModel FileModel ReaderModel WriterModel IOSpec.
Open Scope string_scope.
Open Scope list_scope.

Definition ends_with (path ext : string) : Prop := exists a, path = (a ++ ext)%string.
Definition prefix_of (a b : string) : Prop := exists r, b = (a ++ r)%string.
(** the meta comment as it is put in front of a file *)
Definition comment_block (c : string) (extra_line : bool) (block : string) : Prop :=
  exists t, trimmed c t /\
    block = (join NL (map (fun line => "#" ++ line) (split_on nl t)) ++ NL ++ (if extra_line then NL else ""))%string.

(** ** reuse of a Reader: read_file is called once per element of [texts], the contents the file
    has at that time; what raised has been caught *)
Definition after_reads (fk dk : list string) (yl : string -> res ydoc) (r : reader) (texts : list string) : reader :=
  fold_left (fun r text => snd (read_file fk dk yl r text)) texts r.
(** what a key holds if a file says nothing about it *)
Definition unset (key : string) (v : option mval) : Prop :=
  v = if String.eqb key "Specification" then Some (MMap [])
      else if smem key ["Comment"; "Reference"; "Author"; "Name"; "FullName"; "MetaComment"] then Some (MStr "")
      else None.
(** [a]: a reading with the metadata [old] in the object, [b]: a reading with a fresh object *)
Definition reading_or_left_over (old : dict mval) (a b : res fdict) : Prop :=
  match a, b with
  | Ok a, Ok b => fd_sets a = fd_sets b /\
      forall key, dget (fd_meta a) key = dget (fd_meta b) key \/
                  (unset key (dget (fd_meta b) key) /\ dget (fd_meta a) key = dget old key)
  | Raise e, Raise e' => e = e'
  | _, _ => False
  end.
