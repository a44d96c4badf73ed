(** Notions used in the statements about yaml files: C40, C43, C47, C69 *)
From Verif Require Import PyBase PyStr XReal CNum SpectrumModel SpectralModel TextModel MaterialModel FileModel ReaderModel WriterModel IOSpec SaveSpec SpectrumSpec.
From Coq Require Import Permutation.
Open Scope R_scope.
Open Scope string_scope.
Open Scope list_scope.

(** ** what the yaml library is expected to do: a mapping that was emitted is loaded again, up to
    the order of the keys, also behind comment lines *)
Definition same_val (v v' : mval) : Prop :=
  match v, v' with MMap d, MMap d' => Permutation d d' | _, _ => v = v' end.
Definition same_node (n n' : ynode) : Prop :=
  match n, n' with
  | NVal v, NVal v' => same_val v v'
  | NSeq l, NSeq l' => Forall2 (@Permutation _) l l'
  | _, _ => False
  end.
Definition same_doc (d d' : dict ynode) : Prop :=
  exists d1, Permutation d d1 /\ Forall2 (fun p q => fst p = fst q /\ same_node (snd p) (snd q)) d1 d'.
(** mappings that can be emitted: distinct keys, no numpy arrays *)
Definition emittable (d : dict ynode) : Prop :=
  NoDup (map fst d) /\ forall k l s key a, In (k, NSeq l) d -> In s l -> ~ In (key, DArr a) s.
(** characters allowed in a yaml stream *)
Definition yaml_char (c : ascii) : Prop :=
  c = nl \/ c = ascii_of_nat 9 \/ (32 <= nat_of_ascii c <= 126)%nat \/ (160 <= nat_of_ascii c)%nat.
Definition yaml_text (s : string) : Prop := forall c, In c (chars s) -> yaml_char c.
(** comment lines and an empty line *)
Definition yaml_comment (block : string) : Prop :=
  exists lines, block = fold_right (fun l s => "#" ++ l ++ NL ++ s)%string NL lines /\
    Forall (fun l => yaml_text l /\ ~ In nl (chars l)) lines.
Record yaml_library (W : wenv) (yl : string -> res ydoc) : Prop := {
  yaml_restores : forall block d, block = "" \/ yaml_comment block -> emittable d ->
    exists d', yl (block ++ yaml_dump W d)%string = Ok (YDict d') /\ same_doc d d';
  yaml_starts : forall d, emittable d -> exists c r, yaml_dump W d = String c r /\ c <> "#"%char /\ c <> ";"%char;
  yaml_no_cr : forall d, emittable d -> ~ In cr (chars (yaml_dump W d))
}.

(** ** saving and loading again *)
Inductive yaml_cycle (W : wenv) (path : string) (ic rii : bool) (m m' : material) : Prop :=
| one_yaml_cycle fk dk yl fs ops :
    Permutation FILE_META_DATA_KEYS fk -> Permutation DATASET_META_DATA_KEYS dk -> yaml_library W yl ->
    save_material W path m fs ic rii = (Ok tt, ops) ->
    mk_material (read_path fk dk yl (fs_run fs ops)) [("file_path", PStr path)] = Ok m' ->
    yaml_cycle W path ic rii m m'.
Inductive yaml_cycles (W : wenv) (path : string) : nat -> material -> material -> Prop :=
| yaml_cycles_0 m : yaml_cycles W path 0 m m
| yaml_cycles_S n ic rii m m' m'' :
    yaml_cycles W path n m m' -> yaml_cycle W path ic rii m' m'' -> yaml_cycles W path (S n) m m''.
(** the meta comment after one cycle: trailing line ends and one more character are gone *)
Definition after_yaml_cycle (c c' : string) : Prop :=
  exists t, trimmed c t /\ ((t = "" /\ c' = "") \/ exists x, t = (c' ++ String x "")%string).

(** ** metadata *)
Definition known_specs : list string :=
  ["n_absolute"; "wavelength_vacuum"; "film_thickness"; "substrate"; "temperature"; "pressure";
   "deposition_temperature"; "direction"].
(** the keys a Material starts with, each at most once *)
Definition standard_meta (meta : dict mval) : Prop :=
  NoDup (map fst meta) /\
  forall k, In k (map fst meta) -> In k (["Alias"; "MetaComment"; "Specification"] ++ header_keys).
(** the Specification read back *)
Definition specs_read (old : option mval) (new : option mval) : Prop :=
  match old with
  | Some (MMap d) => exists d', new = Some (MMap d') /\
      forall k, dget d' k = if in_dec string_dec k known_specs then dget d k else None
  | _ => new = Some (MMap [])
  end.

(** the five texts (or other values) and the Specification, as read back; a missing one is empty *)
Definition meta_read (meta fm : dict mval) : Prop :=
  (forall k, In k header_keys -> match dget meta k with Some v => exists v', dget fm k = Some v' /\ same_val v v' | None => dget fm k = Some (MStr "") end) /\
  specs_read (dget meta "Specification") (dget fm "Specification").

(** ** data sets: the entries of a data set of the file under the names of a data set read *)
Definition entry (d : dict dval) (names : list string) (v : dval) : Prop :=
  (exists n, In n names /\ dget d n = Some v) \/ ((forall n, In n names -> dget d n = None) /\ v = DStr "").
Definition set_read (d : dict dval) (f : fset) : Prop :=
  dget d "DataType" = Some (ds_type f) /\ entry d ["ValidRange"] (ds_range f) /\
  entry d ["SpectrumType"] (ds_stype f) /\ entry d ["Unit"] (ds_unit f) /\ entry d ["Yields"] (ds_yields f) /\
  (dget d "Data" = Some (ds_data f) \/ (dget d "Data" = None /\ dget d "Parameters" = Some (ds_data f))).
(** ... written under the names used by refractiveindex.info: no type, no unit *)
Definition set_read_rii (d : dict dval) (f : fset) : Prop :=
  dget d "DataType" = Some (ds_type f) /\ entry d ["ValidRange"] (ds_range f) /\
  ds_stype f = DStr "" /\ ds_unit f = DStr "" /\ ds_yields f = DStr "" /\
  (dget d "Data" = Some (ds_data f) \/ (dget d "Data" = None /\ dget d "Parameters" = Some (ds_data f))).
Definition is_const (d : dict dval) : bool :=
  match dget d "DataType" with Some (DStr s) => contains_str "constant" s | _ => false end.
(** the data sets of a Writer that are written *)
Definition written_sets (ignore_constant : bool) (l : list (dict dval)) : list (dict dval) :=
  if ignore_constant then filter (fun d => negb (is_const d)) l else l.
(** texts that use_rii_aliases replaces *)
Definition rii_names : list string :=
  ["ValidRange"; "DataType"; "Parameters"; "Data"; "Model:Sellmeier"; "Model:Sellmeier2"; "Model:Polynomial";
   "Model:RefractiveIndexInfo"; "Model:Cauchy"; "Model:Gases"; "Model:Herzberger"; "Model:Retro"; "Model:Exotic"].
Definition no_rii_name (d : dict dval) : Prop := forall k s, In (k, DStr s) d -> ~ In s rii_names.

(** ** a part of a material *)
Definition constant_part (d : sdata) : Prop := exists b v, d = DConst b v.
(** what a quantity is if nothing is known about it: 0 *)
Definition zero_part (d : sdata) : Prop := constant_default (ORe (Fin 0)) = Ok d.
(** parts a yaml file can hold: tables of 2 to 500 rows, formulas for n, constants *)
Definition savable_part (d : sdata) : Prop :=
  match d with
  | DInterp b rows => float_table rows /\ (2 <= length rows <= 500)%nat /\ d_type b <> "" /\ d_unit b <> ""
  | DModel b k ps => output k = Some "n" /\ Forall float_range ps /\ (length ps <= 1000)%nat /\
      Forall float_range (elems (sp_values (d_range b))) /\ (1 <= length (elems (sp_values (d_range b))) <= 1000)%nat /\
      d_type b <> "" /\ d_unit b <> ""
  | DConst _ _ => True
  | _ => False
  end.
(** ... that can be read again: a table of numbers whose grid is displayed without repetitions, in a
    documented unit; a formula that was accepted *)
Definition loadable_part (disp : list xr -> xr -> xr) (d : sdata) : Prop :=
  match d with
  | DInterp b rows => (forall r, In r rows -> exists x y, r = (Fin x, Fin y)) /\
      NoDup (map (fun r => disp (concat (table_of rows)) (fst r)) rows) /\
      exists canon, documented (lower (d_type b)) (lower (d_unit b)) canon
  | DModel b k ps => exists rng, mk_model k ps rng (d_type b) (d_unit b) = Ok d
  | DConst _ _ => True
  | _ => False
  end.
(** the range is reported in type and unit of the imaginary part, or of the real part if the
    imaginary part is a constant *)
Definition reported_as (m m' : material) : Prop :=
  let part := match m_imag m with DConst _ _ => m_real m | d => d end in
  m_stype m' = d_type (dbase_of part) /\ m_unit m' = d_unit (dbase_of part).
(** ... and what becomes of them: the numbers as numpy displays them; constants become 0 *)
Definition part_kept (d d' : sdata) : Prop :=
  match d with
  | DInterp b rows => exists b' rows', d' = DInterp b' rows' /\ near_table (5 / 10 ^ 9) rows rows' /\
      d_type b' = d_type b /\ d_unit b' = d_unit b
  | DModel b k ps => exists b' ps', d' = DModel b' k ps' /\ Forall2 shown_near ps ps' /\
      Forall2 shown_near (elems (sp_values (d_range b))) (elems (sp_values (d_range b'))) /\
      d_type b' = d_type b /\ d_unit b' = d_unit b
  | DConst _ _ => zero_part d'
  | _ => False
  end.
