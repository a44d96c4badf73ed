(** Notions used in the statements about shared arrays (C92, C93): the same sessions with values
    instead of references, and which arrays a session shares with the objects of the library *)
From Verif Require Import PyBase PyStr XReal CNum SpectrumModel SpectralModel TextModel MaterialModel MemoryModel.
Open Scope R_scope.
Open Scope string_scope.
Open Scope list_scope.

(** ** the session a user has in mind: every variable holds a value of its own, every object what it
    was given when it was made. The methods are those of SpectrumModel and MaterialModel. *)
Inductive var := XNum (x : xr) | XArr (a : arr) | XSpec (s : spectrum) | XMat (x : material) | XVal (o : onum) | XNone.
Definition as_values (v : option var) : option vals :=
  match v with Some (XNum x) => Some (VS x) | Some (XArr (A1 ((VA _ | VI _) as w))) => Some w | _ => None end.
Definition as_spec (v : option var) : option spectrum := match v with Some (XSpec s) => Some s | _ => None end.
Definition as_mat (v : option var) : option material := match v with Some (XMat x) => Some x | _ => None end.
Definition shown (v : vals) : out * var :=
  match v with VS x => (Number x, XNum x) | _ => (Array (A1 v), XArr (A1 v)) end.
Definition shown_result (v : ovals) : out * var :=
  match v with OS o => (Complex o, XVal o) | OA l => (Array (AO l), XArr (AO l)) end.
Definition no_file (path : string) : res fdict := Raise FileNotFoundError.

Section Values.
Variable X : scipy.
Definition outcome {A} (l : list var) (r : res A) (f : A -> out * var) : out * list var :=
  match r with
  | Raise e => (Failed e, l ++ [XNone])
  | Ok a => let (o, v) := f a in (o, l ++ [v])
  end.
Definition no_sense (l : list var) : out * list var := (Senseless, l ++ [XNone]).
Definition v_step (l : list var) (o : op) : out * list var :=
  let get i := nth_error l i in
  match o with
  | NewArray (A1 (VS x)) => (Number x, l ++ [XNum x])
  | NewArray x => (Array x, l ++ [XArr x])
  | NewSpectrum i t u =>
      match as_values (get i) with
      | Some v => outcome l (mk_spectrum (InVals v) t u) (fun s => (Silent, XSpec s))
      | None => no_sense l
      end
  | ListSpectrum v t u => outcome l (mk_spectrum v t u) (fun s => (Silent, XSpec s))
  | Convert s t u =>
      match as_spec (get s) with
      | Some s => outcome l (convert_to s t u) shown
      | None => no_sense l
      end
  | ConvertInPlace i t u =>
      match as_spec (get i) with
      | Some s => match convert_in_place s t u with
                  | (Raise e, _) => (Failed e, l ++ [XNone])
                  | (Ok _, s') => (Silent, set_var i (XSpec s') l ++ [XNone])
                  end
      | None => no_sense l
      end
  | Contains s s' =>
      match as_spec (get s), as_spec (get s') with
      | Some s, Some s' => outcome l (contains s s') (fun b => (Truth b, XNone))
      | _, _ => no_sense l
      end
  | Values s =>
      match as_spec (get s) with
      | Some s => let (o, v) := shown (sp_values s) in (o, l ++ [v])
      | None => no_sense l
      end
  | NewTable id i t u =>
      match get i with
      | Some (XArr (A2 n rows)) =>
          if smem id ["nk"; "n"; "eps"] then
            outcome l (mk_material no_file [("tabulated_" ++ id, PArr (ND2 n rows)); ("spectrum_type", PStr t); ("unit", PStr u)])%string
                    (fun x => (Silent, XMat x))
          else no_sense l
      | _ => no_sense l
      end
  | NewModel name i rng t u =>
      match dget model_names name, get i with
      | Some _, Some (XArr (A1 (VA p))) =>
          match (match rng with RangeList v => Some v | RangeVar j => as_values (get j) end) with
          | Some v => outcome l (mk_material no_file [("model_kw", PDict (mkKw (Some name) (Some p) (Some (InVals v)) (Some t) (Some u)))])
                              (fun x => (Silent, XMat x))
          | None => no_sense l
          end
      | _, _ => no_sense l
      end
  | Evaluate x i t u =>
      match as_mat (get x), as_values (get i) with
      | Some x, Some v => outcome l (get_nk_data X x (SRaw (InVals v) t u)) shown_result
      | _, _ => no_sense l
      end
  | EvaluateAt x s =>
      match as_mat (get x), as_spec (get s) with
      | Some x, Some s => outcome l (get_nk_data X x (SObj s)) shown_result
      | _, _ => no_sense l
      end
  | Saved x =>
      match as_mat (get x) with
      | Some x => (Written x, l ++ [XNone])
      | None => no_sense l
      end
  | Look i =>
      match get i with
      | Some (XNum x) => (Number x, l ++ [XNone])
      | Some (XArr a) => (Array a, l ++ [XNone])
      | _ => no_sense l
      end
  | Assign i k v =>
      match get i with
      | Some (XArr a) => match assigned a k v with
                         | Ok b => (Silent, set_var i (XArr b) l ++ [XNone])
                         | Raise e => (Failed e, l ++ [XNone])
                         end
      | _ => no_sense l
      end
  end.
Fixpoint v_run (l : list var) (h : list op) : list out * list var :=
  match h with
  | [] => ([], l)
  | o :: h => let (x, l) := v_step l o in let (xs, l) := v_run l h in (x :: xs, l)
  end.
End Values.

(** ** sharing. The variables whose array an object of the library may still refer to: arrays made
    into a Spectrum, into a table tabulated_n or into the coefficients or range of a model, and
    arrays obtained as s.values or by converting to metres. *)
Definition to_metres (stype unit : string) : bool := String.eqb (lower stype) "wavelength" && smem unit ["m"; "meter"; "metre"].
Definition shares (k : nat) (o : op) : list nat :=
  match o with
  | NewSpectrum i _ _ => [i]
  | NewTable "n" i _ _ => [i]
  | NewModel _ i (RangeVar j) _ _ => [i; j]
  | NewModel _ i (RangeList _) _ _ => [i]
  | Values _ => [k]
  | Convert _ t u => if to_metres t u then [k] else []
  | _ => []
  end.
Fixpoint shared_from (k : nat) (h : list op) : list nat :=
  match h with [] => [] | o :: h => shares k o ++ shared_from (S k) h end.
Definition shared (h : list op) : list nat := shared_from 0 h.
(** a session that assigns only to elements of its own arrays *)
Definition polite (h : list op) : Prop := forall before i k v after, h = before ++ Assign i k v :: after -> ~ In i (shared before).
(** a session that assigns to nothing *)
Definition read_only (h : list op) : Prop := forall i k v, ~ In (Assign i k v) h.
