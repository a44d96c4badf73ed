(** What a yaml data file says (C89), independently of the Reader *)
From Verif Require Import PyBase PyStr XReal SpectralModel TextModel TextSpec MaterialModel FileModel ReaderModel WriterModel IOSpec SaveSpec.
Open Scope string_scope.
Open Scope list_scope.

(** ** one data set: a mapping *)
(** the value of the last key that is, in upper case, one of [names]; the empty text without such a key *)
Definition gives (ds : dict dval) (names : list string) (v : dval) : Prop :=
  ((forall k w, In (k, w) ds -> ~ In (upper k) names) /\ v = DStr "") \/
  exists a k b, ds = a ++ (k, v) :: b /\ In (upper k) names /\ forall k' w, In (k', w) b -> ~ In (upper k') names.
(** the value of key [a], or that of key [b] if there is no [a] *)
Definition first_of (ds : dict dval) (a b : string) (v : dval) : Prop :=
  dget ds a = Some v \/ dget ds a = None /\ dget ds b = Some v.
Definition neither (ds : dict dval) (a b : string) : Prop := dget ds a = None /\ dget ds b = None.

(** the text of the type entry, without leading white space *)
Definition kind (ds : dict dval) (t : string) : Prop := exists s, first_of ds "type" "DataType" (DStr s) /\ t = lstrip s.
(** the keys of the data depend on the kind *)
Definition data_keys (t a b : string) : Prop :=
  ((prefix_of "formula" t \/ prefix_of "model" t) /\ a = "coefficients" /\ b = "Parameters") \/
  (prefix_of "tabulated" t /\ a = "data" /\ b = "Data").
Definition set_data (ds : dict dval) (v : dval) : Prop := exists t a b, kind ds t /\ data_keys t a b /\ first_of ds a b v.

(** no type, a type of no known kind, or no data *)
Definition unusable (ds : dict dval) : Prop :=
  neither ds "type" "DataType" \/
  (exists t, kind ds t /\ forall a b, ~ data_keys t a b) \/
  (exists t a b, kind ds t /\ data_keys t a b /\ neither ds a b).

Definition range_keys : list string := ["VALIDRANGE"; "RANGE"; "SPECTRA_RANGE"; "WAVELENGTH_RANGE"].
Definition letters : list string := ["T"; "Y"; "P"; "E"].

(** ** the top level: keys in upper case, each once *)
Definition top_level (doc : dict ynode) : Prop := NoDup (map fst doc) /\ forall k, In k (map fst doc) -> upper k = k.
(** the value of the last key that starts with [kw], except DATA and SPECS; the empty text without such a key *)
Definition doc_says (doc : dict ynode) (kw : string) (v : mval) : Prop :=
  ((forall k n, In (k, n) doc -> ~ prefix_of kw k) /\ v = MStr "") \/
  exists a k n b, doc = a ++ (k, n) :: b /\ prefix_of kw k /\ v = node_val n /\
    forall k' n', In (k', n') b -> ~ prefix_of kw k'.
