(** Model of the plotting and printing methods of src/dispersion/material.py *)
From Verif Require Import PyBase PyStr XReal CNum SpectrumModel SpectralModel TextModel MaterialModel.
Open Scope R_scope.
Open Scope string_scope.
Open Scope list_scope.

(** the keyword argument values: a list or tuple (given by the array numpy makes of it), or
    anything else. Simplification: [VS] is a Python float (a numpy scalar has a size). *)
Inductive plotvals := PSeq (v : vals) | PVal (v : pyin).
(** the keyword arguments of plot_nk_data and plot_permittivity; axes is a matplotlib object
    which only says where to draw and is not modelled *)
Record plotargs := mkPlotArgs { pa_type : option string; pa_unit : option string; pa_values : option plotvals }.

(** what a plot shows: a curve through points, or a horizontal line; the style is solid or dashed *)
Inductive artist :=
| Curve (xs ys : list xr) (label : string) (dashed : bool)
| Level (y : xr) (label : string) (dashed : bool).
Record plot := mkPlot { pl_lines : list artist; pl_ylabel : string; pl_xlabel : string }.

Inductive plotkind := PlotNk | PlotEps.

Section Plot.
Variable X : scipy.

(** material.py:762-787 _prepare_plot_data: the spectrum to plot at *)
Definition prepare_plot_data (m : material) (a : plotargs) : res spectrum :=
  let t := match pa_type a with Some t => t | None => m_stype m end in
  let u := match pa_unit a with Some u => u | None => m_unit m end in
  do v <- (match pa_values a with
           | None => do s <- get_sample_spectrum X m; do v <- convert_to s t u; Ok (InVals v)
           | Some (PSeq v) => Ok (InVals v)
           | Some (PVal v) => Ok v
           end);
  mk_spectrum v t u.

(** np.real, np.imag *)
Definition reals (o : ovals) : list xr :=
  match o with OS x => [cx_re (onum_cx x)] | OA l => map (fun x => cx_re (onum_cx x)) l end.
Definition imags (o : ovals) : list xr :=
  match o with OS x => [cx_im (onum_cx x)] | OA l => map (fun x => cx_im (onum_cx x)) l end.

(** spectrum.values.size *)
Definition values_size (s : spectrum) : res nat :=
  match sp_values s with VS _ => Raise AttributeError | v => Ok (length (elems v)) end.

(** plt.axhline: one number. matplotlib refuses other sizes. *)
Definition axhline (ys : list xr) (label : string) (dashed : bool) : res artist :=
  match ys with [y] => Ok (Level y label dashed) | _ => Raise ValueError end.
(** plt.plot: as many ordinates as abscissae *)
Definition plt_plot (xs ys : list xr) (label : string) (dashed : bool) : res artist :=
  if Nat.eqb (length xs) (length ys) then Ok (Curve xs ys label dashed) else Raise ValueError.

(** material.py:722-760 _plot_data. get_nk_data leaves the spectrum object alone,
    get_permittivity can convert it in place; the object is used again for the abscissae and
    the label. Simplifications: matplotlib is installed; colours, legend and axes are left out;
    the colour cycle is available; a plot that raises half way counts as no plot. *)
Definition plot_data (m : material) (k : plotkind) (a : plotargs) : res plot :=
  do s <- prepare_plot_data m a;
  let '(d, s', l0, l1) := match k with
    | PlotNk => (get_nk_data X m (SObj s), s, "n", "k")
    | PlotEps => let (d, s') := get_permittivity_obj X m s in (d, s', "eps_r", "eps_i")
    end in
  do data <- d;
  do n <- values_size s';
  do lines <- (if Nat.eqb n 1
               then do r <- axhline (reals data) l0 false; do i <- axhline (imags data) l1 true; Ok [r; i]
               else do r <- plt_plot (elems (sp_values s')) (reals data) l0 false;
                    do i <- plt_plot (elems (sp_values s')) (imags data) l1 true; Ok [r; i]);
  do xlabel <- get_type_unit_string s';
  Ok (mkPlot lines (l0 ++ ", " ++ l1)%string xlabel).

(** material.py:714-716 plot_nk_data, 718-720 plot_permittivity *)
Definition plot_nk_data (m : material) (a : plotargs) : res plot := plot_data m PlotNk a.
Definition plot_permittivity (m : material) (a : plotargs) : res plot := plot_data m PlotEps a.
End Plot.

(** ** printing *)
(** material.py:699-703 utf8_to_ascii: the bytes of the UTF-8 encoding (the model's strings are
    these bytes) that are ASCII *)
Fixpoint utf8_to_ascii (s : string) : string :=
  match s with
  | EmptyString => EmptyString
  | String c r => if (nat_of_ascii c <? 128)%nat then String c (utf8_to_ascii r) else utf8_to_ascii r
  end.
(** self.meta_data[key], which an effective medium does not have; codecs.encode wants a string *)
Definition print_meta (m : material) (key : string) : res string :=
  match m_meta m with
  | None => Raise AttributeError
  | Some meta =>
      match dget meta key with
      | None => Raise KeyError
      | Some (MStr s) => Ok (utf8_to_ascii s)
      | Some _ => Raise TypeError
      end
  end.
(** material.py:705-707 print_reference, 709-711 print_comment: the printed line *)
Definition print_reference (m : material) : res string := print_meta m "Reference".
Definition print_comment (m : material) : res string := print_meta m "Comment".
