(** Model of src/dispersion/spectral_data.py *)
From Verif Require Import PyBase PyStr XReal CNum SpectrumModel.
From Flocq Require Import Core.
Open Scope R_scope.
Open Scope list_scope.

(** ** numpy functions used by the models *)
Definition xlog (a : xr) : xr :=
  match a with
  | Fin x => if Rlt_dec 0 x then Fin (ln x) else if Req_EM_T x 0 then NInf else NaN
  | PInf => PInf
  | _ => NaN
  end.
Definition xatan (a : xr) : xr :=
  match a with Fin x => Fin (atan x) | PInf => Fin (PI / 2) | NInf => Fin (- PI / 2) | NaN => NaN end.
(** np.arctan2(y, x) on finite arguments; simplification: NaN if an argument is infinite *)
Definition xatan2 (y x : xr) : xr :=
  match y, x with
  | Fin y, Fin x =>
      if Rlt_dec 0 x then Fin (atan (y / x))
      else if Rlt_dec x 0 then (if Rlt_dec y 0 then Fin (atan (y / x) - PI) else Fin (atan (y / x) + PI))
      else if Rlt_dec 0 y then Fin (PI / 2) else if Rlt_dec y 0 then Fin (- PI / 2) else Fin 0
  | _, _ => NaN
  end.
Definition xsq (a : xr) : xr := xpowz a 2.
Definition num (r : R) : xr := Fin r.

(** params[i] *)
Definition pget (params : list xr) (i : nat) : res xr :=
  match nth_error params i with Some x => Ok x | None => Raise IndexError end.

(** for i in range(n): acc = body(i, acc) *)
Fixpoint for_range (n i : nat) (body : nat -> xr -> res xr) (acc : xr) : res xr :=
  match n with
  | O => Ok acc
  | S n' => do a <- body i acc; for_range n' (S i) body a
  end.

(** len(params[start::2]) *)
Definition len_slice2 (start : nat) (params : list xr) : nat := ((length params - start + 1) / 2)%nat.
(** len(params[1:8:4]): indices 1 and 5 *)
Definition len_slice_1_8_4 (params : list xr) : nat :=
  (if (1 <? length params)%nat then if (5 <? length params)%nat then 2 else 1 else 0)%nat.

(** ** the formulas at one value. [w] is the wavelength in um resp. energy in eV.
    Simplification: coefficients are floats (numpy arithmetic), never Python ints. *)

(** spectral_data.py:320-330 Sellmeier.evaluate *)
Definition pt_sellmeier (p : list xr) (w : xr) : res xr :=
  do p0 <- pget p 0;
  let wvlsq := xpowz w 2 in
  do rhs <- for_range (len_slice2 1 p) 0 (fun i rhs =>
    do cupper <- pget p (i * 2 + 1); do clower <- pget p (i * 2 + 2);
    Ok (xadd rhs (xdiv (xmul cupper wvlsq) (xsub wvlsq (xsq clower))))) p0;
  Ok (xsqrt (xadd rhs (num 1))).
(** spectral_data.py:348-358 Sellmeier2.evaluate *)
Definition pt_sellmeier2 (p : list xr) (w : xr) : res xr :=
  do p0 <- pget p 0;
  let wvlsq := xpowz w 2 in
  do rhs <- for_range (len_slice2 1 p) 0 (fun i rhs =>
    do cupper <- pget p (i * 2 + 1); do clower <- pget p (i * 2 + 2);
    Ok (xadd rhs (xdiv (xmul cupper wvlsq) (xsub wvlsq clower)))) p0;
  Ok (xsqrt (xadd rhs (num 1))).
(** the loop shared by Polynomial (376-386) and Cauchy (441-450) *)
Definition poly_rhs (p : list xr) (w : xr) : res xr :=
  do p0 <- pget p 0;
  for_range (len_slice2 1 p) 0 (fun i rhs =>
    do c_multi <- pget p (i * 2 + 1); do c_power <- pget p (i * 2 + 2);
    Ok (xadd rhs (xmul c_multi (xpow w c_power)))) p0.
(** spectral_data.py:376-386 Polynomial.evaluate *)
Definition pt_polynomial (p : list xr) (w : xr) : res xr := do rhs <- poly_rhs p w; Ok (xsqrt rhs).
(** spectral_data.py:441-450 Cauchy.evaluate *)
Definition pt_cauchy (p : list xr) (w : xr) : res xr := poly_rhs p w.
(** spectral_data.py:404-423 RefractiveIndexInfo.evaluate *)
Definition pt_rii (p : list xr) (w : xr) : res xr :=
  do p0 <- pget p 0;
  let wvlsq := xpowz w 2 in
  do rhs <- for_range (len_slice_1_8_4 p) 0 (fun i rhs =>
    do cmu <- pget p (i * 4 + 1); do cpu <- pget p (i * 4 + 2);
    do cml <- pget p (i * 4 + 3); do cpl <- pget p (i * 4 + 4);
    Ok (xadd rhs (xdiv (xmul cmu (xpow w cpu)) (xsub wvlsq (xpow cml cpl))))) p0;
  do rhs <- for_range (len_slice2 9 p) 0 (fun i rhs =>
    do c_multi <- pget p (i * 2 + 9); do c_power <- pget p (i * 2 + 10);
    Ok (xadd rhs (xmul c_multi (xpow w c_power)))) rhs;
  Ok (xsqrt rhs).
(** spectral_data.py:468-478 Gases.evaluate *)
Definition pt_gases (p : list xr) (w : xr) : res xr :=
  do p0 <- pget p 0;
  let inv := xpowz w (-2) in
  do rhs <- for_range (len_slice2 1 p) 0 (fun i rhs =>
    do cupper <- pget p (i * 2 + 1); do clower <- pget p (i * 2 + 2);
    Ok (xadd rhs (xdiv cupper (xsub clower inv)))) p0;
  Ok (xadd rhs (num 1)).
(** spectral_data.py:496-508 Herzberger.evaluate *)
Definition pt_herzberger (p : list xr) (w : xr) : res xr :=
  do p0 <- pget p 0; let wvlsq := xpowz w 2 in
  do p1 <- pget p 1; let rhs := xadd p0 (xmul p1 (xpowz (xsub wvlsq (num 0.028)) (-1))) in
  do p2 <- pget p 2; let rhs := xadd rhs (xmul p2 (xpowz (xsub wvlsq (num 0.028)) (-2))) in
  do p3 <- pget p 3; let rhs := xadd rhs (xmul p3 wvlsq) in
  do p4 <- pget p 4; let rhs := xadd rhs (xmul p4 (xpowz w 4)) in
  do p5 <- pget p 5; Ok (xadd rhs (xmul p5 (xpowz w 6))).
(** spectral_data.py:526-538 Retro.evaluate *)
Definition pt_retro (p : list xr) (w : xr) : res xr :=
  do p0 <- pget p 0; let wvlsq := xpowz w 2 in
  do p1 <- pget p 1; do p2 <- pget p 2;
  let rhs := xadd p0 (xdiv (xmul p1 wvlsq) (xsub wvlsq p2)) in
  do p3 <- pget p 3; let rhs := xadd rhs (xmul p3 wvlsq) in
  let tmp_p := xdiv (xmul (num (-2)) rhs) (xsub (num 1) rhs) in
  let tmp_q := xdiv (num (-1)) (xsub (num 1) rhs) in
  Ok (xadd (xmul (num (-0.5)) tmp_p) (xsqrt (xsub (xpowz (xmul (num 0.5) tmp_p) 2) tmp_q))).
(** spectral_data.py:556-567 Exotic.evaluate *)
Definition pt_exotic (p : list xr) (w : xr) : res xr :=
  do p0 <- pget p 0; let wvlsq := xpowz w 2 in
  do p1 <- pget p 1; do p2 <- pget p 2;
  let rhs := xadd p0 (xdiv (xmul p1 wvlsq) (xsub wvlsq p2)) in
  do p3 <- pget p 3; do p4 <- pget p 4; do p5 <- pget p 5;
  let rhs := xadd rhs (xdiv (xmul p3 (xsub w p4)) (xadd (xpowz (xsub w p4) 2) p5)) in
  Ok (xsqrt rhs).

(** 1j*loss*energies *)
Definition j_loss (loss e : xr) : cx := cxmul (cxmul (CF Ci) (cx_of_xr loss)) (cx_of_xr e).
(** spectral_data.py:585-590 Drude.evaluate *)
Definition pt_drude (p : list xr) (e : xr) : res cx :=
  do omega_p <- pget p 0; do loss <- pget p 1;
  Ok (cxsub (CF (RtoC 1))
        (cxdiv (cx_of_xr (xsq omega_p)) (cxadd (cx_of_xr (xpowz e 2)) (j_loss loss e)))).
(** spectral_data.py:608-615 DrudeLorentz.evaluate *)
Definition pt_drude_lorentz (p : list xr) (e : xr) : res cx :=
  do omega_p <- pget p 0; do pol_str <- pget p 1; do w_res <- pget p 2; do loss <- pget p 3;
  Ok (cxadd (CF (RtoC 1)) (cxconj
        (cxdiv (cx_of_xr (xmul pol_str (xsq omega_p)))
               (cxadd (cx_of_xr (xsub (xsq w_res) (xpowz e 2))) (j_loss loss e))))).

(** spectral_data.py:645-651 TaucLorentz._calc_eps_imag, one element *)
Definition tl_imag (A E0 C Eg e : xr) : xr :=
  if xge e Eg then
    xdiv (xmul (xmul (xmul (xmul (xdiv (num 1) e) A) E0) C) (xsq (xsub e Eg)))
         (xadd (xsq (xsub (xsq e) (xsq E0))) (xmul (xsq C) (xsq e)))
  else if xlt e Eg then num 0 else num 1.
(** spectral_data.py:653-690 TaucLorentz._calc_eps_real, one element *)
Definition tl_real (A E0 C Eg eps_inf E : xr) : xr :=
  let alpha_ln := xsub (xadd (xmul (xsub (xsq Eg) (xsq E0)) (xsq E)) (xmul (xsq Eg) (xsq C)))
                       (xmul (xsq E0) (xadd (xsq E0) (xmul (num 3) (xsq Eg)))) in
  let alpha_atan := xadd (xmul (xsub (xsq E) (xsq E0)) (xadd (xsq E0) (xsq Eg)))
                         (xmul (xsq Eg) (xsq C)) in
  let alpha := xsqrt (xsub (xmul (num 4) (xsq E0)) (xsq C)) in
  let gamma := xsqrt (xsub (xsq E0) (xmul (num 0.5) (xsq C))) in
  let zeta4 := xadd (xsq (xsub (xsq E) (xsq gamma)))
                    (xmul (xmul (num 0.25) (xsq alpha)) (xsq C)) in
  let pz := xmul (num PI) zeta4 in
  let e0g := xadd (xsq E0) (xsq Eg) in
  let part1 := xmul (xmul (num 0.5)
                 (xdiv (xmul (xmul A C) alpha_ln) (xmul (xmul pz alpha) E0)))
                 (xlog (xdiv (xadd e0g (xmul alpha Eg)) (xsub e0g (xmul alpha Eg)))) in
  let part2 := xmul (xdiv (xmul (xmul (num (-1)) A) alpha_atan) (xmul pz E0))
                 (xadd (xsub (num PI) (xatan (xdiv (xadd (xmul (num 2) Eg) alpha) C)))
                       (xatan (xdiv (xadd (xmul (num (-2)) Eg) alpha) C))) in
  let part3_1 := xdiv (xmul (xmul (num 4) A) E0) (xmul pz alpha) in
  let part3_2 := xmul Eg (xsub (xsq E) (xsq gamma)) in
  let part3_3 := xadd (xatan2 (xadd alpha (xmul (num 2) Eg)) C)
                      (xatan2 (xsub alpha (xmul (num 2) Eg)) C) in
  let part3 := xmul (xmul part3_1 part3_2) part3_3 in
  let part4 := xmul (xmul (xdiv (xmul (xmul (xopp A) E0) C) pz)
                          (xdiv (xadd (xsq E) (xsq Eg)) E))
                    (xlog (xdiv (xabs (xsub E Eg)) (xadd E Eg))) in
  let part5 := xmul (xdiv (xmul (xmul (xmul (xmul (num 2) A) E0) C) Eg) pz)
                    (xlog (xdiv (xmul (xabs (xsub E Eg)) (xadd E Eg))
                                (xsqrt (xadd (xsq (xsub (xsq E0) (xsq Eg))) (xmul (xsq Eg) (xsq C)))))) in
  xadd (xadd (xadd (xadd (xadd eps_inf part1) part2) part3) part4) part5.
(** spectral_data.py:632-643 TaucLorentz.evaluate, one element of an array *)
Definition pt_tauc_lorentz (p : list xr) (e : xr) : res cx :=
  do A <- pget p 0; do E0 <- pget p 1; do C <- pget p 2; do Eg <- pget p 3; do eps_inf <- pget p 4;
  Ok (cxadd (cx_of_xr (tl_real A E0 C Eg eps_inf e)) (cxmul (CF Ci) (cx_of_xr (tl_imag A E0 C Eg e)))).
(** spectral_data.py:707-717 Fano.evaluate *)
Definition pt_fano (p : list xr) (e : xr) : res xr :=
  do q <- pget p 0; do e_r <- pget p 1; do gamma <- pget p 2;
  let epsilon := xdiv (xmul (num 2) (xsub e e_r)) gamma in
  let norm := xadd (num 1) (xsq q) in
  Ok (xdiv (xmul (xdiv (num 1) norm) (xsq (xadd epsilon q))) (xadd (xsq epsilon) (num 1))).

(** ** data objects *)
Inductive mkind :=
| Sellmeier | Sellmeier2 | Polynomial | RefractiveIndexInfo | Cauchy | Gases | Herzberger
| Retro | Exotic | Drude | DrudeLorentz | TaucLorentz | Fano.

(** required (spectrum type, unit), set in each subclass's __init__; Fano never sets them
    (its input_output, 701-705, is never called) and never validates *)
Definition required (k : mkind) : option (string * string) :=
  match k with
  | Drude | DrudeLorentz | TaucLorentz => Some ("energy", "ev")
  | Fano => None
  | _ => Some ("wavelength", "um")
  end%string.
(** self.output *)
Definition output (k : mkind) : option string :=
  match k with
  | Drude | DrudeLorentz | TaucLorentz => Some "eps"
  | Fano => None
  | _ => Some "n"
  end%string.

(** attributes of every SpectralData object (spectral_data.py:61-68): type and unit as
    given by the caller, and the range *)
Record dbase := mkBase { d_type : string; d_unit : string; d_range : spectrum }.

(** splrep(values, evaluation, k=order): kept symbolically *)
Record tck := mkTck { tck_x : list xr; tck_y : list onum; tck_k : Z }.

Inductive sdata :=
| DConst (b : dbase) (c : onum)
| DInterp (b : dbase) (rows : list (xr * xr))
| DModel (b : dbase) (k : mkind) (params : list xr)
| DExtrap (b : dbase) (base : sdata) (spline : tck).

Definition dbase_of (d : sdata) : dbase :=
  match d with DConst b _ | DInterp b _ | DModel b _ _ | DExtrap b _ _ => b end.
Definition valid_range (d : sdata) : spectrum := d_range (dbase_of d).

(** scipy's splines and numpy's geomspace, not modelled *)
Record scipy := mkScipy {
  splrep_check : tck -> res unit;            (* whether splrep accepts its arguments *)
  splev : tck -> xr -> xr;
  geomspace : xr -> xr -> nat -> res (list xr)
}.

(** spectral_data.py:61-68 SpectralData.__init__ *)
Definition mk_base (valid_range : pyin) (stype unit : string) : res dbase :=
  do r <- mk_spectrum valid_range stype unit; Ok (mkBase stype unit r).

(** spectral_data.py:88-94 Constant.__init__ *)
Definition mk_constant (c : onum) (rng : pyin) (stype unit : string) : res sdata :=
  do b <- mk_base rng stype unit; Ok (DConst b c).
Definition range_0_inf : pyin := InVals (VA [Fin 0; PInf]).
Definition constant_default (c : onum) : res sdata := mk_constant c range_0_inf "wavelength" "m".

(** *** interp1d(kind=1) of scipy (spectral_data.py:213-216).
    Rows are sorted by x, NaN last; fewer than two rows or duplicated x raise ValueError (scipy >= 1.7;
    earlier releases accept duplicates). A NaN is not refused: it passes through the segments it bounds.
    Simplification: two columns, float entries, interp_order = 1 only. *)
Fixpoint insert_row (r : xr * xr) (l : list (xr * xr)) : list (xr * xr) :=
  match l with
  | [] => [r]
  | h :: t => if xlt (fst h) (fst r) || (is_nan (fst r) && negb (is_nan (fst h)))
              then h :: insert_row r t else r :: h :: t
  end.
Definition sort_rows (l : list (xr * xr)) : list (xr * xr) := fold_right insert_row [] l.
Fixpoint adj_dup (l : list (xr * xr)) : bool :=
  match l with
  | a :: ((b :: _) as r) => xeqb (fst a) (fst b) || adj_dup r
  | _ => false
  end.
Definition interp1d_check (l : list (xr * xr)) : res unit :=
  if (length l <? 2)%nat then Raise ValueError
  else if adj_dup (sort_rows l) then Raise ValueError else Ok tt.
Definition lin (a b : xr * xr) (v : xr) : xr :=
  let h := xsub (fst b) (fst a) in
  xadd (xmul (snd a) (xdiv (xsub (fst b) v) h)) (xmul (snd b) (xdiv (xsub v (fst a)) h)).
(** value on the first segment [a,b] with v < b, or on the last one *)
Fixpoint seg_eval (l : list (xr * xr)) (v : xr) : xr :=
  match l with
  | a :: ((b :: r) as t) =>
      match r with
      | [] => lin a b v
      | _ => if xlt v (fst b) then lin a b v else seg_eval t v
      end
  | _ => NaN
  end.
Definition interp_bounds (l : list (xr * xr)) : xr * xr :=
  let xs := map fst l in
  let ok := filter (fun x => negb (is_nan x)) xs in
  (match np_min ok with Ok m => m | _ => NaN end,
   match np_max xs with Ok m => m | _ => NaN end).
Definition interp_point (l : list (xr * xr)) (v : xr) : res xr :=
  let (lo, hi) := interp_bounds l in
  if xlt v lo || xlt hi v then Raise ValueError
  else Ok (seg_eval (sort_rows l) v).

(** spectral_data.py:202-211 Interpolation.__init__ *)
Definition mk_interpolation (rows : list (xr * xr)) (stype unit : string) : res sdata :=
  do mn <- np_min (map fst rows); do mx <- np_max (map fst rows);
  do b <- mk_base (InVals (VA [mn; mx])) stype unit;
  do_ interp1d_check rows;
  Ok (DInterp b rows).

(** spectral_data.py:250-263 Model.validate_spectrum_type *)
Definition validate_spectrum_type (k : mkind) (stype unit : string) : res Datatypes.unit :=
  match required k with
  | None => Ok tt
  | Some (rt, ru) =>
      do s <- mk_spectrum (InVals (VS (Fin 1))) stype unit;
      if negb (String.eqb (sp_type s) rt) then Raise ValueError
      else if negb (String.eqb (sp_unit s) ru) then Raise ValueError else Ok tt
  end.
(** spectral_data.py:240-248 Model.__init__ and the subclass constructors *)
Definition mk_model (k : mkind) (params : list xr) (rng : pyin) (stype unit : string) : res sdata :=
  do b <- mk_base rng stype unit;
  do_ validate_spectrum_type k stype unit;
  Ok (DModel b k params).

(** ** evaluation *)
Definition model_point (k : mkind) (p : list xr) (w : xr) : res onum :=
  let re (m : res xr) := do x <- m; Ok (ORe x) in
  let co (m : res cx) := do x <- m; Ok (OCx x) in
  match k with
  | Sellmeier => re (pt_sellmeier p w)
  | Sellmeier2 => re (pt_sellmeier2 p w)
  | Polynomial => re (pt_polynomial p w)
  | RefractiveIndexInfo => re (pt_rii p w)
  | Cauchy => re (pt_cauchy p w)
  | Gases => re (pt_gases p w)
  | Herzberger => re (pt_herzberger p w)
  | Retro => re (pt_retro p w)
  | Exotic => re (pt_exotic p w)
  | Drude => co (pt_drude p w)
  | DrudeLorentz => co (pt_drude_lorentz p w)
  | TaucLorentz => co (pt_tauc_lorentz p w)
  | Fano => re (pt_fano p w)
  end.

(** number of coefficients TaucLorentz.evaluate reads before its first assignment *)
Definition tl_params_ok (p : list xr) : res unit :=
  do_ pget p 0; do_ pget p 1; do_ pget p 2; do_ pget p 3; do_ pget p 4; Ok tt.

(** apply a point function to the values; arrays element by element.
    The code computes whole arrays at once; the exceptions of the point functions do not
    depend on the element, and empty arrays were rejected by the range check. *)
Definition map_vals (f : xr -> res onum) (v : vals) : res ovals :=
  match v with
  | VS x => do o <- f x; Ok (OS o)
  | _ => do l <- map_res f (elems v); Ok (OA l)
  end.

Section Eval.
Variable X : scipy.

(** evaluate(spectrum): result and the spectrum object afterwards
    (only Extrapolation changes it).
    spectral_data.py: Constant 96-101, Interpolation 218-223, models: preprocess 288-302 and
    each evaluate, Extrapolation 188-196. *)
Fixpoint evaluate (d : sdata) (s : spectrum) : res ovals * spectrum :=
  match d with
  | DConst b c =>
      (do_ contains (d_range b) s;
       match sp_values s with
       | VS _ => Ok (OS c)
       | v => Ok (OA (map (fun _ => c) (elems v)))
       end, s)
  | DInterp b rows =>
      (do_ contains (d_range b) s;
       do v <- convert_to s (d_type b) (d_unit b);
       map_vals (fun x => do y <- interp_point rows x; Ok (ORe y)) v, s)
  | DModel b k p =>
      (do_ contains (d_range b) s;
       do v <- convert_to s (d_type b) (d_unit b);
       match k, sp_values s with
       | TaucLorentz, VS _ => do_ tl_params_ok p; Raise TypeError
       | _, _ => map_vals (model_point k p) v
       end, s)
  | DExtrap b base spl =>
      let inner := match contains (valid_range base) s with
                   | Raise e => (Raise e, s)
                   | Ok _ => evaluate base s
                   end in
      match inner with
      | (Ok v, s1) => (Ok v, s1)
      | (Raise e, s1) =>
          if catches ValueError e then
            match convert_in_place s1 (d_type b) (d_unit b) with
            | (Raise e', s2) => (Raise e', s2)
            | (Ok _, s2) =>
                (do_ contains (d_range b) s2;
                 map_vals (fun x => Ok (ORe (splev X spl x))) (sp_values s2), s2)
            end
          else (Raise e, s1)
      end
  end.

(** spectral_data.py:70-78 suggest_spectrum *)
Definition suggest_spectrum (d : sdata) : res spectrum :=
  let b := dbase_of d in
  do lo <- vmin (sp_values (d_range b)); do hi <- vmax (sp_values (d_range b));
  do l <- geomspace X lo hi 1000;
  mk_spectrum (InVals (VA l)) (d_type b) (d_unit b).

(** item assignment base_range[i] = v; an integer array truncates *)
Definition range_set (r : vals) (i : nat) (v : xr) : res vals :=
  let set {A} (l : list A) (x : A) : list A := firstn i l ++ x :: skipn (S i) l in
  match r with
  | VA l => Ok (VA (set l v))
  | VI l => match v with
            | Fin x => Ok (VI (set l (Ztrunc x)))
            | NaN => Raise ValueError
            | _ => Raise OverflowError
            end
  | VS _ => Raise IndexError
  end.
Definition range_get (r : vals) (i : nat) : res xr :=
  match r with
  | VS _ => Raise IndexError
  | _ => match nth_error (elems r) i with Some x => Ok x | None => Raise IndexError end
  end.

(** spectral_data.py:163-178 validate_extrap_val *)
Definition validate_extrap_val (v : xr) (r : vals) : res vals :=
  do lo <- range_get r 0;
  if xlt v lo then range_set r 0 v
  else do hi <- range_get r 1;
       if xgt v hi then range_set r 1 v else Raise ValueError.

Fixpoint validate_all (l : list xr) (r : vals) : res vals :=
  match l with
  | [] => Ok r
  | v :: t => do r' <- validate_extrap_val v r; validate_all t r'
  end.

(** spectral_data.py:134-161 get_extrap_spectrum, after the in-place conversion *)
Definition extrap_range (base_range : spectrum) (ext : spectrum) : res spectrum :=
  do nr <- match sp_values ext with
           | VS x => validate_extrap_val x (sp_values base_range)
           | v => if (2 <? length (elems v))%nat then Raise ValueError
                  else validate_all (elems v) (sp_values base_range)
           end;
  mk_spectrum (InVals nr) (sp_type base_range) (sp_unit base_range).

(** spectral_data.py:120-132 and 181-186 Extrapolation.__init__: result and the caller's
    spectrum afterwards *)
Definition mk_extrapolation (base : sdata) (ext : spectrum) (order : Z) : res sdata * spectrum :=
  let br := valid_range base in
  match convert_in_place ext (sp_type br) (sp_unit br) with
  | (Raise e, s) => (Raise e, s)
  | (Ok _, s) =>
      (do er <- extrap_range br s;
       do mn <- vmin (sp_values er); do mx <- vmax (sp_values er);
       do b <- mk_base (InVals (VA [mn; mx])) (d_type (dbase_of base)) (d_unit (dbase_of base));
       do sp <- suggest_spectrum base;
       do y <- fst (evaluate base sp);
       let t := mkTck (elems (sp_values (snd (evaluate base sp))))
                      (match y with OS o => [o] | OA l => l end) order in
       do_ splrep_check X t;
       Ok (DExtrap b base t), s)
  end.
End Eval.
