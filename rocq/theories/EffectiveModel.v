(** Model of the effective media in src/dispersion/material.py:909-994 *)
From Verif Require Import PyBase PyStr XReal CNum SpectrumModel SpectralModel TextModel MaterialModel.
Open Scope R_scope.
Open Scope string_scope.
Open Scope list_scope.

(** the class: EffectiveMedium itself (909-934), Simple (936-946), MaxwellGarnett (948-964),
    Bruggeman (966-994) *)
Inductive medium := EffectiveMedium | Simple | MaxwellGarnett | Bruggeman.

(** a Python float as a factor of a complex array *)
Definition fac (x : xr) : cx := cx_of_xr x.
Definition one_minus (f : xr) : xr := xsub (Fin 1) f.

(** material.py:941, one sample: eps_base*(1-frac) + eps_incl*frac *)
Definition simple_mix (f : xr) (e1 e2 : cx) : cx :=
  cxadd (cxmul e1 (fac (one_minus f))) (cxmul e2 (fac f)).

(** material.py:955 factor_up, one sample *)
Definition mg_up (f : xr) (e1 e2 : cx) : cx :=
  cxadd (cxmul (fac (xmul (Fin 2) (one_minus f))) e1) (cxmul (fac (xadd (Fin 1) (xmul (Fin 2) f))) e2).
(** material.py:956 factor_down, one sample *)
Definition mg_down (f : xr) (e1 e2 : cx) : cx :=
  cxadd (cxmul (fac (xadd (Fin 2) f)) e1) (cxmul (fac (one_minus f)) e2).
(** material.py:959, one sample *)
Definition mg_mix (f : xr) (e1 e2 : cx) : cx := cxdiv (cxmul e1 (mg_up f e1 e2)) (mg_down f e1 e2).
(** truth value of abs(z): a NaN is true *)
Definition cx_nonzero (z : cx) : bool := match z with CF w => negb (Ceqb0 w) | CNan => true end.
(** material.py:957 np.any(abs(factor_down)) < 1e-6: np.any gives True (1) or False (0), so the
    comparison holds exactly if no element is non-zero *)
Definition mg_singular (down : ovals) : bool :=
  negb (existsb (fun z => cx_nonzero (onum_cx z)) (match down with OS x => [x] | OA l => l end)).

(** material.py:987 and 992 (lines 988 and 993 for p) *)
Definition br_q (eb ea : cx) : cx := cxmul (cxmul (fac (Fin (- (1 / 2)))) ea) eb.
Definition br_p (f : xr) (eb ea : cx) : cx :=
  cxmul (fac (Fin (1 / 2)))
    (cxadd (cxmul (fac f) (cxsub eb (cxmul (fac (Fin 2)) ea)))
           (cxmul (fac (one_minus f)) (cxsub ea (cxmul (fac (Fin 2)) eb)))).
Definition br_root (f : xr) (eb ea : cx) : cx :=
  let h := cxmul (fac (Fin (1 / 2))) (br_p f eb ea) in cxsqrt (cxsub (cxmul h h) (br_q eb ea)).
Definition br_half (f : xr) (eb ea : cx) : cx :=
  cxmul (cxmul (fac (Fin (- 1))) (br_p f eb ea)) (fac (Fin (1 / 2))).
(** material.py:986-989 _get_bruggeman_solution1, one sample *)
Definition br_sol1 (f : xr) (eb ea : cx) : cx := cxadd (br_half f eb ea) (br_root f eb ea).
(** material.py:991-994 _get_bruggeman_solution2, one sample *)
Definition br_sol2 (f : xr) (eb ea : cx) : cx := cxsub (br_half f eb ea) (br_root f eb ea).
(** material.py:975-979, one sample: zero, overwritten by solution2 where its imaginary part
    is >= 0, then by solution1 where its imaginary part is >= 0 *)
Definition br_mix (f : xr) (eb ea : cx) : cx :=
  let e := CF (RtoC 0) in
  let e := if xle (Fin 0) (cx_im (br_sol2 f eb ea)) then br_sol2 f eb ea else e in
  if xle (Fin 0) (cx_im (br_sol1 f eb ea)) then br_sol1 f eb ea else e.

Section Effective.
Variable X : scipy.

(** A scalar spectrum gives scalar permittivities. Line 977 reads their attribute shape: numpy
    numbers have it, Python's complex has not. np.power (662) makes the permittivity of an
    n/k material a numpy number; that of an eps material is one or not depending on the
    numbers the material was built from, which the model does not record: [py] says that
    material1 gave a Python number. (Boolean indexing of a numpy number, lines 978-979, works as
    for an array of one element.) *)
Definition no_shape (py : bool) (m1 : material) : bool := py && negb (String.eqb (m_name m1) "nk").

(** the mixed permittivity, before it is tabulated; [plain]: the first one has no shape *)
Definition mix (plain : bool) (k : medium) (f : xr) (e1 e2 : ovals) : res ovals :=
  match k with
  | EffectiveMedium => Raise NotImplementedError
  | Simple => obin (simple_mix f) e1 e2
  | MaxwellGarnett =>
      do down <- obin (mg_down f) e1 e2;
      if mg_singular down then Raise ValueError else obin (mg_mix f) e1 e2
  | Bruggeman =>
      match e1 with
      | OS _ => if plain then Raise AttributeError else obin (br_mix f) e1 e2
      | OA _ => obin (br_mix f) e1 e2
      end
  end.

(** material.py:943-946 (and 961-964, 981-984): np.vstack([values, real, imag]).T *)
Definition eff_table (v : vals) (e : ovals) : res (list (list xr)) :=
  let es := match e with OS x => [x] | OA l => l end in
  if Nat.eqb (length (elems v)) (length es) then
    Ok (zip_with (fun x z => [x; cx_re (onum_cx z); cx_im (onum_cx z)]) (elems v) es)
  else Raise ValueError.

(** material.py:911-927 __init__ followed by create_effective_data of the class: the material
    and the caller's spectrum object afterwards. There is no meta_data. *)
Definition effective (py : bool) (k : medium) (s : spectrum) (m1 m2 : material) (f : xr) : res material * spectrum :=
  if xlt f (Fin 0) || xgt f (Fin 1) then (Raise ValueError, s)
  else match k with
  | EffectiveMedium => (Raise NotImplementedError, s)
  | _ =>
    match get_permittivity_obj X m1 s with
    | (Raise e, s1) => (Raise e, s1)
    | (Ok e1, s1) =>
    match get_permittivity_obj X m2 s1 with
    | (Raise e, s2) => (Raise e, s2)
    | (Ok e2, s2) =>
    match mix (no_shape py m1) k f e1 e2 with
    | Raise e => (Raise e, s2)
    | Ok em =>
    match convert_in_place s2 "wavelength" "m" with
    | (Raise e, s3) => (Raise e, s3)
    | (Ok _, s3) =>
        (do table <- eff_table (sp_values s3) em;
         do p <- process_table 3 table "eps" (mkP "" None None None "wavelength" "m");
         match p_real p, p_imag p with
         | Some a, Some b => Ok (mkMat None (p_name p) a b (p_complex p) (p_stype p) (p_unit p))
         | _, _ => Raise RuntimeError
         end, s3)
    end end end end
  end.
End Effective.
