(** setup_dispersion.py:117-166: the example files that the setup script puts into the folder of the
    user's own materials *)
From Verif Require Import PyBase PyStr XReal CNum SpectrumModel SpectralModel TextModel MaterialModel FileModel ReaderModel WriterModel PathModel.
Open Scope R_scope.
Open Scope string_scope.
Open Scope list_scope.

(** setup_dispersion.py:123-126 and 158-161: the numbers *)
Definition example_nk : nd :=
  ND2 3 [[Fin 400; Fin 1.7; Fin 0.1]; [Fin 500; Fin 1.6; Fin 0.05]; [Fin 600; Fin 1.5; Fin 0]; [Fin 700; Fin 1.4; Fin 0]].
Definition example_k : list (xr * xr) := [(Fin 400, Fin 0.1); (Fin 500, Fin 0.05); (Fin 600, Fin 0); (Fin 700, Fin 0)].
(** setup_dispersion.py:142-148; the key 'specrtrum_type' is misspelt, so that no spectrum type is
    given *)
Definition example_model : model_kw :=
  mkKw (Some "Sellmeier") (Some [Fin 0; Fin 1; Fin 0.05; Fin 2; Fin 0.1; Fin 10; Fin 25])
       (Some (InVals (VA [Fin 0.35; Fin 2]))) None (Some "micrometer").

(** setup_dispersion.py:129-136 and 150-157: the assignments to meta_data *)
Definition example_comment : string :=
  " This is a multiline meta-comment" ++ NL ++ " which provides information not" ++ NL ++ " in metadata".
Definition describe (meta : dict mval) : dict mval :=
  let meta := dset meta "Reference" (MStr "Literature reference to the data") in
  let meta := dset meta "Comment" (MStr "Any additional information goes here") in
  let meta := dset meta "Name" (MStr "Short name of the material") in
  let meta := dset meta "FullName" (MStr "Full name of the material") in
  let meta := dset meta "Author" (MStr "The author of this data file") in
  dset meta "MetaComment" (MStr example_comment).
Definition described (m : material) : res material :=
  match m_meta m with
  | None => Raise AttributeError
  | Some meta => Ok (mkMat (Some (describe meta)) (m_name m) (m_real m) (m_imag m) (m_complex m) (m_stype m) (m_unit m))
  end.

Section Examples.
Variable W : wenv.
(** no file is read: the argument of Material is not used *)
Definition no_file (path : string) : res fdict := Raise FileNotFoundError.

(** setup_dispersion.py:122-139 make_example_txt *)
Definition example_txt_material : res material :=
  do m <- mk_material no_file [("tabulated_nk", PArr example_nk); ("spectrum_type", PStr "wavelength"); ("unit", PStr "nanometer")];
  described m.
Definition make_example_txt (dir : string) (fs : dict string) : res unit * list fsop :=
  match example_txt_material with
  | Raise e => (Raise e, [])
  | Ok m => save_material W (path_join dir "example_file.txt") m fs true false
  end.

(** setup_dispersion.py:141-166 make_example_yaml: data['imag'] is replaced *)
Definition example_yaml_material : res material :=
  do m <- mk_material no_file [("model_kw", PDict example_model); ("spectrum_type", PStr "wavelength"); ("unit", PStr "micrometer")];
  do m <- described m;
  do k <- mk_interpolation example_k "wavelength" "nm";
  Ok (mkMat (m_meta m) (m_name m) (m_real m) k (m_complex m) (m_stype m) (m_unit m)).
Definition make_example_yaml (dir : string) (fs : dict string) : res unit * list fsop :=
  match example_yaml_material with
  | Raise e => (Raise e, [])
  | Ok m => save_material W (path_join dir "example_file2.yml") m fs true false
  end.

(** setup_dispersion.py:117-120 install_userdata *)
Definition make_examples (dir : string) (fs : dict string) : res unit * list fsop :=
  match make_example_txt dir fs with
  | (Raise e, ops) => (Raise e, ops)
  | (Ok _, ops) =>
      match make_example_yaml dir (fs_run fs ops) with
      | (r, ops') => (r, ops ++ ops')
      end
  end.
End Examples.
