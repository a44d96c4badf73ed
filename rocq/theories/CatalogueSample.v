(** A small catalogue for the examples: one folder with two user files. *)
From Verif Require Import PyBase PyStr XReal CNum SpectrumModel SpectrumSpec SpectralModel SpectralSpec TextModel TextSpec TextProofs MaterialModel MaterialSpec MaterialProofs MatFileProofs FileModel IOSpec PathModel ConfigModel CatalogueModel CatalogueSpec MaterialThms TableProofs.
Open Scope R_scope.
Open Scope string_scope.
Open Scope list_scope.

(** a file with one table and blank metadata; type and unit as declared *)
Definition no_text : dict mval := map (fun k => (k, MStr "")) file_metadata.
Definition table_set (kind stype unit : string) (n : nat) (rows : list (list R)) : fset :=
  mkFset (DStr ("tabulated " ++ kind)%string) (DStr "") (DStr stype) (DStr unit) (DStr "") (DArr (ND2 n (to_xr rows))).
Definition table_file (kind stype unit : string) (n : nat) (rows : list (list R)) : fdict :=
  mkFdict no_text [table_set kind stype unit n rows].

Definition glass : list (list R) := [[400; 1.5; 0]; [800; 1.4; 0]].
Definition metal : list (list R) := [[500; 2; 3]; [900; 1; 4]].

Lemma glass_ok : table_ok 3 glass.
Proof.
  split; [discriminate|]. split; [repeat constructor|]. cbn. constructor; [cbn; intros [H|[]]; lra|]. constructor; [auto|constructor].
Qed.
Lemma metal_ok : table_ok 3 metal.
Proof.
  split; [discriminate|]. split; [repeat constructor|]. cbn. constructor; [cbn; intros [H|[]]; lra|]. constructor; [auto|constructor].
Qed.
Lemma no_text_complete : meta_complete no_text.
Proof.
  intros k. cbn [file_metadata In]. intros Hk.
  repeat (destruct Hk as [<-|Hk]; [intros Hn; vm_compute in Hn; discriminate Hn|]). destruct Hk.
Qed.

(** loading such a file *)
Lemma table_loaded rd path kind name n rows st un t0 u0 t u canon :
  In (kind, name, n) [("nk", "nk", 3%nat); ("eps", "eps", 3%nat); ("n", "nk", 2%nat); ("k", "nk", 2%nat)] ->
  rd path = Ok (table_file kind st un n rows) -> table_ok n rows ->
  file_or_default (DStr st) t0 t -> file_or_default (DStr un) u0 u -> documented (lower t) (lower u) canon ->
  exists m, loaded rd path t0 u0 = Ok m /\ m_name m = name /\ m_complex m = None /\ m_stype m = t /\ m_unit m = u /\
    (if String.eqb kind "k" then zero_data (m_real m) else tabulated (column 1 rows) t u (m_real m)) /\
    (if String.eqb kind "k" then tabulated (column 1 rows) t u (m_imag m)
     else if String.eqb kind "n" then zero_data (m_imag m) else tabulated (column 2 rows) t u (m_imag m)).
Proof.
  intros K Rd T S U D. unfold loaded.
  eapply (C26_file_table_l rd _ path t0 u0 no_text (table_set kind st un n rows)); try eassumption.
  - a_call.
  - exact no_text_complete.
  - cbn [In] in K. decompose [or] K; try contradiction; match goal with H : _ = _ |- _ => injection H as <- <- <- end;
      (eexists; split; [reflexivity|]); match goal with |- context[append "tabulated " ?k] => exact (split_ws_sound ("tabulated " ++ k)%string) end.
  - left. reflexivity.
Qed.

(** rows *)
Definition sample_row (alias name path module unit : string) : row :=
  mkRow (KStr alias) (KStr name) (KStr "") (KStr "") (KStr "") (KStr "") (KStr "wavelength") (KStr unit)
    (Fin 400) (Fin 800) (Fin 1.5) (Fin 0) (KStr path) (KStr module).
Definition row_glass := sample_row "" "glass" "glass.txt" "UserData" "nanometer".
Definition row_metal := sample_row "mirror" "metal" "metal.csv" "UserData" "nanometer".
Definition row_silver := sample_row "silver" "Ag" "database\data\main\Ag\x.yml" "RefractiveIndexInfo" "micrometer".
Definition sample_frame : frame := numbered [row_glass; row_metal; row_silver].

(** the folders /home/cat/UserData and /home/cat/RefractiveIndexInfo *)
Definition silver_library : lnode :=
  LSeq [LMap [("SHELF", LStr "main"); ("name", LStr "MAIN");
              ("content", LSeq [LMap [("DIVIDER", LStr "Ag")];
                                LMap [("BOOK", LStr "Ag"); ("name", LStr "Silver");
                                      ("content", LSeq [LMap [("DIVIDER", LStr "Experiment")];
                                                        LMap [("PAGE", LStr "Someone"); ("name", LStr "Someone 1999"); ("data", LStr "main/Ag/x.yml")];
                                                        LMap [("PAGE", LStr "Lost"); ("name", LStr "Lost 2000"); ("data", LStr "main/Ag/y.yml")]])]])]].
Definition sample_read (p : string) : res fdict :=
  if String.eqb p "/home/cat/UserData/glass.txt" then Ok (table_file "nk" "" "" 3 glass)
  else if String.eqb p "/home/cat/UserData/metal.csv" then Ok (table_file "eps" "wavelength" "nm" 3 metal)
  else if String.eqb p "/home/cat/RefractiveIndexInfo/database/data/main/Ag/x.yml" then Ok (table_file "nk" "" "" 3 [[0.2; 1; 2]; [2; 0.1; 5]])
  else Raise FileNotFoundError.
Definition sample_world : world :=
  mkWorld (mkChecks (fun _ => true) (fun _ => Ok true))
    (fun p => negb (String.eqb p "/home/cat/UserData/old"))
    (fun d => if String.eqb d "/home/cat/UserData" then Ok ["glass.txt"; "old"; "notes.md"; "metal.csv"] else Raise FileNotFoundError)
    sample_read
    (fun p => if String.eqb p "/home/cat/RefractiveIndexInfo/database/library.yml" then Ok silver_library else Raise FileNotFoundError)
    (fun p => if String.eqb p "/home/cat/catalogue.csv" then Ok [row_glass; row_metal; row_silver] else Raise FileNotFoundError)
    false.
Definition sample_modules : list (string * bool) := [("UserData", true); ("RefractiveIndexInfo", true); ("Filmetrics", false)].
Definition sample_config (mods : list (string * bool)) : cfg :=
  [("Path", CStr "/home/cat"); ("File", CStr "catalogue.csv"); ("Interactive", CBool false); ("WarnMissingPackages", CBool true);
   ("ReferenceSpectrum", CMap [("Value", CFloat (Fin 550)); ("SpectrumType", CStr "wavelength"); ("Unit", CStr "nanometer")]);
   ("Modules", CMap (map (fun p => (fst p, CBool (snd p))) mods))].
Lemma sample_configured mods : NoDup (map fst mods) ->
  configured (sample_config mods) "/home/cat" "catalogue.csv" mods (Fin 550) "wavelength" "nanometer".
Proof. intros N. split; try reflexivity; [exact N|]. eexists. repeat split; reflexivity. Qed.
Definition sample_ref : spectrum := mkSp "wavelength" "nm" (VS (Fin 550)) (VS (Fin (/ 10 ^ 9 * 550))).
Lemma sample_ref_ok : mk_spectrum (InVals (VS (Fin 550))) "wavelength" "nanometer" = Ok sample_ref.
Proof. reflexivity. Qed.
