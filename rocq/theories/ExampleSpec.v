(** Notions used in the statements about the example files (C91): what they hold, in numbers and
    words *)
From Verif Require Import PyBase PyStr XReal CNum SpectrumModel SpectralModel SpectralSpec TextModel MaterialModel FileModel ReaderModel WriterModel IOSpec.
From Coq Require Import Permutation.
Open Scope R_scope.
Open Scope string_scope.
Open Scope list_scope.

(** the table of the text file: wavelengths in nanometres, n and k *)
Definition table_n : table := [(400, 1.7); (500, 1.6); (600, 1.5); (700, 1.4)].
Definition table_k : table := [(400, 0.1); (500, 0.05); (600, 0); (700, 0)].
(** the formula of the yaml file: its coefficients, and its range in micrometres *)
Definition coefficients : list R := [0; 1; 0.05; 2; 0.1; 10; 25].
Definition covered : list R := [0.35; 2].

(** the texts describing both *)
Definition described_as (m : material) : Prop :=
  exists meta, m_meta m = Some meta /\
    dget meta "Reference" = Some (MStr "Literature reference to the data") /\
    dget meta "Comment" = Some (MStr "Any additional information goes here") /\
    dget meta "Name" = Some (MStr "Short name of the material") /\
    dget meta "FullName" = Some (MStr "Full name of the material") /\
    dget meta "Author" = Some (MStr "The author of this data file").
