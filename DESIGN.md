# Formal model of jcmwave/dispersion in Rocq (Coq 8.16.1)

## 1. Layout

* `rocq/theories/*Model.v` — executable-style Gallina models, one per source file area. Every definition
  cites the lines of `/repo/src/dispersion` it models, and says where it simplifies.
* `rocq/theories/*Spec.v` — small specifications that do not mention model helpers (physical formulas,
  order/subsequence notions, tables of names).
* `rocq/theories/*Proofs.v` — lemmas.
* `rocq/theories/Prop*.v` — only the property theorems, each closed by `exact …`, followed by
  `Print Assumptions`, plus the non-vacuity `Example`s.

## 2. Semantics chosen

* **Exceptions** are values: `res A := Ok a | Raise e`, with `e` the Python exception class.
* **Mutation** (`in_place=True`, dictionaries, the file system) is modelled by returning the new state.
  Where a call may raise *after* mutating, the model returns both the exception and the mutated state.
* **Numbers**: `xr := Fin (r:R) | PInf | NInf | NaN` — real arithmetic extended with the IEEE special
  values and their comparison rules (NaN compares false; inf absorbing; inf-inf, 0*inf, 0/0 = NaN;
  x/0 = ±inf as in numpy). **Idealisation**: finite arithmetic is exact (no binary rounding, overflow or
  signed zero). Explicit decimal rounding in the code (`np.round`, `%.8f`) *is* modelled, round-half-even.
  A separate binary64 layer (Flocq) covers properties about comparison and rounding.
* **Strings** are Coq `string`s (8-bit characters), with ASCII case mapping and Python white space.
* **Sets** iterated by the code are modelled with an arbitrary iteration order (a permutation argument).
* **External libraries** (numpy array2string, splrep/splev, YAML parser/emitter, pandas CSV) are Section
  variables; what is assumed about them is a hypothesis visible in the theorem statement.
* **Dictionaries** are insertion-ordered association lists.

## 3. Plan per property

| id | property | how modelled / proved |
|---|---|---|
| C01 | Spectrum constructor accepts exactly the documented type/unit names | SpectrumModel.mk_spectrum over all strings; iff-characterisation by a specification table; case analysis on the tables. |
| C02 | Standard representation is the physical vacuum wavelength in metres | Real arithmetic on `Fin`; closed forms from SpectrumSpec.phys_wavelength. |
| C03 | Converting a spectrum back to its own type and unit returns its values | np.round modelled by Flocq ZnearestE; field + rounding lemma; `_refuted` for wavenumber with exact factor. |
| C04 | In-place conversions never change the physical quantity | Induction over the list of requests. |
| C05 | Array conversions agree element-wise with scalar conversions | Element-wise lemma on lists + `_refuted` witness. |
| C06 | Range check accepts exactly the spectra lying inside the range | min/max folds over lists, iff statement, NaN case. |
| C07 | Out-of-range requests raise ValueError | Exhaustive case analysis over units. |
| C08 | Conversion chains compose | As C03. |
| C09 | Reciprocal types reverse order, wavelength units preserve it | Monotonicity of inverse and of rounding. |
| C10 | Unit names are case-insensitive in the constructor but not in convert_to | String case lemma. |
| C11 | Integer arrays of reciprocal quantities are never silently truncated | VInt constructor of the value type. |
| C12 | Constants evaluate to the constant with the shape of the request | Unfolding + C06. |
| C13 | Tabulated data interpolates through its rows | Insertion-sort model of interp1d(kind=1), piecewise linear evaluation, permutation invariance by sortedness. |
| C14 | Sum-type dispersion formulas compute the published formula for any number of terms | Induction over the number of terms. |
| C15 | Fixed-size dispersion formulas compute the published formula | Unfolding, field. |
| C16 | Retro formula returns the solution of its defining equation | Root computation, `_refuted`. |
| C17 | Drude and Drude-Lorentz permittivities follow the published formula and are passive | Complex arithmetic (Coquelicot C). |
| C18 | Tauc-Lorentz absorption vanishes below the gap and is non-negative above | Case split on E>=Eg; closed-form real part. |
| C19 | Models can only be built with the unit their formula needs | String-level model of validate_spectrum_type. |
| C20 | Evaluation is range-checked, pointwise and shape preserving | List lemma over the evaluation map. |
| C21 | Extrapolation does not alter the base range and covers exactly the requested one | Structural induction on (nested) extrapolations; spline is an arbitrary function. |
| C22 | Extending a range does not modify the caller's Spectrum | Mutation returned as new spectrum. |
| C23 | Table repair yields the strictly increasing greedy subsequence | Induction on rows with IEEE comparisons. |
| C24 | Text tables parse to the numbers they display | Parser/printer over strings; decimal numerals. |
| C25 | Exactly one data source must be given | Fold over kwargs. |
| C26 | Documented sources construct a usable material | Case analysis per source; `_refuted` for n_alpha. |
| C27 | Fixed values are returned at every wavelength | Composition of C12. |
| C28 | Permittivity is the square of the refractive index | Complex square root lemma. |
| C29 | Maximum valid range is the intersection of both parts | min/max of two ranges; `_refuted` for complex data. |
| C30 | Sample spectra lie inside the valid range | Geometric sequence bounds. |
| C31 | Removing absorption zeroes the imaginary permittivity part only for separated data | Unfolding. |
| C32 | Extending a material is all-or-nothing | State returned together with exception. |
| C33 | Material equality | Dictionary comparison. |
| C34 | Absorption-coefficient tables convert to k = alpha*lambda/(4 pi) | `_refuted` witness + exact formula. |
| C35 | Interpolation order option | Equality of built materials. |
| C36 | Formula data sets from files select the documented model | Dispatch table. |
| C37 | Text header metadata survives write and read | String model of savetxt header and header parser. |
| C38 | Header parsing does not depend on set iteration order | Permutation argument + prefix-freeness. |
| C39 | Meta comments survive a text file cycle | Induction over cycles. |
| C40 | Meta comments survive a yaml file cycle | Induction over cycles. |
| C41 | Tabulated data survives a text file cycle up to 8 decimals | Composition of printer/parser with rounding to 1e-8. |
| C42 | n and k tables are merged only when they share grid, unit and type | Case analysis. |
| C43 | A yaml file cycle preserves metadata and data sets | Tree-level model, YAML emitter/parser abstract. |
| C44 | Writing fails cleanly for unsupported materials | Case analysis. |
| C45 | Reading is a function of the file content | State of the Reader threaded through reads. |
| C46 | A crash while saving leaves either the old or the new file | Writes as sequences of primitive file operations; crash = prefix. |
| C47 | Missing and malformed yaml keys | Fold over the mapping. |
| C48 | Filling fraction is checked and linear mixing interpolates the permittivities | Complex ring. |
| C49 | Maxwell-Garnett mixing satisfies its mixing rule | Complex field; `_refuted` for the singularity guard. |
| C50 | Bruggeman mixing satisfies its mixing rule with a passive root | Quadratic formula; half-plane argument for passivity. |
| C51 | Effective media tabulate the mixed permittivity at the requested wavelengths | Composition with C13. |
| C52 | Aliases stay unique | Induction over call sequences. |
| C53 | get_material finds the row carrying the alias | Index labels modelled explicitly. |
| C54 | Rebuilding one module leaves the other modules' rows alone | Fold over modules. |
| C55 | The refractiveindex.info walk lists every readable page once | Tree traversal with an arbitrary loader. |
| C56 | User data folders list every supported file | Fold over listing with an arbitrary loader. |
| C57 | Reference columns are NaN exactly when the reference wavelength is not covered | Same. |
| C58 | Catalogue bounds are stated in the unit of the row | Composition; `_refuted`. |
| C59 | Configuration lookup | File system as predicate on paths. |
| C60 | Configuration validation accepts exactly well-typed configurations | Typed dictionary model. |
| C61 | Interactive questions | Recursion on the input stream. |
| C62 | Module installation only enables modules that are present | Fold over modules with answers. |
| C63 | A table answers at its own end points | Rounding of the unit at the table ends; composition of C06 and C13; `_refuted` for an end rounded outside. |
| C64 | Unit letter case | Case lemmas for the constructors, composed with C10; `_refuted`. |
| C65 | Tauc-Lorentz for strongly damped oscillators | Sign of the radicand; NaN propagation through the formula. |
| C66 | Fano profile | Unfolding, complex field. |
| C67 | Non-monotonic tables are repaired when read | The identity test of a numpy boolean modelled as never true; the repaired table of C23 is never used. |
| C68 | Results have the shape of the request | `shape` of requests and results, induction over data objects. |
| C69 | Large tables are saved completely or not at all | numpy's summarisation threshold of 1000 elements in array2string; case analysis on the number of rows. |
| C70 | A listed row can be loaded and shows the material that is loaded | Composition of the listing walk with a world of files; loading and listing use the same constructor. |
| C71 | Testing a file name has no side effects | Disk returned by the test; case analysis on the name. |
| C72 | Setup stores what the user confirmed | Dialogue of setup_dispersion.py as a function of the answers and the disk. |
| C73 | Rebuilding from the command line | rebuild_catalogue as a function of the answers. |
| C74 | In double precision, converting to the own unit returns the same number | Flocq binary64 model of spectrum.py; error analysis of each conversion, witnesses by computation. |
| C75 | In double precision, a range accepts exactly the numbers between its end points | Flocq comparisons; min/max folds. |
| C76 | In double precision, conversions are accurate | Relative error bounds of products, quotients and decimal rounding in Flocq. |
| C77 | In double precision, conversions never swap two numbers | Monotonicity of the Flocq rounding. |
| C78 | A saved catalogue is opened again unchanged | Character level csv writer and reader (RFC 4180 with the quoting rules of Python's csv), state machine invariant over all texts. |
| C79 | Aliases survive saving and opening | Composition of C53 and C78. |
| C80 | Rebuilding one module of a saved catalogue keeps the aliases of the others | Composition of C54 and C78. |
| C81 | Refractive index plots show get_nk_data | Plots as lists of labelled curves; composition with get_nk_data. |
| C82 | Permittivity plots show get_permittivity on a truthful axis | The spectrum object after the evaluation is threaded to the axis; `_refuted` for extrapolated data. |
| C83 | A table can be plotted over its whole range | Rounding analysis of the sampled range; `_refuted` for 400-800 nm against energy. |
| C84 | Printed references and comments are the ASCII part of the text | Filter over the bytes of a text. |
| C85 | An interrupted save leaves whole rows and at most one damaged one | Lexing of every beginning of the csv text, by induction over lines, fields and characters; `_refuted`: the cut right after an upper bound. |
| C86 | Interactive grids change the catalogue only through save_interactive | State machine of a session with events (methods, user actions, registrations); induction over histories; `_refuted` histories. |
| C87 | Sessions compose: saved aliases accumulate | Induction over sessions on top of the exact round trip C78 and the register_alias theorems C52, C53. |
| C88 | Hand-written text files load as the numbers they show | Specification of file texts as lines with Unix or Windows ends and number texts; the reader's folds over lines and tokens by induction over the file, the header by an invariant of the line loop. |
| C89 | Yaml data files load as what they say | Specification of what keys of a mapping say (last key, first of two spellings); folds over the keys of a data set and over the top level by induction; then the constructor branches as for C88. |
| C90 | Comparing types and units | Case analysis over the documented types and spellings. |
| C91 | The example files of the setup script | The two functions of the script as calls of the modelled Material and Writer; then the cycle theorems C41_cycle_exact and C43_parts_cycle, whose hypotheses are shown for the materials built. |
| C92 | The library does not write into arrays | Memory model with arrays by reference. Every method is shown to allocate only (it may write into arrays it made itself, as safe_inverse does) and to refine the value model of C01-C30; a session invariant (values represented, private arrays disjoint from everything else) gives the simulation by induction over the session. |
| C93 | Objects keep what they were given | C93_copied from C92; the refutations by following the references of the objects through the constructors. |
| C94 | Catalogue rows of the example files | The cycle theorems of C91 give the loaded materials; the listing theorem C56 gives their rows; the entries are then computed from the interpolation and Sellmeier theorems at the reference wavelength. |
| C95 | From the setup script to loaded materials | The models of script, configuration, writer, reader, catalogue and pandas run on one file system (StartModel.v). An invariant of the disk (settled) is established by the script and kept by every rebuild; on every settled disk the theorems C94, C57, C45 and C91 give rows, saved file and loaded materials. |
| C96 | The user's own materials in the catalogue | On the disk of StartModel.v: the listing theorem C56 and the directory walk give the row, C59/C45 the loaded file, C41 and C43 the tables of the saved file, C57 the reopened catalogue; the deviation by computing the normalised path. |
| C97 | When a rebuild of the catalogue succeeds | The listing fold over the directory raises exactly when one file raises (induction over any listing order); the script theorem C95 carries the exception to the command. |
| C98 | A table in double precision at its own wavelengths | FloatTableModel.v: Interpolation, Constant and get_nk_data on top of the binary64 model of spectrum.py; the interpolation routine is an argument. C74 gives back the number asked for, the order of written decimals (C75) the range check; n + 1j*k is exact by Flocq's sum and product; the deviations by computation. |
| C99 | Every life of an installation can be continued by a rebuild | LifeSpec.v: an inductive relation for histories. Invariant by induction over the history: folders and configuration as the setup script left them (C95). A rebuild from such a disk is C97; the csv round trip (C78) and C96 give the catalogue that is opened, and the listing gives the file behind every row. |
| C100 | A saved material answers like the original | SavedSpec.v compares answers. Linear interpolation is a convex combination of neighbouring values, so an error bound d on the values is an error bound on every answer (induction over the sorted table, both tables sorted alike because they share their points); the rows that come back from the file are computed from the round-trip lemmas of C41/C43. |
| C101 | A formula material saved as yaml | SavedSpec.v: formula_material and absorption_lost. The saved dataset is read back (lemmas of C43) into the same constructor call, so the parts are equal; the answers are then compared request by request. |
| C102 | From the constructor to a later session | WaySpec.v: stays_available. Composition: the constructor's parts (C26), the round trip without change of answers (C100, C101) and the catalogue (C96). The default metadata and every documented spelling can be written into a header, which is proved, not assumed. |
| C103 | The mixing rules against each other | MixingSpec.v: harmonic and ordered over real numbers, at_every_sample. The rules of C48-C50 restricted to positive reals: signs of the Bruggeman polynomial at the other mixtures place them on either side of its positive root; the exchange holds because the two solutions and the choice between them are the same. |
| C104 | Linear mixing in double precision | FloatMixModel.v: Simple in binary64, on FloatTableModel.v. FloatMixSpec.v: mixed (error bound), tabulable, exact_at_knots. Sterbenz' lemma for 1-f, error_N_FLT for the products and the sum; the multiplications by the zero imaginary part are exact; the table gives back its rows. |
| C105 | The permittivity in double precision | FloatPermModel.v: get_permittivity in binary64, on FloatTableModel.v. FloatPermSpec.v: squarable, square_of (error bound). error_N_FLT for the products and the difference, the sum n*k + k*n is an exact doubling; signs from the monotonicity of rounding; C98_nk for the tables. |

<!-- tail -->
## 4. Trusted base

* The kernel of Coq 8.16.1 (and `coqchk`), the standard library, Flocq (binary64 and rounding),
  Coquelicot (complex numbers), and std++ (only for the countability of strings used by one non-vacuity
  instance, YamlCodec.v). No library axiom outside the standard library is used.
* Axioms listed by `Print Assumptions` (all of the standard library):
  **A** `ClassicalDedekindReals.sig_forall_dec`, **N** `ClassicalDedekindReals.sig_not_dec`,
  **F** `FunctionalExtensionality.functional_extensionality_dep`, **C** `Classical_Prop.classic`.
  All four come from the real numbers of the standard library and, for C, from Flocq/Coquelicot lemmas.
  Section 9 lists them per theorem. `coqchk` additionally
  lists the constants that the standard library seals behind module signatures (`Rdefinitions.RbaseSymbolsImpl`,
  `RinvImpl`, `ssrunder.Under_rel`). No axiom, parameter or open obligation is added.
* The reading of the Python source: the definitions in the `*Model.v` files, each with the lines it models.
* What the theorems assume about libraries, always as visible hypotheses or record arguments:
  * `scipy` (record of SpectralModel.v): `splrep`/`splev` are arbitrary; `geomspace` is arbitrary except
    where `geomspace_ok`/`geomspace_exact` is a hypothesis.
  * the text of numbers: `shows`/`reads` hypotheses of the file theorems (`float(text)` of the written
    text gives a stated number); `%.8f` and `%g`-like formats are functions on reals with their rounding.
  * yaml: `load (dump d) = d` for the documents that are written; PyYAML sorts keys, ruamel keeps order.
  * csv (`csvlib`): text of a number and reading of a number; the rest of the format is modelled
    character by character.
  * pandas: `.at`, `.loc`, `.append` on frames with integer labels, as defined in CatalogueModel.v.
  * the `world` of files: which paths exist, their contents, the order of directory listings.

## 5. Modelled code

| source | lines | model |
|---|---|---|
| spectrum.py | all | SpectrumModel.v (reals), FloatModel.v (binary64) |
| spectral_data.py | all classes and formulas | SpectralModel.v; Interpolation and Constant again in FloatTableModel.v (binary64), with get_nk_data, and get_permittivity in FloatPermModel.v |
| material.py | constructor, files, evaluation, ranges, extrapolation, equality, saving | MaterialModel.v, WriterModel.v |
| material.py | EffectiveMedium, MaxwellGarnett, Bruggeman | EffectiveModel.v; Simple again in FloatMixModel.v (binary64) |
| material.py | plots, print_reference, print_comment | PlotModel.v |
| spectrum.py; constructors of spectral_data.py; tables, models, get_nk_data of material.py | again, with arrays by reference | MemoryModel.v |
| io.py | tables, text files, yaml files, Reader, Writer, questions | TextModel.v, FileModel.v, ReaderModel.v, WriterModel.v, ConfigModel.v, DiskModel.v |
| catalogue.py | build, listing, aliases, get_material, saving and opening, interactive grids | CatalogueModel.v, CsvModel.v, InteractiveModel.v, PathModel.v |
| config.py, \_\_init\_\_.py | all | ConfigModel.v, DiskModel.v |
| scripts/ | all; in SetupModel.v the texts of the example files and of the clone are arguments, ExampleModel.v models how the example files are written ; StartModel.v puts script, configuration, files and catalogue on one disk | SetupModel.v, ExampleModel.v, StartModel.v |

## 6. Not modelled, and simplifications

* Real arithmetic is exact except in the binary64 layer, which covers spectrum.py, Interpolation, Constant, get_nk_data of tabulated materials and the linear effective medium only. Complex NaNs are
  one value; zeros are unsigned.
* Strings are 8-bit; texts with other characters are their UTF-8 bytes. Encoding errors of `savetxt`,
  warnings, and messages of exceptions are not modelled.
* Object identity: in the value models a Spectrum shared between callers is modelled where the code mutates it
  (the state is returned). Sharing of numpy arrays is modelled in MemoryModel.v for spectra, tables and models;
  there `interp1d` copies its data (scipy's default) and results of arithmetic are new arrays.
* Columns of file tables beyond those read are dropped by the readers' models as by the code.
* interp1d is modelled for `kind=1`, the only kind the code reaches; its sorting is an insertion sort. Equal
  abscissae are rejected, as by scipy 1.7 and later.
* A complex division by zero gives the NaN value (numpy: infinite or NaN parts).
* The Bruggeman branch choice takes numpy's comparison of complex numbers as an argument (`py`).
* The file system has no links and no permissions; paths are normalised; POSIX branch only. `git clone`
  is an argument.
* qgrid: a widget is a copy of the frame plus what the user may do with it (sort, filter, edit).
* csv files with other headers than the catalogue's are not modelled. Row labels are integers.
* matplotlib (styles, axes objects, colours) and the `__main__` blocks are not modelled.

## 7. Deviations found

The theorems with suffix `_refuted` are proved witnesses that the code does not do what its
documentation or the property's plain reading promises. The statement of each property in
properties.jsonl names the deviation. Among them: wavenumbers come back 10^4 times too large (C03),
array elements up to 1e-8 become infinite when inverted (C05), the retro formula is another equation
than the published one (C16), wavelengths are rounded to 100 nm before absorption coefficients are
converted (C34), interp_order is ignored (C35), saving is not atomic (C46), non-monotonic tables are never
repaired (C67), large tables are saved abbreviated (C69), a wrong row number in register_alias makes the
saved catalogue unreadable (C78), tables cannot be plotted in another unit (C83).

## 8. Wrong programs

seeded/LOG.jsonl records every edit of the model that was tried, the claim it breaks and the theorems
that failed. Edits that no theorem noticed led to stronger theorems (field `tightened`) or are explained
in a note (equivalent programs).

## 9. Print Assumptions, theorem by theorem

Letters as in section 4; "closed" means *Closed under the global context*.

**PropCatalogue.v** — AFN: C53_alias, C53_unknown, C53_number, C53_out_of_range, C53_label_is_position, C53_empty_row; AFNC: C53_other_row_refuted, C54_kept, C54_rebuilt, C54_dropped, C54_order, C54_numbered, C54_not_rebuilt, C54_disabled, C54_succeeds, C54_errors, C54_unknown_module, C54_none_refuted; closed: C52_distinct, C52_failed, C52_success, C52_when, C52_other_type, C52_missing_row_refuted, C52_selection_refused, C52_selection, C52_selection_refuted, C52_clear_refuted, C53_other_type, C53_numbering

**PropConfig.v** — AF: C60_default, C60_default_config; closed: C59_user, C59_package, C59_found, C59_looking, C59_no_file_refuted, C59_never_default, C59_no_directory_refuted, C59_no_home, C59_written, C59_written_package, C60_accepts, C60_rejects, C60_errors, C60_wrong_type, C60_sections, C60_integer, C71_plain, C71_empty, C71_preserves, C71_nul_refuted, C71_absolute_refuted

**PropCrash.v** — AFNC: C85_interrupted, C85_alias, C85_rows_lost_refuted

**PropCsv.v** — AFNC: C78_reopened, C78_exact, C78_no_bounds_refuted, C78_wrong_row_refuted, C78_carriage_return_refuted, C78_empty_file, C79_alias, C79_number, C79_registered, C79_unknown, C80_kept; closed: C78_file

**PropDataSet.v** — AF: C89_reads, C89_not_a_list, C89_unusable; AFN: C89_letter_key_refuted; AFNC: C89_same_as_array, C89_formula

**PropEffective.v** — AF: C50_fallback_refuted; AFN: C50_two_solutions; AFNC: C51_tabulates, C51_between_samples, C48_fraction_rejected, C48_linear, C48_pure, C48_nan_fraction_refuted, C48_nan_fraction_bruggeman_refuted, C48_base_class, C49_rule, C49_pure, C49_between, C49_passive, C49_error_iff, C49_pole_unnoticed_refuted, C49_near_singular_refuted, C50_choice, C50_between, C50_passive, C50_passive_unique, C50_pure, C50_lossless_metal_refuted, C50_scalar_refuted, C51_duplicates_rejected, C51_constituent_fails, C51_spectrum_after, C51_comparison_refuted

**PropExample.v** — AFNC: C91_examples_load, C91_comment_refuted

**PropFloat.v** — AFNC: C74_round_trip, C74_metres, C74_array, C74_round_trip_refuted, C74_frequency_refuted, C75_decimals, C75_own_end_refuted, C76_standard, C76_converted, C76_wavenumber_refuted, C76_models_agree, C77_order, C77_between, C76_arrays, C76_small_arrays_refuted

**PropFloatMix.v** — AFNC: C104_accurate, C104_pure, C104_fraction_rejected, C104_same_refuted

**PropFloatPerm.v** — AFNC: C105_square, C105_errors, C105_passive, C105_tables, C105_tables_arrays, C105_relative_refuted

**PropFloatTable.v** — AFNC: C98_own_points, C98_between, C98_arrays, C98_metres, C98_nk, C98_nk_arrays, C98_n_only, C98_last_refuted, C98_inner_refuted

**PropInteractive.v** — AFN: C86_sorted_refuted; closed: C86_disabled, C86_no_grid, C86_untouched, C86_saved, C86_view_only, C86_filtered_refuted, C86_lost_alias_refuted, C86_duplicate_alias_refuted

**PropLife.v** — AF: C99_saving; AFNC: C99_life, C99_rebuild, C99_stopped

**PropListed.v** — AFNC: C94_examples_listed

**PropListing.v** — AFNC: C55_listing, C55_no_folder, C55_no_library, C56_listing, C56_no_folder, C57_columns, C57_covered, C57_not_covered, C57_centimetre_refuted, C58_bounds, C58_table, C58_declared_refuted, C70_user_file, C70_page; closed: C56_ignored

**PropLoad.v** — AFN: C88_extension; AFNC: C88_reads, C88_same_as_array, C88_other_mark_refuted

**PropMaterial.v** — AFN: C25_not_one_source, C25_wrong_type, C25_constructed, C25_others_ignored, C26_fixed, C26_table_nk_eps, C26_table_n, C26_wrong_shape, C26_model, C26_n_alpha_refuted, C26_name, C29_intersection, C29_bounds, C29_complex_refuted, C30_inside, C30_fallback_refuted, C30_reciprocal_refuted, C34_error, C34_exact, C34_rounded_refuted, C35_ignored_refuted, C36_no_range, C68_regular; AFNC: C26_file_table, C27_fixed_nk, C27_fixed_eps, C28_square, C28_principal_root, C28_converted_refuted, C29_drude_refuted, C31_zero, C31_real_unchanged, C31_rest, C32_complex, C32_constants, C32_success, C32_failure_unchanged, C32_atomic_refuted, C33_iff, C33_reflexive, C33_two_kinds, C34_k_table, C36_selects, C36_model_error, C36_unknown, C36_fano_refuted, C68_nk_shape, C68_eps_shape; closed: C33_other, C33_depends, C33_symmetry_refuted

**PropMemory.v** — AFNC: C92_unchanged, C92_values, C93_copied, C93_table_refuted, C93_coefficients_refuted, C93_metres_refuted, C93_values_refuted

**PropMixing.v** — AFNC: C103_order, C103_swap, C103_garnett_host, C103_monotone, C103_same, C103_same_metal_refuted

**PropOwn.v** — AFNC: C96_listed, C96_reopened, C96_backslash_refuted, C96_text, C96_yaml, C97_all_files, C97_stops, C97_mark_refuted, C97_tables, C97_centimetre_refuted, C97_saved, C97_rebuilt

**PropPlot.v** — AFNC: C81_nk, C81_nk_succeeds, C81_error, C81_float_refuted, C81_centimetre_refuted, C81_sampled, C82_permittivity, C82_requested_axis, C82_extrapolated_refuted, C83_default, C83_other_unit_refuted, C83_case_refuted; closed: C84_printed, C84_missing_refuted

**PropSave.v** — AF: C44_failed_save, C44_nk, C44_nk_error, C44_unsupported, C44_unsupported_error, C44_complex, C44_complex_error, C44_no_table, C44_two_constants, C44_once, C46_other_files, C46_file_itself, C46_atomic_refuted, C46_comment_refuted, C45_fresh, C45_reused, C45_reused_refuted

**PropSaved.v** — AFNC: C100_stable, C100_text, C100_yaml, C100_near, C100_yaml_near, C101_transparent, C101_absorption_lost_refuted

**PropSession.v** — AFNC: C87_sessions, C87_alias

**PropSetup.v** — AF: C72_stored, C72_used, C72_overwritten_refuted, C72_missing_root_refuted; closed: C61_ask, C61_ask_pure, C61_ask_end, C61_confirmation, C61_confirmation_end, C61_both, C61_loop, C62_enabled, C62_declined, C62_present, C62_download, C62_other_refuted, C62_no_root, C73_question, C73_no, C73_yes

**PropSpectral.v** — AF: C17_passive; AFN: C12_default_range, C13_accepts, C13_rejects, C18_denominator, C19_built_unit, C19_accepts, C19_rejects; AFNC: C12_constant_scalar, C12_constant_array, C12_constant_outside, C13_interpolates, C13_at_row, C13_outside_raises, C13_row_order, C13_missing_values, C14_sellmeier, C14_sellmeier2, C14_polynomial, C14_cauchy, C14_gases, C14_refractiveindexinfo, C14_dangling, C14_dangling_rii, C15_herzberger, C15_exotic, C15_exotic_published_refuted, C15_too_few, C16_retro_root, C16_retro_refuted, C16_too_few, C17_drude, C17_drude_lorentz, C17_passive_values, C17_lorentz_is_drude, C17_too_few, C18_tauc_lorentz, C18_absorption, C18_scalar_typeerror, C65_overdamped_nan, C66_fano, C64_capital_unit_refuted, C20_range_checked, C20_pointwise, C20_pointwise_conv, C21_base_inside, C21_range, C21_rejects, C21_same_side_refuted, C21_accepts, C21_extended_values, C21_outside_raises, C21_centimetre_refuted, C22_caller_converted, C22_caller_unchanged_refuted, C22_physical_content, C22_evaluate_converts, C22_plain_untouched, C63_own_minimum_refuted, C63_row_kept

**PropSpectrum.v** — AF: C03_round_trip_exact, C05_safe_inverse_agrees; AFN: C01_constructor_stores, C01_constructor_accepts, C01_constructor_rejects, C02_standard_rep_scalar, C02_standard_rep_array, C02_zero_and_infinity, C03_round_trip, C03_wavenumber_refuted, C04_in_place_keeps_standard, C04_in_place_last_wins, C04_in_place_all_failed, C04_in_place_same_exception, C05_convert_agrees, C05_small_wavelength_refuted, C05_wavenumber_refuted, C06_contains_iff, C06_contains_nan, C06_contains_empty, C07_out_of_range_exception, C07_cm_refuted, C08_conversion_chain, C08_conversion_chain_exact, C08_wavenumber_refuted, C09_order, C10_constructor_case_insensitive, C10_convert_to_case, C10_case_refuted, C11_integer_reciprocal_raises, C11_integer_wavelength; closed: C90_comparison, C90_spellings_refuted

**PropStart.v** — AFN: C95_texts; AFNC: C95_first_run, C95_declined, C95_again

**PropTable.v** — AF: C23_subsequence, C23_kept_rows, C23_valid_unchanged, C23_validate, C23_idempotent, C23_descending, C23_degenerate, C24_number_error, C24_blank_line_ends, C24_no_rows, C67_array_untouched, C67_array_accepted, C67_not_repaired_refuted; AFNC: C24_number, C24_table, C24_error, C24_bad_token; closed: C24_other_type

**PropTextFile.v** — AF: C38_order_independent, C38_order_independent_reuse; AFNC: C37_header_survives, C37_material_cycle, C37_any_cycles, C39_one_cycle, C39_many_cycles, C39_comment_changes_refuted, C41_tables_read_back, C41_material_cycle, C41_exact, C41_cycle_exact, C41_k_lost, C41_metre_grid_refuted, C41_one_row_refuted, C42_merged_or_apart, C42_merged_iff, C42_different_length, C42_k_no_table, C69_large_tables_raise, C69_large_merged, C69_large_merged_text, C69_large_eps

**PropWay.v** — AFNC: C102_array_text, C102_array_yaml, C102_formula

**PropYaml.v** — AF: C43_read_back, C43_rii_read_back, C43_can_save, C43_constants_kept_unreadable_refuted, C47_lower_case_key, C47_unknown_key_ignored, C47_prefix_key, C43_custom_key_refuted, C43_rii_names, C43_custom_value_refuted; AFN: C40_one_cycle, C40_many_cycles, C40_comment_changes_refuted; AFNC: C43_parts_kept, C43_tables_together, C43_cycle_exact, C43_eps_lost_refuted, C43_units_lost_refuted, C43_rii_model_refuted, C69_large_merged_yaml, C43_model_cycle, C43_parts_cycle
