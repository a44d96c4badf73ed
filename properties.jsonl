{"id": "C01", "title": "Spectrum constructor accepts exactly the documented type/unit names", "statement": "Spectrum(values, spectrum_type, unit) succeeds exactly when the lower-cased type is one of the five types and the lower-cased unit is an alias of a unit of that type (and the values are array-like or float); it then stores the lower-case type and the canonical unit name. Every other pair raises ValueError. A plain int value is rejected with ValueError.", "quantifier": "all strings for type and unit, all value arguments", "why_tests_cant": "the name space is all strings in all letter cases; tests try a handful of spellings", "anchors": [{"file": "src/dispersion/spectrum.py", "symbols": ["Spectrum.__init__", "Spectrum.standardise_unit", "SPECTRUM_TYPES", "UNIT_TYPES"]}]}
{"id": "C02", "title": "Standard representation is the physical vacuum wavelength in metres", "statement": "For every positive finite value x, the standard representation is: x times the unit scale for wavelengths, c/x for frequency, hc/(e x) for energy, 2*pi*c/x for angular frequency and 2*pi*1e-2/x for wavenumber; 0 maps to infinity and infinity to 0 for the reciprocal types.", "quantifier": "all values, all five types and all units", "why_tests_cant": "real-valued input space", "anchors": [{"file": "src/dispersion/spectrum.py", "symbols": ["frequency_to_standard", "energy_to_standard", "ang_freq_to_standard", "wavenumber_to_standard", "wavelength_to_standard", "safe_inverse_scalar"]}]}
{"id": "C03", "title": "Converting a spectrum back to its own type and unit returns its values", "statement": "For a positive scalar spectrum, convert_to(own type, own unit) returns the original value rounded to the documented number of decimals (cm 5, um 9, nm 12, angstrom 13, eV 9; none for m, Hz, 1/s), hence is within half a unit of that decimal and exact when the value has no more decimals. The code violates this for wavenumbers: it returns exactly 10^4 times the value.", "quantifier": "all positive finite values, all types and units", "why_tests_cant": "a universally quantified real identity; the suite never converts to wavenumber and compares", "anchors": [{"file": "src/dispersion/spectrum.py", "symbols": ["Spectrum.convert_to", "to_wavelength", "to_frequency", "to_energy", "to_ang_freq", "to_wavenumber"]}]}
{"id": "C04", "title": "In-place conversions never change the physical quantity", "statement": "After any sequence of in-place conversions, successful or raising, the standard representation is unchanged, and the values, type and unit are exactly those obtained by converting the original spectrum once to the last successfully requested type/unit.", "quantifier": "all initial spectra and all finite sequences of conversion requests", "why_tests_cant": "quantifies over unbounded histories", "anchors": [{"file": "src/dispersion/spectrum.py", "symbols": ["Spectrum.convert_to"]}]}
{"id": "C05", "title": "Array conversions agree element-wise with scalar conversions", "statement": "Inverting an array gives at each element what inverting that element as a scalar gives, for every element whose magnitude exceeds 1e-8 or that is 0, infinite or NaN. The code violates the agreement for non-zero elements of magnitude at most 1e-8 (they become infinite): every wavelength array in metres at or below 10 nm converts to infinite energy and frequency while the same scalar converts to a finite value.", "quantifier": "all arrays of any length", "why_tests_cant": "the tolerance hidden in the comparison only bites in a region nobody samples", "anchors": [{"file": "src/dispersion/spectrum.py", "symbols": ["safe_inverse", "safe_inverse_array", "safe_inverse_scalar"]}]}
{"id": "C06", "title": "Range check accepts exactly the spectra lying inside the range", "statement": "range.contains(other) returns True exactly when every value of other, converted to the type and unit of range, lies between the minimum and maximum of range; otherwise it raises. NaN values are never rejected. Empty arrays raise ValueError.", "quantifier": "all ranges and all spectra of any length in any type/unit", "why_tests_cant": "interval membership for all reals and all lengths", "anchors": [{"file": "src/dispersion/spectrum.py", "symbols": ["Spectrum.contains"]}]}
{"id": "C07", "title": "Out-of-range requests raise ValueError", "statement": "A spectrum outside the range makes contains raise ValueError for every range type/unit except centimetre ranges, where the code raises KeyError instead because the unit has no display name; handlers that expect ValueError therefore miss it.", "quantifier": "all out-of-range spectra, all range units", "why_tests_cant": "error kind depends on a table lookup in one unit", "anchors": [{"file": "src/dispersion/spectrum.py", "symbols": ["Spectrum.contains", "Spectrum.display_string", "DISPLAY_NAMES"]}]}
{"id": "C08", "title": "Conversion chains compose", "statement": "Building a new Spectrum from the values obtained by convert_to(t,u) gives the same standard representation as the original, exactly for m, Hz and 1/s and up to half a decimal of rounding for the rounded units, for all positive scalars; for wavenumber the code divides the wavelength by 10^4.", "quantifier": "all spectra, all target types and units", "why_tests_cant": "identity over the reals", "anchors": [{"file": "src/dispersion/spectrum.py", "symbols": ["Spectrum.convert_to", "Spectrum.convert_from"]}]}
{"id": "C09", "title": "Reciprocal types reverse order, wavelength units preserve it", "statement": "For positive values, conversion to frequency, angular frequency and wavenumber strictly reverses order, to metres strictly preserves it, and conversion to energy / rounded wavelength units weakly reverses / preserves it.", "quantifier": "all pairs of positive values", "why_tests_cant": "order property over the reals", "anchors": [{"file": "src/dispersion/spectrum.py", "symbols": ["to_frequency", "to_ang_freq", "to_wavenumber", "to_energy", "to_wavelength"]}]}
{"id": "C10", "title": "Unit names are case-insensitive in the constructor but not in convert_to", "statement": "The constructor result depends only on the lower-cased unit. convert_to lower-cases the type but not the unit, so any unit spelled with an upper-case letter raises ValueError there; consequently tabulated data or a model constructed with such a unit (e.g. 'eV') is accepted but every evaluation of it raises.", "quantifier": "all strings", "why_tests_cant": "all letter-case variants", "anchors": [{"file": "src/dispersion/spectrum.py", "symbols": ["Spectrum.convert_to", "Spectrum.__init__"]}, {"file": "src/dispersion/spectral_data.py", "symbols": ["Model.preprocess", "Interpolation.evaluate"]}]}
{"id": "C11", "title": "Integer arrays of reciprocal quantities are never silently truncated", "statement": "Building a Spectrum from an integer array with a reciprocal type raises OverflowError rather than returning wrong values; integer wavelength arrays in nm, um, cm or angstrom are converted as the equal float arrays are.", "quantifier": "all integer arrays", "why_tests_cant": "dtype-dependent path", "anchors": [{"file": "src/dispersion/spectrum.py", "symbols": ["safe_inverse_array", "wavelength_to_standard"]}]}
{"id": "C12", "title": "Constants evaluate to the constant with the shape of the request", "statement": "Evaluating a constant at a spectrum inside its range returns the constant for a scalar and an array of equal length filled with the constant for an array; outside the range it raises; with the default range every non-negative wavelength is accepted.", "quantifier": "all constants, all spectra", "why_tests_cant": "all lengths and reals", "anchors": [{"file": "src/dispersion/spectral_data.py", "symbols": ["Constant.evaluate"]}]}
{"id": "C13", "title": "Tabulated data interpolates through its rows", "statement": "For a table with pairwise distinct spectral values, evaluation at a row's spectral value returns that row's value, evaluation between two adjacent rows returns the linear interpolant (hence lies between the two row values), and any value outside [min,max] raises. The result does not depend on the order of the rows. Missing values (NaN) are accepted: the answer is NaN exactly between a missing value and its neighbours, and unaffected elsewhere. Tables with duplicated spectral values or fewer than two rows are rejected at construction.", "quantifier": "all finite tables and all spectral values", "why_tests_cant": "all tables, all evaluation points, all row permutations", "anchors": [{"file": "src/dispersion/spectral_data.py", "symbols": ["Interpolation.__init__", "Interpolation.evaluate", "Interpolation.interpolate_data"]}]}
{"id": "C14", "title": "Sum-type dispersion formulas compute the published formula for any number of terms", "statement": "For each of Sellmeier, Sellmeier2, Polynomial, RefractiveIndexInfo, Cauchy and Gases and every well-formed coefficient list (any number of terms), evaluation at an in-range wavelength off the poles returns exactly the published sum / square root in micrometres. A coefficient list with a dangling half term raises IndexError.", "quantifier": "all coefficient lists of any length, all wavelengths", "why_tests_cant": "unbounded number of terms", "anchors": [{"file": "src/dispersion/spectral_data.py", "symbols": ["Sellmeier.evaluate", "Sellmeier2.evaluate", "Polynomial.evaluate", "RefractiveIndexInfo.evaluate", "Cauchy.evaluate", "Gases.evaluate"]}]}
{"id": "C15", "title": "Fixed-size dispersion formulas compute the published formula", "statement": "Herzberger evaluates to its published formula; too few coefficients raise IndexError; extra coefficients are ignored. Exotic deviates from the published formula 9: its second term carries an extra factor lambda^2, so it agrees with the publication only where that term vanishes or lambda = 1 um.", "quantifier": "all coefficient lists and wavelengths", "why_tests_cant": "identity over the reals", "anchors": [{"file": "src/dispersion/spectral_data.py", "symbols": ["Herzberger.evaluate", "Exotic.evaluate"]}]}
{"id": "C16", "title": "Retro formula returns the solution of its defining equation", "statement": "For the Retro model with right-hand side r (0 <= r < 1) the returned index n is the non-negative solution of (n^2-1)/(n^2+2) = r. The code violates this: it returns the root of n^2 + p n + q = 0 with p=-2r/(1-r), q=-1/(1-r), which differs from the published definition except at r=0.", "quantifier": "all r in [0,1)", "why_tests_cant": "an algebraic identity over the reals", "anchors": [{"file": "src/dispersion/spectral_data.py", "symbols": ["Retro.evaluate"]}]}
{"id": "C17", "title": "Drude and Drude-Lorentz permittivities follow the published formula and are passive", "statement": "For positive energy, Drude returns 1 - wp^2/(E^2+i g E) and Drude-Lorentz 1 + f wp^2/(w0^2-E^2 - i g E); with non-negative loss and strength the imaginary part is non-negative; Drude-Lorentz with w0=0, f=1 equals Drude; both use the same sign convention.", "quantifier": "all parameters and energies", "why_tests_cant": "sign and identity over the reals", "anchors": [{"file": "src/dispersion/spectral_data.py", "symbols": ["Drude.evaluate", "DrudeLorentz.evaluate"]}]}
{"id": "C18", "title": "Tauc-Lorentz absorption vanishes below the gap and is non-negative above", "statement": "For array spectra the imaginary part is exactly 0 for E < Eg, is the published expression for E >= Eg (non-negative for non-negative parameters), and the real part is the published closed form whose denominator equals (E^2-E0^2)^2+C^2E^2. Scalar spectra raise TypeError.", "quantifier": "all parameters and energy arrays", "why_tests_cant": "all lengths and reals", "anchors": [{"file": "src/dispersion/spectral_data.py", "symbols": ["TaucLorentz.evaluate", "TaucLorentz._calc_eps_imag", "TaucLorentz._calc_eps_real"]}]}
{"id": "C19", "title": "Models can only be built with the unit their formula needs", "statement": "Constructing any of the formula models succeeds only if the (case-insensitive) type/unit denotes exactly the required one (micrometre wavelength for the index formulas, eV energy for the permittivity models), otherwise it raises ValueError.", "quantifier": "all strings, all models", "why_tests_cant": "all strings", "anchors": [{"file": "src/dispersion/spectral_data.py", "symbols": ["Model.validate_spectrum_type", "Model.__init__"]}]}
{"id": "C20", "title": "Evaluation is range-checked, pointwise and shape preserving", "statement": "Every constant, table and formula model raises for a spectrum outside its valid range; on an in-range array the result has the same length and its i-th entry equals what the same data returns for the i-th element alone (for units converted identically for scalars and arrays).", "quantifier": "all spectral data, all arrays of any length", "why_tests_cant": "all lengths", "anchors": [{"file": "src/dispersion/spectral_data.py", "symbols": ["Model.preprocess", "Constant.evaluate", "Interpolation.evaluate"]}]}
{"id": "C21", "title": "Extrapolation does not alter the base range and covers exactly the requested one", "statement": "An extrapolated data set returns the base data for any spectrum inside the base range; its valid range is the base range extended to the (at most two) requested values; a requested value inside the base range raises ValueError; spectra outside the extended range raise. Deviations: of two values on the same side the nearer one must come first, otherwise ValueError; data in centimetres cannot be evaluated in the extension (KeyError).", "quantifier": "all base data, extension requests and spectra", "why_tests_cant": "all reals, all base data", "anchors": [{"file": "src/dispersion/spectral_data.py", "symbols": ["Extrapolation.__init__", "Extrapolation.get_extrap_spectrum", "Extrapolation.validate_extrap_val", "Extrapolation.evaluate"]}]}
{"id": "C22", "title": "Extending a range does not modify the caller's Spectrum", "statement": "extrapolate() leaves the physical content of the Spectrum passed in unchanged. The code does convert it in place to the unit of the data (type, unit and values change; standard representation does not); evaluating outside the base range does the same to the spectrum being evaluated.", "quantifier": "all spectra and data", "why_tests_cant": "aliasing effect visible only through the caller's object", "anchors": [{"file": "src/dispersion/spectral_data.py", "symbols": ["Extrapolation.get_extrap_spectrum", "Extrapolation.evaluate"]}]}
{"id": "C23", "title": "Table repair yields the strictly increasing greedy subsequence", "statement": "fix_table returns a subsequence of the rows that starts with the first row and is strictly increasing in the first column; every dropped row does not exceed some earlier kept row; tables that already validate are returned unchanged; the operation is idempotent; a descending table is reduced to its first row.", "quantifier": "all tables of any size, including NaN/inf entries", "why_tests_cant": "all tables", "anchors": [{"file": "src/dispersion/io.py", "symbols": ["validate_table", "fix_table", "_str_table_to_numeric"]}]}
{"id": "C24", "title": "Text tables parse to the numbers they display", "statement": "Parsing the string form of a table (rows separated by newlines, columns by white space) returns exactly the displayed numbers row by row; parsing stops at the first blank line, so any rows after a blank line are silently ignored; a non-numeric token or rows of different length raise ValueError, a text without rows IndexError. A number text is accepted exactly when it is an optionally signed decimal with optional fraction and exponent (underscores between digits allowed), inf/infinity or nan in any case.", "quantifier": "all tables and all strings", "why_tests_cant": "all strings", "anchors": [{"file": "src/dispersion/io.py", "symbols": ["_str_table_to_numeric", "_numeric_to_string_table"]}]}
{"id": "C25", "title": "Exactly one data source must be given", "statement": "Material(**kwargs) raises ValueError unless exactly one of the ten mutually exclusive sources is given with a value other than None; each source is type checked (TypeError on mismatch); all other keyword arguments are ignored (except that an undocumented, misspelt interp_oder must be an integer).", "quantifier": "all keyword dictionaries", "why_tests_cant": "exponentially many combinations", "anchors": [{"file": "src/dispersion/material.py", "symbols": ["Material._parse_args", "Material._check_type"]}]}
{"id": "C26", "title": "Documented sources construct a usable material", "statement": "Every documented source with a well-formed argument constructs a material whose data name is nk or eps. The code violates this for tabulated_n_alpha, which always raises AttributeError, whatever the table.", "quantifier": "all well-formed arguments", "why_tests_cant": "one source has a copy-paste defect no test touches", "anchors": [{"file": "src/dispersion/material.py", "symbols": ["Material._parse_args", "_check_table_shape"]}]}
{"id": "C27", "title": "Fixed values are returned at every wavelength", "statement": "Material(fixed_n=n).get_nk_data = n + 0i, fixed_nk = given value, fixed_eps.get_permittivity = given value (fixed_eps_r with 0 imaginary part), for every spectrum of non-negative wavelengths.", "quantifier": "all values and spectra", "why_tests_cant": "all reals", "anchors": [{"file": "src/dispersion/material.py", "symbols": ["Material._process_fixed_value", "Material._complete_partial_data", "Material.get_nk_data", "Material.get_permittivity"]}]}
{"id": "C28", "title": "Permittivity is the square of the refractive index", "statement": "For every material and spectrum with finite data, get_permittivity equals the element-wise square of get_nk_data and both raise in the same cases, and get_nk_data of permittivity-defined materials is the principal root (real part >= 0). It fails for spectra previously converted in place to a rounded unit, because only get_nk_data re-reads the rounded values.", "quantifier": "all materials, all spectra", "why_tests_cant": "complex identity for all data", "anchors": [{"file": "src/dispersion/material.py", "symbols": ["Material.get_nk_data", "Material.get_permittivity"]}]}
{"id": "C29", "title": "Maximum valid range is the intersection of both parts", "statement": "For materials with separate real and imaginary data the reported range is the intersection (in wavelength) of both valid ranges converted to the default type/unit, and a wavelength is inside both ranges iff it is inside the intersection; for energy/frequency defaults the two bounds come back in descending order. For materials with complex data the code reports a wrong range, because it interprets the range values as metres.", "quantifier": "all pairs of ranges", "why_tests_cant": "all reals and units", "anchors": [{"file": "src/dispersion/material.py", "symbols": ["Material.get_maximum_valid_range"]}]}
{"id": "C30", "title": "Sample spectra lie inside the valid range", "statement": "get_sample_spectrum returns 1000 points inside the maximum valid range whenever that range is finite and positive. With a zero or infinite bound it returns 100-2000 nm, which can lie outside the range; for fixed values with an energy, frequency or wavenumber default it raises ValueError.", "quantifier": "all ranges", "why_tests_cant": "all reals", "anchors": [{"file": "src/dispersion/material.py", "symbols": ["Material.get_sample_spectrum"]}, {"file": "src/dispersion/spectral_data.py", "symbols": ["SpectralData.suggest_spectrum"]}]}
{"id": "C31", "title": "Removing absorption zeroes the imaginary permittivity part only for separated data", "statement": "After remove_absorption, get_nk_data (nk data) or get_permittivity (eps data) has zero imaginary part and unchanged real part wherever it evaluates, for separately defined parts; complex data is unaffected.", "quantifier": "all materials and spectra", "why_tests_cant": "all materials", "anchors": [{"file": "src/dispersion/material.py", "symbols": ["Material.remove_absorption"]}]}
{"id": "C32", "title": "Extending a material is all-or-nothing", "statement": "extrapolate either extends every non-constant part or leaves the material unchanged. The code violates this: if the imaginary part already covers the requested value, ValueError is raised after the real part was replaced. Complex data raises NotImplementedError and changes nothing; constant parts are never replaced.", "quantifier": "all materials, all requests", "why_tests_cant": "failure in the middle of a multi-step update", "anchors": [{"file": "src/dispersion/material.py", "symbols": ["Material.extrapolate"]}]}
{"id": "C33", "title": "Material equality", "statement": "Comparison with a non-material is False; comparison is reflexive and depends only on the metadata and data name. The code violates symmetry: comparing a directly built material with a file-loaded one raises KeyError when the leading metadata agree, while the reverse comparison answers.", "quantifier": "all pairs of materials", "why_tests_cant": "relational property over all pairs", "anchors": [{"file": "src/dispersion/material.py", "symbols": ["Material.__eq__", "Material._process_file_data"]}]}
{"id": "C34", "title": "Absorption-coefficient tables convert to k = alpha*lambda/(4 pi)", "statement": "A tabulated n_alpha data set yields k = alpha*lambda_cm/(4*pi) at its rows. The code violates this: the wavelength is rounded to 1e-5 cm (100 nm) first, so at 550 nm k is 9% too large, and below 50 nm it is 0.", "quantifier": "all tables", "why_tests_cant": "all reals", "anchors": [{"file": "src/dispersion/material.py", "symbols": ["Material._process_table"]}, {"file": "src/dispersion/spectrum.py", "symbols": ["to_wavelength"]}]}
{"id": "C35", "title": "Interpolation order option", "statement": "The interp_order keyword selects the interpolation order of tabulated data. The code violates this: for every table the material built with any interp_order is identical to the one built with order 1.", "quantifier": "all tables and orders", "why_tests_cant": "universal statement about an ignored option", "anchors": [{"file": "src/dispersion/material.py", "symbols": ["Material.__init__", "Material._spec_data_from_table"]}]}
{"id": "C36", "title": "Formula data sets from files select the documented model", "statement": "A data set 'formula i' (1<=i<=9) builds the i-th documented model and 'model X' the named one with the coefficients, range, type and unit of the file, or the defaults where the file gives none; other formula numbers raise KeyError; a missing range raises UnboundLocalError. The exported Fano model cannot be used in a material: ValueError.", "quantifier": "all data sets", "why_tests_cant": "all dictionaries", "anchors": [{"file": "src/dispersion/material.py", "symbols": ["Material._process_formula_data", "Material._process_model_dict", "Material._str_to_class"]}]}
{"id": "C37", "title": "Text header metadata survives write and read", "statement": "Reference, author, full name, name, comment, spectrum type, unit and data type written to a .txt/.csv file are read back unchanged for all values without line breaks and leading white space, including values with colons.", "quantifier": "all metadata strings meeting the condition", "why_tests_cant": "all strings", "anchors": [{"file": "src/dispersion/io.py", "symbols": ["Writer._write_text_file", "Reader._read_text_file", "Reader._read_text_comment"]}]}
{"id": "C38", "title": "Header parsing does not depend on set iteration order", "statement": "The metadata read from a text or yaml file is the same for every iteration order of the keyword sets (Python randomises it per process), because no keyword is a prefix of another.", "quantifier": "all permutations of the keyword sets, all header lines", "why_tests_cant": "hash randomisation makes the order unpredictable", "anchors": [{"file": "src/dispersion/io.py", "symbols": ["Reader._read_text_file", "Reader._process_mat_dict", "FILE_META_DATA_KEYS", "DATASET_META_DATA_KEYS"]}]}
{"id": "C39", "title": "Meta comments survive a text file cycle", "statement": "Writing and reading a .txt/.csv file preserves the meta comment. The code violates this: the comment loses its trailing line ends and gains a line end and a line consisting of one blank; every further cycle appends one more such line, so no comment survives unchanged.", "quantifier": "all comments, any number of cycles", "why_tests_cant": "unbounded history", "anchors": [{"file": "src/dispersion/io.py", "symbols": ["Writer.write_file", "prepend_text_to_file", "Reader._read_text_file"]}]}
{"id": "C40", "title": "Meta comments survive a yaml file cycle", "statement": "Writing and reading a .yml file preserves the meta comment. The code violates this: each cycle deletes trailing line ends and one more character, so that after n cycles at least n characters are gone; no comment but the empty one survives.", "quantifier": "all comments, any number of cycles", "why_tests_cant": "unbounded history", "anchors": [{"file": "src/dispersion/io.py", "symbols": ["Reader._read_yaml_mat_file", "prepend_text_to_file", "Writer.write_file"]}]}
{"id": "C41", "title": "Tabulated data survives a text file cycle up to 8 decimals", "statement": "Saving two tables (2 to 333 rows) that share grid, unit and type to .txt/.csv and reading them back gives every entry displayed by numpy (8 significant decimals, twice) and rounded to 8 decimals, so entries change by less than 2e-8 (relative above 1) and not at all if they have at most 8 decimals and are displayed exactly; unit and spectrum type survive. Tables that are not merged lose k: it comes back as 0. A grid in metres finer than 10 nm collapses so that the saved file cannot be loaded. A file with a single data row is read but no Material can be made from it (IndexError).", "quantifier": "all tables", "why_tests_cant": "all tables", "anchors": [{"file": "src/dispersion/io.py", "symbols": ["Writer._write_text_file", "Reader._read_text_data"]}, {"file": "src/dispersion/material.py", "symbols": ["Material.collapse_datasets", "Material._process_file_data"]}]}
{"id": "C42", "title": "n and k tables are merged only when they share grid, unit and type", "statement": "Two n and k tables of equal length are written as a single merged nk table exactly when their displayed grids, their units and their types are equal (merging keeps all three columns); otherwise, and when k is not a table, both data sets are written unmerged and in order; tables of different length are never merged.", "quantifier": "all pairs of tables", "why_tests_cant": "all tables", "anchors": [{"file": "src/dispersion/material.py", "symbols": ["Material.collapse_datasets", "Material.dataset_to_dict"]}]}
{"id": "C43", "title": "A yaml file cycle preserves metadata and data sets", "statement": "Writing a .yml file and reading it back returns the metadata fields and the data sets in order, for tables and formulas of n/k type; each number is within the accuracy of numpy's display (8 decimals) and unit and type are kept (a loaded material of two parts reports its range in the type and unit of the imaginary part, or of the real part if the imaginary part is constant); of the specification only the eight known keys survive. The code violates this in several ways: constant parts come back as 0, or make the file unreadable (KeyError) when written with ignore_constant=False; eps tables are written with identifiers that the reader ignores, so the loaded material is 0; with use_rii_aliases type and unit are lost, so tables come back over nanometres and formulas cannot be loaded; a metadata key of the user that is not upper case makes the file unreadable, and every metadata key of the user is written with the value of the key before it. With use_rii_aliases the data sets have the keys type, wavelength_range, data and coefficients and no others.", "quantifier": "all metadata and data sets", "why_tests_cant": "all dictionaries", "anchors": [{"file": "src/dispersion/io.py", "symbols": ["Writer._write_yaml_file", "Reader._process_mat_dict", "Reader._process_mat_data_dict"]}, {"file": "src/dispersion/material.py", "symbols": ["Material.add_dtype_suffix", "Material._process_table"]}]}
{"id": "C44", "title": "Writing fails cleanly for unsupported materials", "statement": "A save that raises changes no file, except that a meta comment that is no text is noticed after the file has been written and emptied again. Writing a .nk file always raises; so does writing a material with complex data, an extrapolated one, an effective medium, a constant or model as real part to a text file, and any unsupported extension (ValueError); writing a yaml file for a material whose two parts are both constant raises IndexError; a Writer can be used only once (second write_file raises KeyError).", "quantifier": "all materials", "why_tests_cant": "all materials", "anchors": [{"file": "src/dispersion/io.py", "symbols": ["Writer.write_file", "Writer._write_text_file", "Writer._write_yaml_file"]}, {"file": "src/dispersion/material.py", "symbols": ["Material.dataset_to_dict"]}]}
{"id": "C45", "title": "Reading is a function of the file content", "statement": "Calling read_file returns data determined by the file alone. It holds for fresh Readers. The code violates it when a Reader is reused: exceptions and data sets are the same, but metadata missing in the current content keeps the value of an earlier read.", "quantifier": "all sequences of file contents", "why_tests_cant": "unbounded history of reads", "anchors": [{"file": "src/dispersion/io.py", "symbols": ["Reader._read_text_file", "Reader.__init__"]}]}
{"id": "C46", "title": "A crash while saving leaves either the old or the new file", "statement": "At every crash point of a save the file holds the complete old or the complete new content, and other files are untouched. The second part holds. The code violates the first for every save: there is a crash point with an empty file, and with a comment the data that had been written is removed again; at any time the file holds the old content or a beginning of the data or of the final text.", "quantifier": "all contents and all crash points", "why_tests_cant": "crash points cannot be scheduled in a unit test", "anchors": [{"file": "src/dispersion/io.py", "symbols": ["prepend_text_to_file", "write_yaml_file"]}, {"file": "src/dispersion/catalogue.py", "symbols": ["Catalogue.save_to_file"]}, {"file": "src/dispersion/config.py", "symbols": ["write_config"]}]}
{"id": "C47", "title": "Missing and malformed yaml keys", "statement": "A top-level yaml key whose upper-case form is not itself a key makes the read raise (KeyError, unless the data sets are unreadable too); unknown upper-case keys are ignored, except that a key that merely starts with a keyword (NAMESPACE) sets the corresponding metadata field.", "quantifier": "all yaml mappings", "why_tests_cant": "all strings", "anchors": [{"file": "src/dispersion/io.py", "symbols": ["Reader._process_mat_dict"]}]}
{"id": "C48", "title": "Filling fraction is checked and linear mixing interpolates the permittivities", "statement": "Effective media raise ValueError for every fraction below 0 or above 1 (infinities included), leaving the spectrum alone. The Simple medium returns (1-f) e1 + f e2 at every sample; at f=0 and f=1 it returns the constituents. A NaN fraction is not refused: Simple and Maxwell-Garnett then answer NaN everywhere, Bruggeman answers 0.", "quantifier": "all fractions, permittivities, spectra of any length", "why_tests_cant": "all reals", "anchors": [{"file": "src/dispersion/material.py", "symbols": ["EffectiveMedium.__init__", "Simple.create_effective_data"]}]}
{"id": "C49", "title": "Maxwell-Garnett mixing satisfies its mixing rule", "statement": "Off the pole the result is the only e with (e-e1)(e2+2 e1) = f (e2-e1)(e+2 e1); it equals e1 at f=0 and e2 at f=1, lies between e1 and e2 for positive real permittivities and is passive for passive constituents. The announced singularity error is raised only if the denominator vanishes exactly at every sample: near-singular inputs are not rejected, and one sample at the pole among others is not announced either, the material answers NaN next to that sample.", "quantifier": "all complex permittivities and fractions", "why_tests_cant": "complex identity", "anchors": [{"file": "src/dispersion/material.py", "symbols": ["MaxwellGarnett.create_effective_data"]}]}
{"id": "C50", "title": "Bruggeman mixing satisfies its mixing rule with a passive root", "statement": "The rule (1-f)(e1-e)(e2+2e) + f(e2-e)(e1+2e) = 0 has two solutions; the mixture is the one with the larger real part if its imaginary part is >= 0, else the other if its imaginary part is >= 0, else 0. For positive real permittivities it is positive and between them; for passive constituents it is a passive solution (the only one if both absorb); at f=0 and f=1 it is the pure constituent if the other absorbs. The code violates the physics in two cases: a lossless metal of which nothing is mixed in (f=0) gives -e2/2 instead of the host, and with gain the value can be 0, which solves nothing. A scalar spectrum is refused (AttributeError) if the first material yields a Python number.", "quantifier": "all complex permittivities and fractions", "why_tests_cant": "complex quadratic for all inputs", "anchors": [{"file": "src/dispersion/material.py", "symbols": ["Bruggeman.create_effective_data", "Bruggeman._get_bruggeman_solution1", "Bruggeman._get_bruggeman_solution2"]}]}
{"id": "C51", "title": "Effective media tabulate the mixed permittivity at the requested wavelengths", "statement": "The effective material evaluates at each sample wavelength to the mixed permittivity computed for that sample, whatever the type/unit/order of the sample spectrum and of the later request; between two neighbouring samples it is linear in the wavelength, and outside the samples it raises ValueError. The caller's spectrum still stands for the same wavelengths and is left converted to metres. Repeated wavelengths are refused (ValueError), errors of the constituents are passed on. The material has no metadata, so comparing it raises AttributeError.", "quantifier": "all spectra with distinct samples, all constituents", "why_tests_cant": "all spectra", "anchors": [{"file": "src/dispersion/material.py", "symbols": ["EffectiveMedium.__init__", "Simple.create_effective_data", "Material._process_table"]}]}
{"id": "C52", "title": "Aliases stay unique", "statement": "Starting from a catalogue whose non-empty aliases are pairwise distinct, any sequence of register_alias calls with row numbers (successful or raising) keeps them distinct; a failed call changes nothing; a successful call for an existing row changes only the alias of that row and happens exactly when no other row has the alias (else ValueError). Deviations: a row number that does not exist is accepted and adds a row holding only the alias; a selection of several rows gives all of them the same alias (it is refused, changing nothing, when the alias is in use anywhere or a row does not exist); an alias cannot be removed while another row has none.", "quantifier": "all catalogues and call sequences", "why_tests_cant": "unbounded histories", "anchors": [{"file": "src/dispersion/catalogue.py", "symbols": ["Catalogue.register_alias"]}]}
{"id": "C53", "title": "get_material finds the row carrying the alias", "statement": "With the default row numbering, get_material(alias) loads the file of the first row with that alias, with the type and unit of the row as defaults, and raises ValueError if there is none; get_material(i) loads row i (negative from the end), IndexError outside. Registering aliases keeps the default numbering. With any other index (e.g. a sorted or filtered frame set through set_database) the label of the row is used as a position and the code may load a different row. A row added by a wrong row number cannot be loaded (AttributeError).", "quantifier": "all catalogues, aliases and indices", "why_tests_cant": "all catalogues", "anchors": [{"file": "src/dispersion/catalogue.py", "symbols": ["Catalogue.get_material", "Catalogue.set_database"]}]}
{"id": "C54", "title": "Rebuilding one module leaves the other modules' rows alone", "statement": "Rebuilding a selection keeps, for each enabled module not selected, exactly its old rows in order (with aliases), replaces the rows of the selected modules by freshly read ones (aliases reset), drops rows of all other modules, orders the modules as the configuration does, and numbers rows consecutively; naming a single disabled module raises ValueError; any other error is an error of a selected module or the missing qgrid. Without rebuilding the stored catalogue is used as it is. The documented argument rebuild=None raises TypeError.", "quantifier": "all catalogues, configurations and selections", "why_tests_cant": "all catalogues", "anchors": [{"file": "src/dispersion/catalogue.py", "symbols": ["Catalogue.build_catalogue"]}]}
{"id": "C55", "title": "The refractiveindex.info walk lists every readable page once", "statement": "The catalogue has exactly one row per page entry whose file opens, in document order, carrying the name of the enclosing book, author, metadata, bounds and reference index of the file; pages that cannot be opened are skipped; dividers contribute nothing; any other error aborts the build, as do a missing data folder (ValueError) and an unreadable library file.", "quantifier": "all library trees", "why_tests_cant": "all trees of any depth and width", "anchors": [{"file": "src/dispersion/catalogue.py", "symbols": ["Catalogue._iterate_shelves", "Catalogue._iterate_books", "Catalogue._iterate_pages"]}]}
{"id": "C56", "title": "User data folders list every supported file", "statement": "One row per regular file with extension .txt, .csv or .yml in listing order; others (including .nk and capitals) are ignored; a file that fails to load aborts the build, as does a folder that cannot be listed.", "quantifier": "all directory listings", "why_tests_cant": "all listings", "anchors": [{"file": "src/dispersion/catalogue.py", "symbols": ["Catalogue._read_text_db"]}]}
{"id": "C57", "title": "Reference columns are NaN exactly when the reference wavelength is not covered", "statement": "N_Reference and K_Reference are the real and imaginary index at the reference spectrum when it evaluates (for a table: interpolated between neighbouring rows) and NaN when evaluation raises ValueError, as it does for a table that does not cover the reference; other errors abort the build. So a user file in centimetres that does not cover the reference prevents building the catalogue (KeyError).", "quantifier": "all materials and reference spectra", "why_tests_cant": "all materials", "anchors": [{"file": "src/dispersion/catalogue.py", "symbols": ["Catalogue._iterate_pages", "Catalogue._read_text_db"]}]}
{"id": "C58", "title": "Catalogue bounds are stated in the unit of the row", "statement": "SpectrumLowerBound/UpperBound are the bounds the material itself reports: for a table the smallest and largest wavelength, in the unit of the table. This is the unit of the row if the file declares none. The code violates it for files declaring another unit: the row says nanometer while the bounds are in the file's unit.", "quantifier": "all user files", "why_tests_cant": "all units", "anchors": [{"file": "src/dispersion/catalogue.py", "symbols": ["Catalogue._read_text_db"]}, {"file": "src/dispersion/material.py", "symbols": ["Material.get_maximum_valid_range"]}]}
{"id": "C59", "title": "Configuration lookup", "statement": "read_config uses the user's file if there is one, else the file of the package; looking for it changes no file and creates at most the user's directory; what write_config stores there is what is read afterwards. get_config is documented to fall back to defaults when no file is found; the code violates this: with no config file anywhere it raises ValueError (only importing the package falls back), and if the user's .config directory is missing get_config, default_config and even importing the package raise FileNotFoundError.", "quantifier": "all file system states", "why_tests_cant": "all states", "anchors": [{"file": "src/dispersion/config.py", "symbols": ["get_config", "read_config", "_get_config_dir", "_get_user_config_dir"]}]}
{"id": "C60", "title": "Configuration validation accepts exactly well-typed configurations", "statement": "validate_config succeeds exactly when all required entries are present with the right types, the path is a directory and the file name can be created; the first defect decides the error; further entries are ignored; the default configuration is valid. An integer reference value is rejected. In an otherwise valid configuration, modules that are no mapping (an empty section) raise AttributeError, a reference spectrum that is no mapping TypeError, and one without value KeyError.", "quantifier": "all configuration dictionaries", "why_tests_cant": "all dictionaries", "anchors": [{"file": "src/dispersion/config.py", "symbols": ["validate_config", "check_type"]}, {"file": "src/dispersion/io.py", "symbols": ["valid_file_name"]}]}
{"id": "C61", "title": "Interactive questions", "statement": "ask returns the first answer (or the default for an empty answer) accepted by the validator, never an unaccepted one, and reads no further line; get_confirmation returns True exactly when the first recognised answer is y/yes, False exactly when it is n/no, for any number of unrecognised answers before it; the loops of the setup script end with the first accepted and confirmed value. Without such an answer the end of the input raises EOFError.", "quantifier": "all input streams and validators", "why_tests_cant": "unbounded input streams", "anchors": [{"file": "src/dispersion/scripts/setup_dispersion.py", "symbols": ["ask", "get_confirmation", "ask_and_confirm"]}]}
{"id": "C62", "title": "Module installation only enables modules that are present", "statement": "After install_modules, UserData is enabled (with its two example files), RefractiveIndexInfo is enabled exactly when it was confirmed and then either downloaded or found to be present, other entries and the set and order of module names are unchanged, and nothing disappears from the disk. Deviations: any other module cannot be enabled (KeyError after its folder was created); a root folder that does not exist is not created (FileNotFoundError).", "quantifier": "all configurations and answers", "why_tests_cant": "all answer sequences", "anchors": [{"file": "src/dispersion/scripts/setup_dispersion.py", "symbols": ["install_modules", "install_rii"]}]}
{"id": "C63", "title": "A table answers at its own end points", "statement": "Asking a table for one of its own spectral values, in its own unit, returns the row's value when the value has no more decimals than the unit keeps. Deviation: when the smallest value is rounded down by the unit's rounding the request is refused with ValueError.", "quantifier": "all tables, all units that are rounded", "why_tests_cant": "depends on the decimal expansion of arbitrary reals", "anchors": [{"file": "src/dispersion/spectral_data.py", "symbols": ["Interpolation.evaluate", "Spectrum.contains"]}]}
{"id": "C64", "title": "Unit letter case", "statement": "The unit of spectral data may be spelled in any letter case. The constructors accept it, but tables and models built with a unit containing capital letters raise ValueError on every evaluation, even inside their range.", "quantifier": "all tables and models, all spellings", "why_tests_cant": "all strings, all data, all spectra", "anchors": [{"file": "src/dispersion/spectral_data.py", "symbols": ["Interpolation.evaluate", "Model.preprocess", "Spectrum.convert_to"]}]}
{"id": "C65", "title": "Tauc-Lorentz for strongly damped oscillators", "statement": "For C^2 > 2 E0^2 every value of a Tauc-Lorentz model is NaN, although the published formula is defined for all C < 2 E0.", "quantifier": "all parameters and energy arrays", "why_tests_cant": "all reals", "anchors": [{"file": "src/dispersion/spectral_data.py", "symbols": ["TaucLorentz._calc_eps_real", "TaucLorentz.evaluate"]}]}
{"id": "C66", "title": "Fano profile", "statement": "A Fano model can be built in any documented unit and returns the line shape normalised to its maximum, always between 0 and 1.", "quantifier": "all parameters, units and values", "why_tests_cant": "all reals", "anchors": [{"file": "src/dispersion/spectral_data.py", "symbols": ["Fano.evaluate"]}]}
{"id": "C67", "title": "Non-monotonic tables are repaired when read", "statement": "Reading a table drops the rows that break strict monotonicity of the grid (fix_table). The code violates this: the numpy boolean of the check is compared by identity with False, which never holds, so every two-dimensional table, increasing or not, is returned with all its rows.", "quantifier": "all tables", "why_tests_cant": "universal statement about a branch that is never taken", "anchors": [{"file": "src/dispersion/io.py", "symbols": ["_str_table_to_numeric", "validate_table", "fix_table"]}]}
{"id": "C68", "title": "Results have the shape of the request", "statement": "get_nk_data and get_permittivity return one value for a single spectral value and an array of n values for an array of n spectral values, also after in-place conversions of the spectrum object.", "quantifier": "all materials, all spectra", "why_tests_cant": "Shape bugs depend on broadcasting between the two parts, on extrapolation and on constant data; tests cover a few combinations.", "anchors": [{"file": "src/dispersion/material.py", "symbols": ["Material.get_nk_data", "Material.get_permittivity"]}]}
{"id": "C69", "title": "Large tables are saved completely or not at all", "statement": "Saving a table writes every row or raises. It holds for n/k materials with a table of more than 500 rows (ValueError, nothing written) and for two merged tables of 334 to 500 rows in a text file (ValueError, nothing written). The code violates it otherwise: the data set the Writer holds for two merged tables of 334 to 500 rows, or for an eps table of more than 500 rows, is an abbreviated text that is no table, and a yaml file is written from it without an error; for merged tables loading that file raises ValueError.", "quantifier": "all tables of finite floats, infinities and NaN, all displays within 5e-9", "why_tests_cant": "the limit depends on numpy's summarisation threshold, tests use small tables", "anchors": [{"file": "src/dispersion/io.py", "symbols": ["_numeric_to_string_table", "Writer"]}]}
{"id": "C70", "title": "A listed row can be loaded and shows the material that is loaded", "statement": "For every row of a module that has just been rebuilt (user folder or refractiveindex.info), get_material with the row's number loads exactly the material whose metadata, bounds and reference index the row shows, from the same file with the same default type and unit, provided file names are plain (no slashes, backslashes or dots-only components).", "quantifier": "all configurations, folders, libraries, rows", "why_tests_cant": "all folders and libraries", "anchors": [{"file": "src/dispersion/catalogue.py", "symbols": ["Catalogue.build_catalogue", "Catalogue.get_material"]}]}
{"id": "C71", "title": "Testing a file name has no side effects", "statement": "valid_file_name is True exactly when a file of that plain name can be created, and leaves the disk as it was; no existing file is ever changed. The code violates it for absolute names (and names with ..): the file is really created, empty, and stays; and a name with a NUL character raises ValueError instead of returning False.", "quantifier": "all names, all file systems", "why_tests_cant": "all names and disk states", "anchors": [{"file": "src/dispersion/io.py", "symbols": ["valid_file_name"]}]}
{"id": "C72", "title": "Setup stores what the user confirmed", "statement": "When the setup script ends without an error, the user's configuration file holds the confirmed (absolute) path and the confirmed file name, the module flags and the documented defaults, and this is what get_config returns from then on. Deviations: naming the catalogue config.yaml in the default folder overwrites the configuration with the catalogue; a confirmed path that does not exist ends the script with FileNotFoundError and nothing is stored.", "quantifier": "all answers, all file systems", "why_tests_cant": "all answer sequences", "anchors": [{"file": "src/dispersion/scripts/setup_dispersion.py", "symbols": ["main", "get_root_dir", "get_catalogue_name", "maybe_rebuild_catalogue"]}]}
{"id": "C73", "title": "Rebuilding from the command line", "statement": "dispersion_catalogue_rebuild rebuilds exactly when the first of the answers y and n is y (other lines, also yes, are asked again); after n nothing changes; after y only the catalogue file of the current configuration is replaced, and if the build fails no file changes.", "quantifier": "all answers, configurations, file systems", "why_tests_cant": "all answer sequences", "anchors": [{"file": "src/dispersion/catalogue.py", "symbols": ["rebuild_catalogue"]}]}
{"id": "C74", "title": "In double precision, converting to the own unit returns the same number", "statement": "In IEEE double arithmetic, convert_to(own type, own unit) returns the very float the spectrum was made with if it was written with at most the decimals convert_to keeps and is at most 900 nm, 0.9 m (um), 90000 km (cm), 90 angstrom or 700 keV; arrays of wavelengths element by element; metres always. Beyond that the code violates it: 2049.3 nm and 300.6 angstrom come back as a larger float, 27 THz larger, 1 THz smaller.", "quantifier": "all decimals up to the bounds, all floats", "why_tests_cant": "about 10^15 decimals per unit; each float rounds differently", "anchors": [{"file": "src/dispersion/spectrum.py", "symbols": ["Spectrum.convert_to", "Spectrum.standardise_values", "to_wavelength", "to_energy"]}]}
{"id": "C75", "title": "In double precision, a range accepts exactly the numbers between its end points", "statement": "For a range and a request written as decimals in the same unit (bounds of C74), contains is True exactly when the request is between the smallest and the largest value of the range, end points included, and otherwise raises ValueError (KeyError for cm, see C05). Beyond these bounds the code violates it: a range that ends at 2049.3 nm, 300.6 angstrom or 27 THz refuses exactly this value.", "quantifier": "all ranges and requests of such decimals", "why_tests_cant": "the end points of a range are hit by rounding of all combinations", "anchors": [{"file": "src/dispersion/spectrum.py", "symbols": ["Spectrum.contains"]}]}
{"id": "C76", "title": "In double precision, conversions are accurate", "statement": "For every finite float between 1e-40 and 1e40 the stored standard value is within 7 relative roundings (2^-53) of the vacuum wavelength, and a converted value is finite and within 15 roundings plus 0.501 of the last kept decimal of the exact value; so the results in exact arithmetic (C01-C11) hold for floats up to 16 roundings and 1.01 kept decimals. As in C03, wavenumbers come out 10^4 times too large. Arrays are converted element by element exactly as single values, except that elements below 1e-8 count as zero: in an array, wavelengths under 1 micrometre become infinite wavenumbers and those under 10 nanometres infinite frequencies and energies.", "quantifier": "all finite floats in the range, all pairs of types and units", "why_tests_cant": "2^64 floats", "anchors": [{"file": "src/dispersion/spectrum.py", "symbols": ["Spectrum.convert_to", "Spectrum.standardise_values"]}]}
{"id": "C77", "title": "In double precision, conversions never swap two numbers", "statement": "Converting two floats from any unit to any unit keeps their order (reverses it if exactly one of the types is reciprocal); only ties can appear. Hence a range, whatever its values, type and unit, that accepts two numbers accepts every number between them.", "quantifier": "all pairs and triples of floats in 1e-40..1e40, all ranges (also with NaN or infinite values)", "why_tests_cant": "all pairs of floats", "anchors": [{"file": "src/dispersion/spectrum.py", "symbols": ["Spectrum.convert_to", "Spectrum.contains"]}]}
{"id": "C78", "title": "A saved catalogue is opened again unchanged", "statement": "The file is a csv file (RFC 4180) with the line of the fourteen column names and one record per row with the entries of that row. Opening the catalogue that save_to_file wrote (rebuild='None') gives the same rows in the same order: every text as it was, whatever commas, quotes, blanks and line breaks it contains (missing texts become empty, other objects their text), bounds and reference values as the csv library reads the numbers it wrote, missing reference values stay missing; rows are numbered from 0. The code violates it for rows without bounds, which one register_alias call with a wrong row number creates: then the file is written but no catalogue can be opened (ValueError) until everything is rebuilt; likewise for a carriage return in a comment with Python releases whose csv writer does not quote it, and for an empty file.", "quantifier": "all configurations, all catalogues with any texts and labels", "why_tests_cant": "all texts: separators, quotes and line breaks in any combination", "anchors": [{"file": "src/dispersion/catalogue.py", "symbols": ["Catalogue.save_to_file", "Catalogue.__init__"]}]}
{"id": "C79", "title": "Aliases survive saving and opening", "statement": "After saving and opening again, get_material(alias) loads the file of the first row that carried the alias with that row's default type and unit, get_material(number) loads the same row as before, an alias nobody had is still unknown (ValueError); in particular an alias registered in one session is there in the next, with the aliases of all other rows.", "quantifier": "all catalogues, aliases, row labels", "why_tests_cant": "all catalogues and histories of registrations", "anchors": [{"file": "src/dispersion/catalogue.py", "symbols": ["Catalogue.save_to_file", "Catalogue.register_alias", "Catalogue.get_material"]}]}
{"id": "C80", "title": "Rebuilding one module of a saved catalogue keeps the aliases of the others", "statement": "Opening a saved catalogue with a rebuild of some modules keeps, for every enabled module that is not selected, its saved rows in order, with all entries and aliases as in C78.", "quantifier": "all catalogues, configurations and rebuild arguments", "why_tests_cant": "all combinations of modules, rows and texts", "anchors": [{"file": "src/dispersion/catalogue.py", "symbols": ["Catalogue.save_to_file", "Catalogue.build_catalogue"]}]}
{"id": "C81", "title": "Refractive index plots show get_nk_data", "statement": "plot_nk_data with given values draws, at exactly these values, the real parts (solid, labelled n) and imaginary parts (dashed, labelled k) of get_nk_data; a single value is drawn as two horizontal lines; the axis names the requested (or default) type and unit. Whenever get_nk_data succeeds on an array the plot is drawn; when it fails nothing is drawn and the same error is raised. Without values the plot is that of the sample spectrum converted to the requested type and unit. The code violates it for a single float (AttributeError) and for centimetres (KeyError).", "quantifier": "all materials, types, units and arrays of values", "why_tests_cant": "all materials and all requested values, types and units", "anchors": [{"file": "src/dispersion/material.py", "symbols": ["Material.plot_nk_data", "Material._plot_data", "Material._prepare_plot_data"]}]}
{"id": "C82", "title": "Permittivity plots show get_permittivity on a truthful axis", "statement": "plot_permittivity draws the real and imaginary parts of get_permittivity at the given values; positions and axis label belong together: the label names the type and unit in which the positions are the given spectral values. If no part of the data was extrapolated, the positions are the given values and the axis has the requested type and unit. The code violates the last point for extrapolated data: where the values leave the range of the table, the axis shows type and unit of the table instead of those requested.", "quantifier": "all materials, extrapolated or not, types, units and arrays of values", "why_tests_cant": "the axis depends on the data evaluated before it is drawn", "anchors": [{"file": "src/dispersion/material.py", "symbols": ["Material.plot_permittivity", "Material._plot_data", "Material._prepare_plot_data"]}]}
{"id": "C83", "title": "A table can be plotted over its whole range", "statement": "A material given by a table with two or more rows is plotted by plot_nk_data() without arguments: 1000 positions within the table, in its type and unit, if geomspace is exact at its ends, the ends of the table have no more decimals than the conversions keep and its magnitudes are resolved. The code violates the same for another type or unit: a table from 400 to 800 nm cannot be plotted against energy (ValueError), since rounding puts its ends outside; and a material whose unit is not written in lower case (eV) has no sample spectrum and cannot be plotted without values (ValueError).", "quantifier": "all tables of refractive index or permittivity, types and units except wavenumber and centimetre", "why_tests_cant": "rounding at the ends of the range decides, for every table", "anchors": [{"file": "src/dispersion/material.py", "symbols": ["Material.plot_nk_data", "Material.get_sample_spectrum", "Material.get_maximum_valid_range"]}]}
{"id": "C84", "title": "Printed references and comments are the ASCII part of the text", "statement": "print_reference and print_comment print exactly the ASCII bytes of the text in order: an ASCII text is printed unchanged, the output is always ASCII. Entries that are not texts raise TypeError, missing ones KeyError, effective media (which carry no metadata) AttributeError.", "quantifier": "all materials and texts", "why_tests_cant": "all texts and encodings of characters", "anchors": [{"file": "src/dispersion/material.py", "symbols": ["Material.print_reference", "Material.print_comment", "Material.utf8_to_ascii"]}]}
{"id": "C85", "title": "An interrupted save leaves whole rows and at most one damaged one", "statement": "If save_to_file is interrupted at any point after the line with the column names was written, opening the catalogue without rebuilding either raises ValueError or gives the completely written rows, in order and as they would have come back, followed by at most one damaged row: complete up to its lower bound, with one text cut short and the later ones empty. Aliases of rows before the last one load the files they loaded before. The code violates that an interrupted save keeps the old catalogue or is noticed: for every row there is a crash point after which the catalogue opens without an error, that row has lost its path and module, and all later rows are gone.", "quantifier": "all catalogues, all texts in them, all crash points after the header line", "why_tests_cant": "every crash point, for every catalogue and every text with separators, quotes and line breaks", "anchors": [{"file": "src/dispersion/catalogue.py", "symbols": ["Catalogue.save_to_file", "Catalogue.__init__", "Catalogue.get_material"]}]}
{"id": "C86", "title": "Interactive grids change the catalogue only through save_interactive", "statement": "Without Interactive in the configuration, view_interactive, edit_interactive and save_interactive raise ValueError and change nothing. Opening grids and working in them changes nothing in the catalogue. save_interactive makes the database what the grid opened last shows; before any grid was opened it raises AttributeError. A grid opened for viewing never alters a row, and keeps labels and aliases distinct. The code violates what a user may expect further: saving a viewed grid drops the rows a filter hides, after sorting an alias loads the file of another row, an alias registered while a grid is open is lost by saving it, and edits can give two rows the same alias.", "quantifier": "all sequences of interactive calls, user actions in the grid, registrations and assignments", "why_tests_cant": "every history of a session", "anchors": [{"file": "src/dispersion/catalogue.py", "symbols": ["Catalogue.view_interactive", "Catalogue.edit_interactive", "Catalogue.save_interactive"]}]}
{"id": "C87", "title": "Sessions compose: saved aliases accumulate", "statement": "Any number of sessions, each opening the catalogue, registering aliases with row numbers (successfully or not) and saving it, leaves exactly the catalogue that a single session with all these calls has. An alias a row carried at the beginning still loads the file of that row afterwards, unless the row itself was given another alias; non-empty aliases stay distinct, and no row is added or lost. Assumed: texts can be written, bounds are numbers and numbers survive being written and read.", "quantifier": "all catalogues, all numbers of sessions and calls in them", "why_tests_cant": "histories of unbounded length over several processes", "anchors": [{"file": "src/dispersion/catalogue.py", "symbols": ["Catalogue.__init__", "Catalogue.register_alias", "Catalogue.save_to_file", "Catalogue.get_material"]}]}
{"id": "C88", "title": "Hand-written text files load as the numbers they show", "statement": "A .txt, .csv or .nk file made of comment lines followed by rows of numbers (two or more rows, separated by white space or by commas in .csv, Unix or Windows line ends, blank lines and trailing comments allowed) loads as exactly these numbers. Each keyword of the header (NAME, UNIT, SPECTRUMTYPE, DATATYPE, ...) gives its value in any case and indentation, the last one counts, and lines without keyword become the meta comment. Without DATATYPE three columns mean n and k, two columns n. The Material has the same optical data, or the constructor raises the same exception, as if the numbers had been given as an array with that type and unit. Deviation: the documented alternative comment mark is refused: ';' is only allowed in .nk files and '#' only in the others (ValueError). A file whose name does not end in .txt, .csv, .nk or .yml raises ValueError, whatever it contains and whether it exists or not.", "quantifier": "all file texts of this form, of any size; all number spellings; all header texts; all orders of the metadata keys", "why_tests_cant": "Files written by people differ in ways no finite set of example files covers; the parser mixes two readers (numpy's for the numbers, a line loop for the header).", "anchors": [{"file": "src/dispersion/io.py", "symbols": ["Reader.read_file", "Reader._read_text_file", "Reader._read_text_data", "Reader._read_text_comment", "Material.__init__"]}]}
{"id": "C89", "title": "Yaml data files load as what they say", "statement": "Reading a .yml file whose top-level keys are in upper case returns the data sets in the order of the file. Each data set gets the text of its type (type, else DataType), its data (data or coefficients, else Data or Parameters, according to the type), and its range, spectrum type, unit and yields from the last key naming them in any case. The file's metadata are the values of the top-level keys with these prefixes, and SPECS. A data set without type, of unknown type or without data makes the whole file unreadable (KeyError). A file with one table gives the same optical data, or raises the same exception, as the numbers given to the constructor as an array with the file's type and unit (the constructor's where the file has none). A file with one formula gives the same data as constructing the model with its coefficients and range. Deviation: a key of a data set that is one of the letters t, y, p or e replaces the type of the data. DATA that is not a list, for example a single mapping whose dash was forgotten, raises TypeError.", "quantifier": "all documents and data sets of this form; all number texts; all orders of keys; all orders of the metadata keys", "why_tests_cant": "The set of keys and spellings in real yaml databases is open-ended, and the reader walks key lists whose order is not fixed.", "anchors": [{"file": "src/dispersion/io.py", "symbols": ["Reader.read_file", "Reader._read_yaml_mat_file", "Reader._process_mat_dict", "Reader._process_mat_data_dict", "Material.__init__"]}]}
{"id": "C90", "title": "Comparing types and units", "statement": "Spectrum.check_type(a, b) is true exactly if a in lower case is b, and raises ValueError if a is no spectrum type in any letter case; Spectrum.check_unit(a, b) is true exactly if a in lower case is b. Deviation: although documented to take aliases into account, check_unit is false for any two different documented spellings of the same unit.", "quantifier": "all pairs of texts", "why_tests_cant": "all strings", "anchors": [{"file": "src/dispersion/spectrum.py", "symbols": ["Spectrum.check_type", "Spectrum.check_unit"]}]}
{"id": "C91", "title": "The example files of the setup script", "statement": "The two example files that the setup script writes into the user's folder can be written in any folder, change no other file and load as materials afterwards: the text file gives the four-row table of n and k over nanometres, the yaml file the Sellmeier formula over micrometres (although the script misspells the key of the spectrum type) together with the table of k over nanometres, both with the five describing texts; both report their range as wavelengths in nanometres. Deviation: neither loads with the meta comment that was written.", "quantifier": "all folders, all file systems, all iteration orders of the keyword sets, every yaml library that restores what it emits", "why_tests_cant": "any folder and history of the disk", "anchors": [{"file": "src/dispersion/scripts/setup_dispersion.py", "symbols": ["install_userdata", "make_example_txt", "make_example_yaml"]}]}
{"id": "C92", "title": "The library does not write into arrays", "statement": "No call of the library (Spectrum, its conversions also in place, contains, the Material constructors, evaluation, saving) changes a numpy array that existed before: an array variable shows the same after any further calls as long as the user assigns to no array, whatever arrays and objects were shared before. And as long as the user assigns only to arrays that were not handed to Spectrum, tabulated_n, model parameters or a model's range and not obtained as .values or by converting to metres, a whole session shows exactly what it would show if every array were copied at every call.", "quantifier": "all sessions: every sequence of making arrays, spectra, materials, converting, evaluating, saving, looking at and assigning to arrays, of any length", "why_tests_cant": "every history of calls and every pattern of sharing", "anchors": [{"file": "src/dispersion/spectrum.py", "symbols": ["Spectrum", "safe_inverse", "convert_to", "contains"]}]}
{"id": "C93", "title": "Objects keep what they were given", "statement": "A material or spectrum keeps the values it was given when the user changes the array afterwards. Holds for tables of n and k and of the permittivity, which are copied. Deviations: assigning to the array of a tabulated_n table changes the saved file but not the evaluation; assigning to the array of model coefficients turns the material into that of the new coefficients; a spectrum in metres, its caller's array and the result of its convert_to to metres are one array; in nanometres assigning to the caller's array changes .values and not what the spectrum converts to.", "quantifier": "all tables, coefficients, wavelengths, models, units, points of evaluation and assigned elements", "why_tests_cant": "every array and every later assignment", "anchors": [{"file": "src/dispersion/material.py", "symbols": ["Material", "_process_table", "_spec_data_from_table", "Interpolation", "Model", "Spectrum"]}]}
{"id": "C94", "title": "Catalogue rows of the example files", "statement": "Rebuilding the catalogue after the setup script has run lists the two example files of the user's folder, in the order of the directory listing, with their names, texts, module and path, wavelength in nanometres as type and unit. The row of the text file has the range 400 to 700 nm and the refractive index and extinction of the table (linear between its rows) at the reference wavelength; the row of the yaml file has the range that formula and table share and the index of the formula and extinction of the table.", "quantifier": "all reference wavelengths from 401 to 699 nm, all folders, all file systems, both orders of the listing, all iteration orders of the keyword sets, every yaml library that restores what it emits", "why_tests_cant": "every reference wavelength and history of the disk", "anchors": [{"file": "src/dispersion/catalogue.py", "symbols": ["Catalogue.read_user_data_db", "Catalogue._read_text_db"]}]}
{"id": "C95", "title": "From the setup script to loaded materials", "statement": "After the setup script has been answered (an existing folder without user data, a catalogue name, no download, catalogue built), a new session can open the catalogue: it lists exactly the two example materials, and loading either entry gives the material of the example. The script has created the folder of the user's materials and written the two examples, the configuration and the catalogue, and changed nothing else on the disk; this remains true after any number of runs of dispersion_catalogue_rebuild, whatever they are answered and however they end. A user who declines the last question gets FileNotFoundError when opening the catalogue, until dispersion_catalogue_rebuild is answered with y. The texts of the example files do not depend on the folder. Running the script again, after a complete or an interrupted run, ends in the same state, whatever an earlier run has left in the files it writes.", "quantifier": "all disks, home directories, folders, catalogue names and dialogues with these answers (any rejected, unconfirmed or unrecognised answers before), all orders of directory listings and keyword sets, all libraries that read what they write, all later runs of the rebuild command", "why_tests_cant": "every disk, dialogue and history of rebuilds", "anchors": [{"file": "src/dispersion/scripts/setup_dispersion.py", "symbols": ["main", "rebuild_catalogue", "Catalogue.__init__", "Catalogue.get_material"]}]}
{"id": "C96", "title": "The user's own materials in the catalogue", "statement": "A material with tables of n and k, saved in the folder UserData as a text file or a yaml file, is kept by the catalogue: every build that includes this folder lists it in exactly one row, and loading this row gives a material with the same tables, type and unit; once the catalogue is saved this also holds in later sessions that open it. Saving the material changes no other file. Whatever the file contains, a successful build lists each file of UserData with a supported extension in exactly one row whose entry loads the material of that file. Deviation: a file whose name contains a backslash is listed, but its row loads another path (the backslash is read as a separator), or raises if there is no such file.", "quantifier": "all disks, folders, file names with a supported extension, materials with tables of 2 to 333 rows that the printing keeps exactly, configurations that enable UserData, orders of directory listings and keyword sets, all libraries that read what they write", "why_tests_cant": "every disk, file name, table and configuration", "anchors": [{"file": "src/dispersion/catalogue.py", "symbols": ["Catalogue.build_catalogue", "Catalogue.read_user_data_db", "Catalogue.get_material", "Catalogue.save_to_file", "Material.save_to_file"]}]}
{"id": "C97", "title": "When a rebuild of the catalogue succeeds", "statement": "With a configuration that enables the folder UserData only, Catalogue(rebuild='All') succeeds if and only if every file of this folder with the extension .txt, .csv or .yml is usable by itself: it loads, has a valid range, and its index at the reference spectrum can be computed (or that computation raises ValueError). Then dispersion_catalogue_rebuild writes the new catalogue. With one file that is not usable it raises and leaves the disk, and so the old catalogue, as it was. A file with tables or constants for n and k in another unit than centimetres is usable wherever the reference spectrum lies. Deviations: the file that stops the rebuild can be one the documentation allows, namely a .txt or .csv file with a line that starts with the comment mark of the other kind, a table whose unit is spelled with capital letters (loading accepts it), and a table in centimetres that does not cover the reference spectrum.", "quantifier": "all disks, folders, contents of UserData, configurations with this folder only, orders of directory listings, answers to the prompt", "why_tests_cant": "every content of the folder", "anchors": [{"file": "src/dispersion/catalogue.py", "symbols": ["Catalogue.__init__", "Catalogue.build_catalogue", "rebuild_catalogue"]}]}
{"id": "C98", "title": "A table in double precision at its own wavelengths", "statement": "In double precision: let the first column of a table be written with the decimals of its unit (nm up to 900, um, cm, angstrom up to 90, eV; metres without restriction). Asked in that unit for one of its own abscissae, also the first and the last, the table is never refused and the interpolation routine is asked for exactly the number of that row, so that get_nk_data returns exactly the tabulated n and k (k tabulated as well, or a constant); the same for arrays of its wavelengths in any order. Any other number so written is passed on unchanged if it lies between the smallest and the largest abscissa and refused otherwise. Deviations: a table that ends at 2049.3 nm, 300.6 angstrom or 27 THz refuses its own last row, and inside a table 2049.3 nm is looked up at a neighbouring number.", "quantifier": "all tables (any number of rows, any order) of such decimals, all values, all own abscissae, all arrays of them, all interpolation routines that are exact at the rows", "why_tests_cant": "Whether a tabulated number survives the conversion to metres and back depends on the rounding of each double; a test sees a handful of them.", "anchors": [{"file": "src/dispersion/spectral_data.py", "symbols": ["Interpolation", "Constant", "Material.get_nk_data", "Spectrum.contains", "Spectrum.convert_to"]}]}
{"id": "C99", "title": "Every life of an installation can be continued by a rebuild", "statement": "After dispersion_setup (folder, catalogue name, no download; last question answered either way) the user adds, overwrites and deletes files in their folder in any order, saves materials there (completely or interrupted anywhere), runs dispersion_catalogue_rebuild with any answers and any outcome, and the catalogue file is changed, deleted or left half-written. Whatever the history: the configuration and all directories stay, and outside the folder only the catalogue file changes. A rebuild answered with y then succeeds if and only if every material file of the folder is usable (see C97); a failing rebuild changes nothing on the disk; a successful one changes the catalogue file only, and if the texts of the files can be stored in csv, a session that opens the catalogue finds exactly one row for every material file, which loads the material that is in the file now, and no row for anything else, so neither missing nor stale entries remain.", "quantifier": "all first disks, folders, catalogue names and dialogues, all finite histories of file changes, interrupted saves, rebuilds and catalogue changes, all file contents, all listing orders", "why_tests_cant": "Histories are unbounded and each step may leave any content in any file; a test follows a few of them.", "anchors": [{"file": "src/dispersion/catalogue.py", "symbols": ["rebuild_catalogue", "Catalogue.build_catalogue", "Catalogue.save_to_file", "Catalogue.read_user_data_db"]}]}
{"id": "C100", "title": "A saved material answers like the original", "statement": "For a material with tables for n and k over the same points: if numpy shows all its numbers exactly (and, for text files, they have at most 8 decimals), saving it as a text or yaml file and loading that file gives a material that answers every question exactly as the original one: get_nk_data and get_permittivity for every request (numbers, arrays, Spectrum objects, any type and unit, also those that are refused) and get_maximum_valid_range. If only the points of the tables are shown exactly (with at most 8 decimals for text files) and n and k are arbitrary numbers bounded by B >= 1, the file still loads, the same requests are answered and refused with the same exceptions, n and k differ by at most 2e-8*B at every requested point (between the table points too; 1.1e-8*B for yaml files, whose points may have more than 8 decimals), the permittivity by at most 2d(2B+d) with d that bound, and the range of validity is the same. In general, tables over the same points whose values differ by at most d give answers that differ by at most d.", "quantifier": "all tables of 2 to 333 points with distinct abscissae, all spectrum types and units, all requests, all displays of numpy within its precision, all starting file systems", "why_tests_cant": "A test compares a few requests before and after a few round trips; the bound must hold at every request, including those between table points and those that are refused.", "anchors": [{"file": "src/dispersion/material.py", "symbols": ["Material.get_nk_data", "Material.get_permittivity", "Material.get_maximum_valid_range"]}]}
{"id": "C101", "title": "A formula material saved as yaml", "statement": "A material whose n is one of the formulas for the refractive index and whose k is 0 can be saved as a yaml file, and if numpy shows its coefficients and its range exactly the loaded material has the same formula, coefficients, range, spectrum type and unit and answers get_nk_data, get_permittivity and get_maximum_valid_range exactly as the original for every request. With a constant k = v the file is saved and loaded without any complaint as well, but k is lost: every request is answered or refused alike with the same n, while the original gives k = v and the loaded material k = 0.", "quantifier": "all formulas for n, all coefficients and ranges of at most 1000 numbers that are shown exactly, all spectrum types and units, all constants, all requests, all starting file systems", "why_tests_cant": "A test saves one formula with one set of coefficients; that the formula survives must hold for all coefficients, units and requests, and the silent loss of k shows only when n and k are compared over all requests.", "anchors": [{"file": "src/dispersion/io.py", "symbols": ["Writer.write_file", "Writer._write_yaml_file", "Reader._process_mat_data_dict"]}]}
{"id": "C102", "title": "From the constructor to a later session", "statement": "A material built from an array of spectral values, n and k (2 to 333 rows, any documented type and unit) and saved in the user's material folder, as text file (numbers with at most 8 decimals) or yaml file, is from then on handed out by every catalogue that is built with that folder, and by that catalogue saved and opened again in a later session: the file is listed exactly once and the material of that row answers get_nk_data, get_permittivity and get_maximum_valid_range for every request exactly as the material the constructor returned. The same holds for a material built from a formula for n with its coefficients and range and saved as yaml. Saving changes no other file. Numbers must be shown exactly by numpy.", "quantifier": "all arrays and coefficients of exactly shown numbers, all formulas for n, all documented types and units in any letter case, all file names of the user, all disks, all configurations and rebuild options with which the build succeeds, all requests", "why_tests_cant": "A test follows one material through one session; the claim composes construction, writing, reading, listing, the csv file and lookup for all materials, disks and requests.", "anchors": [{"file": "src/dispersion/material.py", "symbols": ["Material.__init__", "Material.get_nk_data", "Material.get_permittivity"]}]}
{"id": "C103", "title": "The mixing rules against each other", "statement": "For two constituents with positive real permittivities z (host) and w (inclusion) and a fraction f between 0 and 1 the three effective media give real permittivities at every wavelength, all between the harmonic mean 1/((1-f)/z + f/w) and the linear mixture (1-f)z + fw; Maxwell-Garnett lies below Bruggeman if z <= w and above it if w <= z. With more of the constituent of larger permittivity none of the three gets smaller. Linear and Bruggeman mixing do not depend on which constituent is called host: mixing f of the second into the first is mixing 1-f of the first into the second, also for complex permittivities. Maxwell-Garnett mixing does: for two different positive constituents and 0 < f < 1 exchanging the roles always changes the value, the host with the smaller permittivity giving the smaller one. A medium mixed with itself in any fraction is that medium (Maxwell-Garnett: unless its permittivity is 0; Bruggeman: if it absorbs or is a lossless dielectric). The code violates this for a lossless metal, which the Bruggeman medium turns into a dielectric with -e/2.", "quantifier": "all pairs of materials, all spectra, all fractions; for the exchange of host and inclusion all complex permittivities", "why_tests_cant": "Inequalities and equalities between the results of different classes for a continuum of permittivities and fractions; a test sees isolated values.", "anchors": [{"file": "src/dispersion/material.py", "symbols": ["EffectiveMedium", "Simple", "MaxwellGarnett", "Bruggeman"]}]}
{"id": "C104", "title": "Linear mixing in double precision", "statement": "In double precision, a linear effective medium of two constituents with finite permittivities (parts up to 2^1000), built on an array of at least two different wavelengths, answers get_permittivity at these wavelengths with (1-f)*e1 + f*e2, each part wrong by at most four roundings of the two shares plus 2^-1073; this includes the tabulation and the conversion of the spectrum to metres, which keeps the wavelengths. With f=0 the answer is the first constituent's permittivity and with f=1 the second's, without any error. Every double below 0 or above 1 is refused. The code violates 'a mixture lies between its constituents' by a rounding: 30 percent of permittivity 3 in permittivity 3 gives less than 3. The interpolation routine must return the tabulated value at a tabulated wavelength.", "quantifier": "all constituents, spectra, fractions that are doubles, and permittivities that are doubles", "why_tests_cant": "Rounding errors of all doubles; a test compares some values with a tolerance.", "anchors": [{"file": "src/dispersion/material.py", "symbols": ["EffectiveMedium", "Simple", "Material.get_permittivity"]}]}
{"id": "C105", "title": "The permittivity in double precision", "statement": "In double precision, get_permittivity of an n/k material answers exactly the requests get_nk_data answers and refuses the others with the same error. For parts n and k up to 2^500 its answer is (n+ik)^2: the real part is wrong by at most 2.001 roundings of n^2+k^2, the imaginary part by at most one rounding of 2nk, each plus 2^-1073. Without absorption the real part is the double nearest to n^2 and the imaginary part is exactly 0; with n and k not negative the imaginary part is never negative, so rounding does not turn an absorbing material into one with gain. For tables of n and k the answer at a wavelength tabulated in both is the square of the tabulated numbers, provided the interpolation routine returns the tabulated value there. The error of the real part is not small relative to n^2-k^2 itself: for some neighbouring doubles n and k below 2 the real part is wrong by 49 percent.", "quantifier": "all n/k materials with constant or tabulated parts, all requests in all units, all n and k that are doubles", "why_tests_cant": "Rounding errors of all doubles; a test compares some values with a tolerance.", "anchors": [{"file": "src/dispersion/material.py", "symbols": ["Material.get_permittivity", "Material.get_nk_data"]}]}
