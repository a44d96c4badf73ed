{
 "claims": [
  {
   "property": "C01",
   "status": "proved",
   "theorems": [
    "C01_constructor_stores",
    "C01_constructor_accepts",
    "C01_constructor_rejects"
   ],
   "note": ""
  },
  {
   "property": "C02",
   "status": "proved",
   "theorems": [
    "C02_standard_rep_scalar",
    "C02_standard_rep_array",
    "C02_zero_and_infinity"
   ],
   "note": ""
  },
  {
   "property": "C03",
   "status": "proved",
   "theorems": [
    "C03_round_trip",
    "C03_round_trip_exact",
    "C03_wavenumber_refuted"
   ],
   "note": "true for all types except wavenumber; the wavenumber defect is the _refuted theorem"
  },
  {
   "property": "C04",
   "status": "proved",
   "theorems": [
    "C04_in_place_keeps_standard",
    "C04_in_place_last_wins",
    "C04_in_place_all_failed",
    "C04_in_place_same_exception"
   ],
   "note": ""
  },
  {
   "property": "C05",
   "status": "proved",
   "theorems": [
    "C05_safe_inverse_agrees",
    "C05_convert_agrees",
    "C05_small_wavelength_refuted",
    "C05_wavenumber_refuted"
   ],
   "note": "agreement for resolvable magnitudes; the 1e-8 threshold defects are the _refuted theorems"
  },
  {
   "property": "C06",
   "status": "proved",
   "theorems": [
    "C06_contains_iff",
    "C06_contains_nan",
    "C06_contains_empty"
   ],
   "note": ""
  },
  {
   "property": "C07",
   "status": "proved",
   "theorems": [
    "C07_out_of_range_exception",
    "C07_cm_refuted"
   ],
   "note": "exact exception for every range; cm defect is the _refuted theorem"
  },
  {
   "property": "C08",
   "status": "proved",
   "theorems": [
    "C08_conversion_chain",
    "C08_conversion_chain_exact",
    "C08_wavenumber_refuted"
   ],
   "note": "wavenumber defect is the _refuted theorem"
  },
  {
   "property": "C09",
   "status": "proved",
   "theorems": [
    "C09_order"
   ],
   "note": ""
  },
  {
   "property": "C10",
   "status": "proved",
   "theorems": [
    "C10_constructor_case_insensitive",
    "C10_convert_to_case",
    "C10_case_refuted"
   ],
   "note": "case handling of the constructor and of convert_to; consequence for data objects in C64"
  },
  {
   "property": "C11",
   "status": "proved",
   "theorems": [
    "C11_integer_reciprocal_raises",
    "C11_integer_wavelength"
   ],
   "note": ""
  },
  {
   "property": "C12",
   "status": "proved",
   "theorems": [
    "C12_constant_scalar",
    "C12_constant_array",
    "C12_constant_outside",
    "C12_default_range"
   ],
   "note": ""
  },
  {
   "property": "C13",
   "status": "proved",
   "theorems": [
    "C13_accepts",
    "C13_rejects",
    "C13_interpolates",
    "C13_at_row",
    "C13_outside_raises",
    "C13_row_order",
    "C13_missing_values"
   ],
   "note": "capital-letter units: see C64; own end points: see C63"
  },
  {
   "property": "C14",
   "status": "proved",
   "theorems": [
    "C14_sellmeier",
    "C14_sellmeier2",
    "C14_polynomial",
    "C14_cauchy",
    "C14_gases",
    "C14_refractiveindexinfo",
    "C14_dangling",
    "C14_dangling_rii"
   ],
   "note": ""
  },
  {
   "property": "C15",
   "status": "proved",
   "theorems": [
    "C15_herzberger",
    "C15_exotic",
    "C15_exotic_published_refuted",
    "C15_too_few"
   ],
   "note": "Exotic deviates from the publication: _refuted theorem"
  },
  {
   "property": "C16",
   "status": "proved",
   "theorems": [
    "C16_retro_root",
    "C16_retro_refuted",
    "C16_too_few"
   ],
   "note": "property is violated by the code for every r<1 except 0: _refuted theorem; C16_retro_root says what is returned"
  },
  {
   "property": "C17",
   "status": "proved",
   "theorems": [
    "C17_drude",
    "C17_drude_lorentz",
    "C17_passive",
    "C17_passive_values",
    "C17_lorentz_is_drude",
    "C17_too_few"
   ],
   "note": ""
  },
  {
   "property": "C18",
   "status": "proved",
   "theorems": [
    "C18_tauc_lorentz",
    "C18_absorption",
    "C18_denominator",
    "C18_scalar_typeerror"
   ],
   "note": "C^2 <= 2 E0^2 and E <> Eg; the NaN regime is C65"
  },
  {
   "property": "C19",
   "status": "proved",
   "theorems": [
    "C19_built_unit",
    "C19_accepts",
    "C19_rejects"
   ],
   "note": ""
  },
  {
   "property": "C20",
   "status": "proved",
   "theorems": [
    "C20_range_checked",
    "C20_pointwise",
    "C20_pointwise_conv"
   ],
   "note": ""
  },
  {
   "property": "C21",
   "status": "proved",
   "theorems": [
    "C21_base_inside",
    "C21_range",
    "C21_rejects",
    "C21_same_side_refuted",
    "C21_accepts",
    "C21_extended_values",
    "C21_outside_raises",
    "C21_centimetre_refuted"
   ],
   "note": "order dependence and the centimetre defect are the _refuted theorems"
  },
  {
   "property": "C22",
   "status": "proved",
   "theorems": [
    "C22_caller_converted",
    "C22_caller_unchanged_refuted",
    "C22_physical_content",
    "C22_evaluate_converts",
    "C22_plain_untouched"
   ],
   "note": "in-place conversion is the _refuted theorem; physical content is preserved"
  },
  {
   "property": "C23",
   "status": "proved",
   "theorems": [
    "C23_subsequence",
    "C23_kept_rows",
    "C23_valid_unchanged",
    "C23_validate",
    "C23_idempotent",
    "C23_descending",
    "C23_degenerate"
   ],
   "note": ""
  },
  {
   "property": "C24",
   "status": "proved",
   "theorems": [
    "C24_number",
    "C24_number_error",
    "C24_table",
    "C24_blank_line_ends",
    "C24_no_rows",
    "C24_error",
    "C24_bad_token",
    "C24_other_type"
   ],
   "note": ""
  },
  {
   "property": "C25",
   "status": "proved",
   "theorems": [
    "C25_not_one_source",
    "C25_wrong_type",
    "C25_constructed",
    "C25_others_ignored"
   ],
   "note": ""
  },
  {
   "property": "C26",
   "status": "proved",
   "theorems": [
    "C26_fixed",
    "C26_table_nk_eps",
    "C26_table_n",
    "C26_wrong_shape",
    "C26_model",
    "C26_file_table",
    "C26_n_alpha_refuted",
    "C26_name"
   ],
   "note": ""
  },
  {
   "property": "C27",
   "status": "proved",
   "theorems": [
    "C27_fixed_nk",
    "C27_fixed_eps"
   ],
   "note": ""
  },
  {
   "property": "C28",
   "status": "proved",
   "theorems": [
    "C28_square",
    "C28_principal_root",
    "C28_converted_refuted"
   ],
   "note": ""
  },
  {
   "property": "C29",
   "status": "proved",
   "theorems": [
    "C29_intersection",
    "C29_bounds",
    "C29_complex_refuted",
    "C29_drude_refuted"
   ],
   "note": ""
  },
  {
   "property": "C30",
   "status": "proved",
   "theorems": [
    "C30_inside",
    "C30_fallback_refuted",
    "C30_reciprocal_refuted"
   ],
   "note": ""
  },
  {
   "property": "C31",
   "status": "proved",
   "theorems": [
    "C31_zero",
    "C31_real_unchanged",
    "C31_rest"
   ],
   "note": ""
  },
  {
   "property": "C32",
   "status": "proved",
   "theorems": [
    "C32_complex",
    "C32_constants",
    "C32_success",
    "C32_failure_unchanged",
    "C32_atomic_refuted"
   ],
   "note": ""
  },
  {
   "property": "C33",
   "status": "proved",
   "theorems": [
    "C33_other",
    "C33_depends",
    "C33_iff",
    "C33_reflexive",
    "C33_two_kinds",
    "C33_symmetry_refuted"
   ],
   "note": ""
  },
  {
   "property": "C34",
   "status": "proved",
   "theorems": [
    "C34_k_table",
    "C34_error",
    "C34_exact",
    "C34_rounded_refuted"
   ],
   "note": ""
  },
  {
   "property": "C35",
   "status": "proved",
   "theorems": [
    "C35_ignored_refuted"
   ],
   "note": ""
  },
  {
   "property": "C36",
   "status": "proved",
   "theorems": [
    "C36_selects",
    "C36_model_error",
    "C36_unknown",
    "C36_no_range",
    "C36_fano_refuted"
   ],
   "note": ""
  },
  {
   "property": "C37",
   "status": "proved",
   "theorems": [
    "C37_header_survives",
    "C37_material_cycle",
    "C37_any_cycles"
   ],
   "note": ""
  },
  {
   "property": "C38",
   "status": "proved",
   "theorems": [
    "C38_order_independent",
    "C38_order_independent_reuse"
   ],
   "note": "fresh and reused Readers"
  },
  {
   "property": "C39",
   "status": "proved",
   "theorems": [
    "C39_one_cycle",
    "C39_many_cycles",
    "C39_comment_changes_refuted"
   ],
   "note": "defect: exact effect of n cycles, and _refuted for every comment"
  },
  {
   "property": "C40",
   "status": "proved",
   "theorems": [
    "C40_one_cycle",
    "C40_many_cycles",
    "C40_comment_changes_refuted"
   ],
   "note": "defect: C40_comment_changes_refuted holds for every comment"
  },
  {
   "property": "C41",
   "status": "proved",
   "theorems": [
    "C41_tables_read_back",
    "C41_material_cycle",
    "C41_exact",
    "C41_cycle_exact",
    "C41_k_lost",
    "C41_metre_grid_refuted",
    "C41_one_row_refuted"
   ],
   "note": "numpy display is an argument meeting IOSpec.shows (instance: ShowsProofs.sample_shows); deviations are the _refuted theorems and C41_k_lost"
  },
  {
   "property": "C42",
   "status": "proved",
   "theorems": [
    "C42_merged_or_apart",
    "C42_merged_iff",
    "C42_different_length",
    "C42_k_no_table"
   ],
   "note": "for tables of up to 500 rows, larger ones: C69"
  },
  {
   "property": "C43",
   "status": "proved",
   "theorems": [
    "C43_read_back",
    "C43_rii_read_back",
    "C43_parts_kept",
    "C43_tables_together",
    "C43_can_save",
    "C43_cycle_exact",
    "C43_constants_kept_unreadable_refuted",
    "C43_eps_lost_refuted",
    "C43_units_lost_refuted",
    "C43_rii_model_refuted",
    "C43_custom_key_refuted",
    "C43_model_cycle",
    "C43_parts_cycle",
    "C43_rii_names",
    "C43_custom_value_refuted"
   ],
   "note": "for every yaml library that restores the mapping it emitted (yaml_library) and every number display accurate to 5e-9 (shows); the _refuted theorems are the deviations named in the statement"
  },
  {
   "property": "C44",
   "status": "proved",
   "theorems": [
    "C44_failed_save",
    "C44_nk",
    "C44_nk_error",
    "C44_unsupported",
    "C44_unsupported_error",
    "C44_complex",
    "C44_complex_error",
    "C44_no_table",
    "C44_two_constants",
    "C44_once"
   ],
   "note": "C44_failed_save covers all saves; the others say which saves fail and how"
  },
  {
   "property": "C45",
   "status": "proved",
   "theorems": [
    "C45_fresh",
    "C45_reused",
    "C45_reused_refuted"
   ],
   "note": "defect: C45_reused says exactly what may be left over, C45_reused_refuted is a witness"
  },
  {
   "property": "C46",
   "status": "proved",
   "theorems": [
    "C46_other_files",
    "C46_file_itself",
    "C46_atomic_refuted",
    "C46_comment_refuted"
   ],
   "note": "defect: _refuted for every save of a material; catalogue and configuration files: C58, C59 ff."
  },
  {
   "property": "C47",
   "status": "proved",
   "theorems": [
    "C47_lower_case_key",
    "C47_unknown_key_ignored",
    "C47_prefix_key"
   ],
   "note": "for every parsed mapping"
  },
  {
   "property": "C48",
   "status": "proved",
   "theorems": [
    "C48_fraction_rejected",
    "C48_linear",
    "C48_pure",
    "C48_nan_fraction_refuted",
    "C48_nan_fraction_bruggeman_refuted",
    "C48_base_class"
   ],
   "note": "C48_nan_fraction_refuted and C48_nan_fraction_bruggeman_refuted: NaN is accepted"
  },
  {
   "property": "C49",
   "status": "proved",
   "theorems": [
    "C49_rule",
    "C49_pure",
    "C49_between",
    "C49_passive",
    "C49_error_iff",
    "C49_pole_unnoticed_refuted",
    "C49_near_singular_refuted"
   ],
   "note": "the _refuted theorems are the deviations named in the statement"
  },
  {
   "property": "C50",
   "status": "proved",
   "theorems": [
    "C50_two_solutions",
    "C50_choice",
    "C50_between",
    "C50_passive",
    "C50_passive_unique",
    "C50_pure",
    "C50_lossless_metal_refuted",
    "C50_fallback_refuted",
    "C50_scalar_refuted"
   ],
   "note": "the argument py says whether a scalar evaluation of material1 gave a Python number; the _refuted theorems are the deviations named in the statement"
  },
  {
   "property": "C51",
   "status": "proved",
   "theorems": [
    "C51_tabulates",
    "C51_between_samples",
    "C51_duplicates_rejected",
    "C51_constituent_fails",
    "C51_spectrum_after",
    "C51_comparison_refuted"
   ],
   "note": "C51_comparison_refuted: no metadata"
  },
  {
   "property": "C52",
   "status": "proved",
   "theorems": [
    "C52_distinct",
    "C52_failed",
    "C52_success",
    "C52_when",
    "C52_other_type",
    "C52_missing_row_refuted",
    "C52_selection_refused",
    "C52_selection",
    "C52_selection_refuted",
    "C52_clear_refuted"
   ],
   "note": "the _refuted theorems are the deviations named in the statement; pandas 1.x behaviour of .at and .loc as modelled"
  },
  {
   "property": "C53",
   "status": "proved",
   "theorems": [
    "C53_alias",
    "C53_unknown",
    "C53_other_type",
    "C53_number",
    "C53_out_of_range",
    "C53_numbering",
    "C53_label_is_position",
    "C53_other_row_refuted",
    "C53_empty_row"
   ],
   "note": "C53_other_row_refuted is the deviation named in the statement"
  },
  {
   "property": "C54",
   "status": "proved",
   "theorems": [
    "C54_kept",
    "C54_rebuilt",
    "C54_dropped",
    "C54_order",
    "C54_numbered",
    "C54_not_rebuilt",
    "C54_disabled",
    "C54_succeeds",
    "C54_errors",
    "C54_unknown_module",
    "C54_none_refuted"
   ],
   "note": "C54_none_refuted is the deviation named in the statement"
  },
  {
   "property": "C55",
   "status": "proved",
   "theorems": [
    "C55_listing",
    "C55_no_folder",
    "C55_no_library"
   ],
   "note": "the specification listing/page_row says what each row holds; further yaml keys are allowed"
  },
  {
   "property": "C56",
   "status": "proved",
   "theorems": [
    "C56_listing",
    "C56_no_folder",
    "C56_ignored"
   ],
   "note": ""
  },
  {
   "property": "C57",
   "status": "proved",
   "theorems": [
    "C57_columns",
    "C57_covered",
    "C57_not_covered",
    "C57_centimetre_refuted"
   ],
   "note": "C57_centimetre_refuted is the deviation named in the statement"
  },
  {
   "property": "C58",
   "status": "proved",
   "theorems": [
    "C58_bounds",
    "C58_table",
    "C58_declared_refuted"
   ],
   "note": "C58_declared_refuted is the deviation named in the statement"
  },
  {
   "property": "C59",
   "status": "proved",
   "theorems": [
    "C59_user",
    "C59_package",
    "C59_found",
    "C59_looking",
    "C59_no_file_refuted",
    "C59_never_default",
    "C59_no_directory_refuted",
    "C59_no_home",
    "C59_written",
    "C59_written_package"
   ],
   "note": "the _refuted theorems are the deviations named in the statement; POSIX branch; paths without links; the yaml library is an argument"
  },
  {
   "property": "C60",
   "status": "proved",
   "theorems": [
    "C60_accepts",
    "C60_rejects",
    "C60_errors",
    "C60_wrong_type",
    "C60_sections",
    "C60_integer",
    "C60_default",
    "C60_default_config"
   ],
   "note": "the operating system checks are arguments; C71 models the file name check"
  },
  {
   "property": "C61",
   "status": "proved",
   "theorems": [
    "C61_ask",
    "C61_ask_pure",
    "C61_ask_end",
    "C61_confirmation",
    "C61_confirmation_end",
    "C61_both",
    "C61_loop"
   ],
   "note": ""
  },
  {
   "property": "C62",
   "status": "proved",
   "theorems": [
    "C62_enabled",
    "C62_declined",
    "C62_present",
    "C62_download",
    "C62_other_refuted",
    "C62_no_root"
   ],
   "note": "download (git) is an argument; C62_other_refuted is the deviation named in the statement"
  },
  {
   "property": "C63",
   "status": "proved",
   "theorems": [
    "C63_own_minimum_refuted",
    "C63_row_kept"
   ],
   "note": "positive case and refusal of the own minimum"
  },
  {
   "property": "C64",
   "status": "proved",
   "theorems": [
    "C64_capital_unit_refuted"
   ],
   "note": "defect, stated as _refuted theorem"
  },
  {
   "property": "C65",
   "status": "proved",
   "theorems": [
    "C65_overdamped_nan"
   ],
   "note": ""
  },
  {
   "property": "C66",
   "status": "proved",
   "theorems": [
    "C66_fano"
   ],
   "note": ""
  },
  {
   "property": "C67",
   "status": "proved",
   "theorems": [
    "C67_array_untouched",
    "C67_array_accepted",
    "C67_not_repaired_refuted"
   ],
   "note": ""
  },
  {
   "property": "C68",
   "status": "proved",
   "theorems": [
    "C68_nk_shape",
    "C68_eps_shape",
    "C68_regular"
   ],
   "note": ""
  },
  {
   "property": "C69",
   "status": "proved",
   "theorems": [
    "C69_large_tables_raise",
    "C69_large_merged",
    "C69_large_merged_text",
    "C69_large_eps",
    "C69_large_merged_yaml"
   ],
   "note": "defect for eps and merged tables: C69_large_merged, C69_large_eps (what the Writer holds) and C69_large_merged_yaml (saved, cannot be loaded)"
  },
  {
   "property": "C70",
   "status": "proved",
   "theorems": [
    "C70_user_file",
    "C70_page"
   ],
   "note": ""
  },
  {
   "property": "C71",
   "status": "proved",
   "theorems": [
    "C71_plain",
    "C71_empty",
    "C71_preserves",
    "C71_nul_refuted",
    "C71_absolute_refuted"
   ],
   "note": "the _refuted theorems are the deviations named in the statement"
  },
  {
   "property": "C72",
   "status": "proved",
   "theorems": [
    "C72_stored",
    "C72_used",
    "C72_overwritten_refuted",
    "C72_missing_root_refuted"
   ],
   "note": "the _refuted theorems are the deviations named in the statement; yaml library and catalogue building are arguments"
  },
  {
   "property": "C73",
   "status": "proved",
   "theorems": [
    "C73_question",
    "C73_no",
    "C73_yes"
   ],
   "note": ""
  },
  {
   "property": "C74",
   "status": "proved",
   "theorems": [
    "C74_round_trip",
    "C74_metres",
    "C74_array",
    "C74_round_trip_refuted",
    "C74_frequency_refuted"
   ],
   "note": "binary64 model of spectrum.py (Flocq); the _refuted theorems are the deviations named in the statement"
  },
  {
   "property": "C75",
   "status": "proved",
   "theorems": [
    "C75_decimals",
    "C75_own_end_refuted"
   ],
   "note": "binary64 model; C75_own_end_refuted is the deviation named in the statement"
  },
  {
   "property": "C76",
   "status": "proved",
   "theorems": [
    "C76_standard",
    "C76_converted",
    "C76_wavenumber_refuted",
    "C76_models_agree",
    "C76_arrays",
    "C76_small_arrays_refuted"
   ],
   "note": "binary64 model; C76_wavenumber_refuted is the deviation named in the statement"
  },
  {
   "property": "C77",
   "status": "proved",
   "theorems": [
    "C77_order",
    "C77_between"
   ],
   "note": "binary64 model of spectrum.py"
  },
  {
   "property": "C78",
   "status": "proved",
   "theorems": [
    "C78_reopened",
    "C78_exact",
    "C78_no_bounds_refuted",
    "C78_wrong_row_refuted",
    "C78_carriage_return_refuted",
    "C78_empty_file",
    "C78_file"
   ],
   "note": "numbers: whatever the csv library reads in the text it wrote (argument of the theorems); the _refuted theorems and C78_empty_file are the deviations named in the statement"
  },
  {
   "property": "C79",
   "status": "proved",
   "theorems": [
    "C79_alias",
    "C79_number",
    "C79_registered",
    "C79_unknown"
   ],
   "note": "see C78"
  },
  {
   "property": "C80",
   "status": "proved",
   "theorems": [
    "C80_kept"
   ],
   "note": "see C78"
  },
  {
   "property": "C81",
   "status": "proved",
   "theorems": [
    "C81_nk",
    "C81_nk_succeeds",
    "C81_error",
    "C81_float_refuted",
    "C81_centimetre_refuted",
    "C81_sampled"
   ],
   "note": "a plot is the list of its lines with labels; matplotlib itself (styles, axes, colours) is not modelled"
  },
  {
   "property": "C82",
   "status": "proved",
   "theorems": [
    "C82_permittivity",
    "C82_requested_axis",
    "C82_extrapolated_refuted"
   ],
   "note": "C82_extrapolated_refuted is the deviation named in the statement"
  },
  {
   "property": "C83",
   "status": "proved",
   "theorems": [
    "C83_default",
    "C83_other_unit_refuted",
    "C83_case_refuted"
   ],
   "note": "geomspace_exact (end points exact, values in between) is a hypothesis on numpy; _refuted theorems are the deviations named in the statement"
  },
  {
   "property": "C84",
   "status": "proved",
   "theorems": [
    "C84_printed",
    "C84_missing_refuted"
   ],
   "note": "strings are sequences of UTF-8 bytes"
  },
  {
   "property": "C85",
   "status": "proved",
   "theorems": [
    "C85_interrupted",
    "C85_alias",
    "C85_rows_lost_refuted"
   ],
   "note": "the file is written front to back, so a crash leaves a beginning of the text; C85_rows_lost_refuted is the deviation named in the statement; files cut within the line of column names are outside (C78_empty_file treats the empty file)"
  },
  {
   "property": "C86",
   "status": "proved",
   "theorems": [
    "C86_disabled",
    "C86_no_grid",
    "C86_untouched",
    "C86_saved",
    "C86_view_only",
    "C86_filtered_refuted",
    "C86_sorted_refuted",
    "C86_lost_alias_refuted",
    "C86_duplicate_alias_refuted"
   ],
   "note": "qgrid is not modelled: a widget holds a copy of the frame, the user can sort and filter it, and change it in any way if it is editable; _refuted theorems are the deviations named in the statement"
  },
  {
   "property": "C87",
   "status": "proved",
   "theorems": [
    "C87_sessions",
    "C87_alias"
   ],
   "note": ""
  },
  {
   "property": "C88",
   "status": "proved",
   "theorems": [
    "C88_reads",
    "C88_same_as_array",
    "C88_extension",
    "C88_other_mark_refuted"
   ],
   "note": "Full statement proved on the model of Reader and Material; the deviation is C88_other_mark_refuted. Files with a single row are C41_one_row_refuted."
  },
  {
   "property": "C89",
   "status": "proved",
   "theorems": [
    "C89_reads",
    "C89_not_a_list",
    "C89_unusable",
    "C89_letter_key_refuted",
    "C89_same_as_array",
    "C89_formula"
   ],
   "note": "Full statement proved on the model of Reader and Material (yaml parsing is the argument yl); the deviation is C89_letter_key_refuted."
  },
  {
   "property": "C90",
   "status": "proved",
   "theorems": [
    "C90_comparison",
    "C90_spellings_refuted"
   ],
   "note": "Full statement proved; the deviation is C90_spellings_refuted."
  },
  {
   "property": "C91",
   "status": "proved",
   "theorems": [
    "C91_examples_load",
    "C91_comment_refuted"
   ],
   "note": "Full statement proved; the deviation is C91_comment_refuted. The numbers of the text file are assumed to be displayed exactly by numpy (visible hypothesis); those of the yaml file only to within 5e-9."
  },
  {
   "property": "C92",
   "status": "proved",
   "theorems": [
    "C92_unchanged",
    "C92_values"
   ],
   "note": "Full statement proved over a memory model of spectrum.py and of the table and model branches of Material (extrapolation, fixed values, EffectiveMedium and files are not in these sessions)."
  },
  {
   "property": "C93",
   "status": "proved",
   "theorems": [
    "C93_copied",
    "C93_table_refuted",
    "C93_coefficients_refuted",
    "C93_metres_refuted",
    "C93_values_refuted"
   ],
   "note": "The positive part is C93_copied; the deviations are the universal statements C93_table_refuted, C93_coefficients_refuted, C93_metres_refuted and C93_values_refuted."
  },
  {
   "property": "C94",
   "status": "proved",
   "theorems": [
    "C94_examples_listed"
   ],
   "note": "Full statement proved for reference wavelengths in [401, 699] nm, inside the range of both files; outside it the listing theorems (PropListing) say what a row contains."
  },
  {
   "property": "C95",
   "status": "proved",
   "theorems": [
    "C95_texts",
    "C95_first_run",
    "C95_declined",
    "C95_again"
   ],
   "note": "Full statement proved. The file system is the one of DiskModel.v; the libraries are the fields of the record machine, with the hypotheses machine_ok."
  },
  {
   "property": "C96",
   "status": "proved",
   "theorems": [
    "C96_listed",
    "C96_reopened",
    "C96_backslash_refuted",
    "C96_text",
    "C96_yaml"
   ],
   "note": "Full statement proved, with the deviation for backslashes in file names as C96_backslash_refuted."
  },
  {
   "property": "C97",
   "status": "proved",
   "theorems": [
    "C97_all_files",
    "C97_stops",
    "C97_mark_refuted",
    "C97_tables",
    "C97_centimetre_refuted",
    "C97_saved",
    "C97_rebuilt"
   ],
   "note": "Full statement proved; the deviations are C97_mark_refuted, C97_centimetre_refuted and the equivalence in C97_tables and C97_saved."
  },
  {
   "property": "C98",
   "status": "proved",
   "theorems": [
    "C98_own_points",
    "C98_between",
    "C98_arrays",
    "C98_metres",
    "C98_nk",
    "C98_nk_arrays",
    "C98_n_only",
    "C98_last_refuted",
    "C98_inner_refuted"
   ],
   "note": "Full statement proved for every interpolation routine that is exact at the rows (hypothesis exact_at_rows); the deviations are C98_last_refuted and C98_inner_refuted."
  },
  {
   "property": "C99",
   "status": "proved",
   "theorems": [
    "C99_life",
    "C99_saving",
    "C99_rebuild",
    "C99_stopped"
   ],
   "note": "Full statement proved; simplification: the user creates and deletes files in the folder, not directories. File names with a backslash are listed but cannot be loaded (C96)."
  },
  {
   "property": "C100",
   "status": "proved",
   "theorems": [
    "C100_stable",
    "C100_text",
    "C100_yaml",
    "C100_near",
    "C100_yaml_near"
   ],
   "note": "Full statement proved; the interpolation is over the reals."
  },
  {
   "property": "C101",
   "status": "proved",
   "theorems": [
    "C101_transparent",
    "C101_absorption_lost_refuted"
   ],
   "note": "Proved, with the deviation of the code: the yaml writer leaves out constant datasets, so a constant k is lost (C101_absorption_lost_refuted)."
  },
  {
   "property": "C102",
   "status": "proved",
   "theorems": [
    "C102_array_text",
    "C102_array_yaml",
    "C102_formula"
   ],
   "note": "Full statement proved; composition of C26, C100, C101 and C96. Whether the build succeeds is C97."
  },
  {
   "property": "C103",
   "status": "proved",
   "theorems": [
    "C103_order",
    "C103_swap",
    "C103_garnett_host",
    "C103_monotone",
    "C103_same",
    "C103_same_metal_refuted"
   ],
   "note": "Full statement proved, on exact real and complex numbers like C48-C50."
  },
  {
   "property": "C104",
   "status": "proved",
   "theorems": [
    "C104_accurate",
    "C104_pure",
    "C104_fraction_rejected",
    "C104_same_refuted"
   ],
   "note": "Full statement proved for array spectra in binary64 (FloatMixModel.v); what get_permittivity of the constituents returns is an argument. Hypothesis on scipy: exact_at_knots."
  },
  {
   "property": "C105",
   "status": "proved",
   "theorems": [
    "C105_square",
    "C105_errors",
    "C105_passive",
    "C105_tables",
    "C105_tables_arrays",
    "C105_relative_refuted"
   ],
   "note": "Full statement proved in binary64 (FloatPermModel.v). numpy's complex np.power(z, 2) is modelled as the product z*z of four multiplications. Hypothesis on scipy, for the tables only: exact_at_rows."
  }
 ]
}