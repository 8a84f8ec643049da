{
 "claims": [
  {
   "property": "C01",
   "status": "proved",
   "theorems": [
    "C01_label_order",
    "C01_label_counts",
    "C01_built_samples_ordinary"
   ],
   "note": "Holds for every sample whose parameters carry the default names; built_sample shows that everything constructed from numbers and pairs is one."
  },
  {
   "property": "C02",
   "status": "proved",
   "theorems": [
    "C02_distinct_labels",
    "C02_same_name_collides"
   ],
   "note": ""
  },
  {
   "property": "C03",
   "status": "proved",
   "theorems": [
    "C03_dict_round_trip"
   ],
   "note": ""
  },
  {
   "property": "C04",
   "status": "partial",
   "theorems": [
    "C04_from_dict_appends_partial",
    "C04_from_dict_replaces_refuted"
   ],
   "note": "The claim is false of the code: from_dict appends to the existing film layers. Refutation plus the exact behaviour."
  },
  {
   "property": "C05",
   "status": "proved",
   "theorems": [
    "C05_save_load",
    "C05_save_rejects_exactly",
    "C05_rejected_save_destroys_file"
   ],
   "note": "HDF5/keras storage trusted to return what was stored. Also proved: a rejected save has already destroyed the previous file."
  },
  {
   "property": "C06",
   "status": "proved",
   "theorems": [
    "C06_move_layer"
   ],
   "note": ""
  },
  {
   "property": "C07",
   "status": "partial",
   "theorems": [
    "C07_move_layer_keeps_layers_partial",
    "C07_move_layer_keeps_layers_refuted",
    "C07_negative_source_deletes_a_layer",
    "C07_not_an_integer",
    "C07_no_such_layer"
   ],
   "note": "False for negative source indices (a layer is lost); proved for the remaining indices."
  },
  {
   "property": "C08",
   "status": "proved",
   "theorems": [
    "C08_swap_layers",
    "C08_swap_layers_invalid",
    "C08_swap_layers_involutive",
    "C08_valid_indices",
    "C08_not_an_integer"
   ],
   "note": ""
  },
  {
   "property": "C09",
   "status": "proved",
   "theorems": [
    "C09_add_layer_on_top",
    "C09_add_layer_at",
    "C09_add_layer_other"
   ],
   "note": ""
  },
  {
   "property": "C10",
   "status": "partial",
   "theorems": [
    "C10_at_most_one_variable_refuted",
    "C10_at_most_one_variable_partial",
    "C10_second_variable_rejected",
    "C10_accepted",
    "C10_query",
    "C10_query_refuted"
   ],
   "note": "False in general (a constant layer at the bottom hides the variable one); proved for histories that start with the variable layer and never insert below it. has_variable_layer looks at the bottom layer only (witness)."
  },
  {
   "property": "C11",
   "status": "proved",
   "theorems": [
    "C11_accepted_layers",
    "C11_accepted_layers_valid",
    "C11_range_condition",
    "C11_sign_condition"
   ],
   "note": ""
  },
  {
   "property": "C12",
   "status": "partial",
   "theorems": [
    "C12_constant_layers_partial",
    "C12_pair_accepted_refuted",
    "C12_range_accepted_refuted",
    "C12_constant_values",
    "C12_constant_accepted",
    "C12_pair_fails_later"
   ],
   "note": "False for pairs and Parameter ranges; proved for numbers."
  },
  {
   "property": "C13",
   "status": "proved",
   "theorems": [
    "C13_copy_independent"
   ],
   "note": "Proved for all histories of method calls on either object, not only renames."
  },
  {
   "property": "C14",
   "status": "proved",
   "theorems": [
    "C14_range_sampling",
    "C14_succeeds_exactly"
   ],
   "note": "Random generator universally quantified; only its documented interval and length are used. Real arithmetic (no rounding)."
  },
  {
   "property": "C15",
   "status": "proved",
   "theorems": [
    "C15_double_precision",
    "C15_bolstered_count",
    "C15_fraction_above_two_fails"
   ],
   "note": "Also: a fraction well above 1 raises ValueError."
  },
  {
   "property": "C16",
   "status": "partial",
   "theorems": [
    "C16_double_precision",
    "C16_bolstered_in_range_partial",
    "C16_fold_exact",
    "C16_bolstered_in_range_refuted"
   ],
   "note": "False for normal draws more than one span outside the range (they are reflected only once); proved for draws within one span, which default settings violate only beyond ten standard deviations."
  },
  {
   "property": "C17",
   "status": "proved",
   "theorems": [
    "C17_roughness_coupled",
    "C17_uniform_is_tame",
    "C17_labels_in_range"
   ],
   "note": "For uniform and logarithmic draws, and for bolstered draws that stay in range."
  },
  {
   "property": "C18",
   "status": "proved",
   "theorems": [
    "C18_table_shape",
    "C18_constant_columns",
    "C18_generation_succeeds",
    "C18_nonpositive_count"
   ],
   "note": "Includes success for every storable sample with uniform or bolstered settings."
  },
  {
   "property": "C19",
   "status": "partial",
   "theorems": [
    "C19_categories_partial",
    "C19_counts",
    "C19_any_name_refuted"
   ],
   "note": "Proved for layer names without the words thickness and roughness (sld turns out to be harmless); refuted otherwise."
  },
  {
   "property": "C20",
   "status": "proved",
   "theorems": [
    "C20_shape_and_bounds",
    "C20_numbers_for_regular_stacks",
    "C20_smooth_stacks_are_regular",
    "C20_errors",
    "C20_arguments_are_stacks"
   ],
   "note": "Exact arithmetic. Regular = no interface amplitude is exactly +-1; smooth stacks are always regular."
  },
  {
   "property": "C21",
   "status": "proved",
   "theorems": [
    "C21_no_contrast"
   ],
   "note": "Exact arithmetic."
  },
  {
   "property": "C22",
   "status": "proved",
   "theorems": [
    "C22_split_layer",
    "C22_substrate_layer",
    "C22_condition"
   ],
   "note": "Also for a layer of substrate material on the substrate. Side condition holds for every non-amplifying SLD."
  },
  {
   "property": "C23",
   "status": "proved",
   "theorems": [
    "C23_bare_substrate"
   ],
   "note": ""
  },
  {
   "property": "C24",
   "status": "proved",
   "theorems": [
    "C24_parratt",
    "C24_smooth_defined"
   ],
   "note": "Exact arithmetic; for smooth stacks the recursion is shown to be always defined."
  },
  {
   "property": "C25",
   "status": "partial",
   "theorems": [
    "C25_one_curve_per_row_partial",
    "C25_curve_of_row",
    "C25_refl1d_curve_of_row",
    "C25_bare_substrate_refuted",
    "C25_bare_substrate_refl1d_refuted"
   ],
   "note": "False for a bare substrate: no curve (builtin) or ValueError (refl1d). refl1d itself is an uninterpreted function; the arguments it receives are specified."
  },
  {
   "property": "C26",
   "status": "proved",
   "theorems": [
    "C26_profile",
    "C26_starts_at_substrate",
    "C26_ends_at_ambient",
    "C26_monotone",
    "C26_errors",
    "C26_sharp_interface"
   ],
   "note": "erf is an arbitrary function; its bounds and monotonicity are assumed only where named (erf_ok)."
  },
  {
   "property": "C27",
   "status": "proved",
   "theorems": [
    "C27_exact_at_points",
    "C27_below_range",
    "C27_above_range",
    "C27_bounded",
    "C27_log_linear",
    "C27_zero_intensity",
    "C27_not_a_number",
    "C27_errors"
   ],
   "note": "np.interp on increasing grids, exact arithmetic; curves with non-positive intensities are modelled as undefined."
  },
  {
   "property": "C28",
   "status": "proved",
   "theorems": [
    "C28_scaling",
    "C28_shift"
   ],
   "note": ""
  },
  {
   "property": "C29",
   "status": "partial",
   "theorems": [
    "C29_mixer_refuted",
    "C29_no_rows"
   ],
   "note": "Every non-empty call raises: the engine name is passed as q_noise_spread."
  },
  {
   "property": "C30",
   "status": "proved",
   "theorems": [
    "C30_statistics_frozen",
    "C30_fresh_otherwise",
    "C30_has_saved",
    "C30_failing_call"
   ],
   "note": "Exact arithmetic; NaN is propagated, a column containing NaN gives NaN statistics and is accepted."
  },
  {
   "property": "C31",
   "status": "proved",
   "theorems": [
    "C31_revert_standardize",
    "C31_first_call"
   ],
   "note": "Exact arithmetic; NaN entries survive the round trip when the saved statistics are finite. C187 has the round trip in double precision."
  },
  {
   "property": "C32",
   "status": "proved",
   "theorems": [
    "C32_zero_mean_unit_variance",
    "C32_constant_column_rejected"
   ],
   "note": "Exact arithmetic, finite columns. In floating point a constant column can have a tiny non-zero deviation and escape the check."
  },
  {
   "property": "C33",
   "status": "proved",
   "theorems": [
    "C33_round_trip",
    "C33_round_trip_ordered"
   ],
   "note": "Also when the preprocessed labels come back as a plain array (network output). Exact arithmetic."
  },
  {
   "property": "C34",
   "status": "proved",
   "theorems": [
    "C34_unit_interval",
    "C34_double_precision",
    "C34_double_value"
   ],
   "note": "Real ranges. Also proved in IEEE double precision (Flocq) for ranges whose width does not overflow; there the order is kept weakly."
  },
  {
   "property": "C35",
   "status": "partial",
   "theorems": [
    "C35_absolute_max_refuted",
    "C35_absolute_max_partial",
    "C35_zero_maximum"
   ],
   "note": "False when |min| > |max| (values below -1) and for maximum 0 (NaN); proved otherwise."
  },
  {
   "property": "C36",
   "status": "proved",
   "theorems": [
    "C36_split_off"
   ],
   "note": "Column names of a table are assumed unique."
  },
  {
   "property": "C37",
   "status": "partial",
   "theorems": [
    "C37_normalisation_applied_refuted",
    "C37_accepted_names",
    "C37_not_interned_unchanged"
   ],
   "note": "False: the code compares with \"is\", so an equal but not interned string is accepted and then ignored. Proved for literals (C33-C36)."
  },
  {
   "property": "C38",
   "status": "proved",
   "theorems": [
    "C38_epoch_batches",
    "C38_batch_count_double",
    "C38_batch_too_large"
   ],
   "note": "The batch count is also proved for the double-precision division the code performs (sizes below 2^53)."
  },
  {
   "property": "C39",
   "status": "proved",
   "theorems": [
    "C39_noise_generator",
    "C39_log_generator",
    "C39_uniform_generator",
    "C39_needs_statistics",
    "C39_base_generator"
   ],
   "note": "All three generators, mode \"single\". The background is added in place to a copy; the stored arrays are shown unchanged in a heap model."
  },
  {
   "property": "C40",
   "status": "partial",
   "theorems": [
    "C40_shot_noise_partial",
    "C40_poisson_noise_partial",
    "C40_type_error",
    "C40_no_curves_refuted",
    "C40_negative_intensity_refuted",
    "C40_zero_noise"
   ],
   "note": "Proved for at least one curve and non-negative intensities (Poisson: positive level, rates within the limit of numpy). False without curves (shape changes) and for negative intensities (NaN)."
  },
  {
   "property": "C41",
   "status": "partial",
   "theorems": [
    "C41_scaling_partial",
    "C41_single_curve_refuted"
   ],
   "note": "False for a two-dimensional array with a single curve, which comes back one-dimensional; proved otherwise. The model function is pure, so the unchanged input is built in."
  },
  {
   "property": "C42",
   "status": "partial",
   "theorems": [
    "C42_noise_refuted",
    "C42_background_refuted",
    "C42_no_ranges",
    "C42_other_mode"
   ],
   "note": "False: every range raises TypeError, because the level is passed as a one-element array. Also: mode strings are compared with \"is\"."
  },
  {
   "property": "C43",
   "status": "proved",
   "theorems": [
    "C43_split",
    "C43_part_sizes",
    "C43_double_precision",
    "C43_train_count",
    "C43_train_count_double",
    "C43_generated_data",
    "C43_no_data",
    "C43_trained_model"
   ],
   "note": "Proved for every split fraction and every rounding, in double precision for up to 2^53 samples; the stored training data are shown to satisfy the assumptions."
  },
  {
   "property": "C44",
   "status": "proved",
   "theorems": [
    "C44_number",
    "C44_range",
    "C44_errors"
   ],
   "note": "Normal draws are bounded only by the oracle contract of the generator."
  },
  {
   "property": "C45",
   "status": "proved",
   "theorems": [
    "C45_keys",
    "C45_entry"
   ],
   "note": "Lines are compared without trailing whitespace. Requires fewer blocks than nested calls allowed by the interpreter (see C49). int() is modelled, words and decimal notation are specified independently."
  },
  {
   "property": "C46",
   "status": "partial",
   "theorems": [
    "C46_roundtrip_partial",
    "C46_no_points_refuted"
   ],
   "note": "False for a scan without data rows and more than one column (ValueError); proved otherwise. float() is an oracle. Names are assumed not to start with \"#\", \"L\" or a blank (see C47)."
  },
  {
   "property": "C47",
   "status": "partial",
   "theorems": [
    "C47_names_partial",
    "C47_first_name_refuted"
   ],
   "note": "False: lstrip(\"#L \") also eats the beginning of the first name. Proved exactly when the text of the names does not begin with one of these characters."
  },
  {
   "property": "C48",
   "status": "partial",
   "theorems": [
    "C48_adjacent_refuted",
    "C48_separated_partial"
   ],
   "note": "False without a blank line between the scans: the first scan is lost. Proved for separated blocks."
  },
  {
   "property": "C49",
   "status": "partial",
   "theorems": [
    "C49_depth_partial",
    "C49_any_limit_refuted"
   ],
   "note": "False: _index_scans recurses once per scan. Exact condition proved."
  },
  {
   "property": "C50",
   "status": "partial",
   "theorems": [
    "C50_fio_cropped_partial",
    "C50_fio_zero_refuted",
    "C50_cropped_partial",
    "C50_zero_refuted"
   ],
   "note": "False for trim_back=0, which removes every point; proved for trim_back >= 1 or None. Both for the SPEC and for the FIO loader."
  },
  {
   "property": "C51",
   "status": "proved",
   "theorems": [
    "C51_kinks_removed"
   ],
   "note": "Exact arithmetic; non-zero finite intensities. With a zero intensity at a kink the rest of the curve is not finite."
  },
  {
   "property": "C52",
   "status": "proved",
   "theorems": [
    "C52_double_precision",
    "C52_max_is_one",
    "C52_first_is_one",
    "C52_scale_invariant",
    "C52_zero_angles",
    "C52_no_normalisation",
    "C52_double_twice",
    "C52_double_value"
   ],
   "note": "Holds with or without footprint parameters and also for unknown beam shapes (which are ignored, see C55). Scale invariance needs no assumption on the data."
  },
  {
   "property": "C53",
   "status": "proved",
   "theorems": [
    "C53_roundtrip",
    "C53_factors_positive"
   ],
   "note": "Factors are finite and positive for all angles in (0,360) and positive geometries (C53_factors_positive)."
  },
  {
   "property": "C54",
   "status": "proved",
   "theorems": [
    "C54_box_factor",
    "C54_continuous",
    "C54_pointwise"
   ],
   "note": "Angles above 180 degrees are excluded: there the code always uses 1."
  },
  {
   "property": "C55",
   "status": "partial",
   "theorems": [
    "C55_invalid_shape_refuted"
   ],
   "note": "False: the ValueError is swallowed and the uncorrected, normalised intensity is returned, for every unknown shape and every scan."
  },
  {
   "property": "C56",
   "status": "proved",
   "theorems": [
    "C56_angle_q_angle",
    "C56_q_angle_q",
    "C56_unreachable",
    "C56_energy",
    "C56_wavelength"
   ],
   "note": "Exact arithmetic. Both copies of the conversion (transform.py and training/footprint.py) are the same formulas and share one model."
  },
  {
   "property": "C57",
   "status": "proved",
   "theorems": [
    "C57_aligned",
    "C57_bounds",
    "C57_q_values"
   ],
   "note": "Scans with as many intensities as angles and at least one point. The bounds are characterised as the closest measured points."
  },
  {
   "property": "C58",
   "status": "proved",
   "theorems": [
    "C58_fio_accepted",
    "C58_fio_other_errors",
    "C58_fio_missing",
    "C58_accepted",
    "C58_other_errors",
    "C58_rejected",
    "C58_missing"
   ],
   "note": "The exact condition for rejection is proved too. A missing intensity column, date line, attenuator or division column is another error and aborts (see C97). The FIO loader has the same property; there a missing file is another error and aborts."
  },
  {
   "property": "C59",
   "status": "proved",
   "theorems": [
    "C59_rectangular",
    "C59_errors",
    "C59_cells"
   ],
   "note": "float() is an oracle. The only error is an IndexError for a column line with fewer than three words, which is not a data line."
  },
  {
   "property": "C60",
   "status": "proved",
   "theorems": [
    "C60_round_trip"
   ],
   "note": "Well-formed files are specified by blocks, column lines and parameter lines; remark lines may occur anywhere. float() is an oracle. At least one data row (without rows the columns are absent)."
  },
  {
   "property": "C61",
   "status": "proved",
   "theorems": [
    "C61_remove_double",
    "C61_twice"
   ],
   "note": "Requires one entry per position in every column, motor and stack. Positions that are not a number never count as equal."
  },
  {
   "property": "C62",
   "status": "proved",
   "theorems": [
    "C62_sums",
    "C62_split_rows",
    "C62_split_columns",
    "C62_split_line"
   ],
   "note": "Regions with non-negative bounds (they may exceed the picture). Exact arithmetic; pixels are real numbers or not finite."
  },
  {
   "property": "C63",
   "status": "partial",
   "theorems": [
    "C63_counter_partial",
    "C63_region_partial",
    "C63_region_refuted"
   ],
   "note": "False for a custom region with the attenuator of the file: the factor is applied twice. Proved for the default counter and for a custom region without an attenuator in the loader."
  },
  {
   "property": "C64",
   "status": "partial",
   "theorems": [
    "C64_stack",
    "C64_all_present_partial",
    "C64_missing_refuted",
    "C64_no_index_refuted",
    "C64_cbf_refuted"
   ],
   "note": "False: a missing file shifts all later pictures, no index column gives black pictures, .cbf files cannot be read. Proved if all files are present. All pictures are assumed to have the same size."
  },
  {
   "property": "C65",
   "status": "partial",
   "theorems": [
    "C65_files",
    "C65_numbers_partial",
    "C65_path",
    "C65_folder_partial",
    "C65_same_number_refuted",
    "C65_other_file_refuted"
   ],
   "note": "False: any other file whose name starts with the stem makes the constructor fail. Proved for folders in which all such files are scan files."
  },
  {
   "property": "C66",
   "status": "partial",
   "theorems": [
    "C66_one_row_per_curve",
    "C66_succeeds_without_polishing_partial",
    "C66_row_order",
    "C66_polishing_refuted"
   ],
   "note": "Success is proved without polishing; with polishing every successful result has the stated shape, but with the default bounds the call fails for a sample with two films (witness). Row order is proved for networks that treat curves independently, without polishing and with at most one optimisation; C69 covers both optimisations."
  },
  {
   "property": "C67",
   "status": "proved",
   "theorems": [
    "C67_lengths_not_negative"
   ],
   "note": "For clean and unclean layer names and all options; NaN is not counted as negative."
  },
  {
   "property": "C68",
   "status": "partial",
   "theorems": [
    "C68_best_shift_partial",
    "C68_best_scaling_partial",
    "C68_undefined_shift",
    "C68_undefined_scaling"
   ],
   "note": "Shift, scaling and parameters always belong to one variant. Minimality is proved if all curves are positive and finite; otherwise numpy picks the first NaN. If the curve has a value in the trained range that is not positive, no error is defined and the first random variant is taken (C68_undefined_shift, C68_undefined_scaling)."
  },
  {
   "property": "C69",
   "status": "partial",
   "theorems": [
    "C69_single_optimisation_ignored",
    "C69_both_optimisations",
    "C69_selected_variant_refuted"
   ],
   "note": "False: with only one optimisation the selected variant is discarded and the plain prediction is returned (proved in general). With both optimisations the parameters are those of the selected scaling variant at the selected shift."
  },
  {
   "property": "C70",
   "status": "proved",
   "theorems": [
    "C70_optional_outputs"
   ],
   "note": ""
  },
  {
   "property": "C71",
   "status": "partial",
   "theorems": [
    "C71_double_precision",
    "C71_start_inside_bounds",
    "C71_accepted_iff",
    "C71_polishing_needs_bounds",
    "C71_bounds_per_label_refuted",
    "C71_double_value"
   ],
   "note": "False: the number of bounds is that of the given fractions, three by default, so samples with more variable labels cannot be polished. The start value is always inside; a start value of exactly zero gives equal bounds, which scipy rejects. Complex labels are not modelled in polishing."
  },
  {
   "property": "C72",
   "status": "partial",
   "theorems": [
    "C72_bounds_relative_to_minimum",
    "C72_documented_bounds_partial",
    "C72_documented_bounds_refuted"
   ],
   "note": "False: the fraction is applied to the distance from the lower end of the training range. Exact formula proved; the documented bounds hold for ranges that start at zero."
  },
  {
   "property": "C73",
   "status": "partial",
   "theorems": [
    "C73_unchanged_partial",
    "C73_old_data_refuted",
    "C73_witness_refuted"
   ],
   "note": "False: the fitter reads from the loader made by set_file; the reloaded one is never used. Proved as long as file and parameters are unchanged since set_file."
  },
  {
   "property": "C74",
   "status": "partial",
   "theorems": [
    "C74_reload",
    "C74_parameters_kept",
    "C74_data_kept_partial",
    "C74_data_kept_refuted"
   ],
   "note": "Proved for reload=True and for the parameters with reload=False. False for the data with reload=False: scans are read from disk at the time of the fit."
  },
  {
   "property": "C75",
   "status": "partial",
   "theorems": [
    "C75_fio_file_missing",
    "C75_fio_not_loaded",
    "C75_spec_refuted",
    "C75_spec_no_date_refuted",
    "C75_spec_never_none_refuted"
   ],
   "note": "True for FioFitter. False for SpecFitter, which raises NotReflectivityScanError or (no date or column) AttributeError and never returns None."
  },
  {
   "property": "C76",
   "status": "partial",
   "theorems": [
    "C76_spec_shift",
    "C76_fio_refuted",
    "C76_fio_error_refuted"
   ],
   "note": "True for SpecFitter. False for FioFitter: TypeError for every scan that can be fitted."
  },
  {
   "property": "C77",
   "status": "proved",
   "theorems": [
    "C77_one_source",
    "C77_none_or_both",
    "C77_accepted",
    "C77_refused"
   ],
   "note": ""
  },
  {
   "property": "C78",
   "status": "partial",
   "theorems": [
    "C78_spec_order",
    "C78_fio_order",
    "C78_spec_aligned",
    "C78_fio_aligned",
    "C78_spec_empty_refuted",
    "C78_fio_empty_refuted"
   ],
   "note": "Order, index and alignment are proved for both fitters. False if no scan could be fitted: ValueError."
  },
  {
   "property": "C79",
   "status": "proved",
   "theorems": [
    "C79_predicted",
    "C79_corrected",
    "C79_same_directory",
    "C79_different_names",
    "C79_one_value",
    "C79_other_lengths"
   ],
   "note": "Numbers are formatted by an oracle; the target directory exists. The pieces that name a path are a directory prefix and a plain file name; the shape of the name is also proved for every path."
  },
  {
   "property": "C80",
   "status": "partial",
   "theorems": [
    "C80_series_error_refuted"
   ],
   "note": "False for every series: the property asks for an attribute that does not exist."
  },
  {
   "property": "C81",
   "status": "proved",
   "theorems": [
    "C81_symmetric",
    "C81_not_negative",
    "C81_lengths_differ",
    "C81_vectors",
    "C81_matrices",
    "C81_zero_iff_equal"
   ],
   "note": "Arrays with one or two dimensions, with broadcasting."
  },
  {
   "property": "C82",
   "status": "partial",
   "theorems": [
    "C82_round_trip",
    "C82_name_refuted",
    "C82_missing"
   ],
   "note": "Proved for names with the extension .h5 or .hdf5. False without: load_data does not add the extension. Label columns are real; an info entry that is not a group is excluded (TypeError)."
  },
  {
   "property": "C83",
   "status": "proved",
   "theorems": [
    "C83_extension",
    "C83_unchanged",
    "C83_appended",
    "C83_idempotent"
   ],
   "note": ""
  },
  {
   "property": "C84",
   "status": "proved",
   "theorems": [
    "C84_rows",
    "C84_same_ratio",
    "C84_apply_then_correct",
    "C84_footprint_value",
    "C84_constructor",
    "C84_first",
    "C84_first_empty"
   ],
   "note": "Positive curves, angles in (0,360), positive ratios and errors. Also: constructor argument rules and the value of the applied footprint. normalize_to_first keeps the first value."
  },
  {
   "property": "C85",
   "status": "proved",
   "theorems": [
    "C85_energy"
   ],
   "note": "Exact arithmetic."
  },
  {
   "property": "C86",
   "status": "proved",
   "theorems": [
    "C86_vanishing_layer"
   ],
   "note": ""
  },
  {
   "property": "C87",
   "status": "proved",
   "theorems": [
    "C87_even_in_q"
   ],
   "note": ""
  },
  {
   "property": "C88",
   "status": "partial",
   "theorems": [
    "C88_one_profile_per_row_partial",
    "C88_bare_substrate_refuted"
   ],
   "note": "False for a bare substrate (IndexError)."
  },
  {
   "property": "C89",
   "status": "partial",
   "theorems": [
    "C89_single_curve_refuted",
    "C89_uniform_shape_partial"
   ],
   "note": "False for batch size 1; proved for larger sizes."
  },
  {
   "property": "C90",
   "status": "partial",
   "theorems": [
    "C90_callback_verbosity_refuted"
   ],
   "note": "False: the verbosity of the callback is always 1."
  },
  {
   "property": "C91",
   "status": "partial",
   "theorems": [
    "C91_one_sample_refuted",
    "C91_nonpositive"
   ],
   "note": "False for one sample; the trainer keeps the new data but no matching preprocessor."
  },
  {
   "property": "C92",
   "status": "partial",
   "theorems": [
    "C92_batch_size",
    "C92_documented_condition_partial",
    "C92_documented_condition_refuted",
    "C92_no_validation"
   ],
   "note": "Exact condition proved; the documented one is insufficient for val_split > 1/2, and val_split = 0 never works."
  },
  {
   "property": "C93",
   "status": "partial",
   "theorems": [
    "C93_between_limits_partial",
    "C93_last_point_refuted"
   ],
   "note": "False at both ends: the point closest to q_max is always dropped and a point just below q_min may be returned. Proved up to one point at each end."
  },
  {
   "property": "C94",
   "status": "proved",
   "theorems": [
    "C94_gaussian_factor",
    "C94_at_least_one",
    "C94_decreasing",
    "C94_thin_beam",
    "C94_angle_zero",
    "C94_no_sample"
   ],
   "note": "erf is an oracle constrained by erf_ok and erf_positive."
  },
  {
   "property": "C95",
   "status": "proved",
   "theorems": [
    "C95_stats",
    "C95_empty_scan"
   ],
   "note": "Finite q values."
  },
  {
   "property": "C96",
   "status": "proved",
   "theorems": [
    "C96_loaded",
    "C96_attenuated"
   ],
   "note": "float() is an oracle; column names are unique; fewer blocks than nested calls."
  },
  {
   "property": "C97",
   "status": "partial",
   "theorems": [
    "C97_no_date_refuted"
   ],
   "note": "False for scans without a date line, for every such file."
  },
  {
   "property": "C98",
   "status": "partial",
   "theorems": [
    "C98_both_motors_partial",
    "C98_test",
    "C98_other_motor_refuted",
    "C98_no_command_refuted"
   ],
   "note": "False for motor names that merely contain the searched text and for files without a command, which make the constructor fail. The condition tested is characterised exactly."
  },
  {
   "property": "C99",
   "status": "proved",
   "theorems": [
    "C99_one_motor",
    "C99_two_motors",
    "C99_three_motors",
    "C99_hkl"
   ],
   "note": "Commands whose arguments do not contain the text \"scan\"."
  },
  {
   "property": "C100",
   "status": "partial",
   "theorems": [
    "C100_q",
    "C100_same_as_loaded_scan",
    "C100_wavelength_refuted"
   ],
   "note": "False for the wavelength: 12380/E is used instead of 12398/E, so q is too large by a factor of 12398/12380. Proved for the formula and for the agreement with the loaded scan."
  },
  {
   "property": "C101",
   "status": "partial",
   "theorems": [
    "C101_combined",
    "C101_thinned",
    "C101_again_refuted",
    "C101_no_attenuator_refuted"
   ],
   "note": "The pixel formula is proved for pictures of one size and for scans whose repeated points are removed (C101_thinned reduces the others to these). False: the arguments are changed, so a second call attenuates twice; scans without an attenuator column raise TypeError. The scans are assumed to be different objects."
  },
  {
   "property": "C102",
   "status": "partial",
   "theorems": [
    "C102_loaded_partial",
    "C102_loaded_without_pictures_partial",
    "C102_division_refuted"
   ],
   "note": "False with a division counter: every call fails. Proved without. The detector pictures have to be readable, because they are always loaded."
  },
  {
   "property": "C103",
   "status": "partial",
   "theorems": [
    "C103_slds_unchanged",
    "C103_idempotent",
    "C103_any_layer_name_refuted"
   ],
   "note": "False for layer names that contain one of the two words."
  },
  {
   "property": "C104",
   "status": "partial",
   "theorems": [
    "C104_input_correction_partial",
    "C104_input_correction_ignored_refuted"
   ],
   "note": "False with both optimisations: the result is independent of dq and factor. Proved otherwise."
  },
  {
   "property": "C105",
   "status": "proved",
   "theorems": [
    "C105_shift_variants",
    "C105_scaling_variants"
   ],
   "note": ""
  },
  {
   "property": "C106",
   "status": "partial",
   "theorems": [
    "C106_true_partial",
    "C106_false_refuted"
   ],
   "note": "False: a positional False is taken for the default True."
  },
  {
   "property": "C107",
   "status": "proved",
   "theorems": [
    "C107_minutes",
    "C107_no_time",
    "C107_unreadable",
    "C107_fio_none"
   ],
   "note": "Times are seconds given by an oracle for strptime. FIO scans have no time."
  },
  {
   "property": "C108",
   "status": "proved",
   "theorems": [
    "C108_error",
    "C108_positive",
    "C108_not_finite",
    "C108_lengths"
   ],
   "note": "Rounding is a parameter; NaN and infinities are not distinguished."
  },
  {
   "property": "C109",
   "status": "partial",
   "theorems": [
    "C109_directory_exists",
    "C109_same_directory",
    "C109_paths",
    "C109_different_models",
    "C109_dotted_refuted",
    "C109_exists",
    "C109_created"
   ],
   "note": "Proved for model names without dots. False otherwise: the part after the last dot is dropped, so the models run.1 and run.2 share their files. Existence of the directories is proved for every name."
  },
  {
   "property": "C110",
   "status": "partial",
   "theorems": [
    "C110_absolute",
    "C110_relative",
    "C110_arrays",
    "C110_wrong_width",
    "C110_vector",
    "C110_vector_one_name",
    "C110_absolute_complete",
    "C110_relative_complete",
    "C110_zero_iff_equal",
    "C110_named_index_refuted",
    "C110_one_named_index_refuted"
   ],
   "note": "True for tables without a named index, for any order of columns and any index values. False if both tables have a named index (the tables of fit results do): KeyError; with one named index its name appears as a label."
  },
  {
   "property": "C111",
   "status": "partial",
   "theorems": [
    "C111_numbers",
    "C111_fio",
    "C111_spec_partial",
    "C111_no_date_refuted",
    "C111_empty_refuted",
    "C111_fio_call",
    "C111_spec_call_partial"
   ],
   "note": "True for FIO. SPEC scans without a date are listed as not found, and a file without scans raises ValueError. Also for the calls that load the data anew first."
  },
  {
   "property": "C112",
   "status": "proved",
   "theorems": [
    "C112_spec",
    "C112_fio",
    "C112_shapes",
    "C112_fits_without_polishing"
   ],
   "note": "Success is proved without polishing and for the normalisations \"max\" and \"first\"."
  },
  {
   "property": "C113",
   "status": "partial",
   "theorems": [
    "C113_factor_one_partial",
    "C113_factor_partial",
    "C113_factor_refuted"
   ],
   "note": "False for factors other than 1 (exact relation proved for every positive factor). Stated through the reported parameters, without polishing and with at most one optimisation."
  },
  {
   "property": "C114",
   "status": "proved",
   "theorems": [
    "C114_sorted",
    "C114_distinct",
    "C114_file_name",
    "C114_styles"
   ],
   "note": "The clock is a parameter."
  },
  {
   "property": "C115",
   "status": "partial",
   "theorems": [
    "C115_old_limits_refuted",
    "C115_new_file_partial"
   ],
   "note": "False if the file exists: attributes of labels that the new data lack are kept. Proved for new files."
  },
  {
   "property": "C116",
   "status": "proved",
   "theorems": [
    "C116_noise",
    "C116_background",
    "C116_data_kept",
    "C116_data_keeps_noise"
   ],
   "note": ""
  },
  {
   "property": "C117",
   "status": "proved",
   "theorems": [
    "C117_one_row_per_curve",
    "C117_evaluation"
   ],
   "note": "The network is an oracle that returns one row per curve."
  },
  {
   "property": "C118",
   "status": "proved",
   "theorems": [
    "C118_series_profiles",
    "C118_profile_of_result",
    "C118_one_per_result"
   ],
   "note": "erf is a parameter; parameters that are not finite are excluded."
  },
  {
   "property": "C119",
   "status": "proved",
   "theorems": [
    "C119_int_of_text"
   ],
   "note": ""
  },
  {
   "property": "C120",
   "status": "proved",
   "theorems": [
    "C120_uniform_noise"
   ],
   "note": ""
  },
  {
   "property": "C121",
   "status": "proved",
   "theorems": [
    "C121_network_contract",
    "C121_wrong_length",
    "C121_trained_model"
   ],
   "note": "Exact arithmetic; values that are not finite stay not finite."
  },
  {
   "property": "C122",
   "status": "partial",
   "theorems": [
    "C122_outputs_not_negative",
    "C122_not_below_minimum",
    "C122_targets_reached_partial",
    "C122_absolute_max_refuted",
    "C122_trainer_targets"
   ],
   "note": "False for absolute_max: negative labels (e.g. a negative SLD) are normalised to negative targets, which a ReLU output cannot reach."
  },
  {
   "property": "C123",
   "status": "proved",
   "theorems": [
    "C123_sensitivity"
   ],
   "note": ""
  },
  {
   "property": "C124",
   "status": "proved",
   "theorems": [
    "C124_generation",
    "C124_train_and_fit"
   ],
   "note": "keras fit is an oracle that succeeds and keeps the layers. A constant column of intensities is a ValueError after the data are stored, as the statement says."
  },
  {
   "property": "C125",
   "status": "proved",
   "theorems": [
    "C125_gaussian",
    "C125_sign_of_width",
    "C125_zero_width"
   ],
   "note": ""
  },
  {
   "property": "C126",
   "status": "partial",
   "theorems": [
    "C126_lorentzian_partial",
    "C126_symmetric_refuted",
    "C126_zero_position_refuted"
   ],
   "note": "Maxima, evenness and half height proved; the symmetry about the position is false (the curve is a resonance in the squares), and position zero gives a pole."
  },
  {
   "property": "C127",
   "status": "proved",
   "theorems": [
    "C127_gaussians",
    "C127_voigtians",
    "C127_pair",
    "C127_order",
    "C127_total"
   ],
   "note": ""
  },
  {
   "property": "C128",
   "status": "partial",
   "theorems": [
    "C128_simple_fit_partial",
    "C128_voigt_fit_partial",
    "C128_voigt_failure_refuted",
    "C128_no_peaks_refuted",
    "C128_name_refuted",
    "C128_unknown_detector"
   ],
   "note": "Proved for distinct peak names other than data/fit. False otherwise: a peak named \"fit\" replaces the fit, no peaks at all are an UnboundLocalError, failures of multiVoigtFit are swallowed, and the background starts from the last entry of any type."
  },
  {
   "property": "C129",
   "status": "partial",
   "theorems": [
    "C129_one_of_each_partial",
    "C129_refused_partial",
    "C129_two_lorentzians_refuted"
   ],
   "note": "One of each proved in both orders. False: two Lorentzians are accepted, and the second one is shown under both names."
  },
  {
   "property": "C130",
   "status": "partial",
   "theorems": [
    "C130_simple_partial",
    "C130_pair_partial",
    "C130_weights",
    "C130_voigt_refuted"
   ],
   "note": "Proved for simpleFit and gaussLorentzianFit where the logarithms are finite. False for multiVoigtFit, which compares log10(curve + 1) with log10(data + 0.1)."
  },
  {
   "property": "C131",
   "status": "partial",
   "theorems": [
    "C131_multi_fit_refuted"
   ],
   "note": "False: the fitted function takes its arguments in the wrong order, so every call fails."
  },
  {
   "property": "C132",
   "status": "partial",
   "theorems": [
    "C132_export_partial",
    "C132_lines",
    "C132_unknown_motor_refuted"
   ],
   "note": "Contents proved; false that unknown motors are refused: the first motor is exported."
  },
  {
   "property": "C133",
   "status": "partial",
   "theorems": [
    "C133_written",
    "C133_line_detector_refuted",
    "C133_combined_written",
    "C133_no_pictures"
   ],
   "note": "Line detectors give an IndexError."
  },
  {
   "property": "C134",
   "status": "partial",
   "theorems": [
    "C134_region_partial",
    "C134_all_refuted"
   ],
   "note": "Proved for the regions; the panel of the whole picture is divided by the number of pictures."
  },
  {
   "property": "C135",
   "status": "partial",
   "theorems": [
    "C135_panels_partial",
    "C135_too_many_refuted"
   ],
   "note": "Proved if the rounded square root k of the number of panels satisfies n <= k * k; otherwise a ValueError, e.g. for one region."
  },
  {
   "property": "C136",
   "status": "partial",
   "theorems": [
    "C136_signal_counter",
    "C136_ub_matrix_partial",
    "C136_missing",
    "C136_separators_refuted"
   ],
   "note": "Signal counter proved; UB matrix proved for numbers separated by blanks. False for commas and semicolons: the rows are split at blanks only."
  },
  {
   "property": "C137",
   "status": "partial",
   "theorems": [
    "C137_header_only_partial",
    "C137_late_parameters_refuted"
   ],
   "note": "Proved for files whose parameters precede the data; later parameters are missed."
  },
  {
   "property": "C138",
   "status": "partial",
   "theorems": [
    "C138_lambda",
    "C138_lambda_missing",
    "C138_eiger",
    "C138_profiles",
    "C138_others",
    "C138_matching_partial",
    "C138_order_ignored",
    "C138_matching_refuted",
    "C138_detectors"
   ],
   "note": "Selections proved for all scans; matching of points and pictures proved for increasing indices that are all in the file, false otherwise (witness). The order of listdir matters only with several master files, which the eiger theorem excludes."
  },
  {
   "property": "C139",
   "status": "partial",
   "theorems": [
    "C139_same_order_partial",
    "C139_removed_twice_refuted",
    "C139_profiles_refuted"
   ],
   "note": "Proved without index columns and line detector; with an index column points are removed twice, profiles of the line detector are never removed."
  },
  {
   "property": "C140",
   "status": "proved",
   "theorems": [
    "C140_column_lengths",
    "C140_accepted",
    "C140_distinct",
    "C140_repeated",
    "C140_errors",
    "C140_all_equal"
   ],
   "note": "A file in which all names are equal is accepted with too many points (witness)."
  },
  {
   "property": "C141",
   "status": "proved",
   "theorems": [
    "C141_predicted_values"
   ],
   "note": "Exact arithmetic; any network that returns one row of outputs per curve."
  },
  {
   "property": "C142",
   "status": "proved",
   "theorems": [
    "C142_recovers_labels",
    "C142_reproduces_curves"
   ],
   "note": ""
  },
  {
   "property": "C143",
   "status": "proved",
   "theorems": [
    "C143_returned_curves"
   ],
   "note": ""
  },
  {
   "property": "C144",
   "status": "partial",
   "theorems": [
    "C144_polishing_not_worse_partial",
    "C144_negative_bounds_refuted"
   ],
   "note": "Proved for values and bounds scipy leaves untouched (distance to the bounds above 1e-10) and lower bounds of lengths >= 0. False otherwise: the absolute value taken after polishing moves the optimum (witness)."
  },
  {
   "property": "C145",
   "status": "partial",
   "theorems": [
    "C145_text",
    "C145_curves",
    "C145_known",
    "C145_unit_refuted",
    "C145_lengths",
    "C145_rows"
   ],
   "note": "Text and lines proved for layer names without thickness and roughness; a layer whose name contains one of them has its scattering length density shown in Angstrom (witness)."
  },
  {
   "property": "C146",
   "status": "partial",
   "theorems": [
    "C146_panels",
    "C146_documented_refuted"
   ],
   "note": "Panels proved for labels of the sample; the documented values thickness, roughness and sld give a KeyError."
  },
  {
   "property": "C147",
   "status": "partial",
   "theorems": [
    "C147_one_profile",
    "C147_profiles",
    "C147_colours",
    "C147_colours_refuted",
    "C147_single_refuted"
   ],
   "note": "Profiles proved. Colours are evenly spread over the results while the colour bar is linear in the scan number: they agree exactly if the scan numbers ascend with constant distance (false for 1, 2, 10)."
  },
  {
   "property": "C148",
   "status": "partial",
   "theorems": [
    "C148_all",
    "C148_selected",
    "C148_beyond",
    "C148_empty",
    "C148_append",
    "C148_numbers_refuted",
    "C148_append_refused",
    "C148_raw",
    "C148_corrected"
   ],
   "note": "Proved with scan_range as positions in the series; false for scan numbers (witness). Also proved for the plots of one scan."
  },
  {
   "property": "C149",
   "status": "partial",
   "theorems": [
    "C149_text",
    "C149_unambiguous",
    "C149_index",
    "C149_printed_index_refuted",
    "C149_missing_sld",
    "C149_missing_length"
   ],
   "note": "Text and injectivity proved (str of machine numbers is injective: contract show_ok); printed numbers count the layers without the substrate, indices start at the substrate, so sample[i] is another layer than the one printed as [i] (witness)."
  },
  {
   "property": "C150",
   "status": "partial",
   "theorems": [
    "C150_real",
    "C150_refused",
    "C150_complex_refuted",
    "C150_numpy_refuted"
   ],
   "note": "Proved for real values. Complex Python values cannot even be compared with themselves; numpy complex values with equal real part compare equal (witness)."
  },
  {
   "property": "C151",
   "status": "partial",
   "theorems": [
    "C151_ranges",
    "C151_missing_refuted"
   ],
   "note": "Proved for ordinary layers; a ConstantLayer accepts a pair as SLD and then has no ranges (witness)."
  },
  {
   "property": "C152",
   "status": "proved",
   "theorems": [
    "C152_decay",
    "C152_numbers"
   ],
   "note": "Proved, including rough interfaces."
  },
  {
   "property": "C153",
   "status": "proved",
   "theorems": [
    "C153_bounds",
    "C153_limit"
   ],
   "note": "Proved in exact arithmetic."
  },
  {
   "property": "C154",
   "status": "proved",
   "theorems": [
    "C154_total_reflection"
   ],
   "note": "Proved for the bare substrate."
  },
  {
   "property": "C155",
   "status": "proved",
   "theorems": [
    "C155_roughness_lowers",
    "C155_below_the_edge"
   ],
   "note": "Proved in exact arithmetic; the rise below the edge is of the order of the artificial absorption 1e-30."
  },
  {
   "property": "C156",
   "status": "proved",
   "theorems": [
    "C156_opaque_film",
    "C156_thick_film"
   ],
   "note": "Proved for smooth interfaces."
  },
  {
   "property": "C157",
   "status": "partial",
   "theorems": [
    "C157_at_least_minimum",
    "C157_monotone",
    "C157_round_trip",
    "C157_minimum",
    "C157_range_refuted",
    "C157_below_one",
    "C157_exact_width",
    "C157_exact_ranges",
    "C157_restored_value"
   ],
   "note": "Bounds and round trip proved; the restored maximum of the range 0.3 to 0.9 is 0.9000000000000001 (witness). Labels of type float32, as predicted by the network, are outside the model. C157_below_one: every value below 1 is restored to at most the maximum, so only 1 itself is affected. If the width of the range is a double number, as for a minimum of 0 or a positive minimum of at least half of the maximum, 1 is restored to the maximum exactly (C157_exact_width, C157_exact_ranges)."
  },
  {
   "property": "C158",
   "status": "partial",
   "theorems": [
    "C158_exact_at_points",
    "C158_between_refuted",
    "C158_sides",
    "C158_monotone",
    "C158_value"
   ],
   "note": "Exactness at data points proved; a value beyond both neighbours is computed (witness)."
  },
  {
   "property": "C159",
   "status": "proved",
   "theorems": [
    "C159_continuous",
    "C159_continuous_in_q"
   ],
   "note": "Proved in exact arithmetic, for stacks at which no division by zero occurs (regular)."
  },
  {
   "property": "C160",
   "status": "proved",
   "theorems": [
    "C160_film_of_vacuum"
   ],
   "note": "Proved in exact arithmetic."
  },
  {
   "property": "C161",
   "status": "partial",
   "theorems": [
    "C161_seeded_generator",
    "C161_seeded_trainer",
    "C161_no_seed",
    "C161_bad_seed",
    "C161_last_seed",
    "C161_last_seed_labels",
    "C161_own_seed_refuted"
   ],
   "note": "Reproducibility proved; a seed per object is refuted by two generators. The initial weights of the network come from tensorflow's own random state, which the package never seeds."
  },
  {
   "property": "C162",
   "status": "partial",
   "theorems": [
    "C162_new_model",
    "C162_kept",
    "C162_one_trainer",
    "C162_trained_again",
    "C162_retraining_refuted"
   ],
   "note": "Proved for all histories; that training again leaves earlier models alone is refuted."
  },
  {
   "property": "C163",
   "status": "partial",
   "theorems": [
    "C163_save_load",
    "C163_loaded_kept",
    "C163_sample_refuted"
   ],
   "note": "Saving and loading proved; that a trained model keeps its sample is refuted by a changed sample object."
  },
  {
   "property": "C164",
   "status": "proved",
   "theorems": [
    "C164_sequence",
    "C164_ends",
    "C164_films",
    "C164_out_of_range",
    "C164_inner_slice"
   ],
   "note": "For both sample classes."
  },
  {
   "property": "C165",
   "status": "partial",
   "theorems": [
    "C165_not_a_layer_partial",
    "C165_not_a_layer_refuted"
   ],
   "note": "Refuted for LayerOnSubstrate.add_layer, which ignores such an argument silently."
  },
  {
   "property": "C166",
   "status": "partial",
   "theorems": [
    "C166_right_classes_partial",
    "C166_any_class_refuted",
    "C166_thickness_missing"
   ],
   "note": "Proved for arguments of the right class; the code does not check the class (refuted)."
  },
  {
   "property": "C167",
   "status": "partial",
   "theorems": [
    "C167_copy_partial",
    "C167_copy_class_refuted"
   ],
   "note": "The layers agree; refuted for LayerOnSubstrate, whose copy is a MultilayerStructure that accepts a second variable layer."
  },
  {
   "property": "C168",
   "status": "partial",
   "theorems": [
    "C168_multilayer",
    "C168_layer_on_substrate_partial",
    "C168_layer_on_substrate_refuted"
   ],
   "note": "Proved with at most one film; with two or more films from_dict always raises ValueError and keeps only the lowest film (refuted)."
  },
  {
   "property": "C169",
   "status": "proved",
   "theorems": [
    "C169_own_q_values",
    "C169_at_most_one",
    "C169_log_linear",
    "C169_rows",
    "C169_ragged",
    "C169_errors",
    "C169_append",
    "C169_length"
   ],
   "note": "Exact arithmetic; finite q values."
  },
  {
   "property": "C170",
   "status": "partial",
   "theorems": [
    "C170_kernel",
    "C170_symmetric",
    "C170_sum_partial",
    "C170_sum_refuted",
    "C170_empty",
    "C170_negative"
   ],
   "note": "Everything proved except that the sum is one, which holds exactly if nothing is cut off (refuted otherwise: the cut comes after the normalisation). Exact arithmetic, no underflow."
  },
  {
   "property": "C171",
   "status": "partial",
   "theorems": [
    "C171_transparent",
    "C171_prints_refuted",
    "C171_keyword_refuted",
    "C171_known_keywords"
   ],
   "note": "Transparency proved; printing refuted (it never happens, and a keyword time=True is a TypeError)."
  },
  {
   "property": "C172",
   "status": "partial",
   "theorems": [
    "C172_rows_partial",
    "C172_single",
    "C172_dimension",
    "C172_no_curves_refuted"
   ],
   "note": "Proved for at least one curve; for zero curves the number of dimensions is lost (refuted)."
  },
  {
   "property": "C173",
   "status": "partial",
   "theorems": [
    "C173_pairs_partial",
    "C173_single_line_refuted",
    "C173_different_lengths",
    "C173_single_column"
   ],
   "note": "Proved for two or more lines and for ragged, single-column and empty files; a file with a single line is not loaded (refuted, IndexError)."
  },
  {
   "property": "C174",
   "status": "proved",
   "theorems": [
    "C174_round_trip",
    "C174_array",
    "C174_wrap"
   ],
   "note": "Numeric labels."
  },
  {
   "property": "C175",
   "status": "proved",
   "theorems": [
    "C175_spec_no_file",
    "C175_fio_no_file",
    "C175_spec_parameters_first",
    "C175_fio_parameters_first",
    "C175_spec_ready",
    "C175_fio_ready",
    "C175_no_model"
   ],
   "note": ""
  },
  {
   "property": "C176",
   "status": "proved",
   "theorems": [
    "C176_units",
    "C176_smooth_defined",
    "C176_decay"
   ],
   "note": ""
  },
  {
   "property": "C177",
   "status": "proved",
   "theorems": [
    "C177_generated_data",
    "C177_succeeds"
   ],
   "note": ""
  },
  {
   "property": "C178",
   "status": "partial",
   "theorems": [
    "C178_round_trip",
    "C178_load",
    "C178_save",
    "C178_other_names",
    "C178_failed_save_refuted",
    "C178_failed_load_partial",
    "C178_failed_load_refuted",
    "C178_failed_load_state",
    "C178_failed_load_network",
    "C178_nothing_to_load",
    "C178_failed_save_state",
    "C178_nothing_to_save"
   ],
   "note": "The two statements about failed calls are false of the code (C178_failed_save_refuted, C178_failed_load_refuted); C178_failed_load_partial holds when no model is found."
  },
  {
   "property": "C179",
   "status": "partial",
   "theorems": [
    "C179_training",
    "C179_checkpoint_refuted",
    "C179_same_second_refuted",
    "C179_batches"
   ],
   "note": "The statements about loading checkpoints and about trainings within one second are false of the code (C179_checkpoint_refuted, C179_same_second_refuted). keras callbacks are modelled from their documentation and source (trusted base)."
  },
  {
   "property": "C180",
   "status": "partial",
   "theorems": [
    "C180_rate",
    "C180_no_loss",
    "C180_restart_refuted",
    "C180_trainer"
   ],
   "note": "That every training starts with the rate of a new model is false of the code (C180_restart_refuted). Rates are real numbers."
  },
  {
   "property": "C181",
   "status": "proved",
   "theorems": [
    "C181_aligned",
    "C181_nothing_else",
    "C181_probabilities",
    "C181_refused_draw",
    "C181_drawn_model",
    "C181_probabilities_exist",
    "C181_probabilities_valid",
    "C181_common_factor",
    "C181_no_weight",
    "C181_double_range",
    "C181_double_total",
    "C181_double_order",
    "C181_double_value"
   ],
   "note": "np.random.choice is an oracle. Simulation itself is C29, where every non-empty call fails. The weights of the double precision theorems are floats; their sum is computed from left to right."
  },
  {
   "property": "C182",
   "status": "proved",
   "theorems": [
    "C182_value",
    "C182_zero_iff",
    "C182_undefined",
    "C182_lengths",
    "C182_error"
   ],
   "note": "Real arithmetic; simulation is an argument as in the model of the fit."
  },
  {
   "property": "C183",
   "status": "proved",
   "theorems": [
    "C183_same_curve",
    "C183_no_recovery",
    "C183_roughness",
    "C183_density"
   ],
   "note": "Builtin engine, no scaling spread, real and complex arithmetic without rounding."
  },
  {
   "property": "C184",
   "status": "proved",
   "theorems": [
    "C184_no_q_values",
    "C184_lengths",
    "C184_shifts",
    "C184_factors",
    "C184_accepted"
   ],
   "note": "The network and curve_fit are arguments; acceptance is for runs without optimisation and polishing."
  },
  {
   "property": "C185",
   "status": "proved",
   "theorems": [
    "C185_batches",
    "C185_default_input",
    "C185_too_few",
    "C185_order",
    "C185_shuffled",
    "C185_in_use"
   ],
   "note": "Arguments by keyword; the mode is left out or 'single' (C42 shows that 'batch' fails with ranges); UniformNoiseGenerator needs two curves per batch (C89). C185_in_use is about any sequence of accesses, epochs and other random draws."
  },
  {
   "property": "C186",
   "status": "partial",
   "theorems": [
    "C186_error_bounds",
    "C186_relative_error",
    "C186_selection",
    "C186_first",
    "C186_zero",
    "C186_zero_refuted"
   ],
   "note": "The logarithms are given as floats; no overflow. That only equal curves have the error 0 is refuted (underflow)."
  },
  {
   "property": "C187",
   "status": "proved",
   "theorems": [
    "C187_value",
    "C187_monotone",
    "C187_mean",
    "C187_round_trip",
    "C187_not_exact"
   ],
   "note": "One entry with given finite mean and standard deviation; no overflow."
  },
  {
   "property": "C188",
   "status": "proved",
   "theorems": [
    "C188_first_batch",
    "C188_later_batches",
    "C188_single_curve",
    "C188_missing_labels"
   ],
   "note": "Later batches use any state of the random numbers. Missing labels: for accesses that succeed with enough labels."
  },
  {
   "property": "C189",
   "status": "proved",
   "theorems": [
    "C189_range",
    "C189_order",
    "C189_value",
    "C189_maximum_reached",
    "C189_factor"
   ],
   "note": "One number per draw. That numpy computes low + (high - low) * u with u at most 1 - 2^-53 is an assumption about numpy."
  },
  {
   "property": "C190",
   "status": "proved",
   "theorems": [
    "C190_length",
    "C190_zero",
    "C190_negative"
   ],
   "note": "Two-dimensional curves; batches of BaseGenerator without batch functions."
  },
  {
   "property": "C191",
   "status": "proved",
   "theorems": [
    "C191_value",
    "C191_metric",
    "C191_factor",
    "C191_not_positive",
    "C191_lengths"
   ],
   "note": "One-dimensional arrays, exact numbers."
  },
  {
   "property": "C192",
   "status": "proved",
   "theorems": [
    "C192_rescaled",
    "C192_value"
   ],
   "note": "The values of np.max are given; it makes no rounding errors."
  },
  {
   "property": "C193",
   "status": "proved",
   "theorems": [
    "C193_value",
    "C193_order",
    "C193_back",
    "C193_not_exact"
   ],
   "note": "No overflow or underflow occurs in the stated range."
  },
  {
   "property": "C194",
   "status": "proved",
   "theorems": [
    "C194_distinct",
    "C194_name"
   ],
   "note": "Scan numbers of type int."
  },
  {
   "property": "C195",
   "status": "proved",
   "theorems": [
    "C195_heights",
    "C195_last",
    "C195_end_passed"
   ],
   "note": "How numpy computes np.arange is an assumption about numpy."
  },
  {
   "property": "C196",
   "status": "proved",
   "theorems": [
    "C196_order",
    "C196_strict",
    "C196_merged",
    "C196_all"
   ],
   "note": "No overflow."
  }
 ]
}
