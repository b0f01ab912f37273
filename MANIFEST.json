{
 "claims": [
  {
   "property": "C01",
   "status": "partial",
   "theorems": [
    "C01_surface_never_stale",
    "C01_profile_never_stale",
    "C01_surface_history",
    "C01_profile_history",
    "C01_key_identifies_call",
    "C107_kept_classes_refuted"
   ],
   "note": "Numerics uninterpreted; argument kinds None/bool/int/float/str/tuple/list. Proved for histories without the copying stepheight_level, whose copy starts with the class mask of the surface it came from: refuted for it by C107_kept_classes_refuted (stepheight -6 where a fresh object gives 11)."
  },
  {
   "property": "C02",
   "status": "partial",
   "theorems": [
    "C02_calls_current_when_unshared_partial",
    "C02_view_is_readonly",
    "C02_crop_refuses_assignment",
    "C02_slice_edit_refuted",
    "C02_crop_parent_edit_refuted"
   ],
   "note": "General claim is false of the code (shared memory); proved for histories in which written memory is unshared."
  },
  {
   "property": "C03",
   "status": "partial",
   "theorems": [
    "C03_uncached_inplace_repeats",
    "C03_cached_inplace_never_repeats",
    "C03_stepheight_level_inplace_refuted",
    "C03_stepheight_level_copy_refuted"
   ],
   "note": "True for all operations except the cached mutator stepheight_level, for which it is refuted."
  },
  {
   "property": "C04",
   "status": "proved",
   "theorems": [
    "C04_inplace_agrees_with_copy",
    "C107_variants"
   ],
   "note": "For every operation not decorated with cache; stepheight_level in C107_variants (its heights agree, the classes remembered by the copy do not: C107_kept_classes_refuted)."
  },
  {
   "property": "C05",
   "status": "proved",
   "theorems": [
    "C05_extent_matches_shape"
   ],
   "note": "Histories of API calls; direct assignment to step_x is not an API call. Profile length_um override not covered."
  },
  {
   "property": "C06",
   "status": "proved",
   "theorems": [
    "C06_surface_rejects_incomplete",
    "C06_profile_rejects_incomplete",
    "C06_surface_accepts_complete",
    "C06_profile_accepts_complete"
   ],
   "note": ""
  },
  {
   "property": "C07",
   "status": "proved",
   "theorems": [
    "C07_surfaces",
    "C07_mismatch",
    "C07_other_type",
    "C07_scalar",
    "C07_reflected_sub",
    "C07_gaps"
   ],
   "note": "Ideal real arithmetic; inf/nan from division by zero is a gap."
  },
  {
   "property": "C08",
   "status": "partial",
   "theorems": [
    "C08_characterised",
    "C08_reflexive",
    "C08_symmetric",
    "C08_hash_identical_partial",
    "C08_hash_refuted",
    "C08_not_transitive"
   ],
   "note": "Equality fully characterised. 'Equal surfaces have equal hashes' is false of the code (C08_hash_refuted); proved only for identical data."
  },
  {
   "property": "C09",
   "status": "partial",
   "theorems": [
    "C09_selection",
    "C09_heights",
    "C09_distance_partial",
    "C09_negative_step_refuted",
    "C09_int_index_rejected"
   ],
   "note": "Selection proved for all slices; step equals distance for positive slice steps; negative steps give a negative step size (refuted)."
  },
  {
   "property": "C10",
   "status": "proved",
   "theorems": [
    "C10_center",
    "C10_differences",
    "C10_absorbs_offset"
   ],
   "note": ""
  },
  {
   "property": "C11",
   "status": "proved",
   "theorems": [
    "C11_zero",
    "C11_exists_minimum",
    "C11_absorbs_offset",
    "C11_no_heights"
   ],
   "note": ""
  },
  {
   "property": "C12",
   "status": "partial",
   "theorems": [
    "C12_invert_partial",
    "C12_gaps_refuted"
   ],
   "note": "Proved for surfaces without gaps; with any gap the code turns every height into NaN (C12_gaps_refuted)."
  },
  {
   "property": "C13",
   "status": "proved",
   "theorems": [
    "C13_exact",
    "C13_monotone",
    "C13_invalid"
   ],
   "note": ""
  },
  {
   "property": "C14",
   "status": "proved",
   "theorems": [
    "C14_threshold",
    "C14_rejects",
    "C14_keeps_something",
    "C14_zero_is_identity"
   ],
   "note": "At least one measured point."
  },
  {
   "property": "C15",
   "status": "proved",
   "theorems": [
    "C15_both",
    "C15_highpass_is_difference",
    "C15_bandpass",
    "C15_inplace",
    "C15_errors"
   ],
   "note": "Smoothing kernel is universally quantified (shape preserving, no new gaps)."
  },
  {
   "property": "C16",
   "status": "proved",
   "theorems": [
    "C16_half_at_cutoff",
    "C16_pixel_size_irrelevant",
    "C16_monotone",
    "C16_filter_kernel"
   ],
   "note": "The transfer function of a (continuous, untruncated) Gaussian kernel is the specification; scipy's truncated sampled kernel is not modelled. C16_filter_kernel ties the kernel widths the filter passes to scipy to the steps of the two axes."
  },
  {
   "property": "C17",
   "status": "partial",
   "theorems": [
    "C17_pixels",
    "C17_units",
    "C17_full_extent",
    "C17_nested",
    "C17_errors_partial",
    "C17_negative_end_refuted"
   ],
   "note": "All boxes inside proved; rejection characterised exactly; boxes with negative far end are accepted (refuted)."
  },
  {
   "property": "C18",
   "status": "proved",
   "theorems": [
    "C18_zoom",
    "C18_zoom_one",
    "C18_profile_zoom"
   ],
   "note": ""
  },
  {
   "property": "C19",
   "status": "partial",
   "theorems": [
    "C19_horizontal_partial",
    "C19_vertical_partial",
    "C19_single_row_partial",
    "C19_beyond_rejected",
    "C19_upper_edge_refuted",
    "C19_closest_refuted",
    "C19_negative_refuted"
   ],
   "note": "Line within one step of the requested position, averaging exact, for 0 <= y < height; 'closest', the upper edge and negative positions are refuted."
  },
  {
   "property": "C20",
   "status": "proved",
   "theorems": [
    "C20_contract_satisfiable",
    "C20_decomposition",
    "C20_orthogonal",
    "C20_best_fit",
    "C20_absorbs_polynomial",
    "C20_level_removes_planes",
    "C20_idempotent",
    "C20_defined",
    "C20_profile_decomposition",
    "C20_profile_orthogonal",
    "C20_profile_absorbs_polynomial",
    "C20_profile_idempotent"
   ],
   "note": "Exact real arithmetic. np.linalg.lstsq / np.polyfit enter as an arbitrary function meeting the contract 'returns a minimiser of the residual sum of squares' (explicit hypothesis lsq_contract, shown satisfiable by C20_contract_satisfiable). C20_defined gives the exact success domain: a single row or column with degree >= 1 fails (division by zero span -> LinAlgError)."
  },
  {
   "property": "C21",
   "status": "proved",
   "theorems": [
    "C21_measured_unchanged",
    "C21_shape",
    "C21_nearest_interpolates",
    "C21_nearest",
    "C21_nearest_complete",
    "C21_nearest_range",
    "C21_complete_unchanged",
    "C21_defined",
    "C21_contract_satisfiable",
    "C21_example"
   ],
   "note": "scipy.interpolate.griddata is an arbitrary function meeting the stated contract (reproduces its data points; 'nearest' returns the value of a nearest data point), shown satisfiable. Exact real arithmetic."
  },
  {
   "property": "C22",
   "status": "proved",
   "theorems": [
    "C22_range",
    "C22_means",
    "C22_inequalities",
    "C22_Sq_zero_iff_flat",
    "C22_shape",
    "C22_defined",
    "C22_example"
   ],
   "note": "heights over the reals (no float rounding)"
  },
  {
   "property": "C23",
   "status": "proved",
   "theorems": [
    "C23_shift",
    "C23_permutation",
    "C23_scale",
    "C23_invert"
   ],
   "note": "heights over the reals"
  },
  {
   "property": "C24",
   "status": "partial",
   "theorems": [
    "C24_lower_bound",
    "C24_equality_partial",
    "C24_flat",
    "C24_equality_iff_flat_refuted",
    "C24_plane_value",
    "C24_plane_partial",
    "C24_plane_refuted",
    "C24_Sdr_nonneg",
    "C24_Sdr_flat_refuted",
    "C24_Sdr_two_wide_undefined"
   ],
   "note": "The code is wrong in three places: the bottom-right point enters no triangle, unequal steps are swapped in the cross product, and the projected area loses one step per axis, so a flat surface has Sdr > 0. The true parts and the exact failures are proved."
  },
  {
   "property": "C25",
   "status": "proved",
   "theorems": [
    "C25_nonneg",
    "C25_zero_iff_flat",
    "C25_shift",
    "C25_scale",
    "C25_plane"
   ],
   "note": ""
  },
  {
   "property": "C26",
   "status": "partial",
   "theorems": [
    "C26_gini_range",
    "C26_gini_positive",
    "C26_gini_one_iff_equal",
    "C26_gini_order",
    "C26_gini_nan",
    "C26_range",
    "C26_disallowed",
    "C26_cells_are_blocks",
    "C26_is_number_partial",
    "C26_equal_cells",
    "C26_is_number_refuted",
    "C26_no_cell",
    "C26_example"
   ],
   "note": "\"is a number\" fails when a parameter is 0 in every cell (nan); with no whole cell the answer is 0. Everything else proved."
  },
  {
   "property": "C27",
   "status": "partial",
   "theorems": [
    "C27_fails_exactly_when_dividing",
    "C27_otherwise_distinct_rows_partial",
    "C27_refuted",
    "C104_lines",
    "C104_divides_refuted"
   ],
   "note": "IndexError exactly when nprofiles-1 divides the number of rows. C104_lines and C104_divides_refuted say the same of the whole of depth."
  },
  {
   "property": "C28",
   "status": "partial",
   "theorems": [
    "C28_partition",
    "C28_stepheight",
    "C28_volume_nonneg",
    "C28_volume_positive",
    "C28_shift",
    "C28_ideal",
    "C28_missing_points",
    "C28_levels_refuted"
   ],
   "note": "Non-negativity, partition and shift invariance proved for every complete non-flat surface; with non-measured points stepheight is nan and cavity_volume 0; classes do not match well separated physical levels (threshold is a bin centre)."
  },
  {
   "property": "C29",
   "status": "proved",
   "theorems": [
    "C29_sections",
    "C29_rejects"
   ],
   "note": ""
  },
  {
   "property": "C30",
   "status": "proved",
   "theorems": [
    "C30_Ra_Rq",
    "C30_Rku",
    "C30_Rz_le_Rt",
    "C30_single_section",
    "C30_Rz_le_sum",
    "C30_refinement",
    "C30_example",
    "C30_Rt_empty"
   ],
   "note": ""
  },
  {
   "property": "C31",
   "status": "proved",
   "theorems": [
    "C31_profile_crop",
    "C31_profile_crop_units"
   ],
   "note": ""
  },
  {
   "property": "C32",
   "status": "proved",
   "theorems": [
    "C32_monotone",
    "C32_ends",
    "C32_clamped",
    "C32_within_data",
    "C32_defined",
    "C32_missing_rejected",
    "C32_is_material_ratio"
   ],
   "note": "Ideal real arithmetic; np.polyfit enters as an arbitrary function meeting the least-squares contract, np.argsort as an arbitrary sorting function (sorter_ok: sorted permutation, tie order unspecified as numpy documents)."
  },
  {
   "property": "C33",
   "status": "partial",
   "theorems": [
    "C33_central_region",
    "C33_core_height_nonneg",
    "C33_ratios_range",
    "C33_ratio_order_partial",
    "C33_ratio_order_refuted",
    "C33_sdc",
    "C33_example"
   ],
   "note": "Ideal real arithmetic; np.polyfit enters as an arbitrary function meeting the least-squares contract, np.argsort as an arbitrary sorting function (sorter_ok: sorted permutation, tie order unspecified as numpy documents). Smr1 <= Smr2 is proved for surfaces without equal heights; in general it is false (C33_ratio_order_refuted: plateau slightly narrower than 40 %, ties kept in array order)."
  },
  {
   "property": "C34",
   "status": "partial",
   "theorems": [
    "C34_nonneg",
    "C34_monotone",
    "C34_differences_nonneg",
    "C34_ends",
    "C34_flat",
    "C34_void_value",
    "C34_material_value_partial",
    "C34_material_error",
    "C34_total_void",
    "C34_material_refuted"
   ],
   "note": "Ideal real arithmetic; np.polyfit enters as an arbitrary function meeting the least-squares contract, np.argsort as an arbitrary sorting function (sorter_ok: sorted permutation, tie order unspecified as numpy documents). The void volume is exactly the void below the curve point nearest to the height at ratio p. The material volume is the material above the point BEFORE that one: the last strip is left out (C34_material_refuted; C34_material_error bounds it)."
  },
  {
   "property": "C35",
   "status": "partial",
   "theorems": [
    "C35_nonneg_partial",
    "C35_triangle_areas",
    "C35_defined",
    "C35_total_refuted",
    "C35_area_values"
   ],
   "note": "Ideal real arithmetic; np.polyfit enters as an arbitrary function meeting the least-squares contract, np.argsort as an arbitrary sorting function (sorter_ok: sorted permutation, tie order unspecified as numpy documents). Spk/Svk are non-negative whenever they are numbers; they are 0/0 exactly when Smr1 = 0 / Smr2 = 100, which happens for uniformly distributed heights (C35_total_refuted)."
  },
  {
   "property": "C36",
   "status": "partial",
   "theorems": [
    "C36_range",
    "C36_inverse_partial",
    "C36_monotone_partial",
    "C36_monotone_refuted"
   ],
   "note": "Ideal real arithmetic; np.polyfit enters as an arbitrary function meeting the least-squares contract, np.argsort as an arbitrary sorting function (sorter_ok: sorted permutation, tie order unspecified as numpy documents). Inverse and monotonicity proved for surfaces without equal heights; refuted with ties (Smr below the lowest point can be 50 %)."
  },
  {
   "property": "C37",
   "status": "proved",
   "theorems": [
    "C37_argclosest",
    "C37_argclosest_empty",
    "C37_closest",
    "C37_closest_member"
   ],
   "note": "ideal reals, no NaN in the array"
  },
  {
   "property": "C38",
   "status": "proved",
   "theorems": [
    "C38_passes_through_nodes",
    "C38_linear_between_neighbours",
    "C38_within_bounds",
    "C38_preserves_increasing",
    "C38_preserves_decreasing",
    "C38_clamped_left",
    "C38_clamped_right",
    "C38_order_irrelevant"
   ],
   "note": "distinct nodes"
  },
  {
   "property": "C39",
   "status": "partial",
   "theorems": [
    "C39_normalisation_keeps_function",
    "C39_first_extremum_partial",
    "C39_first_peak_partial",
    "C39_negative_period_refuted"
   ],
   "note": "first_extremum/first_peak need a positive fitted period; refuted for negative period, which is not normalised."
  },
  {
   "property": "C40",
   "status": "proved",
   "theorems": [
    "C40_separates",
    "C40_optimal",
    "C40_shift",
    "C40_levels_refuted",
    "C40_few_bins"
   ],
   "note": ""
  },
  {
   "property": "C41",
   "status": "partial",
   "theorems": [
    "C41_all_grids",
    "C41_lag",
    "C41_shape",
    "C41_symmetric",
    "C41_centre",
    "C41_missing",
    "C41_decay",
    "C41_bounds",
    "C41_defined",
    "C41_str_refuted",
    "C41_flat_refuted",
    "C41_Sal",
    "C41_Str"
   ],
   "note": "Symmetry, centre value = variance, and each lag = mean product over all pairs of points at that lag are proved for every complete surface. Sal is at most the distance of every border point. Str <= 1 is false: C41_str_refuted gives a 2x2 surface with Str > 1 (for scipy's mirrored cubic spline and 4-connected labelling), and constant surfaces raise ValueError (C41_flat_refuted)."
  },
  {
   "property": "C42",
   "status": "partial",
   "theorems": [
    "C42_Ssw_partial",
    "C42_period_partial",
    "C42_period_x_y_partial",
    "C42_orientation_partial",
    "C42_refuted",
    "C42_error_partial",
    "C42_along_x",
    "C42_orientation_refuted",
    "C42_argsort_example"
   ],
   "note": "The property as stated is false of the code: the frequency axes use the extents (M-1)*step instead of M*step, so C42_refuted shows that no plane wave below the Nyquist frequency is ever reported with its true wavelength (C42_along_x: (M-1)*step/k instead of M*step/k), and C42_orientation_refuted that an oblique wave on a non-square grid gets a wrong orientation. Proved instead: the exact values reported by the dominant wavelength, period, period_x_y and orientation for every plane wave, and an error bound of one part in the number of points."
  },
  {
   "property": "C43",
   "status": "partial",
   "theorems": [
    "C43_contract_satisfiable",
    "C43_consistent",
    "C43_metric",
    "C43_micro_spellings_partial",
    "C43_target_spelling_refuted",
    "C43_mojibake_refuted",
    "C43_unknown"
   ],
   "note": "str.lower enters as a contract (lower_ok, shown satisfiable). Consistency, metric values and the errors proved for all unit strings; 'every spelling converts alike in both positions' is false for the single character U+339B as target and for the mis-decoded micro sign."
  },
  {
   "property": "C44",
   "status": "partial",
   "theorems": [
    "C44_roundtrip",
    "C44_size",
    "C44_int_range_partial",
    "C44_single_range",
    "C44_string_truncation_refuted",
    "C44_string_unreadable_refuted",
    "C44_truncated_header",
    "C44_example"
   ],
   "note": "Round trip, size and the rejection of out-of-range numbers proved for all layouts; over-long strings are cut silently (refuted), possibly inside a character."
  },
  {
   "property": "C45",
   "status": "partial",
   "theorems": [
    "C45_roundtrip_partial",
    "C45_flat",
    "C45_flat_gaps_refuted",
    "C45_one_step_refuted",
    "C45_example"
   ],
   "note": "Bit-exact IEEE model (Flocq) of the quantiser, header and reader. Shape, gaps, steps (as singles) and a height error bound 2^-23*max|h| + 2 steps proved for every storable surface with range >= 2^-90 um; flat surfaces without gaps proved separately. The one-step bound, and flat surfaces with gaps, are refuted."
  },
  {
   "property": "C46",
   "status": "partial",
   "theorems": [
    "C46_refuted"
   ],
   "note": "The property is false of the code: for every storable surface the compressed file is written without error and the reader then raises CorruptedFileError."
  },
  {
   "property": "C47",
   "status": "partial",
   "theorems": [
    "C47_float",
    "C47_uint",
    "C47_flat",
    "C47_signed_refuted",
    "C47_gap_refuted",
    "C47_layer_name_refuted",
    "C47_example",
    "C47_layer_names_distinct"
   ],
   "note": "Proved for every surface and compression: float64 storage is bit exact, float32 rounds to single, unsigned 1/2/4-byte storage returns each height within one quantisation step (+2^-47 of the largest magnitude), flat surfaces exactly, steps and ASCII-named image layers kept (a channel axis of length one is dropped). The full property is false of the code: signed storage shifts every height down by the full range (C47_signed_refuted), one gap turns all heights into NaN with integer storage, the default (C47_gap_refuted), a non-ASCII layer name makes the file unreadable (C47_layer_name_refuted). 8-byte integer storage is not analysed."
  },
  {
   "property": "C48",
   "status": "partial",
   "theorems": [
    "C48_binary",
    "C48_size_limit",
    "C48_ascii_refuted",
    "C48_example",
    "C48_same_reader",
    "C48_ascii_whole_refuted"
   ],
   "note": "Binary .sdf: proved for surfaces up to 65535 x 65535 with heights up to 2^100 (not all tinier than 2^-100 unless all zero); heights to a relative 2^-49, steps to 2^-50, gaps kept, larger sizes rejected; contract: libm power of ten lies between 2^-110 and 2^110. ASCII .sdf refuted: every ASCII file the library writes fails to load with ValueError because the repr of the line-break bytes object is written into the header (C48_ascii_refuted; C48_ascii_whole_refuted says it of the complete reader of ModelSdfText, which C48_same_reader shows to be the same function)."
  },
  {
   "property": "C49",
   "status": "partial",
   "theorems": [
    "C49_roundtrip_partial",
    "C49_long_comment",
    "C49_comment_refuted",
    "C49_example"
   ],
   "note": ".tmd round trip proved for ASCII comments and steps between 2^-60 and 2^60 in magnitude, heights come back rounded to single precision and gaps stay gaps, steps to a relative 2^-23. Refuted for non-ASCII comments: the length check counts characters, the field is cut in bytes, and the file written cannot be read (C49_comment_refuted)."
  },
  {
   "property": "C50",
   "status": "proved",
   "theorems": [
    "C50_roundtrip",
    "C50_example"
   ],
   "note": ".al3d: same shape, gaps kept, heights (up to 2^99) within 2^-21 relative + 2^-128 because the file holds metres in single precision, steps within 2^-50; any ASCII-compatible write encoding, any read encoding; contract: repr/float of doubles round-trips in at most 24 printable characters."
  },
  {
   "property": "C51",
   "status": "partial",
   "theorems": [
    "C51_sur_truncated",
    "C51_tmd_truncated",
    "C51_sdf_truncated",
    "C51_al3d_truncated",
    "C51_sflz_truncated",
    "C51_sflz_default_refuted"
   ],
   "note": "Proved for .sur (uncompressed; compressed files are not readable at all, see C46), .tmd, binary .sdf, .al3d and .sflz with image layers read: no proper prefix of a written file loads. With the default read_image_layers=False a .sflz file cut inside the image layers still loads (with the complete heights): C51_sflz_default_refuted."
  },
  {
   "property": "C52",
   "status": "partial",
   "theorems": [
    "C52_declared_format",
    "C52_by_magic",
    "C52_damaged_file",
    "C52_original_error",
    "C52_missing_file",
    "C52_sound",
    "C52_name_independent",
    "C52_renamed_file",
    "C52_original_error_refuted",
    "C52_example"
   ],
   "note": "All clauses proved for arbitrary (terminating) readers and paths, except: the original exception is not reported when the file carries the magic of another format (C52_original_error_refuted)."
  },
  {
   "property": "C53",
   "status": "partial",
   "theorems": [
    "C53_save",
    "C53_rejects",
    "C53_save_buffer",
    "C53_save_load",
    "C53_format_refuted",
    "C53_case_refuted",
    "C53_failed_save_refuted",
    "C53_example"
   ],
   "note": "Proved: exact file contents, nothing else touched, errors without touching the file. False of the code: format does not override (is ignored for paths), the suffix is case sensitive when saving, and a writer that raises leaves a truncated file."
  },
  {
   "property": "C54",
   "status": "proved",
   "theorems": [
    "C54_magics_unambiguous",
    "C54_order_independent",
    "C54_written_magic"
   ],
   "note": "Also: every file written by the five modelled writers carries a magic of its format."
  },
  {
   "property": "C55",
   "status": "partial",
   "theorems": [
    "C55_declared_restores",
    "C55_magic_restores",
    "C55_buffer_needs_format",
    "C55_other_source",
    "C55_failure_refuted",
    "C55_wrong_format_refuted",
    "C55_position_refuted",
    "C53_save_buffer"
   ],
   "note": "Restored after success with the declared format or by magic. False of the code: not restored after failure (and then bytes that load from a file do not load from the buffer); the reader chosen by magic starts at 0, not at the position."
  },
  {
   "property": "C56",
   "status": "partial",
   "theorems": [
    "C56_returns_iff",
    "C56_never_returns_refuted",
    "C56_cut_header_refuted",
    "C56_extensions_terminate",
    "C56_extensions",
    "C56_skips_refuted",
    "C56_lost_heights_refuted",
    "C56_example_extension",
    "C56_example"
   ],
   "note": "Proved: read_header returns exactly when some block raises or holds END (C56_returns_iff); the extension loop always terminates; extensions whose data do not fill whole blocks are all read. FALSE otherwise: a header without END is read for ever (C56_never_returns_refuted, C56_cut_header_refuted), and data filling whole blocks make the reader skip the next header (C56_skips_refuted, C56_lost_heights_refuted)."
  },
  {
   "property": "C57",
   "status": "partial",
   "theorems": [
    "C57_heights_partial",
    "C57_step_refuted",
    "C57_column_order_refuted",
    "C57_rejects"
   ],
   "note": "Proved: heights at their place for files written row by row. FALSE: the step is (n-1)/n of the spacing for every evenly spaced grid (C57_step_refuted), and files in column order come out scrambled (C57_column_order_refuted)."
  },
  {
   "property": "C58",
   "status": "partial",
   "theorems": [
    "C58_parse",
    "C58_sound",
    "C58_brackets",
    "C58_errors",
    "C58_types",
    "C58_stray_refuted",
    "C58_parts_refuted"
   ],
   "note": "Proved for all template strings: a template built from bracket-free separators and well-formed tokens parses to exactly these; conversely every accepted template with one separator more than tokens is such a template; every accepted \"<\" is closed before the next one by a token of two to four parts; every failure is ParsingError except for a bracket with more than four parts (ValueError); unknown types are ParsingError. The remaining clause is false of the code: a stray \">\" repeats the previous token (C58_stray_refuted), five parts raise ValueError (C58_parts_refuted)."
  },
  {
   "property": "C59",
   "status": "partial",
   "theorems": [
    "C59_roundtrip",
    "C59_integers",
    "C59_example",
    "C59_dot_refuted",
    "C59_overflow_refuted",
    "C59_str_refuted",
    "C59_names",
    "C59_name_error",
    "C59_literals",
    "C59_dot"
   ],
   "note": "Proved for all templates of literal separators and int/float/str tokens, all values whose text is delimited by what follows it, including the text of the regular expression, its parsing, greedy backtracking search and the column conversion (float(): the text handed to it). Modelled fragment of re: ordinary characters, \".\", the groups the parser generates. Without delimiters the property is false: C59_dot_refuted (separator \".\" is not escaped), C59_str_refuted, C59_overflow_refuted. C59_names and C59_literals spell out which column names and separators are accepted."
  },
  {
   "property": "C60",
   "status": "partial",
   "theorems": [
    "C60_operation",
    "C60_parameter",
    "C60_history",
    "C60_accepted",
    "C60_example",
    "C60_custom_refuted",
    "C60_roughness_refuted"
   ],
   "note": "Proved for every sequence of registrations of built-in parameters and operations: a duplicate parameter identifier raises BatchError and leaves the batch unchanged, everything else is recorded in call order, fixed arguments (inplace=True) override the user's. The English claim is FALSE for two corners, both exhibited: registering a second custom parameter raises AttributeError (C60_custom_refuted), and roughness_parameters with an already registered name leaves the names before it registered (C60_roughness_refuted)."
  },
  {
   "property": "C61",
   "status": "proved",
   "theorems": [
    "C61_unchained",
    "C61_pool",
    "C61_pool_completes",
    "C61_rows",
    "C61_failure",
    "C61_value",
    "C61_values",
    "C61_file_column",
    "C61_example"
   ],
   "note": "The Surface class is an arbitrary method table over an arbitrary state; the pool is any interleaving of the per-file threads followed by collection of the results in submission order."
  },
  {
   "property": "C62",
   "status": "partial",
   "theorems": [
    "C62_nan",
    "C62_rest",
    "C62_raise",
    "C62_policies_agree",
    "C62_custom_refuted",
    "C62_other_errors_refuted"
   ],
   "note": "Proved for built-in parameters raising CalculationError/FittingError-type calculation errors. FALSE for custom parameters (UnboundLocalError, C62_custom_refuted) and for any other exception type (not ignored, C62_other_errors_refuted)."
  },
  {
   "property": "C63",
   "status": "partial",
   "theorems": [
    "C63_plain_partial",
    "C63_refuted"
   ],
   "note": "Proved for batches of built-in parameters that return a single value and whose identifiers are not 'file'. FALSE in general: labels, custom names and custom_name='file' can collide (C63_refuted)."
  },
  {
   "property": "C64",
   "status": "partial",
   "theorems": [
    "C64_table",
    "C64_join",
    "C64_count",
    "C64_example",
    "C64_shared_column_refuted"
   ],
   "note": "Proved when the additional data shares only the column 'file' with the results. FALSE otherwise: shared columns are renamed with _x/_y (C64_shared_column_refuted)."
  },
  {
   "property": "C65",
   "status": "proved",
   "theorems": [
    "C65_order",
    "C65_option_order",
    "C65_exclusive",
    "C65_example"
   ],
   "note": "click's parsing modelled as last occurrence wins; file reading and plotting abstract."
  },
  {
   "property": "C66",
   "status": "proved",
   "theorems": [
    "C66_roughness_parameters",
    "C66_default",
    "C66_unchanged",
    "C66_example"
   ],
   "note": "The parameter methods are an arbitrary table; dict semantics (duplicate names collapse) modelled."
  },
  {
   "property": "C67",
   "status": "partial",
   "theorems": [
    "C67_sampled_line",
    "C67_start_partial",
    "C67_refuted",
    "C67_vertical_fails"
   ],
   "note": "The code omits the intercept: general claim refuted."
  },
  {
   "property": "C68",
   "status": "partial",
   "theorems": [
    "C68_rectangle",
    "C68_non_empty",
    "C68_inside_partial",
    "C68_rotate_zero_refuted",
    "C68_not_identity"
   ],
   "note": "rotate(0) drops the first row and column (refuted); the rectangle lies inside the rotated image at every angle, and is not empty if the square of the shorter side is at least six times the longer one."
  },
  {
   "property": "C69",
   "status": "proved",
   "theorems": [
    "C69_shift",
    "C69_example",
    "C69_ratios"
   ],
   "note": "Ideal real arithmetic; np.polyfit enters as an arbitrary function meeting the least-squares contract, np.argsort as an arbitrary sorting function (sorter_ok: sorted permutation, tie order unspecified as numpy documents)."
  },
  {
   "property": "C70",
   "status": "partial",
   "theorems": [
    "C70_directory",
    "C70_file",
    "C70_unsupported",
    "C70_compressed",
    "C70_example",
    "C70_same_stem_refuted",
    "C70_new_file_refuted",
    "C70_output_names"
   ],
   "note": "Proved: the conversions performed are exactly the readable files, in the requested format, with distinct outputs when the stems are distinct. FALSE when two inputs share a stem (C70_same_stem_refuted: both write the same output) and for a new single output file whose suffix is not the --format value (C70_new_file_refuted: TypeError)."
  },
  {
   "property": "C71",
   "status": "partial",
   "theorems": [
    "C71_each_once",
    "C71_default",
    "C71_example",
    "C71_overlap_refuted",
    "C71_upper_case_refuted"
   ],
   "note": "Proved for the default extensions in any set order and for any list of distinct simple extensions. FALSE for overlapping or repeated extensions (listed twice) and upper case suffixes on a case sensitive file system (missed although load accepts them)."
  },
  {
   "property": "C72",
   "status": "proved",
   "theorems": [
    "C72_definition",
    "C72_zero_iff_constant",
    "C72_ramp",
    "C72_affine",
    "C72_bound"
   ],
   "note": ""
  },
  {
   "property": "C73",
   "status": "proved",
   "theorems": [
    "C73_power",
    "C73_Std",
    "C73_Std_wave"
   ],
   "note": "exact DFT over the reals; arctan2 without signed zeros"
  },
  {
   "property": "C74",
   "status": "partial",
   "theorems": [
    "C74_plu",
    "C74_plu_reads",
    "C74_zmg",
    "C74_zmg_reads",
    "C74_os3d",
    "C74_os3d_reads",
    "C74_nms",
    "C74_nms_reads",
    "C74_vk4",
    "C74_vk4_reads",
    "C74_vk4_micrometres",
    "C74_opd",
    "C74_opd_reads",
    "C74_opd_duplicate_refuted",
    "C74_vk67",
    "C74_vk4_time"
   ],
   "note": "Byte-exact for all files of all six formats; the date parser is a parameter (a file with an unparsable date is not accepted). VK4 heights also with an error bound in micrometres. Refuted for OPD files in which two blocks share a name (the reader then looks for the later blocks at the wrong place and returns a wrong surface); proved for all OPD files with distinct names. Concrete files in ExamplesReaders.v, PropsVkValue.v, ExamplesOpd.v. VK6/VK7: exactly the VK4 member Vk4File (zipfile is a parameter)."
  },
  {
   "property": "C75",
   "status": "proved",
   "theorems": [
    "C75_plu_cut",
    "C75_plu_trailing",
    "C75_zmg_cut",
    "C75_zmg_trailing",
    "C75_os3d_cut",
    "C75_os3d_trailing",
    "C75_nms_cut",
    "C75_nms_trailing",
    "C75_vk4_cut",
    "C75_vk4_trailing",
    "C75_opd_cut",
    "C75_opd_trailing"
   ],
   "note": "For ZMG and NMS the cut theorem assumes at least one point (a surface without points has no height block). OPD: block names distinct; a cut inside the directory, the heights or any number is detected (texts are metadata and may be cut)."
  },
  {
   "property": "C76",
   "status": "partial",
   "theorems": [
    "C76_plu_heights",
    "C76_plu_image",
    "C76_os3d",
    "C76_os3d_no_image_refuted",
    "C76_nms_heights",
    "C76_nms_square",
    "C76_nms_not_square_refuted",
    "C76_vk4",
    "C76_opd"
   ],
   "note": "Heights never change, PLU pixels exact. Refuted in two places: a complete NMS file that is not square cannot be read with image layers (reshape(ny, ny)); an OS3D file without an image cannot be read with image layers (the flag is compared as a tuple, always true). VK4 and OPD proved."
  },
  {
   "property": "C77",
   "status": "partial",
   "theorems": [
    "C77_nms_scaling",
    "C77_nms_range_refuted"
   ],
   "note": "Refuted: the code adds zmax instead of zmin, so every height of every NMS file is at or above the stated maximum; what the heights are instead is proved with an error bound."
  },
  {
   "property": "C78",
   "status": "partial",
   "theorems": [
    "C78_dat",
    "C78_dat_reads",
    "C78_dat_cut",
    "C78_dat_trailing",
    "C78_dat_images",
    "C78_dat_micrometres",
    "C78_dat_missing_pixel_refuted"
   ],
   "note": "Everything proved for all files, heights also in real numbers up to a relative error of 2^-50, except that an intensity image with a missing pixel (65535) makes the file unreadable when image layers are asked for (refuted: it is compared with the largest allowed value before being treated as missing). dat_example in ExamplesDat.v."
  },
  {
   "property": "C79",
   "status": "partial",
   "theorems": [
    "C79_same_surface",
    "C79_vk4_latin1",
    "C79_dat_encoding_refuted"
   ],
   "note": "Independence of the surface proved for six formats; readability in the named encoding proved for VK4 (and, with the date text, in C74_*_reads for PLU, NMS, OS3D) and refuted for MetroPro, whose reader always decodes as utf-8. Encodings modelled: utf-8, latin-1, auto."
  },
  {
   "property": "C80",
   "status": "partial",
   "theorems": [
    "C80_gwy_terminates",
    "C80_gwy",
    "C80_gwy_read",
    "C80_gwy_cut",
    "C80_gwy_long_text_refuted"
   ],
   "note": "Proved for all trees whose texts have at most 4095 bytes; refuted for longer texts (a text of 4096 bytes makes the file unreadable). The recursion limit is a parameter. example_fits, gwy_example in ExamplesGwy.v."
  },
  {
   "property": "C81",
   "status": "partial",
   "theorems": [
    "C81_gwy",
    "C81_gwy_any_order",
    "C81_gwy_layers",
    "C81_gwy_layers_reads",
    "C81_gwy_layers_any_order_partial",
    "C81_gwy_micrometres",
    "C81_gwy_stray_key_refuted",
    "C81_gwy_untitled_refuted",
    "C81_gwy_micro_sign_refuted",
    "C81_gwy_leading_zero_refuted",
    "C81_gwy_layers_order_refuted"
   ],
   "note": "The surface is characterised exactly for every container (an equivalence), in floats and up to relative error 2^-50 in real numbers. Refuted: a key such as /0/graph/graph/lastid without channel 0 makes the file unreadable, and so do two height channels without titles and channel numbers with leading zeros; a z unit spelled with the micro sign is not recognised although the conversion knows it; of two image channels with one title, which is kept depends on Python's set order (without equal titles it does not: C81_gwy_layers_any_order_partial)."
  },
  {
   "property": "C82",
   "status": "partial",
   "theorems": [
    "C82_x3p",
    "C82_x3p_micrometres",
    "C82_x3p_integer_refuted",
    "C82_x3p_short_refuted"
   ],
   "note": "An equivalence between being read and the announced content, for all four types; for floating-point points the heights are micrometres within rounding. Refuted for integer points: the z increment is ignored and the product with 10**6 wraps in 32 bits; with NumPy 2 files of 16-bit points are not read."
  },
  {
   "property": "C83",
   "status": "partial",
   "theorems": [
    "C83_x3p_metadata",
    "C83_x3p_checksum",
    "C83_x3p_points_refuted"
   ],
   "note": "The metadata are characterised exactly; a wrong checksum of main.xml is refused. Refuted for the point data: any other bytes of the same length are accepted, whatever MD5ChecksumPointData says."
  },
  {
   "property": "C84",
   "status": "partial",
   "theorems": [
    "C84_plux",
    "C84_plux_images",
    "C84_plux_metadata",
    "C84_plux_no_image_refuted",
    "C84_plux_empty_value_refuted",
    "C84_plux_edit_refuted"
   ],
   "note": "Heights, steps, picture and metadata are characterised exactly (equivalences). Refuted: asking for image layers fails on files without a picture; an empty value of one of the six items makes the file unreadable; the loaded surface is read-only, so surface[i, j] = x fails."
  },
  {
   "property": "C85",
   "status": "partial",
   "theorems": [
    "C85_cag",
    "C85_cag_all",
    "C85_cag_inside",
    "C85_cag_same_name_refuted",
    "C85_cag_backslash_refuted",
    "C85_cag_shift_refuted",
    "C85_cag_index_refuted"
   ],
   "note": "For every archive with one index in the expected form the folder afterwards is characterised exactly, and no measurement is lost if the names differ; for every archive whatsoever only measurements are written and only directly into the folder. Refuted: measurements whose original paths end alike overwrite each other silently; Windows paths with backslashes are kept whole as file names on other systems; a measurement without an original name shifts all following names; an index without line breaks or a second file beside the index fails."
  },
  {
   "property": "C86",
   "status": "partial",
   "theorems": [
    "C86_period",
    "C86_selection",
    "C86_period_range",
    "C86_period_units",
    "C86_period_dominant",
    "C86_period_cosine",
    "C86_period_scale_refuted",
    "C86_period_weak_refuted",
    "C86_period_offset_refuted",
    "C86_period_incomplete"
   ],
   "note": "Proved: what a returned period is, which peaks compete (at least 10 harmonics apart, a peak is only dropped for a higher near one), its range, its units, exactness for one cosine and for the stronger of two. Refuted: independence of the scale and of the offset of the heights (the prominence threshold 10 is absolute)."
  },
  {
   "property": "C87",
   "status": "partial",
   "theorems": [
    "C87_plot_2d",
    "C87_plot_2d_near",
    "C87_layers",
    "C87_layers_refuted",
    "C87_profile",
    "C87_profile_length",
    "C87_autocorrelation",
    "C87_mesh",
    "C87_camera",
    "C87_target"
   ],
   "note": "Proved for heights, profiles, autocorrelation, mesh and camera. Refuted: an image layer named Topography cannot be plotted."
  },
  {
   "property": "C88",
   "status": "partial",
   "theorems": [
    "C88_plot",
    "C88_crop_refuted",
    "C88_small_refuted"
   ],
   "note": "Proved for whole plots and for cropped plots of even size. Refuted for odd sizes: the cropped range is not symmetric, and small limits raise ValueError."
  },
  {
   "property": "C89",
   "status": "partial",
   "theorems": [
    "C89_full",
    "C89_extent_partial",
    "C89_extent_refuted"
   ],
   "note": "Proved: level 100 is the surface itself; the extents differ by at most (3/2 - f)/f pixels. Refuted: whenever the reduced number of columns is exact, the plot is too narrow by 1/f - 1 pixels."
  },
  {
   "property": "C90",
   "status": "partial",
   "theorems": [
    "C90_fits",
    "C90_values",
    "C90_example",
    "C90_unity_refuted",
    "C90_image_names_refuted",
    "C90_cards_refuted"
   ],
   "note": "Proved for files of cards without \"=\" and \"/\" inside values, without extensions that end on a block boundary (cf. C56) and with UNITY = UNITX, up to a relative error of 2^-51. Refuted: the unit of DELTAY is taken from UNITX whatever UNITY says; a HISTORY card or a \"=\" in a value raises ValueError; a \"/\" in a quoted text cuts it off; of two images whose names differ in case only one is kept."
  },
  {
   "property": "C91",
   "status": "partial",
   "theorems": [
    "C91_bars",
    "C91_cumulative",
    "C91_plot",
    "C91_flat_refuted",
    "C91_study"
   ],
   "note": "False for a plane surface: the bars have no thickness and do not lie in the classes (C91_flat_refuted). The study is drawn only where Spk and Svk are defined."
  },
  {
   "property": "C92",
   "status": "partial",
   "theorems": [
    "C92_units",
    "C92_units_covered",
    "C92_format",
    "C92_output",
    "C92_files",
    "C92_no_overwrite",
    "C92_table",
    "C92_precision_refuted",
    "C92_all_files_refuted",
    "C92_percent"
   ],
   "note": "False for: one failing file stops the command, so later files get no report (C92_all_files_refuted); heights below half a nanometre are all printed 0.000 (C92_precision_refuted). The dimension of depth, aspect ratio and homogeneity is not covered."
  },
  {
   "property": "C93",
   "status": "partial",
   "theorems": [
    "C93_table",
    "C93_roundtrip",
    "C93_idempotent",
    "C93_two",
    "C93_batch",
    "C93_when",
    "C93_example",
    "C93_names_refuted",
    "C93_lost_refuted",
    "C93_merged_columns",
    "C93_merge_no_files"
   ],
   "note": "Proved in full for templates inside the modelled fragment of re (no special characters outside the groups, as in C59). False: a parameter named like a calculated column silently replaces that column (C93_names_refuted), even the file names; the name self is a TypeError; one file that does not match an int parameter, or a batch without files, raises after everything has been computed and the results are lost (C93_lost_refuted)."
  },
  {
   "property": "C94",
   "status": "partial",
   "theorems": [
    "C94_own",
    "C94_items",
    "C94_atomic",
    "C94_attributes",
    "C94_alias_refuted",
    "C94_copy_refuted",
    "C94_example"
   ],
   "note": "C94_own is a refinement of a single table over all histories. The table handed out by get_dataframe is not covered by it: it is the result's own table until the next extraction and a stale one afterwards (C94_alias_refuted). copy.copy and unpickling look up an attribute on an object without fields, which recurses without end (C94_copy_refuted)."
  },
  {
   "property": "C95",
   "status": "partial",
   "theorems": [
    "C95_constructor",
    "C95_files",
    "C95_accepted",
    "C95_from_dir",
    "C95_loaded",
    "C95_files_example",
    "C95_methods",
    "C95_available",
    "C95_call",
    "C95_call_example",
    "C95_generator_refuted",
    "C95_single_refuted",
    "C95_atomic_refuted",
    "C95_names_refuted",
    "C95_signature_refuted",
    "C95_all_parameters_refuted"
   ],
   "note": "Proved for all histories of calls, all class hierarchies and all arguments not given by position for or behind a removed parameter. The full claim is false: add_files refuses iterables the constructor accepts (generators), Batch(\"x.plu\") takes the text apart, a refused add_files may have added files, files of equal name in different directories are not told apart, batch.filter by position behind cutoff2 fails at execution although the shown signature allows it, and roughness_parameters() does not register the periodic parameters its documentation promises."
  },
  {
   "property": "C96",
   "status": "proved",
   "theorems": [
    "C96_tables",
    "C96_groups",
    "C96_library",
    "C96_no_clash",
    "C96_writable_readable",
    "C96_groups_example"
   ],
   "note": "Remark (C96_case_refuted): a user-registered suffix with capital letters is entered into the table but never looked up by Surface.load, which lowers the suffix of the path first."
  },
  {
   "property": "C97",
   "status": "partial",
   "theorems": [
    "C97_load",
    "C97_warning",
    "C97_in_place",
    "C97_agree_partial",
    "C97_copy_drops",
    "C97_profile_lengths",
    "C97_profile_operations",
    "C97_grayscale",
    "C97_example",
    "C97_oblique_length_refuted",
    "C97_agree_refuted",
    "C97_layers_fit_refuted",
    "C97_warning_scale_refuted",
    "C97_reader",
    "C97_oblique_length"
   ],
   "note": "Proved for all histories; copies lose metadata and image layers, image layers do not follow crop, oblique profiles are one step too long and the warning's tolerance is absolute: refuted."
  },
  {
   "property": "C98",
   "status": "partial",
   "theorems": [
    "C98_load",
    "C98_trailer",
    "C98_count",
    "C98_unknown",
    "C98_type",
    "C98_dates",
    "C98_example",
    "C98_blank_line_refuted",
    "C98_missing_refuted",
    "C98_junk_refuted",
    "C98_no_date_refuted",
    "C98_trailer_refuted",
    "C98_negative_refuted"
   ],
   "note": "Loading proved for all such files (contract: strtod reads NAN and the given numerals up to white space). Refuted: the regular expression for trailer metadata is applied to the data section, so the trailer is never looked at; an empty header line, an empty or zero date make loading fail with ValueError; a missing field is a KeyError; text after the points is ignored; a negative NumProfiles is accepted and inferred."
  },
  {
   "property": "C99",
   "status": "partial",
   "theorems": [
    "C99_heights",
    "C99_reads",
    "C99_layers",
    "C99_images_heights",
    "C99_no_layers",
    "C99_metadata",
    "C99_offset_unit_refuted",
    "C99_same_reader",
    "C99_example"
   ],
   "note": "Proved except the last sentence, which is false: the z offset is added without conversion from the unit of the header (C99_offset_unit_refuted: in every millimetre file the stored integer 0 is loaded at offset micrometres). Heights as exact double arithmetic on the stored integers. Lengths of comment and private zone not negative and at least one point (sane); zlib.decompress is an arbitrary function."
  },
  {
   "property": "C100",
   "status": "partial",
   "theorems": [
    "C100_mean",
    "C100_center",
    "C100_height_parameters",
    "C100_total",
    "C100_profile",
    "C100_zero",
    "C100_flat_refuted",
    "C100_left_to_right"
   ],
   "note": "IEEE binary64 arithmetic (Flocq) with np.sum as any tree of additions: error bounds proved for all parameters except Ssk and Sku (they use the C library's pow). The clause on flat surfaces is refuted: three points at 0.1 have a computed mean above 0.1 for every order of additions, so Sp < 0 and Sa, Sq > 0."
  },
  {
   "property": "C101",
   "status": "partial",
   "theorems": [
    "C101_nearest",
    "C101_pixel_position",
    "C101_crop_box",
    "C101_crop_full",
    "C101_profile_crop",
    "C101_horizontal",
    "C101_single_row",
    "C101_vertical",
    "C101_beyond",
    "C101_average_step_partial",
    "C101_zoom",
    "C101_zoom_one",
    "C101_upper_edge_refuted",
    "C101_average_step_refuted",
    "C101_row_refuted"
   ],
   "note": "Proved for crop, profile crop, zoom and the existence and one-step accuracy of extracted rows and columns. False as stated in two places: the extracted row is not always the one of exact arithmetic (49 rows, step 49/48, y = 1: row 0 instead of 1), and an average_step of 3 steps counts as 2 pixels (0.3 at step 0.1; 3 * 0.35 at step 0.35): proved only k or k - 1. At y = height_um the profile is all NaN (as C19)."
  },
  {
   "property": "C102",
   "status": "partial",
   "theorems": [
    "C102_load_is_dispatch",
    "C102_distinct_buffers",
    "C102_each_result",
    "C102_sequential_is_a_schedule",
    "C102_no_deadlock",
    "C102_one_result_each",
    "C102_sequential_sharing",
    "C102_again",
    "C102_tmd_reader",
    "C102_shared_buffer_refuted",
    "C102_shared_example",
    "C102_distinct_example"
   ],
   "note": "Proved for unshared buffers and every interleaving; the unrestricted claim is false: C102_shared_buffer_refuted gives, for every TMD file in a buffer used by two FileInputs, a schedule in which one of them raises CorruptedFileError while the sequential batch succeeds."
  },
  {
   "property": "C103",
   "status": "partial",
   "theorems": [
    "C103_list_all",
    "C103_list_format",
    "C103_list_offline",
    "C103_list_message",
    "C103_load_declared",
    "C103_load_by_magic",
    "C103_load_offline",
    "C103_case_refuted",
    "C103_wrong_name_refuted",
    "C103_example",
    "C103_malformed"
   ],
   "note": "Proved for all answers, names and bytes; the network is a parameter. Refuted: listing is case sensitive while loading is not, and a wrongly named file that loads from disk does not load as an example."
  },
  {
   "property": "C104",
   "status": "partial",
   "theorems": [
    "C104_range",
    "C104_accuracy",
    "C104_defined",
    "C104_wave",
    "C104_lines",
    "C104_errors",
    "C104_period_finite",
    "C104_aspect",
    "C104_example_fit",
    "C104_example",
    "C104_divides_refuted",
    "C104_negative_period_refuted"
   ],
   "note": "Proved with scipy's curve_fit as a parameter, in ideal reals. Refuted: IndexError when nprofiles - 1 divides the number of lines (e.g. the default 30 with 58 rows), and (NaN, NaN) when the fit returns the right sinusoid with a negative period."
  },
  {
   "property": "C105",
   "status": "partial",
   "theorems": [
    "C105_rows",
    "C105_columns",
    "C105_wave",
    "C105_range",
    "C105_methods",
    "C105_example",
    "C105_example_sampling",
    "C105_identical_rows_refuted",
    "C105_vertical_refuted",
    "C105_short_period_refuted",
    "C105_pixel_shape_refuted"
   ],
   "note": "Proved with scipy's curve_fit as a parameter, in ideal reals. Refuted: NaN for an exactly vertical texture (identical rows), ZeroDivisionError for a period below ten pixels, and an angle in pixels instead of lengths when the pixels are not square."
  },
  {
   "property": "C106",
   "status": "partial",
   "theorems": [
    "C106_crop",
    "C106_colorbar",
    "C106_nothing_lost",
    "C106_save",
    "C106_example",
    "C106_overlap_refuted"
   ],
   "note": "Rendering, drawing of the colour bar and resampling are parameters. Refuted: a negative cbar_pad draws the colour bar over the last columns of the rendering."
  },
  {
   "property": "C107",
   "status": "partial",
   "theorems": [
    "C107_plane",
    "C107_variants",
    "C107_inplace_new",
    "C107_level",
    "C107_tilted_step",
    "C107_repeat",
    "C107_kept_classes_refuted",
    "C107_example"
   ],
   "note": "numpy's lstsq is a parameter with a least-squares contract. Refuted: the copy's cache is seeded with the classes of the original, so stepheight of the copy can be -6 where the same heights give 11."
  },
  {
   "property": "C108",
   "status": "partial",
   "theorems": [
    "C108_height",
    "C108_gradient",
    "C108_area",
    "C108_Sdr",
    "C108_curve",
    "C108_Sdc",
    "C108_sections",
    "C108_profile",
    "C108_sdf",
    "C108_al3d",
    "C108_tmd",
    "C108_sflz_float",
    "C108_sflz_uint",
    "C108_sur",
    "C108_skewness_refuted"
   ],
   "note": "Real arithmetic for the parameters (the rounding of the parameters themselves is C100), doubles and singles for the files. Refuted for Ssk. Not covered: Sku, Sk/Spk/Svk, the text formats."
  },
  {
   "property": "C109",
   "status": "partial",
   "theorems": [
    "C109_removed",
    "C109_untouched",
    "C109_nothing_added",
    "C109_example",
    "C109_filter_refuted"
   ],
   "note": "Refuted for Batch.filter: removing self before inplace joins a line and takes the entry of endeffect_mode along. textwrap.dedent and inspect.cleandoc are not modelled."
  },
  {
   "property": "C110",
   "status": "partial",
   "theorems": [
    "C110_inside",
    "C110_near_partial",
    "C110_refuted",
    "C110_turned",
    "C110_guard",
    "C110_example"
   ],
   "note": "Refuted for surfaces wider than high (11 x 18 pixels, first pixel of the result 0); proved for all others. The angle functions are real, not doubles. scipy.ndimage.rotate is taken by its documented contract: rounded extent, sampling about the centers, cval outside."
  },
  {
   "property": "C111",
   "status": "proved",
   "theorems": [
    "C111_scale",
    "C111_zero"
   ],
   "note": "Over the reals; results with at least one row and column."
  },
  {
   "property": "C112",
   "status": "proved",
   "theorems": [
    "C112_written",
    "C112_example"
   ],
   "note": "zlib and lzma are arbitrary functions; image names ASCII."
  },
  {
   "property": "C113",
   "status": "proved",
   "theorems": [
    "C113_contents",
    "C113_reads",
    "C113_images",
    "C113_trailing",
    "C113_cut",
    "C113_example"
   ],
   "note": "Types of numbers: the ten little-endian integer and float types (spelled as numpy prints them). For signed integers the reader's formula is not the inverse of the writer's (C47_signed_refuted). Heights with channels are not modelled (hypothesis one_channel)."
  },
  {
   "property": "C114",
   "status": "partial",
   "theorems": [
    "C114_every_motion",
    "C114_quarter_turn",
    "C114_heights",
    "C114_functional",
    "C114_levels",
    "C114_Sdq",
    "C114_autocorrelation",
    "C114_transposed_area",
    "C114_profile",
    "C114_sections",
    "C114_example",
    "C114_mirror_area_refuted",
    "C114_mirror_Sdr_refuted",
    "C114_sections_refuted"
   ],
   "note": "Proved in real arithmetic for everything but the developed area: surface_area leaves out the point at the bottom right, so for every size and step there is an area whose mirror image has a smaller area and Sdr (refuted); it is the same after transposing. Rp, Rv, Rz: refuted for sections of unequal length. Not covered: Sal, Str, texture direction and period, and how an area with a gap behaves in Sdq (it is refused, C06)."
  },
  {
   "property": "C115",
   "status": "partial",
   "theorems": [
    "C115_threshold",
    "C115_classes",
    "C115_levels",
    "C115_stepheight",
    "C115_cavity",
    "C115_gini",
    "C115_example",
    "C115_homogeneity_refuted"
   ],
   "note": "Proved in real arithmetic for every positive factor, flat samples and gaps included (the histogram range of a flat sample is widened by half a unit, which is not scaled, but its threshold stays below the sample). Refuted for homogeneity: in a unit that is large enough every cell value is rounded to 0 and the result is nan. The threshold of a flat sample does not scale."
  },
  {
   "property": "C116",
   "status": "partial",
   "theorems": [
    "C116_outliers",
    "C116_threshold",
    "C116_center",
    "C116_zero",
    "C116_invert",
    "C116_crop",
    "C116_zoom",
    "C116_fill",
    "C116_filter",
    "C116_methods",
    "C116_example",
    "C116_outliers_twice_refuted",
    "C116_threshold_twice_refuted"
   ],
   "note": "Proved in real arithmetic. scipy's griddata and gaussian_filter enter as functions that commute with the rescaling (weights of sum 1; C116_methods shows such functions). Refuted: that running a cleaning step twice is the same as running it once."
  },
  {
   "property": "C117",
   "status": "partial",
   "theorems": [
    "C117_sections",
    "C117_averages",
    "C117_upside_down",
    "C117_example",
    "C117_upside_down_refuted"
   ],
   "note": "Proved in real arithmetic. Refuted: the exchange of Rp and Rv over several sampling lengths, on the profile -3, -1, 3, 1 with two of them. A parameter divided by Rq = 0 (a flat profile) stays NaN."
  },
  {
   "property": "C118",
   "status": "proved",
   "theorems": [
    "C118_outliers",
    "C118_threshold",
    "C118_center",
    "C118_zero",
    "C118_invert",
    "C118_example"
   ],
   "note": "Proved in real arithmetic; the motions are specified point by point (C114), and every motion of a sample exists (C114_every_motion). numpy's sums depend on the order of the points in floating point."
  }
 ]
}