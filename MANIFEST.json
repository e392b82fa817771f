{
 "claims": [
  {
   "property": "C01",
   "status": "proved",
   "theorems": [
    "c01_index_bijection"
   ],
   "note": "All five schemes, all legal dimensions."
  },
  {
   "property": "C02",
   "status": "partial",
   "theorems": [
    "c02_trapezoid_bijection",
    "c02_unstored_positions_alias_refuted"
   ],
   "note": "Stored positions proved; unstored positions do alias stored cells (refuted with witness)."
  },
  {
   "property": "C03",
   "status": "proved",
   "theorems": [
    "c03_slices_tile",
    "c03_first_row_first_col"
   ],
   "note": ""
  },
  {
   "property": "C04",
   "status": "proved",
   "theorems": [
    "c04_copy_construct",
    "c04_copy_assign",
    "c04_resize",
    "c04_cresize_keeps_common",
    "c04_move_construct",
    "c04_move_assign"
   ],
   "note": "Element values of arbitrary type; heap with explicit allocation."
  },
  {
   "property": "C05",
   "status": "proved",
   "theorems": [
    "c05_add_assign",
    "c05_construct_from_expression",
    "c05_multiply",
    "c05_fill",
    "c05_write_element",
    "c05_mixed_schemes_refuted",
    "c05_mixed_schemes_ub_refuted",
    "c05_construct_rejected",
    "c05_add_assign_rejected"
   ],
   "note": "For operands of one storage scheme and commutative addition. += through a scaled proxy of another storage scheme also compiles and is wrong (refuted theorems)."
  },
  {
   "property": "C06",
   "status": "partial",
   "theorems": [
    "c06_no_bad_access",
    "c06_all_freed_partial",
    "c06_move_assignment_leaks_refuted",
    "c06_self_move_refuted"
   ],
   "note": "No bad access/double free proved for all histories; leak-freedom proved except for move assignment onto an owning matrix, which leaks (refuted)."
  },
  {
   "property": "C07",
   "status": "proved",
   "theorems": [
    "c07_invariant"
   ],
   "note": ""
  },
  {
   "property": "C08",
   "status": "proved",
   "theorems": [
    "c08_add_exact",
    "c08_larger_refused",
    "c08_add_default_refuted"
   ],
   "note": "Operands that hold coefficients; adding a default-constructed set is undefined behaviour (refuted)."
  },
  {
   "property": "C09",
   "status": "partial",
   "theorems": [
    "c09_coefficients_accessible_partial",
    "c09_no_bad_access",
    "c09_default_constructed_refuted",
    "c09_moved_from_refuted",
    "c09_order_above_degree_refuted",
    "c09_order_zero_ignored_refuted"
   ],
   "note": "Proved for objects holding coefficients with order<=degree arguments; false for default-constructed, moved-from objects and order>degree arguments (refuted)."
  },
  {
   "property": "C10",
   "status": "partial",
   "theorems": [
    "c10_scale_partial",
    "c10_scale_compose_partial",
    "c10_degree_zero_refuted"
   ],
   "note": "All degrees except 0, where scale is a no-op (refuted)."
  },
  {
   "property": "C11",
   "status": "proved",
   "theorems": [
    "c11_roundtrip",
    "c11_text_roundtrip",
    "c11_injective",
    "c11_buffer",
    "c11_buffer_refuted",
    "c11_no_fives_refuted",
    "c11_equality_refuted"
   ],
   "note": "The text drops the Doodson-Warburg factor (c11_equality_refuted); documented 7-byte buffer overflows (c11_buffer_refuted)."
  },
  {
   "property": "C12",
   "status": "partial",
   "theorems": [
    "c12_accepts_exactly",
    "c12_rejects_partial",
    "c12_short_text_refuted",
    "c12_unterminated_refuted",
    "c12_nonascii_refuted",
    "c12_resolver_digits",
    "c12_resolver_accepts",
    "c12_resolver_refuted"
   ],
   "note": "Acceptance characterised exactly; rejection by exception only for terminated texts of at least 7 bytes without negative chars; the IERS-2010 resolver accepts non-digits and overruns short strings."
  },
  {
   "property": "C13",
   "status": "proved",
   "theorems": [
    "c13_argument",
    "c13_additive",
    "c13_range"
   ],
   "note": "Over the reals."
  },
  {
   "property": "C14",
   "status": "partial",
   "theorems": [
    "c14_bounds",
    "c14_status",
    "c14_cut_exists",
    "c14_before",
    "c14_after",
    "c14_inside",
    "c14_even_degree",
    "c14_degree_zero_refuted",
    "c14_negative_degree_refuted",
    "c14_empty_refuted"
   ],
   "note": "For degrees 1 to 9 on a nonempty ordered series whose cached iterator is valid; degree 0 and negative degrees and an empty series refuted; even degrees never reported as requested."
  },
  {
   "property": "C15",
   "status": "proved",
   "theorems": [
    "c15_node",
    "c15_polynomial",
    "c15_polynomial_ut1",
    "c15_approx_agrees"
   ],
   "note": "Over the reals (rounding: C77); the record at the last epoch counts as out of bounds and is returned as it is (c14_after)."
  },
  {
   "property": "C16",
   "status": "partial",
   "theorems": [
    "c16_history",
    "c16_any_position",
    "c16_unsorted_refuted",
    "c16_stale_refuted",
    "c16_append"
   ],
   "note": "For ordered series and any history of queries; a series that was copied or appended to without resetting the iterator is undefined behaviour, unordered series depend on the cached position."
  },
  {
   "property": "C17",
   "status": "proved",
   "theorems": [
    "c17_roundtrip",
    "c17_effect"
   ],
   "note": "Over the reals, for any zonal tide model."
  },
  {
   "property": "C18",
   "status": "partial",
   "theorems": [
    "c18_file",
    "c18_interval_partial",
    "c18_ready",
    "c18_bad_interval",
    "c18_malformed",
    "c18_undated",
    "c18_long_line",
    "c18_scanner",
    "c18_unordered_refuted",
    "c18_short_line_refuted",
    "c18_hours_refuted",
    "c18_recognised",
    "c18_no_file",
    "c18_long_first"
   ],
   "note": "For well-formed lines; the result for a file in any order is given exactly (c18_file), it is the whole interval if the file is ordered (refuted otherwise). Lines shorter than 12 characters are undefined behaviour."
  },
  {
   "property": "C19",
   "status": "partial",
   "theorems": [
    "c19_name_partial",
    "c19_buffer",
    "c19_release",
    "c19_compressed_refuted",
    "c19_compressed_buffer_refuted",
    "c19_bare_name_refuted"
   ],
   "note": "Uncompressed names for two-digit releases and ten-character dates; the compressed variant never has the suffix and overflows the documented buffer (refuted for all inputs); release resolution is undefined for a bare name."
  },
  {
   "property": "C20",
   "status": "partial",
   "theorems": [
    "c20_sequence_partial",
    "c20_unique",
    "c20_near",
    "c20_back",
    "c20_before",
    "c20_after",
    "c20_next_file",
    "c20_initialize",
    "c20_lerp",
    "c20_bracket_refuted",
    "c20_history_refuted",
    "c20_equal_epoch_refuted",
    "c20_short_file_refuted",
    "c20_ahead_refuted",
    "c20_next_epoch_refuted"
   ],
   "note": "Holds for any sequence of queries that never advances by more than the block spacing, across files; a query further ahead succeeds with blocks that do not bracket it, one equal to the next epoch fails, three-block files are refused (refuted). For every stream: a query past the next block is answered with two earlier blocks (c20_ahead_refuted), a query at its epoch fails (c20_next_epoch_refuted)."
  },
  {
   "property": "C21",
   "status": "partial",
   "theorems": [
    "c21_block_partial",
    "c21_truncated",
    "c21_unreadable",
    "c21_scanner",
    "c21_order_refuted",
    "c21_malformed_refuted"
   ],
   "note": "For well-formed lines with 0 <= order <= degree, without resizing; order above degree is undefined behaviour, unreadable coefficients beyond the limits are not noticed (refuted)."
  },
  {
   "property": "C22",
   "status": "partial",
   "theorems": [
    "c22_version2",
    "c22_version1",
    "c22_defaults",
    "c22_sound",
    "c22_scanner",
    "c22_failure_keeps_caller_refuted",
    "c22_order_above_degree_refuted",
    "c22_trend_first_refuted",
    "c22_empty_line_refuted",
    "c22_exponent_dropped_refuted",
    "c22_short_date_refuted",
    "c22_long_line_refuted"
   ],
   "note": "Both format versions, from the characters of the data lines: sum of the records that apply, dimensions, error reporting. A failed read destroys the caller's coefficients; order above degree, empty first line, short dates are undefined behaviour; trend without gfct or a 255-character line aborts; unknown exponents are dropped silently (refuted)."
  },
  {
   "property": "C23",
   "status": "partial",
   "theorems": [
    "c23_index",
    "c23_numbers",
    "c23_node_Y_partial",
    "c23_node_X_partial",
    "c23_binary64_partial",
    "c23_node_X_refuted",
    "c23_large_refuted",
    "c23_binary64_refuted"
   ],
   "note": "Index of every node for both orders and node of every index for Y leading, in exact arithmetic and in binary64 where node coordinates are exact. X leading is wrong except on square grids or in the first column (exact condition proved); int overflow above 2^31-1 nodes; binary64 nodes can be taken for their neighbours (refuted)."
  },
  {
   "property": "C24",
   "status": "partial",
   "theorems": [
    "c24_cell",
    "c24_corners_Y_partial",
    "c24_corners_X_partial",
    "c24_outside",
    "c24_descending",
    "c24_corners_X_refuted",
    "c24_last_column_refuted",
    "c24_outside_refuted"
   ],
   "note": "Exact arithmetic, Y leading: the corners of the cell. X leading returns a wrong opposite corner for every point; the last column and row count as inside; outside points get node numbers (refuted for all such points)."
  },
  {
   "property": "C25",
   "status": "proved",
   "theorems": [
    "c25_unique",
    "c25_stored",
    "c25_retrievable",
    "c25_not_found",
    "c25_append",
    "c25_refused",
    "c25_append_by_dimensions",
    "c25_multipliers_refuted",
    "c25_new_wave",
    "c25_order_default"
   ],
   "note": "All append histories. The comparison includes the phase factor: waves with the same six multipliers and different phase are different waves (c25_multipliers_refuted shows the narrower reading fails). Access through the mutable waves() reference is outside the histories considered."
  },
  {
   "property": "C26",
   "status": "partial",
   "theorems": [
    "c26_parse",
    "c26_unique",
    "c26_roundtrip_partial",
    "c26_rewrite",
    "c26_accepts_exactly",
    "c26_tag_refuted",
    "c26_separator_refuted",
    "c26_junk_refuted",
    "c26_bounds_refuted",
    "c26_too_few_parts_refuted"
   ],
   "note": "Names of the documented form are read correctly and determine their parts; what is written and read back agrees except for the tag, which is always exchanged (refuted for every name). Exact characterisation of what is read; looseness and out-of-bounds reads refuted."
  },
  {
   "property": "C27",
   "status": "partial",
   "theorems": [
    "c27_accepts_iff_partial",
    "c27_complete",
    "c27_repeated",
    "c27_companion_refuted",
    "c27_lowercase_refuted",
    "c27_malformed_refuted"
   ],
   "note": "Exact characterisation of the accepted lists. Repetitions are refused and complete lists accepted, but companions are not required: any repetition-free list of well-formed names passes (refuted). Lower-case Doodson numbers refused, malformed names end the process."
  },
  {
   "property": "C28",
   "status": "partial",
   "theorems": [
    "c28_harmonic_sum_partial",
    "c28_order_irrelevant",
    "c28_evaluation",
    "c28_loop_exact",
    "c28_evaluates_iff",
    "c28_admittance",
    "c28_admittance_short_refuted",
    "c28_admittance_columns",
    "c28_admittance_order_refuted",
    "c28_uneven_degrees_refuted",
    "c28_atmospheric",
    "c28_ocean_phase_ignored"
   ],
   "note": "Exact sum for every degree and number of waves when all waves have the degree of the accumulator; any order gives the same sum; nothing else in memory changes; repeated evaluation gives the value of the last arguments. Evaluation aborts exactly when a wave has another degree (refuted), which the constructor allows. The admittance variant is exact too, but depends on the order of the waves and reads past the factors when there are more waves than rows (refuted). Over the reals. Not modelled: rounding."
  },
  {
   "property": "C29",
   "status": "partial",
   "theorems": [
    "c29_no_bad_access_partial",
    "c29_single_owner_partial",
    "c29_all_freed_partial",
    "c29_move_assignment_refuted",
    "c29_double_free_refuted",
    "c29_self_move_refuted"
   ],
   "note": "All histories of constructions, copies, moves, assignments, replacements and destructions without a move assignment from an object with no admittance model to one with: no bad access, single ownership, no leak. Every such move assignment leaves a dangling pointer (refuted). Self move loses the model (refuted)."
  },
  {
   "property": "C30",
   "status": "partial",
   "theorems": [
    "c30_accumulator_large_partial",
    "c30_matrices",
    "c30_evaluates_iff",
    "c30_append_shrinks_refuted",
    "c30_degree_zero_refuted"
   ],
   "note": "All append histories in which any two waves are comparable in size: the accumulator is at least as large as every wave. Otherwise appending makes it smaller, for all sizes (refuted). Evaluation completes exactly if all degrees are equal and positive."
  },
  {
   "property": "C31",
   "status": "proved",
   "theorems": [
    "c31_wobble",
    "c31_solid",
    "c31_ocean",
    "c31_linear",
    "c31_zero",
    "c31_displacement",
    "c31_components",
    "c31_wobble_rotated",
    "c31_ocean_displacement",
    "c31_zero_displacement"
   ],
   "note": "All formulas for every epoch and pole, over the reals: wobble, C21/S21 of solid Earth and ocean pole tide, site displacement in the spherical frame, ocean loading displacement (with the rotation to the local frame as a parameter). Not modelled: rounding; the datetime and geodesy libraries enter as arguments."
  },
  {
   "property": "C32",
   "status": "partial",
   "theorems": [
    "c32_exact_partial",
    "c32_history_free_partial",
    "c32_full_partial",
    "c32_calls_partial",
    "c32_refused",
    "c32_love",
    "c32_degree360_refuted",
    "c32_default_refuted",
    "c32_degree0_refuted",
    "c32_stale_refuted",
    "c32_iers_partial"
   ],
   "note": "Objects of degree 1 to 359, every accepted degree/order and any call history: the computed coefficients are exact and history-free, nothing else in memory changes. Refuted: every accepted call of degree 360 writes past a table; coefficients outside the asked degree/order keep old values scaled once more; a degree-0 object is not scaled; a default constructed object reads through a null pointer."
  },
  {
   "property": "C33",
   "status": "partial",
   "theorems": [
    "c33_reads_partial",
    "c33_columns_partial",
    "c33_sound",
    "c33_header",
    "c33_refused",
    "c33_wrong_header",
    "c33_long_line",
    "c33_no_numbers",
    "c33_cases",
    "c33_malformed_partial",
    "c33_long_header",
    "c33_empty",
    "c33_negative_degree_refuted",
    "c33_order_above_degree_refuted"
   ],
   "note": "Every file whose records within the limits have 0 <= order <= degree: the matrices hold exactly the file values, zero elsewhere; code 0 exactly for well-formed files; every other file (c33_cases) is reported: missing file, wrong or long headers, long lines, and lines that can be read in part or not at all (c33_malformed_partial: code 1, all coefficients but the one named by the line are those of the records before). Refuted: a negative degree writes outside the matrix; an order above the degree overwrites another coefficient silently."
  },
  {
   "property": "C34",
   "status": "partial",
   "theorems": [
    "c34_sites_partial",
    "c34_inner_partial",
    "c34_code_partial",
    "c34_exact",
    "c34_node",
    "c34_between",
    "c34_longitude_refuted",
    "c34_gap_refuted",
    "c34_last_column_refuted",
    "c34_last_row_refuted",
    "c34_bad_line",
    "c34_other_line",
    "c34_long_line",
    "c34_no_file",
    "c34_header_refuted"
   ],
   "note": "Every well-formed file and every list of sites in inner cells or outside the grid: one bilinear interpolation per site in the cell of (longitude + 180, latitude), stopping with code 1 at the first site outside; the interpolation is exact for bilinear fields and stays between the corner values. Refuted: that cell never contains the site longitude (shift by 180 degrees instead of reduction modulo 360); sites in the gap between last and first column make the whole call fail; the last column fails an assertion and the last row reads past the file; a header line without = leaves the buffer. A malformed data line makes the call fail if it belongs to a corner of the cell of a site, and changes nothing otherwise; a line of more than 255 characters makes all lines behind it unreadable. Over the reals."
  },
  {
   "property": "C35",
   "status": "partial",
   "theorems": [
    "c35_between",
    "c35_line",
    "c35_at_epoch",
    "c35_size",
    "c35_period",
    "c35_phase",
    "c35_after",
    "c35_before",
    "c35_uncertainty_partial",
    "c35_uncertainty_refuted",
    "c35_total",
    "c35_empty_refuted",
    "c35_any_order",
    "c35_continuous",
    "c35_table",
    "c35_iers_refuted"
   ],
   "note": "Every strictly ascending table and every epoch, over the reals: straight-line interpolation between neighbours including both ends, table values at table epochs, constant amplitude outside, X and Y of the size of the amplitude, period 430.21 days, X, Y and the uncertainties continuous in time, uncertainties not negative from the first epoch on. Tables in any order: the last enclosing pair of neighbours is used (c35_any_order). Refuted: before the first epoch the uncertainty decreases and becomes negative (also with the built-in table); an empty table is undefined behaviour. Missing: rounding."
  },
  {
   "property": "C36",
   "status": "partial",
   "theorems": [
    "c36_documented_size_partial",
    "c36_one_row_more_partial",
    "c36_derivatives_partial",
    "c36_order_degree_refuted",
    "c36_derivatives_order_degree_refuted",
    "c36_assert"
   ],
   "note": "All degrees to 1024 and orders: a matrix of the documented size is enough when order < degree (and for order = degree with one more row), only that matrix is changed. Refuted: with order = degree (also degree 0) and a matrix of exactly the documented size the element behind the allocation is written; in both routines."
  },
  {
   "property": "C37",
   "status": "partial",
   "theorems": [
    "c37_values_partial",
    "c37_derivatives_partial",
    "c37_latitude_derivative_refuted",
    "c37_spec_low_degrees",
    "c37_spec_rodrigues"
   ],
   "note": "All degrees to 1024, orders and latitudes, over the reals: every element is the fully normalised function given by Rodrigues formula, other elements are unchanged; the second routine stores the derivative with respect to the colatitude where cos(theta) <> 0. Refuted: it is not the derivative with respect to theta, which is documented as the latitude. Rounding is treated in C73 and C74, the poles in C74."
  },
  {
   "property": "C38",
   "status": "partial",
   "theorems": [
    "c38_in_bounds_partial",
    "c38_required_size_refuted",
    "c38_allocated_refuted",
    "c38_shared_cells_refuted",
    "c38_shared_gradient_refuted",
    "c38_leak_refuted",
    "c38_degree_limit"
   ],
   "note": "All degrees to 198, orders, positions and coefficients: with one row more than required, or if max(order,1)+2 <= degree, all accesses are inside and only the scratch matrices change. Refuted: with the required (and allocated) size every call with degree <= max(order,1)+1, in particular order = degree, writes or reads behind the array; otherwise row degree+2 shares cells with the diagonal and the gradient is wrong; scratch memory is lost on one error path."
  },
  {
   "property": "C39",
   "status": "partial",
   "theorems": [
    "c39_truncation_partial",
    "c39_refused",
    "c39_order_0_refuted"
   ],
   "note": "All coefficients, degrees and orders >= 1 (or degree 0): result depends only on coefficients within degree and order. Refuted for order 0: order 1 coefficients enter."
  },
  {
   "property": "C40",
   "status": "proved",
   "theorems": [
    "c40_jacobian",
    "c40_columns",
    "c40_symmetric",
    "c40_traceless",
    "c40_overloads_agree",
    "c40_newton",
    "c40_potential"
   ],
   "note": "Over the reals, for satellite and body at different places: the partials are the derivative along every path, symmetric and traceless; the acceleration is the difference of the attractions of satellite and origin and the gradient of the disturbing potential."
  },
  {
   "property": "C41",
   "status": "proved",
   "theorems": [
    "c41_own_id",
    "c41_named",
    "c41_distinct",
    "c41_unknown",
    "c41_text",
    "c41_whole_buffer",
    "c41_text_unique",
    "c41_three_bytes"
   ],
   "note": "All values of the enumeration type, all buffers and sizes from 4 on, all previous contents. With 3 bytes the text is not terminated (outside the documented sizes)."
  },
  {
   "property": "C42",
   "status": "partial",
   "theorems": [
    "c42_once_partial",
    "c42_succeeds",
    "c42_idempotent_partial",
    "c42_only_this",
    "c42_history_partial",
    "c42_prefix_refuted",
    "c42_prefix_never_loaded_refuted",
    "c42_long_name_refuted",
    "c42_meta_refuted"
   ],
   "note": "Names up to 127 characters that are not the beginning of another loaded name: loaded exactly once, for every sequence of requests for ordinary kernels. Refuted: a name which begins a loaded name is never loaded; names from 128 characters are loaded again with every request; a meta-kernel loads its parts again."
  },
  {
   "property": "C43",
   "status": "proved",
   "theorems": [
    "c43_chain",
    "c43_chain_vectors",
    "c43_matrix_of_quaternion",
    "c43_proper_c2i",
    "c43_proper_c2tirs",
    "c43_proper_tirs2i",
    "c43_proper_C",
    "c43_conventions",
    "c43_conventions_tirs",
    "c43_spherical",
    "c43_pole",
    "c43_pole_C",
    "c43_pole_itrs",
    "c43_epoch",
    "c43_epoch_pole",
    "c43_epoch_conventions"
   ],
   "note": "Over the reals, all angles (pole coordinates with X^2+Y^2 < 1 where they enter): composition, proper rotations, agreement with the matrices of the IERS Conventions, pole to pole, also for the functions of an epoch (CIP series, s and ERA as parameters)."
  },
  {
   "property": "C44",
   "status": "proved",
   "theorems": [
    "c44_closed_formula",
    "c44_precession_nutation",
    "c44_epoch",
    "c44_series",
    "c44_series_error",
    "c44_third_version",
    "c44_third_version_inexact"
   ],
   "note": "Over the reals, all angles and X^2+Y^2 < 1: the same quaternions, component by component. The third version of C (IERS series, a matrix) has a fourth order error, given exactly."
  },
  {
   "property": "C45",
   "status": "proved",
   "theorems": [
    "c45_rate",
    "c45_same_rotation",
    "c45_whole",
    "c45_epoch",
    "c45_velocity",
    "c45_velocity_back",
    "c45_rotation_vector",
    "c45_length_of_day",
    "c45_nominal_rate"
   ],
   "note": "Over the reals, every angle function with the given rate; also the matrix dMdt handed out with the quaternion and the documented velocity transformations."
  },
  {
   "property": "C46",
   "status": "partial",
   "theorems": [
    "c46_true_derivative",
    "c46_derivative_partial",
    "c46_derivative_error_partial",
    "c46_derivative_value",
    "c46_derivative_refuted",
    "c46_overloads_partial",
    "c46_dfaf03_overload_refuted"
   ],
   "note": "Over the reals. True derivatives established wherever the reduction does not jump; the derivative functions agree at J2000 only (the factors 2, 3, 4 are missing), error bound within a century; all overloads but dfaf03(epoch), which returns the argument itself, agree."
  },
  {
   "property": "C47",
   "status": "partial",
   "theorems": [
    "c47_congruent",
    "c47_congruent_planets",
    "c47_precession",
    "c47_range_partial",
    "c47_range_after_J2000_partial",
    "c47_node",
    "c47_precession_range_partial",
    "c47_range_refuted",
    "c47_node_since_2006_refuted",
    "c47_precession_range_refuted"
   ],
   "note": "Over the reals. Congruence for all fourteen arguments and all epochs (precession is not reduced at all and equals its polynomial); range [0,2pi) only where the polynomial is not negative: fmod keeps the sign. Every function leaves the documented range; the node does so for all epochs since 2006."
  },
  {
   "property": "C48",
   "status": "partial",
   "theorems": [
    "c48_era",
    "c48_gmst",
    "c48_gmst82",
    "c48_rate",
    "c48_dgmst_partial",
    "c48_dgmst_refuted"
   ],
   "note": "Over the reals, all epochs: ERA, GMST (IAU 2006) and GMST (IAU 1982) congruent to their expressions and in [0,2pi). The rate dgmst is not the derivative: one rotation per day too fast, and factors of the higher powers missing; exact difference given."
  },
  {
   "property": "C49",
   "status": "proved",
   "theorems": [
    "c49_conventions",
    "c49_units",
    "c49_defaults",
    "c49_power",
    "c49_turned"
   ],
   "note": "Over the reals; positions of satellite and Sun, GM of the Earth and speed of light not zero. Also independence of the unit of length, default constants, no work by the precession terms, covariance under rotations about the axis of the Earth."
  },
  {
   "property": "C50",
   "status": "proved",
   "theorems": [
    "c50_coefficients",
    "c50_only_own",
    "c50_zero",
    "c50_zero_S",
    "c50_step1",
    "c50_elastic",
    "c50_step2",
    "c50_table",
    "c50_legendre",
    "c50_multiple_angles",
    "c50_spherical",
    "c50_direction",
    "c50_potential2",
    "c50_potential3"
   ],
   "note": "Over the reals; Moon and Sun away from the centre of the Earth, working arrays of twelve entries. Covers the constructor, any number of earlier evaluations, both steps, all 71 lines of the tables, the placement in the matrices and zeros elsewhere. Also the elastic variant, independence of the choice of spherical coordinates, and the degree 2 and 3 potentials by the addition theorem."
  },
  {
   "property": "C51",
   "status": "proved",
   "theorems": [
    "c51_step",
    "c51_accumulator",
    "c51_sequence",
    "c51_result",
    "c51_finite",
    "c51_overflow_case",
    "c51_second_order_needed",
    "c51_unit_test",
    "c51_unit_test_plain",
    "c51_unit_test_rounded",
    "c51_unit_test_nine"
   ],
   "note": "binary64 of Flocq, round to nearest even; all doubles, the only condition being that the accumulator (for whole sequences: the result) is finite. Also an error bound for the number handed out. The witnesses show that the condition and the second order term are needed. The unit test kahan.cpp passes, and would not with plain addition (c51_unit_test, c51_unit_test_plain); each of its partial sums is the exact sum rounded once."
  },
  {
   "property": "C52",
   "status": "partial",
   "theorems": [
    "c52_factors_partial",
    "c52_factors_refuted",
    "c52_functions_refuted",
    "c52_derivatives_refuted"
   ],
   "note": "All orders: no overflow to degree 1024 (1023 with derivatives). Refuted: every call with a larger degree overflows int."
  },
  {
   "property": "C53",
   "status": "partial",
   "theorems": [
    "c53_layout",
    "c53_unpack_pack",
    "c53_pack_unpack_partial",
    "c53_order_zero_sine_refuted"
   ],
   "note": "S coefficients of order 0 are left indeterminate by unpacking (refuted)."
  },
  {
   "property": "C54",
   "status": "proved",
   "theorems": [
    "c54_refinement",
    "c54_copy_construct",
    "c08_add_exact",
    "c10_scale_partial"
   ],
   "note": ""
  },
  {
   "property": "C55",
   "status": "partial",
   "theorems": [
    "c55_ocean_by_name",
    "c55_atmospheric_by_name",
    "c55_ocean_by_number_partial",
    "c55_parsed_number_refuted",
    "c55_names_fit",
    "c55_name_terminated",
    "c55_name_refuted"
   ],
   "note": "Name lookups proved; number lookup fails when the Doodson-Warburg factor differs, e.g. for numbers read from text; a caller name of 16 characters or more loses its terminator."
  },
  {
   "property": "C56",
   "status": "partial",
   "theorems": [
    "c56_speeds_partial",
    "c56_l2_refuted"
   ],
   "note": "True for all entries but L2, which carries the speed of N2."
  },
  {
   "property": "C57",
   "status": "partial",
   "theorems": [
    "c57_unmoved_partial",
    "c57_moved_from_refuted",
    "c57_move_assign_refuted"
   ],
   "note": "Holds for programs without moves; destroying a moved-from stream is undefined behaviour and move assignment loses an array (refuted)."
  },
  {
   "property": "C58",
   "status": "partial",
   "theorems": [
    "c58_header",
    "c58_no_end",
    "c58_items",
    "c58_argument_length_refuted",
    "c58_prefix_refuted",
    "c58_mandatory_refuted",
    "c58_carriage_return_refuted"
   ],
   "note": "Holds for lines that are exact keyword lines or share no prefix with a keyword and arguments that fit; long arguments overflow, prefixes are taken for keywords, nothing is mandatory, carriage returns change the normalisation (refuted)."
  },
  {
   "property": "C59",
   "status": "partial",
   "theorems": [
    "c59_file_list",
    "c59_atlas",
    "c59_success",
    "c59_complete_list",
    "c59_long_line_refuted",
    "c59_missing_half_refuted",
    "c59_long_names_refuted",
    "c59_icgem",
    "c59_icgem_refused"
   ],
   "note": "One wave per number, parts from the files of that number and tag, for every accepted list and every reader; all parts assigned if companions are present. Without companion half a wave is never assigned; long lines end the list; long names overflow (refuted). The reader of gfc files is a parameter, instantiated by the ICGEM model in icgem_gfc."
  },
  {
   "property": "C60",
   "status": "partial",
   "theorems": [
    "c60_doodson",
    "c60_doodson_sound",
    "c60_admittance",
    "c60_dimensions",
    "c60_model",
    "c60_long_line_refuted",
    "c60_missing_rows_refuted",
    "c60_excess_rows_refuted"
   ],
   "note": "Well-formed files are read exactly; dimensions of every accepted result. Fewer admittance rows are accepted with unassigned elements, one more runs into an assertion, long Doodson lines end the matrix (refuted). Dense matrices only (SPARSE_ADMITTANCE_MATRIX off, the default)."
  },
  {
   "property": "C61",
   "status": "partial",
   "theorems": [
    "c61_reads",
    "c61_columns",
    "c61_sound",
    "c61_exact",
    "c61_ascending",
    "c61_refused",
    "c61_no_file",
    "c61_long_file_refuted",
    "c61_blank_refuted",
    "c61_trailing_refuted",
    "c61_scanner"
   ],
   "note": "Every file: code 0 exactly for a header and at most 999 lines of five numbers, and then exactly the entries of the interval. Refuted: longer files are refused; a first line without number leads to a read of an uninitialised value; an empty last line makes the call fail after the last entry has been stored twice. Dates outside int are excluded by hypothesis."
  },
  {
   "property": "C62",
   "status": "partial",
   "theorems": [
    "c62_acceleration_partial",
    "c62_gradient_partial",
    "c62_gradient_order_refuted",
    "c62_spec_spherical"
   ],
   "note": "Over the reals, all degrees to 198: acceleration is the gradient of the potential for order >= 1 (or degree 0); the matrix consists of the second derivatives for order = degree and scratch with one more row than required. Refuted: for order < degree the matrix is wrong. Rounding: C76."
  },
  {
   "property": "C63",
   "status": "proved",
   "theorems": [
    "c63_positions_agree",
    "c63_state",
    "c63_unknown",
    "c63_gm_units"
   ],
   "note": "All planets, epochs and every ephemeris answering number and text requests alike; unit conversion over the reals."
  },
  {
   "property": "C64",
   "status": "partial",
   "theorems": [
    "c64_displacement",
    "c64_tables",
    "c64_tables_refuted",
    "c64_tables_partial",
    "c64_conventions_refuted",
    "c64_conventions_partial",
    "c64_deprecated",
    "c64_in_phase",
    "c64_parts",
    "c64_out_diurnal",
    "c64_out_semidiurnal",
    "c64_diurnal",
    "c64_long_period",
    "c64_rotation",
    "c64_coordinates"
   ],
   "note": "Over the reals, site, Moon and Sun away from the centre of the Earth. All terms hold with the amplitudes of the table the code uses (c64_displacement). That table has the transverse in-phase amplitude of wave Q1 (135655) with the opposite sign of Table 7.3a, which the same file holds unused: c64_tables_refuted, c64_conventions_refuted (equator, any date); the error stays below 0.02 mm everywhere (c64_conventions_partial). geodetic2lvlh and cartesian2spherical (geodesy library) are modelled by the usual formulas."
  },
  {
   "property": "C65",
   "status": "partial",
   "theorems": [
    "c65_libration",
    "c65_ocean",
    "c65_zonal",
    "c65_periodic",
    "c65_libration_rate",
    "c65_zonal_rate",
    "c65_ocean_rate_partial",
    "c65_dates",
    "c65_libration_rows",
    "c65_ocean_rows_partial",
    "c65_ocean_rows_refuted",
    "c65_zonal_rows",
    "c65_omega",
    "c65_prograde",
    "c65_long_period",
    "c65_two_files_refuted",
    "c65_two_files_partial",
    "c65_regularize"
   ],
   "note": "Over the reals. Proved for libration and zonal tides. For the ocean tide the wave M2 has a length-of-day amplitude of -86.8 where the UT1 amplitude -7.25 calls for -88.0 microseconds (c65_ocean_rows_refuted), all other 70 waves agree within 0.12 (c65_ocean_rows_partial), the sum within 6.1 (c65_ocean_rate_partial). The second definition of deop_zonal_tide (zonal_tides_iers.cpp, not in the build) differs in the last digit of one amplitude: c65_two_files_refuted, c65_two_files_partial. Table Madzak16 is unused and not modelled."
  },
  {
   "property": "C66",
   "status": "partial",
   "theorems": [
    "c66_skip_header",
    "c66_skip_header_sound",
    "c66_skip_header_failed",
    "c66_skip_lines",
    "c66_skip_lines_refuted",
    "c66_header",
    "c66_header_other",
    "c66_header_cut_refuted",
    "c66_header_blanks_refuted",
    "c66_next",
    "c66_next_end",
    "c66_next_type",
    "c66_next_any_refuted",
    "c66_walk_partial",
    "c66_walk_collect_partial",
    "c66_no_block",
    "c66_last_set_refuted",
    "c66_tidal_partial",
    "c66_tidal_sound_partial",
    "c66_tidal_sizes",
    "c66_tidal_newline_refuted",
    "c66_tidal_extra_refuted",
    "c66_tidal_empty_refuted",
    "c66_tidal_line_refuted",
    "c66_end"
   ],
   "note": "Iteration holds when every run of blocks of other types is shorter than num_data_sets - 1 (c66_walk_partial, c66_walk_collect_partial; the latter for files that end with a newline). Refuted: the last announced data set is never reached, so that a file with one block has none (c66_last_set_refuted); goto_next_block for any type never succeeds (c66_next_any_refuted); skip_lines reports success at a premature end (c66_skip_lines_refuted); a block header cut short is read beyond its end, two blanks before COEFFICIENTS terminate the program (c66_header_cut_refuted, c66_header_blanks_refuted). Tidal files: correct for complete files ending with a newline; without it refused, with one unterminated extra line accepted, nothing behind the header or a line without a readable degree or with an order above the degree is undefined (c66_tidal_*_refuted). The date reader and gps2tt are parameters (external library); collect without resizing."
  },
  {
   "property": "C67",
   "status": "partial",
   "theorems": [
    "c67_values",
    "c67_values_unterminated",
    "c67_construct",
    "c67_construct_missing",
    "c67_accepted",
    "c67_code",
    "c67_date_disagrees",
    "c67_unknown_line",
    "c67_bad_number",
    "c67_bad_flag",
    "c67_no_end",
    "c67_copy",
    "c67_assign",
    "c67_move",
    "c67_move_assign",
    "c67_colon_missing_refuted",
    "c67_blank_text_refuted",
    "c67_long_text_refuted",
    "c67_agency_spills_refuted",
    "c67_text_twice_refuted",
    "c67_radius_column_refuted",
    "c67_wave_refuted",
    "c67_seconds_refuted",
    "c67_date_missing_refuted",
    "c67_year_refuted",
    "c67_epoch_refuted",
    "c67_flag_refuted",
    "c67_bare_header_refuted",
    "c67_end_unterminated_refuted"
   ],
   "note": "Values proved for every well-formed header of at most 99 lines (c67_values, c67_construct: texts within their width, stated at most once; the radius with its colon not before column 22), refusals (c67_date_disagrees, c67_unknown_line, c67_bad_number, c67_bad_flag, c67_no_end, c67_accepted), copies and moves. Refuted: a value line without colon, a blank text, a text too long, a short radius line, an unknown or long wave name, a missing number or date in an observation line and an unreadable year are undefined behaviour (c67_*_refuted); a bad epoch or a flag of two or three other letters terminates; an agency of more than 20 characters appears as satellite; a second shorter text keeps the end of the first; a header with nothing but its end is accepted and leaves every member unset; a header that ends the file without newline is refused. The date library and the table of waves are parameters; the product with 1e9 and the numbers read are exact reals; reading behind the terminator of a line counts as undefined."
  },
  {
   "property": "C68",
   "status": "partial",
   "theorems": [
    "c68_rows",
    "c68_pole",
    "c68_y",
    "c68_x_partial",
    "c68_x_error",
    "c68_versions_refuted",
    "c68_locator",
    "c68_epoch",
    "c68_epoch_locator",
    "c68_overloads",
    "c68_extra",
    "c68_turns",
    "c68_continuous",
    "c68_near",
    "c68_locator_size",
    "c68_rotation",
    "c68_independent",
    "c68_multipliers",
    "c68_terms",
    "c68_leading"
   ],
   "note": "Over the reals. All tables transcribed in full. Proved: the combined function is the series of its table and reads it exactly once (c68_pole, c68_rows), Y of both versions agrees (c68_y), the locator is Table 5.2d (c68_locator), periodicity, continuity, bounds, use in c2i06a. Refuted: X of both versions differs (c68_versions_refuted), because xcip06a.cpp holds 205833.1 instead of 205833.11 for the leading term of j = 1; the difference is 0.01 t cos(Omega) microarcseconds (c68_x_partial). The reference for X and Y is the separate table with this one row corrected; only its leading terms, the polynomials and Table 5.2d were written independently of the code."
  },
  {
   "property": "C69",
   "status": "partial",
   "theorems": [
    "c69_name",
    "c69_long_name_refuted",
    "c69_laps",
    "c69_average_partial",
    "c69_average_refuted",
    "c69_no_laps_refuted",
    "c69_faster",
    "c69_slower_refuted",
    "c69_copy",
    "c69_assign",
    "c69_compare"
   ],
   "note": "Proved: laps add up, names of up to 23 characters, copies and assignment; the average is the mean without decimals (c69_average_partial), is_faster implies a smaller mean and follows from one smaller by a unit (c69_faster). Refuted: the average is not the mean (integer division), means within a microsecond are not told apart and compare divides by zero (c69_slower_refuted), no lap is an integer division by zero (c69_no_laps_refuted), a name of 24 or more characters overruns the buffer (c69_long_name_refuted). Ticks are taken as nanoseconds; the printed text is not modelled."
  },
  {
   "property": "C70",
   "status": "proved",
   "theorems": [
    "c70_bound",
    "c70_doubles",
    "c70_exact_run",
    "c70_contracted",
    "c70_expressions",
    "c70_angles",
    "c70_arguments",
    "c70_series",
    "c70_pole",
    "c70_locator",
    "c70_builds",
    "c70_binary64",
    "c70_binary64_locator",
    "c70_fmod",
    "c70_library"
   ],
   "note": "Rounding is nondeterministic: every operation may return any value within half a unit in the last place (or the exact one), decimal literals are rounded. A bound of the error is computed and proved sound for all expressions (c70_bound), binary64 evaluation with Flocq is an instance and does not overflow (c70_doubles, c70_binary64). Assumed of the libraries, as hypotheses shown to be satisfiable (c70_library): sin and cos accurate to 2^-52, sec2rad to 4 units, fmod exact (c70_fmod: its result is a double), D2PI within 2^-50. The number of centuries is known to 2^-53. The separate versions with compensated sums are not covered."
  },
  {
   "property": "C71",
   "status": "proved",
   "theorems": [
    "c71_expressions",
    "c71_era",
    "c71_gmst",
    "c71_gmst82",
    "c71_sp00",
    "c71_rotation",
    "c71_equator",
    "c71_builds",
    "c71_binary64",
    "c71_anp",
    "c71_library"
   ],
   "note": "Same nondeterministic rounding as C70. Assumed of the libraries, as hypotheses shown to be satisfiable (c71_library, c71_anp): the epoch quantities are known to 2^-53 days, 2^-37 days, 2^-53 centuries and 2^-36 seconds, anp takes off whole turns with an error of 2^-50 per turn (proved for a remainder by D2PI), sec2rad and hsec2rad are accurate to 4 units. The equation of the origins and the GST series are not covered."
  },
  {
   "property": "C72",
   "status": "proved",
   "theorems": [
    "c72_expressions",
    "c72_doodson",
    "c72_zonal_expressions",
    "c72_libration",
    "c72_ocean",
    "c72_zonal",
    "c72_ground",
    "c72_builds",
    "c72_binary64",
    "c72_library"
   ],
   "note": "Rounding as in C70, epochs, anp and library functions as in C70 and C71 (c72_library: they exist). c72_expressions, c72_doodson and c72_zonal_expressions tie the expressions to the functions of C65. The errors of the tables themselves are in C65."
  },
  {
   "property": "C73",
   "status": "proved",
   "theorems": [
    "c73_values",
    "c73_sectorial",
    "c73_degrees",
    "c73_binary64",
    "c73_addition_theorem"
   ],
   "note": "Rounding as in C70; sine and cosine assumed accurate to 2 units in the last place (c73_library_nonvacuous: correctly rounded functions are). c73_exact_run: the rounded expressions include the exact evaluation. Gradual underflow of the sectorial functions near the poles is covered. c73_addition_theorem (sum over the orders of the squares is 2n+1) supports both the error analysis and the definition of the functions."
  },
  {
   "property": "C74",
   "status": "partial",
   "theorems": [
    "c74_derivatives_partial",
    "c74_binary64_partial",
    "c74_low_degrees_partial",
    "c74_pole_refuted"
   ],
   "note": "The error bound is proved for all degrees to 1024 away from the exact pole (every double satisfies |cos| >= 2^-57 in practice; it is a hypothesis here). Refuted (c74_pole_refuted): that the derivatives are accurate at the poles. At the double nearest pi/2, with correctly rounded library functions, the derivative of degree 3 and order 0 is below 1e-14 but the computed value is below -28."
  },
  {
   "property": "C75",
   "status": "proved",
   "theorems": [
    "c75_values",
    "c75_addition_theorem",
    "c75_relative"
   ],
   "note": "Rounding as in C70 (any results within the bound of round to nearest, gradual underflow included); squaring by std::pow assumed accurate to 2 units in the last place; fused multiply-add is covered, as a product may go unrounded. The matrices are functions of degree and order here; sharing of cells is C38. c75_exact_run: the rounded expressions include the exact evaluation. c75_addition_theorem gives the size of the harmonics of one degree."
  },
  {
   "property": "C76",
   "status": "proved",
   "theorems": [
    "c76_terms_acceleration",
    "c76_terms_gradient",
    "c76_acceleration",
    "c76_gradient",
    "c76_central"
   ],
   "note": "Rounding as in C70 and C75 (any results within the bound of round to nearest, gradual underflow and fused multiply-add included). The bound counts the harmonics (C75), at most 18 operations for one term and the additions after it: the sums run from high order to low, so the term (n,m) is followed by about m D + n additions and the central term by one. 2^-199 is added to |C|+|S| for products below the normal range. Order 0 with degree >= 1 is excluded because order 1 enters then (C39), the gradient for order < degree because it is wrong then (C62). Assumed: 2^-60 <= GM, 1 <= Re <= 2^30. c76_terms_*: without rounding the expressions are the terms of C62; c76_central: the central term alone."
  },
  {
   "property": "C77",
   "status": "proved",
   "theorems": [
    "c77_interpolation",
    "c77_outside",
    "c77_approx_dut1",
    "c77_exact",
    "c77_daily"
   ],
   "note": "Rounding as in C70 (gradual underflow and fused multiply-add included). The difference of two epochs in days is a function of the external datetime library; its error is a parameter: at most c 2^-53 max(|difference|, g). A weight counts a difference below g as g. Nodes at least g and at most 2^20 days apart. 2^-199 is added to |y| for products below the normal range. c77_daily: between two daily records the sum is at most (1+2g) times the larger value."
  },
  {
   "property": "C78",
   "status": "proved",
   "theorems": [
    "c78_third_body",
    "c78_partials",
    "c78_relativity",
    "c78_exact",
    "c78_tidal_size"
   ],
   "note": "Rounding as in C70 (gradual underflow and fused multiply-add included); std::pow is assumed accurate to one unit in the last place. c78_tidal_size: what cancellation costs. Relativity: beta and gamma from 1/4 to 4; V, W and Jm are bounds of the speeds of satellite and Sun and of the angular momentum."
  },
  {
   "property": "C79",
   "status": "partial",
   "theorems": [
    "c79_accepted",
    "c79_throws",
    "c79_undefined",
    "c79_acceleration",
    "c79_orbit",
    "c79_rotary",
    "c79_eops",
    "c79_words",
    "c79_scanner",
    "c79_determined",
    "c79_epoch",
    "c79_blank_line",
    "c79_tab_refuted",
    "c79_tabs_file_refuted",
    "c79_glued_refuted",
    "c79_nan_refuted",
    "c79_large_refuted",
    "c79_basename",
    "c79_name_unique",
    "c79_basename_refuted"
   ],
   "note": "Refuted: lines with a tab or a plus sign in front of a number are dropped without a message (c79_tab_refuted); glued numbers are read as several (c79_glued_refuted); an epoch that is nan, inf or beyond int is undefined behaviour (c79_nan_refuted, c79_large_refuted); basename of a name without a slash loses its first character and reads behind an empty name (c79_basename_refuted). Left out: NUL characters in lines, rounding of the numbers, normalisation of the epoch by dso::MjdEpoch."
  },
  {
   "property": "C80",
   "status": "partial",
   "theorems": [
    "c80_check_03",
    "c80_check_04",
    "c80_check_05",
    "c80_check_06",
    "c80_check_07",
    "c80_check_08",
    "c80_check_09",
    "c80_check_11",
    "c80_lines",
    "c80_determined",
    "c80_mismatch",
    "c80_short_refuted",
    "c80_short_rotation_refuted",
    "c80_short_eops_refuted",
    "c80_empty_refuted",
    "c80_surplus_refuted",
    "c80_ndebug_refuted",
    "c80_times",
    "c80_ut1_refuted"
   ],
   "note": "Refuted: files that end early are read behind their end (c80_short_refuted, c80_short_rotation_refuted, c80_short_eops_refuted), as is an empty orbit file (c80_empty_refuted); surplus references are never compared (c80_surplus_refuted); without asserts a rotation of another epoch is used (c80_ndebug_refuted); the UT1 of check_11 is 51.184 s early, GPS time being passed for TT (c80_ut1_refuted). The calls themselves are parameters; c80_mismatch and c80_short_refuted are stated for the programs with one call."
  },
  {
   "property": "C81",
   "status": "proved",
   "theorems": [
    "c81_sum",
    "c81_sum_orders",
    "c81_product",
    "c81_product_units",
    "c81_product_doubles",
    "c81_axis",
    "c81_c2i",
    "c81_c2tirs",
    "c81_tirs2i",
    "c81_agree",
    "c81_chain",
    "c81_norm",
    "c81_vector",
    "c81_vector_rounded",
    "c81_surface",
    "c81_spherical",
    "c81_pole",
    "c81_spherical_sign",
    "c81_sensitivity",
    "c81_exact_run",
    "c81_exact_spherical"
   ],
   "note": "Errors of sin and cos are taken as 2^-52, of atan as 2^-52 and of atan2 as 2^-51; the additions of a component of a quaternion product are in any order. c81_product_doubles shows that the product in binary64, from left to right, is one of these runs and does not overflow."
  },
  {
   "property": "C82",
   "status": "proved",
   "theorems": [
    "c82_rotation",
    "c82_pole",
    "c82_vectors",
    "c82_vectors_rounded",
    "c82_surface",
    "c82_builds",
    "c82_parts",
    "c82_runs_exist"
   ],
   "note": "Builds on C70 (series), C71 (angle) and C81. The times handed out by the datetime library are taken to be within the limits stated in C71; most of the 4.2e-13 of the quaternion comes from the fraction of days in era00."
  },
  {
   "property": "C83",
   "status": "proved",
   "theorems": [
    "c83_closed_formula",
    "c83_matrix",
    "c83_rotation",
    "c83_vectors",
    "c83_surface",
    "c83_versions_agree",
    "c83_rate",
    "c83_turned",
    "c83_velocity",
    "c83_orbit_velocity",
    "c83_exact_run",
    "c83_runs_exist"
   ],
   "note": "Builds on C70, C71, C81 and C82, and on C45 for the derivative. The derivative is that of a rotation whose angle alone moves, at the rate of OmegaEarth and the excess length of day; the motion of the pole is not part of the formula. The matrix products are taken with sums in any order."
  },
  {
   "property": "C84",
   "status": "partial",
   "theorems": [
    "c84_header",
    "c84_data",
    "c84_date",
    "c84_date_unique",
    "c84_number",
    "c84_two",
    "c84_overlap",
    "c84_differ",
    "c84_records_refuted",
    "c84_three_refuted",
    "c84_reverse_refuted",
    "c84_no_end_refuted",
    "c84_one_refuted",
    "c84_root_refuted",
    "c84_overwrites_refuted",
    "c84_directory_refuted",
    "c84_name"
   ],
   "note": "False parts: the file written has no END OF HEADER line, so this program reads it for ever and the header reader of the library refuses it (for all inputs, from C67); three files or more are never merged, as the sum of the data sets is written with a blank in front that counts as a difference; files with different numbers of records are never merged; merging the earlier file into the later one keeps the first observation of the later one; the output directory is ignored for absolute names, and a file whose name lacks .asc is overwritten. Dates are parameters; the seconds are whole and their formatting is exact."
  },
  {
   "property": "C85",
   "status": "partial",
   "theorems": [
    "c85_text",
    "c85_numbers",
    "c85_suite",
    "c85_path",
    "c85_data",
    "c85_decompressed",
    "c85_blanks_refuted",
    "c85_joined_refuted",
    "c85_cut_refuted",
    "c85_empty_refuted",
    "c85_uncompared_refuted",
    "c85_skipped_refuted",
    "c85_unbuilt_refuted",
    "c85_stale_refuted"
   ],
   "note": "False parts: the comparison with precision sees only the lines that both texts have, so an output cut off at a line end, or empty, passes; the text comparison accepts numbers joined or broken by blanks; a column listed without a precision of its own is never compared; a program with the name of a listed one is skipped whatever its directory, and programs that were not built are not missed; a compressed file that is there without the decompressed one stays so. Conversion to float, running programs and JSON are parameters; differences of floats are exact."
  },
  {
   "property": "C86",
   "status": "partial",
   "theorems": [
    "c86_name",
    "c86_release",
    "c86_run",
    "c86_content",
    "c86_complete",
    "c86_skip",
    "c86_default",
    "c86_tidal_refuted",
    "c86_failed_refuted",
    "c86_gunzip_refuted"
   ],
   "note": "False parts: the option for tidal products always raises an exception; a transfer that fails leaves an empty file, and later runs take it for the product; a decompression that fails leaves an empty decompressed file. The server, gzip and the formatting of dates are parameters (the latter assumed to give digits and hyphens); the output directory is not empty and does not end in a slash."
  },
  {
   "property": "C87",
   "status": "proved",
   "theorems": [
    "c87_expressions",
    "c87_coeffs",
    "c87_solid",
    "c87_factor",
    "c87_ocean",
    "c87_builds",
    "c87_binary64"
   ],
   "note": "The years since J2000 are taken to be good to 2^-44 and DPI to 2^-50; the power Re^4 to 2^-52 (std::pow)."
  },
  {
   "property": "C88",
   "status": "partial",
   "theorems": [
    "c88_sound",
    "c88_grouped",
    "c88_order",
    "c88_accepted",
    "c88_arrays",
    "c88_tables",
    "c88_series",
    "c88_digits",
    "c88_growing_refuted",
    "c88_again_refuted"
   ],
   "note": "Refuted parts: growing amplitudes, a second generation (c88_growing_refuted, c88_again_refuted). The amplitudes are compared exactly, not as rounded square roots; c88_sound and c88_grouped hold for any comparison."
  },
  {
   "property": "C89",
   "status": "partial",
   "theorems": [
    "c89_sidereal",
    "c89_pole",
    "c89_long",
    "c89_ut1_partial",
    "c89_ut1_bound",
    "c89_ut1_refuted",
    "c89_date"
   ],
   "note": "Refuted: equality of UT1 and length of day (c89_ut1_refuted; exact difference in c89_ut1_partial). FUNDARG, not in the repository, is a parameter."
  },
  {
   "property": "C90",
   "status": "partial",
   "theorems": [
    "c90_run",
    "c90_count",
    "c90_refuses",
    "c90_nodes_partial",
    "c90_ut1_refuted"
   ],
   "note": "Refuted: corrected UT1 is UT1 (c90_ut1_refuted; what is printed at tabulated epochs in c90_nodes_partial). The parser is an input (C17, C18), the datetime library a parameter; rounding not modelled."
  },
  {
   "property": "C91",
   "status": "partial",
   "theorems": [
    "c91_run",
    "c91_count",
    "c91_early",
    "c91_readers",
    "c91_empty_refuted",
    "c91_opposite_refuted"
   ],
   "note": "Refuted: the loading is that of the site (c91_opposite_refuted, from C34), a table without records is handled (c91_empty_refuted). Cartesian to spherical coordinates and the rotation from east, north, up are parameters; the parser is an input (C17, C18); rounding and printing not modelled."
  },
  {
   "property": "C92",
   "status": "partial",
   "theorems": [
    "c92_run",
    "c92_order",
    "c92_twice_refuted",
    "c92_lost_refuted",
    "c92_file_system_refuted",
    "c92_directory_refuted"
   ],
   "note": "Refuted: a further run changes nothing (c92_twice_refuted), the original is kept (c92_lost_refuted), an exception leaves the header in place (c92_file_system_refuted), all headers are reached (c92_directory_refuted). The working directory is another one than that of the headers; texts are ASCII without carriage returns."
  },
  {
   "property": "C93",
   "status": "partial",
   "theorems": [
    "c93_states",
    "c93_case",
    "c93_unbound",
    "c93_short",
    "c93_stale_refuted",
    "c93_prefix_refuted"
   ],
   "note": "Refuted: a state has the position of its own epoch (c93_stale_refuted), all states are those of the satellite asked for (c93_prefix_refuted). Conversions of numbers and dates are parameters; the transformation by astropy and the output are not modelled."
  },
  {
   "property": "C94",
   "status": "proved",
   "theorems": [
    "c94_dates",
    "c94_value",
    "c94_outside",
    "c94_reader",
    "c94_period",
    "c94_eigen5c"
   ],
   "note": "Real arithmetic; strptime is a parameter, known on digits only. The numbers of the two tables are not compared with the files of the models, which are not in the repository."
  },
  {
   "property": "C95",
   "status": "partial",
   "theorems": [
    "c95_reference",
    "c95_library",
    "c95_tolerance",
    "c95_match",
    "c95_match_total",
    "c95_microsecond_refuted",
    "c95_blank_refuted"
   ],
   "note": "Refuted: epochs less than a microsecond apart match (c95_microsecond_refuted), a line of blanks in the reference file is ignored (c95_blank_refuted: IndexError). No overflow and no NaN; the plots and what the script prints are not modelled."
  },
  {
   "property": "C96",
   "status": "partial",
   "theorems": [
    "c96_titled",
    "c96_plain",
    "c96_days_refuted",
    "c96_blanks_refuted"
   ],
   "note": "Refuted: later epochs are plotted later (c96_days_refuted), blanks between numbers make no difference (c96_blanks_refuted). The statistics and the plots are not modelled; titles that contain the character # are left out."
  },
  {
   "property": "C97",
   "status": "partial",
   "theorems": [
    "c97_read",
    "c97_other",
    "c97_days",
    "c97_filter",
    "c97_days_after_refuted"
   ],
   "note": "Refuted: the points kept are those more than daysafter days after the first (c97_days_after_refuted). Real arithmetic; the plots are not modelled."
  },
  {
   "property": "C98",
   "status": "partial",
   "theorems": [
    "c98_sofa",
    "c98_program",
    "c98_library",
    "c98_pom",
    "c98_pom_difference",
    "c98_pom_equal",
    "c98_pom_refuted"
   ],
   "note": "Refuted: the polar motion matrices compared are equal (c98_pom_refuted). Real arithmetic; the functions of SOFA are described by their documentation, its series for x, y, s, sp and the angle are inputs."
  },
  {
   "property": "C99",
   "status": "partial",
   "theorems": [
    "c99_round_trip",
    "c99_second_part",
    "c99_first_part",
    "c99_first_part_refuted",
    "c99_restored_refuted"
   ],
   "note": "Refuted: the values are restored exactly (c99_restored_refuted) and always changed by the regularisation (c99_first_part_refuted). No overflow; the corrections of the zonal tides are inputs."
  }
 ]
}