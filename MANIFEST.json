{
 "claims": [
  {
   "property": "C01",
   "status": "proved",
   "theorems": [
    "C01_axis_extent_n_uniform",
    "C01_uniform_axis_is_monotone",
    "C01_uniform_axis_spacing"
   ],
   "note": "scipy spline is an argument; only assumed to reproduce straight lines"
  },
  {
   "property": "C02",
   "status": "partial",
   "theorems": [
    "C02_accepted_grid_outside_cell_refuted",
    "C02_accepted_length_mismatch_refuted",
    "C02_proper_input_accepted_partial",
    "C02_accepted_lower_boundaries_partial",
    "C02_accepted_sequences_monotone_partial"
   ],
   "note": "Full statement is false of the code (operator precedence in the check, broadcasting of lengths): refuted with witnesses. Proved: correct input is accepted unchanged, accepted sequences are monotone, lower boundaries are enforced when the upper ones hold."
  },
  {
   "property": "C03",
   "status": "proved",
   "theorems": [
    "C03_nearest_index_correct",
    "C03_float_index_returns_nearest_point"
   ],
   "note": "ascending and descending axes; tie goes to the larger index"
  },
  {
   "property": "C04",
   "status": "proved",
   "theorems": [
    "C04_value_to_index_affine",
    "C04_value_to_index_grid_points",
    "C04_value_to_index_monotone",
    "C04_rounding_is_nearest",
    "C04_rounding_at_midpoints_refuted"
   ],
   "note": "docstring equality at exact midpoints is outside the property and refuted separately"
  },
  {
   "property": "C05",
   "status": "proved",
   "theorems": [
    "C05_coordinate_slice_ascending",
    "C05_coordinate_slice_descending",
    "C05_no_step"
   ],
   "note": "both orientations"
  },
  {
   "property": "C06",
   "status": "partial",
   "theorems": [
    "C06_integer_slice_partial",
    "C06_integer_slice_succeeds_partial",
    "C06_negative_start_refuted",
    "C06_reversing_slice_refuted"
   ],
   "note": "Full statement false for negative start (ax[-1:]); refuted with witness. Proved for start None or >= 0 and every stop."
  },
  {
   "property": "C07",
   "status": "partial",
   "theorems": [
    "C07_reversed_involution_partial",
    "C07_length_partial",
    "C07_returned",
    "C07_twice_returned",
    "C07_ascending",
    "C07_accepted_refuted"
   ],
   "note": "Proved for proper axes (strictly monotone, each point inside its cell), and for every axis whenever reversed() returns (C07_returned, C07_twice_returned); accepted axes with ascending nodes are accepted again (C07_ascending). Refuted: an accepted axis with descending nodes and a point outside its cell is refused when reversed (C07_accepted_refuted)."
  },
  {
   "property": "C08",
   "status": "partial",
   "theorems": [
    "C08_half_resolution_axis",
    "C08_half_resolution_field_partial",
    "C08_flipped_refuted"
   ],
   "note": "Axes: every proper axis. Fields: every Field of up to three dimensions (the axis argument is limited to three) on proper axes whose data is an array; a flipped Field wraps another Field and raises (C08_flipped_refuted)."
  },
  {
   "property": "C09",
   "status": "partial",
   "theorems": [
    "C09_constructed_from_axes",
    "C09_constructed_from_edges_partial",
    "C09_history_partial",
    "C09_calm_history_partial",
    "C09_pad_after_negative_slice_refuted",
    "C09_four_dims_refuted"
   ],
   "note": "Proved for every history without padding, and for every history (padding included) whose slices start at a non-negative index; false in general: padding after f[-2:] on a descending axis gives an axis shorter than the data (witness); a four dimensional field built without axes has three axes (witness)."
  },
  {
   "property": "C10",
   "status": "partial",
   "theorems": [
    "C10_transpose_positions_partial",
    "C10_round_trip_partial",
    "C10_default_reverses",
    "C10_swapaxes_partial",
    "C10_states_stay_behind_refuted"
   ],
   "note": "Values and axes move with their dimension and the inverse permutation restores the field, for every non-empty field of up to three dimensions with proper axes (setaxisobj rejects more). The per-axis lists axes_transform_state and transformed_axes_origins are not moved: refuted with witness."
  },
  {
   "property": "C11",
   "status": "partial",
   "theorems": [
    "C11_flip_keeps_samples_partial",
    "C11_flip_twice_partial",
    "C11_transpose_keeps_samples_partial",
    "C11_swapaxes_twice_partial",
    "C11_rot90_keeps_samples_partial",
    "C11_rot90_mod_four",
    "C11_rot90_add_partial",
    "C11_rot90_repeated_partial",
    "C11_rot90_four_times_partial",
    "C11_rot90_same_axis_accepted_refuted"
   ],
   "note": "Proved for every non-empty field of up to three dimensions with proper axes, including fields already wrapped by earlier flips (flip and slicing raise for more dimensions). rot90 with two numbers for the same axis is accepted (witness)."
  },
  {
   "property": "C12",
   "status": "partial",
   "theorems": [
    "C12_reduce_drops_partial",
    "C12_keepdims",
    "C12_ufunc_reduce_partial",
    "C12_negative_tuple_refuted"
   ],
   "note": "Proved for fields of at most three dimensions. keepdims=True: every axis argument numpy accepts. keepdims=False (and ufunc.reduce): axis None, any int, tuples without negative entries or of length one. Missing: tuples with negative entries, where the claim is false (C12_negative_tuple_refuted: sum(axis=(-1,-2)) deletes the wrong axis or raises IndexError)."
  },
  {
   "property": "C13",
   "status": "partial",
   "theorems": [
    "C13_broadcast_partial",
    "C13_mismatch_rejected",
    "C13_equal_shapes_partial",
    "C13_swapped_partial",
    "C13_array_partial",
    "C13_flipped_refuted"
   ],
   "note": "Proved for fields of at most three dimensions whose matrix is a plain array (C13_mismatch_rejected also for flipped ones); field op array is accepted exactly when the array broadcasts into the shape of the field. Missing: fields returned by flip, whose matrix is a Field again, where the claim is false (C13_flipped_refuted)."
  },
  {
   "property": "C14",
   "status": "partial",
   "theorems": [
    "C14_fast_partial",
    "C14_constant_partial",
    "C14_methods_agree_partial",
    "C14_one_after_another_partial",
    "C14_linear",
    "C14_negative_axes_refuted"
   ],
   "note": "Both methods proved to return the sum over cells of value times cell size for non-empty fields with one more node than grid points and non-negative axis numbers (fast: any dimension; constant: up to three dimensions, plain matrix); agreement, successive integration, linearity. Missing: negative axis numbers, where both methods are wrong (C14_negative_axes_refuted)."
  },
  {
   "property": "C15",
   "status": "proved",
   "theorems": [
    "C15_pad",
    "C15_descending_refuted"
   ],
   "note": "Every consistent Field on ascending uniform axes, mode constant. C15_descending_refuted shows what happens outside the claim (descending axes)."
  },
  {
   "property": "C16",
   "status": "partial",
   "theorems": [
    "C16_autopad_partial",
    "C16_nonuniform_refuted"
   ],
   "note": "Fields on ascending uniform axes. Refuted: axes with cells of different sizes raise a TypeError (C16_nonuniform_refuted); on descending axes the samples move (C15_descending_refuted)."
  },
  {
   "property": "C17",
   "status": "partial",
   "theorems": [
    "C17_autoreduce_partial",
    "C17_flipped_refuted"
   ],
   "note": "Fields of up to three dimensions on proper axes whose data is an array; a flipped Field raises (C17_flipped_refuted). Termination: for every sufficiently large step bound."
  },
  {
   "property": "C18",
   "status": "partial",
   "theorems": [
    "C18_autocutout_partial",
    "C18_bounds_partial",
    "C18_three_dims_refuted",
    "C18_zero_refuted"
   ],
   "note": "Every Field of at most two dimensions longer than one (after squeezing) on proper axes with a non-zero sample and fractions lower <= upper < 1, any window function. Three dimensional Fields use stale axis numbers and all-zero Fields raise (refuted with witnesses)."
  },
  {
   "property": "C19",
   "status": "partial",
   "theorems": [
    "C19_squeeze_partial",
    "C19_atleast_nd_partial",
    "C19_squeeze_undoes_partial",
    "C19_flipped_refuted",
    "C19_domain"
   ],
   "note": "Non-empty Fields on proper axes whose data is an array, squeeze() without axis argument (with one it raises NameError), at most three long dimensions (limit of setaxisobj). A flipped Field fails (C19_flipped_refuted)."
  },
  {
   "property": "C20",
   "status": "partial",
   "theorems": [
    "C20_round_trip_partial",
    "C20_single_point_refuted",
    "C20_reversed_refuted"
   ],
   "note": "round trip proved along any set of axes at once for uniform ascending axes of at least two points, any origin of either grid, both sign conventions and both settings of old_behaviour, starting from either domain; refuted for axes of one point (data come back divided by 2 pi) and for descending axes (grid comes back ascending)"
  },
  {
   "property": "C21",
   "status": "partial",
   "theorems": [
    "C21_toggle",
    "C21_mixed",
    "C21_names_partial",
    "C21_name_refuted",
    "C21_ensure"
   ],
   "note": "toggle, remembered origins, forward names and the ensure_* functions proved; names and units come back if they do not already start with the letters that are stripped (refuted for the rest, e.g. the name kappa and the unit 1/m)"
  },
  {
   "property": "C22",
   "status": "partial",
   "theorems": [
    "C22_energy_partial",
    "C22_single_point_refuted"
   ],
   "note": "Parseval proved for axes of at least two points; refuted for one point"
  },
  {
   "property": "C23",
   "status": "partial",
   "theorems": [
    "C23_grid",
    "C23_whole_cells_partial",
    "C23_additive",
    "C23_origin_refuted",
    "C23_band_limited"
   ],
   "note": "grid movement and additivity proved for all shifts, and for sums of plane waves of the frequency grid the shifted values are the same sum at the shifted points; whole cells roll the data when the remembered conjugate origin lies on the conjugate lattice (always so if none was remembered), refuted otherwise"
  },
  {
   "property": "C24",
   "status": "proved",
   "theorems": [
    "C24_conjugate"
   ],
   "note": "n points, spacing, zero at n/2, remembered origin, and the conjugate of the conjugate is the original grid"
  },
  {
   "property": "C25",
   "status": "partial",
   "theorems": [
    "C25_histogram_memory_safe",
    "C25_histogram2d_memory_safe_partial",
    "C25_histogram3d_memory_safe_partial",
    "C25_saturating_conversion_safe_partial",
    "C25_far_particle_2d_refuted",
    "C25_far_particle_3d_refuted",
    "C25_short_weights_refuted"
   ],
   "note": "1D safe for every position and every result of the undefined float to int conversion. 2D and 3D are false as stated (the second coordinate is tested as y>=0 instead of through its cell number): refuted with a particle 2^31 cells away; proved for positions that fit into a C int, and for all positions under a saturating conversion. Shorter weight lists are read out of bounds (refuted)."
  },
  {
   "property": "C26",
   "status": "proved",
   "theorems": [
    "C26_padded_1d",
    "C26_padded_2d",
    "C26_padded_3d",
    "C26_weight_conserved_1d",
    "C26_weight_conserved_2d",
    "C26_weight_conserved_3d",
    "C26_shares_are_splines_1d",
    "C26_shares_are_splines_2d",
    "C26_shares_are_splines_3d"
   ],
   "note": "1D, 2D and 3D, orders 0 to 3, whenever the histogram is returned: the padded array contains the weights of all particles which pass the range test (C26_padded), the returned one the weights of the particles whose whole shape is inside (C26_weight_conserved), and every cell its B-spline share for particles inside the range. In 2D and 3D particles far outside make the histogram itself fail (C25)."
  },
  {
   "property": "C27",
   "status": "partial",
   "theorems": [
    "C27_particle_local_nonneg_1d_partial",
    "C27_particle_local_nonneg_2d_partial",
    "C27_in_range_nonneg_1d_partial",
    "C27_negative_share_refuted"
   ],
   "note": "False just below the range (negative share, witness). Proved for all positions outside the narrow band in which truncation differs from floor, incl. far outside."
  },
  {
   "property": "C28",
   "status": "partial",
   "theorems": [
    "C28_ngp_counts_partial",
    "C28_outer_edges_lost_refuted"
   ],
   "note": "Particles exactly on the outer edges are lost (witness); everything else counts like numpy."
  },
  {
   "property": "C29",
   "status": "partial",
   "theorems": [
    "C29_additive_1d",
    "C29_order_independent_1d",
    "C29_scaling_1d",
    "C29_no_weights_is_weight_one",
    "C29_laws_2d_partial",
    "C29_laws_3d_partial"
   ],
   "note": "1D for all particles. 2D and 3D for positions that fit into a C int (the coordinates after the first); beyond that the histogram itself fails (C25)."
  },
  {
   "property": "C30",
   "status": "partial",
   "theorems": [
    "C30_transpose_partial",
    "C30_asymmetric_refuted"
   ],
   "note": "False for particles below the range (witness); proved for all others"
  },
  {
   "property": "C31",
   "status": "partial",
   "theorems": [
    "C31_arguments_1d",
    "C31_arguments_2d",
    "C31_arguments_3d",
    "C31_shape_names",
    "C31_returned_edges",
    "C31_matrix_columns_partial",
    "C31_flat_range_partial",
    "C31_flat_open",
    "C31_no_data",
    "C31_empty_partial",
    "C31_empty_refuted",
    "C31_open_lower_bound_refuted",
    "C31_few_particles_misread_refuted"
   ],
   "note": "proved for per-axis requests; refuted for a flat (None, b) range and for two dimensional arrays with at most three rows"
  },
  {
   "property": "C32",
   "status": "partial",
   "theorems": [
    "C32_every_word",
    "C32_decodes_partial",
    "C32_characters",
    "C32_unknown_element",
    "C32_nothing_spelled",
    "C32_other_characters",
    "C32_defaults",
    "C32_ision_partial",
    "C32_ision_default",
    "C32_ision_fails",
    "C32_isejected",
    "C32_elements_refuted",
    "C32_documented_refuted",
    "C32_prefixes_refuted",
    "C32_helium_refuted",
    "C32_isejected_refuted"
   ],
   "note": "Names of letters and digits with prefixes (ascii, python re modelled as a backtracking matcher): every word has a reading, known elements, ions and electrons get the mass, charge and kind spelled out and every prefix is set. The full claim is false: four elements are misspelled in the table, documented names raise, prefixes called name or mass overwrite entries, and isejected disagrees for names with a slash. Not stated: names with empty prefixes."
  },
  {
   "property": "C33",
   "status": "partial",
   "theorems": [
    "C33_conjunction_partial",
    "C33_accepted_partial",
    "C33_constant_refuted"
   ],
   "note": "Conjunction proved for any number of filters and every history; a condition on a per-species constant raises TypeError (C33_constant_refuted), and a caller that later writes into the condition array changes the selection (C38_alias_refuted)."
  },
  {
   "property": "C34",
   "status": "partial",
   "theorems": [
    "C34_membership_partial",
    "C34_set_partial",
    "C34_accepted_partial",
    "C34_argument_refuted",
    "C34_empty_refuted"
   ],
   "note": "Membership, independence of order and repetition and acceptance proved for every history; the argument is sorted in place (C34_argument_refuted) and an empty id list raises IndexError (C34_empty_refuted)."
  },
  {
   "property": "C35",
   "status": "partial",
   "theorems": [
    "C35_complement_partial",
    "C35_groups_partial",
    "C35_count_partial",
    "C35_involution_partial",
    "C35_uncompress_partial",
    "C35_unfiltered_refuted"
   ],
   "note": "Complement, counts, double inversion and uncompress proved for every history; the inverse of an unfiltered collection has data of shape (0,N), which cannot be filtered or evaluated in a sum (C35_unfiltered_refuted)."
  },
  {
   "property": "C36",
   "status": "partial",
   "theorems": [
    "C36_add_partial",
    "C36_values_partial",
    "C36_length_partial",
    "C36_iadd_partial",
    "C36_iadd_values_partial",
    "C36_self_refuted"
   ],
   "note": "Concatenation of selections and values proved for + and += of different objects; a += a does not terminate (C36_self_refuted); sums with an inverted unfiltered collection fail (C35_unfiltered_refuted)."
  },
  {
   "property": "C37",
   "status": "partial",
   "theorems": [
    "C37_values_partial",
    "C37_distribution_partial",
    "C37_long_refuted"
   ],
   "note": "Distribution over the species and ValueError for short arrays proved; a longer array is accepted (C37_long_refuted)."
  },
  {
   "property": "C38",
   "status": "partial",
   "theorems": [
    "C38_reads_partial",
    "C38_readable_partial",
    "C38_length_partial",
    "C38_frame_partial",
    "C38_alias_refuted"
   ],
   "note": "Values, lengths and frame proved for every history in which arrays handed to compress are not modified afterwards; otherwise the collection changes (C38_alias_refuted). Expressions are modelled as a list of raw inputs and an elementwise function."
  },
  {
   "property": "C39",
   "status": "partial",
   "theorems": [
    "C39_trajectories_partial",
    "C39_defined",
    "C39_all_ids",
    "C39_skip",
    "C39_order_refuted",
    "C39_repeated_refuted",
    "C39_empty_refuted",
    "C39_skip_refuted",
    "C39_skip_array",
    "C39_all_new"
   ],
   "note": "The trajectories are proved for every id list, every program before and between the calls and any number of collects, with the last position of a repeated id holding its trajectory; C39_defined says when collect succeeds; C39_all_ids covers ids=None; C39_skip covers skip while the ids keep their order, and C39_skip_array that collecting through skip reorders only every (n+1)-th id of the array it shares. Refuted: collect sorts the ids in place, so self.ids no longer names the trajectories (C39_order_refuted); repeated ids leave an empty trajectory; an empty id list raises IndexError; a skip history fails after its origin was collected. C39_all_new: a history made without ids follows every id once."
  },
  {
   "property": "C40",
   "status": "proved",
   "theorems": [
    "C40_mean_value",
    "C40_mean_defined",
    "C40_mean_bounds",
    "C40_mean_linear",
    "C40_var_value",
    "C40_var_nonneg",
    "C40_var_linear",
    "C40_var_defined",
    "C40_quantile_value",
    "C40_median_value",
    "C40_quantile_defined",
    "C40_quantile_refused",
    "C40_quantile_monotone",
    "C40_quantile_ties",
    "C40_sign_needed"
   ],
   "note": "For every history of a collection and every order np.argsort gives to equal values; exact arithmetic. Weights of both signs are excluded (C40_sign_needed shows why)."
  },
  {
   "property": "C41",
   "status": "proved",
   "theorems": [
    "C41_gamma",
    "C41_beta",
    "C41_velocity",
    "C41_energy",
    "C41_components",
    "C41_units",
    "C41_raw",
    "C41_micrometre",
    "C41_atomic_units",
    "C41_per_nucleon",
    "C41_gamma_mass",
    "C41_axis_angles",
    "C41_plane_angles",
    "C41_radii",
    "C41_defaults"
   ],
   "note": "Over exact reals, for the expressions of the default scalars as numexpr would parse them (default_asts, written out by hand), evaluated through the modelled name resolution. Rounding and the division by zero for massless particles are not modelled."
  },
  {
   "property": "C42",
   "status": "proved",
   "theorems": [
    "C42_lookup",
    "C42_iteration",
    "C42_add",
    "C42_remove",
    "C42_identify"
   ],
   "note": "For every sequence of add and remove starting from the empty registry: lookup, iteration, length, add, remove and the call agree with a table keyed by symbol. remove(None) and anonymous properties are included."
  },
  {
   "property": "C43",
   "status": "partial",
   "theorems": [
    "C43_density_integral_1d_partial",
    "C43_density_integral_2d_partial",
    "C43_density_integral_3d_partial",
    "C43_default_range_refuted"
   ],
   "note": "density integrates to the total weight when all shapes are inside the range; with the default range weight is lost (witness)"
  },
  {
   "property": "C44",
   "status": "partial",
   "theorems": [
    "C44_history_partial",
    "C44_no_failure_partial",
    "C44_gap_refuted"
   ],
   "note": "For every history of calls (failures included) the result is the smallest admissible size, or the call raises and there is none up to n + 10000; no failure up to n = 2083725. The full statement is false: C44_gap_refuted (first gap above 10000, and there the outcome depends on the history). The logarithm is an argument assumed to give enough powers; only the default factors."
  },
  {
   "property": "C45",
   "status": "partial",
   "theorems": [
    "C45_power_of_two_partial",
    "C45_powers_refuted"
   ],
   "note": "The smallest power of two above n, below 2n unless n is a power of two. For exact powers the statement's 'smallest' is false: C45_powers_refuted (for every power the result is doubled)."
  },
  {
   "property": "C46",
   "status": "partial",
   "theorems": [
    "C46_any_schedule_partial",
    "C46_empty_refuted"
   ],
   "note": "Every chunk length, dimension and interleaving of element writes. scipy's interpolation is an argument assumed to look at samples at most five cells away; coordinates inside the input, output without empty axes (C46_empty_refuted: IndexError otherwise)."
  },
  {
   "property": "C47",
   "status": "partial",
   "theorems": [
    "C47_steps_partial",
    "C47_space_partial",
    "C47_group_partial",
    "C47_back_partial",
    "C47_energy_partial",
    "C47_window_partial",
    "C47_zeroth_refuted",
    "C47_vector_refuted",
    "C47_no_origins_refuted"
   ],
   "note": "Proved for well-formed fields which are entirely in one domain, with exact real arithmetic. Refuted: the zeroth result is the field of the caller itself, a float64 vector is normalised in place, a field in the frequency domain without remembered origins raises TypeError with a window."
  },
  {
   "property": "C48",
   "status": "partial",
   "theorems": [
    "C48_unchanged_partial",
    "C48_epoch_partial",
    "C48_own_object_refuted"
   ],
   "note": "Proved for every other field and for a main field which is in space or cut out. Refuted: a main field in the frequency domain is modified and returned."
  },
  {
   "property": "C49",
   "status": "proved",
   "theorems": [
    "C49_there_and_back",
    "C49_back_and_there",
    "C49_range",
    "C49_jacobian",
    "C49_derivative",
    "C49_jacobian_refuted",
    "C49_radii_cover",
    "C49_radii_defined"
   ],
   "note": "Both round trips, the range, the Jacobian determinant (r >= 0) and matrix, and the radii chosen by topolar. For negative radii polar2linear_jacdet has the wrong sign (C49_jacobian_refuted)."
  },
  {
   "property": "C50",
   "status": "partial",
   "theorems": [
    "C50_monotonicity_partial",
    "C50_short_refuted",
    "C50_fraction_bounds_partial",
    "C50_fraction_bounds_found_partial",
    "C50_zero_refuted"
   ],
   "note": "monotonicity in full except that sequences shorter than two are reported as increasing (C50_short_refuted); max_frac_bounds exact whenever it returns and it returns for a positive maximum (C50_zero_refuted: IndexError otherwise)."
  },
  {
   "property": "C51",
   "status": "partial",
   "theorems": [
    "C51_history_partial",
    "C51_derivation",
    "C51_independent_partial",
    "C51_results",
    "C51_set_elements",
    "C51_set_elements_new",
    "C51_inplace",
    "C51_unary_refuted",
    "C51_unary_origins_refuted"
   ],
   "note": "Fields with shared parts as a heap: for every history, data can change only through objects connected by views, shallow copies or arrays handed over, axes only through the object itself, states and origins only through objects connected by unary functions; deep copies, binary arithmetic, reductions and replace_data with a new array are separate from everything for every later sequence of modifications. The full claim is false (C51_unary_refuted): a unary function or arithmetic with a number shares axes_transform_state and transformed_axes_origins with its source. Not modelled: infos, real/imag, flip/rot90 (nested fields), and that unselected elements stay on assignment through a view of a view."
  },
  {
   "property": "C52",
   "status": "partial",
   "theorems": [
    "C52_roundtrip_partial",
    "C52_any_names_partial",
    "C52_file_partial",
    "C52_long_names_refuted",
    "C52_no_axes_refuted",
    "C52_four_axes_refuted",
    "C52_capitals_refuted"
   ],
   "note": "Proved for fields of one to three axes whose axis names and units have at most one character, also through the file name dispatch. Refuted: longer names and units lose all but their first character (what comes back in general is C52_any_names_partial); fields without axes and with four axes; a file name ending with .NPZ. Label and infostring are not modelled; numpy's file format is an identity on arrays."
  },
  {
   "property": "C53",
   "status": "partial",
   "theorems": [
    "C53_blank_partial",
    "C53_comma_refuted",
    "C53_load_field_refuted",
    "C53_dimensions"
   ],
   "note": "Refuted for every matrix: load_field refuses csv, and import_field with its own delimiter raises IndexError. With delimiter ' ' passed to import_field every matrix of at least 2x2 comes back, given that the text of a number is read back as that number."
  },
  {
   "property": "C54",
   "status": "partial",
   "theorems": [
    "C54_scalars",
    "C54_vectors",
    "C54_staggered",
    "C54_descending_refuted",
    "C54_two_points_refuted",
    "C54_one_dimension"
   ],
   "note": "Order, number of points and components proved for every 2D/3D shape, scalars and vectors; origin and spacing proved for evenly spaced ascending axes and for grids written as coordinates. Refuted: descending axes (spacing is positive) and axes of two uneven cells. unstagger_fields is an argument. Rounding to 'float' is left out."
  },
  {
   "property": "C55",
   "status": "proved",
   "theorems": [
    "C55_orientation"
   ],
   "note": "Every size, grey and any number of channels. The decoder of the image file is an argument. With hotpixelremove colour images of up to four channels fail (C81)."
  },
  {
   "property": "C56",
   "status": "partial",
   "theorems": [
    "C56_nodes",
    "C56_centres",
    "C56_simulation_box",
    "C56_axis",
    "C56_field",
    "C56_axis_names",
    "C56_axis_unknown",
    "C56_epoch_grid",
    "C56_epoch_box",
    "C56_epoch_stagger",
    "C56_epoch_derived_refuted",
    "C56_fbpic_angle",
    "C56_fbpic_radius",
    "C56_missing_axis_refuted",
    "C56_empty_refuted",
    "C56_dummy_axes",
    "C56_dummy_extent",
    "C56_dummy_absent",
    "C56_dummy_refuted",
    "C56_smilei_radius_refuted",
    "C56_epoch_no_axis",
    "C56_given_grid",
    "C56_given_grid_kept",
    "C56_angles",
    "C56_smilei_angle_refuted"
   ],
   "note": "Nodes, centres, box, spacing, axis and the axes of a field agree for every reader which gives offset, spacing and at least one point (C56_nodes, C56_centres, C56_simulation_box, C56_axis, C56_field), with EPOCH, openPMD and FBPIC instances. Refuted parts: EPOCH cell-centred quantities lie half a cell outside the box, an axis missing in an openPMD file raises IndexError, a grid of no cells has two points, the dummy reader's grid is not its centres, Smilei mode fields have no grid along r. h5py and sdf lookups are an oracle."
  },
  {
   "property": "C57",
   "status": "partial",
   "theorems": [
    "C57_index_partial",
    "C57_out_of_range_partial",
    "C57_negative_refuted",
    "C57_dummy_partial",
    "C57_dummy_refuted",
    "C57_slice",
    "C57_iteration_partial",
    "C57_times_partial",
    "C57_iteration_refuted",
    "C57_smilei_partial",
    "C57_smilei_refuted"
   ],
   "note": "All indices in -len..len-1, those beyond len or below -2 len, slices and iteration are proved. Refuted: indices between -2 len and -len-1 return a dump instead of IndexError; the dummy simulation raises ValueError there; iteration ends silently at a file whose opening raises IndexError; a Smilei series given as a file opens nothing."
  },
  {
   "property": "C58",
   "status": "partial",
   "theorems": [
    "C58_direct",
    "C58_agree_partial",
    "C58_more_angles_partial",
    "C58_more_angles_refuted",
    "C58_even",
    "C58_two_records_refuted",
    "C58_electric_angles",
    "C58_electric_default",
    "C58_both_refuted",
    "C58_magnetic_refuted"
   ],
   "note": "Direct sum and transform agree for every odd number of records when no more angles than modes are asked for. Refuted: with more angles the transform depends on uninitialised memory (it is right if that memory is zero, C58_more_angles_partial); two records pass the transform but not the direct sum; dataB always raises NameError. Memory left by np.empty is an oracle holding finite numbers."
  },
  {
   "property": "C59",
   "status": "partial",
   "theorems": [
    "C59_one_angle_partial",
    "C59_several_angles_refuted",
    "C59_two_angles_refuted",
    "C59_file_partial",
    "C59_envelope_partial",
    "C59_ragged"
   ],
   "note": "One angle is right, also from the interleaved file contents in SI units. Refuted: for several angles every entry is the sum over all angles, because the accumulator is shared."
  },
  {
   "property": "C60",
   "status": "proved",
   "theorems": [
    "C60_add",
    "C60_sign"
   ],
   "note": "For components of equal shape and positive constants. The grid put on the result is the one of C56."
  },
  {
   "property": "C61",
   "status": "partial",
   "theorems": [
    "C61_cell_differences",
    "C61_unit_cells_partial",
    "C61_resolution_refuted",
    "C61_one_cell_refuted"
   ],
   "note": "divE of a linear field is the sum of slope times cell size, hence right only for cells of size one; refuted otherwise, and an axis with one cell raises ValueError."
  },
  {
   "property": "C62",
   "status": "partial",
   "theorems": [
    "C62_grid",
    "C62_record",
    "C62_attribute_names",
    "C62_position",
    "C62_attribute",
    "C62_single_offset",
    "C62_no_unit",
    "C62_missing",
    "C62_numbers_refuted"
   ],
   "note": "Grid attributes, records, positions with offsets and the other attributes are proved for all files, as arrays or constants. Refuted: the number of the attribute Pz is not accepted although the numbers of Px and Py are. File contents are an oracle from names to records."
  },
  {
   "property": "C63",
   "status": "proved",
   "theorems": [
    "C63_choice",
    "C63_last",
    "C63_case_insensitive",
    "C63_lower",
    "C63_readers",
    "C63_kinds",
    "C63_refused"
   ],
   "note": "Whether the module of a reader can be imported is an oracle; letters outside ASCII are not lowered."
  },
  {
   "property": "C64",
   "status": "partial",
   "theorems": [
    "C64_moveaxis_partial",
    "C64_scalar_refuted",
    "C64_bad_axes_refuted"
   ],
   "note": "For distinct source and destination axes of equal number, negative ones included. numpy's errors for axes out of range, repeated destinations and unequal lengths are not reproduced (C64_bad_axes_refuted)."
  },
  {
   "property": "C65",
   "status": "partial",
   "theorems": [
    "C65_derivative_partial",
    "C65_integral_of_derivative_partial",
    "C65_derivative_of_linear_partial",
    "C65_descending_refuted",
    "C65_two_samples_refuted"
   ],
   "note": "Ascending uniform axis, at least three samples. Descending axes give the wrong sign and two samples the wrong cell width (refuted)."
  },
  {
   "property": "C66",
   "status": "partial",
   "theorems": [
    "C66_nonlinear_index_exact",
    "C66_nonlinear_index_strictly_monotone",
    "C66_nonlinear_index_clips",
    "C66_rounding_nonuniform_refuted"
   ],
   "note": "exactness, monotonicity and clipping proved; rounding = nearest is false on non-uniform axes (witness)"
  },
  {
   "property": "C67",
   "status": "partial",
   "theorems": [
    "C67_axis_from_uniform_grid",
    "C67_axis_from_short_grid",
    "C67_axis_from_single_point",
    "C67_descending_grid_with_extent_refuted"
   ],
   "note": "all grids of up to 3 points, uniform grids of any length; for longer non-uniform grids the nodes come from scipy spline and are not modelled"
  },
  {
   "property": "C68",
   "status": "partial",
   "theorems": [
    "C68_equal_values_widened_partial",
    "C68_equal_negative_values_refuted"
   ],
   "note": "widened for positive spacing; ZeroDivisionError for negative values proved as refutation"
  },
  {
   "property": "C69",
   "status": "partial",
   "theorems": [
    "C69_empty_3d_partial",
    "C69_empty_1d_refuted",
    "C69_empty_2d_refuted",
    "C69_empty_int_bins_refuted"
   ],
   "note": "only three dimensional fields with at least three bins work; 1D and 2D raise IndexError for all usual bins (refuted), integer bins raise TypeError"
  },
  {
   "property": "C70",
   "status": "partial",
   "theorems": [
    "C70_getitem_partial",
    "C70_flipped_refuted"
   ],
   "note": "Full key tuples on non-empty Fields of up to three dimensions whose data is an array; a flipped Field refuses to be cut (C70_flipped_refuted)."
  },
  {
   "property": "C71",
   "status": "partial",
   "theorems": [
    "C71_map_axis_grid_partial",
    "C71_integral_partial",
    "C71_default_partial",
    "C71_mirror_refuted"
   ],
   "note": "Non-empty Fields on proper axes, one of the first three axes, transformation strictly monotone on the points of the axis; arithmetic is exact. Without a jacobian: affine transformations, quadratic ones on midpoint cells, no grid point at -1 (there the code has nan, C74). Refuted: without a jacobian decreasing transformations change the sign of the integral."
  },
  {
   "property": "C72",
   "status": "partial",
   "theorems": [
    "C72_outer_partial",
    "C72_four_dims_refuted"
   ],
   "note": "At most three dimensions together; more raise (C72_four_dims_refuted)."
  },
  {
   "property": "C73",
   "status": "partial",
   "theorems": [
    "C73_value",
    "C73_found",
    "C73_failure",
    "C73_unique",
    "C73_cycle_refuted",
    "C73_atomic_refuted"
   ],
   "note": "Value, existence and failure for every registry, with the recursion depth as a bound. Refuted: cyclic definitions never end (C73_cycle_refuted), and a property registered under an atomic name is used when asked for but ignored inside expressions (C73_atomic_refuted)."
  },
  {
   "property": "C74",
   "status": "partial",
   "theorems": [
    "C74_quadratic",
    "C74_defined",
    "C74_limit",
    "C74_minus_one_refuted"
   ],
   "note": "Exact for quadratics and convergent for differentiable transforms. Refuted: at x = -1 the step eps + eps*x vanishes and the result is nan (C74_minus_one_refuted)."
  },
  {
   "property": "C75",
   "status": "partial",
   "theorems": [
    "C75_plane_waves",
    "C75_negative_axis_refuted"
   ],
   "note": "the plane-wave sum is proved for every set of axes given by non-negative numbers in fields of up to three dimensions; axes counted from the end are refuted (KeyError)"
  },
  {
   "property": "C76",
   "status": "partial",
   "theorems": [
    "C76_lines_partial",
    "C76_every_text",
    "C76_only_files",
    "C76_empty_line_refuted"
   ],
   "note": "Proved for names without line ends, LF or CRLF, with or without an ended last line. Refuted for empty lines, which are taken for dumps."
  },
  {
   "property": "C77",
   "status": "partial",
   "theorems": [
    "C77_order_partial",
    "C77_listing",
    "C77_listing_complete",
    "C77_unpadded_refuted"
   ],
   "note": "Independence of the listing and completeness hold for all names; numeric order for numbers of equal width. Refuted for unpadded numbers."
  },
  {
   "property": "C78",
   "status": "proved",
   "theorems": [
    "C78_equivalence",
    "C78_files"
   ],
   "note": "os.path.isfile and os.path.samefile are oracles; samefile is assumed an equivalence on files, and equal identifiers are assumed to print alike."
  },
  {
   "property": "C79",
   "status": "partial",
   "theorems": [
    "C79_modes_partial",
    "C79_modes_refuted"
   ],
   "note": "Proved for mode numbers of one digit; refuted for ten and more modes because only the last digit of the name is read."
  },
  {
   "property": "C80",
   "status": "partial",
   "theorems": [
    "C80_counts_partial",
    "C80_eight_bits_refuted",
    "C80_colour_refuted"
   ],
   "note": "Proved for one sBIT byte and 16 bit samples. Refuted: 8 bit images with an sBIT chunk become 0, colour images with one raise TypeError."
  },
  {
   "property": "C81",
   "status": "partial",
   "theorems": [
    "C81_colour_refuted",
    "C81_grey_refuted"
   ],
   "note": "Refuted: colour images up to four channels always raise, grey images are left as they are. The for-else in the source runs the opening of the whole array after the loop."
  },
  {
   "property": "C82",
   "status": "partial",
   "theorems": [
    "C82_export_partial",
    "C82_name_refuted",
    "C82_load",
    "C82_others"
   ],
   "note": "The ending of the file name, ignoring case, chooses writer and reader and every other ending raises. Refuted: an npz file does not have the name given unless that ends with exactly .npz (C82_name_refuted)."
  },
  {
   "property": "C83",
   "status": "partial",
   "theorems": [
    "C83_formula_partial",
    "C83_succeeds_partial",
    "C83_extent_partial",
    "C83_parts",
    "C83_linear_partial",
    "C83_half_refuted",
    "C83_extent_linear_partial"
   ],
   "note": "With and without an extent, for all interpolations and whichever domain each axis of each field is in (what indexing with the extent and linear interpolation do to one field are arguments). Refuted: the factor 1/2 of the documented formula is missing."
  },
  {
   "property": "C84",
   "status": "partial",
   "theorems": [
    "C84_waves_partial",
    "C84_extent_partial",
    "C84_linear_partial",
    "C84_extent_linear_partial"
   ],
   "note": "For the spectra of the fields as they are used: as they are, cut by the extent, or moved by linear interpolation, or both; whichever domain each axis of each field is in. Without an extent the fields in the dictionary are different objects. Missing: one object under several names."
  },
  {
   "property": "C85",
   "status": "partial",
   "theorems": [
    "C85_formula_partial",
    "C85_extent_partial",
    "C85_total",
    "C85_response_partial",
    "C85_dispersion_refuted"
   ],
   "note": "Formula proved with and without an extent, for modes whose response is not zero; success when all fields are there on grids which fit; step and dispersion relation matter only through |cos(w dt/2)|. Refuted: the dispersion relation is not used in the reconstruction itself."
  },
  {
   "property": "C86",
   "status": "partial",
   "theorems": [
    "C86_needed",
    "C86_main_partial",
    "C86_other_refuted",
    "C86_reads_only",
    "C86_missing",
    "C86_alone_refuted",
    "C86_missing_extent",
    "C86_extent_main_refuted",
    "C86_extent_reads_refuted"
   ],
   "note": "Proved: without an extent nothing else is read (C86_reads_only); with or without an extent no call succeeds without one of the fields needed (C86_missing, C86_missing_extent). Refuted: a missing field other than the main one raises AttributeError (C86_other_refuted, C86_alone_refuted); with an extent a missing main field raises KeyError (C86_extent_main_refuted) and fields which are not needed are cut as well, so that they can make the call fail (C86_extent_reads_refuted)."
  },
  {
   "property": "C87",
   "status": "partial",
   "theorems": [
    "C87_to_origin_partial",
    "C87_too_far",
    "C87_default_origin",
    "C87_adjust_partial",
    "C87_shapes",
    "C87_not_uniform",
    "C87_spacings",
    "C87_tiny_refuted",
    "C87_spacing_refuted"
   ],
   "note": "method fourier, uniform axes, all fields of one shape. Proved: the fields get the common origin, values which are sums of plane waves are those sums at the new points, fields which are there already are returned as they are, fields more than two cells away are refused, and the origin without one given. Refuted: positions and spacings are compared with the absolute tolerance 1e-8 of np.isclose, so that grids of nanometres stay staggered and may have different spacings."
  },
  {
   "property": "C88",
   "status": "partial",
   "theorems": [
    "C88_kspace_partial",
    "C88_extent_partial",
    "C88_propagate",
    "C88_origin_refuted"
   ],
   "note": "kspace: every interpolation, with and without an extent, whichever domain each axis of each field is in, if all fields needed are there, are different objects and, for Fourier interpolation, have known origins. Refuted for the others: a missing field other than the main one raises AttributeError (C86), fields of unknown origin raise TypeError with Fourier interpolation (C88_origin_refuted). Missing: one object under several names. kspace_propagate: everything the documentation asks for; a vector of norm zero, which is not refused, is not modelled."
  },
  {
   "property": "C89",
   "status": "partial",
   "theorems": [
    "C89_values_partial",
    "C89_points",
    "C89_outside",
    "C89_own_axes",
    "C89_scaled",
    "C89_plane",
    "C89_refused_dims",
    "C89_refused_few",
    "C89_refused_mode",
    "C89_border_refuted",
    "C89_sign_refuted",
    "C89_mode_refuted",
    "C89_one_point_refuted"
   ],
   "note": "values, grid points, outside, own axes, scaled and affine transforms and refusals proved; refuted: without a transform preserve_integral changes nothing and half of the integral of a constant is lost at the border (C89_border_refuted); the sign of jacobian_determinant_func is kept while that of jacobian_func is dropped (C89_sign_refuted); any complex_mode passes for real data (C89_mode_refuted); axes of one point are refused when the Jacobian is approximated (C89_one_point_refuted)"
  },
  {
   "property": "C90",
   "status": "partial",
   "theorems": [
    "C90_values_partial",
    "C90_defaults",
    "C90_turn_refuted",
    "C90_square_refuted"
   ],
   "note": "values and defaults proved; refuted: a full turn contains its first direction twice, so sums over the angles are not integrals (C90_turn_refuted); default arguments fail when all points are equally far from the origin (C90_square_refuted)"
  },
  {
   "property": "C91",
   "status": "partial",
   "theorems": [
    "C91_affine_partial",
    "C91_cells",
    "C91_between",
    "C91_unknown_method",
    "C91_names_refuted",
    "C91_complex_refuted"
   ],
   "note": "affine, whole cells, range and refusal proved; refuted: name and unit of the shifted axes are lost (C91_names_refuted); complex data raise NameError (C91_complex_refuted)"
  },
  {
   "property": "C92",
   "status": "partial",
   "theorems": [
    "C92_iterative_partial",
    "C92_intensity",
    "C92_space_partial",
    "C92_now",
    "C92_phase_refuted",
    "C92_mixed",
    "C92_axis",
    "C92_origin",
    "C92_algorithm",
    "C92_default_refuted",
    "C92_zero_refuted"
   ],
   "note": "algorithm iterative: the values, times, axes, intensity and refusals are proved for fields of modes of any dimension and for fields in space of at least two dimensions. Refuted: the values carry a constant phase exp(-i k0 v), so that the profile differs from the field at the same place and time (C92_phase_refuted). The default algorithm fourier always fails for one dimension and divides by zero for more (C92_default_refuted, C92_zero_refuted); its interpolation for more dimensions is not modelled, nor are spatial fields of one dimension (fft over no axes depends on the version of numpy)."
  },
  {
   "property": "C93",
   "status": "partial",
   "theorems": [
    "C93_collection_partial",
    "C93_told",
    "C93_all_partial",
    "C93_name",
    "C93_missing",
    "C93_constructor",
    "C93_constructor_missing",
    "C93_partition_partial",
    "C93_unknown_refuted",
    "C93_documented_refuted",
    "C93_reserved_refuted"
   ],
   "note": "Proved for dumps whose names are all understood and not themselves reserved: C93_collection_partial, C93_all_partial, C93_partition_partial, C93_name, C93_missing, C93_told. False otherwise: one name which identifyspecies does not understand makes every collection but '_all' fail, even '_ejected' (C93_unknown_refuted); the names documented in add lack the underscore and raise KeyError (C93_documented_refuted); a species called '_all' recurses for ever (C93_reserved_refuted)."
  },
  {
   "property": "C94",
   "status": "partial",
   "theorems": [
    "C94_hull",
    "C94_empty",
    "C94_fails",
    "C94_dumpreader",
    "C94_dumpreader_empty",
    "C94_simextent",
    "C94_simgrid_refuted",
    "C94_scalar_refuted"
   ],
   "note": "simextent, dumpreader and the effect of simextent=True are proved in full. simgrid=True does not use the grid of the simulation because simgridpoints never returns the number (C94_simgrid_refuted), and simextent=True raises for scalars which are not coordinates (C94_scalar_refuted)."
  },
  {
   "property": "C95",
   "status": "partial",
   "theorems": [
    "C95_field_partial",
    "C95_name_refuted"
   ],
   "note": "Proved under the condition that every shape lies inside the range (otherwise the integral is smaller, C43_default_range_refuted) and for bins given as a sequence. The name given is lost when weights are given (C95_name_refuted)."
  },
  {
   "property": "C96",
   "status": "partial",
   "theorems": [
    "C96_relation",
    "C96_unique",
    "C96_slower",
    "C96_accuracy",
    "C96_alias",
    "C96_magic",
    "C96_mesh",
    "C96_free",
    "C96_free_zero",
    "C96_unstable_refuted",
    "C96_truncated_refuted"
   ],
   "note": "All claims for stable time steps are proved in full. What is refuted: for every time step which is not stable some wave of the grid has no frequency (nan, C96_unstable_refuted), and a list of spacings which is too short is not refused (C96_truncated_refuted)."
  },
  {
   "property": "C97",
   "status": "partial",
   "theorems": [
    "C97_light",
    "C97_ncrit_partial",
    "C97_scaling",
    "C97_exact_refuted",
    "C97_zero",
    "C97_si",
    "C97_mass_unit_refuted"
   ],
   "note": "ncrit lies between 0.995 and 0.996 of the critical density of the constants of the same class, for every wavelength (C97_ncrit_partial), hence is never equal to it (C97_exact_refuted); it also fails for wavelength 0 (C97_zero)."
  },
  {
   "property": "C98",
   "status": "partial",
   "theorems": [
    "C98_fixed",
    "C98_directory",
    "C98_extension",
    "C98_found",
    "C98_counted",
    "C98_last",
    "C98_last_refuted",
    "C98_percent_refuted",
    "C98_overwrite_refuted"
   ],
   "note": "Proved: for fixed attributes every call succeeds, all files are distinct and lie in the output directory; for changing attributes distinct with equal extensions; always a fresh name without percent signs; lastsavename. Full statement false: C98_last_refuted, C98_percent_refuted, C98_overwrite_refuted."
  },
  {
   "property": "C99",
   "status": "partial",
   "theorems": [
    "C99_line",
    "C99_squeezed",
    "C99_image",
    "C99_pixels",
    "C99_pixels_exact",
    "C99_mesh_partial",
    "C99_mesh_fails",
    "C99_mesh_refuted",
    "C99_scale",
    "C99_limits",
    "C99_two_refuted",
    "C99_small",
    "C99_small_refuted",
    "C99_color",
    "C99_color_plot"
   ],
   "note": "Proved: lines, images (orientation, extents, pixels equal to cells within the tolerance of islinear, exactly for uniform axes), meshes, color scale and limits. Full statement false: C99_two_refuted, C99_small_refuted, C99_mesh_refuted. Text, color maps and contour lines are not modelled."
  },
  {
   "property": "C100",
   "status": "partial",
   "theorems": [
    "C100_lineout_x",
    "C100_lineout_y",
    "C100_positions",
    "C100_positions_refuted",
    "C100_infos_partial",
    "C100_infos_lost",
    "C100_infos_refuted",
    "C100_reduced_unused",
    "C100_reduced_refuted",
    "C100_arguments_refuted",
    "C100_savecsv_refuted",
    "C100_single_refuted",
    "C100_cube"
   ],
   "note": "Proved: values of lineouts, infos kept when equal, 3-D refused. Full statement false: C100_positions_refuted, C100_infos_refuted, C100_reduced_refuted, C100_arguments_refuted, C100_savecsv_refuted, C100_single_refuted."
  },
  {
   "property": "C101",
   "status": "partial",
   "theorems": [
    "C101_complete",
    "C101_clash",
    "C101_current",
    "C101_forever",
    "C101_missing",
    "C101_stale_refuted",
    "C101_killed_refuted",
    "C101_clash_refuted",
    "C101_order_refuted",
    "C101_below",
    "C101_writes"
   ],
   "note": "Proved: complete and independent of the listing order if nothing clashes, an exception if data clashes, data found is always current. Full statement (all data is always found) false: C101_stale_refuted, C101_killed_refuted, C101_clash_refuted, C101_order_refuted."
  },
  {
   "property": "C102",
   "status": "partial",
   "theorems": [
    "C102_species",
    "C102_order",
    "C102_exact_partial",
    "C102_species_refuted",
    "C102_read",
    "C102_read_missing",
    "C102_position",
    "C102_KeyError",
    "C102_derived",
    "C102_derived_partial",
    "C102_derived_refuted",
    "C102_openPMD",
    "C102_openPMD_refuted",
    "C102_h5py_refuted",
    "C102_dimensions"
   ],
   "note": "Proved: listed species are exactly the longest names fitting the keys, sorted, once, independent of order; exact for names of letters, digits, _ and - with at most one /; reading by every name, KeyError only; derived lists exact for clean names. Refuted: names with other characters are cut and merged; derived names with - are cut and not keys; openPMD leaves out every field starting with E or B and lists nothing with current h5py."
  },
  {
   "property": "C103",
   "status": "partial",
   "theorems": [
    "C103_component",
    "C103_total",
    "C103_unit_partial",
    "C103_unit_refuted",
    "C103_unit_round_refuted",
    "C103_fbpic_refuted",
    "C103_epoch_round",
    "C103_angles",
    "C103_Ntheta_refuted",
    "C103_names"
   ],
   "note": "Proved for all readers: data, axes, lengths, name; unit for E and cartesian B; given angles of FBPIC. Refuted: Br and Btheta are in V/m; no magnetic field of FBPIC can be read (NameError); with Ntheta the second axis is an array and no Axis."
  },
  {
   "property": "C104",
   "status": "partial",
   "theorems": [
    "C104_alignments",
    "C104_aligned",
    "C104_auto",
    "C104_sdf",
    "C104_dt_partial",
    "C104_dt_refuted",
    "C104_omega",
    "C104_solver_refuted"
   ],
   "note": "Proved: accepted alignments, auto, alignment, dispersion relation. Refuted: the first dump has no time step; solver='yee' is ignored unless the alignment is in time."
  },
  {
   "property": "C105",
   "status": "partial",
   "theorems": [
    "C105_sum_partial",
    "C105_trapezoid",
    "C105_simpson",
    "C105_exact_partial",
    "C105_constant_partial",
    "C105_constant_refuted",
    "C105_sign_partial",
    "C105_sign_refuted",
    "C105_order",
    "C105_steps_partial",
    "C105_all",
    "C105_axes_refuted",
    "C105_fast",
    "C105_unknown"
   ],
   "note": "Proved: sum of shares over any dimensions, trapezoids and parabolas piece by piece, exactness, constants between first and last grid point, signs, order, one after the other. Refuted: a constant is not multiplied with the extent (C105_constant_refuted), simpson is negative for positive data on an uneven grid (C105_sign_refuted), repeated or negative dimensions hit others (C105_axes_refuted). Formulas of scipy.integrate are trusted."
  },
  {
   "property": "C106",
   "status": "partial",
   "theorems": [
    "C106_values_partial",
    "C106_exact_partial",
    "C106_exact_refuted",
    "C106_central",
    "C106_linear",
    "C106_backwards",
    "C106_integral_partial",
    "C106_integral_refuted",
    "C106_single"
   ],
   "note": "Proved for grids that ascend or descend strictly. Refuted: polynomials of degree two at the ends (C106_exact_refuted), integral of the derivative with simpson or on uneven grids (C106_integral_refuted). The formula of numpy.gradient is trusted."
  },
  {
   "property": "C107",
   "status": "partial",
   "theorems": [
    "C107_set_partial",
    "C107_same",
    "C107_frame",
    "C107_length",
    "C107_atomic_refuted"
   ],
   "note": "Proved for up to three linear axes; data stays and axes match it in all cases; wrong length changes nothing. Refuted: not atomic, four dimensions raise KeyError (C107_atomic_refuted)."
  },
  {
   "property": "C108",
   "status": "proved",
   "theorems": [
    "C108_samples",
    "C108_already",
    "C108_twice"
   ],
   "note": "Orderly fields are non-empty, of up to three dimensions (flip raises for more), with strictly monotonic axes."
  },
  {
   "property": "C109",
   "status": "partial",
   "theorems": [
    "C109_scalars_partial",
    "C109_vectors_partial",
    "C109_roundtrip",
    "C109_type",
    "C109_unnamed_refuted",
    "C109_blanks_refuted",
    "C109_atomic_refuted"
   ],
   "note": "Proved for names of ascii characters without blanks other than spaces (C109_scalars_partial, C109_vectors_partial, C109_roundtrip). Refuted: a field without a name gives a file that cannot be read (C109_unnamed_refuted), tabs and line breaks stay in the name (C109_blanks_refuted), a name outside ascii destroys the file (C109_atomic_refuted). How python and numpy write single numbers is trusted."
  },
  {
   "property": "C110",
   "status": "partial",
   "theorems": [
    "C110_values",
    "C110_periodic",
    "C110_shape",
    "C110_plateau",
    "C110_ones",
    "C110_hann_refuted"
   ],
   "note": "Proved for integer M over the reals, for every alpha below one. Refuted: alpha of one or more raises NameError, since hann is not imported (C110_hann_refuted)."
  },
  {
   "property": "C111",
   "status": "partial",
   "theorems": [
    "C111_clock",
    "C111_stop_partial",
    "C111_terminates",
    "C111_prefix",
    "C111_zero_refuted",
    "C111_one_axis_refuted",
    "C111_mixed"
   ],
   "note": "Proved for all behaviours of the field operations (arguments of the model) which keep domain and number of axes, over the reals. Refuted: t_final=0 is taken for no final time, so the propagation never stops (C111_zero_refuted); a field with one axis has no width and raises (C111_one_axis_refuted)."
  },
  {
   "property": "C112",
   "status": "partial",
   "theorems": [
    "C112_logs_partial",
    "C112_keeps",
    "C112_counts",
    "C112_inverse",
    "C112_compress",
    "C112_initial_partial",
    "C112_initial_refuted",
    "C112_dict_partial",
    "C112_dict_refuted",
    "C112_filter_name_refuted",
    "C112_add_partial",
    "C112_add_refuted",
    "C112_shows_partial",
    "C112_function"
   ],
   "note": "Proved for boolean conditions and any values of expressions. Refuted: initial_npart (and repr) raise TypeError after ~ of a species without selection (C112_initial_refuted); species of the same name, or named 'all', hide each other in getcompresslog (C112_dict_refuted); a name given to filter is not in the log of the whole (C112_filter_name_refuted); the log of a sum is that of its first part (C112_add_refuted). C112_function covers compress with a function."
  },
  {
   "property": "C113",
   "status": "partial",
   "theorems": [
    "C113_operators_partial",
    "C113_misfit_rejected",
    "C113_results_partial",
    "C113_one_argument_partial",
    "C113_inplace",
    "C113_inplace_same_partial",
    "C113_accumulate_partial",
    "C113_accumulate_end_partial",
    "C113_others_rejected",
    "C113_three_arguments_refuted",
    "C113_outer_number_partial",
    "C113_outer_array_refuted",
    "C113_wrap"
   ],
   "note": "Fields of up to three dimensions around plain arrays (f op= y: any). Refuted: functions of three arguments (clip) and ufunc.outer with arrays raise. ufunc.at, where and casts are not modelled."
  },
  {
   "property": "C114",
   "status": "partial",
   "theorems": [
    "C114_values",
    "C114_found",
    "C114_length_partial",
    "C114_added",
    "C114_symbol_partial",
    "C114_text_refuted",
    "C114_axes_partial",
    "C114_methods_partial",
    "C114_advice_partial",
    "C114_complete",
    "C114_no_other",
    "C114_angle_refuted",
    "C114_advice_refuted",
    "C114_unit_refuted"
   ],
   "note": "Values, lengths, sums of collections and labels by symbol: every registry. Methods: all but angle_yz, which asks for a property that does not exist (C114_angle_refuted); warnings: all but Y_um (C114_advice_refuted). Refuted: the unit of the method charge is that of charge_e; a property given by its expression text is computed but not labelled. numexpr is an argument."
  },
  {
   "property": "C115",
   "status": "partial",
   "theorems": [
    "C115_answers_partial",
    "C115_points_partial",
    "C115_objects",
    "C115_writes_refused_partial",
    "C115_pickle_refuted"
   ],
   "note": "Objects from the constructor and from copy.copy: every program; objects from deepcopy or pickle: programs without writes. Refuted: after deepcopy or pickle the points can be written to and islinear() then answers for the old points (C115_pickle_refuted)."
  },
  {
   "property": "C116",
   "status": "partial",
   "theorems": [
    "C116_elements_partial",
    "C116_accepted_partial",
    "C116_read_back_partial",
    "C116_same_partial",
    "C116_last_partial",
    "C116_box_partial",
    "C116_step_refuted"
   ],
   "note": "Fields with one axis per dimension. The box is proved on ascending and descending axes for pairs in the direction of the axis. Refuted: slices with steps can be assigned to but not asked for (C116_step_refuted). Casts of numpy are not modelled; sharing of memory is C51."
  },
  {
   "property": "C117",
   "status": "partial",
   "theorems": [
    "C117_aligned",
    "C117_formula_partial",
    "C117_total",
    "C117_parts",
    "C117_objects_partial",
    "C117_names_partial",
    "C117_names_refuted"
   ],
   "note": "Proved: the aligned call is kspace with linear interpolation; otherwise the formula with the component moved by half a cell, success with the linear shift of real fields, the reduction of an extent to the parts, which objects and names are kept whatever the outcome. False of the code: the dictionary of the caller is changed, so that a second call moves the field again (refuted with a witness)."
  },
  {
   "property": "C118",
   "status": "partial",
   "theorems": [
    "C118_time_partial",
    "C118_first",
    "C118_first_refuted",
    "C118_no_time",
    "C118_no_step",
    "C118_names",
    "C118_silent",
    "C118_raised",
    "C118_label_partial",
    "C118_unit",
    "C118_name",
    "C118_label_refuted",
    "C118_lines",
    "C118_info",
    "C118_info_partial",
    "C118_info_refuted"
   ],
   "note": "Time, step, names, labels and infostrings proved. Refuted: a time or step of zero is not shown (nothing at all on the first dump), color images lose their label, the infostring of a line is written over by another text. The axis labels, legends and color bars are not modelled."
  },
  {
   "property": "C119",
   "status": "partial",
   "theorems": [
    "C119_history",
    "C119_shown",
    "C119_fields_partial",
    "C119_derived_partial",
    "C119_none",
    "C119_derived_refuted"
   ],
   "note": "Histories of plotField proved in full, with and without autosave. plotFields and plotallderived save what comes before the first exception; refuted: one derived field of three dimensions keeps all later ones from being plotted."
  },
  {
   "property": "C120",
   "status": "partial",
   "theorems": [
    "C120_value",
    "C120_success",
    "C120_unknown",
    "C120_errors",
    "C120_misfit",
    "C120_constant_refuted",
    "C120_names_partial",
    "C120_names_refuted",
    "C120_kept_partial",
    "C120_body",
    "C120_body_refuted",
    "C120_locals_refuted"
   ],
   "note": "Values, success and exceptions proved for every expression and every kind of caller. Refuted: a constant gives ValueError, a variable not yet assigned is replaced by a global of its name, and the names of a class body (and the dictionary from locals() in a function) are gone afterwards."
  },
  {
   "property": "C121",
   "status": "partial",
   "theorems": [
    "C121_next",
    "C121_parts",
    "C121_order",
    "C121_fails",
    "C121_numbers",
    "C121_factorial_partial",
    "C121_factorial_refuted"
   ],
   "note": "Everything but the example of the documentation, which is false: product(range(n)) is zero, or raises for n = 0 (C121_factorial_refuted); range(1, n+1) gives n! for n > 0. StopIteration is written as ValueError in the model."
  },
  {
   "property": "C122",
   "status": "partial",
   "theorems": [
    "C122_index_partial",
    "C122_value",
    "C122_outside",
    "C122_slice",
    "C122_field",
    "C122_last_refuted",
    "C122_negative_refuted"
   ],
   "note": "Axes which are proper, positions from 0, and coordinates; fields through the equality with slices. Refuted for negative positions: KeepDim(-1) always fails, KeepDim(-2) gives an axis with a single node (C122_last_refuted, C122_negative_refuted)."
  },
  {
   "property": "C123",
   "status": "partial",
   "theorems": [
    "C123_equal_partial",
    "C123_lengths_refuted",
    "C123_symmetric_refuted",
    "C123_transitive_refuted"
   ],
   "note": "Proved for axes with the same numbers of points. Refuted: axes with the same extent and different numbers of points raise ValueError, and the comparison is neither symmetric nor transitive at the tolerance."
  },
  {
   "property": "C124",
   "status": "partial",
   "theorems": [
    "C124_call",
    "C124_numpy",
    "C124_other",
    "C124_available",
    "C124_rfftn_refuted"
   ],
   "note": "Proved for the thirteen functions of the list and for all functions when there are no defaults (numpy.fft). Refuted: rfftn is missing in the list, so that it is called without the defaults (C124_rfftn_refuted)."
  },
  {
   "property": "C125",
   "status": "partial",
   "theorems": [
    "C125_index",
    "C125_contains",
    "C125_found",
    "C125_count",
    "C125_reversed",
    "C125_hidden_refuted"
   ],
   "note": "Proved if all files can be opened, for index whenever it returns, and for reversed() in all cases. Refuted: a file whose opening raises IndexError hides all dumps after it (C125_hidden_refuted). The methods of collections.abc.Sequence are modelled as written in cpython; == of dumps does not raise."
  },
  {
   "property": "C126",
   "status": "partial",
   "theorems": [
    "C126_given",
    "C126_made",
    "C126_reset",
    "C126_current",
    "C126_ambiguous_refuted",
    "C126_reader",
    "C126_text_refuted",
    "C126_identifier"
   ],
   "note": "Proved for every sequence of assignments. Refuted: name and unit cannot always be read from the label (C126_ambiguous_refuted), and a name given to the constructor of a reader stays an object which need not be a text (C126_text_refuted)."
  },
  {
   "property": "C127",
   "status": "partial",
   "theorems": [
    "C127_line",
    "C127_image",
    "C127_lines",
    "C127_lines_refuted",
    "C127_last",
    "C127_vertical"
   ],
   "note": "Any sequence of lines, images, meshes and images of colors on the same axes, fields with at most three axes of more than one point. Refuted: several lines over different axes are drawn into one plot, whose text is that of the last (C127_lines_refuted); the vertical text is not set for lines."
  }
 ]
}