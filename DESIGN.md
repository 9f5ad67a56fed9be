# Formal model of postpic: design

The subject is the python/cython source in `/repo/postpic` (read as text, never run).
The model and the proofs are Coq 8.16.1 files in `rocq/theories`, built with
`coq_makefile -f _CoqProject -o Makefile && make -j4` in `rocq`.

`properties.jsonl` holds the properties in words, `MANIFEST.json` the theorems which prove
them, `seeded/LOG.jsonl` the wrong programs the theorems were tested with.

How to read `seeded/LOG.jsonl`:

* `failing_proofs` is what was observed: the proofs at which the build of the edited model
  stopped. Except for the rows which say otherwise the build stopped at the first one.
* `theorems_failed` is derived, not observed: the property theorems and examples which depend on
  those proofs, according to the references in the `.glob` files of the present tree. A proof
  which breaks shows that the edit is noticed; it does not by itself show that the theorem has
  become false.
* `theorems_tightened` names theorems which were added or changed because the edit survived.
  The `note` says whether the edit was tried again afterwards and with what result.
* Until the commit which added this paragraph `theorems_failed` was derived by following bare
  names. Lemmas of the same name in different files were mixed up, and 232 of the 1439 rows
  named theorems which are not among those that depend on the proof: wrong ones, or ones renamed
  since. All rows were computed again.

## Conventions

* `XModel.v` files hold only definitions (executable Gallina wherever the numbers are
  rational or integer), each definition citing the file and lines it models and the
  simplifications made.
* `XSpec.v` holds specifications stated without the model's helpers.
* `XFacts.v`, `XLaws.v` and the like hold lemmas and proofs, `XDemo.v` concrete cases.
* `PropX.v` files hold only the property theorems (`Proof. exact lemma. Qed.`), beside
  each an `Example` with a concrete case meeting its hypotheses, and `Print Assumptions`.
* Exceptions are values: `res A := Ok a | Err e` with `e : exn`, one constructor per class of
  exceptions of python. Error messages are left out.
* A property whose full statement is false of the code gets a theorem `..._refuted` (a
  concrete witness on the faithful model) and, beside it, `..._partial` theorems for the
  largest part that does hold; the comment above the theorem says what is missing. Such a
  property has the status `partial` in the manifest.

## Numbers

* Floating point numbers are exact rationals (`Q`, compared with `==`) where the code only
  adds, multiplies, divides, compares and rounds, and reals (`R` of the standard library)
  where square roots, exponentials or trigonometry occur. Complex numbers are pairs of reals
  (`CplxModel`). Rounding errors, infinities, NaN and the sign of zero are outside the model.
* numpy integers are unbounded `Z`/`nat`; the conversion of a double to a C int outside its
  range is an oracle (`DepModel`).

## Plan per property

| id | modelled | proof |
|----|----------|-------|
| C01-C07, C66, C67 | `Axis` of datahandling.py over `Q` (nodes, grid, name, unit) | induction on lists, order lemmas, refutation by witness |
| C08 | axis and n-d array halving | pointwise |
| C09 | record field = shape, data function, axes, transform states, origins; op type; `step` | invariant over `fold_left step` |
| C10, C11, C70 | n-d arrays as shape + index function, permutations, slices, flip, rot90 | pointwise on indices, coordinates map |
| C12 | axis normalisation and deletion loop of the reducing methods | induction over sorted axis list |
| C13, C72 | broadcasting of axes lists, `ufunc.outer` | induction over reversed lists |
| C14, C65 | `_integrate_constant`, `_integrate_fast`, `_derivative_stagger` | induction on axis list, sums, telescoping |
| C15-C19 | pad, fft_autopad, autoreduce, autocutout, squeeze, atleast_nd | pointwise, well-founded measure |
| C20, C22-C24, C75 | DFT over complex numbers, axis phases, conjugate grids, shifts | roots of unity, finite sums |
| C21 | transform state machine, axis names as strings | case analysis, refutation by witness |
| C25-C30 | the three cython deposition loops over `Q` | case analysis on truncation, finite sums |
| C31, C68 | argument handling of histogramdd | case analysis |
| C32 | the species name decoder on strings, with a matcher for python's regular expressions | decidable matching, string lemmas |
| C33-C38 | single/multi species objects in a store with shared arrays, cache, masks | invariant over histories |
| C39 | particle history on that store | refutation and corrected statement |
| C40 | weighted statistics over `Q` | sums, sorted lists |
| C41, C49, C74 | scalar formulas, polar coordinates, numerical Jacobians over `R` | field, sqrt and atan lemmas, mean value theorem |
| C42, C73 | registry as association list, resolution of names in expressions | refinement to a map, induction on expressions |
| C43, C69 | createField normalisation, empty selections | from C26 |
| C44, C45 | pad size table machine | invariant over call histories, minimality |
| C46 | chunk plan, workers as a permutation of writes | permutation independence |
| C47, C48, C83-C86, C88 | k-space fields in an object store, phases, propagation, reconstruction | induction on steps, DFT lemmas |
| C50, C64 | helpers on lists, moveaxis | induction |
| C51 | Field objects with shared lists and views into blocks of memory | frame invariant over histories, refutation of what is shared |
| C52-C55, C80-C82 | exporters and importers as functions on records and byte-free arrays | pointwise, string lemmas |
| C56, C57, C62, C63, C76-C78 | reader base classes, openPMD, Smilei, EPOCH readers | lists, state machine |
| C58, C59, C79 | mode expansions over `R` | finite sums |
| C60, C61 | energy densities, divergence | nra / refutation |
| C71, C89-C91 | map_axis_grid, map_coordinates, topolar, linear shifts | interpolation as an argument with stated properties, determinants |
| C87 | unstagger_fields | from the shift of sums of plane waves (C23) |
| C92 | time_profile_at_plane: the stepwise and the Fourier version over complex sums (TimeModel) | induction on steps, plane waves |
| C93-C95 | collections of species: add, simextent, createField (CollectModel) | induction over the list of species |
| C96, C97 | dispersion relations of the Yee scheme and free space, constants (DispModel) | trigonometric inequalities, field |
| C98-C100 | file names of saved plots, what addField1d/2d hand to matplotlib, lineouts (PlotNameModel, PlotModel) | invariant over plot histories, strings |
| C101 | the index file of Smilei (IndexModel) | induction over files |
| C102-C104 | listings of dumps, keys of components, alignment in k space (ListModel) | case analysis on names |
| C105, C106 | simpson, trapezoid and gradient formulas over `Q` (IntegModel) | sums, exactness on polynomials |
| C107, C108 | assigning the extent, ensure_positive_axes (IntegModel) | pointwise |
| C109 | bytes of VTK files and a reader for them (VtkFileModel) | parser inverts printer, induction |
| C110 | Tukey window (TukeyModel) | trigonometry |
| C111 | adaptive propagation as a generator (AdaptModel) | invariant over steps |
| C112 | the compress log of selections (LogModel) | induction over histories |
| C113 | `__array_ufunc__`, `__array_wrap__` and the operator mixin (UfuncModel) | pointwise on C13's broadcasting |
| C114 | calls of collections, labels of properties, the deprecated methods as statements of the class body (AccessModel) | induction over species, tables |
| C115 | Axis objects in memory with arrays, flags, caches and copies (AxisObjModel) | invariant over programs, refinement of the pure functions of AxisModel |
| C116 | `Field.__setitem__` as a loop of writes with numpy broadcasting (AssignModel) | the places of a part are distinct, induction over the loop |
| C117 | `kspace_epoch_like_old` in the store of C83, with the dictionary of the caller in the result (EpochOldModel) | reduction to kspace, frame lemmas of KspaceFrame |
| C118 | annotate and its callers as lists of texts with their places; formatting of numbers written out (PageModel) | numbers read back from the digits; texts at a place by computation |
| C119 | names used and files written as state, calls of plotField in any order (PageModel) | invariant over the calls, with the numbering lemmas of PlotNameFacts |
| C120 | Field.evaluate with expressions as trees and frames of callers with their namespaces (EvalModel) | induction on expressions; shapes by the broadcasting lemmas of UfuncFacts |
| C122, C123 | KeepDim and equality of axes, as modelled in AxisModel (AxisKeepSpec) | reduction to the lemmas on slices; pointwise; witnesses at the tolerance |
| C124 | the fft helper with its dictionaries as cells and calls as a history (HfftModel) | invariant over the calls, dict.update by induction |
| C125 | the methods which a series inherits from collections.abc.Sequence (SequenceModel) | induction over the files |
| C126 | labels and names as state, assignments as a history (LabelModel) | induction over the assignments |
| C127 | the texts beside the axes as state of a plot (AxLabelModel) | induction over the lines drawn, reduction to squeeze |
| C121 | product over lists with any multiplication (HelperModel) | induction on the list, permutations |

## What is modelled

| source | model |
|--------|-------|
| datahandling.py `Axis` 101-460 (without `__getstate__`, `__str__`; `label` in LabelModel) | AxisModel (over `Q`), FftModel (over `R`, the parts used) |
| datahandling.py `Field`: construction 561-612, copy, ufuncs, broadcasting 658-852, axes 888-926, dimensions, pad, half_resolution, map_axis_grid, autoreduce, cutout, autocutout, squeeze, atleast_nd, transpose, swapaxes, flip, rot90, integrate (constant, fast), derivative (staggered), indexing and assignment 2301-2345, reductions 466-526 | FieldModel; which parts of results are shared: HeapModel |
| datahandling.py fft and everything around it 1870-2161, shift_grid_by, adjust_stagger_to | FftModel, UnstagModel |
| datahandling.py map_coordinates 1259-1402, topolar 2214-2275, linear shift 2163-2182 | MapModel |
| helper.py monotonicity, islinear, max_frac_bounds, product, FFTW_Pad, fft_padsize_power2, map_coordinates_parallel, jac_det, approx_jacobian | HelperModel, MapModel |
| helper.py polar2linear and the like, approx_1d_jacobian_det | RealModel |
| helper.py unstagger_fields; kspace, kspace_epoch_like, kspace_propagate, omega functions, linear_phase | UnstagModel; KspaceModel |
| _compat/functions.py moveaxis | HelperModel |
| particles/_particlestogrid.pyx (all three functions) | DepModel; DepPadModel (the arrays before cropping) |
| particles/_routines.py histogramdd; SpeciesIdentifier | HistddModel; SpeciesModel |
| particles/particles.py _SingleSpecies, MultiSpecies (selection, addition, evaluation, cache), ParticleHistory | ParticleModel, HistoryModel |
| particles/particles.py mean, var, quantile, median; _createHistgram | StatModel; HistddModel |
| particles/scalarproperties.py | RegistryModel; the formulas: RealModel |
| datareader/__init__.py, datareader.py, dummy.py, epochsdf.py, openPMDh5.py, smileih5.py | ReaderModel; azimuthal modes: ModesModel |
| _field_calc.py: grids, energy densities, divE, the k-space components | ReaderModel, CalcModel, KspaceModel |
| io/npy.py, csv.py, vtk.py, image.py, common.py, `__init__`.py | IoModel |
| plotting/plotter_matplotlib.py addaxislabels | AxLabelModel |
| datahandling.py Axis.label, Field.label; datareader.py name | LabelModel |
| helper_fft.py _fft; Simulationreader_ifc as a Sequence | HfftModel; SequenceModel |
| helper.py time_profile_at_plane and its two parts | TimeModel |
| particles.py MultiSpecies add, simextent, simgridpoints, createField; compress, filter, uncompress, getcompresslog | CollectModel; LogModel |
| helper.py omega_yee_factory, omega_free, PhysicalConstants | DispModel |
| plotting/plotter_matplotlib.py savename and numbering; addField1d, addField2d, lineouts, plotField arguments | PlotNameModel; PlotModel |
| smileih5.py index files | IndexModel |
| readers: listSpecies, getderived, keys; _field_calc.py components and `_kspace` | ListModel |
| datahandling.py `_integrate_scipy`, `_derivative`, extent setter, ensure_positive_axes | IntegModel |
| io/vtk.py bytes of files | VtkFileModel |
| _compat/functions.py sps_tukey | TukeyModel |
| experimental.py adaptive propagation | AdaptModel |
| datahandling.py default Jacobian of map_axis_grid | JacDefModel |
| datahandling.py `__array_ufunc__`, `__array_wrap__`; _compat/mixins.py | UfuncModel |
| particles.py `_findscalarattr`, MultiSpecies.__call__ and the deprecated methods; helper.py deprecated | AccessModel |
| datahandling.py Axis caches, `__getstate__`, copies and pickles | AxisObjModel |
| datahandling.py `Field.__setitem__` | AssignModel |
| helper.py kspace_epoch_like_old | EpochOldModel |
| datahandling.py Field.evaluate | EvalModel |
| plotting/plotter_matplotlib.py annotate, settext, plotFields, plotallderived, autosave | PageModel |

## What is not modelled

* Everything numerical below exact arithmetic: rounding, overflow, infinities, NaN.
* the number of processors asked for in helper_fft.py, the drawing done by matplotlib (the model ends at
  the arguments handed to it), `_version.py`, documentation helpers,
  progress output and warnings. vsimhdf5.py is left out: it uses names which no longer exist
  and cannot be used.
* Field: infos and infostring, except where they are drawn (PageModel); the keyword arguments
  of evaluate handed on to numexpr and the types of the samples;
  of the ufunc protocol `ufunc.at`, `where`, `casting`, `dtype` and `keepdims`.
* Threads: the only parallel code (map_coordinates_parallel) is modelled as writes in any
  order (C46).

## Trusted base

* Coq 8.16.1 kernel (and the checker `coqchk`).
* What `Print Assumptions` reports below each theorem, see the table at the end.
* The faithfulness of the hand-written model: the correspondence is by reading only.
* Contracts of libraries, written down in the model files or passed as arguments
  ("oracles", over which the theorems quantify, with the hypotheses stated in them):
  * numpy array functions (`NumpyModel`, `NdModel`): shapes, broadcasting, slicing, argsort,
    searchsorted, isclose, linspace, gradient, linalg.det, `np.flip` of a Field indexing it,
    at most 64 dimensions. Versions before 1.24 (`np.int`), at least 1.18.
  * numpy.fft with norm='ortho' is the discrete Fourier transform (`FftModel`).
  * splines and interpolation of scipy: `spl` (through its points; exact for linear data where
    stated), `interp` (through its points, zero outside), ndimage.shift as multilinear
    interpolation with the nearest values outside; skimage's unwrap_phase adds whole turns;
    scipy.ndimage.grey_opening.
  * `win` the Tukey window, `pw` the float logarithm used by the pad table, `d_guess`,
    `lin`, `cut`, `omega` functions handed to kspace by the caller.
  * the C conversion of doubles out of range `ub`, `np.spacing`, the content `junk` of np.empty.
  * `enum`, the order in which python runs through a set; `argsort` the order of equal values.
  * files: what h5py, sdf and the image decoders find under a key is an argument; npz files
    return the arrays stored; text is formatted by `fmt` and parsed back by `parse`; VTK's
    writers, `isfile`, `samefile`, which modules can be imported.
  * python's `re`, `int(str)`, `float(str)` for ascii names (`SpeciesModel`, `IoModel`); the
    abstract syntax of the default scalar expressions was written down by hand from the strings.
  * scipy's simpson as of 1.11 and numpy's gradient as of 1.13 (formulas written down in
    `IntegModel`); formatting of single numbers in VTK files (`VtkFileModel`); the operations on
    fields used by the adaptive propagation (`AdaptModel`); cutting out an extent and the linear
    interpolation of one field in `KspaceModel`.
  * scipy.constants (`c`, `me`, `qe`, `pi`): arguments.
* Python 3.

## Assumptions of the theorems

Output of `Print Assumptions`, grouped. All axioms are those of the standard library of Coq.

### Closed under the global context

* C01_axis_extent_n_uniform, C01_uniform_axis_is_monotone, C01_uniform_axis_spacing
* C02_accepted_grid_outside_cell_refuted, C02_accepted_length_mismatch_refuted, C02_proper_input_accepted_partial, C02_accepted_lower_boundaries_partial, C02_accepted_sequences_monotone_partial
* C03_nearest_index_correct, C03_float_index_returns_nearest_point
* C04_value_to_index_affine, C04_value_to_index_grid_points, C04_value_to_index_monotone, C04_rounding_is_nearest, C04_rounding_at_midpoints_refuted
* C05_coordinate_slice_ascending, C05_coordinate_slice_descending, C05_no_step
* C06_integer_slice_partial, C06_integer_slice_succeeds_partial, C06_negative_start_refuted, C06_reversing_slice_refuted
* C07_reversed_involution_partial, C07_length_partial, C07_returned, C07_twice_returned, C07_ascending, C07_accepted_refuted
* C08_half_resolution_axis, C08_half_resolution_field_partial, C08_flipped_refuted
* C09_constructed_from_axes, C09_constructed_from_edges_partial, C09_history_partial, C09_calm_history_partial, C09_pad_after_negative_slice_refuted, C09_four_dims_refuted
* C10_transpose_positions_partial, C10_round_trip_partial, C10_default_reverses, C10_swapaxes_partial, C10_states_stay_behind_refuted
* C100_lineout_x, C100_lineout_y, C100_positions, C100_positions_refuted, C100_infos_partial, C100_infos_lost, C100_infos_refuted, C100_reduced_unused, C100_reduced_refuted, C100_arguments_refuted, C100_savecsv_refuted, C100_single_refuted, C100_cube
* C101_complete, C101_clash, C101_current, C101_forever, C101_missing, C101_stale_refuted, C101_killed_refuted, C101_clash_refuted, C101_order_refuted, C101_below, C101_writes
* C102_species, C102_order, C102_exact_partial, C102_species_refuted, C102_read, C102_read_missing, C102_position, C102_KeyError, C102_derived, C102_derived_partial, C102_derived_refuted, C102_openPMD, C102_openPMD_refuted, C102_h5py_refuted, C102_dimensions
* C103_component, C103_total, C103_unit_partial, C103_unit_refuted, C103_unit_round_refuted, C103_fbpic_refuted, C103_epoch_round, C103_angles, C103_Ntheta_refuted, C103_names
* C104_alignments, C104_aligned, C104_auto, C104_sdf, C104_dt_partial, C104_dt_refuted, C104_omega, C104_solver_refuted
* C105_sum_partial, C105_trapezoid, C105_simpson, C105_exact_partial, C105_constant_partial, C105_constant_refuted, C105_sign_partial, C105_sign_refuted, C105_order, C105_steps_partial, C105_all, C105_axes_refuted, C105_fast, C105_unknown
* C106_values_partial, C106_exact_partial, C106_exact_refuted, C106_central, C106_linear, C106_backwards, C106_integral_partial, C106_integral_refuted, C106_single
* C107_set_partial, C107_same, C107_frame, C107_length, C107_atomic_refuted
* C108_samples, C108_already, C108_twice
* C109_scalars_partial, C109_vectors_partial, C109_roundtrip, C109_type, C109_unnamed_refuted, C109_blanks_refuted, C109_atomic_refuted
* C11_flip_keeps_samples_partial, C11_flip_twice_partial, C11_transpose_keeps_samples_partial, C11_swapaxes_twice_partial, C11_rot90_keeps_samples_partial, C11_rot90_mod_four, C11_rot90_add_partial, C11_rot90_repeated_partial, C11_rot90_four_times_partial, C11_rot90_same_axis_accepted_refuted
* C112_logs_partial, C112_keeps, C112_counts, C112_inverse, C112_compress, C112_initial_partial, C112_initial_refuted, C112_dict_partial, C112_dict_refuted, C112_filter_name_refuted, C112_add_partial, C112_add_refuted, C112_shows_partial, C112_function
* C113_operators_partial, C113_misfit_rejected, C113_results_partial, C113_one_argument_partial, C113_inplace, C113_inplace_same_partial, C113_accumulate_partial, C113_accumulate_end_partial, C113_others_rejected, C113_three_arguments_refuted, C113_outer_number_partial, C113_outer_array_refuted, C113_wrap
* C114_values, C114_found, C114_length_partial, C114_added, C114_symbol_partial, C114_text_refuted, C114_axes_partial, C114_methods_partial, C114_advice_partial, C114_complete, C114_no_other, C114_angle_refuted, C114_advice_refuted, C114_unit_refuted
* C115_answers_partial, C115_points_partial, C115_objects, C115_writes_refused_partial, C115_pickle_refuted
* C116_elements_partial, C116_accepted_partial, C116_read_back_partial, C116_same_partial, C116_last_partial, C116_box_partial, C116_step_refuted
* C118_time_partial, C118_first, C118_first_refuted, C118_no_time, C118_no_step, C118_names, C118_silent, C118_raised, C118_label_partial, C118_unit, C118_name, C118_label_refuted, C118_lines, C118_info, C118_info_partial, C118_info_refuted
* C119_history, C119_shown, C119_fields_partial, C119_derived_partial, C119_none, C119_derived_refuted
* C12_reduce_drops_partial, C12_keepdims, C12_ufunc_reduce_partial, C12_negative_tuple_refuted
* C120_value, C120_success, C120_unknown, C120_errors, C120_misfit, C120_constant_refuted, C120_names_partial, C120_names_refuted, C120_kept_partial, C120_body, C120_body_refuted, C120_locals_refuted
* C121_next, C121_parts, C121_order, C121_fails, C121_numbers, C121_factorial_partial, C121_factorial_refuted
* C122_index_partial, C122_value, C122_outside, C122_slice, C122_field, C122_last_refuted, C122_negative_refuted
* C123_equal_partial, C123_lengths_refuted, C123_symmetric_refuted, C123_transitive_refuted
* C124_call, C124_numpy, C124_other, C124_available, C124_rfftn_refuted
* C125_index, C125_contains, C125_found, C125_count, C125_reversed, C125_hidden_refuted
* C126_given, C126_made, C126_reset, C126_current, C126_ambiguous_refuted, C126_reader, C126_text_refuted, C126_identifier
* C13_broadcast_partial, C13_mismatch_rejected, C13_equal_shapes_partial, C13_swapped_partial, C13_array_partial, C13_flipped_refuted
* C14_fast_partial, C14_constant_partial, C14_methods_agree_partial, C14_one_after_another_partial, C14_linear, C14_negative_axes_refuted
* C15_pad, C15_descending_refuted
* C16_autopad_partial, C16_nonuniform_refuted
* C17_autoreduce_partial, C17_flipped_refuted
* C18_autocutout_partial, C18_bounds_partial, C18_three_dims_refuted, C18_zero_refuted
* C19_squeeze_partial, C19_atleast_nd_partial, C19_squeeze_undoes_partial, C19_flipped_refuted, C19_domain
* C25_histogram_memory_safe, C25_histogram2d_memory_safe_partial, C25_histogram3d_memory_safe_partial, C25_saturating_conversion_safe_partial, C25_far_particle_2d_refuted, C25_far_particle_3d_refuted, C25_short_weights_refuted
* C26_padded_1d, C26_padded_2d, C26_padded_3d, C26_weight_conserved_1d, C26_weight_conserved_2d, C26_weight_conserved_3d, C26_shares_are_splines_1d, C26_shares_are_splines_2d, C26_shares_are_splines_3d
* C27_particle_local_nonneg_1d_partial, C27_particle_local_nonneg_2d_partial, C27_in_range_nonneg_1d_partial, C27_negative_share_refuted
* C28_ngp_counts_partial, C28_outer_edges_lost_refuted
* C29_additive_1d, C29_order_independent_1d, C29_scaling_1d, C29_no_weights_is_weight_one, C29_laws_2d_partial, C29_laws_3d_partial
* C30_transpose_partial, C30_asymmetric_refuted
* C31_arguments_1d, C31_arguments_2d, C31_arguments_3d, C31_shape_names, C31_returned_edges, C31_matrix_columns_partial, C31_flat_range_partial, C31_flat_open, C31_no_data, C31_empty_partial, C31_empty_refuted, C31_open_lower_bound_refuted, C31_few_particles_misread_refuted
* C32_every_word, C32_decodes_partial, C32_characters, C32_unknown_element, C32_nothing_spelled, C32_other_characters, C32_defaults, C32_ision_partial, C32_ision_default, C32_ision_fails, C32_isejected, C32_elements_refuted, C32_documented_refuted, C32_prefixes_refuted, C32_helium_refuted, C32_isejected_refuted
* C33_conjunction_partial, C33_accepted_partial, C33_constant_refuted
* C34_membership_partial, C34_set_partial, C34_accepted_partial, C34_argument_refuted, C34_empty_refuted
* C35_complement_partial, C35_groups_partial, C35_count_partial, C35_involution_partial, C35_uncompress_partial, C35_unfiltered_refuted
* C36_add_partial, C36_values_partial, C36_length_partial, C36_iadd_partial, C36_iadd_values_partial, C36_self_refuted
* C37_values_partial, C37_distribution_partial, C37_long_refuted
* C38_reads_partial, C38_readable_partial, C38_length_partial, C38_frame_partial, C38_alias_refuted
* C39_trajectories_partial, C39_defined, C39_all_ids, C39_skip, C39_order_refuted, C39_repeated_refuted, C39_empty_refuted, C39_skip_refuted, C39_skip_array, C39_all_new
* C40_mean_value, C40_mean_defined, C40_mean_bounds, C40_mean_linear, C40_var_value, C40_var_nonneg, C40_var_linear, C40_var_defined, C40_quantile_value, C40_median_value, C40_quantile_defined, C40_quantile_refused, C40_quantile_monotone, C40_quantile_ties, C40_sign_needed
* C42_lookup, C42_iteration, C42_add, C42_remove, C42_identify
* C43_density_integral_1d_partial, C43_density_integral_2d_partial, C43_density_integral_3d_partial, C43_default_range_refuted
* C44_history_partial, C44_no_failure_partial, C44_gap_refuted
* C45_power_of_two_partial, C45_powers_refuted
* C46_any_schedule_partial, C46_empty_refuted
* C50_monotonicity_partial, C50_short_refuted, C50_fraction_bounds_partial, C50_fraction_bounds_found_partial, C50_zero_refuted
* C51_history_partial, C51_derivation, C51_independent_partial, C51_results, C51_set_elements, C51_set_elements_new, C51_inplace, C51_unary_refuted, C51_unary_origins_refuted
* C52_roundtrip_partial, C52_any_names_partial, C52_file_partial, C52_long_names_refuted, C52_no_axes_refuted, C52_four_axes_refuted, C52_capitals_refuted
* C53_blank_partial, C53_comma_refuted, C53_load_field_refuted, C53_dimensions
* C54_scalars, C54_vectors, C54_staggered, C54_descending_refuted, C54_two_points_refuted, C54_one_dimension
* C55_orientation
* C56_nodes, C56_centres, C56_simulation_box, C56_axis, C56_field, C56_axis_names, C56_axis_unknown, C56_epoch_grid, C56_epoch_box, C56_epoch_stagger, C56_epoch_derived_refuted, C56_fbpic_angle, C56_fbpic_radius, C56_missing_axis_refuted, C56_empty_refuted, C56_dummy_axes, C56_dummy_extent, C56_dummy_absent, C56_dummy_refuted, C56_smilei_radius_refuted, C56_epoch_no_axis, C56_given_grid, C56_given_grid_kept, C56_angles, C56_smilei_angle_refuted
* C57_index_partial, C57_out_of_range_partial, C57_negative_refuted, C57_dummy_partial, C57_dummy_refuted, C57_slice, C57_iteration_partial, C57_times_partial, C57_iteration_refuted, C57_smilei_partial, C57_smilei_refuted
* C58_magnetic_refuted
* C60_add, C60_sign
* C61_cell_differences, C61_unit_cells_partial, C61_resolution_refuted, C61_one_cell_refuted
* C62_grid, C62_record, C62_attribute_names, C62_position, C62_attribute, C62_single_offset, C62_no_unit, C62_missing, C62_numbers_refuted
* C63_choice, C63_last, C63_case_insensitive, C63_lower, C63_readers, C63_kinds, C63_refused
* C64_moveaxis_partial, C64_scalar_refuted, C64_bad_axes_refuted
* C65_derivative_partial, C65_integral_of_derivative_partial, C65_derivative_of_linear_partial, C65_descending_refuted, C65_two_samples_refuted
* C66_nonlinear_index_exact, C66_nonlinear_index_strictly_monotone, C66_nonlinear_index_clips, C66_rounding_nonuniform_refuted
* C67_axis_from_uniform_grid, C67_axis_from_short_grid, C67_axis_from_single_point, C67_descending_grid_with_extent_refuted
* C68_equal_values_widened_partial, C68_equal_negative_values_refuted
* C69_empty_3d_partial, C69_empty_1d_refuted, C69_empty_2d_refuted, C69_empty_int_bins_refuted
* C70_getitem_partial, C70_flipped_refuted
* C71_map_axis_grid_partial, C71_integral_partial, C71_default_partial, C71_mirror_refuted
* C72_outer_partial, C72_four_dims_refuted
* C73_value, C73_found, C73_failure, C73_unique, C73_cycle_refuted, C73_atomic_refuted
* C76_lines_partial, C76_every_text, C76_only_files, C76_empty_line_refuted
* C77_order_partial, C77_listing, C77_listing_complete, C77_unpadded_refuted
* C78_equivalence, C78_files
* C79_modes_partial, C79_modes_refuted
* C80_counts_partial, C80_eight_bits_refuted, C80_colour_refuted
* C81_colour_refuted, C81_grey_refuted
* C82_export_partial, C82_name_refuted, C82_load, C82_others
* C86_needed
* C91_unknown_method
* C93_collection_partial, C93_told, C93_all_partial, C93_name, C93_missing, C93_constructor, C93_constructor_missing, C93_partition_partial, C93_unknown_refuted, C93_documented_refuted, C93_reserved_refuted
* C94_hull, C94_empty, C94_fails, C94_dumpreader, C94_dumpreader_empty, C94_simextent, C94_simgrid_refuted, C94_scalar_refuted
* C95_field_partial, C95_name_refuted
* C98_fixed, C98_directory, C98_extension, C98_found, C98_counted, C98_last, C98_last_refuted, C98_percent_refuted, C98_overwrite_refuted
* C99_line, C99_squeezed, C99_image, C99_pixels, C99_pixels_exact, C99_mesh_partial, C99_mesh_fails, C99_mesh_refuted, C99_scale, C99_limits, C99_two_refuted, C99_small, C99_small_refuted, C99_color, C99_color_plot
* C127_line, C127_image, C127_lines, C127_lines_refuted, C127_last, C127_vertical

### `ClassicalDedekindReals.sig_forall_dec`, `FunctionalExtensionality.functional_extensionality_dep`

* C111_clock, C111_stop_partial, C111_terminates, C111_prefix, C111_zero_refuted, C111_one_axis_refuted, C111_mixed
* C74_quadratic, C74_defined, C74_limit, C74_minus_one_refuted
* C97_scaling, C97_zero, C97_si, C97_mass_unit_refuted

### `ClassicalDedekindReals.sig_forall_dec`, `ClassicalDedekindReals.sig_not_dec`, `FunctionalExtensionality.functional_extensionality_dep`

* C110_values, C110_periodic, C110_shape, C110_plateau, C110_ones, C110_hann_refuted
* C117_aligned, C117_formula_partial, C117_total, C117_parts, C117_objects_partial, C117_names_partial, C117_names_refuted
* C20_round_trip_partial, C20_reversed_refuted
* C21_toggle, C21_mixed, C21_names_partial, C21_name_refuted, C21_ensure
* C22_energy_partial, C22_single_point_refuted
* C23_grid, C23_whole_cells_partial, C23_additive, C23_origin_refuted, C23_band_limited
* C24_conjugate
* C47_steps_partial, C47_space_partial, C47_group_partial, C47_back_partial, C47_energy_partial, C47_window_partial, C47_zeroth_refuted, C47_vector_refuted, C47_no_origins_refuted
* C48_unchanged_partial, C48_epoch_partial, C48_own_object_refuted
* C49_jacobian, C49_derivative, C49_jacobian_refuted, C49_radii_defined
* C58_direct, C58_agree_partial, C58_more_angles_partial, C58_more_angles_refuted, C58_even, C58_two_records_refuted, C58_electric_angles, C58_electric_default, C58_both_refuted
* C59_one_angle_partial, C59_several_angles_refuted, C59_two_angles_refuted, C59_file_partial, C59_envelope_partial, C59_ragged
* C75_plane_waves, C75_negative_axis_refuted
* C83_formula_partial, C83_succeeds_partial, C83_extent_partial, C83_parts, C83_linear_partial, C83_half_refuted, C83_extent_linear_partial
* C84_waves_partial, C84_extent_partial, C84_linear_partial, C84_extent_linear_partial
* C85_formula_partial, C85_extent_partial, C85_total, C85_response_partial, C85_dispersion_refuted
* C86_main_partial, C86_other_refuted, C86_reads_only, C86_missing, C86_alone_refuted, C86_missing_extent, C86_extent_main_refuted, C86_extent_reads_refuted
* C87_to_origin_partial, C87_too_far, C87_default_origin, C87_adjust_partial, C87_shapes, C87_not_uniform, C87_spacings, C87_tiny_refuted, C87_spacing_refuted
* C88_kspace_partial, C88_extent_partial, C88_propagate, C88_origin_refuted
* C91_affine_partial, C91_cells, C91_between, C91_names_refuted, C91_complex_refuted
* C92_iterative_partial, C92_intensity, C92_space_partial, C92_now, C92_phase_refuted, C92_mixed, C92_axis, C92_origin, C92_algorithm, C92_default_refuted, C92_zero_refuted
* C96_free, C96_free_zero
* C97_light

### `ClassicalDedekindReals.sig_forall_dec`, `ClassicalDedekindReals.sig_not_dec`, `Classical_Prop.classic`, `FunctionalExtensionality.functional_extensionality_dep`

* C20_single_point_refuted
* C41_gamma, C41_beta, C41_velocity, C41_energy, C41_components, C41_units, C41_raw, C41_micrometre, C41_atomic_units, C41_per_nucleon, C41_gamma_mass, C41_axis_angles, C41_plane_angles, C41_radii, C41_defaults
* C49_there_and_back, C49_back_and_there, C49_range, C49_radii_cover
* C89_values_partial, C89_points, C89_outside, C89_own_axes, C89_scaled, C89_plane, C89_refused_dims, C89_refused_few, C89_refused_mode, C89_border_refuted, C89_sign_refuted, C89_mode_refuted, C89_one_point_refuted
* C90_values_partial, C90_defaults, C90_turn_refuted, C90_square_refuted
* C96_relation, C96_unique, C96_slower, C96_accuracy, C96_alias, C96_magic, C96_mesh, C96_unstable_refuted, C96_truncated_refuted
* C97_ncrit_partial, C97_exact_refuted
