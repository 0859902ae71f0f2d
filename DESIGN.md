# Formal model of pjohansson/strata

## Approach

The Python code is re-written function by function as total Gallina functions (`rocq/theories/Model`), branch by branch, with Python
exceptions as values (`res A := Ok a | Err e`).  Each definition cites the file and lines it models and its simplifications.
The properties (`properties.jsonl`) are stated against small independent specifications (`theories/Spec`), proved with the lemmas of
`theories/Proofs` and collected in `theories/Props`, where each theorem is followed by `Print Assumptions` and by `Example`s with
concrete, non-trivial inputs which meet its hypotheses.  `MANIFEST.json` maps properties to theorems.  `seeded/LOG.jsonl` records the
wrong programs the theorems were tested against.

Naming: `CNN_..._refuted` proves that a part of the claim, or a plausible strengthening of it, is false of the code, with a witness;
`CNN_..._partial` proves a part of the claim.

Layout: `Base` (rationals, results, numpy list functions, bytes, sorting), `Model`, `Spec`, `Proofs`, `Props`.

## Trusted base

- The kernel of Coq 8.16.1 (checked again with `coqchk`), and its `vm_compute` in examples and a few closed computations.
- The axioms listed below: those of `Coq.Reals` (`sig_forall_dec`, `sig_not_dec`, `functional_extensionality_dep`) and
  `Classical_Prop.classic`, used only where the code takes square roots, logarithms or angles.  No other axioms, no axioms of our own.
- That the definitions in `Model` say what the Python code does.  This is a reading of the code, not derived mechanically; the lines are cited.
- What is assumed about libraries, as part of the model:
  - *Numbers.* float64 values are exact rationals (`Qc`); rounding of additions, multiplications and divisions is not modelled.  Infinities and
    NaN are modelled where the code can produce or test them (`Np.ext`).  Storage is modelled as it is: float32 in files and returned
    arrays is `f32` (a rounding to 24 bits), text is a rounding to the number of decimals in the format.  Consequences: truncations
    of quotients that are whole numbers (for example the rows of an interface array or the shape of the stream line grid) are exact
    in the model and may be off by one in the program.
  - *numpy.* `unique`, `sort(order=...)` (lexicographic and deterministic), `isclose`, `linspace`, `gradient(edge_order=2)`, `histogram2d`,
    `argmin`, `trapz`, `meshgrid`, `reshape`, `loadtxt`, `genfromtxt`, `savetxt` are defined in `Model`/`Base` from their documentation.
    Names removed from later versions (`np.float`) and ragged arrays follow the version the code was written for.
  - *scipy.* `leastsq` is a relation: some minimiser of the sum of squares.  `linregress` is its closed form; equal abscissas are a ValueError.
  - *pandas.* A Series is a list of pairs; `to_string()` is an argument (`show`), with a hypothesis on what it shows.
  - *matplotlib, progressbar.* Not modelled, except for the data handed over and the cells of `hist2d`.
  - *Files.* A disk is a finite map from paths to contents with a set of directories.  Opening for writing, appending and `os.rename` are atomic steps;
    crash points are prefixes of the sequence of steps, concurrent writers are interleavings of steps.  Permissions, links and full disks are not modelled.
    A path is the pair of directory and name given by `os.path.split` (`os_path`); two spellings of the same directory are different paths, and links are not resolved.
  - *Text.* Files are bytes.  Text is ASCII; for binary detection the UTF-8 decoder is modelled.  Numbers in text are plain decimals (an exponent
    is read as no number), printed numbers with `%f`-style formats are modelled digit by digit.
  - *Endless generators* and `while` loops run on fuel, with theorems which say that the fuel is enough, or state it as a bound on the number of files.

## What is modelled, file by file

| file | modelled | not modelled |
|---|---|---|
| `droplets/average.py` | all | |
| `droplets/contact_line.py` | all | |
| `droplets/data_utils.py` | all | |
| `droplets/flow.py` | all of `FlowData` | `__repr__`-like behaviour of numpy arrays inside |
| `droplets/flowfield.py` | nothing | 22 lines which draw arrows (matplotlib) |
| `droplets/interface.py` | all | |
| `droplets/resample.py` | all but the two unused helpers `_get_superscaled_grid_*` for grids | |
| `droplets/sample.py` | all | |
| `strata/average.py` | all, on disk | progress bar (but its effect on `quiet`) |
| `strata/convert.py` | all, on disk | progress bar |
| `strata/contact_line_analysis.py` | the edges, averages, fusing, sampling, the header and the runs of both commands on disk | progress bars, a PermissionError |
| `strata/dataformats/**` | all readers, writers, detection and averages, on bytes | |
| `strata/interface/angle.py` | all; header as comment lines; the figure as curves and calls (Model/CurveFigures.v) | the drawing library |
| `strata/interface/collect.py` | all, on disk | progress bar |
| `strata/interface/sample.py` | all; the figure as in angle.py | the drawing library |
| `strata/interface/view.py` | all, on disk; the figures as in angle.py | the drawing library |
| `strata/sample_average.py` | all; output rows | header text |
| `strata/spreading/collect.py` | all, on disk | progress bar |
| `strata/spreading/fit.py` | reading, limits, fit, fitted curve, output, the whole run on disk (Model/FitRuns.v); the figure as in angle.py | the numerical method of `leastsq` |
| `strata/spreading/view.py` | reading (both formats), scaling, synchronising, output, the figure as in angle.py | the drawing library |
| `strata/strata.py` | the options of all fifteen commands, what is passed to which function (Model/Cli.v), click's parser and types from its documentation (Model/Click.v), int()/float() on texts without float rounding (Model/PyText.v), files written by `average`, `convert`, `spreading collect`, `spreading view`, `interface collect` (Model/CliRuns.v), figures of `view flow`, `view height` and `view contour` (Model/CliDraw.v), figures of `spreading view`, `spreading fit`, `interface angle`, `interface sample` and `interface view` (Model/CurveRuns.v) | help texts, messages |
| `strata/utils.py` | file names, search, groups, output preparation, backups, `decorate_graph` and `pop_figure_kwargs` as the calls they make (Model/Figure.v) | `write_module_header` (as comment lines only) |
| `strata/view_flowmap.py` | data preparation: cutoffs, limits, height maps, contours, gradients, derived fields, stream line grid, and the runs over files as figures and what is drawn in them (Model/ViewRuns.v) | the drawing library |

## Findings

Every one of these is a theorem (`_refuted` or a partial theorem with its exact condition) or follows from the model by computation; the
statuses below say which property each concerns.

- *Data loss or wrong output.* Concurrent writers can lose a backup (C08).  Simple and recentred averages are read back half a bin off (C55); conversion from simple to gmx
  shifts positions by half a bin (C51); supersampled grids are shifted (C24); recombined contact lines too (C63).
- *Options which never work.* `combine`, limits and `supersample` of `average` (C55), `quiet=True` in several commands (C55, C62), extraction of contact lines to files and their sampling (C63),
  `outext` for simple formats (C51), `view_spreading` without `save_xvg` (C75), the default type of `view_flowmap_2d` and the dissipation for a second file (C67), one 'none' in `--combine`, `--noaxis` of `view height` (C79).  The command `interface collect` always ends with a TypeError (C79).
- *Silent misreading.* Small binary files can be taken for text (C48), tables in another row order get wrong positions (C48), small gmx files cannot be read (C46, C47), spreading
  files with one row give no curve, and edge columns are shown and fitted as radii (C74, C76), an empty curve makes a combined file unreadable (C75), a line break in a path adds a point to an interface file (C68).
- *Physics.* `radial` is the tangential flow (C66); gradients use the bin sizes of the other axis (C54); angles straight left of the origin are sampled at 0 degrees and the last interval never (C45);
  the fitted angle depends on the absolute height (C71); low heights give NaN (C70); boxes must begin at x = 0 (C28, C30); the impact line is written once per process (C32);
  'com' recentring is wrong across the periodic boundary (C35).
- *Found while reading, not stated as theorems.* The spreading header reports the key 'include_radius' which nobody sets; interface headers list the output as "Input files"; the group mode
  of `average` warns of missing files when there are none; `interface/angle.py` never passes `delta_t` to its header.

## Axioms, theorem by theorem

`Print Assumptions` follows every theorem in `theories/Props`.  Of the 538 theorems, 408 are "Closed under the global context".  The others rest on axioms of the standard library's `Reals` only:

- on `ClassicalDedekindReals.sig_forall_dec`, `ClassicalDedekindReals.sig_not_dec`, `Classical_Prop.classic`, `FunctionalExtensionality.functional_extensionality_dep`: C45_angles, C45_full_circle_refuted, C45_left_axis_refuted, C45_once_partial, C45_values_partial, C59_fitted_curve, C59_recovers, C59_scaled, C59_unique_fit, C60_angles, C61_direction, C61_each_bin, C61_mean_flow_angle, C61_reversed, C61_scaled, C66_clockwise, C66_radial_refuted, C70_circle, C70_enlarge, C70_low_height_refuted, C70_mirror, C70_secant, C70_shift, C70_straight, C71_circle, C71_enlarge, C71_raised_refuted, C71_segment, C71_shift, C71_touching, C72_columns, C72_run, C72_series, C72_unreadable, C76_edges_refuted, C76_fitted, C76_one_per_curve, C76_recovers, C78_contact_collect, C78_contact_sample, C78_interface_angle, C78_interface_sample, C78_interface_view, C78_program, C78_sample, C79_program_ends_partial, C81_delta_t_refuted, C81_failing_file, C81_no_labels, C81_not_sampled, C81_not_saved, C81_run, C81_words, C82_delta_t_refuted, C82_failing_file, C82_nan_refuted, C82_not_saved, C82_nothing_asked, C82_run, C86_colours, C86_defaults, C86_run, C86_saved_refuted, C86_stops, C86_streamlines_cutoff_refuted, C86_streamlines_refuted, C86_unreadable, C87_contours, C87_dissipation_refuted, C87_heights, C87_unreadable, C87_values, C89_contour, C89_flow, C89_height, C89_streamlines_refuted, C90_angle, C90_angle_only, C90_fit, C90_fit_label_refuted, C90_fit_saved_refuted, C91_contact_angle, C92_contact_angle, C93_contact_angle, C94_no_pair, C94_nothing_saved, C94_saved, C95_fit_not_saved_refuted, C95_interface_angle, C95_spreading_fit, C96_collect_sample, C98_collect_angle.

- on `ClassicalDedekindReals.sig_forall_dec`, `FunctionalExtensionality.functional_extensionality_dep`: C80_read_back, C82_read_back, C87_cutoff, C87_cutoff_derived, C90_fit_label, C90_interfaces, C90_spreading, C95_interface_view, C95_spreading_view, C96_collect_view, C97_collect_view, C97_each_interface.

- on `ClassicalDedekindReals.sig_forall_dec`, `ClassicalDedekindReals.sig_not_dec`, `FunctionalExtensionality.functional_extensionality_dep`: C37_additive, C37_at_least_the_distance, C37_nonneg, C37_reversal, C37_scaling, C37_straight, C37_sum_of_segments, C37_translation, C60_angle_meaning, C61_unique, C66_absolute, C80_delta_t_refuted, C80_failing_file, C80_not_saved, C80_polygon_area, C80_run, C80_sample_or_error, C80_unknown_variable, C87_average_refuted, C87_cutoff_label_refuted, C87_default_type_refuted, C87_limits_refuted, C87_raises, C90_samples, C90_samples_failed, C95_interface_sample.

## Properties

For each: what is modelled and how it is proved; the status, with what is missing if it is partial; the theorems.

### C01 Generated file names are consecutive and never collide

Method: gen_filenames as a coinductive-free prefix generator over Z/nat numbers with the '%05d' formatter on Ascii strings; injectivity of the formatter by inverse (decimal value).

Status: **proved**.

Theorems: `C01_gen_filenames_nth`, `C01_gen_filenames_distinct`, `C01_names_identify_numbers`.

### C02 Input maps are found as the unbroken run from the first number

Method: file system = predicate on names (finite for termination); fuelled scan, fuel proved sufficient; spec = maximal prefix of existing numbers.

Status: **proved**.

Theorems: `C02_singles_are_the_run`, `C02_run_unique`, `C02_singles_bounded_range`.

### C03 Grouped input maps partition the run without overlap or loss

Method: same model with group loop; equality with chunks of the single-file run.

Status: **proved**.

Theorems: `C03_groups_partition_the_run`, `C03_group_zero_never_ends`.

### C04 Rolling groups are all windows of consecutive maps

Method: same; equality with sliding windows.

Status: **proved**.

Theorems: `C04_rolling_groups_are_windows`.

### C05 Single-file processing keeps the frame number

Method: zip of the run with gen_filenames; number equality.

Status: **proved**.

Theorems: `C05_singles_keep_number`, `C05_outputs_distinct`.

### C06 Group processing numbers outputs as K = ceil(N/M)

Method: ceil arithmetic on Z.

Status: **proved**.

Theorems: `C06_group_output_numbers`, `C06_rolling_output_numbers`, `C06_outputs_distinct`.

### C07 Writing never destroys an existing file

Method: file system as finite map path->content; write call as a list of atomic operations; invariant over any history.

Status: **proved**.

Theorems: `C07_no_content_lost`, `C07_backup_is_smallest_free`.

### C08 Backups survive a crash, and concurrent writers

Method: prefixes of the operation list (crash); interleavings of two processes as schedules (refutation witness).

Status: **partial**. crash safety proved for every history and crash point; the claim for concurrent writers is false of the code: C08_concurrent_writers_refuted gives a schedule losing content

Theorems: `C08_crash_safe`, `C08_concurrent_writers_refuted`.

### C09 Averaging data maps conserves mass and momentum

Method: average_data over lists of lists of 7-field records with exact rationals (Qc).

Status: **proved**.

Theorems: `C09_bin_conservation`, `C09_total_conservation`.

### C10 The map average does not depend on file order and is a true average

Method: permutation by Permutation lemma on sums; convexity.

Status: **proved**.

Theorems: `C10_order_independent`, `C10_order_independent_values`, `C10_average_of_copies`, `C10_average_within_range`, `C10_weight_scaling`.

### C11 Maps on different grids are never averaged silently

Method: isclose modelled exactly with rational tolerances.

Status: **proved**.

Theorems: `C11_accepts_only_same_grid`, `C11_rejects_with_ValueError`, `C11_coordinates_of_first_map`, `C11_no_maps_no_data`.

### C12 Combining bins conserves mass, number and momentum

Method: block sums through index arithmetic on x-major lists.

Status: **proved**.

Theorems: `C12_block_conservation`, `C12_total_conservation`, `C12_values_within_range`.

### C13 Combined bins describe the right grid

Method: same, coordinates by linspace.

Status: **proved**.

Theorems: `C13_succeeds_iff`, `C13_new_grid`, `C13_bins_at_block_centres`, `C13_combine_one_by_one`, `C13_combine_compose`.

### C14 Averaging in equal groups composes

Method: algebra on sums.

Status: **proved**.

Theorems: `C14_average_of_group_averages`.

### C15 Limiting a flow map keeps exactly the bins inside the limits

Method: table = labels + rows.

Status: **proved**.

Theorems: `C15_lims_exact`, `C15_lims_errors`, `C15_lims_intersect`, `C15_lims_commute`, `C15_lims_idempotent`, `C15_lims_wf`.

### C16 Cutting keeps the box and describes it

Method: same.

Status: **proved**. all of the statement is proved; C16_origin_is_not_a_bin_refuted records that the origin of the result is the limit, which need not be the position of a bin

Theorems: `C16_cut_exact`, `C16_cut_errors`, `C16_cut_without_limits`, `C16_origin_is_not_a_bin_refuted`.

### C17 Sorting bins only reorders them, in y-major order

Method: insertion sort by lexicographic order (np.sort order=[Y,X,...]).

Status: **proved**.

Theorems: `C17_sort`, `C17_sort_canonical`, `C17_sort_idempotent`, `C17_sort_defined`.

### C18 Derived flow objects do not alias the original

Method: functional model.

Status: **proved**.

Theorems: `C18_derived_is_new`, `C18_no_alias`, `C18_sort_in_place`, `C18_translate`, `C18_translate_compose`, `C18_translate_back`, `C18_translate_errors`.

### C19 Grid information is validated

Method: step machine on set_info.

Status: **proved**.

Theorems: `C19_pair_values`, `C19_assign`, `C19_integers_exact`, `C19_set_info`, `C19_size`, `C19_extra_values_ignored`.

### C20 Averaging flow fields of different extent covers all of them

Method: grid transfer with round-half-even offsets.

Status: **proved**.

Theorems: `C20_grid_covers_all_maps`.

### C21 Averaging flow fields conserves the weighted quantities

Method: sums over bins.

Status: **proved**. a field used as a weight may not itself be a weighted field (names_ok)

Theorems: `C21_mean_per_bin`, `C21_weighted_mean_per_bin`, `C21_totals_are_conserved`, `C21_weighted_totals_are_conserved`, `C21_order_does_not_matter`.

### C22 Inconsistent flow fields are rejected

Method: exceptions as values.

Status: **partial**. proved except that empty sets are never included as empty bins: with exclude_empty_sets=False (the default) every empty set raises (C22_empty_set_included_refuted); also average_data never checks coordinates (C22_coordinates_not_checked_refuted)

Theorems: `C22_no_maps`, `C22_spacings_agree`, `C22_unset_spacing`, `C22_different_spacing`, `C22_shapes_are_set`, `C22_empty_sets_are_ignored`, `C22_all_empty`, `C22_empty_set_included_refuted`, `C22_coordinates_not_checked_refuted`.

### C23 Downsampling conserves summed fields

Method: blocks on y-major lists.

Status: **proved**.

Theorems: `C23_limits_select_a_grid`, `C23_downsampled_map`, `C23_zero_factor`.

### C24 Supersampling interpolates within the range of the data

Method: windows.

Status: **partial**. All claims proved except 'the refined bins cover the same area', which is false of the code: C24_covers_same_area_refuted shows the fine grid is shifted by half a coarse bin minus half a fine bin.

Theorems: `C24_copies`, `C24_supersampled_map`, `C24_values_within_range`, `C24_constant_fields`, `C24_covers_same_area_refuted`.

### C25 The interface consists of the outermost droplet cells per layer

Method: filter/outermost cell search.

Status: **proved**.

Theorems: `C25_outermost_droplet_cells`, `C25_get_interface`.

### C26 The largest-block search finds the longest periodic run

Method: doubled-list run scan; spec: longest cyclic run.

Status: **proved**. the layer is in increasing order of x, as all maps written by the package are; C26_unsorted_layer_refuted records what happens otherwise

Theorems: `C26_longest_run`, `C26_interface_is_longest_run`, `C26_get_interface`, `C26_needs_size`, `C26_unsorted_layer_refuted`.

### C27 Default search parameters are what is documented

Method: min/max midpoint.

Status: **partial**. proved for the cutoff, homogeneous and empty maps; the default radius is derived from the smallest separation along x only: C27_default_radius_partial, and C27_default_radius_refuted shows a map where cells which are adjacent along y are not neighbours

Theorems: `C27_default_cutoff`, `C27_homogeneous`, `C27_empty`, `C27_empty_with_cutoff`, `C27_default_radius_partial`, `C27_default_radius_refuted`, `C27_single_column`.

### C28 Neighbour counts respect periodic images

Method: image counting.

Status: **proved**. for boxes which begin at x = 0, which the code assumes: C28_box_not_at_zero_refuted shows it is needed

Theorems: `C28_periodic_neighbours`, `C28_cell_in_search_space`, `C28_prefilter`, `C28_box_not_at_zero_refuted`.

### C29 Contact line cells are a box at the interface edge

Method: filters and translation.

Status: **proved**.

Theorems: `C29_interface`, `C29_cells`, `C29_errors`, `C29_default_area`, `C29_adjust`, `C29_adjust_total`.

### C30 The spreading radius is right across periodic boundaries

Method: state machine with invariant over trajectory.

Status: **proved**. for boxes which begin at x = 0: C30_box_not_at_zero_refuted shows the radius is wrong otherwise

Theorems: `C30_radius_across_boundaries`, `C30_box_not_at_zero_refuted`.

### C31 Edge positions are tracked continuously across the boundary

Method: same, per edge.

Status: **proved**. under the documented assumption, which is necessary: C31_both_cross_refuted

Theorems: `C31_edges_are_continuous`, `C31_both_cross_refuted`.

### C32 Spreading times are relative to impact

Method: fold over frames.

Status: **partial**. times are t0 + k dt for the k-th frame with edges (C32_times_partial), which is the claim if there is no gap (C32_times_without_gaps) and false otherwise (C32_gap_refuted); the impact line is written once per process, so the claim holds for the first output only (C32_first_output, C32_second_output_refuted)

Theorems: `C32_times_partial`, `C32_times_without_gaps`, `C32_gap_refuted`, `C32_first_output`, `C32_impact_frame`, `C32_second_output_refuted`.

### C33 Interface arrays run up the left edge and down the right one

Method: arrays as option lists.

Status: **proved**. C33_array holds for every map and history; which layers belong to the interface is C25-C27

Theorems: `C33_array`, `C33_no_interface`, `C33_single_layer`.

### C34 Periodic information is carried between frames by layer

Method: list updates.

Status: **partial**. Carrying by nearest layer: proved for layers a constant distance apart with no gap. Continuity of all positions: proved if in the first frame the left edges of all layers are in the same box, refuted otherwise (C34_first_frame_refuted); a gap between layers makes the run fail (C34_gap_refuted).

Theorems: `C34_nearest_layer`, `C34_nearest_is_nearest`, `C34_different_spacing`, `C34_continuous_partial`, `C34_first_frame_refuted`, `C34_gap_refuted`.

### C35 Recentring interfaces is a rigid motion

Method: sums.

Status: **partial**. 'zero' and rigidity proved for all interfaces; 'com' subtracts the centre of mass of the positions in the box, which is not that of the unwrapped droplet when it crosses the boundary (C35_com_across_boundary_refuted).

Theorems: `C35_rigid`, `C35_zero`, `C35_com_partial`, `C35_com_is_centre`, `C35_zero_frames`, `C35_com_across_boundary_refuted`.

### C36 The sampled area is the area of the polygon

Method: trapezoid sums over Qc.

Status: **proved**.

Theorems: `C36_polygon_area`, `C36_nonneg`, `C36_invariant`, `C36_additive`, `C36_bad_points`, `C36_collected`, `C36_rows`.

### C37 The sampled length is a length

Method: Coq.Reals sqrt.

Status: **proved**.

Theorems: `C37_sum_of_segments`, `C37_nonneg`, `C37_at_least_the_distance`, `C37_translation`, `C37_reversal`, `C37_scaling`, `C37_additive`, `C37_straight`.

### C38 Averaging interfaces uses common layers only

Method: filters.

Status: **proved**. each height at most once on each edge, as in all collected interfaces; repeated heights raise

Theorems: `C38_common_layers`, `C38_order`, `C38_copies`, `C38_none`.

### C39 Synchronising spreading curves only shifts time

Method: argmin + shift.

Status: **proved**. for a single curve a list of factors is allowed and gives one curve for each of them (C39_one_curve)

Theorems: `C39_sync`, `C39_sync_errors`, `C39_idempotent`, `C39_shift_equivariant`, `C39_scale`, `C39_scale_errors`, `C39_one_curve`, `C39_default`, `C39_scaled_first`.

### C40 Fit limits select a range

Method: filter.

Status: **proved**. C40_nonpositive_times_refuted records that limits which hold only times up to 0 leave no point at all

Theorems: `C40_limits`, `C40_fit_points`, `C40_fit_order`, `C40_nonpositive_times_refuted`.

### C41 Slip length is exact for linear profiles

Method: least squares closed form over Qc.

Status: **proved**. for one label, or before 'visc_diss'; C41_after_dissipation_refuted: 'visc_diss' sorts the map in place, so that 'slip_length' after it in the same call reads rows as columns and is wrong

Theorems: `C41_linear`, `C41_same`, `C41_scaled_velocity`, `C41_moved_heights`, `C41_errors`, `C41_after_dissipation_refuted`.

### C42 Sampled values respect the mass cutoff

Method: filter and mean.

Status: **proved**. C42_unknown_cutoff_label_refuted records that an unknown cutoff label does not disable the cutoff, as the code intends, but leaves no result

Theorems: `C42_values`, `C42_default_cutoff`, `C42_mean_in_range`, `C42_energy`, `C42_dissipation_sum`, `C42_limits`, `C42_files`, `C42_failing_file`, `C42_unknown_cutoff_label_refuted`.

### C43 Viscous dissipation is physical

Method: np.gradient edge_order=2.

Status: **proved**.

Theorems: `C43_nonnegative`, `C43_exact`, `C43_linear`, `C43_special`, `C43_any_order`, `C43_errors`.

### C44 Centre of mass moves with the system

Method: weighted sums.

Status: **proved**.

Theorems: `C44_is_weighted_mean`, `C44_no_mass`, `C44_within`, `C44_moves`, `C44_scaled_mass`, `C44_any_order`.

### C45 Angular sampling covers the circle exactly once

Method: interval assignment on angles.

Status: **partial**. Each bin seen within the limits is in exactly one interval and each value is the average of its interval (intervals moved by 1e-6 degrees). False: angles above 360 - size are never sampled (C45_full_circle_refuted) and bins straight left of the origin are sampled at 0 instead of 180 degrees (C45_left_axis_refuted).

Theorems: `C45_angles`, `C45_values_partial`, `C45_once_partial`, `C45_full_circle_refuted`, `C45_left_axis_refuted`.

### C46 GMX flow files read back what was written

Method: byte-level codec.

Status: **partial**. Proved for every map with at least 29 filled bins (3 for headers below 1024 bytes) or none. Refuted for the smallest maps (C46_one_bin_refuted: the file cannot be read again) and for values in bins without mass (C46_massless_values_refuted).

Theorems: `C46_files_read_back_partial`, `C46_usual_files_read_back_partial`, `C46_one_bin_refuted`, `C46_massless_values_refuted`, `C46_missing_field`, `C46_wrong_size`.

### C47 Reading the gmx header does not depend on the file size

Method: chunk reader over byte lists.

Status: **partial**. Proved if the file reaches the end of the 1024 byte block with the terminator; refuted for every shorter file (C47_short_files_refuted) and for files without terminator (endless loop).

Theorems: `C47_header_found_partial`, `C47_short_files_refuted`, `C47_no_terminator_refuted`.

### C48 Simple binary and plain files read back what was written

Method: byte-level codec, UTF-8 validity.

Status: **partial**. Plain files: proved for tables on a regular grid with y fastest and coordinates of at most five decimals (values to single precision and six decimals). Binary files: same, if the content is recognised as binary (sufficient conditions proved). False in general: binary files of small non-negative values can be valid text (C48_detection_refuted), other row orders get wrong positions (C48_row_order_refuted), one-row plain files cannot be read (C48_one_row_refuted).

Theorems: `C48_plain_files_read_back`, `C48_binary_files_read_back_partial`, `C48_not_text`, `C48_detected_by_value`, `C48_text_is_plain`, `C48_detection_refuted`, `C48_row_order_refuted`, `C48_one_row_refuted`, `C48_missing_field`.

### C49 Grid information is recovered from coordinates

Method: unique/sort on coordinates.

Status: **partial**. Proved for grids with at least two bins along both axes and rows at least 0.0001 apart, for any order of the bins; false for single rows (spacing NaN) and for closer rows.

Theorems: `C49_information_recovered_partial`, `C49_single_row_refuted`, `C49_close_rows_refuted`, `C49_bad_arrays`.

### C50 File formats are recognised

Method: prefix test.

Status: **proved**. Also: files written by each writer are recognised (binary ones if |first x| < 2^26; false otherwise, C50_magic_positions_refuted).

Theorems: `C50_gmx_iff_magic`, `C50_otherwise_simple`, `C50_gmx_files_recognised`, `C50_plain_files_recognised`, `C50_binary_files_recognised`, `C50_magic_positions_refuted`, `C50_write_dispatch`, `C50_write_errors`.

### C51 Conversion keeps frames and positions

Method: composition of codecs.

Status: **partial**. Frames and numbers: proved for every disk. Positions: proved for conversion to plain, to binary (if recognised) and gmx to gmx (29 or more filled bins, six decimals); false for simple to gmx, which shifts every bin by half a bin (C51_simple_to_gmx_shifts_refuted), and 'outext' makes conversion to simple formats fail (C51_outext_refuted).

Theorems: `C51_frames_keep_numbers`, `C51_failing_frame`, `C51_run_agrees`, `C51_to_plain_partial`, `C51_to_binary_partial`, `C51_gmx_to_gmx_partial`, `C51_simple_to_gmx_shifts_refuted`, `C51_outext_refuted`.

### C52 Contact line frames are grouped in windows and fused at the edge

Method: windows/translation.

Status: **proved**.

Theorems: `C52_windows`, `C52_failing_frame`, `C52_no_group`, `C52_window`, `C52_blocks_cover`, `C52_fuse`, `C52_fuse_empty`.

### C53 Flow arrows are drawn for every bin with flow

Method: filter.

Status: **partial**. Exactly the visible bins with flow along both axes are drawn (C53_arrows_partial). False: a bin with flow along one axis only has no arrow (C53_one_component_refuted).

Theorems: `C53_arrows_partial`, `C53_all_flow`, `C53_unknown_label`, `C53_one_component_refuted`.

### C54 Density gradients use the grid spacing of their own axis

Method: np.gradient.

Status: **partial**. Linear densities: exact for square bins (C54_square_bins); otherwise the bin sizes of the axes are exchanged (C54_linear_partial, C54_bin_size_refuted).

Theorems: `C54_linear_partial`, `C54_square_bins`, `C54_bin_size_refuted`, `C54_single_row`.

### C55 Averaging pipeline writes maps consistent with their grid

Method: composition; refutation where info is stale.

Status: **partial**. Proved for plain and recentred averages of same-format frames with at least 29 (or no) cells with mass (C46): grids, values, file numbers, no loss. False: outputs of simple frames and recentred outputs are read back half a bin off (C55_simple_frames_moved_refuted, C55_recentred_positions_refuted); combine, limits without recentring and supersample never work (C55_combine_refuted, C55_cut_refuted, C55_supersample_refuted); a frame without position ends the run (C55_no_position_refuted); quiet raises at the end.

Theorems: `C55_combine_refuted`, `C55_cut_refuted`, `C55_supersample_refuted`, `C55_no_position_refuted`, `C55_recentred_positions_refuted`, `C55_unknown_position`, `C55_centre`, `C55_edge_positions`, `C55_mixed_formats`, `C55_averaged_files_partial`, `C55_positions_kept`, `C55_simple_frames_moved_refuted`, `C55_recentred_files_partial`.

### C56 Reading several files is reading each of them

Method: map over files.

Status: **proved**.

Theorems: `C56_limits`, `C56_unknown_field`, `C56_files`.

### C57 Tables hold the given columns

Method: lists of columns with exceptions as values; case analysis.

Status: **partial**. proved except that a column with a single value is not refused but repeated: C57_single_value_refuted

Theorems: `C57_set_data`, `C57_unequal_refused`, `C57_single_value_refuted`.

### C58 Spreading edges are taken from the lowest wet layer or the floor layer

Method: frames as maps with edges; the floor by a filter on rows.

Status: **proved**. C58_floor_at_layer_refuted records that a floor equal to the height of a layer selects the next layer

Theorems: `C58_lowest_layer`, `C58_floor_layer`, `C58_chosen_layer`, `C58_always_chosen`, `C58_floor_at_layer_refuted`.

### C59 Power law fits recover power laws

Method: the least squares solver is a relation (a minimiser); normal equations over Reals give existence and uniqueness.

Status: **proved**. opt.leastsq is modelled as a minimiser of the sum of squares (relation), not its numerical method; Reals axioms

Theorems: `C59_unique_fit`, `C59_recovers`, `C59_fitted_curve`, `C59_scaled`.

### C60 Contact angles are the angles of the interface at the contact line

Method: edge points as functions of the layers, arctan over Reals.

Status: **proved**. Reals axioms for the angles

Theorems: `C60_triangle`, `C60_floor`, `C60_angles`, `C60_angle_meaning`.

### C61 The mean flow angle is the direction of the total momentum

Method: atan2 by quadrants over Reals.

Status: **proved**. Reals axioms

Theorems: `C61_direction`, `C61_mean_flow_angle`, `C61_each_bin`, `C61_unique`, `C61_scaled`, `C61_reversed`.

### C62 Averaged contact line edges are averages relative to the contact line

Method: windows of frames, averaged by the simple average and moved by whole boxes.

Status: **partial**. Averages and placement: proved for edges of at least two layers and dx <= 2 dy. False otherwise: C62_wide_bins_refuted (the layer length is found with dx instead of dy), C62_single_layer_refuted (IndexError, also for the default extraction area), C62_recentre_refuted (recentred edges are one bin off if half their distance is a multiple of the bin size), C62_quiet_refuted (quiet=True always fails).

Theorems: `C62_edges`, `C62_run`, `C62_recentre_symmetric`, `C62_recentre_refuted`, `C62_wide_bins_refuted`, `C62_single_layer_refuted`, `C62_failing_group`, `C62_quiet_refuted`.

### C63 Recombined contact line maps hold both edges

Method: bins of both edges in one grid, sums of masses.

Status: **partial**. Contents and conservation proved; the map is moved by half a bin. False: no file is ever written (C63_never_written_refuted), and sampling the edges always ends the program (C63_sampling_refuted).

Theorems: `C63_combined`, `C63_conserved`, `C63_extracted`, `C63_never_written_refuted`, `C63_sampling_refuted`, `C63_times`, `C63_overlap`.

### C64 Height maps show every bin in a cell of its own

Method: cells by comparison of the bin edges of a regular histogram.

Status: **partial**. Proved for full maps. False with a cutoff: the cells are laid out over the remaining bins only (C64_cutoff_refuted). matplotlib's hist2d is modelled as numpy.histogram2d.

Theorems: `C64_cells`, `C64_cutoff_refuted`.

### C65 Contour maps are drawn on the grid of the map

Method: reshape of the column in y-major order.

Status: **partial**. Proved for full maps in file order. False: maps with a cutoff cannot be drawn (C65_cutoff_refuted), and maps with derived fields are sorted differently from the shape used (C65_sorted_refuted).

Theorems: `C65_contour`, `C65_limits`, `C65_levels`, `C65_cutoff_refuted`, `C65_sorted_refuted`.

### C66 Derived flow fields are the speed and the radial velocity

Method: square root and atan2 over Reals.

Status: **partial**. 'flow' is the speed (C66_absolute). False: 'radial' is the clockwise flow around the centre (C66_clockwise), 0 for all radial flow (C66_radial_refuted). Reals axioms.

Theorems: `C66_absolute`, `C66_clockwise`, `C66_radial_refuted`.

### C67 Every file of a series is drawn with the chosen field

Method: fold over files with the changing label as state.

Status: **partial**. Proved for all fields but the dissipation with an explicit type (C67_draw). False: the default type is refused (C67_default_type_refuted), for the dissipation only the first file is drawn (C67_dissipation_refuted), stream lines need one bin more along each axis than there are, in exact arithmetic (C67_streamlines_refuted).

Theorems: `C67_default_type_refuted`, `C67_draw`, `C67_dissipation_refuted`, `C67_streamlines_refuted`.

### C68 Interface files hold the collected points

Method: fixed-point formatter and table reader on bytes; nearest decimal by rounding lemmas; comment lines skipped.

Status: **proved**.

Theorems: `C68_read_back`, `C68_exact`, `C68_error`, `C68_order`, `C68_header`, `C68_name_refuted`, `C68_single_point`, `C68_no_points`, `C68_no_file`.

### C69 Collecting interfaces keeps frames, files and order

Method: fold over the run of files, one atomic write per frame, invariant on the disk.

Status: **proved**.

Theorems: `C69_map_of_file`, `C69_files`, `C69_failing_frame`, `C69_true_areas`.

### C70 Measured contact angles are those of the line to the point at the height

Method: argmin over the edge, atan over Reals; circle geometry.

Status: **partial**. Everything but the existence of a value: proved as the angle of the secant with all invariances, exact for straight edges, contact angle less half the arc on circles (C70_circle). False: heights up to half of the first layer spacing give NaN (C70_low_height_refuted). Reals axioms.

Theorems: `C70_secant`, `C70_total`, `C70_mirror`, `C70_shift`, `C70_enlarge`, `C70_straight`, `C70_circle`, `C70_low_height_refuted`.

### C71 Fitted contact angles are those of the circular segment

Method: chord and height, exact on circles by the half-angle formula.

Status: **partial**. Proved for interfaces standing on y = 0 (as collect writes them). False otherwise: the height is measured from y = 0, so raising the interface changes the angle (C71_raised_refuted). Reals axioms.

Theorems: `C71_circle`, `C71_segment`, `C71_touching`, `C71_shift`, `C71_enlarge`, `C71_raised_refuted`.

### C72 Angles of a series of interface files

Method: fold over files.

Status: **proved**.

Theorems: `C72_halves`, `C72_collected`, `C72_file`, `C72_series`, `C72_unreadable`, `C72_missing`, `C72_run`, `C72_columns`.

### C73 Collecting spreading curves from files on disk

Method: fold over the run of files with appends to the output; invariant: output = header + rows so far, all else unchanged.

Status: **proved**.

Theorems: `C73_frame_or_error`, `C73_run`, `C73_failing_file`, `C73_impact_lines`, `C73_not_saved`.

### C74 Saved spreading curves are read back as collected

Method: table reader on the bytes which were written; composition with C30 to the true radii.

Status: **partial**. Proved for files of at least two rows. False: a file of one row silently gives no curve (C74_single_row_refuted). The file has four columns, so the left and right edges are read as two more curves (C74_read_back states all three).

Theorems: `C74_read_back`, `C74_header`, `C74_impact`, `C74_true_radii`, `C74_single_row_refuted`, `C74_missing_radii`, `C74_ragged_refuted`, `C74_warning`, `C74_missing_file`.

### C75 Combined spreading curves can be read again

Method: splitting at "@target" on bytes, under which the header and the shown numbers are invariant.

Status: **partial**. Proved for non-empty curves and all options with save_xvg given. False: leaving save_xvg out is a KeyError (C75_no_output_refuted), an empty curve makes the file unreadable (C75_empty_curve_refuted). pandas' to_string is a parameter about which only the shown points are assumed; C75_decimals gives an instance.

Theorems: `C75_graph_without_points_refuted`, `C75_read_back`, `C75_decimals`, `C75_header`, `C75_fit_header`, `C75_view`, `C75_no_output_refuted`, `C75_nothing_saved`, `C75_empty_curve_refuted`.

### C76 Fitting spreading files gives one power law per droplet

Method: composition of C74 and C59.

Status: **partial**. One pair per curve in order, exact for power laws (C76_one_per_curve, C76_recovers). False per droplet: a collected file gives three pairs, two of them fitted to edge positions (C76_edges_refuted). Reals axioms; the least squares solver is the unique minimiser.

Theorems: `C76_one_per_curve`, `C76_recovers`, `C76_edges_refuted`, `C76_fitted`.

### C77 Which command lines are accepted

Method: grammar of words (inductive relation) against the scanning parser, both directions; numerals as inductive relations against py_int/py_float.

Status: **proved**. click's parser is modelled from its documentation (not part of the repository); float rounding of texts is ignored. Both directions: accepted iff written and readable.

Theorems: `C77_shows_text`, `C77_dashes`, `C77_accepted_iff`, `C77_refused_does_nothing`, `C77_unknown_command`, `C77_last_counts`.

### C78 Options and arguments reach the library unchanged

Method: the table of fifteen commands, values delivered by the parser through the changes made by each command; composition with the models on disks.

Status: **proved**. Keywords and positional arguments for all fifteen commands; effects on files for the eleven commands whose functions have a model on disks (average, convert, sample, spreading collect/view, interface collect/view/sample/angle, contact-line collect/sample). Values outside of the models (infinite or NaN cutoffs, negative factors) are not covered by the theorems on effects.

Theorems: `C78_contact_collect`, `C78_contact_sample`, `C78_keyword_names`, `C78_view_kind`, `C78_average`, `C78_convert`, `C78_spreading_collect`, `C78_spreading_view`, `C78_interface_collect`, `C78_program`, `C78_sample`, `C78_interface_sample`, `C78_interface_view`, `C78_interface_angle`, `C78_declared`, `C78_all_declared`, `C78_keywords`, `C78_process`, `C78_sample_label`, `C78_print_fits`.

### C79 Commands end without an error when their work is done

Method: case analysis over the table of commands and the outcomes of the functions.

Status: **partial**. Proved for all commands but one (C79_ends_without_error_partial, C79_program_ends_partial, C79_does_nothing). False: 'interface collect' always ends with a TypeError because it unpacks None (C79_interface_collect_refuted); a height of 0 counts as none; '--combine 2 none' is accepted but fails; '--noaxis' of 'view height' has no effect; the contact line commands end with a TypeError or exit status 1 (C78_ex_contact_collect, C88); with click 7 'contact_line' is called 'contact-line'.

Theorems: `C79_ends_without_error_partial`, `C79_does_nothing`, `C79_interface_collect_refuted`, `C79_angle_height_zero_refuted`, `C79_combine_one_none_refuted`, `C79_noaxis_refuted`, `C79_contact_line_refuted`, `C79_program_ends_partial`.

### C80 Sampling interfaces writes a row for every interface which can be sampled

Method: fold over the run of files with appends to the output, generic in the step (SampleFilesP); text of reals by nearest decimals.

Status: **partial**. Everything but the recorded delta_t: rows, text, disk and exceptions for all runs (C80_run, C80_failing_file, C80_not_saved, C80_read_back). False: the header always says 'Delta-t: 1.0' (C80_delta_t_refuted). The progress bar and a PermissionError are not modelled. Reals axioms.

Theorems: `C80_sample_or_error`, `C80_polygon_area`, `C80_run`, `C80_failing_file`, `C80_unknown_variable`, `C80_not_saved`, `C80_rows`, `C80_read_back`, `C80_header`, `C80_delta_t_refuted`.

### C81 Sampling averages writes a row for every map

Method: the same fold, with '%g' as relation to the nearest number of six significant digits.

Status: **partial**. Everything but the recorded delta_t (C81_run, C81_not_sampled, C81_failing_file, C81_not_saved, C81_words). False: the header always says 'Delta-t: 1.0' (C81_delta_t_refuted). The texts (%r) of options in the header are parameters. Reals axioms.

Theorems: `C81_labels`, `C81_run`, `C81_not_sampled`, `C81_failing_file`, `C81_not_saved`, `C81_no_labels`, `C81_words`, `C81_header`, `C81_delta_t_refuted`.

### C82 The table of contact angles is what was measured

Method: columns to rows, table reader on the bytes written.

Status: **partial**. Rows, columns, text, reading back and disk (C82_run, C82_read_back, C82_failing_file). False: NaN is written as 'nan' (C82_nan_refuted) and the header always says 'Delta-t: 1.0' (C82_delta_t_refuted). Reals axioms.

Theorems: `C82_run`, `C82_failing_file`, `C82_not_saved`, `C82_nothing_asked`, `C82_read_back`, `C82_header`, `C82_nan_refuted`, `C82_delta_t_refuted`.

### C83 Viewing interfaces averages every bundle of files that can be read

Method: bundles of the run (C02, C05), average of each bundle by its specification (C38), induction over the bundles.

Status: **partial**. All runs without saved averages (C83_run). False with them: the first bundle that can be averaged ends the run with a KeyError, its output path prepared but nothing written (C83_saving, C83_saving_refuted).

Theorems: `C83_run`, `C83_average`, `C83_saving`, `C83_saving_refuted`.

### C84 Figure options reach the figure and nothing else

Method: the list of calls as a function of the keywords; membership and order by cases; any failure function by induction over the calls.

Status: **partial**. Keywords, calls, order and failures (C84_keywords, C84_calls, C84_order, C84_failures, C84_drawing_fails). False: 'no_axis' is not an option and reaches the drawing function (C84_no_axis_refuted); 'dims' is the size in pixels only with 300 dots per inch (C84_size, C84_size_refuted). The drawing library is any function that may fail at any call.

Theorems: `C84_keywords`, `C84_calls`, `C84_order`, `C84_failures`, `C84_drawing_fails`, `C84_no_axis_refuted`, `C84_size`, `C84_size_refuted`.

### C85 Interfaces side by side keep every height

Method: rows are the sorted union of the heights, columns by lookup in the halves.

Status: **proved**.

Theorems: `C85_frames`, `C85_repeats`.

### C86 Flow fields are shown for every file

Method: colours by cases, arrows by masks (C53), induction over the files with the figure of C84 for each.

Status: **partial**. Runs of arrows, colours and failures (C86_run, C86_colours, C86_arrows_partial, C86_unreadable, C86_stops). False: bins with flow along one axis only have no arrow (C53); stream lines without a cutoff are never drawn (C86_streamlines_refuted); calls without options are C86_defaults; all figures are saved as the same file (C86_saved_refuted). Stream lines with a cutoff that all bins reach are never drawn either (C86_streamlines_cutoff_refuted); a limit of 0 is ignored for stream lines (C86_streamlines_zero_refuted); which bins are arranged for them is proved (C86_streamlines_box), their drawing is not modelled. Labels U and V and coordinates X and Y only. Reals axioms.

Theorems: `C86_defaults`, `C86_colours`, `C86_arrows_partial`, `C86_run`, `C86_unreadable`, `C86_stops`, `C86_streamlines_box`, `C86_streamlines_zero_refuted`, `C86_streamlines_refuted`, `C86_streamlines_cutoff_refuted`, `C86_saved_refuted`.

### C87 Maps are drawn for every file

Method: values by cases, cells of the histogram (one bin per cell by counting), induction over the files with the label as state.

Status: **partial**. Runs of height maps without a cutoff for all fields, one file for the dissipation (C87_heights, C87_values); contours for fields in file order (C87_contours), failures (C87_unreadable, C87_raises), what a cutoff keeps (C87_cutoff, C87_cutoff_derived; with it bins change cells, C64). False: the dissipation of a second file (C87_dissipation_refuted), 'average_value' (C87_average_refuted), limits must be given (C87_limits_refuted), the cutoff label 'None' of the command line (C87_cutoff_label_refuted), the default type of a map (C87_default_type_refuted). Reals axioms.

Theorems: `C87_default_type_refuted`, `C87_values`, `C87_heights`, `C87_contours`, `C87_unreadable`, `C87_raises`, `C87_dissipation_refuted`, `C87_average_refuted`, `C87_limits_refuted`, `C87_cutoff_label_refuted`, `C87_cutoff`, `C87_cutoff_derived`.

### C88 Contact line maps and samples of files are written

Method: groups of the files which are read (C52, C62, C63), then the effects on the disk by those of the decorator (C08) for the only write of each run.

Status: **partial**. Effects on the disk and results for all runs (C88_extract_safe, C88_no_group, C88_sample_times, C88_sample_no_group). False: the map of a group is never written (C88_never_written_refuted: TypeError, an old output becomes a backup), sampled values are never written (C88_sample_refuted: the program ends with status 1 after the header), quiet=True always fails (C88_quiet_refuted), the time step is not recorded (C88_delta_t_refuted). What the maps are is C62 and C63.

Theorems: `C88_never_written_refuted`, `C88_no_group`, `C88_extract_safe`, `C88_sample_refuted`, `C88_sample_times`, `C88_sample_no_group`, `C88_quiet_refuted`, `C88_delta_t_refuted`.

### C89 The viewing commands draw what was asked for

Method: the values delivered by the parser (C78) are the options of the calls; the runs of C86 and C87 give the figures.

Status: **partial**. From the command line to the figures: arrows (C89_flow), height maps without a cutoff (C89_height), contours of files in columns (C89_contour). False: '--streamlines' draws nothing when all bins reach the cutoff or none is given (C89_streamlines_refuted). What a cutoff does to the cells of a height map is C64 and C87. Reals axioms.

Theorems: `C89_flow`, `C89_height`, `C89_contour`, `C89_streamlines_refuted`.

### C90 Curves are drawn

Method: the runs of C75, C76, C82, C80 and C83 give the data, C84 the calls of each figure; the label of a fit by the shape of what `str.strip` removes.

Status: **partial**. Proved for all runs: which curves are drawn, with which options, and which failures are raised (C90_spreading, C90_fit, C90_angle, C90_samples, C90_interfaces). False: the label of a fit loses the digits which occur in the name of the series (C90_fit_label has the exact condition, C90_fit_label_refuted a case); fits which are saved but not shown are not drawn (C90_fit_saved_refuted); the option 'axis' of view_spreading has no effect (C90_axis_refuted). Reals axioms.

Theorems: `C90_spreading`, `C90_axis_refuted`, `C90_fit_label`, `C90_fit`, `C90_fit_saved_refuted`, `C90_angle`, `C90_angle_only`, `C90_samples`, `C90_samples_failed`, `C90_interfaces`, `C90_fit_label_refuted`.

### C91 Results do not depend on units or the origin

Method: comparisons, differences, minima and sorted lists commute with increasing affine maps; from these every step of the searches gives the same indices.

Status: **partial**. Proved for all maps, units and options: interface, contact line, contact angles with and without a floor, edges without a floor, the collected series, center of mass and slip length. False: edges with a floor, whose layer is chosen by rounding the height to whole units (C91_floor_refuted). Numbers are exact. Reals axioms for the angles.

Theorems: `C91_interface`, `C91_contact_line`, `C91_contact_angle`, `C91_spreading_edges`, `C91_collect`, `C91_center_of_mass`, `C91_slip_length`, `C91_floor_refuted`.

### C92 The order of the records does not matter

Method: the search from the walls is determined by the set of wet cells in each layer (C25), whose counts of neighbours do not depend on the order; everything else is found from the places of the layers.

Status: **partial**. Proved for all maps, orders and options of the default search; with a floor for angles the layers must not be equally far from it. False: spreading edges with a floor, where the first of several layers within one unit of length counts (C92_floor_refuted); the search for the longest stretch, which is not the default, depends on the order (C92_longest_refuted). Reals axioms for the angles.

Theorems: `C92_interface`, `C92_contact_line`, `C92_contact_angle`, `C92_spreading_edges`, `C92_longest_refuted`, `C92_floor_refuted`, `C92_center_of_mass`.

### C93 Left and right are treated alike

Method: as C92, with distances kept by the mirror image; the two edges of the extraction boxes and of the triangle change places.

Status: **proved**. All maps with the default search, with and without a floor. Reals axioms for the angles.

Theorems: `C93_interface`, `C93_contact_line`, `C93_contact_angle`, `C93_spreading_edges`, `C93_center_of_mass`.

### C94 The file of fits is complete and readable

Method: the run with its write is modelled (Model/FitRuns.v); the combined file of C75 is read back, names and limits are lines of its header.

Status: **proved**. All runs whose limits are pairs, as documented, with bounds which may be None (C94_saved), and runs which save nothing (C94_nothing_saved); what happens with other values is C94_no_pair. A path that is not empty. pandas' to_string is a parameter about which only the shown points are assumed; the texts in the header have no line breaks. Reals axioms.

Theorems: `C94_saved`, `C94_nothing_saved`, `C94_no_pair`.

### C95 The spreading and interface commands draw what was asked for

Method: the parser theorem of C64 gives the keywords, C90 the figure of the run with these; what the options set follows from C84.

Status: **partial**. Proved for all command lines, disks and failures of drawing: the curves, title, labels, limits, scale, legend, showing and saving of the five commands (C95_spreading_view, C95_spreading_fit, C95_interface_angle, C95_interface_sample, C95_interface_view; the last without '-x', which fails (C83)). False: 'spreading fit -o FILE --noshow' draws and saves nothing (C95_fit_not_saved_refuted). The drawing library, the numerical fit and texts of numbers are parameters. Reals axioms.

Theorems: `C95_spreading_view`, `C95_spreading_fit`, `C95_interface_angle`, `C95_interface_sample`, `C95_interface_view`, `C95_fit_not_saved_refuted`.

### C96 Commands can be chained through the files they write

Method: C78/C69/C80 (interface collect, then interface sample) and C78/C73/C74/C95 (spreading collect, then spreading view) composed over the tree of files between the two commands; the points on disk are those of C68 and C74.

Status: **proved**.

Theorems: `C96_collect_sample`, `C96_collect_view`.

### C97 Collected interfaces are drawn as they were collected

Method: the disk after C78/C69 is read by C83/C95; distinct heights after rounding follow from layers more than 0.001 apart, and the average of one interface is the interface.

Status: **proved**.

Theorems: `C97_collect_view`, `C97_each_interface`.

### C98 The contact angles of collected interfaces are those of their points

Method: the files left by `collected_files` (C97) are sorted already, so that both edges are recovered; all measurements and fits exist (C70, C71) and C82 writes them.

Status: **proved**.

Theorems: `C98_collect_angle`.
