{
 "claims": [
  {
   "property": "C01",
   "status": "proved",
   "theorems": [
    "C01_gen_filenames_nth",
    "C01_gen_filenames_distinct",
    "C01_names_identify_numbers"
   ],
   "note": ""
  },
  {
   "property": "C02",
   "status": "proved",
   "theorems": [
    "C02_singles_are_the_run",
    "C02_run_unique",
    "C02_singles_bounded_range"
   ],
   "note": ""
  },
  {
   "property": "C03",
   "status": "proved",
   "theorems": [
    "C03_groups_partition_the_run",
    "C03_group_zero_never_ends"
   ],
   "note": ""
  },
  {
   "property": "C04",
   "status": "proved",
   "theorems": [
    "C04_rolling_groups_are_windows"
   ],
   "note": ""
  },
  {
   "property": "C05",
   "status": "proved",
   "theorems": [
    "C05_singles_keep_number",
    "C05_outputs_distinct"
   ],
   "note": ""
  },
  {
   "property": "C06",
   "status": "proved",
   "theorems": [
    "C06_group_output_numbers",
    "C06_rolling_output_numbers",
    "C06_outputs_distinct"
   ],
   "note": ""
  },
  {
   "property": "C07",
   "status": "proved",
   "theorems": [
    "C07_no_content_lost",
    "C07_backup_is_smallest_free"
   ],
   "note": ""
  },
  {
   "property": "C08",
   "status": "partial",
   "theorems": [
    "C08_crash_safe",
    "C08_concurrent_writers_refuted"
   ],
   "note": "crash safety proved for every history and crash point; the claim for concurrent writers is false of the code: C08_concurrent_writers_refuted gives a schedule losing content"
  },
  {
   "property": "C09",
   "status": "proved",
   "theorems": [
    "C09_bin_conservation",
    "C09_total_conservation"
   ],
   "note": ""
  },
  {
   "property": "C10",
   "status": "proved",
   "theorems": [
    "C10_order_independent",
    "C10_order_independent_values",
    "C10_average_of_copies",
    "C10_average_within_range",
    "C10_weight_scaling"
   ],
   "note": ""
  },
  {
   "property": "C11",
   "status": "proved",
   "theorems": [
    "C11_accepts_only_same_grid",
    "C11_rejects_with_ValueError",
    "C11_coordinates_of_first_map",
    "C11_no_maps_no_data"
   ],
   "note": ""
  },
  {
   "property": "C12",
   "status": "proved",
   "theorems": [
    "C12_block_conservation",
    "C12_total_conservation",
    "C12_values_within_range"
   ],
   "note": ""
  },
  {
   "property": "C13",
   "status": "proved",
   "theorems": [
    "C13_succeeds_iff",
    "C13_new_grid",
    "C13_bins_at_block_centres",
    "C13_combine_one_by_one",
    "C13_combine_compose"
   ],
   "note": ""
  },
  {
   "property": "C14",
   "status": "proved",
   "theorems": [
    "C14_average_of_group_averages"
   ],
   "note": ""
  },
  {
   "property": "C15",
   "status": "proved",
   "theorems": [
    "C15_lims_exact",
    "C15_lims_errors",
    "C15_lims_intersect",
    "C15_lims_commute",
    "C15_lims_idempotent",
    "C15_lims_wf"
   ],
   "note": ""
  },
  {
   "property": "C16",
   "status": "proved",
   "theorems": [
    "C16_cut_exact",
    "C16_cut_errors",
    "C16_cut_without_limits",
    "C16_origin_is_not_a_bin_refuted"
   ],
   "note": "all of the statement is proved; C16_origin_is_not_a_bin_refuted records that the origin of the result is the limit, which need not be the position of a bin"
  },
  {
   "property": "C17",
   "status": "proved",
   "theorems": [
    "C17_sort",
    "C17_sort_canonical",
    "C17_sort_idempotent",
    "C17_sort_defined"
   ],
   "note": ""
  },
  {
   "property": "C18",
   "status": "proved",
   "theorems": [
    "C18_derived_is_new",
    "C18_no_alias",
    "C18_sort_in_place",
    "C18_translate",
    "C18_translate_compose",
    "C18_translate_back",
    "C18_translate_errors"
   ],
   "note": ""
  },
  {
   "property": "C19",
   "status": "proved",
   "theorems": [
    "C19_pair_values",
    "C19_assign",
    "C19_integers_exact",
    "C19_set_info",
    "C19_size",
    "C19_extra_values_ignored"
   ],
   "note": ""
  },
  {
   "property": "C20",
   "status": "proved",
   "theorems": [
    "C20_grid_covers_all_maps"
   ],
   "note": ""
  },
  {
   "property": "C21",
   "status": "proved",
   "theorems": [
    "C21_mean_per_bin",
    "C21_weighted_mean_per_bin",
    "C21_totals_are_conserved",
    "C21_weighted_totals_are_conserved",
    "C21_order_does_not_matter"
   ],
   "note": "a field used as a weight may not itself be a weighted field (names_ok)"
  },
  {
   "property": "C22",
   "status": "partial",
   "theorems": [
    "C22_no_maps",
    "C22_spacings_agree",
    "C22_unset_spacing",
    "C22_different_spacing",
    "C22_shapes_are_set",
    "C22_empty_sets_are_ignored",
    "C22_all_empty",
    "C22_empty_set_included_refuted",
    "C22_coordinates_not_checked_refuted"
   ],
   "note": "proved except that empty sets are never included as empty bins: with exclude_empty_sets=False (the default) every empty set raises (C22_empty_set_included_refuted); also average_data never checks coordinates (C22_coordinates_not_checked_refuted)"
  },
  {
   "property": "C23",
   "status": "proved",
   "theorems": [
    "C23_limits_select_a_grid",
    "C23_downsampled_map",
    "C23_zero_factor"
   ],
   "note": ""
  },
  {
   "property": "C24",
   "status": "partial",
   "theorems": [
    "C24_copies",
    "C24_supersampled_map",
    "C24_values_within_range",
    "C24_constant_fields",
    "C24_covers_same_area_refuted"
   ],
   "note": "All claims proved except 'the refined bins cover the same area', which is false of the code: C24_covers_same_area_refuted shows the fine grid is shifted by half a coarse bin minus half a fine bin."
  },
  {
   "property": "C25",
   "status": "proved",
   "theorems": [
    "C25_outermost_droplet_cells",
    "C25_get_interface"
   ],
   "note": ""
  },
  {
   "property": "C26",
   "status": "proved",
   "theorems": [
    "C26_longest_run",
    "C26_interface_is_longest_run",
    "C26_get_interface",
    "C26_needs_size",
    "C26_unsorted_layer_refuted"
   ],
   "note": "the layer is in increasing order of x, as all maps written by the package are; C26_unsorted_layer_refuted records what happens otherwise"
  },
  {
   "property": "C27",
   "status": "partial",
   "theorems": [
    "C27_default_cutoff",
    "C27_homogeneous",
    "C27_empty",
    "C27_empty_with_cutoff",
    "C27_default_radius_partial",
    "C27_default_radius_refuted",
    "C27_single_column"
   ],
   "note": "proved for the cutoff, homogeneous and empty maps; the default radius is derived from the smallest separation along x only: C27_default_radius_partial, and C27_default_radius_refuted shows a map where cells which are adjacent along y are not neighbours"
  },
  {
   "property": "C28",
   "status": "proved",
   "theorems": [
    "C28_periodic_neighbours",
    "C28_cell_in_search_space",
    "C28_prefilter",
    "C28_box_not_at_zero_refuted"
   ],
   "note": "for boxes which begin at x = 0, which the code assumes: C28_box_not_at_zero_refuted shows it is needed"
  },
  {
   "property": "C29",
   "status": "proved",
   "theorems": [
    "C29_interface",
    "C29_cells",
    "C29_errors",
    "C29_default_area",
    "C29_adjust",
    "C29_adjust_total"
   ],
   "note": ""
  },
  {
   "property": "C30",
   "status": "proved",
   "theorems": [
    "C30_radius_across_boundaries",
    "C30_box_not_at_zero_refuted"
   ],
   "note": "for boxes which begin at x = 0: C30_box_not_at_zero_refuted shows the radius is wrong otherwise"
  },
  {
   "property": "C31",
   "status": "proved",
   "theorems": [
    "C31_edges_are_continuous",
    "C31_both_cross_refuted"
   ],
   "note": "under the documented assumption, which is necessary: C31_both_cross_refuted"
  },
  {
   "property": "C32",
   "status": "partial",
   "theorems": [
    "C32_times_partial",
    "C32_times_without_gaps",
    "C32_gap_refuted",
    "C32_first_output",
    "C32_impact_frame",
    "C32_second_output_refuted"
   ],
   "note": "times are t0 + k dt for the k-th frame with edges (C32_times_partial), which is the claim if there is no gap (C32_times_without_gaps) and false otherwise (C32_gap_refuted); the impact line is written once per process, so the claim holds for the first output only (C32_first_output, C32_second_output_refuted)"
  },
  {
   "property": "C33",
   "status": "proved",
   "theorems": [
    "C33_array",
    "C33_no_interface",
    "C33_single_layer"
   ],
   "note": "C33_array holds for every map and history; which layers belong to the interface is C25-C27"
  },
  {
   "property": "C34",
   "status": "partial",
   "theorems": [
    "C34_nearest_layer",
    "C34_nearest_is_nearest",
    "C34_different_spacing",
    "C34_continuous_partial",
    "C34_first_frame_refuted",
    "C34_gap_refuted"
   ],
   "note": "Carrying by nearest layer: proved for layers a constant distance apart with no gap. Continuity of all positions: proved if in the first frame the left edges of all layers are in the same box, refuted otherwise (C34_first_frame_refuted); a gap between layers makes the run fail (C34_gap_refuted)."
  },
  {
   "property": "C35",
   "status": "partial",
   "theorems": [
    "C35_rigid",
    "C35_zero",
    "C35_com_partial",
    "C35_com_is_centre",
    "C35_zero_frames",
    "C35_com_across_boundary_refuted"
   ],
   "note": "'zero' and rigidity proved for all interfaces; 'com' subtracts the centre of mass of the positions in the box, which is not that of the unwrapped droplet when it crosses the boundary (C35_com_across_boundary_refuted)."
  },
  {
   "property": "C36",
   "status": "proved",
   "theorems": [
    "C36_polygon_area",
    "C36_nonneg",
    "C36_invariant",
    "C36_additive",
    "C36_bad_points",
    "C36_collected",
    "C36_rows"
   ],
   "note": ""
  },
  {
   "property": "C37",
   "status": "proved",
   "theorems": [
    "C37_sum_of_segments",
    "C37_nonneg",
    "C37_at_least_the_distance",
    "C37_translation",
    "C37_reversal",
    "C37_scaling",
    "C37_additive",
    "C37_straight"
   ],
   "note": ""
  },
  {
   "property": "C38",
   "status": "proved",
   "theorems": [
    "C38_common_layers",
    "C38_order",
    "C38_copies",
    "C38_none"
   ],
   "note": "each height at most once on each edge, as in all collected interfaces; repeated heights raise"
  },
  {
   "property": "C39",
   "status": "proved",
   "theorems": [
    "C39_sync",
    "C39_sync_errors",
    "C39_idempotent",
    "C39_shift_equivariant",
    "C39_scale",
    "C39_scale_errors",
    "C39_one_curve",
    "C39_default",
    "C39_scaled_first"
   ],
   "note": "for a single curve a list of factors is allowed and gives one curve for each of them (C39_one_curve)"
  },
  {
   "property": "C40",
   "status": "proved",
   "theorems": [
    "C40_limits",
    "C40_fit_points",
    "C40_fit_order",
    "C40_nonpositive_times_refuted"
   ],
   "note": "C40_nonpositive_times_refuted records that limits which hold only times up to 0 leave no point at all"
  },
  {
   "property": "C41",
   "status": "proved",
   "theorems": [
    "C41_linear",
    "C41_same",
    "C41_scaled_velocity",
    "C41_moved_heights",
    "C41_errors",
    "C41_after_dissipation_refuted"
   ],
   "note": "for one label, or before 'visc_diss'; C41_after_dissipation_refuted: 'visc_diss' sorts the map in place, so that 'slip_length' after it in the same call reads rows as columns and is wrong"
  },
  {
   "property": "C42",
   "status": "proved",
   "theorems": [
    "C42_values",
    "C42_default_cutoff",
    "C42_mean_in_range",
    "C42_energy",
    "C42_dissipation_sum",
    "C42_limits",
    "C42_files",
    "C42_failing_file",
    "C42_unknown_cutoff_label_refuted"
   ],
   "note": "C42_unknown_cutoff_label_refuted records that an unknown cutoff label does not disable the cutoff, as the code intends, but leaves no result"
  },
  {
   "property": "C43",
   "status": "proved",
   "theorems": [
    "C43_nonnegative",
    "C43_exact",
    "C43_linear",
    "C43_special",
    "C43_any_order",
    "C43_errors"
   ],
   "note": ""
  },
  {
   "property": "C44",
   "status": "proved",
   "theorems": [
    "C44_is_weighted_mean",
    "C44_no_mass",
    "C44_within",
    "C44_moves",
    "C44_scaled_mass",
    "C44_any_order"
   ],
   "note": ""
  },
  {
   "property": "C45",
   "status": "partial",
   "theorems": [
    "C45_angles",
    "C45_values_partial",
    "C45_once_partial",
    "C45_full_circle_refuted",
    "C45_left_axis_refuted"
   ],
   "note": "Each bin seen within the limits is in exactly one interval and each value is the average of its interval (intervals moved by 1e-6 degrees). False: angles above 360 - size are never sampled (C45_full_circle_refuted) and bins straight left of the origin are sampled at 0 instead of 180 degrees (C45_left_axis_refuted)."
  },
  {
   "property": "C46",
   "status": "partial",
   "theorems": [
    "C46_files_read_back_partial",
    "C46_usual_files_read_back_partial",
    "C46_one_bin_refuted",
    "C46_massless_values_refuted",
    "C46_missing_field",
    "C46_wrong_size"
   ],
   "note": "Proved for every map with at least 29 filled bins (3 for headers below 1024 bytes) or none. Refuted for the smallest maps (C46_one_bin_refuted: the file cannot be read again) and for values in bins without mass (C46_massless_values_refuted)."
  },
  {
   "property": "C47",
   "status": "partial",
   "theorems": [
    "C47_header_found_partial",
    "C47_short_files_refuted",
    "C47_no_terminator_refuted"
   ],
   "note": "Proved if the file reaches the end of the 1024 byte block with the terminator; refuted for every shorter file (C47_short_files_refuted) and for files without terminator (endless loop)."
  },
  {
   "property": "C48",
   "status": "partial",
   "theorems": [
    "C48_plain_files_read_back",
    "C48_binary_files_read_back_partial",
    "C48_not_text",
    "C48_detected_by_value",
    "C48_text_is_plain",
    "C48_detection_refuted",
    "C48_row_order_refuted",
    "C48_one_row_refuted",
    "C48_missing_field"
   ],
   "note": "Plain files: proved for tables on a regular grid with y fastest and coordinates of at most five decimals (values to single precision and six decimals). Binary files: same, if the content is recognised as binary (sufficient conditions proved). False in general: binary files of small non-negative values can be valid text (C48_detection_refuted), other row orders get wrong positions (C48_row_order_refuted), one-row plain files cannot be read (C48_one_row_refuted)."
  },
  {
   "property": "C49",
   "status": "partial",
   "theorems": [
    "C49_information_recovered_partial",
    "C49_single_row_refuted",
    "C49_close_rows_refuted",
    "C49_bad_arrays"
   ],
   "note": "Proved for grids with at least two bins along both axes and rows at least 0.0001 apart, for any order of the bins; false for single rows (spacing NaN) and for closer rows."
  },
  {
   "property": "C50",
   "status": "proved",
   "theorems": [
    "C50_gmx_iff_magic",
    "C50_otherwise_simple",
    "C50_gmx_files_recognised",
    "C50_plain_files_recognised",
    "C50_binary_files_recognised",
    "C50_magic_positions_refuted",
    "C50_write_dispatch",
    "C50_write_errors"
   ],
   "note": "Also: files written by each writer are recognised (binary ones if |first x| < 2^26; false otherwise, C50_magic_positions_refuted)."
  },
  {
   "property": "C51",
   "status": "partial",
   "theorems": [
    "C51_frames_keep_numbers",
    "C51_failing_frame",
    "C51_run_agrees",
    "C51_to_plain_partial",
    "C51_to_binary_partial",
    "C51_gmx_to_gmx_partial",
    "C51_simple_to_gmx_shifts_refuted",
    "C51_outext_refuted"
   ],
   "note": "Frames and numbers: proved for every disk. Positions: proved for conversion to plain, to binary (if recognised) and gmx to gmx (29 or more filled bins, six decimals); false for simple to gmx, which shifts every bin by half a bin (C51_simple_to_gmx_shifts_refuted), and 'outext' makes conversion to simple formats fail (C51_outext_refuted)."
  },
  {
   "property": "C52",
   "status": "proved",
   "theorems": [
    "C52_windows",
    "C52_failing_frame",
    "C52_no_group",
    "C52_window",
    "C52_blocks_cover",
    "C52_fuse",
    "C52_fuse_empty"
   ],
   "note": ""
  },
  {
   "property": "C53",
   "status": "partial",
   "theorems": [
    "C53_arrows_partial",
    "C53_all_flow",
    "C53_unknown_label",
    "C53_one_component_refuted"
   ],
   "note": "Exactly the visible bins with flow along both axes are drawn (C53_arrows_partial). False: a bin with flow along one axis only has no arrow (C53_one_component_refuted)."
  },
  {
   "property": "C54",
   "status": "partial",
   "theorems": [
    "C54_linear_partial",
    "C54_square_bins",
    "C54_bin_size_refuted",
    "C54_single_row"
   ],
   "note": "Linear densities: exact for square bins (C54_square_bins); otherwise the bin sizes of the axes are exchanged (C54_linear_partial, C54_bin_size_refuted)."
  },
  {
   "property": "C55",
   "status": "partial",
   "theorems": [
    "C55_combine_refuted",
    "C55_cut_refuted",
    "C55_supersample_refuted",
    "C55_no_position_refuted",
    "C55_recentred_positions_refuted",
    "C55_unknown_position",
    "C55_centre",
    "C55_edge_positions",
    "C55_mixed_formats",
    "C55_averaged_files_partial",
    "C55_positions_kept",
    "C55_simple_frames_moved_refuted",
    "C55_recentred_files_partial"
   ],
   "note": "Proved for plain and recentred averages of same-format frames with at least 29 (or no) cells with mass (C46): grids, values, file numbers, no loss. False: outputs of simple frames and recentred outputs are read back half a bin off (C55_simple_frames_moved_refuted, C55_recentred_positions_refuted); combine, limits without recentring and supersample never work (C55_combine_refuted, C55_cut_refuted, C55_supersample_refuted); a frame without position ends the run (C55_no_position_refuted); quiet raises at the end."
  },
  {
   "property": "C56",
   "status": "proved",
   "theorems": [
    "C56_limits",
    "C56_unknown_field",
    "C56_files"
   ],
   "note": ""
  },
  {
   "property": "C57",
   "status": "partial",
   "theorems": [
    "C57_set_data",
    "C57_unequal_refused",
    "C57_single_value_refuted"
   ],
   "note": "proved except that a column with a single value is not refused but repeated: C57_single_value_refuted"
  },
  {
   "property": "C58",
   "status": "proved",
   "theorems": [
    "C58_lowest_layer",
    "C58_floor_layer",
    "C58_chosen_layer",
    "C58_always_chosen",
    "C58_floor_at_layer_refuted"
   ],
   "note": "C58_floor_at_layer_refuted records that a floor equal to the height of a layer selects the next layer"
  },
  {
   "property": "C59",
   "status": "proved",
   "theorems": [
    "C59_unique_fit",
    "C59_recovers",
    "C59_fitted_curve",
    "C59_scaled"
   ],
   "note": "opt.leastsq is modelled as a minimiser of the sum of squares (relation), not its numerical method; Reals axioms"
  },
  {
   "property": "C60",
   "status": "proved",
   "theorems": [
    "C60_triangle",
    "C60_floor",
    "C60_angles",
    "C60_angle_meaning"
   ],
   "note": "Reals axioms for the angles"
  },
  {
   "property": "C61",
   "status": "proved",
   "theorems": [
    "C61_direction",
    "C61_mean_flow_angle",
    "C61_each_bin",
    "C61_unique",
    "C61_scaled",
    "C61_reversed"
   ],
   "note": "Reals axioms"
  },
  {
   "property": "C62",
   "status": "partial",
   "theorems": [
    "C62_edges",
    "C62_run",
    "C62_recentre_symmetric",
    "C62_recentre_refuted",
    "C62_wide_bins_refuted",
    "C62_single_layer_refuted",
    "C62_failing_group",
    "C62_quiet_refuted"
   ],
   "note": "Averages and placement: proved for edges of at least two layers and dx <= 2 dy. False otherwise: C62_wide_bins_refuted (the layer length is found with dx instead of dy), C62_single_layer_refuted (IndexError, also for the default extraction area), C62_recentre_refuted (recentred edges are one bin off if half their distance is a multiple of the bin size), C62_quiet_refuted (quiet=True always fails)."
  },
  {
   "property": "C63",
   "status": "partial",
   "theorems": [
    "C63_combined",
    "C63_conserved",
    "C63_extracted",
    "C63_never_written_refuted",
    "C63_sampling_refuted",
    "C63_times",
    "C63_overlap"
   ],
   "note": "Contents and conservation proved; the map is moved by half a bin. False: no file is ever written (C63_never_written_refuted), and sampling the edges always ends the program (C63_sampling_refuted)."
  },
  {
   "property": "C64",
   "status": "partial",
   "theorems": [
    "C64_cells",
    "C64_cutoff_refuted"
   ],
   "note": "Proved for full maps. False with a cutoff: the cells are laid out over the remaining bins only (C64_cutoff_refuted). matplotlib's hist2d is modelled as numpy.histogram2d."
  },
  {
   "property": "C65",
   "status": "partial",
   "theorems": [
    "C65_contour",
    "C65_limits",
    "C65_levels",
    "C65_cutoff_refuted",
    "C65_sorted_refuted"
   ],
   "note": "Proved for full maps in file order. False: maps with a cutoff cannot be drawn (C65_cutoff_refuted), and maps with derived fields are sorted differently from the shape used (C65_sorted_refuted)."
  },
  {
   "property": "C66",
   "status": "partial",
   "theorems": [
    "C66_absolute",
    "C66_clockwise",
    "C66_radial_refuted"
   ],
   "note": "'flow' is the speed (C66_absolute). False: 'radial' is the clockwise flow around the centre (C66_clockwise), 0 for all radial flow (C66_radial_refuted). Reals axioms."
  },
  {
   "property": "C67",
   "status": "partial",
   "theorems": [
    "C67_default_type_refuted",
    "C67_draw",
    "C67_dissipation_refuted",
    "C67_streamlines_refuted"
   ],
   "note": "Proved for all fields but the dissipation with an explicit type (C67_draw). False: the default type is refused (C67_default_type_refuted), for the dissipation only the first file is drawn (C67_dissipation_refuted), stream lines need one bin more along each axis than there are, in exact arithmetic (C67_streamlines_refuted)."
  },
  {
   "property": "C68",
   "status": "proved",
   "theorems": [
    "C68_read_back",
    "C68_exact",
    "C68_error",
    "C68_order",
    "C68_header",
    "C68_name_refuted",
    "C68_single_point",
    "C68_no_points",
    "C68_no_file"
   ],
   "note": ""
  },
  {
   "property": "C69",
   "status": "proved",
   "theorems": [
    "C69_map_of_file",
    "C69_files",
    "C69_failing_frame",
    "C69_true_areas"
   ],
   "note": ""
  },
  {
   "property": "C70",
   "status": "partial",
   "theorems": [
    "C70_secant",
    "C70_total",
    "C70_mirror",
    "C70_shift",
    "C70_enlarge",
    "C70_straight",
    "C70_circle",
    "C70_low_height_refuted"
   ],
   "note": "Everything but the existence of a value: proved as the angle of the secant with all invariances, exact for straight edges, contact angle less half the arc on circles (C70_circle). False: heights up to half of the first layer spacing give NaN (C70_low_height_refuted). Reals axioms."
  },
  {
   "property": "C71",
   "status": "partial",
   "theorems": [
    "C71_circle",
    "C71_segment",
    "C71_touching",
    "C71_shift",
    "C71_enlarge",
    "C71_raised_refuted"
   ],
   "note": "Proved for interfaces standing on y = 0 (as collect writes them). False otherwise: the height is measured from y = 0, so raising the interface changes the angle (C71_raised_refuted). Reals axioms."
  },
  {
   "property": "C72",
   "status": "proved",
   "theorems": [
    "C72_halves",
    "C72_collected",
    "C72_file",
    "C72_series",
    "C72_unreadable",
    "C72_missing",
    "C72_run",
    "C72_columns"
   ],
   "note": ""
  },
  {
   "property": "C73",
   "status": "proved",
   "theorems": [
    "C73_frame_or_error",
    "C73_run",
    "C73_failing_file",
    "C73_impact_lines",
    "C73_not_saved"
   ],
   "note": ""
  },
  {
   "property": "C74",
   "status": "partial",
   "theorems": [
    "C74_read_back",
    "C74_header",
    "C74_impact",
    "C74_true_radii",
    "C74_single_row_refuted",
    "C74_missing_radii",
    "C74_ragged_refuted",
    "C74_warning",
    "C74_missing_file"
   ],
   "note": "Proved for files of at least two rows. False: a file of one row silently gives no curve (C74_single_row_refuted). The file has four columns, so the left and right edges are read as two more curves (C74_read_back states all three)."
  },
  {
   "property": "C75",
   "status": "partial",
   "theorems": [
    "C75_graph_without_points_refuted",
    "C75_read_back",
    "C75_decimals",
    "C75_header",
    "C75_fit_header",
    "C75_view",
    "C75_no_output_refuted",
    "C75_nothing_saved",
    "C75_empty_curve_refuted"
   ],
   "note": "Proved for non-empty curves and all options with save_xvg given. False: leaving save_xvg out is a KeyError (C75_no_output_refuted), an empty curve makes the file unreadable (C75_empty_curve_refuted). pandas' to_string is a parameter about which only the shown points are assumed; C75_decimals gives an instance."
  },
  {
   "property": "C76",
   "status": "partial",
   "theorems": [
    "C76_one_per_curve",
    "C76_recovers",
    "C76_edges_refuted",
    "C76_fitted"
   ],
   "note": "One pair per curve in order, exact for power laws (C76_one_per_curve, C76_recovers). False per droplet: a collected file gives three pairs, two of them fitted to edge positions (C76_edges_refuted). Reals axioms; the least squares solver is the unique minimiser."
  },
  {
   "property": "C77",
   "status": "proved",
   "theorems": [
    "C77_shows_text",
    "C77_dashes",
    "C77_accepted_iff",
    "C77_refused_does_nothing",
    "C77_unknown_command",
    "C77_last_counts"
   ],
   "note": "click's parser is modelled from its documentation (not part of the repository); float rounding of texts is ignored. Both directions: accepted iff written and readable."
  },
  {
   "property": "C78",
   "status": "proved",
   "theorems": [
    "C78_contact_collect",
    "C78_contact_sample",
    "C78_keyword_names",
    "C78_view_kind",
    "C78_average",
    "C78_convert",
    "C78_spreading_collect",
    "C78_spreading_view",
    "C78_interface_collect",
    "C78_program",
    "C78_sample",
    "C78_interface_sample",
    "C78_interface_view",
    "C78_interface_angle",
    "C78_declared",
    "C78_all_declared",
    "C78_keywords",
    "C78_process",
    "C78_sample_label",
    "C78_print_fits"
   ],
   "note": "Keywords and positional arguments for all fifteen commands; effects on files for the eleven commands whose functions have a model on disks (average, convert, sample, spreading collect/view, interface collect/view/sample/angle, contact-line collect/sample). Values outside of the models (infinite or NaN cutoffs, negative factors) are not covered by the theorems on effects."
  },
  {
   "property": "C79",
   "status": "partial",
   "theorems": [
    "C79_ends_without_error_partial",
    "C79_does_nothing",
    "C79_interface_collect_refuted",
    "C79_angle_height_zero_refuted",
    "C79_combine_one_none_refuted",
    "C79_noaxis_refuted",
    "C79_contact_line_refuted",
    "C79_program_ends_partial"
   ],
   "note": "Proved for all commands but one (C79_ends_without_error_partial, C79_program_ends_partial, C79_does_nothing). False: 'interface collect' always ends with a TypeError because it unpacks None (C79_interface_collect_refuted); a height of 0 counts as none; '--combine 2 none' is accepted but fails; '--noaxis' of 'view height' has no effect; the contact line commands end with a TypeError or exit status 1 (C78_ex_contact_collect, C88); with click 7 'contact_line' is called 'contact-line'."
  },
  {
   "property": "C80",
   "status": "partial",
   "theorems": [
    "C80_sample_or_error",
    "C80_polygon_area",
    "C80_run",
    "C80_failing_file",
    "C80_unknown_variable",
    "C80_not_saved",
    "C80_rows",
    "C80_read_back",
    "C80_header",
    "C80_delta_t_refuted"
   ],
   "note": "Everything but the recorded delta_t: rows, text, disk and exceptions for all runs (C80_run, C80_failing_file, C80_not_saved, C80_read_back). False: the header always says 'Delta-t: 1.0' (C80_delta_t_refuted). The progress bar and a PermissionError are not modelled. Reals axioms."
  },
  {
   "property": "C81",
   "status": "partial",
   "theorems": [
    "C81_labels",
    "C81_run",
    "C81_not_sampled",
    "C81_failing_file",
    "C81_not_saved",
    "C81_no_labels",
    "C81_words",
    "C81_header",
    "C81_delta_t_refuted"
   ],
   "note": "Everything but the recorded delta_t (C81_run, C81_not_sampled, C81_failing_file, C81_not_saved, C81_words). False: the header always says 'Delta-t: 1.0' (C81_delta_t_refuted). The texts (%r) of options in the header are parameters. Reals axioms."
  },
  {
   "property": "C82",
   "status": "partial",
   "theorems": [
    "C82_run",
    "C82_failing_file",
    "C82_not_saved",
    "C82_nothing_asked",
    "C82_read_back",
    "C82_header",
    "C82_nan_refuted",
    "C82_delta_t_refuted"
   ],
   "note": "Rows, columns, text, reading back and disk (C82_run, C82_read_back, C82_failing_file). False: NaN is written as 'nan' (C82_nan_refuted) and the header always says 'Delta-t: 1.0' (C82_delta_t_refuted). Reals axioms."
  },
  {
   "property": "C83",
   "status": "partial",
   "theorems": [
    "C83_run",
    "C83_average",
    "C83_saving",
    "C83_saving_refuted"
   ],
   "note": "All runs without saved averages (C83_run). False with them: the first bundle that can be averaged ends the run with a KeyError, its output path prepared but nothing written (C83_saving, C83_saving_refuted)."
  },
  {
   "property": "C84",
   "status": "partial",
   "theorems": [
    "C84_keywords",
    "C84_calls",
    "C84_order",
    "C84_failures",
    "C84_drawing_fails",
    "C84_no_axis_refuted",
    "C84_size",
    "C84_size_refuted"
   ],
   "note": "Keywords, calls, order and failures (C84_keywords, C84_calls, C84_order, C84_failures, C84_drawing_fails). False: 'no_axis' is not an option and reaches the drawing function (C84_no_axis_refuted); 'dims' is the size in pixels only with 300 dots per inch (C84_size, C84_size_refuted). The drawing library is any function that may fail at any call."
  },
  {
   "property": "C85",
   "status": "proved",
   "theorems": [
    "C85_frames",
    "C85_repeats"
   ],
   "note": ""
  },
  {
   "property": "C86",
   "status": "partial",
   "theorems": [
    "C86_defaults",
    "C86_colours",
    "C86_arrows_partial",
    "C86_run",
    "C86_unreadable",
    "C86_stops",
    "C86_streamlines_box",
    "C86_streamlines_zero_refuted",
    "C86_streamlines_refuted",
    "C86_streamlines_cutoff_refuted",
    "C86_saved_refuted"
   ],
   "note": "Runs of arrows, colours and failures (C86_run, C86_colours, C86_arrows_partial, C86_unreadable, C86_stops). False: bins with flow along one axis only have no arrow (C53); stream lines without a cutoff are never drawn (C86_streamlines_refuted); calls without options are C86_defaults; all figures are saved as the same file (C86_saved_refuted). Stream lines with a cutoff that all bins reach are never drawn either (C86_streamlines_cutoff_refuted); a limit of 0 is ignored for stream lines (C86_streamlines_zero_refuted); which bins are arranged for them is proved (C86_streamlines_box), their drawing is not modelled. Labels U and V and coordinates X and Y only. Reals axioms."
  },
  {
   "property": "C87",
   "status": "partial",
   "theorems": [
    "C87_default_type_refuted",
    "C87_values",
    "C87_heights",
    "C87_contours",
    "C87_unreadable",
    "C87_raises",
    "C87_dissipation_refuted",
    "C87_average_refuted",
    "C87_limits_refuted",
    "C87_cutoff_label_refuted",
    "C87_cutoff",
    "C87_cutoff_derived"
   ],
   "note": "Runs of height maps without a cutoff for all fields, one file for the dissipation (C87_heights, C87_values); contours for fields in file order (C87_contours), failures (C87_unreadable, C87_raises), what a cutoff keeps (C87_cutoff, C87_cutoff_derived; with it bins change cells, C64). False: the dissipation of a second file (C87_dissipation_refuted), 'average_value' (C87_average_refuted), limits must be given (C87_limits_refuted), the cutoff label 'None' of the command line (C87_cutoff_label_refuted), the default type of a map (C87_default_type_refuted). Reals axioms."
  },
  {
   "property": "C88",
   "status": "partial",
   "theorems": [
    "C88_never_written_refuted",
    "C88_no_group",
    "C88_extract_safe",
    "C88_sample_refuted",
    "C88_sample_times",
    "C88_sample_no_group",
    "C88_quiet_refuted",
    "C88_delta_t_refuted"
   ],
   "note": "Effects on the disk and results for all runs (C88_extract_safe, C88_no_group, C88_sample_times, C88_sample_no_group). False: the map of a group is never written (C88_never_written_refuted: TypeError, an old output becomes a backup), sampled values are never written (C88_sample_refuted: the program ends with status 1 after the header), quiet=True always fails (C88_quiet_refuted), the time step is not recorded (C88_delta_t_refuted). What the maps are is C62 and C63."
  },
  {
   "property": "C89",
   "status": "partial",
   "theorems": [
    "C89_flow",
    "C89_height",
    "C89_contour",
    "C89_streamlines_refuted"
   ],
   "note": "From the command line to the figures: arrows (C89_flow), height maps without a cutoff (C89_height), contours of files in columns (C89_contour). False: '--streamlines' draws nothing when all bins reach the cutoff or none is given (C89_streamlines_refuted). What a cutoff does to the cells of a height map is C64 and C87. Reals axioms."
  },
  {
   "property": "C90",
   "status": "partial",
   "theorems": [
    "C90_spreading",
    "C90_axis_refuted",
    "C90_fit_label",
    "C90_fit",
    "C90_fit_saved_refuted",
    "C90_angle",
    "C90_angle_only",
    "C90_samples",
    "C90_samples_failed",
    "C90_interfaces",
    "C90_fit_label_refuted"
   ],
   "note": "Proved for all runs: which curves are drawn, with which options, and which failures are raised (C90_spreading, C90_fit, C90_angle, C90_samples, C90_interfaces). False: the label of a fit loses the digits which occur in the name of the series (C90_fit_label has the exact condition, C90_fit_label_refuted a case); fits which are saved but not shown are not drawn (C90_fit_saved_refuted); the option 'axis' of view_spreading has no effect (C90_axis_refuted). Reals axioms."
  },
  {
   "property": "C91",
   "status": "partial",
   "theorems": [
    "C91_interface",
    "C91_contact_line",
    "C91_contact_angle",
    "C91_spreading_edges",
    "C91_collect",
    "C91_center_of_mass",
    "C91_slip_length",
    "C91_floor_refuted"
   ],
   "note": "Proved for all maps, units and options: interface, contact line, contact angles with and without a floor, edges without a floor, the collected series, center of mass and slip length. False: edges with a floor, whose layer is chosen by rounding the height to whole units (C91_floor_refuted). Numbers are exact. Reals axioms for the angles."
  },
  {
   "property": "C92",
   "status": "partial",
   "theorems": [
    "C92_interface",
    "C92_contact_line",
    "C92_contact_angle",
    "C92_spreading_edges",
    "C92_longest_refuted",
    "C92_floor_refuted",
    "C92_center_of_mass"
   ],
   "note": "Proved for all maps, orders and options of the default search; with a floor for angles the layers must not be equally far from it. False: spreading edges with a floor, where the first of several layers within one unit of length counts (C92_floor_refuted); the search for the longest stretch, which is not the default, depends on the order (C92_longest_refuted). Reals axioms for the angles."
  },
  {
   "property": "C93",
   "status": "proved",
   "theorems": [
    "C93_interface",
    "C93_contact_line",
    "C93_contact_angle",
    "C93_spreading_edges",
    "C93_center_of_mass"
   ],
   "note": "All maps with the default search, with and without a floor. Reals axioms for the angles."
  },
  {
   "property": "C94",
   "status": "proved",
   "theorems": [
    "C94_saved",
    "C94_nothing_saved",
    "C94_no_pair"
   ],
   "note": "All runs whose limits are pairs, as documented, with bounds which may be None (C94_saved), and runs which save nothing (C94_nothing_saved); what happens with other values is C94_no_pair. A path that is not empty. pandas' to_string is a parameter about which only the shown points are assumed; the texts in the header have no line breaks. Reals axioms."
  },
  {
   "property": "C95",
   "status": "partial",
   "theorems": [
    "C95_spreading_view",
    "C95_spreading_fit",
    "C95_interface_angle",
    "C95_interface_sample",
    "C95_interface_view",
    "C95_fit_not_saved_refuted"
   ],
   "note": "Proved for all command lines, disks and failures of drawing: the curves, title, labels, limits, scale, legend, showing and saving of the five commands (C95_spreading_view, C95_spreading_fit, C95_interface_angle, C95_interface_sample, C95_interface_view; the last without '-x', which fails (C83)). False: 'spreading fit -o FILE --noshow' draws and saves nothing (C95_fit_not_saved_refuted). The drawing library, the numerical fit and texts of numbers are parameters. Reals axioms."
  },
  {
   "property": "C96",
   "status": "proved",
   "theorems": [
    "C96_collect_sample",
    "C96_collect_view"
   ],
   "note": ""
  },
  {
   "property": "C97",
   "status": "proved",
   "theorems": [
    "C97_collect_view",
    "C97_each_interface"
   ],
   "note": ""
  },
  {
   "property": "C98",
   "status": "proved",
   "theorems": [
    "C98_collect_angle"
   ],
   "note": ""
  }
 ]
}