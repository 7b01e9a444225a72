{
 "claims": [
  {
   "property": "C01",
   "status": "proved",
   "theorems": [
    "C01_score_is_best_cost"
   ],
   "note": "any chunk size, margins, NaN pattern, both measures"
  },
  {
   "property": "C02",
   "status": "proved",
   "theorems": [
    "C02_disparities_reach_best_cost"
   ],
   "note": "also gives the tie breaking rule (smallest disparity on each axis)"
  },
  {
   "property": "C03",
   "status": "partial",
   "theorems": [
    "C03_pair_has_score_refuted",
    "C03_pair_has_score_partial",
    "C03_exact"
   ],
   "note": "false as stated when several pairs share the best cost: witness 2x2 disparities; true when the optimum is unique; C03_exact: true exactly when one best pair has the smallest column and the smallest row disparity of all the best pairs"
  },
  {
   "property": "C04",
   "status": "proved",
   "theorems": [
    "C04_invalid_iff_nothing_computed"
   ],
   "note": ""
  },
  {
   "property": "C05",
   "status": "proved",
   "theorems": [
    "C05_chunk_independent",
    "C05_pixel_by_pixel"
   ],
   "note": ""
  },
  {
   "property": "C06",
   "status": "proved",
   "theorems": [
    "C06_user_range_exact",
    "C06_user_coordinates_exact"
   ],
   "note": "both for the indices over which C01-C04 quantify and for the coordinates kept by the disparity step"
  },
  {
   "property": "C07",
   "status": "proved",
   "theorems": [
    "C07_pixel_range_respected"
   ],
   "note": "cost function is any function that never gives the worst infinity; step [1, 1]"
  },
  {
   "property": "C08",
   "status": "proved",
   "theorems": [
    "C08_row_masking_exact",
    "C08_col_masking_exact",
    "C08_row_masking_error"
   ],
   "note": ""
  },
  {
   "property": "C09",
   "status": "proved",
   "theorems": [
    "C09_flags_mean_what_they_say"
   ],
   "note": "integer disparities (with subpix > 1 and a right mask the code raises a TypeError); Pandora's binary_dilation_msk is modelled"
  },
  {
   "property": "C10",
   "status": "proved",
   "theorems": [
    "C10_unprocessed_and_border_override",
    "C10_bits"
   ],
   "note": ""
  },
  {
   "property": "C11",
   "status": "proved",
   "theorems": [
    "C11_roi_margins",
    "C11_margins_value",
    "C11_matching_position_loaded",
    "C11_total",
    "C11_smallest_one_sided_refuted"
   ],
   "note": "for a range on one side of zero the margins are larger than needed (last theorem); a mix of a constant and a grid raises a TypeError"
  },
  {
   "property": "C12",
   "status": "proved",
   "theorems": [
    "C12_crop_exact",
    "C12_run_exact"
   ],
   "note": "float division modelled by exact division"
  },
  {
   "property": "C13",
   "status": "proved",
   "theorems": [
    "C13_roi_rows_exact",
    "C13_roi_cols_exact"
   ],
   "note": "contract: Pandora's get_coordinates and the window read start at max(0, first - margin)"
  },
  {
   "property": "C14",
   "status": "proved",
   "theorems": [
    "C14_saved_maps_georeferenced"
   ],
   "note": "exact rational arithmetic instead of floats; contract: Pandora gives the transform of the whole image to the dataset"
  },
  {
   "property": "C15",
   "status": "proved",
   "theorems": [
    "C15_grids"
   ],
   "note": "integer grids; loaded part of at least two rows and two columns for files, see C44"
  },
  {
   "property": "C16",
   "status": "proved",
   "theorems": [
    "C16_accepted_iff_reaches_image"
   ],
   "note": ""
  },
  {
   "property": "C17",
   "status": "proved",
   "theorems": [
    "C17_user_values_kept",
    "C17_only_defaults_added",
    "C17_defaults_elsewhere",
    "C17_merge_again",
    "C17_input",
    "C17_estimation",
    "C17_disparity",
    "C17_dichotomy",
    "C17_optical_flow",
    "C17_interpolation",
    "C17_matching_cost"
   ],
   "note": "update_conf is Pandora's, modelled from its source; the matching cost part is for a Pandora check that keeps given values and accepts what it completed"
  },
  {
   "property": "C18",
   "status": "proved",
   "theorems": [
    "C18_accepted_iff_documented",
    "C18_no_dotted_step"
   ],
   "note": "constructors of the steps are parameters; the transitions library is modelled (first matching transition, errors)"
  },
  {
   "property": "C19",
   "status": "proved",
   "theorems": [
    "C19_clean",
    "C19_run"
   ],
   "note": "previous use: any sequence of successful checks and runs"
  },
  {
   "property": "C20",
   "status": "partial",
   "theorems": [
    "C20_failures_at_first_step_partial",
    "C20_check_after_failure_refuted",
    "C71_accepted",
    "C71_refused"
   ],
   "note": "false: a failure of a step that is not the first one leaves the machine in an intermediate state; true when the first step fails"
  },
  {
   "property": "C21",
   "status": "partial",
   "theorems": [
    "C21_same_verdict",
    "C21_same_result_partial",
    "C21_same_result_refuted"
   ],
   "note": "the verdict is independent; the completed pipeline and the margins keep steps of earlier pipelines"
  },
  {
   "property": "C22",
   "status": "proved",
   "theorems": [
    "C22_rounding",
    "C22_grids",
    "C22_configuration"
   ],
   "note": "the phase correlation is a parameter (any shift)"
  },
  {
   "property": "C23",
   "status": "proved",
   "theorems": [
    "C23_row_shift"
   ],
   "note": "scipy's zoom is any function on the fractional rows"
  },
  {
   "property": "C24",
   "status": "proved",
   "theorems": [
    "C24_cost_volumes_step1",
    "C24_cost_volumes_constant_range"
   ],
   "note": "Pandora's 1D cost is any function of the shifted right image"
  },
  {
   "property": "C25",
   "status": "proved",
   "theorems": [
    "C25_score"
   ],
   "note": "any filter, any monotone and idempotent rounding to float32; costs are not the worst infinity; see C53 for the score map"
  },
  {
   "property": "C26",
   "status": "proved",
   "theorems": [
    "C26_moves"
   ],
   "note": "dyadic disparities, exact arithmetic"
  },
  {
   "property": "C27",
   "status": "proved",
   "theorems": [
    "C27_left_alone",
    "C27_strictly_inside"
   ],
   "note": ""
  },
  {
   "property": "C28",
   "status": "proved",
   "theorems": [
    "C28_windows",
    "C28_filters",
    "C28_no_error",
    "C28_fractional"
   ],
   "note": "inputs as given by the previous steps (predicate ready), step of 1 (see C51)"
  },
  {
   "property": "C29",
   "status": "proved",
   "theorems": [
    "C29_sum_to_one",
    "C29_sample",
    "C29_quadratic_exact",
    "C29_image_sample"
   ],
   "note": "exact rational arithmetic"
  },
  {
   "property": "C30",
   "status": "proved",
   "theorems": [
    "C30_sum_to_one",
    "C30_normalised",
    "C30_sample",
    "C30_table",
    "C30_image_sample",
    "C30_constant",
    "C30_beyond_table"
   ],
   "note": "exact real arithmetic (axioms of the standard library's reals)"
  },
  {
   "property": "C31",
   "status": "proved",
   "theorems": [
    "C31_range",
    "C31_one_iteration",
    "C31_iterations",
    "C31_out_of_process"
   ],
   "note": "for every least squares and resampling; exact rational arithmetic; without ROI (with a ROI and a step see C55)"
  },
  {
   "property": "C32",
   "status": "proved",
   "theorems": [
    "C32_left_windows",
    "C32_right_windows",
    "C32_refined_in_place",
    "C32_checked"
   ],
   "note": "windows of the matching cost size (the state machine gives this size); whatever the content of uninitialised memory"
  },
  {
   "property": "C33",
   "status": "proved",
   "theorems": [
    "C33_in_place",
    "C33_locality",
    "C33_range",
    "C33_missing_costs"
   ],
   "note": "for every interpolation and optimiser (range: optimiser that respects its bounds); exact rational arithmetic"
  },
  {
   "property": "C34",
   "status": "proved",
   "theorems": [
    "C34_statistics",
    "C34_bounds",
    "C34_order",
    "C34_invalid_value",
    "C34_ratio_range",
    "C34_ratio_invalid",
    "C34_ratio",
    "C34_report"
   ],
   "note": "exact arithmetic, no infinite valid disparity; the standard deviation is modelled by its square; NaN pixels that are not the invalid value: see C63"
  },
  {
   "property": "C35",
   "status": "proved",
   "theorems": [
    "C35_same_as_disabled",
    "C35_one_call",
    "C35_can_finish",
    "C35_finishes",
    "C35_expert_mode_run"
   ],
   "note": "any interleaving of the two threads; the file of the profiling can be written (see C66); the function does not read the profiling file"
  },
  {
   "property": "C36",
   "status": "proved",
   "theorems": [
    "C36_datasets",
    "C36_disparities",
    "C36_maps"
   ],
   "note": "Pandora's check_dataset is a parameter"
  },
  {
   "property": "C37",
   "status": "proved",
   "theorems": [
    "C37_estimation",
    "C37_dichotomy",
    "C37_dichotomy_iterations",
    "C37_optical_flow",
    "C37_interpolation",
    "C37_filter",
    "C37_disparity",
    "C37_roi",
    "C37_matching_cost",
    "C37_step"
   ],
   "note": "whether json_checker takes booleans for integers is a parameter"
  },
  {
   "property": "C38",
   "status": "proved",
   "theorems": [
    "C38_saved_pixels",
    "C38_pixel_locality",
    "C38_saved_pixels_any_step"
   ],
   "note": "Pipelines matching_cost, disparity, optional dichotomy refinement, saving with or without ROI; step of 1 (any step without refinement when the interval is the same for all the pixels). The cost function of pandora, the interpolation of the images and the filter are arbitrary; costs are never the worst value of the measure and are float32 values."
  },
  {
   "property": "C39",
   "status": "partial",
   "theorems": [
    "C39_right_mask_used_refuted",
    "C39_right_no_data_marked_partial"
   ],
   "note": "false: the right mask is dropped by shift_disp_row_img; only no data values are marked"
  },
  {
   "property": "C40",
   "status": "partial",
   "theorems": [
    "C40_grids_with_step_refuted",
    "C40_exact"
   ],
   "note": "false: full resolution grids index the sub sampled volume, it raises or masks another pixel; C40_exact says exactly when it raises and which pixel is used otherwise; C94 shows that only the first can happen in the whole program"
  },
  {
   "property": "C41",
   "status": "partial",
   "theorems": [
    "C41_window_loaded_refuted",
    "C41_window_loaded_partial",
    "C41_exact"
   ],
   "note": "false: margins are the maximum and not the sum of the displacement and of the window; C41_exact: with the margins of the window only, true exactly when 0 is the only disparity"
  },
  {
   "property": "C42",
   "status": "partial",
   "theorems": [
    "C42_save_again_with_roi_partial",
    "C42_save_again_without_roi_refuted",
    "C42_exact"
   ],
   "note": "true with a ROI, false without: the transform is scaled in place; C42_exact: without ROI, true exactly when both steps are 1"
  },
  {
   "property": "C43",
   "status": "partial",
   "theorems": [
    "C43_accepted_range_useful_refuted",
    "C43_accepted_range_useful_partial",
    "C43_exact"
   ],
   "note": "false when |init| - range is exactly the size of the image, true otherwise; C43_exact is the equivalence"
  },
  {
   "property": "C44",
   "status": "partial",
   "theorems": [
    "C44_single_row_refuted",
    "C44_fails_exactly_on_single_axis_partial"
   ],
   "note": "false: np.squeeze removes the axis of length 1; true otherwise"
  },
  {
   "property": "C45",
   "status": "partial",
   "theorems": [
    "C45_wrong_pipeline_accepted_refuted",
    "C71_accepted"
   ],
   "note": "false after a failed check; true after successful ones, see C18"
  },
  {
   "property": "C46",
   "status": "partial",
   "theorems": [
    "C46_run_after_failed_check_refuted",
    "C71_run_executes",
    "C71_run_executes_nothing"
   ],
   "note": "false after a failed check: the callbacks of the check are called instead of those of the run; true after a successful one, see C19"
  },
  {
   "property": "C47",
   "status": "partial",
   "theorems": [
    "C47_check_after_failed_run_refuted",
    "C71_refused",
    "C71_way_out"
   ],
   "note": "false: run_exit is not called"
  },
  {
   "property": "C48",
   "status": "partial",
   "theorems": [
    "C48_use_again_refuted",
    "C48_never_again"
   ],
   "note": "false: the keys added by the estimation are refused by its own check, always"
  },
  {
   "property": "C49",
   "status": "partial",
   "theorems": [
    "C49_right_grids_unchanged",
    "C49_right_grids_opposite_refuted"
   ],
   "note": "false: only the left dataset is updated; the right one keeps -9999; no step reads the right grids"
  },
  {
   "property": "C50",
   "status": "partial",
   "theorems": [
    "C50_step_refuted",
    "C37_matching_cost",
    "C37_step"
   ],
   "note": "false: [1.5, 1] is accepted, Pandora sees the column step only; C37_matching_cost and C37_step give exactly the steps accepted"
  },
  {
   "property": "C51",
   "status": "partial",
   "theorems": [
    "C51_step_refuted",
    "C51_step"
   ],
   "note": "false: numpy cannot broadcast the grids of the image with the maps"
  },
  {
   "property": "C52",
   "status": "partial",
   "theorems": [
    "C52_matched_pixels_refined_refuted",
    "C52_exact"
   ],
   "note": "false: the disparity is taken for the invalid one, the score becomes NaN; C52_exact: true exactly for the pixels none of whose two disparities is the invalid value"
  },
  {
   "property": "C53",
   "status": "partial",
   "theorems": [
    "C53_score_map_refuted",
    "C53_unique_optimum"
   ],
   "note": "false with equal costs; C53_unique_optimum: true when one disparity only has the best cost"
  },
  {
   "property": "C54",
   "status": "partial",
   "theorems": [
    "C54_exact_everywhere_refuted",
    "C54_exact"
   ],
   "note": "false: the fraction is replaced by 511/512 just below an integer; C54_exact: the value is always that of the quadratic at the position used, which is the one asked for everywhere else"
  },
  {
   "property": "C55",
   "status": "partial",
   "theorems": [
    "C55_roi_and_step_refuted",
    "C31_range",
    "C55_exact"
   ],
   "note": "false: the grids taken every step do not have the shape of the maps; C31_range: true when they have (in particular without ROI); C55_exact: it fails exactly when the shapes differ"
  },
  {
   "property": "C56",
   "status": "partial",
   "theorems": [
    "C56_roi_points_refuted",
    "C56_margins_of_the_axis"
   ],
   "note": "false when the steps differ (row and column are exchanged in the margins); true when the margin of an axis is made with the step of that axis"
  },
  {
   "property": "C57",
   "status": "partial",
   "theorems": [
    "C57_both_maps_refuted",
    "C57_exact"
   ],
   "note": "false: each map is checked alone; C57_exact: each map is invalidated exactly when its own refined value is out of its range"
  },
  {
   "property": "C58",
   "status": "partial",
   "theorems": [
    "C58_whole_disparity",
    "C58_fractional_disparity_refuted"
   ],
   "note": "true for whole disparities, false for fractional ones"
  },
  {
   "property": "C59",
   "status": "partial",
   "theorems": [
    "C59_invalid_kept_partial",
    "C59_nan_kept",
    "C59_exact",
    "C59_invalid_refined_refuted"
   ],
   "note": "false in general (C59_invalid_refined_refuted). C59_exact: for a finite invalid value, an iteration at least and a range, the pixels stay invalid (or NaN) in all runs exactly when no value of the range is at less than one pixel per iteration of the invalid value; true when the invalid value is NaN (C59_nan_kept)"
  },
  {
   "property": "C60",
   "status": "partial",
   "theorems": [
    "C60_user_range_refuted",
    "C33_range"
   ],
   "note": "false: the bounds include the margins of 3 disparities; true for the range of the cost volume"
  },
  {
   "property": "C61",
   "status": "partial",
   "theorems": [
    "C61_score_refuted",
    "C61_score_partial",
    "C61_exact"
   ],
   "note": "false: abs() changes the sign of negative correlations; true when the interpolated measure is not negative; C61_exact is the equivalence"
  },
  {
   "property": "C62",
   "status": "partial",
   "theorems": [
    "C62_invalid_lost_refuted",
    "C62_margins_refuted",
    "C62_invalid_becomes_nan"
   ],
   "note": "false: the invalid disparity becomes NaN or a disparity taken from the margins; without any cost the result is NaN"
  },
  {
   "property": "C63",
   "status": "partial",
   "theorems": [
    "C63_ratio_refuted",
    "C34_ratio",
    "C63_exact"
   ],
   "note": "false with NaN pixels and a numeric invalid value; true otherwise; C63_exact is the equivalence"
  },
  {
   "property": "C64",
   "status": "partial",
   "theorems": [
    "C64_monitor_after_error_refuted",
    "C64_monitor_after_error",
    "C64_monitor_ends_partial"
   ],
   "note": "false when the function raises, as long as the traceback is kept; true after a return or once the frame is freed"
  },
  {
   "property": "C65",
   "status": "partial",
   "theorems": [
    "C65_late_ready_refuted",
    "C65_row_partial"
   ],
   "note": "false when the first poll times out; true otherwise"
  },
  {
   "property": "C66",
   "status": "partial",
   "theorems": [
    "C66_result_lost_refuted",
    "C66_csv_error",
    "C35_same_as_disabled"
   ],
   "note": "false when the file cannot be written; true otherwise"
  },
  {
   "property": "C67",
   "status": "partial",
   "theorems": [
    "C67_report_refuted",
    "C67_report_with_margins",
    "C67_report_partial"
   ],
   "note": "false with a ROI: the statistics include the margins; true without ROI"
  },
  {
   "property": "C68",
   "status": "proved",
   "theorems": [
    "C68_check_again",
    "C68_check_twice",
    "C68_sections"
   ],
   "note": "for a Pandora check of the matching cost that completes its three values with integers and accepts again what it completed"
  },
  {
   "property": "C69",
   "status": "partial",
   "theorems": [
    "C69_saved_roi_refuted",
    "C69_roi_never_again",
    "C69_saved_again_partial"
   ],
   "note": "false with a ROI: its section is saved with the margins, which the schema refuses, always; true without ROI"
  },
  {
   "property": "C70",
   "status": "proved",
   "theorems": [
    "C70_accepted_iff",
    "C70_other_sections",
    "C70_other_sections_check",
    "C70_other_sections_run"
   ],
   "note": "for a Pandora check of the matching cost with the contract of C68 and non-empty images; opening a file, the sizes and masks of the images (Pandora's check_images) and the window size, subpix and spline order are parameters"
  },
  {
   "property": "C71",
   "status": "proved",
   "theorems": [
    "C71_operation",
    "C71_accepted",
    "C71_refused",
    "C71_way_out",
    "C71_run_executes",
    "C71_run_executes_nothing",
    "C71_check_executes"
   ],
   "note": "what the failed step itself left in the data is not modelled"
  },
  {
   "property": "C72",
   "status": "proved",
   "theorems": [
    "C72_main_constant",
    "C72_main_step1",
    "C72_grids_with_step_refuted"
   ],
   "note": "stated on the configuration as written by the user and on the saved maps; libraries (Pandora's checks, costs and loading, scipy, rasterio) are parameters with the contracts of `libraries` and `dichotomy_libraries`; with grids at least two rows and columns are asked for (C44); with grids and a step main fails (C72_grids_with_step_refuted, see C40)"
  },
  {
   "property": "C73",
   "status": "partial",
   "theorems": [
    "C73_completed",
    "C73_saved_partial",
    "C73_saved_roi_refuted"
   ],
   "note": "the completed configuration always gives the same results; the saved one does without ROI and estimation, and never with a ROI (C69); with an estimation see C48"
  },
  {
   "property": "C74",
   "status": "proved",
   "theorems": [
    "C74_optimal_constant",
    "C74_optimal_step1"
   ],
   "note": "with the contracts of `libraries` and `cost_contract` (Pandora's cost at a column disparity depends on the pixel and the disparity only, and is never the worst value of the measure); the images are the window loaded by main; row and column are each shown to be part of a best pair, as in C04: with several best pairs the two may come from different pairs"
  },
  {
   "property": "C75",
   "status": "proved",
   "theorems": [
    "C75_saved_configuration",
    "C75_user_values",
    "C75_user_values_estimation"
   ],
   "note": "for a Pandora check of the matching cost with the contract of C68; the string NaN is saved as the number"
  },
  {
   "property": "C76",
   "status": "proved",
   "theorems": [
    "C76_estimation",
    "C76_estimation_dichotomy",
    "C76_whole_image"
   ],
   "note": "From the configuration written by the user to the saved maps; the estimation method (scikit-image) is any function of its section and of the two loaded images."
  },
  {
   "property": "C77",
   "status": "proved",
   "theorems": [
    "C77_georeference",
    "C77_reported"
   ],
   "note": "for the pipelines of C72 and C76, libraries are parameters with the contracts of `libraries`; with a ROI the report is made from the maps of the loaded window, margins included"
  },
  {
   "property": "C78",
   "status": "partial",
   "theorems": [
    "C78_estimation_roi",
    "C78_inner_pixels",
    "C78_roi_refuted"
   ],
   "note": "true with an estimation for images of at most 9995 rows and columns; without estimation, true for the pixels farther than the half window from the borders of the ROI, for any subpix, constant disparities or grids (any step with constants, a step of 1 with grids), for a cost that only depends on the window (contract local_cost: spline_order 1); the same after the refinements is C99; false for the other pixels: the margins of the window and of the disparities are not added (C78_roi_refuted: SAD 3x3, a pixel of the border of the ROI gets another disparity and a worse score)"
  },
  {
   "property": "C79",
   "status": "proved",
   "theorems": [
    "C79_larger_search"
   ],
   "note": "without ROI; both saved maps are those of C74; any step with constant disparities, a step of 1 with grids"
  },
  {
   "property": "C80",
   "status": "proved",
   "theorems": [
    "C80_every_pipeline"
   ],
   "note": "libraries are parameters with the contracts of `libraries`; partial correctness: main is assumed to end without error (C72, C76, C81 prove it for some pipelines)"
  },
  {
   "property": "C81",
   "status": "proved",
   "theorems": [
    "C81_interpolation",
    "C81_user_interval_refuted"
   ],
   "note": "with the contracts of `libraries` and an optimiser that respects its bounds; that the disparities stay in the interval of the user is false (C60, here for the whole program: C81_user_interval_refuted)"
  },
  {
   "property": "C82",
   "status": "proved",
   "theorems": [
    "C82_optical_flow"
   ],
   "note": "libraries are parameters with the contracts of `libraries` and `cost_contract`; a ROI together with a step > 1 is not covered (it fails when the shapes differ, C55)"
  },
  {
   "property": "C83",
   "status": "proved",
   "theorems": [
    "C83_dichotomy"
   ],
   "note": "libraries are parameters with the contracts of `libraries`, `dichotomy_libraries` and `cost_contract`; step of 1 (with a larger step the grids have not the size of the volumes: C40)"
  },
  {
   "property": "C84",
   "status": "proved",
   "theorems": [
    "C84_step"
   ],
   "note": "contracts `libraries`, `cost_contract` and `step_free`; with grids a step > 1 is an error or wrong (C40)"
  },
  {
   "property": "C85",
   "status": "proved",
   "theorems": [
    "C85_whole_roi"
   ],
   "note": "contracts `libraries` and `cost_contract`; pipelines without refinement (with an estimation: C78_estimation_roi, for every ROI)"
  },
  {
   "property": "C86",
   "status": "proved",
   "theorems": [
    "C86_subpixel"
   ],
   "note": "contracts `libraries`, `cost_contract` and `same_at_whole`"
  },
  {
   "property": "C87",
   "status": "proved",
   "theorems": [
    "C87_dichotomy",
    "C87_optical_flow"
   ],
   "note": "contracts of C82 and C83; without ROI (a refinement changes the margins, hence the part of the image that is loaded)"
  },
  {
   "property": "C88",
   "status": "proved",
   "theorems": [
    "C88_best_of_nine"
   ],
   "note": "filter and rounding to float32 are arbitrary; the starting cost is not the worst infinity (C52 - C53 for what happens before)"
  },
  {
   "property": "C89",
   "status": "proved",
   "theorems": [
    "C89_precision",
    "C89_bicubic"
   ],
   "note": "costs are integers (units of the float32 numbers), not rounded by the storage; bicubic filter in exact arithmetic"
  },
  {
   "property": "C90",
   "status": "partial",
   "theorems": [
    "C90_optimum_found_refuted",
    "C89_precision"
   ],
   "note": "the statement is false; what is missing is a property of the algorithm, not a proof: only sums of functions of one disparity are covered by C89"
  },
  {
   "property": "C91",
   "status": "proved",
   "theorems": [
    "C91_dichotomy_exact"
   ],
   "note": "contracts `libraries`, `dichotomy_libraries` and `cost_contract`; steps of 1 (with other steps main fails, C98); the three cases of the searched pixel exclude each other, so that the result is determined"
  },
  {
   "property": "C92",
   "status": "proved",
   "theorems": [
    "C92_optical_flow_exact",
    "C92_unique"
   ],
   "note": "contracts `libraries` and `cost_contract`; with a ROI, steps of 1 (otherwise the coordinates do not match, C55); infinite invalid values are seen as NaN by the flow"
  },
  {
   "property": "C93",
   "status": "proved",
   "theorems": [
    "C93_interpolation_exact"
   ],
   "note": "contracts `libraries` and `cost_contract`; interp2d and minimize are arbitrary functions (no contract needed); infinite invalid values are seen as NaN by the optimiser"
  },
  {
   "property": "C94",
   "status": "proved",
   "theorems": [
    "C94_grids_with_step",
    "C94_never_wrong"
   ],
   "note": "contracts `libraries` and `cost_contract`; at least two rows and columns are asked for (C44); completed for the refinements by C98"
  },
  {
   "property": "C95",
   "status": "partial",
   "theorems": [
    "C95_files",
    "C95_no_error",
    "C95_failed",
    "C95_this_run",
    "C95_best",
    "C95_old_maps_refuted"
   ],
   "note": "refuted: with a pipeline without disparity step, maps of an earlier run stay in the output folder beside the new configuration; proved: with a disparity step every file of the folder is of this run. The disk is a model: folders, files and their contents (no rights, links or concurrent processes)"
  },
  {
   "property": "C97",
   "status": "partial",
   "theorems": [
    "C97_table",
    "C97_summary",
    "C97_failed",
    "C97_session",
    "C97_figures",
    "C97_box_once",
    "C97_boxes",
    "C97_box_refuted",
    "C97_nested_refuted",
    "C97_leftover_refuted"
   ],
   "note": "refuted: rows of an earlier failed profiled run appear in the next table (C97_leftover_refuted); an accepted folder_name inside a missing folder stops the program after everything is saved (C97_nested_refuted); the boxes of a function called several times are quartiles of (mean, sum) and not of the calls (C97_box_refuted)"
  },
  {
   "property": "C96",
   "status": "partial",
   "theorems": [
    "C96_report",
    "C96_standard",
    "C96_this_run",
    "C96_best",
    "C96_standard_refuted",
    "C96_float_refuted"
   ],
   "note": "refuted: report.json is not standard JSON when no pixel is valid (C96_standard_refuted), and an invalid value that is not a float32 is counted as a disparity (C96_float_refuted). Exact arithmetic; the square root is an arbitrary function; maps with infinite disparities that are not the invalid value are not modelled"
  },
  {
   "property": "C98",
   "status": "proved",
   "theorems": [
    "C98_no_error",
    "C98_dichotomy",
    "C98_optical_flow"
   ],
   "note": "contracts `libraries` and `cost_contract`; two_lines: at least two rows and columns are asked for; optical flow with a ROI and a step is C55 (it fails when the shapes differ)"
  },
  {
   "property": "C99",
   "status": "proved",
   "theorems": [
    "C99_dichotomy",
    "C99_optical_flow",
    "C99_interpolation"
   ],
   "note": "contracts `libraries`, `cost_contract`, `dichotomy_libraries`, local_cost (the cost of a pair only depends on the window) and, for the optical flow, that the loaded part of the image is the one of the file (loaded_parts); for the interpolation, interp and minimise only depend on numbers (uses_numbers) and the invalid value is an integer, infinite or NaN (single_value: floats are only known up to the precision of the model); for the other pixels see C78_roi_refuted"
  },
  {
   "property": "C100",
   "status": "partial",
   "theorems": [
    "C100_motion",
    "C100_still",
    "C100_flat",
    "C100_exact",
    "C100_direction",
    "C100_kept",
    "C100_corrected",
    "C100_brightness_refuted",
    "C100_without_texture_refuted"
   ],
   "note": "the solver is any one that returns the least squares solution of least norm (least_squares: the documentation of np.linalg.lstsq, rounding and small singular values apart); resampling with no motion keeps the window (keeps_windows). Refuted: a constant brightness between both images moves the disparities (C100_brightness_refuted), and a motion without texture along it is not measured (C100_without_texture_refuted)"
  },
  {
   "property": "C101",
   "status": "proved",
   "theorems": [
    "C101_found",
    "C101_kept",
    "C101_translation",
    "C101_subpixel"
   ],
   "note": "contracts `libraries`, `cost_contract`, least_squares and keeps_windows (see C100), for C101_translation measures_difference (true of SAD and SSD: the cost is zero exactly on identical windows), for C101_subpixel the resampling undoes the motion; pixels away from the borders (C54, C92), disparities strictly inside the intervals and different from the invalid value"
  },
  {
   "property": "C102",
   "status": "proved",
   "theorems": [
    "C102_order",
    "C102_turned"
   ],
   "note": "contracts `libraries` and `cost_contract`; the relation between the costs of both pixels is a hypothesis, met by the images of the examples"
  },
  {
   "property": "C103",
   "status": "partial",
   "theorems": [
    "C103_registered",
    "C103_unknown",
    "C103_refinement_class",
    "C103_filter_class",
    "C103_estimation_class",
    "C103_refinement",
    "C103_filter",
    "C103_estimation",
    "C103_plugin",
    "C103_direct",
    "C103_replaced_refuted"
   ],
   "note": "proved for every order of the imports and plugins with names of their own; refuted: a plugin registered later under a name of the project replaces its class without any message (C103_replaced_refuted)"
  },
  {
   "property": "C104",
   "status": "proved",
   "theorems": [
    "C104_dichotomy",
    "C104_optical_flow"
   ],
   "note": "contracts `libraries`, `dichotomy_libraries` and `cost_contract`; step 1; no candidate equal to the invalid value; the optical flow with subpix = 1 (whole disparities before it); the relation between what both pixels see is a hypothesis, met by the images of the examples"
  },
  {
   "property": "C105",
   "status": "proved",
   "theorems": [
    "C105_kept",
    "C105_fraction",
    "C105_true",
    "C105_true_refuted"
   ],
   "note": "exactly what is saved, hence a defect: with subpix > 1 the true disparity is saved only from whole starting disparities (C105_true), and C105_true_refuted gives a run in which the matching cost finds the true disparity and the optical flow spoils it by half a pixel; contracts `libraries`, `cost_contract`, `least_squares`, `keeps_windows`, and a resampling that undoes the motion of this window"
  },
  {
   "property": "C106",
   "status": "proved",
   "theorems": [
    "C106_precise",
    "C106_bicubic"
   ],
   "note": "contracts `libraries`, `dichotomy_libraries` and `cost_contract`; step 1; the values are not rounded by `store`; no sample next to the goal equal to the invalid value; the samples read near the goal that are disparities of the window are candidates of the pixel (always the case with constant disparities)"
  },
  {
   "property": "C107",
   "status": "proved",
   "theorems": [
    "C107_line",
    "C107_other",
    "C107_same",
    "C107_unread",
    "C107_help",
    "C107_error",
    "C107_files"
   ],
   "note": "argparse is modelled for this parser (Python 3.9 to 3.11); a path named -- is not; reading the JSON file is a variable; C107_files under the contract of Pandora and without profiling, as C95"
  },
  {
   "property": "C108",
   "status": "partial",
   "theorems": [
    "C108_costs",
    "C108_margins",
    "C108_valid_refuted"
   ],
   "note": "false because of the masked right pixels: they have their flag and a cost (C108_valid_refuted; the matching cost drops the right mask, C39). C108_costs: exactly the VALID and the INVALIDITY_MASK_RIGHT points have a cost, for the asked disparities; C108_margins: the disparities of the refinement margins are all marked unprocessed, although they may have a cost. Pandora's masks are the contract `masks_contract`; steps 1 and subpix 1 (the criteria fail with another subpix)"
  },
  {
   "property": "C109",
   "status": "partial",
   "theorems": [
    "C109_kept",
    "C109_default",
    "C109_iterations",
    "C109_optical_flow",
    "C109_pandora",
    "C109_saved_kept",
    "C109_saved_default",
    "C109_saved_absent",
    "C109_documented_refuted"
   ],
   "note": "false for the invalid disparity: the guide says NaN, the code gives -9999 (C109_documented_refuted). All the other defaults of Pandora2D are those of the guide, and the rest of the statement is proved; with an estimation the saved step also has its three results, hence C109_saved_absent is for pipelines without estimation; C109_pandora for a Pandora that keeps the values it is given; the defaults of Pandora itself are not modelled"
  },
  {
   "property": "C110",
   "status": "proved",
   "theorems": [
    "C110_any_order",
    "C110_same_checked",
    "C110_same_run",
    "C110_same_failure",
    "C110_steps_order_refuted"
   ],
   "note": "Pandora's check of the matching cost is a variable: its contract, and that it looks at the values and not at their order (`reads_values`), are hypotheses; for the runs, the same of the reading of the images and of the georeference, of the interpolation filter and of the phase correlation (`reads_only_values`); no key twice in a dictionary (`wf`). C110_steps_order_refuted: without the hypothesis on the steps the statement is false, as expected: the same values with the steps reversed are refused"
  }
 ]
}