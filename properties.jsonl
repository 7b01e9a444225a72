{"id": "C01", "title": "Winner-takes-all score is the best cost of the user range", "statement": "For every pixel that has at least one computed (non NaN) cost, the correlation score returned by the disparity step is the best (minimum for 'min' measures, maximum for 'max' measures) of all the computed costs of that pixel over the whole user disparity range, rows and columns together, and it is one of those costs.", "quantifier": "every cost volume (any number of rows, columns, column and row disparities, any costs including NaN), both measure types, any disparity margins and subpix", "why_tests_cant": "the search is done on 100x100 chunks and on a two stage reduction; only small volumes are tested, and no finite set of volumes covers every shape and every placement of NaN", "anchors": ["pandora2d/disparity/disparity.py: Disparity.compute_disp_maps, extrema_split, get_score"]}
{"id": "C02", "title": "Winner-takes-all disparities each reach the best cost", "statement": "For every pixel with a computed cost, the row disparity returned belongs to a (row, column) pair whose cost equals the correlation score, and likewise for the column disparity; when the best cost is reached by a single pair, the pair (row disparity, column disparity) returned is that pair.", "quantifier": "every cost volume, both measure types, any disparity margins and subpix", "why_tests_cant": "needs all placements of the optimum and of NaN, in all volume shapes", "anchors": ["pandora2d/disparity/disparity.py: Disparity.compute_disp_maps, arg_split, extrema_split"]}
{"id": "C03", "title": "The returned disparity pair has the reported cost", "statement": "For every pixel with a computed cost, the cost stored in the cost volume at the pair (row disparity, column disparity) returned by the disparity step is the correlation score that is returned with it.", "quantifier": "every cost volume, including those where the best cost is reached by several pairs", "why_tests_cant": "ties appear only for particular images; random or natural test images hardly ever contain the crossed ties that separate the two searches", "anchors": ["pandora2d/disparity/disparity.py: Disparity.compute_disp_maps"]}
{"id": "C04", "title": "A pixel is invalid exactly when nothing could be computed", "statement": "The disparity step returns the configured invalid_disparity for the row map, the column map and the score at once for the pixels whose costs are all NaN over the user range; every other pixel gets disparities that are coordinates of the user range.", "quantifier": "every cost volume and every pixel", "why_tests_cant": "the mask is computed on a volume in which NaN were replaced in place by infinities; all patterns of NaN have to be considered", "anchors": ["pandora2d/disparity/disparity.py: Disparity.compute_disp_maps"]}
{"id": "C05", "title": "Chunked processing changes nothing", "statement": "The maps returned by the disparity step are those of a direct computation pixel by pixel: the memory saving split in chunks has no influence, for any image size and in particular sizes that are not multiples of 100 or very elongated images.", "quantifier": "every number of rows and columns, every chunk size", "why_tests_cant": "chunk boundaries on one axis are computed from the size of the other axis; sizes are unbounded and large images are too slow to test exhaustively", "anchors": ["pandora2d/disparity/disparity.py: Disparity.extrema_split, get_score, arg_split"]}
{"id": "C06", "title": "Margins used by refinement never leak in the disparity maps", "statement": "The cost volumes are computed on the user disparity range enlarged by the refinement margins; the disparities explored by the disparity step are exactly the coordinates between the user minimum and the user maximum with a pitch of 1/subpix, both ends included, whatever the (possibly asymmetric or partly null) margins.", "quantifier": "every user range, every margins (left, up, right, down), every subpix in {1, 2, 4}", "why_tests_cant": "negative slice indices with the special cases for null margins; unit tests only use a few margins", "anchors": ["pandora2d/matching_cost/matching_cost.py: MatchingCost.compute_cost_volumes", "pandora2d/disparity/disparity.py: Disparity.compute_disp_maps"]}
{"id": "C07", "title": "Per pixel disparity ranges are respected", "statement": "With disparity grids given by the user and a step of [1, 1], the row (resp. column) disparity returned by matching cost followed by winner takes all for a valid pixel lies between the minimum and the maximum given by the row (resp. column) grid for that pixel.", "quantifier": "every pair of grids, every cost function, every image size, margins and subpix", "why_tests_cant": "grids are arbitrary images; tests use periodic grids on one image", "anchors": ["pandora2d/common.py: set_out_of_row_disparity_range_to_other_value, set_out_of_col_disparity_range_to_other_value", "pandora2d/matching_cost/matching_cost.py: MatchingCost.compute_cost_volumes", "pandora2d/disparity/disparity.py: Disparity.compute_disp_maps"]}
{"id": "C08", "title": "Masking by disparity range touches exactly the points out of range", "statement": "set_out_of_row_disparity_range_to_other_value (resp. col) replaces by the value exactly the points whose row (resp. column) disparity is out of the pixel's range (and, when a global range is given, not outside of the global range); every other point, and every point outside of the global range, keeps its value; doing it twice is the same as doing it once.", "quantifier": "every 4D array, every pair of grids, with or without a global range", "why_tests_cant": "in place update over a loop with boolean masks: the 'nothing else changes' part ranges over all points", "anchors": ["pandora2d/common.py: set_out_of_row_disparity_range_to_other_value, set_out_of_col_disparity_range_to_other_value"]}
{"id": "C09", "title": "Criteria flags mean what they say", "statement": "In the criteria array, a point that is neither unprocessed nor on the border carries the flag LEFT_NODATA iff the left mask has a no data pixel in the window, RIGHT_NODATA iff the position shifted by the disparity is in the image and the right mask has a no data pixel in the window centred on it, INVALIDITY_MASK_LEFT / RIGHT iff the left pixel / shifted right pixel is masked by something else than no data, RIGHT_DISPARITY_OUTSIDE iff the shifted window leaves the image, and no other flag.", "quantifier": "every pair of masks, every window, every integer disparity of any sign including larger than the image", "why_tests_cant": "all combinations of masks and disparities, including slices such as [:-d] that degenerate for d = 0 or large d", "anchors": ["pandora2d/criteria.py: get_criteria_dataarray, apply_right_criteria_mask, mask_left_no_data, mask_right_no_data, mask_left_invalid, mask_right_invalid, mask_disparity_outside_right_image"]}
{"id": "C10", "title": "Unprocessed disparities and borders override every other criteria", "statement": "A point whose disparity is outside of the pixel's range carries exactly DISPARITY_UNPROCESSED; any other point within offset pixels of an image edge carries exactly LEFT_BORDER; these two never appear on other points nor mixed with other flags.", "quantifier": "every image size, offset, grids and masks", "why_tests_cant": "order dependent sequence of in place writes, all overlaps have to be considered, including offset 0 and images smaller than the offset", "anchors": ["pandora2d/criteria.py: mask_border, set_unprocessed_disp, get_criteria_dataarray"]}
{"id": "C11", "title": "ROI margins cover the disparity search and the pipeline margins", "statement": "The ROI loaded around the user ROI has margins at least as large as the margins demanded by the pipeline and at least as large as the largest displacement of the disparity range, on each of the four sides, and they are the smallest such when the range goes on both sides of zero; so every matching position of a pixel of the ROI is inside the loaded right image unless the image ends before.", "quantifier": "every init, range (or grid), every pipeline margins", "why_tests_cant": "absolute values and sides; all signs of the disparities have to be considered", "anchors": ["pandora2d/img_tools.py: get_roi_processing", "pandora2d/__init__.py: main"]}
{"id": "C12", "title": "Removing ROI margins gives exactly the user ROI", "statement": "After remove_roi_margins the rows and columns left are exactly those computed rows and columns whose coordinates are inside the user ROI, in the same order with the same values, provided the first coordinate of the ROI was computed; this includes a ROI touching or exceeding image borders and any step.", "quantifier": "every ROI, step, margins and image size", "why_tests_cant": "floor division with negative numbers and slices from the end; tests cover ten configurations", "anchors": ["pandora2d/img_tools.py: remove_roi_margins"]}
{"id": "C13", "title": "The first point of the ROI is always computed, whatever the step", "statement": "With a ROI and a step, rows and columns of the cost volume are spaced by the step and contain the first row and first column of the ROI, for every margins, including margins truncated by the image border.", "quantifier": "every ROI, every margin, every step, every image size", "why_tests_cant": "modular arithmetic on margins clipped by the border", "anchors": ["pandora2d/matching_cost/matching_cost.py: MatchingCost.allocate_cost_volume_pandora, compute_cost_volumes"]}
{"id": "C14", "title": "Saved maps are correctly georeferenced", "statement": "For every pixel (i, j) of the saved disparity maps, the world coordinates given by the saved transform for (j, i) are those the input image transform gives to the image column and row this pixel was computed for, with or without ROI and for any step.", "quantifier": "every affine transform, ROI, step and pixel", "why_tests_cant": "composition of affine maps; must hold for every transform and pixel; the order of translation and scale matters only in some combinations", "anchors": ["pandora2d/common.py: save_dataset, adjust_georeferencement, get_step, set_pixel_size"]}
{"id": "C15", "title": "Disparity grids: width, orientation and source interval", "statement": "For a constant disparity (init, range) or a disparity grid file, the datasets created contain for each pixel the interval [init - range, init + range] on the left and the opposite interval on the right, and the recorded source interval is the tightest interval that contains all the pixel intervals; with a ROI the values used are those of the file at the image coordinates of the ROI.", "quantifier": "every init, range, grid file, ROI window", "why_tests_cant": "all grids and windows; sign conventions on the right image", "anchors": ["pandora2d/img_tools.py: add_disparity_grid, get_min_max_disp_from_dicts, create_datasets_from_inputs"]}
{"id": "C16", "title": "Disparity ranges accepted by the configuration check reach the image", "statement": "A configuration is accepted by the disparity check exactly when both disparities are constants or both are one band grids of the size of the image, and the interval [init - range, init + range] (of every pixel for a grid) meets [-size, size] for rows and for columns.", "quantifier": "every init, range and image size", "why_tests_cant": "boundary values over all integers", "anchors": ["pandora2d/check_configuration.py: check_disparity_ranges_are_inside_image, check_disparity"]}
{"id": "C17", "title": "Configuration completion keeps what the user wrote and is stable", "statement": "Merging the user configuration with the defaults keeps every value the user wrote (the strings NaN, inf and -inf being read as floats), adds only keys of the defaults, gives the default value where the user wrote nothing, and applying it again changes nothing; the same holds for the check of every step of the pipeline: the returned configuration contains the user's values, the defaults for the absent keys, and is accepted unchanged when checked again, the only values changed being the number of iterations of the dichotomy above 9, the window and step of the optical flow, which are those of the matching cost, and the string NaN read as a float.", "quantifier": "every nested configuration", "why_tests_cant": "recursive merge over arbitrary dictionaries", "anchors": ["pandora2d/check_configuration.py: check_pipeline_section, check_input_section, update_conf use", "pandora2d/disparity/disparity.py: Disparity.check_conf", "pandora2d/matching_cost/matching_cost.py: MatchingCost.check_conf", "pandora2d/refinement/dichotomy.py: Dichotomy.check_conf", "pandora2d/refinement/optical_flow.py: OpticalFlow.check_conf"]}
{"id": "C18", "title": "Accepted pipelines are exactly the documented sequences", "statement": "A pipeline is accepted by check_conf, as far as the order of the steps is concerned, if and only if its steps are: optionally estimation, then optionally matching_cost then optionally disparity then any number of refinement.", "quantifier": "every sequence of step names of any length", "why_tests_cant": "unbounded sequences; tests cover a handful", "anchors": ["pandora2d/state_machine.py: Pandora2DMachine.check_conf, _transitions_check"]}
{"id": "C19", "title": "A pipeline that was checked can be run", "statement": "Every sequence of steps that check_conf accepts can be executed by run: no step is refused by the machine, the steps are executed in the order of the configuration, each exactly once, and after run_exit (resp. after a successful check) the machine is in its initial state with no transition left.", "quantifier": "every sequence of steps, every previous use of the machine", "why_tests_cant": "histories of calls of unbounded length on the same machine", "anchors": ["pandora2d/state_machine.py: Pandora2DMachine.run_prepare, run, run_exit, check_conf, remove_transitions", "pandora2d/__init__.py: run"]}
{"id": "C20", "title": "A failed check leaves the machine usable", "statement": "After check_conf raised an error because of a wrong pipeline, checking a correct pipeline with the same machine succeeds and gives the same result as with a new machine.", "quantifier": "every wrong pipeline followed by every correct pipeline", "why_tests_cant": "histories of calls; the error path is only tested for the raised exception", "anchors": ["pandora2d/state_machine.py: Pandora2DMachine.check_conf"]}
{"id": "C21", "title": "Checks of successive pipelines are independent", "statement": "The result of check_conf (completed pipeline and margins) on a machine depends only on the pipeline given, not on pipelines checked before on the same machine.", "quantifier": "every history of checks", "why_tests_cant": "histories of calls on a shared object", "anchors": ["pandora2d/state_machine.py: Pandora2DMachine.check_conf, matching_cost_check_conf, disparity_check_conf, refinement_check_conf", "pandora2d/check_configuration.py: check_pipeline_section"]}
{"id": "C22", "title": "Estimation centres the disparity range on the estimated shift", "statement": "The disparity range produced by the estimation step contains the opposite of the estimated shift, its centre is within half a pixel of it, and row and column values are never swapped, from the estimation to the grids and the returned configuration.", "quantifier": "every estimated shift (any real number), every range accepted by the configuration", "why_tests_cant": "rounding over all reals, including halves", "anchors": ["pandora2d/estimation/phase_cross_correlation.py: PhaseCrossCorrelation.compute_estimation, check_conf", "pandora2d/estimation/estimation.py: AbstractEstimation.update_cfg_with_estimation", "pandora2d/state_machine.py: estimation_run", "pandora2d/img_tools.py: create_datasets_from_inputs"]}
{"id": "C23", "title": "A row disparity compares the left row with the right row at that distance", "statement": "For every row disparity d explored (any sign, any multiple of 1/subpix) the right image used for it has at row r the value of the right image at row r + d (interpolated when d is not an integer) and is marked no data where r + d is outside the image.", "quantifier": "every image, row disparity and subpix", "why_tests_cant": "floor and modulo on negative fractional disparities", "anchors": ["pandora2d/img_tools.py: shift_disp_row_img, shift_subpix_img, row_zoom_img", "pandora2d/matching_cost/matching_cost.py: MatchingCost.compute_cost_volumes"]}
{"id": "C24", "title": "The cost volume stores each cost at its own coordinates", "statement": "In the cost volumes returned by the matching cost step the entry (row, col, disp_col, disp_row) is the 1D cost of (row, col, disp_col) between the left image and the right image shifted by disp_row, or NaN when the disparities are outside of the range of the pixel, for a step of [1, 1] with any grids and for any step and ROI when the range is the same for all the pixels; coordinates are all within the image.", "quantifier": "every image size, step, ROI, margins, subpix, and every cost function", "why_tests_cant": "index bookkeeping over all shapes", "anchors": ["pandora2d/matching_cost/matching_cost.py: MatchingCost.compute_cost_volumes, allocate_cost_volumes"]}
{"id": "C25", "title": "Dichotomy never degrades the matching cost", "statement": "For every pixel, the score after a dichotomy refinement is at least as good as the cost of the disparities it starts from (lower or equal for 'min', greater or equal for 'max'), whatever the values given by the interpolation filter, and it is the interpolated cost at the refined position.", "quantifier": "every cost surface, every filter, every number of iterations, every starting point", "why_tests_cant": "all cost surfaces; induction over iterations; NaN candidates", "anchors": ["pandora2d/refinement/dichotomy.py: Dichotomy.refinement_method, search_new_best_point"]}
{"id": "C26", "title": "Dichotomy moves stay below one sampling step and land on the announced precision", "statement": "After dichotomy with n iterations each of the row and column disparities has moved by strictly less than 1/subpix and differs from the starting disparity by a multiple of 2^-n.", "quantifier": "every cost surface, filter, number of iterations, subpix", "why_tests_cant": "sum over iterations, for all choices of the best candidate", "anchors": ["pandora2d/refinement/dichotomy.py: Dichotomy.refinement_method, search_new_best_point"]}
{"id": "C27", "title": "Dichotomy leaves invalid pixels and range edges alone", "statement": "A pixel whose disparity is invalid, whose score is NaN or whose row or column disparity is at an end of its range keeps its row and column disparities; every refined pixel stays strictly inside its range.", "quantifier": "every disparity map, grid and cost volume", "why_tests_cant": "all positions of the disparity in the range", "anchors": ["pandora2d/refinement/dichotomy.py: Dichotomy.refinement_method"]}
{"id": "C28", "title": "Interpolation never reads outside of the cost surface", "statement": "During a dichotomy refinement every resampling window is entirely inside the cost surface enlarged by the margins that the filter declares, for both filters and every candidate at every iteration; the value read at offset k of the window is the cost at distance k of the point.", "quantifier": "every starting point, range, iteration, filter, filter size", "why_tests_cant": "negative python indices would silently wrap; all candidates at all iterations", "anchors": ["pandora2d/interpolation_filter/interpolation_filter.py: AbstractFilter.interpolate", "pandora2d/interpolation_filter/bicubic.py: Bicubic.margins", "pandora2d/interpolation_filter/cardinal_sine.py: CardinalSine.margins", "pandora2d/refinement/dichotomy.py: search_new_best_point", "pandora2d/matching_cost/matching_cost.py: compute_cost_volumes"]}
{"id": "C29", "title": "Bicubic filter is an interpolation", "statement": "The bicubic coefficients sum to one for every fractional position, give back the sample at integer positions, and the resampling of a cost surface that is a polynomial of degree at most two in each direction is exact at every point, not only at the samples (points less than 2^-23 below an integer excepted, see C54).", "quantifier": "every rational position (a float is one), every such surface", "why_tests_cant": "real numbers", "anchors": ["pandora2d/interpolation_filter/bicubic.py: Bicubic.get_coeffs", "pandora2d/interpolation_filter/interpolation_filter.py: AbstractFilter.apply, interpolate"]}
{"id": "C30", "title": "Cardinal sine filter is an interpolation", "statement": "The cardinal sine coefficients sum to one for every fractional position of the table and give back the sample at integer positions; for a position that is a multiple of the declared precision the coefficients used are those of that position.", "quantifier": "every filter size, every precision, every position", "why_tests_cant": "real numbers, transcendental functions", "anchors": ["pandora2d/interpolation_filter/cardinal_sine.py: CardinalSine.get_coeffs, compute_coefficient_table"]}
{"id": "C31", "title": "Optical flow stays near the initial disparities and inside the range", "statement": "Each iteration of the optical flow refinement changes the row and column disparities of a pixel by at most one pixel (or to NaN), a pixel that has left the process keeps its values, and every disparity returned is either the invalid disparity, NaN, or strictly inside the range of the pixel and at most as many pixels away from the initial disparity as there are iterations.", "quantifier": "every image, every number of iterations, every least squares result", "why_tests_cant": "induction over iterations, any solver outcome", "anchors": ["pandora2d/refinement/optical_flow.py: OpticalFlow.optical_flow, refinement_method, _invalid_out_of_grid_disparities, lucas_kanade"]}
{"id": "C32", "title": "Optical flow compares windows centred on each pixel", "statement": "The left window used for a pixel contains the image values centred on that pixel and the right window those centred on the pixel displaced by the whole part of its disparities (NaN when it is not in the image), one window per pixel in the order of the map, whatever the step; the refined disparities are stored at the pixel they were computed for and the pixels whose window does not fit are invalid.", "quantifier": "every image size, window size, step", "why_tests_cant": "index arithmetic of strided sliding windows", "anchors": ["pandora2d/refinement/optical_flow.py: OpticalFlow.reshape_to_matching_cost_window, warped_img"]}
{"id": "C33", "title": "Interpolation refinement returns each result at its pixel", "statement": "The interpolation refinement computes for each pixel from the cost surface of that pixel and stores the result at that pixel, and the refined disparities are inside the disparity range of the cost volume (or NaN when no cost is available).", "quantifier": "every cost volume shape, every optimiser", "why_tests_cant": "index arithmetic through axis rolls and reshapes; order of a parallel map", "anchors": ["pandora2d/refinement/interpolation.py: Interpolation.refinement_method, compute_cost_matrix"]}
{"id": "C34", "title": "Statistics are within bounds and ignore invalid pixels", "statement": "The report statistics do not depend on the values of invalid pixels nor on the order of the pixels; the valid ratio is the number of valid pixels divided by the number of pixels and lies in [0, 1]; quantiles are increasing and between the minimum and the maximum; mean is between the minimum and the maximum.", "quantifier": "every disparity map and invalid value, including NaN", "why_tests_cant": "all maps", "anchors": ["pandora2d/statistics.py: compute_statistics", "pandora2d/reporting.py: report_disparities"]}
{"id": "C35", "title": "Profiling does not change results", "statement": "A function decorated for profiling returns the same value, raises the same errors, and is called exactly once with the same arguments, whether expert mode is on or off and whatever the interleaving with the monitoring thread. For a whole run, adding, removing or changing an accepted expert_mode section changes neither the maps, nor the report, nor any other section of the saved configuration, nor whether the run fails.", "quantifier": "every function, every schedule of the monitoring thread", "why_tests_cant": "interleavings", "anchors": ["pandora2d/profiling.py: mem_time_profile, MemProf", "pandora2d/__init__.py: main"]}
{"id": "C36", "title": "Malformed datasets are refused before processing", "statement": "check_datasets and dataset_disp_maps raise exactly when a required element is missing: images of different shapes, missing disparity grids, missing attributes, wrong bands, missing coordinates.", "quantifier": "every dataset", "why_tests_cant": "all combinations of missing elements", "anchors": ["pandora2d/check_configuration.py: check_datasets", "pandora2d/img_tools.py: check_disparities, check_disparity_presence, check_disparity_types", "pandora2d/common.py: dataset_disp_maps"]}
{"id": "C37", "title": "Parameters are accepted exactly in their documented domains", "statement": "Each step's check accepts exactly the documented values: number of dichotomy iterations at least 1 (clipped to 9), filter sizes in 6..21, optical flow windows odd and greater than 1, estimation ranges odd and at least 3, sample factors 1 or positive multiples of 10, steps being pairs of numbers at least 1 (see C50), ROI with first not after last.", "quantifier": "every integer value", "why_tests_cant": "all integers", "anchors": ["pandora2d/refinement/dichotomy.py: Dichotomy.check_conf", "pandora2d/interpolation_filter/cardinal_sine.py: CardinalSine.schema", "pandora2d/refinement/optical_flow.py: OpticalFlow.check_conf", "pandora2d/estimation/phase_cross_correlation.py: check_conf", "pandora2d/schema.py: STEP_SCHEMA", "pandora2d/check_configuration.py: check_roi_coherence"]}
{"id": "C38", "title": "Every pixel of the saved maps comes from its own pixel", "statement": "End to end (matching cost, winner takes all, dichotomy, ROI removal), the row and column disparities saved for a pixel depend only on the costs of that pixel, are in the range asked by the user for it, or are the invalid disparity.", "quantifier": "every image, configuration and cost function", "why_tests_cant": "composition of all the steps for all inputs", "anchors": ["pandora2d/__init__.py: run, main", "pandora2d/state_machine.py: matching_cost_run, disp_maps_run, refinement_run", "pandora2d/common.py: save_dataset"]}
{"id": "C39", "title": "Masked right pixels are not matched", "statement": "A pixel that the user masked in the right image mask is marked as unusable in the right image given to the matching cost, for every row disparity, as are the no data pixels.", "quantifier": "every right image, mask, row disparity and subpix", "why_tests_cant": "all masks, disparities", "anchors": ["pandora2d/img_tools.py: shift_disp_row_img", "pandora2d/matching_cost/matching_cost.py: MatchingCost.compute_cost_volumes"]}
{"id": "C40", "title": "Per pixel ranges with a step", "statement": "With disparity grids that change from pixel to pixel and a step different from [1, 1], the matching cost step succeeds and each pixel of the cost volume is masked according to the range of the image pixel it was computed for.", "quantifier": "every pair of grids, every step", "why_tests_cant": "all grids and steps", "anchors": ["pandora2d/matching_cost/matching_cost.py: MatchingCost.compute_cost_volumes", "pandora2d/common.py: set_out_of_row_disparity_range_to_other_value, set_out_of_col_disparity_range_to_other_value"]}
{"id": "C41", "title": "The matching window of every pixel of the ROI is loaded", "statement": "When a ROI is used, for every pixel of the ROI and every displacement of its range, the matching window around the matching position is entirely in the loaded part of the right image as soon as it is entirely in the full image, so that the costs with a ROI are those without.", "quantifier": "every ROI, disparity range, pipeline margins and image size", "why_tests_cant": "the combination of a displacement at the end of the range and of a pixel at the edge of the ROI is needed to see it", "anchors": ["pandora2d/img_tools.py: get_roi_processing", "pandora2d/__init__.py: main"]}
{"id": "C42", "title": "Saving the maps several times writes the same georeference", "statement": "Calling save_dataset again with the same dataset and configuration writes the same files.", "quantifier": "every dataset, with or without ROI, every step, every number of saves", "why_tests_cant": "a history of calls; tests save once", "anchors": ["pandora2d/common.py: save_dataset, adjust_georeferencement, set_pixel_size", "pandora2d/img_tools.py: remove_roi_margins"]}
{"id": "C43", "title": "Accepted disparity ranges are useful", "statement": "A disparity range accepted by the configuration check contains at least one displacement that keeps at least one pixel inside the image.", "quantifier": "every init, range and image size", "why_tests_cant": "boundary value of the check for every size and range", "anchors": ["pandora2d/check_configuration.py: check_disparity_ranges_are_inside_image"]}
{"id": "C44", "title": "Disparity grid files work for every loaded part", "statement": "With a one band grid file that covers the image, the disparity grids of the datasets are created for every ROI, including ROI (or images) of a single row or column.", "quantifier": "every file, every loaded part", "why_tests_cant": "shape dependent behaviour of squeeze", "anchors": ["pandora2d/img_tools.py: get_min_max_disp_from_dicts, add_disparity_grid"]}
{"id": "C45", "title": "A pipeline that a new machine refuses is never accepted", "statement": "check_conf refuses, on every machine and after every history of successful and failed checks, the pipelines whose order of steps is not documented.", "quantifier": "every history of checks and every pipeline", "why_tests_cant": "histories of calls including failures", "anchors": ["pandora2d/state_machine.py: Pandora2DMachine.check_conf"]}
{"id": "C46", "title": "A run executes the steps", "statement": "A run that returns without error has executed the steps of its pipeline, after every history of checks, including failed ones.", "quantifier": "every history of checks and every pipeline", "why_tests_cant": "histories of calls including failures", "anchors": ["pandora2d/state_machine.py: Pandora2DMachine.run_prepare, run, run_exit, check_conf"]}
{"id": "C47", "title": "A failed run leaves the machine usable", "statement": "After an error raised by a step during a run, a correct pipeline can still be checked and run with the same machine.", "quantifier": "every pipeline, every step that fails", "why_tests_cant": "histories of calls including failures", "anchors": ["pandora2d/state_machine.py: Pandora2DMachine.run, run_exit, check_conf", "pandora2d/__init__.py: run"]}
{"id": "C48", "title": "A configuration that was used can be used again", "statement": "The configuration returned by a run with an estimation step (which is also the one given by the caller, modified in place) is accepted when it is checked or run again.", "quantifier": "every configuration with an estimation step, every estimated shift", "why_tests_cant": "re-use of the outputs", "anchors": ["pandora2d/estimation/estimation.py: AbstractEstimation.update_cfg_with_estimation", "pandora2d/estimation/phase_cross_correlation.py: PhaseCrossCorrelation.check_conf", "pandora2d/state_machine.py: estimation_run"]}
{"id": "C49", "title": "The disparities of the right dataset follow the estimation", "statement": "After the estimation step the disparity grids of the right dataset are the opposite of those of the left dataset, as they are without estimation (C15).", "quantifier": "every configuration with an estimation step, every estimated shift", "why_tests_cant": "state of the datasets between two steps", "anchors": ["pandora2d/state_machine.py: estimation_run", "pandora2d/img_tools.py: create_datasets_from_inputs, add_disparity_grid"]}
{"id": "C50", "title": "Steps are integers", "statement": "The check of the matching cost accepts only steps that are pairs of integers at least 1.", "quantifier": "every configuration", "why_tests_cant": "all the types of values of a configuration file", "anchors": ["pandora2d/schema.py: STEP_SCHEMA", "pandora2d/matching_cost/matching_cost.py: MatchingCost.check_conf"]}
{"id": "C51", "title": "Dichotomy works with every step", "statement": "A dichotomy refinement that succeeds with the disparity grids of the pixels of the map also succeeds with the grids of the image when the matching cost has a step.", "quantifier": "every step, image and grids", "why_tests_cant": "all steps; shape errors of numpy", "anchors": ["pandora2d/refinement/dichotomy.py: Dichotomy.refinement_method"]}
{"id": "C52", "title": "Dichotomy refines every matched pixel", "statement": "A pixel to which the winner takes all gave disparities strictly inside its range, with a cost, keeps a score after the refinement, whatever the value chosen for invalid_disparity.", "quantifier": "every map and invalid value", "why_tests_cant": "coincidence of a disparity and of the invalid value", "anchors": ["pandora2d/refinement/dichotomy.py: Dichotomy.refinement_method", "pandora2d/disparity/disparity.py: Disparity.check_conf"]}
{"id": "C53", "title": "Dichotomy never degrades the score map", "statement": "For every pixel the score map after the refinement is at least as good as the score map of the winner takes all.", "quantifier": "every cost volume, including equal costs", "why_tests_cant": "ties between costs", "anchors": ["pandora2d/refinement/dichotomy.py: Dichotomy.refinement_method", "pandora2d/disparity/disparity.py: Disparity.compute_disp_maps"]}
{"id": "C54", "title": "Bicubic resampling is exact at every position", "statement": "The resampling of a surface that is a polynomial of degree at most two in each direction is exact at every position of the window, including the positions less than 2^-23 below an integer.", "quantifier": "every position", "why_tests_cant": "positions that the tests do not use", "anchors": ["pandora2d/interpolation_filter/interpolation_filter.py: AbstractInterpolationFilter.interpolate"]}
{"id": "C55", "title": "Optical flow works with a ROI and a step", "statement": "The optical flow refinement succeeds for every ROI and every step, in particular when the first point computed is not the first point of the part of the image that is loaded.", "quantifier": "every ROI, step and margins", "why_tests_cant": "combinations of ROI, step and margins; shape errors of numpy", "anchors": ["pandora2d/refinement/optical_flow.py: OpticalFlow._invalid_out_of_grid_disparities", "pandora2d/matching_cost/matching_cost.py: MatchingCost.compute_cost_volumes"]}
{"id": "C56", "title": "Optical flow refines every point of the ROI", "statement": "With a ROI, the margins declared by the optical flow are large enough for no point of the ROI to be in its border, for every pair of steps: a point refined without ROI is refined with it.", "quantifier": "every ROI, every row and column step", "why_tests_cant": "different row and column steps", "anchors": ["pandora2d/refinement/optical_flow.py: OpticalFlow.margins, refinement_method"]}
{"id": "C57", "title": "Optical flow invalidates row and column together", "statement": "After the optical flow refinement the row disparity of a pixel is invalid exactly when its column disparity is.", "quantifier": "every image and range", "why_tests_cant": "both maps compared pixel by pixel", "anchors": ["pandora2d/refinement/optical_flow.py: OpticalFlow._invalid_out_of_grid_disparities"]}
{"id": "C58", "title": "Optical flow corrects the displacement it measured", "statement": "When the windows compared for a pixel show no motion, the disparity returned is the displacement between these windows, for whole and fractional initial disparities.", "quantifier": "every initial disparity, whole or fractional", "why_tests_cant": "subpixel initial disparities", "anchors": ["pandora2d/refinement/optical_flow.py: OpticalFlow.reshape_to_matching_cost_window, refinement_method"]}
{"id": "C59", "title": "Optical flow keeps invalid pixels invalid", "statement": "A pixel that is invalid before the optical flow refinement is invalid (or NaN) after it.", "quantifier": "every map, range and invalid value", "why_tests_cant": "values of invalid_disparity near or inside the range", "anchors": ["pandora2d/refinement/optical_flow.py: OpticalFlow.refinement_method"]}
{"id": "C60", "title": "Interpolation refinement stays in the range of the user", "statement": "The disparities refined by interpolation are inside the disparity range asked by the user.", "quantifier": "every cost volume and range", "why_tests_cant": "costs of the margins of the disparity range", "anchors": ["pandora2d/refinement/interpolation.py: Interpolation.compute_cost_matrix", "pandora2d/state_machine.py: Pandora2DMachine.matching_cost_run, refinement_run"]}
{"id": "C61", "title": "Interpolation refinement keeps the sign of the score", "statement": "The score stored by the interpolation refinement is the interpolated cost at the refined disparity, for both kinds of measure.", "quantifier": "every cost volume and type of measure", "why_tests_cant": "negative correlations", "anchors": ["pandora2d/refinement/interpolation.py: Interpolation.compute_cost_matrix"]}
{"id": "C62", "title": "Interpolation refinement keeps invalid pixels", "statement": "A pixel that is invalid before the interpolation refinement holds the invalid disparity after it.", "quantifier": "every cost volume and invalid disparity", "why_tests_cant": "pixels without cost, pixels with costs in the margins of the range only", "anchors": ["pandora2d/refinement/interpolation.py: Interpolation.compute_cost_matrix, refinement_method", "pandora2d/state_machine.py: Pandora2DMachine.refinement_run"]}
{"id": "C63", "title": "Pixels without disparity are not counted as valid", "statement": "The ratio of valid pixels of the report counts the pixels that have a disparity: neither pixels with the invalid value nor NaN pixels.", "quantifier": "every map, every refinement", "why_tests_cant": "NaN pixels with a numeric invalid value", "anchors": ["pandora2d/statistics.py: compute_statistics"]}
{"id": "C64", "title": "The monitoring thread stops after the call", "statement": "With expert mode on, the monitoring thread of a profiled call ends after the call, whether the function returns or raises.", "quantifier": "every function, every schedule", "why_tests_cant": "functions that raise while profiled", "anchors": ["pandora2d/profiling.py: mem_time_profile, MemProf.run"]}
{"id": "C65", "title": "The profiling row holds the measured values", "statement": "The Max_Memory and Max_CPU columns of a profiled call are the maxima measured by the monitoring thread, or empty.", "quantifier": "every schedule, including a monitoring thread that starts late", "why_tests_cant": "late threads", "anchors": ["pandora2d/profiling.py: mem_time_profile, MemProf.run"]}
{"id": "C66", "title": "Profiling never loses a result", "statement": "When the decorated function returns a value, the profiled call returns it, whatever happens to the profiling file.", "quantifier": "every function, every error of the file system", "why_tests_cant": "full disks, missing directories", "anchors": ["pandora2d/profiling.py: mem_time_profile"]}
{"id": "C67", "title": "The report describes the saved maps", "statement": "The statistics of report.json are those of the disparity maps saved beside it.", "quantifier": "every run, with or without ROI", "why_tests_cant": "ROI runs where margins change the statistics", "anchors": ["pandora2d/__init__.py: main", "pandora2d/common.py: save_dataset", "pandora2d/reporting.py: report_disparities"]}
{"id": "C68", "title": "A completed configuration is accepted again", "statement": "The configuration completed by check_conf is accepted by check_conf, with the same result: same completed configuration, same machine (steps, margins, window size). Keys outside the sections input, ROI, pipeline and expert_mode change nothing.", "quantifier": "every configuration that is accepted, every image and grid", "why_tests_cant": "every combination of sections, defaults and steps", "anchors": ["pandora2d/check_configuration.py: check_conf, check_input_section, check_roi_section, check_pipeline_section, check_expert_mode_section", "pandora2d/state_machine.py: Pandora2DMachine.check_conf"]}
{"id": "C69", "title": "The saved configuration can be used again", "statement": "The configuration saved by main in its output directory is accepted when it is given to main again, and completed in the same way.", "quantifier": "every configuration that is accepted, without estimation (see C48)", "why_tests_cant": "configurations with a ROI", "anchors": ["pandora2d/__init__.py: main", "pandora2d/check_configuration.py: check_roi_section"]}
{"id": "C70", "title": "Exactly the described configurations are accepted", "statement": "check_conf accepts a configuration exactly when: its pipeline is a documented sequence of steps, each with the keys and values of its description (a refinement by optical flow needs an odd window size, at least 3); its input has two images that can be opened, with the described keys, and two disparities, that reach the image when they are given (they can be left out with an estimation); the right no-data value is an integer for sad and ssd; the ROI and expert_mode sections, if any, are as described. Sections with another name are ignored: they change neither the verdict nor the maps, the saved configuration or the errors of the run.", "quantifier": "every configuration whose keys are distinct, every image and grid", "why_tests_cant": "every combination of keys, missing keys, types and values", "anchors": ["pandora2d/check_configuration.py: check_conf, check_input_section, check_roi_section, check_pipeline_section, check_right_nodata_condition, check_expert_mode_section", "pandora2d/state_machine.py: Pandora2DMachine.check_conf"]}
{"id": "C71", "title": "A machine is recoverable and predictable after failures", "statement": "After any history of successful and failed checks and runs, the check of an empty pipeline succeeds and puts the machine back in its initial state. Until then an operation goes on from the state where the last one failed, with the functions of the first failed operation: a run that returns executed its steps, in an allowed order, when no failed check is pending, and executed none of them when one is; a check that returns when a failed run is pending executed its steps instead of checking them.", "quantifier": "every history of checks and runs, every pipeline", "why_tests_cant": "all histories with failures at every step", "anchors": ["pandora2d/state_machine.py: Pandora2DMachine.check_conf, run_prepare, run, run_exit, remove_transitions", "pandora2d/__init__.py: run"]}
{"id": "C72", "title": "The saved maps are what the configuration asks for", "statement": "For every configuration that is accepted, whose pipeline is matching_cost, disparity and possibly a dichotomy, main ends without error and saves maps whose rows and columns are exactly those of the ROI (or of the image), every step, in increasing order; every saved pixel either has the invalid value of the configuration in both maps, or a row and a column disparity, each inside the interval written by the user for this pixel: the constant, or the value of the grid, plus or minus the range.", "quantifier": "every configuration, images, grids, ROI, subpix, cost function and filter; any step with constant disparities and no refinement, a step of 1 otherwise", "why_tests_cant": "all configurations together with all images; the steps, margins, grids, ROI and saving are only tested separately, on a few images", "anchors": ["pandora2d/__init__.py: main, run", "pandora2d/check_configuration.py: check_conf", "pandora2d/img_tools.py: create_datasets_from_inputs, add_disparity_grid, get_roi_processing, remove_roi_margins", "pandora2d/state_machine.py: Pandora2DMachine"]}
{"id": "C73", "title": "A run can be repeated from its configuration", "statement": "main gives the same results for the configuration of the user and for the completed configuration; and for the configuration it saves with its maps.", "quantifier": "every configuration that is accepted, every pipeline", "why_tests_cant": "every combination of sections, steps and defaults", "anchors": ["pandora2d/__init__.py: main", "pandora2d/check_configuration.py: check_conf", "pandora2d/common.py: save_config"]}
{"id": "C74", "title": "The saved disparities are optimal", "statement": "For every configuration that is accepted, whose pipeline is matching_cost and disparity: at every saved pixel, either no pair of candidates inside the intervals written by the user has a cost, and the three maps hold the invalid value, or the saved score is the best cost (smallest for sad and ssd, largest for zncc) over all pairs of candidates, every 1/subpix pixel; the saved row disparity and the saved column disparity each belong to a pair that reaches this score, and are the smallest such ones. The cost of a pair is Pandora's cost of the left image against the right image moved by the row disparity, at the column disparity, in the part of the images that is loaded; it contains every position of the image that a candidate of a saved pixel leads to.", "quantifier": "every configuration, images, grids, ROI, subpix and cost function; any step with constant disparities, a step of 1 with grids", "why_tests_cant": "all pairs of candidates at all pixels of all images", "anchors": ["pandora2d/__init__.py: main, run", "pandora2d/matching_cost/matching_cost.py: MatchingCost.compute_cost_volumes", "pandora2d/disparity/disparity.py: Disparity.compute_disp_maps", "pandora2d/img_tools.py: shift_disp_row_img, shift_subpix_img"]}
{"id": "C75", "title": "The saved configuration is the one that was run", "statement": "The configuration saved with the maps is the completed one, with the margins added at its top and in its ROI section; no other key changes. Every value written by the user in the sections input and ROI is saved as it was written.", "quantifier": "every configuration without estimation (see C48) for which main ends without error, every pipeline", "why_tests_cant": "every combination of sections, steps and defaults; the steps get the configuration and could change it", "anchors": ["pandora2d/__init__.py: main, run", "pandora2d/check_configuration.py: check_conf", "pandora2d/state_machine.py: Pandora2DMachine.run"]}
{"id": "C76", "title": "With an estimation, the whole program searches around the estimated shift and finds the best disparities", "statement": "For every accepted configuration without disparities whose pipeline is estimation, matching cost, disparity, main succeeds: the initial disparities are the opposites of the shifts estimated on the loaded part of both images, rounded to the nearest integers, with the ranges of the estimation section; the saved maps hold exactly the rows and columns asked for, every disparity is in its interval and is the best one. The intervals also hold with a dichotomy after the disparity, for a step of 1. Images of at most 9995 rows and columns are loaded entirely, even with a ROI.", "quantifier": "every accepted configuration, ROI, step, estimation section, image and cost", "why_tests_cant": "the estimation changes the configuration during the run and the margins of the ROI were computed before", "anchors": ["pandora2d/__init__.py: main, run", "pandora2d/state_machine.py: Pandora2DMachine.estimation_run, matching_cost_run, disp_run, refinement_run", "pandora2d/img_tools.py: get_roi_processing, create_datasets_from_inputs, get_margins", "pandora2d/estimation/phase_cross_correlation.py: PhaseCrossCorrelation.compute_estimation"]}
{"id": "C77", "title": "The saved maps are georeferenced where they come from, and the report describes them", "statement": "For every configuration of C72 and C76, main saves maps whose transform sends their pixel of index (i, j) to the point where the transform of the left image sends the pixel of the image at their i-th row and j-th column: ROI and steps included. The maps the report is made from contain the saved maps at the same coordinates, and are the saved maps when there is no ROI.", "quantifier": "every configuration, image, transform, ROI and step", "why_tests_cant": "every ROI and step; the transform is computed before the maps are cropped, from the coordinates of the loaded window", "anchors": ["pandora2d/__init__.py: main", "pandora2d/common.py: save_dataset, dataset_disp_maps, adjust_georeferencement", "pandora2d/img_tools.py: remove_roi_margins", "pandora2d/reporting.py: report_disparities"]}
{"id": "C78", "title": "The disparities of a pixel do not depend on the ROI", "statement": "Two configurations that differ only by their ROI give the same disparities and the same score at the pixels they both save.", "quantifier": "every configuration, image, cost function and pair of ROIs", "why_tests_cant": "all pairs of ROIs, every image; the part of the images that is loaded depends on the ROI and on the margins of the steps", "anchors": ["pandora2d/__init__.py: main", "pandora2d/img_tools.py: get_roi_processing, create_datasets_from_inputs, get_margins", "pandora2d/matching_cost/matching_cost.py: MatchingCost.compute_cost_volumes"]}
{"id": "C79", "title": "A larger search never gives a worse score", "statement": "When the intervals of disparities of a configuration contain those of another one with the same images and matching cost, the score saved at every pixel that has a disparity in the smaller search is at least as good in the larger one.", "quantifier": "every pair of configurations without ROI whose pipelines are matching_cost and disparity, every image, grid and cost function", "why_tests_cant": "all pairs of configurations", "anchors": ["pandora2d/__init__.py: main, run", "pandora2d/matching_cost/matching_cost.py: MatchingCost.compute_cost_volumes", "pandora2d/disparity/disparity.py: Disparity.compute_disp_maps"]}
{"id": "C80", "title": "Every pipeline saves maps of the pixels asked for, georeferenced, and reports them", "statement": "For every accepted configuration, with or without estimation, with no refinement or any refinement method: when main ends without error, the saved maps hold exactly the rows and columns asked for (every step-th row and column of the image or of the ROI), in increasing order, in three maps of this size; their transform sends each pixel to the point where the transform of the left image sends the pixel at these coordinates; the maps the report is made from contain the saved ones, and are the saved ones without ROI.", "quantifier": "every accepted configuration, image, ROI, step, disparities (constants, grids, estimated) and refinement method, whatever the libraries return", "why_tests_cant": "all configurations and refinement methods; each method builds its maps in its own way", "anchors": ["pandora2d/__init__.py: main, run", "pandora2d/state_machine.py: Pandora2DMachine.refinement_run", "pandora2d/common.py: save_dataset, dataset_disp_maps, adjust_georeferencement", "pandora2d/refinement/optical_flow.py: OpticalFlow.refinement_method", "pandora2d/refinement/interpolation.py: Interpolation.refinement_method", "pandora2d/refinement/dichotomy.py: Dichotomy.refinement_method"]}
{"id": "C81", "title": "Disparities of the whole program with an interpolation", "statement": "For every accepted configuration whose refinement is an interpolation, with constant or estimated disparities or a step of 1, main ends without error when the optimiser respects its bounds, and each saved pixel either has no disparity and no score, or has disparities between the least and the greatest bounds of the intervals of the image, enlarged by the 3 pixels of the margins. They may be outside the interval of the user.", "quantifier": "every accepted configuration of this kind, image, cost function, ROI, interpolation and optimiser", "why_tests_cant": "all configurations and images; the optimiser is an external library", "anchors": ["pandora2d/__init__.py: main, run", "pandora2d/state_machine.py: Pandora2DMachine.refinement_run", "pandora2d/refinement/interpolation.py: Interpolation.refinement_method, compute_cost_matrix, wrapper_interp2d", "pandora2d/refinement/interpolation.py: Interpolation.margins"]}
{"id": "C82", "title": "After an optical flow the saved disparities stay near the optimal ones", "statement": "For every configuration that `check_conf` accepts with the steps matching_cost, disparity and refinement by optical_flow (with or without estimation), `main` ends without error, saves the expected pixels, and for every saved pixel: its score is the cost of the optimal pair of disparities (the one wta finds among all the pairs that can be evaluated); each saved disparity is either lost (invalid value or NaN) or strictly inside the interval that the user asked for this pixel and at most at `iterations` pixels of the optimal one (4 when it is not given). Hypotheses: constant disparities, an estimation or a step of 1; no ROI or a step of 1 (with both a ROI and a step the windows are not those of the pixels); the offset of the matching cost is (window_size - 1) / 2; more pixels are asked for than one window and two steps.", "quantifier": "every accepted configuration of this kind, images, cost function, grids, ROI, least squares and resampling functions", "why_tests_cant": "all configurations and images; each pixel follows its own number of iterations", "anchors": ["pandora2d/__init__.py: main, run", "pandora2d/state_machine.py: Pandora2DMachine.refinement_run", "pandora2d/refinement/optical_flow.py: OpticalFlow.refinement_method, reshape_to_matching_cost_window, optical_flow, warped_img, lucas_kanade_core_algorithm", "pandora2d/refinement/optical_flow.py: OpticalFlow.check_conf, find_nearest_column, _invalid_out_of_grid_disparities"]}
{"id": "C83", "title": "After a dichotomy the saved disparities are those of wta plus a small dyadic number, with a score at least as good", "statement": "For every configuration that `check_conf` accepts with the steps matching_cost, disparity and refinement by dichotomy (with or without estimation, with constant or grid disparities, with or without ROI) and a step of 1, `main` ends without error, saves the expected pixels with disparities inside the intervals, and for every saved pixel: without any pair that can be evaluated both disparities are the invalid value; otherwise each disparity is the optimal one plus m / 2^n with n = min(iterations, 9) and |m| / 2^n < 1 / subpix, and the saved score is at least as good as the cost of the optimal pair (when this pair is not confused with the invalid value).", "quantifier": "every accepted configuration of this kind, images, cost function, grids, ROI, interpolation filter and float32 rounding", "why_tests_cant": "all configurations and images; the refinement depends on all costs around the optimum", "anchors": ["pandora2d/__init__.py: main, run", "pandora2d/state_machine.py: Pandora2DMachine.refinement_run", "pandora2d/refinement/dichotomy.py: Dichotomy.refinement_method, search_new_best_point, Dichotomy.check_conf", "pandora2d/interpolation_filter/interpolation_filter.py: AbstractFilter.interpolate"]}
{"id": "C84", "title": "The step only chooses the pixels", "statement": "For two configurations that differ by the step (constant disparities, no ROI or a ROI that contains the whole image, no refinement), every pixel saved by both runs of `main` has the same disparities and the same score; when the steps of the second one are multiples of those of the first one, every pixel it saves is saved by the first one.", "quantifier": "every pair of accepted configurations of this kind, images and cost function that does not depend on the step", "why_tests_cant": "it relates two runs, for all images, steps and configurations", "anchors": ["pandora2d/__init__.py: main, run", "pandora2d/matching_cost/matching_cost.py: MatchingCost.compute_cost_volumes", "pandora2d/disparity/disparity.py: Disparity.compute_disp_maps", "pandora2d/common.py: save_dataset"]}
{"id": "C85", "title": "A ROI that contains the whole image changes nothing", "statement": "For a configuration with a ROI that begins at the first row and column and ends at or after the last ones, and the same configuration without ROI (constant disparities, or grids with a step of 1, no refinement), `main` saves the same rows and columns, and every pixel has the same disparities and the same score.", "quantifier": "every pair of accepted configurations of this kind, images and cost function", "why_tests_cant": "it relates two runs that load, crop and save with different code paths", "anchors": ["pandora2d/__init__.py: main, run", "pandora2d/img_tools.py: get_roi_processing, create_datasets_from_inputs", "pandora2d/common.py: save_dataset, set_pixel_size", "pandora2d/img_tools.py: remove_roi_margins"]}
{"id": "C86", "title": "A subpixel search never gives a worse score", "statement": "For two configurations that differ by the subpix, 1 and n (no refinement, no ROI or one that contains the whole image), when the cost of Pandora at whole disparities does not depend on the subpix, every pixel that has a disparity with subpix 1 has a score at least as good with subpix n.", "quantifier": "every pair of accepted configurations of this kind, images, subpix, cost function and interpolation of the right image", "why_tests_cant": "it relates two runs with volumes of different sizes", "anchors": ["pandora2d/__init__.py: main, run", "pandora2d/matching_cost/matching_cost.py: MatchingCost.compute_cost_volumes, allocate_cost_volumes", "pandora2d/img_tools.py: shift_subpix_img, shift_disp_row_img", "pandora2d/disparity/disparity.py: Disparity.compute_disp_maps"]}
{"id": "C87", "title": "A refinement stays near the result without refinement", "statement": "For two configurations that differ by the presence of the refinement (whole image), `main` saves the same rows and columns with both. With a dichotomy (step 1), a pixel without disparity keeps invalid disparities, each other disparity moves by less than 1 / subpix, and the score is at least as good when no two pairs have the same cost and the disparities are not the invalid value. With an optical flow, the score is unchanged and each disparity is lost or moves at most by the number of iterations.", "quantifier": "every pair of accepted configurations of this kind, images, cost function, filter, least squares and resampling functions", "why_tests_cant": "it relates two runs, for all images and configurations", "anchors": ["pandora2d/__init__.py: main, run", "pandora2d/state_machine.py: Pandora2DMachine.refinement_run", "pandora2d/refinement/dichotomy.py: Dichotomy.refinement_method, search_new_best_point", "pandora2d/refinement/optical_flow.py: OpticalFlow.refinement_method"]}
{"id": "C88", "title": "The dichotomy keeps the best of nine points at each precision, and nothing else", "statement": "For every pixel that is matched, has a cost and is not at an end of its ranges, the refined disparities and the score are the result of this search: for each precision 1/2^it, from the first one below the sampling step to 1/2^iterations, the nine points at 0 or +/- the precision around the current one are evaluated by interpolation (the current point keeps its score), and the best one that is not NaN is kept, the first one for equal values, no move when the nine values are equal. This search has only one result.", "quantifier": "every cost volumes, filter, rounding, number of iterations, maps and pixel", "why_tests_cant": "the property is about all volumes and all filters; a search that does nothing or skips a precision passes the range and score properties", "anchors": ["pandora2d/refinement/dichotomy.py: Dichotomy.refinement_method, search_new_best_point, all_same", "pandora2d/interpolation_filter/interpolation_filter.py: AbstractFilter.interpolate"]}
{"id": "C89", "title": "The dichotomy finds the optimum of a separable cost with its precision", "statement": "When the costs of a pixel are the sum of a function of the row disparity and of a function of the column disparity, each strictly better towards its optimum, when the interpolation is exact for them and the starting disparities are optimal samples strictly inside the ranges, the refined disparities are at most at 1/2^iterations pixel of the optimum, and the score is the cost there. With the bicubic filter and costs of degree two the interpolation is exact, so that it holds without hypothesis on the filter.", "quantifier": "every such function, volumes, subpix, number of iterations and pixel", "why_tests_cant": "accuracy for a continuum of optima and cost functions; tests check a few positions with a tolerance", "anchors": ["pandora2d/refinement/dichotomy.py: Dichotomy.refinement_method, search_new_best_point", "pandora2d/interpolation_filter/bicubic.py: Bicubic.get_coeffs", "pandora2d/interpolation_filter/interpolation_filter.py: AbstractFilter.interpolate, apply"]}
{"id": "C90", "title": "The dichotomy finds the optimum of a convex cost with its precision (refuted)", "statement": "False: for a convex cost of degree two with a dependence between the row and the column disparity, interpolated exactly by the bicubic filter, with the maximal number of iterations, the refined row disparity stays at more than three quarters of a pixel of the optimum, though the optimum is strictly inside the ranges and the starting point is the optimal sample. The true part is C89.", "quantifier": "one volume refutes the general statement", "why_tests_cant": "the tests measure the accuracy on a few images; none isolates a cost surface with such a valley", "anchors": ["pandora2d/refinement/dichotomy.py: Dichotomy.refinement_method, search_new_best_point"]}
{"id": "C91", "title": "After a dichotomy, main saves exactly the result of the search from the optimal disparities", "statement": "For every accepted configuration with a dichotomy and steps of 1 (constant disparities, grids or estimation, with or without ROI): a pixel for which no pair of candidates has a cost is saved with the invalid value and no score. For every other pixel, from the optimal pair: the pair itself is saved with its cost when it is at an end of its candidates (no score when it equals the invalid value); otherwise the saved disparities and score are the result of the search of the best of nine points, with the precisions 1/2^it from the first one below the subpix to 1/2^min(iterations, 9), on the interpolation by the configured filter of the costs of the pixel.", "quantifier": "every accepted configuration of this kind, images, cost function, filter and rounding", "why_tests_cant": "it describes the result of the whole program for all images; a program that skips the refinement, a precision or the filter options passes the range and score properties", "anchors": ["pandora2d/__init__.py: main, run", "pandora2d/state_machine.py: Pandora2DMachine.refinement_run", "pandora2d/refinement/dichotomy.py: Dichotomy.refinement_method, search_new_best_point, check_conf", "pandora2d/interpolation_filter/interpolation_filter.py: AbstractFilter.interpolate", "pandora2d/matching_cost/matching_cost.py: MatchingCost.compute_cost_volumes"]}
{"id": "C92", "title": "After an optical flow, main saves exactly the moves measured in the windows of each pixel", "statement": "For every accepted configuration with an optical flow whose windows fit in what is searched: the saved score is the one of the optimal pair. The saved disparities of a pixel whose window fits between the first and last searched rows and columns are the optimal ones (or the invalid value when there is none), minus the motions measured at each iteration between the left window centred on the pixel and the right window centred at the truncated disparity, resampled by the previous motions; the pixel stops at the first motion that is not below one pixel, a motion above one pixel being ignored; then each disparity that is not strictly inside the interval of the pixel is replaced by the invalid value. The other pixels get the invalid value. This result is unique.", "quantifier": "every accepted configuration of this kind (constants, grids, estimation, ROI), images, cost function, least squares and resampling functions", "why_tests_cant": "it describes the result of the whole program for all images; a program that skips the refinement or uses the wrong windows passes the range property C82", "anchors": ["pandora2d/__init__.py: main, run", "pandora2d/state_machine.py: Pandora2DMachine.refinement_run", "pandora2d/refinement/optical_flow.py: OpticalFlow.refinement_method, reshape_to_matching_cost_window, optical_flow, lucas_kanade_core_algorithm, warped_img, _invalid_out_of_grid_disparities"]}
{"id": "C93", "title": "After an interpolation, main saves exactly what the optimiser finds from the optimal disparities", "statement": "For every accepted configuration with a refinement by interpolation (constant disparities with any step, grids with steps of 1, or an estimation; with or without ROI): a pixel without usable sample is saved without value. For every other pixel, the saved disparities are the ones found by the optimiser from the optimal pair of the pixel (column first; the invalid value when there is none), between the first and the last disparities of the volumes, 3 pixels beyond the ones of the window, for the function interpolated from the costs of this pixel completed where they are missing; the saved score is the absolute value of this function there.", "quantifier": "every accepted configuration of this kind, images, cost function, interpolation function and optimiser", "why_tests_cant": "it describes the result of the whole program for all images; a program that skips the refinement, exchanges the starting disparities or mixes the pixels passes the range property C81", "anchors": ["pandora2d/__init__.py: main, run", "pandora2d/state_machine.py: Pandora2DMachine.refinement_run", "pandora2d/refinement/interpolation.py: Interpolation.refinement_method, compute_cost_matrix", "pandora2d/matching_cost/matching_cost.py: MatchingCost.compute_cost_volumes"]}
{"id": "C94", "title": "With a step, main ends without error exactly when the initial disparities do not change in the window, and its results are then right", "statement": "For every accepted configuration with a step greater than 1 and at least two rows and columns asked for: the program ends without error only if both initial disparities have the same value at all the pixels of the window that is loaded; without refinement, it then ends without error. For every step and all grids, without refinement: when the program ends without error, the saved disparities are in the interval of their own pixel and are the best candidates of it.", "quantifier": "every accepted configuration without estimation, any grids, steps, ROI, images and cost function", "why_tests_cant": "all grids and steps: an execution that masks with the interval of another pixel (as the matching cost step alone can do, C40) could need any combination of them", "anchors": ["pandora2d/__init__.py: main, run", "pandora2d/matching_cost/matching_cost.py: MatchingCost.compute_cost_volumes", "pandora2d/common.py: set_out_of_row_disparity_range_to_other_value, set_out_of_col_disparity_range_to_other_value"]}
{"id": "C95", "title": "The files of the output folder are those of this run and nothing else is touched", "statement": "For every configuration without profiling: when the program ends without error, row_disparity.tif, columns_disparity.tif and correlation_score.tif hold the row map, the column map and the scores that were computed, with the same transform, report.json the report, cfg/config.json the configuration, and every other file of the disk is as it was; the program can always write when none of its folders is a file and none of its files a folder; a run that fails before writing changes nothing. For constant disparities without refinement, from the configuration to the files: the rasters hold the best disparities of the pixels asked for.", "quantifier": "every configuration, images, library functions, output folder and disk content", "why_tests_cant": "it quantifies over all contents of the disk and all configurations; that no other file is touched cannot be observed by reading a few files back", "anchors": ["pandora2d/__init__.py: main", "pandora2d/common.py: save_dataset", "pandora2d/reporting.py: report_disparities"]}
{"id": "C97", "title": "The profiling table has one row for each step of the run, and the figures add up", "statement": "When a profiled run ends without error, the table saved in its folder has, after the rows left in the working directory by earlier runs, exactly one row for each step of the pipeline, in their order and under the name of the step; the table is removed from the working directory, the figures are those of the table, and the maps and the configuration are as without profiling. After any number of runs without error in the same process, profiled or not, each table has only the rows of its own run. In the figures each name appears once, totals, means and numbers of calls are those of the rows with this name, and the totals of the bars are those of the table.", "quantifier": "every configuration, measures, sequence of runs and disk content", "why_tests_cant": "all sequences of runs and all measures; the rows left by an earlier failed run only show in particular sequences", "anchors": ["pandora2d/profiling.py: mem_time_profile, generate_summary, generate_figure", "pandora2d/__init__.py: main", "pandora2d/state_machine.py: Pandora2DMachine (decorated methods)"]}
{"id": "C96", "title": "report.json describes the rasters beside it", "statement": "For every run without ROI that ends without error: report.json gives, under statistics, disparity, row and col, the mean, the standard deviation, the five quantiles and the ratio of valid pixels of the row map and of the column map that are saved beside it, computed on the pixels that are neither NaN nor the invalid value. Without valid pixel all of these but the ratio are NaN, and the file is standard JSON exactly when both maps have a valid pixel.", "quantifier": "every configuration without ROI, images, library functions, invalid value and disk content", "why_tests_cant": "all maps and invalid values, and the whole program from the configuration to the two files", "anchors": ["pandora2d/__init__.py: main", "pandora2d/reporting.py: report_disparities, NumpyPrimitiveEncoder", "pandora2d/statistics.py: compute_statistics, Statistics.to_dict"]}
{"id": "C98", "title": "When a run on a grid with a step ends without error", "statement": "When at least two rows and two columns are asked for, in a configuration accepted by the checks: a run without refinement or with the interpolation ends without error exactly when the disparities are estimated, or both steps are 1, or both initial disparities do not change in the loaded window; a run with the dichotomy ends exactly when both steps are 1; a run with the optical flow whose windows fit in the image, without ROI or with steps of 1, ends exactly under the first condition on the whole image.", "quantifier": "every accepted configuration, images, initial disparities, ROI and step", "why_tests_cant": "the failure depends on the shapes of three volumes and on all values of two rasters in a window chosen by the ROI and the margins", "anchors": ["pandora2d/__init__.py: main", "pandora2d/matching_cost/matching_cost.py: compute_cost_volumes, get_disp_row_coords", "pandora2d/refinement/dichotomy.py: refinement_method", "pandora2d/refinement/optical_flow.py: refinement_method", "pandora2d/img_tools.py"]}
{"id": "C99", "title": "A ROI does not change the refined disparities of its inner pixels", "statement": "With the same inputs and pipeline, a run with a ROI and a run without ROI save the same row disparity, column disparity and score (or no disparity in both) for the pixels of the ROI that are far enough from its borders: after an optical flow, the half window; after a dichotomy with the same initial disparities in the whole image, the half window plus the samples read by the filter (before + 1); after an interpolation with the same initial disparities in the whole image and any step, the half window plus the 3 pixels that the interpolation adds to the disparities.", "quantifier": "all configurations, images, ROIs, disparities, subpix, filters, numbers of iterations, interpolations, optimisers and pixels", "why_tests_cant": "comparing refined runs pixel by pixel only covers some ROIs; the distance needed depends on the window, the filter and the margins of the refinement", "anchors": ["pandora2d/img_tools.py:get_roi_processing", "pandora2d/refinement/dichotomy.py:refinement_method", "pandora2d/refinement/optical_flow.py:refinement_method", "pandora2d/refinement/interpolation.py:refinement_method", "pandora2d/__init__.py:main"]}
{"id": "C100", "title": "One iteration of the optical flow is the least squares motion explained by the slopes of the left window", "statement": "lucas_kanade_core_algorithm returns the motion that least squares give to the slopes of the left window (np.gradient) against the differences between both windows, whatever the window and the solver of least squares: it is zero for identical windows and for left windows without slope, it is exact when the right window is the left one plus the slopes times a motion and the slopes of two pixels have different directions, it follows the direction of the slopes when they all have the same one, and then the iterations keep the disparities of identical windows and correct the others exactly. False: that a difference of brightness leaves the disparities, and that a motion along a direction without texture is measured.", "quantifier": "all windows of at least two pixels, pixel values, least squares solvers, resamplings, starting disparities and numbers of iterations", "why_tests_cant": "a test compares the motion on a few windows with the values that the code gave; the order of rows and columns, the sign and the ends of the gradients are only visible on well chosen ones", "anchors": ["pandora2d/refinement/optical_flow.py:lucas_kanade_core_algorithm", "pandora2d/refinement/optical_flow.py:optical_flow"]}
{"id": "C101", "title": "The true disparities of a pixel are saved when its windows are identical, and exact to less than a pixel when the slopes explain the difference", "statement": "When one pair of candidates is strictly better than the others, the program without refinement saves it. With the optical flow, a pixel whose windows at this pair are identical keeps it; so images that differ by a translation give this translation at every pixel where no other candidates give identical windows, if the costs measure differences; and when the right window is the left one moved by less than a pixel along its slopes, the program saves the exact disparities with their fraction.", "quantifier": "all configurations with subpix 1 (any subpix without refinement), images, pixels away from the borders, costs, windows of at least 3 pixels and numbers of iterations", "why_tests_cant": "synthetic tests check that a few translations are found up to a tolerance", "anchors": ["pandora2d/__init__.py:main", "pandora2d/disparity/disparity.py:compute_disp_maps", "pandora2d/refinement/optical_flow.py:refinement_method", "pandora2d/refinement/optical_flow.py:lucas_kanade_core_algorithm"]}
{"id": "C102", "title": "Only the order of the costs matters, and rows and columns play the same part", "statement": "Without refinement: when the candidates of two pixels, of two runs with other images, disparities, measures or configurations, are the same up to a translation and their costs are in the same order, the saved disparities are the same up to this translation, and the same pair of candidates gives both scores; both are without disparity exactly when no pair has a cost. When the costs of two pixels are the same after exchanging rows and columns, the saved disparities are exchanged and the scores are the same. So moving the right image and the search moves the result, a cost and an increasing function of it give the same disparities, and transposed images give transposed maps.", "quantifier": "all pairs of configurations without refinement, images, subpix, steps, ROIs and pixels", "why_tests_cant": "a test compares two runs on one image; a tie broken differently in rows and in columns, or an offset of one direction only, needs the right pair of runs to be seen", "anchors": ["pandora2d/__init__.py:main", "pandora2d/disparity/disparity.py:compute_disp_maps", "pandora2d/matching_cost/matching_cost.py:compute_cost_volumes"]}
{"id": "C103", "title": "The methods named in a configuration give the classes of the user guide, with plugins or not", "statement": "A class is used for a name exactly when its registration is the last one with this name, and a name is unknown exactly when it was never registered. Whatever the order in which the modules are imported, and whatever the classes that other projects register under names of their own, a refinement, filter or estimation section that names no plugin gives the class of the user guide and the checked configuration of the other theorems, or an error for the same sections; a plugin is used for its own name, with its own check. A class called directly refuses the sections of another method. False: that a name of the project cannot be taken by a later registration.", "quantifier": "all lists of registrations in any order, all plugins and their constructors, all sections, steps and window sizes", "why_tests_cant": "tests run with the modules of the project imported in one order, and without plugins", "anchors": ["pandora2d/refinement/refinement.py:AbstractRefinement.__new__", "pandora2d/refinement/refinement.py:AbstractRefinement.register_subclass", "pandora2d/estimation/estimation.py:AbstractEstimation.__new__", "pandora2d/estimation/estimation.py:AbstractEstimation.register_subclass", "pandora2d/interpolation_filter/interpolation_filter.py:AbstractFilter.__new__", "pandora2d/interpolation_filter/interpolation_filter.py:AbstractFilter.register_subclass", "pandora2d/refinement/dichotomy.py:Dichotomy.__init__"]}
{"id": "C104", "title": "Moving the search by a translation moves the refined disparities by the same translation", "statement": "Two pixels, of two runs that may have other images, sizes, ROIs, disparities or estimations. When their candidates are the same up to a translation and their costs are the same up to it, including the ones that the filter reads around the candidates, the dichotomy saves disparities that differ by exactly this translation, and the same score. When moreover the left windows and the right windows at the candidates contain the same values, the optical flow, started from whole disparities, loses the same pixels and saves disparities that differ by exactly this translation, with the same score. So refined disparities do not depend on where the zero of the disparities is.", "quantifier": "all configurations with a refinement, images, ROIs, disparities, estimations, filters, iterations, translations, pixels", "why_tests_cant": "a metamorphic property over pairs of runs; tests refine a few fixed images with fixed disparities", "anchors": ["pandora2d/refinement/dichotomy.py:Dichotomy.refinement_method", "pandora2d/refinement/dichotomy.py:search_new_best_point", "pandora2d/refinement/optical_flow.py:OpticalFlow.refinement_method", "pandora2d/refinement/optical_flow.py:OpticalFlow.optical_flow", "pandora2d/__init__.py:main"]}
{"id": "C105", "title": "The optical flow after a subpixel search", "statement": "When the matching cost was computed with subpix > 1, the disparities before the optical flow may have a fraction. The right window is taken at the truncated disparity (int), but the motion that is measured is added to the disparity with its fraction. So at a pixel whose best pair is unique, when the windows at the truncated pair are identical the disparities are kept, fraction included, and when the slopes of the left window explain the true disparities from the truncated ones, what is saved is the true disparity plus what the truncation left over. The true disparity is saved exactly when the one before the optical flow is whole. In particular a matching cost that already found the true disparity of half a row is moved to one row.", "quantifier": "all configurations with an optical flow, any subpix, images, ROIs, disparities, estimations, pixels away from the border and strictly inside their intervals", "why_tests_cant": "tests run the optical flow with subpix 1 or compare with recorded results; the error depends on the fraction of the starting disparity", "anchors": ["pandora2d/refinement/optical_flow.py:OpticalFlow.reshape_to_matching_cost_window", "pandora2d/refinement/optical_flow.py:OpticalFlow.refinement_method", "pandora2d/refinement/optical_flow.py:OpticalFlow.optical_flow", "pandora2d/__init__.py:main"]}
{"id": "C106", "title": "main with a dichotomy finds the position the costs lead to, with the precision of the last iteration", "statement": "When the costs of a pixel lead to a position between the samples (near it a sum of a function of the row disparity and a function of the column disparity, each better and better towards its goal, no pair of candidates being better than this sum, the goal at least two samples inside the intervals), the disparities saved by main after n iterations of the dichotomy, from samples at 1/2^k pixel, are at most 1/2^max(k, min(n, 9)) pixel from the position, in rows and in columns, and the saved score is the cost there. It holds for every filter that is exact on these costs, and for the bicubic filter with costs of degree two without any hypothesis on the values between the samples", "quantifier": "all configurations with a dichotomy, any subpix, number of iterations, images, ROIs, disparities or estimation, all pixels whose costs lead to a position, all positions", "why_tests_cant": "tests compare recorded refined maps of a few images; they cannot bound the distance to the true position for every position and number of iterations", "anchors": ["pandora2d/refinement/dichotomy.py:Dichotomy.refinement_method", "pandora2d/interpolation_filter/bicubic.py:Bicubic.get_coeffs", "pandora2d/disparity/disparity.py:Disparity.compute_disp_maps", "pandora2d/__init__.py:main"]}
{"id": "C107", "title": "The command line runs the configuration of its first file into the folder of its second one", "statement": "A command line runs the pipeline exactly when it consists of two file names and of any number of verbose options (-v, -vv, --verbose or an abbreviation of it) at any place, -- making file names of everything after it; the first name is the configuration, the second one the output folder. A string that begins with - is a file name after -- only, or when it is -, a negative number, or has a space and is no option. The options change nothing to what is written; any other line writes nothing. The files are those of C95 in the folder that was given", "quantifier": "all lists of strings", "why_tests_cant": "tests call the parser on one or two command lines; file names that look like options, abbreviations and places of the options are not tried", "anchors": ["pandora2d/Pandora2d.py:get_parser", "pandora2d/Pandora2d.py:main", "pandora2d/__init__.py:main"]}
{"id": "C108", "title": "Criteria and costs agree", "statement": "A point of the cost volumes has a cost exactly where its criteria are VALID: for the disparities the user asks, no point flagged by the criteria has a cost and every VALID point has one.", "quantifier": "every pair of images, masks, window, disparity intervals (constant or by pixel), refinement margins and cost measure, subpix 1 and step 1", "why_tests_cant": "tests check the criteria and the cost volumes apart, on small arrays; both follow separate code (masks and slices here, shifted images and Pandora there)", "anchors": ["pandora2d/criteria.py:get_criteria_dataarray", "pandora2d/matching_cost/matching_cost.py:compute_cost_volumes", "pandora2d/img_tools.py:shift_disp_row_img"]}
{"id": "C109", "title": "The saved pipeline has the user's values, and the documented defaults elsewhere", "statement": "In the checked configuration, and in the one that is saved, every value the user writes in a step of the pipeline is kept as it is read; a key left out has the default of the user guide, and no other key appears. The exceptions: a dichotomy does at most nine iterations, the window and the step of the optical flow are those of the matching cost, the window size, subpix and spline order left out of the matching cost are given by Pandora", "quantifier": "every configuration that is accepted, every step, every key", "why_tests_cant": "tests compare the completed configuration of a few literal configurations; no test has all the keys of a step left out, or values of another type in them", "anchors": ["pandora2d/check_configuration.py:check_pipeline_section", "pandora2d/check_configuration.py:check_conf", "pandora2d/state_machine.py:Pandora2DMachine.check_conf", "pandora2d/estimation/phase_cross_correlation.py:PhaseCrossCorrelation.check_conf", "pandora2d/disparity/disparity.py:Disparity.check_conf", "pandora2d/refinement/optical_flow.py:OpticalFlow.check_conf", "pandora2d/refinement/dichotomy.py:Dichotomy.check_conf"]}
{"id": "C110", "title": "The keys of a configuration can be written in any order, but for the steps", "statement": "Two configurations with the same keys and the same values at every level are both accepted or both refused, and when they are accepted the two checked configurations have the same values, whatever the order in which the keys are written. The runs give the same disparity maps and save configurations with the same values, or both stop with an error. The only order that matters is the one of the steps of the pipeline.", "quantifier": "all pairs of configurations with the same values and the steps of the pipeline in the same order", "why_tests_cant": "tests write each configuration in one order; the number of orders grows with the factorial of the number of keys", "anchors": ["pandora2d/check_configuration.py:check_conf", "pandora2d/check_configuration.py:check_input_section", "pandora2d/check_configuration.py:check_pipeline_section", "pandora2d/check_configuration.py:check_roi_section", "pandora2d/state_machine.py:Pandora2DMachine.check_conf", "pandora2d/state_machine.py:Pandora2DMachine.run", "pandora2d/__init__.py:main"]}
