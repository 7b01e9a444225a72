# Formal model of Pandora2D: design

The model is written in Rocq/Coq 8.16.1, in `rocq/theories` (logical name `Verif`).
It is a shallow model: each Python function becomes a total Gallina function that follows it branch by branch.
Errors raised by Python are values (`None`, or a constructor of an error type).
Comments above the definitions give the file and the lines of `/repo` that they model, and say what was simplified.

## Layout

* `Base/*.v`   lists, integer ranges, python slices, arrays, dictionaries, JSON values, extended numbers.
* `Model/*.v`  definitions only, one file per Python module (or group of functions).
* `Spec/*.v`   small independent specifications used in the statements. They do not call the functions of the model.
* `Proofs/*.v` lemmas.
* `Props/*.v`  the final theorems (named after the property), the concrete examples beside them, and `Print Assumptions` for each of them.

Names: a theorem `Cnn_..._partial` proves a part of the property (the comment says what is missing);
`Cnn_..._refuted` shows that the property is false of the code, with a witness.
A property that is false is kept as stated, with its refutation and with the part that is true.

## Numbers

| python value | model | remark |
|---|---|---|
| costs, scores (float32) | `ext` = NaN, -inf, `Fin z`, +inf with z in Z | the disparity step only compares and copies; a finite float32 x is the integer x * 2^149, so the order is exact |
| interpolated costs of the dichotomy | `ext`, the filter is any function, `store` is any rounding to float32 | only order and copies are used |
| disparities (float32 / float64) | Z, in units of 1/subpix (matching cost) or 1/one pixel with one a power of two (dichotomy) | dyadic numbers, the arithmetic on them is exact |
| disparities of optical flow, of the interpolation method | `option Q`, None is NaN | rounding is not modelled |
| bicubic coefficients | Q | exact arithmetic, rounding is not modelled |
| cardinal sine coefficients | R | idem |
| image values | abstract type or Z | only moved around, never computed with |
| disparity grids | Z | grids are integer images |
| affine transforms, statistics | Q | rounding is not modelled |
| JSON numbers | Z, Q, NaN, infinities | |

## External code

Pandora (cost functions, `get_disparity_range`, `get_coordinates`, `get_window`, `update_conf`, `check_dataset`, margins),
scipy (`zoom`, `shift`, `interp2d`, `minimize`), scikit-image (`phase_cross_correlation`), `transitions`, `json_checker`, rasterio,
xarray and numpy are not in `/repo`. What the model assumes about them is written next to the definition that
stands for them: either a definition that gives the documented behaviour (numpy slices, `array_split`, `argmax`, broadcasting, `interp`,
`nanquantile`, `transitions`, `update_conf`, `json_checker`), or a section variable, that is a universally quantified argument of the theorems
(cost functions, interpolation, optimiser, least squares, phase correlation). No axiom is added.

## What is modelled

| file of `pandora2d` | model | not modelled in this file |
|---|---|---|
| `disparity/disparity.py` | DisparityModel, ConfigModel | constructor |
| `common.py` | CommonModel, RoiModel, DatasetModel, OutputModel (files written) | the bytes of the rasters, the crs |
| `matching_cost/matching_cost.py` | MatchingCostModel, ConfigModel | the properties that read the configuration (`_step`, `_window_size`, `_subpix`, `_spline_order`); the cost of Pandora is a variable |
| `img_tools.py` | ImgShiftModel, InputModel, RoiModel, EstimationModel, DatasetModel | reading of files; the values interpolated by scipy are variables |
| `criteria.py` | CriteriaModel | |
| `check_configuration.py` | ConfigModel, InputModel, DatasetModel, MachineModel, CheckConfModel | nothing; `check_images`, `rasterio_can_open*`, `update_conf` and `concat_conf` are Pandora's: the first three are parameters, the last two are modelled |
| `state_machine.py` | MachineModel, WholeModel, EstimationModel | |
| `__init__.py` | WholeModel (`main` as a whole), MachineModel, MainModel, PipelineModel, CheckConfModel, WholeFilesModel (`main` with the files it writes) | logging set up by `main` |
| `refinement/dichotomy.py` | DichotomyModel, ConfigModel |  |
| `interpolation_filter/*.py` | FilterModel, DichotomyModel, ConfigModel, RegistryModel (`__new__`, `register_subclass`) | `desc`, the margins of the bicubic filter as a property, the use of `meshgrid` in `compute_coefficient_table` (each row is modelled) |
| `refinement/optical_flow.py` | OpticalFlowModel, LucasKanadeModel, ConfigModel | gradients and matrices of one iteration are in LucasKanadeModel; np.linalg.lstsq and the resampling are variables |
| `refinement/interpolation.py` | InterpolationModel, ConfigModel | `wrapper_interp2d`: interp2d and minimize are variables |
| `refinement/refinement.py` | ConfigModel, RegistryModel (`__new__`, `register_subclass`) | `desc`, abstract methods |
| `estimation/estimation.py` | EstimationModel, RegistryModel (`__new__`, `register_subclass`) | `desc`, abstract methods |
| `estimation/phase_cross_correlation.py` | EstimationModel, ConfigModel | constructor; the phase correlation is a variable |
| `statistics.py`, `reporting.py` | StatisticsModel, MainModel, ReportModel (dictionary of report.json) | `__str__`, the text of the JSON file |
| `profiling.py` | ProfilingModel (decorator and monitoring thread), OutputModel (table, summary, values of the figures) | `get_current_memory`, the drawing of the figures, the small methods of the data classes |
| `Pandora2d.py` | CommandModel | the text of the help and of the error messages |

"Modelled" means that at least 60 % of the lines of each other function are cited by a definition of the model; the comment of the
definition gives the lines and what was simplified. WholeModel composes
the models of the functions into `main`, for every pipeline. Theorems about whole runs: no refinement (C38, C72, C74, C79, C84 - C86), after an
estimation (C76), with each refinement method (C72, C81 - C83, C87), and for every pipeline that ends without error (C77, C80).

Nothing is modelled of logging, of the text of error messages, of memory use, and of floating point rounding where the table of numbers
says so. Aliasing of Python objects is modelled only where a property is about it: the dataset saved (C42, C67), the configuration
changed by the estimation (C48), the state kept by the machine (C20, C21, C45 - C47).

## Properties

| id | property | model and method | status | file in `Props` | remark |
|---|---|---|---|---|---|
| C01 | Winner-takes-all score is the best cost of the user range | `extrema_split`, `arg_split`, `get_score`, `compute_disp_maps`: refinement to a function of one pixel, then order theory | proved | WtaProps | any chunk size, margins, NaN pattern, both measures |
| C02 | Winner-takes-all disparities each reach the best cost | idem | proved | WtaProps | also gives the tie breaking rule (smallest disparity on each axis) |
| C03 | The returned disparity pair has the reported cost | idem; counter-example with ties | partial | ExactProps, WtaProps | false as stated when several pairs share the best cost: witness 2x2 disparities; true when the optimum is unique; C03_exact: true exactly when one best pair has the smallest column and the smallest row disparity of all the best pairs |
| C04 | A pixel is invalid exactly when nothing could be computed | idem; characterisation of the invalid mask | proved | WtaProps |  |
| C05 | Chunked processing changes nothing | idem, with an arbitrary chunk size: lemmas on splits and block assignments | proved | WtaProps |  |
| C06 | Margins used by refinement never leak in the disparity maps | ranges, margins, python slices with negative indices: arithmetic | proved | MatchingCostProps | both for the indices over which C01-C04 quantify and for the coordinates kept by the disparity step |
| C07 | Per pixel disparity ranges are respected | composition of C08 and C02 | proved | MatchingCostProps | cost function is any function that never gives the worst infinity; step [1, 1] |
| C08 | Masking by disparity range touches exactly the points out of range | loop of masked assignments on 4D arrays: induction over the loop | proved | MatchingCostProps |  |
| C09 | Criteria flags mean what they say | criteria functions on 4D arrays of bit sets: induction over the loops, bitwise reasoning | proved | CriteriaProps | integer disparities (with subpix > 1 and a right mask the code raises a TypeError); Pandora's binary_dilation_msk is modelled |
| C10 | Unprocessed disparities and borders override every other criteria | idem | proved | CriteriaProps |  |
| C11 | ROI margins cover the disparity search and the pipeline margins | `get_roi_processing` on integers and grids: linear arithmetic | proved | RoiProps | for a range on one side of zero the margins are larger than needed (last theorem); a mix of a constant and a grid raises a TypeError |
| C12 | Removing ROI margins gives exactly the user ROI | `remove_roi_margins` with python slices: arithmetic progressions | proved | RoiProps | float division modelled by exact division |
| C13 | The first point of the ROI is always computed, whatever the step | `get_coordinates` and margins clipping: modular arithmetic | proved | MatchingCostProps | contract: Pandora's get_coordinates and the window read start at max(0, first - margin) |
| C14 | Saved maps are correctly georeferenced | affine transforms on Q: ring | proved | RoiProps | exact rational arithmetic instead of floats; contract: Pandora gives the transform of the whole image to the dataset |
| C15 | Disparity grids: width, orientation and source interval | `get_min_max_disp_from_dicts`, `add_disparity_grid`: minimum and maximum over lists | proved | InputProps | integer grids; loaded part of at least two rows and two columns for files, see C44 |
| C16 | Disparity ranges accepted by the configuration check reach the image | `check_disparity`: linear arithmetic | proved | InputProps |  |
| C17 | Configuration completion keeps what the user wrote and is stable | JSON dictionaries, `update_conf`: structural induction | proved | ConfigProps | update_conf is Pandora's, modelled from its source; the matching cost part is for a Pandora check that keeps given values and accepts what it completed |
| C18 | Accepted pipelines are exactly the documented sequences | the machine of `transitions` as a function on a state record: induction over the steps | proved | MachineProps | constructors of the steps are parameters; the transitions library is modelled (first matching transition, errors) |
| C19 | A pipeline that was checked can be run | idem | proved | MachineProps | previous use: any sequence of successful checks and runs |
| C20 | A failed check leaves the machine usable | idem; counter-example | partial | HistoryProps, MachineProps | false: a failure of a step that is not the first one leaves the machine in an intermediate state; true when the first step fails |
| C21 | Checks of successive pipelines are independent | idem; counter-example | partial | MachineProps | the verdict is independent; the completed pipeline and the margins keep steps of earlier pipelines |
| C22 | Estimation centres the disparity range on the estimated shift | rounding of rationals to nearest even: arithmetic | proved | EstimationProps | the phase correlation is a parameter (any shift) |
| C23 | A row disparity compares the left row with the right row at that distance | `shift_disp_row_img`, `row_zoom_img`: arithmetic on floor and mod | proved | MatchingCostProps | scipy's zoom is any function on the fractional rows |
| C24 | The cost volume stores each cost at its own coordinates | `compute_cost_volumes`: induction over the loop on row disparities | proved | MatchingCostProps | Pandora's 1D cost is any function of the shifted right image |
| C25 | Dichotomy never degrades the matching cost | `search_new_best_point` and the loop of the refinement, any interpolation: invariant over the precisions | proved | DichotomyProps | any filter, any monotone and idempotent rounding to float32; costs are not the worst infinity; see C53 for the score map |
| C26 | Dichotomy moves stay below one sampling step and land on the announced precision | idem | proved | DichotomyProps | dyadic disparities, exact arithmetic |
| C27 | Dichotomy leaves invalid pixels and range edges alone | idem | proved | DichotomyProps |  |
| C28 | Interpolation never reads outside of the cost surface | positions and windows of `interpolate`: invariant and arithmetic | proved | DichotomyProps | inputs as given by the previous steps (predicate ready), step of 1 (see C51) |
| C29 | Bicubic filter is an interpolation | bicubic coefficients on Q: ring, field | proved | FilterProps | exact rational arithmetic |
| C30 | Cardinal sine filter is an interpolation | cardinal sine coefficients on R | proved | FilterProps | exact real arithmetic (axioms of the standard library's reals) |
| C31 | Optical flow stays near the initial disparities and inside the range | optical flow with any least squares: induction over the iterations | proved | OpticalFlowProps | for every least squares and resampling; exact rational arithmetic; without ROI (with a ROI and a step see C55) |
| C32 | Optical flow compares windows centred on each pixel | index arithmetic on windows | proved | OpticalFlowProps | windows of the matching cost size (the state machine gives this size); whatever the content of uninitialised memory |
| C33 | Interpolation refinement returns each result at its pixel | `rollaxis` and `reshape` as maps of indices | proved | InterpolationProps | for every interpolation and optimiser (range: optimiser that respects its bounds); exact rational arithmetic |
| C34 | Statistics are within bounds and ignore invalid pixels | statistics on lists of Q: permutations, order | proved | StatisticsProps | exact arithmetic, no infinite valid disparity; the standard deviation is modelled by its square; NaN pixels that are not the invalid value: see C63 |
| C35 | Profiling does not change results | two threads and a pipe as a transition system: invariant over all the interleavings; for the whole run, erasing the section commutes with every function that reads or writes the configuration and with the machine | proved | ExpertRunProps, ProfilingProps | any interleaving of the two threads; the file of the profiling can be written (see C66); the function does not read the profiling file |
| C36 | Malformed datasets are refused before processing | checks as boolean functions: case analysis | proved | DatasetProps | Pandora's check_dataset is a parameter |
| C37 | Parameters are accepted exactly in their documented domains | idem, iff | proved | ConfigProps | whether json_checker takes booleans for integers is a parameter |
| C38 | Every pixel of the saved maps comes from its own pixel | composition of the models of the matching cost, the disparity step, the dichotomy and the saving | proved | PipelineProps | Pipelines matching_cost, disparity, optional dichotomy refinement, saving with or without ROI; step of 1 (any step without refinement when the interval is the same for all the pixels). The cost function of pandora, the interpolation of the images and the filter are arbitrary; costs are never the worst value of the measure and are float32 values. |
| C39 | Masked right pixels are not matched | masks of the shifted images | partial | MatchingCostProps | false: the right mask is dropped by shift_disp_row_img; only no data values are marked |
| C40 | Per pixel ranges with a step | grids of the image on the sub sampled volume | partial | MatchingCostProps, WholeGridProps | false: full resolution grids index the sub sampled volume, it raises or masks another pixel; C40_exact says exactly when it raises and which pixel is used otherwise; C94 shows that only the first can happen in the whole program |
| C41 | The matching window of every pixel of the ROI is loaded | margins of the ROI and windows | partial | ExactProps, RoiProps | false: margins are the maximum and not the sum of the displacement and of the window; C41_exact: with the margins of the window only, true exactly when 0 is the only disparity |
| C42 | Saving the maps several times writes the same georeference | two saves | partial | ExactProps, RoiProps | true with a ROI, false without: the transform is scaled in place; C42_exact: without ROI, true exactly when both steps are 1 |
| C43 | Accepted disparity ranges are useful | boundary of C16 | partial | ExactProps, InputProps | false when |init| - range is exactly the size of the image, true otherwise; C43_exact is the equivalence |
| C44 | Disparity grid files work for every loaded part | np.squeeze on an axis of length 1 | partial | InputProps | false: np.squeeze removes the axis of length 1; true otherwise |
| C45 | A pipeline that a new machine refuses is never accepted | histories of checks on one machine | partial | HistoryProps, MachineProps | false after a failed check; true after successful ones, see C18 |
| C46 | A run executes the steps | idem | partial | HistoryProps, MachineProps | false after a failed check: the callbacks of the check are called instead of those of the run; true after a successful one, see C19 |
| C47 | A failed run leaves the machine usable | idem | partial | HistoryProps, MachineProps | false: run_exit is not called |
| C48 | A configuration that was used can be used again | estimation, then its own check | partial | EstimationProps | false: the keys added by the estimation are refused by its own check, always |
| C49 | The disparities of the right dataset follow the estimation | grids of the two datasets after the estimation | partial | EstimationProps | false: only the left dataset is updated; the right one keeps -9999; no step reads the right grids |
| C50 | Steps are integers | schema of the step | partial | ConfigProps | false: [1.5, 1] is accepted, Pandora sees the column step only; C37_matching_cost and C37_step give exactly the steps accepted |
| C51 | Dichotomy works with every step | broadcasting of numpy | partial | DichotomyProps | false: numpy cannot broadcast the grids of the image with the maps |
| C52 | Dichotomy refines every matched pixel | a matched disparity equal to the invalid value: witness | partial | DichotomyProps, RefineMoreProps | false: the disparity is taken for the invalid one, the score becomes NaN; C52_exact: true exactly for the pixels none of whose two disparities is the invalid value |
| C53 | Dichotomy never degrades the score map | C25 against the score map | partial | DichotomyProps, RefineMoreProps | false with equal costs; C53_unique_optimum: true when one disparity only has the best cost |
| C54 | Bicubic resampling is exact at every position | fraction replaced by 511/512 in `interpolate`: witness | partial | FilterProps | false: the fraction is replaced by 511/512 just below an integer; C54_exact: the value is always that of the quadratic at the position used, which is the one asked for everywhere else |
| C55 | Optical flow works with a ROI and a step | shapes of grids and maps | partial | ExactProps, OpticalFlowProps | false: the grids taken every step do not have the shape of the maps; C31_range: true when they have (in particular without ROI); C55_exact: it fails exactly when the shapes differ |
| C56 | Optical flow refines every point of the ROI | margins and border of the maps | partial | OpticalFlowProps | false when the steps differ (row and column are exchanged in the margins); true when the margin of an axis is made with the step of that axis |
| C57 | Optical flow invalidates row and column together | each map is compared with its own grid: witness | partial | OpticalFlowProps | false: each map is checked alone; C57_exact: each map is invalidated exactly when its own refined value is out of its range |
| C58 | Optical flow corrects the displacement it measured | windows of the second iteration | partial | OpticalFlowProps | true for whole disparities, false for fractional ones |
| C59 | Optical flow keeps invalid pixels invalid | distance between the invalid value and the range: induction over the iterations | partial | FlowInvalidProps, OpticalFlowProps | false in general (C59_invalid_refined_refuted). C59_exact: for a finite invalid value, an iteration at least and a range, the pixels stay invalid (or NaN) in all runs exactly when no value of the range is at less than one pixel per iteration of the invalid value; true when the invalid value is NaN (C59_nan_kept) |
| C60 | Interpolation refinement stays in the range of the user | bounds of the optimiser | partial | InterpolationProps | false: the bounds include the margins of 3 disparities; true for the range of the cost volume |
| C61 | Interpolation refinement keeps the sign of the score | abs of the measure | partial | ExactProps, InterpolationProps | false: abs() changes the sign of negative correlations; true when the interpolated measure is not negative; C61_exact is the equivalence |
| C62 | Interpolation refinement keeps invalid pixels | cost surfaces with missing costs, margins of the range | partial | InterpolationProps | false: the invalid disparity becomes NaN or a disparity taken from the margins; without any cost the result is NaN |
| C63 | Pixels without disparity are not counted as valid | counting of NaN | partial | ExactProps, StatisticsProps | false with NaN pixels and a numeric invalid value; true otherwise; C63_exact is the equivalence |
| C64 | The monitoring thread stops after the call | transition system of C35: invariant, counter-example | partial | ProfilingProps | false when the function raises, as long as the traceback is kept; true after a return or once the frame is freed |
| C65 | The profiling row holds the measured values | idem | partial | ProfilingProps | false when the first poll times out; true otherwise |
| C66 | Profiling never loses a result | idem | partial | ProfilingProps | false when the file cannot be written; true otherwise |
| C67 | The report describes the saved maps | composition of C12, C34 and the saving | partial | MainProps | false with a ROI: the statistics include the margins; true without ROI |
| C68 | A completed configuration is accepted again | fixpoint of the merge of the completed sections, induction over the steps of the machine | proved | CheckConfProps | for a Pandora check of the matching cost that completes its three values with integers and accepts again what it completed |
| C69 | The saved configuration can be used again | C68; key outside the schema of the ROI | partial | CheckConfProps | false with a ROI: its section is saved with the margins, which the schema refuses, always; true without ROI |
| C70 | Exactly the described configurations are accepted | exact characterisation of every section, of the merge of the defaults and of the machine, put together; the check and the whole run read the configuration through four lookups only (Props/OtherSectionsProps.v) | proved | AcceptProps, OtherSectionsProps | for a Pandora check of the matching cost with the contract of C68 and non-empty images; opening a file, the sizes and masks of the images (Pandora's check_images) and the window size, subpix and spline order are parameters |
| C71 | A machine is recoverable and predictable after failures | invariant of the pending transitions over histories: lists of the two sets of transitions, the first one decides | proved | HistoryProps | what the failed step itself left in the data is not modelled |
| C72 | The saved maps are what the configuration asks for | C70 for the check, C68 for the values that are kept, C38 for the maps, put together along main | proved | WholeProps | stated on the configuration as written by the user and on the saved maps; libraries (Pandora's checks, costs and loading, scipy, rasterio) are parameters with the contracts of `libraries` and `dichotomy_libraries`; with grids at least two rows and columns are asked for (C44); with grids and a step main fails (C72_grids_with_step_refuted, see C40) |
| C73 | A run can be repeated from its configuration | main depends on the configuration through its check only; C68, C69; only an estimation changes the configuration (induction over the run) | partial | WholeProps | the completed configuration always gives the same results; the saved one does without ROI and estimation, and never with a ROI (C69); with an estimation see C48 |
| C74 | The saved disparities are optimal | C72 for the window and the intervals; the cost volumes hold the cost of every candidate pair inside the intervals and nothing outside; winner-takes-all (C04) on them | proved | WholeProps | with the contracts of `libraries` and `cost_contract` (Pandora's cost at a column disparity depends on the pixel and the disparity only, and is never the worst value of the measure); the images are the window loaded by main; row and column are each shown to be part of a best pair, as in C04: with several best pairs the two may come from different pairs |
| C75 | The saved configuration is the one that was run | only an estimation changes the configuration (induction over the run); the ROI changes by assignments to one key | proved | DefaultsProps, WholeProps | for a Pandora check of the matching cost with the contract of C68; the string NaN is saved as the number |
| C76 | With an estimation, the whole program searches around the estimated shift and finds the best disparities | the lemmas of C72 and C74 are proved for a run with or without estimation: the request that is answered is then the one with the rounded opposites of the estimated shifts; the margins of the ROI come from the default disparities -9997 +- 2 | proved | WholeProps | From the configuration written by the user to the saved maps; the estimation method (scikit-image) is any function of its section and of the two loaded images. |
| C77 | The saved maps are georeferenced where they come from, and the report describes them | the transform is carried unchanged from create_datasets to the saved maps; adjust_georeferencement (C42) on the coordinates known from C72; report and saved maps come from the same maps, cropped or not | proved | WholeMoreProps | for the pipelines of C72 and C76, libraries are parameters with the contracts of `libraries`; with a ROI the report is made from the maps of the loaded window, margins included |
| C78 | The disparities of a pixel do not depend on the ROI | two optima (C74) over the same candidates with the same costs are equal; with an estimation both runs load the whole image (C76); otherwise the loaded window contains the windows around all pairs that have a cost | partial | WholeMoreProps | true with an estimation for images of at most 9995 rows and columns; without estimation, true for the pixels farther than the half window from the borders of the ROI, for any subpix, constant disparities or grids (any step with constants, a step of 1 with grids), for a cost that only depends on the window (contract local_cost: spline_order 1); the same after the refinements is C99; false for the other pixels: the margins of the window and of the disparities are not added (C78_roi_refuted: SAD 3x3, a pixel of the border of the ROI gets another disparity and a worse score) |
| C79 | A larger search never gives a worse score | the optimum of the smaller search is a candidate of the larger one (C74 for both) | proved | WholeMoreProps | without ROI; both saved maps are those of C74; any step with constant disparities, a step of 1 with grids |
| C80 | Every pipeline saves maps of the pixels asked for, georeferenced, and reports them | closed form of main for every pipeline (main_ready, finish); each refinement method returns maps with the size of the volumes | proved | WholeEveryProps | libraries are parameters with the contracts of `libraries`; partial correctness: main is assumed to end without error (C72, C76, C81 prove it for some pipelines) |
| C81 | Disparities of the whole program with an interpolation | C80; the bounds of the optimiser are the ends of the disparities of the volumes (C33), which are the extrema of the intervals enlarged by the margins | proved | WholeEveryProps | with the contracts of `libraries` and an optimiser that respects its bounds; that the disparities stay in the interval of the user is false (C60, here for the whole program: C81_user_interval_refuted) |
| C82 | After an optical flow the saved disparities stay near the optimal ones | closed form of main (main_ready), optimality of wta (run_best), then one loop invariant for the flow of a pixel: distance to the optimum bounded by the number of iterations, interval tested at the end | proved | WholeRefineProps | libraries are parameters with the contracts of `libraries` and `cost_contract`; a ROI together with a step > 1 is not covered (it fails when the shapes differ, C55) |
| C83 | After a dichotomy the saved disparities are those of wta plus a small dyadic number, with a score at least as good | closed form of main, optimality of wta, then the theorems of the dichotomy on the surface of the pixel (C42-C45) | proved | WholeRefineProps | libraries are parameters with the contracts of `libraries`, `dichotomy_libraries` and `cost_contract`; step of 1 (with a larger step the grids have not the size of the volumes: C40) |
| C84 | The step only chooses the pixels | both runs are optimal for the same costs (C74); the optimum with its tie rule is unique | proved | WholeCompareProps | contracts `libraries`, `cost_contract` and `step_free`; with grids a step > 1 is an error or wrong (C40) |
| C85 | A ROI that contains the whole image changes nothing | the sections of both checked configurations are equal, the window loaded is the whole image in both cases, then as C84 | proved | WholeCompareProps | contracts `libraries` and `cost_contract`; pipelines without refinement (with an estimation: C78_estimation_roi, for every ROI) |
| C86 | A subpixel search never gives a worse score | both runs are optimal (C74); the candidates of the first are candidates of the second with the same cost (exact shift by whole rows) | proved | WholeCompareProps | contracts `libraries`, `cost_contract` and `same_at_whole` |
| C87 | A refinement stays near the result without refinement | C82 and C83 against C74: the optimum with its tie rule is unique | proved | WholeCompareProps | contracts of C82 and C83; without ROI (a refinement changes the margins, hence the part of the image that is loaded) |
| C88 | The dichotomy keeps the best of nine points at each precision, and nothing else | invariant of the loop on the precisions; the nine candidates are put in bijection with the nine directions; np.nanargmin characterised with its tie rule | proved | HalvingProps | filter and rounding to float32 are arbitrary; the starting cost is not the worst infinity (C52 - C53 for what happens before) |
| C89 | The dichotomy finds the optimum of a separable cost with its precision | induction on the precisions: the optimum stays within twice the next precision of the current point; exactness of the bicubic filter (C29) transported to the units of the dichotomy | proved | HalvingProps | costs are integers (units of the float32 numbers), not rounded by the storage; bicubic filter in exact arithmetic |
| C90 | The dichotomy finds the optimum of a convex cost with its precision (refuted) | counterexample: narrow valley in the direction (2, 1), that none of the eight moves follows | partial | HalvingProps | the statement is false; what is missing is a property of the algorithm, not a proof: only sums of functions of one disparity are covered by C89 |
| C91 | After a dichotomy, main saves exactly the result of the search from the optimal disparities | C88 applied to the volumes of the run: the samples read by the filter are the costs of the pixel (C74), the surface depends on them only, the search is transported from the volumes to the costs | proved | WholeExactProps | contracts `libraries`, `dichotomy_libraries` and `cost_contract`; steps of 1 (with other steps main fails, C98); the three cases of the searched pixel exclude each other, so that the result is determined |
| C92 | After an optical flow, main saves exactly the moves measured in the windows of each pixel | C32 (each pixel refined in its own windows) with the check of the range, transported from indices to coordinates of the images; C82 is now derived from it | proved | WholeRefineProps | contracts `libraries` and `cost_contract`; with a ROI, steps of 1 (otherwise the coordinates do not match, C55); infinite invalid values are seen as NaN by the flow |
| C93 | After an interpolation, main saves exactly what the optimiser finds from the optimal disparities | C33 (each pixel from its own samples) applied to the volumes of the run; samples of the volumes related to the costs for constant ranges and for steps of 1 | proved | WholeInterpProps | contracts `libraries` and `cost_contract`; interp2d and minimize are arbitrary functions (no contract needed); infinite invalid values are seen as NaN by the optimiser |
| C94 | With a step, main ends without error exactly when the initial disparities do not change in the window, and its results are then right | exact condition of failure of the masking (C40_exact); all intervals have the same width, so an interval equal to the union of all is shared by all pixels | proved | WholeGridProps | contracts `libraries` and `cost_contract`; at least two rows and columns are asked for (C44); completed for the refinements by C98 |
| C95 | The files of the output folder are those of this run and nothing else is touched | invariants of the sequence of actions on the disk: what each one writes and that it leaves the other files; composed with C74 and C80 | partial | OutputProps | refuted: with a pipeline without disparity step, maps of an earlier run stay in the output folder beside the new configuration; proved: with a disparity step every file of the folder is of this run. The disk is a model: folders, files and their contents (no rights, links or concurrent processes) |
| C97 | The profiling table has one row for each step of the run, and the figures add up | the names of the table and of the figures end differently from the names of the other files; induction on the sequence of runs; induction on the rows for the figures | partial | OutputProps | refuted: rows of an earlier failed profiled run appear in the next table (C97_leftover_refuted); an accepted folder_name inside a missing folder stops the program after everything is saved (C97_nested_refuted); the boxes of a function called several times are quartiles of (mean, sum) and not of the calls (C97_box_refuted) |
| C96 | report.json describes the rasters beside it | sorting and interpolation of the sorted numbers as in C34, read through the keys of the dictionary; composed with C95 | partial | ReportProps, WholeReportProps | refuted: report.json is not standard JSON when no pixel is valid (C96_standard_refuted), and an invalid value that is not a float32 is counted as a disparity (C96_float_refuted). Exact arithmetic; the square root is an arbitrary function; maps with infinite disparities that are not the invalid value are not modelled |
| C98 | When a run on a grid with a step ends without error | exact condition of failure of the masking (C40_exact) carried through main by its closed form; the dichotomy compares the shapes of grids and maps, that differ with a step | proved | WholeEndProps | contracts `libraries` and `cost_contract`; two_lines: at least two rows and columns are asked for; optical flow with a ROI and a step is C55 (it fails when the shapes differ) |
| C99 | A ROI does not change the refined disparities of its inner pixels | the exact results of C91, C92 and C93 with and without ROI: the loaded window contains what the refinement reads around the candidates (window_reaches), so both searches start from the same optimum (C78) and read the same samples; uniqueness of the search (halving_near), of the iterations (refined_eq) and of the completed table (completed_alike) | proved | WholeRoiProps | contracts `libraries`, `cost_contract`, `dichotomy_libraries`, local_cost (the cost of a pair only depends on the window) and, for the optical flow, that the loaded part of the image is the one of the file (loaded_parts); for the interpolation, interp and minimise only depend on numbers (uses_numbers) and the invalid value is an integer, infinite or NaN (single_value: floats are only known up to the precision of the model); for the other pixels see C78_roi_refuted |
| C100 | One iteration of the optical flow is the least squares motion explained by the slopes of the left window | normal equations by completing squares over Q: a least squares solution is unique when two slopes are not parallel, and zero error decides it; gradients of lists are the slopes of functions by cases on the position | partial | LucasKanadeProps | the solver is any one that returns the least squares solution of least norm (least_squares: the documentation of np.linalg.lstsq, rounding and small singular values apart); resampling with no motion keeps the window (keeps_windows). Refuted: a constant brightness between both images moves the disparities (C100_brightness_refuted), and a motion without texture along it is not measured (C100_without_texture_refuted) |
| C101 | The true disparities of a pixel are saved when its windows are identical, and exact to less than a pixel when the slopes explain the difference | the optimum of C74 and the exact form of C92: a strict optimum is the starting point, and C100 gives what the iterations do from it | proved | WholeMatchProps | contracts `libraries`, `cost_contract`, least_squares and keeps_windows (see C100), for C101_translation measures_difference (true of SAD and SSD: the cost is zero exactly on identical windows), for C101_subpixel the resampling undoes the motion; pixels away from the borders (C54, C92), disparities strictly inside the intervals and different from the invalid value |
| C102 | Only the order of the costs matters, and rows and columns play the same part | from C74: the best pair is characterised by the order of the costs only, and symmetrically in rows and columns (best_order, best_turned) | proved | WholeOrderProps | contracts `libraries` and `cost_contract`; the relation between the costs of both pixels is a hypothesis, met by the images of the examples |
| C103 | The methods named in a configuration give the classes of the user guide, with plugins or not | induction on the registrations from the last one; a permutation of modules with distinct names finds the same classes | partial | RegistryProps | proved for every order of the imports and plugins with names of their own; refuted: a plugin registered later under a name of the project replaces its class without any message (C103_replaced_refuted) |
| C104 | Moving the search by a translation moves the refined disparities by the same translation | from C91 and C92: the best pairs are translated (C102), then the search and the samples read by the filter, or the windows and the moves, are the same up to the translation (halving_moved, between_moved, refined_more) | proved | WholeMovedProps | contracts `libraries`, `dichotomy_libraries` and `cost_contract`; step 1; no candidate equal to the invalid value; the optical flow with subpix = 1 (whole disparities before it); the relation between what both pixels see is a hypothesis, met by the images of the examples |
| C105 | The optical flow after a subpixel search | C92 for any subpix; the window is the one of the truncated pair (displacement_truncated), the moves are those of C100, started from the untruncated disparities; a run with linear interpolations for the counterexample | proved | WholeFractionProps | exactly what is saved, hence a defect: with subpix > 1 the true disparity is saved only from whole starting disparities (C105_true), and C105_true_refuted gives a run in which the matching cost finds the true disparity and the optical flow spoils it by half a pixel; contracts `libraries`, `cost_contract`, `least_squares`, `keeps_windows`, and a resampling that undoes the motion of this window |
| C106 | main with a dichotomy finds the position the costs lead to, with the precision of the last iteration | C91 gives the search from the best pair; the best pair of samples is less than one sample from the goal (best_near), hence not at an end; each iteration halves the distance (halving_precise); moments of the bicubic coefficients for the exactness (bicubic_exact) | proved | WholeGoalProps | contracts `libraries`, `dichotomy_libraries` and `cost_contract`; step 1; the values are not rounded by `store`; no sample next to the goal equal to the invalid value; the samples read near the goal that are disparities of the window are candidates of the pixel (always the case with constant disparities) |
| C107 | The command line runs the configuration of its first file into the folder of its second one | CommandModel: classification of the strings by argparse, then one pass; equivalence with an inductive description of the lines; composition with C95 | proved | CommandProps | argparse is modelled for this parser (Python 3.9 to 3.11); a path named -- is not; reading the JSON file is a variable; C107_files under the contract of Pandora and without profiling, as C95 |
| C108 | Criteria and costs agree | C24 (costs) and C09, C10 (criteria) meet on the windows of both images: reason_iff translates the window of the moved right image | partial | CriteriaCostProps | false because of the masked right pixels: they have their flag and a cost (C108_valid_refuted; the matching cost drops the right mask, C39). C108_costs: exactly the VALID and the INVALIDITY_MASK_RIGHT points have a cost, for the asked disparities; C108_margins: the disparities of the refinement margins are all marked unprocessed, although they may have a cost. Pandora's masks are the contract `masks_contract`; steps 1 and subpix 1 (the criteria fail with another subpix) |
| C109 | The saved pipeline has the user's values, and the documented defaults elsewhere | induction over the steps triggered by the check of the machine, with the invariant that the machine knows the window and the step of the matching cost (trigger_all_from); then the two merges of update_conf | partial | DefaultsProps | false for the invalid disparity: the guide says NaN, the code gives -9999 (C109_documented_refuted). All the other defaults of Pandora2D are those of the guide, and the rest of the statement is proved; with an estimation the saved step also has its three results, hence C109_saved_absent is for pipelines without estimation; C109_pandora for a Pandora that keeps the values it is given; the defaults of Pandora itself are not modelled |
| C110 | The keys of a configuration can be written in any order, but for the steps | `same_values` (Spec/OrderSpec.v) relates two configurations with the same values. Acceptance goes through the description of C70: each field predicate respects the relation. The checked configurations: updates, constructors of the steps and the triggers of two machines that stay alike. The runs: every function that reads the configuration gives the same result, or a configuration with the same values, and the data of the two machines stay alike step after step (Proofs/OrderRunProofs.v) | proved | OrderProps, OrderRunProps | Pandora's check of the matching cost is a variable: its contract, and that it looks at the values and not at their order (`reads_values`), are hypotheses; for the runs, the same of the reading of the images and of the georeference, of the interpolation filter and of the phase correlation (`reads_only_values`); no key twice in a dictionary (`wf`). C110_steps_order_refuted: without the hypothesis on the steps the statement is false, as expected: the same values with the steps reversed are refused |

## Tests against wrong programs

`seeded/LOG.jsonl` has one line per wrong program: the definition edited in a copy of the model, the edit, the claim it breaks,
the theorems whose proof fails, and the theorems that were tightened because a wrong program had survived.

## Trusted base

Coq's kernel; the axioms printed by `Print Assumptions` (listed below);
the reading of the Python code by the modeller; the contracts on external code.

`Print Assumptions` is run for every final theorem in `Props/*.v`. All the theorems are closed under the global
context, except those of C30 that are about real numbers: they use the axioms of the standard library's reals
(some or all of `ClassicalDedekindReals.sig_not_dec`, `ClassicalDedekindReals.sig_forall_dec`,
`FunctionalExtensionality.functional_extensionality_dep`, `Classical_Prop.classic`).
