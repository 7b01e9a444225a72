(** Model of the whole program: pandora2d.main, from the configuration written by the user to the results. *)
From Coq Require Import List String Bool ZArith QArith.
From Verif Require Import Base.Ext Base.PyList Base.Arr Base.Json Model.CommonModel Model.DisparityModel Model.MatchingCostModel
  Model.DichotomyModel Model.RoiModel Model.InputModel Model.ConfigModel Model.DatasetModel Model.EstimationModel Model.OpticalFlowModel
  Model.InterpolationModel Model.MachineModel Model.CheckConfModel Model.PipelineModel Model.ImgShiftModel.
Import ListNotations.
Open Scope Z_scope.
Open Scope string_scope.
Open Scope list_scope.

(** The disparity maps kept by the machine: the ones of the disparity step and of the dichotomy are in units (see DichotomyModel), the ones of the
    optical flow and of the interpolation are rational numbers of pixels. Columns, rows, score. *)
Inductive maps :=
| InUnits (col row score : list (list ext))
| InPixels (col row : list (list num)) (score : list (list cost)).

(** The same number seen by each model: [k] units are 1. *)
Definition num_of_ext (k : Z) (x : ext) : num := match x with Fin z => Some (inject_Z z / inject_Z k)%Q | _ => None end.
Definition cost_of_ext (k : Z) (x : ext) : cost :=
  match x with Fin z => CFin (inject_Z z / inject_Z k) | NaN => CNan | PInf => CInf true | NInf => CInf false end.
Definition cost_of_num (x : num) : cost := match x with Some q => CFin q | None => CNan end.

(** Values read in the configuration. *)
Definition int_at (bool_ok : bool) (p : list string) (cfg : dict) : option Z := bind (get_path p (JDict cfg)) (as_int bool_ok).
Definition margins_json (m : Z * Z * Z * Z) : json := let '(a, b, c, d) := m in JList [JInt a; JInt b; JInt c; JInt d].
(** cfg["ROI"] once its margins have been written (__init__.py:110-112). *)
Definition roi_of (bool_ok : bool) (cfg : dict) : option roi :=
  bind (int_at bool_ok ["ROI"; "col"; "first"] cfg) (fun c0 =>
  bind (int_at bool_ok ["ROI"; "col"; "last"] cfg) (fun c1 =>
  bind (int_at bool_ok ["ROI"; "row"; "first"] cfg) (fun r0 =>
  bind (int_at bool_ok ["ROI"; "row"; "last"] cfg) (fun r1 =>
  match get_path ["ROI"; "margins"] (JDict cfg) with
  | Some (JList [JInt a; JInt b; JInt c; JInt d]) => Some (mkRoi c0 c1 r0 r1 (a, b, c, d))
  | _ => None
  end)))).
(** The steps (row, column) of a matching cost. Steps that are not integers are not modelled. *)
Definition mc_steps (bool_ok : bool) (j : option json) : option (Z * Z) :=
  match j with
  | Some (JList [a; b]) => match as_int bool_ok a, as_int bool_ok b with Some x, Some y => Some (x, y) | _, _ => None end
  | _ => None
  end.

(** refinement/interpolation.py:49 (UniformMargins(3)), refinement/optical_flow.py:92-95, refinement/dichotomy.py:83-91, interpolation_filter/bicubic.py:41-43,
    cardinal_sine.py:54-62: the margins of a refinement with its completed configuration. *)
Definition sinc_half (bool_ok : bool) (f : dict) : nat :=
  match lookup "size" f with Some j => match as_int bool_ok j with Some z => Z.to_nat z | None => 6%nat end | None => 6%nat end.
Definition filter_margins (bool_ok : bool) (f : dict) : margins :=
  match lookup "method" f with
  | Some (JStr s) => if s =? "bicubic" then bicubic_margins else sinc_margins (sinc_half bool_ok f)
  | _ => mkMargins 0 0 0 0
  end.
Definition refinement_margins (bool_ok : bool) (c : dict) : margins :=
  match lookup "refinement_method" c with
  | Some (JStr s) =>
      if s =? "dichotomy" then match lookup "filter" c with Some (JDict f) => filter_margins bool_ok f | _ => mkMargins 0 0 0 0 end
      else if s =? "interpolation" then mkMargins 3 3 3 3
      else match int_at bool_ok ["window_size"] c, mc_steps bool_ok (lookup "step" c) with
           | Some w, Some (a, b) => let '(l, u, r, d) := flow_margins w a b in mkMargins (Z.to_nat l) (Z.to_nat u) (Z.to_nat r) (Z.to_nat d)
           | _, _ => mkMargins 0 0 0 0
           end
  | _ => mkMargins 0 0 0 0
  end.

Section Whole.
  Context {px : Type} (px_eqb : px -> px -> bool) (nan : px).
  (** See CheckConfModel. *)
  Variable bool_ok : bool.
  Variable pandora_check : dict -> option (json * json * json).
  Variable matching_cost_margins : dict -> margins.
  Variable can_open_mandatory can_open : json -> bool.
  Variable images_ok : json -> json -> json -> json -> bool.
  Variable image_size : string -> nat * nat.
  Variable open_raster : string -> reader.
  (** Pandora's create_dataset_from_inputs: the image of a section of the input, in the window of this first row, number of rows, first column,
      number of columns; the georeference of the file. *)
  Variable load : dict -> Z -> nat -> Z -> nat -> image px.
  Variable transform_of : dict -> option affine.
  (** Pandora's check_dataset. *)
  Variable dataset_ok : image_dataset (image px) -> bool.
  (** Pandora's matching cost of this configuration: type_measure, offset_row_col, costs (see MatchingCostModel) with the left image; scipy's zoom of the
      right image. *)
  Variable measure_of : dict -> measure.
  Variable offset_of : dict -> Z.
  Variable pandora_cost : dict -> mc_input -> image px -> list (list px) -> list (list Z) -> nat -> nat -> nat -> ext.
  Variable zoomed : image px -> nat -> nat -> nat -> px.
  (** Units of the disparities and of the costs; see DichotomyModel. *)
  Variable one : Z.
  Variable store : ext -> ext.
  (** Values of an interpolation filter of this configuration. *)
  Variable filter_apply : dict -> list (list ext) -> Z -> Z -> ext.
  (** See OpticalFlowModel, InterpolationModel. *)
  Variable lstsq : list (list px) -> list (list px) -> option (num * num).
  Variable resample : list (list px) -> num -> num -> list (list px).
  Variable junk : nat -> list (list px).
  Variable interp : list Q -> list Q -> list (list cost) -> num -> num -> cost.
  Variable minimise : (num -> num -> cost) -> num * num -> (Q * Q) * (Q * Q) -> num * num.
  (** skimage's phase_cross_correlation with this configuration: shifts, error, phase difference. *)
  Variable estimate : json -> image px -> image px -> (Q * Q) * json * json.
  (** Pandora's GlobalMargins: global_margins and to_dict, on the cumulative and the other margins. *)
  Variable global_margins : list (string * margins) -> list (string * margins) -> margins.
  Variable margins_to_dict : list (string * margins) -> list (string * margins) -> json.

  (** state_machine.py:99-121 and 139-161: what the runs use. The cost volumes come with the input of the matching cost, which gives their coordinates. *)
  Record data := mkData {
    w_cfg : dict;                                       (* self.completed_cfg *)
    w_left_image : image px; w_right_image : image px; w_left : grid_dataset; w_right : grid_dataset;   (* self.left_img, self.right_img *)
    w_transform : option affine;                        (* self.left_img.transform *)
    w_volumes : option (dict * mc_input * cost_volumes);
    w_maps : option (json * maps) }.                    (* with attrs["invalid_disp"] *)

  (** A value of the configuration in a map of disparities (numpy.full). Values that are not a number of units are rounded. A list of one element is
      accepted by the schema when it is NaN or infinite. *)
  Fixpoint invalid_of (j : json) : ext :=
    match j with
    | JInt z => Fin (z * one) | JBool b => Fin (Z.b2z b * one) | JFloat q => Fin (Qround.Qfloor (q * inject_Z one))
    | JInf true => PInf | JInf false => NInf | JList [x] => invalid_of x | _ => NaN
    end.
  (** The same as a rational number (optical_flow.py:336); infinite values are not distinguished from NaN. *)
  Definition invalid_num (j : json) : num :=
    match j with JInt z => Some (inject_Z z) | JBool b => Some (inject_Z (Z.b2z b)) | JFloat q => Some q | _ => None end.

  (** state_machine.py:298-311 and 337-352: input of the matching cost with the completed configuration [c] of the step. *)
  Definition matching_cost_input (c : dict) (mg : option margins) (d : data) : option mc_input :=
    bind (mc_steps bool_ok (lookup "step" c)) (fun steps =>
    bind (int_at bool_ok ["subpix"] c) (fun subpix =>
    bind (match lookup "ROI" (w_cfg d) with
          | Some _ => bind (roi_of bool_ok (w_cfg d)) (fun r => Some (Some (mkRoiCfg (roi_c0 r) (roi_r0 r) (roi_mg r))))
          | None => Some None end) (fun roi =>
    let g := w_left d in
    let '(col, row) := gd_grids g in
    Some (mkMC (gd_row0 g) (gd_nrow g) (gd_col0 g) (gd_ncol g) (dg_min row) (dg_max row) (dg_min col) (dg_max col) (dg_source row) (dg_source col)
            (Z.to_nat subpix) (fst steps) (snd steps) (measure_of c) mg roi)))).
  Definition matching_cost_run (c : json) (mg : option margins) (d : data) : option data :=
    match c with
    | JDict c =>
        bind (matching_cost_init pandora_check c) (fun c' =>
        bind (matching_cost_input c' mg d) (fun m =>
        bind (compute_cost_volumes px_eqb (pandora_cost c' m (w_left_image d)) (zoomed (w_right_image d) (mc_subpix m)) m (w_right_image d)) (fun cv =>
        Some (mkData (w_cfg d) (w_left_image d) (w_right_image d) (w_left d) (w_right d) (w_transform d)
                (Some (c', m, in_units (one / Z.of_nat (mc_subpix m)) cv)) (w_maps d)))))
    | _ => None
    end.

  (** state_machine.py:313-335 *)
  Definition estimation_step (name : string) (c : json) (d : data) : option data :=
    let '(shifts, err, phase) := estimate c (w_left_image d) (w_right_image d) in
    bind (estimation_run bool_ok (w_cfg d) name (w_left d) (w_right d) shifts err phase) (fun res =>
    let '(lft, rgt, cfg) := res in
    Some (mkData cfg (w_left_image d) (w_right_image d) lft rgt (w_transform d) (w_volumes d) (w_maps d))).

  (** state_machine.py:354-379. cfg["pipeline"]["disparity"] is read whatever the name of the step. *)
  Definition disparity_run (c : json) (d : data) : option data :=
    match c, w_volumes d with
    | JDict c, Some (_, _, cv) =>
        bind (disparity_check_conf bool_ok c) (fun c' =>
        bind (lookup "invalid_disparity" c') (fun inv =>
        bind (compute_disp_maps 100 (invalid_of inv) cv) (fun res =>
        bind (get_path ["pipeline"; "disparity"; "invalid_disparity"] (JDict (w_cfg d))) (fun attr =>
        let '(col, row, score) := res in
        Some (mkData (w_cfg d) (w_left_image d) (w_right_image d) (w_left d) (w_right d) (w_transform d) (w_volumes d) (Some (attr, InUnits col row score)))))))
    | _, _ => None
    end.

  (** The left and right images with their coordinates, for the optical flow. *)
  Definition flow_image (im : image px) (g : grid_dataset) : OpticalFlowModel.image (A := px) :=
    OpticalFlowModel.mkImage (gd_row0 g) (gd_col0 g) (gd_nrow g) (gd_ncol g) (to_list2 (im_data im)).
  Definition grids_of (g : grid_dataset) : grids :=
    let '(col, row) := gd_grids g in mkGrids2 (dg_min col) (dg_max col) (dg_min row) (dg_max row).
  (** The cost volumes as rational numbers. *)
  Definition rational_volumes (cv : cost_volumes) : arr4 cost :=
    mkArr4 (cv_nrow cv) (cv_ncol cv) (List.length (cv_disp_col cv)) (List.length (cv_disp_row cv))
      (fun r c i j => match nth2 (cv_data cv) r c with
                      | Some surface => match nth2 surface i j with Some x => cost_of_ext one x | None => CNan end
                      | None => CNan end).
  Definition rational_disp (l : list Z) : list Q := map (fun d => inject_Z d / inject_Z one)%Q l.

  (** state_machine.py:381-408 with the three methods; [step] and [window] are kept by the machine. A refinement after another one is accepted by no
      check: it is modelled after a disparity step only. *)
  Definition refine (c : dict) (inv : json) (vols : dict * mc_input * cost_volumes) (col row score : list (list ext)) (d : data) : option maps :=
    let '(mc, m, cv) := vols in
    match lookup "refinement_method" c with
    | Some (JStr s) =>
        if s =? "dichotomy" then
          match lookup "filter" c, int_at bool_ok ["iterations"] c with
          | Some (JDict f), Some n =>
              let apply := filter_apply f in
              let flt := match lookup "method" f with
                         | Some (JStr k) => if k =? "bicubic" then bicubic_filter apply else sinc_filter (sinc_half bool_ok f) apply
                         | _ => bicubic_filter apply end in
              bind (refinement_method one store flt (Z.to_nat n) cv (invalid_of inv) col row (grids_of (w_left d))) (fun res =>
              let '(col', row', score') := res in Some (InUnits col' row' score'))
          | _, _ => None
          end
        else if s =? "optical_flow" then
          match int_at bool_ok ["window_size"] c, int_at bool_ok ["iterations"] c, mc_steps bool_ok (lookup "step" c) with
          | Some w, Some n, Some (row_step, col_step) =>
              bind (flow_refinement nan lstsq resample junk (Z.to_nat w) (Z.to_nat n) (offset_of mc) (Z.to_nat row_step) (Z.to_nat col_step)
                      (row_coords m) (col_coords m) (flow_image (w_left_image d) (w_left d)) (flow_image (w_right_image d) (w_right d)) (grids_of (w_left d))
                      (invalid_num inv) (map (map (num_of_ext one)) col) (map (map (num_of_ext one)) row)) (fun res =>
              Some (InPixels (fst res) (snd res) (map (map (cost_of_ext one)) score)))
          | _, _, _ => None
          end
        else
          bind (interpolation_refinement interp minimise (cv_measure cv) (rational_disp (cv_disp_col cv)) (rational_disp (cv_disp_row cv)) (rational_volumes cv)
                  (map (map (num_of_ext one)) col) (map (map (num_of_ext one)) row)) (fun res =>
          let '(col', row', score') := res in Some (InPixels col' row' score'))
    | _ => None
    end.
  Definition refinement_run (c : json) (step window : option json) (d : data) : option data :=
    match c, w_volumes d, w_maps d with
    | JDict c, Some vols, Some (inv, InUnits col row score) =>
        bind (refinement_init bool_ok step (match window with Some w => w | None => JNull end) c) (fun c' =>
        bind (refine c' inv vols col row score d) (fun m =>
        Some (mkData (w_cfg d) (w_left_image d) (w_right_image d) (w_left d) (w_right d) (w_transform d) (w_volumes d) (Some (inv, m)))))
    | _, _, _ => None
    end.

  (** The run callbacks of the machine. The data is None before run_prepare. *)
  Definition run_step (cb : callback) (name : string) (c : json) (mg : option margins) (step window : option json) (d : option data) : option (option data) :=
    bind d (fun d => option_map Some
      match cb with
      | EstimationRun => estimation_step name c d
      | MatchingCostRun => matching_cost_run c mg d
      | DisparityRun => disparity_run c d
      | RefinementRun => refinement_run c step window d
      | _ => Some d
      end).

  (** The check of the configuration and the machine, with these steps. *)
  Definition check_user := check_conf (D := option data) (M := margins) bool_ok pandora_check matching_cost_margins (refinement_margins bool_ok) (mkMargins 0 0 0 0) run_step
    can_open_mandatory can_open (check_images_of images_ok) image_size open_raster.
  Definition run_machine := MachineModel.run (D := option data) (M := margins)
    (est_conf bool_ok) (mc_conf pandora_check matching_cost_margins) (disp_conf bool_ok (mkMargins 0 0 0 0)) (ref_conf bool_ok (refinement_margins bool_ok)) run_step.

  (** cfg["input"]["col_disparity"] or cfg["input"]["row_disparity"] (__init__.py:103-104), as the grids and as the ROI see them. *)
  Definition disparity_at (k : string) (cfg : dict) : option cfg_disp :=
    match get_path ["input"; k] (JDict cfg) with Some (JDict d) => Some (cfg_disp_of open_raster d) | _ => None end.
  Definition roi_disparity (d : cfg_disp) : option disparity :=
    match cd_init d with
    | CInt v => Some (mkDisp (DInt v) (cd_range d)) | CFile f => Some (mkDisp (DGrid (rd_band f)) (cd_range d)) | COther => None end.
  (** __init__.py:106-110: the configuration with the margins, the ROI to load. *)
  Definition z4 (m : margins) : Z * Z * Z * Z := (Z.of_nat (m_left m), Z.of_nat (m_up m), Z.of_nat (m_right m), Z.of_nat (m_down m)).
  Definition prepare_roi (mg : margins) (cfg : dict) : option (dict * option roi) :=
    match lookup "ROI" cfg with
    | None => Some (cfg, None)
    | Some _ =>
        bind (assign2 "ROI" "margins" (margins_json (z4 mg)) cfg) (fun cfg1 =>
        bind (roi_of bool_ok cfg1) (fun r =>
        bind (bind (disparity_at "col_disparity" cfg1) roi_disparity) (fun col =>
        bind (bind (disparity_at "row_disparity" cfg1) roi_disparity) (fun row =>
        bind (get_roi_processing r col row) (fun p =>
        bind (assign2 "ROI" "margins" (margins_json (roi_mg (snd p))) cfg1) (fun cfg2 => Some (cfg2, Some (fst p))))))))
    end.

  (** The window of an image that is read: first row, number of rows, first column, number of columns (Pandora's get_window, see RoiModel). Nothing
      to read: Pandora raises an error. *)
  Definition frame_of (size : nat * nat) (r : option roi) : option (Z * nat * Z * nat) :=
    let '(row0, row1, col0, col1) := match r with
      | None => (0, Z.of_nat (fst size), 0, Z.of_nat (snd size))
      | Some r => let '(lft, up, rgt, down) := roi_mg r in
          let '(a, b) := window_of (roi_r0 r) (roi_r1 r) up down (Z.of_nat (fst size)) in
          let '(c, d) := window_of (roi_c0 r) (roi_c1 r) lft rgt (Z.of_nat (snd size)) in (a, b, c, d)
      end in
    if Z.ltb row0 row1 && Z.ltb col0 col1 then Some (row0, Z.to_nat (row1 - row0), col0, Z.to_nat (col1 - col0)) else None.
  (** img_tools.py:84-94: one dataset. *)
  Definition create_dataset (section : json) (r : option roi) (col row : cfg_disp) (right : bool) : option (image px * grid_dataset * option affine) :=
    match section with
    | JDict s =>
        match lookup "img" s with
        | Some (JStr path) =>
            bind (frame_of (image_size path) r) (fun f =>
            let '(row0, nrow, col0, ncol) := f in
            bind (add_disparity_grid row0 nrow col0 ncol col row right) (fun grids =>
            Some (load s row0 nrow col0 ncol, mkGridDataset row0 nrow col0 ncol grids, transform_of s)))
        | _ => None
        end
    | _ => None
    end.
  (** img_tools.py:55-94 (create_datasets_from_inputs) and __init__.py:113-116; the configuration is modified when there is an estimation. *)
  Definition has_estimation (cfg : dict) : bool :=
    match get_path ["pipeline"; "estimation"] (JDict cfg) with None | Some JNull => false | Some _ => true end.
  Definition create_datasets (r : option roi) (cfg : dict)
      : option (dict * (image px * grid_dataset * option affine) * (image px * grid_dataset * option affine)) :=
    bind (if has_estimation cfg
          then bind (assign2 "input" "col_disparity" (json_of_disp placeholder) cfg) (assign2 "input" "row_disparity" (json_of_disp placeholder))
          else match lookup "input" cfg with Some (JDict i) => if check_disparities i then Some cfg else None | _ => None end) (fun cfg =>
    bind (disparity_at "col_disparity" cfg) (fun col =>
    bind (disparity_at "row_disparity" cfg) (fun row =>
    match get_path ["input"; "left"] (JDict cfg), get_path ["input"; "right"] (JDict cfg) with
    | Some l, Some rg =>
        bind (create_dataset l r col row false) (fun left =>
        bind (create_dataset rg r col row true) (fun right => Some (cfg, left, right)))
    | _, _ => None
    end))).
  (** check_configuration.py:48-69 on these datasets. *)
  Definition shapes_of (p : image px * grid_dataset * option affine) : image_dataset (image px) :=
    let '(im, g, _) := p in let n0 := a2_n0 (im_data im) in let n1 := a2_n1 (im_data im) in
    mkDataset [("im", [n0; n1]); ("col_disparity", [2%nat; gd_nrow g; gd_ncol g]); ("row_disparity", [2%nat; gd_nrow g; gd_ncol g])] im.

  (** What the run leaves: the maps (None: no disparity step), their coordinates, the configuration, the machine. *)
  Record result := mkResult { r_maps : option (json * dmaps cost); r_cfg : dict; r_margins : list (string * margins) * list (string * margins) }.
  Definition maps_dataset_of (d : data) : option (json * dmaps cost) :=
    match w_volumes d, w_maps d with
    | Some (_, m, _), Some (inv, InUnits col row score) =>
        Some (inv, mkDmaps (row_coords m) (col_coords m) (map (map (cost_of_ext one)) row) (map (map (cost_of_ext one)) col) (map (map (cost_of_ext one)) score) (w_transform d))
    | Some (_, m, _), Some (inv, InPixels col row score) =>
        Some (inv, mkDmaps (row_coords m) (col_coords m) (map (map cost_of_num) row) (map (map cost_of_num) col) score (w_transform d))
    | _, _ => None
    end.
  (** __init__.py:94-122: from the configuration of the user to the end of the run. *)
  Definition process (user : dict) : option result :=
    let '(m, checked) := check_user user (new_machine None) in
    bind checked (fun cfg =>
    bind (prepare_roi (global_margins (m_cumulative m) (m_non_cumulative m)) cfg) (fun prepared =>
    let '(cfg, r) := prepared in
    bind (create_datasets r cfg) (fun datasets =>
    let '(cfg, lft, rgt) := datasets in
    if check_datasets dataset_ok (shapes_of lft) (shapes_of rgt) then
      let '(left_im, left_grids, transform) := lft in
      let '(right_im, right_grids, _) := rgt in
      match lookup "pipeline" cfg with
      | Some (JDict pipeline) =>
          match run_machine (Some (mkData cfg left_im right_im left_grids right_grids transform None None)) pipeline m with
          | (m', None) => bind (m_data m') (fun d => Some (mkResult (maps_dataset_of d) (w_cfg d) (m_cumulative m', m_non_cumulative m')))
          | (_, Some _) => None
          end
      | _ => None
      end
    else None))).

  (** __init__.py:124-136: the maps, what the report is made of (the maps of the caller once they have been saved, with attrs["invalid_disp"]), the configuration. *)
  Definition saving (cfg : dict) : option save_cfg :=
    match lookup "ROI" cfg with
    | Some _ => bind (roi_of bool_ok cfg) (fun r => Some (mkSave (Some r) (mc_steps bool_ok (get_path ["pipeline"; "matching_cost"; "step"] (JDict cfg)))))
    | None => Some (mkSave None (mc_steps bool_ok (get_path ["pipeline"; "matching_cost"; "step"] (JDict cfg))))
    end.
  Record outcome := mkOutcome { o_maps : option (dmaps cost); o_reported : option (json * dmaps cost); o_cfg : dict }.
  Definition main (user : dict) : option outcome :=
    bind (process user) (fun res =>
    let cfg := assign "margins" (margins_to_dict (fst (r_margins res)) (snd (r_margins res))) (r_cfg res) in
    match r_maps res with
    | None => Some (mkOutcome None None cfg)
    | Some (inv, ds) =>
        bind (saving (r_cfg res)) (fun s =>
        bind (save_dataset ds s) (fun p =>
        Some (mkOutcome (Some (fst p)) (Some (inv, snd p)) cfg)))
    end).
End Whole.
