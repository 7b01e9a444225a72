(** Model of the ROI functions of pandora2d/img_tools.py and of the saving of the maps of pandora2d/common.py. *)
From Coq Require Import ZArith QArith List Bool Arith.
From Verif Require Import Base.PyList Base.Arr Base.ZRange Model.CommonModel Model.MatchingCostModel.
Import ListNotations.
Open Scope Z_scope.

(** cfg["ROI"]: first and last columns and rows, margins (left, up, right, down). *)
Record roi := mkRoi { roi_c0 : Z; roi_c1 : Z; roi_r0 : Z; roi_r1 : Z; roi_mg : Z * Z * Z * Z }.

(** A disparity of the configuration: {"init": int or path of a grid, "range": int}. A path is replaced by the content
    of the file (one band of integers). *)
Inductive disp_init := DInt (v : Z) | DGrid (g : arr2 Z).
Record disparity := mkDisp { d_init : disp_init; d_range : Z }.

(** img_tools.py:307-312: np.min(grid - range), np.max(grid + range) (ValueError: None on an empty grid). *)
Definition disp_min (d : disparity) : option Z :=
  match d_init d with DInt v => Some (v - d_range d) | DGrid g => option_map (fun m => m - d_range d) (grid_min g) end.
Definition disp_max (d : disparity) : option Z :=
  match d_init d with DInt v => Some (v + d_range d) | DGrid g => option_map (fun m => m + d_range d) (grid_max g) end.

(** Both disparities are of the same kind; if not, the last branch of get_roi_processing computes with a path: TypeError. *)
Definition same_kind (a b : disparity) : bool :=
  match d_init a, d_init b with DInt _, DInt _ => true | DGrid _, DGrid _ => true | _, _ => false end.

(** img_tools.py:284-328 (get_roi_processing). Results: the new ROI and the user ROI updated in place. The minimum of
    (grid - range) is modelled by (minimum of grid) - range. *)
Definition get_roi_processing (r : roi) (col row : disparity) : option (roi * roi) :=
  if same_kind col row then
    match disp_min col, disp_min row, disp_max col, disp_max row with
    | Some cmin, Some rmin, Some cmax, Some rmax =>
        let '(m0, m1, m2, m3) := roi_mg r in
        let mg := (Z.max (Z.abs cmin) m0, Z.max (Z.abs rmin) m1, Z.max (Z.abs cmax) m2, Z.max (Z.abs rmax) m3) in
        let new := mkRoi (roi_c0 r) (roi_c1 r) (roi_r0 r) (roi_r1 r) mg in
        Some (new, mkRoi (roi_c0 r) (roi_c1 r) (roi_r0 r) (roi_r1 r) mg)
    | _, _, _, _ => None
    end
  else None.

(** Pandora: get_window, first and one past last column (row) read for a ROI axis [first, last] with its two margins in
    an image of the given size. *)
Definition window_of (first last before after size : Z) : Z * Z :=
  (Z.max (first - before) 0, Z.min (last + after + 1) size).

(** rasterio.Affine (a, b, c, d, e, f), on rationals instead of floats. *)
Record affine := mkAffine { af_a : Q; af_b : Q; af_c : Q; af_d : Q; af_e : Q; af_f : Q }.
(** Affine.__mul__ with another Affine. *)
Definition af_mul (s v : affine) : affine :=
  mkAffine (af_a s * af_a v + af_b s * af_d v) (af_a s * af_b v + af_b s * af_e v) (af_a s * af_c v + af_b s * af_f v + af_c s)
           (af_d s * af_a v + af_e s * af_d v) (af_d s * af_b v + af_e s * af_e v) (af_d s * af_c v + af_e s * af_f v + af_f s).
(** Affine.translation(xoff, yoff) and Affine.scale(sx, sy). *)
Definition af_translation (x y : Q) : affine := mkAffine 1 0 x 0 1 y.
Definition af_scale (x y : Q) : affine := mkAffine x 0 0 0 y 0.

(** The dataset of disparity maps: coordinates, three maps (rows of columns), attrs["transform"]. *)
Record dmaps (A : Type) := mkDmaps {
  dm_rows : list Z; dm_cols : list Z;
  dm_row_map : list (list A); dm_col_map : list (list A); dm_score : list (list A);
  dm_transform : option affine }.
Arguments mkDmaps {A}. Arguments dm_rows {A}. Arguments dm_cols {A}. Arguments dm_row_map {A}.
Arguments dm_col_map {A}. Arguments dm_score {A}. Arguments dm_transform {A}.

(** What the saving reads in the configuration: cfg["ROI"] and cfg["pipeline"]["matching_cost"]["step"]
    (row step, column step), both optional. *)
Record save_cfg := mkSave { sc_roi : option roi; sc_step : option (Z * Z) }.

(** img_tools.py:362-374: the two indices of an axis. The division of integers is exact in floating point for images of
    realistic size, floor of it is Z.div. None: IndexError on an empty axis. *)
Definition roi_start (coords : list Z) (first step : Z) : option Z :=
  match coords with [] => None | x0 :: _ => Some (if x0 <? first then (first - x0) / step else 0) end.
Definition roi_stop (coords : list Z) (last step : Z) : option Z :=
  match coords with [] => None | x0 :: l => let xn := List.last l x0 in
    Some (if last <? xn then (last - xn) / step else Z.of_nat (length coords)) end.

Definition slice2 {A} (up down left right : Z) (m : list (list A)) : list (list A) :=
  map (py_slice left right) (py_slice up down m).

(** img_tools.py:331-388 (remove_roi_margins). The attributes are copied (xarray's attrs setter copies the dict). *)
Definition remove_roi_margins {A} (ds : dmaps A) (cfg : save_cfg) : option (dmaps A) :=
  match sc_step cfg, sc_roi cfg with
  | Some (row_step, col_step), Some r =>
      bind (roi_start (dm_cols ds) (roi_c0 r) col_step) (fun left =>
      bind (roi_stop (dm_cols ds) (roi_c1 r) col_step) (fun right =>
      bind (roi_start (dm_rows ds) (roi_r0 r) row_step) (fun up =>
      bind (roi_stop (dm_rows ds) (roi_r1 r) row_step) (fun down =>
      Some (mkDmaps (py_slice up down (dm_rows ds)) (py_slice left right (dm_cols ds))
        (slice2 up down left right (dm_row_map ds)) (slice2 up down left right (dm_col_map ds))
        (slice2 up down left right (dm_score ds)) (dm_transform ds))))))
  | _, _ => None
  end.

(** common.py:114-125 (get_step) *)
Definition get_step (cfg : save_cfg) : Z * Z := match sc_step cfg with Some s => s | None => (1, 1) end.

(** common.py:98-111 and 128-141 (adjust_georeferencement, set_pixel_size) *)
Definition adjust_georeferencement (t : affine) (cfg : save_cfg) : affine :=
  let t := match sc_roi cfg with
           | Some r => af_mul t (af_translation (inject_Z (roi_c0 r)) (inject_Z (roi_r0 r)))
           | None => t end in
  let '(row_step, col_step) := get_step cfg in
  af_mul t (af_scale (inject_Z col_step) (inject_Z row_step)).

(** common.py:49-95 (save_dataset): what is written, and the dataset of the caller afterwards. With a ROI
    the adjusted dataset is the new one of remove_roi_margins, without ROI it is the one of the caller. *)
Definition save_dataset {A} (ds : dmaps A) (cfg : save_cfg) : option (dmaps A * dmaps A) :=
  let adjust (d : dmaps A) := mkDmaps (dm_rows d) (dm_cols d) (dm_row_map d) (dm_col_map d) (dm_score d)
      (option_map (fun t => adjust_georeferencement t cfg) (dm_transform d)) in
  match sc_roi cfg with
  | Some _ => bind (remove_roi_margins ds cfg) (fun d => Some (adjust d, ds))
  | None => Some (adjust ds, adjust ds)
  end.
