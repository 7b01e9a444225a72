(** Model of pandora2d/matching_cost/matching_cost.py: allocation and computation of the cost volumes. *)
From Coq Require Import ZArith List Bool Arith.
From Verif Require Import Base.Ext Base.PyList Base.Arr Base.ZRange Model.DisparityModel Model.CommonModel
  Model.ImgShiftModel.
Import ListNotations.
Open Scope Z_scope.

(** The parts of cfg["ROI"] that are read: first column, first row and the margins
    (left, up, right, down). *)
Record roi_cfg := mkRoiCfg { roi_col_first : Z; roi_row_first : Z; roi_margins : Z * Z * Z * Z }.

(** The left image dataset (coordinates of rows and columns are consecutive integers) and the
    configuration of the step (pandora2d/matching_cost/matching_cost.py:73-87).
    The grids are the bands "min" and "max" of row_disparity and col_disparity, the sources are the
    attributes row_disparity_source and col_disparity_source. Simplification: integer grids. *)
Record mc_input := mkMC {
  mc_row0 : Z; mc_nrow : nat; mc_col0 : Z; mc_ncol : nat;
  mc_row_min : arr2 Z; mc_row_max : arr2 Z; mc_col_min : arr2 Z; mc_col_max : arr2 Z;
  mc_row_source : Z * Z; mc_col_source : Z * Z;
  mc_subpix : nat; mc_step_row : Z; mc_step_col : Z;
  mc_measure : measure;
  mc_margins : option margins;
  mc_roi : option roi_cfg
}.

(** Minimum and maximum of all the values of a grid (None: empty grid, numpy raises an error). *)
Definition list_min (l : list Z) : option Z :=
  match l with [] => None | a :: l' => Some (fold_left Z.min l' a) end.
Definition list_max (l : list Z) : option Z :=
  match l with [] => None | a :: l' => Some (fold_left Z.max l' a) end.
Definition grid_min (g : arr2 Z) : option Z := list_min (concat (to_list2 g)).
Definition grid_max (g : arr2 Z) : option Z := list_max (concat (to_list2 g)).

(** In place addition of a constant to a grid (matching_cost.py:327-331). *)
Definition add_grid (g : arr2 Z) (k : Z) : arr2 Z := mkArr2 (a2_n0 g) (a2_n1 g) (fun r c => a2_get g r c + k).

(** Pandora: get_min_max_from_grid(min_grid, max_grid). *)
Definition get_min_max_from_grid (gmin gmax : arr2 Z) : option (Z * Z) :=
  match grid_min gmin, grid_max gmax with Some a, Some b => Some (a, b) | _, _ => None end.

(** Pandora: get_disparity_range(min, max, subpix), here in units of 1/subpix: from min to max, both
    included, with a pitch of 1/subpix. *)
Definition get_disparity_range (dmin dmax : Z) (subpix : nat) : list Z :=
  zarange (dmin * Z.of_nat subpix) (dmax * Z.of_nat subpix + 1) 1.

(** Pandora: get_coordinates(margin, img_coordinates, step). *)
Definition get_coordinates (margin first last step : Z) : list Z :=
  zarange (if margin mod step =? 0 then first else first + margin mod step) (last + 1) step.

(** matching_cost.py:268-282 and 373-392: coordinates of the rows of the cost volumes. *)
Definition row_coords (m : mc_input) : list Z :=
  let last := mc_row0 m + Z.of_nat (mc_nrow m) - 1 in
  match mc_roi m with
  | None => zarange (mc_row0 m) (last + 1) (mc_step_row m)
  | Some roi =>
      let '(_, up, _, _) := roi_margins roi in
      get_coordinates (Z.min up (roi_row_first roi)) (mc_row0 m) last (mc_step_row m)
  end.

(** matching_cost.py:249-263: the columns are computed by Pandora's allocate_cost_volume, with the same
    get_coordinates and the left margin truncated to the first column of the ROI. *)
Definition col_coords (m : mc_input) : list Z :=
  let last := mc_col0 m + Z.of_nat (mc_ncol m) - 1 in
  match mc_roi m with
  | None => zarange (mc_col0 m) (last + 1) (mc_step_col m)
  | Some roi =>
      let '(lft, _, _, _) := roi_margins roi in
      get_coordinates (Z.min lft (roi_col_first roi)) (mc_col0 m) last (mc_step_col m)
  end.

(** matching_cost.py:319-341: disparities explored, in units of 1/subpix. *)
Definition disps_col (m : mc_input) : option (list Z) :=
  let '(gmin, gmax) := match mc_margins m with
    | Some mg => (add_grid (mc_col_min m) (- Z.of_nat (m_left mg)), add_grid (mc_col_max m) (Z.of_nat (m_right mg)))
    | None => (mc_col_min m, mc_col_max m) end in
  match get_min_max_from_grid gmin gmax with
  | Some (a, b) => Some (get_disparity_range a b (mc_subpix m))
  | None => None
  end.
Definition disps_row (m : mc_input) : option (list Z) :=
  let '(gmin, gmax) := match mc_margins m with
    | Some mg => (add_grid (mc_row_min m) (- Z.of_nat (m_up mg)), add_grid (mc_row_max m) (Z.of_nat (m_down mg)))
    | None => (mc_row_min m, mc_row_max m) end in
  match get_min_max_from_grid gmin gmax with
  | Some (a, b) => Some (get_disparity_range a b (mc_subpix m))
  | None => None
  end.

(** Grids are integer, disparities are in units of 1/subpix: conversion of a grid to these units, used
    to compare them (common.py:226-241). *)
Definition scale_grid (s : nat) (g : arr2 Z) : arr2 Z := mkArr2 (a2_n0 g) (a2_n1 g) (fun r c => a2_get g r c * Z.of_nat s).
Definition scale_pair (s : nat) (p : Z * Z) : Z * Z := (fst p * Z.of_nat s, snd p * Z.of_nat s).

Section Compute.
  Context {px : Type} (px_eqb : px -> px -> bool).
  (** Pandora: compute_cost_volume followed by cv_masked, for a right image given by its data and its mask:
      cost at a row and a column index of the 1D cost volume (all the rows of the image, the columns of
      [col_coords]) and a column disparity index. The left image, the grid and the configuration are
      the same for all the calls. *)
  Variable pandora_cost : list (list px) -> list (list Z) -> nat -> nat -> nat -> ext.
  (** scipy zoom of the right image. *)
  Variable zoomed : nat -> nat -> px.

  (** matching_cost.py:396: cost_volumes.data[:, :, :, idx] = cost_volume.data[row_index, :, :]
      (IndexError: None). *)
  Definition put_cost (row_index : list nat) (nrow : nat) (cost : nat -> nat -> nat -> ext) (idx : nat)
      (data : arr4 ext) : option (arr4 ext) :=
    if forallb (fun r => (r <? nrow)%nat) row_index then
      Some (mkArr4 (a4_n0 data) (a4_n1 data) (a4_n2 data) (a4_n3 data)
        (fun r c i j => if (j =? idx)%nat then cost (nth r row_index 0%nat) c i else a4_get data r c i j))
    else None.

  (** matching_cost.py:345-396: the loop over the row disparities, from an array of zeros. *)
  Definition fill_cost_volumes (m : mc_input) (imgs : list (image px)) (dcol drow : list Z) : option (arr4 ext) :=
    let rows := row_coords m in
    let row_index := map (fun x => Z.to_nat (x - mc_row0 m)) rows in
    fold_left
      (fun acc (p : nat * Z) =>
         bind acc (fun data =>
         bind (right_for_disp px_eqb imgs (mc_subpix m) (snd p)) (fun right =>
         put_cost row_index (mc_nrow m) (pandora_cost (to_list2 (fst right)) (to_list2 (snd right))) (fst p) data)))
      (combine (seq 0 (length drow)) drow)
      (Some (mkArr4 (length rows) (length (col_coords m)) (length dcol) (length drow) (fun _ _ _ _ => Fin 0))).

  (** matching_cost.py:284-425 (compute_cost_volumes). Without any row disparity the dataset is never
      created and the deletion of its attribute fails: None. *)
  Definition compute_cost_volumes (m : mc_input) (img_right : image px) : option cost_volumes :=
    bind (disps_row m) (fun drow =>
    bind (disps_col m) (fun dcol =>
    bind (shift_subpix_img zoomed img_right (mc_subpix m)) (fun imgs =>
    bind (match drow with [] => None | _ => fill_cost_volumes m imgs dcol drow end) (fun data =>
    let s := mc_subpix m in
    bind (set_out_of_row (fun j => nth j drow 0) (scale_grid s (mc_row_min m)) (scale_grid s (mc_row_max m)) NaN
            (Some (scale_pair s (mc_row_source m))) data) (fun data =>
    bind (set_out_of_col (fun i => nth i dcol 0) (scale_grid s (mc_col_min m)) (scale_grid s (mc_col_max m)) NaN
            (Some (scale_pair s (mc_col_source m))) data) (fun data =>
    Some (mkCV (length (row_coords m)) (length (col_coords m)) dcol drow (to_list4 data)
            (mc_subpix m) (mc_measure m) (mc_margins m)))))))).
End Compute.
