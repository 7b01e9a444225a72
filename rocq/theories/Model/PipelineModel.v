(** Model of a whole run: matching cost, disparity, optional dichotomy refinement, saving. *)
From Coq Require Import ZArith List Bool.
From Verif Require Import Base.Ext Base.PyList Base.Arr Model.CommonModel Model.ImgShiftModel Model.DisparityModel Model.MatchingCostModel
  Model.DichotomyModel Model.RoiModel.
Import ListNotations.
Open Scope Z_scope.

(** Representation only: the matching cost model counts disparities in units of 1/subpix pixel, the refinement model in units of
    1/one pixel. The same disparities, [k] = one / subpix. *)
Definition in_units (k : Z) (cv : cost_volumes) : cost_volumes :=
  mkCV (cv_nrow cv) (cv_ncol cv) (map (fun d => d * k) (cv_disp_col cv)) (map (fun d => d * k) (cv_disp_row cv)) (cv_data cv) (cv_subpix cv)
    (cv_measure cv) (cv_margins cv).

(** The disparity grids of the left image, read by the refinement (dichotomy.py:106-109). *)
Definition left_grids (m : mc_input) : grids := mkGrids2 (mc_col_min m) (mc_col_max m) (mc_row_min m) (mc_row_max m).

Section Pipeline.
  Context {px : Type} (px_eqb : px -> px -> bool).
  Variable pandora_cost : list (list px) -> list (list Z) -> nat -> nat -> nat -> ext.
  Variable zoomed : nat -> nat -> px.
  Variable one : Z.
  Variable store : ext -> ext.

  (** __init__.py:69-77 with the runs of state_machine.py:337-408, for the pipelines matching_cost, disparity and matching_cost, disparity,
      refinement (dichotomy with this filter and number of iterations). Result: column map, row map, score. *)
  Definition run_maps (chunk : nat) (inv : ext) (dichotomy : option (filter * nat)) (m : mc_input) (right : image px)
      : option (list (list ext) * list (list ext) * list (list ext)) :=
    bind (compute_cost_volumes px_eqb pandora_cost zoomed m right) (fun volumes =>
    let cv := in_units (one / Z.of_nat (mc_subpix m)) volumes in
    bind (compute_disp_maps chunk inv cv) (fun maps =>
    let '(map_col, map_row, score) := maps in
    match dichotomy with
    | None => Some (map_col, map_row, score)
    | Some (flt, iterations) => refinement_method one store flt iterations cv inv map_col map_row (left_grids m)
    end)).

  (** __init__.py:121-126 (main): the maps with the coordinates of the cost volumes (state_machine.py:366-379) are saved. *)
  Definition run_and_save (chunk : nat) (inv : ext) (dichotomy : option (filter * nat)) (m : mc_input) (right : image px) (transform : option affine)
      (cfg : save_cfg) : option (dmaps ext * dmaps ext) :=
    bind (run_maps chunk inv dichotomy m right) (fun maps =>
    let '(map_col, map_row, score) := maps in
    save_dataset (mkDmaps (row_coords m) (col_coords m) map_row map_col score transform) cfg).
End Pipeline.
