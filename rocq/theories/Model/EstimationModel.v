(** Model of the estimation step: pandora2d/estimation and estimation_run of the state machine. *)
From Coq Require Import List String Bool ZArith QArith Qround.
From Verif Require Import Base.Arr Base.Json Model.CommonModel Model.InputModel Model.ConfigModel.
Import ListNotations.
Open Scope Z_scope.
Open Scope string_scope.
Open Scope list_scope.

(** Python's round on floats: to the nearest integer, halves to the even one. Floats are exact rationals. *)
Definition py_round (q : Q) : Z :=
  let f := Qfloor q in
  match Qcompare (q - inject_Z f) (1 # 2) with
  | Lt => f
  | Gt => f + 1
  | Eq => if Z.even f then f else f + 1
  end.

(** estimation/phase_cross_correlation.py:93-128 (compute_estimation); [shifts] is the (row, column) result of
    skimage's phase_cross_correlation (external). Row disparity, column disparity, opposite of the shifts. *)
Definition compute_estimation (shifts : Q * Q) (range_row range_col : Z) : cfg_disp * cfg_disp * (Q * Q) :=
  let row_disparity := mkCfgDisp (CInt (py_round (- fst shifts))) range_row in
  let col_disparity := mkCfgDisp (CInt (py_round (- snd shifts))) range_col in
  (row_disparity, col_disparity, ((- fst shifts)%Q, (- snd shifts)%Q)).

Definition json_of_disp (d : cfg_disp) : json :=
  JDict [("init", match cd_init d with CInt v => JInt v | _ => JNull end); ("range", JInt (cd_range d))].

(** cfg[k1][k2] = v; None is python's KeyError or TypeError. *)
Definition assign2 (k1 k2 : string) (v : json) (cfg : dict) : option dict :=
  match lookup k1 cfg with
  | Some (JDict d) => Some (assign k1 (JDict (assign k2 v d)) cfg)
  | _ => None
  end.
(** cfg[k1][k2][k3] = v *)
Definition assign3 (k1 k2 k3 : string) (v : json) (cfg : dict) : option dict :=
  match lookup k1 cfg with
  | Some (JDict d) => match assign2 k2 k3 v d with Some d' => Some (assign k1 (JDict d') cfg) | None => None end
  | _ => None
  end.
Fixpoint assign_all (k1 k2 : string) (extra : dict) (cfg : dict) : option dict :=
  match extra with
  | [] => Some cfg
  | (k, v) :: r => match assign3 k1 k2 k v cfg with Some cfg' => assign_all k1 k2 r cfg' | None => None end
  end.
(** estimation/estimation.py:124-153 (update_cfg_with_estimation); the configuration given by the caller is modified. *)
Definition update_cfg_with_estimation (cfg : dict) (disp_col disp_row : cfg_disp) (shifts : Q * Q) (extra : option dict) : option dict :=
  bind (assign2 "input" "col_disparity" (json_of_disp disp_col) cfg) (fun cfg =>
  bind (assign2 "input" "row_disparity" (json_of_disp disp_row) cfg) (fun cfg =>
  bind (assign3 "pipeline" "estimation" "estimated_shifts" (JList [JFloat (fst shifts); JFloat (snd shifts)]) cfg) (fun cfg =>
  match extra with None => Some cfg | Some e => assign_all "pipeline" "estimation" e cfg end))).

(** A dataset as far as its disparities are concerned: coordinates and the grids of the columns and of the rows. *)
Record grid_dataset := mkGridDataset { gd_row0 : Z; gd_nrow : nat; gd_col0 : Z; gd_ncol : nat; gd_grids : disp_grids * disp_grids }.

Definition int_field (k : string) (d : dict) : option Z := match lookup k d with Some (JInt z) => Some z | _ => None end.

(** state_machine.py:313-335 (estimation_run), for a step named [step]: construction of the step (check of its configuration, which is
    completed in place), estimation, new grids for the left dataset only, update of the configuration. *)
Definition estimation_run (bool_ok : bool) (cfg : dict) (step : string) (left right : grid_dataset) (shifts : Q * Q) (error phase_diff : json)
  : option (grid_dataset * grid_dataset * dict) :=
  match lookup "pipeline" cfg with
  | Some (JDict pipeline) =>
      match lookup step pipeline with
      | Some (JDict step_cfg) =>
          bind (estimation_check_conf bool_ok step_cfg) (fun checked =>
          bind (int_field "range_row" checked) (fun range_row =>
          bind (int_field "range_col" checked) (fun range_col =>
          let '(row_disparity, col_disparity, opposite) := compute_estimation shifts range_row range_col in
          bind (add_disparity_grid (gd_row0 left) (gd_nrow left) (gd_col0 left) (gd_ncol left) col_disparity row_disparity false) (fun grids =>
          let cfg1 := assign "pipeline" (JDict (assign step (JDict checked) pipeline)) cfg in
          bind (update_cfg_with_estimation cfg1 col_disparity row_disparity opposite (Some [("error", error); ("phase_diff", phase_diff)])) (fun cfg2 =>
          Some (mkGridDataset (gd_row0 left) (gd_nrow left) (gd_col0 left) (gd_ncol left) grids, right, cfg2))))))
      | _ => None
      end
  | _ => None
  end.

(** img_tools.py:83-94: the disparities used to create the datasets when there is an estimation. *)
Definition placeholder : cfg_disp := mkCfgDisp (CInt (-9999)) 0.
