(** Model of what pandora2d.main writes: maps, report. *)
From Coq Require Import ZArith QArith List Bool.
From Verif Require Import Base.Ext Model.CommonModel Model.RoiModel Model.StatisticsModel.
Import ListNotations.
Open Scope Z_scope.

(** __init__.py:125-130: the maps are saved, then the statistics are computed on the dataset of the caller, as save_dataset leaves it
    (ds' below). An error of the saving (None) leaves neither maps nor report. A dataset without maps (no disparity step) is [None]:
    nothing is written. *)
Definition write_results (maps : option (dmaps ext)) (invalid_disp : ext) (cfg : save_cfg) : option (option (dmaps ext * (statistics * statistics))) :=
  match maps with
  | None => Some None
  | Some ds =>
      bind (save_dataset ds cfg) (fun p =>
      let '(saved, ds') := p in
      bind (report_disparities (dm_row_map ds') (dm_col_map ds') invalid_disp) (fun report =>
      Some (Some (saved, report))))
  end.
