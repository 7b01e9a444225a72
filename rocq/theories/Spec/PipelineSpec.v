(** What the saved result of a whole run should be. *)
From Coq Require Import ZArith List.
From Verif Require Import Base.Ext Base.PyList Base.Arr Model.MatchingCostModel Model.RoiModel.
Open Scope Z_scope.

(** The rows (columns) the user asked for, in an image of this height (width): from the first one of the ROI (of the image), one every
    step, up to the last one of the ROI (of the image). *)
Definition asked (bounds : option (Z * Z)) (size step x : Z) : Prop :=
  match bounds with
  | Some (first, last) => first <= x <= last /\ x < size /\ (x - first) mod step = 0
  | None => 0 <= x < size /\ x mod step = 0
  end.
Definition asked_row (cfg : save_cfg) (height step x : Z) : Prop := asked (option_map (fun r => (roi_r0 r, roi_r1 r)) (sc_roi cfg)) height step x.
Definition asked_col (cfg : save_cfg) (width step x : Z) : Prop := asked (option_map (fun r => (roi_c0 r, roi_c1 r)) (sc_roi cfg)) width step x.

(** The interval the user gave for this pixel of the image, bounds included; [d] in 1/one pixel. *)
Definition user_row_interval (m : mc_input) (one row col d : Z) : Prop :=
  let r := Z.to_nat (row - mc_row0 m) in let c := Z.to_nat (col - mc_col0 m) in
  a2_get (mc_row_min m) r c * one <= d <= a2_get (mc_row_max m) r c * one.
Definition user_col_interval (m : mc_input) (one row col d : Z) : Prop :=
  let r := Z.to_nat (row - mc_row0 m) in let c := Z.to_nat (col - mc_col0 m) in
  a2_get (mc_col_min m) r c * one <= d <= a2_get (mc_col_max m) r c * one.

(** The value of this pixel of a map: no disparity, or a disparity inside the interval in each direction. *)
Definition respects_user (m : mc_input) (one : Z) (inv : ext) (row col : Z) (row_value col_value : ext) : Prop :=
  (row_value = inv /\ col_value = inv) \/
  exists dr dc, row_value = Fin dr /\ col_value = Fin dc /\ user_row_interval m one row col dr /\ user_col_interval m one row col dc.

(** Two inputs that differ by the disparity grids only. *)
Definition same_frame (m m' : mc_input) : Prop :=
  mc_row0 m' = mc_row0 m /\ mc_nrow m' = mc_nrow m /\ mc_col0 m' = mc_col0 m /\ mc_ncol m' = mc_ncol m /\
  mc_row_source m' = mc_row_source m /\ mc_col_source m' = mc_col_source m /\ mc_subpix m' = mc_subpix m /\
  mc_step_row m' = mc_step_row m /\ mc_step_col m' = mc_step_col m /\ mc_measure m' = mc_measure m /\ mc_margins m' = mc_margins m /\ mc_roi m' = mc_roi m.
(** The same interval for this pixel. *)
Definition same_interval (m m' : mc_input) (row col : Z) : Prop :=
  let r := Z.to_nat (row - mc_row0 m) in let c := Z.to_nat (col - mc_col0 m) in
  a2_get (mc_row_min m') r c = a2_get (mc_row_min m) r c /\ a2_get (mc_row_max m') r c = a2_get (mc_row_max m) r c /\
  a2_get (mc_col_min m') r c = a2_get (mc_col_min m) r c /\ a2_get (mc_col_max m') r c = a2_get (mc_col_max m) r c.
