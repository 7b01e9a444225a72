(** When a pixel that is invalid before the optical flow always stays invalid (or becomes NaN). *)
From Coq Require Import ZArith QArith List.
From Verif Require Import Base.PyList Base.Arr Base.ZRange Model.MatchingCostModel Model.DichotomyModel Model.OpticalFlowModel Spec.OpticalFlowSpec.
Import ListNotations.
Open Scope Z_scope.

(** Whatever the images, the windows, the steps, the pixel and the external libraries: a map with the invalid value [v] at a pixel of range
    [lo], [hi] has the invalid value or NaN there after [iterations] iterations. *)
Definition stays_invalid (v : Q) (iterations : nat) (lo hi : Z) : Prop :=
  forall nan lstsq resample junk h offset first_row first_col row_step col_step n m b_row b_col (left right : @image Z) col_map row_map g out_col out_row i j drow dcol,
    flow_inputs (2 * h + 1) h offset first_row first_col (Z.of_nat row_step) (Z.of_nat col_step) n m b_row b_col left right col_map row_map ->
    n = strided_len (i_nrow left) 0 row_step -> m = strided_len (i_ncol left) 0 col_step -> grids_of (i_nrow left) (i_ncol left) g ->
    flow_refinement nan lstsq resample junk (2 * h + 1) iterations offset row_step col_step (progression first_row (Z.of_nat row_step) n)
      (progression first_col (Z.of_nat col_step) m) left right g (Some v) col_map row_map = Some (out_col, out_row) ->
    (i < n)%nat -> (j < m)%nat -> nth2 row_map i j = Some drow -> nth2 col_map i j = Some dcol ->
    let at_pixel (a : arr2 Z) := a2_get a (i * row_step) (j * col_step) in
    (drow = Some v -> at_pixel (g_row_min g) = lo -> at_pixel (g_row_max g) = hi -> nth2 out_row i j = Some (Some v) \/ nth2 out_row i j = Some None) /\
    (dcol = Some v -> at_pixel (g_col_min g) = lo -> at_pixel (g_col_max g) = hi -> nth2 out_col i j = Some (Some v) \/ nth2 out_col i j = Some None).
