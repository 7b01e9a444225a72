(** What a user expects from the dichotomy refinement, stated on the cost volumes and on the disparity maps. *)
From Coq Require Import ZArith List Bool.
From Verif Require Import Base.Ext Base.PyList Base.Arr Model.DisparityModel Model.DichotomyModel Spec.WtaSpec.
Import ListNotations.
Open Scope Z_scope.

(** Rounding to float32: order is kept, a stored number does not change, a number does not become NaN. *)
Definition rounding (store : ext -> ext) : Prop :=
  (forall a b, ext_leb a b = true -> ext_leb (store a) (store b) = true) /\
  (forall a, store (store a) = store a) /\ (forall a, a <> NaN -> store a <> NaN).

(** Coordinates in increasing order. *)
Definition increasing (l : list Z) : Prop :=
  forall i j x y, (i < j)%nat -> nth_error l i = Some x -> nth_error l j = Some y -> x < y.
(** Coordinates every 1/subpix pixel. *)
Definition spaced (one : Z) (subpix : nat) (l : list Z) : Prop :=
  exists step base, 0 < step /\ one = Z.of_nat subpix * step /\
    forall j, (j < length l)%nat -> nth_error l j = Some (base + Z.of_nat j * step).

(** The pixel (r, c) is associated with the disparities [row], [col] (numbers of units) by the maps; none of them is the invalid disparity. *)
Definition matched (invalid : ext) (col_map row_map : list (list ext)) (r c : nat) (row col : Z) : Prop :=
  nth2 row_map r c = Some (Fin row) /\ nth2 col_map r c = Some (Fin col) /\ Fin row <> invalid /\ Fin col <> invalid.

(** [x] is the cost of the pixel for these disparities, [i] and [j] are the indices of the disparities. *)
Definition cost_for (cv : cost_volumes) (r c : nat) (row col : Z) (i j : nat) (x : ext) : Prop :=
  nth_error (cv_disp_col cv) i = Some col /\ nth_error (cv_disp_row cv) j = Some row /\ cost_at cv r c i j = Some x.

(** Infinite cost that no cost can be worse than. *)
Definition worst_cost (t : measure) : ext := match t with MeasureMin => PInf | MeasureMax => NInf end.

(** Range of the pixel (r, c), in units, ends included. *)
Definition row_range (one : Z) (g : grids) (r c : nat) : Z * Z := (a2_get (g_row_min g) r c * one, a2_get (g_row_max g) r c * one).
Definition col_range (one : Z) (g : grids) (r c : nat) : Z * Z := (a2_get (g_col_min g) r c * one, a2_get (g_col_max g) r c * one).
Definition strictly_in (x : Z) (range : Z * Z) : Prop := fst range < x < snd range.
Definition in_range (x : Z) (range : Z * Z) : Prop := fst range <= x <= snd range.
Definition at_an_end (x : Z) (range : Z * Z) : Prop := x = fst range \/ x = snd range.

(** The grids have the shape of the maps. *)
Definition same_shape (cv : cost_volumes) (g : grids) : Prop :=
  forall a, In a [g_col_min g; g_col_max g; g_row_min g; g_row_max g] -> a2_n0 a = cv_nrow cv /\ a2_n1 a = cv_ncol cv.

(** The window of the filter is inside the surface around this position (in units of index): row of the surface, column of the surface. *)
Definition window_inside (one : Z) (flt : filter) (nrow ncol : nat) (pos_row pos_col : Z) : Prop :=
  0 <= pos_row / one - Z.of_nat (f_left flt) /\ pos_row / one - Z.of_nat (f_left flt) + Z.of_nat (f_size flt) <= Z.of_nat nrow /\
  0 <= pos_col / one - Z.of_nat (f_up flt) /\ pos_col / one - Z.of_nat (f_up flt) + Z.of_nat (f_size flt) <= Z.of_nat ncol.

(** The window of the filter needs at most these margins. *)
Definition covered (flt : filter) (m : margins) : Prop :=
  (f_left flt <= m_left m /\ f_up flt <= m_up m /\ f_size flt <= f_left flt + m_right m + 1 /\ f_size flt <= f_up flt + m_down m + 1)%nat.

(** [v] is a disparity of the user range: one that is not in the margins of the volumes. *)
Definition user_disparity_row (cv : cost_volumes) (v : Z) : Prop := exists j, user_row cv j /\ nth_error (cv_disp_row cv) j = Some v.
Definition user_disparity_col (cv : cost_volumes) (v : Z) : Prop := exists i, user_col cv i /\ nth_error (cv_disp_col cv) i = Some v.

(** What the previous steps give to the refinement: regular volumes with the margins of the filter (C06), pixel ranges that are in the
    user range (C07), maps whose values are the invalid disparity or a disparity of the range of the pixel (C01, C05, C07). *)
Definition ready (one : Z) (flt : filter) (iterations : nat) (cv : cost_volumes) (invalid : ext) (col_map row_map : list (list ext)) (g : grids) : Prop :=
  0 < one /\ (2 ^ Z.of_nat iterations | one) /\ (exists k, cv_subpix cv = (2 ^ k)%nat) /\ wf_cv cv /\
  spaced one (cv_subpix cv) (cv_disp_col cv) /\ spaced one (cv_subpix cv) (cv_disp_row cv) /\
  (exists m, cv_margins cv = Some m /\ covered flt m) /\
  rect (cv_nrow cv) (cv_ncol cv) col_map /\ rect (cv_nrow cv) (cv_ncol cv) row_map /\ same_shape cv g /\
  (forall r c, (r < cv_nrow cv)%nat -> (c < cv_ncol cv)%nat ->
    user_disparity_row cv (fst (row_range one g r c)) /\ user_disparity_row cv (snd (row_range one g r c)) /\
    user_disparity_col cv (fst (col_range one g r c)) /\ user_disparity_col cv (snd (col_range one g r c)) /\
    (nth2 row_map r c = Some invalid \/ exists v, nth2 row_map r c = Some (Fin v) /\ In v (cv_disp_row cv) /\ in_range v (row_range one g r c)) /\
    (nth2 col_map r c = Some invalid \/ exists v, nth2 col_map r c = Some (Fin v) /\ In v (cv_disp_col cv) /\ in_range v (col_range one g r c))).

(** The costs are float32 numbers or NaN, and none is infinitely bad. *)
Definition ordinary_costs (store : ext -> ext) (cv : cost_volumes) : Prop :=
  forall r c i j x, cost_at cv r c i j = Some x -> x = NaN \/ (x <> worst_cost (cv_measure cv) /\ store x = x).
