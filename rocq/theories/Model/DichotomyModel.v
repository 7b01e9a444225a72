(** Model of pandora2d/refinement/dichotomy.py and of the resampling of pandora2d/interpolation_filter/interpolation_filter.py. *)
From Coq Require Import ZArith List Bool Arith.
From Verif Require Import Base.Ext Base.PyList Base.Arr Model.CommonModel Model.DisparityModel.
Import ListNotations.
Open Scope Z_scope.

(** Disparities and positions in a cost surface are numbers of units, [one] units being one pixel (respectively one index).
    They are dyadic numbers: the additions done by the code are exact. *)
Section Dichotomy.
  Variable one : Z.
  (** Storage of a number in a float32 array (dichotomy.py:233: cost_value[...] = ...). *)
  Variable store : ext -> ext.

  (** An interpolation filter: margins.left, margins.up and _SIZE (interpolation_filter.py:40-44, bicubic.py:35-43,
      cardinal_sine.py:38-62) and the value given by its coefficients for a resampling area and the fractional parts of the row
      and column positions (get_coeffs and apply, interpolation_filter.py:115-145). *)
  Record filter := mkFilter { f_left : nat; f_up : nat; f_size : nat; f_apply : list (list ext) -> Z -> Z -> ext }.

  (** bicubic.py:35-43: _SIZE = 4, Margins(1, 1, 2, 2) *)
  Definition bicubic_filter (apply : list (list ext) -> Z -> Z -> ext) : filter := mkFilter 1 1 4 apply.
  Definition bicubic_margins : margins := mkMargins 1 1 2 2.
  (** cardinal_sine.py:49-62: _SIZE = 1 + 2 * half size, Margins(half size, half size, half size, half size) *)
  Definition sinc_filter (half : nat) (apply : list (list ext) -> Z -> Z -> ext) : filter := mkFilter half half (1 + 2 * half) apply.
  Definition sinc_margins (half : nat) : margins := mkMargins half half half half.

  (** interpolation_filter.py:166-178: abs(math.modf(pos)[0]), replaced by 511/512 when it is too close to 1. *)
  Definition fractional (pos : Z) : Z :=
    let f := Z.abs pos mod one in
    if (one - f) * 2 ^ 23 <? one then 511 * one / 512 else f.
  (** interpolation_filter.py:184-194: numpy slices, negative bounds count from the end. *)
  Definition resampling_area (flt : filter) (image : list (list ext)) (pos_row pos_col : Z) : list (list ext) :=
    let top_left_area_row := pos_row / one - Z.of_nat (f_left flt) in
    let top_left_area_col := pos_col / one - Z.of_nat (f_up flt) in
    map (py_slice top_left_area_col (top_left_area_col + Z.of_nat (f_size flt)))
      (py_slice top_left_area_row (top_left_area_row + Z.of_nat (f_size flt)) image).
  (** interpolation_filter.py:147-202 (interpolate), one position. None: numpy's error when the area has not the size of the
      coefficients. *)
  Definition interpolate1 (flt : filter) (image : list (list ext)) (pos : Z * Z) : option ext :=
    let '(pos_col, pos_row) := pos in
    let area := resampling_area flt image pos_row pos_col in
    if (length area =? f_size flt)%nat && forallb (fun line => (length line =? f_size flt)%nat) area
    then Some (f_apply flt area (fractional pos_row) (fractional pos_col)) else None.

  (** dichotomy.py:293-295 (all_same): a NaN is different from everything. *)
  Definition all_same (l : list ext) : bool :=
    match l with [] => false | x :: r => forallb (ext_eqb x) r end.
  (** np.nanargmin and np.nanargmax: NaN are replaced by the worst infinity; ValueError when there are only NaN. *)
  Definition np_nanarg (t : measure) (l : list ext) : option nat :=
    if forallb ext_isnan l then None else np_arg t (map (fill_nan t) l).

  Definition row_shifts : list Z := [-1; -1; -1; 0; 0; 0; 1; 1; 1].
  Definition col_shifts : list Z := [-1; 0; 1; -1; 0; 1; -1; 0; 1].

  (** candidates[4] = ... *)
  Definition set4 (l : list ext) (v : ext) : list ext := firstn 4 l ++ [v] ++ skipn 5 l.

  (** Position of the point in the surface for the row disparity and for the column disparity, disparities, value. *)
  Record point := mkPoint { pt_pos_row : Z; pt_pos_col : Z; pt_row : Z; pt_col : Z; pt_value : ext }.

  (** dichotomy.py:298-385 (search_new_best_point). In a cost surface row disparities are along columns. *)
  Definition search_new_best_point (flt : filter) (t : measure) (subpix : Z) (surface : list (list ext)) (precision : Z) (p : point) : option point :=
    let disp_row_shifts := map (fun s => s * precision) row_shifts in
    let disp_col_shifts := map (fun s => s * precision) col_shifts in
    let new_cols := map (fun s => s * subpix + pt_pos_row p) disp_row_shifts in
    let new_rows := map (fun s => s * subpix + pt_pos_col p) disp_col_shifts in
    let new_rows_disp := map (fun s => s + pt_row p) disp_row_shifts in
    let new_cols_disp := map (fun s => s + pt_col p) disp_col_shifts in
    match map_opt (interpolate1 flt surface) (combine new_cols new_rows) with
    | None => None
    | Some interpolated =>
        let candidates := set4 interpolated (pt_value p) in
        match (if all_same candidates then Some 4%nat else np_nanarg t candidates) with
        | None => None
        | Some best =>
            match nth_error new_cols best, nth_error new_rows best, nth_error new_rows_disp best, nth_error new_cols_disp best, nth_error candidates best with
            | Some pr, Some pc, Some dr, Some dc, Some v => Some (mkPoint pr pc dr dc (store v))
            | _, _, _, _, _ => None
            end
        end
    end.

  (** dichotomy.py:231-243: the loop on the precisions. *)
  Fixpoint search_all (flt : filter) (t : measure) (subpix : Z) (surface : list (list ext)) (precisions : list Z) (p : point) : option point :=
    match precisions with
    | [] => Some p
    | precision :: rest =>
        match search_new_best_point flt t subpix surface precision p with
        | Some p' => search_all flt t subpix surface rest p'
        | None => None
        end
    end.

  (** dichotomy.py:148-151: int.bit_length of the subpixel, iterations first_iteration .. iterations, 1 / 2 ** it *)
  Definition bit_length (n : nat) : nat := match n with O => O | _ => S (Nat.log2 n) end.
  Definition precisions (subpix iterations : nat) : list Z :=
    map (fun it => one / 2 ^ Z.of_nat it) (seq (bit_length subpix) (S iterations - bit_length subpix)).

  (** numpy.searchsorted on sorted coordinates: number of coordinates that are lower. *)
  Fixpoint searchsorted (l : list Z) (v : Z) : nat :=
    match l with [] => 0%nat | x :: r => if x <? v then S (searchsorted r v) else 0%nat end.

  (** dichotomy.py:186-243: one pixel. The bounds of the ranges are in pixels. *)
  Definition refine_pixel (flt : filter) (t : measure) (subpix iterations : nat) (disp_col disp_row : list Z) (surface : list (list ext))
      (cost row col : ext) (row_min row_max col_min col_max : Z) : option (ext * ext * ext) :=
    if ext_isnan cost then Some (cost, row, col)
    else if ext_eqb row (Fin (row_min * one)) || ext_eqb row (Fin (row_max * one)) then Some (cost, row, col)
    else if ext_eqb col (Fin (col_min * one)) || ext_eqb col (Fin (col_max * one)) then Some (cost, row, col)
    else
      match row, col with
      | Fin r, Fin c =>
          let start := mkPoint (Z.of_nat (searchsorted disp_row r) * one) (Z.of_nat (searchsorted disp_col c) * one) r c cost in
          match search_all flt t (Z.of_nat subpix) surface (precisions subpix iterations) start with
          | Some p => Some (pt_value p, Fin (pt_row p), Fin (pt_col p))
          | None => None
          end
      | _, _ => None
      end.

  (** dichotomy.py:121-127: mask of the invalid disparities. *)
  Definition is_invalid (invalid x : ext) : bool := if ext_isnan invalid then ext_isnan x else ext_eqb x invalid.
  (** xarray's sel: position of the label (KeyError: None). *)
  Fixpoint index_of (l : list Z) (v : Z) : option nat :=
    match l with [] => None | x :: r => if x =? v then Some 0%nat else option_map S (index_of r v) end.
  Definition sel_index (coords : list Z) (invalid : bool) (x : ext) : option nat :=
    if invalid then (match coords with [] => None | _ => Some 0%nat end)
    else match x with Fin v => index_of coords v | _ => None end.
  (** dichotomy.py:128-139 (cost_values), one pixel. *)
  Definition cost_value (cv : cost_volumes) (surface : list (list ext)) (invalid row col : ext) : option ext :=
    match sel_index (cv_disp_row cv) (is_invalid invalid row) row, sel_index (cv_disp_col cv) (is_invalid invalid col) col with
    | Some j, Some i =>
        match nth2 surface i j with
        | Some x => Some (if is_invalid invalid row || is_invalid invalid col then NaN else x)
        | None => None
        end
    | _, _ => None
    end.

  (** np.nditer: index in an operand with [n] elements when the result has [m] (None: operands could not be broadcast). *)
  Definition broadcast (n m i : nat) : option nat := if (n =? m)%nat then Some i else if (n =? 1)%nat then Some 0%nat else None.
  Definition grid_at (g : arr2 Z) (nrow ncol r c : nat) : option Z :=
    match broadcast (a2_n0 g) nrow r, broadcast (a2_n1 g) ncol c with Some i, Some j => Some (a2_get g i j) | _, _ => None end.

  (** Column and row disparity grids of the left dataset, in pixels: min and max. *)
  Record grids := mkGrids2 { g_col_min : arr2 Z; g_col_max : arr2 Z; g_row_min : arr2 Z; g_row_max : arr2 Z }.

  Definition refine_at (flt : filter) (iterations : nat) (cv : cost_volumes) (invalid : ext) (col_map row_map : list (list ext)) (g : grids) (r c : nat)
      : option (ext * ext * ext) :=
    match nth2 (cv_data cv) r c, nth2 row_map r c, nth2 col_map r c with
    | Some surface, Some row, Some col =>
        match cost_value cv surface invalid row col, grid_at (g_row_min g) (cv_nrow cv) (cv_ncol cv) r c, grid_at (g_row_max g) (cv_nrow cv) (cv_ncol cv) r c,
              grid_at (g_col_min g) (cv_nrow cv) (cv_ncol cv) r c, grid_at (g_col_max g) (cv_nrow cv) (cv_ncol cv) r c with
        | Some cost, Some rmin, Some rmax, Some cmin, Some cmax =>
            refine_pixel flt (cv_measure cv) (cv_subpix cv) iterations (cv_disp_col cv) (cv_disp_row cv) surface cost row col rmin rmax cmin cmax
        | _, _, _, _, _ => None
        end
    | _, _, _ => None
    end.

  (** dichotomy.py:93-249 (refinement_method): column map, row map, costs. nditer and the cost surfaces (dichotomy.py:252-283) are read row by row:
      the maps are C contiguous arrays. *)
  Definition refinement_method (flt : filter) (iterations : nat) (cv : cost_volumes) (invalid : ext) (col_map row_map : list (list ext)) (g : grids)
      : option (list (list ext) * list (list ext) * list (list ext)) :=
    match map_opt (fun r => map_opt (refine_at flt iterations cv invalid col_map row_map g r) (seq 0 (cv_ncol cv))) (seq 0 (cv_nrow cv)) with
    | Some m => Some (map (map (fun x : ext * ext * ext => snd x)) m, map (map (fun x : ext * ext * ext => snd (fst x))) m,
                      map (map (fun x : ext * ext * ext => fst (fst x))) m)
    | None => None
    end.
End Dichotomy.
