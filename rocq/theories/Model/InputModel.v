(** Model of the disparity part of the inputs: checks of pandora2d/check_configuration.py and construction
    of the grids of pandora2d/img_tools.py. *)
From Coq Require Import ZArith List Bool Arith.
From Verif Require Import Base.PyList Base.Arr Model.CommonModel Model.MatchingCostModel Model.RoiModel.
Import ListNotations.
Open Scope Z_scope.

(** A raster file opened by rasterio: number of bands and content of the first band; the other bands of a file with
    several bands have the same shape and are not described. *)
Record reader := mkReader { rd_count : nat; rd_band : arr2 Z }.

(** input["row_disparity"], input["col_disparity"]: init is an integer, a path (replaced by the file) or something
    else; the schema of check_configuration.py:389-401 has already checked that range is an integer >= 0. *)
Inductive cfg_init := CInt (v : Z) | CFile (f : reader) | COther.
Record cfg_disp := mkCfgDisp { cd_init : cfg_init; cd_range : Z }.

(** check_configuration.py:151-171 (check_disparity_grids): true when no error is raised. *)
Definition check_disparity_grids (rows cols : nat) (f : reader) : bool :=
  (rd_count f =? 1)%nat && ((a2_n0 (rd_band f) =? rows)%nat && (a2_n1 (rd_band f) =? cols)%nat).

(** check_configuration.py:174-195 (get_dictionary_from_init_grid): init = max(abs(grid)) (None: empty grid). *)
Definition grid_abs (g : arr2 Z) : arr2 Z := mkArr2 (a2_n0 g) (a2_n1 g) (fun r c => Z.abs (a2_get g r c)).
Definition get_dictionary_from_init_grid (f : reader) : option Z := grid_max (grid_abs (rd_band f)).

(** check_configuration.py:198-217 (check_disparity_ranges_are_inside_image): true when no error is raised. *)
Definition check_disparity_ranges_are_inside_image (rows cols : nat) (row_init row_range col_init col_range : Z) : bool :=
  if Z.of_nat rows <? Z.abs row_init - row_range then false
  else if Z.of_nat cols <? Z.abs col_init - col_range then false
  else true.

(** check_configuration.py:110-148 (check_disparity): true when no error is raised. *)
Definition check_disparity (rows cols : nat) (row col : cfg_disp) : bool :=
  match cd_init row, cd_init col with
  | CFile fr, CFile fc =>
      if check_disparity_grids rows cols fr && check_disparity_grids rows cols fc then
        match get_dictionary_from_init_grid fr, get_dictionary_from_init_grid fc with
        | Some ri, Some ci => check_disparity_ranges_are_inside_image rows cols ri (cd_range row) ci (cd_range col)
        | _, _ => false
        end
      else false
  | CInt ri, CInt ci => check_disparity_ranges_are_inside_image rows cols ri (cd_range row) ci (cd_range col)
  | _, _ => false
  end.

(** pow(-1, right) *)
Definition sign_of (right : bool) : Z := if right then -1 else 1.

(** The grids "min" and "max" of a disparity, and the source interval. *)
Record disp_grids := mkGrids { dg_min : arr2 Z; dg_max : arr2 Z; dg_source : Z * Z }.

(** Rows (columns) of a file selected by rows[0] : rows[-1] + 1 with python's clipping. *)
Definition sub_grid (g : arr2 Z) (row0 : Z) (nrow : nat) (col0 : Z) (ncol : nat) : arr2 Z :=
  let ra := py_index row0 (a2_n0 g) in
  let rb := py_index (row0 + Z.of_nat nrow) (a2_n0 g) in
  let ca := py_index col0 (a2_n1 g) in
  let cb := py_index (col0 + Z.of_nat ncol) (a2_n1 g) in
  mkArr2 (rb - ra) (cb - ca) (fun r c => a2_get g (ra + r)%nat (ca + c)%nat).

(** img_tools.py:192-242 (get_min_max_disp_from_dicts) followed by the creation of the DataArray with
    three dimensions (img_tools.py:178-186), for a dataset whose rows are row0 .. row0 + nrow - 1 and columns
    col0 .. col0 + ncol - 1 (at least one of each, IndexError otherwise). np.squeeze removes every axis of length 1:
    when the file has one band and the selection has a single row or a single column an axis is lost and the DataArray
    cannot be created (ValueError: None); same thing when the selection has not the size of the dataset, or with several
    bands. *)
Definition get_min_max_disp (row0 : Z) (nrow : nat) (col0 : Z) (ncol : nat) (d : cfg_disp) (right : bool) : option disp_grids :=
  match cd_init d with
  | CInt v =>
      let lo := v * sign_of right - cd_range d in
      let hi := v * sign_of right + cd_range d in
      Some (mkGrids (mkArr2 nrow ncol (fun _ _ => lo)) (mkArr2 nrow ncol (fun _ _ => hi)) (lo, hi))
  | CFile f =>
      if (nrow =? 0)%nat || (ncol =? 0)%nat then None else
      let g := sub_grid (rd_band f) row0 nrow col0 ncol in
      let gmin := mkArr2 (a2_n0 g) (a2_n1 g) (fun r c => a2_get g r c * sign_of right - cd_range d) in
      let gmax := mkArr2 (a2_n0 g) (a2_n1 g) (fun r c => a2_get g r c * sign_of right + cd_range d) in
      match grid_min gmin, grid_max gmax with
      | Some lo, Some hi =>
          if (rd_count f =? 1)%nat && negb (a2_n0 g =? 1)%nat && negb (a2_n1 g =? 1)%nat &&
             (a2_n0 g =? nrow)%nat && (a2_n1 g =? ncol)%nat
          then Some (mkGrids gmin gmax (lo, hi)) else None
      | _, _ => None
      end
  | COther => None
  end.

(** img_tools.py:157-189 (add_disparity_grid): (column grids, row grids). *)
Definition add_disparity_grid (row0 : Z) (nrow : nat) (col0 : Z) (ncol : nat) (col row : cfg_disp) (right : bool) : option (disp_grids * disp_grids) :=
  bind (get_min_max_disp row0 nrow col0 ncol col right) (fun c =>
  bind (get_min_max_disp row0 nrow col0 ncol row right) (fun r => Some (c, r))).
