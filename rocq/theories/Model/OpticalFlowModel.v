(** Model of pandora2d/refinement/optical_flow.py. *)
From Coq Require Import ZArith QArith Qabs Qround List Bool Arith.
From Verif Require Import Base.PyList Base.Arr Base.ZRange Model.CommonModel Model.DichotomyModel.
Import ListNotations.

(** Disparities and motions: None is NaN, Some q a rational number. Rounding is not modelled; an infinite motion is handled by the code
    as any number greater than 1 in absolute value. *)
Definition num : Type := option Q.
Definition nsub (a b : num) : num := match a, b with Some x, Some y => Some (x - y)%Q | _, _ => None end.
Definition nlt1 (a : num) : bool := match a with Some x => negb (Qle_bool 1 (Qabs x)) | None => false end.
Definition ngt1 (a : num) : bool := match a with Some x => negb (Qle_bool (Qabs x) 1) | None => false end.
Definition nle (a : num) (z : Z) : bool := match a with Some x => Qle_bool x (inject_Z z) | None => false end.
Definition nge (a : num) (z : Z) : bool := match a with Some x => Qle_bool (inject_Z z) x | None => false end.
Definition neqb (a b : num) : bool := match a, b with Some x, Some y => Qeq_bool x y | _, _ => false end.
(** python's int() of a float: truncation towards zero. *)
Definition q_int (x : Q) : Z := if Qle_bool 0 x then Qfloor x else Qceiling x.

Open Scope Z_scope.

(** xarray's sel(x=slice(a, b)) on increasing coordinates: the labels between a and b, both included. *)
Definition label_slice {X} (coords : list Z) (data : list X) (a b : Z) : list X :=
  map snd (List.filter (fun p : Z * X => (a <=? fst p) && (fst p <=? b)) (combine coords data)).

(** optical_flow.py:92-95 (margins): left, up, right, down; the generator runs through the steps [row, col] twice. *)
Definition flow_margins (window_size row_step col_step : Z) : Z * Z * Z * Z :=
  (window_size / 2 * row_step, window_size / 2 * col_step, window_size / 2 * row_step, window_size / 2 * col_step).

(** optical_flow.py:297-315 (find_nearest_column). numpy indices: -1 is the last element; None: IndexError. *)
Fixpoint searchsorted_right (l : list Z) (v : Z) : nat :=
  match l with [] => 0%nat | x :: r => if x <=? v then S (searchsorted_right r v) else 0%nat end.
Definition nearest_up (value : Z) (data : list Z) : option Z := nth_error data (searchsorted data value).
Definition nearest_down (value : Z) (data : list Z) : option Z :=
  match searchsorted_right data value with S k => nth_error data k | O => nth_error data (length data - 1) end.

(** optical_flow.py:341-354: extrema of the coordinates of an axis. *)
Definition extrema (coords : list Z) (offset : Z) : option (Z * Z) :=
  match coords with
  | [] => None
  | first :: _ =>
      bind (nearest_up (first + offset) coords) (fun a =>
      bind (nearest_down (last coords first - offset) coords) (fun b => Some (a, b)))
  end.

Section OpticalFlow.
  (** Values of the pixels, and NaN. *)
  Context {A : Type} (nan : A).
  Local Notation window := (list (list A)).
  (** np.gradient and np.linalg.lstsq (optical_flow.py:233-245): the motion (x, y), or LinAlgError. *)
  Variable lstsq : window -> window -> option (num * num).
  (** scipy's map_coordinates (optical_flow.py:213-215): the window resampled with the row and column shifts. *)
  Variable resample : window -> num -> num -> window.
  (** Content of np.empty_like (optical_flow.py:209). *)
  Variable junk : nat -> window.

  (** An image: its data and the coordinates of its first row and column (coordinates are consecutive integers). *)
  Record image := mkImage { i_row0 : Z; i_col0 : Z; i_nrow : nat; i_ncol : nat; i_data : list (list A) }.
  Definition i_rows (im : image) : list Z := zarange (i_row0 im) (i_row0 im + Z.of_nat (i_nrow im)) 1.
  Definition i_cols (im : image) : list Z := zarange (i_col0 im) (i_col0 im + Z.of_nat (i_ncol im)) 1.

  (** Nested loops on rows then columns. *)
  Definition pixels {X} (rows cols : list Z) (f : Z -> Z -> X) : list X := flat_map (fun r => map (f r) cols) rows.

  (** numpy's sliding_window_view then reshape(-1, w, w) (optical_flow.py:141-142). None: ValueError, window larger than the image. *)
  Definition sliding_windows (w : nat) (im : image) : option (list window) :=
    if ((i_nrow im <? w) || (i_ncol im <? w))%nat then None
    else Some (flat_map (fun i => map (fun j => map (slice j (j + w)) (slice i (i + w) (i_data im))) (seq 0 (i_ncol im - w + 1))) (seq 0 (i_nrow im - w + 1))).

  (** A python dictionary built from a list of keys and values: the last value of a key is kept. *)
  Fixpoint dict_get {X} (d : list (Z * X)) (k : Z) : option X :=
    match d with
    | [] => None
    | (k', v) :: r => match dict_get r k with Some x => Some x | None => if k' =? k then Some v else None end
    end.

  (** optical_flow.py:97-162 (reshape_to_matching_cost_window), left image. None: IndexError, or ValueError of np.stack. *)
  Definition left_windows (w : nat) (offset : Z) (im : image) (rows cols : list Z) : option (list window) :=
    match sliding_windows w im with
    | None => None
    | Some patches =>
        let ncol := Z.of_nat (i_ncol im) in
        let id_patches_img := pixels (py_slice offset (- offset) (i_rows im)) (py_slice offset (- offset) (i_cols im)) (fun r c => r * ncol + c) in
        if (length patches <? length id_patches_img)%nat then None
        else
          let patch_dict := combine id_patches_img patches in
          let id_patches := pixels rows cols (fun r c => r * ncol + c) in
          let filtered := flat_map (fun key => match dict_get patch_dict key with Some p => [p] | None => [] end) id_patches in
          match filtered with [] => None | _ => Some filtered end
    end.

  (** optical_flow.py:171-172: integer shift. *)
  Definition shift_of (invalid d : num) : Z := match d with None => 0 | Some q => if neqb d invalid then 0 else q_int q end.
  (** optical_flow.py:174-185: window of one pixel in the right image. *)
  Definition right_window (w : nat) (im : image) (invalid : num) (row col : Z) (disp_row disp_col : num) : window :=
    let offset := Z.of_nat w / 2 in
    let shift_col := shift_of invalid disp_col in
    let shift_row := shift_of invalid disp_row in
    let patch := map (fun line => label_slice (i_cols im) line (col - offset + shift_col) (col + offset + shift_col))
                     (label_slice (i_rows im) (i_data im) (row - offset + shift_row) (row + offset + shift_row)) in
    if ((length patch =? w) && forallb (fun line => length line =? w) patch)%nat then patch else repeat (repeat nan w) w.
  (** optical_flow.py:164-187, right image: idx runs through the pixels and the disparities together. None: IndexError. *)
  Definition right_windows (w : nat) (im : image) (invalid : num) (rows cols : list Z) (disp_row disp_col : list num) : option (list window) :=
    let px := pixels rows cols (fun r c => (r, c)) in
    map_opt (fun p : nat * (Z * Z) => let '(idx, (r, c)) := p in
      match nth_error disp_row idx, nth_error disp_col idx with
      | Some dr, Some dc => Some (right_window w im invalid r c dr dc)
      | _, _ => None
      end) (combine (seq 0 (length px)) px).

  (** optical_flow.py:221-249 (lucas_kanade_core_algorithm): row then column. *)
  Definition lucas_kanade (invalid : num) (left right : window) : num * num :=
    match lstsq left right with Some (x, y) => (y, x) | None => (invalid, invalid) end.

  (** optical_flow.py:286-290: a motion greater than 1 is cancelled. *)
  Definition cancel (x : num) : num := if ngt1 x then Some 0%Q else x.

  Fixpoint set_nth {X} (l : list X) (i : nat) (x : X) : list X :=
    match l, i with [] , _ => [] | _ :: r, O => x :: r | y :: r, S k => y :: set_nth r k x end.

  (** optical_flow.py:251-295 (optical_flow): one turn of the loop, then the loop. None: IndexError. *)
  Definition flow_step (invalid : num) (left right : list window) (st : option (list num * list num * list nat)) (idx : nat) :
      option (list num * list num * list nat) :=
    match st, nth_error left idx, nth_error right idx with
    | Some (dec_row, dec_col, todo), Some l, Some r =>
        let '(drow, dcol) := lucas_kanade invalid l r in
        if nlt1 dcol && nlt1 drow then Some (set_nth dec_row idx drow, set_nth dec_col idx dcol, todo ++ [idx])
        else Some (set_nth dec_row idx (cancel drow), set_nth dec_col idx (cancel dcol), todo)
    | _, _, _ => None
    end.
  Definition optical_flow (invalid : num) (left right : list window) (todo : list nat) : option (list num * list num * list nat) :=
    let zeros := repeat (Some 0%Q) (length left) in
    fold_left (flow_step invalid left right) todo (Some (zeros, zeros, [])).

  (** optical_flow.py:189-219 (warped_img). None: IndexError. *)
  Definition warp_step (right : list window) (drow dcol : list num) (st : option (list window)) (idx : nat) : option (list window) :=
    match st, nth_error right idx, nth_error drow idx, nth_error dcol idx with
    | Some new, Some r, Some dr, Some dc => Some (set_nth new idx (resample r dr dc))
    | _, _, _, _ => None
    end.
  Definition warped_img (right : list window) (drow dcol : list num) (todo : list nat) : option (list window) :=
    fold_left (warp_step right drow dcol) todo (Some (map junk (seq 0 (length right)))).

  (** optical_flow.py:377-387: the iterations. numpy's subtraction of arrays of different sizes fails (arrays of size 1 excepted, not modelled). *)
  Definition sub_arrays (a b : list num) : option (list num) := map2_opt (fun x y => Some (nsub x y)) a b.
  Fixpoint iterate (n : nat) (invalid : num) (left right : list window) (todo : list nat) (delta_row delta_col : list num) : option (list num * list num) :=
    match n with
    | O => Some (delta_row, delta_col)
    | S m =>
        bind (optical_flow invalid left right todo) (fun res => let '(drow, dcol, todo') := res in
        bind (warped_img right drow dcol todo') (fun right' =>
        bind (sub_arrays delta_col dcol) (fun delta_col' =>
        bind (sub_arrays delta_row drow) (fun delta_row' => iterate m invalid left right' todo' delta_row' delta_col'))))
    end.

  (** numpy's reshape([n, m]) of a flat array. None: ValueError. *)
  Fixpoint chunks {X} (n m : nat) (l : list X) : list (list X) := match n with O => [] | S k => firstn m l :: chunks k m (skipn m l) end.
  Definition reshape2 {X} (n m : nat) (l : list X) : option (list (list X)) := if (length l =? n * m)%nat then Some (chunks n m l) else None.
  (** numpy's pad with a constant (optical_flow.py:396-412). *)
  Definition pad2 {X} (v : X) (top bottom left right ncol : nat) (m : list (list X)) : list (list X) :=
    repeat (repeat v (left + ncol + right)) top ++ map (fun line => repeat v left ++ line ++ repeat v right) m ++ repeat (repeat v (left + ncol + right)) bottom.

  (** optical_flow.py:336-412: the column and row maps before the check of the disparity range. The disparity maps have the coordinates of the cost
      volumes (common.dataset_disp_maps); left and right images have their own coordinates. None: an error. *)
  Definition flow_maps (w iterations : nat) (offset row_step col_step : Z) (rows cols : list Z) (img_left img_right : image) (invalid : num)
      (col_map row_map : list (list num)) : option (list (list num) * list (list num)) :=
    bind (extrema cols offset) (fun ecol =>
    bind (extrema rows offset) (fun erow =>
    let sub_rows := label_slice rows rows (fst erow) (snd erow) in
    let sub_cols := label_slice cols cols (fst ecol) (snd ecol) in
    let sub m := concat (map (fun line => label_slice cols line (fst ecol) (snd ecol)) (label_slice rows m (fst erow) (snd erow))) in
    let delta_row := sub row_map in
    let delta_col := sub col_map in
    bind (left_windows w offset img_left sub_rows sub_cols) (fun left =>
    bind (right_windows w img_right invalid sub_rows sub_cols delta_row delta_col) (fun right =>
    bind (iterate iterations invalid left right (seq 0 (length left)) delta_row delta_col) (fun res =>
    let nb_row := Z.quot (snd erow - fst erow + row_step) row_step in
    let nb_col := Z.quot (snd ecol - fst ecol + col_step) col_step in
    if (nb_row <? 0) || (nb_col <? 0) then None
    else
      bind (reshape2 (Z.to_nat nb_row) (Z.to_nat nb_col) (snd res)) (fun dcol =>
      bind (reshape2 (Z.to_nat nb_row) (Z.to_nat nb_col) (fst res)) (fun drow =>
      let n := Z.of_nat (length rows) in
      let m := Z.of_nat (length cols) in
      let top := (n - nb_row) / 2 in
      let bottom := n - nb_row - top in
      let left_ := (m - nb_col) / 2 in
      let right_ := m - nb_col - left_ in
      if (top <? 0) || (bottom <? 0) || (left_ <? 0) || (right_ <? 0) then None
      else
        let pad := pad2 invalid (Z.to_nat top) (Z.to_nat bottom) (Z.to_nat left_) (Z.to_nat right_) (Z.to_nat nb_col) in
        Some (pad dcol, pad drow)))))))).

  (** A numpy grid [::row_step, ::col_step]. *)
  Definition stride2 (row_step col_step : nat) (g : arr2 Z) : arr2 Z :=
    mkArr2 (strided_len (a2_n0 g) 0 row_step) (strided_len (a2_n1 g) 0 col_step) (fun r c => a2_get g (r * row_step) (c * col_step)).
  (** delta[cond(delta, grid)] = value, the grid being broadcast to the shape of delta. None: ValueError or IndexError. *)
  Definition put_where (cond : num -> Z -> bool) (value : num) (g : arr2 Z) (n m : nat) (delta : list (list num)) : option (list (list num)) :=
    map_opt (fun r => map_opt (fun c =>
      match nth2 delta r c, grid_at g n m r c with Some x, Some z => Some (if cond x z then value else x) | _, _ => None end) (seq 0 m)) (seq 0 n).
  (** optical_flow.py:420-433 (_invalid_out_of_grid_disparities) *)
  Definition invalid_out_of_grid (invalid : num) (row_step col_step : nat) (gmin gmax : arr2 Z) (n m : nat) (delta : list (list num)) : option (list (list num)) :=
    bind (put_where nle invalid (stride2 row_step col_step gmin) n m delta) (put_where nge invalid (stride2 row_step col_step gmax) n m).

  (** optical_flow.py:317-418 (refinement_method): column map, row map (the score map is given back unchanged). *)
  Definition flow_refinement (w iterations : nat) (offset : Z) (row_step col_step : nat) (rows cols : list Z) (img_left img_right : image) (g : grids)
      (invalid : num) (col_map row_map : list (list num)) : option (list (list num) * list (list num)) :=
    bind (flow_maps w iterations offset (Z.of_nat row_step) (Z.of_nat col_step) rows cols img_left img_right invalid col_map row_map) (fun maps =>
    bind (invalid_out_of_grid invalid row_step col_step (g_col_min g) (g_col_max g) (length rows) (length cols) (fst maps)) (fun delta_col =>
    bind (invalid_out_of_grid invalid row_step col_step (g_row_min g) (g_row_max g) (length rows) (length cols) (snd maps)) (fun delta_row =>
    Some (delta_col, delta_row)))).
End OpticalFlow.
