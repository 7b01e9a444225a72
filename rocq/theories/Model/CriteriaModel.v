(** Model of pandora2d/criteria.py and of the flags of pandora2d/constants.py.
    Simplifications: the disparities are integers (subpix = 1; with a fractional disparity the slices of
    apply_right_criteria_mask raise a TypeError); rows and columns coordinates are consecutive integers (step
    [1, 1]); the masks have the shape of the images. *)
From Coq Require Import ZArith NArith List Bool Arith.
From Verif Require Import Base.Arr Base.PyList Model.CommonModel.
Import ListNotations.
Open Scope Z_scope.

(** pandora2d/constants.py:26-51: flags, as numbers (VALID = 0, then one bit for each). *)
Definition VALID : N := 0%N.
Definition LEFT_BORDER : N := 1%N.
Definition LEFT_NODATA : N := 2%N.
Definition RIGHT_NODATA : N := 4%N.
Definition RIGHT_DISPARITY_OUTSIDE : N := 8%N.
Definition INVALIDITY_MASK_LEFT : N := 16%N.
Definition INVALIDITY_MASK_RIGHT : N := 32%N.
Definition PEAK_ON_EDGE : N := 64%N.
Definition DISPARITY_UNPROCESSED : N := 128%N.

(** A mask and its attributes "no_data_mask" and "valid_pixels". *)
Record mask := mkMask { mk_data : arr2 Z; mk_no_data : Z; mk_valid : Z }.

(** What get_criteria_dataarray reads (criteria.py:59-106): the cost volumes (coordinates, attributes window_size and
    offset_row_col) and the two images (optional "msk", disparity grids of the left one). *)
Record crit_input := mkCrit {
  ci_row0 : Z; ci_nrow : nat; ci_col0 : Z; ci_ncol : nat;
  ci_disp_col : list Z; ci_disp_row : list Z;
  ci_window : nat; ci_offset : nat;
  ci_left_msk : option mask; ci_right_msk : option mask;
  ci_col_min : arr2 Z; ci_col_max : arr2 Z; ci_row_min : arr2 Z; ci_row_max : arr2 Z }.

(** criteria.py:36-56 (allocate_criteria_dataarray) with the value VALID. *)
Definition allocate (ci : crit_input) : arr4 N :=
  mkArr4 (ci_nrow ci) (ci_ncol ci) (length (ci_disp_col ci)) (length (ci_disp_row ci)) (fun _ _ _ _ => VALID).

(** Pandora's binary_dilation_msk: a pixel is set when a no data pixel is in the window (odd size) centred on it;
    window pixels outside of the image are ignored. *)
Definition binary_dilation_msk (m : mask) (window : nat) (r c : nat) : bool :=
  let off := ((window - 1) / 2)%nat in
  existsb (fun r' => existsb (fun c' =>
      (a2_get (mk_data m) r' c' =? mk_no_data m) &&
      (r' <=? r + off)%nat && (r <=? r' + off)%nat && (c' <=? c + off)%nat && (c <=? c' + off)%nat)
    (seq 0 (a2_n1 (mk_data m)))) (seq 0 (a2_n0 (mk_data m))).

(** criteria.py:266-278 (get_invalid_mask) *)
Definition get_invalid_mask (m : mask) (r c : nat) : bool :=
  negb (a2_get (mk_data m) r c =? mk_no_data m) && negb (a2_get (mk_data m) r c =? mk_valid m).

(** criteria_dataarray.data[mask2d, ...] |= flag: IndexError (None) when the shapes differ. *)
Definition or_where2 (shape : arr2 Z) (cond : nat -> nat -> bool) (flag : N) (data : arr4 N) : option (arr4 N) :=
  if (a2_n0 shape =? a4_n0 data)%nat && (a2_n1 shape =? a4_n1 data)%nat then
    Some (mkArr4 (a4_n0 data) (a4_n1 data) (a4_n2 data) (a4_n3 data)
      (fun r c i j => if cond r c then N.lor (a4_get data r c i j) flag else a4_get data r c i j))
  else None.

(** criteria.py:193-206 and 228-242 (mask_left_no_data, mask_left_invalid) *)
Definition mask_left_no_data (m : mask) (window : nat) (data : arr4 N) : option (arr4 N) :=
  or_where2 (mk_data m) (binary_dilation_msk m window) LEFT_NODATA data.
Definition mask_left_invalid (m : mask) (data : arr4 N) : option (arr4 N) :=
  or_where2 (mk_data m) (get_invalid_mask m) INVALIDITY_MASK_LEFT data.

(** Bounds of a python slice of an axis of length n. *)
Definition slice_bounds (start stop : option Z) (n : nat) : nat * nat :=
  (match start with Some a => py_index a n | None => 0%nat end,
   match stop with Some b => py_index b n | None => n end).

(** criteria.py:296-301: the slices of one axis for a disparity. *)
Definition msk_slice (d : Z) (n : nat) : nat * nat :=
  if d <? 0 then slice_bounds None (Some d) n else slice_bounds (Some d) None n.
Definition criteria_slice (d : Z) (n : nat) : nat * nat :=
  if d <=? 0 then slice_bounds (Some (- d)) None n else slice_bounds None (Some (- d)) n.

(** criteria.py:302-308: criteria[rows, cols, i, j] |= mask[rows', cols']; ValueError (None) if
    the numbers of rows or columns differ. *)
Definition or_block (right : arr2 N) (drow dcol : Z) (i0 j0 : nat) (data : arr4 N) : option (arr4 N) :=
  let '(ma, mb) := msk_slice drow (a2_n0 right) in
  let '(mc, md) := msk_slice dcol (a2_n1 right) in
  let '(ca, cb) := criteria_slice drow (a4_n0 data) in
  let '(cc, cd) := criteria_slice dcol (a4_n1 data) in
  if (mb - ma =? cb - ca)%nat && (md - mc =? cd - cc)%nat then
    Some (mkArr4 (a4_n0 data) (a4_n1 data) (a4_n2 data) (a4_n3 data)
      (fun r c i j => if ((i =? i0) && (j =? j0) && (ca <=? r) && (r <? cb) && (cc <=? c) && (c <? cd))%nat
         then N.lor (a4_get data r c i j) (a2_get right (ma + (r - ca))%nat (mc + (c - cc))%nat)
         else a4_get data r c i j))
  else None.

(** criteria.py:281-308 (apply_right_criteria_mask): loop over the product of the disparities. *)
Definition apply_right_criteria_mask (disp_row disp_col : list Z) (right : arr2 N) (data : arr4 N) : option (arr4 N) :=
  fold_left (fun acc (p : nat * nat) =>
      bind acc (or_block right (nth (fst p) disp_row 0) (nth (snd p) disp_col 0) (snd p) (fst p)))
    (list_prod (seq 0 (length disp_row)) (seq 0 (length disp_col))) (Some data).

(** criteria.py:209-225 and 245-263 (mask_right_no_data, mask_right_invalid): the 2D array of flags. *)
Definition right_flags (m : mask) (cond : nat -> nat -> bool) (flag : N) : arr2 N :=
  mkArr2 (a2_n0 (mk_data m)) (a2_n1 (mk_data m)) (fun r c => if cond r c then N.lor VALID flag else VALID).
Definition mask_right_no_data (ci : crit_input) (m : mask) (data : arr4 N) : option (arr4 N) :=
  apply_right_criteria_mask (ci_disp_row ci) (ci_disp_col ci)
    (right_flags m (binary_dilation_msk m (ci_window ci)) RIGHT_NODATA) data.
Definition mask_right_invalid (ci : crit_input) (m : mask) (data : arr4 N) : option (arr4 N) :=
  apply_right_criteria_mask (ci_disp_row ci) (ci_disp_col ci)
    (right_flags m (get_invalid_mask m) INVALIDITY_MASK_RIGHT) data.

(** criteria.py:163-190 (mask_disparity_outside_right_image). The broadcast condition has the axes
    (row, disp_row, col, disp_col); swapaxes(1, 3) then swapaxes(1, 2). *)
Definition swap13 {A} (f : nat -> nat -> nat -> nat -> A) := fun a b c d => f a d c b.
Definition swap12 {A} (f : nat -> nat -> nat -> nat -> A) := fun a b c d => f a c b d.
Definition outside_condition (ci : crit_input) (r j c i : nat) : bool :=
  let off := Z.of_nat (ci_offset ci) in
  let row := ci_row0 ci + Z.of_nat r in
  let col := ci_col0 ci + Z.of_nat c in
  let row_last := ci_row0 ci + Z.of_nat (ci_nrow ci) - 1 in
  let col_last := ci_col0 ci + Z.of_nat (ci_ncol ci) - 1 in
  (row + nth j (ci_disp_row ci) 0 <? ci_row0 ci + off) || (row_last - off <? row + nth j (ci_disp_row ci) 0) ||
  (col + nth i (ci_disp_col ci) 0 <? ci_col0 ci + off) || (col_last - off <? col + nth i (ci_disp_col ci) 0).
Definition mask_disparity_outside (ci : crit_input) (data : arr4 N) : arr4 N :=
  mkArr4 (a4_n0 data) (a4_n1 data) (a4_n2 data) (a4_n3 data)
    (fun r c i j => if swap12 (swap13 (outside_condition ci)) r c i j
       then N.lor (a4_get data r c i j) RIGHT_DISPARITY_OUTSIDE else a4_get data r c i j).

(** criteria.py:141-160 (mask_border) *)
Definition put_rows (bounds : nat * nat) (v : N) (data : arr4 N) : arr4 N :=
  mkArr4 (a4_n0 data) (a4_n1 data) (a4_n2 data) (a4_n3 data)
    (fun r c i j => if (fst bounds <=? r)%nat && (r <? snd bounds)%nat then v else a4_get data r c i j).
Definition put_cols (bounds : nat * nat) (v : N) (data : arr4 N) : arr4 N :=
  mkArr4 (a4_n0 data) (a4_n1 data) (a4_n2 data) (a4_n3 data)
    (fun r c i j => if (fst bounds <=? c)%nat && (c <? snd bounds)%nat then v else a4_get data r c i j).
Definition mask_border (offset : nat) (data : arr4 N) : arr4 N :=
  if (0 <? offset)%nat then
    let off := Z.of_nat offset in
    let data := put_rows (slice_bounds None (Some off) (a4_n0 data)) LEFT_BORDER data in
    let data := put_rows (slice_bounds (Some (- off)) None (a4_n0 data)) LEFT_BORDER data in
    let data := put_cols (slice_bounds None (Some off) (a4_n1 data)) LEFT_BORDER data in
    put_cols (slice_bounds (Some (- off)) None (a4_n1 data)) LEFT_BORDER data
  else data.

(** criteria.py:109-138 (set_unprocessed_disp) *)
Definition set_unprocessed_disp (ci : crit_input) (data : arr4 N) : option (arr4 N) :=
  bind (set_out_of_col (fun i => nth i (ci_disp_col ci) 0) (ci_col_min ci) (ci_col_max ci) DISPARITY_UNPROCESSED None data)
    (set_out_of_row (fun j => nth j (ci_disp_row ci) 0) (ci_row_min ci) (ci_row_max ci) DISPARITY_UNPROCESSED None).

(** criteria.py:59-106 (get_criteria_dataarray) *)
Definition get_criteria_dataarray (ci : crit_input) : option (arr4 N) :=
  let data := allocate ci in
  bind (match ci_left_msk ci with
        | Some m => bind (mask_left_no_data m (ci_window ci) data) (mask_left_invalid m)
        | None => Some data end) (fun data =>
  bind (match ci_right_msk ci with
        | Some m => bind (mask_right_no_data ci m data) (mask_right_invalid ci m)
        | None => Some data end) (fun data =>
  set_unprocessed_disp ci (mask_border (ci_offset ci) (mask_disparity_outside ci data)))).
