(** Model of the masking functions of pandora2d/common.py. *)
From Coq Require Import ZArith List Bool Arith.
From Verif Require Import Base.Ext Base.PyList Base.Arr.
Import ListNotations.
Open Scope Z_scope.

(** Condition of pandora2d/common.py:226-241 (and 274-289): is the disparity [d] to be masked for a pixel
    whose range is [dmin, dmax]? [global] is global_disparity_range.
    Disparities and grids are in the same unit. *)
Definition to_mask (global : option (Z * Z)) (d dmin dmax : Z) : bool :=
  match global with
  | Some (g0, g1) => ((d <? dmin) && (g0 <=? d)) || ((dmax <? d) && (d <=? g1))
  | None => (d <? dmin) || (dmax <? d)
  end.

(** [data.data[masking[0], masking[1], :, disp_row] = value] where [masking] is the list of the true
    positions of a boolean grid of shape (gn0, gn1): IndexError (None) if one of them is
    outside of the data. *)
Definition put_masked_row {A} (value : A) (gn0 gn1 : nat) (mask : nat -> nat -> bool) (k : nat)
    (data : arr4 A) : option (arr4 A) :=
  if forall2b gn0 gn1 (fun r c => negb (mask r c) || ((r <? a4_n0 data)%nat && (c <? a4_n1 data)%nat))
  then Some (mkArr4 (a4_n0 data) (a4_n1 data) (a4_n2 data) (a4_n3 data)
        (fun r c i j => if (j =? k)%nat && (r <? gn0)%nat && (c <? gn1)%nat && mask r c
                        then value else a4_get data r c i j))
  else None.

(** [data.data[masking[0], masking[1], disp_col, :] = value] *)
Definition put_masked_col {A} (value : A) (gn0 gn1 : nat) (mask : nat -> nat -> bool) (k : nat)
    (data : arr4 A) : option (arr4 A) :=
  if forall2b gn0 gn1 (fun r c => negb (mask r c) || ((r <? a4_n0 data)%nat && (c <? a4_n1 data)%nat))
  then Some (mkArr4 (a4_n0 data) (a4_n1 data) (a4_n2 data) (a4_n3 data)
        (fun r c i j => if (i =? k)%nat && (r <? gn0)%nat && (c <? gn1)%nat && mask r c
                        then value else a4_get data r c i j))
  else None.

Definition bind {A B} (x : option A) (f : A -> option B) : option B :=
  match x with Some a => f a | None => None end.

(** pandora2d/common.py:198-242 (set_out_of_row_disparity_range_to_other_value).
    [disp_row] gives the coordinates disp_row of the data. The two grids have the same shape. *)
Definition set_out_of_row {A} (disp_row : nat -> Z) (min_grid max_grid : arr2 Z) (value : A)
    (global : option (Z * Z)) (data : arr4 A) : option (arr4 A) :=
  fold_left
    (fun acc k => bind acc (put_masked_row value (a2_n0 min_grid) (a2_n1 min_grid)
       (fun r c => to_mask global (disp_row k) (a2_get min_grid r c) (a2_get max_grid r c)) k))
    (seq 0 (a4_n3 data)) (Some data).

(** pandora2d/common.py:245-290 (set_out_of_col_disparity_range_to_other_value). *)
Definition set_out_of_col {A} (disp_col : nat -> Z) (min_grid max_grid : arr2 Z) (value : A)
    (global : option (Z * Z)) (data : arr4 A) : option (arr4 A) :=
  fold_left
    (fun acc k => bind acc (put_masked_col value (a2_n0 min_grid) (a2_n1 min_grid)
       (fun r c => to_mask global (disp_col k) (a2_get min_grid r c) (a2_get max_grid r c)) k))
    (seq 0 (a4_n2 data)) (Some data).
