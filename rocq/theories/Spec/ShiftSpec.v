(** The right image seen at a row disparity. *)
From Coq Require Import ZArith Bool.
From Verif Require Import Base.Arr Model.ImgShiftModel.
Open Scope Z_scope.

(** Value of the right image at the row [p] / subpix: the image itself at integer rows, its interpolation
    [interp] (indexed by p) between two rows, no data outside of the image. *)
Definition right_value {px} (interp : nat -> nat -> px) (img : image px) (subpix : nat) (p : Z) (c : nat) : px :=
  if (0 <=? p) && (p <=? (Z.of_nat (a2_n0 (im_data img)) - 1) * Z.of_nat subpix)
  then if p mod Z.of_nat subpix =? 0 then a2_get (im_data img) (Z.to_nat (p / Z.of_nat subpix)) c
       else interp (Z.to_nat p) c
  else im_no_data img.

(** The right image moved by the row disparity d/subpix: row r has the value found at r + d/subpix. *)
Definition right_moved {px} (interp : nat -> nat -> px) (img : image px) (subpix : nat) (d : Z) : arr2 px :=
  mkArr2 (a2_n0 (im_data img)) (a2_n1 (im_data img))
    (fun r c => right_value interp img subpix (Z.of_nat r * Z.of_nat subpix + d) c).

(** Its mask: 1 on no data, 0 elsewhere. *)
Definition moved_mask {px} (px_eqb : px -> px -> bool) (interp : nat -> nat -> px) (img : image px) (subpix : nat) (d : Z) : arr2 Z :=
  mkArr2 (a2_n0 (im_data img)) (a2_n1 (im_data img))
    (fun r c => if px_eqb (a2_get (right_moved interp img subpix d) r c) (im_no_data img) then 1 else 0).
