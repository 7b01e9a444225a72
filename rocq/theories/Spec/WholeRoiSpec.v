(** The pixels of a ROI that are far enough from its borders. *)
From Coq Require Import ZArith.
From Verif Require Import Base.Arr Model.ImgShiftModel Spec.WholeSpec.
Open Scope Z_scope.

(** All the pixels at a distance of at most k rows and k columns are asked for and in the image. *)
Definition inner (q : request) (rows cols : nat) (k x y : Z) : Prop :=
  inside_row q (Z.of_nat rows) (x - k) /\ inside_row q (Z.of_nat rows) (x + k) /\ inside_col q (Z.of_nat cols) (y - k) /\ inside_col q (Z.of_nat cols) (y + k).

(** The pixels of a part of an image are those of the image. *)
Definition part_of_image {px} (row0 : Z) (nrow : nat) (col0 : Z) (ncol : nat) (part whole : image px) : Prop :=
  forall x y, row0 <= x < row0 + Z.of_nat nrow -> col0 <= y < col0 + Z.of_nat ncol ->
    a2_get (im_data part) (Z.to_nat (x - row0)) (Z.to_nat (y - col0)) = a2_get (im_data whole) (Z.to_nat x) (Z.to_nat y).
