(** When the program ends without error. *)
From Coq Require Import List String Bool ZArith.
From Verif Require Import Base.Json Model.InputModel Spec.WholeSpec.
Open Scope Z_scope.

(** The same initial disparity in all of the window: a number, or a grid that does not change there. *)
Definition same_middle (open_raster : string -> reader) (init : json) (row0 : Z) (nrow : nat) (col0 : Z) (ncol : nat) : Prop :=
  exists v, forall x y, row0 <= x < row0 + Z.of_nat nrow -> col0 <= y < col0 + Z.of_nat ncol -> middle open_raster init x y v.
