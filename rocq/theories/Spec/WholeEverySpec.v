(** What the saved maps of any pipeline must be. *)
From Coq Require Import List String Bool ZArith QArith.
From Verif Require Import Base.PyList Base.Arr Base.Json Model.RoiModel Model.InputModel Model.InterpolationModel Spec.RoiSpec Spec.DichotomySpec Spec.WtaSpec Spec.WholeSpec.
Import ListNotations.
Open Scope Z_scope.

(** Exactly the rows and columns asked for, in increasing order; three maps of this size. *)
Definition saved_pixels (q : request) (rows cols : nat) (saved : dmaps cost) : Prop :=
  (forall x, In x (dm_rows saved) <-> wanted_row q (Z.of_nat rows) x) /\ (forall y, In y (dm_cols saved) <-> wanted_col q (Z.of_nat cols) y) /\
  increasing (dm_rows saved) /\ increasing (dm_cols saved) /\ wf_dmaps saved.

(** A disparity in pixels, between the least of the intervals of the pixels of the image and the greatest one, [margin] pixels more on both sides. *)
Definition in_search (open_raster : string -> reader) (init : json) (range margin : Z) (rows cols : nat) (c : cost) : Prop :=
  exists x y v x' y' v' q, 0 <= x < Z.of_nat rows /\ 0 <= y < Z.of_nat cols /\ 0 <= x' < Z.of_nat rows /\ 0 <= y' < Z.of_nat cols /\
    middle open_raster init x y v /\ middle open_raster init x' y' v' /\ c = CFin q /\ (inject_Z (v - range - margin) <= q <= inject_Z (v' + range + margin))%Q.
