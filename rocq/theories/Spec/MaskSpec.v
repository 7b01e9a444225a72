(** What masking by disparity range means. *)
From Coq Require Import ZArith.
Open Scope Z_scope.

(** [d] is a disparity that the pixel, whose range is [dmin, dmax], must not have; points outside
    of the global range, when there is one, are not concerned. *)
Definition out_of_pixel_range (global : option (Z * Z)) (d dmin dmax : Z) : Prop :=
  ~ (dmin <= d <= dmax) /\
  match global with Some (g0, g1) => g0 <= d <= g1 | None => True end.

(** The global range contains the range of the pixel. *)
Definition global_contains (global : option (Z * Z)) (dmin dmax : Z) : Prop :=
  match global with Some (g0, g1) => g0 <= dmin /\ dmin <= dmax /\ dmax <= g1 | None => True end.
