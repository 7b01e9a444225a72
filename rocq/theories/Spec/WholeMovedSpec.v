(** Two pixels, of two runs, that see the same things with disparities farther by a translation. *)
From Coq Require Import List ZArith QArith.
From Verif Require Import Base.Arr Model.CommonModel Model.InterpolationModel Model.ImgShiftModel Spec.WholeSpec Spec.WholeRefineSpec.
Open Scope Z_scope.

(** The second saved number is the first one plus k / subpix. *)
Definition farther (k subpix : Z) (c c' : cost) : Prop := exists p p', c = CFin p /\ c' = CFin p' /\ (p' == p + inject_Z k / inject_Z subpix)%Q.

(** Both lost, or the second one farther. *)
Definition lost_or_farther (one : Z) (q : request) (k : Z) (c c' : cost) : Prop := no_value one q c /\ no_value one q c' \/ farther k 1 c c'.

Section Windows.
  Context {px : Type}.
  (** The value of the image at (x, y), the image being loaded from the row row0 and the column col0. *)
  Definition value_at (im : ImgShiftModel.image px) (row0 col0 x y : Z) : px := a2_get (im_data im) (Z.to_nat (x - row0)) (Z.to_nat (y - col0)).
  (** The windows of half size h around (x, y) and (x', y') contain the same values. *)
  Definition same_window (h : nat) (im : ImgShiftModel.image px) (row0 col0 x y : Z) (im' : ImgShiftModel.image px) (row0' col0' x' y' : Z) : Prop :=
    forall a b, Z.abs a <= Z.of_nat h -> Z.abs b <= Z.of_nat h -> value_at im row0 col0 (x + a) (y + b) = value_at im' row0' col0' (x' + a) (y' + b).
End Windows.
