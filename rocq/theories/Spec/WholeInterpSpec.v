(** The exact result a user expects after an interpolation. *)
From Coq Require Import List ZArith QArith.
From Verif Require Import Base.Ext Base.PyList Base.Arr Base.Json Model.CommonModel Model.DisparityModel Model.OpticalFlowModel Model.InterpolationModel Model.InputModel
  Spec.InterpolationSpec Spec.WholeSpec Spec.WholeFlowSpec.
Import ListNotations.
Open Scope Z_scope.

(** l: the disparities d / subpix, from 3 pixels before the first one of [all] to 3 pixels after the last one; [first] is the numerator of the first element. *)
Definition axis (all : Z -> Prop) (subpix first : Z) (l : list Q) : Prop :=
  exists lo hi, lo <= hi /\ (forall d, all d <-> lo <= d <= hi) /\ first = lo - 3 * subpix /\ Z.of_nat (List.length l) = hi + 3 * subpix - first + 1 /\
    forall i q, nth_error l i = Some q -> (q == inject_Z (first + Z.of_nat i) / inject_Z subpix)%Q.
(** S: the samples at these disparities, one line per row disparity. *)
Definition table (one : Z) (sample : Z -> Z -> ext) (first_row : Z) (nrow : nat) (first_col : Z) (ncol : nat) (S : list (list cost)) : Prop :=
  rect nrow ncol S /\
  forall j i, (j < nrow)%nat -> (i < ncol)%nat -> exists c, nth2 S j i = Some c /\ same_number one (sample (first_row + Z.of_nat j) (first_col + Z.of_nat i)) c.

Section Exact.
  Variable interp : list Q -> list Q -> list (list cost) -> num -> num -> cost.
  Variable minimise : (num -> num -> cost) -> num * num -> (Q * Q) * (Q * Q) -> num * num.
  (** The saved pixel (vr, vc, vs) when the search starts from the disparities a (row) and b (column): no value without usable sample; otherwise the point found by the optimiser
      between the first and the last disparities for the function interpolated from the completed samples, and the absolute value of this function at this point. *)
  Definition interpolated (one subpix : Z) (t : measure) (all_rows all_cols : Z -> Prop) (sample : Z -> Z -> ext) (a b : num) (vr vc vs : cost) : Prop :=
    exists first_row drow first_col dcol r0 r1 c0 c1 S, axis all_rows subpix first_row drow /\ axis all_cols subpix first_col dcol /\ first_last drow r0 r1 /\ first_last dcol c0 c1 /\
      table one sample first_row (List.length drow) first_col (List.length dcol) S /\
      (nothing_usable t S /\ vr = CNan /\ vc = CNan /\ vs = CNan \/
       ~ nothing_usable t S /\ exists F a' b', completed t S F /\ minimise (interp dcol drow F) (b, a) ((c0, c1), (r0, r1)) = (b', a') /\
         saved_number a' vr /\ saved_number b' vc /\ vs = c_abs (interp dcol drow F b' a')).
End Exact.
