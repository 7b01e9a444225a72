(** What is expected from an interpolation filter. *)
From Coq Require Import ZArith QArith Qround Reals List.
From Verif Require Import Base.PyList Model.FilterModel.
Import ListNotations.
Open Scope Q_scope.

(** A polynomial of degree at most two in each variable. *)
Definition quadratic (c : list (list Q)) (x y : Q) : Q :=
  let co a b := nth b (nth a c []) 0 in
  co 0%nat 0%nat + co 0%nat 1%nat * y + co 0%nat 2%nat * y * y +
  co 1%nat 0%nat * x + co 1%nat 1%nat * x * y + co 1%nat 2%nat * x * y * y +
  co 2%nat 0%nat * x * x + co 2%nat 1%nat * x * x * y + co 2%nat 2%nat * x * x * y * y.

(** The image contains the values of a function of the row and of the column. *)
Definition sampled (image : list (list Q)) (nrow ncol : nat) (f : Q -> Q -> Q) : Prop :=
  rect nrow ncol image /\
  forall r c v, nth2 image r c = Some v -> v == f (inject_Z (Z.of_nat r)) (inject_Z (Z.of_nat c)).

(** The 4 x 4 window around the position is in the image. *)
Definition in_window (nrow ncol : nat) (pos_row pos_col : Q) : Prop :=
  (1 <= Qfloor pos_row)%Z /\ (Qfloor pos_row + 3 <= Z.of_nat nrow)%Z /\ (1 <= Qfloor pos_col)%Z /\ (Qfloor pos_col + 3 <= Z.of_nat ncol)%Z.

(** The position is an integer, or is not closer than 2^-23 to the next integer. *)
Definition not_just_below (pos : Q) : Prop := 1 # 8388608 <= 1 - (pos - inject_Z (Qfloor pos)).

(** The position where the image is resampled: the one asked for, except just below an integer where the fraction is 511/512. *)
Definition used_position (pos p : Q) : Prop :=
  not_just_below pos /\ p == pos \/ ~ not_just_below pos /\ p == inject_Z (Qfloor pos) + (511 # 512).

Definition sumQ (l : list Q) : Q := fold_right Qplus 0 l.
