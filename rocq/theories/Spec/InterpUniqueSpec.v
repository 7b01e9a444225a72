(** Libraries that only depend on the numbers they are given. *)
From Coq Require Import List ZArith QArith.
From Verif Require Import Base.Json Model.OpticalFlowModel Model.InterpolationModel Spec.WholeSpec.
Open Scope Z_scope.

Definition num_eq (a b : num) : Prop := match a, b with Some p, Some q => (p == q)%Q | None, None => True | _, _ => False end.
(** Equal numbers give equal numbers, whatever the fractions that represent them. *)
Definition uses_numbers (interp : list Q -> list Q -> list (list cost) -> num -> num -> cost) (minimise : (num -> num -> cost) -> num * num -> (Q * Q) * (Q * Q) -> num * num) : Prop :=
  (forall dcol dcol' drow drow' F F' a a' b b', Forall2 Qeq dcol dcol' -> Forall2 Qeq drow drow' -> Forall2 (Forall2 same_cost) F F' -> num_eq a a' -> num_eq b b' ->
     same_cost (interp dcol drow F a b) (interp dcol' drow' F' a' b')) /\
  (forall f f' a a' b b' c0 c0' c1 c1' r0 r0' r1 r1', (forall u u' v v', num_eq u u' -> num_eq v v' -> same_cost (f u v) (f' u' v')) -> num_eq a a' -> num_eq b b' ->
     (c0 == c0')%Q -> (c1 == c1')%Q -> (r0 == r0')%Q -> (r1 == r1')%Q ->
     num_eq (fst (minimise f (a, b) ((c0, c1), (r0, r1)))) (fst (minimise f' (a', b') ((c0', c1'), (r0', r1')))) /\
     num_eq (snd (minimise f (a, b) ((c0, c1), (r0, r1)))) (snd (minimise f' (a', b') ((c0', c1'), (r0', r1'))))).
(** The value of the pixels without disparity is known: an integer, an infinity, NaN (a float is only known up to the precision of the model). *)
Definition single_value (one : Z) (j : json) : Prop := forall a b, shows one j a -> shows one j b -> same_cost a b.
