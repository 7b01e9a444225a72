(** What the statistics of a report mean. *)
From Coq Require Import ZArith QArith List Bool Permutation Sorted.
From Verif Require Import Base.Ext.
Import ListNotations.
Open Scope Z_scope.

(** Invalid pixels: those with the invalid value (NaN included), or NaN. *)
Definition is_invalid (invalid : ext) (x : ext) : Prop := x = NaN \/ x = invalid.
(** The valid disparities of a map, in any order: one per valid pixel. *)
Inductive valid_values (invalid : ext) : list ext -> list Z -> Prop :=
| vv_nil : valid_values invalid [] []
| vv_skip x data l : is_invalid invalid x -> valid_values invalid data l -> valid_values invalid (x :: data) l
| vv_keep z data l : Fin z <> invalid -> valid_values invalid data l -> valid_values invalid (Fin z :: data) (z :: l).

(** The quantile of level p / d of l: position (n - 1) p / d between two consecutive values in increasing order. *)
Definition is_quantile (l : list Z) (p d : Z) (v : Q) : Prop :=
  exists s, Permutation l s /\ Sorted Z.le s /\
  exists k a b, nth_error s k = Some a /\ (nth_error s (S k) = Some b \/ (S k = length s /\ b = a)) /\
    Z.of_nat k * d <= p * (Z.of_nat (length l) - 1) < (Z.of_nat k + 1) * d /\
    (v == inject_Z a + (inject_Z (p * (Z.of_nat (length l) - 1)) / inject_Z d - inject_Z (Z.of_nat k)) * (inject_Z b - inject_Z a))%Q.
Definition is_min (l : list Z) (m : Z) : Prop := In m l /\ forall z, In z l -> m <= z.
Definition is_max (l : list Z) (m : Z) : Prop := In m l /\ forall z, In z l -> z <= m.
Definition total (l : list Z) : Z := fold_right Z.add 0 l.
Definition squared_distances (mu : Q) (l : list Z) : Q := fold_right Qplus 0%Q (map (fun z => (inject_Z z - mu) * (inject_Z z - mu))%Q l).
(** Equality of statistics. *)
Definition same_value (x y : option Q) : Prop := match x, y with Some a, Some b => (a == b)%Q | None, None => True | _, _ => False end.
(** Another invalid value in the invalid pixels. *)
Definition renamed (v v' : ext) (data data' : list ext) : Prop := Forall2 (fun x x' => (x = v /\ x' = v') \/ (x = x' /\ x <> v /\ x <> v')) data data'.
(** The number of pixels that do not have the invalid value. *)
Inductive differing (invalid : ext) : list ext -> nat -> Prop :=
| di_nil : differing invalid [] 0
| di_same data k : differing invalid data k -> differing invalid (invalid :: data) k
| di_other x data k : x <> invalid -> differing invalid data k -> differing invalid (x :: data) (S k).
