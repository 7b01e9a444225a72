(** What a user expects from two runs that differ by one setting. *)
From Coq Require Import List String ZArith QArith Qabs.
From Verif Require Import Base.Ext Base.Json Model.RoiModel Model.DisparityModel Model.InterpolationModel Spec.WtaSpec Spec.WholeSpec Spec.WholeRefineSpec.
Open Scope Z_scope.

(** The same configuration up to its step. *)
Definition same_but_step (c c' : dict) : Prop := forall k, k <> "step"%string -> lookup k c' = lookup k c.
(** Every pixel saved with larger steps is saved with the smaller ones. *)
Definition fewer_pixels (saved saved' : dmaps cost) : Prop :=
  (forall x, In x (dm_rows saved') -> In x (dm_rows saved)) /\ (forall y, In y (dm_cols saved') -> In y (dm_cols saved)).
(** A ROI that contains the whole image. *)
Definition whole_zone (z : zone) (rows cols : nat) : Prop := z_r0 z = 0 /\ z_c0 z = 0 /\ Z.of_nat rows <= z_r1 z + 1 /\ Z.of_nat cols <= z_c1 z + 1.

(** At less than 1 / n of each other. *)
Definition closer_than (n : Z) (a b : cost) : Prop := exists p q, a = CFin p /\ b = CFin q /\ (Qabs (p - q) < 1 / inject_Z n)%Q.
Definition within (n : Z) (a b : cost) : Prop := exists p q, a = CFin p /\ b = CFin q /\ (Qabs (p - q) <= inject_Z n)%Q.
(** No other pair of candidates has the same cost. *)
Definition no_tie (rows cols : Z -> Prop) (cost : Z -> Z -> ext) : Prop :=
  forall dr dc dr' dc', rows dr -> cols dc -> rows dr' -> cols dc' -> cost dr dc <> NaN -> cost dr dc = cost dr' dc' -> dr = dr' /\ dc = dc'.
