(** What is expected of the estimation. *)
From Coq Require Import List String ZArith QArith.
From Verif Require Import Base.Json.
Import ListNotations.
Open Scope string_scope.

(** [z] is one of the integers nearest to [q]. *)
Definition nearest (q : Q) (z : Z) : Prop := (q - (1 # 2) <= inject_Z z)%Q /\ (inject_Z z <= q + (1 # 2))%Q.
(** Halves go to the even integer. *)
Definition half_to_even (q : Q) (z : Z) : Prop := (q == inject_Z z + (1 # 2) \/ q == inject_Z z - (1 # 2))%Q -> Z.Even z.
(** Range that the user asked for, or 5. *)
Definition range_of (key : string) (step_cfg : dict) (n : Z) : Prop :=
  In (key, JInt n) step_cfg \/ ((forall v, ~ In (key, v) step_cfg) /\ n = 5%Z).
