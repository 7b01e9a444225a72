(** Disparities that are not whole. *)
From Coq Require Import ZArith QArith.
From Verif Require Import Base.Json Base.Ext Model.InputModel Model.CommonModel Spec.OpticalFlowSpec Spec.WholeSpec Spec.WholeFlowSpec.
Open Scope Z_scope.

(** The disparity d, in 1 / subpix pixel, in pixels. *)
Definition pixels (subpix d : Z) : Q := (inject_Z d / inject_Z subpix)%Q.
(** What is left of it when it is truncated to t. *)
Definition left_over (subpix d t : Z) : Q := (pixels subpix d - inject_Z t)%Q.
(** The user did not choose d / subpix as the value of the pixels without disparity. *)
Definition not_marked_at (q : request) (subpix d : Z) : Prop := forall i, config_number (q_invalid q) (Some i) -> ~ (i == pixels subpix d)%Q.
