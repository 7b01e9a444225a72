(** The values of the steps of the pipeline in the saved configuration: those of the user, and the defaults elsewhere. *)
From Coq Require Import List String Bool ZArith.
From Verif Require Import Base.Json.
Import ListNotations.
Open Scope Z_scope.
Open Scope string_scope.
Open Scope list_scope.

(** The values given to the keys that are left out in the step [n], with the refinement [method]. They are those of
    docs/source/userguide/step_by_step/estimation.rst, matching_cost.rst and refinement.rst, but for the invalid disparity. *)
Definition defaults (n : string) (method : option json) : dict :=
  if n =? "estimation" then [("range_row", JInt 5); ("range_col", JInt 5); ("sample_factor", JInt 1)]
  else if n =? "matching_cost" then [("step", JList [JInt 1; JInt 1])]
  else if n =? "disparity" then [("invalid_disparity", JInt (-9999))]
  else match method with Some (JStr s) => if s =? "optical_flow" then [("iterations", JInt 4)] else [] | _ => [] end.
(** The keys that Pandora completes. *)
Definition pandora_keys : list string := ["window_size"; "subpix"; "spline_order"].
(** The keys of the optical flow that are taken from the matching cost. *)
Definition matching_cost_keys : list string := ["window_size"; "step"].
(** The keys whose value does not only depend on the configuration of the step, and the number of iterations of the dichotomy. *)
Definition other_rule (n : string) (method : option json) (k : string) : Prop :=
  n = "matching_cost" /\ In k pandora_keys \/
  n = "refinement" /\ method = Some (JStr "optical_flow") /\ In k matching_cost_keys \/
  n = "refinement" /\ method = Some (JStr "dichotomy") /\ k = "iterations".
(** Pandora keeps the values it is given. *)
Definition keeps_values (pandora_check : dict -> option (json * json * json)) : Prop :=
  forall c w s o, pandora_check c = Some (w, s, o) ->
    forall k v, lookup k c = Some v -> In k pandora_keys -> lookup k [("window_size", w); ("subpix", s); ("spline_order", o)] = Some v.

(** The keys that the estimation adds to its step. *)
Definition estimation_results : list string := ["estimated_shifts"; "error"; "phase_diff"].
(** The places of the configuration that a run does not write: the disparities of the input are replaced by an estimation, which adds its results to its
    step; the margins of the ROI are added. *)
Inductive unwritten : list string -> Prop :=
| unwritten_input k rest : k <> "col_disparity" -> k <> "row_disparity" -> unwritten ("input" :: k :: rest)
| unwritten_step n k rest : n <> "estimation" \/ ~ In k estimation_results -> unwritten ("pipeline" :: n :: k :: rest)
| unwritten_roi k rest : k <> "margins" -> unwritten ("ROI" :: k :: rest).
