(** Criteria and costs of the same matching. *)
From Coq Require Import ZArith NArith List Bool.
From Verif Require Import Base.Ext Base.Arr Base.PyList Model.CommonModel Model.DisparityModel Model.ImgShiftModel Model.MatchingCostModel Model.CriteriaModel
  Spec.CriteriaSpec.
Open Scope Z_scope.

(** Half size of the window. *)
Definition half (ci : crit_input) : Z := Z.of_nat (ci_offset ci).

(** Pandora's matching cost with its masks (pandora.matching_cost, masks_dilatation and cv_masked): there is no cost when a window leaves the image, when the
    window of the left image has no data, when its pixel is masked otherwise, or when the window of the right image, here moved by the row disparity, has a pixel marked by 1. *)
Definition no_cost_reason (ci : crit_input) (msk : arr2 Z) (r c : nat) (dc : Z) : Prop :=
  window_leaves ci (Z.of_nat r) (Z.of_nat c) \/ window_leaves ci (Z.of_nat r) (Z.of_nat c + dc) \/
  (exists m, ci_left_msk ci = Some m /\ (no_data_in_window ci m (half ci) (Z.of_nat r) (Z.of_nat c) \/ masked_otherwise m (Z.of_nat r) (Z.of_nat c))) \/
  exists r' c', inside ci r' c' /\ Z.abs (r' - Z.of_nat r) <= half ci /\ Z.abs (c' - (Z.of_nat c + dc)) <= half ci /\ a2_get msk (Z.to_nat r') (Z.to_nat c') = 1.
Definition masks_contract {px} (ci : crit_input) (cost : list (list px) -> list (list Z) -> nat -> nat -> nat -> ext) : Prop :=
  forall (data : arr2 px) (msk : arr2 Z) r c i dc,
    a2_n0 data = ci_nrow ci -> a2_n1 data = ci_ncol ci -> a2_n0 msk = ci_nrow ci -> a2_n1 msk = ci_ncol ci ->
    (r < ci_nrow ci)%nat -> (c < ci_ncol ci)%nat -> nth_error (ci_disp_col ci) i = Some dc ->
    (cost (to_list2 data) (to_list2 msk) r c i = NaN <-> no_cost_reason ci msk r c dc).

(** The criteria are asked for the cost volumes [cv] of the matching [m] with the right image [right]: same coordinates, disparities and intervals, window of the matching cost;
    the no data pixels of the right mask are those that have the no data value. *)
Record same_matching {px} (m : mc_input) (right : image px) (cv : cost_volumes) (ci : crit_input) : Prop := {
  sm_rows : ci_row0 ci = mc_row0 m /\ ci_nrow ci = mc_nrow m; sm_cols : ci_col0 ci = mc_col0 m /\ ci_ncol ci = mc_ncol m;
  sm_disp : ci_disp_col ci = cv_disp_col cv /\ ci_disp_row ci = cv_disp_row cv;
  sm_window : ci_window ci = (2 * ci_offset ci + 1)%nat;
  sm_left : forall k, ci_left_msk ci = Some k -> a2_n0 (mk_data k) = mc_nrow m /\ a2_n1 (mk_data k) = mc_ncol m;
  sm_right : match ci_right_msk ci with
             | Some k => a2_n0 (mk_data k) = mc_nrow m /\ a2_n1 (mk_data k) = mc_ncol m /\
                 forall r c, inside ci r c -> (mask_at k r c = mk_no_data k <-> a2_get (im_data right) (Z.to_nat r) (Z.to_nat c) = im_no_data right)
             | None => forall r c, inside ci r c -> a2_get (im_data right) (Z.to_nat r) (Z.to_nat c) <> im_no_data right
             end;
  sm_grids : ci_col_min ci = mc_col_min m /\ ci_col_max ci = mc_col_max m /\ ci_row_min ci = mc_row_min m /\ ci_row_max ci = mc_row_max m }.

(** The disparities asked by the user, without the margins of the refinement. *)
Definition asked (m : mc_input) (dc dr : Z) : Prop :=
  fst (mc_col_source m) <= dc <= snd (mc_col_source m) /\ fst (mc_row_source m) <= dr <= snd (mc_row_source m).
