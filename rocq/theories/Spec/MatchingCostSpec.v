(** Well formed inputs of the matching cost step. *)
From Coq Require Import ZArith List.
From Verif Require Import Base.Arr Model.DisparityModel Model.ImgShiftModel Model.MatchingCostModel.
Open Scope Z_scope.

(** [g0, g1] is the tightest interval containing the intervals [gmin r c, gmax r c] of all the pixels,
    which are not empty. *)
Definition tight_source (gmin gmax : arr2 Z) (src : Z * Z) : Prop :=
  (forall r c, in2 gmin r c -> fst src <= a2_get gmin r c /\ a2_get gmin r c <= a2_get gmax r c /\ a2_get gmax r c <= snd src) /\
  (exists r c, in2 gmin r c /\ a2_get gmin r c = fst src) /\
  (exists r c, in2 gmax r c /\ a2_get gmax r c = snd src).

(** Left dataset with its grids (see C15 for what builds them), left and right images of the
    same shape, positive steps and subpix. *)
Definition wf_mc {px} (m : mc_input) (right : image px) : Prop :=
  (1 <= mc_nrow m)%nat /\ (1 <= mc_ncol m)%nat /\ (1 <= mc_subpix m)%nat /\ 1 <= mc_step_row m /\ 1 <= mc_step_col m /\
  a2_n0 (im_data right) = mc_nrow m /\ a2_n1 (im_data right) = mc_ncol m /\
  (forall g, g = mc_row_min m \/ g = mc_row_max m \/ g = mc_col_min m \/ g = mc_col_max m ->
     a2_n0 g = mc_nrow m /\ a2_n1 g = mc_ncol m) /\
  tight_source (mc_row_min m) (mc_row_max m) (mc_row_source m) /\
  tight_source (mc_col_min m) (mc_col_max m) (mc_col_source m).

(** Refinement margins (left, up, right, down), zero when there is none. *)
Definition margins_of (m : mc_input) : Z * Z * Z * Z :=
  match mc_margins m with
  | Some g => (Z.of_nat (m_left g), Z.of_nat (m_up g), Z.of_nat (m_right g), Z.of_nat (m_down g))
  | None => (0, 0, 0, 0)
  end.

(** The same interval for every pixel. *)
Definition constant_ranges (m : mc_input) : Prop :=
  (forall r c, in2 (mc_row_min m) r c -> a2_get (mc_row_min m) r c = fst (mc_row_source m) /\ a2_get (mc_row_max m) r c = snd (mc_row_source m)) /\
  (forall r c, in2 (mc_col_min m) r c -> a2_get (mc_col_min m) r c = fst (mc_col_source m) /\ a2_get (mc_col_max m) r c = snd (mc_col_source m)).
