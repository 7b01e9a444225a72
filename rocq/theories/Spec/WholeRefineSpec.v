(** What a user expects from the maps saved after a refinement, compared with the optimal disparities. *)
From Coq Require Import List String ZArith QArith Qabs.
From Verif Require Import Base.Ext Base.PyList Base.Json Model.CommonModel Model.DisparityModel Model.InterpolationModel Model.InputModel Model.RoiModel
  Spec.WtaSpec Spec.BestSpec Spec.WholeSpec.
Import ListNotations.
Open Scope Z_scope.

(** For every saved pixel, [found] holds for the optimal disparities dr and dc (in 1 / subpix pixel) and their score, [nothing] when no pair of candidates has a cost. *)
Definition saved_from_best (open_raster : string -> reader) (subpix : Z) (t : measure) (q : request) (cost : Z -> Z -> Z -> Z -> ext)
    (nothing : Z -> Z -> InterpolationModel.cost -> InterpolationModel.cost -> InterpolationModel.cost -> Prop)
    (found : Z -> Z -> InterpolationModel.cost -> InterpolationModel.cost -> InterpolationModel.cost -> Z -> Z -> ext -> Prop) (saved : dmaps InterpolationModel.cost) : Prop :=
  forall x y, In x (dm_rows saved) -> In y (dm_cols saved) -> exists vr vc vs, pixel_of saved x y vr vc vs /\
    best t (candidate open_raster (q_row_init q) (q_row_range q) subpix x y) (candidate open_raster (q_col_init q) (q_col_range q) subpix x y) (cost x y)
      (nothing x y vr vc vs) (found x y vr vc vs).

(** ** Dichotomy *)
(** d / subpix plus a multiple of 1 / 2^iterations that is lower than 1 / subpix. *)
Definition refined_by (subpix iterations d : Z) (c : cost) : Prop :=
  exists m q, c = CFin q /\ (q == inject_Z d / inject_Z subpix + inject_Z m / inject_Z (2 ^ iterations))%Q /\ Z.abs m * subpix < 2 ^ iterations.
(** d / subpix is not the value of the pixels without disparity. *)
Definition not_invalid (one subpix : Z) (q : request) (d : Z) : Prop := forall c, quotient d subpix c -> ~ shows one (q_invalid q) c.
(** Both disparities are refined; the score is at least as good as the cost of the pair that is refined, when it has one. *)
Definition dichotomy_pixel (one subpix iterations : Z) (t : measure) (q : request) (cost : Z -> Z -> Z -> Z -> ext) (x y : Z) (vr vc vs : InterpolationModel.cost) (dr dc : Z) (s : ext) : Prop :=
  refined_by subpix iterations dr vr /\ refined_by subpix iterations dc vc /\
  (cost x y dr dc <> NaN -> not_invalid one subpix q dr -> not_invalid one subpix q dc -> exists w, same_number one w vs /\ at_least_as_good t w (cost x y dr dc)).

(** ** Optical flow *)
Definition strictly_in_interval (open_raster : string -> reader) (init : json) (range row col : Z) (c : cost) : Prop :=
  exists v q, middle open_raster init row col v /\ c = CFin q /\ (inject_Z (v - range) < q)%Q /\ (q < inject_Z (v + range))%Q.
(** At most at n pixels of d / subpix. *)
Definition moved_at_most (n subpix d : Z) (c : cost) : Prop := exists q, c = CFin q /\ (Qabs (q - inject_Z d / inject_Z subpix) <= inject_Z n)%Q.
Definition no_value (one : Z) (q : request) (c : cost) : Prop := shows one (q_invalid q) c \/ c = CNan.
(** Each disparity is either lost or strictly inside its interval, at most at [n] pixels of the optimal one; the score is the one of the optimal disparities. *)
Definition flow_pixel (open_raster : string -> reader) (one subpix n : Z) (q : request) (x y : Z) (vr vc vs : cost) (dr dc : Z) (s : ext) : Prop :=
  same_number one s vs /\
  (no_value one q vr \/ strictly_in_interval open_raster (q_row_init q) (q_row_range q) x y vr /\ moved_at_most n subpix dr vr) /\
  (no_value one q vc \/ strictly_in_interval open_raster (q_col_init q) (q_col_range q) x y vc /\ moved_at_most n subpix dc vc).
(** Without optimal disparities. *)
Definition flow_nothing (open_raster : string -> reader) (one : Z) (q : request) (x y : Z) (vr vc vs : cost) : Prop :=
  shows one (q_invalid q) vs /\ (no_value one q vr \/ strictly_in_interval open_raster (q_row_init q) (q_row_range q) x y vr) /\
  (no_value one q vc \/ strictly_in_interval open_raster (q_col_init q) (q_col_range q) x y vc).
(** More pixels are asked for than the window of the flow needs, on both sides, at these steps. *)
Definition room (window step : Z) (bounds : option (Z * Z)) (size : Z) : Prop :=
  match bounds with Some (first, last) => (window - 1) + 2 * (step - 1) < Z.min (last + 1) size - first | None => (window - 1) + 2 * (step - 1) < size end.
Definition flow_room (window : Z) (q : request) (rows cols : nat) : Prop :=
  room window (q_row_step q) (option_map (fun z => (z_r0 z, z_r1 z)) (q_zone q)) (Z.of_nat rows) /\ room window (q_col_step q) (option_map (fun z => (z_c0 z, z_c1 z)) (q_zone q)) (Z.of_nat cols).
