(** Specifications for the ROI and the georeferencing. *)
From Coq Require Import ZArith QArith List Bool Arith.
From Verif Require Import Base.Arr Base.PyList Model.MatchingCostModel Model.RoiModel.
Import ListNotations.
Open Scope Z_scope.

(** d is a displacement that the user allows for some pixel. *)
Definition allowed (dsp : disparity) (d : Z) : Prop :=
  match d_init dsp with
  | DInt v => v - d_range dsp <= d <= v + d_range dsp
  | DGrid g => exists r c, in2 g r c /\ a2_get g r c - d_range dsp <= d <= a2_get g r c + d_range dsp
  end.

(** The extreme allowed displacements. *)
Definition least_allowed (dsp : disparity) (d : Z) : Prop := allowed dsp d /\ forall d', allowed dsp d' -> d <= d'.
Definition greatest_allowed (dsp : disparity) (d : Z) : Prop := allowed dsp d /\ forall d', allowed dsp d' -> d' <= d.

(** With these margins, every matching position of a pixel of [first, last] is in the enlarged interval. *)
Definition covers (dsp : disparity) (first last before after : Z) : Prop :=
  forall x d, first <= x <= last -> allowed dsp d -> first - before <= x + d <= last + after.

(** Crop by coordinates: the values whose coordinate is in [first, last], in order. *)
Definition in_roi (first last x : Z) : bool := (first <=? x) && (x <=? last).
Definition keep {B} (first last : Z) (coords : list Z) (values : list B) : list B :=
  map snd (filter (fun p => in_roi first last (fst p)) (combine coords values)).
Definition crop {A} (r : roi) (rows cols : list Z) (m : list (list A)) : list (list A) :=
  map (keep (roi_c0 r) (roi_c1 r) cols) (keep (roi_r0 r) (roi_r1 r) rows m).

(** Regularly spaced coordinates. *)
Definition progression (x0 step : Z) (l : list Z) : Prop :=
  l = map (fun k => x0 + Z.of_nat k * step) (seq 0 (length l)).

(** World coordinates of a column and a row. *)
Definition world (t : affine) (x y : Q) : Q * Q := (af_a t * x + af_b t * y + af_c t, af_d t * x + af_e t * y + af_f t)%Q.
Definition same_point (p q : Q * Q) : Prop := (fst p == fst q /\ snd p == snd q)%Q.

(** How the image given to the matching cost was read: the whole image without ROI; with a ROI the part inside the
    image of the ROI enlarged by its margins. The image has [height] rows and [width] columns. *)
Definition loaded (m : mc_input) (cfg : save_cfg) (height width : Z) : Prop :=
  sc_step cfg = Some (mc_step_row m, mc_step_col m) /\
  1 <= mc_step_row m /\ 1 <= mc_step_col m /\
  match sc_roi cfg with
  | None => mc_roi m = None /\
      mc_row0 m = 0 /\ mc_col0 m = 0 /\
      Z.of_nat (mc_nrow m) = height /\ Z.of_nat (mc_ncol m) = width
  | Some r => let '(lft, up, rgt, down) := roi_mg r in
      mc_roi m = Some (mkRoiCfg (roi_c0 r) (roi_r0 r) (roi_mg r)) /\
      0 <= lft /\ 0 <= up /\ 0 <= rgt /\ 0 <= down /\
      0 <= roi_c0 r <= roi_c1 r /\ 0 <= roi_r0 r <= roi_r1 r /\ roi_c0 r < width /\ roi_r0 r < height /\
      (let '(a, b) := window_of (roi_r0 r) (roi_r1 r) up down height in
       mc_row0 m = a /\ a + Z.of_nat (mc_nrow m) = b) /\
      (let '(a, b) := window_of (roi_c0 r) (roi_c1 r) lft rgt width in
       mc_col0 m = a /\ a + Z.of_nat (mc_ncol m) = b)
  end.

(** The three maps have the shape of the coordinates. *)
Definition wf_dmaps {A} (ds : dmaps A) : Prop := forall m, m = dm_row_map ds \/ m = dm_col_map ds \/ m = dm_score ds ->
  rect (length (dm_rows ds)) (length (dm_cols ds)) m.
