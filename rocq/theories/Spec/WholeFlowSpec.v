(** The exact result a user expects after an optical flow. *)
From Coq Require Import List String ZArith QArith.
From Verif Require Import Base.PyList Base.Arr Base.Json Model.CommonModel Model.DichotomyModel Model.OpticalFlowModel Model.InterpolationModel Model.InputModel Model.ImgShiftModel
  Spec.OpticalFlowSpec Spec.WholeSpec.
Import ListNotations.
Open Scope Z_scope.

(** The number a value of the configuration stands for; None when it is not finite. *)
Inductive config_number : json -> num -> Prop :=
| number_int z : config_number (JInt z) (Some (inject_Z z))
| number_bool b : config_number (JBool b) (Some (inject_Z (Z.b2z b)))
| number_float f : config_number (JFloat f) (Some f)
| number_nan : config_number JNan None
| number_inf b : config_number (JInf b) None
| number_list j : config_number (JList [j]) None.
(** A number in a saved map. *)
Definition saved_number (d : num) (c : cost) : Prop := match d with Some q => c = CFin q | None => c = CNan end.
(** NaN for infinite values. *)
Definition finite_part (c : cost) (a : num) : Prop := match c with CFin q => a = Some q | _ => a = None end.
(** A disparity d given in 1 / subpix pixel. *)
Definition in_pixels (subpix d : Z) (a : num) : Prop := exists q, a = Some q /\ (q == inject_Z d / inject_Z subpix)%Q.

Section Exact.
  Context {px : Type} (nan : px).
  Variable lstsq : list (list px) -> list (list px) -> option (num * num).
  Variable resample : list (list px) -> num -> num -> list (list px).
  (** The images, loaded from the row row0 and the column col0. *)
  Variables (left right : ImgShiftModel.image px) (row0 : Z) (nrow : nat) (col0 : Z) (ncol : nat).

  (** The window of half size h around (x, y) is in the images. *)
  Definition fits (h : nat) (x y : Z) : Prop :=
    row0 <= x - Z.of_nat h /\ x + Z.of_nat h < row0 + Z.of_nat nrow /\ col0 <= y - Z.of_nat h /\ y + Z.of_nat h < col0 + Z.of_nat ncol.
  (** W contains the values around (x, y). *)
  Definition around (im : ImgShiftModel.image px) (h : nat) (x y : Z) (W : list (list px)) : Prop :=
    rect (2 * h + 1) (2 * h + 1) W /\
    forall a b, (a < 2 * h + 1)%nat -> (b < 2 * h + 1)%nat ->
      nth2 W a b = Some (a2_get (im_data im) (Z.to_nat (x - Z.of_nat h + Z.of_nat a - row0)) (Z.to_nat (y - Z.of_nat h + Z.of_nat b - col0))).
  (** The last row (column) where disparities are searched. *)
  Definition last_point (first : Z) (n : nat) (step : Z) : Z := first + (Z.of_nat n - 1) / step * step.
  (** The window does not fit between the first and last rows and columns where disparities are searched. *)
  Definition at_border (h : nat) (row_step col_step x y : Z) : Prop :=
    x - Z.of_nat h < row0 \/ last_point row0 nrow row_step < x + Z.of_nat h \/ y - Z.of_nat h < col0 \/ last_point col0 ncol col_step < y + Z.of_nat h.
  (** From the disparities (a, b), n iterations between the window around the pixel in the left image and the window at these disparities in the right one. *)
  Definition flow_moves (invalid : num) (n h : nat) (x y : Z) (a b a' b' : num) : Prop :=
    exists l r srow scol, around left h x y l /\ displacement invalid a srow /\ displacement invalid b scol /\
      (fits h (x + srow) (y + scol) -> around right h (x + srow) (y + scol) r) /\ (~ fits h (x + srow) (y + scol) -> no_window nan h r) /\
      refined lstsq resample invalid l n r (a, b) (a', b').

  (** The saved disparities (vr, vc) when (a, b) are the ones before the refinement: moved by the flow, lost near the border and out of the interval of the pixel. *)
  Definition flow_from (open_raster : string -> reader) (n h : nat) (q : request) (x y : Z) (a b : num) (vr vc : cost) : Prop :=
    exists i a' b' c d u v, config_number (q_invalid q) i /\
      (at_border h (q_row_step q) (q_col_step q) x y /\ a' = i /\ b' = i \/ ~ at_border h (q_row_step q) (q_col_step q) x y /\ flow_moves i n h x y a b a' b') /\
      middle open_raster (q_row_init q) x y u /\ kept i (u - q_row_range q) (u + q_row_range q) a' c /\ saved_number c vr /\
      middle open_raster (q_col_init q) x y v /\ kept i (v - q_col_range q) (v + q_col_range q) b' d /\ saved_number d vc.
  (** After optimal disparities (dr, dc) of score s, in 1 / subpix pixel. *)
  Definition flow_found (open_raster : string -> reader) (one subpix : Z) (n h : nat) (q : request) (x y : Z) (vr vc vs : cost) (dr dc : Z) (s : Ext.ext) : Prop :=
    same_number one s vs /\ exists a b, in_pixels subpix dr a /\ in_pixels subpix dc b /\ flow_from open_raster n h q x y a b vr vc.
  (** After the invalid value. *)
  Definition flow_lost (open_raster : string -> reader) (one : Z) (n h : nat) (q : request) (x y : Z) (vr vc vs : cost) : Prop :=
    shows one (q_invalid q) vs /\ exists w a, shows one (q_invalid q) w /\ finite_part w a /\ flow_from open_raster n h q x y a a vr vc.
End Exact.
