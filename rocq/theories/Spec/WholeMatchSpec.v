(** Pixels whose true disparities are known. *)
From Coq Require Import List String ZArith QArith Qabs.
From Verif Require Import Base.Ext Base.PyList Base.Arr Base.Json Model.CommonModel Model.DisparityModel Model.DichotomyModel Model.OpticalFlowModel Model.InterpolationModel Model.InputModel Model.ImgShiftModel
  Spec.WtaSpec Spec.OpticalFlowSpec Spec.LucasKanadeSpec Spec.WholeSpec Spec.WholeFlowSpec.
Import ListNotations.
Open Scope Z_scope.

(** No other pair of candidates is as good as (tr, tc). *)
Definition only_best (t : measure) (rows cols : Z -> Prop) (cost : Z -> Z -> ext) (tr tc : Z) : Prop :=
  rows tr /\ cols tc /\ cost tr tc <> NaN /\
  forall dr dc, rows dr -> cols dc -> cost dr dc <> NaN -> at_least_as_good t (cost dr dc) (cost tr tc) -> dr = tr /\ dc = tc.
(** A saved number equal to q. *)
Definition saved_as (c : cost) (q : Q) : Prop := exists x, c = CFin x /\ (x == q)%Q.
(** The user did not choose d as the value of the pixels without disparity. *)
Definition not_marked (q : request) (d : Z) : Prop := forall i, config_number (q_invalid q) (Some i) -> ~ (i == inject_Z d)%Q.
(** Strictly inside the interval of the pixel (x, y). *)
Definition inside_interval (open_raster : string -> reader) (init : json) (range x y : Z) (d : Q) : Prop :=
  forall v, middle open_raster init x y v -> (inject_Z (v - range) < d)%Q /\ (d < inject_Z (v + range))%Q.

Section Images.
  (** The numbers that the pixels stand for. *)
  Context {px : Type} (value : px -> num).
  (** The images, loaded from the row row0 and the column col0. *)
  Variables (left right : ImgShiftModel.image px) (row0 : Z) (nrow : nat) (col0 : Z) (ncol : nat).
  Definition number_at (im : ImgShiftModel.image px) (x y : Z) : num := value (a2_get (im_data im) (Z.to_nat (x - row0)) (Z.to_nat (y - col0))).
  (** The values of the window of half size h around (x, y). *)
  Definition values_around (im : ImgShiftModel.image px) (h : nat) (x y : Z) (f : nat -> nat -> Q) : Prop :=
    forall a b, (a < 2 * h + 1)%nat -> (b < 2 * h + 1)%nat -> is_number (number_at im (x - Z.of_nat h + Z.of_nat a) (y - Z.of_nat h + Z.of_nat b)) (f a b).
  (** The window around (x, y) in the left image is the one around (x + dr, y + dc) in the right image. *)
  Definition same_windows (h : nat) (x y dr dc : Z) : Prop :=
    forall i j, Z.abs i <= Z.of_nat h -> Z.abs j <= Z.of_nat h -> exists p, is_number (number_at left (x + i) (y + j)) p /\ is_number (number_at right (x + dr + i) (y + dc + j)) p.
  (** The costs of a pixel measure how different its windows are. *)
  Definition measures_difference (t : measure) (h : nat) (x y : Z) (cost : Z -> Z -> ext) : Prop :=
    t = MeasureMin /\ forall dr dc,
      (fits row0 nrow col0 ncol h (x + dr) (y + dc) -> exists d, cost dr dc = Fin d /\ 0 <= d /\ (d = 0 <-> same_windows h x y dr dc)) /\
      (~ fits row0 nrow col0 ncol h (x + dr) (y + dc) -> cost dr dc = NaN).
End Images.
