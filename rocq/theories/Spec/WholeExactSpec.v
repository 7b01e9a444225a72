(** The exact result a user expects after a dichotomy. *)
From Coq Require Import List String ZArith QArith.
From Verif Require Import Base.Ext Base.PyList Base.Json Base.Dict Model.CommonModel Model.DisparityModel Model.InterpolationModel Model.InputModel Model.RoiModel
  Spec.WtaSpec Spec.BestSpec Spec.HalvingSpec Spec.ConfigSpec Spec.WholeSpec Spec.WholeRefineSpec.
Import ListNotations.
Open Scope Z_scope.

(** The rows and columns of samples read by a filter, and where the position is among them. *)
Definition filter_support (bool_ok : bool) (f : dict) (size before : nat) : Prop :=
  lookup "method" f = Some (JStr "bicubic") /\ size = 4%nat /\ before = 1%nat \/
  lookup "method" f = Some (JStr "sinc") /\ size = (1 + 2 * before)%nat /\
    (lookup "size" f = None /\ before = 6%nat \/ exists j, lookup "size" f = Some j /\ int_value bool_ok j (Z.of_nat before)).

(** Between two candidates of the pixels of the window. *)
Definition of_the_window (open_raster : string -> reader) (init : json) (range subpix row0 : Z) (nrow : nat) (col0 : Z) (ncol : nat) (d : Z) : Prop :=
  exists x1 y1 d1 x2 y2 d2, (row0 <= x1 < row0 + Z.of_nat nrow /\ col0 <= y1 < col0 + Z.of_nat ncol) /\ (row0 <= x2 < row0 + Z.of_nat nrow /\ col0 <= y2 < col0 + Z.of_nat ncol) /\
    candidate open_raster init range subpix x1 y1 d1 /\ candidate open_raster init range subpix x2 y2 d2 /\ d1 <= d <= d2.
(** The samples: the costs, without the ones of the disparities that are candidates of other pixels only. *)
Definition sampled (rows cols all_rows all_cols : Z -> Prop) (cost sample : Z -> Z -> ext) : Prop :=
  forall dr dc, (rows dr \/ ~ all_rows dr) /\ (cols dc \/ ~ all_cols dc) /\ sample dr dc = cost dr dc \/
    (all_rows dr /\ ~ rows dr \/ all_cols dc /\ ~ cols dc) /\ sample dr dc = NaN.

(** d / subpix is the value of the pixels without disparity. *)
Definition is_invalid_value (one subpix : Z) (q : request) (d : Z) : Prop := exists c, quotient d subpix c /\ shows one (q_invalid q) c.
(** The saved pixel (vr, vc, vs) when the optimal pair is (dr, dc), in 1 / subpix pixel: the pair itself when it is at an end of its candidates or has no cost, the result of the search otherwise. *)
Definition searched_pixel (rows cols : Z -> Prop) (one subpix : Z) (q : request) (search : Z -> Z -> ext -> Z -> Z -> ext -> Prop) (cost : ext) (vr vc vs : InterpolationModel.cost) (dr dc : Z) : Prop :=
  (is_invalid_value one subpix q dr \/ is_invalid_value one subpix q dc) /\ quotient dr subpix vr /\ quotient dc subpix vc /\ vs = CNan \/
  ~ is_invalid_value one subpix q dr /\ ~ is_invalid_value one subpix q dc /\
  ((cost = NaN \/ extreme rows dr \/ extreme cols dc) /\ quotient dr subpix vr /\ quotient dc subpix vc /\ same_number one cost vs \/
   cost <> NaN /\ ~ extreme rows dr /\ ~ extreme cols dc /\
    exists a b w, search (dr * (one / subpix)) (dc * (one / subpix)) cost a b w /\ quotient a one vr /\ quotient b one vc /\ same_number one w vs).
