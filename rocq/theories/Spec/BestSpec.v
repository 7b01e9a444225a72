(** The best disparities of a pixel, given the costs of all its candidates. *)
From Coq Require Import ZArith List.
From Verif Require Import Base.Ext Base.Arr Model.DisparityModel Model.ImgShiftModel Spec.ShiftSpec Spec.WtaSpec.
Open Scope Z_scope.

(** [rows] and [cols] are the candidates in each direction; [cost dr dc] the cost of a pair. The pixel has no disparity and no score when no pair has a
    cost; otherwise [s] is the cost of a pair, no pair is better, and each disparity is the smallest one among the pairs that reach [s]. *)
Definition best (t : measure) (rows cols : Z -> Prop) (cost : Z -> Z -> ext) (nothing : Prop) (found : Z -> Z -> ext -> Prop) : Prop :=
  nothing /\ (forall dr dc, rows dr -> cols dc -> cost dr dc = NaN) \/
  exists dr dc s, found dr dc s /\ rows dr /\ cols dc /\ s <> NaN /\
    (forall dr' dc', rows dr' -> cols dc' -> cost dr' dc' <> NaN -> at_least_as_good t s (cost dr' dc')) /\
    (exists dc', cols dc' /\ cost dr dc' = s) /\ (exists dr', rows dr' /\ cost dr' dc = s) /\
    (forall dr' dc', rows dr' -> cols dc' -> cost dr' dc' = s -> dr <= dr' /\ dc <= dc').

(** The cost of the row disparity [dr] and of the column disparity [dc], in 1/subpix pixel, of the pixel of the image at the row [x] and the column [y]. *)
Definition pair_cost {px} (px_eqb : px -> px -> bool) (pixel_cost : list (list px) -> list (list Z) -> nat -> nat -> Z -> ext) (zoomed : nat -> nat -> px)
    (right : image px) (subpix : nat) (row0 col0 x y : Z) (dr dc : Z) : ext :=
  pixel_cost (to_list2 (right_moved zoomed right subpix dr)) (to_list2 (moved_mask px_eqb zoomed right subpix dr)) (Z.to_nat (x - row0)) (Z.to_nat (y - col0)) dc.
