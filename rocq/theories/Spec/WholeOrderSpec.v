(** Two pixels, of two runs, whose candidates have costs in the same order. *)
From Coq Require Import ZArith.
From Verif Require Import Base.Ext Model.DisparityModel Spec.WtaSpec.
Open Scope Z_scope.

(** The candidates of the second one are those of the first one plus k. *)
Definition moved_by (P P' : Z -> Prop) (k : Z) : Prop := forall d, P d <-> P' (d + k).
(** The same pairs have a cost, and the same pairs are better than others; each pixel with its measure. *)
Definition same_order (t t' : measure) (rows cols : Z -> Prop) (cost cost' : Z -> Z -> ext) : Prop :=
  (forall dr dc, rows dr -> cols dc -> (cost dr dc = NaN <-> cost' dr dc = NaN)) /\
  forall dr dc er ec, rows dr -> cols dc -> rows er -> cols ec -> cost dr dc <> NaN -> cost er ec <> NaN ->
    (at_least_as_good t (cost dr dc) (cost er ec) <-> at_least_as_good t' (cost' dr dc) (cost' er ec)).
