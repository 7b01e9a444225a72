(** The search a user expects from the dichotomy: nine candidates at each precision, the best one is kept. *)
From Coq Require Import ZArith List Bool.
From Verif Require Import Base.Ext Base.PyList Model.DisparityModel Spec.WtaSpec Spec.DichotomySpec.
Import ListNotations.
Open Scope Z_scope.

(** One of the nine directions. *)
Definition direction (a b : Z) : Prop := -1 <= a <= 1 /\ -1 <= b <= 1.
(** Order of the candidates: row moves first. *)
Definition before (a b a' b' : Z) : Prop := a < a' \/ (a = a' /\ b < b').

Section Halving.
  (** Storage of a score, type of measure, and cost of the pixel for any pair of disparities. *)
  Variable store : ext -> ext.
  Variable t : measure.
  Variable value : Z -> Z -> option ext.

  (** Value of a candidate: the one in the middle has the current score. *)
  Definition proposed (precision row col : Z) (s : ext) (a b : Z) : option ext :=
    if (a =? 0) && (b =? 0) then Some s else value (row + a * precision) (col + b * precision).
  (** (a, b) is the direction kept, with the value v. *)
  Definition kept (precision row col : Z) (s : ext) (a b : Z) (v : ext) : Prop :=
    direction a b /\ proposed precision row col s a b = Some v /\ v <> NaN /\
    (forall a' b', direction a' b' -> exists v', proposed precision row col s a' b' = Some v' /\ (v' = NaN \/ at_least_as_good t v v')) /\
    (* no move when all the values are the same, else the first of the best candidates *)
    ((forall a' b', direction a' b' -> proposed precision row col s a' b' = Some v) /\ a = 0 /\ b = 0 \/
     (exists a' b', direction a' b' /\ proposed precision row col s a' b' <> Some v) /\
     (forall a' b', direction a' b' -> before a' b' a b -> proposed precision row col s a' b' <> Some v)).
  (** From the disparities and the score to the refined ones. *)
  Inductive halving : list Z -> Z -> Z -> ext -> Z -> Z -> ext -> Prop :=
  | halving_end row col s : halving [] row col s row col s
  | halving_next precision precisions row col s a b v row' col' s' :
      kept precision row col s a b v ->
      halving precisions (row + a * precision) (col + b * precision) (store v) row' col' s' ->
      halving (precision :: precisions) row col s row' col' s'.
End Halving.

(** [f] is better and better when one gets closer to [goal]. *)
Definition towards (t : measure) (f : Z -> Z) (goal : Z) : Prop :=
  forall u v, (goal <= u /\ u < v) \/ (v < u /\ u <= goal) -> match t with MeasureMin => f u < f v | MeasureMax => f v < f u end.

(** The pair (u, v) of disparities has a cost, and it is optimal among the pairs of disparities that are in the ranges. *)
Definition optimal_pair (cv : cost_volumes) (r c : nat) (rows cols : Z * Z) (u v : Z) : Prop :=
  in_range u rows /\ in_range v cols /\ exists i j x, cost_for cv r c u v i j x /\
  forall u' v' i' j' y, in_range u' rows -> in_range v' cols -> cost_for cv r c u' v' i' j' y -> at_least_as_good (cv_measure cv) x y.
(** The costs of the pixel, in its range, are the values of [f] + [g] for its row and column disparities. *)
Definition sum_sampled (cv : cost_volumes) (r c : nat) (rows cols : Z * Z) (f g : Z -> Z) : Prop :=
  forall u v i j, in_range u rows -> in_range v cols -> nth_error (cv_disp_col cv) i = Some v -> nth_error (cv_disp_row cv) j = Some u -> cost_at cv r c i j = Some (Fin (f u + g v)).
(** The value [f] + [g] is found by the interpolation less than one sampling step from (row, col), every 2^-iterations pixel. *)
Definition sum_resampled (one : Z) (subpix iterations : nat) (value : Z -> Z -> option ext) (row col : Z) (f g : Z -> Z) : Prop :=
  forall u v, Z.abs (u - row) * Z.of_nat subpix < one -> Z.abs (v - col) * Z.of_nat subpix < one ->
    (one / 2 ^ Z.of_nat iterations | u - row) -> (one / 2 ^ Z.of_nat iterations | v - col) -> value u v = Some (Fin (f u + g v)).

(** ** Costs between the samples *)
(** The costs of the samples under the window of a filter: row disparities from left to right, column disparities from top to bottom. [size], [left] and [up] are the ones of the filter;
    (row, col) is the sample just before the position. *)
Definition window_at (size left up : nat) (sample : Z -> Z -> ext) (row col : Z) : list (list ext) :=
  map (fun p => map (fun q => sample (row - Z.of_nat up + Z.of_nat q) (col - Z.of_nat left + Z.of_nat p)) (seq 0 size)) (seq 0 size).
(** The value of the filter for the disparities (u, v), one pixel being [one] units, with [subpix] samples per pixel. *)
Definition between (one subpix : Z) (size left up : nat) (apply : list (list ext) -> Z -> Z -> ext) (sample : Z -> Z -> ext) (u v : Z) : option ext :=
  Some (apply (window_at size left up sample (u * subpix / one) (v * subpix / one)) ((v * subpix) mod one) ((u * subpix) mod one)).

(** ** The refinement of the optimal pair (dr, dc) of a pixel, in numbers of samples *)
(** An end of the candidates. *)
Definition extreme (candidates : Z -> Prop) (d : Z) : Prop := (forall d', candidates d' -> d <= d') \/ (forall d', candidates d' -> d' <= d).
(** The precisions: one more bit at each iteration, after the ones of the samples. *)
Definition halves (one : Z) (k iterations : nat) : list Z := map (fun it => one / 2 ^ Z.of_nat it) (seq (S k) (iterations - k)).
(** [cost] is the one of the pair, [search] the search from the pair; the result is (vr, vc) and its score vs. A pair without cost, or at an end of the candidates, is not moved. *)
Definition refined_exactly (rows cols : Z -> Prop) (unit : Z) (inv : ext) (search : Z -> Z -> ext -> Z -> Z -> ext -> Prop) (cost : ext) (dr dc : Z) (vr vc vs : ext) : Prop :=
  (Fin (dr * unit) = inv \/ Fin (dc * unit) = inv) /\ vr = Fin (dr * unit) /\ vc = Fin (dc * unit) /\ vs = NaN \/
  Fin (dr * unit) <> inv /\ Fin (dc * unit) <> inv /\
   ((cost = NaN \/ extreme rows dr \/ extreme cols dc) /\ vr = Fin (dr * unit) /\ vc = Fin (dc * unit) /\ vs = cost \/
    cost <> NaN /\ ~ extreme rows dr /\ ~ extreme cols dc /\ exists a b, vr = Fin a /\ vc = Fin b /\ search (dr * unit) (dc * unit) cost a b vs).
