(** What is expected from the interpolation refinement. *)
From Coq Require Import ZArith QArith List Bool Arith.
From Verif Require Import Base.PyList Base.Arr Model.DisparityModel Model.OpticalFlowModel Model.InterpolationModel.
Import ListNotations.
Open Scope nat_scope.

(** S contains the costs of the pixel (r, c): one line per row disparity, one column per column disparity. *)
Definition surface_of (data : arr4 cost) (r c : nat) (S : list (list cost)) : Prop :=
  rect (a4_n3 data) (a4_n2 data) S /\ forall i j, i < a4_n2 data -> j < a4_n3 data -> nth2 S j i = Some (a4_get data r c i j).

(** A cost that can be used: not NaN and not the worst infinity. *)
Definition usable (t : measure) (x : cost) : Prop := x <> CNan /\ x <> CInf (match t with MeasureMin => true | MeasureMax => false end).
(** The best cost is the lowest after the change of sign. *)
Definition oriented (t : measure) (x : cost) : cost := match t with MeasureMin => x | MeasureMax => c_neg x end.
Definition nothing_usable (t : measure) (S : list (list cost)) : Prop := forall j i x, nth2 S j i = Some x -> ~ usable t x.

Definition line_without (t : measure) (S : list (list cost)) (j : nat) : Prop := forall i x, nth2 S j i = Some x -> ~ usable t x.
(** The first and the last usable cost of a line. *)
Definition first_of_line (t : measure) (S : list (list cost)) (j : nat) (x : cost) : Prop :=
  exists i, nth2 S j i = Some x /\ usable t x /\ forall i' x', i' < i -> nth2 S j i' = Some x' -> ~ usable t x'.
Definition last_of_line (t : measure) (S : list (list cost)) (j : nat) (x : cost) : Prop :=
  exists i, nth2 S j i = Some x /\ usable t x /\ forall i' x', i < i' -> nth2 S j i' = Some x' -> ~ usable t x'.
(** [replacement t S j y]: y replaces a missing cost of line j: the last cost of the line, or the value at j on the segment between the last
    cost of the closest line above and the first cost of the closest line below, or the cost of the only closest line. *)
Definition replacement (t : measure) (S : list (list cost)) (j : nat) (y : cost) : Prop :=
  (exists x, last_of_line t S j x /\ y = oriented t x) \/
  (line_without t S j /\ exists a xa b xb, a < j < b /\ last_of_line t S a xa /\ first_of_line t S b xb /\
     (forall k, a < k < b -> line_without t S k) /\
     ((exists p q, oriented t xa = CFin p /\ oriented t xb = CFin q /\
        exists v, y = CFin v /\ (v * inject_Z (Z.of_nat b - Z.of_nat a) == p * inject_Z (Z.of_nat b - Z.of_nat j) + q * inject_Z (Z.of_nat j - Z.of_nat a))%Q) \/
      (((forall p, oriented t xa <> CFin p) \/ (forall q, oriented t xb <> CFin q)) /\ y = CInf false))) \/
  (exists b xb, j < b /\ (forall k, k < b -> line_without t S k) /\ first_of_line t S b xb /\ y = oriented t xb) \/
  (exists a xa, a < j /\ (forall k, a < k -> line_without t S k) /\ last_of_line t S a xa /\ y = oriented t xa).
(** F: the costs given to the interpolation. *)
Definition completed (t : measure) (S F : list (list cost)) : Prop :=
  length F = length S /\
  (forall j line line', nth_error S j = Some line -> nth_error F j = Some line' -> length line' = length line) /\
  forall j i x, nth2 S j i = Some x -> exists y, nth2 F j i = Some y /\ (usable t x -> y = oriented t x) /\ (~ usable t x -> replacement t S j y).

(** The contract of scipy's minimize: the result is between the bounds. *)
Definition in_bounds (lo hi : Q) (d : num) : Prop := exists x, d = Some x /\ (lo <= x)%Q /\ (x <= hi)%Q.
Definition respects_bounds (minimise : (num -> num -> cost) -> num * num -> (Q * Q) * (Q * Q) -> num * num) : Prop :=
  forall f x0 c0 c1 r0 r1, (c0 <= c1)%Q -> (r0 <= r1)%Q ->
    in_bounds c0 c1 (fst (minimise f x0 ((c0, c1), (r0, r1)))) /\ in_bounds r0 r1 (snd (minimise f x0 ((c0, c1), (r0, r1)))).
(** First and last element. *)
Definition first_last (l : list Q) (a b : Q) : Prop := nth_error l 0 = Some a /\ nth_error l (length l - 1) = Some b.

(** Contracts used by the counterexamples: on costs that are an affine function of the column disparity, the interpolation is exact and the
    minimum is found (true for cubic splines and a local search, up to rounding). *)
Definition increasingQ (l : list Q) : Prop := forall i j a b, i < j -> nth_error l i = Some a -> nth_error l j = Some b -> (a < b)%Q.
Definition affine_exact (interp : list Q -> list Q -> list (list cost) -> num -> num -> cost) : Prop :=
  forall dcol drow F p q c0 c1 r0 r1, increasingQ dcol -> increasingQ drow -> 2 <= length dcol -> 2 <= length drow -> first_last dcol c0 c1 -> first_last drow r0 r1 ->
    rect (length drow) (length dcol) F ->
    (forall j i d, j < length drow -> nth_error dcol i = Some d -> exists z, nth2 F j i = Some (CFin z) /\ (z == p + q * d)%Q) ->
    forall x y, (c0 <= x)%Q -> (x <= c1)%Q -> (r0 <= y)%Q -> (y <= r1)%Q -> exists z, interp dcol drow F (Some x) (Some y) = CFin z /\ (z == p + q * x)%Q.
Definition finds_affine_minimum (minimise : (num -> num -> cost) -> num * num -> (Q * Q) * (Q * Q) -> num * num) : Prop :=
  forall f x0 c0 c1 r0 r1 p q, (c0 < c1)%Q -> (r0 <= r1)%Q -> (0 < q)%Q ->
    (forall x y, (c0 <= x)%Q -> (x <= c1)%Q -> (r0 <= y)%Q -> (y <= r1)%Q -> exists z, f (Some x) (Some y) = CFin z /\ (z == p + q * x)%Q) ->
    exists v, fst (minimise f x0 ((c0, c1), (r0, r1))) = Some v /\ (v == c0)%Q.
