(** What is expected from the motion between two windows. *)
From Coq Require Import QArith List Arith.
From Verif Require Import Base.PyList Base.Arr Model.DichotomyModel Model.OpticalFlowModel.
Import ListNotations.
Open Scope Q_scope.

(** ** Least squares *)
(** Sum of the squares of a u + b v - t on the equations (a, b), t. *)
Fixpoint squared_error (A : list (Q * Q)) (B : list Q) (u v : Q) : Q :=
  match A, B with
  | (a, b) :: A', t :: B' => (a * u + b * v - t) * (a * u + b * v - t) + squared_error A' B' u v
  | _, _ => 0
  end.
(** (u, v) minimises e, and is the smallest of the pairs that do. *)
Definition least (e : Q -> Q -> Q) (u v : Q) : Prop :=
  (forall u' v', e u v <= e u' v') /\ (forall u' v', e u' v' == e u v -> u * u + v * v <= u' * u' + v' * v').
(** What the documentation of np.linalg.lstsq promises, rounding apart. *)
Definition least_squares (solve : list (Q * Q) -> list Q -> option (Q * Q)) : Prop :=
  forall A B, length A = length B -> exists u v, solve A B = Some (u, v) /\ least (squared_error A B) u v.

(** ** Windows *)
(** The window W, of n rows and columns, contains the values of f; [value] is the number that a pixel stands for. *)
Definition shows_values {px} (value : px -> num) (n : nat) (f : nat -> nat -> Q) (W : list (list px)) : Prop :=
  rect n n W /\ forall i j, (i < n)%nat -> (j < n)%nat -> exists p q, nth2 W i j = Some p /\ value p = Some q /\ q == f i j.
(** Slope of n values at the position k: between the first two, between the last two, or half of the difference of both neighbours. *)
Definition slope (n : nat) (f : nat -> Q) (k : nat) (s : Q) : Prop :=
  k = 0%nat /\ s == f 1%nat - f 0%nat \/
  (0 < k)%nat /\ S k = n /\ s == f k - f (pred k) \/
  (0 < k)%nat /\ (S k < n)%nat /\ s == (f (S k) - f (pred k)) / 2.
(** The slopes of f along the columns and along the rows. *)
Definition slopes (n : nat) (f sx sy : nat -> nat -> Q) : Prop :=
  forall i j, (i < n)%nat -> (j < n)%nat -> slope n (fun k => f i k) j (sx i j) /\ slope n (fun k => f k j) i (sy i j).

Fixpoint sum_to (n : nat) (f : nat -> Q) : Q := match n with O => 0 | S k => sum_to k f + f k end.
(** How far the motion (u, v) is from explaining the differences between g and f by the slopes of f. *)
Definition mismatch (n : nat) (f g sx sy : nat -> nat -> Q) (u v : Q) : Q :=
  sum_to n (fun i => sum_to n (fun j => let e := sx i j * u + sy i j * v - (g i j - f i j) in e * e)).

(** The slopes of two pixels have different directions. *)
Definition textured (n : nat) (sx sy : nat -> nat -> Q) : Prop :=
  exists i j i' j', (i < n)%nat /\ (j < n)%nat /\ (i' < n)%nat /\ (j' < n)%nat /\ ~ sx i j * sy i' j' == sx i' j' * sy i j.

(** A number equal to q. *)
Definition is_number (d : num) (q : Q) : Prop := exists x, d = Some x /\ x == q.
(** Resampling with no motion keeps a window. *)
Definition keeps_windows {px} (value : px -> num) (resample : list (list px) -> num -> num -> list (list px)) : Prop :=
  forall n f W a b, shows_values value n f W -> is_number a 0 -> is_number b 0 -> shows_values value n f (resample W a b).
