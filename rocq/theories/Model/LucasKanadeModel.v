(** Model of OpticalFlow.lucas_kanade_core_algorithm (pandora2d/refinement/optical_flow.py:221-249): gradients and least squares, on rational numbers
    (the rounding of the floating point numbers is not modelled). *)
From Coq Require Import QArith List Arith.
From Verif Require Import Base.PyList Model.OpticalFlowModel.
Import ListNotations.

(** Value of an array at the row i and the column j. *)
Definition value_at (W : list (list Q)) (i j : nat) : Q := nth j (nth i W []) 0%Q.

(** numpy's gradient along an axis of n points (optical_flow.py:233): differences of neighbours at both ends, half of the difference of both neighbours
    elsewhere. Fewer than two points is a ValueError, which windows of one pixel do not reach: reshape_to_matching_cost_window fails before, since
    the slices [0:-0] of the line 147 are empty. *)
Definition gradient (n : nat) (f : nat -> Q) (k : nat) : Q :=
  if (k =? 0)%nat then (f 1%nat - f 0%nat)%Q
  else if (k =? n - 1)%nat then (f (n - 1)%nat - f (n - 2)%nat)%Q
  else ((f (k + 1)%nat - f (k - 1)%nat) / 2)%Q.

(** optical_flow.py:233: grad_y is the gradient along the rows, grad_x along the columns. *)
Definition grad_y (n : nat) (L : list (list Q)) (i j : nat) : Q := gradient n (fun k => value_at L k j) i.
Definition grad_x (m : nat) (L : list (list Q)) (i j : nat) : Q := gradient m (fun k => value_at L i k) j.

(** flatten() of an array of n rows and m columns (optical_flow.py:237-238). *)
Definition flattened {X} (n m : nat) (f : nat -> nat -> X) : list X := flat_map (fun i => map (f i) (seq 0 m)) (seq 0 n).

(** optical_flow.py:237: the matrix of the gradients, (x, y) for each pixel. *)
Definition grad_matrix (n m : nat) (L : list (list Q)) : list (Q * Q) := flattened n m (fun i j => (grad_x m L i j, grad_y n L i j)).
(** optical_flow.py:234 and 238: the differences of the windows. *)
Definition time_matrix (n m : nat) (L R : list (list Q)) : list Q := flattened n m (fun i j => value_at R i j - value_at L i j)%Q.

Section Core.
  (** The numbers that the pixels stand for; None is NaN. *)
  Context {px : Type} (value : px -> num).
  (** The numbers of a window; None when one of them is NaN. *)
  Definition numbers (W : list (list px)) : option (list (list Q)) := map_opt (map_opt value) W.

  (** np.linalg.lstsq(A, B)[0] on finite matrices (optical_flow.py:244): the motion (x, y). None: LinAlgError. *)
  Variable solve : list (Q * Q) -> list Q -> option (Q * Q).
  (** Its result when a pixel is NaN: NaN, or LinAlgError. *)
  Variable unsolved : list (list px) -> list (list px) -> option (num * num).

  (** optical_flow.py:233-245: the motion (x, y). *)
  Definition lk_lstsq (left right : list (list px)) : option (num * num) :=
    match numbers left, numbers right with
    | Some L, Some R =>
        let n := length L in
        let m := length (hd [] L) in
        match solve (grad_matrix n m L) (time_matrix n m L R) with Some (x, y) => Some (Some x, Some y) | None => None end
    | _, _ => unsolved left right
    end.
End Core.
