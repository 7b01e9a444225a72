(** What is expected from the optical flow refinement. *)
From Coq Require Import ZArith QArith Qabs List.
From Verif Require Import Base.PyList Base.Arr Model.DichotomyModel Model.OpticalFlowModel.
Import ListNotations.
Open Scope Z_scope.

Section FlowSpec.
  Context {A : Type} (nan : A).
  Variable lstsq : list (list A) -> list (list A) -> option (num * num).
  Variable resample : list (list A) -> num -> num -> list (list A).

  (** The square window of half size h around the point (r, c) is in the image. *)
  Definition window_in (im : @image A) (h : nat) (r c : Z) : Prop :=
    i_row0 im <= r - Z.of_nat h /\ r + Z.of_nat h < i_row0 im + Z.of_nat (i_nrow im) /\
    i_col0 im <= c - Z.of_nat h /\ c + Z.of_nat h < i_col0 im + Z.of_nat (i_ncol im).
  (** W contains the values of the image around the point (r, c), given by its coordinates. *)
  Definition centred (im : @image A) (h : nat) (r c : Z) (W : list (list A)) : Prop :=
    rect (2 * h + 1) (2 * h + 1) W /\
    forall a b, (a < 2 * h + 1)%nat -> (b < 2 * h + 1)%nat ->
      nth2 W a b = nth2 (i_data im) (Z.to_nat (r - Z.of_nat h + Z.of_nat a - i_row0 im)) (Z.to_nat (c - Z.of_nat h + Z.of_nat b - i_col0 im)).
  Definition no_window (h : nat) (W : list (list A)) : Prop := W = repeat (repeat nan (2 * h + 1)) (2 * h + 1).

  (** s is q truncated towards zero. *)
  Definition truncated (q : Q) (s : Z) : Prop := (inject_Z (Z.abs s) <= Qabs q /\ Qabs q < inject_Z (Z.abs s) + 1 /\ 0 <= q * inject_Z s)%Q.
  (** The displacement of the right window: a whole number of pixels; 0 for an invalid disparity. *)
  Definition displacement (invalid d : num) (s : Z) : Prop :=
    match d, invalid with
    | None, _ => s = 0
    | Some q, Some i => (q == i)%Q /\ s = 0 \/ ~ (q == i)%Q /\ truncated q s
    | Some q, None => truncated q s
    end.

  Definition within_one (m : num) : Prop := exists q, m = Some q /\ (Qabs q < 1)%Q.
  Definition above_one (m : num) : Prop := exists q, m = Some q /\ (1 < Qabs q)%Q.
  (** d' is d minus the motion m, a motion above one pixel being ignored. *)
  Definition moved (d m d' : num) : Prop := above_one m /\ d' = d \/ ~ above_one m /\ d' = nsub d m.

  (** Motion given by the least squares (column, row); when they fail it is the invalid disparity. *)
  Definition motion (invalid : num) (l r : list (list A)) : num * num := match lstsq l r with Some m => m | None => (invalid, invalid) end.

  (** n iterations for one pixel: left window, right window, row and column disparities before and after. *)
  Inductive refined (invalid : num) (l : list (list A)) : nat -> list (list A) -> num * num -> num * num -> Prop :=
  | refined_end r d : refined invalid l 0 r d d
  | refined_go n r drow dcol mcol mrow d' : motion invalid l r = (mcol, mrow) -> within_one mcol -> within_one mrow ->
      refined invalid l n (resample r mrow mcol) (nsub drow mrow, nsub dcol mcol) d' -> refined invalid l (S n) r (drow, dcol) d'
  | refined_stop n r drow dcol mcol mrow drow' dcol' : motion invalid l r = (mcol, mrow) -> ~ (within_one mcol /\ within_one mrow) ->
      moved drow mrow drow' -> moved dcol mcol dcol' -> refined invalid l (S n) r (drow, dcol) (drow', dcol').
End FlowSpec.

(** Coordinates of an axis of the cost volumes: n points, from first, by step. *)
Definition progression (first step : Z) (n : nat) : list Z := map (fun k => first + Z.of_nat k * step) (seq 0 n).
(** Number of points of the axis whose window does not fit between the ends of the axis. *)
Definition border (h : nat) (step : Z) (b : nat) : Prop := (Z.of_nat b - 1) * step < Z.of_nat h <= Z.of_nat b * step.

(** The inputs of the refinement, as the previous steps make them: the coordinates of the cost volumes are in the images. *)
Record flow_inputs {A} (w h : nat) (offset first_row first_col row_step col_step : Z) (n m b_row b_col : nat) (img_left img_right : @image A)
    (col_map row_map : list (list num)) : Prop := {
  fi_w : w = (2 * h + 1)%nat; fi_h : (1 <= h)%nat; fi_offset : offset = Z.of_nat h;
  fi_row_step : 1 <= row_step; fi_col_step : 1 <= col_step;
  fi_border_row : border h row_step b_row; fi_border_col : border h col_step b_col; fi_n : (2 * b_row < n)%nat; fi_m : (2 * b_col < m)%nat;
  fi_left : rect (i_nrow img_left) (i_ncol img_left) (i_data img_left); fi_right : rect (i_nrow img_right) (i_ncol img_right) (i_data img_right);
  fi_rows : i_row0 img_left <= first_row /\ first_row + (Z.of_nat n - 1) * row_step < i_row0 img_left + Z.of_nat (i_nrow img_left);
  fi_cols : i_col0 img_left <= first_col /\ first_col + (Z.of_nat m - 1) * col_step < i_col0 img_left + Z.of_nat (i_ncol img_left);
  fi_maps : rect n m col_map /\ rect n m row_map }.

(** d' is NaN, or both are numbers and differ by at most n pixels. *)
Definition near (n : nat) (d d' : num) : Prop := d' = None \/ exists x y, d = Some x /\ d' = Some y /\ (Qabs (y - x) <= inject_Z (Z.of_nat n))%Q.
(** Strictly between the bounds of a pixel. *)
Definition strictly_inside (lo hi : Z) (d : num) : Prop := exists x, d = Some x /\ (inject_Z lo < x)%Q /\ (x < inject_Z hi)%Q.
(** At a bound of a pixel or beyond. *)
Definition out_of_range (lo hi : Z) (d : num) : Prop := exists x, d = Some x /\ ((x <= inject_Z lo)%Q \/ (inject_Z hi <= x)%Q).
(** Grids of the shape of the image. *)
Definition grids_of (nrow ncol : nat) (g : grids) : Prop :=
  Forall (fun a => a2_n0 a = nrow /\ a2_n1 a = ncol) [g_col_min g; g_col_max g; g_row_min g; g_row_max g].
(** Value of a pixel after the check of its range. *)
Definition kept (invalid : num) (lo hi : Z) (d d' : num) : Prop :=
  d = None /\ d' = None \/ strictly_inside lo hi d /\ d' = d \/ (exists x, d = Some x /\ ((x <= inject_Z lo)%Q \/ (inject_Z hi <= x)%Q)) /\ d' = invalid.
