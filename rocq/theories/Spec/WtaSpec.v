(** What a user expects from the winner takes all step, stated on the cost volumes. *)
From Coq Require Import ZArith List Bool.
From Verif Require Import Base.Ext Base.PyList Model.DisparityModel.
Import ListNotations.

(** [a] is at least as good as [b]: greater for "max" measures, lower for "min" measures.
    False when one of them is NaN. *)
Definition at_least_as_good (t : measure) (a b : ext) : Prop :=
  match t with
  | MeasureMax => ext_leb b a = true
  | MeasureMin => ext_leb a b = true
  end.

(** Cost stored at a point of the volume. *)
Definition cost_at (cv : cost_volumes) (r c dc dr : nat) : option ext :=
  match nth2 (cv_data cv) r c with
  | Some plane => nth2 plane dc dr
  | None => None
  end.

(** Disparity margins of the volume, in number of samples: (left, up, right, down). *)
Definition margin_samples (cv : cost_volumes) : nat * nat * nat * nat :=
  match cv_margins cv with
  | None => (0, 0, 0, 0)
  | Some m => (m_left m * cv_subpix cv, m_up m * cv_subpix cv,
               m_right m * cv_subpix cv, m_down m * cv_subpix cv)
  end.

(** Indices of the disparities asked by the user: those that are not in the margins. *)
Definition user_col (cv : cost_volumes) (dc : nat) : Prop :=
  let '(l, _, r, _) := margin_samples cv in l <= dc < length (cv_disp_col cv) - r.
Definition user_row (cv : cost_volumes) (dr : nat) : Prop :=
  let '(_, u, _, d) := margin_samples cv in u <= dr < length (cv_disp_row cv) - d.

(** [x] is the cost computed (not NaN) for the pixel at the disparities of index (dc, dr) of the
    user range. *)
Definition computed (cv : cost_volumes) (r c dc dr : nat) (x : ext) : Prop :=
  user_col cv dc /\ user_row cv dr /\ cost_at cv r c dc dr = Some x /\ x <> NaN.

(** A well formed dataset: the shape of the data is the one given by the coordinates, and the user
    range is not empty. *)
Definition wf_cv (cv : cost_volumes) : Prop :=
  rect (cv_nrow cv) (cv_ncol cv) (cv_data cv) /\
  (forall r c plane, nth2 (cv_data cv) r c = Some plane ->
     rect (length (cv_disp_col cv)) (length (cv_disp_row cv)) plane) /\
  (exists dc, user_col cv dc) /\ (exists dr, user_row cv dr).
