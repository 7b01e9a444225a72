(** Meaning of the criteria, in terms of the masks, windows and disparities. *)
From Coq Require Import ZArith NArith List.
From Verif Require Import Base.Arr Model.CriteriaModel.
Open Scope Z_scope.

(** (r, c) is a position of the image. *)
Definition inside (ci : crit_input) (r c : Z) : Prop :=
  0 <= r < Z.of_nat (ci_nrow ci) /\ 0 <= c < Z.of_nat (ci_ncol ci).

(** The value of the mask at a position of the image. *)
Definition mask_at (m : mask) (r c : Z) : Z := a2_get (mk_data m) (Z.to_nat r) (Z.to_nat c).

(** There is a no data pixel in the window of half size [h] centred on (r, c). *)
Definition no_data_in_window (ci : crit_input) (m : mask) (h : Z) (r c : Z) : Prop :=
  exists r' c', inside ci r' c' /\ Z.abs (r' - r) <= h /\ Z.abs (c' - c) <= h /\ mask_at m r' c' = mk_no_data m.

(** The pixel is masked by something else than no data. *)
Definition masked_otherwise (m : mask) (r c : Z) : Prop :=
  mask_at m r c <> mk_no_data m /\ mask_at m r c <> mk_valid m.

(** The window of half size [offset] centred on (r, c) is not entirely inside the image. *)
Definition window_leaves (ci : crit_input) (r c : Z) : Prop :=
  let off := Z.of_nat (ci_offset ci) in
  ~ (off <= r <= Z.of_nat (ci_nrow ci) - 1 - off /\ off <= c <= Z.of_nat (ci_ncol ci) - 1 - off).

(** The disparities are not in the range of the pixel. *)
Definition unprocessed (ci : crit_input) (r c : nat) (dc dr : Z) : Prop :=
  ~ (a2_get (ci_col_min ci) r c <= dc <= a2_get (ci_col_max ci) r c) \/
  ~ (a2_get (ci_row_min ci) r c <= dr <= a2_get (ci_row_max ci) r c).

(** The pixel is within [offset] pixels of an edge. *)
Definition on_border (ci : crit_input) (r c : nat) : Prop :=
  (r < ci_offset ci \/ ci_nrow ci <= r + ci_offset ci \/ c < ci_offset ci \/ ci_ncol ci <= c + ci_offset ci)%nat /\
  (0 < ci_offset ci)%nat.

(** Masks and grids of the shape of the images, odd window. *)
Definition wf_crit (ci : crit_input) : Prop :=
  (forall m, ci_left_msk ci = Some m \/ ci_right_msk ci = Some m ->
     a2_n0 (mk_data m) = ci_nrow ci /\ a2_n1 (mk_data m) = ci_ncol ci) /\
  (forall g, g = ci_col_min ci \/ g = ci_col_max ci \/ g = ci_row_min ci \/ g = ci_row_max ci ->
     a2_n0 g = ci_nrow ci /\ a2_n1 g = ci_ncol ci) /\
  Nat.odd (ci_window ci) = true.
