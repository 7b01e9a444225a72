(** Specifications for the disparities of the inputs. *)
From Coq Require Import ZArith List Bool Arith.
From Verif Require Import Base.Arr Model.InputModel.
Open Scope Z_scope.

(** The interval [v - range, v + range] has a displacement d with |d| <= size. *)
Definition reaches (v range : Z) (size : nat) : Prop :=
  exists d, v - range <= d <= v + range /\ - Z.of_nat size <= d <= Z.of_nat size.

(** A displacement d sends at least one position of an axis of the given size on this axis. *)
Definition keeps_a_position (d : Z) (size : nat) : Prop :=
  exists x, 0 <= x < Z.of_nat size /\ 0 <= x + d < Z.of_nat size.

(** Centre of the interval asked by the user for the pixel of the image at the given row and column (None: the file has no such pixel). *)
Definition asked (d : cfg_disp) (row col : Z) (v : Z) : Prop :=
  match cd_init d with
  | CInt w => v = w
  | CFile f => in2 (rd_band f) (Z.to_nat row) (Z.to_nat col) /\ 0 <= row /\ 0 <= col /\ v = a2_get (rd_band f) (Z.to_nat row) (Z.to_nat col)
  | COther => False
  end.

(** The grids of the left dataset, for the pixel of index (r, c), are the interval asked for the pixel of the
    image at these coordinates; the grids of the right dataset are the opposite interval. *)
Definition left_interval (g : disp_grids) (d : cfg_disp) (row0 col0 : Z) : Prop :=
  forall r c, in2 (dg_min g) r c -> exists v, asked d (row0 + Z.of_nat r) (col0 + Z.of_nat c) v /\
    forall x, a2_get (dg_min g) r c <= x <= a2_get (dg_max g) r c <-> v - cd_range d <= x <= v + cd_range d.
Definition right_interval (g : disp_grids) (d : cfg_disp) (row0 col0 : Z) : Prop :=
  forall r c, in2 (dg_min g) r c -> exists v, asked d (row0 + Z.of_nat r) (col0 + Z.of_nat c) v /\
    forall x, a2_get (dg_min g) r c <= - x <= a2_get (dg_max g) r c <-> v - cd_range d <= x <= v + cd_range d.

(** A grid file has one band and contains all the rows and columns of the dataset, at least two of each. *)
Definition file_covers (d : cfg_disp) (row0 : Z) (nrow : nat) (col0 : Z) (ncol : nat) : Prop :=
  match cd_init d with
  | CInt _ => True
  | CFile f => rd_count f = 1%nat /\ 0 <= row0 /\ 0 <= col0 /\ row0 + Z.of_nat nrow <= Z.of_nat (a2_n0 (rd_band f)) /\
               col0 + Z.of_nat ncol <= Z.of_nat (a2_n1 (rd_band f)) /\ (2 <= nrow)%nat /\ (2 <= ncol)%nat
  | COther => False end.
