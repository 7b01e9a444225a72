(** The matching a dichotomy is made for: costs that lead to a position between the samples. *)
From Coq Require Import ZArith List.
From Verif Require Import Base.Ext Model.DisparityModel Spec.WtaSpec Spec.HalvingSpec.
Open Scope Z_scope.

(** The sample d (a disparity of d samples, one sample being [unit] units) is less than [reach] samples from the goal, a position in units. *)
Definition near (unit reach goal d : Z) : Prop := Z.abs (d * unit - goal) < reach * unit.

(** The costs of a pixel whose candidates are [rows] and [cols]: near the goal they are [f] of the row disparity plus [h] of the column disparity, each of them better and better
    towards its goal, and no pair of candidates is better than this sum. The goal is inside the candidates. *)
Record leads_to (t : measure) (rows cols : Z -> Prop) (unit reach : Z) (cost : Z -> Z -> ext) (f h : Z -> Z) (goal_row goal_col : Z) : Prop := mkLeads {
  lt_row : towards t f goal_row;
  lt_col : towards t h goal_col;
  lt_rows : forall d, near unit 2 goal_row d -> rows d;
  lt_cols : forall d, near unit 2 goal_col d -> cols d;
  lt_near : forall dr dc, near unit reach goal_row dr -> near unit reach goal_col dc -> cost dr dc = Fin (f (dr * unit) + h (dc * unit));
  lt_far : forall dr dc, rows dr -> cols dc -> cost dr dc <> NaN -> at_least_as_good t (Fin (f (dr * unit) + h (dc * unit))) (cost dr dc) }.

(** The filter gives this sum between the samples that are next to a sample next to the goal. *)
Definition exact_between (one subpix : Z) (size before : nat) (apply : list (list ext) -> Z -> Z -> ext) (reach : Z) (f h : Z -> Z) (goal_row goal_col : Z) : Prop :=
  forall sample row col u v,
    (forall dr dc, near (one / subpix) reach goal_row dr -> near (one / subpix) reach goal_col dc -> sample dr dc = Fin (f (dr * (one / subpix)) + h (dc * (one / subpix)))) ->
    near (one / subpix) 1 goal_row row -> near (one / subpix) 1 goal_col col ->
    Z.abs (u - row * (one / subpix)) < one / subpix -> Z.abs (v - col * (one / subpix)) < one / subpix ->
    between one subpix size before before apply sample u v = Some (Fin (f u + h v)).
