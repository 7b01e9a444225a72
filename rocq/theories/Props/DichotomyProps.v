(** C25 - C28: the dichotomy refinement. C51, C52, C53: findings. *)
From Coq Require Import ZArith List Bool Lia Arith Znumtheory.
From Verif Require Import Base.Ext Base.PyList Base.Arr Model.CommonModel Model.DisparityModel Model.DichotomyModel
  Spec.WtaSpec Spec.DichotomySpec Proofs.ChunkProofs Proofs.WtaProofs Proofs.DichotomyProofs Proofs.DichotomyTheorems.
Import ListNotations.
Open Scope Z_scope.

(** * C25: the score is at least as good as the cost of the disparities found by the winner takes all, and it is the interpolated cost at the refined
    position (rounded to float32), or the disparities and the cost are unchanged. [filter], [store] and the unit are arbitrary. *)
Theorem C25_score one store flt iterations cv invalid col_map row_map g mc mr sc r c row col i j x :
  rounding store -> increasing (cv_disp_col cv) -> increasing (cv_disp_row cv) ->
  refinement_method one store flt iterations cv invalid col_map row_map g = Some (mc, mr, sc) -> (r < cv_nrow cv)%nat -> (c < cv_ncol cv)%nat ->
  matched invalid col_map row_map r c row col -> cost_for cv r c row col i j x -> x <> NaN -> x <> worst_cost (cv_measure cv) -> store x = x ->
  exists row' col' y, nth2 mr r c = Some (Fin row') /\ nth2 mc r c = Some (Fin col') /\ nth2 sc r c = Some y /\
    at_least_as_good (cv_measure cv) y x /\
    ((row' = row /\ col' = col /\ y = x) \/
     exists surface z, nth2 (cv_data cv) r c = Some surface /\ y = store z /\
       interpolate1 one flt surface (Z.of_nat j * one + (row' - row) * Z.of_nat (cv_subpix cv), Z.of_nat i * one + (col' - col) * Z.of_nat (cv_subpix cv)) = Some z).
Proof. apply score_theorem. Qed.

(** * C26: moves lower than the sampling step, multiple of 2^-iterations. *)
Theorem C26_moves one store flt iterations cv invalid col_map row_map g mc mr sc r c row col i j x :
  0 < one -> (2 ^ Z.of_nat iterations | one) -> (exists k, cv_subpix cv = (2 ^ k)%nat) -> increasing (cv_disp_col cv) -> increasing (cv_disp_row cv) ->
  refinement_method one store flt iterations cv invalid col_map row_map g = Some (mc, mr, sc) -> (r < cv_nrow cv)%nat -> (c < cv_ncol cv)%nat ->
  matched invalid col_map row_map r c row col -> cost_for cv r c row col i j x ->
  exists row' col', nth2 mr r c = Some (Fin row') /\ nth2 mc r c = Some (Fin col') /\
    Z.abs (row' - row) * Z.of_nat (cv_subpix cv) < one /\ Z.abs (col' - col) * Z.of_nat (cv_subpix cv) < one /\
    (one / 2 ^ Z.of_nat iterations | row' - row) /\ (one / 2 ^ Z.of_nat iterations | col' - col).
Proof. apply small_moves. Qed.

(** * C27: pixels that are left alone; the others stay strictly inside their range. *)
Theorem C27_left_alone one store flt iterations cv invalid col_map row_map g mc mr sc r c :
  same_shape cv g ->
  refinement_method one store flt iterations cv invalid col_map row_map g = Some (mc, mr, sc) -> (r < cv_nrow cv)%nat -> (c < cv_ncol cv)%nat ->
  (nth2 row_map r c = Some invalid \/ nth2 col_map r c = Some invalid \/
   (exists row, nth2 row_map r c = Some (Fin row) /\ at_an_end row (row_range one g r c)) \/
   (exists col, nth2 col_map r c = Some (Fin col) /\ at_an_end col (col_range one g r c)) \/
   (exists row col i j, matched invalid col_map row_map r c row col /\ increasing (cv_disp_col cv) /\ increasing (cv_disp_row cv) /\ cost_for cv r c row col i j NaN)) ->
  nth2 mr r c = nth2 row_map r c /\ nth2 mc r c = nth2 col_map r c.
Proof. apply kept_theorem. Qed.

Theorem C27_strictly_inside one store flt iterations cv invalid col_map row_map g mc mr sc r c row col i j x :
  ready one flt iterations cv invalid col_map row_map g ->
  refinement_method one store flt iterations cv invalid col_map row_map g = Some (mc, mr, sc) -> (r < cv_nrow cv)%nat -> (c < cv_ncol cv)%nat ->
  matched invalid col_map row_map r c row col -> cost_for cv r c row col i j x ->
  strictly_in row (row_range one g r c) -> strictly_in col (col_range one g r c) ->
  exists row' col', nth2 mr r c = Some (Fin row') /\ nth2 mc r c = Some (Fin col') /\
    strictly_in row' (row_range one g r c) /\ strictly_in col' (col_range one g r c).
Proof. intros H. now apply range_theorem. Qed.

(** * C28: windows.
    [p] is the point reached after the first [len] iterations from the disparities of the pixel; (a, b) is the direction of a candidate of the
    next iteration. *)
Definition reached one store flt cv surface k len i j row col x p : Prop :=
  search_all one store flt (cv_measure cv) (Z.of_nat (cv_subpix cv)) surface (map (fun it => one / 2 ^ Z.of_nat it) (seq (S k) len))
    (mkPoint (Z.of_nat j * one) (Z.of_nat i * one) row col x) = Some p.

Theorem C28_windows one store flt iterations cv invalid col_map row_map g r c row col i j surface k len x p a b :
  ready one flt iterations cv invalid col_map row_map g ->
  (r < cv_nrow cv)%nat -> (c < cv_ncol cv)%nat -> nth2 (cv_data cv) r c = Some surface ->
  nth_error (cv_disp_col cv) i = Some col -> nth_error (cv_disp_row cv) j = Some row ->
  strictly_in row (row_range one g r c) -> strictly_in col (col_range one g r c) ->
  cv_subpix cv = (2 ^ k)%nat -> (k + len < iterations)%nat -> -1 <= a <= 1 -> -1 <= b <= 1 ->
  reached one store flt cv surface k len i j row col x p ->
  let pos_col := a * (one / 2 ^ Z.of_nat (k + S len)) * Z.of_nat (cv_subpix cv) + pt_pos_row p in
  let pos_row := b * (one / 2 ^ Z.of_nat (k + S len)) * Z.of_nat (cv_subpix cv) + pt_pos_col p in
  window_inside one flt (length (cv_disp_col cv)) (length (cv_disp_row cv)) pos_row pos_col /\
  interpolate1 one flt surface (pos_col, pos_row) =
    Some (f_apply flt (resampling_area one flt surface pos_row pos_col) (fractional one pos_row) (fractional one pos_col)) /\
  forall u v, (u < f_size flt)%nat -> (v < f_size flt)%nat ->
    exists y, nth2 (resampling_area one flt surface pos_row pos_col) u v = Some y /\
      cost_at cv r c (Z.to_nat (pos_row / one - Z.of_nat (f_left flt) + Z.of_nat u)) (Z.to_nat (pos_col / one - Z.of_nat (f_up flt) + Z.of_nat v)) = Some y.
Proof.
  intros Rd Hr Hc Sf Ei Ej Ir Ic Hk L Ha Hb E pos_col pos_row.
  assert (W : window_inside one flt (length (cv_disp_col cv)) (length (cv_disp_row cv)) pos_row pos_col).
  { apply (windows_theorem one store flt iterations cv invalid col_map row_map g Rd r c row col i j surface k len x p a b); auto; unfold unit_shift; lia. }
  pose proof (surface_rect one flt iterations cv invalid col_map row_map g Rd r c surface Sf) as Rs.
  split; [exact W|]. split; [exact (interpolate_inside one flt _ _ surface Rs pos_row pos_col W)|].
  intros u v Hu Hv. pose proof (area_read one flt _ _ surface Rs pos_row pos_col u v W Hu Hv) as Rd2.
  destruct (nth2_some _ _ _ u v (area_rect one flt _ _ surface Rs pos_row pos_col W) Hu Hv) as [y Hy].
  exists y. split; [exact Hy|]. rewrite <- Hy, Rd2. unfold cost_at. rewrite Sf. destruct W as (W1 & _ & W2 & _). f_equal; lia.
Qed.

(** The margins declared by the two filters are large enough for their windows. *)
Theorem C28_filters : (forall apply, covered (bicubic_filter apply) bicubic_margins) /\ (forall half apply, covered (sinc_filter half apply) (sinc_margins half)).
Proof. split; intros; repeat split; simpl; lia. Qed.

(** The refinement ends without error. *)
Theorem C28_no_error one store flt iterations cv invalid col_map row_map g :
  rounding store -> ordinary_costs store cv -> ready one flt iterations cv invalid col_map row_map g ->
  exists res, refinement_method one store flt iterations cv invalid col_map row_map g = Some res.
Proof. intros R O Rd. now apply total_theorem. Qed.

(** The fractional part given to the coefficients is the exact one: the special case near 1 never happens for a position of the search
    (a multiple of subpix / 2^iterations, thus of 1 / 2^iterations). *)
Theorem C28_fractional one (n : nat) pos : 0 < one -> (n <= 22)%nat -> (2 ^ Z.of_nat n | one) -> (one / 2 ^ Z.of_nat n | pos) -> 0 <= pos ->
  fractional one pos = pos - one * (pos / one).
Proof. intros. rewrite (fractional_exact one n) by auto. apply Z.mod_eq. lia. Qed.

(** ** Example: two pixels, disparities -1 .. 1 with the margins of the bicubic filter, units of 1/512 pixel. *)
Definition ex_apply (area : list (list ext)) (fr fc : Z) : ext :=
  match nth2 area 1 1, nth2 area 2 2 with Some (Fin v), Some (Fin w) => Fin (v * (512 - fr) + w * fc - 3 * fr * fc) | _, _ => NaN end.
Definition ex_filter : filter := bicubic_filter ex_apply.
Definition ex_surface : list (list ext) := map (fun i => map (fun j => Fin (10 * (2 * i - 3 * j) * (2 * i - 3 * j))) [-2; -1; 0; 1; 2; 3]) [-2; -1; 0; 1; 2; 3].
Definition ex_surface_nan : list (list ext) := map (map (fun _ => NaN)) ex_surface.
Definition ex_coords : list Z := map (Z.mul 512) [-2; -1; 0; 1; 2; 3].
Definition ex_dcv : cost_volumes := mkCV 1 3 ex_coords ex_coords [[ex_surface; ex_surface_nan; ex_surface]] 1 MeasureMin (Some bicubic_margins).
Definition ex_grid (v : Z) : arr2 Z := mkArr2 1 3 (fun _ _ => v).
Definition ex_dgrids : grids := mkGrids2 (ex_grid (-1)) (ex_grid 1) (ex_grid (-1)) (ex_grid 1).
Definition ex_invalid : ext := Fin (-9999 * 512).
Definition ex_row_map : list (list ext) := [[Fin 0; ex_invalid; Fin 512]].
Definition ex_col_map : list (list ext) := [[Fin 0; ex_invalid; Fin 0]].

Lemma ex_spaced : spaced 512 1 ex_coords.
Proof. exists 512, (-1024). split; [lia|]. split; [reflexivity|]. intros j Hj. do 6 (destruct j as [|j]; [reflexivity|]). simpl in Hj. lia. Qed.
Lemma ex_rounding : rounding (fun x => x).
Proof. split; [|split]; auto. Qed.

Example ex_ready : ready 512 ex_filter 9 ex_dcv ex_invalid ex_col_map ex_row_map ex_dgrids.
Proof.
  split; [lia|]. split; [exists 1; reflexivity|]. split; [exists 0%nat; reflexivity|]. split.
  { split; [split; [reflexivity|repeat constructor]|]. split.
    - intros r c plane H. destruct r as [|[|r]]; try discriminate. destruct c as [|[|[|[|c]]]]; try discriminate; injection H as <-; split; try reflexivity; repeat constructor.
    - split; exists 1%nat; unfold user_col, user_row; simpl; lia. }
  split; [exact ex_spaced|]. split; [exact ex_spaced|]. split; [exists bicubic_margins; split; [reflexivity|apply C28_filters]|].
  split; [split; [reflexivity|repeat constructor]|]. split; [split; [reflexivity|repeat constructor]|]. split.
  { intros a H. simpl in H. destruct H as [<-|[<-|[<-|[<-|[]]]]]; split; reflexivity. }
  intros r c Hr Hc. simpl in Hr, Hc. assert (r = 0%nat) by lia. subst r.
  assert (U1 : user_disparity_row ex_dcv (-512)) by (exists 1%nat; split; [unfold user_row; simpl; lia|reflexivity]).
  assert (U2 : user_disparity_row ex_dcv 512) by (exists 3%nat; split; [unfold user_row; simpl; lia|reflexivity]).
  assert (U3 : user_disparity_col ex_dcv (-512)) by (exists 1%nat; split; [unfold user_col; simpl; lia|reflexivity]).
  assert (U4 : user_disparity_col ex_dcv 512) by (exists 3%nat; split; [unfold user_col; simpl; lia|reflexivity]).
  split; [exact U1|]. split; [exact U2|]. split; [exact U3|]. split; [exact U4|].
  destruct c as [|[|[|c]]]; [| | |lia].
  - split; right; exists 0; (split; [reflexivity|]; split; [simpl; tauto|]; unfold in_range; simpl; lia).
  - split; left; reflexivity.
  - split; right; [exists 512|exists 0]; (split; [reflexivity|]; split; [simpl; tauto|]; unfold in_range; simpl; lia).
Qed.

(** The first pixel is refined, the second one is invalid, the third one is at the end of its range. *)
Example ex_dichotomy : refinement_method 512 (fun x => x) ex_filter 9 ex_dcv ex_invalid ex_col_map ex_row_map ex_dgrids =
  Some ([[Fin (-1); ex_invalid; Fin 0]], [[Fin (-1); ex_invalid; Fin 512]], [[Fin (-783353); NaN; Fin 90]]).
Proof. vm_compute. reflexivity. Qed.

Lemma ex_ordinary : ordinary_costs (fun x => x) ex_dcv.
Proof.
  intros r c i j x H. unfold cost_at in H. destruct (nth2 (cv_data ex_dcv) r c) as [plane|] eqn:E; [|discriminate].
  assert (F : forall y row, In row plane -> In y row -> y = NaN \/ y <> PInf).
  { destruct r as [|[|r]]; try discriminate. destruct c as [|[|[|[|c]]]]; try discriminate; injection E as <-; intros y row Hrow Hy; vm_compute in Hrow;
      (do 6 (destruct Hrow as [<-|Hrow]; [simpl in Hy; do 6 (destruct Hy as [<-|Hy]; [first [left; reflexivity | right; discriminate]|]); destruct Hy|])); destruct Hrow. }
  apply nth2_In in H. destruct H as (row & Hrow & Hx). destruct (F x row Hrow Hx); auto.
Qed.

Example ex_dichotomy_hypotheses :
  matched ex_invalid ex_col_map ex_row_map 0 0 0 0 /\ cost_for ex_dcv 0 0 0 0 2 2 (Fin 0) /\
  strictly_in 0 (row_range 512 ex_dgrids 0 0) /\ strictly_in 0 (col_range 512 ex_dgrids 0 0) /\ at_an_end 512 (row_range 512 ex_dgrids 0 2) /\
  reached 512 (fun x => x) ex_filter ex_dcv ex_surface 0 1 2 2 0 0 (Fin 0) (mkPoint 768 768 (-256) (-256) (Fin (-194048))) /\
  interpolate1 512 ex_filter ex_surface (2 * 512 + (-1 - 0) * 1, 2 * 512 + (-1 - 0) * 1) = Some (Fin (-783353)).
Proof.
  split; [repeat split; discriminate|]. split; [repeat split|]. split; [unfold strictly_in; simpl; lia|]. split; [unfold strictly_in; simpl; lia|].
  split; [right; reflexivity|]. split; vm_compute; reflexivity.
Qed.

(** * C51: with a step the grids of the image have not the shape of the maps: numpy's iteration fails, though the refinement with the grids
    read at the pixels of the maps would succeed. Here one row, five columns, step 2. *)
Theorem C51_step_refuted : exists one store flt iterations cv invalid col_map row_map (image_grids map_grids : grids) (step : nat),
  rounding store /\ ordinary_costs store cv /\ ready one flt iterations cv invalid col_map row_map map_grids /\
  (forall pick, In pick [g_col_min; g_col_max; g_row_min; g_row_max] -> a2_n0 (pick image_grids) = cv_nrow cv /\
     (cv_ncol cv = (a2_n1 (pick image_grids) + step - 1) / step)%nat /\
     forall r c, a2_get (pick map_grids) r c = a2_get (pick image_grids) r (c * step)%nat) /\
  refinement_method one store flt iterations cv invalid col_map row_map image_grids = None.
Proof.
  exists 512, (fun x => x), ex_filter, 9%nat, ex_dcv, ex_invalid, ex_col_map, ex_row_map,
    (mkGrids2 (mkArr2 1 5 (fun _ _ => -1)) (mkArr2 1 5 (fun _ _ => 1)) (mkArr2 1 5 (fun _ _ => -1)) (mkArr2 1 5 (fun _ _ => 1))), ex_dgrids, 2%nat.
  split; [exact ex_rounding|]. split; [exact ex_ordinary|]. split; [exact ex_ready|]. split.
  - intros pick H. destruct H as [<-|[<-|[<-|[<-|[]]]]]; repeat split.
  - vm_compute. reflexivity.
Qed.
(** For all inputs: when a grid has more columns than the map. *)
Theorem C51_step one store flt iterations cv invalid col_map row_map g :
  (0 < cv_nrow cv)%nat -> (1 < cv_ncol cv < a2_n1 (g_row_min g))%nat ->
  refinement_method one store flt iterations cv invalid col_map row_map g = None.
Proof.
  intros Hr Hc. destruct (refinement_method _ _ _ _ _ _ _ _ _) as [[[mc mr] sc]|] eqn:E; auto. exfalso.
  destruct (refinement_nth _ _ _ _ _ _ _ _ _ _ _ _ 0 0 E) as (x & row & col & Ea & _); try lia.
  destruct (refine_at_grids _ _ _ _ _ _ _ _ _ _ _ _ Ea) as (a & _ & _ & _ & _ & G & _).
  unfold grid_at, broadcast in G. destruct (if (a2_n0 _ =? _)%nat then _ else _); [|discriminate].
  replace (a2_n1 (g_row_min g) =? cv_ncol cv)%nat with false in G by (symmetry; apply Nat.eqb_neq; lia).
  replace (a2_n1 (g_row_min g) =? 1)%nat with false in G by (symmetry; apply Nat.eqb_neq; lia). discriminate.
Qed.

(** * C52: a disparity equal to the value of invalid_disparity is taken for an invalid one: the pixel, matched and with a cost, is not refined and
    loses its score. Here invalid_disparity is 0. *)
Theorem C52_matched_pixels_refined_refuted : exists one store flt iterations cv invalid col_map row_map g mc mr sc r c row col i j x,
  rounding store /\ ordinary_costs store cv /\ ready one flt iterations cv invalid col_map row_map g /\
  nth2 row_map r c = Some (Fin row) /\ nth2 col_map r c = Some (Fin col) /\ cost_for cv r c row col i j x /\ x <> NaN /\
  strictly_in row (row_range one g r c) /\ strictly_in col (col_range one g r c) /\
  refinement_method one store flt iterations cv invalid col_map row_map g = Some (mc, mr, sc) /\
  nth2 sc r c = Some NaN.
Proof.
  pose (m := [[Fin 0; Fin 0; Fin 0]]).
  exists 512, (fun x => x), ex_filter, 9%nat, ex_dcv, (Fin 0), m, m, ex_dgrids, m, m, [[NaN; NaN; NaN]], 0%nat, 0%nat, 0, 0, 2%nat, 2%nat, (Fin 0).
  split; [exact ex_rounding|]. split; [exact ex_ordinary|]. split.
  { destruct ex_ready as (R1 & R2 & R3 & R4 & R5 & R6 & R7 & _ & _ & R10 & R11).
    split; auto. split; auto. split; auto. split; auto. split; auto. split; auto. split; auto.
    split; [split; [reflexivity|repeat constructor]|]. split; [split; [reflexivity|repeat constructor]|]. split; auto.
    intros r c Hr Hc. destruct (R11 r c Hr Hc) as (U1 & U2 & U3 & U4 & _). split; auto. split; auto. split; auto. split; auto.
    simpl in Hr, Hc. assert (r = 0%nat) by lia. subst r. destruct c as [|[|[|c]]]; [| | |lia]; split; left; reflexivity. }
  split; [reflexivity|]. split; [reflexivity|]. split; [repeat split|]. split; [discriminate|]. split; [unfold strictly_in; simpl; lia|].
  split; [unfold strictly_in; simpl; lia|]. split; vm_compute; reflexivity.
Qed.

(** * C53: the score map of the winner takes all may be degraded: with equal costs the row and the column disparities come from two different
    optima (C03), the refinement starts from the cost of the pair. *)
Theorem C53_score_map_refuted : exists one store flt iterations chunk cv invalid col_map row_map score g mc mr sc r c x y,
  rounding store /\ ordinary_costs store cv /\ ready one flt iterations cv invalid col_map row_map g /\
  compute_disp_maps chunk invalid cv = Some (col_map, row_map, score) /\
  refinement_method one store flt iterations cv invalid col_map row_map g = Some (mc, mr, sc) /\
  nth2 score r c = Some x /\ nth2 sc r c = Some y /\ x <> NaN /\ ~ at_least_as_good (cv_measure cv) y x.
Proof.
  pose (cost := fun i j : Z => if (i =? 0) && (j =? 1) then Fin 0 else if (i =? 1) && (j =? 0) then Fin 0 else if (i =? 0) && (j =? 0) then Fin 5 else Fin 9).
  pose (surface := map (fun i => map (cost i) [-2; -1; 0; 1; 2; 3]) [-2; -1; 0; 1; 2; 3]).
  pose (vol := mkCV 1 1 ex_coords ex_coords [[surface]] 1 MeasureMin (Some bicubic_margins)).
  pose (sample := fun (area : list (list ext)) (_ _ : Z) => match nth2 area 1 1 with Some v => v | None => NaN end).
  pose (grid := fun v : Z => mkArr2 1 1 (fun _ _ => v)).
  exists 512, (fun x => x), (bicubic_filter sample), 9%nat, 100%nat, vol, ex_invalid, [[Fin 0]], [[Fin 0]], [[Fin 0]],
    (mkGrids2 (grid (-1)) (grid 1) (grid (-1)) (grid 1)), [[Fin 0]], [[Fin 0]], [[Fin 5]], 0%nat, 0%nat, (Fin 0), (Fin 5).
  split; [exact ex_rounding|]. split.
  { intros r c i j x H. unfold cost_at in H. destruct (nth2 (cv_data vol) r c) as [plane|] eqn:E; [|discriminate].
    destruct r as [|[|r]]; try discriminate. destruct c as [|[|c]]; try discriminate. injection E as <-.
    apply nth2_In in H. destruct H as (row & Hrow & Hx). vm_compute in Hrow. right.
    do 6 (destruct Hrow as [<-|Hrow]; [simpl in Hx; do 6 (destruct Hx as [<-|Hx]; [split; [discriminate|reflexivity]|]); destruct Hx|]). destruct Hrow. }
  split.
  { split; [lia|]. split; [exists 1; reflexivity|]. split; [exists 0%nat; reflexivity|]. split.
    { split; [split; [reflexivity|repeat constructor]|]. split.
      - intros r c plane H. destruct r as [|[|r]]; try discriminate. destruct c as [|[|c]]; try discriminate; injection H as <-; split; try reflexivity; repeat constructor.
      - split; exists 1%nat; unfold user_col, user_row; simpl; lia. }
    split; [exact ex_spaced|]. split; [exact ex_spaced|]. split; [exists bicubic_margins; split; [reflexivity|apply C28_filters]|].
    split; [split; [reflexivity|repeat constructor]|]. split; [split; [reflexivity|repeat constructor]|]. split.
    { intros a H. simpl in H. destruct H as [<-|[<-|[<-|[<-|[]]]]]; split; reflexivity. }
    intros r c Hr Hc. simpl in Hr, Hc. assert (r = 0%nat) by lia. subst r. assert (c = 0%nat) by lia. subst c.
    split; [exists 1%nat; split; [unfold user_row; simpl; lia|reflexivity]|]. split; [exists 3%nat; split; [unfold user_row; simpl; lia|reflexivity]|].
    split; [exists 1%nat; split; [unfold user_col; simpl; lia|reflexivity]|]. split; [exists 3%nat; split; [unfold user_col; simpl; lia|reflexivity]|].
    split; right; exists 0; (split; [reflexivity|]; split; [simpl; tauto|]; unfold in_range; simpl; lia). }
  split; [vm_compute; reflexivity|]. split; [vm_compute; reflexivity|]. split; [reflexivity|]. split; [reflexivity|]. split; [discriminate|]. simpl. discriminate.
Qed.

Print Assumptions C53_score_map_refuted.
Print Assumptions C25_score.
Print Assumptions C26_moves.
Print Assumptions C27_left_alone.
Print Assumptions C27_strictly_inside.
Print Assumptions C28_windows.
Print Assumptions C28_filters.
Print Assumptions C28_no_error.
Print Assumptions C28_fractional.
Print Assumptions C51_step_refuted.
Print Assumptions C51_step.
Print Assumptions C52_matched_pixels_refined_refuted.
