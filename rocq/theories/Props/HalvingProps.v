(** C88 - C90: the search of the dichotomy, its precision, and costs for which it misses the optimum. *)
From Coq Require Import ZArith List Bool Lia Arith Znumtheory.
From Verif Require Import Base.Ext Base.PyList Base.Arr Model.CommonModel Model.DisparityModel Model.DichotomyModel
  Spec.WtaSpec Spec.DichotomySpec Spec.HalvingSpec Proofs.ChunkProofs Proofs.WtaProofs Proofs.DichotomyProofs Proofs.DichotomyTheorems Proofs.HalvingProofs Proofs.BicubicHalving Props.DichotomyProps.
Import ListNotations.
Open Scope Z_scope.

(** * C88: at every precision 1/2^it the best of the nine candidates is kept (the first one; none when they are all equal), nothing else is done, and this determines the
    result. [cost_between] gives the cost interpolated at any disparities. *)
Theorem C88_best_of_nine one store flt iterations cv invalid col_map row_map g mc mr sc r c row col i j x surface k :
  rounding store -> cv_subpix cv = (2 ^ k)%nat -> increasing (cv_disp_col cv) -> increasing (cv_disp_row cv) -> same_shape cv g ->
  refinement_method one store flt iterations cv invalid col_map row_map g = Some (mc, mr, sc) -> (r < cv_nrow cv)%nat -> (c < cv_ncol cv)%nat ->
  matched invalid col_map row_map r c row col -> cost_for cv r c row col i j x -> nth2 (cv_data cv) r c = Some surface ->
  x <> NaN -> x <> worst_cost (cv_measure cv) -> store x = x -> ~ at_an_end row (row_range one g r c) -> ~ at_an_end col (col_range one g r c) ->
  exists row' col' y, nth2 mr r c = Some (Fin row') /\ nth2 mc r c = Some (Fin col') /\ nth2 sc r c = Some y /\
    let found := halving store (cv_measure cv) (cost_between one flt cv surface i j row col) (map (fun it => one / 2 ^ Z.of_nat it) (seq (S k) (iterations - k))) row col x in
    found row' col' y /\ (forall row2 col2 y2, found row2 col2 y2 -> row2 = row' /\ col2 = col' /\ y2 = y).
Proof.
  intros. destruct (halving_theorem one store flt iterations cv invalid col_map row_map g mc mr sc r c row col i j x surface k) as (row' & col' & y & A & B & C & D); auto.
  exists row', col', y. do 3 (split; auto). cbv zeta. split; auto. intros row2 col2 y2 D2. destruct (halving_unique _ _ _ _ _ _ _ _ _ _ _ _ _ D2 D) as (-> & -> & ->). auto.
Qed.

(** * C89: precision. The costs are the sum of a function of the row disparity and of a function of the column disparity, each of them better and better towards its goal,
    and the interpolation is exact: the refined disparities are at most at 1/2^iterations pixel of the goals. *)
Theorem C89_precision one store flt iterations cv invalid col_map row_map g mc mr sc r c row col i j surface k f h goal_row goal_col u2 v2 :
  ready one flt iterations cv invalid col_map row_map g -> rounding store -> cv_subpix cv = (2 ^ k)%nat -> (forall u v, store (Fin (f u + h v)) = Fin (f u + h v)) ->
  refinement_method one store flt iterations cv invalid col_map row_map g = Some (mc, mr, sc) -> (r < cv_nrow cv)%nat -> (c < cv_ncol cv)%nat ->
  matched invalid col_map row_map r c row col -> nth_error (cv_disp_col cv) i = Some col -> nth_error (cv_disp_row cv) j = Some row -> nth2 (cv_data cv) r c = Some surface ->
  strictly_in row (row_range one g r c) -> strictly_in col (col_range one g r c) ->
  optimal_pair cv r c (row_range one g r c) (col_range one g r c) row v2 -> optimal_pair cv r c (row_range one g r c) (col_range one g r c) u2 col ->
  sum_sampled cv r c (row_range one g r c) (col_range one g r c) f h -> sum_resampled one (cv_subpix cv) iterations (cost_between one flt cv surface i j row col) row col f h ->
  towards (cv_measure cv) f goal_row -> towards (cv_measure cv) h goal_col ->
  exists row' col', nth2 mr r c = Some (Fin row') /\ nth2 mc r c = Some (Fin col') /\ nth2 sc r c = Some (Fin (f row' + h col')) /\
    Z.abs (row' - goal_row) * 2 ^ Z.of_nat (Nat.max k iterations) <= one /\ Z.abs (col' - goal_col) * 2 ^ Z.of_nat (Nat.max k iterations) <= one.
Proof. apply precision_theorem. Qed.

(** With the bicubic filter and costs a (u - goal_row)^2 + b (v - goal_col)^2 + e nothing has to be supposed about the interpolation. *)
Theorem C89_bicubic one store iterations cv invalid col_map row_map g mc mr sc r c row col k a b e goal_row goal_col u2 v2 :
  let flt := bicubic_filter (bicubic_apply one) in
  ready one flt iterations cv invalid col_map row_map g -> rounding store -> cv_subpix cv = (2 ^ k)%nat -> (k <= iterations <= 22)%nat -> (forall z, store (Fin z) = Fin z) ->
  refinement_method one store flt iterations cv invalid col_map row_map g = Some (mc, mr, sc) -> (r < cv_nrow cv)%nat -> (c < cv_ncol cv)%nat ->
  matched invalid col_map row_map r c row col -> strictly_in row (row_range one g r c) -> strictly_in col (col_range one g r c) ->
  optimal_pair cv r c (row_range one g r c) (col_range one g r c) row v2 -> optimal_pair cv r c (row_range one g r c) (col_range one g r c) u2 col ->
  (forall i j u v, nth_error (cv_disp_col cv) i = Some v -> nth_error (cv_disp_row cv) j = Some u -> cost_at cv r c i j = Some (Fin (a * (u - goal_row) ^ 2 + (b * (v - goal_col) ^ 2 + e)))) ->
  match cv_measure cv with MeasureMin => 0 < a /\ 0 < b | MeasureMax => a < 0 /\ b < 0 end ->
  exists row' col', nth2 mr r c = Some (Fin row') /\ nth2 mc r c = Some (Fin col') /\
    Z.abs (row' - goal_row) * 2 ^ Z.of_nat iterations <= one /\ Z.abs (col' - goal_col) * 2 ^ Z.of_nat iterations <= one.
Proof.
  intros flt Rd R Hk [Hi H22] St E Hr Hc M Sr Sc O1 O2 Sm Ab.
  assert (Ei : exists i, nth_error (cv_disp_col cv) i = Some col) by (destruct O2 as (_ & _ & i & _ & _ & (X & _) & _); eauto). destruct Ei as [i Ei].
  assert (Ej : exists j, nth_error (cv_disp_row cv) j = Some row) by (destruct O1 as (_ & _ & _ & j & _ & (_ & X & _) & _); eauto). destruct Ej as [j Ej].
  pose proof (Sm i j row col Ei Ej) as Cst. unfold cost_at in Cst. destruct (nth2 (cv_data cv) r c) as [surface|] eqn:Sf; [|discriminate].
  assert (P1 : 0 < one) by apply Rd.
  destruct (precision_theorem one store flt iterations cv invalid col_map row_map g mc mr sc r c row col i j surface k (fun u => a * (u - goal_row) ^ 2) (fun v => b * (v - goal_col) ^ 2 + e) goal_row goal_col u2 v2)
    as (row' & col' & A & B & _ & D & F); auto.
  - intros u v i' j' _ _ H1 H2. auto.
  - eapply quadratic_resampled; eauto.
  - pose proof (square_towards (cv_measure cv) a goal_row) as T. intros u v H. specialize (T ltac:(destruct (cv_measure cv); tauto) 0 u v H). cbv beta in T. destruct (cv_measure cv); lia.
  - apply square_towards. destruct (cv_measure cv); tauto.
  - rewrite Nat.max_r in D, F by auto. exists row', col'. auto.
Qed.

(** ** Example: one pixel, disparities -1 .. 1 and the margins of the bicubic filter, units of 1/512 pixel, optimum at (100.., -71..) units. *)
Definition hv_surface (cost : Z -> Z -> Z) : list (list ext) := map (fun v => map (fun u => Fin (cost u v)) ex_coords) ex_coords.
Definition hv_cv (cost : Z -> Z -> Z) : cost_volumes := mkCV 1 1 ex_coords ex_coords [[hv_surface cost]] 1 MeasureMin (Some bicubic_margins).
Definition hv_grid (v : Z) : arr2 Z := mkArr2 1 1 (fun _ _ => v).
Definition hv_grids : grids := mkGrids2 (hv_grid (-1)) (hv_grid 1) (hv_grid (-1)) (hv_grid 1).
Definition hv_map : list (list ext) := [[Fin 0]].
Definition hv_filter : filter := bicubic_filter (bicubic_apply 512).
Lemma hv_ready cost n : (n <= 9)%nat -> ready 512 hv_filter n (hv_cv cost) ex_invalid hv_map hv_map hv_grids.
Proof.
  intros Hn. split; [lia|]. split. { exists (2 ^ Z.of_nat (9 - n)). rewrite <- Z.pow_add_r by lia. replace (Z.of_nat (9 - n) + Z.of_nat n) with 9 by lia. reflexivity. }
  split; [exists 0%nat; reflexivity|]. split.
  { split; [split; [reflexivity|repeat constructor]|]. split.
    - intros r c plane H. destruct r as [|r]; [|destruct r; discriminate]. destruct c as [|c]; [|destruct c; discriminate]. injection H as <-. split; [reflexivity|repeat constructor].
    - split; exists 1%nat; unfold user_col, user_row; simpl; lia. }
  split; [exact ex_spaced|]. split; [exact ex_spaced|]. split; [exists bicubic_margins; split; [reflexivity|apply C28_filters]|].
  split; [split; [reflexivity|repeat constructor]|]. split; [split; [reflexivity|repeat constructor]|]. split.
  { intros a H. simpl in H. destruct H as [<-|[<-|[<-|[<-|[]]]]]; split; reflexivity. }
  intros r c Hr Hc. simpl in Hr, Hc. assert (r = 0%nat) by lia. assert (c = 0%nat) by lia. subst r c.
  split; [exists 1%nat; split; [unfold user_row; simpl; lia|reflexivity]|]. split; [exists 3%nat; split; [unfold user_row; simpl; lia|reflexivity]|].
  split; [exists 1%nat; split; [unfold user_col; simpl; lia|reflexivity]|]. split; [exists 3%nat; split; [unfold user_col; simpl; lia|reflexivity]|].
  split; right; exists 0; (split; [reflexivity|]; split; [simpl; tauto|]; unfold in_range; simpl; lia).
Qed.
Lemma hv_cost cost i j u v : nth_error ex_coords i = Some v -> nth_error ex_coords j = Some u -> cost_at (hv_cv cost) 0 0 i j = Some (Fin (cost u v)).
Proof.
  intros Hi Hj. unfold cost_at, nth2. cbn [hv_cv cv_data nth_error]. unfold hv_surface. rewrite nth_error_map, Hi. cbn [option_map]. rewrite nth_error_map, Hj. reflexivity.
Qed.
(** (0, 0) is the optimum of the samples as soon as it is better than the eight other pairs of whole disparities. *)
Lemma hv_optimal cost : (forall u v, In u [-512; 0; 512] -> In v [-512; 0; 512] -> cost 0 0 <= cost u v) ->
  optimal_pair (hv_cv cost) 0 0 (row_range 512 hv_grids 0 0) (col_range 512 hv_grids 0 0) 0 0.
Proof.
  intros H. split; [unfold in_range; simpl; lia|]. split; [unfold in_range; simpl; lia|]. exists 2%nat, 2%nat, (Fin (cost 0 0)). split.
  - split; [reflexivity|]. split; [reflexivity|]. now apply hv_cost.
  - intros u v i j y Ru Rv (E1 & E2 & E3). cbn [hv_cv cv_disp_col cv_disp_row] in E1, E2. rewrite (hv_cost cost i j u v E1 E2) in E3. injection E3 as <-. cbn [hv_cv cv_measure at_least_as_good ext_leb].
    apply Z.leb_le. unfold in_range, row_range, col_range in Ru, Rv. cbn in Ru, Rv. apply nth_error_In in E1, E2. cbn in E1, E2.
    apply H; cbn; lia.
Qed.

Definition hv_quadratic (u v : Z) : Z := 3 * (u - 100) ^ 2 + (5 * (v + 71) ^ 2 + 7).
(** Nine iterations find the optimum, three stop at 128 and -64: one eighth of pixel is 64 units. *)
Example C89_example : ready 512 hv_filter 3 (hv_cv hv_quadratic) ex_invalid hv_map hv_map hv_grids /\ rounding (fun x => x) /\ matched ex_invalid hv_map hv_map 0 0 0 0 /\
  strictly_in 0 (row_range 512 hv_grids 0 0) /\ strictly_in 0 (col_range 512 hv_grids 0 0) /\
  optimal_pair (hv_cv hv_quadratic) 0 0 (row_range 512 hv_grids 0 0) (col_range 512 hv_grids 0 0) 0 0 /\
  (forall i j u v, nth_error ex_coords i = Some v -> nth_error ex_coords j = Some u -> cost_at (hv_cv hv_quadratic) 0 0 i j = Some (Fin (hv_quadratic u v))) /\
  refinement_method 512 (fun x => x) hv_filter 3 (hv_cv hv_quadratic) ex_invalid hv_map hv_map hv_grids = Some ([[Fin (-64)]], [[Fin 128]], [[Fin (hv_quadratic 128 (-64))]]) /\
  refinement_method 512 (fun x => x) hv_filter 9 (hv_cv hv_quadratic) ex_invalid hv_map hv_map hv_grids = Some ([[Fin (-71)]], [[Fin 100]], [[Fin 7]]).
Proof.
  split; [apply hv_ready; lia|]. split; [exact ex_rounding|]. split; [repeat split; discriminate|]. split; [unfold strictly_in; simpl; lia|]. split; [unfold strictly_in; simpl; lia|].
  split. { apply hv_optimal. intros u v Hu Hv. cbn in Hu, Hv. destruct Hu as [<-|[<-|[<-|[]]]], Hv as [<-|[<-|[<-|[]]]]; vm_compute; discriminate. }
  split. { intros i j u v H1 H2. now apply hv_cost. } split; vm_compute; reflexivity.
Qed.
Example C88_example : cv_subpix (hv_cv hv_quadratic) = (2 ^ 0)%nat /\ increasing ex_coords /\ same_shape (hv_cv hv_quadratic) hv_grids /\
  cost_for (hv_cv hv_quadratic) 0 0 0 0 2 2 (Fin (hv_quadratic 0 0)) /\ ~ at_an_end 0 (row_range 512 hv_grids 0 0) /\ ~ at_an_end 0 (col_range 512 hv_grids 0 0).
Proof.
  split; [reflexivity|]. split; [exact (spaced_increasing _ _ _ ex_spaced)|]. split; [intros a H; simpl in H; destruct H as [<-|[<-|[<-|[<-|[]]]]]; split; reflexivity|].
  split; [split; [reflexivity|]; split; [reflexivity|]; now apply hv_cost|]. unfold at_an_end; simpl; lia.
Qed.

(** * C90: with a convex cost that is not such a sum the dichotomy stops far from the optimum, though the interpolation is exact (the cost is of degree two, C29): here the
    optimum is at (0.80, 0.40) pixel, and with the largest number of iterations the row disparity stays at more than three quarters of pixel. *)
Theorem C90_optimum_found_refuted : exists one store iterations cv invalid col_map row_map g mc mr sc r c row col (cost : Z -> Z -> Z) goal_row goal_col row' col',
  let flt := bicubic_filter (bicubic_apply one) in
  ready one flt iterations cv invalid col_map row_map g /\ rounding store /\ iterations = 9%nat /\
  matched invalid col_map row_map r c row col /\ strictly_in row (row_range one g r c) /\ strictly_in col (col_range one g r c) /\
  optimal_pair cv r c (row_range one g r c) (col_range one g r c) row col /\
  (forall i j u v, nth_error (cv_disp_col cv) i = Some v -> nth_error (cv_disp_row cv) j = Some u -> cost_at cv r c i j = Some (Fin (cost u v))) /\
  (exists a b d e, 0 < a /\ 0 < a * d - b * b /\ forall u v, cost u v = a * (u - goal_row) ^ 2 + 2 * b * (u - goal_row) * (v - goal_col) + d * (v - goal_col) ^ 2 + e) /\
  strictly_in goal_row (row_range one g r c) /\ strictly_in goal_col (col_range one g r c) /\
  refinement_method one store flt iterations cv invalid col_map row_map g = Some (mc, mr, sc) /\ nth2 mr r c = Some (Fin row') /\ nth2 mc r c = Some (Fin col') /\
  3 * one < 4 * (goal_row - row').
Proof.
  pose (cost := fun u v => 100 * (u - 2 * v) ^ 2 + (u - 410) ^ 2).
  exists 512, (fun x => x), 9%nat, (hv_cv cost), ex_invalid, hv_map, hv_map, hv_grids. do 3 eexists. exists 0%nat, 0%nat, 0, 0, cost, 410, 205. do 2 eexists. cbv zeta.
  split; [apply hv_ready; lia|]. split; [exact ex_rounding|]. split; [reflexivity|]. split; [repeat split; discriminate|]. split; [unfold strictly_in; simpl; lia|]. split; [unfold strictly_in; simpl; lia|].
  split. { apply hv_optimal. intros u v Hu Hv. cbn in Hu, Hv. destruct Hu as [<-|[<-|[<-|[]]]], Hv as [<-|[<-|[<-|[]]]]; vm_compute; discriminate. }
  split. { intros i j u v H1 H2. now apply hv_cost. }
  split. { exists 101, (-200), 400, 0. split; [lia|]. split; [lia|]. intros u v. unfold cost. lia. }
  split; [unfold strictly_in; simpl; lia|]. split; [unfold strictly_in; simpl; lia|].
  split; [vm_compute; reflexivity|]. split; [reflexivity|]. split; [reflexivity|]. vm_compute. reflexivity.
Qed.

Print Assumptions C88_best_of_nine.
Print Assumptions C89_precision.
Print Assumptions C89_bicubic.
Print Assumptions C90_optimum_found_refuted.
