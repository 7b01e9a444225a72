(** Lemmas for C94 and C98: initial disparities that do not change in the window that is loaded. *)
From Coq Require Import List String Bool ZArith QArith Lia.
From Verif Require Import Base.Ext Base.PyList Base.Arr Base.Json Model.CommonModel Model.DisparityModel Model.MatchingCostModel Model.DichotomyModel Model.ImgShiftModel
  Model.RoiModel Model.InputModel Spec.MatchingCostSpec Spec.RoiSpec Spec.PipelineSpec Spec.AcceptSpec Spec.WholeSpec Spec.WholeEndSpec
  Proofs.MatchingCostProofs Proofs.MatchingCostTheorems Proofs.GridStepProofs Proofs.DichotomyProofs Proofs.DichotomyTheorems Proofs.WholeRunProofs Proofs.WholeProofs Proofs.WholeMoreProofs.
Open Scope Z_scope.

(** The grids of the cost volumes are the initial disparities more or less the ranges. *)
Lemma grids_middle {px} open_raster mi (right : image px) row_init row_range col_init col_range : wf_mc mi right ->
  (forall x y one dr, mc_row0 mi <= x < mc_row0 mi + Z.of_nat (mc_nrow mi) -> mc_col0 mi <= y < mc_col0 mi + Z.of_nat (mc_ncol mi) -> 0 < one ->
      (user_row_interval mi one x y dr <-> exists v, middle open_raster row_init x y v /\ (v - row_range) * one <= dr <= (v + row_range) * one) /\
      (user_col_interval mi one x y dr <-> exists v, middle open_raster col_init x y v /\ (v - col_range) * one <= dr <= (v + col_range) * one)) ->
  forall r c, (r < mc_nrow mi)%nat -> (c < mc_ncol mi)%nat ->
    (exists v, middle open_raster row_init (mc_row0 mi + Z.of_nat r) (mc_col0 mi + Z.of_nat c) v /\ a2_get (mc_row_min mi) r c = v - row_range /\ a2_get (mc_row_max mi) r c = v + row_range) /\
    (exists v, middle open_raster col_init (mc_row0 mi + Z.of_nat r) (mc_col0 mi + Z.of_nat c) v /\ a2_get (mc_col_min mi) r c = v - col_range /\ a2_get (mc_col_max mi) r c = v + col_range).
Proof.
  intros (_ & _ & _ & _ & _ & _ & _ & Hg & Tr & Tc) Hint r c Hr Hc.
  pose proof (fun d => Hint (mc_row0 mi + Z.of_nat r) (mc_col0 mi + Z.of_nat c) 1 d ltac:(lia) ltac:(lia) ltac:(lia)) as H.
  unfold user_row_interval, user_col_interval in H. cbv zeta in H. rewrite !Z.add_simpl_l, !Nat2Z.id in H.
  destruct (Hg (mc_row_min mi) ltac:(auto)) as (Gr0 & Gr1). destruct (Hg (mc_col_min mi) ltac:(auto)) as (Gc0 & Gc1).
  destruct Tr as (Tr & _). destruct Tc as (Tc & _). destruct (Tr r c ltac:(split; congruence)) as (_ & Or & _). destruct (Tc r c ltac:(split; congruence)) as (_ & Oc & _).
  split.
  - destruct (proj1 (proj1 (H (a2_get (mc_row_min mi) r c))) ltac:(lia)) as (v & Mv & B). destruct (proj1 (proj1 (H (a2_get (mc_row_max mi) r c))) ltac:(lia)) as (w & Mw & B').
    rewrite <- (middle_unique open_raster _ _ _ _ _ Mv Mw) in B'. clear Mw w. exists v. split; [exact Mv|].
    assert (X : forall d, v - row_range <= d <= v + row_range -> a2_get (mc_row_min mi) r c * 1 <= d <= a2_get (mc_row_max mi) r c * 1) by (intros d Hd; apply (H d); exists v; split; [exact Mv | lia]).
    pose proof (X (v - row_range) ltac:(lia)). pose proof (X (v + row_range) ltac:(lia)). lia.
  - destruct (proj1 (proj2 (H (a2_get (mc_col_min mi) r c))) ltac:(lia)) as (v & Mv & B). destruct (proj1 (proj2 (H (a2_get (mc_col_max mi) r c))) ltac:(lia)) as (w & Mw & B').
    rewrite <- (middle_unique open_raster _ _ _ _ _ Mv Mw) in B'. clear Mw w. exists v. split; [exact Mv|].
    assert (X : forall d, v - col_range <= d <= v + col_range -> a2_get (mc_col_min mi) r c * 1 <= d <= a2_get (mc_col_max mi) r c * 1) by (intros d Hd; apply (H d); exists v; split; [exact Mv | lia]).
    pose proof (X (v - col_range) ltac:(lia)). pose proof (X (v + col_range) ltac:(lia)). lia.
Qed.
(** The ranges are constant when the initial disparities are. *)
Lemma constant_middle {px} open_raster mi (right : image px) row_init row_range col_init col_range : wf_mc mi right ->
  (forall r c, (r < mc_nrow mi)%nat -> (c < mc_ncol mi)%nat ->
    (exists v, middle open_raster row_init (mc_row0 mi + Z.of_nat r) (mc_col0 mi + Z.of_nat c) v /\ a2_get (mc_row_min mi) r c = v - row_range /\ a2_get (mc_row_max mi) r c = v + row_range) /\
    (exists v, middle open_raster col_init (mc_row0 mi + Z.of_nat r) (mc_col0 mi + Z.of_nat c) v /\ a2_get (mc_col_min mi) r c = v - col_range /\ a2_get (mc_col_max mi) r c = v + col_range)) ->
  (constant_ranges mi <-> same_middle open_raster row_init (mc_row0 mi) (mc_nrow mi) (mc_col0 mi) (mc_ncol mi) /\ same_middle open_raster col_init (mc_row0 mi) (mc_nrow mi) (mc_col0 mi) (mc_ncol mi)).
Proof.
  intros (_ & _ & _ & _ & _ & _ & _ & Hg & Tr & Tc) G.
  destruct (Hg (mc_row_min mi) ltac:(auto)) as (Gr0 & Gr1). destruct (Hg (mc_row_max mi) ltac:(auto)) as (Gr0' & Gr1').
  destruct (Hg (mc_col_min mi) ltac:(auto)) as (Gc0 & Gc1). destruct (Hg (mc_col_max mi) ltac:(auto)) as (Gc0' & Gc1').
  split.
  - intros (Cr & Cc). split.
    + exists (fst (mc_row_source mi) + row_range). intros x y Hx Hy.
      destruct (G (Z.to_nat (x - mc_row0 mi)) (Z.to_nat (y - mc_col0 mi)) ltac:(lia) ltac:(lia)) as ((v & Mv & E1 & E2) & _).
      destruct (Cr (Z.to_nat (x - mc_row0 mi)) (Z.to_nat (y - mc_col0 mi)) ltac:(split; rewrite ?Gr0, ?Gr1; lia)) as (E3 & _).
      replace (mc_row0 mi + Z.of_nat (Z.to_nat (x - mc_row0 mi))) with x in Mv by lia. replace (mc_col0 mi + Z.of_nat (Z.to_nat (y - mc_col0 mi))) with y in Mv by lia.
      replace (fst (mc_row_source mi) + row_range) with v by lia. exact Mv.
    + exists (fst (mc_col_source mi) + col_range). intros x y Hx Hy.
      destruct (G (Z.to_nat (x - mc_row0 mi)) (Z.to_nat (y - mc_col0 mi)) ltac:(lia) ltac:(lia)) as (_ & (v & Mv & E1 & E2)).
      destruct (Cc (Z.to_nat (x - mc_row0 mi)) (Z.to_nat (y - mc_col0 mi)) ltac:(split; rewrite ?Gc0, ?Gc1; lia)) as (E3 & _).
      replace (mc_row0 mi + Z.of_nat (Z.to_nat (x - mc_row0 mi))) with x in Mv by lia. replace (mc_col0 mi + Z.of_nat (Z.to_nat (y - mc_col0 mi))) with y in Mv by lia.
      replace (fst (mc_col_source mi) + col_range) with v by lia. exact Mv.
  - intros ((a & Ha) & (b & Hb)).
    assert (Er : forall r c, (r < mc_nrow mi)%nat -> (c < mc_ncol mi)%nat -> a2_get (mc_row_min mi) r c = a - row_range /\ a2_get (mc_row_max mi) r c = a + row_range).
    { intros r c Hr Hc. destruct (G r c Hr Hc) as ((v & Mv & E1 & E2) & _). rewrite <- (middle_unique open_raster _ _ _ _ _ Mv (Ha (mc_row0 mi + Z.of_nat r) (mc_col0 mi + Z.of_nat c) ltac:(lia) ltac:(lia))). auto. }
    assert (Ec : forall r c, (r < mc_nrow mi)%nat -> (c < mc_ncol mi)%nat -> a2_get (mc_col_min mi) r c = b - col_range /\ a2_get (mc_col_max mi) r c = b + col_range).
    { intros r c Hr Hc. destruct (G r c Hr Hc) as (_ & (v & Mv & E1 & E2)). rewrite <- (middle_unique open_raster _ _ _ _ _ Mv (Hb (mc_row0 mi + Z.of_nat r) (mc_col0 mi + Z.of_nat c) ltac:(lia) ltac:(lia))). auto. }
    split.
    + destruct Tr as (_ & (r1 & c1 & (I1 & I2) & E1) & (r2 & c2 & (I3 & I4) & E2)). rewrite <- E1, <- E2. intros r c (I5 & I6).
      rewrite Gr0 in I1, I5. rewrite Gr1 in I2, I6. rewrite Gr0' in I3. rewrite Gr1' in I4.
      destruct (Er r c I5 I6), (Er r1 c1 I1 I2), (Er r2 c2 I3 I4). split; congruence.
    + destruct Tc as (_ & (r1 & c1 & (I1 & I2) & E1) & (r2 & c2 & (I3 & I4) & E2)). rewrite <- E1, <- E2. intros r c (I5 & I6).
      rewrite Gc0 in I1, I5. rewrite Gc1 in I2, I6. rewrite Gc0' in I3. rewrite Gc1' in I4.
      destruct (Ec r c I5 I6), (Ec r1 c1 I1 I2), (Ec r2 c2 I3 I4). split; congruence.
Qed.
(** At least two rows and two columns are loaded. *)
Lemma two_loaded q rows cols row0 nrow col0 ncol : two_lines q rows cols -> window_ok q rows cols row0 nrow col0 ncol -> (2 <= nrow)%nat /\ (2 <= ncol)%nat.
Proof. unfold two_lines, window_ok. destruct (q_zone q); lia. Qed.
(** The cost volumes can be computed exactly when the steps are 1 or the disparities do not change in the window. *)
Lemma volumes_decided {px} px_eqb pandora_cost zoomed open_raster mi (right : image px) q rows cols : wf_mc mi right ->
  (forall x y one dr, mc_row0 mi <= x < mc_row0 mi + Z.of_nat (mc_nrow mi) -> mc_col0 mi <= y < mc_col0 mi + Z.of_nat (mc_ncol mi) -> 0 < one ->
      (user_row_interval mi one x y dr <-> exists v, middle open_raster (q_row_init q) x y v /\ (v - q_row_range q) * one <= dr <= (v + q_row_range q) * one) /\
      (user_col_interval mi one x y dr <-> exists v, middle open_raster (q_col_init q) x y v /\ (v - q_col_range q) * one <= dr <= (v + q_col_range q) * one)) ->
  two_lines q rows cols -> window_ok q rows cols (mc_row0 mi) (mc_nrow mi) (mc_col0 mi) (mc_ncol mi) ->
  (compute_cost_volumes px_eqb pandora_cost zoomed mi right <> None <-> mc_step_row mi = 1 /\ mc_step_col mi = 1 \/ constant_ranges mi) /\
  (constant_ranges mi <-> same_middle open_raster (q_row_init q) (mc_row0 mi) (mc_nrow mi) (mc_col0 mi) (mc_ncol mi) /\ same_middle open_raster (q_col_init q) (mc_row0 mi) (mc_nrow mi) (mc_col0 mi) (mc_ncol mi)).
Proof.
  intros Wm Hint T2 Wok. destruct (two_loaded _ _ _ _ _ _ _ T2 Wok) as (N2 & C2).
  pose proof (grids_middle _ _ _ _ _ _ _ Wm Hint) as Gm. split; [|exact (constant_middle _ _ _ _ _ _ _ Wm Gm)].
  assert (Wm' := Wm). destruct Wm' as (_ & _ & _ & Sr & Sc & _ & _ & Hg & _).
  destruct (Hg (mc_row_min mi) ltac:(auto)) as (Gr0 & Gr1). destruct (Hg (mc_col_min mi) ltac:(auto)) as (Gc0 & Gc1).
  assert (D : mc_step_row mi = 1 /\ mc_step_col mi = 1 \/ (2 <= mc_step_row mi \/ 2 <= mc_step_col mi)) by lia.
  destruct D as [D|D].
  - split; [auto|]. intros _. destruct (compute_cost_volumes_step1 px_eqb pandora_cost zoomed mi _ Wm (proj1 D) (proj2 D)) as (cv & E & _). congruence.
  - assert (X : compute_cost_volumes px_eqb pandora_cost zoomed mi right <> None <-> constant_ranges mi).
    { apply (grids_with_step px_eqb _ _ mi _ Wm); auto.
      - intros r1 c r2 c' (I1 & I2) (I3 & I4). rewrite Gr0 in I1, I3. rewrite Gr1 in I2, I4. destruct (Gm r1 c I1 I2) as ((? & _ & -> & ->) & _). destruct (Gm r2 c' I3 I4) as ((? & _ & -> & ->) & _). lia.
      - intros r1 c r2 c' (I1 & I2) (I3 & I4). rewrite Gc0 in I1, I3. rewrite Gc1 in I2, I4. destruct (Gm r1 c I1 I2) as (_ & (? & _ & -> & ->)). destruct (Gm r2 c' I3 I4) as (_ & (? & _ & -> & ->)). lia. }
    rewrite X. split; [auto|]. intros [[? ?]|?]; [lia|assumption].
Qed.

(** The volumes have fewer rows or columns than the window when a step is not 1. *)
Lemma fewer_with_step {px} mi (right : image px) : wf_mc mi right -> (2 <= mc_nrow mi)%nat -> (2 <= mc_ncol mi)%nat -> 2 <= mc_step_row mi \/ 2 <= mc_step_col mi ->
  (List.length (row_coords mi) < mc_nrow mi \/ List.length (col_coords mi) < mc_ncol mi)%nat.
Proof.
  intros Wm R2 C2 Hs. destruct (row_coords_shape mi right Wm) as (st & Er & H1 & _). destruct (col_coords_shape mi right Wm) as (st' & Ec & H2 & _). rewrite Er, Ec.
  destruct Hs as [Hs|Hs]; [left | right]; eapply zarange_shorter; eassumption.
Qed.
(** The dichotomy with grids that have more rows or columns than the volumes. *)
Lemma dichotomy_larger_grids one store flt iterations cv invalid col_map row_map g : (0 < cv_nrow cv)%nat -> (0 < cv_ncol cv)%nat ->
  (cv_nrow cv < a2_n0 (g_row_min g) \/ cv_ncol cv < a2_n1 (g_row_min g))%nat -> (2 <= a2_n0 (g_row_min g))%nat -> (2 <= a2_n1 (g_row_min g))%nat ->
  refinement_method one store flt iterations cv invalid col_map row_map g = None.
Proof.
  intros Hr Hc Hl T0 T1. destruct (refinement_method _ _ _ _ _ _ _ _ _) as [[[mc mr] sc]|] eqn:E; auto. exfalso.
  destruct (refinement_nth _ _ _ _ _ _ _ _ _ _ _ _ 0 0 E) as (x & row & col & Ea & _); try lia.
  destruct (refine_at_grids _ _ _ _ _ _ _ _ _ _ _ _ Ea) as (a & _ & _ & _ & _ & G & _).
  unfold grid_at, broadcast in G.
  replace (a2_n0 (g_row_min g) =? 1)%nat with false in G by (symmetry; apply Nat.eqb_neq; lia).
  replace (a2_n1 (g_row_min g) =? 1)%nat with false in G by (symmetry; apply Nat.eqb_neq; lia).
  destruct Hl as [Hl|Hl].
  - replace (a2_n0 (g_row_min g) =? cv_nrow cv)%nat with false in G by (symmetry; apply Nat.eqb_neq; lia). discriminate.
  - replace (a2_n1 (g_row_min g) =? cv_ncol cv)%nat with false in G by (symmetry; apply Nat.eqb_neq; lia). destruct (if (_ =? _)%nat then _ else _); discriminate.
Qed.
(** The same for the request that is answered, which has the zone of the user. *)
Lemma volumes_computed {px} px_eqb pandora_cost zoomed open_raster mi (right : image px) q q' rows cols row0 nrow col0 ncol : wf_mc mi right ->
  (forall x y one dr, mc_row0 mi <= x < mc_row0 mi + Z.of_nat (mc_nrow mi) -> mc_col0 mi <= y < mc_col0 mi + Z.of_nat (mc_ncol mi) -> 0 < one ->
      (user_row_interval mi one x y dr <-> exists v, middle open_raster (q_row_init q') x y v /\ (v - q_row_range q') * one <= dr <= (v + q_row_range q') * one) /\
      (user_col_interval mi one x y dr <-> exists v, middle open_raster (q_col_init q') x y v /\ (v - q_col_range q') * one <= dr <= (v + q_col_range q') * one)) ->
  q_zone q' = q_zone q -> two_lines q rows cols -> window_ok q rows cols row0 nrow col0 ncol ->
  mc_row0 mi = row0 -> mc_nrow mi = nrow -> mc_col0 mi = col0 -> mc_ncol mi = ncol ->
  (compute_cost_volumes px_eqb pandora_cost zoomed mi right <> None <-> constant_ranges mi \/ mc_step_row mi = 1 /\ mc_step_col mi = 1) /\
  (constant_ranges mi <-> same_middle open_raster (q_row_init q') row0 nrow col0 ncol /\ same_middle open_raster (q_col_init q') row0 nrow col0 ncol).
Proof.
  intros Wm Hint Qz T2 Wok <- <- <- <-. destruct (volumes_decided px_eqb pandora_cost zoomed open_raster mi right q' rows cols Wm Hint) as (D & C).
  - unfold two_lines in *. rewrite Qz. exact T2.
  - unfold window_ok in *. rewrite Qz. exact Wok.
  - split; [rewrite D; tauto | exact C].
Qed.
(** Initial disparities that do not change in the image do not change in a window of it. *)
Lemma same_middle_part open_raster init q rows cols row0 nrow col0 ncol : same_middle open_raster init 0 rows 0 cols -> window_ok q rows cols row0 nrow col0 ncol ->
  same_middle open_raster init row0 nrow col0 ncol.
Proof. intros (v & H) Wok. exists v. intros x y Hx Hy. apply H; unfold window_ok in Wok; destruct (q_zone q); lia. Qed.
Lemma constant_same open_raster init v row0 nrow col0 ncol : constant init v -> same_middle open_raster init row0 nrow col0 ncol.
Proof. intros H. exists v. intros x y _ _. left. exact H. Qed.
Lemma same_ranges {px} open_raster mi (right : image px) q rows cols row0 nrow col0 ncol : wf_mc mi right ->
  (forall x y one dr, mc_row0 mi <= x < mc_row0 mi + Z.of_nat (mc_nrow mi) -> mc_col0 mi <= y < mc_col0 mi + Z.of_nat (mc_ncol mi) -> 0 < one ->
      (user_row_interval mi one x y dr <-> exists v, middle open_raster (q_row_init q) x y v /\ (v - q_row_range q) * one <= dr <= (v + q_row_range q) * one) /\
      (user_col_interval mi one x y dr <-> exists v, middle open_raster (q_col_init q) x y v /\ (v - q_col_range q) * one <= dr <= (v + q_col_range q) * one)) ->
  window_ok q rows cols row0 nrow col0 ncol -> mc_row0 mi = row0 -> mc_nrow mi = nrow -> mc_col0 mi = col0 -> mc_ncol mi = ncol ->
  same_middle open_raster (q_row_init q) 0 rows 0 cols /\ same_middle open_raster (q_col_init q) 0 rows 0 cols -> constant_ranges mi.
Proof.
  intros Wm Hint Wok <- <- <- <- (Sa & Sb). apply (constant_middle open_raster mi right _ _ _ _ Wm (grids_middle _ _ _ _ _ _ _ Wm Hint)).
  split; eapply same_middle_part; eassumption.
Qed.
