(** C01 - C05: winner takes all. *)
From Coq Require Import ZArith List Lia Bool Arith.
From Verif Require Import Base.Ext Base.PyList Model.DisparityModel Spec.WtaSpec
  Proofs.ChunkProofs Proofs.WtaProofs Proofs.WtaTheorems.
Import ListNotations.

(** A concrete volume: 1 row, 2 columns, column disparities -1..2 (margins 1 left, 1 right, so the user
    range is 0..1), row disparities 3..4 (no margins); the second pixel has no computed cost in the
    user range although it has one in the margins. *)
Definition ex_cv : cost_volumes :=
  mkCV 1 2 [-1; 0; 1; 2]%Z [3; 4]%Z
    [[ [[Fin 0; Fin 0]; [NaN; Fin 7]; [Fin 5; Fin 9]; [Fin 1; Fin 1]];
       [[Fin 0; NaN]; [NaN; NaN]; [NaN; NaN]; [Fin 3; Fin 1]] ]]%Z
    1 MeasureMin (Some (mkMargins 1 0 1 0)).

Lemma nth2_concat {A} (m : list (list A)) r c x : nth2 m r c = Some x -> In x (concat m).
Proof.
  intros H. apply nth2_In in H. destruct H as (row & H1 & H2). apply in_concat. eauto.
Qed.

Lemma ex_cv_wf : wf_cv ex_cv.
Proof.
  split; [|split; [|split]].
  - split; simpl; auto.
  - intros r c p H. apply nth2_concat in H. simpl in H.
    repeat (destruct H as [<-|H]; [split; simpl; auto; repeat constructor|]). destruct H.
  - exists 1. rewrite user_col_eq. cbv. lia.
  - exists 0. rewrite user_row_eq. cbv. lia.
Qed.
Example ex_cv_result :
  compute_disp_maps 100 (Fin (-9999)) ex_cv =
  Some ([[Fin 1; Fin (-9999)]], [[Fin 3; Fin (-9999)]], [[Fin 5; Fin (-9999)]])%Z.
Proof. reflexivity. Qed.

(** C01 *)
Theorem C01_score_is_best_cost chunk inv cv : wf_cv cv ->
  exists mcol mrow score, compute_disp_maps chunk inv cv = Some (mcol, mrow, score) /\
  forall r c, r < cv_nrow cv -> c < cv_ncol cv ->
    (exists dc dr x, computed cv r c dc dr x) ->
    exists s, nth2 score r c = Some s /\
      (exists dc dr, computed cv r c dc dr s) /\
      (forall dc dr x, computed cv r c dc dr x -> at_least_as_good (cv_measure cv) s x).
Proof. exact (wta_score_best chunk inv cv). Qed.
Example C01_example : wf_cv ex_cv /\ exists dc dr x, computed ex_cv 0 0 dc dr x.
Proof.
  split. apply ex_cv_wf. exists 2, 0, (Fin 5%Z).
  repeat split; try (rewrite ?user_col_eq, ?user_row_eq; cbv; lia); cbv; congruence.
Qed.

(** C02 *)
Theorem C02_disparities_reach_best_cost chunk inv cv : wf_cv cv ->
  exists mcol mrow score, compute_disp_maps chunk inv cv = Some (mcol, mrow, score) /\
  forall r c, r < cv_nrow cv -> c < cv_ncol cv ->
    (* the measures never give the worst infinity *)
    (forall dc dr, ~ computed cv r c dc dr (worst (cv_measure cv))) ->
    (exists dc dr x, computed cv r c dc dr x) ->
    exists s i j di dj, nth2 score r c = Some s /\
      nth_error (cv_disp_col cv) i = Some di /\ nth2 mcol r c = Some (Fin di) /\
      nth_error (cv_disp_row cv) j = Some dj /\ nth2 mrow r c = Some (Fin dj) /\
      (* each disparity is the one of a pair reaching the score *)
      (exists dr, computed cv r c i dr s) /\ (exists dc, computed cv r c dc j s) /\
      (forall dc dr x, computed cv r c dc dr x -> at_least_as_good (cv_measure cv) s x) /\
      (* ties: the smallest disparity is chosen *)
      (forall k dr, k < i -> ~ computed cv r c k dr s) /\
      (forall k dc, k < j -> ~ computed cv r c dc k s) /\
      (* no tie: the pair is the optimum *)
      (forall dc0 dr0, (forall dc dr, computed cv r c dc dr s -> dc = dc0 /\ dr = dr0) -> i = dc0 /\ j = dr0).
Proof. exact (wta_disparities_reach_best chunk inv cv). Qed.
Example C02_example : wf_cv ex_cv /\ (forall dc dr, ~ computed ex_cv 0 0 dc dr (worst (cv_measure ex_cv))) /\
  exists dc dr x, computed ex_cv 0 0 dc dr x.
Proof.
  split; [|split]; try apply C01_example.
  intros dc dr (_ & _ & H & _). unfold cost_at in H. simpl in H.
  apply nth2_concat in H. simpl in H. repeat (destruct H as [H|H]; [discriminate H|]). destruct H.
Qed.

(** C03: the full claim is false in case of ties. *)
Definition tie_cv : cost_volumes :=
  mkCV 1 1 [0; 1]%Z [0; 1]%Z [[ [[Fin 5; Fin 1]; [Fin 1; Fin 5]] ]]%Z 1 MeasureMin None.

Theorem C03_pair_has_score_refuted :
  exists cv mcol mrow score i j di dj s x, wf_cv cv /\
    compute_disp_maps 100 (Fin (-9999)%Z) cv = Some (mcol, mrow, score) /\
    nth_error (cv_disp_col cv) i = Some di /\ nth2 mcol 0 0 = Some (Fin di) /\
    nth_error (cv_disp_row cv) j = Some dj /\ nth2 mrow 0 0 = Some (Fin dj) /\
    nth2 score 0 0 = Some s /\ NoDup (cv_disp_col cv) /\ NoDup (cv_disp_row cv) /\
    computed cv 0 0 i j x /\ x <> s.
Proof.
  exists tie_cv, [[Fin 0%Z]], [[Fin 0%Z]], [[Fin 1%Z]], 0, 0, 0%Z, 0%Z, (Fin 1%Z), (Fin 5%Z).
  split.
  { split; [|split; [|split]].
    - split; simpl; auto.
    - intros r c p H. apply nth2_concat in H. simpl in H.
      repeat (destruct H as [<-|H]; [split; simpl; auto; repeat constructor|]). destruct H.
    - exists 1. rewrite user_col_eq. cbv. lia.
    - exists 0. rewrite user_row_eq. cbv. lia. }
  repeat (split; [reflexivity|]).
  split; [|split; [|split]].
  - repeat constructor; simpl; intuition lia.
  - repeat constructor; simpl; intuition lia.
  - repeat split; try (rewrite ?user_col_eq, ?user_row_eq; cbv; lia); cbv; congruence.
  - congruence.
Qed.

(** C03, partial: true when the best cost is reached by one pair only.
    Missing: the case of ties, where it is false (previous theorem). *)
Theorem C03_pair_has_score_partial chunk inv cv : wf_cv cv ->
  exists mcol mrow score, compute_disp_maps chunk inv cv = Some (mcol, mrow, score) /\
  forall r c, r < cv_nrow cv -> c < cv_ncol cv ->
    (forall dc dr, ~ computed cv r c dc dr (worst (cv_measure cv))) ->
    (exists dc0 dr0 best, computed cv r c dc0 dr0 best /\
       forall dc dr x, computed cv r c dc dr x -> at_least_as_good (cv_measure cv) x best -> dc = dc0 /\ dr = dr0) ->
    exists i j di dj s, nth_error (cv_disp_col cv) i = Some di /\ nth2 mcol r c = Some (Fin di) /\
      nth_error (cv_disp_row cv) j = Some dj /\ nth2 mrow r c = Some (Fin dj) /\
      nth2 score r c = Some s /\ cost_at cv r c i j = Some s.
Proof.
  intros Hwf. destruct (wta_disparities_reach_best chunk inv cv Hwf) as (mcol & mrow & score & E & H).
  exists mcol, mrow, score. split; auto. intros r c Hr Hc Hw (dc0 & dr0 & best & Hb & Hu).
  destruct (H r c Hr Hc Hw) as (s & i & j & di & dj & Hs & H1 & H2 & H3 & H4 & (dr & H5) & _ & H6 & _ & _ & H7); eauto.
  exists i, j, di, dj, s. repeat (split; [solve [auto]|]).
  destruct (H7 dc0 dr0) as [-> ->].
  - intros a b Hab. eapply Hu; eauto.
  - assert (dr = dr0) by (eapply Hu; eauto). subst. apply H5.
Qed.
Example C03_example : exists dc0 dr0 best, computed ex_cv 0 0 dc0 dr0 best /\
  forall dc dr x, computed ex_cv 0 0 dc dr x -> at_least_as_good (cv_measure ex_cv) x best -> dc = dc0 /\ dr = dr0.
Proof.
  exists 2, 0, (Fin 5%Z). split.
  - repeat split; try (rewrite ?user_col_eq, ?user_row_eq; cbv; lia); cbv; congruence.
  - intros dc dr x (Hc & Hr & Hx & Hn) Hg.
    rewrite user_col_eq in Hc. rewrite user_row_eq in Hr. cbv in Hc. cbv in Hr.
    assert (dc = 1 \/ dc = 2) as [->| ->] by lia; assert (dr = 0 \/ dr = 1) as [->| ->] by lia;
      cbv in Hx; injection Hx as <-; auto; cbv in Hg; try discriminate.
Qed.

(** C04 *)
Theorem C04_invalid_iff_nothing_computed chunk inv cv : wf_cv cv ->
  exists mcol mrow score, compute_disp_maps chunk inv cv = Some (mcol, mrow, score) /\
  rect (cv_nrow cv) (cv_ncol cv) mcol /\ rect (cv_nrow cv) (cv_ncol cv) mrow /\ rect (cv_nrow cv) (cv_ncol cv) score /\
  forall r c, r < cv_nrow cv -> c < cv_ncol cv ->
    ((forall dc dr x, user_col cv dc -> user_row cv dr -> cost_at cv r c dc dr = Some x -> x = NaN) ->
      nth2 mcol r c = Some inv /\ nth2 mrow r c = Some inv /\ nth2 score r c = Some inv) /\
    (~ (forall dc dr x, user_col cv dc -> user_row cv dr -> cost_at cv r c dc dr = Some x -> x = NaN) ->
      exists i j di dj s, user_col cv i /\ user_row cv j /\
        nth_error (cv_disp_col cv) i = Some di /\ nth2 mcol r c = Some (Fin di) /\
        nth_error (cv_disp_row cv) j = Some dj /\ nth2 mrow r c = Some (Fin dj) /\
        nth2 score r c = Some s /\ s <> NaN).
Proof. exact (wta_invalid_iff chunk inv cv). Qed.
Example C04_example : wf_cv ex_cv /\
  (forall dc dr x, user_col ex_cv dc -> user_row ex_cv dr -> cost_at ex_cv 0 1 dc dr = Some x -> x = NaN).
Proof.
  split. apply ex_cv_wf. intros dc dr x Hc Hr Hx.
  rewrite user_col_eq in Hc. rewrite user_row_eq in Hr. cbv in Hc. cbv in Hr.
  assert (dc = 1 \/ dc = 2) as [->| ->] by lia; assert (dr = 0 \/ dr = 1) as [->| ->] by lia;
      cbv in Hx; injection Hx as <-; auto.
Qed.

(** C05 *)
Theorem C05_chunk_independent chunk chunk' inv cv : wf_cv cv ->
  compute_disp_maps chunk inv cv = compute_disp_maps chunk' inv cv.
Proof. exact (wta_chunk_independent chunk chunk' inv cv). Qed.

Theorem C05_pixel_by_pixel chunk chunk' inv cv : wf_cv cv ->
  exists mcol mrow score, compute_disp_maps chunk inv cv = Some (mcol, mrow, score) /\
  forall r c P, nth2 (cv_data cv) r c = Some P ->
    exists dcol drow s, nth2 mcol r c = Some dcol /\ nth2 mrow r c = Some drow /\ nth2 score r c = Some s /\
      compute_disp_maps chunk' inv
        (mkCV 1 1 (cv_disp_col cv) (cv_disp_row cv) [[P]] (cv_subpix cv) (cv_measure cv) (cv_margins cv))
      = Some ([[dcol]], [[drow]], [[s]]).
Proof. exact (wta_pixelwise chunk chunk' inv cv). Qed.
Example C05_example : wf_cv ex_cv /\ nth2 (cv_data ex_cv) 0 1 <> None.
Proof. split. apply ex_cv_wf. cbv. congruence. Qed.

Print Assumptions C01_score_is_best_cost.
Print Assumptions C02_disparities_reach_best_cost.
Print Assumptions C03_pair_has_score_refuted.
Print Assumptions C03_pair_has_score_partial.
Print Assumptions C04_invalid_iff_nothing_computed.
Print Assumptions C05_chunk_independent.
Print Assumptions C05_pixel_by_pixel.
