(** C22: the disparities given by the estimation; C48: use of the resulting configuration; C49: right dataset. *)
From Coq Require Import List String Bool ZArith QArith Lia Lqa.
From Verif Require Import Base.Arr Base.Json Model.CommonModel Model.InputModel Model.ConfigModel Model.EstimationModel
  Spec.ConfigSpec Spec.EstimationSpec Spec.InputSpec Proofs.ConfigProofs Proofs.ConfigStepProofs Proofs.EstimationProofs.
Import ListNotations.
Open Scope Z_scope.
Open Scope string_scope.
Open Scope list_scope.

(** The centres are the integers nearest to the opposite of the shifts, halves going to the even integer. *)
Theorem C22_rounding q : nearest q (py_round q) /\ half_to_even q (py_round q).
Proof. split; [apply py_round_nearest | apply py_round_even]. Qed.
Example C22_rounding_example : map py_round [5 # 2; 7 # 2; - 1 # 2; - 3 # 2; 24 # 10; - 26 # 10] = [2; 4; 0; -2; 2; -3].
Proof. reflexivity. Qed.

(** For every estimated shifts [(sr, sc)] (rows, columns), every configuration and every dataset: the grids of the left dataset are, for
    every pixel, the intervals of radius the configured ranges around the rounded opposite shifts; they contain the opposite of the
    shift. Rows and columns are not exchanged. *)
Theorem C22_grids b cfg left right sr sc error phase left' right' cfg' :
  wf (JDict cfg) ->
  estimation_run b cfg "estimation" left right (sr, sc) error phase = Some (left', right', cfg') ->
  exists pipeline step_cfg centre_row centre_col range_row range_col,
    lookup "pipeline" cfg = Some (JDict pipeline) /\ lookup "estimation" pipeline = Some (JDict step_cfg) /\
    range_of "range_row" step_cfg range_row /\ range_of "range_col" step_cfg range_col /\
    nearest (- sr) centre_row /\ nearest (- sc) centre_col /\
    let '(col_grids, row_grids) := gd_grids left' in
    (forall r c, (r < gd_nrow left)%nat -> (c < gd_ncol left)%nat ->
      in2 (dg_min row_grids) r c /\ in2 (dg_min col_grids) r c /\
      (forall d, a2_get (dg_min row_grids) r c <= d <= a2_get (dg_max row_grids) r c <-> centre_row - range_row <= d <= centre_row + range_row) /\
      (forall d, a2_get (dg_min col_grids) r c <= d <= a2_get (dg_max col_grids) r c <-> centre_col - range_col <= d <= centre_col + range_col) /\
      (inject_Z (a2_get (dg_min row_grids) r c) <= - sr <= inject_Z (a2_get (dg_max row_grids) r c))%Q /\
      (inject_Z (a2_get (dg_min col_grids) r c) <= - sc <= inject_Z (a2_get (dg_max col_grids) r c))%Q).
Proof.
  intros Hw H. destruct (estimation_run_inv _ _ _ _ _ _ _ _ _ _ H) as
    (pipeline & step_cfg & checked & rr & rc & input & Hp & Hs & Hc & Hr & Hrc & Hi & _ & Hg & _).
  assert (Hn : NoDup (keys step_cfg)).
  { exact (proj1 (wf_dict_inv _ (wf_lookup _ _ _ (wf_lookup _ _ _ Hw Hp) Hs))). }
  cbn [fst snd] in *.
  exists pipeline, step_cfg, (py_round (- sr)), (py_round (- sc)), rr, rc. do 2 (split; [assumption|]).
  split; [eapply checked_range; eauto; cbn; auto|]. split; [eapply checked_range; eauto; cbn; auto|].
  do 2 (split; [apply py_round_nearest|]).
  assert (P1 : 3 <= rr) by (eapply (checked_range_positive b _ _ "range_row"); eauto; cbn; auto).
  assert (P2 : 3 <= rc) by (eapply (checked_range_positive b _ _ "range_col"); eauto; cbn; auto).
  unfold add_disparity_grid, get_min_max_disp in Hg. cbn in Hg. injection Hg as Hg. rewrite <- Hg. cbn.
  intros r c Hr' Hc'. rewrite !Z.mul_1_r. do 2 (split; [split; assumption|]). split; [tauto|]. split; [tauto|].
  assert (N : forall q n, 3 <= n -> (inject_Z (py_round q - n) <= q <= inject_Z (py_round q + n))%Q).
  { intros q n Hn'. destruct (py_round_nearest q) as [A B].
    assert (Hq : (3 <= inject_Z n)%Q) by (change 3%Q with (inject_Z 3); now rewrite <- Zle_Qle).
    rewrite inject_Z_plus. unfold Z.sub. rewrite inject_Z_plus, inject_Z_opp. lra. }
  split; apply N; assumption.
Qed.

(** The returned configuration holds the same disparities and the opposite of the shifts; the rest is unchanged. *)
Theorem C22_configuration b cfg left right sr sc error phase left' right' cfg' :
  wf (JDict cfg) ->
  estimation_run b cfg "estimation" left right (sr, sc) error phase = Some (left', right', cfg') ->
  exists centre_row centre_col range_row range_col,
    nearest (- sr) centre_row /\ nearest (- sc) centre_col /\
    get_path ["input"; "row_disparity"] (JDict cfg') = Some (JDict [("init", JInt centre_row); ("range", JInt range_row)]) /\
    get_path ["input"; "col_disparity"] (JDict cfg') = Some (JDict [("init", JInt centre_col); ("range", JInt range_col)]) /\
    (let '(col_grids, row_grids) := gd_grids left' in
     dg_source row_grids = (centre_row - range_row, centre_row + range_row) /\
     dg_source col_grids = (centre_col - range_col, centre_col + range_col)) /\
    get_path ["pipeline"; "estimation"; "estimated_shifts"] (JDict cfg') = Some (JList [JFloat (- sr); JFloat (- sc)]) /\
    (forall k p, k <> "input" -> k <> "pipeline" -> get_path (k :: p) (JDict cfg') = get_path (k :: p) (JDict cfg)) /\
    (forall k p, k <> "row_disparity" -> k <> "col_disparity" ->
       get_path ("input" :: k :: p) (JDict cfg') = get_path ("input" :: k :: p) (JDict cfg)) /\
    (forall k p, k <> "estimation" -> get_path ("pipeline" :: k :: p) (JDict cfg') = get_path ("pipeline" :: k :: p) (JDict cfg)).
Proof.
  intros Hw H. destruct (estimation_run_inv _ _ _ _ _ _ _ _ _ _ H) as
    (pipeline & step_cfg & checked & rr & rc & input & Hp & Hs & Hc & Hr & Hrc & Hi & _ & Hg & _ & _ & _ & _ & Ho & Hin & pipeline' & Lp & Op & Le).
  cbn [fst snd] in *. exists (py_round (- sr)), (py_round (- sc)), rr, rc. do 2 (split; [apply py_round_nearest|]).
  unfold add_disparity_grid, get_min_max_disp in Hg. cbn in Hg. injection Hg as Hg. rewrite <- Hg.
  cbn [get_path]. rewrite Hin, Lp, Le, Hi, Hp. cbn [get_path].
  split; [now rewrite lookup_assign_same|]. split; [now rewrite lookup_assign_other, lookup_assign_same by discriminate|].
  split; [cbn; rewrite !Z.mul_1_r; auto|].
  split; [now rewrite !lookup_assign_other, lookup_assign_same by discriminate|].
  split; [intros k p H1 H2; now rewrite Ho|]. split.
  - intros k p H1 H2. now rewrite !lookup_assign_other by assumption.
  - intros k p H1. now rewrite Op.
Qed.

Definition ex_cfg : dict :=
  [("input", JDict [("left", JStr "l.tif")]);
   ("pipeline", JDict [("estimation", JDict [("estimation_method", JStr "phase_cross_correlation"); ("range_row", JInt 7)])])].
Definition ex_left : grid_dataset := mkGridDataset 0 2 0 3
  (match add_disparity_grid 0 2 0 3 placeholder placeholder false with Some g => g
   | None => (mkGrids (mkArr2 0 0 (fun _ _ => 0)) (mkArr2 0 0 (fun _ _ => 0)) (0, 0), mkGrids (mkArr2 0 0 (fun _ _ => 0)) (mkArr2 0 0 (fun _ _ => 0)) (0, 0)) end).
Example C22_example :
  wf (JDict ex_cfg) /\
  match estimation_run false ex_cfg "estimation" ex_left ex_left (5 # 2, - 12 # 10)%Q (JFloat 1) (JStr "0") with
  | Some (l, _, c) => map (fun g => dg_source g) [fst (gd_grids l); snd (gd_grids l)] = [(-4, 6); (-9, 5)] /\
      get_path ["input"; "row_disparity"] (JDict c) = Some (JDict [("init", JInt (-2)); ("range", JInt 7)])
  | None => False end.
Proof.
  split; [|split; reflexivity].
  assert (W1 : forall k1 v1, wf v1 -> wf (JDict [(k1, v1)])).
  { intros. constructor; [repeat constructor; cbn; tauto|]. intros k v [H'|[]]; injection H' as <- <-; auto. }
  assert (W2 : forall k1 v1 k2 v2, k1 <> k2 -> wf v1 -> wf v2 -> wf (JDict [(k1, v1); (k2, v2)])).
  { intros. constructor; [repeat constructor; cbn; intuition|]. intros k v [H'|[H'|[]]]; injection H' as <- <-; auto. }
  apply W2; [discriminate | apply W1; now constructor | apply W1, W2; try discriminate; now constructor].
Qed.

(** * C48: the configuration modified by the estimation is never accepted again by the estimation. *)
Theorem C48_never_again b cfg left right shifts error phase left' right' cfg' :
  wf (JDict cfg) ->
  estimation_run b cfg "estimation" left right shifts error phase = Some (left', right', cfg') ->
  (forall pipeline d, lookup "pipeline" cfg' = Some (JDict pipeline) -> lookup "estimation" pipeline = Some (JDict d) -> estimation_check_conf b d = None) /\
  (forall left2 right2 shifts2 error2 phase2, estimation_run b cfg' "estimation" left2 right2 shifts2 error2 phase2 = None).
Proof.
  intros Hw H. destruct (estimation_run_inv _ _ _ _ _ _ _ _ _ _ H) as
    (pipeline & step_cfg & checked & rr & rc & input & Hp & Hs & Hc & Hr & Hrc & Hi & _ & Hg & _ & _ & _ & _ & Ho & Hin & pipeline' & Lp & Op & Le).
  assert (Hn : NoDup (keys step_cfg)).
  { exact (proj1 (wf_dict_inv _ (wf_lookup _ _ _ (wf_lookup _ _ _ Hw Hp) Hs))). }
  assert (Hk : NoDup (keys checked)).
  { unfold estimation_check_conf in Hc. destruct (validate _ _); [|discriminate]. injection Hc as <-. now repeat apply set_default_nodup. }
  assert (R : forall pl d, lookup "pipeline" cfg' = Some (JDict pl) -> lookup "estimation" pl = Some (JDict d) -> estimation_check_conf b d = None).
  { intros pl d H1 H2. rewrite Lp in H1. injection H1 as <-. rewrite Le in H2. injection H2 as <-.
    apply estimation_refuses_shifts; [now repeat apply assign_nodup|].
    rewrite !lookup_assign_other, lookup_assign_same by discriminate. discriminate. }
  split; [exact R|]. intros. unfold estimation_run. rewrite Lp, Le. erewrite R; eauto.
Qed.
(** The property "a configuration that was used can be used again" is false with an estimation. *)
Theorem C48_use_again_refuted : exists cfg left right shifts error phase left' right' cfg',
  estimation_run false cfg "estimation" left right shifts error phase = Some (left', right', cfg') /\
  estimation_run false cfg' "estimation" left right shifts error phase = None.
Proof.
  exists ex_cfg, ex_left, ex_left, (5 # 2, - 12 # 10)%Q, (JFloat 1), (JStr "0").
  destruct (estimation_run false ex_cfg "estimation" ex_left ex_left (5 # 2, - 12 # 10)%Q (JFloat 1) (JStr "0")) as [[[l r] c]|] eqn:E; [|discriminate].
  exists l, r, c. split; [reflexivity|]. apply (proj2 (C48_never_again _ _ _ _ _ _ _ _ _ _ (proj1 C22_example) E)).
Qed.

(** * C49: the right dataset keeps the placeholder grids of create_datasets_from_inputs. *)
Theorem C49_right_grids_unchanged b cfg left right shifts error phase left' right' cfg' :
  estimation_run b cfg "estimation" left right shifts error phase = Some (left', right', cfg') -> right' = right.
Proof. intros H. destruct (estimation_run_inv _ _ _ _ _ _ _ _ _ _ H) as (? & ? & ? & ? & ? & ? & ? & ? & ? & ? & ? & ? & -> & _). reflexivity. Qed.
(** Contrary to C15, they are not the opposite of the grids of the left dataset. *)
Theorem C49_right_grids_opposite_refuted : exists cfg grids_left grids_right left right shifts error phase left' right' cfg',
  add_disparity_grid 0 2 0 3 placeholder placeholder false = Some grids_left /\
  add_disparity_grid 0 2 0 3 placeholder placeholder true = Some grids_right /\
  left = mkGridDataset 0 2 0 3 grids_left /\ right = mkGridDataset 0 2 0 3 grids_right /\
  estimation_run false cfg "estimation" left right shifts error phase = Some (left', right', cfg') /\
  forall r c, (r < 2)%nat -> (c < 3)%nat ->
    a2_get (dg_min (snd (gd_grids right'))) r c <> - a2_get (dg_max (snd (gd_grids left'))) r c.
Proof.
  exists ex_cfg. eexists. eexists. eexists. eexists. exists (5 # 2, - 12 # 10)%Q, (JFloat 1), (JStr "0"). eexists. eexists. eexists.
  split; [reflexivity|]. split; [reflexivity|]. split; [reflexivity|]. split; [reflexivity|]. split; [reflexivity|]. intros r c _ _. cbn. discriminate.
Qed.

Print Assumptions C22_rounding.
Print Assumptions C22_grids.
Print Assumptions C22_configuration.
Print Assumptions C48_never_again.
Print Assumptions C48_use_again_refuted.
Print Assumptions C49_right_grids_unchanged.
Print Assumptions C49_right_grids_opposite_refuted.
