(** Proofs about what a run leaves unchanged in the configuration, with or without estimation. *)
From Coq Require Import List String Bool ZArith QArith Lia.
From Verif Require Import Base.Ext Base.PyList Base.Arr Base.Json Base.Dict Model.CommonModel Model.DisparityModel Model.MatchingCostModel Model.DichotomyModel
  Model.RoiModel Model.InputModel Model.ConfigModel Model.DatasetModel Model.EstimationModel Model.OpticalFlowModel Model.InterpolationModel Model.MachineModel Model.CheckConfModel
  Model.PipelineModel Model.WholeModel Model.ImgShiftModel
  Spec.ConfigSpec Spec.MachineSpec Spec.CheckConfSpec Spec.DefaultsSpec
  Proofs.ConfigProofs Proofs.ConfigStepProofs Proofs.MergeProofs Proofs.MachineProofs Proofs.CheckConfProofs Proofs.AcceptProofs Proofs.WholeProofs Proofs.WholeAgainProofs Proofs.WholeFilesProofs.
Import ListNotations.
Open Scope Z_scope.
Open Scope string_scope.
Open Scope list_scope.


Lemma assign2_path k1 k2 x cfg cfg' a b rest : assign2 k1 k2 x cfg = Some cfg' -> a <> k1 \/ b <> k2 ->
  get_path (a :: b :: rest) (JDict cfg') = get_path (a :: b :: rest) (JDict cfg).
Proof.
  intros H N. unfold assign2 in H. destruct (lookup k1 cfg) as [[| | | | | | | |d]|] eqn:E; try discriminate. injection H as <-. cbn [get_path].
  rewrite lookup_assign. destruct (String.eqb_spec a k1) as [->|]; [|reflexivity]. rewrite E. rewrite lookup_assign.
  destruct (String.eqb_spec b k2) as [->|]; [|reflexivity]. destruct N; congruence.
Qed.
Lemma assign3_path k1 k2 k3 x cfg cfg' a b c rest : assign3 k1 k2 k3 x cfg = Some cfg' -> a <> k1 \/ b <> k2 \/ c <> k3 ->
  get_path (a :: b :: c :: rest) (JDict cfg') = get_path (a :: b :: c :: rest) (JDict cfg).
Proof.
  intros H N. unfold assign3 in H. destruct (lookup k1 cfg) as [[| | | | | | | |d]|] eqn:E; try discriminate.
  destruct (assign2 k2 k3 x d) as [d'|] eqn:E2; [|discriminate]. injection H as <-.
  change (get_path (a :: b :: c :: rest) (JDict (assign k1 (JDict d') cfg))) with (match lookup a (assign k1 (JDict d') cfg) with Some v => get_path (b :: c :: rest) v | None => None end).
  change (get_path (a :: b :: c :: rest) (JDict cfg)) with (match lookup a cfg with Some v => get_path (b :: c :: rest) v | None => None end).
  rewrite lookup_assign. destruct (String.eqb_spec a k1) as [->|]; [|reflexivity]. rewrite E. apply (assign2_path _ _ _ _ _ _ _ _ E2). tauto.
Qed.
Lemma assign_all_path k1 k2 extra : forall cfg cfg' a b c rest, assign_all k1 k2 extra cfg = Some cfg' -> a <> k1 \/ b <> k2 \/ ~ In c (keys extra) ->
  get_path (a :: b :: c :: rest) (JDict cfg') = get_path (a :: b :: c :: rest) (JDict cfg).
Proof.
  induction extra as [|[k v] extra IH]; intros cfg cfg' a b c rest H N; cbn [assign_all] in H; [now injection H as <-|].
  destruct (assign3 k1 k2 k v cfg) as [c1|] eqn:E; [|discriminate]. cbn in N.
  rewrite (IH _ _ _ _ _ _ H) by tauto. apply (assign3_path _ _ _ _ _ _ _ _ _ _ E).
  destruct N as [N|[N|N]]; [left; exact N | right; left; exact N | right; right; intros ->; apply N; now left].
Qed.

Section Whole.
  Context {px : Type} (px_eqb : px -> px -> bool) (nan : px).
  Variable bool_ok : bool.
  Variable pandora_check : dict -> option (json * json * json).
  Variable matching_cost_margins : dict -> margins.
  Variable can_open_mandatory can_open : json -> bool.
  Variable images_ok : json -> json -> json -> json -> bool.
  Variable image_size : string -> nat * nat.
  Variable open_raster : string -> reader.
  Variable load : dict -> Z -> nat -> Z -> nat -> image px.
  Variable transform_of : dict -> option affine.
  Variable dataset_ok : image_dataset (image px) -> bool.
  Variable measure_of : dict -> measure.
  Variable offset_of : dict -> Z.
  Variable pandora_cost : dict -> mc_input -> image px -> list (list px) -> list (list Z) -> nat -> nat -> nat -> ext.
  Variable zoomed : image px -> nat -> nat -> nat -> px.
  Variable one : Z.
  Variable store : ext -> ext.
  Variable filter_apply : dict -> list (list ext) -> Z -> Z -> ext.
  Variable lstsq : list (list px) -> list (list px) -> option (num * num).
  Variable resample : list (list px) -> num -> num -> list (list px).
  Variable junk : nat -> list (list px).
  Variable interp : list Q -> list Q -> list (list cost) -> num -> num -> cost.
  Variable minimise : (num -> num -> cost) -> num * num -> (Q * Q) * (Q * Q) -> num * num.
  Variable estimate : json -> image px -> image px -> (Q * Q) * json * json.
  Variable global_margins : list (string * margins) -> list (string * margins) -> margins.
  Variable margins_to_dict : list (string * margins) -> list (string * margins) -> json.
  Notation main := (main px_eqb nan bool_ok pandora_check matching_cost_margins can_open_mandatory can_open images_ok image_size open_raster load transform_of dataset_ok
    measure_of offset_of pandora_cost zoomed one store filter_apply lstsq resample junk interp minimise estimate global_margins margins_to_dict).
  Notation check_user := (check_user px_eqb nan bool_ok pandora_check matching_cost_margins can_open_mandatory can_open images_ok image_size open_raster
    measure_of offset_of pandora_cost zoomed one store filter_apply lstsq resample junk interp minimise estimate).
  Notation run_step := (run_step px_eqb nan bool_ok pandora_check measure_of offset_of pandora_cost zoomed one store filter_apply lstsq resample junk interp minimise estimate).
  Notation run_machine := (WholeModel.run_machine px_eqb nan bool_ok pandora_check matching_cost_margins measure_of offset_of pandora_cost zoomed one store filter_apply lstsq resample junk interp minimise estimate).
  Notation data := (@data px).

  (** An unwritten place keeps its value in every step. *)
  Lemma step_unwritten cb name c mg s w (d d' : option data) path v : unwritten path -> run_step cb name c mg s w d = Some d' ->
    option_map (fun x => get_path path (JDict (w_cfg x))) d = Some (Some v) -> option_map (fun x => get_path path (JDict (w_cfg x))) d' = Some (Some v).
  Proof.
    intros Hp H Hd. assert (Dec : cb = EstimationRun \/ cb <> EstimationRun) by (destruct cb; auto; right; discriminate).
    destruct Dec as [->|Ncb].
    2:{ destruct d as [d|]; [|discriminate]. assert (X : option_map w_cfg d' = Some (w_cfg d)) by (eapply step_keeps; [exact Ncb | exact H | reflexivity]).
        destruct d' as [d'|]; [|discriminate]. cbn [option_map] in X, Hd |- *. injection X as ->. exact Hd. }
    unfold WholeModel.run_step in H. destruct d as [d|]; [|discriminate]. cbn [bind option_map] in H, Hd. destruct (estimation_step _ _ _ _ d) as [d1|] eqn:E; [|discriminate]. injection H as <-.
    unfold estimation_step in E. destruct (estimate c _ _) as [[sh er] ph]. destruct (estimation_run _ _ _ _ _ _ _ _) as [[[lft rgt] cfg]|] eqn:E1; [|discriminate]. cbn [bind] in E. injection E as <-.
    cbn [option_map w_cfg]. f_equal. injection Hd as Hd. unfold estimation_run in E1. destruct (lookup "pipeline" (w_cfg d)) as [[| | | | | | | |pl]|] eqn:Lp; try discriminate.
    destruct (lookup name pl) as [[| | | | | | | |sc]|] eqn:Ln; try discriminate. destruct (estimation_check_conf _ sc) as [ch|] eqn:Ech; [|discriminate]. cbn [bind] in E1.
    destruct (int_field "range_row" ch) as [rr|]; [|discriminate]. cbn [bind] in E1. destruct (int_field "range_col" ch) as [rc|]; [|discriminate]. cbn [bind] in E1.
    destruct (compute_estimation sh rr rc) as [[dr dc] op]. destruct (add_disparity_grid _ _ _ _ _ _ _); [|discriminate]. cbn [bind] in E1.
    destruct (update_cfg_with_estimation _ _ _ _ _) as [cfg2|] eqn:E2; [|discriminate]. cbn [bind] in E1. injection E1 as <- <- <-.
    unfold update_cfg_with_estimation in E2. destruct (assign2 "input" "col_disparity" _ _) as [c1|] eqn:A1; [|discriminate]. cbn [bind] in E2.
    destruct (assign2 "input" "row_disparity" _ c1) as [c2|] eqn:A2; [|discriminate]. cbn [bind] in E2. destruct (assign3 _ _ "estimated_shifts" _ c2) as [c3|] eqn:A3; [|discriminate]. cbn [bind] in E2.
    destruct Hp as [k rest K1 K2|n k rest K|k rest K].
    - transitivity (get_path ("input" :: k :: rest) (JDict c2)).
      { cbn [get_path]. now rewrite (assign_all_keeps _ _ _ _ _ E2 "input"), (assign3_keeps _ _ _ _ _ _ A3 "input") by discriminate. }
      rewrite (assign2_path _ _ _ _ _ _ _ _ A2), (assign2_path _ _ _ _ _ _ _ _ A1) by (right; assumption). cbn [get_path]. rewrite lookup_assign. exact Hd.
    - assert (N3 : "pipeline" <> "pipeline" \/ n <> "estimation" \/ k <> "estimated_shifts").
      { right. destruct K as [K|K]; [left; exact K | right; intros ->; apply K; left; reflexivity]. }
      assert (N4 : "pipeline" <> "pipeline" \/ n <> "estimation" \/ ~ In k (keys [("error", er); ("phase_diff", ph)])).
      { right. destruct K as [K|K]; [left; exact K | right; intros X; apply K; cbn in X |- *; tauto]. }
      rewrite (assign_all_path _ _ _ _ _ _ _ _ _ E2 N4), (assign3_path _ _ _ _ _ _ _ _ _ _ A3 N3).
      rewrite (assign2_path _ _ _ _ _ _ _ _ A2), (assign2_path _ _ _ _ _ _ _ _ A1) by (left; discriminate).
      cbn [get_path] in Hd |- *. rewrite lookup_assign, String.eqb_refl, lookup_assign. rewrite Lp in Hd.
      destruct (String.eqb_spec n name) as [->|]; [|exact Hd]. rewrite Ln in Hd. destruct (estimation_result _ _ _ Ech) as [L _]. rewrite L. destruct (lookup k sc); [exact Hd | discriminate].
    - cbn [get_path] in Hd |- *. rewrite (assign_all_keeps _ _ _ _ _ E2 "ROI"), (assign3_keeps _ _ _ _ _ _ A3 "ROI"), (assign2_keeps _ _ _ _ _ A2 "ROI"), (assign2_keeps _ _ _ _ _ A1 "ROI"), lookup_assign by discriminate.
      exact Hd.
  Qed.

  (** And in the whole run. *)
  Lemma main_unwritten user out : main user = Some out ->
    exists m cfg, check_user user (new_machine None) = (m, Some cfg) /\
      forall path v, unwritten path -> get_path path (JDict cfg) = Some v -> get_path path (JDict (o_cfg out)) = Some v.
  Proof.
    intros H. unfold WholeModel.main, WholeModel.process in H. destruct (check_user user (new_machine None)) as [m [cfg|]] eqn:Hc; [|discriminate]. cbn [bind] in H.
    exists m, cfg. split; [reflexivity|]. intros path v Hp Hg. destruct (prepare_roi bool_ok open_raster _ cfg) as [[cfg2 r]|] eqn:Ep; [|discriminate]. cbn [bind] in H.
    assert (K2 : forall k, k <> "ROI" -> lookup k cfg2 = lookup k cfg) by exact (prepared_keeps _ _ _ _ _ _ Ep).
    assert (G2 : get_path path (JDict cfg2) = Some v).
    { destruct Hp as [k rest _ _|n k rest _|k rest K]; [cbn [get_path] in Hg |- *; now rewrite K2 by discriminate | cbn [get_path] in Hg |- *; now rewrite K2 by discriminate|].
      unfold prepare_roi in Ep. cbn [get_path] in Hg. destruct (lookup "ROI" cfg) as [j|] eqn:E; [|discriminate]. unfold assign2 at 1 in Ep. rewrite E in Ep. destruct j as [| | | | | | | |roi]; try discriminate. cbn [bind] in Ep.
      match type of Ep with context [roi_of bool_ok ?c] => set (cfg1 := c) in * end.
      destruct (roi_of bool_ok cfg1) as [r0|]; [|discriminate]. cbn [bind] in Ep. destruct (bind (disparity_at open_raster "col_disparity" cfg1) roi_disparity); [|discriminate].
      cbn [bind] in Ep. destruct (bind (disparity_at open_raster "row_disparity" cfg1) roi_disparity); [|discriminate]. cbn [bind] in Ep. destruct (get_roi_processing r0 _ _) as [[p1 p2]|]; [|discriminate].
      cbn [bind snd fst] in Ep. destruct (assign2 "ROI" "margins" (margins_json (roi_mg p2)) cfg1) as [c2|] eqn:E2; [|discriminate]. cbn [bind] in Ep. injection Ep as <- <-.
      rewrite (assign2_path _ _ _ _ _ _ _ _ E2) by (right; exact K). unfold cfg1. cbn [get_path]. rewrite lookup_assign, String.eqb_refl, lookup_assign.
      destruct (String.eqb_spec k "margins") as [->|]; [congruence | exact Hg]. }
    destruct (create_datasets _ _ _ _ _ cfg2) as [[[cfg3 lft] rgt]|] eqn:Ec; [|discriminate]. cbn [bind] in H.
    assert (G3 : get_path path (JDict cfg3) = Some v).
    { unfold create_datasets in Ec. assert (X : forall c, (if has_estimation cfg2
          then bind (assign2 "input" "col_disparity" (json_of_disp placeholder) cfg2) (assign2 "input" "row_disparity" (json_of_disp placeholder))
          else match lookup "input" cfg2 with Some (JDict i) => if check_disparities i then Some cfg2 else None | _ => None end) = Some c -> get_path path (JDict c) = Some v).
      { intros c X. destruct (has_estimation cfg2).
        - destruct (assign2 "input" "col_disparity" _ cfg2) as [c1|] eqn:A1; [|discriminate]. cbn [bind] in X.
          destruct Hp as [k rest N1 N2|n k rest _|k rest K];
            rewrite (assign2_path _ _ _ _ _ _ _ _ X), (assign2_path _ _ _ _ _ _ _ _ A1) by ((left; discriminate) || (right; assumption)); exact G2.
        - destruct (lookup "input" cfg2) as [[| | | | | | | |i]|]; try discriminate. destruct (check_disparities i); [|discriminate]. now injection X as <-. }
      match type of Ec with bind ?b _ = _ => destruct b as [c|] eqn:Eb; [|discriminate] end. cbn [bind] in Ec. specialize (X c eq_refl).
      destruct (disparity_at _ "col_disparity" c); [|discriminate]. cbn [bind] in Ec. destruct (disparity_at _ "row_disparity" c); [|discriminate]. cbn [bind] in Ec.
      destruct (get_path ["input"; "left"] _); [|discriminate]. destruct (get_path ["input"; "right"] _); [|discriminate].
      destruct (create_dataset _ _ _ j _ _ _ _); [|discriminate]. cbn [bind] in Ec. destruct (create_dataset _ _ _ j0 _ _ _ _); [|discriminate]. cbn [bind] in Ec. injection Ec as <- _ _. exact X. }
    destruct (check_datasets _ _ _); [|discriminate]. destruct lft as [[li lg] tr], rgt as [[ri rg] tr']. destruct (lookup "pipeline" cfg3) as [[| | | | | | | |pl]|]; try discriminate.
    destruct (run_machine (Some _) pl m) as [m' [e|]] eqn:Er; [discriminate|]. unfold WholeModel.run_machine in Er.
    assert (X : option_map (fun x => get_path path (JDict (w_cfg x))) (m_data m') = Some (Some v)).
    { refine (run_data _ _ _ _ run_step (fun d => option_map (fun x : data => get_path path (JDict (w_cfg x))) d = Some (Some v)) _ _ _ _ _ _ Er _).
      - intros cb name c mg s w d d' S. apply (step_unwritten cb name c mg s w d d'); [exact Hp | exact S].
      - cbn [option_map w_cfg]. now rewrite G3. }
    destruct (m_data m') as [d'|]; [|discriminate]. cbn [option_map] in X. injection X as X. cbn [bind r_maps r_cfg r_margins fst snd] in H.
    assert (Y : o_cfg out = assign "margins" (margins_to_dict (m_cumulative m') (m_non_cumulative m')) (w_cfg d')).
    { destruct (maps_dataset_of one d') as [[inv ds]|]; [|injection H as <-; reflexivity].
      destruct (saving bool_ok _) as [s|]; [|discriminate]. cbn [bind] in H. destruct (save_dataset ds s) as [p'|]; [|discriminate]. cbn [bind] in H. injection H as <-. reflexivity. }
    rewrite Y. destruct Hp; cbn [get_path] in X |- *; rewrite lookup_assign; exact X.
  Qed.
End Whole.
