(** Proofs about the whole program run again. *)
From Coq Require Import List String Bool ZArith QArith Lia.
From Verif Require Import Base.Ext Base.PyList Base.Arr Base.Json Base.Dict Model.CommonModel Model.DisparityModel Model.MatchingCostModel Model.DichotomyModel
  Model.RoiModel Model.InputModel Model.ConfigModel Model.DatasetModel Model.EstimationModel Model.OpticalFlowModel Model.InterpolationModel Model.MachineModel Model.CheckConfModel
  Model.PipelineModel Model.WholeModel Model.ImgShiftModel
  Spec.ConfigSpec Spec.MachineSpec Spec.CheckConfSpec
  Proofs.ConfigProofs Proofs.MergeProofs Proofs.MachineProofs Proofs.CheckConfProofs Proofs.WholeProofs Props.CheckConfProps.
Import ListNotations.
Open Scope Z_scope.
Open Scope string_scope.
Open Scope list_scope.

(** Only the section ROI is changed by the margins. *)
Lemma assign2_keeps k1 k2 v cfg cfg' : assign2 k1 k2 v cfg = Some cfg' -> forall k, k <> k1 -> lookup k cfg' = lookup k cfg.
Proof.
  unfold assign2. destruct (lookup k1 cfg) as [[]|]; try discriminate. intros H. injection H as <-. intros k Hk. rewrite lookup_assign.
  destruct (k =? k1) eqn:E; [apply String.eqb_eq in E; congruence | reflexivity].
Qed.
Lemma prepared_keeps bool_ok open_raster mg cfg cfg2 r : prepare_roi bool_ok open_raster mg cfg = Some (cfg2, r) -> forall k, k <> "ROI" -> lookup k cfg2 = lookup k cfg.
Proof.
  unfold prepare_roi. destruct (lookup "ROI" cfg); [|intros H; now injection H as <- <-].
  destruct (assign2 "ROI" "margins" (margins_json (z4 mg)) cfg) as [cfg1|] eqn:E1; [|discriminate]. cbn [bind]. destruct (roi_of bool_ok cfg1) as [r0|]; [|discriminate]. cbn [bind].
  destruct (bind (disparity_at open_raster "col_disparity" cfg1) roi_disparity); [|discriminate]. cbn [bind]. destruct (bind (disparity_at open_raster "row_disparity" cfg1) roi_disparity); [|discriminate]. cbn [bind].
  destruct (get_roi_processing r0 _ _) as [p|]; [|discriminate]. cbn [bind]. destruct (assign2 "ROI" "margins" (margins_json (roi_mg (snd p))) cfg1) as [c2|] eqn:E2; [|discriminate]. cbn [bind].
  intros H k Hk. injection H as <- <-. rewrite (assign2_keeps _ _ _ _ _ E2 k Hk). exact (assign2_keeps _ _ _ _ _ E1 k Hk).
Qed.
Section Again.
  Context {px : Type} (px_eqb : px -> px -> bool) (nan : px).
  Variable bool_ok : bool.
  Variable pandora_check : dict -> option (json * json * json).
  Variable matching_cost_margins : dict -> margins.
  Variable can_open_mandatory can_open : json -> bool.
  Variable images_ok : json -> json -> json -> json -> bool.
  Variable image_size : string -> nat * nat.
  Variable open_raster : string -> reader.
  Variable load : dict -> Z -> nat -> Z -> nat -> image px.
  Variable transform_of : dict -> option affine.
  Variable dataset_ok : image_dataset (image px) -> bool.
  Variable measure_of : dict -> measure.
  Variable offset_of : dict -> Z.
  Variable pandora_cost : dict -> mc_input -> image px -> list (list px) -> list (list Z) -> nat -> nat -> nat -> ext.
  Variable zoomed : image px -> nat -> nat -> nat -> px.
  Variable one : Z.
  Variable store : ext -> ext.
  Variable filter_apply : dict -> list (list ext) -> Z -> Z -> ext.
  Variable lstsq : list (list px) -> list (list px) -> option (num * num).
  Variable resample : list (list px) -> num -> num -> list (list px).
  Variable junk : nat -> list (list px).
  Variable interp : list Q -> list Q -> list (list cost) -> num -> num -> cost.
  Variable minimise : (num -> num -> cost) -> num * num -> (Q * Q) * (Q * Q) -> num * num.
  Variable estimate : json -> image px -> image px -> (Q * Q) * json * json.
  Variable global_margins : list (string * margins) -> list (string * margins) -> margins.
  Variable margins_to_dict : list (string * margins) -> list (string * margins) -> json.
  Notation main := (main px_eqb nan bool_ok pandora_check matching_cost_margins can_open_mandatory can_open images_ok image_size open_raster load transform_of dataset_ok
    measure_of offset_of pandora_cost zoomed one store filter_apply lstsq resample junk interp minimise estimate global_margins margins_to_dict).
  Notation process := (process px_eqb nan bool_ok pandora_check matching_cost_margins can_open_mandatory can_open images_ok image_size open_raster load transform_of dataset_ok
    measure_of offset_of pandora_cost zoomed one store filter_apply lstsq resample junk interp minimise estimate global_margins).
  Notation check_user := (check_user px_eqb nan bool_ok pandora_check matching_cost_margins can_open_mandatory can_open images_ok image_size open_raster
    measure_of offset_of pandora_cost zoomed one store filter_apply lstsq resample junk interp minimise estimate).
  Notation run_step := (run_step px_eqb nan bool_ok pandora_check measure_of offset_of pandora_cost zoomed one store filter_apply lstsq resample junk interp minimise estimate).
  Notation run_machine := (WholeModel.run_machine px_eqb nan bool_ok pandora_check matching_cost_margins measure_of offset_of pandora_cost zoomed one store filter_apply lstsq resample junk interp minimise estimate).
  Notation data := (@data px).

  (** Only the result of the check matters. *)
  Lemma main_checked a b : check_user a (new_machine None) = check_user b (new_machine None) -> main a = main b.
  Proof. intros H. unfold WholeModel.main, WholeModel.process. now rewrite H. Qed.

  (** Only an estimation changes the configuration. *)
  Lemma step_keeps cb name c mg s w (d d' : option data) cfg : cb <> EstimationRun -> run_step cb name c mg s w d = Some d' -> option_map w_cfg d = Some cfg ->
    option_map w_cfg d' = Some cfg.
  Proof.
    intros Hcb H Hd. unfold WholeModel.run_step in H. destruct d as [d|]; [|discriminate]. cbn [bind] in H. cbn in Hd. injection Hd as <-.
    destruct cb; cbn [option_map] in H; try (injection H as <-; reflexivity); try now elim Hcb.
    - unfold matching_cost_run in H. destruct c; try discriminate. destruct (matching_cost_init _ _) as [c'|]; [|discriminate]. cbn [bind] in H.
      destruct (matching_cost_input _ _ _ _ _); [|discriminate]. cbn [bind] in H. destruct (compute_cost_volumes _ _ _ _ _); [|discriminate]. injection H as <-. reflexivity.
    - unfold disparity_run in H. destruct c; try discriminate. destruct (w_volumes d) as [[[? ?] ?]|]; [|discriminate]. destruct (disparity_check_conf _ _) as [c'|]; [|discriminate]. cbn [bind] in H.
      destruct (lookup _ c'); [|discriminate]. cbn [bind] in H. destruct (compute_disp_maps _ _ _) as [[[? ?] ?]|]; [|discriminate]. cbn [bind] in H. destruct (get_path _ _); [|discriminate]. injection H as <-. reflexivity.
    - unfold refinement_run in H. destruct c; try discriminate. destruct (w_volumes d); [|discriminate]. destruct (w_maps d) as [[? [? ? ?|? ? ?]]|]; try discriminate.
      destruct (refinement_init _ _ _ _); [|discriminate]. cbn [bind] in H. destruct (refine _ _ _ _ _ _ _ _ _ _ _ _ _ _ _ _ _ _); [|discriminate]. injection H as <-. reflexivity.
  Qed.
  Lemma run_keeps pipeline m m' d cfg : clean m -> (forall n, In n (keys pipeline) -> before_dot n <> "estimation") -> option_map w_cfg d = Some cfg ->
    run_machine d pipeline m = (m', None) -> option_map w_cfg (m_data m') = Some cfg /\ m_cumulative m' = m_cumulative m /\ m_non_cumulative m' = m_non_cumulative m.
  Proof.
    intros Hc Hn Hd H. unfold WholeModel.run_machine in H. destruct (run_clean _ _ _ _ _ _ _ _ _ Hc H) as (_ & _ & E1 & E2 & _). split; [|auto].
    destruct Hc as [Hs Ht]. unfold MachineModel.run, run_prepare, add_transitions in H. cbn [m_transitions set_data] in H. rewrite Ht in H. cbn [app] in H.
    destruct (trigger_all _ _ _ _ _ before_dot pipeline _) as [m1 [e|]] eqn:E; [discriminate|].
    pose proof (trigger_all_transitions _ _ _ _ _ _ _ _ _ _ E) as Htr. cbn in Htr. unfold run_exit in H.
    rewrite (remove_all transitions_run 0) in H; [|auto|now rewrite Htr]. injection H as <-. cbn [m_data set_state set_transitions].
    match type of E with trigger_all _ _ _ _ _ _ _ ?m0 = _ => assert (Hrm : MachineProofs.run_machine m0) by (exists O; reflexivity); assert (Hd0 : option_map w_cfg (m_data m0) = Some cfg) by exact Hd; revert Hrm Hd0 E; generalize m0 end.
    clear - Hn. induction pipeline as [|[n c] l IH]; intros m0 Hm Hd H; cbn [trigger_all] in H; [injection H as <-; exact Hd|].
    rewrite trigger_run in H by auto. destruct (next _ _) as [s'|]; [|discriminate]. destruct (call _ _ _ _ _ _ n c m0) as [m2|] eqn:Ec; [|discriminate].
    apply IH in H; [exact H | intros k Hk; apply Hn; now right | eapply run_machine_call; eauto|].
    cbn [m_data set_state]. unfold run_callback in Ec. destruct (String.eqb_spec (before_dot n) "estimation") as [Hx|_]; [exfalso; apply (Hn n); [now left | exact Hx]|].
    assert (G : forall cb, (cb = MatchingCostRun \/ cb = DisparityRun \/ cb = RefinementRun) ->
      call (est_conf bool_ok) (mc_conf pandora_check matching_cost_margins) (disp_conf bool_ok (mkMargins 0 0 0 0)) (ref_conf bool_ok (refinement_margins bool_ok)) run_step cb n c m0 = Some m2 ->
      option_map w_cfg (m_data m2) = Some cfg).
    { intros cb Hcb X. assert (exists d', run_step cb n c (lookup "refinement" (m_non_cumulative m0)) (m_step m0) (m_window m0) (m_data m0) = Some d' /\ m2 = set_data d' m0) as (d' & Xd & ->).
      { destruct Hcb as [-> | [-> | ->]]; cbn [call] in X; (destruct (run_step _ n c _ _ _ _) as [d'|]; [|discriminate]); injection X as <-; eauto. }
      cbn [m_data set_data]. refine (step_keeps _ _ _ _ _ _ _ _ _ _ Xd Hd). destruct Hcb as [-> | [-> | ->]]; discriminate. }
    destruct (before_dot n =? "matching_cost"); [apply (G _ (or_introl eq_refl) Ec)|].
    destruct (before_dot n =? "disparity"); [apply (G _ (or_intror (or_introl eq_refl)) Ec) | apply (G _ (or_intror (or_intror eq_refl)) Ec)].
  Qed.

  (** The configuration that is saved. *)
  Hypothesis Hpandora : pandora_contract pandora_check.
  Hypothesis Hmargins : forall a b, wf (margins_to_dict a b).
  Lemma main_config user out : wf (JDict user) -> get_path ["pipeline"; "estimation"] (JDict user) = None -> main user = Some out ->
    exists m cfg cfg2 r, check_user user (new_machine None) = (m, Some cfg) /\
      prepare_roi bool_ok open_raster (global_margins (m_cumulative m) (m_non_cumulative m)) cfg = Some (cfg2, r) /\
      o_cfg out = assign "margins" (margins_to_dict (m_cumulative m) (m_non_cumulative m)) cfg2.
  Proof.
    intros Hw HE H.
    unfold WholeModel.main, WholeModel.process in H. destruct (check_user user (new_machine None)) as [m [cfg|]] eqn:Hc; [|discriminate]. cbn [bind] in H.
    assert (Hc' := Hc). unfold WholeModel.check_user in Hc'.
    destruct (check_conf_parts _ _ _ _ _ _ _ _ _ _ _ Hpandora _ _ _ _ Hw Hc') as (raw & i & cr & p & p2 & L1 & Mp & _ & Hroi & Hm & HM & _ & _ & Li & Lr & Lp).
    destruct (prepare_roi bool_ok open_raster _ cfg) as [[cfg2 r]|] eqn:Ep; [|discriminate]. cbn [bind] in H.
    assert (K2 : forall k, k <> "ROI" -> lookup k cfg2 = lookup k cfg) by exact (prepared_keeps _ _ _ _ _ _ Ep).
    assert (Wr : wf (JDict raw)) by exact (wf_lookup _ _ _ Hw L1).
    assert (Kp : keys p2 = keys p) by exact (merged_keys _ _ _ HM).
    assert (Np : lookup "estimation" p = None).
    { cbn [get_path] in HE. rewrite L1 in HE. destruct (lookup "estimation" p) as [v|] eqn:E; [|reflexivity]. exfalso.
      destruct (update_adds ["estimation"] (JDict []) (JDict raw) (JDict p) Wr Mp) as [X|X]; cbn [get_path] in *; [rewrite E; discriminate | apply X; exact HE | now apply X]. }
    assert (N2 : lookup "estimation" p2 = None).
    { pose proof (merged_lookup _ _ _ HM "estimation") as ML. rewrite Np in ML. exact ML. }
    assert (Lp2 : lookup "pipeline" cfg2 = Some (JDict p2)) by (rewrite K2 by discriminate; exact Lp).
    assert (He : has_estimation cfg2 = false) by (unfold has_estimation; cbn [get_path]; rewrite Lp2; cbn [get_path]; rewrite N2; reflexivity).
    unfold create_datasets in H. rewrite He in H. destruct (lookup "input" cfg2) as [[| | | | | | | |i2]|]; try discriminate. destruct (check_disparities i2); [|discriminate]. cbn [bind] in H.
    destruct (disparity_at _ "col_disparity" cfg2) as [col|]; [|discriminate]. cbn [bind] in H. destruct (disparity_at _ "row_disparity" cfg2) as [row|]; [|discriminate]. cbn [bind] in H.
    destruct (get_path ["input"; "left"] _) as [l|]; [|discriminate]. destruct (get_path ["input"; "right"] _) as [rg|]; [|discriminate].
    destruct (create_dataset _ _ _ l _ _ _ _) as [[[li lg] lt]|]; [|discriminate]. cbn [bind] in H. destruct (create_dataset _ _ _ rg _ _ _ _) as [[[ri rgr] rt]|]; [|discriminate]. cbn [bind] in H.
    destruct (check_datasets _ _ _); [|discriminate]. rewrite Lp2 in H.
    destruct (run_machine (Some _) p2 m) as [m' [e|]] eqn:Er; [discriminate|].
    assert (Cm : clean m) by (unfold CheckConfModel.machine_check in Hm; refine (check_clean _ _ _ _ _ _ _ 0 _ _ Hm); reflexivity).
    assert (Doc : documented (keys p)).
    { unfold CheckConfModel.machine_check in Hm. pose proof (check_conf_verdict (est_conf bool_ok) (mc_conf pandora_check matching_cost_margins) (disp_conf bool_ok (mkMargins 0 0 0 0)) (ref_conf bool_ok (refinement_margins bool_ok)) run_step p (new_machine None) 0 eq_refl eq_refl) as V.
      rewrite Hm in V. apply (proj1 V eq_refl). }
    apply (run_keeps _ _ _ _ cfg2 Cm) in Er; [|intros n Hn Hx|reflexivity].
    2:{ rewrite Kp in Hn. rewrite (documented_no_dot _ _ Doc Hn) in Hx. subst n. apply lookup_in in Hn. now rewrite Np in Hn. }
    destruct Er as (Ed & E1 & E2). destruct (m_data m') as [d'|]; [|discriminate]. cbn in Ed. injection Ed as Ed. cbn [bind r_margins r_maps r_cfg fst snd] in H. rewrite Ed in H.
    exists m, cfg, cfg2, r. split; [reflexivity|]. split; [exact Ep|]. rewrite <- E1, <- E2.
    destruct (maps_dataset_of one d') as [[inv ds]|]; [|injection H as <-; reflexivity].
    destruct (saving bool_ok cfg2) as [s|]; [|discriminate]. cbn [bind] in H. destruct (save_dataset ds s) as [p'|]; [|discriminate]. cbn [bind] in H. injection H as <-. reflexivity.
  Qed.
  (** Only the margins are added. *)
  Lemma main_configuration user out : wf (JDict user) -> get_path ["pipeline"; "estimation"] (JDict user) = None -> main user = Some out ->
    exists m cfg, check_user user (new_machine None) = (m, Some cfg) /\ lookup "margins" (o_cfg out) = Some (margins_to_dict (m_cumulative m) (m_non_cumulative m)) /\
      (forall k, k <> "margins" -> k <> "ROI" -> lookup k (o_cfg out) = lookup k cfg) /\
      (lookup "ROI" cfg = None /\ lookup "ROI" (o_cfg out) = None \/
       exists roi roi', lookup "ROI" cfg = Some (JDict roi) /\ lookup "ROI" (o_cfg out) = Some (JDict roi') /\ forall k, k <> "margins" -> lookup k roi' = lookup k roi).
  Proof.
    intros Hw HE H. destruct (main_config user out Hw HE H) as (m & cfg & cfg2 & r & Hc & Ep & Eo). exists m, cfg. split; [exact Hc|]. rewrite Eo.
    split; [now rewrite lookup_assign|]. split.
    - intros k K1 K2. rewrite lookup_assign. destruct (k =? "margins") eqn:E; [apply String.eqb_eq in E; congruence|]. exact (prepared_keeps _ _ _ _ _ _ Ep k K2).
    - rewrite lookup_assign. cbn [String.eqb Ascii.eqb Bool.eqb]. destruct (lookup "ROI" cfg) as [j|] eqn:E.
      + right. unfold prepare_roi in Ep. rewrite E in Ep. unfold assign2 at 1 in Ep. rewrite E in Ep. destruct j as [| | | | | | | |roi]; try discriminate. cbn [bind] in Ep.
        match type of Ep with context [roi_of bool_ok ?c] => set (cfg1 := c) in * end.
        destruct (roi_of bool_ok cfg1) as [r0|]; [|discriminate]. cbn [bind] in Ep. destruct (bind (disparity_at open_raster "col_disparity" cfg1) roi_disparity); [|discriminate].
        cbn [bind] in Ep. destruct (bind (disparity_at open_raster "row_disparity" cfg1) roi_disparity); [|discriminate]. cbn [bind] in Ep. destruct (get_roi_processing r0 _ _) as [[p1 p2]|]; [|discriminate].
        cbn [bind snd fst] in Ep. destruct (assign2 "ROI" "margins" (margins_json (roi_mg p2)) cfg1) as [c2|] eqn:E2; [|discriminate]. cbn [bind] in Ep. injection Ep as <- <-.
        unfold assign2 in E2. unfold cfg1 in E2. rewrite lookup_assign, String.eqb_refl in E2. injection E2 as <-. exists roi. eexists. split; [reflexivity|].
        split; [rewrite lookup_assign, String.eqb_refl; reflexivity|]. intros k Hk. rewrite !lookup_assign. destruct (k =? "margins") eqn:E3; [apply String.eqb_eq in E3; congruence | reflexivity].
      + left. split; [reflexivity|]. unfold prepare_roi in Ep. rewrite E in Ep. injection Ep as <- <-. exact E.
  Qed.
  Lemma main_again user out : wf (JDict user) -> lookup "ROI" user = None -> get_path ["pipeline"; "estimation"] (JDict user) = None ->
    main user = Some out -> main (o_cfg out) = Some out.
  Proof.
    intros Hw HR HE H. destruct (main_config user out Hw HE H) as (m & cfg & cfg2 & r & Hc & Ep & Eo). assert (Hc' := Hc). unfold WholeModel.check_user in Hc'.
    assert (R : lookup "ROI" cfg = None).
    { destruct (C68_sections _ _ _ _ _ _ _ _ _ _ _ user None m cfg Hpandora Hw Hc') as (_ & _ & _ & F). destruct (lookup "ROI" cfg) eqn:E; [|reflexivity].
      exfalso. apply (proj1 F); [discriminate | exact HR]. }
    unfold prepare_roi in Ep. rewrite R in Ep. injection Ep as <- <-.
    assert (Ho : o_cfg out = saved_configuration JNull (margins_to_dict (m_cumulative m) (m_non_cumulative m)) cfg) by (unfold saved_configuration, add_roi_margins; rewrite R; exact Eo).
    rewrite Ho, <- H. apply main_checked. rewrite Hc. unfold WholeModel.check_user in *. now apply (C69_saved_again_partial _ _ _ _ _ _ _ _ _ _ _ user).
  Qed.
End Again.
