(** Proofs about the whole program with the files it writes. *)
From Coq Require Import List String Bool ZArith QArith Lia.
From Verif Require Import Base.Ext Base.PyList Base.Arr Base.Json Base.Dict Model.CommonModel Model.DisparityModel Model.MatchingCostModel Model.DichotomyModel
  Model.RoiModel Model.InputModel Model.ConfigModel Model.DatasetModel Model.EstimationModel Model.OpticalFlowModel Model.InterpolationModel Model.MachineModel Model.CheckConfModel
  Model.PipelineModel Model.WholeModel Model.ImgShiftModel
  Spec.ConfigSpec Spec.MachineSpec Spec.CheckConfSpec
  Proofs.ConfigProofs Proofs.MergeProofs Proofs.MachineProofs Proofs.CheckConfProofs Proofs.AcceptProofs Proofs.WholeProofs Proofs.WholeAgainProofs.
Import ListNotations.
Open Scope Z_scope.
Open Scope string_scope.
Open Scope list_scope.

(** The data of the machine change by the runs of the steps only. *)
Section Data.
  Context {C D M S W : Type}.
  Variable est_conf : C -> option C.
  Variable mc_conf : C -> option (C * S * W * M).
  Variable disp_conf : C -> option (C * M).
  Variable ref_conf : C -> option S -> option W -> option (C * M).
  Variable run_step : callback -> string -> C -> option M -> option S -> option W -> D -> option D.
  Variable P : D -> Prop.
  Hypothesis HP : forall cb name c mg s w d d', run_step cb name c mg s w d = Some d' -> P d -> P d'.
  Notation trigger_all := (MachineModel.trigger_all est_conf mc_conf disp_conf ref_conf run_step).
  Lemma call_data cb name c (m m' : @machine C D M S W) : call est_conf mc_conf disp_conf ref_conf run_step cb name c m = Some m' -> P (m_data m) -> P (m_data m').
  Proof.
    intros H Hd. destruct cb; cbn [call] in H;
      try (match type of H with match run_step ?cb _ _ _ _ _ _ with _ => _ end = _ => destruct (run_step cb name c (lookup "refinement" (m_non_cumulative m)) (m_step m) (m_window m) (m_data m)) as [d'|] eqn:E end;
        [|discriminate]; injection H as <-; exact (HP _ _ _ _ _ _ _ _ E Hd)).
    - destruct (est_conf c); [|discriminate]. injection H as <-. exact Hd.
    - destruct (mc_conf c) as [[[[? ?] ?] ?]|]; [|discriminate]. injection H as <-. exact Hd.
    - destruct (disp_conf c) as [[? ?]|]; [|discriminate]. injection H as <-. exact Hd.
    - destruct (ref_conf c _ _) as [[? ?]|]; [|discriminate]. injection H as <-. exact Hd.
  Qed.
  Lemma trigger_all_data name_of l : forall (m m' : @machine C D M S W) e, trigger_all name_of l m = (m', e) -> P (m_data m) -> P (m_data m').
  Proof.
    induction l as [|[n c] l IH]; intros m m' e; cbn [MachineModel.trigger_all]; [intros H; now injection H as <- _|].
    unfold trigger. destruct (existsb _ _); [|intros H; now injection H as <- _]. destruct (find _ _) as [tr|]; [|intros H; now injection H as <- _].
    destruct (call _ _ _ _ _ _ n c m) as [m1|] eqn:E; [|intros H; now injection H as <- _]. intros H Hd. apply (IH _ _ _ H). exact (call_data _ _ _ _ _ E Hd).
  Qed.
  Lemma remove_loop_data l : forall del (m m' : @machine C D M S W) e, remove_loop l del m = (m', e) -> m_data m' = m_data m.
  Proof.
    induction l as [|tr l IH]; intros del m m' e; cbn [remove_loop]; [intros H; now injection H as <- _|]. destruct (existsb _ del); [apply IH|].
    unfold remove_transition. destruct (existsb _ _); [|intros H; now injection H as <- _]. intros H. rewrite (IH _ _ _ _ H). reflexivity.
  Qed.
  Lemma run_data d l (m m' : @machine C D M S W) e : MachineModel.run est_conf mc_conf disp_conf ref_conf run_step d l m = (m', e) -> P d -> P (m_data m').
  Proof.
    unfold MachineModel.run. destruct (trigger_all before_dot l (run_prepare d m)) as [m1 e1] eqn:E. intros H Hd. assert (X : P (m_data m1)) by exact (trigger_all_data _ _ _ _ _ E Hd).
    destruct e1; [now injection H as <- _|]. unfold run_exit, remove_transitions in H. destruct (remove_loop _ _ m1) as [m2 e2] eqn:E2. apply remove_loop_data in E2.
    destruct e2; injection H as <- _; cbn [m_data set_state]; now rewrite E2.
  Qed.
End Data.

Lemma assign3_keeps k1 k2 k3 v cfg cfg' : assign3 k1 k2 k3 v cfg = Some cfg' -> forall k, k <> k1 -> lookup k cfg' = lookup k cfg.
Proof.
  unfold assign3. destruct (lookup k1 cfg) as [[]|]; try discriminate. destruct (assign2 k2 k3 v d); [|discriminate]. intros H. injection H as <-. intros k Hk. rewrite lookup_assign.
  destruct (k =? k1) eqn:E; [apply String.eqb_eq in E; congruence | reflexivity].
Qed.
Lemma assign_all_keeps k1 k2 extra : forall cfg cfg', assign_all k1 k2 extra cfg = Some cfg' -> forall k, k <> k1 -> lookup k cfg' = lookup k cfg.
Proof.
  induction extra as [|[a v] l IH]; intros cfg cfg'; cbn [assign_all]; [intros H; now injection H as <-|]. destruct (assign3 k1 k2 a v cfg) as [c|] eqn:E; [|discriminate].
  intros H k Hk. rewrite (IH _ _ H k Hk). exact (assign3_keeps _ _ _ _ _ _ E k Hk).
Qed.

Section Whole.
  Context {px : Type} (px_eqb : px -> px -> bool) (nan : px).
  Variable bool_ok : bool.
  Variable pandora_check : dict -> option (json * json * json).
  Variable matching_cost_margins : dict -> margins.
  Variable can_open_mandatory can_open : json -> bool.
  Variable images_ok : json -> json -> json -> json -> bool.
  Variable image_size : string -> nat * nat.
  Variable open_raster : string -> reader.
  Variable load : dict -> Z -> nat -> Z -> nat -> image px.
  Variable transform_of : dict -> option affine.
  Variable dataset_ok : image_dataset (image px) -> bool.
  Variable measure_of : dict -> measure.
  Variable offset_of : dict -> Z.
  Variable pandora_cost : dict -> mc_input -> image px -> list (list px) -> list (list Z) -> nat -> nat -> nat -> ext.
  Variable zoomed : image px -> nat -> nat -> nat -> px.
  Variable one : Z.
  Variable store : ext -> ext.
  Variable filter_apply : dict -> list (list ext) -> Z -> Z -> ext.
  Variable lstsq : list (list px) -> list (list px) -> option (num * num).
  Variable resample : list (list px) -> num -> num -> list (list px).
  Variable junk : nat -> list (list px).
  Variable interp : list Q -> list Q -> list (list cost) -> num -> num -> cost.
  Variable minimise : (num -> num -> cost) -> num * num -> (Q * Q) * (Q * Q) -> num * num.
  Variable estimate : json -> image px -> image px -> (Q * Q) * json * json.
  Variable global_margins : list (string * margins) -> list (string * margins) -> margins.
  Variable margins_to_dict : list (string * margins) -> list (string * margins) -> json.
  Notation main := (main px_eqb nan bool_ok pandora_check matching_cost_margins can_open_mandatory can_open images_ok image_size open_raster load transform_of dataset_ok
    measure_of offset_of pandora_cost zoomed one store filter_apply lstsq resample junk interp minimise estimate global_margins margins_to_dict).
  Notation check_user := (check_user px_eqb nan bool_ok pandora_check matching_cost_margins can_open_mandatory can_open images_ok image_size open_raster
    measure_of offset_of pandora_cost zoomed one store filter_apply lstsq resample junk interp minimise estimate).
  Notation run_step := (run_step px_eqb nan bool_ok pandora_check measure_of offset_of pandora_cost zoomed one store filter_apply lstsq resample junk interp minimise estimate).
  Notation run_machine := (WholeModel.run_machine px_eqb nan bool_ok pandora_check matching_cost_margins measure_of offset_of pandora_cost zoomed one store filter_apply lstsq resample junk interp minimise estimate).
  Notation data := (@data px).

  (** Only input and pipeline can be changed by a step. *)
  Lemma step_section cb name c mg s w (d d' : option data) k v : k <> "input" -> k <> "pipeline" -> run_step cb name c mg s w d = Some d' ->
    option_map (fun x => lookup k (w_cfg x)) d = Some v -> option_map (fun x => lookup k (w_cfg x)) d' = Some v.
  Proof.
    intros Ki Kp H Hd. assert (Dec : cb = EstimationRun \/ cb <> EstimationRun) by (destruct cb; auto; right; discriminate).
    destruct Dec as [->|Ncb].
    2:{ destruct d as [d|]; [|discriminate]. assert (X : option_map w_cfg d' = Some (w_cfg d)) by (eapply step_keeps; [exact Ncb | exact H | reflexivity]).
        destruct d' as [d'|]; [|discriminate]. cbn [option_map] in X, Hd |- *. injection X as ->. exact Hd. }
    unfold WholeModel.run_step in H. destruct d as [d|]; [|discriminate]. cbn [bind option_map] in H, Hd. destruct (estimation_step _ _ _ _ d) as [d1|] eqn:E; [|discriminate]. injection H as <-.
    unfold estimation_step in E. destruct (estimate c _ _) as [[sh er] ph]. destruct (estimation_run _ _ _ _ _ _ _ _) as [[[lft rgt] cfg]|] eqn:E1; [|discriminate]. cbn [bind] in E. injection E as <-.
    cbn [option_map w_cfg]. rewrite <- Hd. f_equal. unfold estimation_run in E1. destruct (lookup "pipeline" (w_cfg d)) as [[| | | | | | | |pl]|] eqn:Lp; try discriminate.
    destruct (lookup name pl) as [[| | | | | | | |sc]|]; try discriminate. destruct (estimation_check_conf _ sc) as [ch|]; [|discriminate]. cbn [bind] in E1.
    destruct (int_field "range_row" ch) as [rr|]; [|discriminate]. cbn [bind] in E1. destruct (int_field "range_col" ch) as [rc|]; [|discriminate]. cbn [bind] in E1.
    destruct (compute_estimation sh rr rc) as [[dr dc] op]. destruct (add_disparity_grid _ _ _ _ _ _ _); [|discriminate]. cbn [bind] in E1.
    destruct (update_cfg_with_estimation _ _ _ _ _) as [cfg2|] eqn:E2; [|discriminate]. cbn [bind] in E1. injection E1 as <- <- <-.
    unfold update_cfg_with_estimation in E2. destruct (assign2 "input" "col_disparity" _ _) as [c1|] eqn:A1; [|discriminate]. cbn [bind] in E2.
    destruct (assign2 "input" "row_disparity" _ c1) as [c2|] eqn:A2; [|discriminate]. cbn [bind] in E2. destruct (assign3 _ _ "estimated_shifts" _ c2) as [c3|] eqn:A3; [|discriminate]. cbn [bind] in E2.
    rewrite (assign_all_keeps _ _ _ _ _ E2 k Kp), (assign3_keeps _ _ _ _ _ _ A3 k Kp), (assign2_keeps _ _ _ _ _ A2 k Ki), (assign2_keeps _ _ _ _ _ A1 k Ki), lookup_assign.
    destruct (k =? "pipeline") eqn:E; [apply String.eqb_eq in E; congruence | reflexivity].
  Qed.

  (** The section expert_mode of the checked configuration. *)
  Definition expert_section (user : dict) : option json := match lookup "expert_mode" user with None | Some (JDict []) => None | Some j => Some j end.
  Hypothesis Hpandora : pandora_contract pandora_check.
  Lemma checked_sections user m cfg : wf (JDict user) -> check_user user (new_machine None) = (m, Some cfg) ->
    lookup "expert_mode" cfg = expert_section user /\ (forall j, expert_section user = Some j -> exists s, get_path ["profiling"; "folder_name"] j = Some (JStr s)) /\
    exists raw p2, lookup "pipeline" user = Some (JDict raw) /\ lookup "pipeline" cfg = Some (JDict p2) /\ keys p2 = keys raw /\ documented (keys raw).
  Proof.
    intros Hw Hc. unfold WholeModel.check_user in Hc.
    destruct (check_conf_parts _ _ _ _ _ _ _ _ _ _ _ Hpandora _ _ _ _ Hw Hc) as (raw & i2 & cr & p & p2 & L1 & Mp & Ei & Er & Hm & HM & _ & _ & _ & _ & L2).
    assert (Kp : keys p = keys raw).
    { rewrite merge_dict in Mp. destruct (upd_items raw []) as [q|] eqn:Eq; [|discriminate]. injection Mp as <-. apply (upd_read _ _ (proj1 (wf_dict_inv _ (wf_lookup _ _ _ Hw L1))) Eq). }
    assert (G : exists raw p2, lookup "pipeline" user = Some (JDict raw) /\ lookup "pipeline" cfg = Some (JDict p2) /\ keys p2 = keys raw /\ documented (keys raw)).
    { exists raw, p2. split; [exact L1|]. split; [exact L2|]. split; [rewrite (merged_keys _ _ _ HM); exact Kp|]. rewrite <- Kp.
      unfold CheckConfModel.machine_check in Hm. pose proof (check_conf_verdict (est_conf bool_ok) (mc_conf pandora_check matching_cost_margins) (disp_conf bool_ok (mkMargins 0 0 0 0)) (ref_conf bool_ok (refinement_margins bool_ok)) run_step p (new_machine None) 0 eq_refl eq_refl) as V.
      rewrite Hm in V. apply (proj1 V eq_refl). }
    destruct (roi_again _ _ _ Hw Er) as (Hroi & _).
    assert (Xcr : cr = [] \/ exists roi, cr = [("ROI", JDict roi)]) by (destruct (lookup "ROI" user); [right; destruct Hroi as (roi & -> & _); eauto | left; exact Hroi]).
    unfold CheckConfModel.check_conf in Hc. rewrite L1 in Hc. fold (flag_of raw) in Hc. rewrite Ei, Er in Hc.
    destruct (CheckConfModel.check_pipeline_section _ _ _ _ _ _ user (new_machine None)) as [m' [cp|]] eqn:Ecp; [|discriminate].
    destruct (pipeline_again _ _ _ _ _ _ can_open_mandatory can_open (check_images_of images_ok) image_size open_raster Hpandora _ _ _ _ Hw Ecp) as (p' & p2' & -> & _ & _ & _ & _ & _).
    destruct (match get_path ["pipeline"; "matching_cost"] _ with Some _ => _ | None => true end); [|discriminate].
    unfold expert_section.
    assert (Plain : forall c, (m', Some (concat_conf [[("input", i2)]; cr; [("pipeline", JDict p2')]])) = (m, Some c) -> lookup "expert_mode" c = None).
    { intros c X. injection X as _ <-. destruct Xcr as [->|(roi & ->)]; reflexivity. }
    assert (Expert : forall c j, match check_expert_mode_section j with
        | Some ce => (m', Some (concat_conf [[("input", i2)]; cr; [("pipeline", JDict p2')]; ce])) | None => (m', None) end = (m, Some c) ->
      lookup "expert_mode" c = Some j /\ exists s, get_path ["profiling"; "folder_name"] j = Some (JStr s)).
    { intros c j X. destruct (check_expert_mode_section j) as [ce|] eqn:Ece; [|discriminate].
      unfold check_expert_mode_section in Ece. destruct j as [| | | | | | | |dj]; try discriminate.
      destruct (lookup "profiling" dj) as [pf|] eqn:Epf; [|discriminate]. destruct (sub_schema _ _) eqn:Es; [|discriminate]. injection Ece as <-.
      injection X as _ <-. split; [destruct Xcr as [->|(roi & ->)]; reflexivity|]. cbn [get_path]. rewrite Epf.
      unfold sub_schema in Es. destruct pf as [| | | | | | | |f]; try discriminate. unfold validate in Es. apply andb_true_iff in Es as [Es1 Es2].
      cbn in Es2. destruct (lookup "folder_name" f) as [v|] eqn:Ev; [|discriminate]. rewrite forallb_forall in Es1. specialize (Es1 _ (lookup_In _ _ _ Ev)). cbn in Es1. destruct v; try discriminate. eauto. }
    destruct (lookup "expert_mode" user) as [j|].
    - destruct j as [| | | | | | | |[|e0 dj]]; try (split; [now apply Plain|split; [discriminate | exact G]]); (lazymatch type of Hc with context [check_expert_mode_section ?x] => destruct (Expert cfg x Hc) as (E1 & E2) end); (split; [exact E1|]); (split; [|exact G]); intros j Hj; injection Hj as <-; exact E2.
    - split; [now apply Plain|]. split; [discriminate | exact G].
  Qed.

  (** The configuration that is saved has the sections of the checked one, and the run is the one of its pipeline. *)
  Lemma main_sections user out : wf (JDict user) -> main user = Some out ->
    exists m cfg, check_user user (new_machine None) = (m, Some cfg) /\ lookup "expert_mode" (o_cfg out) = lookup "expert_mode" cfg.
  Proof.
    intros Hw H. unfold WholeModel.main, WholeModel.process in H. destruct (check_user user (new_machine None)) as [m [cfg|]] eqn:Hc; [|discriminate]. cbn [bind] in H.
    exists m, cfg. split; [reflexivity|]. destruct (prepare_roi bool_ok open_raster _ cfg) as [[cfg2 r]|] eqn:Ep; [|discriminate]. cbn [bind] in H.
    assert (K2 : forall k, k <> "ROI" -> lookup k cfg2 = lookup k cfg) by exact (prepared_keeps _ _ _ _ _ _ Ep). rewrite <- (K2 "expert_mode") by discriminate.
    destruct (create_datasets _ _ _ _ _ cfg2) as [[[cfg3 lft] rgt]|] eqn:Ec; [|discriminate]. cbn [bind] in H.
    assert (K3 : lookup "expert_mode" cfg3 = lookup "expert_mode" cfg2).
    { unfold create_datasets in Ec. assert (X : forall c, (if has_estimation cfg2
          then bind (assign2 "input" "col_disparity" (json_of_disp placeholder) cfg2) (assign2 "input" "row_disparity" (json_of_disp placeholder))
          else match lookup "input" cfg2 with Some (JDict i) => if check_disparities i then Some cfg2 else None | _ => None end) = Some c -> lookup "expert_mode" c = lookup "expert_mode" cfg2).
      { intros c X. destruct (has_estimation cfg2).
        - destruct (assign2 "input" "col_disparity" _ cfg2) as [c1|] eqn:A1; [|discriminate]. cbn [bind] in X. rewrite (assign2_keeps _ _ _ _ _ X) by discriminate. apply (assign2_keeps _ _ _ _ _ A1). discriminate.
        - destruct (lookup "input" cfg2) as [[| | | | | | | |i]|]; try discriminate. destruct (check_disparities i); [|discriminate]. now injection X as <-. }
      match type of Ec with bind ?b _ = _ => destruct b as [c|] eqn:Eb; [|discriminate] end. cbn [bind] in Ec. specialize (X c eq_refl).
      destruct (disparity_at _ "col_disparity" c); [|discriminate]. cbn [bind] in Ec. destruct (disparity_at _ "row_disparity" c); [|discriminate]. cbn [bind] in Ec.
      destruct (get_path ["input"; "left"] _); [|discriminate]. destruct (get_path ["input"; "right"] _); [|discriminate].
      destruct (create_dataset _ _ _ j _ _ _ _); [|discriminate]. cbn [bind] in Ec. destruct (create_dataset _ _ _ j0 _ _ _ _); [|discriminate]. cbn [bind] in Ec. injection Ec as <- _ _. exact X. }
    rewrite <- K3. destruct (check_datasets _ _ _); [|discriminate]. destruct lft as [[li lg] tr], rgt as [[ri rg] tr']. destruct (lookup "pipeline" cfg3) as [[| | | | | | | |pl]|]; try discriminate.
    destruct (run_machine (Some _) pl m) as [m' [e|]] eqn:Er; [discriminate|]. unfold WholeModel.run_machine in Er.
    assert (X : option_map (fun x => lookup "expert_mode" (w_cfg x)) (m_data m') = Some (lookup "expert_mode" cfg3)).
    { refine (run_data _ _ _ _ run_step (fun d => option_map (fun x : data => lookup "expert_mode" (w_cfg x)) d = Some (lookup "expert_mode" cfg3)) _ _ _ _ _ _ Er eq_refl).
      intros cb name c mg s w d d' S. apply (step_section cb name c mg s w d d'); [discriminate | discriminate | exact S]. }
    destruct (m_data m') as [d'|]; [|discriminate]. cbn [option_map] in X. injection X as X. cbn [bind r_maps r_cfg r_margins fst snd] in H.
    assert (Y : o_cfg out = assign "margins" (margins_to_dict (m_cumulative m') (m_non_cumulative m')) (w_cfg d')).
    { destruct (maps_dataset_of one d') as [[inv ds]|]; [|injection H as <-; reflexivity].
      destruct (saving bool_ok _) as [s|]; [|discriminate]. cbn [bind] in H. destruct (save_dataset ds s) as [p'|]; [|discriminate]. cbn [bind] in H. injection H as <-. reflexivity. }
    rewrite Y, lookup_assign. exact X.
  Qed.
End Whole.
