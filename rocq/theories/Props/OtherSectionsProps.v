(** C70: the sections that the program does not know have no effect, on the check as on the results. *)
From Coq Require Import List String Bool ZArith QArith Lia.
From Verif Require Import Base.Ext Base.Dict Base.PyList Base.Arr Base.Json Model.CommonModel Model.DisparityModel Model.MatchingCostModel Model.DichotomyModel
  Model.RoiModel Model.InputModel Model.ConfigModel Model.DatasetModel Model.EstimationModel Model.OpticalFlowModel Model.InterpolationModel Model.MachineModel Model.CheckConfModel
  Model.PipelineModel Model.WholeModel Model.ImgShiftModel
  Spec.ConfigSpec Spec.CheckConfSpec Proofs.ConfigProofs Proofs.MergeProofs Proofs.CheckConfProofs
  Props.CheckConfProps Props.AcceptProps Props.WholeProps.
Import ListNotations.
Open Scope Z_scope.
Open Scope string_scope.
Open Scope list_scope.

(** * The check *)
Section Check.
  Context {D M : Type}.
  Variable bool_ok : bool.
  Variable pandora_check : dict -> option (json * json * json).
  Variable matching_cost_margins refinement_margins : dict -> M.
  Variable disparity_margins : M.
  Variable run_step : callback -> string -> json -> option M -> option json -> option json -> D -> option D.
  Variable can_open_mandatory can_open : json -> bool.
  Variable check_images : json -> bool.
  Variable image_size : string -> nat * nat.
  Variable open_raster : string -> reader.
  Notation check_pipeline_section := (check_pipeline_section bool_ok pandora_check matching_cost_margins refinement_margins disparity_margins run_step).
  Notation check_conf := (check_conf bool_ok pandora_check matching_cost_margins refinement_margins disparity_margins run_step
    can_open_mandatory can_open check_images image_size open_raster).

  Lemma read_pipeline (user : dict) : wf (JDict user) -> exists cfg, update_conf (JDict []) (JDict user) = Some (JDict cfg) /\
    lookup "pipeline" cfg = match lookup "pipeline" user with Some v => merge1 (JDict []) v | None => None end.
  Proof.
    intros W. destruct (update_empty_total (JDict user) eq_refl W) as (cfg & E). exists cfg. split; [exact E|].
    rewrite update_conf_dict in E. destruct (upd_items user []) as [r|] eqn:U; [|discriminate]. injection E as ->.
    pose proof (upd_lookup _ _ _ U (proj1 (wf_dict_inv _ W)) "pipeline") as L.
    destruct (lookup "pipeline" user); [exact (proj1 L) | exact L].
  Qed.
  Lemma written_pipeline (cfg p : dict) : match update_conf (JDict cfg) (JDict [("pipeline", JDict p)]) with
      | Some (JDict c) => lookup "pipeline" c | _ => None end = update_conf (get_or_empty "pipeline" cfg) (JDict p).
  Proof.
    rewrite update_conf_dict. cbn [upd_items]. unfold merge1. cbn [is_dict]. destruct (update_conf _ (JDict p)); [|reflexivity].
    cbn [option_map]. now rewrite lookup_assign, String.eqb_refl.
  Qed.
  Lemma same_pipeline_section (user user2 : dict) m : wf (JDict user) -> wf (JDict user2) -> lookup "pipeline" user2 = lookup "pipeline" user ->
    check_pipeline_section user2 m = check_pipeline_section user m.
  Proof.
    intros W W2 L. unfold CheckConfModel.check_pipeline_section.
    destruct (read_pipeline _ W) as (c & -> & Ec). destruct (read_pipeline _ W2) as (c2 & -> & Ec2).
    rewrite L, <- Ec in Ec2. rewrite Ec2.
    destruct (lookup "pipeline" c) as [[| | | | | | | |p]|] eqn:Ep; try reflexivity.
    destruct (machine_check _ _ _ _ _ _ p m) as [m' [e|]]; [reflexivity|].
    pose proof (written_pipeline c (m_pipeline m')) as A. pose proof (written_pipeline c2 (m_pipeline m')) as B.
    unfold get_or_empty in A, B. rewrite Ec2 in B. rewrite Ep in A. rewrite <- A in B. clear A.
    rewrite !update_conf_dict in *.
    destruct (upd_items _ c) as [x|], (upd_items _ c2) as [x2|]; cbn [option_map] in *; try (rewrite B; reflexivity); try (rewrite <- B; reflexivity); reflexivity.
  Qed.
  (** Only four sections are read, even for what the machine keeps of a refused configuration. *)
  Theorem C70_other_sections_check (user user2 : dict) m : wf (JDict user) -> wf (JDict user2) ->
    (forall k, In k ["input"; "ROI"; "pipeline"; "expert_mode"] -> lookup k user2 = lookup k user) -> check_conf user2 m = check_conf user m.
  Proof.
    intros W W2 L. unfold CheckConfModel.check_conf, get_config_input, get_roi_config.
    rewrite (same_pipeline_section user user2 m W W2) by (apply L; cbn; auto). rewrite !L by (cbn; auto). reflexivity.
  Qed.
End Check.

Section Program.
  (** The libraries: see WholeModel. *)
  Context {px : Type} (px_eqb : px -> px -> bool) (nan : px).
  Variable bool_ok : bool.
  Variable pandora_check : dict -> option (json * json * json).
  Variable matching_cost_margins : dict -> margins.
  Variable can_open_mandatory can_open : json -> bool.
  Variable images_ok : json -> json -> json -> json -> bool.
  Variable image_size : string -> nat * nat.
  Variable open_raster : string -> reader.
  Variable load : dict -> Z -> nat -> Z -> nat -> image px.
  Variable transform_of : dict -> option affine.
  Variable dataset_ok : image_dataset (image px) -> bool.
  Variable measure_of : dict -> measure.
  Variable offset_of : dict -> Z.
  Variable pandora_cost : dict -> mc_input -> image px -> list (list px) -> list (list Z) -> nat -> nat -> nat -> ext.
  Variable zoomed : image px -> nat -> nat -> nat -> px.
  Variable one : Z.
  Variable store : ext -> ext.
  Variable filter_apply : dict -> list (list ext) -> Z -> Z -> ext.
  Variable lstsq : list (list px) -> list (list px) -> option (num * num).
  Variable resample : list (list px) -> num -> num -> list (list px).
  Variable junk : nat -> list (list px).
  Variable interp : list Q -> list Q -> list (list cost) -> num -> num -> cost.
  Variable minimise : (num -> num -> cost) -> num * num -> (Q * Q) * (Q * Q) -> num * num.
  Variable estimate : json -> image px -> image px -> (Q * Q) * json * json.
  Variable global_margins : list (string * margins) -> list (string * margins) -> margins.
  Variable margins_to_dict : list (string * margins) -> list (string * margins) -> json.
  Notation main := (main px_eqb nan bool_ok pandora_check matching_cost_margins can_open_mandatory can_open images_ok image_size open_raster load transform_of dataset_ok
    measure_of offset_of pandora_cost zoomed one store filter_apply lstsq resample junk interp minimise estimate global_margins margins_to_dict).

  (** * C70: nothing but the four sections has an effect on the run: same maps, same report, same saved configuration, same errors *)
  Theorem C70_other_sections_run (user user2 : dict) : wf (JDict user) -> wf (JDict user2) ->
    (forall k, In k ["input"; "ROI"; "pipeline"; "expert_mode"] -> lookup k user2 = lookup k user) -> main user2 = main user.
  Proof.
    intros W W2 L. unfold WholeModel.main, process, check_user. rewrite (C70_other_sections_check _ _ _ _ _ _ _ _ _ _ _ user user2 _ W W2 L). reflexivity.
  Qed.
End Program.

(** * Example *)
(** The second configuration of WholeProps with a misspelled ROI and a comment, and the sections in the other order. *)
Definition wh_misspelled : dict := ("Roi", JDict [("row", JDict [("first", JInt 2); ("last", JInt 4)])]) :: ("comment", JStr "a test") :: rev wh_user2.
Example C70_run_example : wf (JDict wh_user2) /\ wf (JDict wh_misspelled) /\
  (forall k, In k ["input"; "ROI"; "pipeline"; "expert_mode"] -> lookup k wh_misspelled = lookup k wh_user2) /\
  (exists rows cols row_map col_map, wh_shown (wh_main wh_misspelled) = Some (Some (rows, cols, row_map, col_map)) /\
    nth 5 row_map [] = map (fun z => Some (inject_Z z)) [2; 1; 0; 1; 0; 1; 1; 1; 0]) /\ keys wh_misspelled <> keys wh_user2.
Proof.
  split; [wh_wf|]. split; [unfold wh_misspelled, wh_user2, wh_user, wh_dichotomy, wh_disp; cbn [app rev]; solve_wf|].
  split; [intros k [<-|[<-|[<-|[<-|[]]]]]; reflexivity|].
  split; [do 4 eexists; split; [vm_compute; reflexivity|]; vm_compute; reflexivity|]. vm_compute. discriminate.
Qed.

Print Assumptions C70_other_sections_check.
Print Assumptions C70_other_sections_run.
