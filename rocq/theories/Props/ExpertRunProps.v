(** C35: the expert mode does not change the results of a run. *)
From Coq Require Import List String Bool ZArith QArith Lia.
From Verif Require Import Base.Ext Base.Dict Base.PyList Base.Arr Base.Json Model.CommonModel Model.DisparityModel Model.MatchingCostModel Model.DichotomyModel
  Model.RoiModel Model.InputModel Model.ConfigModel Model.DatasetModel Model.EstimationModel Model.OpticalFlowModel Model.InterpolationModel Model.MachineModel Model.CheckConfModel
  Model.PipelineModel Model.WholeModel Model.ImgShiftModel
  Spec.ConfigSpec Spec.CheckConfSpec Spec.AcceptSpec Proofs.CheckConfProofs Proofs.AcceptProofs Proofs.ExpertProofs
  Props.CheckConfProps Props.AcceptProps Props.WholeProps Props.OtherSectionsProps.
Import ListNotations.
Open Scope Z_scope.
Open Scope string_scope.
Open Scope list_scope.

Definition expert_described := AcceptProofs.expert_iff (fun _ => tt) (fun _ => tt) (fun _ => mkReader 1 (mkArr2 0 0 (fun _ _ => 0))).

Section Program.
  (** The libraries: see WholeModel. *)
  Context {px : Type} (px_eqb : px -> px -> bool) (nan : px).
  Variable bool_ok : bool.
  Variable pandora_check : dict -> option (json * json * json).
  Variable matching_cost_margins : dict -> margins.
  Variable can_open_mandatory can_open : json -> bool.
  Variable images_ok : json -> json -> json -> json -> bool.
  Variable image_size : string -> nat * nat.
  Variable open_raster : string -> reader.
  Variable load : dict -> Z -> nat -> Z -> nat -> image px.
  Variable transform_of : dict -> option affine.
  Variable dataset_ok : image_dataset (image px) -> bool.
  Variable measure_of : dict -> measure.
  Variable offset_of : dict -> Z.
  Variable pandora_cost : dict -> mc_input -> image px -> list (list px) -> list (list Z) -> nat -> nat -> nat -> ext.
  Variable zoomed : image px -> nat -> nat -> nat -> px.
  Variable one : Z.
  Variable store : ext -> ext.
  Variable filter_apply : dict -> list (list ext) -> Z -> Z -> ext.
  Variable lstsq : list (list px) -> list (list px) -> option (num * num).
  Variable resample : list (list px) -> num -> num -> list (list px).
  Variable junk : nat -> list (list px).
  Variable interp : list Q -> list Q -> list (list cost) -> num -> num -> cost.
  Variable minimise : (num -> num -> cost) -> num * num -> (Q * Q) * (Q * Q) -> num * num.
  Variable estimate : json -> image px -> image px -> (Q * Q) * json * json.
  Variable global_margins : list (string * margins) -> list (string * margins) -> margins.
  Variable margins_to_dict : list (string * margins) -> list (string * margins) -> json.
  Notation main := (main px_eqb nan bool_ok pandora_check matching_cost_margins can_open_mandatory can_open images_ok image_size open_raster load transform_of dataset_ok
    measure_of offset_of pandora_cost zoomed one store filter_apply lstsq resample junk interp minimise estimate global_margins margins_to_dict).

  (** Two outcomes that differ by the expert mode of the saved configuration only. *)
  Definition same_outcome (a b : option outcome) : Prop :=
    match a, b with
    | Some x, Some y => o_maps y = o_maps x /\ o_reported y = o_reported x /\ forall k, k <> "expert_mode" -> lookup k (o_cfg y) = lookup k (o_cfg x)
    | None, None => True
    | _, _ => False
    end.
  (** * C35: switching the expert mode on, off or changing it does not change the results of the run *)
  Theorem C35_expert_mode_run (user user2 : dict) : wf (JDict user) -> wf (JDict user2) ->
    (forall k, In k ["input"; "ROI"; "pipeline"] -> lookup k user2 = lookup k user) ->
    expert_mode_accepted (lookup "expert_mode" user) -> expert_mode_accepted (lookup "expert_mode" user2) -> same_outcome (main user) (main user2).
  Proof.
    intros W W2 L X X2. apply (expert_described user W) in X. apply (expert_described user2 W2) in X2.
    assert (E : option_map ero (main user) = option_map ero (main user2)).
    { rewrite !main_split. unfold check_user, CheckConfModel.check_conf, get_config_input, get_roi_config.
      rewrite (same_pipeline_section _ _ _ _ _ _ user user2 _ W W2) by (apply L; cbn; auto).
      rewrite (L "pipeline"), (L "input"), (L "ROI") by (cbn; auto).
      destruct (lookup "pipeline" user) as [[| | | | | | | |p]|]; try reflexivity.
      destruct (check_input_section _ _ _ _ _ _ _) as [ci|]; [|reflexivity]. destruct (check_roi_section _ _) as [cr|]; [|reflexivity].
      destruct (check_pipeline_section _ _ _ _ _ _ user _) as [m [cp|]]; [|reflexivity].
      destruct (match get_path _ _ with Some _ => _ | None => true end); [|reflexivity].
      assert (A : forall u, match lookup "expert_mode" u with None | Some (JDict []) => True | Some j => check_expert_mode_section j <> None end ->
        exists c, er c = er (concat_conf [ci; cr; cp]) /\
        match lookup "expert_mode" u with
        | None | Some (JDict []) => (m, Some (concat_conf [ci; cr; cp]))
        | Some j => match check_expert_mode_section j with Some ce => (m, Some (concat_conf [ci; cr; cp; ce])) | None => (m, None) end
        end = (m, Some c)).
      { intros u. assert (B : forall j, check_expert_mode_section j <> None -> exists c, er c = er (concat_conf [ci; cr; cp]) /\
          match check_expert_mode_section j with Some ce => (m, Some (concat_conf [ci; cr; cp; ce])) | None => (m, None) end = (m, Some c)).
        { intros j Hj. destruct (check_expert_mode_section j) as [ce|] eqn:Ece; [|congruence]. exists (concat_conf [ci; cr; cp; ce]). split; [|reflexivity].
          assert (Hce : ce = [("expert_mode", j)]).
          { unfold check_expert_mode_section in Ece. destruct j as [| | | | | | | |dj]; try discriminate. destruct (lookup "profiling" dj) as [pr|]; [|discriminate]. destruct (sub_schema expert_mode_profiling pr); [|discriminate]. congruence. }
          subst ce. unfold concat_conf. cbn [fold_left fst snd]. apply er_expert. }
        destruct (lookup "expert_mode" u) as [[| | | | | | | |[|kv d]]|]; intros H; try (apply B; exact H); eexists; split; reflexivity. }
      destruct (A user X) as (c & Ec & ->). destruct (A user2 X2) as (c2 & Ec2 & ->). cbn [bind]. apply er_rest. congruence. }
    unfold same_outcome. destruct (main user) as [o|], (main user2) as [o2|]; try discriminate E; [|exact I].
    cbn [option_map] in E. injection E as E1 E2 E3. repeat split; [congruence | congruence |].
    intros k N. rewrite <- (er_lookup k (o_cfg o2)), <- (er_lookup k (o_cfg o)) by exact N. congruence.
  Qed.
End Program.

(** * Example *)
(** The second configuration of WholeProps, with and without profiling. *)
Definition wh_profiling : dict := ("expert_mode", JDict [("profiling", JDict [("folder_name", JStr "perf")])]) :: wh_user2.
Example C35_run_example : wf (JDict wh_user2) /\ wf (JDict wh_profiling) /\ (forall k, In k ["input"; "ROI"; "pipeline"] -> lookup k wh_profiling = lookup k wh_user2) /\
  expert_mode_accepted (lookup "expert_mode" wh_user2) /\ expert_mode_accepted (lookup "expert_mode" wh_profiling) /\
  (exists rows cols row_map col_map, wh_shown (wh_main wh_profiling) = Some (Some (rows, cols, row_map, col_map)) /\
    nth 5 row_map [] = map (fun z => Some (inject_Z z)) [2; 1; 0; 1; 0; 1; 1; 1; 0]) /\
  option_map (fun o => get_path ["expert_mode"; "profiling"; "folder_name"] (JDict (o_cfg o))) (wh_main wh_profiling) = Some (Some (JStr "perf")).
Proof.
  assert (W : wf (JDict wh_user2)) by wh_wf.
  assert (W2 : wf (JDict wh_profiling)) by (unfold wh_profiling, wh_user2, wh_user, wh_dichotomy, wh_disp; cbn [app]; solve_wf).
  split; [exact W|]. split; [exact W2|]. split; [intros k [<-|[<-|[<-|[]]]]; reflexivity|].
  split; [apply (expert_described _ W); exact I|]. split; [apply (expert_described _ W2); vm_compute; discriminate|].
  split; [do 4 eexists; split; [vm_compute; reflexivity|]; vm_compute; reflexivity|]. vm_compute. reflexivity.
Qed.

Print Assumptions C35_expert_mode_run.
