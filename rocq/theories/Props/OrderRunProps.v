(** C110: the order of the keys of a configuration does not change the results. *)
From Coq Require Import List String Bool ZArith QArith Lia.
From Verif Require Import Base.Ext Base.PyList Base.Arr Base.Json Model.CommonModel Model.DisparityModel Model.MatchingCostModel Model.DichotomyModel
  Model.RoiModel Model.InputModel Model.ConfigModel Model.DatasetModel Model.EstimationModel Model.OpticalFlowModel Model.InterpolationModel Model.MachineModel Model.CheckConfModel
  Model.PipelineModel Model.WholeModel Model.ImgShiftModel
  Spec.ConfigSpec Spec.CheckConfSpec Spec.OrderSpec Proofs.CheckConfProofs Proofs.OrderProofs Proofs.OrderRunProofs
  Props.CheckConfProps Props.AcceptProps Props.WholeProps Props.OrderProps.
Import ListNotations.
Open Scope Z_scope.
Open Scope string_scope.
Open Scope list_scope.

Section Program.
  (** The libraries: see WholeModel. *)
  Context {px : Type} (px_eqb : px -> px -> bool) (nan : px).
  Variable bool_ok : bool.
  Variable pandora_check : dict -> option (json * json * json).
  Variable matching_cost_margins : dict -> margins.
  Variable can_open_mandatory can_open : json -> bool.
  Variable images_ok : json -> json -> json -> json -> bool.
  Variable image_size : string -> nat * nat.
  Variable open_raster : string -> reader.
  Variable load : dict -> Z -> nat -> Z -> nat -> image px.
  Variable transform_of : dict -> option affine.
  Variable dataset_ok : image_dataset (image px) -> bool.
  Variable measure_of : dict -> measure.
  Variable offset_of : dict -> Z.
  Variable pandora_cost : dict -> mc_input -> image px -> list (list px) -> list (list Z) -> nat -> nat -> nat -> ext.
  Variable zoomed : image px -> nat -> nat -> nat -> px.
  Variable one : Z.
  Variable store : ext -> ext.
  Variable filter_apply : dict -> list (list ext) -> Z -> Z -> ext.
  Variable lstsq : list (list px) -> list (list px) -> option (num * num).
  Variable resample : list (list px) -> num -> num -> list (list px).
  Variable junk : nat -> list (list px).
  Variable interp : list Q -> list Q -> list (list cost) -> num -> num -> cost.
  Variable minimise : (num -> num -> cost) -> num * num -> (Q * Q) * (Q * Q) -> num * num.
  Variable estimate : json -> image px -> image px -> (Q * Q) * json * json.
  Variable global_margins : list (string * margins) -> list (string * margins) -> margins.
  Variable margins_to_dict : list (string * margins) -> list (string * margins) -> json.
  Notation main := (main px_eqb nan bool_ok pandora_check matching_cost_margins can_open_mandatory can_open images_ok image_size open_raster load transform_of dataset_ok
    measure_of offset_of pandora_cost zoomed one store filter_apply lstsq resample junk interp minimise estimate global_margins margins_to_dict).

  (** The libraries that are given a part of the configuration written by the user read its values only. *)
  Definition reads_only_values : Prop := reads_values pandora_check /\ reads_dict load /\ reads_dict transform_of /\ reads_dict filter_apply /\
    forall c e, same_values c e -> estimate e = estimate c.

  (** * C110: the same values, in any order but for the steps, give the same results *)
  Theorem C110_same_run user user2 out : pandora_contract pandora_check -> sized image_size -> reads_only_values ->
    wf (JDict user) -> wf (JDict user2) -> same_values (JDict user) (JDict user2) -> same_steps user user2 -> main user = Some out ->
    exists out2, main user2 = Some out2 /\ o_maps out2 = o_maps out /\ same_maps (o_reported out) (o_reported out2) /\ same_values (JDict (o_cfg out)) (JDict (o_cfg out2)).
  Proof.
    intros HP HS (R1 & R2 & R3 & R4 & R5) W W2 S K H.
    destruct (main_exists px_eqb nan bool_ok pandora_check matching_cost_margins can_open_mandatory can_open images_ok image_size open_raster load transform_of dataset_ok
      measure_of offset_of pandora_cost zoomed one store filter_apply lstsq resample junk interp minimise estimate global_margins margins_to_dict HP R1 R2 R3 R4 R5 HS
      user user2 out W W2 S K H) as (out2 & H2).
    exists out2. split; [exact H2|].
    exact (main_like px_eqb nan bool_ok pandora_check matching_cost_margins can_open_mandatory can_open images_ok image_size open_raster load transform_of dataset_ok
      measure_of offset_of pandora_cost zoomed one store filter_apply lstsq resample junk interp minimise estimate global_margins margins_to_dict HP R1 R2 R3 R4 R5
      user user2 out out2 W W2 S K H H2).
  Qed.
  (** The errors are the same too. *)
  Theorem C110_same_failure user user2 : pandora_contract pandora_check -> sized image_size -> reads_only_values ->
    wf (JDict user) -> wf (JDict user2) -> same_values (JDict user) (JDict user2) -> same_steps user user2 -> (main user = None <-> main user2 = None).
  Proof.
    intros HP HS R W W2 S K. split; intros N.
    - destruct (main user2) as [o|] eqn:E; [|reflexivity]. exfalso.
      assert (K2 : same_steps user2 user) by (intros p q Hp Hq; symmetry; exact (K _ _ Hq Hp)).
      destruct (C110_same_run user2 user o HP HS R W2 W (same_sym _ _ S) K2 E) as (o2 & X & _). rewrite N in X. discriminate X.
    - destruct (main user) as [o|] eqn:E; [|reflexivity]. exfalso.
      destruct (C110_same_run user user2 o HP HS R W W2 S K E) as (o2 & X & _). rewrite N in X. discriminate X.
  Qed.
End Program.

(** * Example *)
(** The second configuration of WholeProps (grids, dichotomy) written the other way round. *)
Definition wh_reversed : dict :=
  [("pipeline", JDict [("matching_cost", JDict [("step", JList [JInt 1; JInt 1]); ("window_size", JInt 1); ("matching_cost_method", JStr "sad")]);
                       ("disparity", JDict [("invalid_disparity", JStr "NaN"); ("disparity_method", JStr "wta")]);
                       ("refinement", JDict [("filter", JDict [("method", JStr "bicubic")]); ("iterations", JInt 2); ("refinement_method", JStr "dichotomy")])]);
   ("input", JDict [("col_disparity", JDict [("range", JInt 1); ("init", JStr "cols.tif")]); ("row_disparity", JDict [("range", JInt 1); ("init", JStr "rows.tif")]);
                    ("right", JDict [("img", JStr "right.tif")]); ("left", JDict [("img", JStr "left.tif")])])].
Lemma wh_pandora_values : reads_values wh_pandora.
Proof. intros c e S. unfold wh_pandora. now rewrite (pandora_default_values c e S). Qed.
Lemma wh_load_values : reads_dict wh_load.
Proof.
  intros c e S. unfold wh_load.
  rewrite (read_lookup (fun o => match o with Some (JStr p) => p =? "left.tif" | _ => false end) "img" c e (fun _ _ => eq_refl) S). reflexivity.
Qed.
Lemma wh_reads : reads_only_values wh_pandora wh_load (fun _ => None) wh_filter (fun _ _ _ => ((0, 0)%Q, JNull, JNull)).
Proof. split; [exact wh_pandora_values|]. split; [exact wh_load_values|]. split; [intros c e _; reflexivity|]. split; [intros c e _; reflexivity | intros c e _; reflexivity]. Qed.
Lemma wh_same : same_values (JDict wh_user2) (JDict wh_reversed).
Proof. unfold wh_user2, wh_user, wh_dichotomy, wh_disp, wh_reversed. cbn [app]. solve_same. Qed.
(** The maps are the same; the saved configurations are written in different orders. *)
Example C110_run_example : pandora_contract wh_pandora /\ sized wh_size /\ reads_only_values wh_pandora wh_load (fun _ => None) wh_filter (fun _ _ _ => ((0, 0)%Q, JNull, JNull)) /\
  wf (JDict wh_user2) /\ wf (JDict wh_reversed) /\ same_values (JDict wh_user2) (JDict wh_reversed) /\ same_steps wh_user2 wh_reversed /\
  (exists rows cols row_map col_map, wh_shown (wh_main wh_reversed) = Some (Some (rows, cols, row_map, col_map)) /\
    nth 5 row_map [] = map (fun z => Some (inject_Z z)) [2; 1; 0; 1; 0; 1; 1; 1; 0]) /\
  option_map (fun o => get_path ["pipeline"; "disparity"] (JDict (o_cfg o))) (wh_main wh_reversed) <>
  option_map (fun o => get_path ["pipeline"; "disparity"] (JDict (o_cfg o))) (wh_main wh_user2).
Proof.
  split; [exact wh_pandora_contract|]. split; [intros s; cbn; lia|]. split; [exact wh_reads|]. split; [wh_wf|]. split; [unfold wh_reversed; solve_wf|]. split; [exact wh_same|].
  split; [intros p q A B; vm_compute in A, B; injection A as <-; injection B as <-; reflexivity|].
  split; [do 4 eexists; split; [vm_compute; reflexivity|]; vm_compute; reflexivity|]. vm_compute. discriminate.
Qed.

Print Assumptions C110_same_run.
Print Assumptions C110_same_failure.
