(** The expert mode is not read by the steps of a run: proofs. *)
From Coq Require Import List String Bool ZArith QArith Lia.
From Verif Require Import Base.Ext Base.Dict Base.PyList Base.Arr Base.Json Model.CommonModel Model.DisparityModel Model.MatchingCostModel Model.DichotomyModel
  Model.RoiModel Model.InputModel Model.ConfigModel Model.DatasetModel Model.EstimationModel Model.OpticalFlowModel Model.InterpolationModel Model.MachineModel Model.CheckConfModel
  Model.PipelineModel Model.WholeModel Model.ImgShiftModel
  Spec.ConfigSpec Spec.CheckConfSpec Proofs.ConfigProofs Proofs.MergeProofs.
Import ListNotations.
Open Scope Z_scope.
Open Scope string_scope.
Open Scope list_scope.

(** The same configuration without its expert mode. *)
Definition expert : string := "expert_mode".
Definition er (d : dict) : dict := List.filter (fun kv : string * json => negb (fst kv =? expert)) d.
Lemma er_lookup k d : k <> expert -> lookup k (er d) = lookup k d.
Proof.
  intros N. induction d as [|[a v] d IH]; [reflexivity|]. unfold er. cbn [List.filter fst]. destruct (a =? expert) eqn:E; cbn [negb lookup].
  - apply String.eqb_eq in E. subst a. rewrite (proj2 (String.eqb_neq k expert) N). exact IH.
  - destruct (k =? a); [reflexivity | exact IH].
Qed.
Lemma er_assign k v d : k <> expert -> assign k v (er d) = er (assign k v d).
Proof.
  intros N. induction d as [|[a w] d IH].
  - cbn. now rewrite (proj2 (String.eqb_neq k expert) N).
  - unfold er. cbn [List.filter fst assign]. destruct (a =? expert) eqn:E; cbn [negb].
    + assert (Hk : (k =? a) = false) by (apply String.eqb_eq in E; subst a; now apply String.eqb_neq).
      rewrite Hk. cbn [List.filter fst]. rewrite E. cbn [negb]. exact IH.
    + cbn [assign]. destruct (k =? a) eqn:Ka; cbn [List.filter fst]; rewrite E; cbn [negb]; [reflexivity|]. f_equal. exact IH.
Qed.
Lemma er_expert v d : er (assign expert v d) = er d.
Proof.
  induction d as [|[a w] d IH]; [reflexivity|]. cbn [assign]. destruct (expert =? a) eqn:E.
  - apply String.eqb_eq in E. subst a. reflexivity.
  - unfold er in *. cbn [List.filter fst]. rewrite String.eqb_sym, E. cbn [negb]. f_equal. exact IH.
Qed.
Lemma er_path k p d : k <> expert -> get_path (k :: p) (JDict (er d)) = get_path (k :: p) (JDict d).
Proof. intros N. cbn [get_path]. now rewrite er_lookup. Qed.
Ltac ne := unfold expert; discriminate.
Lemma er_assign2 k1 k2 v d : k1 <> expert -> EstimationModel.assign2 k1 k2 v (er d) = option_map er (EstimationModel.assign2 k1 k2 v d).
Proof. intros N. unfold EstimationModel.assign2. rewrite er_lookup by exact N. destruct (lookup k1 d) as [[]|]; try reflexivity. cbn. now rewrite er_assign. Qed.
Lemma er_assign3 k1 k2 k3 v d : k1 <> expert -> assign3 k1 k2 k3 v (er d) = option_map er (assign3 k1 k2 k3 v d).
Proof.
  intros N. unfold assign3. rewrite er_lookup by exact N. destruct (lookup k1 d) as [[]|]; try reflexivity.
  destruct (EstimationModel.assign2 _ _ _ _); [|reflexivity]. cbn. now rewrite er_assign.
Qed.
Lemma er_assign_all k1 k2 extra : k1 <> expert -> forall d, assign_all k1 k2 extra (er d) = option_map er (assign_all k1 k2 extra d).
Proof.
  intros N. induction extra as [|[k v] r IH]; intros d; [reflexivity|]. cbn [assign_all]. rewrite er_assign3 by exact N.
  destruct (assign3 k1 k2 k v d); [apply IH | reflexivity].
Qed.
Lemma er_update d dc dr sh ex : update_cfg_with_estimation (er d) dc dr sh ex = option_map er (update_cfg_with_estimation d dc dr sh ex).
Proof.
  unfold update_cfg_with_estimation. rewrite er_assign2 by ne. destruct (EstimationModel.assign2 _ _ _ d) as [c1|]; [|reflexivity]. cbn [option_map bind].
  rewrite er_assign2 by ne. destruct (EstimationModel.assign2 _ _ _ c1) as [c2|]; [|reflexivity]. cbn [option_map bind].
  rewrite er_assign3 by ne. destruct (assign3 _ _ _ _ c2) as [c3|]; [|reflexivity]. cbn [option_map bind].
  destruct ex; [apply er_assign_all; ne | reflexivity].
Qed.
Lemma er_roi bool_ok d : roi_of bool_ok (er d) = roi_of bool_ok d.
Proof. unfold roi_of, int_at. now rewrite !er_path by ne. Qed.

(** A change of the data that the steps do not see is not seen by the machine. *)
Section Machine.
  Context {C D M S W : Type}.
  Variable est_conf : C -> option C.
  Variable mc_conf : C -> option (C * S * W * M).
  Variable disp_conf : C -> option (C * M).
  Variable ref_conf : C -> option S -> option W -> option (C * M).
  Variable run_step : callback -> string -> C -> option M -> option S -> option W -> D -> option D.
  Variable f : D -> D.
  Hypothesis Hf : forall cb name c mg st w d, run_step cb name c mg st w (f d) = option_map f (run_step cb name c mg st w d).
  Notation mach := (@machine C D M S W).
  Definition on_data (m : mach) : mach := set_data (f (m_data m)) m.
  Definition on_first (r : mach * option error) : mach * option error := (on_data (fst r), snd r).
  Notation call := (MachineModel.call est_conf mc_conf disp_conf ref_conf run_step).
  Notation trigger := (MachineModel.trigger est_conf mc_conf disp_conf ref_conf run_step).
  Notation trigger_all := (MachineModel.trigger_all est_conf mc_conf disp_conf ref_conf run_step).
  Lemma call_on cb name c m : call cb name c (on_data m) = option_map on_data (call cb name c m).
  Proof.
    destruct m as [a b p s w x y d]. unfold on_data.
    destruct cb; cbn [MachineModel.call set_data m_data m_state m_transitions m_pipeline m_step m_window m_cumulative m_non_cumulative].
    all: try (rewrite Hf; destruct (run_step _ _ _ _ _ _ _); reflexivity).
    - destruct (est_conf c); reflexivity.
    - destruct (mc_conf c) as [[[[? ?] ?] ?]|]; reflexivity.
    - destruct (disp_conf c) as [[? ?]|]; reflexivity.
    - destruct (ref_conf _ _ _) as [[? ?]|]; reflexivity.
  Qed.
  Lemma trigger_on t name c m : trigger t name c (on_data m) = on_first (trigger t name c m).
  Proof.
    unfold MachineModel.trigger. change (m_transitions (on_data m)) with (m_transitions m). change (m_state (on_data m)) with (m_state m).
    destruct (existsb _ _); [|reflexivity]. destruct (find _ _) as [tr|]; [|reflexivity]. rewrite call_on. destruct (call _ _ _ m); reflexivity.
  Qed.
  Lemma trigger_all_on names steps : forall m, trigger_all names steps (on_data m) = on_first (trigger_all names steps m).
  Proof.
    induction steps as [|[n c] l IH]; intros m; [reflexivity|]. cbn [MachineModel.trigger_all]. rewrite trigger_on.
    destruct (trigger _ _ _ m) as [m' [e|]]; [reflexivity|]. cbn [on_first fst snd]. apply IH.
  Qed.
  Lemma remove_on l : forall deleted m, remove_loop l deleted (on_data m) = on_first (remove_loop l deleted m).
  Proof.
    induction l as [|tr l IH]; intros deleted m; [reflexivity|]. cbn [remove_loop]. destruct (existsb _ deleted); [apply IH|].
    unfold remove_transition. change (m_transitions (on_data m)) with (m_transitions m). destruct (existsb _ _); [|reflexivity]. rewrite <- IH. reflexivity.
  Qed.
  Lemma run_on d cfg m : MachineModel.run est_conf mc_conf disp_conf ref_conf run_step (f d) cfg m = on_first (MachineModel.run est_conf mc_conf disp_conf ref_conf run_step d cfg m).
  Proof.
    unfold MachineModel.run. change (run_prepare (f d) m) with (on_data (run_prepare d m)). rewrite trigger_all_on.
    destruct (trigger_all before_dot cfg (run_prepare d m)) as [m' [e|]]; [reflexivity|]. cbn [on_first fst snd]. unfold run_exit, remove_transitions.
    rewrite remove_on. destruct (remove_loop _ _ m') as [m2 [e|]]; reflexivity.
  Qed.
End Machine.

Section Run.
  (** The libraries: see WholeModel. *)
  Context {px : Type} (px_eqb : px -> px -> bool) (nan : px).
  Variable bool_ok : bool.
  Variable pandora_check : dict -> option (json * json * json).
  Variable matching_cost_margins : dict -> margins.
  Variable can_open_mandatory can_open : json -> bool.
  Variable images_ok : json -> json -> json -> json -> bool.
  Variable image_size : string -> nat * nat.
  Variable open_raster : string -> reader.
  Variable load : dict -> Z -> nat -> Z -> nat -> image px.
  Variable transform_of : dict -> option affine.
  Variable dataset_ok : image_dataset (image px) -> bool.
  Variable measure_of : dict -> measure.
  Variable offset_of : dict -> Z.
  Variable pandora_cost : dict -> mc_input -> image px -> list (list px) -> list (list Z) -> nat -> nat -> nat -> ext.
  Variable zoomed : image px -> nat -> nat -> nat -> px.
  Variable one : Z.
  Variable store : ext -> ext.
  Variable filter_apply : dict -> list (list ext) -> Z -> Z -> ext.
  Variable lstsq : list (list px) -> list (list px) -> option (num * num).
  Variable resample : list (list px) -> num -> num -> list (list px).
  Variable junk : nat -> list (list px).
  Variable interp : list Q -> list Q -> list (list cost) -> num -> num -> cost.
  Variable minimise : (num -> num -> cost) -> num * num -> (Q * Q) * (Q * Q) -> num * num.
  Variable estimate : json -> image px -> image px -> (Q * Q) * json * json.
  Variable global_margins : list (string * margins) -> list (string * margins) -> margins.
  Variable margins_to_dict : list (string * margins) -> list (string * margins) -> json.
  Notation main := (main px_eqb nan bool_ok pandora_check matching_cost_margins can_open_mandatory can_open images_ok image_size open_raster load transform_of dataset_ok
    measure_of offset_of pandora_cost zoomed one store filter_apply lstsq resample junk interp minimise estimate global_margins margins_to_dict).


  Notation data := (@data px).
  Notation run_step := (run_step px_eqb nan bool_ok pandora_check measure_of offset_of pandora_cost zoomed one store filter_apply lstsq resample junk interp minimise estimate).
  Definition erd (d : data) : data := mkData (er (w_cfg d)) (w_left_image d) (w_right_image d) (w_left d) (w_right d) (w_transform d) (w_volumes d) (w_maps d).
  Lemma er_step cb name c mg st w d : run_step cb name c mg st w (option_map erd d) = option_map (option_map erd) (run_step cb name c mg st w d).
  Proof.
    destruct d as [d|]; [|reflexivity]. unfold WholeModel.run_step. cbn [option_map bind]. destruct cb; try reflexivity.
    - unfold estimation_step. cbn [erd w_left_image w_right_image w_cfg w_left w_right]. destruct (estimate _ _ _) as [[shifts err] phase].
      unfold estimation_run. rewrite er_lookup by ne. destruct (lookup "pipeline" (w_cfg d)) as [[| | | | | | | |p]|]; try reflexivity.
      destruct (lookup name p) as [[| | | | | | | |s]|]; try reflexivity. destruct (estimation_check_conf bool_ok s) as [ck|]; [|reflexivity]. cbn [bind].
      destruct (int_field "range_row" ck); [|reflexivity]. destruct (int_field "range_col" ck); [|reflexivity]. cbn [bind].
      destruct (compute_estimation _ _ _) as [[rd cd] op]. destruct (add_disparity_grid _ _ _ _ _ _ _); [|reflexivity]. cbn [bind].
      rewrite er_assign by ne. rewrite er_update. destruct (update_cfg_with_estimation _ _ _ _ _); reflexivity.
    - unfold matching_cost_run. destruct c as [| | | | | | | |c]; try reflexivity. destruct (matching_cost_init _ c) as [c'|]; [|reflexivity]. cbn [bind].
      assert (E : matching_cost_input bool_ok measure_of c' mg (erd d) = matching_cost_input bool_ok measure_of c' mg d).
      { unfold matching_cost_input. cbn [erd w_cfg w_left]. rewrite er_roi, er_lookup by ne. reflexivity. }
      rewrite E. destruct (matching_cost_input _ _ _ _ d) as [m|]; [|reflexivity]. cbn [bind erd w_left_image w_right_image].
      destruct (compute_cost_volumes _ _ _ _ _); reflexivity.
    - unfold disparity_run. destruct c as [| | | | | | | |c]; try reflexivity. cbn [erd w_volumes]. destruct (w_volumes d) as [[[? ?] cv]|] eqn:V; [|reflexivity].
      destruct (disparity_check_conf bool_ok c) as [c'|]; [|reflexivity]. cbn [bind]. destruct (lookup _ c') as [inv|]; [|reflexivity]. cbn [bind].
      destruct (compute_disp_maps _ _ _) as [[[? ?] ?]|]; [|reflexivity]. cbn [bind]. change (w_cfg (erd d)) with (er (w_cfg d)). rewrite er_path by ne.
      destruct (get_path _ _); reflexivity.
    - unfold refinement_run. destruct c as [| | | | | | | |c]; try reflexivity. cbn [erd w_volumes w_maps]. destruct (w_volumes d) as [vols|] eqn:V; [|reflexivity].
      destruct (w_maps d) as [[inv [col row score|]]|]; try reflexivity. destruct (refinement_init _ _ _ c) as [c'|]; [|reflexivity]. cbn [bind].
      match goal with |- option_map _ (bind ?a _) = option_map _ (option_map _ (bind ?b _)) => change a with b; destruct b; [|reflexivity] end.
      reflexivity.
  Qed.
  Definition er_first {A} (p : dict * A) : dict * A := (er (fst p), snd p).
  Lemma er_disparity k d : disparity_at open_raster k (er d) = disparity_at open_raster k d.
  Proof. unfold disparity_at. now rewrite er_path by ne. Qed.
  Lemma er_prepare mg d : prepare_roi bool_ok open_raster mg (er d) = option_map er_first (prepare_roi bool_ok open_raster mg d).
  Proof.
    unfold prepare_roi. rewrite er_lookup by ne. destruct (lookup "ROI" d); [|reflexivity]. rewrite er_assign2 by ne.
    destruct (EstimationModel.assign2 _ _ _ d) as [c1|]; [|reflexivity]. cbn [option_map bind]. rewrite er_roi, !er_disparity.
    destruct (roi_of _ c1) as [r|]; [|reflexivity]. cbn [bind]. destruct (bind (disparity_at _ "col_disparity" c1) _); [|reflexivity]. cbn [bind].
    destruct (bind (disparity_at _ "row_disparity" c1) _); [|reflexivity]. cbn [bind]. destruct (get_roi_processing _ _ _) as [p|]; [|reflexivity]. cbn [bind].
    rewrite er_assign2 by ne. destruct (EstimationModel.assign2 _ _ _ c1); reflexivity.
  Qed.
  Definition er_sets {A B} (p : dict * A * B) : dict * A * B := let '(c, a, b) := p in (er c, a, b).
  Lemma er_datasets r d : create_datasets image_size open_raster load transform_of r (er d) = option_map er_sets (create_datasets image_size open_raster load transform_of r d).
  Proof.
    unfold create_datasets, has_estimation. rewrite er_path by ne.
    set (b := match get_path ["pipeline"; "estimation"] (JDict d) with None | Some JNull => false | Some _ => true end).
    assert (E : (if b then bind (EstimationModel.assign2 "input" "col_disparity" (json_of_disp placeholder) (er d)) (EstimationModel.assign2 "input" "row_disparity" (json_of_disp placeholder))
                 else match lookup "input" (er d) with Some (JDict i) => if check_disparities i then Some (er d) else None | _ => None end) =
                option_map er (if b then bind (EstimationModel.assign2 "input" "col_disparity" (json_of_disp placeholder) d) (EstimationModel.assign2 "input" "row_disparity" (json_of_disp placeholder))
                 else match lookup "input" d with Some (JDict i) => if check_disparities i then Some d else None | _ => None end)).
    { destruct b.
      - rewrite er_assign2 by ne. destruct (EstimationModel.assign2 _ _ _ d); [|reflexivity]. cbn [option_map bind]. now rewrite er_assign2 by ne.
      - rewrite er_lookup by ne. destruct (lookup "input" d) as [[]|]; try reflexivity. destruct (check_disparities _); reflexivity. }
    rewrite E. clear E. match goal with |- bind (option_map er ?x) _ = option_map _ (bind ?x _) => destruct x as [c|]; [|reflexivity] end. cbn [option_map bind].
    rewrite !er_disparity. destruct (disparity_at _ "col_disparity" c); [|reflexivity]. destruct (disparity_at _ "row_disparity" c); [|reflexivity]. cbn [bind].
    rewrite !er_path by ne. destruct (get_path ["input"; "left"] _); [|reflexivity]. destruct (get_path ["input"; "right"] _); [|reflexivity].
    destruct (create_dataset _ _ _ _ _ _ _ false); [|reflexivity]. cbn [bind]. destruct (create_dataset _ _ _ _ _ _ _ true); reflexivity.
  Qed.
  (** What main does once the configuration is checked (__init__.py:100-136). *)
  Notation mach := (@machine json (option data) margins json json).
  Notation run_machine := (run_machine px_eqb nan bool_ok pandora_check matching_cost_margins measure_of offset_of pandora_cost zoomed one store filter_apply lstsq resample junk interp minimise estimate).
  Notation check_user := (check_user px_eqb nan bool_ok pandora_check matching_cost_margins can_open_mandatory can_open images_ok image_size open_raster
    measure_of offset_of pandora_cost zoomed one store filter_apply lstsq resample junk interp minimise estimate).
  Definition finish (m : mach) (cfg : dict) : option result :=
    bind (prepare_roi bool_ok open_raster (global_margins (m_cumulative m) (m_non_cumulative m)) cfg) (fun prepared =>
    let '(cfg, r) := prepared in
    bind (create_datasets image_size open_raster load transform_of r cfg) (fun datasets =>
    let '(cfg, lft, rgt) := datasets in
    if check_datasets dataset_ok (shapes_of lft) (shapes_of rgt) then
      let '(left_im, left_grids, transform) := lft in
      let '(right_im, right_grids, _) := rgt in
      match lookup "pipeline" cfg with
      | Some (JDict pipeline) =>
          match run_machine (Some (mkData cfg left_im right_im left_grids right_grids transform None None)) pipeline m with
          | (m', None) => bind (m_data m') (fun d => Some (mkResult (maps_dataset_of one d) (w_cfg d) (m_cumulative m', m_non_cumulative m')))
          | (_, Some _) => None
          end
      | _ => None
      end
    else None)).
  Definition conclude (res : result) : option outcome :=
    let cfg := assign "margins" (margins_to_dict (fst (r_margins res)) (snd (r_margins res))) (r_cfg res) in
    match r_maps res with
    | None => Some (mkOutcome None None cfg)
    | Some (inv, ds) =>
        bind (saving bool_ok (r_cfg res)) (fun s =>
        bind (save_dataset ds s) (fun p =>
        Some (mkOutcome (Some (fst p)) (Some (inv, snd p)) cfg)))
    end.
  Lemma main_split user : main user = (let '(m, checked) := check_user user (new_machine None) in bind (bind checked (finish m)) conclude).
  Proof. unfold WholeModel.main, process. destruct (check_user _ _) as [m [c|]]; reflexivity. Qed.
  Definition err (r : result) : result := mkResult (r_maps r) (er (r_cfg r)) (r_margins r).
  Definition ero (o : outcome) : outcome := mkOutcome (o_maps o) (o_reported o) (er (o_cfg o)).
  Lemma er_finish m d : finish m (er d) = option_map err (finish m d).
  Proof.
    unfold finish. rewrite er_prepare. destruct (prepare_roi _ _ _ d) as [[c r]|]; [|reflexivity]. cbn [option_map er_first fst snd bind].
    rewrite er_datasets. destruct (create_datasets _ _ _ _ r c) as [[[c2 [[li lg] tr]] [[ri rg] tr2]]|]; [|reflexivity]. cbn [option_map er_sets bind].
    destruct (check_datasets _ _ _); [|reflexivity]. rewrite er_lookup by ne. destruct (lookup "pipeline" c2) as [[| | | | | | | |p]|]; try reflexivity.
    unfold WholeModel.run_machine. change (Some (mkData (er c2) li ri lg rg tr None None)) with (option_map erd (Some (mkData c2 li ri lg rg tr None None))).
    rewrite (run_on _ _ _ _ _ (option_map erd) er_step). destruct (MachineModel.run _ _ _ _ _ _ _ m) as [m' [e|]]; [reflexivity|].
    cbn [on_first fst snd]. unfold on_data, set_data. cbn [m_data m_cumulative m_non_cumulative]. destruct (m_data m'); reflexivity.
  Qed.
  Lemma er_conclude r : conclude (err r) = option_map ero (conclude r).
  Proof.
    destruct r as [mp cf mg]. unfold err, conclude. cbn [r_margins r_cfg r_maps]. rewrite er_assign by ne. destruct mp as [[inv ds]|]; [|reflexivity].
    assert (E : saving bool_ok (er cf) = saving bool_ok cf) by (unfold saving; rewrite er_roi, er_lookup, er_path by ne; reflexivity).
    rewrite E. clear E. destruct (saving bool_ok cf) as [s|]; [|reflexivity]. cbn [bind]. destruct (save_dataset ds s); reflexivity.
  Qed.
  Lemma er_rest m c c2 : er c = er c2 -> option_map ero (bind (finish m c) conclude) = option_map ero (bind (finish m c2) conclude).
  Proof.
    intros E. assert (H : forall c, option_map ero (bind (finish m c) conclude) = bind (finish m (er c)) conclude).
    { intros x. rewrite er_finish. destruct (finish m x); [|reflexivity]. cbn [option_map bind]. symmetry. apply er_conclude. }
    now rewrite !H, E.
  Qed.
End Run.
