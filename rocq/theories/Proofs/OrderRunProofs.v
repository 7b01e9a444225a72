(** Proofs about the runs of two configurations with the same values in another order. *)
From Coq Require Import List String Bool ZArith QArith Lia.
From Verif Require Import Base.Ext Base.PyList Base.Arr Base.Json Base.Dict Model.CommonModel Model.DisparityModel Model.MatchingCostModel
  Model.DichotomyModel Model.RoiModel Model.InputModel Model.ConfigModel Model.DatasetModel Model.EstimationModel Model.OpticalFlowModel
  Model.InterpolationModel Model.MachineModel Model.CheckConfModel Model.PipelineModel Model.ImgShiftModel Model.WholeModel
  Spec.ConfigSpec Spec.MachineSpec Spec.CheckConfSpec Spec.AcceptSpec Spec.OrderSpec Proofs.ConfigProofs Proofs.MachineProofs Proofs.CheckConfProofs Proofs.ConfigStepProofs Proofs.AcceptProofs Proofs.WholeProofs Proofs.OrderProofs.
Import ListNotations.
Open Scope Z_scope.
Open Scope string_scope.
Open Scope list_scope.

Lemma same_self j : same_values j j.
Proof.
  induction j as [j H|d IH] using json_dict_ind; [now constructor|]. constructor; [tauto|]. intros k v w A B. rewrite A in B. injection B as <-.
  apply (IH k). now apply lookup_In.
Qed.
Lemma path_same p : forall a b v, same_values a b -> get_path p a = Some v -> exists w, get_path p b = Some w /\ same_values v w.
Proof.
  induction p as [|k p IH]; intros a b v S H; cbn [get_path] in *; [injection H as <-; eauto|].
  destruct a as [| | | | | | | |d]; try discriminate. destruct (same_dict_inv _ _ S) as (e & ->).
  destruct (lookup k d) as [x|] eqn:E; [|discriminate]. destruct (same_lookup _ _ _ _ S E) as (y & -> & Sy). exact (IH _ _ _ Sy H).
Qed.
Lemma path_none p a b : same_values a b -> get_path p a = None -> get_path p b = None.
Proof.
  intros S H. destruct (get_path p b) as [w|] eqn:E; [|reflexivity]. destruct (path_same _ _ _ _ (same_sym _ _ S) E) as (v & Hv & _). congruence.
Qed.
(** A function of a value that does not look inside the dictionaries. *)
Lemma read_path {A} (f : option json -> A) p a b : (forall d e, f (Some (JDict d)) = f (Some (JDict e))) -> same_values a b -> f (get_path p b) = f (get_path p a).
Proof.
  intros F S. destruct (get_path p a) as [v|] eqn:E; [|now rewrite (path_none _ _ _ S E)].
  destruct (path_same _ _ _ _ S E) as (w & -> & Sw). destruct Sw; [reflexivity | apply F].
Qed.
Lemma read_lookup {A} (f : option json -> A) k d e : (forall x y, f (Some (JDict x)) = f (Some (JDict y))) -> same_values (JDict d) (JDict e) -> f (lookup k e) = f (lookup k d).
Proof.
  intros F S. destruct (lookup k d) as [v|] eqn:E; [|now rewrite (same_none _ _ _ S E)].
  destruct (same_lookup _ _ _ _ S E) as (w & -> & Sw). destruct Sw; [reflexivity | apply F].
Qed.
Lemma int_at_same bool_ok p c e : same_values (JDict c) (JDict e) -> int_at bool_ok p e = int_at bool_ok p c.
Proof. intros S. unfold int_at. exact (read_path (fun o => bind o (as_int bool_ok)) p _ _ (fun _ _ => eq_refl) S). Qed.
Lemma steps_at_same bool_ok k c e : same_values (JDict c) (JDict e) -> mc_steps bool_ok (lookup k e) = mc_steps bool_ok (lookup k c).
Proof. intros S. exact (read_lookup (mc_steps bool_ok) k _ _ (fun _ _ => eq_refl) S). Qed.
Lemma roi_of_same bool_ok c e : same_values (JDict c) (JDict e) -> roi_of bool_ok e = roi_of bool_ok c.
Proof.
  intros S. unfold roi_of. rewrite !(int_at_same bool_ok _ c e S).
  destruct (int_at bool_ok ["ROI"; "col"; "first"] c) as [c0|]; [|reflexivity]. destruct (int_at bool_ok ["ROI"; "col"; "last"] c) as [c1|]; [|reflexivity].
  destruct (int_at bool_ok ["ROI"; "row"; "first"] c) as [r0|]; [|reflexivity]. destruct (int_at bool_ok ["ROI"; "row"; "last"] c) as [r1|]; [|reflexivity]. cbn [bind].
  exact (read_path (fun o => match o with Some (JList [JInt a; JInt b; JInt c; JInt d]) => Some (mkRoi c0 c1 r0 r1 (a, b, c, d)) | _ => None end) ["ROI"; "margins"] _ _ (fun _ _ => eq_refl) S).
Qed.
Lemma assign2_same k1 k2 v w c e c' e' : same_values (JDict c) (JDict e) -> same_values v w -> EstimationModel.assign2 k1 k2 v c = Some c' -> EstimationModel.assign2 k1 k2 w e = Some e' ->
  same_values (JDict c') (JDict e').
Proof.
  intros S Sv H H2. unfold EstimationModel.assign2 in *. destruct (lookup k1 c) as [[| | | | | | | |x]|] eqn:E; try discriminate.
  destruct (same_lookup _ _ _ _ S E) as (y & Ey & Sy). destruct (same_dict_inv _ _ Sy) as (z & ->). rewrite Ey in H2. injection H as <-. injection H2 as <-.
  apply same_assign_values; [exact S|]. now apply same_assign_values.
Qed.
Lemma assign3_same k1 k2 k3 v c e c' e' : same_values (JDict c) (JDict e) -> assign3 k1 k2 k3 v c = Some c' -> assign3 k1 k2 k3 v e = Some e' -> same_values (JDict c') (JDict e').
Proof.
  intros S H H2. unfold assign3 in *. destruct (lookup k1 c) as [[| | | | | | | |x]|] eqn:E; try discriminate.
  destruct (same_lookup _ _ _ _ S E) as (y & Ey & Sy). destruct (same_dict_inv _ _ Sy) as (z & ->). rewrite Ey in H2.
  destruct (EstimationModel.assign2 k2 k3 v x) as [x'|] eqn:A; [|discriminate]. destruct (EstimationModel.assign2 k2 k3 v z) as [z'|] eqn:B; [|discriminate].
  injection H as <-. injection H2 as <-. apply same_assign_values; [exact S|]. exact (assign2_same _ _ _ _ _ _ _ _ Sy (same_self v) A B).
Qed.
Lemma assign_all_same k1 k2 extra : forall c e c' e', same_values (JDict c) (JDict e) -> assign_all k1 k2 extra c = Some c' -> assign_all k1 k2 extra e = Some e' -> same_values (JDict c') (JDict e').
Proof.
  induction extra as [|[k v] l IH]; intros c e c' e' S H H2; cbn [assign_all] in *; [congruence|].
  destruct (assign3 k1 k2 k v c) as [x|] eqn:A; [|discriminate]. destruct (assign3 k1 k2 k v e) as [y|] eqn:B; [|discriminate].
  exact (IH _ _ _ _ (assign3_same _ _ _ _ _ _ _ _ S A B) H H2).
Qed.
Ltac bind_both H H2 := match type of H with bind ?a _ = Some _ => match type of H2 with bind ?b _ = Some _ =>
  let A := fresh "A" in let B := fresh "B" in destruct a as [?x|] eqn:A; [|discriminate H]; destruct b as [?y|] eqn:B; [|discriminate H2]; cbn [bind] in H, H2 end end.
Lemma update_same_values c e dc dr sh ex c' e' : same_values (JDict c) (JDict e) -> update_cfg_with_estimation c dc dr sh ex = Some c' -> update_cfg_with_estimation e dc dr sh ex = Some e' ->
  same_values (JDict c') (JDict e').
Proof.
  intros S H H2. unfold update_cfg_with_estimation in *. bind_both H H2. pose proof (assign2_same _ _ _ _ _ _ _ _ S (same_self _) A B) as S1. clear A B.
  bind_both H H2. pose proof (assign2_same _ _ _ _ _ _ _ _ S1 (same_self _) A B) as S2. clear A B.
  bind_both H H2. pose proof (assign3_same _ _ _ _ _ _ _ _ S2 A B) as S3. clear A B.
  destruct ex as [l|]; [exact (assign_all_same _ _ _ _ _ _ _ S3 H H2) | congruence].
Qed.
Lemma cfg_disp_same open_raster d e : same_values (JDict d) (JDict e) -> cfg_disp_of open_raster e = cfg_disp_of open_raster d.
Proof.
  intros S. unfold cfg_disp_of. f_equal.
  - exact (read_lookup (fun o => match o with Some (JInt v) => CInt v | Some (JBool b) => CInt (Z.b2z b) | Some (JStr s) => CFile (open_raster s) | _ => COther end) "init" _ _ (fun _ _ => eq_refl) S).
  - exact (read_lookup (fun o => match o with Some (JInt v) => v | Some (JBool b) => Z.b2z b | _ => 0 end) "range" _ _ (fun _ _ => eq_refl) S).
Qed.
Lemma disparity_at_same open_raster k c e : same_values (JDict c) (JDict e) -> disparity_at open_raster k e = disparity_at open_raster k c.
Proof.
  intros S. unfold disparity_at. destruct (get_path ["input"; k] (JDict c)) as [v|] eqn:E; [|now rewrite (path_none _ _ _ S E)].
  destruct (path_same _ _ _ _ S E) as (w & -> & Sw). destruct v as [| | | | | | | |d]; try (rewrite (same_leaf_eq _ _ Sw eq_refl); reflexivity).
  destruct (same_dict_inv _ _ Sw) as (x & ->). now rewrite (cfg_disp_same open_raster d x Sw).
Qed.
Lemma has_estimation_same c e : same_values (JDict c) (JDict e) -> has_estimation e = has_estimation c.
Proof. intros S. exact (read_path (fun o => match o with None | Some JNull => false | Some _ => true end) ["pipeline"; "estimation"] _ _ (fun _ _ => eq_refl) S). Qed.
Lemma filter_margins_same bool_ok f g : same_values (JDict f) (JDict g) -> filter_margins bool_ok g = filter_margins bool_ok f.
Proof.
  intros S. unfold filter_margins, sinc_half.
  rewrite (read_lookup (fun o => match o with Some j => match as_int bool_ok j with Some z => Z.to_nat z | None => 6%nat end | None => 6%nat end) "size" f g (fun _ _ => eq_refl) S).
  exact (read_lookup (fun o => match o with Some (JStr s) => if s =? "bicubic" then bicubic_margins else sinc_margins
    match lookup "size" f with Some j => match as_int bool_ok j with Some z => Z.to_nat z | None => 6%nat end | None => 6%nat end | _ => mkMargins 0 0 0 0 end) "method" f g (fun _ _ => eq_refl) S).
Qed.
Lemma refinement_margins_same bool_ok : reads_margins (refinement_margins bool_ok).
Proof.
  intros c e S. unfold refinement_margins. rewrite (int_at_same bool_ok _ c e S), (steps_at_same bool_ok "step" c e S).
  assert (F : match lookup "filter" e with Some (JDict f) => filter_margins bool_ok f | _ => mkMargins 0 0 0 0 end =
              match lookup "filter" c with Some (JDict f) => filter_margins bool_ok f | _ => mkMargins 0 0 0 0 end).
  { destruct (lookup "filter" c) as [v|] eqn:E; [|now rewrite (same_none _ _ _ S E)]. destruct (same_lookup _ _ _ _ S E) as (w & -> & Sw).
    destruct v as [| | | | | | | |d]; try (rewrite (same_leaf_eq _ _ Sw eq_refl); reflexivity).
    destruct (same_dict_inv _ _ Sw) as (x & ->). exact (filter_margins_same bool_ok _ _ Sw). }
  rewrite F. destruct (lookup "refinement_method" c) as [v|] eqn:E; [|now rewrite (same_none _ _ _ S E)].
  destruct (same_lookup _ _ _ _ S E) as (w & -> & Sw). destruct Sw; reflexivity.
Qed.

Section Runs.
  Context {px : Type} (px_eqb : px -> px -> bool) (nan : px).
  Variable bool_ok : bool.
  Variable pandora_check : dict -> option (json * json * json).
  Variable matching_cost_margins : dict -> margins.
  Variable can_open_mandatory can_open : json -> bool.
  Variable images_ok : json -> json -> json -> json -> bool.
  Variable image_size : string -> nat * nat.
  Variable open_raster : string -> reader.
  Variable load : dict -> Z -> nat -> Z -> nat -> image px.
  Variable transform_of : dict -> option affine.
  Variable dataset_ok : image_dataset (image px) -> bool.
  Variable measure_of : dict -> measure.
  Variable offset_of : dict -> Z.
  Variable pandora_cost : dict -> mc_input -> image px -> list (list px) -> list (list Z) -> nat -> nat -> nat -> ext.
  Variable zoomed : image px -> nat -> nat -> nat -> px.
  Variable one : Z.
  Variable store : ext -> ext.
  Variable filter_apply : dict -> list (list ext) -> Z -> Z -> ext.
  Variable lstsq : list (list px) -> list (list px) -> option (num * num).
  Variable resample : list (list px) -> num -> num -> list (list px).
  Variable junk : nat -> list (list px).
  Variable interp : list Q -> list Q -> list (list cost) -> num -> num -> cost.
  Variable minimise : (num -> num -> cost) -> num * num -> (Q * Q) * (Q * Q) -> num * num.
  Variable estimate : json -> image px -> image px -> (Q * Q) * json * json.
  Variable global_margins : list (string * margins) -> list (string * margins) -> margins.
  Variable margins_to_dict : list (string * margins) -> list (string * margins) -> json.
  Hypothesis Hpandora : pandora_contract pandora_check.
  Hypothesis Hread : reads_values pandora_check.
  Hypothesis Hload : forall c e, same_values (JDict c) (JDict e) -> load e = load c.
  Hypothesis Htransform : forall c e, same_values (JDict c) (JDict e) -> transform_of e = transform_of c.
  Hypothesis Hfilter : forall c e, same_values (JDict c) (JDict e) -> filter_apply e = filter_apply c.
  Hypothesis Hestimate : forall c e, same_values c e -> estimate e = estimate c.
  Notation data := (@data px).
  Notation matching_cost_input := (matching_cost_input bool_ok measure_of).
  Notation matching_cost_run := (matching_cost_run px_eqb bool_ok pandora_check measure_of pandora_cost zoomed one).
  Notation estimation_step := (estimation_step bool_ok estimate).
  Notation disparity_run := (disparity_run bool_ok one).
  Notation refine := (refine nan bool_ok offset_of one store filter_apply lstsq resample junk interp minimise).
  Notation refinement_run := (refinement_run nan bool_ok offset_of one store filter_apply lstsq resample junk interp minimise).
  Notation run_step := (run_step px_eqb nan bool_ok pandora_check measure_of offset_of pandora_cost zoomed one store filter_apply lstsq resample junk interp minimise estimate).
  Notation check_user := (check_user px_eqb nan bool_ok pandora_check matching_cost_margins can_open_mandatory can_open images_ok image_size open_raster
    measure_of offset_of pandora_cost zoomed one store filter_apply lstsq resample junk interp minimise estimate).
  Notation process := (process px_eqb nan bool_ok pandora_check matching_cost_margins can_open_mandatory can_open images_ok image_size open_raster load transform_of dataset_ok
    measure_of offset_of pandora_cost zoomed one store filter_apply lstsq resample junk interp minimise estimate global_margins).
  Notation main := (main px_eqb nan bool_ok pandora_check matching_cost_margins can_open_mandatory can_open images_ok image_size open_raster load transform_of dataset_ok
    measure_of offset_of pandora_cost zoomed one store filter_apply lstsq resample junk interp minimise estimate global_margins margins_to_dict).

  (** The data of two runs. *)
  Definition like (d e : data) : Prop := same_values (JDict (w_cfg d)) (JDict (w_cfg e)) /\ w_left_image e = w_left_image d /\ w_right_image e = w_right_image d /\
    w_left e = w_left d /\ w_right e = w_right d /\ w_transform e = w_transform d /\ w_volumes e = w_volumes d /\ same_maps (w_maps d) (w_maps e).
  Lemma invalid_of_same i j : same_values i j -> invalid_of one j = invalid_of one i.
  Proof. intros S. destruct S; reflexivity. Qed.
  Lemma invalid_num_same i j : same_values i j -> invalid_num j = invalid_num i.
  Proof. intros S. destruct S; reflexivity. Qed.
  Lemma has_roi_same c e : same_values (JDict c) (JDict e) -> match lookup "ROI" e with Some _ => true | None => false end = match lookup "ROI" c with Some _ => true | None => false end.
  Proof. intros S. exact (read_lookup (fun o => match o with Some _ => true | None => false end) "ROI" _ _ (fun _ _ => eq_refl) S). Qed.
  Lemma input_like c mg d e : like d e -> matching_cost_input c mg e = matching_cost_input c mg d.
  Proof.
    intros (S & _ & _ & L & _). unfold WholeModel.matching_cost_input. rewrite L, (roi_of_same bool_ok _ _ S).
    pose proof (has_roi_same _ _ S) as R. destruct (lookup "ROI" (w_cfg e)), (lookup "ROI" (w_cfg d)); try discriminate; reflexivity.
  Qed.
  Lemma matching_like c c2 mg d e d' e' : same_values c c2 -> like d e -> matching_cost_run c mg d = Some d' -> matching_cost_run c2 mg e = Some e' -> like d' e'.
  Proof.
    intros S L H H2. unfold WholeModel.matching_cost_run in *. destruct c as [| | | | | | | |x]; try discriminate. destruct (same_dict_inv _ _ S) as (y & ->).
    bind_both H H2. rewrite <- (matching_cost_conf_same _ Hread _ _ _ _ S A B) in H2. rewrite (input_like x0 mg d e L) in H2. clear A B.
    destruct L as (Sc & Li & Ri & Lg & Rg & T & V & M). rewrite Li, Ri in H2.
    destruct (matching_cost_input x0 mg d) as [m|]; [|discriminate]. cbn [bind] in H, H2.
    destruct (compute_cost_volumes _ _ _ _ _) as [cv|]; [|discriminate]. cbn [bind] in H, H2. injection H as <-. injection H2 as <-.
    unfold like. cbn. auto 9.
  Qed.
  Lemma estimation_like name c c2 d e d' e' : same_values c c2 -> like d e -> estimation_step name c d = Some d' -> estimation_step name c2 e = Some e' -> like d' e'.
  Proof.
    intros S (Sc & Li & Ri & Lg & Rg & T & V & M) H H2. unfold WholeModel.estimation_step in *. rewrite (Hestimate _ _ S), Li, Ri, Lg, Rg in H2.
    destruct (estimate c (w_left_image d) (w_right_image d)) as [[shifts err] phase].
    destruct (estimation_run _ (w_cfg d) _ _ _ _ _ _) as [[[l r] g]|] eqn:E; [|discriminate]. destruct (estimation_run _ (w_cfg e) _ _ _ _ _ _) as [[[l2 r2] g2]|] eqn:E2; [|discriminate].
    cbn [bind] in H, H2. injection H as <-. injection H2 as <-. unfold estimation_run in E, E2.
    destruct (lookup "pipeline" (w_cfg d)) as [[| | | | | | | |p]|] eqn:Lp; try discriminate. destruct (same_lookup _ _ _ _ Sc Lp) as (q & Lq & Sq). destruct (same_dict_inv _ _ Sq) as (p2 & ->).
    rewrite Lq in E2. destruct (lookup name p) as [[| | | | | | | |s]|] eqn:Ls; try discriminate. destruct (same_lookup _ _ _ _ Sq Ls) as (t & Lt & St). destruct (same_dict_inv _ _ St) as (s2 & ->).
    rewrite Lt in E2. bind_both E E2. pose proof (estimation_conf_same _ _ _ _ _ St A B) as Sk. clear A B.
    assert (F : forall k, int_field k y = int_field k x).
    { intros k. exact (read_lookup (fun o => match o with Some (JInt z) => Some z | _ => None end) k _ _ (fun _ _ => eq_refl) Sk). }
    rewrite !F in E2. destruct (int_field "range_row" x) as [rr|]; [|discriminate]. destruct (int_field "range_col" x) as [rc|]; [|discriminate]. cbn [bind] in E, E2.
    destruct (compute_estimation shifts rr rc) as [[dr dc] op]. destruct (add_disparity_grid _ _ _ _ _ _ _) as [g0|]; [|discriminate]. cbn [bind] in E, E2.
    bind_both E E2. injection E as <- <- <-. injection E2 as <- <- <-. unfold like. cbn. split; [|auto 9].
    refine (update_same_values _ _ _ _ _ _ _ _ _ A B). apply same_assign_values; [exact Sc|]. now apply same_assign_values.
  Qed.
  Lemma disparity_like c c2 d e d' e' : same_values c c2 -> like d e -> disparity_run c d = Some d' -> disparity_run c2 e = Some e' -> like d' e'.
  Proof.
    intros S (Sc & Li & Ri & Lg & Rg & T & V & M) H H2. unfold WholeModel.disparity_run in *. rewrite V in H2. destruct c as [| | | | | | | |x]; try discriminate. destruct (same_dict_inv _ _ S) as (y & ->).
    destruct (w_volumes d) as [[[mc m] cv]|]; [|discriminate]. bind_both H H2. pose proof (disparity_conf_same _ _ _ _ _ S A B) as Sk. clear A B.
    bind_both H H2. destruct (same_lookup _ _ _ _ Sk A) as (w & Lw & Sw). rewrite Lw in B. injection B as ->. rewrite (invalid_of_same _ _ Sw) in H2.
    destruct (compute_disp_maps _ _ _) as [[[col row] score]|]; [|discriminate]. cbn [bind] in H, H2. clear A Lw.
    bind_both H H2. destruct (path_same _ _ _ _ Sc A) as (w2 & Lw2 & Sw2). rewrite Lw2 in B. injection B as ->.
    injection H as <-. injection H2 as <-. unfold like. cbn. auto 9.
  Qed.
  Lemma refine_like c e i j vols col row score (d d2 : data) : same_values (JDict c) (JDict e) -> same_values i j -> like d d2 ->
    refine e j vols col row score d2 = refine c i vols col row score d.
  Proof.
    intros S Si (_ & Li & Ri & Lg & Rg & _). unfold WholeModel.refine. destruct vols as [[mc m] cv]. rewrite Li, Ri, Lg, Rg.
    rewrite (invalid_of_same _ _ Si), (invalid_num_same _ _ Si), !(int_at_same bool_ok _ _ _ S), (steps_at_same bool_ok "step" _ _ S).
    assert (F : match lookup "filter" e, int_at bool_ok ["iterations"] c with
      | Some (JDict f), Some n => let apply := filter_apply f in
          let flt := match lookup "method" f with Some (JStr k) => if k =? "bicubic" then bicubic_filter apply else sinc_filter (sinc_half bool_ok f) apply | _ => bicubic_filter apply end in
          bind (refinement_method one store flt (Z.to_nat n) cv (invalid_of one i) col row (grids_of (w_left d))) (fun res => let '(col', row', score') := res in Some (InUnits col' row' score'))
      | _, _ => None end = match lookup "filter" c, int_at bool_ok ["iterations"] c with
      | Some (JDict f), Some n => let apply := filter_apply f in
          let flt := match lookup "method" f with Some (JStr k) => if k =? "bicubic" then bicubic_filter apply else sinc_filter (sinc_half bool_ok f) apply | _ => bicubic_filter apply end in
          bind (refinement_method one store flt (Z.to_nat n) cv (invalid_of one i) col row (grids_of (w_left d))) (fun res => let '(col', row', score') := res in Some (InUnits col' row' score'))
      | _, _ => None end).
    { destruct (lookup "filter" c) as [v|] eqn:E; [|now rewrite (same_none _ _ _ S E)]. destruct (same_lookup _ _ _ _ S E) as (w & -> & Sw).
      destruct v as [| | | | | | | |f]; try (rewrite (same_leaf_eq _ _ Sw eq_refl); reflexivity). destruct (same_dict_inv _ _ Sw) as (g & ->).
      destruct (int_at bool_ok ["iterations"] c) as [n|]; [|reflexivity]. cbv zeta. rewrite (Hfilter _ _ Sw).
      assert (sinc_half bool_ok g = sinc_half bool_ok f) as ->.
      { exact (read_lookup (fun o => match o with Some j => match as_int bool_ok j with Some z => Z.to_nat z | None => 6%nat end | None => 6%nat end) "size" f g (fun _ _ => eq_refl) Sw). }
      assert (forall a b : filter, match lookup "method" g with Some (JStr k) => if k =? "bicubic" then a else b | _ => a end =
        match lookup "method" f with Some (JStr k) => if k =? "bicubic" then a else b | _ => a end) as ->; [|reflexivity].
      intros a b. exact (read_lookup (fun o => match o with Some (JStr k) => if k =? "bicubic" then a else b | _ => a end) "method" f g (fun _ _ => eq_refl) Sw). }
    cbv zeta in F |- *. rewrite F. destruct (lookup "refinement_method" c) as [v|] eqn:E; [|now rewrite (same_none _ _ _ S E)].
    destruct (same_lookup _ _ _ _ S E) as (w & -> & Sw). destruct Sw; reflexivity.
  Qed.
  Lemma refinement_like c c2 st w d e d' e' : same_values c c2 -> like d e -> refinement_run c st w d = Some d' -> refinement_run c2 st w e = Some e' -> like d' e'.
  Proof.
    intros S L H H2. pose proof L as (Sc & Li & Ri & Lg & Rg & T & V & M). unfold WholeModel.refinement_run in *. rewrite V in H2.
    destruct c as [| | | | | | | |x]; try discriminate. destruct (same_dict_inv _ _ S) as (y & ->). destruct (w_volumes d) as [vols|]; [|discriminate].
    destruct (w_maps d) as [[i [col row score|]]|]; try discriminate. destruct (w_maps e) as [[j m]|]; [|contradiction]. destruct M as [Si ->].
    bind_both H H2. pose proof (refinement_conf_same _ _ _ _ _ _ _ S A B) as Sk. rewrite (refine_like _ _ _ _ vols col row score _ _ Sk Si L) in H2.
    destruct (refine x0 i vols col row score d) as [m0|]; [|discriminate]. cbn [bind] in H, H2. injection H as <-. injection H2 as <-. unfold like. cbn. auto 9.
  Qed.
  Definition like_data (d e : option data) : Prop := match d, e with Some x, Some y => like x y | None, None => True | _, _ => False end.
  Lemma step_like cb name c c2 mg st w d e d' e' : same_values c c2 -> like_data d e -> run_step cb name c mg st w d = Some d' -> run_step cb name c2 mg st w e = Some e' -> like_data d' e'.
  Proof.
    intros S L H H2. unfold WholeModel.run_step in *. destruct d as [d|]; [|discriminate]. destruct e as [e|]; [|discriminate]. cbn [bind] in H, H2. cbn [like_data] in L.
    match type of H with option_map _ ?a = _ => destruct a as [x|] eqn:A; [|discriminate] end. match type of H2 with option_map _ ?a = _ => destruct a as [y|] eqn:B; [|discriminate] end.
    injection H as <-. injection H2 as <-. cbn [like_data]. destruct cb; try (injection A as <-; injection B as <-; exact L).
    - exact (estimation_like _ _ _ _ _ _ _ S L A B).
    - exact (matching_like _ _ _ _ _ _ _ S L A B).
    - exact (disparity_like _ _ _ _ _ _ S L A B).
    - exact (refinement_like _ _ _ _ _ _ _ _ S L A B).
  Qed.

  (** The runs of the machines. *)
  Notation est_conf := (est_conf bool_ok).
  Notation mc_conf := (mc_conf pandora_check matching_cost_margins).
  Notation disp_conf := (disp_conf bool_ok (mkMargins 0 0 0 0)).
  Notation ref_conf := (ref_conf bool_ok (refinement_margins bool_ok)).
  Notation trigger_all := (MachineModel.trigger_all est_conf mc_conf disp_conf ref_conf run_step).
  Notation call := (MachineModel.call est_conf mc_conf disp_conf ref_conf run_step).
  Notation mach := (@machine json (option data) margins json json).
  Definition like_machine (m m2 : mach) : Prop := m_state m2 = m_state m /\ m_step m2 = m_step m /\ m_window m2 = m_window m /\
    m_cumulative m2 = m_cumulative m /\ m_non_cumulative m2 = m_non_cumulative m /\ like_data (m_data m) (m_data m2).
  Lemma call_run n name c (m : mach) : call (run_callback n) name c m =
    option_map (fun d => set_data d m) (run_step (run_callback n) name c (lookup "refinement" (m_non_cumulative m)) (m_step m) (m_window m) (m_data m)).
  Proof.
    unfold run_callback. destruct (n =? "estimation"); [|destruct (n =? "matching_cost"); [|destruct (n =? "disparity")]]; cbn [MachineModel.call];
      destruct (run_step _ _ _ _ _ _ _); reflexivity.
  Qed.
  Lemma same_tail name c c2 (p q : dict) : keys q = keys p -> wf (JDict ((name, c) :: p)) -> wf (JDict ((name, c2) :: q)) -> same_values (JDict ((name, c) :: p)) (JDict ((name, c2) :: q)) ->
    wf (JDict p) /\ wf (JDict q) /\ same_values c c2 /\ same_values (JDict p) (JDict q).
  Proof.
    intros K W W2 S. pose proof (wf_dict_inv _ W) as [Hn Hd]. pose proof (wf_dict_inv _ W2) as [Hn2 Hd2]. inversion Hn as [|? ? N1 Hn']; subst. inversion Hn2 as [|? ? N2 Hn2']; subst.
    split; [constructor; [exact Hn'|]; intros k v Hin; apply (Hd k); now right|]. split; [constructor; [exact Hn2'|]; intros k v Hin; apply (Hd2 k); now right|]. split.
    - destruct (same_lookup _ _ name c S) as (x & Lx & Sx); [cbn; now rewrite String.eqb_refl|]. cbn in Lx. rewrite String.eqb_refl in Lx. injection Lx as <-. exact Sx.
    - constructor; [intros k; exact (lookup_keys_none p q k K)|]. intros k v w Hv Hw.
      assert (Hk : (k =? name) = false).
      { destruct (k =? name) eqn:E; [|reflexivity]. apply String.eqb_eq in E. subst k. exfalso. apply N1. apply lookup_in. congruence. }
      destruct (same_lookup _ _ k v S) as (x & Lx & Sx); [cbn; now rewrite Hk|]. cbn in Lx. rewrite Hk in Lx. congruence.
  Qed.
  Lemma run_like p : forall q (m m2 m' m2' : mach), MachineProofs.run_machine m -> MachineProofs.run_machine m2 -> like_machine m m2 -> keys q = keys p -> wf (JDict p) -> wf (JDict q) ->
    same_values (JDict p) (JDict q) -> trigger_all before_dot p m = (m', None) -> trigger_all before_dot q m2 = (m2', None) -> like_machine m' m2'.
  Proof.
    induction p as [|[name c] p IH]; intros q m m2 m' m2' Rm Rm2 L K W W2 S H H2; destruct q as [|[name2 c2] q]; try discriminate.
    - cbn [MachineModel.trigger_all] in H, H2. injection H as <-. injection H2 as <-. exact L.
    - cbn in K. injection K as -> K. cbn [MachineModel.trigger_all] in H, H2. rewrite trigger_run in H by exact Rm. rewrite trigger_run in H2 by exact Rm2.
      destruct (same_tail _ _ _ _ _ K W W2 S) as (Wp & Wq & Sc & St). pose proof L as (Es & Est & Ew & Ec & En & Ed). rewrite Es in H2.
      destruct (next (m_state m) (before_dot name)) as [s'|]; [|discriminate].
      destruct (call (run_callback (before_dot name)) name c m) as [m1|] eqn:E; [|discriminate]. destruct (call (run_callback (before_dot name)) name c2 m2) as [m12|] eqn:E2; [|discriminate].
      refine (IH q (set_state s' m1) (set_state s' m12) m' m2' _ _ _ K Wp Wq St H H2).
      + eapply run_machine_call; [exact Rm | exact E].
      + eapply run_machine_call; [exact Rm2 | exact E2].
      + rewrite call_run in E, E2. rewrite Est, Ew, En in E2. destruct (run_step _ _ _ _ _ _ (m_data m)) as [d|] eqn:A in E; [|discriminate].
        destruct (run_step _ _ _ _ _ _ (m_data m2)) as [d2|] eqn:B in E2; [|discriminate]. injection E as <-. injection E2 as <-.
        unfold like_machine, set_state, set_data. cbn. repeat (split; [reflexivity || assumption|]). exact (step_like _ _ _ _ _ _ _ _ _ _ _ Sc Ed A B).
  Qed.
  Lemma whole_run_like p q d e (m m2 m' m2' : mach) : m_state m = Begin -> m_transitions m = [] -> m_transitions m2 = [] -> like_machine m m2 -> like_data d e ->
    keys q = keys p -> wf (JDict p) -> wf (JDict q) -> same_values (JDict p) (JDict q) ->
    MachineModel.run est_conf mc_conf disp_conf ref_conf run_step d p m = (m', None) -> MachineModel.run est_conf mc_conf disp_conf ref_conf run_step e q m2 = (m2', None) ->
    like_machine m' m2'.
  Proof.
    intros Hs Ht Ht2 (L1 & L2 & L3 & L4 & L5 & _) Ld K W W2 S H H2. unfold MachineModel.run in *.
    destruct (trigger_all before_dot p (run_prepare d m)) as [m1 [er|]] eqn:E; [discriminate|]. destruct (trigger_all before_dot q (run_prepare e m2)) as [m12 [er|]] eqn:E2; [discriminate|].
    assert (R : MachineProofs.run_machine (run_prepare d m)) by (exists 0%nat; unfold run_prepare, add_transitions; cbn; rewrite Ht; reflexivity).
    assert (R2 : MachineProofs.run_machine (run_prepare e m2)) by (exists 0%nat; unfold run_prepare, add_transitions; cbn; rewrite Ht2; reflexivity).
    assert (Lm : like_machine (run_prepare d m) (run_prepare e m2)) by (unfold like_machine, run_prepare, add_transitions; cbn; auto 9).
    destruct (run_like _ _ _ _ _ _ R R2 Lm K W W2 S E E2) as (A1 & A2 & A3 & A4 & A5 & A6).
    pose proof (trigger_all_transitions _ _ _ _ _ _ _ _ _ _ E) as T1. pose proof (trigger_all_transitions _ _ _ _ _ _ _ _ _ _ E2) as T2.
    unfold run_exit in H, H2.
    rewrite (remove_all transitions_run 0) in H; [|auto|rewrite T1; unfold run_prepare, add_transitions; cbn; now rewrite Ht].
    rewrite (remove_all transitions_run 0) in H2; [|auto|rewrite T2; unfold run_prepare, add_transitions; cbn; now rewrite Ht2].
    injection H as <-. injection H2 as <-. unfold like_machine, set_state, set_transitions. cbn. auto 9.
  Qed.

  (** Before the run. *)
  Lemma assign2_other k1 k2 v c c' k : EstimationModel.assign2 k1 k2 v c = Some c' -> k <> k1 -> lookup k c' = lookup k c.
  Proof.
    intros H Hk. unfold EstimationModel.assign2 in H. destruct (lookup k1 c) as [[| | | | | | | |x]|]; try discriminate. injection H as <-.
    rewrite lookup_assign. destruct (k =? k1) eqn:E; [apply String.eqb_eq in E; contradiction | reflexivity].
  Qed.
  Lemma prepare_like mg c e c' e' r r2 : same_values (JDict c) (JDict e) -> prepare_roi bool_ok open_raster mg c = Some (c', r) -> prepare_roi bool_ok open_raster mg e = Some (e', r2) ->
    same_values (JDict c') (JDict e') /\ r2 = r /\ lookup "pipeline" c' = lookup "pipeline" c /\ lookup "pipeline" e' = lookup "pipeline" e.
  Proof.
    intros S H H2. unfold prepare_roi in *. pose proof (has_roi_same _ _ S) as R. destruct (lookup "ROI" c); destruct (lookup "ROI" e); try discriminate R.
    - bind_both H H2. pose proof (assign2_same _ _ _ _ _ _ _ _ S (same_self _) A B) as S1.
      rewrite (roi_of_same bool_ok _ _ S1), !(disparity_at_same open_raster _ _ _ S1) in H2.
      destruct (roi_of bool_ok x) as [ro|]; [|discriminate]. cbn [bind] in H, H2.
      destruct (bind (disparity_at open_raster "col_disparity" x) roi_disparity) as [col|]; [|discriminate]. cbn [bind] in H, H2.
      destruct (bind (disparity_at open_raster "row_disparity" x) roi_disparity) as [row|]; [|discriminate]. cbn [bind] in H, H2.
      destruct (get_roi_processing ro col row) as [pp|]; [|discriminate]. cbn [bind] in H, H2.
      bind_both H H2. injection H as <- <-. injection H2 as <- <-. split; [exact (assign2_same _ _ _ _ _ _ _ _ S1 (same_self _) A0 B0)|]. split; [reflexivity|].
      split; [rewrite (assign2_other _ _ _ _ _ "pipeline" A0), (assign2_other _ _ _ _ _ "pipeline" A) by discriminate; reflexivity|].
      rewrite (assign2_other _ _ _ _ _ "pipeline" B0), (assign2_other _ _ _ _ _ "pipeline" B) by discriminate; reflexivity.
    - injection H as <- <-. injection H2 as <- <-. auto.
  Qed.
  Lemma create_like a b r col row right x y : same_values a b -> create_dataset image_size load transform_of a r col row right = Some x ->
    create_dataset image_size load transform_of b r col row right = Some y -> y = x.
  Proof.
    intros S H H2. unfold create_dataset in *. destruct a as [| | | | | | | |s]; try discriminate. destruct (same_dict_inv _ _ S) as (t & ->).
    destruct (lookup "img" s) as [[| | | | | |path| |]|] eqn:E; try discriminate. rewrite (same_lookup_leaf _ _ _ _ S E eq_refl) in H2.
    rewrite (Hload _ _ S), (Htransform _ _ S) in H2. congruence.
  Qed.
  Lemma datasets_like r c e c' e' l l2 g g2 : same_values (JDict c) (JDict e) -> create_datasets image_size open_raster load transform_of r c = Some (c', l, g) ->
    create_datasets image_size open_raster load transform_of r e = Some (e', l2, g2) ->
    same_values (JDict c') (JDict e') /\ l2 = l /\ g2 = g /\ lookup "pipeline" c' = lookup "pipeline" c /\ lookup "pipeline" e' = lookup "pipeline" e.
  Proof.
    intros S H H2. unfold create_datasets in *. rewrite (has_estimation_same _ _ S) in H2.
    bind_both H H2.
    assert (S1 : same_values (JDict x) (JDict y) /\ lookup "pipeline" x = lookup "pipeline" c /\ lookup "pipeline" y = lookup "pipeline" e).
    { destruct (has_estimation c).
      - bind_both A B. pose proof (assign2_same _ _ _ _ _ _ _ _ S (same_self _) A0 B0) as S0. split; [exact (assign2_same _ _ _ _ _ _ _ _ S0 (same_self _) A B)|].
        rewrite (assign2_other _ _ _ _ _ "pipeline" A), (assign2_other _ _ _ _ _ "pipeline" A0) by discriminate.
        rewrite (assign2_other _ _ _ _ _ "pipeline" B), (assign2_other _ _ _ _ _ "pipeline" B0) by discriminate. auto.
      - destruct (lookup "input" c) as [[| | | | | | | |i]|]; try discriminate. destruct (lookup "input" e) as [[| | | | | | | |j]|]; try discriminate.
        destruct (check_disparities i); [|discriminate]. destruct (check_disparities j); [|discriminate]. injection A as <-. injection B as <-. auto. }
    destruct S1 as (S1 & P1 & P2). rewrite !(disparity_at_same open_raster _ _ _ S1) in H2. clear A B.
    destruct (disparity_at open_raster "col_disparity" x) as [col|]; [|discriminate]. destruct (disparity_at open_raster "row_disparity" x) as [row|]; [|discriminate]. cbn [bind] in H, H2.
    destruct (get_path ["input"; "left"] (JDict x)) as [jl|] eqn:El; [|discriminate]. destruct (get_path ["input"; "right"] (JDict x)) as [jr|] eqn:Er; [|discriminate].
    destruct (path_same _ _ _ _ S1 El) as (kl & Ekl & Skl). destruct (path_same _ _ _ _ S1 Er) as (kr & Ekr & Skr). rewrite Ekl, Ekr in H2.
    bind_both H H2. pose proof (create_like _ _ _ _ _ _ _ _ Skl A B) as ->. clear A B. bind_both H H2. pose proof (create_like _ _ _ _ _ _ _ _ Skr A B) as ->.
    injection H as <- <- <-. injection H2 as <- <- <-. auto.
  Qed.

  Lemma process_like user user2 r r2 : wf (JDict user) -> wf (JDict user2) -> same_values (JDict user) (JDict user2) -> same_steps user user2 ->
    process user = Some r -> process user2 = Some r2 ->
    same_maps (r_maps r) (r_maps r2) /\ same_values (JDict (r_cfg r)) (JDict (r_cfg r2)) /\ r_margins r2 = r_margins r.
  Proof.
    intros W W2 S K H H2. unfold WholeModel.process in *.
    destruct (check_user user (new_machine None)) as [m [cfg|]] eqn:C; [|discriminate]. destruct (check_user user2 (new_machine None)) as [m2 [cfg2|]] eqn:C2; [|discriminate].
    cbn [bind] in H, H2. unfold WholeModel.check_user in C, C2.
    pose proof (checked_same _ _ _ _ _ _ _ _ _ _ _ Hpandora Hread _ _ _ _ _ _ _ W W2 S K C C2) as Sc.
    destruct (checked_alike _ _ _ _ _ _ _ _ _ _ _ Hpandora Hread _ _ _ _ _ _ _ W W2 S K C C2) as (Hs & Ht & Al & p & q & Lp & Lq & Kpq & Wp & Wq).
    destruct Al as (As & At & Ast & Aw & _ & _ & _ & Am). destruct (Am (refinement_margins_same bool_ok)) as [Ac An]. rewrite Ac, An in H2.
    destruct (prepare_roi _ _ _ cfg) as [[c1 ro]|] eqn:E1; [|discriminate]. destruct (prepare_roi _ _ _ cfg2) as [[e1 ro2]|] eqn:F1; [|discriminate]. cbn [bind] in H, H2.
    destruct (prepare_like _ _ _ _ _ _ _ Sc E1 F1) as (S1 & -> & P1 & Q1).
    destruct (create_datasets _ _ _ _ _ c1) as [[[c2 l] g]|] eqn:E2; [|discriminate]. destruct (create_datasets _ _ _ _ _ e1) as [[[e2 l2] g2]|] eqn:F2; [|discriminate]. cbn [bind] in H, H2.
    destruct (datasets_like _ _ _ _ _ _ _ _ _ S1 E2 F2) as (S2 & -> & -> & P2 & Q2).
    destruct (check_datasets _ _ _); [|discriminate]. destruct l as [[li lg] tr]. destruct g as [[ri rg] tr2].
    rewrite P2, P1, Lp in H. rewrite Q2, Q1, Lq in H2.
    assert (Spq : same_values (JDict p) (JDict q)) by (destruct (same_lookup _ _ _ _ Sc Lp) as (z & Lz & Sz); congruence).
    unfold WholeModel.run_machine in H, H2.
    destruct (MachineModel.run _ _ _ _ _ _ p m) as [m' [er|]] eqn:R in H; [discriminate|]. destruct (MachineModel.run _ _ _ _ _ _ q m2) as [m2' [er|]] eqn:R2 in H2; [discriminate|].
    assert (Ld : like_data (Some (mkData c2 li ri lg rg tr None None)) (Some (mkData e2 li ri lg rg tr None None))) by (unfold like_data, like; cbn; auto 9).
    assert (Lm : like_machine m' m2').
    { refine (whole_run_like _ _ _ _ (set_data None m) (set_data None m2) m' m2' _ _ _ _ Ld Kpq Wp Wq Spq _ _).
      - exact Hs. - exact Ht. - cbn. congruence.
      - unfold like_machine. cbn. auto 9.
      - exact R.
      - exact R2. }
    destruct Lm as (_ & _ & _ & B4 & B5 & B6). destruct (m_data m') as [d|]; [|discriminate]. destruct (m_data m2') as [e|]; [|discriminate]. cbn [bind] in H, H2.
    injection H as <-. injection H2 as <-. cbn [r_maps r_cfg r_margins]. rewrite B4, B5. split; [|split; [apply B6 | reflexivity]].
    destruct B6 as (_ & _ & _ & _ & _ & T & V & M). unfold maps_dataset_of. rewrite V, T. destruct (w_volumes d) as [[[a b] cv]|]; [|exact I].
    unfold same_maps in M. destruct (w_maps d) as [[i x]|], (w_maps e) as [[j y]|]; try contradiction; [|exact I]. destruct M as [Si ->]. destruct x; cbn [same_maps]; auto.
  Qed.
  Lemma saving_same c e : same_values (JDict c) (JDict e) -> saving bool_ok e = saving bool_ok c.
  Proof.
    intros S. unfold saving. rewrite (roi_of_same bool_ok _ _ S), (read_path (mc_steps bool_ok) ["pipeline"; "matching_cost"; "step"] _ _ (fun _ _ => eq_refl) S).
    pose proof (has_roi_same _ _ S) as R. destruct (lookup "ROI" c), (lookup "ROI" e); try discriminate; reflexivity.
  Qed.
  Lemma main_like user user2 o o2 : wf (JDict user) -> wf (JDict user2) -> same_values (JDict user) (JDict user2) -> same_steps user user2 ->
    main user = Some o -> main user2 = Some o2 -> o_maps o2 = o_maps o /\ same_maps (o_reported o) (o_reported o2) /\ same_values (JDict (o_cfg o)) (JDict (o_cfg o2)).
  Proof.
    intros W W2 S K H H2. unfold WholeModel.main in *. destruct (process user) as [r|] eqn:E; [|discriminate]. destruct (process user2) as [r2|] eqn:E2; [|discriminate].
    cbn [bind] in H, H2. destruct (process_like _ _ _ _ W W2 S K E E2) as (M & Sc & Mg). rewrite Mg in H2.
    assert (Sa := same_assign_values _ _ "margins" _ _ Sc (same_self (margins_to_dict (fst (r_margins r)) (snd (r_margins r))))).
    rewrite (saving_same _ _ Sc) in H2. unfold same_maps in M. destruct (r_maps r) as [[i ds]|], (r_maps r2) as [[j ds2]|]; try contradiction.
    - destruct M as [Si ->]. destruct (saving bool_ok (r_cfg r)) as [s|]; [|discriminate]. cbn [bind] in H, H2. destruct (save_dataset ds s) as [p|]; [|discriminate]. cbn [bind] in H, H2.
      injection H as <-. injection H2 as <-. cbn. auto.
    - injection H as <-. injection H2 as <-. cbn. auto.
  Qed.

  (** What succeeds for one succeeds for the other. *)
  Lemma assign2_exists k1 k2 v c e c' : same_values (JDict c) (JDict e) -> EstimationModel.assign2 k1 k2 v c = Some c' -> exists e', EstimationModel.assign2 k1 k2 v e = Some e'.
  Proof.
    intros S H. unfold EstimationModel.assign2 in *. destruct (lookup k1 c) as [[| | | | | | | |x]|] eqn:E; try discriminate.
    destruct (same_lookup _ _ _ _ S E) as (y & Ey & Sy). destruct (same_dict_inv _ _ Sy) as (z & ->). rewrite Ey. eauto.
  Qed.
  Lemma assign3_exists k1 k2 k3 v c e c' : same_values (JDict c) (JDict e) -> assign3 k1 k2 k3 v c = Some c' -> exists e', assign3 k1 k2 k3 v e = Some e'.
  Proof.
    intros S H. unfold assign3 in *. destruct (lookup k1 c) as [[| | | | | | | |x]|] eqn:E; try discriminate.
    destruct (same_lookup _ _ _ _ S E) as (y & Ey & Sy). destruct (same_dict_inv _ _ Sy) as (z & ->). rewrite Ey.
    destruct (EstimationModel.assign2 k2 k3 v x) as [x'|] eqn:A; [|discriminate]. destruct (assign2_exists _ _ _ _ _ _ Sy A) as (z' & ->). eauto.
  Qed.
  Lemma assign_all_exists k1 k2 extra : forall c e c', same_values (JDict c) (JDict e) -> assign_all k1 k2 extra c = Some c' -> exists e', assign_all k1 k2 extra e = Some e'.
  Proof.
    induction extra as [|[k v] l IH]; intros c e c' S H; cbn [assign_all] in *; [eauto|].
    destruct (assign3 k1 k2 k v c) as [x|] eqn:A; [|discriminate]. destruct (assign3_exists _ _ _ _ _ _ _ S A) as (y & B). rewrite B.
    exact (IH _ _ _ (assign3_same _ _ _ _ _ _ _ _ S A B) H).
  Qed.
  Lemma update_exists c e dc dr sh ex c' : same_values (JDict c) (JDict e) -> update_cfg_with_estimation c dc dr sh ex = Some c' -> exists e', update_cfg_with_estimation e dc dr sh ex = Some e'.
  Proof.
    intros S H. unfold update_cfg_with_estimation in *.
    match type of H with bind ?a _ = _ => destruct a as [x1|] eqn:A; [|discriminate H]; cbn [bind] in H end. destruct (assign2_exists _ _ _ _ _ _ S A) as (y1 & B). rewrite B. cbn [bind].
    pose proof (assign2_same _ _ _ _ _ _ _ _ S (same_self _) A B) as S1. clear A B.
    match type of H with bind ?a _ = _ => destruct a as [x2|] eqn:A; [|discriminate H]; cbn [bind] in H end. destruct (assign2_exists _ _ _ _ _ _ S1 A) as (y2 & B). rewrite B. cbn [bind].
    pose proof (assign2_same _ _ _ _ _ _ _ _ S1 (same_self _) A B) as S2. clear A B.
    match type of H with bind ?a _ = _ => destruct a as [x3|] eqn:A; [|discriminate H]; cbn [bind] in H end. destruct (assign3_exists _ _ _ _ _ _ _ S2 A) as (y3 & B). rewrite B. cbn [bind].
    pose proof (assign3_same _ _ _ _ _ _ _ _ S2 A B) as S3. destruct ex as [l|]; [exact (assign_all_exists _ _ _ _ _ _ S3 H) | eauto].
  Qed.
  Lemma not_none {A} (o : option A) : o <> None -> exists x, o = Some x.
  Proof. destruct o; [eauto | congruence]. Qed.
  Lemma nodup_of d : wf (JDict d) -> NoDup (keys d).
  Proof. intros W. exact (proj1 (wf_dict_inv _ W)). Qed.
  Lemma estimation_exists x y x' : wf (JDict x) -> wf (JDict y) -> same_values (JDict x) (JDict y) -> estimation_check_conf bool_ok x = Some x' -> exists y', estimation_check_conf bool_ok y = Some y'.
  Proof.
    intros W W2 S H. apply not_none. apply estimation_accepts; [now apply nodup_of|]. apply (estimation_same bool_ok x y S). apply estimation_accepts; [now apply nodup_of | congruence].
  Qed.
  Lemma disparity_exists x y x' : wf (JDict x) -> wf (JDict y) -> same_values (JDict x) (JDict y) -> disparity_check_conf bool_ok x = Some x' -> exists y', disparity_check_conf bool_ok y = Some y'.
  Proof.
    intros W W2 S H. apply not_none. apply disparity_accepts; [now apply nodup_of|]. apply (disparity_same bool_ok x y S). apply disparity_accepts; [now apply nodup_of | congruence].
  Qed.
  Lemma matching_exists x y x' : same_values (JDict x) (JDict y) -> matching_cost_init pandora_check x = Some x' -> exists y', matching_cost_init pandora_check y = Some y'.
  Proof.
    intros S H. apply not_none. assert (N : matching_cost_init pandora_check x <> None) by congruence. apply matching_cost_accepts in N. apply matching_cost_accepts.
    destruct N as (m & a & b & Hm & Hs & Hst & Ha & Hb & Hp). exists m, a, b.
    split; [apply (same_lookup_leaf _ _ _ _ S Hm); destruct Hs as (s & _ & ->); reflexivity|]. split; [exact Hs|].
    split; [destruct (lookup "step" x) as [v|] eqn:E; [subst v; now rewrite (same_lookup_leaf _ _ _ _ S E eq_refl) | now rewrite (same_none _ _ _ S E)]|].
    split; [exact Ha|]. split; [exact Hb|]. rewrite (Hread _ _ (same_assign _ _ "step" b S (number_leaf _ Hb))). exact Hp.
  Qed.
  Lemma refinement_exists st w x y x' : wf (JDict x) -> wf (JDict y) -> same_values (JDict x) (JDict y) -> refinement_init bool_ok st w x = Some x' -> exists y', refinement_init bool_ok st w y = Some y'.
  Proof.
    intros W W2 S H. apply not_none. assert (N : refinement_init bool_ok st w x <> None) by congruence. clear H. unfold refinement_init in *.
    destruct (lookup "refinement_method" x) as [[| | | | | |s| |]|] eqn:El; try congruence. rewrite (same_lookup_leaf _ _ _ _ S El eq_refl).
    destruct (s =? "dichotomy"); [apply dichotomy_accepts; [exact W2|]; apply (dichotomy_same bool_ok x y S); now apply dichotomy_accepts|].
    destruct (s =? "optical_flow").
    { apply optical_flow_accepts in N; [|now apply nodup_of]. apply optical_flow_accepts; [now apply nodup_of|]. destruct N as (N & R). split; [exact (flow_same bool_ok x y S N) | exact R]. }
    destruct (s =? "interpolation"); [|congruence]. apply interpolation_accepts; [now apply nodup_of|]. apply (interpolation_same x y S). now apply interpolation_accepts; [apply nodup_of|].
  Qed.

  Definition wf_data (d : option data) : Prop := match d with Some x => wf (JDict (w_cfg x)) | None => True end.
  Lemma step_exists cb name c c2 mg st w d e d' : wf c -> wf c2 -> (cb = EstimationRun -> wf_data d /\ wf_data e) -> same_values c c2 -> like_data d e ->
    run_step cb name c mg st w d = Some d' -> exists e', run_step cb name c2 mg st w e = Some e'.
  Proof.
    intros Wc Wc2 We S L H. unfold WholeModel.run_step in *. destruct d as [d|]; [|discriminate]. destruct e as [e|]; [|contradiction]. cbn [bind] in *. cbn [like_data] in L.
    match type of H with option_map _ ?a = _ => destruct a as [x|] eqn:A; [|discriminate] end. clear H.
    enough (exists y, match cb with EstimationRun => estimation_step name c2 e | MatchingCostRun => matching_cost_run c2 mg e | DisparityRun => disparity_run c2 e
      | RefinementRun => refinement_run c2 st w e | _ => Some e end = Some y) as (y & ->) by (eexists; reflexivity).
    pose proof L as (Sc & Li & Ri & Lg & Rg & T & V & M). destruct cb; try (eexists; reflexivity).
    - destruct (We eq_refl) as [Wd We']. cbn [wf_data] in Wd, We'. unfold WholeModel.estimation_step in *. rewrite (Hestimate _ _ S), Li, Ri, Lg, Rg.
      destruct (estimate c (w_left_image d) (w_right_image d)) as [[shifts err] phase].
      destruct (estimation_run _ (w_cfg d) _ _ _ _ _ _) as [[[l r] g]|] eqn:E; [|discriminate]. clear A.
      enough (exists z, estimation_run bool_ok (w_cfg e) name (w_left d) (w_right d) shifts err phase = Some z) as ([[l2 r2] g2] & ->) by (cbn [bind]; eexists; reflexivity).
      unfold estimation_run in *.
      destruct (lookup "pipeline" (w_cfg d)) as [[| | | | | | | |p]|] eqn:Lp; try discriminate. destruct (same_lookup _ _ _ _ Sc Lp) as (q & Lq & Sq). destruct (same_dict_inv _ _ Sq) as (p2 & ->).
      rewrite Lq. destruct (lookup name p) as [[| | | | | | | |s]|] eqn:Ls; try discriminate. destruct (same_lookup _ _ _ _ Sq Ls) as (t & Lt & St). destruct (same_dict_inv _ _ St) as (s2 & ->).
      rewrite Lt. match type of E with bind ?a _ = _ => destruct a as [x0|] eqn:A; [|discriminate E]; cbn [bind] in E end.
      destruct (estimation_exists s s2 x0 (wf_lookup _ _ _ (wf_lookup _ _ _ Wd Lp) Ls) (wf_lookup _ _ _ (wf_lookup _ _ _ We' Lq) Lt) St A) as (y0 & B). rewrite B. cbn [bind].
      pose proof (estimation_conf_same _ _ _ _ _ St A B) as Sk. clear A B.
      assert (F : forall k, int_field k y0 = int_field k x0).
      { intros k. exact (read_lookup (fun o => match o with Some (JInt z) => Some z | _ => None end) k _ _ (fun _ _ => eq_refl) Sk). }
      rewrite !F. destruct (int_field "range_row" x0) as [rr|]; [|discriminate]. destruct (int_field "range_col" x0) as [rc|]; [|discriminate]. cbn [bind] in *.
      destruct (compute_estimation shifts rr rc) as [[dr dc] op]. destruct (add_disparity_grid _ _ _ _ _ _ _) as [g0|]; [|discriminate]. cbn [bind] in *.
      match type of E with bind ?a _ = _ => destruct a as [x1|] eqn:A; [|discriminate E]; cbn [bind] in E end.
      refine (match update_exists _ _ _ _ _ _ _ _ A with ex_intro _ y1 B => _ end); [|rewrite B; cbn [bind]; eexists; reflexivity].
      apply same_assign_values; [exact Sc|]. now apply same_assign_values.
    - unfold WholeModel.matching_cost_run in *. destruct c as [| | | | | | | |s]; try discriminate. destruct (same_dict_inv _ _ S) as (s2 & ->).
      destruct (matching_cost_init pandora_check s) as [x0|] eqn:E; [|discriminate]. destruct (matching_exists _ _ _ S E) as (y0 & E2). rewrite E2.
      rewrite <- (matching_cost_conf_same _ Hread _ _ _ _ S E E2). cbn [bind] in *. rewrite (input_like x0 mg d e L), Li, Ri.
      destruct (matching_cost_input x0 mg d) as [m|]; [|discriminate]. cbn [bind] in *. destruct (compute_cost_volumes _ _ _ _ _) as [cv|]; [|discriminate]. eexists; reflexivity.
    - unfold WholeModel.disparity_run in *. rewrite V. destruct c as [| | | | | | | |s]; try discriminate. destruct (same_dict_inv _ _ S) as (s2 & ->).
      destruct (w_volumes d) as [[[mc m] cv]|]; [|discriminate]. destruct (disparity_check_conf bool_ok s) as [x0|] eqn:E; [|discriminate].
      destruct (disparity_exists _ _ _ Wc Wc2 S E) as (y0 & E2). rewrite E2. cbn [bind] in *. pose proof (disparity_conf_same _ _ _ _ _ S E E2) as Sk.
      destruct (lookup "invalid_disparity" x0) as [i|] eqn:Ei; [|discriminate]. destruct (same_lookup _ _ _ _ Sk Ei) as (j & -> & Sj). cbn [bind] in *. rewrite (invalid_of_same _ _ Sj).
      destruct (compute_disp_maps _ _ _) as [[[col row] score]|]; [|discriminate]. cbn [bind] in *.
      destruct (get_path _ (JDict (w_cfg d))) as [i2|] eqn:Ep; [|discriminate]. destruct (path_same _ _ _ _ Sc Ep) as (j2 & -> & _). eexists; reflexivity.
    - unfold WholeModel.refinement_run in *. rewrite V. destruct c as [| | | | | | | |s]; try discriminate. destruct (same_dict_inv _ _ S) as (s2 & ->).
      destruct (w_volumes d) as [vols|]; [|discriminate]. destruct (w_maps d) as [[i [col row score|]]|]; try discriminate. destruct (w_maps e) as [[j m]|]; [|contradiction]. destruct M as [Si ->].
      destruct (refinement_init bool_ok st _ s) as [x0|] eqn:E; [|discriminate]. destruct (refinement_exists _ _ _ _ _ Wc Wc2 S E) as (y0 & E2). rewrite E2. cbn [bind] in *.
      rewrite (refine_like _ _ _ _ vols col row score _ _ (refinement_conf_same _ _ _ _ _ _ _ S E E2) Si L). destruct (refine x0 i vols col row score d); [|discriminate]. eexists; reflexivity.
  Qed.
  Lemma next_not_begin s n s' : next s n = Some s' -> s' <> Begin.
  Proof. destruct s; cbn; repeat match goal with |- context [if ?b then _ else _] => destruct b end; intros H; try discriminate; injection H as <-; discriminate. Qed.
  Lemma run_exists p : forall q (m m2 m' : mach), MachineProofs.run_machine m -> MachineProofs.run_machine m2 -> like_machine m m2 ->
    (m_state m = Begin -> wf_data (m_data m) /\ wf_data (m_data m2)) -> keys q = keys p -> wf (JDict p) -> wf (JDict q) ->
    same_values (JDict p) (JDict q) -> trigger_all before_dot p m = (m', None) -> exists m2', trigger_all before_dot q m2 = (m2', None).
  Proof.
    induction p as [|[name c] p IH]; intros q m m2 m' Rm Rm2 L Wd K W W2 S H; destruct q as [|[name2 c2] q]; try discriminate.
    - cbn [MachineModel.trigger_all]. eauto.
    - cbn in K. injection K as -> K. cbn [MachineModel.trigger_all] in *. rewrite trigger_run in H by exact Rm. rewrite trigger_run by exact Rm2.
      destruct (same_tail _ _ _ _ _ K W W2 S) as (Wp & Wq & Sc & St). pose proof L as (Es & Est & Ew & Ec & En & Ed). rewrite Es.
      destruct (next (m_state m) (before_dot name)) as [s'|] eqn:Nx; [|discriminate].
      destruct (call (run_callback (before_dot name)) name c m) as [m1|] eqn:E; [|discriminate].
      assert (L1 : lookup name ((name, c) :: p) = Some c) by (cbn; now rewrite String.eqb_refl). assert (L2 : lookup name ((name, c2) :: q) = Some c2) by (cbn; now rewrite String.eqb_refl).
      pose proof (wf_lookup _ _ _ W L1) as Wc. pose proof (wf_lookup _ _ _ W2 L2) as Wc2.
      rewrite call_run in E. destruct (run_step _ _ _ _ _ _ (m_data m)) as [d|] eqn:A; [|discriminate].
      assert (We : run_callback (before_dot name) = EstimationRun -> wf_data (m_data m) /\ wf_data (m_data m2)).
      { intros X. apply Wd. unfold run_callback in X. destruct (before_dot name =? "estimation") eqn:Y; [|destruct (_ =? "matching_cost"); [|destruct (_ =? "disparity")]; discriminate].
        apply String.eqb_eq in Y. rewrite Y in Nx. destruct (m_state m); try discriminate. reflexivity. }
      destruct (step_exists _ _ _ _ _ _ _ _ _ _ Wc Wc2 We Sc Ed A) as (d2 & B).
      assert (E2 : call (run_callback (before_dot name)) name c2 m2 = Some (set_data d2 m2)) by (rewrite call_run, Est, Ew, En, B; reflexivity). rewrite E2. injection E as <-.
      refine (IH q (set_state s' (set_data d m)) (set_state s' (set_data d2 m2)) m' _ _ _ _ K Wp Wq St H).
      + destruct Rm as (k & Rk). exists k. exact Rk.
      + destruct Rm2 as (k & Rk). exists k. exact Rk.
      + unfold like_machine, set_state, set_data. cbn. repeat (split; [reflexivity || assumption|]). exact (step_like _ _ _ _ _ _ _ _ _ _ _ Sc Ed A B).
      + cbn. intros X. now apply next_not_begin in Nx.
  Qed.
  Lemma existsb_key k (d : dict) : existsb (fun k' => k =? k') (keys d) = match lookup k d with Some _ => true | None => false end.
  Proof. induction d as [|[a v] d IH]; [reflexivity|]. cbn. destruct (k =? a); [reflexivity | exact IH]. Qed.
  Lemma present_same k d e : same_values (JDict d) (JDict e) -> match lookup k e with Some _ => true | None => false end = match lookup k d with Some _ => true | None => false end.
  Proof. intros S. exact (read_lookup (fun o => match o with Some _ => true | None => false end) k _ _ (fun _ _ => eq_refl) S). Qed.
  Lemma same_keys_half d e l : same_values (JDict d) (JDict e) -> same_keys d l = true -> same_keys e l = true.
  Proof.
    intros S H. unfold same_keys in *. apply andb_prop in H. destruct H as [A B]. apply andb_true_intro. rewrite forallb_forall in *. rewrite forallb_forall. split.
    - intros k Hk. apply A. apply (lookup_in k d). apply (lookup_in k e) in Hk. intros X. apply Hk. exact (same_none _ _ _ S X).
    - intros k Hk. specialize (B k Hk). rewrite existsb_key in *. now rewrite (present_same k d e S).
  Qed.
  Lemma types_half a b : same_values a b -> check_disparity_types a = true -> check_disparity_types b = true.
  Proof.
    intros S H. unfold check_disparity_types in *. destruct a as [| | | | | | | |d]; try discriminate. destruct (same_dict_inv _ _ S) as (e & ->).
    destruct (same_keys d ["init"; "range"]) eqn:E; [|discriminate]. rewrite (same_keys_half _ _ _ S E). cbn [negb] in *.
    destruct (lookup "init" d) as [i|] eqn:Ei; [|discriminate]. destruct (lookup "range" d) as [r|] eqn:Er; [|discriminate].
    assert (Di : is_dict i = false) by (destruct i; try discriminate; reflexivity). assert (Dr : is_dict r = false) by (destruct r; try reflexivity; destruct (negb _); discriminate).
    rewrite (same_lookup_leaf _ _ _ _ S Ei Di), (same_lookup_leaf _ _ _ _ S Er Dr). exact H.
  Qed.
  Lemma disparities_half i j : same_values (JDict i) (JDict j) -> check_disparities i = true -> check_disparities j = true.
  Proof.
    intros S H. unfold check_disparities in *. apply andb_prop in H. destruct H as [A B]. apply andb_true_intro. split.
    - unfold check_disparity_presence, missing in *. cbn [List.filter] in *. rewrite !existsb_key in *. rewrite !(present_same _ i j S). exact A.
    - destruct (lookup "col_disparity" i) as [a|] eqn:Ea; [|discriminate]. destruct (lookup "row_disparity" i) as [b|] eqn:Eb; [|discriminate].
      destruct (same_lookup _ _ _ _ S Ea) as (a2 & -> & Sa). destruct (same_lookup _ _ _ _ S Eb) as (b2 & -> & Sb). apply andb_prop in B. destruct B as [B1 B2].
      apply andb_true_intro. split; [exact (types_half _ _ Sa B1) | exact (types_half _ _ Sb B2)].
  Qed.
  Lemma prepare_exists mg c e c' r : same_values (JDict c) (JDict e) -> prepare_roi bool_ok open_raster mg c = Some (c', r) -> exists e', prepare_roi bool_ok open_raster mg e = Some (e', r).
  Proof.
    intros S H. unfold prepare_roi in *. pose proof (has_roi_same _ _ S) as R. destruct (lookup "ROI" c); destruct (lookup "ROI" e); try discriminate R.
    - match type of H with bind ?a _ = _ => destruct a as [x|] eqn:A; [|discriminate H]; cbn [bind] in H end. destruct (assign2_exists _ _ _ _ _ _ S A) as (y & B). rewrite B. cbn [bind].
      pose proof (assign2_same _ _ _ _ _ _ _ _ S (same_self _) A B) as S1. rewrite (roi_of_same bool_ok _ _ S1), !(disparity_at_same open_raster _ _ _ S1).
      destruct (roi_of bool_ok x) as [ro|]; [|discriminate]. cbn [bind] in *.
      destruct (bind (disparity_at open_raster "col_disparity" x) roi_disparity) as [col|]; [|discriminate]. cbn [bind] in *.
      destruct (bind (disparity_at open_raster "row_disparity" x) roi_disparity) as [row|]; [|discriminate]. cbn [bind] in *.
      destruct (get_roi_processing ro col row) as [pp|]; [|discriminate]. cbn [bind] in *.
      match type of H with bind ?a _ = _ => destruct a as [x2|] eqn:A2; [|discriminate H]; cbn [bind] in H end. destruct (assign2_exists _ _ _ _ _ _ S1 A2) as (y2 & B2). rewrite B2. cbn [bind].
      injection H as <- <-. eauto.
    - injection H as <- <-. eauto.
  Qed.
  Lemma create_exists a b r col row right x : same_values a b -> create_dataset image_size load transform_of a r col row right = Some x ->
    create_dataset image_size load transform_of b r col row right = Some x.
  Proof.
    intros S H. unfold create_dataset in *. destruct a as [| | | | | | | |s]; try discriminate. destruct (same_dict_inv _ _ S) as (t & ->).
    destruct (lookup "img" s) as [[| | | | | |path| |]|] eqn:E; try discriminate. rewrite (same_lookup_leaf _ _ _ _ S E eq_refl).
    rewrite (Hload _ _ S), (Htransform _ _ S). exact H.
  Qed.
  Lemma datasets_exists r c e c' l g : same_values (JDict c) (JDict e) -> create_datasets image_size open_raster load transform_of r c = Some (c', l, g) ->
    exists e', create_datasets image_size open_raster load transform_of r e = Some (e', l, g).
  Proof.
    intros S H. unfold create_datasets in *. rewrite (has_estimation_same _ _ S).
    match type of H with bind ?a _ = _ => destruct a as [x|] eqn:A; [|discriminate H]; cbn [bind] in H end.
    match goal with |- context [bind ?b _] => assert (B : exists y, b = Some y /\ same_values (JDict x) (JDict y)) end.
    { destruct (has_estimation c).
      - match type of A with bind ?a _ = _ => destruct a as [x1|] eqn:A1; [|discriminate A]; cbn [bind] in A end. destruct (assign2_exists _ _ _ _ _ _ S A1) as (y1 & B1). rewrite B1. cbn [bind].
        pose proof (assign2_same _ _ _ _ _ _ _ _ S (same_self _) A1 B1) as S1. destruct (assign2_exists _ _ _ _ _ _ S1 A) as (y2 & B2). rewrite B2. exists y2. split; [reflexivity|].
        exact (assign2_same _ _ _ _ _ _ _ _ S1 (same_self _) A B2).
      - destruct (lookup "input" c) as [[| | | | | | | |i]|] eqn:Ei; try discriminate. destruct (same_lookup _ _ _ _ S Ei) as (j & -> & Sj). destruct (same_dict_inv _ _ Sj) as (k & ->).
        destruct (check_disparities i) eqn:Ed; [|discriminate]. rewrite (disparities_half _ _ Sj Ed). injection A as <-. eauto. }
    destruct B as (y & -> & S1). cbn [bind]. rewrite !(disparity_at_same open_raster _ _ _ S1).
    destruct (disparity_at open_raster "col_disparity" x) as [col|]; [|discriminate]. destruct (disparity_at open_raster "row_disparity" x) as [row|]; [|discriminate]. cbn [bind] in *.
    destruct (get_path ["input"; "left"] (JDict x)) as [jl|] eqn:El; [|discriminate]. destruct (get_path ["input"; "right"] (JDict x)) as [jr|] eqn:Er; [|discriminate].
    destruct (path_same _ _ _ _ S1 El) as (kl & -> & Skl). destruct (path_same _ _ _ _ S1 Er) as (kr & -> & Skr).
    match type of H with bind ?a _ = _ => destruct a as [xl|] eqn:Xl; [|discriminate H]; cbn [bind] in H end. rewrite (create_exists _ _ _ _ _ _ _ Skl Xl). cbn [bind].
    match type of H with bind ?a _ = _ => destruct a as [xr|] eqn:Xr; [|discriminate H]; cbn [bind] in H end. rewrite (create_exists _ _ _ _ _ _ _ Skr Xr). cbn [bind].
    injection H as <- <- <-. eauto.
  Qed.
  Lemma run_whole_exists p q d e (m m2 m' : mach) : m_transitions m = [] -> m_transitions m2 = [] -> like_machine m m2 -> like_data d e -> wf_data d -> wf_data e ->
    keys q = keys p -> wf (JDict p) -> wf (JDict q) -> same_values (JDict p) (JDict q) ->
    MachineModel.run est_conf mc_conf disp_conf ref_conf run_step d p m = (m', None) -> exists m2', MachineModel.run est_conf mc_conf disp_conf ref_conf run_step e q m2 = (m2', None).
  Proof.
    intros Ht Ht2 (L1 & L2 & L3 & L4 & L5 & _) Ld Wd We K W W2 S H. unfold MachineModel.run in *.
    destruct (trigger_all before_dot p (run_prepare d m)) as [m1 [er|]] eqn:E; [discriminate|].
    assert (R : MachineProofs.run_machine (run_prepare d m)) by (exists 0%nat; unfold run_prepare, add_transitions; cbn; rewrite Ht; reflexivity).
    assert (R2 : MachineProofs.run_machine (run_prepare e m2)) by (exists 0%nat; unfold run_prepare, add_transitions; cbn; rewrite Ht2; reflexivity).
    assert (Lm : like_machine (run_prepare d m) (run_prepare e m2)) by (unfold like_machine, run_prepare, add_transitions; cbn; auto 9).
    destruct (run_exists _ _ _ _ _ R R2 Lm (fun _ => conj Wd We) K W W2 S E) as (m12 & E2). rewrite E2.
    pose proof (trigger_all_transitions _ _ _ _ _ _ _ _ _ _ E2) as T2. unfold run_exit.
    rewrite (remove_all transitions_run 0); [|auto|rewrite T2; unfold run_prepare, add_transitions; cbn; now rewrite Ht2]. eauto.
  Qed.
  Lemma assign2_wf k1 k2 v c c' : wf (JDict c) -> wf v -> EstimationModel.assign2 k1 k2 v c = Some c' -> wf (JDict c').
  Proof.
    intros W Wv H. unfold EstimationModel.assign2 in H. destruct (lookup k1 c) as [[| | | | | | | |x]|] eqn:E; try discriminate. injection H as <-.
    apply assign_wf; [exact W|]. apply assign_wf; [exact (wf_lookup _ _ _ W E) | exact Wv].
  Qed.
  Lemma margins_wf m : wf (margins_json m).
  Proof. destruct m as [[[a b] c] d]. now apply wf_leaf. Qed.
  Lemma prepare_wf mg c c' r : wf (JDict c) -> prepare_roi bool_ok open_raster mg c = Some (c', r) -> wf (JDict c').
  Proof.
    intros W H. unfold prepare_roi in H. destruct (lookup "ROI" c); [|injection H as <- <-; exact W].
    match type of H with bind ?a _ = _ => destruct a as [x|] eqn:A; [|discriminate H]; cbn [bind] in H end. pose proof (assign2_wf _ _ _ _ _ W (margins_wf _) A) as Wx.
    repeat match type of H with bind ?a _ = _ => let X := fresh "X" in destruct a eqn:X; [|discriminate H]; cbn [bind] in H end. injection H as <- <-.
    refine (assign2_wf _ _ _ _ _ Wx (margins_wf _) _). eassumption.
  Qed.
  Lemma placeholder_wf : wf (json_of_disp placeholder).
  Proof. unfold json_of_disp. cbn. constructor; [repeat constructor; cbn; intuition discriminate|]. intros k v [X|[X|[]]]; injection X as <- <-; now apply wf_leaf. Qed.
  Lemma datasets_wf r c c' l g : wf (JDict c) -> create_datasets image_size open_raster load transform_of r c = Some (c', l, g) -> wf (JDict c').
  Proof.
    intros W H. unfold create_datasets in H. match type of H with bind ?a _ = _ => destruct a as [x|] eqn:A; [|discriminate H]; cbn [bind] in H end.
    assert (Wx : wf (JDict x)).
    { destruct (has_estimation c).
      - match type of A with bind ?a _ = _ => destruct a as [x1|] eqn:A1; [|discriminate A]; cbn [bind] in A end.
        exact (assign2_wf _ _ _ _ _ (assign2_wf _ _ _ _ _ W placeholder_wf A1) placeholder_wf A).
      - destruct (lookup "input" c) as [[| | | | | | | |i]|]; try discriminate. destruct (check_disparities i); [|discriminate]. now injection A as <-. }
    destruct (disparity_at open_raster "col_disparity" x); [|discriminate]. destruct (disparity_at open_raster "row_disparity" x); [|discriminate]. cbn [bind] in H.
    destruct (get_path ["input"; "left"] (JDict x)); [|discriminate]. destruct (get_path ["input"; "right"] (JDict x)); [|discriminate].
    repeat match type of H with bind ?a _ = _ => let X := fresh "X" in destruct a eqn:X; [|discriminate H]; cbn [bind] in H end. now injection H as <- _ _.
  Qed.
  Hypothesis Hsized : forall s, (0 < fst (image_size s))%nat /\ (0 < snd (image_size s))%nat.
  Lemma process_exists user user2 r : wf (JDict user) -> wf (JDict user2) -> same_values (JDict user) (JDict user2) -> same_steps user user2 ->
    process user = Some r -> exists r2, process user2 = Some r2.
  Proof.
    intros W W2 S K H. unfold WholeModel.process in *.
    destruct (check_user user (new_machine None)) as [m [cfg|]] eqn:C; [|discriminate].
    assert (X : exists m2 cfg2, check_user user2 (new_machine None) = (m2, Some cfg2)).
    { unfold WholeModel.check_user in *. apply check_conf_accepts; auto. apply (accepted_same _ _ _ _ _ _ _ Hread user user2 W2 S K).
      refine (proj1 (check_conf_accepts _ _ Hpandora _ _ _ _ _ _ _ _ Hsized _ user None W) _). eauto. }
    destruct X as (m2 & cfg2 & C2). rewrite C2.
    cbn [bind] in *. unfold WholeModel.check_user in C, C2.
    pose proof (checked_same _ _ _ _ _ _ _ _ _ _ _ Hpandora Hread _ _ _ _ _ _ _ W W2 S K C C2) as Sc.
    destruct (checked_alike _ _ _ _ _ _ _ _ _ _ _ Hpandora Hread _ _ _ _ _ _ _ W W2 S K C C2) as (Hs & Ht & Al & p & q & Lp & Lq & Kpq & Wp & Wq).
    destruct (check_conf_again _ _ _ _ _ _ _ _ _ _ _ Hpandora _ _ _ _ W C) as (Wc & _). destruct (check_conf_again _ _ _ _ _ _ _ _ _ _ _ Hpandora _ _ _ _ W2 C2) as (Wc2 & _).
    destruct Al as (As & At & Ast & Aw & _ & _ & _ & Am). destruct (Am (refinement_margins_same bool_ok)) as [Ac An]. rewrite Ac, An.
    destruct (prepare_roi _ _ _ cfg) as [[c1 ro]|] eqn:E1; [|discriminate]. destruct (prepare_exists _ _ _ _ _ Sc E1) as (e1 & F1). rewrite F1. cbn [bind] in *.
    destruct (prepare_like _ _ _ _ _ _ _ Sc E1 F1) as (S1 & _ & P1 & Q1).
    destruct (create_datasets _ _ _ _ _ c1) as [[[c2 l] g]|] eqn:E2; [|discriminate]. destruct (datasets_exists _ _ _ _ _ _ S1 E2) as (e2 & F2). rewrite F2. cbn [bind] in *.
    destruct (datasets_like _ _ _ _ _ _ _ _ _ S1 E2 F2) as (S2 & _ & _ & P2 & Q2).
    destruct (check_datasets _ _ _); [|discriminate]. destruct l as [[li lg] tr]. destruct g as [[ri rg] tr2].
    rewrite P2, P1, Lp in H. rewrite Q2, Q1, Lq.
    assert (Spq : same_values (JDict p) (JDict q)) by (destruct (same_lookup _ _ _ _ Sc Lp) as (z & Lz & Sz); congruence).
    unfold WholeModel.run_machine in *.
    destruct (MachineModel.run _ _ _ _ _ _ p m) as [m' [er|]] eqn:R in H; [discriminate|].
    assert (Ld : like_data (Some (mkData c2 li ri lg rg tr None None)) (Some (mkData e2 li ri lg rg tr None None))) by (unfold like_data, like; cbn; auto 9).
    assert (L0 : like_machine (set_data None m) (set_data None m2)) by (unfold like_machine; cbn; auto 9).
    assert (T2 : m_transitions m2 = []) by congruence.
    assert (Wd : wf (JDict c2)) by exact (datasets_wf _ _ _ _ _ (prepare_wf _ _ _ _ Wc E1) E2). assert (We : wf (JDict e2)) by exact (datasets_wf _ _ _ _ _ (prepare_wf _ _ _ _ Wc2 F1) F2).
    destruct (run_whole_exists p q _ _ (set_data None m) (set_data None m2) m' Ht T2 L0 Ld Wd We Kpq Wp Wq Spq R) as (m2' & R2).
    change (MachineModel.run est_conf mc_conf disp_conf ref_conf run_step (Some (mkData e2 li ri lg rg tr None None)) q m2 = (m2', None)) in R2. rewrite R2.
    pose proof (whole_run_like _ _ _ _ (set_data None m) (set_data None m2) m' m2' Hs Ht T2 L0 Ld Kpq Wp Wq Spq R R2) as (_ & _ & _ & _ & _ & B6).
    destruct (m_data m') as [d|]; [|discriminate]. destruct (m_data m2') as [e|]; [|contradiction]. cbn [bind]. eauto.
  Qed.
  Lemma main_exists user user2 o : wf (JDict user) -> wf (JDict user2) -> same_values (JDict user) (JDict user2) -> same_steps user user2 ->
    main user = Some o -> exists o2, main user2 = Some o2.
  Proof.
    intros W W2 S K H. unfold WholeModel.main in *. destruct (process user) as [r|] eqn:E; [|discriminate]. destruct (process_exists _ _ _ W W2 S K E) as (r2 & E2). rewrite E2.
    cbn [bind] in *. destruct (process_like _ _ _ _ W W2 S K E E2) as (M & Sc & _). rewrite (saving_same _ _ Sc).
    unfold same_maps in M. destruct (r_maps r) as [[i ds]|], (r_maps r2) as [[j ds2]|]; try contradiction; [|eauto].
    destruct M as [_ ->]. destruct (saving bool_ok (r_cfg r)) as [s|]; [|discriminate]. cbn [bind] in *. destruct (save_dataset ds s) as [p|]; [|discriminate]. cbn [bind]. eauto.
  Qed.
End Runs.
