(** C78: an example with grids of disparities, a subpix of 2 and a ROI. *)
From Coq Require Import List String Bool ZArith QArith Qabs Lia.
From Verif Require Import Base.Ext Base.PyList Base.Arr Base.Json Base.Dict Base.ZRange Model.CommonModel Model.DisparityModel Model.MatchingCostModel Model.DichotomyModel
  Model.RoiModel Model.InputModel Model.ConfigModel Model.DatasetModel Model.EstimationModel Model.OpticalFlowModel Model.InterpolationModel Model.MachineModel Model.CheckConfModel
  Model.PipelineModel Model.WholeModel Model.ImgShiftModel
  Spec.MatchingCostSpec Spec.DichotomySpec Spec.RoiSpec Spec.PipelineSpec Spec.ConfigSpec Spec.InputSpec Spec.MachineSpec Spec.CheckConfSpec Spec.AcceptSpec Spec.WholeSpec Spec.BestSpec Spec.WtaSpec Spec.ShiftSpec Spec.WholeEverySpec Spec.InterpolationSpec Spec.OpticalFlowSpec Spec.WholeRefineSpec Spec.WholeCompareSpec
  Proofs.CheckConfProofs Proofs.ConfigProofs Proofs.ConfigStepProofs Proofs.AcceptProofs Proofs.RoiProofs Proofs.WtaProofs Proofs.WtaTheorems Proofs.MatchingCostProofs Proofs.MatchingCostTheorems Proofs.PipelineProofs Proofs.WholeRunProofs Proofs.WholeProofs Proofs.WholeMainProofs Proofs.WholeMoreProofs Proofs.WholeEveryProofs Proofs.BestProofs Proofs.RefineBestProofs Proofs.WholeFlowProofs Proofs.ShiftProofs
  Props.RoiProps Props.PipelineProps Props.CheckConfProps Props.InterpolationProps Props.WholeProps Props.WholeMoreProps Props.WholeEveryProps Props.WholeRefineProps.
Import ListNotations.
Open Scope Z_scope.
Open Scope string_scope.
Open Scope list_scope.

(** Right image interpolated between two rows, then between two columns: twice the absolute difference with the left image. *)
Definition w12_zoomed (im : image Z) (_ : nat) (p c : nat) : Z :=
  (a2_get (im_data im) (Z.to_nat (Z.of_nat p / 2)) c + a2_get (im_data im) (Z.to_nat ((Z.of_nat p + 1) / 2)) c) / 2.
Definition w12_pixel (_ : dict) (left : image Z) (right : list (list Z)) (_ : list (list Z)) (r k : nat) (d : Z) : ext :=
  let p := 2 * Z.of_nat k + d in
  if Z.leb 0 p then
    match nth2 (to_list2 (im_data left)) r k, nth2 right r (Z.to_nat (p / 2)), nth2 right r (Z.to_nat ((p + 1) / 2)) with
    | Some a, Some b, Some b' => if Z.eqb b (-9999) || Z.eqb b' (-9999) then NaN else Fin (Z.abs (2 * a - (b + b')))
    | _, _, _ => NaN end
  else NaN.
Definition w12_cost (c : dict) (m : mc_input) (left : image Z) (right mask : list (list Z)) (r cc i : nat) : ext :=
  match nth_error (col_coords m) cc, disps_col m with
  | Some y, Some ds => match nth_error ds i with Some d => w12_pixel c left right mask r (Z.to_nat (y - mc_col0 m)) d | None => NaN end
  | _, _ => NaN end.
Lemma w12_not_worst c im a b r cc d : w12_pixel c im a b r cc d <> worst MeasureMin.
Proof. unfold w12_pixel. destruct (Z.leb _ _); [|discriminate]. destruct (nth2 _ _ _); [|discriminate]. destruct (nth2 _ _ _); [|discriminate]. destruct (nth2 _ _ _); [|discriminate]. destruct (_ || _); discriminate. Qed.
Lemma w12_libraries : libraries true wh_pandora (fun _ _ _ _ => true) wh_size wh_load (fun _ => true) (fun _ => MeasureMin) w12_cost 512.
Proof.
  destruct wh_libraries as (L1 & L2 & L3 & L4 & L5 & L6 & L7 & _). do 7 (split; [assumption|]).
  intros c m im a b r cc i. unfold w12_cost. destruct (nth_error (col_coords m) cc); [|discriminate]. destruct (disps_col m); [|discriminate]. destruct (nth_error l i); [|discriminate]. apply w12_not_worst.
Qed.
Lemma w12_contract : cost_contract (fun _ => MeasureMin) w12_cost w12_pixel.
Proof. split; [|intros; apply w12_not_worst]. intros c m im a b r cc i y ds d H1 H2 H3. unfold w12_cost. now rewrite H1, H2, H3. Qed.
(** The values in the coordinates of the whole image. *)
Definition w12_right (rg : dict) (p y : Z) : Z := if Z.eqb (p mod 2) 0 then w3_image rg (p / 2) y else (w3_image rg (p / 2) y + w3_image rg ((p + 1) / 2) y) / 2.
Lemma w12_bounds rg p y : 0 <= w12_right rg p y.
Proof.
  assert (T : forall r c, 0 <= wh_texture r c) by (intros r c; unfold wh_texture; apply Z.mod_pos_bound; lia).
  assert (I : forall r c, 0 <= w3_image rg r c) by (intros r c; unfold w3_image; destruct (match lookup "img" rg with Some (JStr p0) => p0 =? "left.tif" | _ => false end); apply T).
  unfold w12_right. destruct (Z.eqb (p mod 2) 0); [apply I|]. apply Z.div_pos; [|lia]. pose proof (I (p / 2) y). pose proof (I ((p + 1) / 2) y). lia.
Qed.
Lemma w12_moved rg row0 nrow col0 ncol x dr c : row0 <= x < row0 + Z.of_nat nrow ->
  right_value (w12_zoomed (wh_load rg row0 nrow col0 ncol) 2) (wh_load rg row0 nrow col0 ncol) 2 (Z.of_nat (Z.to_nat (x - row0)) * 2 + dr) c =
  if Z.leb (row0 * 2) (x * 2 + dr) && Z.leb (x * 2 + dr) ((row0 + Z.of_nat nrow - 1) * 2) then w12_right rg (x * 2 + dr) (col0 + Z.of_nat c) else -9999.
Proof.
  intros Hx. rewrite Z2Nat.id by lia. unfold right_value. cbn [wh_load im_data a2_n0 a2_n1 a2_get im_no_data]. set (P := x * 2 + dr). change (Z.of_nat 2) with 2.
  replace ((x - row0) * 2 + dr) with (P - row0 * 2) by (unfold P; lia).
  destruct (Z.leb_spec 0 (P - row0 * 2)), (Z.leb_spec (row0 * 2) P); try lia; cbn [andb]; try reflexivity.
  destruct (Z.leb_spec (P - row0 * 2) ((Z.of_nat nrow - 1) * 2)), (Z.leb_spec P ((row0 + Z.of_nat nrow - 1) * 2)); try lia; cbn [andb]; try reflexivity.
  assert (E1 : (P - row0 * 2) / 2 = P / 2 - row0) by (replace (P - row0 * 2) with (P + (- row0) * 2) by lia; rewrite Z.div_add by lia; lia).
  assert (E2 : (P - row0 * 2 + 1) / 2 = (P + 1) / 2 - row0) by (replace (P - row0 * 2 + 1) with (P + 1 + (- row0) * 2) by lia; rewrite Z.div_add by lia; lia).
  assert (E3 : (P - row0 * 2) mod 2 = P mod 2) by (replace (P - row0 * 2) with (P + (- row0) * 2) by lia; apply Z.mod_add; lia).
  assert (B1 : 0 <= P / 2 - row0) by (rewrite <- E1; apply Z.div_pos; lia). assert (B2 : 0 <= (P + 1) / 2 - row0) by (rewrite <- E2; apply Z.div_pos; lia).
  rewrite E3. unfold w12_right, w12_zoomed. cbn [wh_load im_data a2_n0 a2_n1 a2_get]. rewrite !(Z2Nat.id (P - row0 * 2)) by lia. rewrite E1, E2, !Z2Nat.id by lia.
  replace (row0 + (P / 2 - row0)) with (P / 2) by lia. replace (row0 + ((P + 1) / 2 - row0)) with ((P + 1) / 2) by lia. reflexivity.
Qed.
Lemma w12_pair l rg c row0 nrow col0 ncol x y dr dc : row0 <= x < row0 + Z.of_nat nrow -> col0 <= y < col0 + Z.of_nat ncol ->
  let cost := pair_cost Z.eqb (w12_pixel c (wh_load l row0 nrow col0 ncol)) (w12_zoomed (wh_load rg row0 nrow col0 ncol) 2) (wh_load rg row0 nrow col0 ncol) 2 row0 col0 x y dr dc in
  (fits 0 2 x dr row0 (row0 + Z.of_nat nrow) -> fits 0 2 y dc col0 (col0 + Z.of_nat ncol) ->
     cost = Fin (Z.abs (2 * w3_image l x y - (w12_right rg (x * 2 + dr) ((2 * y + dc) / 2) + w12_right rg (x * 2 + dr) ((2 * y + dc + 1) / 2))))) /\
  (~ (fits 0 2 x dr row0 (row0 + Z.of_nat nrow) /\ fits 0 2 y dc col0 (col0 + Z.of_nat ncol)) -> cost = NaN).
Proof.
  intros Hx Hy cost. subst cost. unfold pair_cost, w12_pixel. rewrite (Z2Nat.id (y - col0)) by lia. set (p := 2 * (y - col0) + dc). rewrite !nth2_list2. unfold right_moved. cbn [a2_n0 a2_n1 a2_get].
  change (Z.of_nat 2) with 2. rewrite !w12_moved by assumption. cbn [wh_load im_data a2_n0 a2_n1 a2_get].
  assert (Lr : (Z.to_nat (x - row0) <? nrow)%nat = true) by (apply Nat.ltb_lt; lia). assert (Lk : (Z.to_nat (y - col0) <? ncol)%nat = true) by (apply Nat.ltb_lt; lia). rewrite Lr, Lk. cbn [andb].
  pose proof (Z.div_mod p 2). pose proof (Z.mod_pos_bound p 2). pose proof (Z.div_mod (p + 1) 2). pose proof (Z.mod_pos_bound (p + 1) 2). unfold fits. split.
  - intros F1 F2. destruct (Z.leb_spec 0 p); [|lia]. destruct (Nat.ltb_spec (Z.to_nat (p / 2)) ncol); [|lia]. destruct (Nat.ltb_spec (Z.to_nat ((p + 1) / 2)) ncol); [|lia].
    destruct (Z.leb_spec (row0 * 2) (x * 2 + dr)); [|lia]. destruct (Z.leb_spec (x * 2 + dr) ((row0 + Z.of_nat nrow - 1) * 2)); [|lia]. cbn [andb].
    assert (N : forall u, (Z.eqb (w12_right rg (x * 2 + dr) u) (-9999)) = false) by (intros u; pose proof (w12_bounds rg (x * 2 + dr) u); apply Z.eqb_neq; lia). rewrite !N. cbn [orb].
    rewrite !Z2Nat.id by lia.
    assert (E1 : col0 + p / 2 = (2 * y + dc) / 2) by (replace (2 * y + dc) with (p + col0 * 2) by (unfold p; lia); rewrite Z.div_add by lia; lia).
    assert (E2 : col0 + (p + 1) / 2 = (2 * y + dc + 1) / 2) by (replace (2 * y + dc + 1) with (p + 1 + col0 * 2) by (unfold p; lia); rewrite Z.div_add by lia; lia).
    rewrite E1, E2. replace (row0 + (x - row0)) with x by lia. replace (col0 + (y - col0)) with y by lia. reflexivity.
  - intros N. destruct (Z.leb_spec 0 p); [|reflexivity]. destruct (Nat.ltb_spec (Z.to_nat (p / 2)) ncol); [|reflexivity]. destruct (Nat.ltb_spec (Z.to_nat ((p + 1) / 2)) ncol); [|reflexivity].
    destruct (Z.leb_spec (row0 * 2) (x * 2 + dr)); cbn [andb]; [|reflexivity]. destruct (Z.leb_spec (x * 2 + dr) ((row0 + Z.of_nat nrow - 1) * 2)); [|reflexivity]. exfalso. apply N. lia.
Qed.
Lemma w12_local l rg c rows cols : local_cost Z.eqb wh_load w12_zoomed w12_pixel 0 l rg c 2 rows cols.
Proof.
  intros row0 nrow col0 ncol x y dr dc H1 H2 H3 H4 H5 H6. cbv zeta. change (Z.to_nat 2) with 2%nat.
  destruct (w12_pair l rg c row0 nrow col0 ncol x y dr dc H5 H6) as [A B]. destruct (w12_pair l rg c 0 rows 0 cols x y dr dc) as [A' B']; [lia|lia|]. rewrite !Z.add_0_l in *. split.
  - intros F1 F2. rewrite A by assumption. rewrite A'; [reflexivity | unfold fits in *; lia | unfold fits in *; lia].
  - intros N. split; [apply B | apply B']; [|exact N]. intros [F1 F2]. apply N. unfold fits in *. lia.
Qed.

Definition w12_main : dict -> option outcome :=
  main Z.eqb 0 true wh_pandora (fun _ => mkMargins 0 0 0 0) (fun _ => true) (fun _ => true) (fun _ _ _ _ => true) wh_size wh_raster wh_load w3_transform (fun _ => true)
    (fun _ => MeasureMin) (fun _ => 0) w12_cost w12_zoomed 512 (fun x => x) wh_filter (fun _ _ => None) (fun w _ _ => w) (fun _ => []) (fun _ _ _ _ _ => CNan) (fun _ p _ => p)
    w3_estimate wh_margins wh_dict.
Definition w12_check (user : dict) := check_user Z.eqb 0 true wh_pandora (fun _ => mkMargins 0 0 0 0) (fun _ => true) (fun _ => true) (fun _ _ _ _ => true) wh_size wh_raster
    (fun _ => MeasureMin) (fun _ => 0) w12_cost w12_zoomed 512 (fun x => x) wh_filter (fun _ _ => None) (fun w _ _ => w) (fun _ => []) (fun _ _ _ _ _ => CNan) (fun _ p _ => p)
    w3_estimate user (new_machine None).
Notation w12_matching_of := (matching_of Z.eqb 0 true wh_pandora (fun _ => mkMargins 0 0 0 0) (fun _ => true) (fun _ => true) (fun _ _ _ _ => true) wh_size wh_raster
    (fun _ => MeasureMin) (fun _ => 0) w12_cost w12_zoomed 512 (fun x => x) wh_filter (fun _ _ => None) (fun w _ _ => w) (fun _ => []) (fun _ _ _ _ _ => CNan) (fun _ p _ => p)
    w3_estimate).
Definition w12_matching (user : dict) : option (dict * dict * dict * Z) :=
  match snd (w12_check user) with
  | Some cfg => match get_path ["input"; "left"] (JDict cfg), get_path ["input"; "right"] (JDict cfg), get_path ["pipeline"; "matching_cost"] (JDict cfg) with
      | Some (JDict l), Some (JDict r), Some (JDict s) => match matching_cost_init wh_pandora s with
          | Some c => match int_at true ["subpix"] c with Some n => Some (l, r, c, n) | None => None end | None => None end
      | _, _, _ => None end
  | None => None end.
Lemma w12_matching_spec user l r c n : w12_matching user = Some (l, r, c, n) -> w12_matching_of user l r c n.
Proof.
  unfold w12_matching. destruct (w12_check user) as [m [cfg|]] eqn:E; [|discriminate]. cbn [snd].
  destruct (get_path ["input"; "left"] (JDict cfg)) as [[| | | | | | | |dl]|] eqn:E1; try discriminate. destruct (get_path ["input"; "right"] (JDict cfg)) as [[| | | | | | | |dr]|] eqn:E2; try discriminate.
  destruct (get_path ["pipeline"; "matching_cost"] (JDict cfg)) as [[| | | | | | | |s]|] eqn:E3; try discriminate. destruct (matching_cost_init wh_pandora s) as [c'|] eqn:E4; [|discriminate].
  destruct (int_at true ["subpix"] c') as [n'|] eqn:E5; [|discriminate]. intros H. injection H as <- <- <- <-. exists m, cfg, s. auto 10.
Qed.
Definition w12_user (roi : dict) : dict :=
  [("input", JDict [("left", JDict [("img", JStr "left.tif")]); ("right", JDict [("img", JStr "right.tif")]); ("row_disparity", wh_disp (JStr "rows.tif") 1); ("col_disparity", wh_disp (JStr "cols.tif") 1)])] ++ roi ++
  [("pipeline", JDict [("matching_cost", JDict [("matching_cost_method", JStr "sad"); ("window_size", JInt 1); ("subpix", JInt 2); ("step", JList [JInt 1; JInt 1])]);
                       ("disparity", JDict [("disparity_method", JStr "wta"); ("invalid_disparity", JStr "NaN")])])].
Definition w12_request (z : option zone) : request := mkRequest (JStr "rows.tif") 1 (JStr "cols.tif") 1 1 1 z JNan.
Lemma w12_searched_roi : w3_searched (w12_user wh_roi) (w12_request (Some (mkZone 1 6 2 7))) 8 9.
Proof.
  split; [unfold w12_user, wh_roi, wh_disp; cbn [app]; split; [solve_wf|]; split; [apply wh_checked; [solve_wf | vm_compute; discriminate]|]
         | split; [eexists; split; reflexivity|]; right; split; [reflexivity|]; split; [reflexivity|]; intros s _; cbn; lia].
  split; [|split; [exists "left.tif"; split; reflexivity | cbn; lia]]. split; [wh_leaf|]; split; [wh_leaf|]; split; [wh_leaf|]; split; [wh_leaf|].
  split; [right; do 2 eexists; split; [reflexivity|]; split; apply int_int|]. split; [split; [wh_leaf|]; split; [wh_leaf|]; split; wh_leaf | right; wh_leaf].
Qed.
Lemma w12_searched : w3_searched (w12_user []) (w12_request None) 8 9.
Proof.
  split; [unfold w12_user, wh_disp; cbn [app]; split; [solve_wf|]; split; [apply wh_checked; [solve_wf | vm_compute; discriminate]|]
         | split; [eexists; split; reflexivity|]; right; split; [reflexivity|]; split; [reflexivity|]; intros s _; cbn; lia].
  split; [|split; [exists "left.tif"; split; reflexivity | exact I]]. split; [wh_leaf|]; split; [wh_leaf|]; split; [wh_leaf|]; split; [wh_leaf|].
  split; [right; do 2 eexists; split; [reflexivity|]; split; apply int_int|]. split; [reflexivity | right; wh_leaf].
Qed.
(** A pixel of the border of the ROI with a fractional disparity. *)
Example C78_grids_example : libraries true wh_pandora (fun _ _ _ _ => true) wh_size wh_load (fun _ => true) (fun _ => MeasureMin) w12_cost 512 /\ cost_contract (fun _ => MeasureMin) w12_cost w12_pixel /\
  w3_searched (w12_user wh_roi) (w12_request (Some (mkZone 1 6 2 7))) 8 9 /\ w3_searched (w12_user []) (w12_request None) 8 9 /\
  (exists l r c, w12_matching_of (w12_user wh_roi) l r c 2 /\ w12_matching_of (w12_user []) l r c 2 /\ local_cost Z.eqb wh_load w12_zoomed w12_pixel 0 l r c 2 8 9) /\
  (exists rows cols row_map col_map, wh_shown (w12_main (w12_user wh_roi)) = Some (Some (rows, cols, row_map, col_map)) /\ In (Some (1 # 2)%Q) (hd [] row_map)).
Proof.
  split; [exact w12_libraries|]. split; [exact w12_contract|]. split; [exact w12_searched_roi|]. split; [exact w12_searched|]. split.
  { destruct (w12_matching (w12_user wh_roi)) as [[[[l r] c] n]|] eqn:E; [|exfalso; vm_compute in E; discriminate]. exists l, r, c.
    assert (n = 2) as -> by (vm_compute in E; congruence).
    split; [now apply w12_matching_spec|]. split; [apply w12_matching_spec; rewrite <- E; vm_compute; reflexivity|]. apply w12_local. }
  do 4 eexists. split; [vm_compute; reflexivity|]. vm_compute. tauto.
Qed.
