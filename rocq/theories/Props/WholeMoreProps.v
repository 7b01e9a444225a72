(** C77, C78, C79: georeference and report of the saved maps; results of two configurations. *)
From Coq Require Import List String Bool ZArith QArith Lia.
From Verif Require Import Base.Ext Base.PyList Base.Arr Base.Json Base.Dict Model.CommonModel Model.DisparityModel Model.MatchingCostModel Model.DichotomyModel
  Model.RoiModel Model.InputModel Model.ConfigModel Model.DatasetModel Model.EstimationModel Model.OpticalFlowModel Model.InterpolationModel Model.MachineModel Model.CheckConfModel
  Model.PipelineModel Model.WholeModel Model.ImgShiftModel
  Spec.MatchingCostSpec Spec.DichotomySpec Spec.RoiSpec Spec.PipelineSpec Spec.ConfigSpec Spec.InputSpec Spec.MachineSpec Spec.CheckConfSpec Spec.AcceptSpec Spec.WholeSpec Spec.BestSpec Spec.WtaSpec Spec.ShiftSpec
  Proofs.ConfigProofs Proofs.AcceptProofs Proofs.RoiProofs Proofs.WtaProofs Proofs.WholeProofs Proofs.WholeMainProofs Proofs.WholeMoreProofs Props.RoiProps Props.PipelineProps Props.CheckConfProps Props.WholeProps.
Import ListNotations.
Open Scope Z_scope.
Open Scope string_scope.
Open Scope list_scope.

Lemma removed_transform {A} (ds d : dmaps A) cfg : remove_roi_margins ds cfg = Some d -> dm_transform d = dm_transform ds.
Proof.
  unfold remove_roi_margins. destruct (sc_step cfg) as [[rs cs]|]; [|discriminate]. destruct (sc_roi cfg) as [r|]; [|discriminate].
  destruct (roi_start (dm_cols ds) _ _); [|discriminate]. cbn [bind]. destruct (roi_stop (dm_cols ds) _ _); [|discriminate]. cbn [bind].
  destruct (roi_start (dm_rows ds) _ _); [|discriminate]. cbn [bind]. destruct (roi_stop (dm_rows ds) _ _); [|discriminate]. cbn [bind]. intros H. injection H as <-. reflexivity.
Qed.

Section Program.
  (** The libraries: see WholeModel. *)
  Context {px : Type} (px_eqb : px -> px -> bool) (nan : px).
  Variable bool_ok : bool.
  Variable pandora_check : dict -> option (json * json * json).
  Variable matching_cost_margins : dict -> margins.
  Variable can_open_mandatory can_open : json -> bool.
  Variable images_ok : json -> json -> json -> json -> bool.
  Variable image_size : string -> nat * nat.
  Variable open_raster : string -> reader.
  Variable load : dict -> Z -> nat -> Z -> nat -> image px.
  Variable transform_of : dict -> option affine.
  Variable dataset_ok : image_dataset (image px) -> bool.
  Variable measure_of : dict -> measure.
  Variable offset_of : dict -> Z.
  Variable pandora_cost : dict -> mc_input -> image px -> list (list px) -> list (list Z) -> nat -> nat -> nat -> ext.
  Variable zoomed : image px -> nat -> nat -> nat -> px.
  Variable one : Z.
  Variable store : ext -> ext.
  Variable filter_apply : dict -> list (list ext) -> Z -> Z -> ext.
  Variable lstsq : list (list px) -> list (list px) -> option (num * num).
  Variable resample : list (list px) -> num -> num -> list (list px).
  Variable junk : nat -> list (list px).
  Variable interp : list Q -> list Q -> list (list cost) -> num -> num -> cost.
  Variable minimise : (num -> num -> cost) -> num * num -> (Q * Q) * (Q * Q) -> num * num.
  Variable estimate : json -> image px -> image px -> (Q * Q) * json * json.
  Variable global_margins : list (string * margins) -> list (string * margins) -> margins.
  Variable margins_to_dict : list (string * margins) -> list (string * margins) -> json.
  Notation main := (main px_eqb nan bool_ok pandora_check matching_cost_margins can_open_mandatory can_open images_ok image_size open_raster load transform_of dataset_ok
    measure_of offset_of pandora_cost zoomed one store filter_apply lstsq resample junk interp minimise estimate global_margins margins_to_dict).
  Notation check_user := (check_user px_eqb nan bool_ok pandora_check matching_cost_margins can_open_mandatory can_open images_ok image_size open_raster
    measure_of offset_of pandora_cost zoomed one store filter_apply lstsq resample junk interp minimise estimate).
  Notation libraries := (libraries bool_ok pandora_check images_ok image_size load dataset_ok measure_of pandora_cost one).
  Notation dichotomy_libraries := (dichotomy_libraries bool_ok pandora_check pandora_cost one store).
  Notation asked := (asked bool_ok pandora_check can_open_mandatory can_open images_ok image_size open_raster).
  Notation asked_estimation := (asked_estimation bool_ok pandora_check can_open_mandatory can_open images_ok image_size open_raster).
  Notation cost_contract := (cost_contract measure_of pandora_cost).

  (** * C77: georeference and report *)
  (** The pipelines of C72 and C76. *)
  Definition supported (user : dict) (q : request) (rows cols : nat) : Prop :=
    exists estimation refinement : bool,
      (if estimation then asked_estimation user q rows cols else asked user q rows cols /\ forall s, q_row_init q = JStr s -> two_lines q rows cols) /\
      steps_are user ((if estimation then ["estimation"] else []) ++ ["matching_cost"; "disparity"] ++ (if refinement then ["refinement"] else [])) /\
      (refinement = true -> get_path ["pipeline"; "refinement"; "refinement_method"] (JDict user) = Some (JStr "dichotomy") /\ dichotomy_libraries) /\
      (refinement = false /\ (estimation = true \/ exists a b, constant (q_row_init q) a /\ constant (q_col_init q) b) \/ q_row_step q = 1 /\ q_col_step q = 1).
  Lemma supported_ran user q rows cols : libraries -> supported user q rows cols ->
    exists m cfg left mi sc mrow mcol score tr out saved after,
      check_user user (new_machine None) = (m, Some cfg) /\ get_path ["input"; "left"] (JDict cfg) = Some (JDict left) /\ tr = transform_of left /\
      main user = Some out /\ o_maps out = Some saved /\ o_reported out = Some (q_invalid q, after) /\ loaded mi sc (Z.of_nat rows) (Z.of_nat cols) /\
      rect (List.length (row_coords mi)) (List.length (col_coords mi)) mcol /\ rect (List.length (row_coords mi)) (List.length (col_coords mi)) mrow /\
      rect (List.length (row_coords mi)) (List.length (col_coords mi)) score /\ (q_zone q = None -> sc_roi sc = None) /\
      save_dataset (mkDmaps (row_coords mi) (col_coords mi) mrow mcol score tr) sc = Some (saved, after).
  Proof.
    intros (L1 & L2 & L3 & L4 & L5 & L6 & L7 & L8) (e & r & Ha & (raw & Lp & K) & D & C).
    assert (X : wf (JDict user) /\ accepted bool_ok pandora_check can_open_mandatory can_open images_ok image_size open_raster user /\ asks_others bool_ok user q /\
      (exists left_path, get_path ["input"; "left"; "img"] (JDict user) = Some (JStr left_path) /\ image_size left_path = (rows, cols)) /\
      match q_zone q with Some z => z_r0 z < Z.of_nat rows /\ z_c0 z < Z.of_nat cols | None => True end).
    { destruct e; [destruct Ha as (W & A & Ho & _ & G & Z); auto|]. destruct Ha as ((W & A & (_ & _ & _ & _ & Ho) & G & Z) & _). auto. }
    destruct X as (W & A & Ho & (p & G & S) & Z).
    destruct (main_ran px_eqb nan bool_ok pandora_check matching_cost_margins can_open_mandatory can_open images_ok image_size open_raster load transform_of dataset_ok
      measure_of offset_of pandora_cost zoomed one store filter_apply lstsq resample junk interp minimise estimate global_margins margins_to_dict L1 L2 L3 L4 L5 L6 L7 L8 user q rows cols p W A Ho G S Z)
      with (e := e) (raw := raw) (r := r)
      as (m & cfg & l & rg & x1 & c1 & sub & row0 & nrow & col0 & ncol & q' & mi & cv & mcol & mrow & score & sc & tr & out & saved & after & H); auto.
    { intros ->. destruct Ha as ((_ & _ & Q & _) & T). auto. }
    { intros ->. destruct Ha as (_ & _ & _ & Q & _). exact Q. }
    destruct H as (A1 & A2 & A3 & A4 & A5 & A6 & Fsub & Psub & Dsub & Wok & Hans & F1 & F2 & F3 & F4 & Fme & Wm & Hc2 & Hint & Ecv & Edm & R1 & R2 & R3 & Ld & Sto & Esave & Ez & Etr & Erep & Em & Eo & Hok).
    exists m, cfg, l, mi, sc, (map (map (cost_of_ext one)) mrow), (map (map (cost_of_ext one)) mcol), (map (map (cost_of_ext one)) score), tr, out, saved, after. do 3 (split; [eassumption|]). do 4 (split; [eassumption|]). do 3 (split; [apply rect_map; eassumption|]). split; [exact Ez | exact Esave].
  Qed.

  (** The transform of the saved maps. *)
  Theorem C77_georeference user q rows cols : libraries -> supported user q rows cols ->
    exists m cfg left out saved, check_user user (new_machine None) = (m, Some cfg) /\ get_path ["input"; "left"] (JDict cfg) = Some (JDict left) /\
      main user = Some out /\ o_maps out = Some saved /\ georeferenced (transform_of left) saved.
  Proof.
    intros L S. destruct (supported_ran user q rows cols L S) as (m & cfg & l & mi & sc & mrow & mcol & score & tr & out & saved & after & A1 & A2 & -> & A3 & A4 & A5 & Ld & R1 & R2 & R3 & Z & E).
    exists m, cfg, l, out, saved. do 4 (split; [assumption|]). unfold georeferenced. destruct (transform_of l) as [t|] eqn:Et.
    - destruct (C14_saved_maps_georeferenced (mkDmaps (row_coords mi) (col_coords mi) mrow mcol score (Some t)) mi sc _ _ t Ld) as (saved' & ds' & t' & E' & T & P); auto.
      { intros mm [-> | [-> | ->]]; assumption. }
      rewrite E in E'. injection E' as <- <-. rewrite T. exact P.
    - assert (T : dm_transform saved = None).
      { unfold save_dataset in E. destruct (sc_roi sc); [|injection E as <- _; reflexivity]. destruct (remove_roi_margins _ sc) as [d|] eqn:Er; [|discriminate]. cbn in E. injection E as <- _.
        cbn. apply removed_transform in Er. now rewrite Er. }
      now rewrite T.
  Qed.
  (** What the report is made of: without ROI the saved maps; in general the maps of the loaded window, of which the saved maps are a part. *)
  Theorem C77_reported user q rows cols : libraries -> supported user q rows cols ->
    exists out saved reported, main user = Some out /\ o_maps out = Some saved /\ o_reported out = Some (q_invalid q, reported) /\
      part_of saved reported /\ (q_zone q = None -> reported = saved).
  Proof.
    intros L S. destruct (supported_ran user q rows cols L S) as (m & cfg & l & mi & sc & mrow & mcol & score & tr & out & saved & after & A1 & A2 & _ & A3 & A4 & A5 & Ld & R1 & R2 & R3 & Z & E).
    exists out, saved, after. do 3 (split; [assumption|]). split.
    - destruct (saved_spec mi sc _ _ mrow mcol score tr Ld R2 R1 R3) as (saved' & after' & E' & _ & _ & _ & _ & _ & P). rewrite E in E'. injection E' as <- <-.
      assert (Ea : dm_rows after = row_coords mi /\ dm_cols after = col_coords mi /\ dm_row_map after = mrow /\ dm_col_map after = mcol /\ dm_score after = score).
      { unfold save_dataset in E. destruct (sc_roi sc); [|injection E as _ <-; auto]. destruct (remove_roi_margins _ _); [|discriminate]. cbn in E. injection E as _ <-. auto. }
      destruct Ea as (B1 & B2 & B3 & B4 & B5).
      intros x y vr vc vs (a & b & X1 & X2 & X3 & X4 & X5). destruct (P a b x y X1 X2) as (r & c & Hr & Hc & E1 & E2 & E3).
      exists r, c. rewrite B1, B2, B3, B4, B5, <- E1, <- E2, <- E3. auto.
    - intros Hz. unfold save_dataset in E. rewrite (Z Hz) in E. injection E as <- <-. reflexivity.
  Qed.

  (** * C78: the results of a pixel do not depend on the ROI *)
  (** With an estimation, for images of at most 9995 rows and columns. *)
  Theorem C78_estimation_roi pixel_cost user user' q zone' rows cols out out' saved saved' : libraries -> cost_contract pixel_cost ->
    asked_estimation user q rows cols -> asked_estimation user' (with_zone q zone') rows cols -> steps_are user ["estimation"; "matching_cost"; "disparity"] ->
    lookup "input" user' = lookup "input" user -> lookup "pipeline" user' = lookup "pipeline" user -> Z.of_nat rows <= 9995 -> Z.of_nat cols <= 9995 ->
    main user = Some out -> o_maps out = Some saved -> main user' = Some out' -> o_maps out' = Some saved' -> agree one q saved saved'.
  Proof.
    intros L K A A' S Hi Hp Br Bc M O M' O'. assert (S' : steps_are user' ["estimation"; "matching_cost"; "disparity"]) by (destruct S as (raw & Lr & Kr); exists raw; now rewrite Hp).
    destruct (C76_estimation px_eqb nan bool_ok pandora_check matching_cost_margins can_open_mandatory can_open images_ok image_size open_raster load transform_of dataset_ok
      measure_of offset_of pandora_cost zoomed one store filter_apply lstsq resample junk interp minimise estimate global_margins margins_to_dict pixel_cost user q rows cols L K A S)
      as (q1 & row0 & nrow & col0 & ncol & o & sv & E & M1 & O1 & R1 & B1).
    destruct (C76_estimation px_eqb nan bool_ok pandora_check matching_cost_margins can_open_mandatory can_open images_ok image_size open_raster load transform_of dataset_ok
      measure_of offset_of pandora_cost zoomed one store filter_apply lstsq resample junk interp minimise estimate global_margins margins_to_dict pixel_cost user' (with_zone q zone') rows cols L K A' S')
      as (q2 & row0' & nrow' & col0' & ncol' & o' & sv' & E' & M2 & O2 & R2 & B2).
    rewrite M in M1. injection M1 as <-. rewrite O in O1. injection O1 as <-. rewrite M' in M2. injection M2 as <-. rewrite O' in O2. injection O2 as <-.
    (* a pixel of both shows that the whole image is loaded *)
    intros x y vr vc vs vr' vc' vs' P P'.
    assert (W1 : row0 = 0 /\ nrow = rows /\ col0 = 0 /\ ncol = cols).
    { eapply C76_whole_image; [exact A | exact E | | exact Br | exact Bc]. exists x, y. destruct P as (a & b & P1 & P2 & _).
      destruct R1 as (Rr & Rc & _). destruct E as (? & ? & ? & ? & ? & ? & ? & ? & ? & ? & _ & _ & _ & _ & _ & _ & _ & -> & _).
      split; [apply (Rr x) | apply (Rc y)]; eapply nth_error_In; eassumption. }
    assert (W2 : row0' = 0 /\ nrow' = rows /\ col0' = 0 /\ ncol' = cols).
    { eapply C76_whole_image; [exact A' | exact E' | | exact Br | exact Bc]. exists x, y. destruct P' as (a & b & P1 & P2 & _).
      destruct R2 as (Rr & Rc & _). destruct E' as (? & ? & ? & ? & ? & ? & ? & ? & ? & ? & _ & _ & _ & _ & _ & _ & _ & -> & _).
      split; [apply (Rr x) | apply (Rc y)]; eapply nth_error_In; eassumption. }
    destruct W1 as (-> & -> & -> & ->), W2 as (-> & -> & -> & ->).
    destruct E as (m & cfg & l & rg & j & sh & er & ph & ir & ic & C1 & C2 & C3 & C4 & _ & _ & Es & -> & Ce). destruct E' as (m' & cfg' & l' & rg' & j' & sh' & er' & ph' & ir' & ic' & C1' & C2' & C3' & C4' & _ & _ & Es' & -> & Ce').
    assert (Sec : lookup "input" cfg' = lookup "input" cfg /\ lookup "pipeline" cfg' = lookup "pipeline" cfg).
    { destruct L as (Lp & _). unfold WholeModel.check_user in C1, C1'. refine (same_sections _ _ _ _ _ _ _ _ _ _ _ Lp user user' None m m' cfg cfg' _ _ Hi Hp C1 C1'); [now destruct A | now destruct A']. }
    destruct Sec as [Si Sp].
    destruct B1 as (m1 & cfg1 & l1 & rg1 & st1 & co1 & su1 & D1 & D2 & D3 & D4 & D5 & D6 & B1). destruct B2 as (m2 & cfg2 & l2 & rg2 & st2 & co2 & su2 & D1' & D2' & D3' & D4' & D5' & D6' & B2).
    rewrite C1 in D1. injection D1 as <- <-. rewrite C1' in D1'. injection D1' as <- <-.
    cbn [get_path] in *. rewrite Si in C2', C3', D2', D3'. rewrite Sp in C4', D4'.
    assert (l1 = l) as -> by congruence. assert (rg1 = rg) as -> by congruence. assert (l' = l) as -> by congruence. assert (rg' = rg) as -> by congruence.
    assert (l2 = l) as -> by congruence. assert (rg2 = rg) as -> by congruence. assert (st2 = st1) as -> by congruence. rewrite D5 in D5'. injection D5' as <-. rewrite D6 in D6'. injection D6' as <-.
    assert (j' = j) as -> by congruence. rewrite Es in Es'. injection Es' as <- <- <-.
        destruct Ce as (r & c & I1 & I2 & N1 & N2 & N3 & N4), Ce' as (r' & c' & I1' & I2' & N1' & N2' & N3' & N4'). cbn in I1, I2, I1', I2'. subst ir ic ir' ic'.
    cbn [with_disparities with_zone q_row_init q_col_init] in *. assert (r' = r) as -> by (eapply rounding_unique; eauto). assert (c' = c) as -> by (eapply rounding_unique; eauto).
    refine (pixel_agree open_raster one su1 (measure_of co1) _ _ _ _ saved saved' x y vr vc vs vr' vc' vs' _ _ _ _ B1 B2 P P'); cbn [with_disparities with_zone q_row_init q_col_init q_row_range q_col_range q_invalid]; tauto || reflexivity.
  Qed.

  (** The cost of a pair of positions does not depend on the part of the images that is loaded, as long as it contains the windows around both positions; there is no cost
      when they go out of the images. *)
  Definition local_cost pixel_cost (half : Z) (left right completed : dict) (subpix : Z) (rows cols : nat) : Prop :=
    forall row0 nrow col0 ncol x y dr dc, 0 <= row0 -> row0 + Z.of_nat nrow <= Z.of_nat rows -> 0 <= col0 -> col0 + Z.of_nat ncol <= Z.of_nat cols ->
      row0 <= x < row0 + Z.of_nat nrow -> col0 <= y < col0 + Z.of_nat ncol ->
      let cost row0 nrow col0 ncol := pair_cost px_eqb (pixel_cost completed (load left row0 nrow col0 ncol)) (zoomed (load right row0 nrow col0 ncol) (Z.to_nat subpix))
        (load right row0 nrow col0 ncol) (Z.to_nat subpix) row0 col0 x y dr dc in
      (fits half subpix x dr row0 (row0 + Z.of_nat nrow) -> fits half subpix y dc col0 (col0 + Z.of_nat ncol) -> cost row0 nrow col0 ncol = cost 0 rows 0 cols) /\
      (~ (fits half subpix x dr 0 (Z.of_nat rows) /\ fits half subpix y dc 0 (Z.of_nat cols)) -> cost row0 nrow col0 ncol = NaN /\ cost 0 rows 0 cols = NaN).
  (** The images and the matching cost of the completed configuration. *)
  Definition matching_of (user left right completed : dict) (subpix : Z) : Prop :=
    exists m cfg step, check_user user (new_machine None) = (m, Some cfg) /\
      get_path ["input"; "left"] (JDict cfg) = Some (JDict left) /\ get_path ["input"; "right"] (JDict cfg) = Some (JDict right) /\
      get_path ["pipeline"; "matching_cost"] (JDict cfg) = Some (JDict step) /\ matching_cost_init pandora_check step = Some completed /\
      int_at bool_ok ["subpix"] completed = Some subpix.
  Lemma optimal_matching pixel_cost user q row0 nrow col0 ncol saved left right completed subpix : matching_of user left right completed subpix ->
    optimal_in px_eqb nan bool_ok pandora_check matching_cost_margins can_open_mandatory can_open images_ok image_size open_raster load measure_of offset_of pandora_cost zoomed one
      store filter_apply lstsq resample junk interp minimise estimate pixel_cost user q row0 nrow col0 ncol saved ->
    saved_best open_raster one subpix (measure_of completed) q
        (pair_cost px_eqb (pixel_cost completed (load left row0 nrow col0 ncol)) (zoomed (load right row0 nrow col0 ncol) (Z.to_nat subpix)) (load right row0 nrow col0 ncol)
           (Z.to_nat subpix) row0 col0) saved.
  Proof.
    intros (m & cfg & st & C1 & C2 & C3 & C4 & C5 & C6) (m1 & cfg1 & l1 & rg1 & st1 & co1 & su1 & D1 & D2 & D3 & D4 & D5 & D6 & B).
    rewrite C1 in D1. injection D1 as <- <-. rewrite C2 in D2. injection D2 as <-. rewrite C3 in D3. injection D3 as <-. rewrite C4 in D4. injection D4 as <-.
    rewrite C5 in D5. injection D5 as <-. rewrite C6 in D6. injection D6 as <-. exact B.
  Qed.
  (** Constant disparities, or steps of 1: the cases of C74. *)
  Definition searched (user : dict) (q : request) (rows cols : nat) : Prop :=
    asked user q rows cols /\ steps_are user ["matching_cost"; "disparity"] /\
    ((exists a b, constant (q_row_init q) a /\ constant (q_col_init q) b) \/ q_row_step q = 1 /\ q_col_step q = 1 /\ forall s, q_row_init q = JStr s -> two_lines q rows cols).
  Lemma searched_best pixel_cost u r rows cols : libraries -> cost_contract pixel_cost -> searched u r rows cols -> exists out saved, main u = Some out /\ o_maps out = Some saved /\ saved_right open_raster one r rows cols saved /\
      optimal px_eqb nan bool_ok pandora_check matching_cost_margins can_open_mandatory can_open images_ok image_size open_raster load measure_of offset_of pandora_cost zoomed one
      store filter_apply lstsq resample junk interp minimise estimate pixel_cost u r rows cols saved.
  Proof. intros L K (A & S & [(a & b & Ca & Cb)|(S1 & S2 & T)]); [eapply C74_optimal_constant; eauto | eapply C74_optimal_step1; eauto]. Qed.
  (** Any subpix, constants or grids: the pixels of the ROI that are farther than the window from its borders have the disparities of the whole image. *)
  Theorem C78_inner_pixels pixel_cost half subpix user user' q rows cols out out' saved saved' left right completed x y vr vc vs vr' vc' vs' :
    libraries -> cost_contract pixel_cost -> 0 <= half -> 0 < subpix -> searched user q rows cols -> searched user' (with_zone q None) rows cols ->
    matching_of user left right completed subpix -> matching_of user' left right completed subpix -> local_cost pixel_cost half left right completed subpix rows cols ->
    main user = Some out -> o_maps out = Some saved -> main user' = Some out' -> o_maps out' = Some saved' ->
    inside_row q (Z.of_nat rows) (x - half) -> inside_row q (Z.of_nat rows) (x + half) -> inside_col q (Z.of_nat cols) (y - half) -> inside_col q (Z.of_nat cols) (y + half) ->
    pixel_of saved x y vr vc vs -> pixel_of saved' x y vr' vc' vs' ->
    without_disparity one q vr vc vs /\ without_disparity one q vr' vc' vs' \/ same_cost vr vr' /\ same_cost vc vc' /\ same_cost vs vs'.
  Proof.
    intros L K Hh Hs Se Se' Mo Mo' Lo M O M' O' W1 W2 W3 W4 P P'.
    destruct (searched_best pixel_cost user q rows cols L K Se) as (o & sv & M1 & O1 & R1 & row0 & nrow & col0 & ncol & Wok & Wre & B1).
    destruct (searched_best pixel_cost user' (with_zone q None) rows cols L K Se') as (o' & sv' & M2 & O2 & R2 & row0' & nrow' & col0' & ncol' & Wok' & Wre' & B2).
    rewrite M in M1. injection M1 as <-. rewrite O in O1. injection O1 as <-. rewrite M' in M2. injection M2 as <-. rewrite O' in O2. injection O2 as <-.
    destruct Wok' as (-> & -> & -> & ->). apply (optimal_matching _ _ _ _ _ _ _ _ _ _ _ _ Mo) in B1. apply (optimal_matching _ _ _ _ _ _ _ _ _ _ _ _ Mo') in B2.
    refine (pixel_agree open_raster one subpix (measure_of completed) q (with_zone q None) _ _ saved saved' x y vr vc vs vr' vc' vs' _ _ _ _ B1 B2 P P'); try (cbn; reflexivity).
    intros dr dc Hr Hc.
    assert (Bx : 0 <= x - half /\ x + half < Z.of_nat rows /\ 0 <= y - half /\ y + half < Z.of_nat cols).
    { clear - W1 W2 W3 W4 Wok. unfold window_ok, inside_row, inside_col, inside in *. destruct (q_zone q); cbn in *; lia. }
    assert (Wx : row0 <= x - half /\ x + half < row0 + Z.of_nat nrow /\ col0 <= y - half /\ y + half < col0 + Z.of_nat ncol /\ 0 <= row0 /\ row0 + Z.of_nat nrow <= Z.of_nat rows /\ 0 <= col0 /\ col0 + Z.of_nat ncol <= Z.of_nat cols).
    { clear - W1 W2 W3 W4 Wok. unfold window_ok, inside_row, inside_col, inside in *. destruct (q_zone q); cbn in *; lia. }
    destruct (Lo row0 nrow col0 ncol x y dr dc) as [Lo1 Lo2]; try lia.
    assert (Dec : fits half subpix x dr 0 (Z.of_nat rows) /\ fits half subpix y dc 0 (Z.of_nat cols) \/ ~ (fits half subpix x dr 0 (Z.of_nat rows) /\ fits half subpix y dc 0 (Z.of_nat cols))) by (unfold fits; lia).
    destruct Dec as [[F1 F2]|N]; [|destruct (Lo2 N) as [-> ->]; reflexivity].
    (* the pixels on both sides of a position that is not a pixel *)
    assert (Whole : forall init range u d, candidate open_raster init range subpix x u d ->
      candidate open_raster init range 1 x u (d / subpix) /\ candidate open_raster init range 1 x u (- (- d / subpix))).
    { clear - Hs. intros init range u d (v & Hv & I). split; exists v; (split; [exact Hv|]); pose proof (Z.div_mod d subpix); pose proof (Z.mod_pos_bound d subpix);
        pose proof (Z.div_mod (- d) subpix); pose proof (Z.mod_pos_bound (- d) subpix); nia. }
    destruct (Whole _ _ _ _ Hr) as [Hr1 Hr2]. destruct (Whole _ _ _ _ Hc) as [Hc1 Hc2]. unfold fits in F1, F2.
    assert (Side : forall lo hi u d, 0 <= u - half -> lo * subpix <= (u - half) * subpix + d -> (u + half) * subpix + d <= (hi - 1) * subpix ->
      lo <= u - half + d / subpix /\ u + half + - (- d / subpix) < hi /\ d / subpix * subpix <= d <= - (- d / subpix) * subpix /\ d / subpix <= - (- d / subpix)).
    { clear - Hs. intros lo hi u d H1 H2 H3. pose proof (Z.div_mod d subpix); pose proof (Z.mod_pos_bound d subpix); pose proof (Z.div_mod (- d) subpix); pose proof (Z.mod_pos_bound (- d) subpix). nia. }
    destruct (Side 0 (Z.of_nat rows) x dr) as (T1 & T2 & T3 & T4); try lia. destruct (Side 0 (Z.of_nat cols) y dc) as (U1 & U2 & U3 & U4); try lia.
    assert (Hx : 0 <= x < Z.of_nat rows) by lia. assert (Hy : 0 <= y < Z.of_nat cols) by lia.
    destruct (Wre (x - half) (y - half) x y (dr / subpix) W1 W3 Hx Hy) as [X1 _]. specialize (X1 Hr1). destruct (Wre (x + half) (y - half) x y (- (- dr / subpix)) W2 W3 Hx Hy) as [X2 _]. specialize (X2 Hr2).
    destruct (Wre (x - half) (y - half) x y (dc / subpix) W1 W3 Hx Hy) as [_ X3]. specialize (X3 Hc1). destruct (Wre (x - half) (y + half) x y (- (- dc / subpix)) W1 W4 Hx Hy) as [_ X4]. specialize (X4 Hc2).
    assert (X1' := X1 ltac:(lia)). assert (X2' := X2 ltac:(lia)). assert (X3' := X3 ltac:(lia)). assert (X4' := X4 ltac:(lia)).
    assert (Back : forall lo hi u d, lo <= u - half + d / subpix -> u + half + - (- d / subpix) < hi -> lo <= u - half -> u + half < hi -> d / subpix * subpix <= d <= - (- d / subpix) * subpix -> fits half subpix u d lo hi).
    { clear - Hs. intros lo hi u d H1 H2 H3 H4 H5. unfold fits. nia. }
    apply Lo1; apply Back; lia.
  Qed.

  (** * C79: a larger search never gives a worse score *)
  (** Whole image, the intervals of the second configuration contain those of the first one. *)
  Theorem C79_larger_search pixel_cost user user' q q' rows cols out out' saved saved' left right completed subpix : libraries -> cost_contract pixel_cost ->
    searched user q rows cols -> searched user' q' rows cols -> q_zone q = None -> q_zone q' = None ->
    matching_of user left right completed subpix -> matching_of user' left right completed subpix ->
    (forall x y d, candidate open_raster (q_row_init q) (q_row_range q) subpix x y d -> candidate open_raster (q_row_init q') (q_row_range q') subpix x y d) ->
    (forall x y d, candidate open_raster (q_col_init q) (q_col_range q) subpix x y d -> candidate open_raster (q_col_init q') (q_col_range q') subpix x y d) ->
    main user = Some out -> o_maps out = Some saved -> main user' = Some out' -> o_maps out' = Some saved' ->
    forall x y vr vc vs vr' vc' vs', pixel_of saved x y vr vc vs -> pixel_of saved' x y vr' vc' vs' ->
      without_disparity one q vr vc vs \/ good_score (measure_of completed) vs' vs.
  Proof.
    intros L K Se Se' Z Z' Mo Mo' Ir Ic M O M' O'.
    destruct (searched_best pixel_cost user q rows cols L K Se) as (o & sv & M1 & O1 & R1 & row0 & nrow & col0 & ncol & Wok & _ & B1). destruct (searched_best pixel_cost user' q' rows cols L K Se') as (o' & sv' & M2 & O2 & R2 & row0' & nrow' & col0' & ncol' & Wok' & _ & B2).
    rewrite M in M1. injection M1 as <-. rewrite O in O1. injection O1 as <-. rewrite M' in M2. injection M2 as <-. rewrite O' in O2. injection O2 as <-.
    unfold window_ok in Wok, Wok'. rewrite Z in Wok. rewrite Z' in Wok'. destruct Wok as (-> & -> & -> & ->), Wok' as (-> & -> & -> & ->).
    apply (optimal_matching _ _ _ _ _ _ _ _ _ _ _ _ Mo) in B1. apply (optimal_matching _ _ _ _ _ _ _ _ _ _ _ _ Mo') in B2.
    destruct L as (_ & _ & _ & _ & _ & _ & Hone & _). exact (saved_better open_raster one subpix (measure_of completed) q q' _ saved saved' Hone Ir Ic B1 B2).
  Qed.
End Program.

(** * Examples *)
(** The images of WholeProps; absolute differences summed over windows of 3 x 3 pixels, that must be in the images; images with a transform. *)
Definition w3_at (left : image Z) (right : list (list Z)) (r k d : Z) : option Z :=
  if Z.leb 0 r && Z.leb 0 k && Z.leb 0 (k + d) then
    match nth2 (to_list2 (im_data left)) (Z.to_nat r) (Z.to_nat k), nth2 right (Z.to_nat r) (Z.to_nat (k + d)) with
    | Some a, Some b => if Z.eqb b (-9999) then None else Some (Z.abs (a - b))
    | _, _ => None end
  else None.
Definition w3_add (f : Z -> Z -> option Z) (p : Z * Z) (o : option Z) : option Z := match f (fst p) (snd p), o with Some v, Some s => Some (v + s) | _, _ => None end.
Definition w3_sum (f : Z -> Z -> option Z) : option Z := fold_right (w3_add f) (Some 0) [(-1, -1); (-1, 0); (-1, 1); (0, -1); (0, 0); (0, 1); (1, -1); (1, 0); (1, 1)].
Definition w3_pixel (_ : dict) (left : image Z) (right : list (list Z)) (_ : list (list Z)) (r k : nat) (d : Z) : ext :=
  match w3_sum (fun i j => w3_at left right (Z.of_nat r + i) (Z.of_nat k + j) d) with Some s => Fin s | None => NaN end.
Definition w3_cost (c : dict) (m : mc_input) (left : image Z) (right mask : list (list Z)) (r cc i : nat) : ext :=
  match nth_error (col_coords m) cc, disps_col m with
  | Some y, Some ds => match nth_error ds i with Some d => w3_pixel c left right mask r (Z.to_nat (y - mc_col0 m)) d | None => NaN end
  | _, _ => NaN end.
Definition w3_transform (_ : dict) : option affine := Some (mkAffine 2 0 1000 0 (-2) 5000).
Definition w3_estimate (_ : json) (l _ : image Z) : (Q * Q) * json * json := ((- (6 # 5), inject_Z (Z.of_nat (a2_n0 (im_data l)) - 7))%Q, JNull, JNull).
Definition w3_main : dict -> option outcome :=
  main Z.eqb 0 true wh_pandora (fun _ => mkMargins 1 1 1 1) (fun _ => true) (fun _ => true) (fun _ _ _ _ => true) wh_size wh_raster wh_load w3_transform (fun _ => true)
    (fun _ => MeasureMin) (fun _ => 1) w3_cost (fun _ _ _ _ => 0) 512 (fun x => x) wh_filter (fun _ _ => None) (fun w _ _ => w) (fun _ => []) (fun _ _ _ _ _ => CNan) (fun _ p _ => p)
    w3_estimate wh_margins wh_dict.
Lemma w3_not_worst c im a b r cc d : w3_pixel c im a b r cc d <> worst MeasureMin.
Proof. unfold w3_pixel. cbn [worst]. destruct (w3_sum _); discriminate. Qed.
Lemma w3_libraries : libraries true wh_pandora (fun _ _ _ _ => true) wh_size wh_load (fun _ => true) (fun _ => MeasureMin) w3_cost 512.
Proof.
  destruct wh_libraries as (L1 & L2 & L3 & L4 & L5 & L6 & L7 & _). do 7 (split; [assumption|]).
  intros c m im a b r cc i. unfold w3_cost. destruct (nth_error (col_coords m) cc); [|discriminate]. destruct (disps_col m); [|discriminate]. destruct (nth_error l i); [|discriminate]. apply w3_not_worst.
Qed.
Lemma w3_contract : cost_contract (fun _ => MeasureMin) w3_cost w3_pixel.
Proof. split; [|intros; apply w3_not_worst]. intros c m im a b r cc i y ds d H1 H2 H3. unfold w3_cost. now rewrite H1, H2, H3. Qed.

(** The value of the cost, in the coordinates of the whole image. *)
Definition w3_image (s : dict) (x y : Z) : Z := if match lookup "img" s with Some (JStr p) => p =? "left.tif" | _ => false end then wh_texture (x + 1) (y - 1) else wh_texture x y.
Lemma nth2_list2 {A} (a : arr2 A) r c : nth2 (to_list2 a) r c = if (r <? a2_n0 a)%nat && (c <? a2_n1 a)%nat then Some (a2_get a r c) else None.
Proof.
  unfold nth2, to_list2. destruct (Nat.ltb_spec r (a2_n0 a)) as [Hr|Hr]; cbn [andb].
  - rewrite nth_error_map, (nth_error_nth' _ O) by now rewrite seq_length. cbn [option_map]. rewrite seq_nth by lia. rewrite nth_error_map. destruct (Nat.ltb_spec c (a2_n1 a)) as [Hc|Hc].
    + rewrite (nth_error_nth' _ O) by now rewrite seq_length. rewrite seq_nth by lia. reflexivity.
    + rewrite (proj2 (nth_error_None _ _)); [reflexivity | now rewrite seq_length].
  - rewrite nth_error_map, (proj2 (nth_error_None _ _)); [reflexivity | now rewrite seq_length].
Qed.
Definition w3_in (lo n x : Z) : bool := Z.leb lo x && Z.ltb x (lo + n).
Lemma w3_at_value z l rg row0 nrow col0 ncol r k dr d :
  w3_at (wh_load l row0 nrow col0 ncol) (to_list2 (right_moved z (wh_load rg row0 nrow col0 ncol) 1 dr)) r k d =
  if w3_in 0 (Z.of_nat nrow) r && w3_in 0 (Z.of_nat ncol) k && w3_in 0 (Z.of_nat nrow) (r + dr) && w3_in 0 (Z.of_nat ncol) (k + d)
  then Some (Z.abs (w3_image l (row0 + r) (col0 + k) - w3_image rg (row0 + r + dr) (col0 + k + d))) else None.
Proof.
  unfold w3_at, w3_in. rewrite !nth2_list2. unfold right_moved, right_value. cbn [a2_n0 a2_n1 a2_get im_data im_no_data wh_load].
  destruct (Z.leb_spec 0 r), (Z.leb_spec 0 k), (Z.leb_spec 0 (k + d)); cbn [andb]; try (rewrite ?andb_false_r; reflexivity).
  destruct (Nat.ltb_spec (Z.to_nat r) nrow), (Z.ltb_spec r (0 + Z.of_nat nrow)); try lia; cbn [andb]; [|reflexivity].
  destruct (Nat.ltb_spec (Z.to_nat k) ncol), (Z.ltb_spec k (0 + Z.of_nat ncol)); try lia; cbn [andb]; [|reflexivity].
  destruct (Nat.ltb_spec (Z.to_nat (k + d)) ncol), (Z.ltb_spec (k + d) (0 + Z.of_nat ncol)); try lia; cbn [andb]; [|now rewrite andb_false_r].
  replace (Z.of_nat (Z.to_nat r) * Z.of_nat 1 + dr) with (r + dr) by lia.
  destruct (Z.leb_spec 0 (r + dr)); cbn [andb]; [|reflexivity].
  destruct (Z.leb_spec (r + dr) ((Z.of_nat nrow - 1) * Z.of_nat 1)), (Z.ltb_spec (r + dr) (0 + Z.of_nat nrow)); try lia; cbn [andb]; [|reflexivity].
  change (Z.of_nat 1) with 1. rewrite Z.mod_1_r, Z.div_1_r. cbn [Z.eqb]. rewrite !Z2Nat.id by lia.
  unfold w3_image. rewrite !Z.add_assoc.
  assert (P : forall u v, 0 <= wh_texture u v) by (intros u v; unfold wh_texture; apply Z.mod_pos_bound; lia).
  destruct (match lookup "img" rg with Some (JStr p) => p =? "left.tif" | _ => false end);
    match goal with |- context [Z.eqb ?X (-9999)] => destruct (Z.eqb_spec X (-9999)) as [E|_]; [exfalso; pose proof (P 0 0); unfold wh_texture in E; pose proof (Z.mod_pos_bound) as Q; match type of E with ?Y mod 97 = _ => specialize (Q Y 97 ltac:(lia)); lia end|] end; reflexivity.
Qed.
Definition w3_offsets : list (Z * Z) := [(-1, -1); (-1, 0); (-1, 1); (0, -1); (0, 0); (0, 1); (1, -1); (1, 0); (1, 1)].
Lemma w3_sum_ext f g : (forall i j, -1 <= i <= 1 -> -1 <= j <= 1 -> f i j = g i j) -> w3_sum f = w3_sum g.
Proof. intros H. unfold w3_sum. cbn [fold_right]. unfold w3_add. cbn [fst snd]. repeat rewrite H by lia. reflexivity. Qed.
Lemma w3_sum_none f i j : -1 <= i <= 1 -> -1 <= j <= 1 -> f i j = None -> w3_sum f = None.
Proof.
  intros Hi Hj H. assert (G : forall l, In (i, j) l -> fold_right (w3_add f) (Some 0) l = None).
  { induction l as [|p l IH]; intros X; [now elim X|]. destruct X as [->|X]; cbn [fold_right]; unfold w3_add at 1; cbn [fst snd]; [now rewrite H|]. rewrite (IH X). destruct (f (fst p) (snd p)); reflexivity. }
  apply G. assert (E : (i = -1 \/ i = 0 \/ i = 1) /\ (j = -1 \/ j = 0 \/ j = 1)) by lia. destruct E as [[-> | [-> | ->]] [-> | [-> | ->]]]; cbn; auto 12.
Qed.
Lemma w3_pair l rg c row0 nrow col0 ncol x y dr dc : row0 <= x < row0 + Z.of_nat nrow -> col0 <= y < col0 + Z.of_nat ncol ->
  let cost := pair_cost Z.eqb (w3_pixel c (wh_load l row0 nrow col0 ncol)) (fun _ _ => 0) (wh_load rg row0 nrow col0 ncol) 1 row0 col0 x y dr dc in
  (fits 1 1 x dr row0 (row0 + Z.of_nat nrow) -> fits 1 1 y dc col0 (col0 + Z.of_nat ncol) ->
     cost = match w3_sum (fun i j => Some (Z.abs (w3_image l (x + i) (y + j) - w3_image rg (x + i + dr) (y + j + dc)))) with Some s => Fin s | None => NaN end) /\
  (~ (fits 1 1 x dr row0 (row0 + Z.of_nat nrow) /\ fits 1 1 y dc col0 (col0 + Z.of_nat ncol)) -> cost = NaN).
Proof.
  intros Hx Hy cost. subst cost. unfold pair_cost, w3_pixel. rewrite !Z2Nat.id by lia. unfold fits. split.
  - intros F1 F2. erewrite w3_sum_ext; [reflexivity|]. intros i j Hi Hj. cbv beta. rewrite w3_at_value. unfold w3_in.
    repeat match goal with |- context [Z.leb ?A ?B] => destruct (Z.leb_spec A B); [|lia] end. repeat match goal with |- context [Z.ltb ?A ?B] => destruct (Z.ltb_spec A B); [|lia] end.
    cbn [andb]. f_equal. f_equal. f_equal; f_equal; lia.
  - intros N.
    assert (exists i j, -1 <= i <= 1 /\ -1 <= j <= 1 /\ (w3_in 0 (Z.of_nat nrow) (x - row0 + i) && w3_in 0 (Z.of_nat ncol) (y - col0 + j) &&
      w3_in 0 (Z.of_nat nrow) (x - row0 + i + dr) && w3_in 0 (Z.of_nat ncol) (y - col0 + j + dc))%bool = false) as (i & j & Hi & Hj & E).
    { assert (B : forall n u, w3_in 0 n u = true <-> 0 <= u < n) by (intros n u; unfold w3_in; rewrite andb_true_iff, Z.leb_le, Z.ltb_lt; lia).
      assert (D : (x - row0 - 1 < 0 \/ x - row0 - 1 + dr < 0 \/ y - col0 - 1 < 0 \/ y - col0 - 1 + dc < 0) \/
        (x - row0 + 1 >= Z.of_nat nrow \/ x - row0 + 1 + dr >= Z.of_nat nrow \/ y - col0 + 1 >= Z.of_nat ncol \/ y - col0 + 1 + dc >= Z.of_nat ncol)) by lia.
      destruct D as [D|D]; [exists (-1), (-1) | exists 1, 1]; (split; [lia|]); (split; [lia|]); apply not_true_is_false; rewrite !andb_true_iff, !B; lia. }
    erewrite (w3_sum_none _ i j Hi Hj); [reflexivity|]. cbv beta. rewrite w3_at_value, E. reflexivity.
Qed.
Lemma w3_local l rg c rows cols : local_cost Z.eqb wh_load (fun _ _ _ _ => 0) w3_pixel 1 l rg c 1 rows cols.
Proof.
  intros row0 nrow col0 ncol x y dr dc H1 H2 H3 H4 H5 H6. cbv zeta. change (Z.to_nat 1) with 1%nat.
  destruct (w3_pair l rg c row0 nrow col0 ncol x y dr dc H5 H6) as [A B]. destruct (w3_pair l rg c 0 rows 0 cols x y dr dc) as [A' B']; [lia|lia|]. rewrite !Z.add_0_l in *. split.
  - intros F1 F2. rewrite A by assumption. rewrite A'; [reflexivity | unfold fits in *; lia | unfold fits in *; lia].
  - intros N. split; [apply B | apply B']; [|exact N]. intros [F1 F2]. apply N. unfold fits in *. lia.
Qed.

(** The ROI changes the disparities of the pixel at the row 2 and the column 2, inside the ROI and far from the borders of the image: its score is 0 in the whole image, 147 / 512 with the ROI. *)
Definition w3_user (roi : dict) : dict := wh_user [JInt 1; JInt 1] (wh_disp (JInt 0) 1) (wh_disp (JInt 0) 1) roi [].
Definition w3_request (z : option zone) : request := mkRequest (JInt 0) 1 (JInt 0) 1 1 1 z JNan.
Ltac w3_wf := unfold w3_user; wh_wf.
Ltac w3_asked_tac := split; [w3_wf|]; split; [apply wh_checked; [w3_wf | vm_compute; discriminate]|];
  split; [|split; [exists "left.tif"; split; reflexivity | try (cbn; lia); exact I]];
  split; [wh_leaf|]; split; [wh_leaf|]; split; [wh_leaf|]; split; [wh_leaf|];
  split; [right; do 2 eexists; split; [reflexivity|]; split; apply int_int|];
  split; [first [reflexivity | split; [wh_leaf|]; split; [wh_leaf|]; split; wh_leaf] | right; wh_leaf].
Lemma w3_asked_roi : wh_asked (w3_user wh_roi) (w3_request (Some (mkZone 1 6 2 7))) 8 9.
Proof. w3_asked_tac. Qed.
Lemma w3_asked : wh_asked (w3_user []) (w3_request None) 8 9.
Proof. w3_asked_tac. Qed.
Theorem C78_roi_refuted : exists user user' q out out' saved saved' vr vc vs vr' vc' vs',
  libraries true wh_pandora (fun _ _ _ _ => true) wh_size wh_load (fun _ => true) (fun _ => MeasureMin) w3_cost 512 /\ cost_contract (fun _ => MeasureMin) w3_cost w3_pixel /\
  wh_asked user q 8 9 /\ wh_asked user' (with_zone q None) 8 9 /\ lookup "input" user' = lookup "input" user /\ lookup "pipeline" user' = lookup "pipeline" user /\
  w3_main user = Some out /\ o_maps out = Some saved /\ w3_main user' = Some out' /\ o_maps out' = Some saved' /\
  pixel_of saved 2 2 vr vc vs /\ pixel_of saved' 2 2 vr' vc' vs' /\ ~ same_cost vr vr' /\ ~ same_cost vc vc' /\ ~ good_score MeasureMin vs vs'.
Proof.
  exists (w3_user wh_roi), (w3_user []), (w3_request (Some (mkZone 1 6 2 7))). do 10 eexists. split; [exact w3_libraries|]. split; [exact w3_contract|]. split; [exact w3_asked_roi|]. split; [exact w3_asked|].
  do 2 (split; [reflexivity|]). do 4 (split; [vm_compute; reflexivity|]). split; [exists 1%nat, 0%nat; vm_compute; auto 10|]. split; [exists 2%nat, 2%nat; vm_compute; auto 10|].
  split; [|split]; vm_compute; intros H; try discriminate; now apply H.
Qed.

Definition w3_check (user : dict) := check_user Z.eqb 0 true wh_pandora (fun _ => mkMargins 1 1 1 1) (fun _ => true) (fun _ => true) (fun _ _ _ _ => true) wh_size wh_raster
    (fun _ => MeasureMin) (fun _ => 1) w3_cost (fun _ _ _ _ => 0) 512 (fun x => x) wh_filter (fun _ _ => None) (fun w _ _ => w) (fun _ => []) (fun _ _ _ _ _ => CNan) (fun _ p _ => p)
    w3_estimate user (new_machine None).
Notation w3_matching_of := (matching_of Z.eqb 0 true wh_pandora (fun _ => mkMargins 1 1 1 1) (fun _ => true) (fun _ => true) (fun _ _ _ _ => true) wh_size wh_raster
    (fun _ => MeasureMin) (fun _ => 1) w3_cost (fun _ _ _ _ => 0) 512 (fun x => x) wh_filter (fun _ _ => None) (fun w _ _ => w) (fun _ => []) (fun _ _ _ _ _ => CNan) (fun _ p _ => p)
    w3_estimate).
Definition w3_matching (user : dict) : option (dict * dict * dict * Z) :=
  match snd (w3_check user) with
  | Some cfg => match get_path ["input"; "left"] (JDict cfg), get_path ["input"; "right"] (JDict cfg), get_path ["pipeline"; "matching_cost"] (JDict cfg) with
      | Some (JDict l), Some (JDict r), Some (JDict s) => match matching_cost_init wh_pandora s with
          | Some c => match int_at true ["subpix"] c with Some n => Some (l, r, c, n) | None => None end | None => None end
      | _, _, _ => None end
  | None => None end.
Lemma w3_matching_spec user l r c n : w3_matching user = Some (l, r, c, n) -> w3_matching_of user l r c n.
Proof.
  unfold w3_matching. destruct (w3_check user) as [m [cfg|]] eqn:E; [|discriminate]. cbn [snd].
  destruct (get_path ["input"; "left"] (JDict cfg)) as [[| | | | | | | |dl]|] eqn:E1; try discriminate. destruct (get_path ["input"; "right"] (JDict cfg)) as [[| | | | | | | |dr]|] eqn:E2; try discriminate.
  destruct (get_path ["pipeline"; "matching_cost"] (JDict cfg)) as [[| | | | | | | |s]|] eqn:E3; try discriminate. destruct (matching_cost_init wh_pandora s) as [c'|] eqn:E4; [|discriminate].
  destruct (int_at true ["subpix"] c') as [n'|] eqn:E5; [|discriminate]. intros H. injection H as <- <- <- <-. exists m, cfg, s. auto 10.
Qed.
(** Constant disparities and a ROI, steps of 2 and 3: saved rows 1, 3, 5, saved columns 2, 5; the point of the last pixel, at row 5 and column 5. The report is made of more pixels. *)
Example C77_example : libraries true wh_pandora (fun _ _ _ _ => true) wh_size wh_load (fun _ => true) (fun _ => MeasureMin) w3_cost 512 /\
  supported true wh_pandora (fun _ => true) (fun _ => true) (fun _ _ _ _ => true) wh_size wh_raster w3_cost 512 (fun x => x) wh_user1 wh_request1 8 9 /\
  supported true wh_pandora (fun _ => true) (fun _ => true) (fun _ _ _ _ => true) wh_size wh_raster w3_cost 512 (fun x => x) wh_user5 (wh_request5 2 3) 8 9 /\
  (exists out saved t reported, w3_main wh_user1 = Some out /\ o_maps out = Some saved /\ dm_transform saved = Some t /\ nth_error (dm_rows saved) 2 = Some 5 /\ nth_error (dm_cols saved) 1 = Some 5 /\
    same_point (world t 1 2) (1010, 4990)%Q /\ same_point (world (mkAffine 2 0 1000 0 (-2) 5000) 5 5) (1010, 4990)%Q /\
    o_reported out = Some (JNan, reported) /\ dm_rows saved = [1; 3; 5] /\ dm_rows reported = [1; 3; 5; 7]).
Proof.
  split; [exact w3_libraries|]. split.
  { exists false, false. split; [split; [exact wh_asked1 | intros s; discriminate]|]. split; [eexists; split; reflexivity|]. split; [discriminate|]. left. split; [reflexivity|]. right. exists 0, (-1). split; constructor. }
  split.
  { exists true, false. split; [exact (proj1 C76_example)|]. split; [eexists; split; reflexivity|]. split; [discriminate|]. left. split; [reflexivity|]. left. reflexivity. }
  do 4 eexists. do 3 (split; [vm_compute; reflexivity|]). do 2 (split; [reflexivity|]). split; [split; vm_compute; reflexivity|]. split; [split; vm_compute; reflexivity|]. split; [vm_compute; reflexivity|]. split; vm_compute; reflexivity.
Qed.
Notation w3_searched := (searched true wh_pandora (fun _ => true) (fun _ => true) (fun _ _ _ _ => true) wh_size wh_raster).
(** A ROI that does not begin at the first row: the pixel at the row 3 and the column 4 is inside with its neighbours. *)
Example C78_inner_example : w3_searched (w3_user wh_roi) (w3_request (Some (mkZone 1 6 2 7))) 8 9 /\ w3_searched (w3_user []) (w3_request None) 8 9 /\
  (exists l r c, w3_matching_of (w3_user wh_roi) l r c 1 /\ w3_matching_of (w3_user []) l r c 1 /\ local_cost Z.eqb wh_load (fun _ _ _ _ => 0) w3_pixel 1 l r c 1 8 9) /\
  (let q := w3_request (Some (mkZone 1 6 2 7)) in inside_row q 8 (3 - 1) /\ inside_row q 8 (3 + 1) /\ inside_col q 9 (4 - 1) /\ inside_col q 9 (4 + 1)) /\
  (exists out saved vr vc vs, w3_main (w3_user wh_roi) = Some out /\ o_maps out = Some saved /\ pixel_of saved 3 4 vr vc vs).
Proof.
  split; [split; [exact w3_asked_roi|]; split; [eexists; split; reflexivity|]; left; exists 0, 0; split; constructor|].
  split; [split; [exact w3_asked|]; split; [eexists; split; reflexivity|]; left; exists 0, 0; split; constructor|]. split.
  { destruct (w3_matching (w3_user wh_roi)) as [[[[l r] c] n]|] eqn:E; [|exfalso; vm_compute in E; discriminate]. exists l, r, c.
    assert (n = 1) as -> by (vm_compute in E; congruence).
    split; [now apply w3_matching_spec|]. split; [apply w3_matching_spec; rewrite <- E; vm_compute; reflexivity|]. apply w3_local. }
  split; [cbn; repeat split; discriminate|].
  do 5 eexists. do 2 (split; [vm_compute; reflexivity|]). exists 2%nat, 2%nat. vm_compute. auto 10.
Qed.
(** With an estimation, with the ROI and without it. *)
Definition w3_user7 : dict :=
  [("input", JDict [("left", JDict [("img", JStr "left.tif")]); ("right", JDict [("img", JStr "right.tif")])]);
   ("pipeline", JDict [("estimation", JDict [("estimation_method", JStr "phase_cross_correlation"); ("range_row", JInt 3)]);
                       ("matching_cost", JDict [("matching_cost_method", JStr "sad"); ("window_size", JInt 1); ("step", JList [JInt 2; JInt 3])]);
                       ("disparity", JDict [("disparity_method", JStr "wta"); ("invalid_disparity", JStr "NaN")])])].
Example C78_example : wh_asked_estimation wh_user5 (wh_request5 2 3) 8 9 /\ wh_asked_estimation w3_user7 (with_zone (wh_request5 2 3) None) 8 9 /\
  lookup "input" w3_user7 = lookup "input" wh_user5 /\ lookup "pipeline" w3_user7 = lookup "pipeline" wh_user5 /\ steps_are wh_user5 ["estimation"; "matching_cost"; "disparity"] /\
  cost_contract (fun _ => MeasureMin) w3_cost w3_pixel /\
  option_map (fun o => option_map (fun d => (dm_rows d, dm_cols d)) (o_maps o)) (w3_main wh_user5) = Some (Some ([1; 3; 5], [2; 5])) /\
  option_map (fun o => option_map (fun d => (dm_rows d, dm_cols d)) (o_maps o)) (w3_main w3_user7) = Some (Some ([0; 2; 4; 6], [0; 3; 6])).
Proof.
  split; [exact (proj1 C76_example)|]. split.
  { unfold w3_user7. split; [solve_wf|].
    split; [apply wh_checked; [solve_wf | vm_compute; discriminate]|].
    split; [split; [right; do 2 eexists; split; [reflexivity|]; split; apply int_int|]; split; [reflexivity|]; right; wh_leaf|].
    split; [split; [reflexivity|]; split; [reflexivity|]; split; [right; reflexivity | left; split; reflexivity]|].
    split; [exists "left.tif"; split; reflexivity | exact I]. }
  do 2 (split; [reflexivity|]). split; [eexists; split; reflexivity|]. split; [exact w3_contract|]. split; vm_compute; reflexivity.
Qed.
(** Disparities of 0 +- 1, then of 0 +- 2 for the columns: the score of the pixel at the row 1 and the column 1 goes from 223 / 512 to 187 / 512. *)
Definition w3_user8 : dict := wh_user [JInt 1; JInt 1] (wh_disp (JInt 0) 1) (wh_disp (JInt 0) 2) [] [].
Definition w3_request8 : request := mkRequest (JInt 0) 1 (JInt 0) 2 1 1 None JNan.
Example C79_example : w3_searched (w3_user []) (w3_request None) 8 9 /\ w3_searched w3_user8 w3_request8 8 9 /\
  (exists l r c, w3_matching_of (w3_user []) l r c 1 /\ w3_matching_of w3_user8 l r c 1) /\
  (forall x y d, candidate wh_raster (JInt 0) 1 1 x y d -> candidate wh_raster (JInt 0) 2 1 x y d) /\
  (exists out saved out' saved' a b c a' b' c', w3_main (w3_user []) = Some out /\ o_maps out = Some saved /\ w3_main w3_user8 = Some out' /\ o_maps out' = Some saved' /\
    pixel_of saved 1 1 a b c /\ pixel_of saved' 1 1 a' b' c' /\ same_cost c (CFin (223 # 512)) /\ same_cost c' (CFin (187 # 512))).
Proof.
  split; [split; [exact w3_asked|]; split; [eexists; split; reflexivity|]; left; exists 0, 0; split; constructor|].
  split; [split; [unfold w3_user8; w3_asked_tac|]; split; [eexists; split; reflexivity|]; left; exists 0, 0; split; constructor|].
  split.
  { destruct (w3_matching (w3_user [])) as [[[[l r] c] n]|] eqn:E; [|exfalso; vm_compute in E; discriminate]. exists l, r, c.
    assert (n = 1) as -> by (vm_compute in E; congruence).
    split; [now apply w3_matching_spec|]. apply w3_matching_spec. rewrite <- E. vm_compute. reflexivity. }
  split; [intros x y d (v & M & B); exists v; split; [exact M | lia]|].
  do 10 eexists. do 4 (split; [vm_compute; reflexivity|]). split; [exists 1%nat, 1%nat; vm_compute; auto 10|]. split; [exists 1%nat, 1%nat; vm_compute; auto 10|]. split; vm_compute; reflexivity.
Qed.

Print Assumptions C77_georeference.
Print Assumptions C77_reported.
Print Assumptions C78_estimation_roi.
Print Assumptions C78_inner_pixels.
Print Assumptions C78_roi_refuted.
Print Assumptions C79_larger_search.
