(** C98: exactly when the program ends without error. *)
From Coq Require Import List String Bool ZArith QArith Lia.
From Verif Require Import Base.Ext Base.PyList Base.Arr Base.Json Base.Dict Model.CommonModel Model.DisparityModel Model.MatchingCostModel Model.DichotomyModel
  Model.RoiModel Model.InputModel Model.ConfigModel Model.DatasetModel Model.EstimationModel Model.OpticalFlowModel Model.InterpolationModel Model.MachineModel Model.CheckConfModel
  Model.PipelineModel Model.WholeModel Model.ImgShiftModel
  Spec.MatchingCostSpec Spec.DichotomySpec Spec.RoiSpec Spec.PipelineSpec Spec.ConfigSpec Spec.InputSpec Spec.MachineSpec Spec.CheckConfSpec Spec.AcceptSpec Spec.WholeSpec Spec.BestSpec Spec.WtaSpec Spec.ShiftSpec Spec.WholeEverySpec Spec.WholeEndSpec Spec.InterpolationSpec Spec.OpticalFlowSpec Spec.WholeRefineSpec
  Proofs.CheckConfProofs Proofs.ConfigProofs Proofs.ConfigStepProofs Proofs.AcceptProofs Proofs.RoiProofs Proofs.WtaProofs Proofs.WtaTheorems Proofs.MatchingCostProofs Proofs.MatchingCostTheorems Proofs.GridStepProofs Proofs.PipelineProofs Proofs.WholeRunProofs Proofs.WholeProofs Proofs.WholeMainProofs Proofs.WholeMoreProofs Proofs.WholeEveryProofs Proofs.WholeEndProofs Proofs.WholeInterpProofs
  Props.RoiProps Props.PipelineProps Props.CheckConfProps Props.InterpolationProps Props.WholeProps Props.WholeMoreProps Props.WholeEveryProps Props.WholeRefineProps Props.WholeGridProps.
Import ListNotations.
Open Scope Z_scope.
Open Scope string_scope.
Open Scope list_scope.

Section Program.
  (** The libraries: see WholeModel. *)
  Context {px : Type} (px_eqb : px -> px -> bool) (nan : px).
  Variable bool_ok : bool.
  Variable pandora_check : dict -> option (json * json * json).
  Variable matching_cost_margins : dict -> margins.
  Variable can_open_mandatory can_open : json -> bool.
  Variable images_ok : json -> json -> json -> json -> bool.
  Variable image_size : string -> nat * nat.
  Variable open_raster : string -> reader.
  Variable load : dict -> Z -> nat -> Z -> nat -> image px.
  Variable transform_of : dict -> option affine.
  Variable dataset_ok : image_dataset (image px) -> bool.
  Variable measure_of : dict -> measure.
  Variable offset_of : dict -> Z.
  Variable pandora_cost : dict -> mc_input -> image px -> list (list px) -> list (list Z) -> nat -> nat -> nat -> ext.
  Variable zoomed : image px -> nat -> nat -> nat -> px.
  Variable one : Z.
  Variable store : ext -> ext.
  Variable filter_apply : dict -> list (list ext) -> Z -> Z -> ext.
  Variable lstsq : list (list px) -> list (list px) -> option (num * num).
  Variable resample : list (list px) -> num -> num -> list (list px).
  Variable junk : nat -> list (list px).
  Variable interp : list Q -> list Q -> list (list cost) -> num -> num -> cost.
  Variable minimise : (num -> num -> cost) -> num * num -> (Q * Q) * (Q * Q) -> num * num.
  Variable estimate : json -> image px -> image px -> (Q * Q) * json * json.
  Variable global_margins : list (string * margins) -> list (string * margins) -> margins.
  Variable margins_to_dict : list (string * margins) -> list (string * margins) -> json.
  Notation main := (main px_eqb nan bool_ok pandora_check matching_cost_margins can_open_mandatory can_open images_ok image_size open_raster load transform_of dataset_ok
    measure_of offset_of pandora_cost zoomed one store filter_apply lstsq resample junk interp minimise estimate global_margins margins_to_dict).
  Notation check_user := (check_user px_eqb nan bool_ok pandora_check matching_cost_margins can_open_mandatory can_open images_ok image_size open_raster
    measure_of offset_of pandora_cost zoomed one store filter_apply lstsq resample junk interp minimise estimate).
  Notation libraries := (libraries bool_ok pandora_check images_ok image_size load dataset_ok measure_of pandora_cost one).
  Notation dichotomy_libraries := (dichotomy_libraries bool_ok pandora_check pandora_cost one store).
  Notation cost_contract := (cost_contract measure_of pandora_cost).
  Notation matching_of := (matching_of px_eqb nan bool_ok pandora_check matching_cost_margins can_open_mandatory can_open images_ok image_size open_raster measure_of offset_of pandora_cost zoomed one
    store filter_apply lstsq resample junk interp minimise estimate).
  Notation programmed := (programmed bool_ok pandora_check can_open_mandatory can_open images_ok image_size open_raster).

  (** * C98 *)
  (** Without refinement or with an interpolation: there is an estimation, or the steps are 1, or the initial disparities do not change in the window that is loaded. *)
  Theorem C98_no_error user q rows cols e r : libraries -> programmed user q rows cols e r -> two_lines q rows cols ->
    (r = true -> get_path ["pipeline"; "refinement"; "refinement_method"] (JDict user) = Some (JStr "interpolation")) ->
    exists row0 nrow col0 ncol, window_ok q rows cols row0 nrow col0 ncol /\ (e = false -> window_reaches open_raster q rows cols row0 nrow col0 ncol) /\
      (main user <> None <-> e = true \/ q_row_step q = 1 /\ q_col_step q = 1 \/
        same_middle open_raster (q_row_init q) row0 nrow col0 ncol /\ same_middle open_raster (q_col_init q) row0 nrow col0 ncol).
  Proof.
    intros (L1 & L2 & L3 & L4 & L5 & L6 & L7 & L8) (Ha & (raw & Lp & K)) T2 Hmethod.
    assert (X : wf (JDict user) /\ accepted bool_ok pandora_check can_open_mandatory can_open images_ok image_size open_raster user /\ asks_others bool_ok user q /\
      (exists left_path, get_path ["input"; "left"; "img"] (JDict user) = Some (JStr left_path) /\ image_size left_path = (rows, cols)) /\
      match q_zone q with Some z => z_r0 z < Z.of_nat rows /\ z_c0 z < Z.of_nat cols | None => True end).
    { destruct e; [destruct Ha as (W & A & Ho & _ & G & Z); auto|]. destruct Ha as ((W & A & (_ & _ & _ & _ & Ho) & G & Z) & _). auto. }
    destruct X as (W & A & Ho & (p & G & S) & Z).
    destruct (main_ready px_eqb nan bool_ok pandora_check matching_cost_margins can_open_mandatory can_open images_ok image_size open_raster load transform_of dataset_ok
      measure_of offset_of pandora_cost zoomed one store filter_apply lstsq resample junk interp minimise estimate global_margins margins_to_dict L1 L2 L3 L4 L5 L6 user q rows cols p W A Ho G S Z)
      with (e := e) (raw := raw) (r := r) as (m & cfg & l & rg & x1 & c1 & sub & row0 & nrow & col0 & ncol & q' & mi & sc & cr' & lc & lr & rgrids & cfg3 & final & H); auto.
    { intros ->. destruct Ha as ((_ & _ & Q & _) & T). auto. }
    { intros ->. destruct Ha as (_ & _ & _ & Q & _). exact Q. }
    destruct H as (Hck & Gl & Grg & Gx1 & Emc & Gsub & Fsub & Psub & Dsub & _ & Wok & Hans & (Qz & Qr & Qc & Qi) & Ccst & Fw1 & Fw2 & Fw3 & Fw4 & Fme & Fsr & Fsc & Wm & Cst & Ar & Ac & Hint & Ld & Sto & Hnz & Hr & Hcr & Fgr & Emain).
    exists row0, nrow, col0, ncol. split; [exact Wok|]. split. { intros ->. unfold answered in Hans. tauto. }
    destruct (volumes_computed px_eqb (pandora_cost c1 mi (load l row0 nrow col0 ncol)) (zoomed (load rg row0 nrow col0 ncol) (mc_subpix mi)) open_raster mi (load rg row0 nrow col0 ncol) q q' rows cols
      row0 nrow col0 ncol Wm Hint Qz T2 Wok Fw1 Fw2 Fw3 Fw4) as (D & C). rewrite Fsr, Fsc in D.
    assert (E : constant_ranges mi \/ q_row_step q = 1 /\ q_col_step q = 1 <-> e = true \/ q_row_step q = 1 /\ q_col_step q = 1 \/
        same_middle open_raster (q_row_init q) row0 nrow col0 ncol /\ same_middle open_raster (q_col_init q) row0 nrow col0 ncol).
    { unfold answered in Hans. destruct e.
      - destruct (Ccst eq_refl) as (a & b & Ca & Cb). pose proof (Cst a b Ca Cb). tauto.
      - destruct Hans as (-> & _). rewrite C. split; [tauto|]. intros [X|X]; [discriminate | tauto]. }
    rewrite <- E, <- D. clear E C. split.
    - intros Hok E. apply Hok. rewrite Emain. unfold finish. rewrite E. reflexivity.
    - intros Hcv. destruct (compute_cost_volumes _ _ _ _ _) as [cv|] eqn:Ecv; [clear Hcv|congruence]. destruct (compute_fields px_eqb _ _ _ _ Wm _ Ecv) as (F1 & F2 & F3 & F4 & F5 & _).
      pose proof (units_wf (one / Z.of_nat (mc_subpix mi)) cv (compute_wf_cv px_eqb _ _ _ _ Wm _ Ecv)) as Wu.
      destruct (wta_invalid_iff 100 (invalid_of one (q_invalid q)) _ Wu) as (mcol & mrow & score & Ew & R1 & R2 & R3 & _).
      destruct (L3 p) as [Pr Pc]. rewrite S in Pr, Pc. cbn [fst snd] in Pr, Pc.
      destruct (loaded_not_empty mi sc _ _ Ld) as [N1 N2]; [lia|lia|]. rewrite <- F1 in N1. rewrite <- F2 in N2.
      unfold finish in Emain. rewrite Ecv in Emain. cbn [bind] in Emain. rewrite Ew in Emain. cbn [bind] in Emain.
      destruct cr' as [c|].
      + assert (r = true) by (apply Hr; discriminate). subst r. specialize (Hmethod eq_refl). assert (Hc := Hck). unfold WholeModel.check_user in Hc.
        assert (Lmeth : lookup "refinement_method" c = Some (JStr "interpolation")).
        { pose proof (kept_method _ _ _ _ _ _ _ _ _ _ _ L1 _ _ _ _ W Hc raw Lp e true K "interpolation" Hmethod (or_intror (or_introl eq_refl))) as Km.
          destruct Hcr as (_ & x & st & ws & Gx & _ & Hri & _). destruct (path_dict _ _ _ _ _ Gx) as (pl & Lpl). cbn [get_path] in Gx, Km. rewrite Lpl in Gx, Km. cbn [get_path] in Gx, Km.
          destruct (lookup "refinement" pl) as [jx|]; [|discriminate]. cbn [get_path] in Gx, Km. injection Gx as ->. cbn [get_path] in Km.
          destruct (lookup "refinement_method" x) as [jm|] eqn:Ljm; [|discriminate]. cbn [get_path] in Km. injection Km as ->.
          unfold refinement_init in Hri. rewrite Ljm in Hri. cbn [String.eqb Ascii.eqb Bool.eqb] in Hri. unfold interpolation_init in Hri. destruct (validate _ x); [|discriminate]. injection Hri as <-. exact Ljm. }
        destruct Hcr as (Hmg & _). unfold refinement_margins in Hmg. rewrite Lmeth in Hmg. cbn [String.eqb Ascii.eqb Bool.eqb] in Hmg.
        assert (Dsub' : (Z.of_nat (mc_subpix mi) | one)) by (rewrite Fsub, Z2Nat.id by lia; exact Dsub).
        match type of Emain with context [refine _ _ _ _ _ _ _ _ _ _ _ ?a ?b ?c ?d ?e ?f ?g] =>
          destruct (refine_interpolation_exact nan bool_ok offset_of one store filter_apply lstsq resample junk interp minimise a b c1 mi _ cv d e f g _ _ Lmeth Wm L7 Dsub' Hmg F3 F4 N1 N2 R1 R2
            (fun _ => iff_refl _) (fun _ => iff_refl _)) as (dc & dr & vsc & Er & X1 & X2 & X3 & _) end.
        rewrite Er in Emain. cbn [bind dataset_of] in Emain. rewrite F1, F2 in X1, X2, X3.
        destruct (saved_spec mi sc _ _ (map (map cost_of_num) dr) (map (map cost_of_num) dc) vsc (transform_of l) Ld ltac:(now apply rect_map) ltac:(now apply rect_map) X3) as (saved & after & Esave & _).
        rewrite Esave in Emain. cbn [bind] in Emain. congruence.
      + cbn [bind dataset_of] in Emain. cbn [in_units cv_nrow cv_ncol] in R1, R2, R3. rewrite F1, F2 in R1, R2, R3.
        destruct (saved_spec mi sc (Z.of_nat rows) (Z.of_nat cols) (map (map (cost_of_ext one)) mrow) (map (map (cost_of_ext one)) mcol) (map (map (cost_of_ext one)) score) (transform_of l) Ld)
          as (saved & after & Esave & _); try (now apply rect_map).
        rewrite Esave in Emain. cbn [bind] in Emain. congruence.
  Qed.

  (** With a dichotomy: the steps are 1. *)
  Theorem C98_dichotomy user q rows cols e : libraries -> dichotomy_libraries -> programmed user q rows cols e true -> two_lines q rows cols ->
    get_path ["pipeline"; "refinement"; "refinement_method"] (JDict user) = Some (JStr "dichotomy") ->
    (main user <> None <-> q_row_step q = 1 /\ q_col_step q = 1).
  Proof.
    intros Hlib Hdl Hp T2 Hmethod. split.
    2: { intros (S1 & S2). destruct e.
      - destruct Hp as (Ha & K). destruct (C76_estimation_dichotomy px_eqb nan bool_ok pandora_check matching_cost_margins can_open_mandatory can_open images_ok image_size open_raster load transform_of dataset_ok
          measure_of offset_of pandora_cost zoomed one store filter_apply lstsq resample junk interp minimise estimate global_margins margins_to_dict user q rows cols Hlib Hdl Ha K Hmethod S1 S2)
          as (? & ? & ? & ? & ? & out & saved & _ & E & _). congruence.
      - destruct Hp as ((Ha & Ht) & K). destruct (C72_main_step1 px_eqb nan bool_ok pandora_check matching_cost_margins can_open_mandatory can_open images_ok image_size open_raster load transform_of dataset_ok
          measure_of offset_of pandora_cost zoomed one store filter_apply lstsq resample junk interp minimise estimate global_margins margins_to_dict user q rows cols true Hlib Ha K (fun _ => conj Hmethod Hdl) S1 S2 Ht)
          as (out & saved & E & _). congruence. }
    destruct Hlib as (L1 & L2 & L3 & L4 & L5 & L6 & L7 & L8). destruct Hp as (Ha & (raw & Lp & K)).
    assert (X : wf (JDict user) /\ accepted bool_ok pandora_check can_open_mandatory can_open images_ok image_size open_raster user /\ asks_others bool_ok user q /\
      (exists left_path, get_path ["input"; "left"; "img"] (JDict user) = Some (JStr left_path) /\ image_size left_path = (rows, cols)) /\
      match q_zone q with Some z => z_r0 z < Z.of_nat rows /\ z_c0 z < Z.of_nat cols | None => True end).
    { destruct e; [destruct Ha as (W & A & Ho & _ & G & Z); auto|]. destruct Ha as ((W & A & (_ & _ & _ & _ & Ho) & G & Z) & _). auto. }
    destruct X as (W & A & Ho & (p & G & S) & Z).
    destruct (main_ready px_eqb nan bool_ok pandora_check matching_cost_margins can_open_mandatory can_open images_ok image_size open_raster load transform_of dataset_ok
      measure_of offset_of pandora_cost zoomed one store filter_apply lstsq resample junk interp minimise estimate global_margins margins_to_dict L1 L2 L3 L4 L5 L6 user q rows cols p W A Ho G S Z)
      with (e := e) (raw := raw) (r := true) as (m & cfg & l & rg & x1 & c1 & sub & row0 & nrow & col0 & ncol & q' & mi & sc & cr' & lc & lr & rgrids & cfg3 & final & H); auto.
    { intros ->. destruct Ha as ((_ & _ & Q & _) & T). auto. }
    { intros ->. destruct Ha as (_ & _ & _ & Q & _). exact Q. }
    destruct H as (Hck & Gl & Grg & Gx1 & Emc & Gsub & Fsub & Psub & Dsub & _ & Wok & Hans & (Qz & Qr & Qc & Qi) & Ccst & Fw1 & Fw2 & Fw3 & Fw4 & Fme & Fsr & Fsc & Wm & Cst & Ar & Ac & Hint & Ld & Sto & Hnz & Hr & Hcr & Fgr & Emain).
    destruct cr' as [c|]; [|exfalso; apply (proj2 Hr eq_refl); reflexivity]. assert (Hc := Hck). unfold WholeModel.check_user in Hc.
    destruct Hcr as (Fmg & x & st & ws & Gx & Wx & Hri & _).
    pose proof (kept_method _ _ _ _ _ _ _ _ _ _ _ L1 _ _ _ _ W Hc raw Lp e true K "dichotomy" Hmethod (or_introl eq_refl)) as Km.
    assert (Ljm : lookup "refinement_method" x = Some (JStr "dichotomy")).
    { destruct (path_dict _ _ _ _ _ Gx) as (pl & Lpl). cbn [get_path] in Gx, Km. rewrite Lpl in Gx, Km. cbn [get_path] in Gx, Km.
      destruct (lookup "refinement" pl) as [jx|]; [|discriminate]. cbn [get_path] in Gx, Km. injection Gx as ->. cbn [get_path] in Km.
      destruct (lookup "refinement_method" x) as [jm|]; [|discriminate]. cbn [get_path] in Km. exact Km. }
    destruct Hdl as (Hro & H512 & _). destruct (dichotomy_ready bool_ok one filter_apply _ _ _ _ Wx Hri Ljm H512) as (f & n' & D1 & D2 & D3 & _).
    intros Hok. destruct (two_loaded _ _ _ _ _ _ _ T2 Wok) as (N2 & C2). assert (Wm' := Wm). destruct Wm' as (_ & _ & _ & Sr & Sc & _ & _ & Hg & _).
    assert (D : q_row_step q = 1 /\ q_col_step q = 1 \/ (2 <= q_row_step q \/ 2 <= q_col_step q)) by lia. destruct D as [D|D]; [exact D|]. exfalso. apply Hok. rewrite Emain. unfold finish.
    destruct (compute_cost_volumes _ _ _ _ _) as [cv|] eqn:Ecv; [|reflexivity]. cbn [bind]. destruct (compute_fields px_eqb _ _ _ _ Wm _ Ecv) as (F1 & F2 & _).
    destruct (compute_disp_maps _ _ _) as [[[mc0 mr0] sc0]|]; [|reflexivity]. cbn [bind].
    destruct (L3 p) as [Pr Pc]. rewrite S in Pr, Pc. cbn [fst snd] in Pr, Pc. destruct (loaded_not_empty mi sc _ _ Ld) as [N1 N3]; [lia|lia|].
    destruct (Hg (mc_row_min mi) ltac:(auto)) as (G0 & G1).
    unfold refine. rewrite D1. cbn [String.eqb Ascii.eqb Bool.eqb]. rewrite D2, D3. cbv zeta. unfold WholeModel.grids_of. cbn [w_left gd_grids]. rewrite <- Fgr.
    rewrite dichotomy_larger_grids; [reflexivity| | | | |]; cbn [in_units cv_nrow cv_ncol left_grids g_row_min]; rewrite ?F1, ?F2, ?G0, ?G1; try assumption; try congruence.
    - rewrite <- Fsr, <- Fsc in D. apply (fewer_with_step mi _ Wm); congruence || assumption.
  Qed.

  (** With an optical flow, in images large enough for its windows, without ROI or with steps of 1: there is an estimation, or the steps are 1, or the initial disparities do not change. *)
  Theorem C98_optical_flow pixel_cost user q rows cols e n left right completed subpix w : libraries -> cost_contract pixel_cost -> programmed user q rows cols e true -> two_lines q rows cols ->
    asks_refinement bool_ok user "optical_flow" n -> (q_zone q = None \/ q_row_step q = 1 /\ q_col_step q = 1) ->
    matching_of user left right completed subpix -> int_at bool_ok ["window_size"] completed = Some w -> offset_of completed = (w - 1) / 2 -> flow_room w q rows cols ->
    (main user <> None <-> e = true \/ q_row_step q = 1 /\ q_col_step q = 1 \/
      same_middle open_raster (q_row_init q) 0 rows 0 cols /\ same_middle open_raster (q_col_init q) 0 rows 0 cols).
  Proof.
    intros Hlib Hcc Hp T2 Hm Hzone Hmat Hwin Hoff Hroom. split.
    - intros Hok. destruct e; [auto|]. destruct Hzone as [Hz|Hz]; [|auto]. right.
      assert (D : q_row_step q = 1 /\ q_col_step q = 1 \/ (q_row_step q <> 1 \/ q_col_step q <> 1)) by lia. destruct D as [D|D]; [auto|]. right.
      destruct (C94_grids_with_step px_eqb nan bool_ok pandora_check matching_cost_margins can_open_mandatory can_open images_ok image_size open_raster load transform_of dataset_ok
        measure_of offset_of pandora_cost zoomed one store filter_apply lstsq resample junk interp minimise estimate global_margins margins_to_dict pixel_cost user q rows cols true Hlib Hcc Hp T2 D)
        as (row0 & nrow & col0 & ncol & Wok & _ & Hs & _). unfold window_ok in Wok. rewrite Hz in Wok. destruct Wok as (-> & -> & -> & ->). auto.
    - intros Hcase. destruct (C92_optical_flow_exact px_eqb nan bool_ok pandora_check matching_cost_margins can_open_mandatory can_open images_ok image_size open_raster load transform_of dataset_ok
        measure_of offset_of pandora_cost zoomed one store filter_apply lstsq resample junk interp minimise estimate global_margins margins_to_dict pixel_cost user q rows cols e n left right completed subpix w
        Hlib Hcc Hp Hm) as (? & ? & ? & ? & ? & out & saved & _ & E & _); auto; [tauto | congruence].
  Qed.
End Program.

(** ** Examples *)
(** Grids that do not change in the loaded window, with a step of 2; grids that change, with a step of 2; an interpolation with steps of 2 and 3. *)
Example C98_no_error_example : libraries true wh_pandora (fun _ _ _ _ => true) wh_size wh_load (fun _ => true) (fun _ => MeasureMin) wh_cost 512 /\
  (w5_programmed w11_user w11_request 8 9 false false /\ two_lines w11_request 8 9 /\ q_row_step w11_request = 2 /\ wh_main w11_user <> None) /\
  (w5_programmed wh_user3 wh_request3 8 9 false false /\ two_lines wh_request3 8 9 /\ wh_main wh_user3 = None) /\
  libraries true wh_pandora (fun _ _ _ _ => true) wh_size wh_load (fun _ => true) (fun _ => MeasureMin) w3_cost 512 /\
  w5_programmed w5_user1 wh_request1 8 9 false true /\ two_lines wh_request1 8 9 /\ get_path ["pipeline"; "refinement"; "refinement_method"] (JDict w5_user1) = Some (JStr "interpolation").
Proof.
  split; [exact wh_libraries|]. split.
  { split; [split; [split; [exact w11_asked | intros; cbn; lia] | eexists; split; reflexivity]|]. split; [cbn; lia|]. split; [reflexivity|]. vm_compute. discriminate. }
  split. { split; [split; [split; [exact wh_asked3 | intros; cbn; lia] | eexists; split; reflexivity]|]. split; [cbn; lia|]. vm_compute. reflexivity. }
  split; [exact w3_libraries|]. split; [exact w5_programmed1|]. split; [cbn; lia | reflexivity].
Qed.
(** The same dichotomy with steps of 1 and 2, that fails, and with steps of 1. *)
Definition w13_user (col_step : Z) : dict := wh_user [JInt 1; JInt col_step] (wh_disp (JInt 0) 1) (wh_disp (JInt (-1)) 1) [] wh_dichotomy.
Definition w13_request (col_step : Z) : request := mkRequest (JInt 0) 1 (JInt (-1)) 1 1 col_step None JNan.
Lemma w13_programmed : w5_programmed (w13_user 2) (w13_request 2) 8 9 false true /\ w5_programmed (w13_user 1) (w13_request 1) 8 9 false true.
Proof. split; (split; [split; [unfold w13_user, w13_request; wh_asked_tac | intros s H; discriminate H] | eexists; split; reflexivity]). Qed.
Example C98_dichotomy_example : libraries true wh_pandora (fun _ _ _ _ => true) wh_size wh_load (fun _ => true) (fun _ => MeasureMin) w3_cost 512 /\
  dichotomy_libraries true wh_pandora w3_cost 512 (fun x => x) /\
  w5_programmed (w13_user 2) (w13_request 2) 8 9 false true /\ w5_programmed (w13_user 1) (w13_request 1) 8 9 false true /\ (forall s, two_lines (w13_request s) 8 9) /\
  (forall s, get_path ["pipeline"; "refinement"; "refinement_method"] (JDict (w13_user s)) = Some (JStr "dichotomy")) /\ w6_main (w13_user 2) = None.
Proof.
  split; [exact w3_libraries|]. split; [exact w6_dichotomy_libraries|]. split; [apply w13_programmed|]. split; [apply w13_programmed|]. split; [intros; cbn; lia|]. split; [reflexivity|].
  vm_compute. reflexivity.
Qed.
(** The optical flow of C82_example, with a step of 2 and constant disparities: they are the same in the whole image. *)
Example C98_optical_flow_example : w5_programmed (w6_user [JInt 2; JInt 1] []) (w6_request 2 1 None) 8 9 false true /\ two_lines (w6_request 2 1 None) 8 9 /\
  asks_refinement true (w6_user [JInt 2; JInt 1] []) "optical_flow" 4 /\ q_zone (w6_request 2 1 None) = None /\ flow_room 3 (w6_request 2 1 None) 8 9 /\
  same_middle wh_raster (q_row_init (w6_request 2 1 None)) 0 8 0 9 /\ same_middle wh_raster (q_col_init (w6_request 2 1 None)) 0 8 0 9 /\ w6_main (w6_user [JInt 2; JInt 1] []) <> None.
Proof.
  split; [exact w6_programmed_step|]. split; [cbn; lia|]. split; [split; [reflexivity | right; split; [reflexivity|]; split; reflexivity]|]. split; [reflexivity|]. split; [split; reflexivity|].
  split; [eapply constant_same; constructor|]. split; [eapply constant_same; constructor|].
  destruct C82_example as (_ & _ & _ & _ & _ & _ & _ & _ & (? & ? & ? & ? & E & _) & _). intros N. rewrite N in E. discriminate E.
Qed.

Print Assumptions C98_no_error.
Print Assumptions C98_dichotomy.
Print Assumptions C98_optical_flow.
