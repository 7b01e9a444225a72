(** C93: the saved maps after an interpolation are the ones of the optimiser. *)
From Coq Require Import List String Bool ZArith QArith Qabs Lia.
From Verif Require Import Base.Ext Base.PyList Base.Arr Base.Json Base.Dict Base.ZRange Model.CommonModel Model.DisparityModel Model.MatchingCostModel Model.DichotomyModel
  Model.RoiModel Model.InputModel Model.ConfigModel Model.DatasetModel Model.EstimationModel Model.OpticalFlowModel Model.InterpolationModel Model.MachineModel Model.CheckConfModel
  Model.PipelineModel Model.WholeModel Model.ImgShiftModel
  Spec.MatchingCostSpec Spec.DichotomySpec Spec.RoiSpec Spec.PipelineSpec Spec.ConfigSpec Spec.InputSpec Spec.MachineSpec Spec.CheckConfSpec Spec.AcceptSpec Spec.WholeSpec Spec.BestSpec Spec.WtaSpec Spec.ShiftSpec Spec.WholeEverySpec Spec.WholeEndSpec Spec.InterpolationSpec Spec.OpticalFlowSpec Spec.WholeRefineSpec Spec.HalvingSpec Spec.WholeExactSpec Spec.WholeFlowSpec Spec.WholeInterpSpec
  Proofs.CheckConfProofs Proofs.ConfigProofs Proofs.ConfigStepProofs Proofs.AcceptProofs Proofs.RoiProofs Proofs.WtaProofs Proofs.WtaTheorems Proofs.MatchingCostProofs Proofs.MatchingCostTheorems Proofs.PipelineProofs Proofs.WholeRunProofs Proofs.WholeProofs Proofs.WholeMainProofs Proofs.HalvingProofs Proofs.BetweenProofs Proofs.RefineBestProofs Proofs.RefineExactProofs Proofs.WholeMoreProofs Proofs.WholeEveryProofs Proofs.WholeEndProofs Proofs.BestProofs Proofs.RefineBestProofs Proofs.WholeFlowProofs Proofs.WholeInterpProofs
  Props.RoiProps Props.PipelineProps Props.CheckConfProps Props.InterpolationProps Props.WholeProps Props.WholeMoreProps Props.WholeEveryProps Props.WholeRefineProps Props.WholeExactProps.
Import ListNotations.
Open Scope Z_scope.
Open Scope string_scope.
Open Scope list_scope.

Section Program.
  (** The libraries: see WholeModel. *)
  Context {px : Type} (px_eqb : px -> px -> bool) (nan : px).
  Variable bool_ok : bool.
  Variable pandora_check : dict -> option (json * json * json).
  Variable matching_cost_margins : dict -> margins.
  Variable can_open_mandatory can_open : json -> bool.
  Variable images_ok : json -> json -> json -> json -> bool.
  Variable image_size : string -> nat * nat.
  Variable open_raster : string -> reader.
  Variable load : dict -> Z -> nat -> Z -> nat -> image px.
  Variable transform_of : dict -> option affine.
  Variable dataset_ok : image_dataset (image px) -> bool.
  Variable measure_of : dict -> measure.
  Variable offset_of : dict -> Z.
  Variable pandora_cost : dict -> mc_input -> image px -> list (list px) -> list (list Z) -> nat -> nat -> nat -> ext.
  Variable zoomed : image px -> nat -> nat -> nat -> px.
  Variable one : Z.
  Variable store : ext -> ext.
  Variable filter_apply : dict -> list (list ext) -> Z -> Z -> ext.
  Variable lstsq : list (list px) -> list (list px) -> option (num * num).
  Variable resample : list (list px) -> num -> num -> list (list px).
  Variable junk : nat -> list (list px).
  Variable interp : list Q -> list Q -> list (list cost) -> num -> num -> cost.
  Variable minimise : (num -> num -> cost) -> num * num -> (Q * Q) * (Q * Q) -> num * num.
  Variable estimate : json -> image px -> image px -> (Q * Q) * json * json.
  Variable global_margins : list (string * margins) -> list (string * margins) -> margins.
  Variable margins_to_dict : list (string * margins) -> list (string * margins) -> json.
  Notation main := (main px_eqb nan bool_ok pandora_check matching_cost_margins can_open_mandatory can_open images_ok image_size open_raster load transform_of dataset_ok
    measure_of offset_of pandora_cost zoomed one store filter_apply lstsq resample junk interp minimise estimate global_margins margins_to_dict).
  Notation check_user := (check_user px_eqb nan bool_ok pandora_check matching_cost_margins can_open_mandatory can_open images_ok image_size open_raster
    measure_of offset_of pandora_cost zoomed one store filter_apply lstsq resample junk interp minimise estimate).
  Notation libraries := (libraries bool_ok pandora_check images_ok image_size load dataset_ok measure_of pandora_cost one).
  Notation dichotomy_libraries := (dichotomy_libraries bool_ok pandora_check pandora_cost one store).
  Notation asked := (asked bool_ok pandora_check can_open_mandatory can_open images_ok image_size open_raster).
  Notation asked_estimation := (asked_estimation bool_ok pandora_check can_open_mandatory can_open images_ok image_size open_raster).
  Notation cost_contract := (cost_contract measure_of pandora_cost).

  Notation programmed := (programmed bool_ok pandora_check can_open_mandatory can_open images_ok image_size open_raster).
  Notation matching_of := (matching_of px_eqb nan bool_ok pandora_check matching_cost_margins can_open_mandatory can_open images_ok image_size open_raster measure_of offset_of pandora_cost zoomed one
    store filter_apply lstsq resample junk interp minimise estimate).
  Notation estimated_request := (estimated_request px_eqb nan bool_ok pandora_check matching_cost_margins can_open_mandatory can_open images_ok image_size open_raster load
    measure_of offset_of pandora_cost zoomed one store filter_apply lstsq resample junk interp minimise estimate).
  Notation searched_in := (searched_in px_eqb nan bool_ok pandora_check matching_cost_margins can_open_mandatory can_open images_ok image_size open_raster load measure_of offset_of pandora_cost zoomed one
    store filter_apply lstsq resample junk interp minimise estimate).
  Notation window_cost := (window_cost px_eqb load zoomed).

  (** * C93: the exact result of an interpolation *)
  Theorem C93_interpolation_exact pixel_cost user q rows cols e left right completed subpix : libraries -> cost_contract pixel_cost -> programmed user q rows cols e true ->
    get_path ["pipeline"; "refinement"; "refinement_method"] (JDict user) = Some (JStr "interpolation") ->
    (e = true \/ same_middle open_raster (q_row_init q) 0 rows 0 cols /\ same_middle open_raster (q_col_init q) 0 rows 0 cols \/ q_row_step q = 1 /\ q_col_step q = 1 \/
      two_lines q rows cols /\ main user <> None) ->
    matching_of user left right completed subpix ->
    exists q' row0 nrow col0 ncol out saved, searched_in user q q' rows cols e row0 nrow col0 ncol /\ main user = Some out /\ o_maps out = Some saved /\
      saved_pixels q rows cols saved /\
      let cost := window_cost pixel_cost left right completed subpix row0 nrow col0 ncol in
      let all_rows := of_the_window open_raster (q_row_init q') (q_row_range q') subpix row0 nrow col0 ncol in
      let all_cols := of_the_window open_raster (q_col_init q') (q_col_range q') subpix row0 nrow col0 ncol in
      let from x y a b vr vc vs := exists sample,
        sampled (candidate open_raster (q_row_init q') (q_row_range q') subpix x y) (candidate open_raster (q_col_init q') (q_col_range q') subpix x y) all_rows all_cols (cost x y) sample /\
        interpolated interp minimise one subpix (measure_of completed) all_rows all_cols sample a b vr vc vs in
      saved_from_best open_raster subpix (measure_of completed) q' cost
        (fun x y vr vc vs => exists w a, shows one (q_invalid q') w /\ finite_part w a /\ from x y a a vr vc vs)
        (fun x y vr vc vs dr dc _ => exists a b, in_pixels subpix dr a /\ in_pixels subpix dc b /\ from x y a b vr vc vs) saved.
  Proof.
    intros (L1 & L2 & L3 & L4 & L5 & L6 & L7 & L8) (K1 & K2) (Ha & (raw & Lp & K)) Hmethod Hcase (m0 & cfg0 & st0 & M1 & M2 & M3 & M4 & M5 & M6).
    assert (X : wf (JDict user) /\ accepted bool_ok pandora_check can_open_mandatory can_open images_ok image_size open_raster user /\ asks_others bool_ok user q /\
      (exists left_path, get_path ["input"; "left"; "img"] (JDict user) = Some (JStr left_path) /\ image_size left_path = (rows, cols)) /\
      match q_zone q with Some z => z_r0 z < Z.of_nat rows /\ z_c0 z < Z.of_nat cols | None => True end).
    { destruct e; [destruct Ha as (W & A & Ho & _ & G & Z); auto|]. destruct Ha as ((W & A & (_ & _ & _ & _ & Ho) & G & Z) & _). auto. }
    destruct X as (W & A & Ho & (p & G & S) & Z).
    destruct (main_ready px_eqb nan bool_ok pandora_check matching_cost_margins can_open_mandatory can_open images_ok image_size open_raster load transform_of dataset_ok
      measure_of offset_of pandora_cost zoomed one store filter_apply lstsq resample junk interp minimise estimate global_margins margins_to_dict L1 L2 L3 L4 L5 L6 user q rows cols p W A Ho G S Z)
      with (e := e) (raw := raw) (r := true) as (m & cfg & l & rg & x1 & c1 & sub & row0 & nrow & col0 & ncol & q' & mi & sc & cr' & lc & lr & rgrids & cfg3 & final & H); auto.
    { intros ->. destruct Ha as ((_ & _ & Q & _) & T). auto. }
    { intros ->. destruct Ha as (_ & _ & _ & Q & _). exact Q. }
    destruct H as (Hck & Gl & Grg & Gx1 & Emc & Gsub & Fsub & Psub & Dsub & _ & Wok & Hans & (Qz & Qr & Qc & Qi) & Ccst & Fw1 & Fw2 & Fw3 & Fw4 & Fme & Fsr & Fsc & Wm & Cst & Ar & Ac & Hint & Ld & Sto & Hnz & Hr & Hcr & Fgr & Emain).
    rewrite Hck in M1. injection M1 as <- <-. rewrite Gl in M2. injection M2 as <-. rewrite Grg in M3. injection M3 as <-. rewrite Gx1 in M4. injection M4 as <-. rewrite Emc in M5. injection M5 as <-. rewrite Gsub in M6. injection M6 as <-.
    destruct cr' as [c|]; [|exfalso; apply (proj2 Hr eq_refl); reflexivity].
    assert (Hc := Hck). unfold WholeModel.check_user in Hc.
    assert (Lmeth : lookup "refinement_method" c = Some (JStr "interpolation")).
    { pose proof (kept_method _ _ _ _ _ _ _ _ _ _ _ L1 _ _ _ _ W Hc raw Lp e true K "interpolation" Hmethod (or_intror (or_introl eq_refl))) as Km.
      destruct Hcr as (_ & x & st & ws & Gx & _ & Hri & _). destruct (path_dict _ _ _ _ _ Gx) as (pl & Lpl). cbn [get_path] in Gx, Km. rewrite Lpl in Gx, Km. cbn [get_path] in Gx, Km.
      destruct (lookup "refinement" pl) as [jx|]; [|discriminate]. cbn [get_path] in Gx, Km. injection Gx as ->. cbn [get_path] in Km.
      destruct (lookup "refinement_method" x) as [jm|] eqn:Ljm; [|discriminate]. cbn [get_path] in Km. injection Km as ->.
      unfold refinement_init in Hri. rewrite Ljm in Hri. cbn [String.eqb Ascii.eqb Bool.eqb] in Hri. unfold interpolation_init in Hri. destruct (validate _ x); [|discriminate]. injection Hri as <-. exact Ljm. }
    destruct Hcr as (Hmg & _). unfold refinement_margins in Hmg. rewrite Lmeth in Hmg. cbn [String.eqb Ascii.eqb Bool.eqb] in Hmg.
    assert (Hcons : constant_ranges mi \/ mc_step_row mi = 1 /\ mc_step_col mi = 1).
    { destruct Hcase as [He|[HC|[[S1 S2]|[T2 Hok]]]]; [left; destruct (Ccst He) as (a & b & Ca & Cb); eauto | | right; split; congruence |].
      2: { apply (proj1 (volumes_computed px_eqb (pandora_cost c1 mi (load l row0 nrow col0 ncol)) (zoomed (load rg row0 nrow col0 ncol) (mc_subpix mi)) open_raster mi (load rg row0 nrow col0 ncol) q q' rows cols
             row0 nrow col0 ncol Wm Hint Qz T2 Wok Fw1 Fw2 Fw3 Fw4)). intros E. apply Hok. rewrite Emain. unfold finish. rewrite E. reflexivity. }
      unfold answered in Hans. destruct e; [left; destruct (Ccst eq_refl) as (a & b & Ca & Cb); eauto|]. destruct Hans as [-> _]. left. exact (same_ranges open_raster mi _ q rows cols row0 nrow col0 ncol Wm Hint Wok Fw1 Fw2 Fw3 Fw4 HC). }
    assert (Hcv : exists cv, compute_cost_volumes px_eqb (pandora_cost c1 mi (load l row0 nrow col0 ncol)) (zoomed (load rg row0 nrow col0 ncol) (mc_subpix mi)) mi (load rg row0 nrow col0 ncol) = Some cv).
    { destruct Hcons as [HC|[S1 S2]]; [destruct (compute_cost_volumes_const px_eqb (pandora_cost c1 mi (load l row0 nrow col0 ncol)) (zoomed (load rg row0 nrow col0 ncol) (mc_subpix mi)) mi _ Wm HC) as (cv & E & _)
        | destruct (compute_cost_volumes_step1 px_eqb (pandora_cost c1 mi (load l row0 nrow col0 ncol)) (zoomed (load rg row0 nrow col0 ncol) (mc_subpix mi)) mi _ Wm S1 S2) as (cv & E & _)]; eauto. }
    destruct Hcv as (cv & Ecv). destruct (compute_fields px_eqb _ _ _ _ Wm _ Ecv) as (F1 & F2 & F3 & F4 & F5 & F6 & _).
    pose proof (units_wf (one / Z.of_nat (mc_subpix mi)) cv (compute_wf_cv px_eqb _ _ _ _ Wm _ Ecv)) as Wu.
    destruct (wta_invalid_iff 100 (invalid_of one (q_invalid q)) _ Wu) as (mcol & mrow & score & Ew & R1 & R2 & R3 & _).
    assert (Esub : Z.of_nat (mc_subpix mi) = sub) by (rewrite Fsub; lia).
    assert (Hcost : forall a b r cc i y ds d, nth_error (col_coords mi) cc = Some y -> disps_col mi = Some ds -> nth_error ds i = Some d ->
      pandora_cost c1 mi (load l row0 nrow col0 ncol) a b r cc i = pixel_cost c1 (load l row0 nrow col0 ncol) a b r (Z.to_nat (y - mc_col0 mi)) d) by (intros; eapply K1; eauto).
    destruct (run_best px_eqb (pandora_cost c1 mi (load l row0 nrow col0 ncol)) (zoomed (load rg row0 nrow col0 ncol) (mc_subpix mi)) mi (load rg row0 nrow col0 ncol) Wm
      (pixel_cost c1 (load l row0 nrow col0 ncol))) with (chunk := 100%nat) (inv := invalid_of one (q_invalid q)) (k := one / Z.of_nat (mc_subpix mi)) (cv := cv) as (mcol' & mrow' & score' & Edm' & P); auto.
    { intros. rewrite Fme. apply K2. }
    rewrite Ew in Edm'. injection Edm' as <- <- <-.
    destruct (L3 p) as [Pr Pc]. rewrite S in Pr, Pc. cbn [fst snd] in Pr, Pc.
    destruct (loaded_not_empty mi sc _ _ Ld) as [N1 N2]; [lia|lia|]. rewrite <- F1 in N1. rewrite <- F2 in N2.
    unfold finish in Emain. rewrite Ecv in Emain. cbn [bind] in Emain. rewrite Ew in Emain. cbn [bind] in Emain.
    assert (Dsub' : (Z.of_nat (mc_subpix mi) | one)) by (rewrite Esub; exact Dsub).
    destruct (window_bounds px_eqb nan open_raster lstsq resample junk mi _ q' sub Wm Psub Hint) as [Br Bc]. rewrite <- Esub in Br, Bc.
    match type of Emain with context [refine _ _ _ _ _ _ _ _ _ _ _ ?a ?b ?c ?d ?e ?f ?g] =>
      destruct (refine_interpolation_exact nan bool_ok offset_of one store filter_apply lstsq resample junk interp minimise a b c1 mi _ cv d e f g _ _ Lmeth Wm L7 Dsub' Hmg F3 F4 N1 N2 R1 R2 Br Bc)
        as (dc & dr & vsc & Er & X1 & X2 & X3 & I) end.
    rewrite Er in Emain. cbn [bind] in Emain. rewrite F1, F2 in X1, X2, X3, I. unfold dataset_of in Emain.
    destruct (saved_spec mi sc _ _ (map (map cost_of_num) dr) (map (map cost_of_num) dc) vsc (transform_of l) Ld ltac:(now apply rect_map) ltac:(now apply rect_map) X3)
      as (saved & after & Esave & I1 & I2 & O1 & O2 & Wf & V).
    rewrite Esave in Emain. cbn [bind fst snd] in Emain.
    exists q', row0, nrow, col0, ncol. do 2 eexists. split; [|split; [exact Emain|]; split; [reflexivity|]; split].
    - split; [exact Wok|]. unfold answered in Hans. destruct e; [|exact Hans]. destruct Hans as (j & sh & er & ph & ir & ic & E1 & E2 & E3 & E4 & E5).
      exists m, cfg, l, rg, j, sh, er, ph, ir, ic. auto 12.
    - split; [intros x; rewrite I1, Fsr, <- Qr, Ar; unfold wanted_row; now rewrite Qz, Qr|]. split; [intros y; rewrite I2, Fsc, <- Qc, Ac; unfold wanted_col; now rewrite Qz, Qc|]. auto.
    - cbv zeta. intros x y Hx Hy. apply In_nth_error in Hx as (a & Hx). apply In_nth_error in Hy as (b & Hy).
      destruct (V a b x y Hx Hy) as (i & j & Hi & Hj & V1 & V2 & V3). destruct (P i j x y Hi Hj) as (vr & vc & vs & N1' & N2' & N3' & B).
      destruct (I i j vr vc (pixel_samples mi (pair_cost px_eqb (pixel_cost c1 (load l row0 nrow col0 ncol)) (zoomed (load rg row0 nrow col0 ncol) (mc_subpix mi)) (load rg row0 nrow col0 ncol) (mc_subpix mi) (mc_row0 mi) (mc_col0 mi) x y) x y))
        as (va & vb & vs' & P1 & P2 & P3 & Int); [apply nth_error_Some; congruence | apply nth_error_Some; congruence | exact N1' | exact N2' | |].
      { intros i' j' dr' dc' Ei Ej. exact (run_samples_any px_eqb _ _ mi _ Wm _ Hcost cv i j x y i' j' dr' dc' Hcons Ecv Hi Hj Ei Ej). }
      exists (cost_of_num va), (cost_of_num vb), vs'. rewrite nth2_map, P2 in V1. rewrite nth2_map, P1 in V2. cbn [option_map] in V1, V2. rewrite P3 in V3. split; [exists a, b; auto 10|].
      assert (Xr := Hi). assert (Xc := Hj). apply nth_error_In in Xr, Xc. apply (row_coords_in mi _ Wm) in Xr. apply (col_coords_in mi _ _ Wm) in Xc.
      rewrite Esub in B, Int. rewrite F6 in Int. rewrite Fme, Fsub, Fw1, Fw3 in B. rewrite Fme, Fsub, Fw1, Fw2, Fw3, Fw4 in Int.
      assert (Sh := shows_stored bool_ok one (q_invalid q) L7 Sto). rewrite <- Qi in Sh, B.
      assert (Sw := samples_window px_eqb nan open_raster zoomed one store lstsq resample junk mi (load rg row0 nrow col0 ncol) q' sub x y (window_cost pixel_cost l rg c1 sub row0 nrow col0 ncol x y) Wm Esub Psub Hint Xr Xc). rewrite Fw1, Fw2, Fw3, Fw4 in Sw.
      revert B. apply best_imp.
      + intros d. apply (Hint x y sub d); auto; lia.
      + intros d. apply (Hint x y sub d); auto; lia.
      + intros (-> & -> & ->). exists (cost_of_ext one (invalid_of one (q_invalid q'))), (num_of_ext one (invalid_of one (q_invalid q'))). split; [exact Sh|]. split; [apply finite_num|]. eexists. split; [exact Sw | exact Int].
      + intros kr kc s Hkr Hkc Hs (-> & -> & ->). exists (num_of_ext one (Fin (kr * (one / sub)))), (num_of_ext one (Fin (kc * (one / sub)))). split; [apply unit_pixels; auto|]. split; [apply unit_pixels; auto|].
        eexists. split; [exact Sw | exact Int].
  Qed.
End Program.

(** ** Examples: constant disparities with steps of 2 and 3 in a ROI; grids. *)
Example C93_example : libraries true wh_pandora (fun _ _ _ _ => true) wh_size wh_load (fun _ => true) (fun _ => MeasureMin) w3_cost 512 /\
  cost_contract (fun _ => MeasureMin) w3_cost w3_pixel /\
  w5_programmed w5_user1 wh_request1 8 9 false true /\ get_path ["pipeline"; "refinement"; "refinement_method"] (JDict w5_user1) = Some (JStr "interpolation") /\
  constant (q_row_init wh_request1) 0 /\ constant (q_col_init wh_request1) (-1) /\ (exists l r c, w6_matching_of w5_user1 l r c 1) /\
  w5_programmed w5_user2 wh_request4 8 9 false true /\ get_path ["pipeline"; "refinement"; "refinement_method"] (JDict w5_user2) = Some (JStr "interpolation") /\
  q_row_step wh_request4 = 1 /\ q_col_step wh_request4 = 1 /\ (exists l r c, w6_matching_of w5_user2 l r c 1) /\
  (exists rows cols row_map col_map, wh_shown (w6_main w5_user1) = Some (Some (rows, cols, row_map, col_map)) /\ rows = [1; 3; 5] /\ In (Some (-(5))%Q) (List.concat row_map)).
Proof.
  assert (M : forall user, (exists l r c, w6_matching user = Some (l, r, c, 1)) -> exists l r c, w6_matching_of user l r c 1).
  { intros user (l & r & c & E). exists l, r, c. now apply w6_matching_spec. }
  split; [exact w3_libraries|]. split; [exact w3_contract|]. split; [exact w5_programmed1|]. split; [reflexivity|]. split; [constructor|]. split; [constructor|].
  split; [apply M; do 3 eexists; vm_compute; reflexivity|]. split; [exact w5_programmed2|]. do 3 (split; [reflexivity|]). split; [apply M; do 3 eexists; vm_compute; reflexivity|].
  do 4 eexists. split; [vm_compute; reflexivity|]. split; [reflexivity|]. vm_compute; tauto.
Qed.

Print Assumptions C93_interpolation_exact.
