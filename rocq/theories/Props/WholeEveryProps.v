(** C80: the saved maps, for every pipeline. *)
From Coq Require Import List String Bool ZArith QArith Lia.
From Verif Require Import Base.Ext Base.PyList Base.Arr Base.Json Base.Dict Model.CommonModel Model.DisparityModel Model.MatchingCostModel Model.DichotomyModel
  Model.RoiModel Model.InputModel Model.ConfigModel Model.DatasetModel Model.EstimationModel Model.OpticalFlowModel Model.InterpolationModel Model.MachineModel Model.CheckConfModel
  Model.PipelineModel Model.WholeModel Model.ImgShiftModel
  Spec.MatchingCostSpec Spec.DichotomySpec Spec.RoiSpec Spec.PipelineSpec Spec.ConfigSpec Spec.InputSpec Spec.MachineSpec Spec.CheckConfSpec Spec.AcceptSpec Spec.WholeSpec Spec.BestSpec Spec.WtaSpec Spec.ShiftSpec Spec.WholeEverySpec Spec.WholeEndSpec Spec.InterpolationSpec
  Proofs.ConfigProofs Proofs.AcceptProofs Proofs.RoiProofs Proofs.WtaProofs Proofs.WtaTheorems Proofs.MatchingCostProofs Proofs.MatchingCostTheorems Proofs.PipelineProofs Proofs.WholeRunProofs Proofs.WholeProofs Proofs.WholeMainProofs Proofs.WholeMoreProofs Proofs.WholeEveryProofs Proofs.WholeEndProofs
  Props.RoiProps Props.PipelineProps Props.CheckConfProps Props.InterpolationProps Props.WholeProps Props.WholeMoreProps.
Import ListNotations.
Open Scope Z_scope.
Open Scope string_scope.
Open Scope list_scope.

(** The bounds of the cost volumes come from the disparities of the user. *)
Lemma sources_middle {px} open_raster mi (right : image px) row_init row_range col_init col_range rows cols : wf_mc mi right ->
  0 <= mc_row0 mi /\ mc_row0 mi + Z.of_nat (mc_nrow mi) <= Z.of_nat rows /\ 0 <= mc_col0 mi /\ mc_col0 mi + Z.of_nat (mc_ncol mi) <= Z.of_nat cols ->
  (forall x y one dr, mc_row0 mi <= x < mc_row0 mi + Z.of_nat (mc_nrow mi) -> mc_col0 mi <= y < mc_col0 mi + Z.of_nat (mc_ncol mi) -> 0 < one ->
      (user_row_interval mi one x y dr <-> exists v, middle open_raster row_init x y v /\ (v - row_range) * one <= dr <= (v + row_range) * one) /\
      (user_col_interval mi one x y dr <-> exists v, middle open_raster col_init x y v /\ (v - col_range) * one <= dr <= (v + col_range) * one)) ->
  (forall k d, in_bounds (inject_Z (fst (mc_row_source mi) - k)) (inject_Z (snd (mc_row_source mi) + k)) d -> in_search open_raster row_init row_range k rows cols (cost_of_num d)) /\
  (forall k d, in_bounds (inject_Z (fst (mc_col_source mi) - k)) (inject_Z (snd (mc_col_source mi) + k)) d -> in_search open_raster col_init col_range k rows cols (cost_of_num d)).
Proof.
  intros (_ & _ & _ & _ & _ & _ & _ & Hg & Tr & Tc) Hwin Hint.
  destruct (Hg (mc_row_min mi)) as [A1 A2]; [tauto|]. destruct (Hg (mc_row_max mi)) as [A3 A4]; [tauto|]. destruct (Hg (mc_col_min mi)) as [A5 A6]; [tauto|]. destruct (Hg (mc_col_max mi)) as [A7 A8]; [tauto|].
  split; intros k d (p & -> & P1 & P2); cbn [cost_of_num].
  - destruct Tr as (T & (r & c & I & E) & (r' & c' & I' & E')). assert (I2 : in2 (mc_row_min mi) r' c') by (unfold in2 in *; rewrite A1, A2; rewrite A3, A4 in I'; exact I').
    destruct (T r c I) as (B1 & B2 & B3). destruct (T r' c' I2) as (B4 & B5 & B6). unfold in2 in I, I2. rewrite A1, A2 in I, I2.
    destruct (proj1 (proj1 (Hint (mc_row0 mi + Z.of_nat r) (mc_col0 mi + Z.of_nat c) 1 (a2_get (mc_row_min mi) r c) ltac:(lia) ltac:(lia) ltac:(lia)))) as (v & Mv & Bv).
    { unfold user_row_interval. rewrite !Z.add_simpl_l, !Nat2Z.id. lia. }
    destruct (proj1 (proj1 (Hint (mc_row0 mi + Z.of_nat r') (mc_col0 mi + Z.of_nat c') 1 (a2_get (mc_row_max mi) r' c') ltac:(lia) ltac:(lia) ltac:(lia)))) as (v' & Mv' & Bv').
    { unfold user_row_interval. rewrite !Z.add_simpl_l, !Nat2Z.id. lia. }
    exists (mc_row0 mi + Z.of_nat r), (mc_col0 mi + Z.of_nat c), v, (mc_row0 mi + Z.of_nat r'), (mc_col0 mi + Z.of_nat c'), v', p. do 4 (split; [lia|]). split; [exact Mv|]. split; [exact Mv'|]. split; [reflexivity|].
    split; [eapply Qle_trans; [|exact P1] | eapply Qle_trans; [exact P2|]]; rewrite <- Zle_Qle; lia.
  - destruct Tc as (T & (r & c & I & E) & (r' & c' & I' & E')). assert (I2 : in2 (mc_col_min mi) r' c') by (unfold in2 in *; rewrite A5, A6; rewrite A7, A8 in I'; exact I').
    destruct (T r c I) as (B1 & B2 & B3). destruct (T r' c' I2) as (B4 & B5 & B6). unfold in2 in I, I2. rewrite A5, A6 in I, I2.
    destruct (proj1 (proj2 (Hint (mc_row0 mi + Z.of_nat r) (mc_col0 mi + Z.of_nat c) 1 (a2_get (mc_col_min mi) r c) ltac:(lia) ltac:(lia) ltac:(lia)))) as (v & Mv & Bv).
    { unfold user_col_interval. rewrite !Z.add_simpl_l, !Nat2Z.id. lia. }
    destruct (proj1 (proj2 (Hint (mc_row0 mi + Z.of_nat r') (mc_col0 mi + Z.of_nat c') 1 (a2_get (mc_col_max mi) r' c') ltac:(lia) ltac:(lia) ltac:(lia)))) as (v' & Mv' & Bv').
    { unfold user_col_interval. rewrite !Z.add_simpl_l, !Nat2Z.id. lia. }
    exists (mc_row0 mi + Z.of_nat r), (mc_col0 mi + Z.of_nat c), v, (mc_row0 mi + Z.of_nat r'), (mc_col0 mi + Z.of_nat c'), v', p. do 4 (split; [lia|]). split; [exact Mv|]. split; [exact Mv'|]. split; [reflexivity|].
    split; [eapply Qle_trans; [|exact P1] | eapply Qle_trans; [exact P2|]]; rewrite <- Zle_Qle; lia.
Qed.

Section Program.
  (** The libraries: see WholeModel. *)
  Context {px : Type} (px_eqb : px -> px -> bool) (nan : px).
  Variable bool_ok : bool.
  Variable pandora_check : dict -> option (json * json * json).
  Variable matching_cost_margins : dict -> margins.
  Variable can_open_mandatory can_open : json -> bool.
  Variable images_ok : json -> json -> json -> json -> bool.
  Variable image_size : string -> nat * nat.
  Variable open_raster : string -> reader.
  Variable load : dict -> Z -> nat -> Z -> nat -> image px.
  Variable transform_of : dict -> option affine.
  Variable dataset_ok : image_dataset (image px) -> bool.
  Variable measure_of : dict -> measure.
  Variable offset_of : dict -> Z.
  Variable pandora_cost : dict -> mc_input -> image px -> list (list px) -> list (list Z) -> nat -> nat -> nat -> ext.
  Variable zoomed : image px -> nat -> nat -> nat -> px.
  Variable one : Z.
  Variable store : ext -> ext.
  Variable filter_apply : dict -> list (list ext) -> Z -> Z -> ext.
  Variable lstsq : list (list px) -> list (list px) -> option (num * num).
  Variable resample : list (list px) -> num -> num -> list (list px).
  Variable junk : nat -> list (list px).
  Variable interp : list Q -> list Q -> list (list cost) -> num -> num -> cost.
  Variable minimise : (num -> num -> cost) -> num * num -> (Q * Q) * (Q * Q) -> num * num.
  Variable estimate : json -> image px -> image px -> (Q * Q) * json * json.
  Variable global_margins : list (string * margins) -> list (string * margins) -> margins.
  Variable margins_to_dict : list (string * margins) -> list (string * margins) -> json.
  Notation main := (main px_eqb nan bool_ok pandora_check matching_cost_margins can_open_mandatory can_open images_ok image_size open_raster load transform_of dataset_ok
    measure_of offset_of pandora_cost zoomed one store filter_apply lstsq resample junk interp minimise estimate global_margins margins_to_dict).
  Notation check_user := (check_user px_eqb nan bool_ok pandora_check matching_cost_margins can_open_mandatory can_open images_ok image_size open_raster
    measure_of offset_of pandora_cost zoomed one store filter_apply lstsq resample junk interp minimise estimate).
  Notation libraries := (libraries bool_ok pandora_check images_ok image_size load dataset_ok measure_of pandora_cost one).
  Notation dichotomy_libraries := (dichotomy_libraries bool_ok pandora_check pandora_cost one store).
  Notation asked := (asked bool_ok pandora_check can_open_mandatory can_open images_ok image_size open_raster).
  Notation asked_estimation := (asked_estimation bool_ok pandora_check can_open_mandatory can_open images_ok image_size open_raster).
  Notation cost_contract := (cost_contract measure_of pandora_cost).

  (** An accepted configuration with these steps: an estimation or not, a refinement (of any method) or not. *)
  Definition programmed (user : dict) (q : request) (rows cols : nat) (estimation refinement : bool) : Prop :=
    (if estimation then asked_estimation user q rows cols else asked user q rows cols /\ forall s, q_row_init q = JStr s -> two_lines q rows cols) /\
    steps_are user ((if estimation then ["estimation"] else []) ++ ["matching_cost"; "disparity"] ++ (if refinement then ["refinement"] else [])).

  (** * C80: whatever the refinement, when the program ends without error *)
  Theorem C80_every_pipeline user q rows cols e r out : libraries -> programmed user q rows cols e r -> main user = Some out ->
    exists m cfg left saved reported, check_user user (new_machine None) = (m, Some cfg) /\ get_path ["input"; "left"] (JDict cfg) = Some (JDict left) /\
      o_maps out = Some saved /\ o_reported out = Some (q_invalid q, reported) /\
      saved_pixels q rows cols saved /\ georeferenced (transform_of left) saved /\ part_of saved reported /\ (q_zone q = None -> reported = saved).
  Proof.
    intros (L1 & L2 & L3 & L4 & L5 & L6 & L7 & L8) (Ha & (raw & Lp & K)) Em.
    assert (X : wf (JDict user) /\ accepted bool_ok pandora_check can_open_mandatory can_open images_ok image_size open_raster user /\ asks_others bool_ok user q /\
      (exists left_path, get_path ["input"; "left"; "img"] (JDict user) = Some (JStr left_path) /\ image_size left_path = (rows, cols)) /\
      match q_zone q with Some z => z_r0 z < Z.of_nat rows /\ z_c0 z < Z.of_nat cols | None => True end).
    { destruct e; [destruct Ha as (W & A & Ho & _ & G & Z); auto|]. destruct Ha as ((W & A & (_ & _ & _ & _ & Ho) & G & Z) & _). auto. }
    destruct X as (W & A & Ho & (p & G & S) & Z).
    destruct (main_ready px_eqb nan bool_ok pandora_check matching_cost_margins can_open_mandatory can_open images_ok image_size open_raster load transform_of dataset_ok
      measure_of offset_of pandora_cost zoomed one store filter_apply lstsq resample junk interp minimise estimate global_margins margins_to_dict L1 L2 L3 L4 L5 L6 user q rows cols p W A Ho G S Z)
      with (e := e) (raw := raw) (r := r) as (m & cfg & l & rg & x1 & c1 & sub & row0 & nrow & col0 & ncol & q' & mi & sc & cr' & lc & lr & rgrids & cfg3 & final & H); auto.
    { intros ->. destruct Ha as ((_ & _ & Q & _) & T). auto. }
    { intros ->. destruct Ha as (_ & _ & _ & Q & _). exact Q. }
    destruct H as (Hck & Gl & Grg & Gx1 & Emc & Gsub & Fsub & Psub & Dsub & _ & Wok & Hans & (Qz & Qr & Qc & Qi) & Ccst & Fw1 & Fw2 & Fw3 & Fw4 & Fme & Fsr & Fsc & Wm & Cst & Ar & Ac & Hint & Ld & Sto & Hnz & Hr & Hcr & Fgr & Emain).
    rewrite Em in Emain. symmetry in Emain. unfold finish in Emain.
    destruct (compute_cost_volumes _ _ _ _ _) as [cv|] eqn:Ecv; [|discriminate]. cbn [bind] in Emain.
    destruct (compute_fields px_eqb _ _ _ _ Wm _ Ecv) as (F1 & F2 & _). pose proof (units_wf (one / Z.of_nat (mc_subpix mi)) cv (compute_wf_cv px_eqb _ _ _ _ Wm _ Ecv)) as Wu.
    set (u := in_units (one / Z.of_nat (mc_subpix mi)) cv) in *.
    destruct (wta_invalid_iff 100 (invalid_of one (q_invalid q)) u Wu) as (mcol & mrow & score & Ew & R1 & R2 & R3 & _). rewrite Ew in Emain. cbn [bind] in Emain.
    match type of Emain with bind ?x _ = _ => destruct x as [mps|] eqn:Emp end; [|discriminate]. cbn [bind] in Emain.
    assert (Rm : maps_rect (List.length (row_coords mi)) (List.length (col_coords mi)) mps).
    { rewrite <- F1, <- F2. change (cv_nrow cv) with (cv_nrow u). change (cv_ncol cv) with (cv_ncol u). destruct cr' as [c|].
      - eapply refine_rect; [exact Wu | exact F1 | exact F2 | exact R1 | exact R2 | exact R3 | exact Emp].
      - injection Emp as <-. cbn [maps_rect]. auto. }
    destruct (dataset_rect one _ _ mi (transform_of l) mps Rm) as (vrow & vcol & vscore & Ed & S1 & S2 & S3).
    destruct (saved_spec mi sc _ _ vrow vcol vscore (transform_of l) Ld S2 S1 S3) as (saved & after & Esave & I1 & I2 & O1 & O2 & Wf & P).
    rewrite Ed, Esave in Emain. cbn [bind fst snd] in Emain. injection Emain as <-.
    exists m, cfg, l, saved, after. cbn [o_maps o_reported]. do 4 (split; [assumption || reflexivity|]). split.
    { split; [intros x; rewrite I1, Fsr, <- Qr, Ar; unfold wanted_row; now rewrite Qz, Qr|]. split; [intros y; rewrite I2, Fsc, <- Qc, Ac; unfold wanted_col; now rewrite Qz, Qc|]. auto. }
    split; [|split].
    - unfold georeferenced. destruct (transform_of l) as [t|] eqn:Et.
      + destruct (C14_saved_maps_georeferenced (mkDmaps (row_coords mi) (col_coords mi) vrow vcol vscore (Some t)) mi sc _ _ t Ld) as (saved' & ds' & t' & E' & T & PP); auto.
        { intros mm [-> | [-> | ->]]; assumption. }
        rewrite Esave in E'. injection E' as <- <-. rewrite T. exact PP.
      + assert (T : dm_transform saved = None).
        { unfold save_dataset in Esave. destruct (sc_roi sc); [|injection Esave as <- _; reflexivity]. destruct (remove_roi_margins _ sc) as [d|] eqn:Er; [|discriminate]. cbn in Esave. injection Esave as <- _.
          cbn. apply removed_transform in Er. now rewrite Er. }
        now rewrite T.
    - assert (Ea : dm_rows after = row_coords mi /\ dm_cols after = col_coords mi /\ dm_row_map after = vrow /\ dm_col_map after = vcol /\ dm_score after = vscore).
      { unfold save_dataset in Esave. destruct (sc_roi sc); [|injection Esave as _ <-; auto]. destruct (remove_roi_margins _ _); [|discriminate]. cbn in Esave. injection Esave as _ <-. auto. }
      destruct Ea as (B1 & B2 & B3 & B4 & B5).
      intros x y vr vc vs (a & b & X1 & X2 & X3 & X4 & X5). destruct (P a b x y X1 X2) as (i & j & Hi & Hj & E1 & E2 & E3).
      exists i, j. rewrite B1, B2, B3, B4, B5, <- E1, <- E2, <- E3. auto.
    - intros Hz. unfold save_dataset in Esave. rewrite (Hnz Hz) in Esave. injection Esave as <- <-. reflexivity.
  Qed.

  Notation estimated_request := (estimated_request px_eqb nan bool_ok pandora_check matching_cost_margins can_open_mandatory can_open images_ok image_size open_raster load
    measure_of offset_of pandora_cost zoomed one store filter_apply lstsq resample junk interp minimise estimate).
  (** The disparities that are searched: those of the configuration, or the estimated ones. *)
  Definition searched_request (user : dict) (q q' : request) (rows cols : nat) (estimation : bool) : Prop :=
    if estimation then exists row0 nrow col0 ncol, estimated_request user q q' rows cols row0 nrow col0 ncol else q' = q.

  (** * C81: with an interpolation *)
  Theorem C81_interpolation user q rows cols e : libraries -> respects_bounds minimise -> programmed user q rows cols e true ->
    get_path ["pipeline"; "refinement"; "refinement_method"] (JDict user) = Some (JStr "interpolation") ->
    (e = true \/ same_middle open_raster (q_row_init q) 0 rows 0 cols /\ same_middle open_raster (q_col_init q) 0 rows 0 cols \/ q_row_step q = 1 /\ q_col_step q = 1 \/
      two_lines q rows cols /\ main user <> None) ->
    exists q' out saved, searched_request user q q' rows cols e /\ main user = Some out /\ o_maps out = Some saved /\ saved_pixels q rows cols saved /\
      forall x y, In x (dm_rows saved) -> In y (dm_cols saved) -> exists vr vc vs, pixel_of saved x y vr vc vs /\
        (vr = CNan /\ vc = CNan /\ vs = CNan \/
         in_search open_raster (q_row_init q') (q_row_range q') 3 rows cols vr /\ in_search open_raster (q_col_init q') (q_col_range q') 3 rows cols vc).
  Proof.
    intros (L1 & L2 & L3 & L4 & L5 & L6 & L7 & L8) Hmin (Ha & (raw & Lp & K)) Hmethod Hcase.
    assert (X : wf (JDict user) /\ accepted bool_ok pandora_check can_open_mandatory can_open images_ok image_size open_raster user /\ asks_others bool_ok user q /\
      (exists left_path, get_path ["input"; "left"; "img"] (JDict user) = Some (JStr left_path) /\ image_size left_path = (rows, cols)) /\
      match q_zone q with Some z => z_r0 z < Z.of_nat rows /\ z_c0 z < Z.of_nat cols | None => True end).
    { destruct e; [destruct Ha as (W & A & Ho & _ & G & Z); auto|]. destruct Ha as ((W & A & (_ & _ & _ & _ & Ho) & G & Z) & _). auto. }
    destruct X as (W & A & Ho & (p & G & S) & Z).
    destruct (main_ready px_eqb nan bool_ok pandora_check matching_cost_margins can_open_mandatory can_open images_ok image_size open_raster load transform_of dataset_ok
      measure_of offset_of pandora_cost zoomed one store filter_apply lstsq resample junk interp minimise estimate global_margins margins_to_dict L1 L2 L3 L4 L5 L6 user q rows cols p W A Ho G S Z)
      with (e := e) (raw := raw) (r := true) as (m & cfg & l & rg & x1 & c1 & sub & row0 & nrow & col0 & ncol & q' & mi & sc & cr' & lc & lr & rgrids & cfg3 & final & H); auto.
    { intros ->. destruct Ha as ((_ & _ & Q & _) & T). auto. }
    { intros ->. destruct Ha as (_ & _ & _ & Q & _). exact Q. }
    destruct H as (Hck & Gl & Grg & Gx1 & Emc & Gsub & Fsub & Psub & Dsub & _ & Wok & Hans & (Qz & Qr & Qc & Qi) & Ccst & Fw1 & Fw2 & Fw3 & Fw4 & Fme & Fsr & Fsc & Wm & Cst & Ar & Ac & Hint & Ld & Sto & Hnz & Hr & Hcr & Fgr & Emain).
    destruct cr' as [c|]; [|exfalso; apply (proj2 Hr eq_refl); reflexivity].
    assert (Hc := Hck). unfold WholeModel.check_user in Hc.
    assert (Lmeth : lookup "refinement_method" c = Some (JStr "interpolation")).
    { pose proof (kept_method _ _ _ _ _ _ _ _ _ _ _ L1 _ _ _ _ W Hc raw Lp e true K "interpolation" Hmethod (or_intror (or_introl eq_refl))) as Km.
      destruct Hcr as (_ & x & st & ws & Gx & _ & Hri & _). destruct (path_dict _ _ _ _ _ Gx) as (pl & Lpl). cbn [get_path] in Gx, Km. rewrite Lpl in Gx, Km. cbn [get_path] in Gx, Km.
      destruct (lookup "refinement" pl) as [jx|]; [|discriminate]. cbn [get_path] in Gx, Km. injection Gx as ->. cbn [get_path] in Km.
      destruct (lookup "refinement_method" x) as [jm|] eqn:Ljm; [|discriminate]. cbn [get_path] in Km. injection Km as ->.
      unfold refinement_init in Hri. rewrite Ljm in Hri. cbn [String.eqb Ascii.eqb Bool.eqb] in Hri. unfold interpolation_init in Hri. destruct (validate _ x); [|discriminate]. injection Hri as <-. exact Ljm. }
    destruct Hcr as (Hmg & _). unfold refinement_margins in Hmg. rewrite Lmeth in Hmg. cbn [String.eqb Ascii.eqb Bool.eqb] in Hmg.
    assert (Hcv : exists cv, compute_cost_volumes px_eqb (pandora_cost c1 mi (load l row0 nrow col0 ncol)) (zoomed (load rg row0 nrow col0 ncol) (mc_subpix mi)) mi (load rg row0 nrow col0 ncol) = Some cv).
    { assert (HC : constant_ranges mi \/ mc_step_row mi = 1 /\ mc_step_col mi = 1).
      { destruct Hcase as [He|[HC|[[S1 S2]|[T2 Hok]]]]; [left; destruct (Ccst He) as (a & b & Ca & Cb); eauto | | right; split; congruence |].
      2: { apply (proj1 (volumes_computed px_eqb (pandora_cost c1 mi (load l row0 nrow col0 ncol)) (zoomed (load rg row0 nrow col0 ncol) (mc_subpix mi)) open_raster mi (load rg row0 nrow col0 ncol) q q' rows cols
             row0 nrow col0 ncol Wm Hint Qz T2 Wok Fw1 Fw2 Fw3 Fw4)). intros E. apply Hok. rewrite Emain. unfold finish. rewrite E. reflexivity. }
        unfold answered in Hans. destruct e; [left; destruct (Ccst eq_refl) as (a & b & Ca & Cb); eauto|]. destruct Hans as [-> _]. left. exact (same_ranges open_raster mi _ q rows cols row0 nrow col0 ncol Wm Hint Wok Fw1 Fw2 Fw3 Fw4 HC). }
      destruct HC as [HC|[S1 S2]]; [destruct (compute_cost_volumes_const px_eqb (pandora_cost c1 mi (load l row0 nrow col0 ncol)) (zoomed (load rg row0 nrow col0 ncol) (mc_subpix mi)) mi _ Wm HC) as (cv & E & _)
        | destruct (compute_cost_volumes_step1 px_eqb (pandora_cost c1 mi (load l row0 nrow col0 ncol)) (zoomed (load rg row0 nrow col0 ncol) (mc_subpix mi)) mi _ Wm S1 S2) as (cv & E & _)]; eauto. }
    destruct Hcv as (cv & Ecv). destruct (compute_fields px_eqb _ _ _ _ Wm _ Ecv) as (F1 & F2 & F3 & F4 & F5 & _).
    pose proof (units_wf (one / Z.of_nat (mc_subpix mi)) cv (compute_wf_cv px_eqb _ _ _ _ Wm _ Ecv)) as Wu.
    destruct (wta_invalid_iff 100 (invalid_of one (q_invalid q)) _ Wu) as (mcol & mrow & score & Ew & R1 & R2 & R3 & _).
    destruct (L3 p) as [Pr Pc]. rewrite S in Pr, Pc. cbn [fst snd] in Pr, Pc.
    destruct (loaded_not_empty mi sc _ _ Ld) as [N1 N2]; [lia|lia|]. rewrite <- F1 in N1. rewrite <- F2 in N2.
    unfold finish in Emain. rewrite Ecv in Emain. cbn [bind] in Emain. rewrite Ew in Emain. cbn [bind] in Emain.
    assert (Dsub' : (Z.of_nat (mc_subpix mi) | one)) by (rewrite Fsub, Z2Nat.id by lia; exact Dsub).
    match type of Emain with context [refine _ _ _ _ _ _ _ _ _ _ _ ?a ?b ?c ?d ?e ?f ?g] =>
      destruct (refine_interpolation nan bool_ok offset_of one store filter_apply lstsq resample junk interp minimise a b c1 mi _ cv d e f g Lmeth Hmin Wm L7 Dsub' Hmg F3 F4 N1 N2 R1 R2)
        as (dc & dr & vsc & Er & X1 & X2 & X3 & P) end.
    rewrite Er in Emain. cbn [bind] in Emain. rewrite F1, F2 in X1, X2, X3, P. unfold dataset_of in Emain.
    destruct (saved_spec mi sc _ _ (map (map cost_of_num) dr) (map (map cost_of_num) dc) vsc (transform_of l) Ld ltac:(now apply rect_map) ltac:(now apply rect_map) X3)
      as (saved & after & Esave & I1 & I2 & O1 & O2 & Wf & V).
    rewrite Esave in Emain. cbn [bind fst snd] in Emain.
    exists q'. do 2 eexists. split; [|split; [exact Emain|]; split; [reflexivity|]; split].
    - unfold searched_request. unfold answered in Hans. destruct e; [|tauto]. destruct Hans as (j & sh & er & ph & ir & ic & E1 & E2 & E3 & E4 & E5).
      exists row0, nrow, col0, ncol, m, cfg, l, rg, j, sh, er, ph, ir, ic. auto 12.
    - split; [intros x; rewrite I1, Fsr, <- Qr, Ar; unfold wanted_row; now rewrite Qz, Qr|]. split; [intros y; rewrite I2, Fsc, <- Qc, Ac; unfold wanted_col; now rewrite Qz, Qc|]. auto.
    - intros x y Hx Hy. apply In_nth_error in Hx as (a & Hx). apply In_nth_error in Hy as (b & Hy). destruct (V a b x y Hx Hy) as (i & j & Hi & Hj & V1 & V2 & V3).
      destruct (P i j) as (va & vb & vs & P1 & P2 & P3 & B); [apply nth_error_Some; congruence | apply nth_error_Some; congruence|].
      exists (cost_of_num vb), (cost_of_num va), vs. rewrite nth2_map, P2 in V1. rewrite nth2_map, P1 in V2. cbn [option_map] in V1, V2. rewrite P3 in V3. split; [exists a, b; auto 10|].
      destruct B as [(-> & -> & ->)|[B1 B2]]; [left; auto|]. right.
      assert (Hwin : 0 <= row0 /\ row0 + Z.of_nat nrow <= Z.of_nat rows /\ 0 <= col0 /\ col0 + Z.of_nat ncol <= Z.of_nat cols) by (unfold window_ok in Wok; destruct (q_zone q); lia).
      destruct (sources_middle open_raster mi _ (q_row_init q') (q_row_range q') (q_col_init q') (q_col_range q') rows cols Wm) as [Hrow Hcol]; [rewrite Fw1, Fw2, Fw3, Fw4; exact Hwin | exact Hint|].
      split; [apply (Hrow 3 vb B2) | apply (Hcol 3 va B1)].
  Qed.
End Program.

(** ** Examples *)
(** The program of WholeMoreProps with the interpolation and the optimiser of InterpolationProps. *)
Definition w5_main : dict -> option outcome :=
  main Z.eqb 0 true wh_pandora (fun _ => mkMargins 1 1 1 1) (fun _ => true) (fun _ => true) (fun _ _ _ _ => true) wh_size wh_raster wh_load w3_transform (fun _ => true)
    (fun _ => MeasureMin) (fun _ => 1) w3_cost (fun _ _ _ _ => 0) 512 (fun x => x) wh_filter (fun _ _ => None) (fun w _ _ => w) (fun _ => []) ex_interp ex_minimise
    w3_estimate wh_margins wh_dict.
Definition w5_interpolation : dict := [("refinement", JDict [("refinement_method", JStr "interpolation")])].
Definition w5_user1 : dict := wh_user [JInt 2; JInt 3] (wh_disp (JInt 0) 2) (wh_disp (JInt (-1)) 1) wh_roi w5_interpolation.
Definition w5_user2 : dict := wh_user [JInt 1; JInt 1] (wh_disp (JStr "rows.tif") 1) (wh_disp (JStr "cols.tif") 1) [] w5_interpolation.
Definition w5_user3 : dict := wh_user_estimation [JInt 2; JInt 3] w5_interpolation.
Notation w5_programmed := (programmed true wh_pandora (fun _ => true) (fun _ => true) (fun _ _ _ _ => true) wh_size wh_raster).
Lemma w5_programmed1 : w5_programmed w5_user1 wh_request1 8 9 false true.
Proof. split; [split; [unfold w5_user1, w5_interpolation; wh_asked_tac | intros s H; discriminate H] | eexists; split; reflexivity]. Qed.
Lemma w5_programmed2 : w5_programmed w5_user2 wh_request4 8 9 false true.
Proof. split; [split; [unfold w5_user2, w5_interpolation; wh_asked_tac | intros s _; cbn; lia] | eexists; split; reflexivity]. Qed.
Lemma w5_programmed3 : w5_programmed w5_user3 (wh_request5 2 3) 8 9 true true.
Proof. split; [unfold w5_user3, w5_interpolation; wh_asked_estimation_tac | eexists; split; reflexivity]. Qed.

Example C80_example : libraries true wh_pandora (fun _ _ _ _ => true) wh_size wh_load (fun _ => true) (fun _ => MeasureMin) w3_cost 512 /\
  w5_programmed w5_user1 wh_request1 8 9 false true /\
  (exists out saved inv reported, w5_main w5_user1 = Some out /\ o_maps out = Some saved /\ o_reported out = Some (inv, reported) /\
     dm_rows saved = [1; 3; 5] /\ dm_cols saved = [2; 5] /\ dm_transform saved = Some (mkAffine 6 0 1004 0 (-4) 4998) /\ dm_cols reported = [2; 5; 8]) /\
  w5_programmed w5_user3 (wh_request5 2 3) 8 9 true true /\
  (exists out saved, w5_main w5_user3 = Some out /\ o_maps out = Some saved /\ dm_rows saved = [1; 3; 5]).
Proof.
  split; [exact w3_libraries|]. split; [exact w5_programmed1|]. split; [|split; [exact w5_programmed3|]].
  - do 4 eexists. split; [vm_compute; reflexivity|]. cbn [o_maps o_reported]. do 5 (split; [reflexivity|]). reflexivity.
  - do 2 eexists. split; [vm_compute; reflexivity|]. cbn [o_maps]. split; reflexivity.
Qed.

Example C81_example : respects_bounds ex_minimise /\
  get_path ["pipeline"; "refinement"; "refinement_method"] (JDict w5_user1) = Some (JStr "interpolation") /\ constant (q_row_init wh_request1) 0 /\ constant (q_col_init wh_request1) (-1) /\
  w5_programmed w5_user2 wh_request4 8 9 false true /\ get_path ["pipeline"; "refinement"; "refinement_method"] (JDict w5_user2) = Some (JStr "interpolation") /\
  q_row_step wh_request4 = 1 /\ q_col_step wh_request4 = 1 /\
  (exists rows cols row_map col_map, wh_shown (w5_main w5_user2) = Some (Some (rows, cols, row_map, col_map)) /\ In (Some (-(4))%Q) (List.concat row_map) /\ In None (List.concat row_map)) /\
  get_path ["pipeline"; "refinement"; "refinement_method"] (JDict w5_user3) = Some (JStr "interpolation").
Proof.
  split; [apply ex_contracts|]. split; [reflexivity|]. split; [constructor|]. split; [constructor|]. split; [exact w5_programmed2|]. do 3 (split; [reflexivity|]). split; [|reflexivity].
  do 4 eexists. split; [vm_compute; reflexivity|]. split; cbn; tauto.
Qed.

(** The disparities of an interpolation are not always in the interval of the user: here the rows are searched from -2 to 2 and the columns from -2 to 0, and the
    saved disparities are -5 (the minimum is looked for in the margins too). *)
Theorem C81_user_interval_refuted : exists user q out saved x y vr vc vs,
  libraries true wh_pandora (fun _ _ _ _ => true) wh_size wh_load (fun _ => true) (fun _ => MeasureMin) w3_cost 512 /\
  affine_exact ex_interp /\ respects_bounds ex_minimise /\ finds_affine_minimum ex_minimise /\
  w5_programmed user q 8 9 false true /\ w5_main user = Some out /\ o_maps out = Some saved /\ pixel_of saved x y (CFin vr) (CFin vc) vs /\
  constant (q_row_init q) 0 /\ constant (q_col_init q) (-1) /\ (vr < inject_Z (0 - q_row_range q))%Q /\ (vc < inject_Z (-1 - q_col_range q))%Q.
Proof.
  exists w5_user1, wh_request1. do 2 eexists. exists 1, 2. do 3 eexists. split; [exact w3_libraries|]. destruct ex_contracts as (E1 & E2 & E3). do 3 (split; [assumption|]).
  split; [exact w5_programmed1|]. split; [vm_compute; reflexivity|]. split; [reflexivity|].
  split. { exists 0%nat, 0%nat. cbn [dm_rows dm_cols dm_row_map dm_col_map dm_score]. do 4 (split; [reflexivity|]). reflexivity. }
  split; [constructor|]. split; [constructor|]. split; reflexivity.
Qed.

Print Assumptions C80_every_pipeline.
Print Assumptions C81_interpolation.
Print Assumptions C81_user_interval_refuted.
