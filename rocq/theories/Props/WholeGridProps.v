(** C94: grids and steps, for the whole program. *)
From Coq Require Import List String Bool ZArith QArith Lia.
From Verif Require Import Base.Ext Base.PyList Base.Arr Base.Json Base.Dict Model.CommonModel Model.DisparityModel Model.MatchingCostModel Model.DichotomyModel
  Model.RoiModel Model.InputModel Model.ConfigModel Model.DatasetModel Model.EstimationModel Model.OpticalFlowModel Model.InterpolationModel Model.MachineModel Model.CheckConfModel
  Model.PipelineModel Model.WholeModel Model.ImgShiftModel
  Spec.MatchingCostSpec Spec.DichotomySpec Spec.RoiSpec Spec.PipelineSpec Spec.ConfigSpec Spec.InputSpec Spec.MachineSpec Spec.CheckConfSpec Spec.AcceptSpec Spec.WholeSpec Spec.BestSpec Spec.WtaSpec Spec.ShiftSpec Spec.WholeEverySpec Spec.WholeEndSpec
  Proofs.ConfigProofs Proofs.AcceptProofs Proofs.RoiProofs Proofs.WtaProofs Proofs.WtaTheorems Proofs.MatchingCostProofs Proofs.MatchingCostTheorems Proofs.GridStepProofs Proofs.BestProofs Proofs.PipelineProofs Proofs.WholeRunProofs Proofs.WholeProofs Proofs.WholeMainProofs Proofs.WholeMoreProofs Proofs.WholeEveryProofs Proofs.WholeEndProofs
  Props.MatchingCostProps Props.RoiProps Props.PipelineProps Props.CheckConfProps Props.WholeProps Props.WholeMoreProps Props.WholeEveryProps.
Import ListNotations.
Open Scope Z_scope.
Open Scope string_scope.
Open Scope list_scope.

(** ** C40, exactly: grids and steps in the matching cost step *)
(** The interval of the pixel of this index of the image is not the whole interval. *)
Definition pixel_narrow (m : mc_input) (r c : nat) : Prop :=
  a2_get (mc_row_min m) r c <> fst (mc_row_source m) \/ a2_get (mc_row_max m) r c <> snd (mc_row_source m) \/
  a2_get (mc_col_min m) r c <> fst (mc_col_source m) \/ a2_get (mc_col_max m) r c <> snd (mc_col_source m).
(** A pair of disparities of the whole interval (in 1 / subpix) that is in the interval of the pixel of this index. *)
Definition pair_in (m : mc_input) (r c : nat) (dr dc : Z) : Prop :=
  a2_get (mc_row_min m) r c * Z.of_nat (mc_subpix m) <= dr <= a2_get (mc_row_max m) r c * Z.of_nat (mc_subpix m) /\
  a2_get (mc_col_min m) r c * Z.of_nat (mc_subpix m) <= dc <= a2_get (mc_col_max m) r c * Z.of_nat (mc_subpix m).
(** The step fails when a pixel whose index is out of the volumes has a narrow interval. Otherwise the point (r, c) of the volumes, computed for the row x of the image, is
    masked with the interval of the pixel of indices (r, c) of the image. *)
Theorem C40_exact {px} (px_eqb : px -> px -> bool) pandora_cost zoomed m (right : image px) : wf_mc m right ->
  (compute_cost_volumes px_eqb pandora_cost zoomed m right = None <->
    exists r c, (r < mc_nrow m)%nat /\ (c < mc_ncol m)%nat /\ (List.length (row_coords m) <= r \/ List.length (col_coords m) <= c)%nat /\ pixel_narrow m r c) /\
  forall cv, compute_cost_volumes px_eqb pandora_cost zoomed m right = Some cv ->
    forall r c i j x dr dc, nth_error (row_coords m) r = Some x -> (c < List.length (col_coords m))%nat -> nth_error (cv_disp_col cv) i = Some dc -> nth_error (cv_disp_row cv) j = Some dr ->
      fst (mc_row_source m) * Z.of_nat (mc_subpix m) <= dr <= snd (mc_row_source m) * Z.of_nat (mc_subpix m) ->
      fst (mc_col_source m) * Z.of_nat (mc_subpix m) <= dc <= snd (mc_col_source m) * Z.of_nat (mc_subpix m) ->
      (pair_in m r c dr dc -> cost_at cv r c i j = Some (pandora_cost (to_list2 (right_moved zoomed right (mc_subpix m) dr)) (to_list2 (moved_mask px_eqb zoomed right (mc_subpix m) dr))
                                                            (Z.to_nat (x - mc_row0 m)) c i)) /\
      (~ pair_in m r c dr dc -> cost_at cv r c i j = Some NaN).
Proof.
  intros Wm. destruct (compute_cost_volumes_any px_eqb pandora_cost zoomed m right Wm) as (Hn & Hs). split.
  - rewrite Hn. unfold pixel_narrow, narrow. split; intros (r & c & H1 & H2 & H3 & H4); exists r, c; tauto.
  - intros cv E r c i j x dr dc Hr Hc Hi Hj Sr Sc. destruct (Hs cv E r c i j x dc dr Hr Hc Hi Hj) as (A & B). unfold in_pixel_range in A, B. unfold pair_in. split.
    + intros (P1 & P2). apply A. split; right; assumption.
    + intros N. apply B. intros ([X|X] & [Y|Y]); auto.
Qed.
(** Three rows with a step of 2: in both cases the volumes have two rows; the interval that is narrow is the one of the last row of the image, then the one of the second row. *)
Example C40_exact_example :
  wf_mc (bad_mc [[1]; [1]; [0]]) ex_const_right /\ pixel_narrow (bad_mc [[1]; [1]; [0]]) 2 0 /\ List.length (row_coords (bad_mc [[1]; [1]; [0]])) = 2%nat /\
  wf_mc (bad_mc [[1]; [0]; [1]]) ex_const_right /\ nth_error (row_coords (bad_mc [[1]; [0]; [1]])) 1 = Some 2 /\ ~ pair_in (bad_mc [[1]; [0]; [1]]) 1 0 1 0 /\ pair_in (bad_mc [[1]; [0]; [1]]) 2 0 1 0.
Proof.
  assert (W : forall l, l = [[1]; [1]; [0]] \/ l = [[1]; [0]; [1]] -> wf_mc (bad_mc l) ex_const_right).
  { intros l Hl. unfold wf_mc. destruct Hl as [-> | ->]; simpl; (repeat (split; [lia || reflexivity|]));
      (split; [intros g [-> | [-> | [-> | ->]]]; split; reflexivity|]);
      (split; (split; [grid_cases|split; exists 0%nat, 0%nat; (split; [split; simpl; lia|reflexivity])])). }
  split; [apply W; auto|]. split; [right; left; cbn; lia|]. split; [reflexivity|]. split; [apply W; auto|]. split; [reflexivity|].
  split; [intros ((_ & H) & _); cbn in H; lia|]. split; cbn; lia.
Qed.

Section Program.
  (** The libraries: see WholeModel. *)
  Context {px : Type} (px_eqb : px -> px -> bool) (nan : px).
  Variable bool_ok : bool.
  Variable pandora_check : dict -> option (json * json * json).
  Variable matching_cost_margins : dict -> margins.
  Variable can_open_mandatory can_open : json -> bool.
  Variable images_ok : json -> json -> json -> json -> bool.
  Variable image_size : string -> nat * nat.
  Variable open_raster : string -> reader.
  Variable load : dict -> Z -> nat -> Z -> nat -> image px.
  Variable transform_of : dict -> option affine.
  Variable dataset_ok : image_dataset (image px) -> bool.
  Variable measure_of : dict -> measure.
  Variable offset_of : dict -> Z.
  Variable pandora_cost : dict -> mc_input -> image px -> list (list px) -> list (list Z) -> nat -> nat -> nat -> ext.
  Variable zoomed : image px -> nat -> nat -> nat -> px.
  Variable one : Z.
  Variable store : ext -> ext.
  Variable filter_apply : dict -> list (list ext) -> Z -> Z -> ext.
  Variable lstsq : list (list px) -> list (list px) -> option (num * num).
  Variable resample : list (list px) -> num -> num -> list (list px).
  Variable junk : nat -> list (list px).
  Variable interp : list Q -> list Q -> list (list cost) -> num -> num -> cost.
  Variable minimise : (num -> num -> cost) -> num * num -> (Q * Q) * (Q * Q) -> num * num.
  Variable estimate : json -> image px -> image px -> (Q * Q) * json * json.
  Variable global_margins : list (string * margins) -> list (string * margins) -> margins.
  Variable margins_to_dict : list (string * margins) -> list (string * margins) -> json.
  Notation main := (main px_eqb nan bool_ok pandora_check matching_cost_margins can_open_mandatory can_open images_ok image_size open_raster load transform_of dataset_ok
    measure_of offset_of pandora_cost zoomed one store filter_apply lstsq resample junk interp minimise estimate global_margins margins_to_dict).
  Notation check_user := (check_user px_eqb nan bool_ok pandora_check matching_cost_margins can_open_mandatory can_open images_ok image_size open_raster
    measure_of offset_of pandora_cost zoomed one store filter_apply lstsq resample junk interp minimise estimate).
  Notation libraries := (libraries bool_ok pandora_check images_ok image_size load dataset_ok measure_of pandora_cost one).
  Notation dichotomy_libraries := (dichotomy_libraries bool_ok pandora_check pandora_cost one store).
  Notation asked := (asked bool_ok pandora_check can_open_mandatory can_open images_ok image_size open_raster).
  Notation asked_estimation := (asked_estimation bool_ok pandora_check can_open_mandatory can_open images_ok image_size open_raster).
  Notation cost_contract := (cost_contract measure_of pandora_cost).

  Notation programmed := (programmed bool_ok pandora_check can_open_mandatory can_open images_ok image_size open_raster).
  Notation optimal_in := (optimal_in px_eqb nan bool_ok pandora_check matching_cost_margins can_open_mandatory can_open images_ok image_size open_raster load
    measure_of offset_of pandora_cost zoomed one store filter_apply lstsq resample junk interp minimise estimate).

  (** * C94: a step greater than 1 *)
  (** When at least two rows and columns are asked for, the program ends without error only if the initial disparities do not change in the window that is loaded,
      whatever the refinement; without refinement it then ends without error, and its results are the best candidates. *)
  Theorem C94_grids_with_step pixel_cost user q rows cols r : libraries -> cost_contract pixel_cost -> programmed user q rows cols false r -> two_lines q rows cols ->
    q_row_step q <> 1 \/ q_col_step q <> 1 ->
    exists row0 nrow col0 ncol, window_ok q rows cols row0 nrow col0 ncol /\ window_reaches open_raster q rows cols row0 nrow col0 ncol /\
      (main user <> None -> same_middle open_raster (q_row_init q) row0 nrow col0 ncol /\ same_middle open_raster (q_col_init q) row0 nrow col0 ncol) /\
      (r = false -> same_middle open_raster (q_row_init q) row0 nrow col0 ncol -> same_middle open_raster (q_col_init q) row0 nrow col0 ncol ->
        exists out saved, main user = Some out /\ o_maps out = Some saved /\ saved_right open_raster one q rows cols saved /\ optimal_in pixel_cost user q row0 nrow col0 ncol saved).
  Proof.
    intros (L1 & L2 & L3 & L4 & L5 & L6 & L7 & L8) (K1 & K2) (((W & A & Q & (p & G & S) & Z) & _) & (raw & Lp & K)) T2 Hstep. assert (Ho := Q). destruct Ho as (_ & _ & _ & _ & Ho).
    destruct (main_ready px_eqb nan bool_ok pandora_check matching_cost_margins can_open_mandatory can_open images_ok image_size open_raster load transform_of dataset_ok
      measure_of offset_of pandora_cost zoomed one store filter_apply lstsq resample junk interp minimise estimate global_margins margins_to_dict L1 L2 L3 L4 L5 L6 user q rows cols p W A Ho G S Z)
      with (e := false) (raw := raw) (r := r) as (m & cfg & l & rg & x1 & c1 & sub & row0 & nrow & col0 & ncol & q' & mi & sc & cr' & lc & lr & rgrids & cfg3 & final & H); auto; try discriminate.
    destruct H as (Hck & Gl & Grg & Gx1 & Emc & Gsub & Fsub & Psub & Dsub & _ & Wok & (-> & Wre) & _ & _ & F1 & F2 & F3 & F4 & Fme & Fsr & Fsc & Wm & _ & Ar & Ac & Hint & Ld & Sto & _ & Hr & _ & _ & Emain).
    exists row0, nrow, col0, ncol. split; [exact Wok|]. split; [exact Wre|].
    destruct (two_loaded _ _ _ _ _ _ _ T2 Wok) as (N2 & C2).
    pose proof (grids_middle _ _ _ _ _ _ _ Wm Hint) as Gm. pose proof (constant_middle _ _ _ _ _ _ _ Wm Gm) as Cm. rewrite F1, F2, F3, F4 in Cm.
    assert (Wm' := Wm). destruct Wm' as (_ & _ & _ & Sr & Sc & _ & _ & Hg & _).
    destruct (Hg (mc_row_min mi) ltac:(auto)) as (Gr0 & Gr1). destruct (Hg (mc_col_min mi) ltac:(auto)) as (Gc0 & Gc1).
    assert (Cv : compute_cost_volumes px_eqb (pandora_cost c1 mi (load l row0 nrow col0 ncol)) (zoomed (load rg row0 nrow col0 ncol) (mc_subpix mi)) mi (load rg row0 nrow col0 ncol) <> None <-> constant_ranges mi).
    { apply (grids_with_step px_eqb _ _ mi _ Wm); try lia.
      - intros r1 c r2 c' (I1 & I2) (I3 & I4). rewrite Gr0 in I1, I3. rewrite Gr1 in I2, I4. destruct (Gm r1 c I1 I2) as ((? & _ & -> & ->) & _). destruct (Gm r2 c' I3 I4) as ((? & _ & -> & ->) & _). lia.
      - intros r1 c r2 c' (I1 & I2) (I3 & I4). rewrite Gc0 in I1, I3. rewrite Gc1 in I2, I4. destruct (Gm r1 c I1 I2) as (_ & (? & _ & -> & ->)). destruct (Gm r2 c' I3 I4) as (_ & (? & _ & -> & ->)). lia. }
    split.
    - intros Hok. apply Cm, Cv. intros E. apply Hok. rewrite Emain. unfold finish. rewrite E. reflexivity.
    - intros Hrf Sa Sb. assert (Cst : constant_ranges mi) by (apply Cm; auto). subst r.
      assert (cr' = None) as -> by (destruct cr'; [|reflexivity]; exfalso; assert (false = true) by (apply Hr; discriminate); discriminate).
      assert (Dsub' : (Z.of_nat (mc_subpix mi) | one)) by (rewrite Fsub, Z2Nat.id by lia; exact Dsub).
      assert (Hworst' : forall a b r c i, pandora_cost c1 mi (load l row0 nrow col0 ncol) a b r c i <> worst (mc_measure mi)) by (intros; rewrite Fme; apply L8).
      destruct (run_const_in_range px_eqb (pandora_cost c1 mi (load l row0 nrow col0 ncol)) (zoomed (load rg row0 nrow col0 ncol) (mc_subpix mi)) one store 100 (invalid_of one (q_invalid q)) mi
        (load rg row0 nrow col0 ncol) Wm Cst L7 Dsub' Hworst') as (mcol & mrow & score & Erm & R1 & R2 & R3 & P).
      unfold run_maps in Erm. destruct (compute_cost_volumes _ _ _ _ _) as [cv|] eqn:Ecv; [|discriminate]. cbn [bind] in Erm.
      destruct (compute_disp_maps _ _ _) as [[[mc0 mr0] sc0]|] eqn:Edm; [|discriminate]. cbn [bind] in Erm. injection Erm as -> -> ->.
      destruct (saved_maps bool_ok open_raster one L7 rows cols q mi sc _ mcol mrow score (transform_of l) Wm Ld Fsr Fsc Ar Ac Hint R1 R2 R3 Sto P) as (saved & after & Esave & Hok).
      exists (mkOutcome (Some saved) (Some (q_invalid q, after)) final), saved. split.
      { rewrite Emain. unfold finish. rewrite Ecv. cbn [bind]. rewrite Edm. cbn [bind dataset_of]. rewrite Esave. reflexivity. }
      split; [reflexivity|]. split; [exact Hok|]. exists m, cfg, l, rg, x1, c1, sub. do 6 (split; [assumption|]).
      destruct (run_best px_eqb (pandora_cost c1 mi (load l row0 nrow col0 ncol)) (zoomed (load rg row0 nrow col0 ncol) (mc_subpix mi)) mi (load rg row0 nrow col0 ncol) Wm
        (pixel_cost c1 (load l row0 nrow col0 ncol))) with (chunk := 100%nat) (inv := invalid_of one (q_invalid q)) (k := one / Z.of_nat (mc_subpix mi)) (cv := cv) as (mcol' & mrow' & score' & Edm' & B0); auto.
      { intros. eapply K1; eauto. }
      { intros. rewrite Fme. apply K2. }
      rewrite Edm in Edm'. injection Edm' as <- <- <-.
      destruct (saved_spec mi sc (Z.of_nat rows) (Z.of_nat cols) (map (map (cost_of_ext one)) mrow) (map (map (cost_of_ext one)) mcol) (map (map (cost_of_ext one)) score) (transform_of l) Ld)
        as (saved' & after' & Es & _ & _ & _ & _ & _ & Gs); try (now apply rect_map). rewrite Esave in Es. injection Es as <- <-.
      intros a b x y Hx Hy. destruct (Gs a b x y Hx Hy) as (r0 & c0 & Hr0 & Hc0 & G1 & G2 & G3). destruct (B0 r0 c0 x y Hr0 Hc0) as (vr & vc & vs & N1 & N2' & N3 & B).
      exists (cost_of_ext one vr), (cost_of_ext one vc), (cost_of_ext one vs).
      rewrite G1, G2, G3, !nth2_map, N1, N2', N3. do 3 (split; [reflexivity|]).
      assert (Xr := Hr0). assert (Xc := Hc0). apply nth_error_In in Xr, Xc. apply (row_coords_in mi _ Wm) in Xr. apply (col_coords_in mi _ _ Wm) in Xc.
      assert (Esub : Z.of_nat (mc_subpix mi) = sub) by (rewrite Fsub; lia). rewrite Esub in B. rewrite Fme, Fsub, F1, F3 in B.
      assert (Ir : forall d, user_row_interval mi sub x y d <-> candidate open_raster (q_row_init q) (q_row_range q) sub x y d) by (intros d; apply (Hint x y sub d); auto; lia).
      assert (Ic : forall d, user_col_interval mi sub x y d <-> candidate open_raster (q_col_init q) (q_col_range q) sub x y d) by (intros d; apply (Hint x y sub d); auto; lia).
      assert (Qk : forall d, quotient d sub (cost_of_ext one (Fin (d * (one / sub))))).
      { intros d. destruct Dsub as (k & Hk). rewrite Hk, Z.div_mul by lia. eexists. split; [reflexivity|]. rewrite !inject_Z_mult. assert (0 < k) by nia. field.
        split; intros E; unfold Qeq in E; cbn in E; lia. }
      assert (Sn : forall v, same_number one v (cost_of_ext one v)).
      { intros [| | |]; cbn; try reflexivity. eexists. split; reflexivity. }
      destruct B as [[(-> & -> & ->) B]|(dr & dc & s & (-> & -> & ->) & Hr' & Hc' & Hn & B1 & (dc' & B2 & B2') & (dr' & B3 & B3') & B4)].
      + left. split; [split; [|split]; now apply (shows_stored bool_ok)|]. intros dr dc Hdr Hdc. apply B; [now apply Ir | now apply Ic].
      + right. exists dr, dc, s. split; [auto|]. split; [now apply Ir|]. split; [now apply Ic|]. split; [exact Hn|]. split; [intros; apply B1; [now apply Ir | now apply Ic | assumption]|].
        split; [exists dc'; split; [now apply Ic | exact B2']|]. split; [exists dr'; split; [now apply Ir | exact B3']|]. intros; apply B4; [now apply Ir | now apply Ic | assumption].
  Qed.

  (** Whatever the steps and the grids, without refinement: when the program ends without error, its results are the best candidates. It never uses the interval of another pixel. *)
  Theorem C94_never_wrong pixel_cost user q rows cols out : libraries -> cost_contract pixel_cost -> programmed user q rows cols false false -> two_lines q rows cols ->
    main user = Some out -> exists saved, o_maps out = Some saved /\ saved_right open_raster one q rows cols saved /\
      optimal px_eqb nan bool_ok pandora_check matching_cost_margins can_open_mandatory can_open images_ok image_size open_raster load
        measure_of offset_of pandora_cost zoomed one store filter_apply lstsq resample junk interp minimise estimate pixel_cost user q rows cols saved.
  Proof.
    intros Hl Hcc Hp T2 Em. destruct (Z.eq_dec (q_row_step q) 1) as [S1|S1]; [destruct (Z.eq_dec (q_col_step q) 1) as [S2|S2]|].
    - assert (Hp' := Hp). destruct Hp' as ((A & _) & K).
      destruct (C74_optimal_step1 px_eqb nan bool_ok pandora_check matching_cost_margins can_open_mandatory can_open images_ok image_size open_raster load transform_of dataset_ok
        measure_of offset_of pandora_cost zoomed one store filter_apply lstsq resample junk interp minimise estimate global_margins margins_to_dict pixel_cost user q rows cols Hl Hcc A K S1 S2 (fun _ _ => T2))
        as (out' & saved & Em' & H). rewrite Em in Em'. injection Em' as <-. eauto.
    - destruct (C94_grids_with_step pixel_cost user q rows cols false Hl Hcc Hp T2 (or_intror S2)) as (row0 & nrow & col0 & ncol & Wok & Wre & H1 & H2).
      destruct (H1 ltac:(congruence)) as (Sa & Sb). destruct (H2 eq_refl Sa Sb) as (out' & saved & Em' & Eo & Hok & Hb). rewrite Em in Em'. injection Em' as <-.
      exists saved. split; [exact Eo|]. split; [exact Hok|]. exists row0, nrow, col0, ncol. auto.
    - destruct (C94_grids_with_step pixel_cost user q rows cols false Hl Hcc Hp T2 (or_introl S1)) as (row0 & nrow & col0 & ncol & Wok & Wre & H1 & H2).
      destruct (H1 ltac:(congruence)) as (Sa & Sb). destruct (H2 eq_refl Sa Sb) as (out' & saved & Em' & Eo & Hok & Hb). rewrite Em in Em'. injection Em' as <-.
      exists saved. split; [exact Eo|]. split; [exact Hok|]. exists row0, nrow, col0, ncol. auto.
  Qed.
End Program.

(** ** The grids of the other examples, that change at the row 3 and at the column 4, with a step of 2: in the last rows and columns of the image they do not. *)
Definition w11_user : dict := wh_user [JInt 2; JInt 1] (wh_disp (JStr "rows.tif") 1) (wh_disp (JStr "cols.tif") 1)
  [("ROI", JDict [("row", JDict [("first", JInt 6); ("last", JInt 7)]); ("col", JDict [("first", JInt 6); ("last", JInt 8)])])] [].
Definition w11_request : request := mkRequest (JStr "rows.tif") 1 (JStr "cols.tif") 1 2 1 (Some (mkZone 6 7 6 8)) JNan.
Lemma w11_asked : wh_asked w11_user w11_request 8 9.
Proof. unfold w11_user, w11_request. wh_asked_tac. Qed.
Example C94_example : libraries true wh_pandora (fun _ _ _ _ => true) wh_size wh_load (fun _ => true) (fun _ => MeasureMin) wh_cost 512 /\ cost_contract (fun _ => MeasureMin) wh_cost wh_pixel /\
  programmed true wh_pandora (fun _ => true) (fun _ => true) (fun _ _ _ _ => true) wh_size wh_raster w11_user w11_request 8 9 false false /\ two_lines w11_request 8 9 /\ q_row_step w11_request <> 1 /\
  option_map (option_map (map (@List.length _))) (wh_score (wh_main w11_user)) = Some (Some [3%nat]) /\
  programmed true wh_pandora (fun _ => true) (fun _ => true) (fun _ _ _ _ => true) wh_size wh_raster wh_user3 wh_request3 8 9 false false /\ two_lines wh_request3 8 9 /\ q_row_step wh_request3 <> 1 /\
  wh_main wh_user3 = None.
Proof.
  split; [exact (proj1 C72_example_constant)|]. split; [exact (proj1 C74_example)|]. split; [split; [split; [exact w11_asked | intros; cbn; lia] | eexists; split; reflexivity]|].
  split; [cbn; lia|]. split; [cbn; lia|]. split; [vm_compute; reflexivity|]. split; [split; [split; [exact wh_asked3 | intros; cbn; lia] | eexists; split; reflexivity]|].
  split; [cbn; lia|]. split; [cbn; lia|]. vm_compute. reflexivity.
Qed.

Print Assumptions C40_exact.
Print Assumptions C94_grids_with_step.
Print Assumptions C94_never_wrong.
