(** C82, C83, C92: the saved maps with an optical flow and with a dichotomy, compared with the optimal disparities. *)
From Coq Require Import List String Bool ZArith QArith Qabs Lia.
From Verif Require Import Base.Ext Base.PyList Base.Arr Base.Json Base.Dict Base.ZRange Model.CommonModel Model.DisparityModel Model.MatchingCostModel Model.DichotomyModel
  Model.RoiModel Model.InputModel Model.ConfigModel Model.DatasetModel Model.EstimationModel Model.OpticalFlowModel Model.InterpolationModel Model.MachineModel Model.CheckConfModel
  Model.PipelineModel Model.WholeModel Model.ImgShiftModel
  Spec.MatchingCostSpec Spec.DichotomySpec Spec.RoiSpec Spec.PipelineSpec Spec.ConfigSpec Spec.InputSpec Spec.MachineSpec Spec.CheckConfSpec Spec.AcceptSpec Spec.WholeSpec Spec.BestSpec Spec.WtaSpec Spec.ShiftSpec Spec.WholeEverySpec Spec.WholeEndSpec Spec.InterpolationSpec Spec.OpticalFlowSpec Spec.WholeRefineSpec Spec.WholeFlowSpec
  Proofs.CheckConfProofs Proofs.ConfigProofs Proofs.ConfigStepProofs Proofs.AcceptProofs Proofs.RoiProofs Proofs.WtaProofs Proofs.WtaTheorems Proofs.MatchingCostProofs Proofs.MatchingCostTheorems Proofs.PipelineProofs Proofs.WholeRunProofs Proofs.WholeProofs Proofs.WholeMainProofs Proofs.WholeMoreProofs Proofs.WholeEveryProofs Proofs.WholeEndProofs Proofs.BestProofs Proofs.RefineBestProofs Proofs.FlowRange Proofs.WholeFlowProofs
  Props.RoiProps Props.PipelineProps Props.CheckConfProps Props.InterpolationProps Props.WholeProps Props.WholeMoreProps Props.WholeEveryProps.
Import ListNotations.
Open Scope Z_scope.
Open Scope string_scope.
Open Scope list_scope.

Section Program.
  (** The libraries: see WholeModel. *)
  Context {px : Type} (px_eqb : px -> px -> bool) (nan : px).
  Variable bool_ok : bool.
  Variable pandora_check : dict -> option (json * json * json).
  Variable matching_cost_margins : dict -> margins.
  Variable can_open_mandatory can_open : json -> bool.
  Variable images_ok : json -> json -> json -> json -> bool.
  Variable image_size : string -> nat * nat.
  Variable open_raster : string -> reader.
  Variable load : dict -> Z -> nat -> Z -> nat -> image px.
  Variable transform_of : dict -> option affine.
  Variable dataset_ok : image_dataset (image px) -> bool.
  Variable measure_of : dict -> measure.
  Variable offset_of : dict -> Z.
  Variable pandora_cost : dict -> mc_input -> image px -> list (list px) -> list (list Z) -> nat -> nat -> nat -> ext.
  Variable zoomed : image px -> nat -> nat -> nat -> px.
  Variable one : Z.
  Variable store : ext -> ext.
  Variable filter_apply : dict -> list (list ext) -> Z -> Z -> ext.
  Variable lstsq : list (list px) -> list (list px) -> option (num * num).
  Variable resample : list (list px) -> num -> num -> list (list px).
  Variable junk : nat -> list (list px).
  Variable interp : list Q -> list Q -> list (list cost) -> num -> num -> cost.
  Variable minimise : (num -> num -> cost) -> num * num -> (Q * Q) * (Q * Q) -> num * num.
  Variable estimate : json -> image px -> image px -> (Q * Q) * json * json.
  Variable global_margins : list (string * margins) -> list (string * margins) -> margins.
  Variable margins_to_dict : list (string * margins) -> list (string * margins) -> json.
  Notation main := (main px_eqb nan bool_ok pandora_check matching_cost_margins can_open_mandatory can_open images_ok image_size open_raster load transform_of dataset_ok
    measure_of offset_of pandora_cost zoomed one store filter_apply lstsq resample junk interp minimise estimate global_margins margins_to_dict).
  Notation check_user := (check_user px_eqb nan bool_ok pandora_check matching_cost_margins can_open_mandatory can_open images_ok image_size open_raster
    measure_of offset_of pandora_cost zoomed one store filter_apply lstsq resample junk interp minimise estimate).
  Notation libraries := (libraries bool_ok pandora_check images_ok image_size load dataset_ok measure_of pandora_cost one).
  Notation dichotomy_libraries := (dichotomy_libraries bool_ok pandora_check pandora_cost one store).
  Notation asked := (asked bool_ok pandora_check can_open_mandatory can_open images_ok image_size open_raster).
  Notation asked_estimation := (asked_estimation bool_ok pandora_check can_open_mandatory can_open images_ok image_size open_raster).
  Notation cost_contract := (cost_contract measure_of pandora_cost).

  Notation programmed := (programmed bool_ok pandora_check can_open_mandatory can_open images_ok image_size open_raster).
  Notation matching_of := (matching_of px_eqb nan bool_ok pandora_check matching_cost_margins can_open_mandatory can_open images_ok image_size open_raster measure_of offset_of pandora_cost zoomed one
    store filter_apply lstsq resample junk interp minimise estimate).
  Notation estimated_request := (estimated_request px_eqb nan bool_ok pandora_check matching_cost_margins can_open_mandatory can_open images_ok image_size open_raster load
    measure_of offset_of pandora_cost zoomed one store filter_apply lstsq resample junk interp minimise estimate).
  (** The request with the disparities that are searched, in the window that is loaded. *)
  Definition searched_in (user : dict) (q q' : request) (rows cols : nat) (estimation : bool) (row0 : Z) (nrow : nat) (col0 : Z) (ncol : nat) : Prop :=
    window_ok q rows cols row0 nrow col0 ncol /\
    if estimation then estimated_request user q q' rows cols row0 nrow col0 ncol else q' = q /\ window_reaches open_raster q rows cols row0 nrow col0 ncol.
  (** The costs of the completed configuration in the window that is loaded. *)
  Definition window_cost (pixel_cost : dict -> image px -> list (list px) -> list (list Z) -> nat -> nat -> Z -> ext) (left right completed : dict) (subpix : Z) (row0 : Z) (nrow : nat) (col0 : Z) (ncol : nat)
      : Z -> Z -> Z -> Z -> ext :=
    pair_cost px_eqb (pixel_cost completed (load left row0 nrow col0 ncol)) (zoomed (load right row0 nrow col0 ncol) (Z.to_nat subpix)) (load right row0 nrow col0 ncol) (Z.to_nat subpix) row0 col0.

  Lemma refined_number sub it d a : 0 < one -> 1 <= sub -> (sub | one) -> 0 <= it -> (2 ^ it | one) -> Z.abs (a - d * (one / sub)) * sub < one -> (one / 2 ^ it | a - d * (one / sub)) ->
    refined_by sub it d (cost_of_ext one (Fin a)).
  Proof.
    intros H1 Hs (k & Hk) Hit (k2 & Hk2) Hlt (mm & Hm). assert (P : 0 < 2 ^ it) by (apply Z.pow_pos_nonneg; lia). 
    assert (Q1 : one / sub = k) by (rewrite Hk; apply Z.div_mul; lia). assert (Q2 : one / 2 ^ it = k2) by (rewrite Hk2; apply Z.div_mul; lia). rewrite Q1 in Hm, Hlt. rewrite Q2 in Hm. assert (0 < k2) by nia. assert (0 < k) by nia.
    exists mm. eexists. split; [reflexivity|]. split.
    - assert (a = d * k + mm * k2) as -> by lia. rewrite inject_Z_plus, !inject_Z_mult.
      assert (E1 : (inject_Z one == inject_Z k * inject_Z sub)%Q) by (rewrite <- inject_Z_mult, <- Hk; reflexivity).
      assert (E2 : (inject_Z one == inject_Z k2 * inject_Z (2 ^ it))%Q) by (rewrite <- inject_Z_mult, <- Hk2; reflexivity).
      assert (N : forall z, 0 < z -> ~ (inject_Z z == 0)%Q) by (intros z Hz E; unfold Qeq in E; cbn in E; lia).
      assert (A1 := N k ltac:(lia)). assert (A2 := N sub ltac:(lia)). assert (A3 := N k2 ltac:(lia)). assert (A4 := N (2 ^ it) P).
      setoid_replace ((inject_Z d * inject_Z k + inject_Z mm * inject_Z k2) / inject_Z one)%Q with (inject_Z d * inject_Z k / inject_Z one + inject_Z mm * inject_Z k2 / inject_Z one)%Q by (field; apply N; lia).
      rewrite E1 at 1. rewrite E2. field. auto.
    - rewrite Hm, Z.abs_mul in Hlt. rewrite (Z.abs_eq k2) in Hlt by lia. nia.
  Qed.

  (** * C83: with a dichotomy *)
  Theorem C83_dichotomy pixel_cost user q rows cols e n left right completed subpix : libraries -> dichotomy_libraries -> cost_contract pixel_cost -> programmed user q rows cols e true ->
    asks_refinement bool_ok user "dichotomy" n -> q_row_step q = 1 -> q_col_step q = 1 -> matching_of user left right completed subpix ->
    exists q' row0 nrow col0 ncol out saved, searched_in user q q' rows cols e row0 nrow col0 ncol /\ main user = Some out /\ o_maps out = Some saved /\
      saved_right open_raster one q' rows cols saved /\
      let cost := window_cost pixel_cost left right completed subpix row0 nrow col0 ncol in
      saved_from_best open_raster subpix (measure_of completed) q' cost (fun x y vr vc vs => shows one (q_invalid q') vr /\ shows one (q_invalid q') vc)
        (dichotomy_pixel one subpix (Z.min n 9) (measure_of completed) q' cost) saved.
  Proof.
    intros (L1 & L2 & L3 & L4 & L5 & L6 & L7 & L8) (Hro & H512 & Hpow & Hst) (K1 & K2) (Ha & (raw & Lp & K)) Hm S1 S2 (m0 & cfg0 & st0 & M1 & M2 & M3 & M4 & M5 & M6).
    assert (X : wf (JDict user) /\ accepted bool_ok pandora_check can_open_mandatory can_open images_ok image_size open_raster user /\ asks_others bool_ok user q /\
      (exists left_path, get_path ["input"; "left"; "img"] (JDict user) = Some (JStr left_path) /\ image_size left_path = (rows, cols)) /\
      match q_zone q with Some z => z_r0 z < Z.of_nat rows /\ z_c0 z < Z.of_nat cols | None => True end).
    { destruct e; [destruct Ha as (W & A & Ho & _ & G & Z); auto|]. destruct Ha as ((W & A & (_ & _ & _ & _ & Ho) & G & Z) & _). auto. }
    destruct X as (W & A & Ho & (p & G & S) & Z).
    destruct (main_ready px_eqb nan bool_ok pandora_check matching_cost_margins can_open_mandatory can_open images_ok image_size open_raster load transform_of dataset_ok
      measure_of offset_of pandora_cost zoomed one store filter_apply lstsq resample junk interp minimise estimate global_margins margins_to_dict L1 L2 L3 L4 L5 L6 user q rows cols p W A Ho G S Z)
      with (e := e) (raw := raw) (r := true) as (m & cfg & l & rg & x1 & c1 & sub & row0 & nrow & col0 & ncol & q' & mi & sc & cr' & lc & lr & rgrids & cfg3 & final & H); auto.
    { intros ->. destruct Ha as ((_ & _ & Q & _) & T). auto. }
    { intros ->. destruct Ha as (_ & _ & _ & Q & _). exact Q. }
    destruct H as (Hck & Gl & Grg & Gx1 & Emc & Gsub & Fsub & Psub & Dsub & (pc & w0 & s0 & o0 & Hpc & Isub) & Wok & Hans & (Qz & Qr & Qc & Qi) & Ccst & Fw1 & Fw2 & Fw3 & Fw4 & Fme & Fsr & Fsc & Wm & Cst & Ar & Ac & Hint & Ld & Sto & Hnz & Hr & Hcr & Fgr & Emain).
    rewrite Hck in M1. injection M1 as <- <-. rewrite Gl in M2. injection M2 as <-. rewrite Grg in M3. injection M3 as <-. rewrite Gx1 in M4. injection M4 as <-. rewrite Emc in M5. injection M5 as <-. rewrite Gsub in M6. injection M6 as <-.
    destruct cr' as [c|]; [|exfalso; apply (proj2 Hr eq_refl); reflexivity].
    assert (Hc := Hck). unfold WholeModel.check_user in Hc.
    destruct Hcr as (Fmg & x & st & ws & Gx & Wx & Hri & _).
    destruct (kept_iterations _ _ _ _ _ _ _ _ _ _ _ L1 _ _ _ _ W Hc raw Lp e true K "dichotomy" n ltac:(cbn; auto) Hm x st ws c Gx Hri) as (jn & Ljn & Ijn). cbn [String.eqb Ascii.eqb Bool.eqb] in Ijn.
    pose proof (kept_method _ _ _ _ _ _ _ _ _ _ _ L1 _ _ _ _ W Hc raw Lp e true K "dichotomy" (proj1 Hm) (or_introl eq_refl)) as Km.
    assert (Ljm : lookup "refinement_method" x = Some (JStr "dichotomy")).
    { destruct (path_dict _ _ _ _ _ Gx) as (pl & Lpl). cbn [get_path] in Gx, Km. rewrite Lpl in Gx, Km. cbn [get_path] in Gx, Km.
      destruct (lookup "refinement" pl) as [jx|]; [|discriminate]. cbn [get_path] in Gx, Km. injection Gx as ->. cbn [get_path] in Km.
      destruct (lookup "refinement_method" x) as [jm|]; [|discriminate]. cbn [get_path] in Km. exact Km. }
    destruct (dichotomy_ready bool_ok one filter_apply _ _ _ _ Wx Hri Ljm H512) as (f & n' & D1 & D2 & D3 & D4 & D5).
    assert (n' = Z.min n 9). { unfold int_at in D3. cbn [get_path] in D3. rewrite Ljn in D3. cbn [bind] in D3. rewrite (int_value_as_int _ _ _ Ijn) in D3. congruence. } subst n'.
    assert (Dsub' : (Z.of_nat (mc_subpix mi) | one)) by (rewrite Fsub, Z2Nat.id by lia; exact Dsub).
    assert (Esub : Z.of_nat (mc_subpix mi) = sub) by (rewrite Fsub; lia).
    destruct (run_refined px_eqb (pandora_cost c1 mi (load l row0 nrow col0 ncol)) (zoomed (load rg row0 nrow col0 ncol) (mc_subpix mi)) mi (load rg row0 nrow col0 ncol) Wm
      (pixel_cost c1 (load l row0 nrow col0 ncol))) with (one := one) (store := store) (flt := flt_of bool_ok filter_apply f) (iterations := Z.to_nat (Z.min n 9)) (chunk := 100%nat) (inv := invalid_of one (q_invalid q))
      as (mcol & mrow & score & Erm & R1 & R2 & R3 & P); auto.
    { intros. eapply K1; eauto. }
    { intros. rewrite Fme. apply K2. }
    { intros. rewrite Fme. apply L8. }
    { congruence. } { congruence. }
    { destruct (Hpow _ _ _ _ _ Hpc Isub) as (e0 & Ee). exists e0. rewrite Fsub, Ee. apply Nat2Z.inj. rewrite Z2Nat.id by (apply Z.pow_nonneg; lia). now rewrite Nat2Z.inj_pow. }
    { exists (refinement_margins bool_ok c). auto. }
    unfold run_maps in Erm. destruct (compute_cost_volumes _ _ _ _ _) as [cv|] eqn:Ecv; [|discriminate]. cbn [bind] in Erm.
    destruct (compute_disp_maps _ _ _) as [[[mc0 mr0] sc0]|] eqn:Edm; [|discriminate]. cbn [bind] in Erm.
    destruct (saved_maps bool_ok open_raster one L7 rows cols q' mi sc _ mcol mrow score (transform_of l) Wm Ld ltac:(congruence) ltac:(congruence) Ar Ac Hint R1 R2 R3 ltac:(rewrite Qi; exact Sto))
      as (saved & after & Esave & Hok).
    { intros r c' x' y' Hx Hy. destruct (P r c' x' y' Hx Hy) as (vr & vc & vs & N1 & N2 & _ & Rs & _). exists vr, vc. rewrite Qi. auto. }
    exists q', row0, nrow, col0, ncol, (mkOutcome (Some saved) (Some (q_invalid q, after)) final), saved.
    split; [|split; [|split; [reflexivity|]; split; [exact Hok|]]].
    - split; [exact Wok|]. unfold answered in Hans. destruct e; [|exact Hans]. destruct Hans as (j & sh & er & ph & ir & ic & E1 & E2 & E3 & E4 & E5).
      exists m, cfg, l, rg, j, sh, er, ph, ir, ic. auto 12.
    - rewrite Emain. unfold finish. rewrite Ecv. cbn [bind]. rewrite Edm. cbn [bind].
      rewrite Fgr in Erm. unfold refine. rewrite D1. cbn [String.eqb Ascii.eqb Bool.eqb]. rewrite D2, D3. cbv zeta. fold (flt_of bool_ok filter_apply f). unfold WholeModel.grids_of. cbn [w_left gd_grids].
      rewrite Erm. cbn [bind dataset_of]. rewrite Esave. reflexivity.
    - cbv zeta. intros x' y' Hx Hy. apply In_nth_error in Hx as (a & Hx). apply In_nth_error in Hy as (b & Hy).
      destruct (saved_spec mi sc (Z.of_nat rows) (Z.of_nat cols) (map (map (cost_of_ext one)) mrow) (map (map (cost_of_ext one)) mcol) (map (map (cost_of_ext one)) score) (transform_of l) Ld)
        as (saved' & after' & Es & _ & _ & _ & _ & _ & V); try (now apply rect_map). rewrite Esave in Es. injection Es as <- <-.
      destruct (V a b x' y' Hx Hy) as (r0 & c0 & Hr0 & Hc0 & G1 & G2 & G3). destruct (P r0 c0 x' y' Hr0 Hc0) as (vr & vc & vs & N1 & N2 & N3 & _ & B).
      exists (cost_of_ext one vr), (cost_of_ext one vc), (cost_of_ext one vs).
      split. { exists a, b. rewrite G1, G2, G3, !nth2_map, N1, N2, N3. auto. }
      assert (Xr := Hr0). assert (Xc := Hc0). apply nth_error_In in Xr, Xc. apply (row_coords_in mi _ Wm) in Xr. apply (col_coords_in mi _ _ Wm) in Xc.
      rewrite Esub in B. rewrite Fme, Fsub, Fw1, Fw3 in B.
      assert (Sh := shows_stored bool_ok one (q_invalid q) L7 Sto). rewrite <- Qi in Sh, B.
      assert (Qk : forall d, quotient d sub (cost_of_ext one (Fin (d * (one / sub))))).
      { intros d. destruct Dsub as (k & Hk). rewrite Hk, Z.div_mul by lia. eexists. split; [reflexivity|]. rewrite !inject_Z_mult. assert (0 < k) by nia. field.
        split; intros E; unfold Qeq in E; cbn in E; lia. }
      revert B. apply best_imp.
      + intros d. apply (Hint x' y' sub d); auto; lia.
      + intros d. apply (Hint x' y' sub d); auto; lia.
      + intros (-> & ->). auto.
      + intros dr dc s Hdr Hdc Hs (ra & rb & -> & -> & B1 & B2 & B3 & B4 & B5).
        assert (Pn : 0 <= Z.min n 9).
        { unfold refinement_init in Hri. rewrite Ljm in Hri. cbn [String.eqb Ascii.eqb Bool.eqb] in Hri. destruct (dichotomy_result _ _ _ Hri) as (j & n0 & Lj & Ij & Ec).
          assert (HX : described (dichotomy_fields bool_ok) x) by (apply (dichotomy_accepts _ _ Wx); congruence).
          destruct HX as [HX _]. destruct (HX _ _ Lj) as (bb & PP & Hin & HP). cbn in Hin. destruct Hin as [Y|[Y|[Y|[]]]]; try congruence. injection Y as <- <-. destruct HP as (n1 & In1 & Hn1).
          rewrite (int_value_unique _ _ _ _ In1 Ij) in Hn1. rewrite Ec in Ljn. destruct (Z.ltb_spec 9 n0) as [H9|H9].
          - rewrite lookup_assign, String.eqb_refl in Ljn. injection Ljn as <-. inversion Ijn; lia.
          - rewrite Lj in Ljn. injection Ljn as <-. rewrite (int_value_unique _ _ _ _ Ijn Ij). lia. }
        rewrite Z2Nat.id in D4, B3, B4 by exact Pn.
        split; [apply refined_number; auto|]. split; [apply refined_number; auto|]. intros Hn I1 I2.
        exists vs. split. { destruct vs; cbn; try reflexivity. eexists. split; reflexivity. }
        apply B5; [exact Hn| |]; intros Einv; [apply (I1 _ (Qk dr)) | apply (I2 _ (Qk dc))]; rewrite Einv; exact Sh.
  Qed.

  Lemma flow_run pixel_cost user q rows cols e n left right completed subpix w : libraries -> cost_contract pixel_cost -> programmed user q rows cols e true ->
    asks_refinement bool_ok user "optical_flow" n ->
    (e = true \/ same_middle open_raster (q_row_init q) 0 rows 0 cols /\ same_middle open_raster (q_col_init q) 0 rows 0 cols \/ q_row_step q = 1 /\ q_col_step q = 1 \/
      two_lines q rows cols /\ main user <> None) ->
    (q_zone q = None \/ q_row_step q = 1 /\ q_col_step q = 1) ->
    matching_of user left right completed subpix -> int_at bool_ok ["window_size"] completed = Some w -> offset_of completed = (w - 1) / 2 -> flow_room w q rows cols ->
    0 <= n /\ exists q' row0 nrow col0 ncol out saved, searched_in user q q' rows cols e row0 nrow col0 ncol /\ main user = Some out /\ o_maps out = Some saved /\
      saved_pixels q rows cols saved /\
      let h := Z.to_nat ((w - 1) / 2) in let left_image := load left row0 nrow col0 ncol in let right_image := load right row0 nrow col0 ncol in
      saved_from_best open_raster subpix (measure_of completed) q' (window_cost pixel_cost left right completed subpix row0 nrow col0 ncol)
        (flow_lost nan lstsq resample left_image right_image row0 nrow col0 ncol open_raster one (Z.to_nat n) h q')
        (flow_found nan lstsq resample left_image right_image row0 nrow col0 ncol open_raster one subpix (Z.to_nat n) h q') saved.
  Proof.
    intros (L1 & L2 & L3 & L4 & L5 & L6 & L7 & L8) (K1 & K2) (Ha & (raw & Lp & K)) Hm Hcase Hzone (m0 & cfg0 & st0 & M1 & M2 & M3 & M4 & M5 & M6) Hwin Hoff Hroom.
    assert (X : wf (JDict user) /\ accepted bool_ok pandora_check can_open_mandatory can_open images_ok image_size open_raster user /\ asks_others bool_ok user q /\
      (exists left_path, get_path ["input"; "left"; "img"] (JDict user) = Some (JStr left_path) /\ image_size left_path = (rows, cols)) /\
      match q_zone q with Some z => z_r0 z < Z.of_nat rows /\ z_c0 z < Z.of_nat cols | None => True end).
    { destruct e; [destruct Ha as (W & A & Ho & _ & G & Z); auto|]. destruct Ha as ((W & A & (_ & _ & _ & _ & Ho) & G & Z) & _). auto. }
    destruct X as (W & A & Ho & (p & G & S) & Z).
    destruct (main_ready px_eqb nan bool_ok pandora_check matching_cost_margins can_open_mandatory can_open images_ok image_size open_raster load transform_of dataset_ok
      measure_of offset_of pandora_cost zoomed one store filter_apply lstsq resample junk interp minimise estimate global_margins margins_to_dict L1 L2 L3 L4 L5 L6 user q rows cols p W A Ho G S Z)
      with (e := e) (raw := raw) (r := true) as (m & cfg & l & rg & x1 & c1 & sub & row0 & nrow & col0 & ncol & q' & mi & sc & cr' & lc & lr & rgrids & cfg3 & final & H); auto.
    { intros ->. destruct Ha as ((_ & _ & Q & _) & T). auto. }
    { intros ->. destruct Ha as (_ & _ & _ & Q & _). exact Q. }
    destruct H as (Hck & Gl & Grg & Gx1 & Emc & Gsub & Fsub & Psub & Dsub & (pc & w0 & s0 & o0 & Hpc & Isub) & Wok & Hans & (Qz & Qr & Qc & Qi) & Ccst & Fw1 & Fw2 & Fw3 & Fw4 & Fme & Fsr & Fsc & Wm & Cst & Ar & Ac & Hint & Ld & Sto & Hnz & Hr & Hcr & Fgr & Emain).
    rewrite Hck in M1. injection M1 as <- <-. rewrite Gl in M2. injection M2 as <-. rewrite Grg in M3. injection M3 as <-. rewrite Gx1 in M4. injection M4 as <-. rewrite Emc in M5. injection M5 as <-. rewrite Gsub in M6. injection M6 as <-.
    destruct cr' as [c|]; [|exfalso; apply (proj2 Hr eq_refl); reflexivity].
    assert (Hc := Hck). unfold WholeModel.check_user in Hc.
    destruct Hcr as (Fmg & x & st & ws & Gx & Wx & Hri & Lst & Lws & Est).
    destruct (kept_iterations _ _ _ _ _ _ _ _ _ _ _ L1 _ _ _ _ W Hc raw Lp e true K "optical_flow" n ltac:(cbn; auto) Hm x st ws c Gx Hri) as (jn & Ljn & Ijn). cbn [String.eqb Ascii.eqb Bool.eqb] in Ijn.
    pose proof (kept_method _ _ _ _ _ _ _ _ _ _ _ L1 _ _ _ _ W Hc raw Lp e true K "optical_flow" (proj1 Hm) ltac:(cbn; auto)) as Km.
    assert (Ljm : lookup "refinement_method" x = Some (JStr "optical_flow")).
    { destruct (path_dict _ _ _ _ _ Gx) as (pl & Lpl). cbn [get_path] in Gx, Km. rewrite Lpl in Gx, Km. cbn [get_path] in Gx, Km.
      destruct (lookup "refinement" pl) as [jx|]; [|discriminate]. cbn [get_path] in Gx, Km. injection Gx as ->. cbn [get_path] in Km.
      destruct (lookup "refinement_method" x) as [jm|]; [|discriminate]. cbn [get_path] in Km. exact Km. }
    assert (Pn : 0 <= n).
    { unfold refinement_init in Hri. rewrite Ljm in Hri. cbn [String.eqb Ascii.eqb Bool.eqb] in Hri. destruct (optical_flow_result _ _ _ _ _ Hri) as [Lc _]. unfold optical_flow_init in Hri.
      match type of Hri with (if validate ?u ?v then _ else _) = _ => destruct (validate u v) eqn:Ev; [|discriminate] end. injection Hri as <-.
      destruct (validate_lookup _ _ "iterations" jn Ev Ljn) as (mw & pw & Lw & Pw). cbn in Lw. injection Lw as <- <-. unfold int_such_that in Pw. rewrite (int_value_as_int _ _ _ Ijn) in Pw. lia. }
    split; [exact Pn|].
    destruct (flow_window bool_ok _ _ _ _ Ljm Hri) as (_ & _ & _ & h & Hh & Ews).
    assert (w = Z.of_nat (2 * h + 1)). { unfold int_at in Hwin. cbn [get_path] in Hwin. rewrite Lws in Hwin. cbn [bind] in Hwin. congruence. } subst w.
    assert (Hoff' : offset_of c1 = Z.of_nat h) by (rewrite Hoff; replace (Z.of_nat (2 * h + 1) - 1) with (Z.of_nat h * 2) by lia; apply Z.div_mul; lia).
    assert (Hcons : constant_ranges mi \/ mc_step_row mi = 1 /\ mc_step_col mi = 1).
    { destruct Hcase as [He|[HC|[[S1 S2]|[T2 Hok]]]]; [left; destruct (Ccst He) as (a & b & Ca & Cb); eauto | | right; split; congruence |].
      2: { apply (proj1 (volumes_computed px_eqb (pandora_cost c1 mi (load l row0 nrow col0 ncol)) (zoomed (load rg row0 nrow col0 ncol) (mc_subpix mi)) open_raster mi (load rg row0 nrow col0 ncol) q q' rows cols
             row0 nrow col0 ncol Wm Hint Qz T2 Wok Fw1 Fw2 Fw3 Fw4)). intros E. apply Hok. rewrite Emain. unfold finish. rewrite E. reflexivity. }
      unfold answered in Hans. destruct e; [left; destruct (Ccst eq_refl) as (a & b & Ca & Cb); eauto|]. destruct Hans as [-> _]. left. exact (same_ranges open_raster mi _ q rows cols row0 nrow col0 ncol Wm Hint Wok Fw1 Fw2 Fw3 Fw4 HC). }
    assert (Hcv : exists cv, compute_cost_volumes px_eqb (pandora_cost c1 mi (load l row0 nrow col0 ncol)) (zoomed (load rg row0 nrow col0 ncol) (mc_subpix mi)) mi (load rg row0 nrow col0 ncol) = Some cv).
    { destruct Hcons as [HC|[S1 S2]]; [destruct (compute_cost_volumes_const px_eqb (pandora_cost c1 mi (load l row0 nrow col0 ncol)) (zoomed (load rg row0 nrow col0 ncol) (mc_subpix mi)) mi _ Wm HC) as (cv & E & _)
        | destruct (compute_cost_volumes_step1 px_eqb (pandora_cost c1 mi (load l row0 nrow col0 ncol)) (zoomed (load rg row0 nrow col0 ncol) (mc_subpix mi)) mi _ Wm S1 S2) as (cv & E & _)]; eauto. }
    destruct Hcv as (cv & Ecv). destruct (compute_fields px_eqb _ _ _ _ Wm _ Ecv) as (F1 & F2 & _).
    pose proof (units_wf (one / Z.of_nat (mc_subpix mi)) cv (compute_wf_cv px_eqb _ _ _ _ Wm _ Ecv)) as Wu.
    destruct (wta_invalid_iff 100 (invalid_of one (q_invalid q)) _ Wu) as (mcol & mrow & score & Ew & R1 & R2 & R3 & _). cbn [in_units cv_nrow cv_ncol] in R1, R2, R3. rewrite F1, F2 in R1, R2, R3.
    assert (Esub : Z.of_nat (mc_subpix mi) = sub) by (rewrite Fsub; lia).
    destruct (run_best px_eqb (pandora_cost c1 mi (load l row0 nrow col0 ncol)) (zoomed (load rg row0 nrow col0 ncol) (mc_subpix mi)) mi (load rg row0 nrow col0 ncol) Wm
      (pixel_cost c1 (load l row0 nrow col0 ncol))) with (chunk := 100%nat) (inv := invalid_of one (q_invalid q)) (k := one / Z.of_nat (mc_subpix mi)) (cv := cv) as (mcol' & mrow' & score' & Edm' & P); auto.
    { intros. eapply K1; eauto. }
    { intros. rewrite Fme. apply K2. }
    rewrite Ew in Edm'. injection Edm' as <- <- <-.
    assert (Wm' := Wm). destruct Wm' as (V1 & V2 & _ & V3 & V4 & V5 & V6 & _).
    assert (Estart : row_coords mi = zarange (mc_row0 mi) (mc_row0 mi + Z.of_nat (mc_nrow mi)) (mc_step_row mi) /\ col_coords mi = zarange (mc_col0 mi) (mc_col0 mi + Z.of_nat (mc_ncol mi)) (mc_step_col mi)).
    { destruct (row_coords_shape mi _ Wm) as (sr & Er & _ & Sr). destruct (col_coords_shape mi _ Wm) as (scc & Ecc & _ & Scc). destruct Hzone as [Hz|[S1 S2]].
      - unfold loaded in Ld. rewrite (Hnz Hz) in Ld. destruct Ld as (_ & _ & _ & Hroi & _). unfold row_coords, col_coords, get_coordinates. rewrite Hroi. split; f_equal; lia.
      - rewrite <- Sr at 1 by congruence. rewrite <- Scc at 1 by congruence. auto. }
    destruct Estart as [Esr Esc].
    set (sr := Z.to_nat (mc_step_row mi)). set (sc' := Z.to_nat (mc_step_col mi)).
    assert (Zsr : mc_step_row mi = Z.of_nat sr) by (unfold sr; lia). assert (Zsc : mc_step_col mi = Z.of_nat sc') by (unfold sc'; lia).
    rewrite Zsr in Esr. rewrite Zsc in Esc. rewrite coords_progression in Esr, Esc by lia.
    unfold finish in Emain. rewrite Ecv in Emain. cbn [bind] in Emain. rewrite Ew in Emain. cbn [bind] in Emain.
    assert (Rm : 2 * (Z.of_nat h + Z.of_nat sr - 1) < Z.of_nat (mc_nrow mi) /\ 2 * (Z.of_nat h + Z.of_nat sc' - 1) < Z.of_nat (mc_ncol mi)).
    { rewrite Fw2, Fw4, <- Zsr, <- Zsc, Fsr, Fsc. unfold flow_room, room in Hroom. unfold window_ok in Wok. destruct (q_zone q) as [z|]; cbn [option_map] in Hroom; lia. }
    destruct Rm as [Rm1 Rm2].
    assert (Hhalf : Z.to_nat ((Z.of_nat (2 * h + 1) - 1) / 2) = h) by (rewrite <- Hoff, Hoff'; apply Nat2Z.id).
    assert (N1 : (1 <= nrow)%nat) by lia. assert (N2 : (1 <= ncol)%nat) by lia. destruct (L5 l row0 nrow col0 ncol N1 N2) as [T1 T2].
    match type of Emain with context [refine _ _ _ _ _ _ _ _ _ _ _ ?pa ?pb ?pv ?pd ?pe ?pf ?pg] =>
      destruct (refine_flow_exact nan bool_ok offset_of one store filter_apply lstsq resample junk interp minimise pa pb c1 mi (load l row0 nrow col0 ncol) (load rg row0 nrow col0 ncol) pd pe pf pg st x n h sr sc' lc lr rgrids Ljm)
        with (cv := in_units (one / Z.of_nat (mc_subpix mi)) cv) as (oc & orow & Er & X1 & X2 & F) end; auto.
    { eauto. }
    { unfold int_at. cbn [get_path]. rewrite Ljn. cbn [bind]. exact (int_value_as_int _ _ _ Ijn). }
    { rewrite Est. congruence. }
    { rewrite Fw2. exact T1. }
    { rewrite Fw4. exact T2. }
    { cbn [w_left]. congruence. }
    { cbn [w_right]. congruence. }
    rewrite Er in Emain. cbn [bind dataset_of] in Emain.
    destruct (saved_spec mi sc _ _ (map (map cost_of_num) orow) (map (map cost_of_num) oc) (map (map (cost_of_ext one)) score) (transform_of l) Ld ltac:(now apply rect_map) ltac:(now apply rect_map) ltac:(now apply rect_map))
      as (saved & after & Esave & I1 & I2 & O1 & O2 & Wf & V).
    rewrite Esave in Emain. cbn [bind fst snd] in Emain.
    exists q', row0, nrow, col0, ncol. do 2 eexists. split; [|split; [exact Emain|]; split; [reflexivity|]; split].
    - split; [exact Wok|]. unfold answered in Hans. destruct e; [|exact Hans]. destruct Hans as (j & sh & er & ph & ir & ic & E1 & E2 & E3 & E4 & E5).
      exists m, cfg, l, rg, j, sh, er, ph, ir, ic. auto 12.
    - split; [intros x'; rewrite I1, Fsr, <- Qr, Ar; unfold wanted_row; now rewrite Qz, Qr|]. split; [intros y'; rewrite I2, Fsc, <- Qc, Ac; unfold wanted_col; now rewrite Qz, Qc|]. auto.
    - cbv zeta. intros x' y' Hx Hy. apply In_nth_error in Hx as (a & Hx). apply In_nth_error in Hy as (b & Hy).
      destruct (V a b x' y' Hx Hy) as (r0 & c0 & Hr0 & Hc0 & G1 & G2 & G3). destruct (P r0 c0 x' y' Hr0 Hc0) as (vr & vc & vs & N1' & N2' & N3' & B).
      destruct (F r0 c0 x' y' vr vc Hr0 Hc0 N1' N2') as (a0 & b0 & dr & dc & E1 & E2 & B1 & B2 & B3).
      exists (cost_of_num dr), (cost_of_num dc), (cost_of_ext one vs).
      split. { exists a, b. rewrite G1, G2, G3, !nth2_map, E1, E2, N3'. auto. }
      assert (Xr := Hr0). assert (Xc := Hc0). apply nth_error_In in Xr, Xc. apply (row_coords_in mi _ Wm) in Xr. apply (col_coords_in mi _ _ Wm) in Xc.
      rewrite Esub in B. rewrite Fme, Fsub, Fw1, Fw3 in B.
      assert (Sh := shows_stored bool_ok one (q_invalid q) L7 Sto). assert (Sn := number_stored bool_ok _ Sto). rewrite <- Qi in Sh, Sn, B, B1, B2, B3. clear Sto.
      set (rr := Z.to_nat (x' - mc_row0 mi)) in *. set (cc := Z.to_nat (y' - mc_col0 mi)) in *.
      assert (Ir : in2 (mc_row_min mi) rr cc /\ in2 (mc_col_min mi) rr cc) by (apply (coords_in2 mi _ x' y' Wm); assumption).
      assert (Di : forall z, (a2_get (mc_row_min mi) rr cc * 1 <= z <= a2_get (mc_row_max mi) rr cc * 1 <-> exists u, middle open_raster (q_row_init q') x' y' u /\ (u - q_row_range q') * 1 <= z <= (u + q_row_range q') * 1) /\
        (a2_get (mc_col_min mi) rr cc * 1 <= z <= a2_get (mc_col_max mi) rr cc * 1 <-> exists u, middle open_raster (q_col_init q') x' y' u /\ (u - q_col_range q') * 1 <= z <= (u + q_col_range q') * 1)).
      { intros z. exact (Hint x' y' 1 z Xr Xc ltac:(lia)). }
      assert (Tr : a2_get (mc_row_min mi) rr cc <= a2_get (mc_row_max mi) rr cc) by (apply (wf_ordered mi _ rr cc Wm); apply Ir).
      assert (Tc : a2_get (mc_col_min mi) rr cc <= a2_get (mc_col_max mi) rr cc) by (apply (wf_ordered mi _ rr cc Wm); apply Ir).
      destruct (interval_of open_raster _ _ _ _ _ _ Tr (fun z => proj1 (Di z))) as (u & Mu & Lu & Hu). destruct (interval_of open_raster _ _ _ _ _ _ Tc (fun z => proj2 (Di z))) as (v & Mv & Lv & Hv).
      rewrite Lu, Hu in B1. rewrite Lv, Hv in B2.
      cbv zeta. rewrite Hhalf. rewrite <- Zsr, <- Zsc, Fsr, Fsc, <- Qr, <- Qc, Fw1, Fw2, Fw3, Fw4 in B3.
      assert (From : flow_from nan lstsq resample (load l row0 nrow col0 ncol) (load rg row0 nrow col0 ncol) row0 nrow col0 ncol open_raster (Z.to_nat n) h q' x' y' (num_of_ext one vr) (num_of_ext one vc) (cost_of_num dr) (cost_of_num dc)).
      { exists (invalid_num (q_invalid q')), a0, b0, dr, dc, u, v. split; [exact Sn|]. split; [exact B3|]. split; [exact Mu|]. split; [exact B1|]. split; [apply saved_num|]. split; [exact Mv|]. split; [exact B2 | apply saved_num]. }
      revert B. apply best_imp.
      + intros d. apply (Hint x' y' sub d); auto; lia.
      + intros d. apply (Hint x' y' sub d); auto; lia.
      + intros (-> & -> & ->). split; [exact Sh|]. exists (cost_of_ext one (invalid_of one (q_invalid q'))), (num_of_ext one (invalid_of one (q_invalid q'))). split; [exact Sh|]. split; [apply finite_num | exact From].
      + intros kr kc s Hkr Hkc Hs (-> & -> & ->). split; [destruct s; cbn; try reflexivity; eexists; split; reflexivity|].
        exists (num_of_ext one (Fin (kr * (one / sub)))), (num_of_ext one (Fin (kc * (one / sub)))). split; [apply unit_pixels; auto|]. split; [apply unit_pixels; auto | exact From].
  Qed.

  (** * C92: the exact result of an optical flow *)
  Theorem C92_optical_flow_exact pixel_cost user q rows cols e n left right completed subpix w : libraries -> cost_contract pixel_cost -> programmed user q rows cols e true ->
    asks_refinement bool_ok user "optical_flow" n ->
    (e = true \/ same_middle open_raster (q_row_init q) 0 rows 0 cols /\ same_middle open_raster (q_col_init q) 0 rows 0 cols \/ q_row_step q = 1 /\ q_col_step q = 1 \/
      two_lines q rows cols /\ main user <> None) ->
    (q_zone q = None \/ q_row_step q = 1 /\ q_col_step q = 1) ->
    matching_of user left right completed subpix -> int_at bool_ok ["window_size"] completed = Some w -> offset_of completed = (w - 1) / 2 -> flow_room w q rows cols ->
    exists q' row0 nrow col0 ncol out saved, searched_in user q q' rows cols e row0 nrow col0 ncol /\ main user = Some out /\ o_maps out = Some saved /\
      saved_pixels q rows cols saved /\
      let h := Z.to_nat ((w - 1) / 2) in let left_image := load left row0 nrow col0 ncol in let right_image := load right row0 nrow col0 ncol in
      saved_from_best open_raster subpix (measure_of completed) q' (window_cost pixel_cost left right completed subpix row0 nrow col0 ncol)
        (flow_lost nan lstsq resample left_image right_image row0 nrow col0 ncol open_raster one (Z.to_nat n) h q')
        (flow_found nan lstsq resample left_image right_image row0 nrow col0 ncol open_raster one subpix (Z.to_nat n) h q') saved.
  Proof. intros. eapply flow_run; eassumption. Qed.

  (** * C82: with an optical flow *)
  Theorem C82_optical_flow pixel_cost user q rows cols e n left right completed subpix w : libraries -> cost_contract pixel_cost -> programmed user q rows cols e true ->
    asks_refinement bool_ok user "optical_flow" n ->
    (e = true \/ same_middle open_raster (q_row_init q) 0 rows 0 cols /\ same_middle open_raster (q_col_init q) 0 rows 0 cols \/ q_row_step q = 1 /\ q_col_step q = 1 \/
      two_lines q rows cols /\ main user <> None) ->
    (q_zone q = None \/ q_row_step q = 1 /\ q_col_step q = 1) ->
    matching_of user left right completed subpix -> int_at bool_ok ["window_size"] completed = Some w -> offset_of completed = (w - 1) / 2 -> flow_room w q rows cols ->
    exists q' row0 nrow col0 ncol out saved, searched_in user q q' rows cols e row0 nrow col0 ncol /\ main user = Some out /\ o_maps out = Some saved /\
      saved_pixels q rows cols saved /\
      saved_from_best open_raster subpix (measure_of completed) q' (window_cost pixel_cost left right completed subpix row0 nrow col0 ncol)
        (flow_nothing open_raster one q') (flow_pixel open_raster one subpix n q') saved.
  Proof.
    intros Hlib Hcc Hp Hm Hcase Hzone Hmat Hwin Hoff Hroom.
    destruct (flow_run pixel_cost user q rows cols e n left right completed subpix w Hlib Hcc Hp Hm Hcase Hzone Hmat Hwin Hoff Hroom) as (Pn & q' & row0 & nrow & col0 & ncol & out & saved & S & Em & Eo & Hs & P).
    exists q', row0, nrow, col0, ncol, out, saved. do 4 (split; [assumption|]). intros x y Hx Hy. destruct (P x y Hx Hy) as (vr & vc & vs & Hpx & B). exists vr, vc, vs. split; [exact Hpx|].
    assert (L7 : 0 < one) by apply Hlib.
    revert B. apply best_imp; [tauto | tauto | |].
    - intros (Sh & w0 & a & _ & _ & Fr). split; [exact Sh|].
      destruct (flow_from_range nan lstsq resample _ _ _ _ _ _ _ _ _ _ _ _ _ _ _ _ _ L7 Fr) as [D1 D2]. split; [destruct D1 as [D1|[D1 _]] | destruct D2 as [D2|[D2 _]]]; auto.
    - intros dr dc s _ _ _ (Hs' & a & b & Pa & Pb & Fr). split; [exact Hs'|].
      destruct (flow_from_range nan lstsq resample _ _ _ _ _ _ _ _ _ _ _ _ _ _ _ _ _ L7 Fr) as [D1 D2].
      split; [destruct D1 as [D1|(D1 & p & Ep & N)]; auto; right; split; [exact D1 | exact (near_moved _ _ _ _ _ _ Pn Pa N Ep)] | destruct D2 as [D2|(D2 & p & Ep & N)]; auto; right; split; [exact D2 | exact (near_moved _ _ _ _ _ _ Pn Pb N Ep)]].
  Qed.
End Program.

(** ** Examples *)
(** The program of WholeMoreProps with a filter that prefers the greater row disparities and a motion of a quarter of column and an eighth of row. *)
Definition w6_filter (_ : dict) (w : list (list ext)) (_ f : Z) : ext := match nth2 w 1 1 with Some (Fin v) => Fin (v - f) | Some x => x | None => NaN end.
Definition w6_lstsq (_ _ : list (list Z)) : option (num * num) := Some (Some (1 # 4)%Q, Some (1 # 8)%Q).
Definition w6_main : dict -> option outcome :=
  main Z.eqb 0 true wh_pandora (fun _ => mkMargins 1 1 1 1) (fun _ => true) (fun _ => true) (fun _ _ _ _ => true) wh_size wh_raster wh_load w3_transform (fun _ => true)
    (fun _ => MeasureMin) (fun _ => 1) w3_cost (fun _ _ _ _ => 0) 512 (fun x => x) w6_filter w6_lstsq (fun w _ _ => w) (fun _ => []) ex_interp ex_minimise
    w3_estimate wh_margins wh_dict.
Definition w6_check (user : dict) := check_user Z.eqb 0 true wh_pandora (fun _ => mkMargins 1 1 1 1) (fun _ => true) (fun _ => true) (fun _ _ _ _ => true) wh_size wh_raster
    (fun _ => MeasureMin) (fun _ => 1) w3_cost (fun _ _ _ _ => 0) 512 (fun x => x) w6_filter w6_lstsq (fun w _ _ => w) (fun _ => []) ex_interp ex_minimise
    w3_estimate user (new_machine None).
Notation w6_matching_of := (matching_of Z.eqb 0 true wh_pandora (fun _ => mkMargins 1 1 1 1) (fun _ => true) (fun _ => true) (fun _ _ _ _ => true) wh_size wh_raster
    (fun _ => MeasureMin) (fun _ => 1) w3_cost (fun _ _ _ _ => 0) 512 (fun x => x) w6_filter w6_lstsq (fun w _ _ => w) (fun _ => []) ex_interp ex_minimise
    w3_estimate).
Definition w6_matching (user : dict) : option (dict * dict * dict * Z) :=
  match snd (w6_check user) with
  | Some cfg => match get_path ["input"; "left"] (JDict cfg), get_path ["input"; "right"] (JDict cfg), get_path ["pipeline"; "matching_cost"] (JDict cfg) with
      | Some (JDict l), Some (JDict r), Some (JDict s) => match matching_cost_init wh_pandora s with
          | Some c => match int_at true ["subpix"] c with Some n => Some (l, r, c, n) | None => None end | None => None end
      | _, _, _ => None end
  | None => None end.
Lemma w6_matching_spec user l r c n : w6_matching user = Some (l, r, c, n) -> w6_matching_of user l r c n.
Proof.
  unfold w6_matching. destruct (w6_check user) as [m [cfg|]] eqn:E; [|discriminate]. cbn [snd].
  destruct (get_path ["input"; "left"] (JDict cfg)) as [[| | | | | | | |dl]|] eqn:E1; try discriminate. destruct (get_path ["input"; "right"] (JDict cfg)) as [[| | | | | | | |dr]|] eqn:E2; try discriminate.
  destruct (get_path ["pipeline"; "matching_cost"] (JDict cfg)) as [[| | | | | | | |s]|] eqn:E3; try discriminate. destruct (matching_cost_init wh_pandora s) as [c'|] eqn:E4; [|discriminate].
  destruct (int_at true ["subpix"] c') as [n'|] eqn:E5; [|discriminate]. intros H. injection H as <- <- <- <-. exists m, cfg, s. auto 10.
Qed.
Lemma w6_dichotomy_libraries : dichotomy_libraries true wh_pandora w3_cost 512 (fun x => x).
Proof. destruct wh_dichotomy_libraries as (D1 & D2 & D3 & _). do 3 (split; [assumption|]). intros. right. reflexivity. Qed.
Lemma w6_programmed2 : w5_programmed wh_user2 wh_request2 8 9 false true.
Proof. split; [split; [wh_asked_tac | intros s _; cbn; lia] | eexists; split; reflexivity]. Qed.
(** Grids, two iterations: row disparities refined to quarters of pixel. *)
Example C83_example : libraries true wh_pandora (fun _ _ _ _ => true) wh_size wh_load (fun _ => true) (fun _ => MeasureMin) w3_cost 512 /\
  dichotomy_libraries true wh_pandora w3_cost 512 (fun x => x) /\ cost_contract (fun _ => MeasureMin) w3_cost w3_pixel /\
  w5_programmed wh_user2 wh_request2 8 9 false true /\ asks_refinement true wh_user2 "dichotomy" 2 /\ q_row_step wh_request2 = 1 /\ q_col_step wh_request2 = 1 /\
  (exists l r c, w6_matching_of wh_user2 l r c 1) /\
  (exists rows cols row_map col_map, wh_shown (w6_main wh_user2) = Some (Some (rows, cols, row_map, col_map)) /\ In (Some (7 # 4)%Q) (List.concat row_map)).
Proof.
  split; [exact w3_libraries|]. split; [exact w6_dichotomy_libraries|]. split; [exact w3_contract|]. split; [exact w6_programmed2|].
  split; [split; [reflexivity | left; wh_leaf]|]. do 2 (split; [reflexivity|]). split.
  { destruct (w6_matching wh_user2) as [[[[l r] c] n]|] eqn:E; [|exfalso; vm_compute in E; discriminate]. exists l, r, c.
    assert (n = 1) as -> by (vm_compute in E; congruence). now apply w6_matching_spec. }
  do 4 eexists. split; [vm_compute; reflexivity|]. vm_compute; tauto.
Qed.

(** Windows of 3 pixels, an optical flow with its default number of iterations: in the whole image with steps of 2 and 1, and in a ROI. *)
Definition w6_user (step : list json) (roi : dict) : dict :=
  [("input", JDict [("left", JDict [("img", JStr "left.tif")]); ("right", JDict [("img", JStr "right.tif")]); ("row_disparity", wh_disp (JInt 0) 2); ("col_disparity", wh_disp (JInt (-1)) 2)])] ++ roi ++
  [("pipeline", JDict [("matching_cost", JDict [("matching_cost_method", JStr "sad"); ("window_size", JInt 3); ("step", JList step)]);
                       ("disparity", JDict [("disparity_method", JStr "wta"); ("invalid_disparity", JStr "NaN")]);
                       ("refinement", JDict [("refinement_method", JStr "optical_flow")])])].
Definition w6_request (row col : Z) (z : option zone) : request := mkRequest (JInt 0) 2 (JInt (-1)) 2 row col z JNan.
Ltac w6_wf := unfold w6_user, wh_disp, wh_roi; cbn [app]; solve_wf.
Ltac w6_asked_tac := split; [w6_wf|]; split; [apply wh_checked; [w6_wf | vm_compute; discriminate]|];
  split; [|split; [exists "left.tif"; split; reflexivity | try (cbn; lia); exact I]];
  split; [wh_leaf|]; split; [wh_leaf|]; split; [wh_leaf|]; split; [wh_leaf|];
  split; [right; do 2 eexists; split; [reflexivity|]; split; apply int_int|];
  split; [first [reflexivity | split; [wh_leaf|]; split; [wh_leaf|]; split; wh_leaf] | right; wh_leaf].
Lemma w6_programmed_step : w5_programmed (w6_user [JInt 2; JInt 1] []) (w6_request 2 1 None) 8 9 false true.
Proof. split; [split; [w6_asked_tac | intros s H; discriminate H] | eexists; split; reflexivity]. Qed.
Lemma w6_programmed_roi : w5_programmed (w6_user [JInt 1; JInt 1] wh_roi) (w6_request 1 1 (Some (mkZone 1 6 2 7))) 8 9 false true.
Proof. split; [split; [w6_asked_tac | intros s H; discriminate H] | eexists; split; reflexivity]. Qed.
Example C82_example : libraries true wh_pandora (fun _ _ _ _ => true) wh_size wh_load (fun _ => true) (fun _ => MeasureMin) w3_cost 512 /\
  cost_contract (fun _ => MeasureMin) w3_cost w3_pixel /\
  w5_programmed (w6_user [JInt 2; JInt 1] []) (w6_request 2 1 None) 8 9 false true /\ asks_refinement true (w6_user [JInt 2; JInt 1] []) "optical_flow" 4 /\
  constant (JInt 0) 0 /\ constant (JInt (-1)) (-1) /\ flow_room 3 (w6_request 2 1 None) 8 9 /\
  (exists l r c, w6_matching_of (w6_user [JInt 2; JInt 1] []) l r c 1 /\ int_at true ["window_size"] c = Some 3 /\ 1 = (3 - 1) / 2) /\
  (exists rows cols row_map col_map, wh_shown (w6_main (w6_user [JInt 2; JInt 1] [])) = Some (Some (rows, cols, row_map, col_map)) /\ In (Some (1 # 2)%Q) (List.concat row_map) /\ In None (List.concat row_map)) /\
  w5_programmed (w6_user [JInt 1; JInt 1] wh_roi) (w6_request 1 1 (Some (mkZone 1 6 2 7))) 8 9 false true /\ flow_room 3 (w6_request 1 1 (Some (mkZone 1 6 2 7))) 8 9 /\
  (exists rows cols row_map col_map, wh_shown (w6_main (w6_user [JInt 1; JInt 1] wh_roi)) = Some (Some (rows, cols, row_map, col_map)) /\ In (Some (1 # 2)%Q) (List.concat row_map)).
Proof.
  split; [exact w3_libraries|]. split; [exact w3_contract|]. split; [exact w6_programmed_step|].
  split; [split; [reflexivity | right; split; [reflexivity|]; split; reflexivity]|]. split; [constructor|]. split; [constructor|]. split; [split; reflexivity|]. split.
  { destruct (w6_matching (w6_user [JInt 2; JInt 1] [])) as [[[[l r] c] n]|] eqn:E; [|exfalso; vm_compute in E; discriminate]. exists l, r, c.
    assert (n = 1) as -> by (vm_compute in E; congruence). split; [now apply w6_matching_spec|]. split; [|reflexivity]. vm_compute in E. injection E as <- <- <-. reflexivity. }
  split. { do 4 eexists. split; [vm_compute; reflexivity|]. vm_compute; tauto. }
  split; [exact w6_programmed_roi|]. split; [split; reflexivity|].
  do 4 eexists. split; [vm_compute; reflexivity|]. vm_compute; tauto.
Qed.

(** C92: the iterations have one result. *)
Theorem C92_unique {px} lstsq resample invalid (l : list (list px)) n r d d1 d2 : refined lstsq resample invalid l n r d d1 -> refined lstsq resample invalid l n r d d2 -> d1 = d2.
Proof.
  assert (M : forall d0 m e e', OpticalFlowSpec.moved d0 m e -> OpticalFlowSpec.moved d0 m e' -> e = e') by (intros d0 m e e' [[A ->]|[A ->]] [[B ->]|[B ->]]; tauto).
  intros H. revert d2. induction H as [r d|n r a b mc mr d' E H1 H2 H IH|n r a b mc mr a' b' E H1 H2 H3]; intros d2 K.
  - inversion K. reflexivity.
  - inversion K as [|? ? ? ? mc' mr' ? E' K1 K2 K3|? ? ? ? mc' mr' ? ? E' K1 K2 K3]; subst; rewrite E in E'; injection E' as <- <-; [auto | tauto].
  - inversion K as [|? ? ? ? mc' mr' ? E' K1 K2 K3|? ? ? ? mc' mr' ? ? E' K1 K2 K3]; subst; rewrite E in E'; injection E' as <- <-; [tauto|]. f_equal; eauto.
Qed.
(** The programs of C82_example meet the hypotheses of C92. There, four iterations of an eighth of row and a quarter of column move the disparities by half a row and a column. *)
Example C92_example l r d' : refined w6_lstsq (fun w _ _ => w) None l 4 r (Some 1%Q, Some 0%Q) d' -> exists a b, d' = (Some a, Some b) /\ (a == 1 # 2)%Q /\ (b == -1)%Q.
Proof.
  intros H. assert (K : refined w6_lstsq (fun w _ _ => w) None l 4 r (Some 1%Q, Some 0%Q) (Some (1 - (1 # 8) - (1 # 8) - (1 # 8) - (1 # 8))%Q, Some (0 - (1 # 4) - (1 # 4) - (1 # 4) - (1 # 4))%Q)).
  { do 4 (eapply refined_go; [reflexivity | eexists; split; [reflexivity|]; reflexivity | eexists; split; [reflexivity|]; reflexivity |]; cbn [nsub]). apply refined_end. }
  rewrite (C92_unique _ _ _ _ _ _ _ _ _ H K). do 2 eexists. split; [reflexivity|]. split; reflexivity.
Qed.

Print Assumptions C92_unique.
Print Assumptions C92_optical_flow_exact.
Print Assumptions C82_optical_flow.
Print Assumptions C83_dichotomy.
