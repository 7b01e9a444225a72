(** C91: the saved maps after a dichotomy are the ones of the search. *)
From Coq Require Import List String Bool ZArith QArith Qabs Lia.
From Verif Require Import Base.Ext Base.PyList Base.Arr Base.Json Base.Dict Base.ZRange Model.CommonModel Model.DisparityModel Model.MatchingCostModel Model.DichotomyModel
  Model.RoiModel Model.InputModel Model.ConfigModel Model.DatasetModel Model.EstimationModel Model.OpticalFlowModel Model.InterpolationModel Model.MachineModel Model.CheckConfModel
  Model.PipelineModel Model.WholeModel Model.ImgShiftModel
  Spec.MatchingCostSpec Spec.DichotomySpec Spec.RoiSpec Spec.PipelineSpec Spec.ConfigSpec Spec.InputSpec Spec.MachineSpec Spec.CheckConfSpec Spec.AcceptSpec Spec.WholeSpec Spec.BestSpec Spec.WtaSpec Spec.ShiftSpec Spec.WholeEverySpec Spec.InterpolationSpec Spec.OpticalFlowSpec Spec.WholeRefineSpec Spec.HalvingSpec Spec.WholeExactSpec
  Proofs.CheckConfProofs Proofs.ConfigProofs Proofs.ConfigStepProofs Proofs.AcceptProofs Proofs.RoiProofs Proofs.WtaProofs Proofs.WtaTheorems Proofs.MatchingCostProofs Proofs.MatchingCostTheorems Proofs.PipelineProofs Proofs.WholeRunProofs Proofs.WholeProofs Proofs.WholeMainProofs Proofs.HalvingProofs Proofs.BetweenProofs Proofs.RefineBestProofs Proofs.RefineExactProofs Proofs.WholeMoreProofs Proofs.WholeEveryProofs Proofs.BestProofs Proofs.RefineBestProofs Proofs.WholeFlowProofs
  Props.RoiProps Props.PipelineProps Props.CheckConfProps Props.InterpolationProps Props.WholeProps Props.WholeMoreProps Props.WholeEveryProps Props.WholeRefineProps.
Import ListNotations.
Open Scope Z_scope.
Open Scope string_scope.
Open Scope list_scope.

Section Program.
  (** The libraries: see WholeModel. *)
  Context {px : Type} (px_eqb : px -> px -> bool) (nan : px).
  Variable bool_ok : bool.
  Variable pandora_check : dict -> option (json * json * json).
  Variable matching_cost_margins : dict -> margins.
  Variable can_open_mandatory can_open : json -> bool.
  Variable images_ok : json -> json -> json -> json -> bool.
  Variable image_size : string -> nat * nat.
  Variable open_raster : string -> reader.
  Variable load : dict -> Z -> nat -> Z -> nat -> image px.
  Variable transform_of : dict -> option affine.
  Variable dataset_ok : image_dataset (image px) -> bool.
  Variable measure_of : dict -> measure.
  Variable offset_of : dict -> Z.
  Variable pandora_cost : dict -> mc_input -> image px -> list (list px) -> list (list Z) -> nat -> nat -> nat -> ext.
  Variable zoomed : image px -> nat -> nat -> nat -> px.
  Variable one : Z.
  Variable store : ext -> ext.
  Variable filter_apply : dict -> list (list ext) -> Z -> Z -> ext.
  Variable lstsq : list (list px) -> list (list px) -> option (num * num).
  Variable resample : list (list px) -> num -> num -> list (list px).
  Variable junk : nat -> list (list px).
  Variable interp : list Q -> list Q -> list (list cost) -> num -> num -> cost.
  Variable minimise : (num -> num -> cost) -> num * num -> (Q * Q) * (Q * Q) -> num * num.
  Variable estimate : json -> image px -> image px -> (Q * Q) * json * json.
  Variable global_margins : list (string * margins) -> list (string * margins) -> margins.
  Variable margins_to_dict : list (string * margins) -> list (string * margins) -> json.
  Notation main := (main px_eqb nan bool_ok pandora_check matching_cost_margins can_open_mandatory can_open images_ok image_size open_raster load transform_of dataset_ok
    measure_of offset_of pandora_cost zoomed one store filter_apply lstsq resample junk interp minimise estimate global_margins margins_to_dict).
  Notation check_user := (check_user px_eqb nan bool_ok pandora_check matching_cost_margins can_open_mandatory can_open images_ok image_size open_raster
    measure_of offset_of pandora_cost zoomed one store filter_apply lstsq resample junk interp minimise estimate).
  Notation libraries := (libraries bool_ok pandora_check images_ok image_size load dataset_ok measure_of pandora_cost one).
  Notation dichotomy_libraries := (dichotomy_libraries bool_ok pandora_check pandora_cost one store).
  Notation asked := (asked bool_ok pandora_check can_open_mandatory can_open images_ok image_size open_raster).
  Notation asked_estimation := (asked_estimation bool_ok pandora_check can_open_mandatory can_open images_ok image_size open_raster).
  Notation cost_contract := (cost_contract measure_of pandora_cost).

  Notation programmed := (programmed bool_ok pandora_check can_open_mandatory can_open images_ok image_size open_raster).
  Notation matching_of := (matching_of px_eqb nan bool_ok pandora_check matching_cost_margins can_open_mandatory can_open images_ok image_size open_raster measure_of offset_of pandora_cost zoomed one
    store filter_apply lstsq resample junk interp minimise estimate).
  Notation estimated_request := (estimated_request px_eqb nan bool_ok pandora_check matching_cost_margins can_open_mandatory can_open images_ok image_size open_raster load
    measure_of offset_of pandora_cost zoomed one store filter_apply lstsq resample junk interp minimise estimate).
  Notation searched_in := (searched_in px_eqb nan bool_ok pandora_check matching_cost_margins can_open_mandatory can_open images_ok image_size open_raster load measure_of offset_of pandora_cost zoomed one
    store filter_apply lstsq resample junk interp minimise estimate).
  Notation window_cost := (window_cost px_eqb load zoomed).
  (** The filter of the completed configuration. *)
  Definition filter_of (user f : dict) : Prop :=
    exists m cfg, check_user user (new_machine None) = (m, Some cfg) /\ get_path ["pipeline"; "refinement"; "filter"] (JDict cfg) = Some (JDict f).

  Lemma support_of f size before : filter_support bool_ok f size before ->
    f_size (flt_of bool_ok filter_apply f) = size /\ f_left (flt_of bool_ok filter_apply f) = before /\ f_up (flt_of bool_ok filter_apply f) = before /\ f_apply (flt_of bool_ok filter_apply f) = filter_apply f.
  Proof.
    intros [(Lm & -> & ->)|(Lm & -> & H)]; unfold flt_of; rewrite Lm; cbn [String.eqb Ascii.eqb Bool.eqb]; [auto|]. unfold sinc_half. destruct H as [(-> & ->)|(j & -> & I)]; [auto|].
    rewrite (int_value_as_int _ _ _ I), Nat2Z.id. auto.
  Qed.
  Lemma shown_number w : same_number one w (cost_of_ext one w).
  Proof. destruct w; cbn; try reflexivity. eexists. split; reflexivity. Qed.
  Lemma extreme_same P Q d : (forall d, P d <-> Q d) -> (extreme P d <-> extreme Q d).
  Proof. intros H. unfold extreme. split; (intros [X|X]; [left|right]; intros d' Hd'; apply X; apply H; exact Hd'). Qed.

  Lemma source_window (gmin gmax : arr2 Z) src (s d : Z) nrow ncol : (1 <= s) -> a2_n0 gmin = nrow -> a2_n1 gmin = ncol -> a2_n0 gmax = nrow -> a2_n1 gmax = ncol -> tight_source gmin gmax src ->
    (fst src * s <= d <= snd src * s <->
     exists r1 c1 d1 r2 c2 d2, ((r1 < nrow)%nat /\ (c1 < ncol)%nat) /\ ((r2 < nrow)%nat /\ (c2 < ncol)%nat) /\ a2_get gmin r1 c1 * s <= d1 <= a2_get gmax r1 c1 * s /\ a2_get gmin r2 c2 * s <= d2 <= a2_get gmax r2 c2 * s /\ d1 <= d <= d2).
  Proof.
    intros Hs N1 N2 N3 N4 (T & (r1 & c1 & I1 & E1) & (r2 & c2 & I2 & E2)). split.
    - intros Hd. exists r1, c1, (fst src * s), r2, c2, (snd src * s). unfold in2 in *. rewrite N1, N2 in *. rewrite N3, N4 in *. rewrite E1, E2.
      pose proof (T r1 c1 I1). pose proof (T r2 c2 I2). repeat split; try tauto; try lia; nia.
    - intros (a & b & d1 & a' & b' & d2 & (A1 & A2) & (A3 & A4) & D1 & D2 & Hd). assert (J1 : in2 gmin a b) by (split; lia). assert (J2 : in2 gmin a' b') by (split; lia).
      pose proof (T _ _ J1). pose proof (T _ _ J2). clear -H H0 D1 D2 Hd Hs. nia.
  Qed.

  Lemma window_bounds mi (right : image px) q' sub : wf_mc mi right -> 1 <= sub ->
    (forall x y one dr, mc_row0 mi <= x < mc_row0 mi + Z.of_nat (mc_nrow mi) -> mc_col0 mi <= y < mc_col0 mi + Z.of_nat (mc_ncol mi) -> 0 < one ->
        (user_row_interval mi one x y dr <-> exists v, middle open_raster (q_row_init q') x y v /\ (v - q_row_range q') * one <= dr <= (v + q_row_range q') * one) /\
        (user_col_interval mi one x y dr <-> exists v, middle open_raster (q_col_init q') x y v /\ (v - q_col_range q') * one <= dr <= (v + q_col_range q') * one)) ->
    (forall d, of_the_window open_raster (q_row_init q') (q_row_range q') sub (mc_row0 mi) (mc_nrow mi) (mc_col0 mi) (mc_ncol mi) d <-> fst (mc_row_source mi) * sub <= d <= snd (mc_row_source mi) * sub) /\
    (forall d, of_the_window open_raster (q_col_init q') (q_col_range q') sub (mc_row0 mi) (mc_nrow mi) (mc_col0 mi) (mc_ncol mi) d <-> fst (mc_col_source mi) * sub <= d <= snd (mc_col_source mi) * sub).
  Proof.
    intros (_ & _ & _ & _ & _ & _ & _ & Hg & Tr & Tc) Ps Hint.
    assert (Wr : forall d, of_the_window open_raster (q_row_init q') (q_row_range q') sub (mc_row0 mi) (mc_nrow mi) (mc_col0 mi) (mc_ncol mi) d <-> fst (mc_row_source mi) * sub <= d <= snd (mc_row_source mi) * sub).
    { intros d. destruct (Hg (mc_row_min mi) ltac:(auto)) as [N1 N2]. destruct (Hg (mc_row_max mi) ltac:(auto)) as [N3 N4]. rewrite (source_window _ _ _ sub d _ _ Ps N1 N2 N3 N4 Tr). split.
      - intros (x1 & y1 & d1 & x2 & y2 & d2 & (A1 & A2) & (A3 & A4) & C1 & C2 & Hd). exists (Z.to_nat (x1 - mc_row0 mi)), (Z.to_nat (y1 - mc_col0 mi)), d1, (Z.to_nat (x2 - mc_row0 mi)), (Z.to_nat (y2 - mc_col0 mi)), d2.
        do 2 (split; [lia|]). split; [apply (proj1 (Hint x1 y1 sub d1 A1 A2 ltac:(lia))); exact C1|]. split; [apply (proj1 (Hint x2 y2 sub d2 A3 A4 ltac:(lia))); exact C2|exact Hd].
      - intros (r1 & c1 & d1 & r2 & c2 & d2 & (A1 & A2) & (A3 & A4) & C1 & C2 & Hd). exists (mc_row0 mi + Z.of_nat r1), (mc_col0 mi + Z.of_nat c1), d1, (mc_row0 mi + Z.of_nat r2), (mc_col0 mi + Z.of_nat c2), d2.
        do 2 (split; [lia|]). split; [|split; [|exact Hd]].
        + apply (proj1 (Hint (mc_row0 mi + Z.of_nat r1) (mc_col0 mi + Z.of_nat c1) sub d1 ltac:(lia) ltac:(lia) ltac:(lia))). unfold user_row_interval. rewrite !Z.add_simpl_l, !Nat2Z.id. exact C1.
        + apply (proj1 (Hint (mc_row0 mi + Z.of_nat r2) (mc_col0 mi + Z.of_nat c2) sub d2 ltac:(lia) ltac:(lia) ltac:(lia))). unfold user_row_interval. rewrite !Z.add_simpl_l, !Nat2Z.id. exact C2. }
    assert (Wc : forall d, of_the_window open_raster (q_col_init q') (q_col_range q') sub (mc_row0 mi) (mc_nrow mi) (mc_col0 mi) (mc_ncol mi) d <-> fst (mc_col_source mi) * sub <= d <= snd (mc_col_source mi) * sub).
    { intros d. destruct (Hg (mc_col_min mi) ltac:(auto)) as [N1 N2]. destruct (Hg (mc_col_max mi) ltac:(auto)) as [N3 N4]. rewrite (source_window _ _ _ sub d _ _ Ps N1 N2 N3 N4 Tc). split.
      - intros (x1 & y1 & d1 & x2 & y2 & d2 & (A1 & A2) & (A3 & A4) & C1 & C2 & Hd). exists (Z.to_nat (x1 - mc_row0 mi)), (Z.to_nat (y1 - mc_col0 mi)), d1, (Z.to_nat (x2 - mc_row0 mi)), (Z.to_nat (y2 - mc_col0 mi)), d2.
        do 2 (split; [lia|]). split; [apply (proj2 (Hint x1 y1 sub d1 A1 A2 ltac:(lia))); exact C1|]. split; [apply (proj2 (Hint x2 y2 sub d2 A3 A4 ltac:(lia))); exact C2|exact Hd].
      - intros (r1 & c1 & d1 & r2 & c2 & d2 & (A1 & A2) & (A3 & A4) & C1 & C2 & Hd). exists (mc_row0 mi + Z.of_nat r1), (mc_col0 mi + Z.of_nat c1), d1, (mc_row0 mi + Z.of_nat r2), (mc_col0 mi + Z.of_nat c2), d2.
        do 2 (split; [lia|]). split; [|split; [|exact Hd]].
        + apply (proj2 (Hint (mc_row0 mi + Z.of_nat r1) (mc_col0 mi + Z.of_nat c1) sub d1 ltac:(lia) ltac:(lia) ltac:(lia))). unfold user_col_interval. rewrite !Z.add_simpl_l, !Nat2Z.id. exact C1.
        + apply (proj2 (Hint (mc_row0 mi + Z.of_nat r2) (mc_col0 mi + Z.of_nat c2) sub d2 ltac:(lia) ltac:(lia) ltac:(lia))). unfold user_col_interval. rewrite !Z.add_simpl_l, !Nat2Z.id. exact C2. }
    split; assumption.
  Qed.

  Lemma samples_window mi (right : image px) q' sub x y cost : wf_mc mi right -> Z.of_nat (mc_subpix mi) = sub -> 1 <= sub ->
    (forall x y one dr, mc_row0 mi <= x < mc_row0 mi + Z.of_nat (mc_nrow mi) -> mc_col0 mi <= y < mc_col0 mi + Z.of_nat (mc_ncol mi) -> 0 < one ->
        (user_row_interval mi one x y dr <-> exists v, middle open_raster (q_row_init q') x y v /\ (v - q_row_range q') * one <= dr <= (v + q_row_range q') * one) /\
        (user_col_interval mi one x y dr <-> exists v, middle open_raster (q_col_init q') x y v /\ (v - q_col_range q') * one <= dr <= (v + q_col_range q') * one)) ->
    mc_row0 mi <= x < mc_row0 mi + Z.of_nat (mc_nrow mi) -> mc_col0 mi <= y < mc_col0 mi + Z.of_nat (mc_ncol mi) ->
    sampled (candidate open_raster (q_row_init q') (q_row_range q') sub x y) (candidate open_raster (q_col_init q') (q_col_range q') sub x y)
      (of_the_window open_raster (q_row_init q') (q_row_range q') sub (mc_row0 mi) (mc_nrow mi) (mc_col0 mi) (mc_ncol mi))
      (of_the_window open_raster (q_col_init q') (q_col_range q') sub (mc_row0 mi) (mc_nrow mi) (mc_col0 mi) (mc_ncol mi)) cost (pixel_samples mi cost x y).
  Proof.
    intros Wm Es Ps Hint Hx Hy.
    destruct (window_bounds mi right q' sub Wm Ps Hint) as [Wr Wc].
    intros dr dc. rewrite !Wr, !Wc.
    assert (Ir : candidate open_raster (q_row_init q') (q_row_range q') sub x y dr <-> user_row_interval mi sub x y dr) by (symmetry; apply (Hint x y sub dr); auto; lia).
    assert (Ic : candidate open_raster (q_col_init q') (q_col_range q') sub x y dc <-> user_col_interval mi sub x y dc) by (symmetry; apply (Hint x y sub dc); auto; lia).
    rewrite Ir, Ic. unfold pixel_samples. rewrite Es. unfold user_row_interval, user_col_interval.
    destruct (has_samples _ _ _ _ dr) eqn:B1; destruct (has_samples _ _ _ _ dc) eqn:B2; cbn [andb].
    - apply has_samples_spec in B1, B2. left. split; [tauto|]. split; [tauto|reflexivity].
    - right. split; [|reflexivity]. right. assert (N := fun H => eq_true_false_abs _ (proj2 (has_samples_spec _ _ _ _ _) H) B2). clear -N. lia.
    - right. split; [|reflexivity]. left. assert (N := fun H => eq_true_false_abs _ (proj2 (has_samples_spec _ _ _ _ _) H) B1). clear -N. lia.
    - right. split; [|reflexivity]. left. assert (N := fun H => eq_true_false_abs _ (proj2 (has_samples_spec _ _ _ _ _) H) B1). clear -N. lia.
  Qed.

  (** * C91: the maps saved after a dichotomy, exactly *)
  Theorem C91_dichotomy_exact pixel_cost user q rows cols e n left right completed subpix f size before : libraries -> dichotomy_libraries -> cost_contract pixel_cost -> programmed user q rows cols e true ->
    asks_refinement bool_ok user "dichotomy" n -> q_row_step q = 1 -> q_col_step q = 1 -> matching_of user left right completed subpix -> filter_of user f -> filter_support bool_ok f size before ->
    exists q' row0 nrow col0 ncol out saved, searched_in user q q' rows cols e row0 nrow col0 ncol /\ main user = Some out /\ o_maps out = Some saved /\
      let cost := window_cost pixel_cost left right completed subpix row0 nrow col0 ncol in
      let candidates_row := candidate open_raster (q_row_init q') (q_row_range q') subpix in
      let candidates_col := candidate open_raster (q_col_init q') (q_col_range q') subpix in
      saved_from_best open_raster subpix (measure_of completed) q' cost (fun x y vr vc vs => shows one (q_invalid q') vr /\ shows one (q_invalid q') vc /\ vs = CNan)
        (fun x y vr vc vs dr dc _ => exists sample,
           sampled (candidates_row x y) (candidates_col x y) (of_the_window open_raster (q_row_init q') (q_row_range q') subpix row0 nrow col0 ncol)
             (of_the_window open_raster (q_col_init q') (q_col_range q') subpix row0 nrow col0 ncol) (cost x y) sample /\
           searched_pixel (candidates_row x y) (candidates_col x y) one subpix q'
             (halving store (measure_of completed) (between one subpix size before before (filter_apply f) sample) (halves one (Z.to_nat (Z.log2 subpix)) (Z.to_nat (Z.min n 9))))
             (cost x y dr dc) vr vc vs dr dc)
        saved.
  Proof.
    intros (L1 & L2 & L3 & L4 & L5 & L6 & L7 & L8) (Hro & H512 & Hpow & Hst) (K1 & K2) (Ha & (raw & Lp & K)) Hm S1 S2 (m0 & cfg0 & st0 & M1 & M2 & M3 & M4 & M5 & M6) (m7 & cfg7 & N7 & Gf) Fs.
    assert (X : wf (JDict user) /\ accepted bool_ok pandora_check can_open_mandatory can_open images_ok image_size open_raster user /\ asks_others bool_ok user q /\
      (exists left_path, get_path ["input"; "left"; "img"] (JDict user) = Some (JStr left_path) /\ image_size left_path = (rows, cols)) /\
      match q_zone q with Some z => z_r0 z < Z.of_nat rows /\ z_c0 z < Z.of_nat cols | None => True end).
    { destruct e; [destruct Ha as (W & A & Ho & _ & G & Z); auto|]. destruct Ha as ((W & A & (_ & _ & _ & _ & Ho) & G & Z) & _). auto. }
    destruct X as (W & A & Ho & (p & G & S) & Z).
    destruct (main_ready px_eqb nan bool_ok pandora_check matching_cost_margins can_open_mandatory can_open images_ok image_size open_raster load transform_of dataset_ok
      measure_of offset_of pandora_cost zoomed one store filter_apply lstsq resample junk interp minimise estimate global_margins margins_to_dict L1 L2 L3 L4 L5 L6 user q rows cols p W A Ho G S Z)
      with (e := e) (raw := raw) (r := true) as (m & cfg & l & rg & x1 & c1 & sub & row0 & nrow & col0 & ncol & q' & mi & sc & cr' & lc & lr & rgrids & cfg3 & final & H); auto.
    { intros ->. destruct Ha as ((_ & _ & Q & _) & T). auto. }
    { intros ->. destruct Ha as (_ & _ & _ & Q & _). exact Q. }
    destruct H as (Hck & Gl & Grg & Gx1 & Emc & Gsub & Fsub & Psub & Dsub & (pc & w0 & s0 & o0 & Hpc & Isub) & Wok & Hans & (Qz & Qr & Qc & Qi) & Ccst & Fw1 & Fw2 & Fw3 & Fw4 & Fme & Fsr & Fsc & Wm & Cst & Ar & Ac & Hint & Ld & Sto & Hnz & Hr & Hcr & Fgr & Emain).
    rewrite Hck in M1. injection M1 as <- <-. rewrite Gl in M2. injection M2 as <-. rewrite Grg in M3. injection M3 as <-. rewrite Gx1 in M4. injection M4 as <-. rewrite Emc in M5. injection M5 as <-. rewrite Gsub in M6. injection M6 as <-.
    destruct cr' as [c|]; [|exfalso; apply (proj2 Hr eq_refl); reflexivity].
    assert (Hc := Hck). unfold WholeModel.check_user in Hc.
    destruct Hcr as (Fmg & x & st & ws & Gx & Wx & Hri & _).
    destruct (kept_iterations _ _ _ _ _ _ _ _ _ _ _ L1 _ _ _ _ W Hc raw Lp e true K "dichotomy" n ltac:(cbn; auto) Hm x st ws c Gx Hri) as (jn & Ljn & Ijn). cbn [String.eqb Ascii.eqb Bool.eqb] in Ijn.
    pose proof (kept_method _ _ _ _ _ _ _ _ _ _ _ L1 _ _ _ _ W Hc raw Lp e true K "dichotomy" (proj1 Hm) (or_introl eq_refl)) as Km.
    assert (Ljm : lookup "refinement_method" x = Some (JStr "dichotomy")).
    { destruct (path_dict _ _ _ _ _ Gx) as (pl & Lpl). cbn [get_path] in Gx, Km. rewrite Lpl in Gx, Km. cbn [get_path] in Gx, Km.
      destruct (lookup "refinement" pl) as [jx|]; [|discriminate]. cbn [get_path] in Gx, Km. injection Gx as ->. cbn [get_path] in Km.
      destruct (lookup "refinement_method" x) as [jm|]; [|discriminate]. cbn [get_path] in Km. exact Km. }
    destruct (dichotomy_ready bool_ok one filter_apply _ _ _ _ Wx Hri Ljm H512) as (f' & n' & D1 & D2 & D3 & D4 & D5).
    assert (n' = Z.min n 9). { unfold int_at in D3. cbn [get_path] in D3. rewrite Ljn in D3. cbn [bind] in D3. rewrite (int_value_as_int _ _ _ Ijn) in D3. congruence. } subst n'.
    assert (Dsub' : (Z.of_nat (mc_subpix mi) | one)) by (rewrite Fsub, Z2Nat.id by lia; exact Dsub).
    assert (Esub : Z.of_nat (mc_subpix mi) = sub) by (rewrite Fsub; lia).
    assert (Efilter : f' = f).
    { rewrite Hck in N7. injection N7 as <- <-. unfold refinement_init in Hri. rewrite Ljm in Hri. cbn [String.eqb Ascii.eqb Bool.eqb] in Hri. destruct (dichotomy_result _ _ _ Hri) as (j & n0 & _ & _ & Ec).
      assert (Lf : lookup "filter" x = Some (JDict f)).
      { destruct (path_dict _ _ _ _ _ Gx) as (pl & Lpl). cbn [get_path] in Gx, Gf. rewrite Lpl in Gx, Gf. cbn [get_path] in Gx, Gf.
        destruct (lookup "refinement" pl) as [jx|]; [|discriminate]. cbn [get_path] in Gx, Gf. injection Gx as ->. cbn [get_path] in Gf.
        destruct (lookup "filter" x) as [jm|]; [|discriminate]. cbn [get_path] in Gf. exact Gf. }
      rewrite Ec in D2. destruct (Z.ltb 9 n0); [rewrite lookup_assign in D2; cbn [String.eqb Ascii.eqb Bool.eqb] in D2|]; congruence. }
    subst f'.
    destruct (Hpow _ _ _ _ _ Hpc Isub) as (e0 & Ee).
    assert (Se0 : mc_subpix mi = (2 ^ e0)%nat) by (rewrite Fsub, Ee; apply Nat2Z.inj; rewrite Z2Nat.id by (apply Z.pow_nonneg; lia); now rewrite Nat2Z.inj_pow).
    assert (Le0 : Z.to_nat (Z.log2 sub) = e0) by (rewrite Ee, Z.log2_pow2 by lia; lia).
    destruct (support_of f size before Fs) as (T1 & T2 & T3 & T4).
    destruct (run_exact px_eqb (pandora_cost c1 mi (load l row0 nrow col0 ncol)) (zoomed (load rg row0 nrow col0 ncol) (mc_subpix mi)) mi (load rg row0 nrow col0 ncol) Wm
      (pixel_cost c1 (load l row0 nrow col0 ncol))) with (one := one) (store := store) (flt := flt_of bool_ok filter_apply f) (iterations := Z.to_nat (Z.min n 9)) (e := e0) (chunk := 100%nat) (inv := invalid_of one (q_invalid q))
      as (mcol & mrow & score & Erm & R1 & R2 & R3 & P); auto.
    { intros. eapply K1; eauto. }
    { intros. rewrite Fme. apply K2. }
    { intros. rewrite Fme. apply L8. }
    { congruence. } { congruence. }
    { lia. }
    { exists (refinement_margins bool_ok c). auto. }
    rewrite T1, T2, T3, T4 in P.
    unfold run_maps in Erm. destruct (compute_cost_volumes _ _ _ _ _) as [cv|] eqn:Ecv; [|discriminate]. cbn [bind] in Erm.
    destruct (compute_disp_maps _ _ _) as [[[mc0 mr0] sc0]|] eqn:Edm; [|discriminate]. cbn [bind] in Erm.
    destruct (saved_maps bool_ok open_raster one L7 rows cols q' mi sc _ mcol mrow score (transform_of l) Wm Ld ltac:(congruence) ltac:(congruence) Ar Ac Hint R1 R2 R3 ltac:(rewrite Qi; exact Sto))
      as (saved & after & Esave & Hok).
    { intros r c' x' y' Hx Hy. destruct (P r c' x' y' Hx Hy) as (vr & vc & vs & N1 & N2 & _ & Rs & _). exists vr, vc. rewrite Qi. auto. }
    exists q', row0, nrow, col0, ncol, (mkOutcome (Some saved) (Some (q_invalid q, after)) final), saved.
    split; [|split; [|split; [reflexivity|]]].
    - split; [exact Wok|]. unfold answered in Hans. destruct e; [|exact Hans]. destruct Hans as (j & sh & er & ph & ir & ic & E1 & E2 & E3 & E4 & E5).
      exists m, cfg, l, rg, j, sh, er, ph, ir, ic. auto 12.
    - rewrite Emain. unfold finish. rewrite Ecv. cbn [bind]. rewrite Edm. cbn [bind].
      rewrite Fgr in Erm. unfold refine. rewrite D1. cbn [String.eqb Ascii.eqb Bool.eqb]. rewrite D2, D3. cbv zeta. fold (flt_of bool_ok filter_apply f). unfold WholeModel.grids_of. cbn [w_left gd_grids].
      rewrite Erm. cbn [bind dataset_of]. rewrite Esave. reflexivity.
    - cbv zeta. intros x' y' Hx Hy. apply In_nth_error in Hx as (a & Hx). apply In_nth_error in Hy as (b & Hy).
      destruct (saved_spec mi sc (Z.of_nat rows) (Z.of_nat cols) (map (map (cost_of_ext one)) mrow) (map (map (cost_of_ext one)) mcol) (map (map (cost_of_ext one)) score) (transform_of l) Ld)
        as (saved' & after' & Es & _ & _ & _ & _ & _ & V); try (now apply rect_map). rewrite Esave in Es. injection Es as <- <-.
      destruct (V a b x' y' Hx Hy) as (r0 & c0 & Hr0 & Hc0 & G1 & G2 & G3). destruct (P r0 c0 x' y' Hr0 Hc0) as (vr & vc & vs & N1 & N2 & N3 & _ & B).
      exists (cost_of_ext one vr), (cost_of_ext one vc), (cost_of_ext one vs).
      split. { exists a, b. rewrite G1, G2, G3, !nth2_map, N1, N2, N3. auto. }
      assert (Xr := Hr0). assert (Xc := Hc0). apply nth_error_In in Xr, Xc. apply (row_coords_in mi _ Wm) in Xr. apply (col_coords_in mi _ _ Wm) in Xc.
      rewrite Esub in B. rewrite Fme, Fsub, Fw1, Fw3 in B.
      assert (Sh := shows_stored bool_ok one (q_invalid q) L7 Sto). rewrite <- Qi in Sh, B.
      assert (Qk : forall d, quotient d sub (cost_of_ext one (Fin (d * (one / sub))))).
      { intros d. destruct Dsub as (k & Hk). rewrite Hk, Z.div_mul by lia. eexists. split; [reflexivity|]. rewrite !inject_Z_mult. assert (0 < k) by nia. field.
        split; intros E; unfold Qeq in E; cbn in E; lia. }
      assert (Qu : forall d c, quotient d sub c -> quotient (d * (one / sub)) one c).
      { intros d c' (u & -> & E). exists u. split; [reflexivity|]. rewrite E. destruct Dsub as (k & Hk). rewrite Hk, Z.div_mul by lia. rewrite !inject_Z_mult. assert (0 < k) by nia. field.
        split; intros F; unfold Qeq in F; cbn in F; lia. }
      revert B. apply best_imp.
      + intros d. apply (Hint x' y' sub d); auto; lia.
      + intros d. apply (Hint x' y' sub d); auto; lia.
      + intros (-> & -> & ->). auto.
      + intros dr dc s Hdr Hdc Hs B. exists (pixel_samples mi (window_cost pixel_cost l rg c1 sub row0 nrow col0 ncol x' y') x' y').
        split. { pose proof (samples_window mi (load rg row0 nrow col0 ncol) q' sub x' y' (window_cost pixel_cost l rg c1 sub row0 nrow col0 ncol x' y') Wm Esub Psub Hint Xr Xc) as Sw. rewrite Fw1, Fw2, Fw3, Fw4 in Sw. exact Sw. }
        destruct B as [(I & -> & -> & ->)|(I1 & I2 & [(Cs & -> & -> & ->)|(Hn & X1 & X2 & a' & b' & -> & -> & Sr)])].
        * left. split; [|auto]. destruct I as [I|I]; [left|right]; eexists; (split; [apply Qk|]); rewrite I; exact Sh.
        * right. split; [intros (k0 & Q0 & S0); apply I1; symmetry; eapply shows_units; [exact L7 | exact S0 | now apply Qu]|]. split; [intros (k0 & Q0 & S0); apply I2; symmetry; eapply shows_units; [exact L7 | exact S0 | now apply Qu]|].
          left. split; [|split; [apply Qk|]; split; [apply Qk|]; apply shown_number].
          rewrite <- !(extreme_same _ _ _ (fun d => proj1 (Hint x' y' sub d Xr Xc ltac:(lia)))), <- (extreme_same _ _ _ (fun d => proj2 (Hint x' y' sub d Xr Xc ltac:(lia)))) . exact Cs.
        * right. split; [intros (k0 & Q0 & S0); apply I1; symmetry; eapply shows_units; [exact L7 | exact S0 | now apply Qu]|]. split; [intros (k0 & Q0 & S0); apply I2; symmetry; eapply shows_units; [exact L7 | exact S0 | now apply Qu]|].
          right. split; [exact Hn|]. split. { rewrite <- (extreme_same _ _ _ (fun d => proj1 (Hint x' y' sub d Xr Xc ltac:(lia)))). exact X1. }
          split. { rewrite <- (extreme_same _ _ _ (fun d => proj2 (Hint x' y' sub d Xr Xc ltac:(lia)))). exact X2. }
          exists a', b', vs. rewrite Le0. split; [exact Sr|]. split; [apply (shown_number (Fin a'))|]. split; [apply (shown_number (Fin b')) | apply shown_number].
  Qed.
End Program.

(** ** Example: grids, two iterations of the search from integer disparities; some row disparities are moved by three quarters of pixel. *)
Notation w10_filter_of := (filter_of Z.eqb 0 true wh_pandora (fun _ => mkMargins 1 1 1 1) (fun _ => true) (fun _ => true) (fun _ _ _ _ => true) wh_size wh_raster
    (fun _ => MeasureMin) (fun _ => 1) w3_cost (fun _ _ _ _ => 0) 512 (fun x => x) w6_filter w6_lstsq (fun w _ _ => w) (fun _ => []) ex_interp ex_minimise
    w3_estimate).
Definition w10_filter (user : dict) : option dict :=
  match snd (w6_check user) with Some cfg => match get_path ["pipeline"; "refinement"; "filter"] (JDict cfg) with Some (JDict f) => Some f | _ => None end | None => None end.
Lemma w10_filter_spec user f : w10_filter user = Some f -> w10_filter_of user f.
Proof.
  unfold w10_filter. destruct (w6_check user) as [m [cfg|]] eqn:E; [|discriminate]. cbn [snd]. destruct (get_path ["pipeline"; "refinement"; "filter"] (JDict cfg)) as [[| | | | | | | |f']|] eqn:E1; try discriminate.
  intros H. injection H as <-. exists m, cfg. auto.
Qed.
Example C91_example : libraries true wh_pandora (fun _ _ _ _ => true) wh_size wh_load (fun _ => true) (fun _ => MeasureMin) w3_cost 512 /\
  dichotomy_libraries true wh_pandora w3_cost 512 (fun x => x) /\ cost_contract (fun _ => MeasureMin) w3_cost w3_pixel /\
  w5_programmed wh_user2 wh_request2 8 9 false true /\ asks_refinement true wh_user2 "dichotomy" 2 /\ q_row_step wh_request2 = 1 /\ q_col_step wh_request2 = 1 /\
  (exists l r c, w6_matching_of wh_user2 l r c 1) /\ (exists f, w10_filter_of wh_user2 f /\ filter_support true f 4 1) /\
  halves 512 (Z.to_nat (Z.log2 1)) (Z.to_nat (Z.min 2 9)) = [256; 128] /\
  (exists rows cols row_map col_map, wh_shown (w6_main wh_user2) = Some (Some (rows, cols, row_map, col_map)) /\ In (Some (7 # 4)%Q) (List.concat row_map)).
Proof.
  destruct C83_example as (X1 & X2 & X3 & X4 & X5 & X6 & X7 & X8 & X9). do 8 (split; [assumption|]). split; [|split; [reflexivity | exact X9]].
  exists [("method", JStr "bicubic")]. split; [apply w10_filter_spec; vm_compute; reflexivity|]. left. repeat split.
Qed.

Print Assumptions C91_dichotomy_exact.
