(** Theorems on whole runs (C38). *)
From Coq Require Import ZArith List Lia Bool Arith.
From Verif Require Import Base.Ext Base.PyList Base.Arr Base.ZRange Model.CommonModel Model.ImgShiftModel Model.DisparityModel Model.MatchingCostModel
  Model.DichotomyModel Model.RoiModel Model.PipelineModel Spec.WtaSpec Spec.MatchingCostSpec Spec.DichotomySpec Spec.RoiSpec Spec.PipelineSpec
  Proofs.WtaProofs Proofs.WtaTheorems Proofs.MatchingCostProofs Proofs.MatchingCostTheorems Proofs.DichotomyProofs Proofs.DichotomyTheorems Proofs.RoiProofs
  Proofs.PipelineProofs Props.RoiProps Props.DichotomyProps.
Import ListNotations.
Open Scope Z_scope.

(** Any maps on the coordinates of the volumes: what is saved. *)
(** The coordinates are in increasing order, and so are the ones that are kept. *)
Lemma zarange_increasing start stop step : 0 < step -> increasing (zarange start stop step).
Proof. intros H i j a b Hij Ha Hb. apply zarange_nth in Ha, Hb; auto. destruct Ha as [-> _], Hb as [-> _]. nia. Qed.
Lemma filter_increasing f l : increasing l -> increasing (List.filter f l).
Proof.
  induction l as [|x l IH]; intros H; [exact H|]. assert (Hl : increasing l) by (intros i j a b Hij Ha Hb; apply (H (S i) (S j) a b); auto; lia).
  cbn [List.filter]. destruct (f x); [|auto]. intros [|i] [|j] a b Hij Ha Hb; cbn in Ha, Hb; try lia.
  - injection Ha as <-. apply nth_error_In in Hb. apply filter_In in Hb. destruct Hb as [Hb _]. apply In_nth_error in Hb. destruct Hb as [k Hk]. apply (H 0%nat (S k) x b); auto; lia.
  - apply (IH Hl i j a b); auto; lia.
Qed.
Lemma coords_increasing m : 1 <= mc_step_row m -> 1 <= mc_step_col m -> increasing (row_coords m) /\ increasing (col_coords m).
Proof.
  intros H1 H2. unfold row_coords, col_coords, get_coordinates. destruct (mc_roi m) as [[? ? [[[a b] c] d]]|]; cbn; split; apply zarange_increasing; lia.
Qed.
Lemma saved_spec {A} (m : mc_input) cfg height width (mrow mcol score : list (list A)) transform : loaded m cfg height width ->
  rect (length (row_coords m)) (length (col_coords m)) mrow -> rect (length (row_coords m)) (length (col_coords m)) mcol -> rect (length (row_coords m)) (length (col_coords m)) score ->
  exists saved after, save_dataset (mkDmaps (row_coords m) (col_coords m) mrow mcol score transform) cfg = Some (saved, after) /\
    (forall x, In x (dm_rows saved) <-> asked_row cfg height (mc_step_row m) x) /\ (forall y, In y (dm_cols saved) <-> asked_col cfg width (mc_step_col m) y) /\
    increasing (dm_rows saved) /\ increasing (dm_cols saved) /\ wf_dmaps saved /\
    forall a b x y, nth_error (dm_rows saved) a = Some x -> nth_error (dm_cols saved) b = Some y ->
      exists r c, nth_error (row_coords m) r = Some x /\ nth_error (col_coords m) c = Some y /\
        nth2 (dm_row_map saved) a b = nth2 mrow r c /\ nth2 (dm_col_map saved) a b = nth2 mcol r c /\ nth2 (dm_score saved) a b = nth2 score r c.
Proof.
  intros Ld R1 R2 R3. unfold save_dataset, asked_row, asked_col. destruct (sc_roi cfg) as [r|] eqn:Er; cbn [option_map].
  - destruct (loaded_axes m cfg height width r Ld Er) as (r0 & c0 & P1 & P2 & A1 & A2 & L1 & L2 & I1 & I2 & F1 & F2). destruct Ld as (Es & Hr & Hc & _). destruct (coords_increasing m) as [O1 O2]; [lia|lia|].
    rewrite (remove_roi_spec _ r (mc_step_row m) (mc_step_col m) cfg r0 c0 Er Es Hr Hc); cbn [dm_rows dm_cols dm_row_map dm_col_map dm_score dm_transform]; auto.
    + cbn [bind dm_rows dm_cols dm_row_map dm_col_map dm_score dm_transform]. do 2 eexists. split; [reflexivity|]. cbn [dm_rows dm_cols dm_row_map dm_col_map dm_score dm_transform].
      split; [exact F1|]. split; [exact F2|]. split; [now apply filter_increasing|]. split; [now apply filter_increasing|]. split.
      * intros mp [-> | [-> | ->]]; cbn [dm_rows dm_cols dm_row_map dm_col_map dm_score]; apply crop_nth; assumption.
      * intros a b x y Ha Hb. destruct (crop_index (A := A) r (row_coords m) (col_coords m) a b x y Ha Hb) as (i & j & Ei & Ej & C). exists i, j. rewrite !C by assumption. auto.
    + intros mp [-> | [-> | ->]]; cbn [dm_rows dm_cols dm_row_map dm_col_map dm_score]; assumption.
    + intros N. rewrite N in I1. destruct I1.
    + intros N. rewrite N in I2. destruct I2.
  - destruct Ld as (Es & Hr & Hc & L). rewrite Er in L. destruct L as (E & R0 & C0 & Hh & Hwd). do 2 eexists. split; [reflexivity|]. cbn [dm_rows dm_cols dm_row_map dm_col_map dm_score dm_transform asked].
    assert (Er' : row_coords m = zarange 0 height (mc_step_row m)) by (unfold row_coords; rewrite E, R0; f_equal; lia).
    assert (Ec' : col_coords m = zarange 0 width (mc_step_col m)) by (unfold col_coords; rewrite E, C0; f_equal; lia).
    split. { intros x. rewrite Er', zarange_In by lia. rewrite Z.sub_0_r. reflexivity. }
    split. { intros x. rewrite Ec', zarange_In by lia. rewrite Z.sub_0_r. reflexivity. }
    split; [rewrite Er'; apply zarange_increasing; lia|]. split; [rewrite Ec'; apply zarange_increasing; lia|].
    split. { intros mp [-> | [-> | ->]]; cbn [dm_rows dm_cols dm_row_map dm_col_map dm_score]; assumption. }
    intros a b x y Ha Hb. exists a, b. auto.
Qed.

(** Without refinement, for every step, when the interval is the same for all the pixels: the maps. *)
Lemma run_const_in_range {px} (px_eqb : px -> px -> bool) pandora_cost zoomed one store chunk inv m (right : image px) :
  wf_mc m right -> constant_ranges m -> 0 < one -> (Z.of_nat (mc_subpix m) | one) ->
  (forall a b r c i, pandora_cost a b r c i <> worst (mc_measure m)) ->
  exists mcol mrow score, run_maps px_eqb pandora_cost zoomed one store chunk inv None m right = Some (mcol, mrow, score) /\
    rect (length (row_coords m)) (length (col_coords m)) mcol /\ rect (length (row_coords m)) (length (col_coords m)) mrow /\
    rect (length (row_coords m)) (length (col_coords m)) score /\
    forall r c x y, nth_error (row_coords m) r = Some x -> nth_error (col_coords m) c = Some y ->
      exists vr vc, nth2 mrow r c = Some vr /\ nth2 mcol r c = Some vc /\ respects_user m one inv x y vr vc.
Proof.
  intros Wf Cst H1 Hd Hw. destruct (compute_cost_volumes_const px_eqb pandora_cost zoomed m right Wf Cst) as (cv & E & F1 & F2 & F3 & F4 & F5 & F6 & F7 & D1 & D2 & G).
  set (s := Z.of_nat (mc_subpix m)) in *. set (k := one / s).
  destruct (user_col_range m cv F3 F5 F7) as [UC _]. destruct (user_row_range m cv F4 F5 F7) as [UR _].
  destruct (wta_prop chunk inv (in_units k cv) (fun _ _ d => fst (mc_col_source m) * one <= d <= snd (mc_col_source m) * one) (fun _ _ d => fst (mc_row_source m) * one <= d <= snd (mc_row_source m) * one))
    as (mcol & mrow & score & Em & R1 & R2 & R3 & P).
  - apply units_wf. exact (compute_wf_cv px_eqb pandora_cost zoomed m right Wf cv E).
  - intros r c i j x di dj C Ei Ej Hr Hc. assert (C0 := proj1 (units_computed k cv r c i j x) C). cbn in Ei, Ej, Hr, Hc. apply units_nth in Ei, Ej. destruct Ei as (d0 & Ei & ->), Ej as (d1 & Ej & ->).
    destruct C0 as (Ui & Uj & Hx & Hn). rewrite F1 in Hr. rewrite F2 in Hc. destruct (nth_error (row_coords m) r) as [xr|] eqn:Exr; [|apply nth_error_None in Exr; lia].
    rewrite (G r c i j xr d0 d1 Exr Hc Ei Ej) in Hx. cbn [cv_measure in_units]. rewrite F6. split; [injection Hx as <-; apply Hw|].
    apply (UC i d0 Ei) in Ui. apply (UR j d1 Ej) in Uj. split; apply (scale_le m right Wf one H1 Hd); assumption.
  - exists mcol, mrow, score. split; [unfold run_maps; rewrite E; cbn [bind]; fold s; fold k; rewrite Em; reflexivity|].
    rewrite <- F1, <- F2. split; [exact R1|]. split; [exact R2|]. split; [exact R3|]. intros r c x y Hr Hc.
    assert (Lr : (r < cv_nrow cv)%nat) by (rewrite F1; apply nth_error_Some; congruence). assert (Lc : (c < cv_ncol cv)%nat) by (rewrite F2; apply nth_error_Some; congruence).
    destruct (P r c Lr Lc) as [[Q1 Q2]|(dc & dr & N1 & N2 & _ & _ & I1 & I2)]; [exists inv, inv; unfold respects_user; auto|].
    exists (Fin dr), (Fin dc). split; [exact N2|]. split; [exact N1|]. right. exists dr, dc. split; [reflexivity|]. split; [reflexivity|].
    apply nth_error_In in Hr, Hc. apply (row_coords_in m right Wf) in Hr. apply (col_coords_in m right _ Wf) in Hc.
    destruct Wf as (_ & _ & _ & _ & _ & _ & _ & Hg & _). destruct Cst as [Cr Cc]. unfold user_row_interval, user_col_interval.
    destruct (Cr (Z.to_nat (x - mc_row0 m)) (Z.to_nat (y - mc_col0 m))) as [-> ->].
    { destruct (Hg (mc_row_min m) ltac:(auto)) as [Y1 Y2]. split; [rewrite Y1|rewrite Y2]; lia. }
    destruct (Cc (Z.to_nat (x - mc_row0 m)) (Z.to_nat (y - mc_col0 m))) as [-> ->].
    { destruct (Hg (mc_col_min m) ltac:(auto)) as [Y1 Y2]. split; [rewrite Y1|rewrite Y2]; lia. }
    auto.
Qed.
(** The maps with a step of 1 and an optional dichotomy. *)
Lemma run_step1_in_range {px} (px_eqb : px -> px -> bool) pandora_cost zoomed one store chunk inv dichotomy m (right : image px) :
  wf_mc m right -> 0 < one -> (Z.of_nat (mc_subpix m) | one) -> mc_step_row m = 1 -> mc_step_col m = 1 ->
  (forall a b r c i, pandora_cost a b r c i <> worst (mc_measure m)) ->
  (forall flt iterations, dichotomy = Some (flt, iterations) ->
      rounding store /\ (2 ^ Z.of_nat iterations | one) /\ (exists e, mc_subpix m = (2 ^ e)%nat) /\ (exists margins, mc_margins m = Some margins /\ covered flt margins) /\
      (forall a b r c i, pandora_cost a b r c i = NaN \/ store (pandora_cost a b r c i) = pandora_cost a b r c i)) ->
  exists mcol mrow score, run_maps px_eqb pandora_cost zoomed one store chunk inv dichotomy m right = Some (mcol, mrow, score) /\
    rect (length (row_coords m)) (length (col_coords m)) mcol /\ rect (length (row_coords m)) (length (col_coords m)) mrow /\
    rect (length (row_coords m)) (length (col_coords m)) score /\
    forall r c x y, nth_error (row_coords m) r = Some x -> nth_error (col_coords m) c = Some y ->
      exists vr vc, nth2 mrow r c = Some vr /\ nth2 mcol r c = Some vc /\ respects_user m one inv x y vr vc.
Proof.
  intros Wf H1 Hd Sr Sc Hw Hdi.
  destruct (run_in_range px_eqb pandora_cost zoomed m right Wf one H1 Hd Sr Sc Hw store dichotomy Hdi chunk inv) as (mcol & mrow & score & Em & R1 & R2 & R3 & P).
  destruct (step1_lengths m right Wf Sr Sc) as (LR & LC & NR & NC). exists mcol, mrow, score. split; [exact Em|]. rewrite LR, LC.
  split; [exact R1|]. split; [exact R2|]. split; [exact R3|]. intros r c x y Hr Hc.
  assert (Lr : (r < mc_nrow m)%nat) by (rewrite <- LR; apply nth_error_Some; congruence). assert (Lc : (c < mc_ncol m)%nat) by (rewrite <- LC; apply nth_error_Some; congruence).
  assert (Xr : Z.to_nat (x - mc_row0 m) = r) by (rewrite (NR r Lr) in Hr; injection Hr as <-; lia). assert (Xc : Z.to_nat (y - mc_col0 m) = c) by (rewrite (NC c Lc) in Hc; injection Hc as <-; lia).
  unfold respects_user, user_row_interval, user_col_interval. rewrite Xr, Xc.
  destruct (P r c Lr Lc) as [[Q1 Q2]|(dc & dr & N1 & N2 & I1 & I2)].
  - exists inv, inv. auto.
  - exists (Fin dr), (Fin dc). split; [exact N2|]. split; [exact N1|]. right. exists dr, dc. auto.
Qed.

(** A pipeline matching cost, disparity, and possibly a dichotomy, with a step of 1: the run ends, the rows and columns saved are those asked for,
    and every saved pixel is without disparity or inside the interval the user gave for this pixel, in each direction; and this whatever the images,
    the grids, the subpixel value, the margins, the ROI, the filter and the values of the cost function. *)
Theorem C38_saved_pixels {px} (px_eqb : px -> px -> bool) pandora_cost zoomed one store chunk inv dichotomy m (right : image px) transform cfg height width :
  wf_mc m right -> 0 < one -> (Z.of_nat (mc_subpix m) | one) -> mc_step_row m = 1 -> mc_step_col m = 1 ->
  (forall a b r c i, pandora_cost a b r c i <> worst (mc_measure m)) ->
  (forall flt iterations, dichotomy = Some (flt, iterations) ->
      rounding store /\ (2 ^ Z.of_nat iterations | one) /\ (exists e, mc_subpix m = (2 ^ e)%nat) /\ (exists margins, mc_margins m = Some margins /\ covered flt margins) /\
      (forall a b r c i, pandora_cost a b r c i = NaN \/ store (pandora_cost a b r c i) = pandora_cost a b r c i)) ->
  loaded m cfg height width ->
  exists saved after, run_and_save px_eqb pandora_cost zoomed one store chunk inv dichotomy m right transform cfg = Some (saved, after) /\
    (forall x, In x (dm_rows saved) <-> asked_row cfg height 1 x) /\ (forall y, In y (dm_cols saved) <-> asked_col cfg width 1 y) /\
    increasing (dm_rows saved) /\ increasing (dm_cols saved) /\ wf_dmaps saved /\
    forall a b x y, nth_error (dm_rows saved) a = Some x -> nth_error (dm_cols saved) b = Some y ->
      exists vr vc, nth2 (dm_row_map saved) a b = Some vr /\ nth2 (dm_col_map saved) a b = Some vc /\ respects_user m one inv x y vr vc.
Proof.
  intros Wf H1 Hd Sr Sc Hw Hdi Ld.
  destruct (run_step1_in_range px_eqb pandora_cost zoomed one store chunk inv dichotomy m right Wf H1 Hd Sr Sc Hw Hdi) as (mcol & mrow & score & Em & R1 & R2 & R3 & P).
  destruct (saved_spec m cfg height width mrow mcol score transform Ld R2 R1 R3) as (saved & after & Es & A & B & O1 & O2 & W & G).
  exists saved, after. split; [unfold run_and_save; rewrite Em; exact Es|]. rewrite Sr in A. rewrite Sc in B. split; [exact A|]. split; [exact B|]. split; [exact O1|]. split; [exact O2|]. split; [exact W|].
  intros a b x y Ha Hb. destruct (G a b x y Ha Hb) as (r & c & Hr & Hc & G1 & G2 & _). rewrite G1, G2. now apply (P r c).
Qed.

(** Two runs, possibly with different images, cost functions, methods of interpolation of the images, grids elsewhere in the image, and chunks: where the costs
    and the interval of a pixel are the same, the three values saved for this pixel are the same. *)
Theorem C38_pixel_locality {px px'} (px_eqb : px -> px -> bool) (px_eqb' : px' -> px' -> bool) pandora_cost pandora_cost' zoomed zoomed' one store chunk chunk' inv dichotomy
    m m' (right : image px) (right' : image px') transform transform' cfg height width saved after saved' after' cv cv' x y r c a b a' b' :
  wf_mc m right -> wf_mc m' right' -> same_frame m m' -> loaded m cfg height width -> (dichotomy <> None -> mc_step_row m = 1 /\ mc_step_col m = 1) ->
  run_and_save px_eqb pandora_cost zoomed one store chunk inv dichotomy m right transform cfg = Some (saved, after) ->
  run_and_save px_eqb' pandora_cost' zoomed' one store chunk' inv dichotomy m' right' transform' cfg = Some (saved', after') ->
  compute_cost_volumes px_eqb pandora_cost zoomed m right = Some cv -> compute_cost_volumes px_eqb' pandora_cost' zoomed' m' right' = Some cv' ->
  nth_error (row_coords m) r = Some x -> nth_error (col_coords m) c = Some y ->
  nth2 (cv_data cv) r c = nth2 (cv_data cv') r c -> same_interval m m' x y ->
  nth_error (dm_rows saved) a = Some x -> nth_error (dm_cols saved) b = Some y -> nth_error (dm_rows saved') a' = Some x -> nth_error (dm_cols saved') b' = Some y ->
  nth2 (dm_row_map saved) a b = nth2 (dm_row_map saved') a' b' /\ nth2 (dm_col_map saved) a b = nth2 (dm_col_map saved') a' b' /\
  nth2 (dm_score saved) a b = nth2 (dm_score saved') a' b'.
Proof.
  intros Wf Wf' Fr Ld Hd H H' E E' Er Ec Ep Si Ha Hb Ha' Hb'. pose proof (frame_coords m m' Fr) as [FC1 FC2].
  assert (Ld' : loaded m' cfg height width).
  { assert (fr := Fr). destruct fr as (H1 & H2 & H3 & H4 & H5 & H6 & H7 & H8 & H9 & H10 & H11 & H12). unfold loaded. rewrite H1, H2, H3, H4, H8, H9, H12. exact Ld. }
  unfold run_and_save in H, H'.
  destruct (run_maps px_eqb pandora_cost zoomed one store chunk inv dichotomy m right) as [[[mcol mrow] sc]|] eqn:R; [|discriminate].
  destruct (run_maps px_eqb' pandora_cost' zoomed' one store chunk' inv dichotomy m' right') as [[[mcol' mrow'] sc']|] eqn:R'; [|discriminate]. cbn [bind] in H, H'.
  destruct (run_maps_rect _ _ _ m right Wf _ _ _ _ _ _ _ _ R) as (X1 & X2 & X3). destruct (run_maps_rect _ _ _ m' right' Wf' _ _ _ _ _ _ _ _ R') as (Y1 & Y2 & Y3).
  destruct (saved_spec m cfg height width mrow mcol sc transform Ld X2 X1 X3) as (s1 & t1 & E1 & _ & _ & _ & _ & _ & G). rewrite H in E1. injection E1 as <- <-.
  destruct (saved_spec m' cfg height width mrow' mcol' sc' transform' Ld' Y2 Y1 Y3) as (s2 & t2 & E2 & _ & _ & _ & _ & _ & G'). rewrite H' in E2. injection E2 as <- <-.
  destruct (G a b x y Ha Hb) as (r1 & c1 & N1 & N2 & M1 & M2 & M3). destruct (G' a' b' x y Ha' Hb') as (r2 & c2 & N3 & N4 & M4 & M5 & M6). rewrite FC1 in N3. rewrite FC2 in N4.
  destruct (coords_unique m right Wf) as [U1 U2]. rewrite <- (U1 _ _ _ Er N1) in *. rewrite <- (U2 _ _ _ Ec N2) in *. rewrite <- (U1 _ _ _ Er N3) in *. rewrite <- (U2 _ _ _ Ec N4) in *.
  rewrite M1, M2, M3, M4, M5, M6.
  destruct (run_local px_eqb px_eqb' pandora_cost pandora_cost' zoomed zoomed' m m' right right' Wf Wf' Fr one store chunk chunk' inv dichotomy cv cv' mcol mrow sc mcol' mrow' sc' r c E E' R R') as (Z1 & Z2 & Z3); auto.
  - apply nth_error_Some. congruence.
  - apply nth_error_Some. congruence.
  - intros Nd. destruct (Hd Nd) as [S1 S2]. split; [auto|]. destruct (step1_lengths m right Wf S1 S2) as (L1 & L2 & NR & NC).
    assert (Lr : (r < mc_nrow m)%nat) by (rewrite <- L1; apply nth_error_Some; congruence). assert (Lc : (c < mc_ncol m)%nat) by (rewrite <- L2; apply nth_error_Some; congruence).
    unfold same_interval in Si. rewrite (NR r Lr) in Er. rewrite (NC c Lc) in Ec. injection Er as <-. injection Ec as <-.
    replace (Z.to_nat (mc_row0 m + Z.of_nat r - mc_row0 m)) with r in Si by lia. replace (Z.to_nat (mc_col0 m + Z.of_nat c - mc_col0 m)) with c in Si by lia. exact Si.
Qed.

(** The same without refinement, for every step, when the interval is the same for all the pixels. *)
Theorem C38_saved_pixels_any_step {px} (px_eqb : px -> px -> bool) pandora_cost zoomed one store chunk inv m (right : image px) transform cfg height width :
  wf_mc m right -> constant_ranges m -> 0 < one -> (Z.of_nat (mc_subpix m) | one) ->
  (forall a b r c i, pandora_cost a b r c i <> worst (mc_measure m)) ->
  loaded m cfg height width ->
  exists saved after, run_and_save px_eqb pandora_cost zoomed one store chunk inv None m right transform cfg = Some (saved, after) /\
    (forall x, In x (dm_rows saved) <-> asked_row cfg height (mc_step_row m) x) /\ (forall y, In y (dm_cols saved) <-> asked_col cfg width (mc_step_col m) y) /\
    increasing (dm_rows saved) /\ increasing (dm_cols saved) /\ wf_dmaps saved /\
    forall a b x y, nth_error (dm_rows saved) a = Some x -> nth_error (dm_cols saved) b = Some y ->
      exists vr vc, nth2 (dm_row_map saved) a b = Some vr /\ nth2 (dm_col_map saved) a b = Some vc /\ respects_user m one inv x y vr vc.
Proof.
  intros Wf Cst H1 Hd Hw Ld.
  destruct (run_const_in_range px_eqb pandora_cost zoomed one store chunk inv m right Wf Cst H1 Hd Hw) as (mcol & mrow & score & Em & R1 & R2 & R3 & P).
  destruct (saved_spec m cfg height width mrow mcol score transform Ld R2 R1 R3) as (saved & after & Es & A & B & O1 & O2 & W & G).
  exists saved, after. split; [unfold run_and_save; rewrite Em; exact Es|]. split; [exact A|]. split; [exact B|]. split; [exact O1|]. split; [exact O2|]. split; [exact W|].
  intros a b x y Ha Hb. destruct (G a b x y Ha Hb) as (r & c & Hr & Hc & G1 & G2 & _). rewrite G1, G2. now apply (P r c).
Qed.

(** ** A run: image of 10 x 10 pixels, ROI of 2 x 2 pixels with margins of 1, dichotomy with the bicubic filter and two iterations. *)
Definition pl_grid (v w : Z) : arr2 Z := mkArr2 4 4 (fun r c => if ((r =? 2) && (c =? 1))%nat then w else v).
Definition pl_mc : mc_input := mkMC 2 4 4 4 (pl_grid (-1) (-1)) (pl_grid 1 0) (pl_grid (-1) (-1)) (pl_grid 1 1) (-1, 1) (-1, 1) 1 1 1 MeasureMin (Some bicubic_margins)
  (Some (mkRoiCfg 5 3 (1, 1, 1, 1))).
Definition pl_cfg : save_cfg := mkSave (Some (mkRoi 5 6 3 4 (1, 1, 1, 1))) (Some (1, 1)).
Definition pl_right : image Z := mkImage (mkArr2 4 4 (fun r c => 7 * Z.of_nat r + 3 * Z.of_nat c)) (-9999) None.
Definition pl_cost (img : list (list Z)) (msk : list (list Z)) (r c i : nat) : ext :=
  match nth2 img r c with
  | Some v => if (v =? -9999) || ((r =? 1) && (c =? 2))%nat then NaN else
      Fin ((v - 7 * Z.of_nat r - 3 * Z.of_nat c - 2) * (v - 7 * Z.of_nat r - 3 * Z.of_nat c - 2) + 30 * (Z.of_nat i - 2) * (Z.of_nat i - 2))
  | None => NaN end.
Definition pl_inv : ext := Fin (-9999 * 512).
Definition pl_run chunk dichotomy m right := run_and_save Z.eqb pl_cost (fun _ _ => 0) 512 (fun x => x) chunk pl_inv dichotomy m right None pl_cfg.
Definition pl_flt : option (filter * nat) := Some (ex_filter, 2%nat).
(** A pixel without cost, a pixel at the end of its interval, two refined pixels. *)
Example C38_example : option_map (fun p => (dm_rows (fst p), dm_cols (fst p), dm_row_map (fst p), dm_col_map (fst p))) (pl_run 4%nat pl_flt pl_mc pl_right) =
  Some ([3; 4], [5; 6], [[Fin 384; pl_inv]; [Fin 0; Fin 384]], [[Fin (-128); pl_inv]; [Fin 0; Fin (-128)]]).
Proof. vm_compute. reflexivity. Qed.
Lemma pl_wf : wf_mc pl_mc pl_right.
Proof.
  unfold wf_mc. cbn [pl_mc mc_nrow mc_ncol mc_subpix mc_step_row mc_step_col mc_row_min mc_row_max mc_col_min mc_col_max mc_row_source mc_col_source]. repeat (split; [lia || reflexivity|]).
  split. { intros g [-> | [-> | [-> | ->]]]; split; reflexivity. }
  split; (split; [|split]); try (intros r c _; cbn; destruct ((r =? 2) && (c =? 1))%nat; lia); exists 0%nat, 0%nat; (split; [split; cbn; lia|reflexivity]).
Qed.
Lemma pl_loaded : loaded pl_mc pl_cfg 10 10.
Proof. unfold loaded. cbn. repeat split; lia. Qed.
Lemma pl_not_worst : forall a b r c i, pl_cost a b r c i <> worst (mc_measure pl_mc).
Proof. intros. unfold pl_cost. destruct (nth2 a r c) as [v|]; [|discriminate]. destruct (_ || _); discriminate. Qed.
Example C38_hypotheses : wf_mc pl_mc pl_right /\ 0 < 512 /\ (Z.of_nat (mc_subpix pl_mc) | 512) /\ mc_step_row pl_mc = 1 /\ mc_step_col pl_mc = 1 /\
  (forall a b r c i, pl_cost a b r c i <> worst (mc_measure pl_mc)) /\ rounding (fun x => x) /\ (2 ^ Z.of_nat 2 | 512) /\ (exists e, mc_subpix pl_mc = (2 ^ e)%nat) /\
  (exists margins, mc_margins pl_mc = Some margins /\ covered ex_filter margins) /\ loaded pl_mc pl_cfg 10 10.
Proof.
  split; [exact pl_wf|]. split; [lia|]. split; [exists 512; reflexivity|]. split; [reflexivity|]. split; [reflexivity|]. split; [exact pl_not_worst|]. split; [exact ex_rounding|].
  split; [exists 128; reflexivity|]. split; [exists 0%nat; reflexivity|]. split; [exists bicubic_margins; split; [reflexivity|cbv; lia]|exact pl_loaded].
Qed.
(** Another right image and another interval in the last column: the first saved pixel is the same, the last one is not. *)
Definition pl_mc' : mc_input := mkMC 2 4 4 4 (pl_grid (-1) (-1)) (pl_grid 1 0) (pl_grid (-1) (-1)) (mkArr2 4 4 (fun r c => if (c =? 3)%nat then 0 else 1)) (-1, 1) (-1, 1) 1 1 1 MeasureMin
  (Some bicubic_margins) (Some (mkRoiCfg 5 3 (1, 1, 1, 1))).
Definition pl_right' : image Z := mkImage (mkArr2 4 4 (fun r c => 7 * Z.of_nat r + 3 * Z.of_nat c + (if (1 <? c)%nat then 12 else 0))) (-9999) None.
Example C38_locality_example : same_frame pl_mc pl_mc' /\ same_interval pl_mc pl_mc' 3 5 /\
  (exists cv cv', compute_cost_volumes Z.eqb pl_cost (fun _ _ => 0) pl_mc pl_right = Some cv /\ compute_cost_volumes Z.eqb pl_cost (fun _ _ => 0) pl_mc' pl_right' = Some cv' /\
     nth2 (cv_data cv) 1 1 = nth2 (cv_data cv') 1 1 /\ nth2 (cv_data cv) 2 2 <> nth2 (cv_data cv') 2 2) /\
  nth_error (row_coords pl_mc) 1 = Some 3 /\ nth_error (col_coords pl_mc) 1 = Some 5 /\
  option_map (fun p => (dm_row_map (fst p), dm_col_map (fst p))) (pl_run 3%nat pl_flt pl_mc' pl_right') =
  Some ([[Fin 384; pl_inv]; [Fin 0; Fin (-512)]], [[Fin (-128); pl_inv]; [Fin 0; Fin 0]]).
Proof.
  split; [repeat split|]. split; [repeat split|]. split.
  - do 2 eexists. split; [vm_compute; reflexivity|]. split; [vm_compute; reflexivity|]. split; [vm_compute; reflexivity|vm_compute; discriminate].
  - split; [reflexivity|]. split; [reflexivity|]. vm_compute. reflexivity.
Qed.
(** A step of 2 in rows and 3 in columns, without ROI. *)
Definition pl_mc_step : mc_input := mkMC 0 4 0 4 (mkArr2 4 4 (fun _ _ => -1)) (mkArr2 4 4 (fun _ _ => 1)) (mkArr2 4 4 (fun _ _ => 0)) (mkArr2 4 4 (fun _ _ => 1)) (-1, 1) (0, 1) 2 2 3 MeasureMin None None.
Example C38_any_step_hypotheses : wf_mc pl_mc_step pl_right /\ constant_ranges pl_mc_step /\ (Z.of_nat (mc_subpix pl_mc_step) | 512) /\ loaded pl_mc_step (mkSave None (Some (2, 3))) 4 4.
Proof.
  split; [|split; [split; intros; split; reflexivity|split; [exists 256; reflexivity|unfold loaded; cbn; repeat split; lia]]].
  unfold wf_mc. cbn [pl_mc_step mc_nrow mc_ncol mc_subpix mc_step_row mc_step_col mc_row_min mc_row_max mc_col_min mc_col_max mc_row_source mc_col_source]. repeat (split; [lia || reflexivity|]).
  split. { intros g [-> | [-> | [-> | ->]]]; split; reflexivity. }
  split; (split; [|split]); try (intros r c _; cbn; lia); exists 0%nat, 0%nat; (split; [split; cbn; lia|reflexivity]).
Qed.
Example C38_any_step_example : option_map (fun p => (dm_rows (fst p), dm_cols (fst p), dm_row_map (fst p), dm_col_map (fst p)))
  (run_and_save Z.eqb pl_cost (fun k c => Z.of_nat (k + c)) 512 (fun x => x) 4 pl_inv None pl_mc_step pl_right None (mkSave None (Some (2, 3)))) =
  Some ([0; 2], [0; 3], [[Fin 256; Fin 0]; [Fin 0; Fin 0]], [[Fin 512; Fin 512]; [Fin 512; Fin 512]]).
Proof. vm_compute. reflexivity. Qed.

Print Assumptions C38_saved_pixels.
Print Assumptions C38_pixel_locality.
Print Assumptions C38_saved_pixels_any_step.
