(** C03, C41, C43, C61: for which inputs exactly the claims that are false in general hold. *)
From Coq Require Import ZArith QArith Qabs List Bool Arith Lia Lqa.
From Verif Require Import Base.PyList Base.Ext Base.Arr Model.CommonModel Model.DisparityModel Model.MatchingCostModel Model.RoiModel Model.InputModel
  Spec.WtaSpec Proofs.WtaProofs Proofs.WtaTheorems Props.WtaProps Spec.RoiSpec Props.RoiProps Spec.MatchingCostSpec Spec.InputSpec Proofs.InputProofs Props.InputProps.
Import ListNotations.
Open Scope nat_scope.

(** ** C03. A pair of disparities of the user range whose cost is the best one of the pixel. *)
Definition best_pair (cv : cost_volumes) (r c p q : nat) : Prop :=
  exists x, computed cv r c p q x /\ forall dc dr y, computed cv r c dc dr y -> at_least_as_good (cv_measure cv) x y.

(** The saved pair has the saved score exactly when one best pair has both the smallest column disparity and the smallest row disparity of the
    best pairs. *)
Theorem C03_exact chunk inv cv : wf_cv cv ->
  exists mcol mrow score, compute_disp_maps chunk inv cv = Some (mcol, mrow, score) /\
  forall r c, r < cv_nrow cv -> c < cv_ncol cv ->
    (forall dc dr, ~ computed cv r c dc dr (worst (cv_measure cv))) ->
    (exists dc dr x, computed cv r c dc dr x) ->
    exists i j di dj s, nth_error (cv_disp_col cv) i = Some di /\ nth2 mcol r c = Some (Fin di) /\
      nth_error (cv_disp_row cv) j = Some dj /\ nth2 mrow r c = Some (Fin dj) /\ nth2 score r c = Some s /\
      (cost_at cv r c i j = Some s <->
       exists p q, best_pair cv r c p q /\ forall p' q', best_pair cv r c p' q' -> p <= p' /\ q <= q').
Proof.
  intros Hwf. destruct (wta_disparities_reach_best chunk inv cv Hwf) as (mcol & mrow & score & E & H).
  exists mcol, mrow, score. split; [exact E|]. intros r c Hr Hc Hw Hx.
  destruct (H r c Hr Hc Hw Hx) as (s & i & j & di & dj & Hs & H1 & H2 & H3 & H4 & (dr & H5) & (dc & H5') & H6 & H8 & H9 & _).
  exists i, j, di, dj, s. do 5 (split; [assumption|]).
  assert (B : forall p q, best_pair cv r c p q <-> computed cv r c p q s).
  { intros p q. split.
    - intros (x & Cx & Bx). replace s with x; [exact Cx|]. specialize (Bx _ _ _ H5). specialize (H6 _ _ _ Cx). clear - Bx H6 Cx H5.
      destruct Cx as (_ & _ & _ & N1), H5 as (_ & _ & _ & N2).
      unfold at_least_as_good in *. destruct (cv_measure cv), x, s; cbn in *; try congruence; f_equal; rewrite ?Z.leb_le in *; lia.
    - intros C. exists s. split; assumption. }
  split.
  - intros C. exists i, j. split.
    + apply B. destruct H5 as (U & _ & _ & N), H5' as (_ & V & _). repeat split; assumption.
    + intros p q Bq. apply B in Bq. split.
      * destruct (Nat.le_gt_cases i p) as [L|L]; [exact L|]. exfalso. exact (H8 p q L Bq).
      * destruct (Nat.le_gt_cases j q) as [L|L]; [exact L|]. exfalso. exact (H9 q p L Bq).
  - intros (p & q & Bp & M). apply B in Bp.
    assert (p = i /\ q = j) as [-> ->]; [|apply Bp].
    destruct (M i dr) as [L1 _]; [apply B, H5|]. destruct (M dc j) as [_ L2]; [apply B, H5'|]. split; apply Nat.le_antisymm; trivial.
    + destruct (Nat.le_gt_cases i p) as [L|L]; [exact L|]. exfalso. exact (H8 p q L Bp).
    + destruct (Nat.le_gt_cases j q) as [L|L]; [exact L|]. exfalso. exact (H9 q p L Bp).
Qed.
(** Ties do not always break the pair: here the costs of the three pairs (0, 0), (0, 1) and (1, 0) are all the best one. *)
Definition corner_cv : cost_volumes :=
  mkCV 1 1 [0; 1]%Z [0; 1]%Z [[ [[Fin 1; Fin 1]; [Fin 1; Fin 5]] ]]%Z 1 MeasureMin None.
Example C03_exact_example : best_pair corner_cv 0 0 0 0 /\ (forall p q, best_pair corner_cv 0 0 p q -> 0 <= p /\ 0 <= q) /\
  ~ (exists p q, best_pair tie_cv 0 0 p q /\ forall p' q', best_pair tie_cv 0 0 p' q' -> p <= p' /\ q <= q') /\
  (exists mcol mrow, compute_disp_maps 100 (Fin (-9999)%Z) corner_cv = Some (mcol, mrow, [[Fin 1%Z]])).
Proof.
  assert (T : forall cv d, cv = mkCV 1 1 [0; 1]%Z [0; 1]%Z [[ [[Fin d; Fin 1]; [Fin 1; Fin 5]] ]]%Z 1 MeasureMin None ->
     forall dc dr y, computed cv 0 0 dc dr y -> (dc = 0 \/ dc = 1) /\ (dr = 0 \/ dr = 1) /\ (y = Fin 1 \/ y = Fin d \/ y = Fin 5)%Z).
  { intros cv d -> dc dr y (U & V & Y & _). rewrite user_col_eq in U. rewrite user_row_eq in V. cbv in U, V.
    assert (dc = 0 \/ dc = 1) as Dc by lia. assert (dr = 0 \/ dr = 1) as Dr by lia. split; [exact Dc|]. split; [exact Dr|].
    destruct Dc as [->| ->], Dr as [->| ->]; cbn in Y; injection Y as <-; auto. }
  split; [|split; [|split]].
  - exists (Fin 1%Z). split.
    + repeat split; try (rewrite ?user_col_eq, ?user_row_eq; cbv; lia); cbv; congruence.
    + intros dc dr y C. apply (T _ 1%Z eq_refl) in C. destruct C as (_ & _ & [->|[->| ->]]); reflexivity.
  - intros p q _. lia.
  - intros (p & q & (x & C & B) & M).
    assert (B01 : best_pair tie_cv 0 0 0 1). { exists (Fin 1%Z). split; [repeat split; try (rewrite ?user_col_eq, ?user_row_eq; cbv; lia); cbv; congruence|].
      intros dc dr y C'. apply (T _ 5%Z eq_refl) in C'. destruct C' as (_ & _ & [->|[->| ->]]); reflexivity. }
    assert (B10 : best_pair tie_cv 0 0 1 0). { exists (Fin 1%Z). split; [repeat split; try (rewrite ?user_col_eq, ?user_row_eq; cbv; lia); cbv; congruence|].
      intros dc dr y C'. apply (T _ 5%Z eq_refl) in C'. destruct C' as (_ & _ & [->|[->| ->]]); reflexivity. }
    destruct (M _ _ B01) as [L1 _]. destruct (M _ _ B10) as [_ L2]. assert (p = 0) as -> by lia. assert (q = 0) as -> by lia.
    destruct C as (_ & _ & Cx & _). cbn in Cx. injection Cx as <-.
    assert (C01 : computed tie_cv 0 0 0 1 (Fin 1%Z)) by (repeat split; try (rewrite ?user_col_eq, ?user_row_eq; cbv; lia); cbv; congruence).
    specialize (B _ _ _ C01). discriminate B.
  - do 2 eexists. reflexivity.
Qed.

Open Scope Z_scope.

(** ** C41. Margins of a pipeline that only has the window of the matching cost, in an image where no window is cut: the windows of all the pixels
    of the ROI at all their disparities are loaded exactly when 0 is the only disparity. *)
Theorem C41_exact r col row new updated half up down n0 n1 n2 n3 width :
  0 <= d_range col -> 0 <= d_range row -> roi_mg r = (half, up, half, down) -> 0 < half ->
  get_roi_processing r col row = Some (new, updated) -> roi_mg new = (n0, n1, n2, n3) -> roi_c0 r <= roi_c1 r ->
  (forall x d, roi_c0 r <= x <= roi_c1 r -> allowed col d -> 0 <= x + d - half /\ x + d + half < width) ->
  ((forall x d, roi_c0 r <= x <= roi_c1 r -> allowed col d ->
      fst (window_of (roi_c0 r) (roi_c1 r) n0 n2 width) <= x + d - half /\ x + d + half < snd (window_of (roi_c0 r) (roi_c1 r) n0 n2 width)) <->
   (forall d, allowed col d -> d = 0)).
Proof.
  intros Hc Hr Em Hh E En Hl In. destruct (C11_margins_value r col row new updated _ _ _ _ Hc Hr Em E) as (cmin & rmin & cmax & rmax & [A1 B1] & _ & [A2 B2] & _ & V).
  rewrite En in V. injection V as -> _ -> _. cbn [window_of fst snd]. specialize (B1 _ A2) as L. split.
  - intros F d Hd. destruct (F (roi_c0 r) cmin ltac:(lia) A1) as [F1 _]. destruct (F (roi_c1 r) cmax ltac:(lia) A2) as [_ F2].
    specialize (B1 _ Hd). specialize (B2 _ Hd). lia.
  - intros Z0 x d Hx Hd. destruct (In x d Hx Hd). rewrite (Z0 _ Hd) in *. lia.
Qed.
(** The two cases occur: disparities -5 .. 5 are refused by the theorem, the disparity 0 alone is not. *)
Example C41_exact_example : (exists new updated, get_roi_processing (mkRoi 50 60 50 60 (2, 2, 2, 2)) (mkDisp (DInt 0) 5) (mkDisp (DInt 0) 0) = Some (new, updated) /\ roi_mg new = (5, 2, 5, 2)) /\
  (forall x d, 50 <= x <= 60 -> allowed (mkDisp (DInt 0) 5) d -> 0 <= x + d - 2 /\ x + d + 2 < 100) /\ allowed (mkDisp (DInt 0) 5) (-5) /\
  (exists new updated, get_roi_processing (mkRoi 50 60 50 60 (2, 2, 2, 2)) (mkDisp (DInt 0) 0) (mkDisp (DInt 0) 0) = Some (new, updated) /\ roi_mg new = (2, 2, 2, 2)) /\
  (forall d, allowed (mkDisp (DInt 0) 0) d -> d = 0).
Proof.
  split; [do 2 eexists; split; reflexivity|]. split; [intros x d Hx Hd; cbn in Hd; lia|]. split; [cbn; lia|]. split; [do 2 eexists; split; reflexivity|].
  intros d Hd. cbn in Hd. lia.
Qed.

(** ** C43. An accepted constant range keeps a position exactly when it does not just touch the size of the image. *)
Theorem C43_exact rows cols row col ri ci : (0 < rows)%nat -> (0 < cols)%nat -> 0 <= cd_range row -> 0 <= cd_range col ->
  cd_init row = CInt ri -> cd_init col = CInt ci -> check_disparity rows cols row col = true ->
  ((exists d, ri - cd_range row <= d <= ri + cd_range row /\ keeps_a_position d rows) <-> Z.abs ri - cd_range row <> Z.of_nat rows) /\
  ((exists d, ci - cd_range col <= d <= ci + cd_range col /\ keeps_a_position d cols) <-> Z.abs ci - cd_range col <> Z.of_nat cols).
Proof.
  intros Hr Hc Rr Rc Er Ec H. apply C16_accepted_iff_reaches_image in H; auto. rewrite Er, Ec in H. rewrite !reaches_iff in H by auto.
  assert (X : forall v range size, 0 <= range -> (0 < size)%nat -> Z.abs v - range <= Z.of_nat size ->
     ((exists d, v - range <= d <= v + range /\ keeps_a_position d size) <-> Z.abs v - range <> Z.of_nat size)).
  { intros v range size H1 H2 H3. split.
    - intros (d & Hd & K). apply keeps_iff in K; lia.
    - intros N. destruct (Z.le_gt_cases 0 v).
      + exists (Z.max (v - range) (1 - Z.of_nat size)). rewrite keeps_iff. lia.
      + exists (Z.min (v + range) (Z.of_nat size - 1)). rewrite keeps_iff. lia. }
  split; apply X; tauto.
Qed.
Example C43_exact_example : check_disparity 10 10 (mkCfgDisp (CInt 12) 2) (mkCfgDisp (CInt (-11)) 2) = true /\
  Z.abs 12 - 2 = Z.of_nat 10 /\ Z.abs (-11) - 2 <> Z.of_nat 10.
Proof. repeat split; cbn; lia. Qed.

(** ** C61. The score of a refined pixel is the interpolated cost exactly when that cost is not negative. *)
From Verif Require Import Model.OpticalFlowModel Model.InterpolationModel Spec.InterpolationSpec Proofs.FlowProofs Props.InterpolationProps.
Open Scope nat_scope.
Theorem C61_exact interp minimise t disp_col disp_row c0 c1 r0 r1 n m data col_map row_map dc dr sc :
  first_last disp_col c0 c1 -> first_last disp_row r0 r1 -> 0 < n -> 0 < m -> a4_n0 data = n -> a4_n1 data = m -> rect n m col_map -> rect n m row_map ->
  interpolation_refinement interp minimise t disp_col disp_row data col_map row_map = Some (dc, dr, sc) ->
  forall r c S, r < n -> c < m -> surface_of data r c S -> ~ nothing_usable t S ->
  exists F a b s, completed t S F /\ nth2 dc r c = Some a /\ nth2 dr r c = Some b /\ nth2 sc r c = Some s /\
    forall z, interp disp_col disp_row F a b = oriented t (CFin z) -> exists z', s = CFin z' /\ ((z' == z)%Q <-> (0 <= z)%Q) /\ ((z <= 0)%Q -> (z' == - z)%Q).
Proof.
  intros Fc Fr Hn Hm En Em Rc Rr E r c S Hr Hc HS U. destruct (C33_in_place interp minimise t disp_col disp_row c0 c1 r0 r1 n m Fc Fr Hn Hm data col_map row_map En Em Rc Rr) as (dc1 & dr1 & sc1 & F & _ & _ & _ & P).
  rewrite E in F. injection F as <- <- <-. destruct (nth2_some n m col_map r c Rc Hr Hc) as [x Hx]. destruct (nth2_some n m row_map r c Rr Hr Hc) as [y Hy].
  destruct (P r c x y S Hr Hc Hx Hy HS) as (a & b & s & E1 & E2 & E3 & _ & V). destruct (V U) as (F & C & _ & ->). exists F, a, b. eexists. split; [exact C|]. split; [exact E1|]. split; [exact E2|]. split; [exact E3|].
  assert (Ab : forall z w, (w == Qabs z)%Q -> ((w == z)%Q <-> (0 <= z)%Q) /\ ((z <= 0)%Q -> (w == - z)%Q)).
  { intros z w W. split; [split|].
    - intros Wz. rewrite <- Wz, W. apply Qabs_nonneg.
    - intros L. rewrite W. apply Qabs_pos. exact L.
    - intros L. rewrite W. apply Qabs_neg. exact L. }
  intros z ->. destruct t; cbn [oriented c_neg c_abs]; eexists; (split; [reflexivity|]); apply Ab; [reflexivity|apply Qabs_opp].
Qed.
(** The two signs occur (C61_score_refuted: costs -1/2): a matrix of nine disparities with the costs 1/2 has usable costs. *)
Example C61_exact_example : first_last user_disparities (-(4))%Q 4%Q /\
  ~ nothing_usable MeasureMax [[CFin (1#2); CFin (-(1#2))]] /\ oriented MeasureMax (CFin (1#2)) = CFin (-(1#2)) /\ oriented MeasureMin (CFin (1#2)) = CFin (1#2).
Proof. split; [exact user_first_last|]. split; [|split; reflexivity]. intros N. apply (N 0 0 (CFin (1#2)) eq_refl). split; discriminate. Qed.

(** ** C55. On images with grids of their size, the optical flow fails exactly when the number of rows (columns) of the maps is not the number of
    rows (columns) of the image taken every step from the first one. *)
From Verif Require Import Base.ZRange Model.DichotomyModel Spec.OpticalFlowSpec Proofs.FlowRange Props.OpticalFlowProps.
Open Scope Z_scope.
Lemma put_where_fails cond value g n m delta : (0 < n)%nat -> (0 < m)%nat ->
  (a2_n0 g <> n /\ a2_n0 g <> 1%nat) \/ (a2_n1 g <> m /\ a2_n1 g <> 1%nat) -> put_where cond value g n m delta = None.
Proof.
  intros Hn Hm H. unfold put_where. destruct n as [|n]; [lia|]. destruct m as [|m]; [lia|]. cbn [seq map_opt].
  assert (G : grid_at g (S n) (S m) 0 0 = None).
  { unfold grid_at, broadcast. destruct H as [[H1 H2]|[H1 H2]].
    - apply Nat.eqb_neq in H1, H2. rewrite H1, H2. reflexivity.
    - apply Nat.eqb_neq in H1, H2. rewrite H1, H2. destruct (if (_ =? _)%nat then _ else _); reflexivity. }
  rewrite G. destruct (nth2 delta 0 0); reflexivity.
Qed.
Theorem C55_exact {A} (nan : A) lstsq resample junk h iterations offset first_row first_col row_step col_step n m b_row b_col img_left img_right
    col_map row_map invalid g :
  flow_inputs (2 * h + 1) h offset first_row first_col (Z.of_nat row_step) (Z.of_nat col_step) n m b_row b_col img_left img_right col_map row_map ->
  OpticalFlowSpec.grids_of (i_nrow img_left) (i_ncol img_left) g ->
  (flow_refinement nan lstsq resample junk (2 * h + 1) iterations offset row_step col_step
     (progression first_row (Z.of_nat row_step) n) (progression first_col (Z.of_nat col_step) m) img_left img_right g invalid col_map row_map = None <->
   n <> strided_len (i_nrow img_left) 0 row_step \/ m <> strided_len (i_ncol img_left) 0 col_step).
Proof.
  intros I G. split.
  - intros E. destruct (Nat.eq_dec n (strided_len (i_nrow img_left) 0 row_step)) as [En|En]; [|auto].
    destruct (Nat.eq_dec m (strided_len (i_ncol img_left) 0 col_step)) as [Em|Em]; [|auto]. exfalso.
    destruct (C32_checked nan lstsq resample junk h iterations offset first_row first_col row_step col_step n m b_row b_col img_left img_right col_map row_map invalid g I En Em G)
      as (oc & orow & E' & _). congruence.
  - intros N. unfold flow_refinement.
    destruct (C32_refined_in_place nan lstsq resample junk h iterations offset first_row first_col row_step col_step n m b_row b_col img_left img_right col_map row_map invalid I)
      as (mc & mr & -> & _). cbn [bind fst snd]. rewrite !progression_length.
    unfold OpticalFlowSpec.grids_of in G. rewrite Forall_forall in G. destruct (G (g_col_min g)) as [A1 A2]; [simpl; auto|].
    assert (X : forall k step len first (hh b : nat) r0, 1 <= Z.of_nat step -> (1 <= hh)%nat -> border hh (Z.of_nat step) b -> (2 * b < k)%nat -> r0 <= first -> first + (Z.of_nat k - 1) * Z.of_nat step < r0 + Z.of_nat len ->
      (0 < k)%nat /\ strided_len len 0 step <> 1%nat).
    { intros k step len first hh b r0 Hs Hh [B1 B2] Hk H1 H2. split; [lia|]. assert (Hb : (1 <= b)%nat) by nia.
      unfold strided_len. intros D. pose proof (Nat.div_mod (len - 0 + step - 1) step ltac:(lia)) as D1. rewrite D in D1.
      pose proof (Nat.mod_upper_bound (len - 0 + step - 1) step ltac:(lia)) as D2.
      assert (Z.of_nat len <= Z.of_nat step) by lia. nia. }
    destruct I. destruct (X n row_step (i_nrow img_left) first_row h b_row (i_row0 img_left)) as [X1 X2]; try tauto.
    destruct (X m col_step (i_ncol img_left) first_col h b_col (i_col0 img_left)) as [X3 X4]; try tauto.
    unfold invalid_out_of_grid. rewrite (put_where_fails nle invalid (stride2 row_step col_step (g_col_min g))); try assumption; [reflexivity|].
    cbn [stride2 a2_n0 a2_n1]. rewrite A1, A2. destruct N as [N|N]; [left|right]; split; auto.
Qed.
(** Without ROI the shapes agree; C55_roi_and_step_refuted gives inputs with 4 columns for 9 columns taken every 2. *)
Example C55_exact_example :
  flow_inputs 3 1 1 0 0 1 1 5 5 1 1 left_ex right_ex (zeros_ex 5 5) (zeros_ex 5 5) /\ OpticalFlowSpec.grids_of 5 5 grids_ex /\
  (5 = strided_len (i_nrow left_ex) 0 1)%nat /\ (4 <> strided_len 9 0 2)%nat.
Proof. split; [apply C31_C32_inputs|]. split; [apply C31_C32_inputs|]. split; [reflexivity|discriminate]. Qed.

(** ** C42. Without ROI, a second save writes the same georeferencing exactly when the step is 1 on both axes. *)
Open Scope Q_scope.
Theorem C42_exact {A} (ds ds' ds'' saved saved2 : dmaps A) cfg t t2 row_step col_step : sc_roi cfg = None -> sc_step cfg = Some (row_step, col_step) ->
  (1 <= row_step)%Z -> (1 <= col_step)%Z ->
  save_dataset ds cfg = Some (saved, ds') -> save_dataset ds' cfg = Some (saved2, ds'') -> dm_transform saved = Some t -> dm_transform saved2 = Some t2 ->
  (* the transform of the images is invertible *)
  (forall t0, dm_transform ds = Some t0 -> ~ af_a t0 * af_e t0 - af_b t0 * af_d t0 == 0) ->
  ((forall x y, same_point (world t x y) (world t2 x y)) <-> row_step = 1%Z /\ col_step = 1%Z).
Proof.
  intros Er Es Hr Hc E1 E2 T1 T2 D. unfold save_dataset in E1, E2. rewrite Er in E1, E2. injection E1 as <- <-. cbn [dm_transform] in *.
  destruct (dm_transform ds) as [t0|] eqn:Et; [|discriminate]. specialize (D _ eq_refl). cbn [option_map] in T1. injection T1 as <-.
  injection E2 as <- <-. cbn [dm_transform option_map] in T2. injection T2 as <-.
  unfold adjust_georeferencement, get_step. rewrite Er, Es. destruct t0 as [a b c d e f]. cbn [af_mul af_scale af_a af_b af_c af_d af_e af_f] in *.
  assert (Pr : 1 <= inject_Z row_step) by (rewrite (Zle_Qle 1) in Hr; exact Hr). assert (Pc : 1 <= inject_Z col_step) by (rewrite (Zle_Qle 1) in Hc; exact Hc).
  unfold same_point, world, af_mul, af_scale. cbn [af_a af_b af_c af_d af_e af_f fst snd]. split.
  - intros S. destruct (S 0 0) as [S1 S2], (S 1 0) as [S3 S4], (S 0 1) as [S5 S6]. set (p := inject_Z row_step) in *. set (q := inject_Z col_step) in *.
    assert (Za : a * q * (q - 1) == 0) by lra. assert (Zd : d * q * (q - 1) == 0) by lra.
    assert (Zb : b * p * (p - 1) == 0) by lra. assert (Ze : e * p * (p - 1) == 0) by lra.
    assert (P1 : p == 1).
    { destruct (Qeq_dec p 1) as [Y|Y]; [exact Y|]. exfalso. apply Qmult_integral in Zb, Ze.
      assert (b == 0) by (destruct Zb as [Z1|Z1]; [apply Qmult_integral in Z1; destruct Z1; [assumption|exfalso; lra]|exfalso; apply Y; lra]).
      assert (e == 0) by (destruct Ze as [Z1|Z1]; [apply Qmult_integral in Z1; destruct Z1; [assumption|exfalso; lra]|exfalso; apply Y; lra]).
      apply D. rewrite H, H0. ring. }
    assert (Q1 : q == 1).
    { destruct (Qeq_dec q 1) as [Y|Y]; [exact Y|]. exfalso. apply Qmult_integral in Za, Zd.
      assert (a == 0) by (destruct Za as [Z1|Z1]; [apply Qmult_integral in Z1; destruct Z1; [assumption|exfalso; lra]|exfalso; apply Y; lra]).
      assert (d == 0) by (destruct Zd as [Z1|Z1]; [apply Qmult_integral in Z1; destruct Z1; [assumption|exfalso; lra]|exfalso; apply Y; lra]).
      apply D. rewrite H, H0. ring. }
    split; [apply inject_Z_injective; exact P1|apply inject_Z_injective; exact Q1].
  - intros [-> ->] x y. change (inject_Z 1) with 1. split; ring.
Qed.
Example C42_exact_example : exists (ds saved ds' : dmaps Z) t, save_dataset ds (mkSave None (Some (2, 1)%Z)) = Some (saved, ds') /\ dm_transform saved = Some t /\
  (forall t0, dm_transform ds = Some t0 -> ~ af_a t0 * af_e t0 - af_b t0 * af_d t0 == 0) /\ ~ same_point (world t 0 1) (0, 1) /\ same_point (world t 1 0) (1, 0).
Proof.
  exists (mkDmaps [0; 2]%Z [0; 1]%Z [[1; 1]; [1; 1]]%Z [[1; 1]; [1; 1]]%Z [[1; 1]; [1; 1]]%Z (Some (mkAffine 1 0 0 0 1 0))). do 3 eexists.
  split; [reflexivity|]. split; [reflexivity|]. split; [intros t0 [= <-] H; vm_compute in H; discriminate|]. split; [intros [_ H]; vm_compute in H; discriminate|]. split; reflexivity.
Qed.

(** ** C63. The ratio is the proportion of valid pixels exactly when NaN is the invalid value or no pixel is NaN. *)
From Verif Require Import Model.StatisticsModel Spec.StatisticsSpec Proofs.StatisticsProofs Props.StatisticsProps.
Lemma differing_valid invalid data l : valid_values invalid data l -> exists k, differing invalid data k /\ (length l <= k)%nat /\
  (invalid <> NaN -> In NaN data -> (length l < k)%nat).
Proof.
  induction 1 as [|x d l Hx V IH|z d l Hz V IH].
  - exists 0%nat. split; [constructor|]. split; [apply le_n|]. intros _ [].
  - destruct IH as (k & D & L & N). destruct Hx as [-> | ->].
    + assert (invalid = NaN \/ invalid <> NaN) as [->|Nv] by (destruct invalid; auto; right; discriminate).
      * exists k. split; [apply di_same; exact D|]. split; [exact L|]. congruence.
      * exists (Datatypes.S k). split; [apply di_other; [congruence|exact D]|]. split; [lia|]. intros _ _. lia.
    + exists k. split; [apply di_same; exact D|]. split; [exact L|]. intros Nv [E|HN]; [congruence|auto].
  - destruct IH as (k & D & L & N). exists (Datatypes.S k). split; [apply di_other; [congruence|exact D]|]. cbn [length]. split; [lia|]. intros Nv [E|HN]; [discriminate|]. specialize (N Nv HN). lia.
Qed.
Theorem C63_exact invalid data l st r : valid_values invalid data l -> compute_statistics data (Some invalid) = Some st -> data <> [] -> st_ratio st = Some r ->
  (r * inject_Z (Z.of_nat (length data)) == inject_Z (Z.of_nat (length l)) <-> invalid = NaN \/ ~ In NaN data).
Proof.
  intros V E Hd Er. split.
  - intros H. assert (invalid = NaN \/ invalid <> NaN) as [Nv|Nv] by (destruct invalid; auto; right; discriminate); [auto|]. right. intros HN.
    destruct (differing_valid _ _ _ V) as (k & D & _ & N). specialize (N Nv HN). destruct (C34_ratio_invalid invalid data k st D E Hd) as (r' & Er' & R).
    rewrite Er in Er'. injection Er' as <-. rewrite H in R. apply (proj1 (inject_Z_injective _ _)) in R. lia.
  - intros H. destruct (C34_ratio invalid data l st V E Hd H) as (r' & Er' & R). rewrite Er in Er'. injection Er' as <-. exact R.
Qed.
Example C63_exact_example : exists st, valid_values (Fin (-9999)%Z) [Fin 3%Z; NaN; Fin (-9999)%Z; NaN] [3%Z] /\
  compute_statistics [Fin 3%Z; NaN; Fin (-9999)%Z; NaN] (Some (Fin (-9999)%Z)) = Some st /\ exists r, st_ratio st = Some r /\ r == 3 # 4.
Proof.
  eexists. split; [apply vv_keep; [discriminate|]; apply vv_skip; [now left|]; apply vv_skip; [now right|]; apply vv_skip; [now left|]; apply vv_nil|].
  split; [reflexivity|]. eexists. split; reflexivity.
Qed.

Print Assumptions C03_exact.
Print Assumptions C41_exact.
Print Assumptions C43_exact.
Print Assumptions C61_exact.
Print Assumptions C55_exact.
Print Assumptions C42_exact.
Print Assumptions C63_exact.
