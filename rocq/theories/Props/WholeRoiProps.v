(** C99: a ROI and the refinements. *)
From Coq Require Import List String Bool ZArith QArith Qabs Lia.
From Verif Require Import Base.Ext Base.PyList Base.Arr Base.Json Base.Dict Base.ZRange Model.CommonModel Model.DisparityModel Model.MatchingCostModel Model.DichotomyModel
  Model.RoiModel Model.InputModel Model.ConfigModel Model.DatasetModel Model.EstimationModel Model.OpticalFlowModel Model.InterpolationModel Model.MachineModel Model.CheckConfModel
  Model.PipelineModel Model.WholeModel Model.ImgShiftModel
  Spec.MatchingCostSpec Spec.DichotomySpec Spec.RoiSpec Spec.PipelineSpec Spec.ConfigSpec Spec.InputSpec Spec.MachineSpec Spec.CheckConfSpec Spec.AcceptSpec Spec.WholeSpec Spec.BestSpec Spec.WtaSpec Spec.ShiftSpec Spec.WholeEverySpec Spec.InterpolationSpec Spec.OpticalFlowSpec Spec.WholeRefineSpec Spec.HalvingSpec Spec.WholeExactSpec Spec.WholeFlowSpec Spec.WholeEndSpec Spec.WholeRoiSpec Spec.WholeInterpSpec Spec.InterpUniqueSpec
  Proofs.CheckConfProofs Proofs.ConfigProofs Proofs.ConfigStepProofs Proofs.AcceptProofs Proofs.RoiProofs Proofs.WtaProofs Proofs.WtaTheorems Proofs.MatchingCostProofs Proofs.MatchingCostTheorems Proofs.PipelineProofs Proofs.WholeRunProofs Proofs.WholeProofs Proofs.WholeMainProofs Proofs.HalvingProofs Proofs.BetweenProofs Proofs.RefineBestProofs Proofs.RefineExactProofs Proofs.WholeMoreProofs Proofs.WholeEveryProofs Proofs.WholeRoiProofs Proofs.InterpUniqueProofs Proofs.BestProofs Proofs.RefineBestProofs Proofs.WholeFlowProofs Proofs.WholeEndProofs Proofs.WholeRoiProofs
  Props.RoiProps Props.PipelineProps Props.CheckConfProps Props.InterpolationProps Props.WholeProps Props.WholeMoreProps Props.WholeEveryProps Props.WholeRefineProps Props.WholeExactProps Props.WholeCompareProps Props.WholeInterpProps.
Import ListNotations.
Open Scope Z_scope.
Open Scope string_scope.
Open Scope list_scope.

Section Program.
  (** The libraries: see WholeModel. *)
  Context {px : Type} (px_eqb : px -> px -> bool) (nan : px).
  Variable bool_ok : bool.
  Variable pandora_check : dict -> option (json * json * json).
  Variable matching_cost_margins : dict -> margins.
  Variable can_open_mandatory can_open : json -> bool.
  Variable images_ok : json -> json -> json -> json -> bool.
  Variable image_size : string -> nat * nat.
  Variable open_raster : string -> reader.
  Variable load : dict -> Z -> nat -> Z -> nat -> image px.
  Variable transform_of : dict -> option affine.
  Variable dataset_ok : image_dataset (image px) -> bool.
  Variable measure_of : dict -> measure.
  Variable offset_of : dict -> Z.
  Variable pandora_cost : dict -> mc_input -> image px -> list (list px) -> list (list Z) -> nat -> nat -> nat -> ext.
  Variable zoomed : image px -> nat -> nat -> nat -> px.
  Variable one : Z.
  Variable store : ext -> ext.
  Variable filter_apply : dict -> list (list ext) -> Z -> Z -> ext.
  Variable lstsq : list (list px) -> list (list px) -> option (num * num).
  Variable resample : list (list px) -> num -> num -> list (list px).
  Variable junk : nat -> list (list px).
  Variable interp : list Q -> list Q -> list (list cost) -> num -> num -> cost.
  Variable minimise : (num -> num -> cost) -> num * num -> (Q * Q) * (Q * Q) -> num * num.
  Variable estimate : json -> image px -> image px -> (Q * Q) * json * json.
  Variable global_margins : list (string * margins) -> list (string * margins) -> margins.
  Variable margins_to_dict : list (string * margins) -> list (string * margins) -> json.
  Notation main := (main px_eqb nan bool_ok pandora_check matching_cost_margins can_open_mandatory can_open images_ok image_size open_raster load transform_of dataset_ok
    measure_of offset_of pandora_cost zoomed one store filter_apply lstsq resample junk interp minimise estimate global_margins margins_to_dict).
  Notation check_user := (check_user px_eqb nan bool_ok pandora_check matching_cost_margins can_open_mandatory can_open images_ok image_size open_raster
    measure_of offset_of pandora_cost zoomed one store filter_apply lstsq resample junk interp minimise estimate).
  Notation libraries := (libraries bool_ok pandora_check images_ok image_size load dataset_ok measure_of pandora_cost one).
  Notation dichotomy_libraries := (dichotomy_libraries bool_ok pandora_check pandora_cost one store).
  Notation asked := (asked bool_ok pandora_check can_open_mandatory can_open images_ok image_size open_raster).
  Notation asked_estimation := (asked_estimation bool_ok pandora_check can_open_mandatory can_open images_ok image_size open_raster).
  Notation cost_contract := (cost_contract measure_of pandora_cost).

  Notation programmed := (programmed bool_ok pandora_check can_open_mandatory can_open images_ok image_size open_raster).
  Notation matching_of := (matching_of px_eqb nan bool_ok pandora_check matching_cost_margins can_open_mandatory can_open images_ok image_size open_raster measure_of offset_of pandora_cost zoomed one
    store filter_apply lstsq resample junk interp minimise estimate).
  Notation estimated_request := (estimated_request px_eqb nan bool_ok pandora_check matching_cost_margins can_open_mandatory can_open images_ok image_size open_raster load
    measure_of offset_of pandora_cost zoomed one store filter_apply lstsq resample junk interp minimise estimate).
  (** The request with the disparities that are searched, in the window that is loaded. *)
  Notation searched := (searched bool_ok pandora_check can_open_mandatory can_open images_ok image_size open_raster).
  Notation window_cost := (window_cost px_eqb load zoomed).

  Notation local_cost := (local_cost px_eqb load zoomed).
  Notation filter_of := (filter_of px_eqb nan bool_ok pandora_check matching_cost_margins can_open_mandatory can_open images_ok image_size open_raster measure_of offset_of pandora_cost zoomed one
    store filter_apply lstsq resample junk interp minimise estimate).

  (** The costs of the candidates of an inner pixel, and those around them, do not depend on the ROI. *)
  Lemma inner_costs pixel_cost half T subpix q rows cols left right completed row0 nrow col0 ncol x y dr dc tr tc : 0 <= half -> 0 <= T -> 0 < subpix ->
    local_cost pixel_cost half left right completed subpix rows cols -> window_ok q rows cols row0 nrow col0 ncol -> window_reaches open_raster q rows cols row0 nrow col0 ncol ->
    inner q rows cols (half + T) x y -> candidate open_raster (q_row_init q) (q_row_range q) subpix x y dr -> candidate open_raster (q_col_init q) (q_col_range q) subpix x y dc ->
    Z.abs tr <= T * subpix -> Z.abs tc <= T * subpix ->
    window_cost pixel_cost left right completed subpix row0 nrow col0 ncol x y (dr + tr) (dc + tc) = window_cost pixel_cost left right completed subpix 0 rows 0 cols x y (dr + tr) (dc + tc).
  Proof.
    intros Hh HT Hs Lo Wok Wre (W1 & W2 & W3 & W4) Hr Hc Htr Htc.
    assert (Wx : row0 <= x - (half + T) /\ x + (half + T) < row0 + Z.of_nat nrow /\ col0 <= y - (half + T) /\ y + (half + T) < col0 + Z.of_nat ncol /\ 0 <= row0 /\ row0 + Z.of_nat nrow <= Z.of_nat rows /\ 0 <= col0 /\ col0 + Z.of_nat ncol <= Z.of_nat cols).
    { clear - W1 W2 W3 W4 Wok. unfold window_ok, inside_row, inside_col, inside in *. destruct (q_zone q); cbn in *; lia. }
    destruct (Lo row0 nrow col0 ncol x y (dr + tr) (dc + tc)) as [Lo1 Lo2]; try lia. unfold window_cost. cbv zeta in Lo1, Lo2.
    assert (Dec : WholeSpec.fits half subpix x (dr + tr) 0 (Z.of_nat rows) /\ WholeSpec.fits half subpix y (dc + tc) 0 (Z.of_nat cols) \/ ~ (WholeSpec.fits half subpix x (dr + tr) 0 (Z.of_nat rows) /\ WholeSpec.fits half subpix y (dc + tc) 0 (Z.of_nat cols))) by (unfold WholeSpec.fits; lia).
    destruct Dec as [[F1 F2]|N]; [|destruct (Lo2 N) as [-> ->]; reflexivity].
    assert (Whole : forall init range d, candidate open_raster init range subpix x y d ->
      candidate open_raster init range 1 x y (d / subpix) /\ candidate open_raster init range 1 x y (- (- d / subpix))).
    { clear - Hs. intros init range d (v & Hv & I). split; exists v; (split; [exact Hv|]); pose proof (Z.div_mod d subpix); pose proof (Z.mod_pos_bound d subpix);
        pose proof (Z.div_mod (- d) subpix); pose proof (Z.mod_pos_bound (- d) subpix); nia. }
    destruct (Whole _ _ _ Hr) as [Hr1 Hr2]. destruct (Whole _ _ _ Hc) as [Hc1 Hc2].
    assert (Hx : 0 <= x < Z.of_nat rows) by lia. assert (Hy : 0 <= y < Z.of_nat cols) by lia.
    apply Lo1.
    - apply (reached half T subpix (Z.of_nat rows) x dr tr row0 (row0 + Z.of_nat nrow) (inside_row q (Z.of_nat rows)) (candidate open_raster (q_row_init q) (q_row_range q) 1 x y)); auto; try lia.
      + intros a Ha. clear - W1 W2 Ha. unfold inside_row, inside in *. destruct (q_zone q); cbn in *; lia.
      + intros a b Ha Hb Hab. apply (Wre a (y - (half + T)) x y b Ha W3 Hx Hy); assumption.
    - apply (reached half T subpix (Z.of_nat cols) y dc tc col0 (col0 + Z.of_nat ncol) (inside_col q (Z.of_nat cols)) (candidate open_raster (q_col_init q) (q_col_range q) 1 x y)); auto; try lia.
      + intros a Ha. clear - W3 W4 Ha. unfold inside_col, inside in *. destruct (q_zone q); cbn in *; lia.
      + intros a b Ha Hb Hab. apply (Wre (x - (half + T)) a x y b W1 Ha Hx Hy); assumption.
  Qed.

  Lemma all_candidates init range subpix rows cols row0 nrow col0 ncol x y d : same_middle open_raster init 0 rows 0 cols -> 0 <= row0 -> row0 + Z.of_nat nrow <= Z.of_nat rows ->
    0 <= col0 -> col0 + Z.of_nat ncol <= Z.of_nat cols -> 0 <= x < Z.of_nat rows -> 0 <= y < Z.of_nat cols ->
    of_the_window open_raster init range subpix row0 nrow col0 ncol d -> candidate open_raster init range subpix x y d.
  Proof.
    intros (v & S) H1 H2 H3 H4 Hx Hy (x1 & y1 & d1 & x2 & y2 & d2 & [R1 C1] & [R2 C2] & (v1 & M1 & I1) & (v2 & M2 & I2) & Hd).
    assert (v1 = v) by (eapply middle_unique; [exact M1 | apply S; lia]). assert (v2 = v) by (eapply middle_unique; [exact M2 | apply S; lia]). subst v1 v2.
    exists v. split; [apply S; lia | lia].
  Qed.
  Lemma sampled_all (rows cols all_rows all_cols : Z -> Prop) cost sample : (forall d, all_rows d -> rows d) -> (forall d, all_cols d -> cols d) ->
    sampled rows cols all_rows all_cols cost sample -> forall dr dc, sample dr dc = cost dr dc.
  Proof. intros R C S dr dc. destruct (S dr dc) as [(_ & _ & E)|([[A N]|[A N]] & _)]; [exact E | elim N; auto | elim N; auto]. Qed.

  (** * C99: a ROI does not change the refined disparities of its inner pixels *)
  (** Dichotomy: the pixels farther from the borders of the ROI than the half window and the samples read by the filter. *)
  Theorem C99_dichotomy pixel_cost half subpix user user' q rows cols n left right completed f size before out out' saved saved' x y vr vc vs vr' vc' vs' :
    libraries -> dichotomy_libraries -> cost_contract pixel_cost -> 0 <= half ->
    programmed user q rows cols false true -> programmed user' (with_zone q None) rows cols false true ->
    asks_refinement bool_ok user "dichotomy" n -> asks_refinement bool_ok user' "dichotomy" n -> q_row_step q = 1 -> q_col_step q = 1 ->
    matching_of user left right completed subpix -> matching_of user' left right completed subpix -> filter_of user f -> filter_of user' f -> filter_support bool_ok f size before ->
    same_middle open_raster (q_row_init q) 0 rows 0 cols -> same_middle open_raster (q_col_init q) 0 rows 0 cols ->
    local_cost pixel_cost half left right completed subpix rows cols ->
    main user = Some out -> o_maps out = Some saved -> main user' = Some out' -> o_maps out' = Some saved' ->
    inner q rows cols (half + (Z.of_nat before + 1)) x y -> pixel_of saved x y vr vc vs -> pixel_of saved' x y vr' vc' vs' ->
    (shows one (q_invalid q) vr /\ shows one (q_invalid q) vc /\ vs = CNan) /\ (shows one (q_invalid q) vr' /\ shows one (q_invalid q) vc' /\ vs' = CNan) \/
    same_cost vr vr' /\ same_cost vc vc' /\ same_cost vs vs'.
  Proof.
    intros L D K Hh Pr Pr' Ar Ar' S1 S2 Mo Mo' Fo Fo' Fs Sr Sc Lo M O M' O' Hin P P'.
    destruct (C83_dichotomy px_eqb nan bool_ok pandora_check matching_cost_margins can_open_mandatory can_open images_ok image_size open_raster load transform_of dataset_ok
      measure_of offset_of pandora_cost zoomed one store filter_apply lstsq resample junk interp minimise estimate global_margins margins_to_dict
      pixel_cost user q rows cols false n left right completed subpix L D K Pr Ar S1 S2 Mo) as (q0 & r0 & n0 & c0 & k0 & o0 & sv0 & (_ & -> & _) & M0 & O0 & R0 & _).
    rewrite M in M0. injection M0 as <-. rewrite O in O0. injection O0 as <-.
    destruct (C83_dichotomy px_eqb nan bool_ok pandora_check matching_cost_margins can_open_mandatory can_open images_ok image_size open_raster load transform_of dataset_ok
      measure_of offset_of pandora_cost zoomed one store filter_apply lstsq resample junk interp minimise estimate global_margins margins_to_dict
      pixel_cost user' (with_zone q None) rows cols false n left right completed subpix L D K Pr' Ar' S1 S2 Mo') as (q0' & r0' & n0' & c0' & k0' & o0' & sv0' & (_ & -> & _) & M0' & O0' & R0' & _).
    rewrite M' in M0'. injection M0' as <-. rewrite O' in O0'. injection O0' as <-.
    destruct (C91_dichotomy_exact px_eqb nan bool_ok pandora_check matching_cost_margins can_open_mandatory can_open images_ok image_size open_raster load transform_of dataset_ok
      measure_of offset_of pandora_cost zoomed one store filter_apply lstsq resample junk interp minimise estimate global_margins margins_to_dict
      pixel_cost user q rows cols false n left right completed subpix f size before L D K Pr Ar S1 S2 Mo Fo Fs) as (q1 & row0 & nrow & col0 & ncol & o1 & sv1 & (Wok & -> & Wre) & M1 & O1 & B1).
    rewrite M in M1. injection M1 as <-. rewrite O in O1. injection O1 as <-.
    destruct (C91_dichotomy_exact px_eqb nan bool_ok pandora_check matching_cost_margins can_open_mandatory can_open images_ok image_size open_raster load transform_of dataset_ok
      measure_of offset_of pandora_cost zoomed one store filter_apply lstsq resample junk interp minimise estimate global_margins margins_to_dict
      pixel_cost user' (with_zone q None) rows cols false n left right completed subpix f size before L D K Pr' Ar' S1 S2 Mo' Fo' Fs) as (q1' & row0' & nrow' & col0' & ncol' & o1' & sv1' & (Wok' & -> & _) & M1' & O1' & B1').
    rewrite M' in M1'. injection M1' as <-. rewrite O' in O1'. injection O1' as <-.
    unfold window_ok in Wok'. cbn [with_zone q_zone] in Wok'. destruct Wok' as (-> & -> & -> & ->).
    assert (Hsub : 1 <= subpix /\ (subpix | one) /\ exists k, subpix = 2 ^ Z.of_nat k).
    { destruct L as (_ & L2 & _). destruct D as (_ & _ & Hpow & _). destruct Mo as (m & cfg & st & D1 & D2 & D3 & D4 & D5 & D6). unfold matching_cost_init in D5.
      destruct (matching_cost_check_conf st) as [[|[k1 j1] [|[k2 [| | | | | | |[|s1 [|s2 []]]|]] []]]|]; try discriminate. destruct (pandora_check (assign "step" s2 st)) as [[[jw js] jo]|] eqn:Ep; [|discriminate].
      injection D5 as <-. destruct (L2 _ _ _ _ Ep) as (m0 & In0 & Pn0 & Dv). cbn in D6. rewrite (int_value_as_int _ _ _ In0) in D6. injection D6 as <-. split; [exact Pn0|]. split; [exact Dv|]. eapply Hpow; eauto. }
    destruct Hsub as (Hsub & Hdiv & (k & Hk)). assert (Hone : 0 < one) by apply L. assert (H512 : (512 | one)) by apply D.
    assert (HT : 0 <= Z.of_nat before + 1) by lia. set (T := Z.of_nat before + 1) in *.
    assert (Hc : forall dr dc a b, candidate open_raster (q_row_init q) (q_row_range q) subpix x y dr -> candidate open_raster (q_col_init q) (q_col_range q) subpix x y dc -> Z.abs (a - dr) <= T -> Z.abs (b - dc) <= T ->
      window_cost pixel_cost left right completed subpix row0 nrow col0 ncol x y a b = window_cost pixel_cost left right completed subpix 0 rows 0 cols x y a b).
    { intros dr dc a b Hr0 Hc0 Ha Hb. replace a with (dr + (a - dr)) by lia. replace b with (dc + (b - dc)) by lia. apply (inner_costs pixel_cost half T subpix q); auto; try lia; clear - Ha Hb Hsub HT; nia. }
    destruct R0 as (_ & _ & I1 & I2 & _), R0' as (_ & _ & I1' & I2' & _).
    assert (P0 := P). destruct P0 as (a & b & A1 & A2 & _). assert (P0' := P'). destruct P0' as (a' & b' & A1' & A2' & _).
    destruct (B1 x y (nth_error_In _ _ A1) (nth_error_In _ _ A2)) as (wr & wc & ws & Pw & Best). destruct (pixel_values _ _ _ _ _ _ _ _ _ I1 I2 P Pw) as (<- & <- & <-).
    destruct (B1' x y (nth_error_In _ _ A1') (nth_error_In _ _ A2')) as (wr' & wc' & ws' & Pw' & Best'). destruct (pixel_values _ _ _ _ _ _ _ _ _ I1' I2' P' Pw') as (<- & <- & <-).
    cbn [with_zone q_row_init q_col_init q_row_range q_col_range q_invalid] in Best'.
    destruct (best_unique _ _ _ _ _ _ _ _ _ _ _ (fun d => iff_refl _) (fun d => iff_refl _) (fun dr dc Hr0 Hc0 => Hc dr dc dr dc Hr0 Hc0 ltac:(unfold T; lia) ltac:(unfold T; lia)) (best_keep _ _ _ _ _ _ Best) Best')
      as [(N & N')|(dr & dc & s & (Fd & R & C & _) & Fd')]; [left; auto|]. right.
    destruct Fd as (sample & Sa & Se). destruct Fd' as (sample' & Sa' & Se').
    assert (Win : 0 <= row0 /\ row0 + Z.of_nat nrow <= Z.of_nat rows /\ 0 <= col0 /\ col0 + Z.of_nat ncol <= Z.of_nat cols /\ 0 <= x < Z.of_nat rows /\ 0 <= y < Z.of_nat cols).
    { destruct Hin as (W1 & W2 & W3 & W4). clear - W1 W2 W3 W4 Wok Hh HT. unfold window_ok, inside_row, inside_col, inside in *. destruct (q_zone q); cbn in *; lia. }
    assert (E : forall a b, sample a b = window_cost pixel_cost left right completed subpix row0 nrow col0 ncol x y a b).
    { eapply sampled_all; [| |exact Sa]; intros d Hd; eapply all_candidates; try exact Hd; try eassumption; lia. }
    assert (E' : forall a b, sample' a b = window_cost pixel_cost left right completed subpix 0 rows 0 cols x y a b).
    { eapply sampled_all; [| |exact Sa']; intros d Hd; eapply all_candidates; try exact Hd; try eassumption; lia. }
    assert (Eq : forall a b, Z.abs (a - dr) <= T -> Z.abs (b - dc) <= T -> sample a b = sample' a b) by (intros; rewrite E, E'; eapply Hc; eauto).
    rewrite (Hc dr dc dr dc R C ltac:(unfold T; lia) ltac:(unfold T; lia)) in Se.
    set (cost0 := window_cost pixel_cost left right completed subpix 0 rows 0 cols x y dr dc) in *.
    destruct Se as [(I & V1 & V2 & V3)|(I3 & I4 & [(Z0 & V1 & V2 & V3)|(Z1 & Z2 & Z3 & u & v & w & Hs & V1 & V2 & V3)])],
      Se' as [(I' & V1' & V2' & V3')|(I3' & I4' & [(Z0' & V1' & V2' & V3')|(Z1' & Z2' & Z3' & u' & v' & w' & Hs' & V1' & V2' & V3')])];
      try (exfalso; first [destruct I as [I|I]; contradiction | destruct I' as [I'|I']; contradiction | destruct Z0 as [Z0|[Z0|Z0]]; contradiction | destruct Z0' as [Z0'|[Z0'|Z0']]; contradiction]).
    - subst vs vs'. split; [eapply quotient_same; eauto|]. split; [eapply quotient_same; eauto | constructor].
    - split; [eapply quotient_same; eauto|]. split; [eapply quotient_same; eauto | eapply number_same; eauto].
    - assert (Kk : Z.to_nat (Z.log2 subpix) = k) by (rewrite Hk, Z.log2_pow2 by lia; lia). rewrite Kk in *.
      destruct (halves_short one k (Z.to_nat (Z.min n 9)) Hone H512 ltac:(rewrite <- Hk; exact Hdiv) ltac:(lia)) as [Hf [Ht0 Ht]].
      rewrite <- Hk in Ht. assert (Hsz : Z.of_nat size <= Z.of_nat before + T + 1) by (destruct Fs as [(_ & -> & ->)|(_ & -> & _)]; unfold T; lia).
      assert (Eb : forall p1 p2, Z.abs (p1 - dr * (one / subpix)) <= total_of (halves one k (Z.to_nat (Z.min n 9))) -> Z.abs (p2 - dc * (one / subpix)) <= total_of (halves one k (Z.to_nat (Z.min n 9))) ->
        between one subpix size before before (filter_apply f) sample p1 p2 = between one subpix size before before (filter_apply f) sample' p1 p2).
      { intros p1 p2 Hp1 Hp2. apply (between_near one subpix size before before (filter_apply f) sample sample' dr dc p1 p2 T); auto; unfold T; lia. }
      pose proof (halving_near store (measure_of completed) _ _ _ _ _ _ _ _ _ Hf Eb Hs) as Hs2.
      destruct (halving_unique _ _ _ _ _ _ _ _ _ _ _ _ _ Hs2 Hs') as (<- & <- & <-).
      split; [eapply quotient_same; eauto|]. split; [eapply quotient_same; eauto | eapply number_same; eauto].
  Qed.
  (** The part of the image that is loaded is read at its place. *)
  Definition loaded_parts (s : dict) (rows cols : nat) : Prop :=
    forall row0 nrow col0 ncol, 0 <= row0 -> row0 + Z.of_nat nrow <= Z.of_nat rows -> 0 <= col0 -> col0 + Z.of_nat ncol <= Z.of_nat cols ->
      part_of_image row0 nrow col0 ncol (load s row0 nrow col0 ncol) (load s 0 rows 0 cols).
  (** Optical flow, constants or grids: the pixels farther from the borders of the ROI than the half window. *)
  Theorem C99_optical_flow pixel_cost subpix user user' q rows cols n left right completed w out out' saved saved' x y vr vc vs vr' vc' vs' :
    libraries -> cost_contract pixel_cost -> 1 <= w ->
    programmed user q rows cols false true -> programmed user' (with_zone q None) rows cols false true ->
    asks_refinement bool_ok user "optical_flow" n -> asks_refinement bool_ok user' "optical_flow" n -> q_row_step q = 1 -> q_col_step q = 1 ->
    matching_of user left right completed subpix -> matching_of user' left right completed subpix ->
    int_at bool_ok ["window_size"] completed = Some w -> offset_of completed = (w - 1) / 2 -> flow_room w q rows cols -> flow_room w (with_zone q None) rows cols ->
    local_cost pixel_cost ((w - 1) / 2) left right completed subpix rows cols -> loaded_parts left rows cols -> loaded_parts right rows cols ->
    main user = Some out -> o_maps out = Some saved -> main user' = Some out' -> o_maps out' = Some saved' ->
    inner q rows cols ((w - 1) / 2) x y -> pixel_of saved x y vr vc vs -> pixel_of saved' x y vr' vc' vs' ->
    shows one (q_invalid q) vs /\ shows one (q_invalid q) vs' \/ same_cost vr vr' /\ same_cost vc vc' /\ same_cost vs vs'.
  Proof.
    intros L K Hw Pr Pr' Ar Ar' S1 S2 Mo Mo' Gw Go Ro Ro' Lo Ll Lr M O M' O' Hin P P'.
    destruct (C92_optical_flow_exact px_eqb nan bool_ok pandora_check matching_cost_margins can_open_mandatory can_open images_ok image_size open_raster load transform_of dataset_ok
      measure_of offset_of pandora_cost zoomed one store filter_apply lstsq resample junk interp minimise estimate global_margins margins_to_dict
      pixel_cost user q rows cols false n left right completed subpix w L K Pr Ar ltac:(auto) ltac:(auto) Mo Gw Go Ro) as (q1 & row0 & nrow & col0 & ncol & o1 & sv1 & (Wok & -> & Wre) & M1 & O1 & R1 & B1).
    rewrite M in M1. injection M1 as <-. rewrite O in O1. injection O1 as <-.
    destruct (C92_optical_flow_exact px_eqb nan bool_ok pandora_check matching_cost_margins can_open_mandatory can_open images_ok image_size open_raster load transform_of dataset_ok
      measure_of offset_of pandora_cost zoomed one store filter_apply lstsq resample junk interp minimise estimate global_margins margins_to_dict
      pixel_cost user' (with_zone q None) rows cols false n left right completed subpix w L K Pr' Ar' ltac:(auto) ltac:(auto) Mo' Gw Go Ro') as (q1' & row0' & nrow' & col0' & ncol' & o1' & sv1' & (Wok' & -> & _) & M1' & O1' & R1' & B1').
    rewrite M' in M1'. injection M1' as <-. rewrite O' in O1'. injection O1' as <-.
    unfold window_ok in Wok'. cbn [with_zone q_zone] in Wok'. destruct Wok' as (-> & -> & -> & ->).
    assert (Hsub : 1 <= subpix).
    { destruct L as (_ & L2 & _). destruct Mo as (m & cfg & st & D1 & D2 & D3 & D4 & D5 & D6). unfold matching_cost_init in D5.
      destruct (matching_cost_check_conf st) as [[|[k1 j1] [|[k2 [| | | | | | |[|s1 [|s2 []]]|]] []]]|]; try discriminate. destruct (pandora_check (assign "step" s2 st)) as [[[jw js] jo]|] eqn:Ep; [|discriminate].
      injection D5 as <-. destruct (L2 _ _ _ _ Ep) as (m0 & In0 & Pn0 & _). cbn in D6. rewrite (int_value_as_int _ _ _ In0) in D6. injection D6 as <-. exact Pn0. }
    assert (Hh : 0 <= (w - 1) / 2) by (apply Z.div_pos; lia). cbv zeta in B1, B1'. set (h := Z.to_nat ((w - 1) / 2)) in *. assert (Eh : (w - 1) / 2 = Z.of_nat h) by (unfold h; lia). rewrite Eh in *. clearbody h.
    destruct R1 as (_ & _ & I1 & I2 & _), R1' as (_ & _ & I1' & I2' & _).
    assert (P0 := P). destruct P0 as (a & b & A1 & A2 & _). assert (P0' := P'). destruct P0' as (a' & b' & A1' & A2' & _).
    destruct (B1 x y (nth_error_In _ _ A1) (nth_error_In _ _ A2)) as (wr & wc & ws & Pw & Best). destruct (pixel_values _ _ _ _ _ _ _ _ _ I1 I2 P Pw) as (<- & <- & <-).
    destruct (B1' x y (nth_error_In _ _ A1') (nth_error_In _ _ A2')) as (wr' & wc' & ws' & Pw' & Best'). destruct (pixel_values _ _ _ _ _ _ _ _ _ I1' I2' P' Pw') as (<- & <- & <-).
    cbn [with_zone q_row_init q_col_init q_row_range q_col_range q_invalid] in Best'.
    assert (Hc : forall dr dc, candidate open_raster (q_row_init q) (q_row_range q) subpix x y dr -> candidate open_raster (q_col_init q) (q_col_range q) subpix x y dc ->
      window_cost pixel_cost left right completed subpix row0 nrow col0 ncol x y dr dc = window_cost pixel_cost left right completed subpix 0 rows 0 cols x y dr dc).
    { intros dr dc Hr0 Hc0. replace dr with (dr + 0) by lia. replace dc with (dc + 0) by lia. apply (inner_costs pixel_cost (Z.of_nat h) 0 subpix q); auto; try lia. now rewrite Z.add_0_r. }
    destruct (best_unique _ _ _ _ _ _ _ _ _ _ _ (fun d => iff_refl _) (fun d => iff_refl _) Hc (best_keep _ _ _ _ _ _ Best) Best')
      as [(N & N')|(dr & dc & s & (Fd & R & C & _) & Fd')]; [left; split; [apply N | apply N']|]. right.
    destruct Hin as (W1 & W2 & W3 & W4).
    assert (Win : 0 <= row0 /\ row0 + Z.of_nat nrow <= Z.of_nat rows /\ 0 <= col0 /\ col0 + Z.of_nat ncol <= Z.of_nat cols /\ 0 <= x < Z.of_nat rows /\ 0 <= y < Z.of_nat cols /\ WholeFlowSpec.fits row0 nrow col0 ncol h x y).
    { clear - W1 W2 W3 W4 Wok. unfold WholeFlowSpec.fits. unfold window_ok, inside_row, inside_col, inside in *. destruct (q_zone q); cbn in *; lia. }
    destruct Win as (Y1 & Y2 & Y3 & Y4 & Y5 & Y6 & Y7).
    refine (flow_agree nan lstsq resample open_raster one subpix (Z.to_nat n) h q (with_zone q None) rows cols row0 nrow col0 ncol _ _ _ _ x y vr vc vs vr' vc' vs' dr dc s
      _ _ _ _ _ _ S1 S2 _ _ Y1 Y2 Y3 Y4 Y7 _ _ R C _ _ Fd Fd'); try reflexivity; try assumption; try lia.
    - intros d Hd D1 D2. pose proof (proj1 (Wre _ _ x y d W1 W3 Y5 Y6) Hd ltac:(lia)). pose proof (proj1 (Wre _ _ x y d W2 W3 Y5 Y6) Hd ltac:(lia)). lia.
    - intros d Hd D1 D2. pose proof (proj2 (Wre _ _ x y d W1 W3 Y5 Y6) Hd ltac:(lia)). pose proof (proj2 (Wre _ _ x y d W1 W4 Y5 Y6) Hd ltac:(lia)). lia.
    - apply Ll; assumption.
    - apply Lr; assumption.
  Qed.

  (** Interpolation, any step: the pixels farther from the borders of the ROI than the half window and the 3 pixels added to the disparities. *)
  Theorem C99_interpolation pixel_cost half subpix user user' q rows cols left right completed out out' saved saved' x y vr vc vs vr' vc' vs' :
    libraries -> cost_contract pixel_cost -> uses_numbers interp minimise -> 0 <= half -> single_value one (q_invalid q) ->
    programmed user q rows cols false true -> programmed user' (with_zone q None) rows cols false true ->
    get_path ["pipeline"; "refinement"; "refinement_method"] (JDict user) = Some (JStr "interpolation") -> get_path ["pipeline"; "refinement"; "refinement_method"] (JDict user') = Some (JStr "interpolation") ->
    matching_of user left right completed subpix -> matching_of user' left right completed subpix ->
    same_middle open_raster (q_row_init q) 0 rows 0 cols -> same_middle open_raster (q_col_init q) 0 rows 0 cols ->
    local_cost pixel_cost half left right completed subpix rows cols ->
    main user = Some out -> o_maps out = Some saved -> main user' = Some out' -> o_maps out' = Some saved' ->
    inner q rows cols (half + 3) x y -> pixel_of saved x y vr vc vs -> pixel_of saved' x y vr' vc' vs' ->
    same_cost vr vr' /\ same_cost vc vc' /\ same_cost vs vs'.
  Proof.
    intros L K Un Hh Sv Pr Pr' Ar Ar' Mo Mo' Sr Sc Lo M O M' O' Hin P P'.
    destruct (C93_interpolation_exact px_eqb nan bool_ok pandora_check matching_cost_margins can_open_mandatory can_open images_ok image_size open_raster load transform_of dataset_ok
      measure_of offset_of pandora_cost zoomed one store filter_apply lstsq resample junk interp minimise estimate global_margins margins_to_dict
      pixel_cost user q rows cols false left right completed subpix L K Pr Ar ltac:(auto) Mo) as (q1 & row0 & nrow & col0 & ncol & o1 & sv1 & (Wok & -> & Wre) & M1 & O1 & R1 & B1).
    rewrite M in M1. injection M1 as <-. rewrite O in O1. injection O1 as <-.
    destruct (C93_interpolation_exact px_eqb nan bool_ok pandora_check matching_cost_margins can_open_mandatory can_open images_ok image_size open_raster load transform_of dataset_ok
      measure_of offset_of pandora_cost zoomed one store filter_apply lstsq resample junk interp minimise estimate global_margins margins_to_dict
      pixel_cost user' (with_zone q None) rows cols false left right completed subpix L K Pr' Ar' ltac:(auto) Mo') as (q1' & row0' & nrow' & col0' & ncol' & o1' & sv1' & (Wok' & -> & _) & M1' & O1' & R1' & B1').
    rewrite M' in M1'. injection M1' as <-. rewrite O' in O1'. injection O1' as <-.
    unfold window_ok in Wok'. cbn [with_zone q_zone] in Wok'. destruct Wok' as (-> & -> & -> & ->).
    assert (Hsub : 1 <= subpix).
    { destruct L as (_ & L2 & _). destruct Mo as (m & cfg & st & D1 & D2 & D3 & D4 & D5 & D6). unfold matching_cost_init in D5.
      destruct (matching_cost_check_conf st) as [[|[k1 j1] [|[k2 [| | | | | | |[|s1 [|s2 []]]|]] []]]|]; try discriminate. destruct (pandora_check (assign "step" s2 st)) as [[[jw js] jo]|] eqn:Ep; [|discriminate].
      injection D5 as <-. destruct (L2 _ _ _ _ Ep) as (m0 & In0 & Pn0 & _). cbn in D6. rewrite (int_value_as_int _ _ _ In0) in D6. injection D6 as <-. exact Pn0. }
    assert (Hone : 0 < one) by apply L.
    destruct R1 as (_ & _ & I1 & I2 & _), R1' as (_ & _ & I1' & I2' & _).
    assert (P0 := P). destruct P0 as (a & b & A1 & A2 & _). assert (P0' := P'). destruct P0' as (a' & b' & A1' & A2' & _). cbv zeta in B1, B1'.
    destruct (B1 x y (nth_error_In _ _ A1) (nth_error_In _ _ A2)) as (wr & wc & ws & Pw & Best). destruct (pixel_values _ _ _ _ _ _ _ _ _ I1 I2 P Pw) as (<- & <- & <-).
    destruct (B1' x y (nth_error_In _ _ A1') (nth_error_In _ _ A2')) as (wr' & wc' & ws' & Pw' & Best'). destruct (pixel_values _ _ _ _ _ _ _ _ _ I1' I2' P' Pw') as (<- & <- & <-).
    cbn [with_zone q_row_init q_col_init q_row_range q_col_range q_invalid] in Best'.
    assert (Win : 0 <= row0 /\ row0 + Z.of_nat nrow <= Z.of_nat rows /\ 0 <= col0 /\ col0 + Z.of_nat ncol <= Z.of_nat cols /\ row0 <= x < row0 + Z.of_nat nrow /\ col0 <= y < col0 + Z.of_nat ncol).
    { destruct Hin as (W1 & W2 & W3 & W4). clear - W1 W2 W3 W4 Wok Hh. unfold window_ok, inside_row, inside_col, inside in *. destruct (q_zone q); cbn in *; lia. }
    destruct Win as (Y1 & Y2 & Y3 & Y4 & Y5 & Y6).
    assert (Hc : forall dr dc tr tc, candidate open_raster (q_row_init q) (q_row_range q) subpix x y dr -> candidate open_raster (q_col_init q) (q_col_range q) subpix x y dc -> Z.abs tr <= 3 * subpix -> Z.abs tc <= 3 * subpix ->
      window_cost pixel_cost left right completed subpix row0 nrow col0 ncol x y (dr + tr) (dc + tc) = window_cost pixel_cost left right completed subpix 0 rows 0 cols x y (dr + tr) (dc + tc)).
    { intros dr dc tr tc Hr0 Hc0 Ha Hb. apply (inner_costs pixel_cost half 3 subpix q); auto; lia. }
    assert (Same : forall init range r1 n1 c1 m1 d, same_middle open_raster init 0 rows 0 cols -> 0 <= r1 -> r1 + Z.of_nat n1 <= Z.of_nat rows -> 0 <= c1 -> c1 + Z.of_nat m1 <= Z.of_nat cols ->
      r1 <= x < r1 + Z.of_nat n1 -> c1 <= y < c1 + Z.of_nat m1 -> of_the_window open_raster init range subpix r1 n1 c1 m1 d <-> candidate open_raster init range subpix x y d).
    { intros init range r1 n1 c1 m1 d Sm X1 X2 X3 X4 X5 X6. split.
      - intros Hd. eapply all_candidates; try exact Hd; try eassumption; lia.
      - intros Hd. exists x, y, d, x, y, d. split; [split; assumption|]. split; [split; assumption|]. split; [exact Hd|]. split; [exact Hd | lia]. }
    assert (Eqv : forall sample sample' a0 b0 a0' b0',
      sampled (candidate open_raster (q_row_init q) (q_row_range q) subpix x y) (candidate open_raster (q_col_init q) (q_col_range q) subpix x y)
        (of_the_window open_raster (q_row_init q) (q_row_range q) subpix row0 nrow col0 ncol) (of_the_window open_raster (q_col_init q) (q_col_range q) subpix row0 nrow col0 ncol)
        (window_cost pixel_cost left right completed subpix row0 nrow col0 ncol x y) sample ->
      sampled (candidate open_raster (q_row_init q) (q_row_range q) subpix x y) (candidate open_raster (q_col_init q) (q_col_range q) subpix x y)
        (of_the_window open_raster (q_row_init q) (q_row_range q) subpix 0 rows 0 cols) (of_the_window open_raster (q_col_init q) (q_col_range q) subpix 0 rows 0 cols)
        (window_cost pixel_cost left right completed subpix 0 rows 0 cols x y) sample' ->
      interpolated interp minimise one subpix (measure_of completed) (of_the_window open_raster (q_row_init q) (q_row_range q) subpix row0 nrow col0 ncol)
        (of_the_window open_raster (q_col_init q) (q_col_range q) subpix row0 nrow col0 ncol) sample a0 b0 vr vc vs ->
      interpolated interp minimise one subpix (measure_of completed) (of_the_window open_raster (q_row_init q) (q_row_range q) subpix 0 rows 0 cols)
        (of_the_window open_raster (q_col_init q) (q_col_range q) subpix 0 rows 0 cols) sample' a0' b0' vr' vc' vs' ->
      num_eq a0 a0' -> num_eq b0 b0' -> same_cost vr vr' /\ same_cost vc vc' /\ same_cost vs vs').
    { intros sample sample' a0 b0 a0' b0' Sa Sa' J J' Na Nb.
      assert (E : forall a b, sample a b = window_cost pixel_cost left right completed subpix row0 nrow col0 ncol x y a b).
      { eapply sampled_all; [| |exact Sa]; intros d Hd; eapply Same; try exact Hd; try eassumption; lia. }
      assert (E' : forall a b, sample' a b = window_cost pixel_cost left right completed subpix 0 rows 0 cols x y a b).
      { eapply sampled_all; [| |exact Sa']; intros d Hd; eapply Same; try exact Hd; try eassumption; lia. }
      eapply interpolated_all in J; [|intros d; apply Same; eassumption | intros d; apply Same; eassumption].
      eapply interpolated_all in J'; [|intros d; apply Same; try eassumption; lia | intros d; apply Same; try eassumption; lia].
      refine (interpolated_unique interp minimise one subpix _ _ _ sample sample' _ _ _ _ _ _ _ _ _ _ Un _ Na Nb J J').
      intros lor hir loc hic dr dc Hr Hc0 Lr Lc Dr Dc. rewrite E, E'.
      assert (Near : forall lo hi d, lo <= hi -> lo - 3 * subpix <= d <= hi + 3 * subpix -> exists t, lo <= d - t <= hi /\ Z.abs t <= 3 * subpix).
      { clear - Hsub. intros lo hi d H1 H2. destruct (Z_lt_dec d lo); [exists (d - lo); lia|]. destruct (Z_lt_dec hi d); [exists (d - hi); lia | exists 0; lia]. }
      destruct (Near lor hir dr Lr Dr) as (tr & T1 & T2). destruct (Near loc hic dc Lc Dc) as (tc & T3 & T4).
      replace dr with (dr - tr + tr) by lia. replace dc with (dc - tc + tc) by lia. apply Hc; auto; [now apply Hr | now apply Hc0]. }
    destruct (best_unique _ _ _ _ _ _ _ _ _ _ _ (fun d => iff_refl _) (fun d => iff_refl _)
      (fun dr dc Hr0 Hc0 => eq_trans (f_equal2 _ (eq_sym (Z.add_0_r dr)) (eq_sym (Z.add_0_r dc))) (eq_trans (Hc dr dc 0 0 Hr0 Hc0 ltac:(lia) ltac:(lia)) (f_equal2 _ (Z.add_0_r dr) (Z.add_0_r dc)))) (best_keep _ _ _ _ _ _ Best) Best')
      as [(N & N')|(dr & dc & s & (Fd & R & C & _) & Fd')].
    - destruct N as (w & a0 & Sw & Fw & sample & Sa & J). destruct N' as (w' & a0' & Sw' & Fw' & sample' & Sa' & J').
      assert (Na : num_eq a0 a0') by (eapply finite_part_eq; [apply Sv; [exact Sw | exact Sw'] | exact Fw | exact Fw']).
      exact (Eqv _ _ _ _ _ _ Sa Sa' J J' Na Na).
    - destruct Fd as (a0 & b0 & Pa & Pb & sample & Sa & J). destruct Fd' as (a0' & b0' & Pa' & Pb' & sample' & Sa' & J').
      exact (Eqv _ _ _ _ _ _ Sa Sa' J J' (in_pixels_eq _ _ _ _ Pa Pa') (in_pixels_eq _ _ _ _ Pb Pb')).
  Qed.
End Program.

(** ** Examples: a ROI of 7 rows and 7 columns, whose loaded window is not the whole image *)
Definition w14_roi : dict := [("ROI", JDict [("row", JDict [("first", JInt 0); ("last", JInt 6)]); ("col", JDict [("first", JInt 0); ("last", JInt 6)])])].
Definition w14_user (roi more : dict) : dict := wh_user [JInt 1; JInt 1] (wh_disp (JInt 1) 1) (wh_disp (JInt (-1)) 1) roi more.
Definition w14_request (z : option zone) : request := mkRequest (JInt 1) 1 (JInt (-1)) 1 1 1 z JNan.
Definition w14_zone : option zone := Some (mkZone 0 6 0 6).
Ltac w14_wf := unfold w14_user, w14_roi, wh_user, wh_dichotomy, w5_interpolation, wh_disp; cbn [app]; solve_wf.
Ltac w14_asked_tac := split; [w14_wf|]; split; [apply wh_checked; [w14_wf | vm_compute; discriminate]|]; w8_rest.
Lemma w14_programmed : w5_programmed (w14_user w14_roi wh_dichotomy) (w14_request w14_zone) 8 9 false true /\ w5_programmed (w14_user [] wh_dichotomy) (w14_request None) 8 9 false true /\
  w5_programmed (w14_user w14_roi w5_interpolation) (w14_request w14_zone) 8 9 false true /\ w5_programmed (w14_user [] w5_interpolation) (w14_request None) 8 9 false true.
Proof. split; [|split; [|split]]; (split; [split; [w14_asked_tac | intros s H; discriminate H] | eexists; split; reflexivity]). Qed.
Lemma w14_same v : same_middle wh_raster (JInt v) 0 8 0 9.
Proof. eapply constant_same. constructor. Qed.
(** The pixel at the row 3 and the column 3. *)
Definition w14_runs (main : dict -> option outcome) (user : dict) (x y : Z) : Prop := exists out saved vr vc vs, main user = Some out /\ o_maps out = Some saved /\ pixel_of saved x y vr vc vs.
Example C99_dichotomy_example : exists l r c f, libraries true wh_pandora (fun _ _ _ _ => true) wh_size wh_load (fun _ => true) (fun _ => MeasureMin) w3_cost 512 /\
  dichotomy_libraries true wh_pandora w3_cost 512 (fun x => x) /\ cost_contract (fun _ => MeasureMin) w3_cost w3_pixel /\
  w5_programmed (w14_user w14_roi wh_dichotomy) (w14_request w14_zone) 8 9 false true /\ w5_programmed (w14_user [] wh_dichotomy) (with_zone (w14_request w14_zone) None) 8 9 false true /\
  asks_refinement true (w14_user w14_roi wh_dichotomy) "dichotomy" 2 /\ asks_refinement true (w14_user [] wh_dichotomy) "dichotomy" 2 /\
  w6_matching_of (w14_user w14_roi wh_dichotomy) l r c 1 /\ w6_matching_of (w14_user [] wh_dichotomy) l r c 1 /\
  w10_filter_of (w14_user w14_roi wh_dichotomy) f /\ w10_filter_of (w14_user [] wh_dichotomy) f /\ filter_support true f 4 1 /\
  same_middle wh_raster (JInt 1) 0 8 0 9 /\ same_middle wh_raster (JInt (-1)) 0 8 0 9 /\ local_cost Z.eqb wh_load (fun _ _ _ _ => 0) w3_pixel 1 l r c 1 8 9 /\
  inner (w14_request w14_zone) 8 9 (1 + (Z.of_nat 1 + 1)) 3 3 /\ w14_runs w6_main (w14_user w14_roi wh_dichotomy) 3 3 /\ w14_runs w6_main (w14_user [] wh_dichotomy) 3 3.
Proof.
  destruct w14_programmed as (P1 & P2 & _). 
  destruct (w6_matching (w14_user w14_roi wh_dichotomy)) as [[[[l r] c] n]|] eqn:E; [|exfalso; vm_compute in E; discriminate]. assert (n = 1) as -> by (vm_compute in E; congruence).
  assert (E' : w6_matching (w14_user [] wh_dichotomy) = Some (l, r, c, 1)) by (rewrite <- E; vm_compute; reflexivity). apply w6_matching_spec in E, E'.
  assert (A1 : asks_refinement true (w14_user w14_roi wh_dichotomy) "dichotomy" 2) by (split; [reflexivity | left; wh_leaf]). assert (A2 : asks_refinement true (w14_user [] wh_dichotomy) "dichotomy" 2) by (split; [reflexivity | left; wh_leaf]).
  assert (Run : forall user q, w5_programmed user q 8 9 false true -> asks_refinement true user "dichotomy" 2 -> q_row_step q = 1 -> q_col_step q = 1 -> w6_matching_of user l r c 1 ->
    wanted_row q 8 3 -> wanted_col q 9 3 -> w14_runs w6_main user 3 3).
  { intros user q Pq Aq S1 S2 Mq R C. destruct (C83_dichotomy Z.eqb 0 true wh_pandora (fun _ => mkMargins 1 1 1 1) (fun _ => true) (fun _ => true) (fun _ _ _ _ => true) wh_size wh_raster wh_load w3_transform (fun _ => true)
      (fun _ => MeasureMin) (fun _ => 1) w3_cost (fun _ _ _ _ => 0) 512 (fun x => x) w6_filter w6_lstsq (fun w _ _ => w) (fun _ => []) ex_interp ex_minimise w3_estimate wh_margins wh_dict
      w3_pixel user q 8 9 false 2 l r c 1 w3_libraries w6_dichotomy_libraries w3_contract Pq Aq S1 S2 Mq) as (q' & row0 & nrow & col0 & ncol & out & saved & (_ & -> & _) & M & O & (R1 & R2 & _) & B).
    destruct (B 3 3) as (vr & vc & vs & Px & _); [now apply R1 | now apply R2 |]. exists out, saved, vr, vc, vs. split; [exact M|]. split; [exact O | exact Px]. }
  exists l, r, c, [("method", JStr "bicubic")]. split; [exact w3_libraries|]. split; [exact w6_dichotomy_libraries|]. split; [exact w3_contract|]. do 6 (split; [assumption|]).
  split; [apply w10_filter_spec; vm_compute; reflexivity|]. split; [apply w10_filter_spec; vm_compute; reflexivity|]. split; [left; repeat split|].
  split; [apply w14_same|]. split; [apply w14_same|]. split; [apply w3_local|]. split; [unfold inner, inside_row, inside_col, WholeSpec.inside; cbn; lia|].
  split; [eapply Run; try eassumption; try reflexivity | eapply Run; try eassumption; try reflexivity]; unfold wanted_row, wanted_col, wanted; cbn; rewrite ?Z.mod_1_r; lia.
Qed.

(** Optical flow in a ROI of 5 rows and 5 columns. *)
Definition w14_roi2 : dict := [("ROI", JDict [("row", JDict [("first", JInt 0); ("last", JInt 4)]); ("col", JDict [("first", JInt 0); ("last", JInt 4)])])].
Definition w14_zone2 : option zone := Some (mkZone 0 4 0 4).
Ltac w14_wf2 := unfold w6_user, w14_roi2, wh_disp; cbn [app]; solve_wf.
Lemma w14_programmed2 : w5_programmed (w6_user [JInt 1; JInt 1] w14_roi2) (w6_request 1 1 w14_zone2) 8 9 false true /\ w5_programmed (w6_user [JInt 1; JInt 1] []) (w6_request 1 1 None) 8 9 false true.
Proof. split; (split; [split; [split; [w14_wf2|]; split; [apply wh_checked; [w14_wf2 | vm_compute; discriminate]|]; w8_rest | intros s H; discriminate H] | eexists; split; reflexivity]). Qed.
Lemma w14_loaded s rows cols : loaded_parts wh_load s rows cols.
Proof. intros row0 nrow col0 ncol H1 H2 H3 H4 x y Hx Hy. cbn [wh_load im_data a2_get]. rewrite !Z2Nat.id by lia. rewrite !Z.add_0_l. replace (row0 + (x - row0)) with x by lia. replace (col0 + (y - col0)) with y by lia. reflexivity. Qed.
Example C99_optical_flow_example : exists l r c, libraries true wh_pandora (fun _ _ _ _ => true) wh_size wh_load (fun _ => true) (fun _ => MeasureMin) w3_cost 512 /\
  cost_contract (fun _ => MeasureMin) w3_cost w3_pixel /\
  w5_programmed (w6_user [JInt 1; JInt 1] w14_roi2) (w6_request 1 1 w14_zone2) 8 9 false true /\ w5_programmed (w6_user [JInt 1; JInt 1] []) (with_zone (w6_request 1 1 w14_zone2) None) 8 9 false true /\
  asks_refinement true (w6_user [JInt 1; JInt 1] w14_roi2) "optical_flow" 4 /\ asks_refinement true (w6_user [JInt 1; JInt 1] []) "optical_flow" 4 /\
  w6_matching_of (w6_user [JInt 1; JInt 1] w14_roi2) l r c 1 /\ w6_matching_of (w6_user [JInt 1; JInt 1] []) l r c 1 /\ int_at true ["window_size"] c = Some 3 /\ 1 = (3 - 1) / 2 /\
  flow_room 3 (w6_request 1 1 w14_zone2) 8 9 /\ flow_room 3 (with_zone (w6_request 1 1 w14_zone2) None) 8 9 /\ local_cost Z.eqb wh_load (fun _ _ _ _ => 0) w3_pixel ((3 - 1) / 2) l r c 1 8 9 /\
  loaded_parts wh_load l 8 9 /\ loaded_parts wh_load r 8 9 /\ inner (w6_request 1 1 w14_zone2) 8 9 ((3 - 1) / 2) 2 2 /\
  w14_runs w6_main (w6_user [JInt 1; JInt 1] w14_roi2) 2 2 /\ w14_runs w6_main (w6_user [JInt 1; JInt 1] []) 2 2.
Proof.
  destruct w14_programmed2 as (P1 & P2).
  destruct (w6_matching (w6_user [JInt 1; JInt 1] w14_roi2)) as [[[[l r] c] n]|] eqn:E; [|exfalso; vm_compute in E; discriminate]. assert (n = 1) as -> by (vm_compute in E; congruence).
  assert (E' : w6_matching (w6_user [JInt 1; JInt 1] []) = Some (l, r, c, 1)) by (rewrite <- E; vm_compute; reflexivity).
  assert (W : int_at true ["window_size"] c = Some 3) by (vm_compute in E; injection E as <- <- <-; reflexivity). apply w6_matching_spec in E, E'.
  assert (A1 : asks_refinement true (w6_user [JInt 1; JInt 1] w14_roi2) "optical_flow" 4) by (split; [reflexivity | right; split; [reflexivity|]; split; reflexivity]).
  assert (A2 : asks_refinement true (w6_user [JInt 1; JInt 1] []) "optical_flow" 4) by (split; [reflexivity | right; split; [reflexivity|]; split; reflexivity]).
  assert (F1 : flow_room 3 (w6_request 1 1 w14_zone2) 8 9) by (split; cbn; lia). assert (F2 : flow_room 3 (w6_request 1 1 None) 8 9) by (split; reflexivity).
  assert (Run : forall user q, w5_programmed user q 8 9 false true -> asks_refinement true user "optical_flow" 4 -> q_row_step q = 1 -> q_col_step q = 1 -> flow_room 3 q 8 9 -> w6_matching_of user l r c 1 ->
    wanted_row q 8 2 -> wanted_col q 9 2 -> w14_runs w6_main user 2 2).
  { intros user q Pq Aq S1 S2 Fq Mq R C. destruct (C92_optical_flow_exact Z.eqb 0 true wh_pandora (fun _ => mkMargins 1 1 1 1) (fun _ => true) (fun _ => true) (fun _ _ _ _ => true) wh_size wh_raster wh_load w3_transform (fun _ => true)
      (fun _ => MeasureMin) (fun _ => 1) w3_cost (fun _ _ _ _ => 0) 512 (fun x => x) w6_filter w6_lstsq (fun w _ _ => w) (fun _ => []) ex_interp ex_minimise w3_estimate wh_margins wh_dict
      w3_pixel user q 8 9 false 4 l r c 1 3 w3_libraries w3_contract Pq Aq ltac:(auto) ltac:(auto) Mq W eq_refl Fq) as (q' & row0 & nrow & col0 & ncol & out & saved & (_ & -> & _) & M & O & (R1 & R2 & _) & B).
    destruct (B 2 2) as (vr & vc & vs & Px & _); [now apply R1 | now apply R2 |]. exists out, saved, vr, vc, vs. split; [exact M|]. split; [exact O | exact Px]. }
  exists l, r, c. split; [exact w3_libraries|]. split; [exact w3_contract|]. do 7 (split; [assumption|]). split; [reflexivity|]. do 2 (split; [assumption|]). split; [apply w3_local|].
  split; [apply w14_loaded|]. split; [apply w14_loaded|]. split; [unfold inner, inside_row, inside_col, WholeSpec.inside; cbn; lia|].
  split; [eapply Run; try eassumption; try reflexivity | eapply Run; try eassumption; try reflexivity]; unfold wanted_row, wanted_col, wanted; cbn; rewrite ?Z.mod_1_r; lia.
Qed.

(** Interpolation with windows of one pixel. *)
Lemma w14_local l rg c rows cols : local_cost Z.eqb wh_load (fun _ _ _ _ => 0) wh_pixel 0 l rg c 1 rows cols.
Proof.
  assert (V : forall row0 nrow col0 ncol x y dr dc, row0 <= x < row0 + Z.of_nat nrow -> col0 <= y < col0 + Z.of_nat ncol ->
    pair_cost Z.eqb (wh_pixel c (wh_load l row0 nrow col0 ncol)) (fun _ _ => 0) (wh_load rg row0 nrow col0 ncol) 1 row0 col0 x y dr dc =
    if w3_in row0 (Z.of_nat nrow) (x + dr) && w3_in col0 (Z.of_nat ncol) (y + dc) then Fin (Z.abs (w3_image l x y - w3_image rg (x + dr) (y + dc))) else NaN).
  { intros row0 nrow col0 ncol x y dr dc Hx Hy. unfold pair_cost.
    pose proof (w3_at_value (fun _ _ => 0) l rg row0 nrow col0 ncol (x - row0) (y - col0) dr dc) as W. unfold w3_at in W. unfold wh_pixel. rewrite !Z2Nat.id by lia.
    destruct (Z.leb_spec 0 (x - row0)); [|lia]. destruct (Z.leb_spec 0 (y - col0)); [|lia]. cbn [andb] in W. replace (row0 + (x - row0)) with x in W by lia. replace (col0 + (y - col0)) with y in W by lia.
    assert (E : (w3_in 0 (Z.of_nat nrow) (x - row0) && w3_in 0 (Z.of_nat ncol) (y - col0) && w3_in 0 (Z.of_nat nrow) (x - row0 + dr) && w3_in 0 (Z.of_nat ncol) (y - col0 + dc))%bool = w3_in row0 (Z.of_nat nrow) (x + dr) && w3_in col0 (Z.of_nat ncol) (y + dc)).
    { unfold w3_in. apply eq_true_iff_eq. rewrite !andb_true_iff, !Z.leb_le, !Z.ltb_lt. lia. }
    rewrite E in W. destruct (Z.leb 0 (y - col0 + dc)).
    - destruct (nth2 (to_list2 (im_data (wh_load l row0 nrow col0 ncol))) (Z.to_nat (x - row0)) (Z.to_nat (y - col0))) as [a|]; [|destruct (w3_in row0 _ _ && _); [discriminate | reflexivity]].
      destruct (nth2 _ (Z.to_nat (x - row0)) (Z.to_nat (y - col0 + dc))) as [b|]; [|destruct (w3_in row0 _ _ && _); [discriminate | reflexivity]].
      destruct (Z.eqb b (-9999)); destruct (w3_in row0 _ _ && _); try discriminate; [reflexivity|]. now injection W as ->.
    - destruct (w3_in row0 _ _ && _); [discriminate | reflexivity]. }
  intros row0 nrow col0 ncol x y dr dc H1 H2 H3 H4 H5 H6. cbv zeta. change (Z.to_nat 1) with 1%nat. cbv beta. rewrite (V row0 nrow col0 ncol), (V 0 rows 0 cols) by lia.
  assert (B : forall lo n u, w3_in lo n u = true <-> lo <= u < lo + n) by (intros lo n u; unfold w3_in; rewrite andb_true_iff, Z.leb_le, Z.ltb_lt; lia). unfold WholeSpec.fits.
  split.
  - intros F1 F2. rewrite (proj2 (B row0 (Z.of_nat nrow) (x + dr))) by lia. rewrite (proj2 (B col0 (Z.of_nat ncol) (y + dc))) by lia. rewrite (proj2 (B 0 (Z.of_nat rows) (x + dr))) by lia. rewrite (proj2 (B 0 (Z.of_nat cols) (y + dc))) by lia. reflexivity.
  - intros N. split; match goal with |- (if ?X then _ else _) = _ => destruct X eqn:E end; try reflexivity; exfalso; apply andb_true_iff in E; rewrite !B in E; lia.
Qed.
Lemma w14_uses : uses_numbers ex_interp ex_minimise.
Proof.
  split.
  - intros dcol dcol' drow drow' F F' a a' b b' Hc _ HF Ha _. unfold ex_interp. destruct Hc as [|c0 c0' lc lc' E0 Hc]; [exact I|]. destruct Hc as [|c1 c1' lc lc' E1 Hc]; [exact I|].
    destruct HF as [|r r' F F' Hr HF]; [exact I|]. destruct Hr as [|f0 f0' r r' G0 Hr]; [exact I|]. destruct Hr as [|f1 f1' r r' G1 Hr]; [destruct f0, f0'; try contradiction; exact I|].
    destruct f0, f0'; try contradiction; try exact I. destruct f1, f1'; try contradiction; try exact I. destruct a, a'; try contradiction; try exact I. cbn in *. rewrite E0, E1, G0, G1, Ha. reflexivity.
  - intros f f' a a' b b' c0 c0' c1 c1' r0 r0' r1 r1' Hf _ _ E1 E2 E3 E4. unfold ex_minimise.
    assert (A : same_cost (f (Some c0) (Some r0)) (f' (Some c0') (Some r0'))) by (apply Hf; assumption). assert (B : same_cost (f (Some c1) (Some r0)) (f' (Some c1') (Some r0'))) by (apply Hf; assumption).
    destruct (f (Some c0) (Some r0)), (f' (Some c0') (Some r0')); try contradiction; cbn [fst snd]; try (split; assumption).
    destruct (f (Some c1) (Some r0)), (f' (Some c1') (Some r0')); try contradiction; cbn [fst snd]; try (split; assumption). cbn in A, B.
    split; [|exact E3]. cbn. destruct (Qle_bool q q1) eqn:Q1, (Qle_bool q0 q2) eqn:Q2; try assumption; exfalso;
      [apply Qle_bool_iff in Q1; rewrite A, B in Q1; apply Qle_bool_iff in Q1; congruence | apply Qle_bool_iff in Q2; rewrite <- A, <- B in Q2; apply Qle_bool_iff in Q2; congruence].
Qed.
Lemma w14_contract : cost_contract (fun _ => MeasureMin) wh_cost wh_pixel.
Proof. split; [|intros; apply wh_not_worst]. intros c m im a b r cc i y ds d H1 H2 H3. unfold wh_cost. now rewrite H1, H2, H3. Qed.
Definition w14_main : dict -> option outcome :=
  main Z.eqb 0 true wh_pandora (fun _ => mkMargins 2 2 2 2) (fun _ => true) (fun _ => true) (fun _ _ _ _ => true) wh_size wh_raster wh_load (fun _ => None) (fun _ => true)
    (fun _ => MeasureMin) (fun _ => 0) wh_cost (fun _ _ _ _ => 0) 512 (fun x => x) wh_filter (fun _ _ => None) (fun w _ _ => w) (fun _ => []) ex_interp ex_minimise
    w3_estimate wh_margins wh_dict.
Notation w14_matching_of := (matching_of Z.eqb 0 true wh_pandora (fun _ => mkMargins 2 2 2 2) (fun _ => true) (fun _ => true) (fun _ _ _ _ => true) wh_size wh_raster
    (fun _ => MeasureMin) (fun _ => 0) wh_cost (fun _ _ _ _ => 0) 512 (fun x => x) wh_filter (fun _ _ => None) (fun w _ _ => w) (fun _ => []) ex_interp ex_minimise w3_estimate).
Definition w14_check (user : dict) := check_user Z.eqb 0 true wh_pandora (fun _ => mkMargins 2 2 2 2) (fun _ => true) (fun _ => true) (fun _ _ _ _ => true) wh_size wh_raster
    (fun _ => MeasureMin) (fun _ => 0) wh_cost (fun _ _ _ _ => 0) 512 (fun x => x) wh_filter (fun _ _ => None) (fun w _ _ => w) (fun _ => []) ex_interp ex_minimise
    w3_estimate user (new_machine None).
Definition w14_matching (user : dict) : option (dict * dict * dict * Z) :=
  match snd (w14_check user) with
  | Some cfg => match get_path ["input"; "left"] (JDict cfg), get_path ["input"; "right"] (JDict cfg), get_path ["pipeline"; "matching_cost"] (JDict cfg) with
      | Some (JDict l), Some (JDict r), Some (JDict s) => match matching_cost_init wh_pandora s with
          | Some c => match int_at true ["subpix"] c with Some n => Some (l, r, c, n) | None => None end | None => None end
      | _, _, _ => None end
  | None => None end.
Lemma w14_matching_spec user l r c n : w14_matching user = Some (l, r, c, n) -> w14_matching_of user l r c n.
Proof.
  unfold w14_matching. destruct (w14_check user) as [m [cfg|]] eqn:E; [|discriminate]. cbn [snd].
  destruct (get_path ["input"; "left"] (JDict cfg)) as [[| | | | | | | |dl]|] eqn:E1; try discriminate. destruct (get_path ["input"; "right"] (JDict cfg)) as [[| | | | | | | |dr]|] eqn:E2; try discriminate.
  destruct (get_path ["pipeline"; "matching_cost"] (JDict cfg)) as [[| | | | | | | |s]|] eqn:E3; try discriminate. destruct (matching_cost_init wh_pandora s) as [c'|] eqn:E4; [|discriminate].
  destruct (int_at true ["subpix"] c') as [n'|] eqn:E5; [|discriminate]. intros H. injection H as <- <- <- <-. exists m, cfg, s. auto 10.
Qed.
Example C99_interpolation_example : exists l r c, libraries true wh_pandora (fun _ _ _ _ => true) wh_size wh_load (fun _ => true) (fun _ => MeasureMin) wh_cost 512 /\
  cost_contract (fun _ => MeasureMin) wh_cost wh_pixel /\ uses_numbers ex_interp ex_minimise /\ single_value 512 (q_invalid (w14_request w14_zone)) /\
  w5_programmed (w14_user w14_roi w5_interpolation) (w14_request w14_zone) 8 9 false true /\ w5_programmed (w14_user [] w5_interpolation) (with_zone (w14_request w14_zone) None) 8 9 false true /\
  get_path ["pipeline"; "refinement"; "refinement_method"] (JDict (w14_user w14_roi w5_interpolation)) = Some (JStr "interpolation") /\
  get_path ["pipeline"; "refinement"; "refinement_method"] (JDict (w14_user [] w5_interpolation)) = Some (JStr "interpolation") /\
  w14_matching_of (w14_user w14_roi w5_interpolation) l r c 1 /\ w14_matching_of (w14_user [] w5_interpolation) l r c 1 /\
  same_middle wh_raster (JInt 1) 0 8 0 9 /\ same_middle wh_raster (JInt (-1)) 0 8 0 9 /\ local_cost Z.eqb wh_load (fun _ _ _ _ => 0) wh_pixel 0 l r c 1 8 9 /\
  inner (w14_request w14_zone) 8 9 (0 + 3) 3 3 /\ w14_runs w14_main (w14_user w14_roi w5_interpolation) 3 3 /\ w14_runs w14_main (w14_user [] w5_interpolation) 3 3.
Proof.
  destruct w14_programmed as (_ & _ & P1 & P2).
  destruct (w14_matching (w14_user w14_roi w5_interpolation)) as [[[[l r] c] n]|] eqn:E; [|exfalso; vm_compute in E; discriminate]. assert (n = 1) as -> by (vm_compute in E; congruence).
  assert (E' : w14_matching (w14_user [] w5_interpolation) = Some (l, r, c, 1)) by (rewrite <- E; vm_compute; reflexivity). apply w14_matching_spec in E, E'.
  assert (Run : forall user q, w5_programmed user q 8 9 false true -> get_path ["pipeline"; "refinement"; "refinement_method"] (JDict user) = Some (JStr "interpolation") -> q_row_step q = 1 -> q_col_step q = 1 ->
    w14_matching_of user l r c 1 -> wanted_row q 8 3 -> wanted_col q 9 3 -> w14_runs w14_main user 3 3).
  { intros user q Pq Aq S1 S2 Mq R C. destruct (C93_interpolation_exact Z.eqb 0 true wh_pandora (fun _ => mkMargins 2 2 2 2) (fun _ => true) (fun _ => true) (fun _ _ _ _ => true) wh_size wh_raster wh_load (fun _ => None) (fun _ => true)
      (fun _ => MeasureMin) (fun _ => 0) wh_cost (fun _ _ _ _ => 0) 512 (fun x => x) wh_filter (fun _ _ => None) (fun w _ _ => w) (fun _ => []) ex_interp ex_minimise w3_estimate wh_margins wh_dict
      wh_pixel user q 8 9 false l r c 1 wh_libraries w14_contract Pq Aq ltac:(auto) Mq) as (q' & row0 & nrow & col0 & ncol & out & saved & (_ & -> & _) & M & O & (R1 & R2 & _) & B).
    destruct (B 3 3) as (vr & vc & vs & Px & _); [now apply R1 | now apply R2 |]. exists out, saved, vr, vc, vs. split; [exact M|]. split; [exact O | exact Px]. }
  exists l, r, c. split; [exact wh_libraries|]. split; [exact w14_contract|]. split; [exact w14_uses|]. split; [apply single_nan|]. do 2 (split; [assumption|]). do 2 (split; [reflexivity|]). do 2 (split; [assumption|]).
  split; [apply w14_same|]. split; [apply w14_same|]. split; [apply w14_local|]. split; [unfold inner, inside_row, inside_col, WholeSpec.inside; cbn; lia|].
  split; [eapply Run; try eassumption; try reflexivity | eapply Run; try eassumption; try reflexivity]; unfold wanted_row, wanted_col, wanted; cbn; rewrite ?Z.mod_1_r; lia.
Qed.

Print Assumptions C99_dichotomy.
Print Assumptions C99_optical_flow.
Print Assumptions C99_interpolation.
