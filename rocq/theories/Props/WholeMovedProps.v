(** C104: when everything is seen with disparities farther by a translation, the refined disparities are farther too. *)
From Coq Require Import List String Bool ZArith QArith Qabs Lia.
From Verif Require Import Base.Ext Base.PyList Base.Arr Base.Json Base.Dict Base.ZRange Model.CommonModel Model.DisparityModel Model.MatchingCostModel Model.DichotomyModel
  Model.RoiModel Model.InputModel Model.ConfigModel Model.DatasetModel Model.EstimationModel Model.OpticalFlowModel Model.InterpolationModel Model.MachineModel Model.CheckConfModel
  Model.PipelineModel Model.WholeModel Model.LucasKanadeModel Model.ImgShiftModel
  Spec.MatchingCostSpec Spec.DichotomySpec Spec.RoiSpec Spec.PipelineSpec Spec.ConfigSpec Spec.InputSpec Spec.MachineSpec Spec.CheckConfSpec Spec.AcceptSpec Spec.WholeSpec Spec.BestSpec Spec.WtaSpec Spec.ShiftSpec Spec.WholeEverySpec Spec.InterpolationSpec Spec.OpticalFlowSpec Spec.WholeRefineSpec Spec.HalvingSpec Spec.WholeExactSpec Spec.WholeFlowSpec Spec.WholeEndSpec Spec.LucasKanadeSpec Spec.WholeMatchSpec Spec.WholeOrderSpec Spec.WholeRoiSpec Spec.WholeInterpSpec Spec.InterpUniqueSpec Spec.WholeMovedSpec
  Proofs.CheckConfProofs Proofs.ConfigProofs Proofs.ConfigStepProofs Proofs.AcceptProofs Proofs.RoiProofs Proofs.WtaProofs Proofs.WtaTheorems Proofs.MatchingCostProofs Proofs.MatchingCostTheorems Proofs.PipelineProofs Proofs.WholeRunProofs Proofs.WholeProofs Proofs.WholeMainProofs Proofs.HalvingProofs Proofs.BetweenProofs Proofs.RefineBestProofs Proofs.RefineExactProofs Proofs.WholeMoreProofs Proofs.WholeEveryProofs Proofs.WholeRoiProofs Proofs.InterpUniqueProofs Proofs.BestProofs Proofs.RefineBestProofs Proofs.WholeFlowProofs Proofs.WholeEndProofs Proofs.WholeOrderProofs Proofs.WholeMovedProofs
  Props.RoiProps Props.PipelineProps Props.CheckConfProps Props.InterpolationProps Props.WholeProps Props.WholeMoreProps Props.WholeEveryProps Props.WholeRefineProps Props.WholeExactProps Props.WholeCompareProps Props.WholeInterpProps Props.LucasKanadeProps Props.WholeRoiProps Props.WholeMatchProps Props.WholeOrderProps.
Import ListNotations.
Open Scope Z_scope.
Open Scope string_scope.
Open Scope list_scope.

Section Program.
  (** The libraries: see WholeModel. *)
  Context {px : Type} (px_eqb : px -> px -> bool) (nan : px).
  Variable bool_ok : bool.
  Variable pandora_check : dict -> option (json * json * json).
  Variable matching_cost_margins : dict -> margins.
  Variable can_open_mandatory can_open : json -> bool.
  Variable images_ok : json -> json -> json -> json -> bool.
  Variable image_size : string -> nat * nat.
  Variable open_raster : string -> reader.
  Variable load : dict -> Z -> nat -> Z -> nat -> image px.
  Variable transform_of : dict -> option affine.
  Variable dataset_ok : image_dataset (image px) -> bool.
  Variable measure_of : dict -> measure.
  Variable offset_of : dict -> Z.
  Variable pandora_cost : dict -> mc_input -> image px -> list (list px) -> list (list Z) -> nat -> nat -> nat -> ext.
  Variable zoomed : image px -> nat -> nat -> nat -> px.
  Variable one : Z.
  Variable store : ext -> ext.
  Variable filter_apply : dict -> list (list ext) -> Z -> Z -> ext.
  (** The motion of Lucas and Kanade: see LucasKanadeModel. *)
  Variable lstsq : list (list px) -> list (list px) -> option (num * num).
  Variable resample : list (list px) -> num -> num -> list (list px).
  Variable junk : nat -> list (list px).
  Variable interp : list Q -> list Q -> list (list cost) -> num -> num -> cost.
  Variable minimise : (num -> num -> cost) -> num * num -> (Q * Q) * (Q * Q) -> num * num.
  Variable estimate : json -> image px -> image px -> (Q * Q) * json * json.
  Variable global_margins : list (string * margins) -> list (string * margins) -> margins.
  Variable margins_to_dict : list (string * margins) -> list (string * margins) -> json.
  Notation main := (main px_eqb nan bool_ok pandora_check matching_cost_margins can_open_mandatory can_open images_ok image_size open_raster load transform_of dataset_ok
    measure_of offset_of pandora_cost zoomed one store filter_apply lstsq resample junk interp minimise estimate global_margins margins_to_dict).
  Notation check_user := (check_user px_eqb nan bool_ok pandora_check matching_cost_margins can_open_mandatory can_open images_ok image_size open_raster
    measure_of offset_of pandora_cost zoomed one store filter_apply lstsq resample junk interp minimise estimate).
  Notation libraries := (libraries bool_ok pandora_check images_ok image_size load dataset_ok measure_of pandora_cost one).
  Notation dichotomy_libraries := (dichotomy_libraries bool_ok pandora_check pandora_cost one store).
  Notation asked := (asked bool_ok pandora_check can_open_mandatory can_open images_ok image_size open_raster).
  Notation asked_estimation := (asked_estimation bool_ok pandora_check can_open_mandatory can_open images_ok image_size open_raster).
  Notation cost_contract := (cost_contract measure_of pandora_cost).

  Notation programmed := (programmed bool_ok pandora_check can_open_mandatory can_open images_ok image_size open_raster).
  Notation matching_of := (matching_of px_eqb nan bool_ok pandora_check matching_cost_margins can_open_mandatory can_open images_ok image_size open_raster measure_of offset_of pandora_cost zoomed one
    store filter_apply lstsq resample junk interp minimise estimate).
  Notation estimated_request := (estimated_request px_eqb nan bool_ok pandora_check matching_cost_margins can_open_mandatory can_open images_ok image_size open_raster load
    measure_of offset_of pandora_cost zoomed one store filter_apply lstsq resample junk interp minimise estimate).
  (** The request with the disparities that are searched, in the window that is loaded. *)
  Notation searched := (searched bool_ok pandora_check can_open_mandatory can_open images_ok image_size open_raster).
  Notation window_cost := (window_cost px_eqb load zoomed).

  Notation local_cost := (local_cost px_eqb load zoomed).
  Notation filter_of := (filter_of px_eqb nan bool_ok pandora_check matching_cost_margins can_open_mandatory can_open images_ok image_size open_raster measure_of offset_of pandora_cost zoomed one
    store filter_apply lstsq resample junk interp minimise estimate).


  Notation searched_in := (searched_in px_eqb nan bool_ok pandora_check matching_cost_margins can_open_mandatory can_open images_ok image_size open_raster load
    measure_of offset_of pandora_cost zoomed one store filter_apply lstsq resample junk interp minimise estimate).

  Lemma searched_steps user q p rows cols e row0 nrow col0 ncol : searched_in user q p rows cols e row0 nrow col0 ncol -> q_row_step p = q_row_step q /\ q_col_step p = q_col_step q.
  Proof.
    intros (_ & H). destruct e; [destruct H as (m & cfg & l & r & st & sh & er & ph & ir & ic & _ & _ & _ & _ & _ & _ & _ & -> & _); split; reflexivity | destruct H as (-> & _); split; reflexivity].
  Qed.

  (** * C104: a dichotomy. Two pixels, of two runs, with the same costs up to a translation (kr, kc) of the disparities: the refined disparities differ by this translation, the scores are the same. *)
  Theorem C104_dichotomy pixel_cost user user' q q' rows cols rows' cols' e e' n left right completed left' right' completed' subpix f size before :
    libraries -> dichotomy_libraries -> cost_contract pixel_cost -> programmed user q rows cols e true -> programmed user' q' rows' cols' e' true ->
    asks_refinement bool_ok user "dichotomy" n -> asks_refinement bool_ok user' "dichotomy" n -> q_row_step q = 1 -> q_col_step q = 1 -> q_row_step q' = 1 -> q_col_step q' = 1 ->
    matching_of user left right completed subpix -> matching_of user' left' right' completed' subpix -> measure_of completed = measure_of completed' ->
    filter_of user f -> filter_of user' f -> filter_support bool_ok f size before ->
    exists p row0 nrow col0 ncol out saved p' row0' nrow' col0' ncol' out' saved',
      searched_in user q p rows cols e row0 nrow col0 ncol /\ main user = Some out /\ o_maps out = Some saved /\
      searched_in user' q' p' rows' cols' e' row0' nrow' col0' ncol' /\ main user' = Some out' /\ o_maps out' = Some saved' /\
      let rows_of x y := candidate open_raster (q_row_init p) (q_row_range p) subpix x y in let cols_of x y := candidate open_raster (q_col_init p) (q_col_range p) subpix x y in
      let rows_of' x y := candidate open_raster (q_row_init p') (q_row_range p') subpix x y in let cols_of' x y := candidate open_raster (q_col_init p') (q_col_range p') subpix x y in
      let cost := window_cost pixel_cost left right completed subpix row0 nrow col0 ncol in let cost' := window_cost pixel_cost left' right' completed' subpix row0' nrow' col0' ncol' in
      forall x y x' y' kr kc, In x (dm_rows saved) -> In y (dm_cols saved) -> In x' (dm_rows saved') -> In y' (dm_cols saved') ->
        moved_by (rows_of x y) (rows_of' x' y') kr -> moved_by (cols_of x y) (cols_of' x' y') kc ->
        moved_by (of_the_window open_raster (q_row_init p) (q_row_range p) subpix row0 nrow col0 ncol) (of_the_window open_raster (q_row_init p') (q_row_range p') subpix row0' nrow' col0' ncol') kr ->
        moved_by (of_the_window open_raster (q_col_init p) (q_col_range p) subpix row0 nrow col0 ncol) (of_the_window open_raster (q_col_init p') (q_col_range p') subpix row0' nrow' col0' ncol') kc ->
        (forall dr dc a b, rows_of x y dr -> cols_of x y dc -> Z.abs (a - dr) <= Z.of_nat before + 1 -> Z.abs (b - dc) <= Z.of_nat before + 1 -> cost' x' y' (a + kr) (b + kc) = cost x y a b) ->
        (forall d, rows_of x y d -> not_invalid one subpix p d) -> (forall d, cols_of x y d -> not_invalid one subpix p d) ->
        (forall d, rows_of' x' y' d -> not_invalid one subpix p' d) -> (forall d, cols_of' x' y' d -> not_invalid one subpix p' d) ->
        exists vr vc vs vr' vc' vs', pixel_of saved x y vr vc vs /\ pixel_of saved' x' y' vr' vc' vs' /\
          ((shows one (q_invalid p) vr /\ shows one (q_invalid p) vc /\ vs = CNan) /\ (shows one (q_invalid p') vr' /\ shows one (q_invalid p') vc' /\ vs' = CNan) /\
             (forall dr dc, rows_of x y dr -> cols_of x y dc -> cost x y dr dc = NaN) \/
           farther kr subpix vr vr' /\ farther kc subpix vc vc' /\ same_cost vs vs').
  Proof.
    intros L D K Pr Pr' Ar Ar' S1 S2 S1' S2' Mo Mo' Et Fo Fo' Fs.
    destruct (C91_dichotomy_exact px_eqb nan bool_ok pandora_check matching_cost_margins can_open_mandatory can_open images_ok image_size open_raster load transform_of dataset_ok
      measure_of offset_of pandora_cost zoomed one store filter_apply lstsq resample junk interp minimise estimate global_margins margins_to_dict
      pixel_cost user q rows cols e n left right completed subpix f size before L D K Pr Ar S1 S2 Mo Fo Fs) as (p & row0 & nrow & col0 & ncol & out & saved & Sn & M & O & B).
    destruct (C91_dichotomy_exact px_eqb nan bool_ok pandora_check matching_cost_margins can_open_mandatory can_open images_ok image_size open_raster load transform_of dataset_ok
      measure_of offset_of pandora_cost zoomed one store filter_apply lstsq resample junk interp minimise estimate global_margins margins_to_dict
      pixel_cost user' q' rows' cols' e' n left' right' completed' subpix f size before L D K Pr' Ar' S1' S2' Mo' Fo' Fs) as (p' & row0' & nrow' & col0' & ncol' & out' & saved' & Sn' & M' & O' & B').
    exists p, row0, nrow, col0, ncol, out, saved, p', row0', nrow', col0', ncol', out', saved'. do 6 (split; [assumption|]). cbv zeta in *. intros x y x' y' kr kc Hx Hy Hx' Hy' Mr Mc Mar Mac Ec Ni1 Ni2 Ni3 Ni4.
    assert (Hsub : 1 <= subpix /\ (subpix | one) /\ exists k, subpix = 2 ^ Z.of_nat k).
    { destruct L as (_ & L2 & _). destruct D as (_ & _ & Hpow & _). destruct Mo as (m & cfg & st & D1 & D2 & D3 & D4 & D5 & D6). unfold matching_cost_init in D5.
      destruct (matching_cost_check_conf st) as [[|[k1 j1] [|[k2 [| | | | | | |[|s1 [|s2 []]]|]] []]]|]; try discriminate. destruct (pandora_check (assign "step" s2 st)) as [[[jw js] jo]|] eqn:Ep; [|discriminate].
      injection D5 as <-. destruct (L2 _ _ _ _ Ep) as (m0 & In0 & Pn0 & Dv). cbn in D6. rewrite (int_value_as_int _ _ _ In0) in D6. injection D6 as <-. split; [exact Pn0|]. split; [exact Dv|]. eapply Hpow; eauto. }
    destruct Hsub as (Hsub & Hdiv & (k & Hk)). assert (Hone : 0 < one) by apply L.
    destruct (B x y Hx Hy) as (vr & vc & vs & Px & Bp). destruct (B' x' y' Hx' Hy') as (vr' & vc' & vs' & Px' & Bp'). exists vr, vc, vs, vr', vc', vs'. do 2 (split; [assumption|]). rewrite <- Et in Bp'.
    assert (Or : same_order (measure_of completed) (measure_of completed) (candidate open_raster (q_row_init p) (q_row_range p) subpix x y) (candidate open_raster (q_col_init p) (q_col_range p) subpix x y)
      (window_cost pixel_cost left right completed subpix row0 nrow col0 ncol x y) (fun dr dc => window_cost pixel_cost left' right' completed' subpix row0' nrow' col0' ncol' x' y' (dr + kr) (dc + kc)))
      by (apply order_equal; intros dr dc Hr Hc; symmetry; apply (Ec dr dc dr dc Hr Hc); lia).
    destruct (best_order _ _ _ _ _ _ _ _ _ _ _ _ kr kc Mr Mc Or (best_keep _ _ _ _ _ _ Bp) (best_keep _ _ _ _ _ _ Bp')) as [N|(dr & dc & s & s' & (F & R & C & _) & (F' & R' & C' & _) & _)]; [left; exact N|].
    right. destruct F as (sample & Sa & Se). destruct F' as (sample' & Sa' & Se'). rewrite (Ec dr dc dr dc R C ltac:(lia) ltac:(lia)) in Se'.
    assert (Es : forall a b, Z.abs (a - dr) <= Z.of_nat before + 1 -> Z.abs (b - dc) <= Z.of_nat before + 1 -> sample a b = sample' (a + kr) (b + kc))
      by (intros a b Ha Hb; symmetry; apply (sampled_moved _ _ _ _ _ _ _ _ _ _ _ _ kr kc Mr Mc Mar Mac Sa Sa'); eapply Ec; eassumption).
    destruct Se as [([(c0 & I1 & I2)|(c0 & I1 & I2)] & _)|(_ & _ & Se)]; [elim (Ni1 _ R c0 I1 I2) | elim (Ni2 _ C c0 I1 I2)|].
    destruct Se' as [([(c0 & I1 & I2)|(c0 & I1 & I2)] & _)|(_ & _ & Se')]; [elim (Ni3 _ R' c0 I1 I2) | elim (Ni4 _ C' c0 I1 I2)|].
    pose proof (extreme_moved _ _ _ dr Mr) as Xr. pose proof (extreme_moved _ _ _ dc Mc) as Xc.
    destruct Se as [(Z0 & V1 & V2 & V3)|(Z1 & Z2 & Z3 & u & v & w & Hs & V1 & V2 & V3)], Se' as [(Z0' & V1' & V2' & V3')|(Z1' & Z2' & Z3' & u' & v' & w' & Hs' & V1' & V2' & V3')]; try (exfalso; clear - Z0 Z1' Z2' Z3' Xr Xc; tauto);
      try (exfalso; clear - Z0' Z1 Z2 Z3 Xr Xc; tauto).
    - split; [eapply farther_quotient; eauto; lia|]. split; [eapply farther_quotient; eauto; lia | eapply number_same; eauto].
    - rewrite !Z.mul_add_distr_r in Hs'. assert (H512 : (512 | one)) by apply D.
      assert (Kk : Z.to_nat (Z.log2 subpix) = k) by (rewrite Hk, Z.log2_pow2 by lia; lia). rewrite Kk in *.
      destruct (halves_short one k (Z.to_nat (Z.min n 9)) Hone H512 ltac:(rewrite <- Hk; exact Hdiv) ltac:(lia)) as [Hf [Ht0 Ht]].
      rewrite <- Hk in Ht. assert (Hsz : Z.of_nat size <= Z.of_nat before + (Z.of_nat before + 1) + 1) by (destruct Fs as [(_ & -> & ->)|(_ & -> & _)]; lia).
      assert (Eb : forall p1 p2, Z.abs (p1 - dr * (one / subpix)) <= total_of (halves one k (Z.to_nat (Z.min n 9))) -> Z.abs (p2 - dc * (one / subpix)) <= total_of (halves one k (Z.to_nat (Z.min n 9))) ->
        between one subpix size before before (filter_apply f) sample p1 p2 = between one subpix size before before (filter_apply f) (fun a b => sample' (a + kr) (b + kc)) p1 p2).
      { intros p1 p2 Hp1 Hp2. apply (between_near one subpix size before before (filter_apply f) sample (fun a b => sample' (a + kr) (b + kc)) dr dc p1 p2 (Z.of_nat before + 1)); auto; lia. }
      pose proof (halving_near store (measure_of completed) _ _ _ _ _ _ _ _ _ Hf Eb Hs) as Hs1.
      pose proof (halving_moved store (measure_of completed) _ _ (kr * (one / subpix)) (kc * (one / subpix)) _ _ _ _ _ _ _
        (fun i j => between_moved one subpix size before before (filter_apply f) (fun a b => sample' (a + kr) (b + kc)) sample' kr kc i j Hone Hdiv (fun a b => eq_refl)) Hs1) as Hs2.
      destruct (halving_unique _ _ _ _ _ _ _ _ _ _ _ _ _ Hs2 Hs') as (<- & <- & <-).
      split; [apply (farther_unit kr one); auto; [lia|]; eapply farther_quotient; eauto|]. split; [apply (farther_unit kc one); auto; [lia|]; eapply farther_quotient; eauto | eapply number_same; eauto].
  Qed.

  (** * C104: an optical flow, with whole disparities before it. The windows of the second pixel contain the same values, the right ones being farther by the translation. *)
  Theorem C104_optical_flow pixel_cost user user' q q' rows cols rows' cols' e e' n left right completed left' right' completed' w :
    libraries -> cost_contract pixel_cost -> programmed user q rows cols e true -> programmed user' q' rows' cols' e' true ->
    asks_refinement bool_ok user "optical_flow" n -> asks_refinement bool_ok user' "optical_flow" n -> q_row_step q = 1 -> q_col_step q = 1 -> q_row_step q' = 1 -> q_col_step q' = 1 ->
    matching_of user left right completed 1 -> matching_of user' left' right' completed' 1 -> measure_of completed = measure_of completed' ->
    int_at bool_ok ["window_size"] completed = Some w -> offset_of completed = (w - 1) / 2 -> int_at bool_ok ["window_size"] completed' = Some w -> offset_of completed' = (w - 1) / 2 ->
    flow_room w q rows cols -> flow_room w q' rows' cols' ->
    exists p row0 nrow col0 ncol out saved p' row0' nrow' col0' ncol' out' saved',
      searched_in user q p rows cols e row0 nrow col0 ncol /\ main user = Some out /\ o_maps out = Some saved /\ saved_pixels q rows cols saved /\
      searched_in user' q' p' rows' cols' e' row0' nrow' col0' ncol' /\ main user' = Some out' /\ o_maps out' = Some saved' /\ saved_pixels q' rows' cols' saved' /\
      let h := Z.to_nat ((w - 1) / 2) in let left_image := load left row0 nrow col0 ncol in let right_image := load right row0 nrow col0 ncol in
      let left_image' := load left' row0' nrow' col0' ncol' in let right_image' := load right' row0' nrow' col0' ncol' in
      let rows_of x y := candidate open_raster (q_row_init p) (q_row_range p) 1 x y in let cols_of x y := candidate open_raster (q_col_init p) (q_col_range p) 1 x y in
      let rows_of' x y := candidate open_raster (q_row_init p') (q_row_range p') 1 x y in let cols_of' x y := candidate open_raster (q_col_init p') (q_col_range p') 1 x y in
      let cost := window_cost pixel_cost left right completed 1 row0 nrow col0 ncol in let cost' := window_cost pixel_cost left' right' completed' 1 row0' nrow' col0' ncol' in
      forall x y x' y' kr kc, In x (dm_rows saved) -> In y (dm_cols saved) -> In x' (dm_rows saved') -> In y' (dm_cols saved') ->
        q_invalid p' = q_invalid p -> moved_by (rows_of x y) (rows_of' x' y') kr -> moved_by (cols_of x y) (cols_of' x' y') kc ->
        (forall dr dc, rows_of x y dr -> cols_of x y dc -> cost' x' y' (dr + kr) (dc + kc) = cost x y dr dc) ->
        (forall d, rows_of x y d -> not_invalid one 1 p d /\ not_invalid one 1 p (d + kr)) -> (forall d, cols_of x y d -> not_invalid one 1 p d /\ not_invalid one 1 p (d + kc)) ->
        (WholeFlowSpec.fits row0 nrow col0 ncol h x y <-> WholeFlowSpec.fits row0' nrow' col0' ncol' h x' y') -> same_window h left_image row0 col0 x y left_image' row0' col0' x' y' ->
        (forall dr dc, rows_of x y dr -> cols_of x y dc ->
           (WholeFlowSpec.fits row0 nrow col0 ncol h (x + dr) (y + dc) <-> WholeFlowSpec.fits row0' nrow' col0' ncol' h (x' + (dr + kr)) (y' + (dc + kc))) /\
           (WholeFlowSpec.fits row0 nrow col0 ncol h (x + dr) (y + dc) -> same_window h right_image row0 col0 (x + dr) (y + dc) right_image' row0' col0' (x' + (dr + kr)) (y' + (dc + kc)))) ->
        exists vr vc vs vr' vc' vs', pixel_of saved x y vr vc vs /\ pixel_of saved' x' y' vr' vc' vs' /\
          (shows one (q_invalid p) vs /\ shows one (q_invalid p) vs' /\ (forall dr dc, rows_of x y dr -> cols_of x y dc -> cost x y dr dc = NaN) \/
           lost_or_farther one p kr vr vr' /\ lost_or_farther one p kc vc vc' /\ same_cost vs vs').
  Proof.
    intros L K Pr Pr' Ar Ar' S1 S2 S1' S2' Mo Mo' Et Gw Go Gw' Go' Ro Ro'.
    destruct (C92_optical_flow_exact px_eqb nan bool_ok pandora_check matching_cost_margins can_open_mandatory can_open images_ok image_size open_raster load transform_of dataset_ok
      measure_of offset_of pandora_cost zoomed one store filter_apply lstsq resample junk interp minimise estimate global_margins margins_to_dict
      pixel_cost user q rows cols e n left right completed 1 w L K Pr Ar ltac:(auto) ltac:(auto) Mo Gw Go Ro) as (p & row0 & nrow & col0 & ncol & out & saved & Sn & M & O & Sp & B).
    destruct (C92_optical_flow_exact px_eqb nan bool_ok pandora_check matching_cost_margins can_open_mandatory can_open images_ok image_size open_raster load transform_of dataset_ok
      measure_of offset_of pandora_cost zoomed one store filter_apply lstsq resample junk interp minimise estimate global_margins margins_to_dict
      pixel_cost user' q' rows' cols' e' n left' right' completed' 1 w L K Pr' Ar' ltac:(auto) ltac:(auto) Mo' Gw' Go' Ro') as (p' & row0' & nrow' & col0' & ncol' & out' & saved' & Sn' & M' & O' & Sp' & B').
    exists p, row0, nrow, col0, ncol, out, saved, p', row0', nrow', col0', ncol', out', saved'. do 8 (split; [assumption|]). cbv zeta in *. intros x y x' y' kr kc Hx Hy Hx' Hy' Iv Mr Mc Ec Nr Nc Fi Sl Sr.
    assert (Hone : 0 < one) by apply L.
    destruct (B x y Hx Hy) as (vr & vc & vs & Px & Bp). destruct (B' x' y' Hx' Hy') as (vr' & vc' & vs' & Px' & Bp'). exists vr, vc, vs, vr', vc', vs'. do 2 (split; [assumption|]). rewrite <- Et in Bp'.
    assert (Or : same_order (measure_of completed) (measure_of completed) (candidate open_raster (q_row_init p) (q_row_range p) 1 x y) (candidate open_raster (q_col_init p) (q_col_range p) 1 x y)
      (window_cost pixel_cost left right completed 1 row0 nrow col0 ncol x y) (fun dr dc => window_cost pixel_cost left' right' completed' 1 row0' nrow' col0' ncol' x' y' (dr + kr) (dc + kc)))
      by (apply order_equal; intros; symmetry; apply Ec; assumption).
    destruct (best_order _ _ _ _ _ _ _ _ _ _ _ _ kr kc Mr Mc Or (best_keep _ _ _ _ _ _ Bp) (best_keep _ _ _ _ _ _ Bp')) as [(N & N' & A)|(dr & dc & s & s' & (F & R & C & _) & (F' & R' & C' & _) & a & b & Ra & Cb & E1 & E2)].
    { left. split; [apply N|]. split; [rewrite <- Iv; apply N' | exact A]. }
    right. rewrite (Ec a b Ra Cb), E1 in E2. subst s'.
    assert (Steps : q_row_step p = 1 /\ q_col_step p = 1 /\ q_row_step p' = 1 /\ q_col_step p' = 1).
    { destruct (searched_steps _ _ _ _ _ _ _ _ _ _ Sn) as [-> ->]. destruct (searched_steps _ _ _ _ _ _ _ _ _ _ Sn') as [-> ->]. auto. }
    destruct Steps as (T1 & T2 & T3 & T4). destruct (Nr _ R) as [Nr1 Nr2]. destruct (Nc _ C) as [Nc1 Nc2]. destruct (Sr _ _ R C) as [Sr1 Sr2].
    refine (flow_farther nan lstsq resample open_raster one (Z.to_nat n) (Z.to_nat ((w - 1) / 2)) p p' row0 nrow col0 ncol row0' nrow' col0' ncol' _ _ _ _ x y x' y' kr kc vr vc vs vr' vc' vs' dr dc s
      Hone Iv _ Nr1 Nc1 Nr2 Nc2 R C Mr Mc Sl Sr1 Sr2 F F'). rewrite T1, T2, T3, T4, !border_fits. clear - Fi. tauto.
  Qed.
End Program.

(** * Examples: the images of WholeOrderProps, windows of 3 pixels *)
Definition w18_user (left : string) (row col : json) (refinement : dict) : dict :=
  [("input", JDict [("left", JDict [("img", JStr left)]); ("right", JDict [("img", JStr "right.tif")]); ("row_disparity", row); ("col_disparity", col)]);
   ("pipeline", JDict [("matching_cost", JDict [("matching_cost_method", JStr "sad"); ("window_size", JInt 3); ("step", JList [JInt 1; JInt 1])]);
                       ("disparity", JDict [("disparity_method", JStr "wta"); ("invalid_disparity", JStr "NaN")]); ("refinement", JDict refinement)])].
Definition w18_dichotomy : dict := [("refinement_method", JStr "dichotomy"); ("iterations", JInt 2); ("filter", JDict [("method", JStr "bicubic")])].
Definition w18_flow : dict := [("refinement_method", JStr "optical_flow")].
(** The second run compares the second image with itself, with disparities (-1, 1) farther: its pixel (5, 3) sees what the pixel (4, 4) of the first run sees. *)
Definition w18_first : dict -> dict := w18_user "left.tif" (wh_disp (JInt 0) 2) (wh_disp (JInt (-1)) 2).
Definition w18_second : dict -> dict := w18_user "right.tif" (wh_disp (JInt (-1)) 2) (wh_disp (JInt 0) 2).
Definition w18_request (row col : Z) : request := mkRequest (JInt row) 2 (JInt col) 2 1 1 None JNan.
Definition w18_main : dict -> option outcome :=
  main Z.eqb 0 true wh_pandora (fun _ => mkMargins 1 1 1 1) (fun _ => true) (fun _ => true) (fun _ _ _ _ => true) wh_size wh_raster w17_load w3_transform (fun _ => true)
    (fun _ => MeasureMin) (fun _ => 1) w3_cost (fun _ _ _ _ => 0) 512 (fun x => x) w6_filter w6_lstsq (fun w _ _ => w) (fun _ => []) ex_interp ex_minimise
    w3_estimate wh_margins wh_dict.
Ltac w18_wf := unfold w18_first, w18_second, w18_user, w18_dichotomy, w18_flow, wh_disp; solve_wf.
Ltac w18_tac name := split; [split; [split; [w18_wf|]; split; [apply wh_checked; [w18_wf | vm_compute; discriminate]|];
  split; [|split; [exists name; split; reflexivity | try (cbn; lia); exact I]];
  split; [wh_leaf|]; split; [wh_leaf|]; split; [wh_leaf|]; split; [wh_leaf|];
  split; [right; do 2 eexists; split; [reflexivity|]; split; apply int_int|];
  split; [reflexivity | right; wh_leaf] | intros s H; discriminate H] | eexists; split; reflexivity].
Lemma w18_programmed : w5_programmed (w18_first w18_dichotomy) (w18_request 0 (-1)) 8 9 false true /\ w5_programmed (w18_second w18_dichotomy) (w18_request (-1) 0) 8 9 false true /\
  w5_programmed (w18_first w18_flow) (w18_request 0 (-1)) 8 9 false true /\ w5_programmed (w18_second w18_flow) (w18_request (-1) 0) 8 9 false true.
Proof. split; [w18_tac "left.tif"|]. split; [w18_tac "right.tif"|]. split; [w18_tac "left.tif" | w18_tac "right.tif"]. Qed.
Lemma w18_matching user n1 n2 : match w6_matching user with Some (l, r, c, n) => lookup "img" l = Some (JStr n1) /\ lookup "img" r = Some (JStr n2) /\ n = 1 /\ int_at true ["window_size"] c = Some 3 | None => False end ->
  exists l r c, w6_matching_of user l r c 1 /\ w17_images l n1 /\ w17_images r n2 /\ int_at true ["window_size"] c = Some 3.
Proof. destruct (w6_matching user) as [[[[l r] c] n]|] eqn:E; [|contradiction]. intros (H1 & H2 & -> & H3). exists l, r, c. split; [now apply w6_matching_spec|]. auto. Qed.
Lemma w18_window z range d : of_the_window wh_raster (JInt z) range 1 0 8 0 9 d <-> z - range <= d <= z + range.
Proof.
  split.
  - intros (x1 & y1 & d1 & x2 & y2 & d2 & _ & _ & C1 & C2 & H). apply w16_candidate in C1, C2. lia.
  - intros H. exists 0, 0, d, 0, 0, d. split; [lia|]. split; [lia|]. rewrite w16_candidate. lia.
Qed.
Lemma w18_valid z z' d : not_invalid 512 1 (w18_request z z') d.
Proof. intros c (p & -> & _) H. inversion H. Qed.
(** The costs are the same up to the translation, also two pixels out of the candidates. *)
Lemma w18_costs l r c l' r' c' a b : w17_images l "left.tif" -> w17_images r "right.tif" -> w17_images l' "right.tif" -> w17_images r' "right.tif" -> -4 <= a <= 4 -> -5 <= b <= 3 ->
  window_cost Z.eqb w17_load (fun _ _ _ _ => 0) w3_pixel l' r' c' 1 0 8 0 9 5 3 (a + -1) (b + 1) = window_cost Z.eqb w17_load (fun _ _ _ _ => 0) w3_pixel l r c 1 0 8 0 9 4 4 a b.
Proof.
  intros I1 I2 I1' I2' Ha Hb. unfold window_cost. rewrite (w17_loads l _ _ _ _ _ I1), (w17_loads r _ _ _ _ _ I2), (w17_loads l' _ _ _ _ _ I1'), (w17_loads r' _ _ _ _ _ I2').
  assert (Da : In a [-4; -3; -2; -1; 0; 1; 2; 3; 4]) by (cbn; lia). assert (Db : In b [-5; -4; -3; -2; -1; 0; 1; 2; 3]) by (cbn; lia). clear - Da Db.
  cbn [In] in Da, Db. repeat (destruct Da as [<- | Da]; [repeat (destruct Db as [<- | Db]; [vm_compute; reflexivity|]); contradiction|]). contradiction.
Qed.
Lemma w18_cost l r c : w17_images l "left.tif" -> w17_images r "right.tif" -> window_cost Z.eqb w17_load (fun _ _ _ _ => 0) w3_pixel l r c 1 0 8 0 9 4 4 1 (-1) <> NaN.
Proof. intros I1 I2. unfold window_cost. rewrite (w17_loads l _ _ _ _ _ I1), (w17_loads r _ _ _ _ _ I2). vm_compute. discriminate. Qed.
Lemma w18_saved row col saved x y : 0 <= x < 8 -> 0 <= y < 9 -> saved_pixels (w18_request row col) 8 9 saved -> In x (dm_rows saved) /\ In y (dm_cols saved).
Proof. intros Hx Hy (R & C & _). split; [apply R | apply C]; unfold wanted_row, wanted_col, wanted; cbn; rewrite ?Z.mod_1_r; lia. Qed.
Lemma w18_asks first refinement n : first = w18_first \/ first = w18_second -> refinement = w18_dichotomy /\ n = 2 -> asks_refinement true (first refinement) "dichotomy" n.
Proof. intros [-> | ->] [-> ->]; (split; [reflexivity | left; wh_leaf]). Qed.
Lemma w18_flows first : first = w18_first \/ first = w18_second -> asks_refinement true (first w18_flow) "optical_flow" 4.
Proof. intros [-> | ->]; (split; [reflexivity | right; split; [reflexivity|]; split; reflexivity]). Qed.

Example C104_dichotomy_example : exists out saved out' saved' vr vc vs vr' vc' vs',
  w18_main (w18_first w18_dichotomy) = Some out /\ o_maps out = Some saved /\ w18_main (w18_second w18_dichotomy) = Some out' /\ o_maps out' = Some saved' /\
  pixel_of saved 4 4 vr vc vs /\ pixel_of saved' 5 3 vr' vc' vs' /\ farther (-1) 1 vr vr' /\ farther 1 1 vc vc' /\ same_cost vs vs'.
Proof.
  unfold w18_main. destruct w18_programmed as (P1 & P2 & _).
  destruct (w18_matching (w18_first w18_dichotomy) "left.tif" "right.tif" ltac:(vm_compute; auto)) as (l & r & c & M & I1 & I2 & _).
  destruct (w18_matching (w18_second w18_dichotomy) "right.tif" "right.tif" ltac:(vm_compute; auto)) as (l' & r' & c' & M' & I1' & I2' & _).
  assert (A : asks_refinement true (w18_first w18_dichotomy) "dichotomy" 2) by (apply w18_asks; auto). assert (A' : asks_refinement true (w18_second w18_dichotomy) "dichotomy" 2) by (apply w18_asks; auto).
  assert (F : w10_filter_of (w18_first w18_dichotomy) [("method", JStr "bicubic")]) by (apply w10_filter_spec; vm_compute; reflexivity).
  assert (F' : w10_filter_of (w18_second w18_dichotomy) [("method", JStr "bicubic")]) by (apply w10_filter_spec; vm_compute; reflexivity).
  assert (Run : forall user q l r c, w5_programmed user q 8 9 false true -> asks_refinement true user "dichotomy" 2 -> q_row_step q = 1 -> q_col_step q = 1 -> w6_matching_of user l r c 1 ->
    exists out saved, main Z.eqb 0 true wh_pandora (fun _ => mkMargins 1 1 1 1) (fun _ => true) (fun _ => true) (fun _ _ _ _ => true) wh_size wh_raster w17_load w3_transform (fun _ => true)
    (fun _ => MeasureMin) (fun _ => 1) w3_cost (fun _ _ _ _ => 0) 512 (fun x => x) w6_filter w6_lstsq (fun w _ _ => w) (fun _ => []) ex_interp ex_minimise
    w3_estimate wh_margins wh_dict user = Some out /\ o_maps out = Some saved /\ saved_right wh_raster 512 q 8 9 saved).
  { intros user q l0 r0 c0 Pq Aq S1 S2 Mq.
    destruct (C83_dichotomy Z.eqb 0 true wh_pandora (fun _ => mkMargins 1 1 1 1) (fun _ => true) (fun _ => true) (fun _ _ _ _ => true) wh_size wh_raster w17_load w3_transform (fun _ => true)
    (fun _ => MeasureMin) (fun _ => 1) w3_cost (fun _ _ _ _ => 0) 512 (fun x => x) w6_filter w6_lstsq (fun w _ _ => w) (fun _ => []) ex_interp ex_minimise
    w3_estimate wh_margins wh_dict
      w3_pixel user q 8 9 false 2 l0 r0 c0 1 w17_libraries w6_dichotomy_libraries w3_contract Pq Aq S1 S2 Mq) as (q' & row0 & nrow & col0 & ncol & out & saved & (_ & -> & _) & Mm & Oo & Rr & _). eauto. }
  destruct (Run _ _ _ _ _ P1 A eq_refl eq_refl M) as (o1 & s1 & E1 & E2 & R1 & R2 & _). destruct (Run _ _ _ _ _ P2 A' eq_refl eq_refl M') as (o2 & s2 & E3 & E4 & R3 & R4 & _).
  destruct (C104_dichotomy Z.eqb 0 true wh_pandora (fun _ => mkMargins 1 1 1 1) (fun _ => true) (fun _ => true) (fun _ _ _ _ => true) wh_size wh_raster w17_load w3_transform (fun _ => true)
    (fun _ => MeasureMin) (fun _ => 1) w3_cost (fun _ _ _ _ => 0) 512 (fun x => x) w6_filter w6_lstsq (fun w _ _ => w) (fun _ => []) ex_interp ex_minimise
    w3_estimate wh_margins wh_dict w3_pixel _ _ _ _ _ _ _ _ _ _ 2 l r c l' r' c' 1 [("method", JStr "bicubic")] 4%nat 1%nat
    w17_libraries w6_dichotomy_libraries w3_contract P1 P2 A A' eq_refl eq_refl eq_refl eq_refl M M' eq_refl F F' ltac:(left; repeat split))
    as (p & row0 & nrow & col0 & ncol & out & saved & p' & row0' & nrow' & col0' & ncol' & out' & saved' & ((-> & -> & -> & ->) & -> & _) & Em & Eo & ((-> & -> & -> & ->) & -> & _) & Em' & Eo' & B).
  rewrite E1 in Em. injection Em as <-. rewrite E2 in Eo. injection Eo as <-. rewrite E3 in Em'. injection Em' as <-. rewrite E4 in Eo'. injection Eo' as <-.
  cbv zeta in B. cbn [q_row_init q_col_init q_row_range q_col_range w18_request] in B.
  assert (Ix : In 4 (dm_rows s1)) by (apply R1; unfold wanted_row, wanted; cbn; rewrite ?Z.mod_1_r; lia). assert (Iy : In 4 (dm_cols s1)) by (apply R2; unfold wanted_col, wanted; cbn; rewrite ?Z.mod_1_r; lia).
  assert (Ix' : In 5 (dm_rows s2)) by (apply R3; unfold wanted_row, wanted; cbn; rewrite ?Z.mod_1_r; lia). assert (Iy' : In 3 (dm_cols s2)) by (apply R4; unfold wanted_col, wanted; cbn; rewrite ?Z.mod_1_r; lia).
  destruct (B 4 4 5 3 (-1) 1 Ix Iy Ix' Iy') as (vr & vc & vs & vr' & vc' & vs' & Px & Px' & D); try (intros d; rewrite ?w16_candidate, ?w18_window; lia); try (intros d _; apply w18_valid).
  - intros dr dc a b Hr Hc Ha Hb. apply w16_candidate in Hr, Hc. apply w18_costs; try assumption; lia.
  - exists o1, s1, o2, s2, vr, vc, vs, vr', vc', vs'. do 6 (split; [assumption|]). destruct D as [(_ & _ & N)|D]; [|exact D].
    elim (w18_cost l r c I1 I2). apply N; apply w16_candidate; lia.
Qed.

Example C104_optical_flow_example : exists out saved out' saved' vr vc vs vr' vc' vs',
  w18_main (w18_first w18_flow) = Some out /\ o_maps out = Some saved /\ w18_main (w18_second w18_flow) = Some out' /\ o_maps out' = Some saved' /\
  pixel_of saved 4 4 vr vc vs /\ pixel_of saved' 5 3 vr' vc' vs' /\
  lost_or_farther 512 (w18_request 0 (-1)) (-1) vr vr' /\ lost_or_farther 512 (w18_request 0 (-1)) 1 vc vc' /\ same_cost vs vs'.
Proof.
  unfold w18_main. destruct w18_programmed as (_ & _ & P1 & P2).
  destruct (w18_matching (w18_first w18_flow) "left.tif" "right.tif" ltac:(vm_compute; auto)) as (l & r & c & M & I1 & I2 & W).
  destruct (w18_matching (w18_second w18_flow) "right.tif" "right.tif" ltac:(vm_compute; auto)) as (l' & r' & c' & M' & I1' & I2' & W').
  assert (A : asks_refinement true (w18_first w18_flow) "optical_flow" 4) by (apply w18_flows; auto). assert (A' : asks_refinement true (w18_second w18_flow) "optical_flow" 4) by (apply w18_flows; auto).
  destruct (C104_optical_flow Z.eqb 0 true wh_pandora (fun _ => mkMargins 1 1 1 1) (fun _ => true) (fun _ => true) (fun _ _ _ _ => true) wh_size wh_raster w17_load w3_transform (fun _ => true)
    (fun _ => MeasureMin) (fun _ => 1) w3_cost (fun _ _ _ _ => 0) 512 (fun x => x) w6_filter w6_lstsq (fun w _ _ => w) (fun _ => []) ex_interp ex_minimise
    w3_estimate wh_margins wh_dict w3_pixel _ _ _ _ _ _ _ _ _ _ 4 l r c l' r' c' 3
    w17_libraries w3_contract P1 P2 A A' eq_refl eq_refl eq_refl eq_refl M M' eq_refl W eq_refl W' eq_refl ltac:(split; cbn; lia) ltac:(split; cbn; lia))
    as (p & row0 & nrow & col0 & ncol & out & saved & p' & row0' & nrow' & col0' & ncol' & out' & saved' & ((-> & -> & -> & ->) & -> & _) & Em & Eo & Sp & ((-> & -> & -> & ->) & -> & _) & Em' & Eo' & Sp' & B).
  cbv zeta in B. cbn [q_row_init q_col_init q_row_range q_col_range w18_request] in B.
  destruct (w18_saved _ _ saved 4 4 ltac:(lia) ltac:(lia) Sp) as [S1 S2]. destruct (w18_saved _ _ saved' 5 3 ltac:(lia) ltac:(lia) Sp') as [S1' S2'].
  destruct (B 4 4 5 3 (-1) 1 S1 S2 S1' S2' eq_refl) as (vr & vc & vs & vr' & vc' & vs' & Px & Px' & D); try (intros d; rewrite ?w16_candidate; lia); try (intros d _; split; apply w18_valid).
  - intros dr dc Hr Hc. apply w16_candidate in Hr, Hc. apply w18_costs; try assumption; lia.
  - change (Z.to_nat ((3 - 1) / 2)) with 1%nat. unfold WholeFlowSpec.fits. lia.
  - rewrite (w17_loads l _ _ _ _ _ I1), (w17_loads l' _ _ _ _ _ I1'). intros a b Ha Hb. change (Z.of_nat (Z.to_nat ((3 - 1) / 2))) with 1 in Ha, Hb.
    assert (Da : a = -1 \/ a = 0 \/ a = 1) by lia. assert (Db : b = -1 \/ b = 0 \/ b = 1) by lia. destruct Da as [-> | [-> | ->]]; destruct Db as [-> | [-> | ->]]; vm_compute; reflexivity.
  - intros dr dc _ _. replace (5 + (dr + -1)) with (4 + dr) by lia. replace (3 + (dc + 1)) with (4 + dc) by lia. split; [reflexivity|]. intros _.
    rewrite (w17_loads r _ _ _ _ _ I2), (w17_loads r' _ _ _ _ _ I2'). intros a b _ _. reflexivity.
  - exists out, saved, out', saved', vr, vc, vs, vr', vc', vs'. do 6 (split; [assumption|]). destruct D as [(_ & _ & N)|D]; [|exact D].
    elim (w18_cost l r c I1 I2). apply N; apply w16_candidate; lia.
Qed.

Print Assumptions C104_dichotomy.
Print Assumptions C104_optical_flow.
Print Assumptions C104_dichotomy_example.
Print Assumptions C104_optical_flow_example.
