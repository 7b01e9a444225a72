(** C105: the optical flow started from disparities that are not whole. The right window is taken at the truncated disparity, the motion is added to the disparity itself. *)
From Coq Require Import List String Bool ZArith QArith Qabs Lia.
From Verif Require Import Base.Ext Base.PyList Base.Arr Base.Json Base.Dict Base.ZRange Model.CommonModel Model.DisparityModel Model.MatchingCostModel Model.DichotomyModel
  Model.RoiModel Model.InputModel Model.ConfigModel Model.DatasetModel Model.EstimationModel Model.OpticalFlowModel Model.InterpolationModel Model.MachineModel Model.CheckConfModel
  Model.PipelineModel Model.WholeModel Model.LucasKanadeModel Model.ImgShiftModel
  Spec.MatchingCostSpec Spec.DichotomySpec Spec.RoiSpec Spec.PipelineSpec Spec.ConfigSpec Spec.InputSpec Spec.MachineSpec Spec.CheckConfSpec Spec.AcceptSpec Spec.WholeSpec Spec.BestSpec Spec.WtaSpec Spec.ShiftSpec Spec.WholeEverySpec Spec.InterpolationSpec Spec.OpticalFlowSpec Spec.WholeRefineSpec Spec.HalvingSpec Spec.WholeExactSpec Spec.WholeFlowSpec Spec.WholeEndSpec Spec.LucasKanadeSpec Spec.WholeMatchSpec Spec.WholeOrderSpec Spec.WholeRoiSpec Spec.WholeInterpSpec Spec.InterpUniqueSpec Spec.WholeFractionSpec
  Proofs.CheckConfProofs Proofs.ConfigProofs Proofs.ConfigStepProofs Proofs.AcceptProofs Proofs.RoiProofs Proofs.WtaProofs Proofs.WtaTheorems Proofs.MatchingCostProofs Proofs.MatchingCostTheorems Proofs.PipelineProofs Proofs.WholeRunProofs Proofs.WholeProofs Proofs.WholeMainProofs Proofs.HalvingProofs Proofs.BetweenProofs Proofs.RefineBestProofs Proofs.RefineExactProofs Proofs.WholeMoreProofs Proofs.WholeEveryProofs Proofs.WholeRoiProofs Proofs.InterpUniqueProofs Proofs.BestProofs Proofs.RefineBestProofs Proofs.WholeFlowProofs Proofs.WholeEndProofs Proofs.WholeOrderProofs
  Props.RoiProps Props.PipelineProps Props.CheckConfProps Props.InterpolationProps Props.WholeProps Props.WholeMoreProps Props.WholeEveryProps Props.WholeRefineProps Props.WholeExactProps Props.WholeCompareProps Props.WholeInterpProps Props.LucasKanadeProps Props.WholeRoiProps Props.WholeMatchProps.
Import ListNotations.
Open Scope Z_scope.
Open Scope string_scope.
Open Scope list_scope.
Lemma displacement_truncated i p a t s : (forall r, i = Some r -> ~ (r == p)%Q) -> is_number a p -> truncated p t -> displacement i a s -> s = t.
Proof.
  intros Hi (q & -> & E) T H. unfold displacement in H. destruct i as [r|]; [|exact (truncated_unique q p s t E H T)].
  destruct H as [[H _]|[_ H]]; [|exact (truncated_unique q p s t E H T)]. elim (Hi r eq_refl). rewrite <- H. exact E.
Qed.
(** Nothing is left over exactly when the disparity is whole. *)
Lemma left_over_whole subpix d t : 0 < subpix -> truncated (pixels subpix d) t -> ((left_over subpix d t == 0)%Q <-> (subpix | d)).
Proof.
  intros Hs T. unfold left_over, pixels in *. split.
  - intros E. exists t. assert (E' : (inject_Z d == inject_Z (t * subpix))%Q).
    { rewrite inject_Z_mult. assert ((inject_Z d / inject_Z subpix == inject_Z t)%Q) as <- by (apply Qplus_inj_r with (z := (- inject_Z t)%Q); unfold Qminus in E; rewrite E; ring).
      field. intros Z0. apply (inject_Z_injective subpix 0) in Z0. lia. }
    now apply inject_Z_injective.
  - intros (k & ->). assert (E : (inject_Z (k * subpix) / inject_Z subpix == inject_Z k)%Q) by (rewrite inject_Z_mult; field; intros Z0; apply (inject_Z_injective subpix 0) in Z0; lia).
    rewrite E. rewrite E in T || idtac. assert (t = k) as -> by (apply (truncated_whole (inject_Z (k * subpix) / inject_Z subpix)); assumption). ring.
Qed.

(** One pixel after an optical flow. *)
Section Pixel.
  Context {px : Type} (nan : px) (value : px -> num) (solve : list (Q * Q) -> list Q -> option (Q * Q)) (unsolved : list (list px) -> list (list px) -> option (num * num)).
  Variable resample : list (list px) -> num -> num -> list (list px).
  Variables (left right : ImgShiftModel.image px) (row0 : Z) (nrow : nat) (col0 : Z) (ncol : nat).
  Notation lstsq := (lk_lstsq value solve unsolved).

  Lemma flow_saved_at open_raster one subpix n h q x y dr dc tr tc vr vc vs s u0 v0 :
    (forall i l r a b d', WholeFlowSpec.around row0 col0 left h x y l -> WholeFlowSpec.around row0 col0 right h (x + tr) (y + tc) r -> (a == pixels subpix dr)%Q -> (b == pixels subpix dc)%Q ->
       refined lstsq resample i l n r (Some a, Some b) d' -> is_number (fst d') (pixels subpix dr - v0) /\ is_number (snd d') (pixels subpix dc - u0)) ->
    truncated (pixels subpix dr) tr -> truncated (pixels subpix dc) tc ->
    ~ at_border row0 nrow col0 ncol h (q_row_step q) (q_col_step q) x y -> WholeFlowSpec.fits row0 nrow col0 ncol h (x + tr) (y + tc) -> not_marked_at q subpix dr -> not_marked_at q subpix dc ->
    inside_interval open_raster (q_row_init q) (q_row_range q) x y (pixels subpix dr - v0) -> inside_interval open_raster (q_col_init q) (q_col_range q) x y (pixels subpix dc - u0) ->
    flow_found nan lstsq resample left right row0 nrow col0 ncol open_raster one subpix n h q x y vr vc vs dr dc s ->
    saved_as vr (pixels subpix dr - v0) /\ saved_as vc (pixels subpix dc - u0) /\ same_number one s vs.
  Proof.
    intros R Tr Tc Nb Ft Mr Mc Ir Ic (Ss & a & b & (qa & -> & Ea) & (qb & -> & Eb) & i & a' & b' & c & d & u & v & Ci & Mv & Mu & Kc & Sc & Mv' & Kd & Sd).
    change (qa == pixels subpix dr)%Q in Ea. change (qb == pixels subpix dc)%Q in Eb.
    destruct Mv as [[B _]|[_ (l & r & srow & scol & Al & D1 & D2 & Ar & _ & Rf)]]; [contradiction|].
    assert (srow = tr) as ->. { apply (displacement_truncated i (pixels subpix dr) (Some qa)); [|exists qa; split; [reflexivity | exact Ea] | exact Tr | exact D1]. intros p ->. apply Mr. exact Ci. }
    assert (scol = tc) as ->. { apply (displacement_truncated i (pixels subpix dc) (Some qb)); [|exists qb; split; [reflexivity | exact Eb] | exact Tc | exact D2]. intros p ->. apply Mc. exact Ci. }
    destruct (R i l r qa qb (a', b') Al (Ar Ft) Ea Eb Rf) as [Na Nb']. cbn [fst snd] in Na, Nb'. destruct (Ir u Mu) as [I1 I2]. destruct (Ic v Mv') as [I3 I4].
    split; [exact (kept_inside i _ _ a' _ c vr Na I1 I2 Kc Sc)|]. split; [exact (kept_inside i _ _ b' _ d vc Nb' I3 I4 Kd Sd) | exact Ss].
  Qed.
End Pixel.

Section Program.
  (** The libraries: see WholeModel. *)
  Context {px : Type} (px_eqb : px -> px -> bool) (nan : px).
  Variable bool_ok : bool.
  Variable pandora_check : dict -> option (json * json * json).
  Variable matching_cost_margins : dict -> margins.
  Variable can_open_mandatory can_open : json -> bool.
  Variable images_ok : json -> json -> json -> json -> bool.
  Variable image_size : string -> nat * nat.
  Variable open_raster : string -> reader.
  Variable load : dict -> Z -> nat -> Z -> nat -> image px.
  Variable transform_of : dict -> option affine.
  Variable dataset_ok : image_dataset (image px) -> bool.
  Variable measure_of : dict -> measure.
  Variable offset_of : dict -> Z.
  Variable pandora_cost : dict -> mc_input -> image px -> list (list px) -> list (list Z) -> nat -> nat -> nat -> ext.
  Variable zoomed : image px -> nat -> nat -> nat -> px.
  Variable one : Z.
  Variable store : ext -> ext.
  Variable filter_apply : dict -> list (list ext) -> Z -> Z -> ext.
  (** The motion of Lucas and Kanade: see LucasKanadeModel. *)
  Variable value : px -> num.
  Variable solve : list (Q * Q) -> list Q -> option (Q * Q).
  Variable unsolved : list (list px) -> list (list px) -> option (num * num).
  Notation lstsq := (lk_lstsq value solve unsolved).
  Variable resample : list (list px) -> num -> num -> list (list px).
  Variable junk : nat -> list (list px).
  Variable interp : list Q -> list Q -> list (list cost) -> num -> num -> cost.
  Variable minimise : (num -> num -> cost) -> num * num -> (Q * Q) * (Q * Q) -> num * num.
  Variable estimate : json -> image px -> image px -> (Q * Q) * json * json.
  Variable global_margins : list (string * margins) -> list (string * margins) -> margins.
  Variable margins_to_dict : list (string * margins) -> list (string * margins) -> json.
  Notation main := (main px_eqb nan bool_ok pandora_check matching_cost_margins can_open_mandatory can_open images_ok image_size open_raster load transform_of dataset_ok
    measure_of offset_of pandora_cost zoomed one store filter_apply lstsq resample junk interp minimise estimate global_margins margins_to_dict).
  Notation check_user := (check_user px_eqb nan bool_ok pandora_check matching_cost_margins can_open_mandatory can_open images_ok image_size open_raster
    measure_of offset_of pandora_cost zoomed one store filter_apply lstsq resample junk interp minimise estimate).
  Notation libraries := (libraries bool_ok pandora_check images_ok image_size load dataset_ok measure_of pandora_cost one).
  Notation dichotomy_libraries := (dichotomy_libraries bool_ok pandora_check pandora_cost one store).
  Notation asked := (asked bool_ok pandora_check can_open_mandatory can_open images_ok image_size open_raster).
  Notation asked_estimation := (asked_estimation bool_ok pandora_check can_open_mandatory can_open images_ok image_size open_raster).
  Notation cost_contract := (cost_contract measure_of pandora_cost).

  Notation programmed := (programmed bool_ok pandora_check can_open_mandatory can_open images_ok image_size open_raster).
  Notation matching_of := (matching_of px_eqb nan bool_ok pandora_check matching_cost_margins can_open_mandatory can_open images_ok image_size open_raster measure_of offset_of pandora_cost zoomed one
    store filter_apply lstsq resample junk interp minimise estimate).
  Notation estimated_request := (estimated_request px_eqb nan bool_ok pandora_check matching_cost_margins can_open_mandatory can_open images_ok image_size open_raster load
    measure_of offset_of pandora_cost zoomed one store filter_apply lstsq resample junk interp minimise estimate).
  (** The request with the disparities that are searched, in the window that is loaded. *)
  Notation searched := (searched bool_ok pandora_check can_open_mandatory can_open images_ok image_size open_raster).
  Notation window_cost := (window_cost px_eqb load zoomed).

  Notation local_cost := (local_cost px_eqb load zoomed).
  Notation filter_of := (filter_of px_eqb nan bool_ok pandora_check matching_cost_margins can_open_mandatory can_open images_ok image_size open_raster measure_of offset_of pandora_cost zoomed one
    store filter_apply lstsq resample junk interp minimise estimate).


  Definition fraction_run_of user q rows cols e n left right completed subpix w pixel_cost : Prop :=
    libraries /\ cost_contract pixel_cost /\ programmed user q rows cols e true /\ asks_refinement bool_ok user "optical_flow" n /\
    (e = true \/ same_middle open_raster (q_row_init q) 0 rows 0 cols /\ same_middle open_raster (q_col_init q) 0 rows 0 cols \/ q_row_step q = 1 /\ q_col_step q = 1 \/
      two_lines q rows cols /\ main user <> None) /\
    (q_zone q = None \/ q_row_step q = 1 /\ q_col_step q = 1) /\
    matching_of user left right completed subpix /\ int_at bool_ok ["window_size"] completed = Some w /\ offset_of completed = (w - 1) / 2 /\ flow_room w q rows cols.
  Notation searched_in := (searched_in px_eqb nan bool_ok pandora_check matching_cost_margins can_open_mandatory can_open images_ok image_size open_raster load measure_of offset_of pandora_cost zoomed one
    store filter_apply lstsq resample junk interp minimise estimate).
  Lemma fraction_pixels pixel_cost user q rows cols e n left right completed subpix w : fraction_run_of user q rows cols e n left right completed subpix w pixel_cost ->
    exists q' row0 nrow col0 ncol out saved, searched_in user q q' rows cols e row0 nrow col0 ncol /\ main user = Some out /\ o_maps out = Some saved /\ saved_pixels q rows cols saved /\
      let h := Z.to_nat ((w - 1) / 2) in let left_image := load left row0 nrow col0 ncol in let right_image := load right row0 nrow col0 ncol in
      let candidates_row := candidate open_raster (q_row_init q') (q_row_range q') subpix in let candidates_col := candidate open_raster (q_col_init q') (q_col_range q') subpix in
      let cost := window_cost pixel_cost left right completed subpix row0 nrow col0 ncol in
      forall x y dr dc tr tc v0 u0, In x (dm_rows saved) -> In y (dm_cols saved) -> only_best (measure_of completed) (candidates_row x y) (candidates_col x y) (cost x y) dr dc ->
        truncated (pixels subpix dr) tr -> truncated (pixels subpix dc) tc ->
        ~ at_border row0 nrow col0 ncol h (q_row_step q') (q_col_step q') x y -> WholeFlowSpec.fits row0 nrow col0 ncol h (x + tr) (y + tc) -> not_marked_at q' subpix dr -> not_marked_at q' subpix dc ->
        (forall i l r a b d', WholeFlowSpec.around row0 col0 left_image h x y l -> WholeFlowSpec.around row0 col0 right_image h (x + tr) (y + tc) r -> (a == pixels subpix dr)%Q -> (b == pixels subpix dc)%Q ->
          refined lstsq resample i l (Z.to_nat n) r (Some a, Some b) d' -> is_number (fst d') (pixels subpix dr - v0) /\ is_number (snd d') (pixels subpix dc - u0)) ->
        inside_interval open_raster (q_row_init q') (q_row_range q') x y (pixels subpix dr - v0) -> inside_interval open_raster (q_col_init q') (q_col_range q') x y (pixels subpix dc - u0) ->
        exists vr vc vs, pixel_of saved x y vr vc vs /\ saved_as vr (pixels subpix dr - v0) /\ saved_as vc (pixels subpix dc - u0).
  Proof.
    intros (H1 & H2 & H3 & H4 & H5 & H6 & H7 & H8 & H9 & H10).
    destruct (C92_optical_flow_exact px_eqb nan bool_ok pandora_check matching_cost_margins can_open_mandatory can_open images_ok image_size open_raster load transform_of dataset_ok
      measure_of offset_of pandora_cost zoomed one store filter_apply lstsq resample junk interp minimise estimate global_margins margins_to_dict pixel_cost user q rows cols e n left right completed subpix w
      H1 H2 H3 H4 H5 H6 H7 H8 H9 H10) as (q' & row0 & nrow & col0 & ncol & out & saved & S & Em & Eo & Sp & B).
    exists q', row0, nrow, col0, ncol, out, saved. do 4 (split; [assumption|]). cbv zeta in B |- *. intros x y dr dc tr tc v0 u0 Hx Hy U Tr Tc Nb Ft Mr Mc R Ir Ic.
    destruct (B x y Hx Hy) as (vr & vc & vs & Px & Bp). destruct (best_only _ _ _ _ _ _ dr dc Bp U) as (s & F). exists vr, vc, vs. split; [exact Px|].
    destruct (flow_saved_at nan value solve unsolved resample _ _ row0 nrow col0 ncol open_raster one subpix _ _ q' x y dr dc tr tc vr vc vs s u0 v0 R Tr Tc Nb Ft Mr Mc Ir Ic F) as (X1 & X2 & _). split; assumption.
  Qed.

  (** * C105: the windows at the truncated disparities are identical: the disparities are kept, fraction included. *)
  Theorem C105_kept pixel_cost user q rows cols e n left right completed subpix w : fraction_run_of user q rows cols e n left right completed subpix w pixel_cost -> 3 <= w ->
    least_squares solve -> keeps_windows value resample ->
    exists q' row0 nrow col0 ncol out saved, searched_in user q q' rows cols e row0 nrow col0 ncol /\ main user = Some out /\ o_maps out = Some saved /\ saved_pixels q rows cols saved /\
      let h := Z.to_nat ((w - 1) / 2) in let left_image := load left row0 nrow col0 ncol in let right_image := load right row0 nrow col0 ncol in
      let candidates_row := candidate open_raster (q_row_init q') (q_row_range q') subpix in let candidates_col := candidate open_raster (q_col_init q') (q_col_range q') subpix in
      let cost := window_cost pixel_cost left right completed subpix row0 nrow col0 ncol in
      forall x y dr dc tr tc, In x (dm_rows saved) -> In y (dm_cols saved) -> only_best (measure_of completed) (candidates_row x y) (candidates_col x y) (cost x y) dr dc ->
        truncated (pixels subpix dr) tr -> truncated (pixels subpix dc) tc ->
        ~ at_border row0 nrow col0 ncol h (q_row_step q') (q_col_step q') x y -> WholeFlowSpec.fits row0 nrow col0 ncol h (x + tr) (y + tc) -> not_marked_at q' subpix dr -> not_marked_at q' subpix dc ->
        same_windows value left_image right_image row0 col0 h x y tr tc ->
        inside_interval open_raster (q_row_init q') (q_row_range q') x y (pixels subpix dr) -> inside_interval open_raster (q_col_init q') (q_col_range q') x y (pixels subpix dc) ->
        exists vr vc vs, pixel_of saved x y vr vc vs /\ saved_as vr (inject_Z tr + left_over subpix dr tr) /\ saved_as vc (inject_Z tc + left_over subpix dc tc).
  Proof.
    intros H Hw Hs Hk. destruct (fraction_pixels pixel_cost user q rows cols e n left right completed subpix w H) as (q' & row0 & nrow & col0 & ncol & out & saved & S & Em & Eo & Sp & B).
    exists q', row0, nrow, col0, ncol, out, saved. do 4 (split; [assumption|]). cbv zeta in B |- *. intros x y dr dc tr tc Hx Hy U Tr Tc Nb Ft Mr Mc Sw Ir Ic.
    assert (Hh : (2 <= 2 * Z.to_nat ((w - 1) / 2) + 1)%nat). { assert (1 <= (w - 1) / 2) by (apply Z.div_le_lower_bound; lia). lia. }
    assert (Z0 : forall d : Q, (d - 0 == d)%Q) by (intros; ring).
    assert (In0 : forall init range d, inside_interval open_raster init range x y d -> inside_interval open_raster init range x y (d - 0)).
    { intros init range d Hi v Hv. rewrite (Z0 d). exact (Hi v Hv). }
    destruct (B x y dr dc tr tc 0%Q 0%Q Hx Hy U Tr Tc Nb Ft Mr Mc) as (vr & vc & vs & Px & (p & -> & Ep) & (p' & -> & Ep')); [| apply In0; exact Ir | apply In0; exact Ic |].
    - intros i l r a b d' Al Ar Ea Eb R. destruct (same_values value _ _ row0 col0 _ x y tr tc Sw) as (f & Vl & Vr).
      destruct (C100_kept value solve unsolved resample i f (Z.to_nat n) _ l r a b d' Hs Hk Hh (around_shows value row0 col0 _ _ x y f l Al Vl) (around_shows value row0 col0 _ _ (x + tr) (y + tc) f r Ar Vr) R) as [(p & Ep & Hp) (p' & Ep' & Hp')].
      split; [exists p | exists p']; (split; [assumption|]); rewrite Z0; [rewrite Hp | rewrite Hp']; assumption.
    - exists (CFin p), (CFin p'), vs. split; [exact Px|]. unfold left_over. split; [exists p | exists p']; (split; [reflexivity|]); rewrite Z0 in *; [rewrite Ep | rewrite Ep']; ring.
  Qed.

  (** * C105: the slopes explain the true disparities (er, ec) from the truncated ones: what is left over by the truncation is added to them. *)
  Theorem C105_fraction pixel_cost user q rows cols e n left right completed subpix w : fraction_run_of user q rows cols e n left right completed subpix w pixel_cost -> 3 <= w -> 1 <= n ->
    least_squares solve -> keeps_windows value resample ->
    exists q' row0 nrow col0 ncol out saved, searched_in user q q' rows cols e row0 nrow col0 ncol /\ main user = Some out /\ o_maps out = Some saved /\ saved_pixels q rows cols saved /\
      let h := Z.to_nat ((w - 1) / 2) in let left_image := load left row0 nrow col0 ncol in let right_image := load right row0 nrow col0 ncol in
      let candidates_row := candidate open_raster (q_row_init q') (q_row_range q') subpix in let candidates_col := candidate open_raster (q_col_init q') (q_col_range q') subpix in
      let cost := window_cost pixel_cost left right completed subpix row0 nrow col0 ncol in
      forall x y dr dc tr tc f g sx sy er ec, In x (dm_rows saved) -> In y (dm_cols saved) -> only_best (measure_of completed) (candidates_row x y) (candidates_col x y) (cost x y) dr dc ->
        truncated (pixels subpix dr) tr -> truncated (pixels subpix dc) tc ->
        ~ at_border row0 nrow col0 ncol h (q_row_step q') (q_col_step q') x y -> WholeFlowSpec.fits row0 nrow col0 ncol h (x + tr) (y + tc) -> not_marked_at q' subpix dr -> not_marked_at q' subpix dc ->
        values_around value row0 col0 left_image h x y f -> values_around value row0 col0 right_image h (x + tr) (y + tc) g -> slopes (2 * h + 1) f sx sy -> textured (2 * h + 1) sx sy ->
        (forall i j, (i < 2 * h + 1)%nat -> (j < 2 * h + 1)%nat -> (g i j == f i j + (sx i j * (inject_Z tc - ec) + sy i j * (inject_Z tr - er)))%Q) ->
        (Qabs (inject_Z tc - ec) < 1)%Q -> (Qabs (inject_Z tr - er) < 1)%Q ->
        (forall r drow dcol, shows_values value (2 * h + 1) g r -> is_number drow (inject_Z tr - er) -> is_number dcol (inject_Z tc - ec) -> shows_values value (2 * h + 1) f (resample r drow dcol)) ->
        inside_interval open_raster (q_row_init q') (q_row_range q') x y (er + left_over subpix dr tr) -> inside_interval open_raster (q_col_init q') (q_col_range q') x y (ec + left_over subpix dc tc) ->
        exists vr vc vs, pixel_of saved x y vr vc vs /\ saved_as vr (er + left_over subpix dr tr) /\ saved_as vc (ec + left_over subpix dc tc).
  Proof.
    intros H Hw Hn Hs Hk. destruct (fraction_pixels pixel_cost user q rows cols e n left right completed subpix w H) as (q' & row0 & nrow & col0 & ncol & out & saved & S & Em & Eo & Sp & B).
    exists q', row0, nrow, col0, ncol, out, saved. do 4 (split; [assumption|]). cbv zeta in B |- *. intros x y dr dc tr tc f g sx sy er ec Hx Hy U Tr Tc Nb Ft Mr Mc Vl Vr Sl Tx Eg Au Av Un Ir Ic.
    assert (Hh : (2 <= 2 * Z.to_nat ((w - 1) / 2) + 1)%nat). { assert (1 <= (w - 1) / 2) by (apply Z.div_le_lower_bound; lia). lia. }
    assert (Same : forall d t z, (pixels subpix d - (inject_Z t - z) == z + left_over subpix d t)%Q) by (intros; unfold left_over; ring).
    assert (In0 : forall init range d t z, inside_interval open_raster init range x y (z + left_over subpix d t) -> inside_interval open_raster init range x y (pixels subpix d - (inject_Z t - z))).
    { intros init range d t z Hi v Hv. rewrite (Same d t z). exact (Hi v Hv). }
    destruct (B x y dr dc tr tc (inject_Z tr - er)%Q (inject_Z tc - ec)%Q Hx Hy U Tr Tc Nb Ft Mr Mc) as (vr & vc & vs & Px & (p & -> & Ep) & (p' & -> & Ep')); [| apply In0; exact Ir | apply In0; exact Ic |].
    - intros i l r a b d' Al Ar Ea Eb R. assert (En : Z.to_nat n = Datatypes.S (Z.to_nat n - 1)) by lia. rewrite En in R.
      pose proof (around_shows value row0 col0 _ _ x y f l Al Vl) as Sl'. pose proof (around_shows value row0 col0 _ _ (x + tr) (y + tc) g r Ar Vr) as Sr'.
      destruct (C100_corrected value solve unsolved resample i (Z.to_nat n - 1) _ f g sx sy _ _ l r a b d' Hs Hk Hh Sl' Sr' Sl Tx Eg Au Av (fun drow dcol => Un r drow dcol Sr') R) as [(p & Ep & Hp) (p' & Ep' & Hp')].
      split; [exists p | exists p']; (split; [assumption|]); [rewrite Hp, Ea | rewrite Hp', Eb]; reflexivity.
    - exists (CFin p), (CFin p'), vs. split; [exact Px|]. split; [exists p | exists p']; (split; [reflexivity|]); [rewrite Ep | rewrite Ep']; apply Same.
  Qed.

End Program.

(** * C105: the saved disparity is the true one exactly when the starting one is whole. *)
Theorem C105_true subpix d t z c : 0 < subpix -> truncated (pixels subpix d) t -> saved_as c (z + left_over subpix d t) -> (saved_as c z <-> (subpix | d)).
Proof.
  intros Hs T (p & -> & E). rewrite <- (left_over_whole subpix d t Hs T). split.
  - intros (p' & Ep & E'). injection Ep as <-. rewrite E' in E. apply Qplus_inj_l with (z := z). rewrite <- E. ring.
  - intros L. exists p. split; [reflexivity|]. rewrite E, L. ring.
Qed.

(** * Examples: images in quarters, 8 rows and 9 columns; around the pixel (4, 4) of the left image the values are i j, in the right image (i - 1/2) j: the true disparities are (1/2, 0).
    The moved image is one row farther. *)
Definition w19_load (s : dict) (row0 : Z) (nrow : nat) (col0 : Z) (ncol : nat) : image Z :=
  let name := match lookup "img" s with Some (JStr p) => p | _ => "" end in
  mkImage (mkArr2 nrow ncol (fun r c => let x := row0 + Z.of_nat r in let y := col0 + Z.of_nat c in
    if name =? "left.tif" then 4 * (x - 3) * (y - 3) else if name =? "moved.tif" then 4 * (x - 4) * (y - 3) else (4 * x - 14) * (y - 3))) (-9999) None.
(** Linear interpolations, at the half rows and at the half columns. *)
Definition w19_zoomed (im : image Z) (_ i j : nat) : Z := let at_ k := a2_get (im_data im) k j in if Nat.even i then at_ (i / 2)%nat else (at_ (i / 2)%nat + at_ (i / 2 + 1)%nat) / 2.
Definition w19_right (right : list (list Z)) (r k : Z) : option Z :=
  if Z.leb 0 r && Z.leb 0 k then match nth2 right (Z.to_nat r) (Z.to_nat k) with Some b => if Z.eqb b (-9999) then None else Some b | None => None end else None.
Definition w19_at (left : image Z) (right : list (list Z)) (r k d : Z) : option Z :=
  if Z.leb 0 r && Z.leb 0 k then
    match nth2 (to_list2 (im_data left)) (Z.to_nat r) (Z.to_nat k), w19_right right r (k + d / 2), w19_right right r (k + d / 2 + d mod 2) with
    | Some a, Some b, Some b' => Some (Z.abs (2 * a - (b + b'))) | _, _, _ => None end
  else None.
Definition w19_pixel (_ : dict) (left : image Z) (right : list (list Z)) (_ : list (list Z)) (r k : nat) (d : Z) : ext :=
  match w3_sum (fun i j => w19_at left right (Z.of_nat r + i) (Z.of_nat k + j) d) with Some s => Fin s | None => NaN end.
Definition w19_cost (c : dict) (m : mc_input) (left : image Z) (right mask : list (list Z)) (r cc i : nat) : ext :=
  match nth_error (col_coords m) cc, disps_col m with
  | Some y, Some ds => match nth_error ds i with Some d => w19_pixel c left right mask r (Z.to_nat (y - mc_col0 m)) d | None => NaN end
  | _, _ => NaN end.
Definition w19_user_of (right : string) : dict :=
  [("input", JDict [("left", JDict [("img", JStr "left.tif")]); ("right", JDict [("img", JStr right)]); ("row_disparity", wh_disp (JInt 0) 2); ("col_disparity", wh_disp (JInt 0) 2)]);
   ("pipeline", JDict [("matching_cost", JDict [("matching_cost_method", JStr "sad"); ("window_size", JInt 3); ("step", JList [JInt 1; JInt 1]); ("subpix", JInt 2)]);
                       ("disparity", JDict [("disparity_method", JStr "wta"); ("invalid_disparity", JStr "NaN")]); ("refinement", JDict [("refinement_method", JStr "optical_flow")])])].
Definition w19_user : dict := w19_user_of "right.tif".
Definition w19_moved : dict := w19_user_of "moved.tif".
Definition w19_request : request := mkRequest (JInt 0) 2 (JInt 0) 2 1 1 None JNan.
Notation w19_lstsq := (lk_lstsq w16_quarter lk_solve w16_unsolved).
Definition w19_main : dict -> option outcome :=
  main Z.eqb 0 true wh_pandora (fun _ => mkMargins 1 1 1 1) (fun _ => true) (fun _ => true) (fun _ _ _ _ => true) wh_size wh_raster w19_load w3_transform (fun _ => true)
    (fun _ => MeasureMin) (fun _ => 1) w19_cost w19_zoomed 512 (fun x => x) w6_filter w19_lstsq w16_resample (fun _ => []) ex_interp ex_minimise
    w3_estimate wh_margins wh_dict.
Definition w19_check (user : dict) := check_user Z.eqb 0 true wh_pandora (fun _ => mkMargins 1 1 1 1) (fun _ => true) (fun _ => true) (fun _ _ _ _ => true) wh_size wh_raster
  (fun _ => MeasureMin) (fun _ => 1) w19_cost w19_zoomed 512 (fun x => x) w6_filter w19_lstsq w16_resample (fun _ => []) ex_interp ex_minimise
  w3_estimate user (new_machine None).
Definition w19_matching (user : dict) : option (dict * dict * dict * Z) :=
  match snd (w19_check user) with
  | Some cfg => match get_path ["input"; "left"] (JDict cfg), get_path ["input"; "right"] (JDict cfg), get_path ["pipeline"; "matching_cost"] (JDict cfg) with
      | Some (JDict l), Some (JDict r), Some (JDict s) => match matching_cost_init wh_pandora s with
          | Some c => match int_at true ["subpix"] c with Some n => Some (l, r, c, n) | None => None end | None => None end
      | _, _, _ => None end
  | None => None end.
Lemma w19_matching_spec user l r c n : w19_matching user = Some (l, r, c, n) ->
  matching_of Z.eqb 0 true wh_pandora (fun _ => mkMargins 1 1 1 1) (fun _ => true) (fun _ => true) (fun _ _ _ _ => true) wh_size wh_raster
    (fun _ => MeasureMin) (fun _ => 1) w19_cost w19_zoomed 512 (fun x => x) w6_filter w19_lstsq w16_resample (fun _ => []) ex_interp ex_minimise w3_estimate user l r c n.
Proof.
  unfold w19_matching. destruct (w19_check user) as [m [cfg|]] eqn:E; [|discriminate]. cbn [snd].
  destruct (get_path ["input"; "left"] (JDict cfg)) as [[| | | | | | | |dl]|] eqn:E1; try discriminate. destruct (get_path ["input"; "right"] (JDict cfg)) as [[| | | | | | | |dr]|] eqn:E2; try discriminate.
  destruct (get_path ["pipeline"; "matching_cost"] (JDict cfg)) as [[| | | | | | | |s]|] eqn:E3; try discriminate. destruct (matching_cost_init wh_pandora s) as [c'|] eqn:E4; [|discriminate].
  destruct (int_at true ["subpix"] c') as [n'|] eqn:E5; [|discriminate]. intros H. injection H as <- <- <- <-. exists m, cfg, s. auto 10.
Qed.
Lemma w19_not_worst c im a b r cc d : w19_pixel c im a b r cc d <> worst MeasureMin.
Proof. unfold w19_pixel. cbn [worst]. destruct (w3_sum _); discriminate. Qed.
Lemma w19_libraries : libraries true wh_pandora (fun _ _ _ _ => true) wh_size w19_load (fun _ => true) (fun _ => MeasureMin) w19_cost 512.
Proof.
  destruct w3_libraries as (L1 & L2 & L3 & L4 & L5 & L6 & L7 & _). do 4 (split; [assumption|]). split; [split; reflexivity|]. do 2 (split; [assumption|]).
  intros c m im a b r cc i. unfold w19_cost. destruct (nth_error (col_coords m) cc); [|discriminate]. destruct (disps_col m); [|discriminate]. destruct (nth_error l i); [|discriminate]. apply w19_not_worst.
Qed.
Lemma w19_contract : cost_contract (fun _ => MeasureMin) w19_cost w19_pixel.
Proof. split; [|intros; apply w19_not_worst]. intros c m im a b r cc i y ds d H1 H2 H3. unfold w19_cost. now rewrite H1, H2, H3. Qed.
Ltac w19_wf := unfold w19_user, w19_moved, w19_user_of, wh_disp; solve_wf.
Lemma w19_programmed : w5_programmed w19_user w19_request 8 9 false true /\ w5_programmed w19_moved w19_request 8 9 false true.
Proof.
  split; (split; [split; [split; [w19_wf|]; split; [apply wh_checked; [w19_wf | vm_compute; discriminate]|];
    split; [|split; [exists "left.tif"; split; reflexivity | try (cbn; lia); exact I]];
    split; [wh_leaf|]; split; [wh_leaf|]; split; [wh_leaf|]; split; [wh_leaf|];
    split; [right; do 2 eexists; split; [reflexivity|]; split; apply int_int|];
    split; [reflexivity | right; wh_leaf] | intros s H; discriminate H] | eexists; split; reflexivity]).
Qed.
Definition w19_parts_of (right : string) (l r c : dict) : Prop :=
  w19_matching (w19_user_of right) = Some (l, r, c, 2) /\ int_at true ["window_size"] c = Some 3 /\ lookup "img" l = Some (JStr "left.tif") /\ lookup "img" r = Some (JStr right).
Notation w19_parts := (w19_parts_of "right.tif").
Lemma w19_parts_exist right : right = "right.tif" \/ right = "moved.tif" -> exists l r c, w19_parts_of right l r c.
Proof. intros [-> | ->]; unfold w19_parts_of; (do 3 eexists; split; [vm_compute; reflexivity|]; split; [reflexivity|]; split; reflexivity). Qed.
Lemma w19_run right l r c : right = "right.tif" \/ right = "moved.tif" -> w19_parts_of right l r c ->
  fraction_run_of Z.eqb 0 true wh_pandora (fun _ => mkMargins 1 1 1 1) (fun _ => true) (fun _ => true) (fun _ _ _ _ => true) wh_size wh_raster w19_load w3_transform (fun _ => true)
    (fun _ => MeasureMin) (fun _ => 1) w19_cost w19_zoomed 512 (fun x => x) w6_filter w16_quarter lk_solve w16_unsolved w16_resample (fun _ => []) ex_interp ex_minimise
    w3_estimate wh_margins wh_dict (w19_user_of right) w19_request 8 9 false 4 l r c 2 3 w19_pixel.
Proof.
  intros Hr (E & W & _). unfold fraction_run_of. split; [exact w19_libraries|]. split; [exact w19_contract|]. split; [destruct w19_programmed; destruct Hr as [-> | ->]; assumption|].
  split; [destruct Hr as [-> | ->]; (split; [reflexivity | right; split; [reflexivity|]; split; reflexivity])|]. split; [right; right; left; split; reflexivity|]. split; [left; reflexivity|].
  split; [apply w19_matching_spec; exact E|]. split; [exact W|]. split; [reflexivity|]. split; reflexivity.
Qed.
Lemma w19_candidate d : candidate wh_raster (JInt 0) 2 2 4 4 d <-> -4 <= d <= 4.
Proof. split; [intros (v & Hv & B); apply w16_middle in Hv; subst v; lia | intros B; exists 0; split; [left; constructor | lia]]. Qed.
Lemma w19_saved saved : saved_pixels w19_request 8 9 saved -> In 4 (dm_rows saved) /\ In 4 (dm_cols saved).
Proof. intros (R & C & _). split; [apply R | apply C]; unfold wanted_row, wanted_col, wanted; cbn; rewrite ?Z.mod_1_r; lia. Qed.
(** The matching cost finds the true disparities: (1, 0) in half pixels, (2, 0) for the moved image. *)
Lemma w19_only_of right n l r c : right = "right.tif" /\ n = 1 \/ right = "moved.tif" /\ n = 2 -> lookup "img" l = Some (JStr "left.tif") -> lookup "img" r = Some (JStr right) ->
  only_best MeasureMin (candidate wh_raster (JInt 0) 2 2 4 4) (candidate wh_raster (JInt 0) 2 2 4 4) (window_cost Z.eqb w19_load w19_zoomed w19_pixel l r c 2 0 8 0 9 4 4) n 0.
Proof.
  intros Hn El Er.
  assert (Ll : w19_load l 0 8 0 9 = w19_load [("img", JStr "left.tif")] 0 8 0 9) by (unfold w19_load; now rewrite El).
  assert (Lr : w19_load r 0 8 0 9 = w19_load [("img", JStr right)] 0 8 0 9) by (unfold w19_load; now rewrite Er).
  unfold window_cost, only_best. rewrite Ll, Lr. clear Ll Lr El Er. split; [apply w19_candidate; lia|]. split; [apply w19_candidate; lia|]. destruct Hn as [[-> ->]|[-> ->]]; (split; [vm_compute; discriminate|]);
  (intros dr dc Hr Hc _ G; apply w19_candidate in Hr, Hc;
   assert (Da : In dr [-4; -3; -2; -1; 0; 1; 2; 3; 4]) by (cbn; lia); assert (Db : In dc [-4; -3; -2; -1; 0; 1; 2; 3; 4]) by (cbn; lia); clear Hr Hc; cbn [In] in Da, Db;
   repeat (destruct Da as [<- | Da]; [repeat (destruct Db as [<- | Db]; [vm_compute in G; first [split; reflexivity | elim G; reflexivity | discriminate G | now apply G]|]); contradiction|]); contradiction).
Qed.
Lemma w19_only l r c : lookup "img" l = Some (JStr "left.tif") -> lookup "img" r = Some (JStr "right.tif") ->
  only_best MeasureMin (candidate wh_raster (JInt 0) 2 2 4 4) (candidate wh_raster (JInt 0) 2 2 4 4) (window_cost Z.eqb w19_load w19_zoomed w19_pixel l r c 2 0 8 0 9 4 4) 1 0.
Proof. intros El Er. apply (w19_only_of "right.tif"); auto. Qed.
Definition w19_g (i j : nat) : Q := (inject_Z (Z.of_nat i) - (1 # 2)) * inject_Z (Z.of_nat j).
Lemma w19_values l r : lookup "img" l = Some (JStr "left.tif") -> lookup "img" r = Some (JStr "right.tif") ->
  values_around w16_quarter 0 0 (w19_load l 0 8 0 9) 1 4 4 w15_f /\ values_around w16_quarter 0 0 (w19_load r 0 8 0 9) 1 (4 + 0) (4 + 0) w19_g.
Proof.
  intros El Er. split; intros a b Ha Hb; three a; three b; unfold number_at, w19_load; rewrite ?El, ?Er; eexists; (split; [reflexivity|]); vm_compute; reflexivity.
Qed.
Lemma w19_undone rw drow dcol : shows_values w16_quarter 3 w19_g rw -> is_number drow (0 - (1 # 2)) -> is_number dcol (0 - 0) -> shows_values w16_quarter 3 w15_f (w16_resample rw drow dcol).
Proof.
  intros [_ H] (p & -> & Hp) _. unfold w16_resample. destruct (Qeq_bool p 0) eqn:E0; [apply Qeq_bool_iff in E0; rewrite E0 in Hp; discriminate Hp|].
  assert (V : forall i j, (i < 3)%nat -> (j < 3)%nat -> nth2 rw i j = Some ((4 * Z.of_nat i - 2) * Z.of_nat j)).
  { intros i j Hi Hj. destruct (H i j Hi Hj) as (z & q & -> & E & Hq). unfold w16_quarter in E. injection E as <-. f_equal. clear H E0 Hp. three i; three j; unfold w19_g, Qeq in Hq; cbn in Hq |- *; lia. }
  assert (Fl : forall k, Qround.Qfloor (p * inject_Z k) = Qround.Qfloor ((0 - (1 # 2)) * inject_Z k)) by (intros; apply Qround.Qfloor_comp; now rewrite Hp).
  split.
  - split; [reflexivity|]. apply Forall_forall. intros row Hr. apply in_map_iff in Hr. destruct Hr as (i & <- & _). reflexivity.
  - intros i j Hi Hj. cbn [map seq]. rewrite !Fl, !V by lia. three i; three j; do 2 eexists; (split; [reflexivity|]); (split; [reflexivity|]); vm_compute; reflexivity.
Qed.
Lemma w19_truncated : truncated (pixels 2 1) 0 /\ truncated (pixels 2 0) 0.
Proof. unfold truncated. vm_compute. repeat split; discriminate || reflexivity. Qed.

(** C105_fraction, C105_true: the matching cost finds the true disparity of 1/2 row, and the optical flow moves it to 1 row. *)
Theorem C105_true_refuted : exists l r c out saved vr vc vs, w19_parts l r c /\
  only_best MeasureMin (candidate wh_raster (JInt 0) 2 2 4 4) (candidate wh_raster (JInt 0) 2 2 4 4) (window_cost Z.eqb w19_load w19_zoomed w19_pixel l r c 2 0 8 0 9 4 4) 1 0 /\ (pixels 2 1 == 1 # 2)%Q /\
  values_around w16_quarter 0 0 (w19_load l 0 8 0 9) 1 4 4 w15_f /\ values_around w16_quarter 0 0 (w19_load r 0 8 0 9) 1 4 4 w19_g /\ slopes 3 w15_f w15_sx w15_sy /\ textured 3 w15_sx w15_sy /\
  (forall i j, (i < 3)%nat -> (j < 3)%nat -> (w19_g i j == w15_f i j + (w15_sx i j * (0 - 0) + w15_sy i j * (0 - (1 # 2))))%Q) /\
  w19_main w19_user = Some out /\ o_maps out = Some saved /\ pixel_of saved 4 4 vr vc vs /\ saved_as vr 1 /\ ~ saved_as vr (1 # 2) /\ saved_as vc 0.
Proof.
  destruct (w19_parts_exist "right.tif" (or_introl eq_refl)) as (l & r & c & P). pose proof (w19_run _ _ _ _ (or_introl eq_refl) P) as R.
  destruct P as (E & W & El & Er). destruct (w19_values l r El Er) as [V1 V2]. destruct C100_slopes_example as (Sl & Tx & _).
  assert (G : forall i j, (i < 3)%nat -> (j < 3)%nat -> (w19_g i j == w15_f i j + (w15_sx i j * (0 - 0) + w15_sy i j * (0 - (1 # 2))))%Q) by (intros; unfold w19_g, w15_f, w15_sx, w15_sy; ring).
  destruct (C105_fraction _ _ _ _ _ _ _ _ _ _ _ _ _ _ _ _ _ _ _ _ _ _ _ _ _ _ _ _ _ _ _ _ _ _ _ _ _ _ _ _ _ _ R ltac:(lia) ltac:(lia) lk_solve_least w16_resample_keeps)
    as (q' & row0 & nrow & col0 & ncol & out & saved & ((-> & -> & -> & ->) & -> & _) & Em & Eo & Sp & B).
  cbv zeta in B. change (Z.to_nat ((3 - 1) / 2)) with 1%nat in B. destruct (w19_saved saved Sp) as [S1 S2]. destruct w19_truncated as [T1 T2].
  destruct (B 4 4 1 0 0 0 w15_f w19_g w15_sx w15_sy (1 # 2) 0%Q S1 S2) as (vr & vc & vs & Px & A1 & A2).
  - apply w19_only; assumption.
  - exact T1.
  - exact T2.
  - exact w16_border.
  - unfold WholeFlowSpec.fits; lia.
  - intros i H. inversion H.
  - intros i H. inversion H.
  - exact V1.
  - exact V2.
  - exact Sl.
  - exact Tx.
  - exact G.
  - reflexivity.
  - reflexivity.
  - exact w19_undone.
  - apply w16_inside; reflexivity.
  - apply w16_inside; reflexivity.
  - exists l, r, c, out, saved, vr, vc, vs. split; [repeat split; assumption|]. split; [apply w19_only; assumption|]. split; [reflexivity|]. do 8 (split; [assumption|]).
    split. { destruct A1 as (p & -> & Ep). exists p. split; [reflexivity|]. rewrite Ep. reflexivity. }
    split. { intros X. apply (C105_true 2 1 0 (1 # 2) vr ltac:(lia) T1 A1) in X. destruct X as (k & X). lia. }
    destruct A2 as (p & -> & Ep). exists p. split; [reflexivity|]. rewrite Ep. reflexivity.
Qed.

(** C105_kept: the moved image; the whole disparity of one row is kept. *)
Example C105_kept_example : exists l r c out saved vr vc vs, w19_parts_of "moved.tif" l r c /\
  only_best MeasureMin (candidate wh_raster (JInt 0) 2 2 4 4) (candidate wh_raster (JInt 0) 2 2 4 4) (window_cost Z.eqb w19_load w19_zoomed w19_pixel l r c 2 0 8 0 9 4 4) 2 0 /\
  same_windows w16_quarter (w19_load l 0 8 0 9) (w19_load r 0 8 0 9) 0 0 1 4 4 1 0 /\
  w19_main w19_moved = Some out /\ o_maps out = Some saved /\ pixel_of saved 4 4 vr vc vs /\ saved_as vr 1 /\ saved_as vc 0.
Proof.
  destruct (w19_parts_exist "moved.tif" (or_intror eq_refl)) as (l & r & c & P). pose proof (w19_run _ _ _ _ (or_intror eq_refl) P) as R. destruct P as (E & W & El & Er).
  assert (Sw : same_windows w16_quarter (w19_load l 0 8 0 9) (w19_load r 0 8 0 9) 0 0 1 4 4 1 0).
  { intros i j Hi Hj. change (Z.of_nat 1) with 1 in Hi, Hj. unfold number_at, w19_load, w16_quarter. rewrite El, Er. cbn [String.eqb Ascii.eqb Bool.eqb im_data a2_get]. rewrite !Z2Nat.id by lia.
    eexists. split; eexists; (split; [reflexivity|]); [reflexivity|]. replace (4 * (0 + (4 + 1 + i - 0) - 4) * (0 + (4 + 0 + j - 0) - 3)) with (4 * (0 + (4 + i - 0) - 3) * (0 + (4 + j - 0) - 3)) by ring. reflexivity. }
  destruct (C105_kept _ _ _ _ _ _ _ _ _ _ _ _ _ _ _ _ _ _ _ _ _ _ _ _ _ _ _ _ _ _ _ _ _ _ _ _ _ _ _ _ _ _ R ltac:(lia) lk_solve_least w16_resample_keeps)
    as (q' & row0 & nrow & col0 & ncol & out & saved & ((-> & -> & -> & ->) & -> & _) & Em & Eo & Sp & B).
  cbv zeta in B. change (Z.to_nat ((3 - 1) / 2)) with 1%nat in B. destruct (w19_saved saved Sp) as [S1 S2].
  assert (O : only_best MeasureMin (candidate wh_raster (JInt 0) 2 2 4 4) (candidate wh_raster (JInt 0) 2 2 4 4) (window_cost Z.eqb w19_load w19_zoomed w19_pixel l r c 2 0 8 0 9 4 4) 2 0) by (apply (w19_only_of "moved.tif"); auto).
  destruct (B 4 4 2 0 1 0 S1 S2 O) as (vr & vc & vs & Px & (p & -> & Ep) & (p' & -> & Ep')).
  - unfold truncated. vm_compute. repeat split; discriminate || reflexivity.
  - exact (proj2 w19_truncated).
  - exact w16_border.
  - unfold WholeFlowSpec.fits; lia.
  - intros i H. inversion H.
  - intros i H. inversion H.
  - exact Sw.
  - apply w16_inside; reflexivity.
  - apply w16_inside; reflexivity.
  - exists l, r, c, out, saved, (CFin p), (CFin p'), vs. split; [repeat split; assumption|]. do 5 (split; [assumption|]). split; [exists p | exists p']; (split; [reflexivity|]); [rewrite Ep | rewrite Ep']; reflexivity.
Qed.

Print Assumptions C105_kept.
Print Assumptions C105_fraction.
Print Assumptions C105_true.
Print Assumptions C105_true_refuted.
