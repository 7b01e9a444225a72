(** C106: when the costs of a pixel lead to a position between the samples, the saved disparities of a dichotomy are this position with the precision of the last iteration. *)
From Coq Require Import List String Bool ZArith QArith Qabs Lia.
From Verif Require Import Base.Ext Base.PyList Base.Arr Base.Json Base.Dict Base.ZRange Model.CommonModel Model.DisparityModel Model.MatchingCostModel Model.DichotomyModel
  Model.RoiModel Model.InputModel Model.ConfigModel Model.DatasetModel Model.EstimationModel Model.OpticalFlowModel Model.InterpolationModel Model.MachineModel Model.CheckConfModel
  Model.PipelineModel Model.WholeModel Model.LucasKanadeModel Model.ImgShiftModel
  Spec.MatchingCostSpec Spec.DichotomySpec Spec.RoiSpec Spec.PipelineSpec Spec.ConfigSpec Spec.InputSpec Spec.MachineSpec Spec.CheckConfSpec Spec.AcceptSpec Spec.WholeSpec Spec.BestSpec Spec.WtaSpec Spec.ShiftSpec Spec.WholeEverySpec Spec.InterpolationSpec Spec.OpticalFlowSpec Spec.WholeRefineSpec Spec.HalvingSpec Spec.WholeExactSpec Spec.WholeFlowSpec Spec.WholeEndSpec Spec.LucasKanadeSpec Spec.WholeMatchSpec Spec.WholeOrderSpec Spec.WholeRoiSpec Spec.WholeInterpSpec Spec.InterpUniqueSpec Spec.WholeMovedSpec Spec.WholeGoalSpec
  Proofs.CheckConfProofs Proofs.ConfigProofs Proofs.ConfigStepProofs Proofs.AcceptProofs Proofs.RoiProofs Proofs.WtaProofs Proofs.WtaTheorems Proofs.MatchingCostProofs Proofs.MatchingCostTheorems Proofs.PipelineProofs Proofs.WholeRunProofs Proofs.WholeProofs Proofs.WholeMainProofs Proofs.HalvingProofs Proofs.BetweenProofs Proofs.RefineBestProofs Proofs.RefineExactProofs Proofs.WholeMoreProofs Proofs.WholeEveryProofs Proofs.WholeRoiProofs Proofs.InterpUniqueProofs Proofs.BestProofs Proofs.RefineBestProofs Proofs.WholeFlowProofs Proofs.WholeEndProofs Proofs.WholeOrderProofs Proofs.WholeMovedProofs Proofs.BicubicHalving Proofs.WholeGoalProofs
  Props.RoiProps Props.PipelineProps Props.CheckConfProps Props.InterpolationProps Props.WholeProps Props.WholeMoreProps Props.WholeEveryProps Props.WholeRefineProps Props.WholeExactProps Props.WholeCompareProps Props.WholeInterpProps Props.LucasKanadeProps Props.WholeRoiProps Props.WholeMatchProps Props.WholeOrderProps Props.WholeMovedProps.
Import ListNotations.
Open Scope Z_scope.
Open Scope string_scope.
Open Scope list_scope.

Section Program.
  (** The libraries: see WholeModel. *)
  Context {px : Type} (px_eqb : px -> px -> bool) (nan : px).
  Variable bool_ok : bool.
  Variable pandora_check : dict -> option (json * json * json).
  Variable matching_cost_margins : dict -> margins.
  Variable can_open_mandatory can_open : json -> bool.
  Variable images_ok : json -> json -> json -> json -> bool.
  Variable image_size : string -> nat * nat.
  Variable open_raster : string -> reader.
  Variable load : dict -> Z -> nat -> Z -> nat -> image px.
  Variable transform_of : dict -> option affine.
  Variable dataset_ok : image_dataset (image px) -> bool.
  Variable measure_of : dict -> measure.
  Variable offset_of : dict -> Z.
  Variable pandora_cost : dict -> mc_input -> image px -> list (list px) -> list (list Z) -> nat -> nat -> nat -> ext.
  Variable zoomed : image px -> nat -> nat -> nat -> px.
  Variable one : Z.
  Variable store : ext -> ext.
  Variable filter_apply : dict -> list (list ext) -> Z -> Z -> ext.
  (** The motion of Lucas and Kanade: see LucasKanadeModel. *)
  Variable lstsq : list (list px) -> list (list px) -> option (num * num).
  Variable resample : list (list px) -> num -> num -> list (list px).
  Variable junk : nat -> list (list px).
  Variable interp : list Q -> list Q -> list (list cost) -> num -> num -> cost.
  Variable minimise : (num -> num -> cost) -> num * num -> (Q * Q) * (Q * Q) -> num * num.
  Variable estimate : json -> image px -> image px -> (Q * Q) * json * json.
  Variable global_margins : list (string * margins) -> list (string * margins) -> margins.
  Variable margins_to_dict : list (string * margins) -> list (string * margins) -> json.
  Notation main := (main px_eqb nan bool_ok pandora_check matching_cost_margins can_open_mandatory can_open images_ok image_size open_raster load transform_of dataset_ok
    measure_of offset_of pandora_cost zoomed one store filter_apply lstsq resample junk interp minimise estimate global_margins margins_to_dict).
  Notation check_user := (check_user px_eqb nan bool_ok pandora_check matching_cost_margins can_open_mandatory can_open images_ok image_size open_raster
    measure_of offset_of pandora_cost zoomed one store filter_apply lstsq resample junk interp minimise estimate).
  Notation libraries := (libraries bool_ok pandora_check images_ok image_size load dataset_ok measure_of pandora_cost one).
  Notation dichotomy_libraries := (dichotomy_libraries bool_ok pandora_check pandora_cost one store).
  Notation asked := (asked bool_ok pandora_check can_open_mandatory can_open images_ok image_size open_raster).
  Notation asked_estimation := (asked_estimation bool_ok pandora_check can_open_mandatory can_open images_ok image_size open_raster).
  Notation cost_contract := (cost_contract measure_of pandora_cost).

  Notation programmed := (programmed bool_ok pandora_check can_open_mandatory can_open images_ok image_size open_raster).
  Notation matching_of := (matching_of px_eqb nan bool_ok pandora_check matching_cost_margins can_open_mandatory can_open images_ok image_size open_raster measure_of offset_of pandora_cost zoomed one
    store filter_apply lstsq resample junk interp minimise estimate).
  Notation estimated_request := (estimated_request px_eqb nan bool_ok pandora_check matching_cost_margins can_open_mandatory can_open images_ok image_size open_raster load
    measure_of offset_of pandora_cost zoomed one store filter_apply lstsq resample junk interp minimise estimate).
  (** The request with the disparities that are searched, in the window that is loaded. *)
  Notation searched := (searched bool_ok pandora_check can_open_mandatory can_open images_ok image_size open_raster).
  Notation window_cost := (window_cost px_eqb load zoomed).

  Notation local_cost := (local_cost px_eqb load zoomed).
  Notation filter_of := (filter_of px_eqb nan bool_ok pandora_check matching_cost_margins can_open_mandatory can_open images_ok image_size open_raster measure_of offset_of pandora_cost zoomed one
    store filter_apply lstsq resample junk interp minimise estimate).


  Notation searched_in := (searched_in px_eqb nan bool_ok pandora_check matching_cost_margins can_open_mandatory can_open images_ok image_size open_raster load
    measure_of offset_of pandora_cost zoomed one store filter_apply lstsq resample junk interp minimise estimate).

  Lemma subpix_of pixel_cost user left right completed subpix : libraries -> dichotomy_libraries -> cost_contract pixel_cost -> matching_of user left right completed subpix ->
    1 <= subpix /\ (subpix | one) /\ exists k, subpix = 2 ^ Z.of_nat k.
  Proof.
    intros (_ & L2 & _) (_ & _ & Hpow & _) _ (m & cfg & st & D1 & D2 & D3 & D4 & D5 & D6). unfold matching_cost_init in D5.
    destruct (matching_cost_check_conf st) as [[|[k1 j1] [|[k2 [| | | | | | |[|s1 [|s2 []]]|]] []]]|]; try discriminate. destruct (pandora_check (assign "step" s2 st)) as [[[jw js] jo]|] eqn:Ep; [|discriminate].
    injection D5 as <-. destruct (L2 _ _ _ _ Ep) as (m0 & In0 & Pn0 & Dv). cbn in D6. rewrite (int_value_as_int _ _ _ In0) in D6. injection D6 as <-. split; [exact Pn0|]. split; [exact Dv|]. eapply Hpow; eauto.
  Qed.

  (** * C106: the costs of the pixel lead to (goal_row, goal_col), in 1 / one pixel, and the filter is exact near the goal: after min n 9 iterations from 1 / subpix = 1 / 2^k pixel, the saved
      disparities are at most 1 / 2^max(k, min n 9) pixel from the goal, and the score is the cost there. *)
  Theorem C106_precise pixel_cost user q rows cols e n left right completed subpix filter size before : libraries -> dichotomy_libraries -> cost_contract pixel_cost -> programmed user q rows cols e true ->
    asks_refinement bool_ok user "dichotomy" n -> q_row_step q = 1 -> q_col_step q = 1 -> matching_of user left right completed subpix -> filter_of user filter -> filter_support bool_ok filter size before ->
    exists q' row0 nrow col0 ncol out saved, searched_in user q q' rows cols e row0 nrow col0 ncol /\ main user = Some out /\ o_maps out = Some saved /\
      forall x y f h goal_row goal_col, In x (dm_rows saved) -> In y (dm_cols saved) ->
        let cost := window_cost pixel_cost left right completed subpix row0 nrow col0 ncol x y in
        let candidates_row := candidate open_raster (q_row_init q') (q_row_range q') subpix x y in
        let candidates_col := candidate open_raster (q_col_init q') (q_col_range q') subpix x y in
        let unit := one / subpix in let reach := Z.of_nat before + 2 in let bits := Z.max (Z.log2 subpix) (Z.min n 9) in
        leads_to (measure_of completed) candidates_row candidates_col unit reach cost f h goal_row goal_col ->
        (forall d, near unit reach goal_row d -> of_the_window open_raster (q_row_init q') (q_row_range q') subpix row0 nrow col0 ncol d -> candidates_row d) ->
        (forall d, near unit reach goal_col d -> of_the_window open_raster (q_col_init q') (q_col_range q') subpix row0 nrow col0 ncol d -> candidates_col d) ->
        exact_between one subpix size before (filter_apply filter) reach f h goal_row goal_col -> (forall u v, store (Fin (f u + h v)) = Fin (f u + h v)) ->
        (forall d, near unit 1 goal_row d \/ near unit 1 goal_col d -> not_invalid one subpix q' d) ->
        exists vr vc vs a b, pixel_of saved x y vr vc vs /\ quotient a one vr /\ quotient b one vc /\ quotient (f a + h b) one vs /\
          Z.abs (a - goal_row) * 2 ^ bits <= one /\ Z.abs (b - goal_col) * 2 ^ bits <= one.
  Proof.
    intros L D K Pr Ar S1 S2 Mo Fo Fs.
    destruct (subpix_of _ _ _ _ _ _ L D K Mo) as (Hsub & Hdiv & (k & Hk)). assert (Hone : 0 < one) by apply L. assert (H512 : (512 | one)) by apply D.
    assert (Hn : 0 <= Z.min n 9 <= 9 \/ Z.min n 9 < 0) by lia.
    destruct (C91_dichotomy_exact px_eqb nan bool_ok pandora_check matching_cost_margins can_open_mandatory can_open images_ok image_size open_raster load transform_of dataset_ok
      measure_of offset_of pandora_cost zoomed one store filter_apply lstsq resample junk interp minimise estimate global_margins margins_to_dict
      pixel_cost user q rows cols e n left right completed subpix filter size before L D K Pr Ar S1 S2 Mo Fo Fs) as (q' & row0 & nrow & col0 & ncol & out & saved & Sn & M & O & B).
    exists q', row0, nrow, col0, ncol, out, saved. do 3 (split; [assumption|]). cbv zeta in *. intros x y f h goal_row goal_col Hx Hy Le Ur Uc Ex St Ni.
    destruct (B x y Hx Hy) as (vr & vc & vs & Px & Bp).
    assert (Pu : 0 < one / subpix) by (destruct Hdiv as [u0 Hu0]; rewrite Hu0, Z.div_mul by lia; nia).
    assert (Wide : forall goal d, near (one / subpix) 2 goal d -> near (one / subpix) (Z.of_nat before + 2) goal d) by (unfold near; intros; nia).
    assert (Nx : forall goal d, near (one / subpix) 1 goal d -> near (one / subpix) 2 goal (d + 1) /\ near (one / subpix) 2 goal (d - 1) /\ near (one / subpix) 2 goal d) by (unfold near; intros; lia).
    destruct Bp as [(_ & No)|(dr & dc & s & (sample & Sa & Se) & R & C & Ns & Best & E1 & E2 & _)].
    { exfalso. destruct (best_sample _ _ _ _ (lt_row _ _ _ _ _ _ _ _ _ _ Le) Pu) as (r0 & N0 & _). destruct (best_sample _ _ _ _ (lt_col _ _ _ _ _ _ _ _ _ _ Le) Pu) as (c0 & M0 & _).
      specialize (No r0 c0 (lt_rows _ _ _ _ _ _ _ _ _ _ Le _ N0) (lt_cols _ _ _ _ _ _ _ _ _ _ Le _ M0)). rewrite (lt_near _ _ _ _ _ _ _ _ _ _ Le) in No by auto. discriminate No. }
    destruct (best_near _ _ _ _ _ _ _ _ _ _ _ _ _ Le Pu ltac:(lia) R C Ns Best E1 E2) as [Nr Nc].
    destruct (Nx _ _ Nr) as (Nr1 & Nr2 & Nr3). destruct (Nx _ _ Nc) as (Nc1 & Nc2 & Nc3).
    rewrite (lt_near _ _ _ _ _ _ _ _ _ _ Le dr dc) in Se by auto.
    destruct Se as [([(c0 & I1 & I2)|(c0 & I1 & I2)] & _)|(_ & _ & Se)]; [elim (Ni dr (or_introl Nr) c0 I1 I2) | elim (Ni dc (or_intror Nc) c0 I1 I2)|].
    destruct Se as [([Z0|[Z0|Z0]] & _)|(_ & _ & _ & a & b & w & Hs & V1 & V2 & V3)]; [discriminate Z0 | exfalso | exfalso |].
    { pose proof (lt_rows _ _ _ _ _ _ _ _ _ _ Le _ Nr1). pose proof (lt_rows _ _ _ _ _ _ _ _ _ _ Le _ Nr2). destruct Z0 as [Z0|Z0]; [specialize (Z0 (dr - 1)) | specialize (Z0 (dr + 1))]; intuition lia. }
    { pose proof (lt_cols _ _ _ _ _ _ _ _ _ _ Le _ Nc1). pose proof (lt_cols _ _ _ _ _ _ _ _ _ _ Le _ Nc2). destruct Z0 as [Z0|Z0]; [specialize (Z0 (dc - 1)) | specialize (Z0 (dc + 1))]; intuition lia. }
    assert (Sm : forall dr dc, near (one / subpix) (Z.of_nat before + 2) goal_row dr -> near (one / subpix) (Z.of_nat before + 2) goal_col dc -> sample dr dc = Fin (f (dr * (one / subpix)) + h (dc * (one / subpix)))).
    { intros dr' dc' Hr Hc. destruct (Sa dr' dc') as [(_ & _ & ->)|([[A1 A2]|[A1 A2]] & _)]; [apply (lt_near _ _ _ _ _ _ _ _ _ _ Le); auto | elim A2; auto | elim A2; auto]. }
    assert (Kk : Z.to_nat (Z.log2 subpix) = k) by (rewrite Hk, Z.log2_pow2 by lia; lia). rewrite Kk in Hs.
    set (n' := Z.to_nat (Z.min n 9)) in *.
    assert (D512 : (2 ^ Z.of_nat (Nat.max k n') | one)).
    { destruct (Nat.max_spec k n') as [[_ ->]|[_ ->]]; [|rewrite <- Hk; exact Hdiv]. apply (Z.divide_trans _ 512); auto. change 512 with (2 ^ 9). exists (2 ^ (9 - Z.of_nat n')). rewrite <- Z.pow_add_r by lia. f_equal. lia. }
    pose proof (fun u v => Ex sample dr dc u v Sm Nr Nc) as V.
    destruct (search_near one store (measure_of completed) (between one subpix size before before (filter_apply filter) sample) f h goal_row goal_col k n' dr dc a b w) as (A1 & A2 & A3); auto;
      try apply Le; try (rewrite <- Hk; assumption).
    subst w. cbn [same_number] in V3.
    assert (Eb : Z.max (Z.log2 subpix) (Z.min n 9) = Z.of_nat (Nat.max k n')) by (rewrite Hk, Z.log2_pow2 by apply Nat2Z.is_nonneg; unfold n'; clear; lia).
    rewrite Eb. exists vr, vc, vs, a, b. auto 10.
  Qed.

  (** With the bicubic filter and costs of degree two, nothing is supposed on the values between the samples. *)
  Theorem C106_bicubic pixel_cost user q rows cols e n left right completed subpix filter : libraries -> dichotomy_libraries -> cost_contract pixel_cost -> programmed user q rows cols e true ->
    asks_refinement bool_ok user "dichotomy" n -> q_row_step q = 1 -> q_col_step q = 1 -> matching_of user left right completed subpix ->
    filter_of user filter -> lookup "method" filter = Some (JStr "bicubic") -> (forall area fr fc, filter_apply filter area fr fc = bicubic_apply one area fr fc) ->
    exists q' row0 nrow col0 ncol out saved, searched_in user q q' rows cols e row0 nrow col0 ncol /\ main user = Some out /\ o_maps out = Some saved /\
      forall x y a b c goal_row goal_col, In x (dm_rows saved) -> In y (dm_cols saved) ->
        let cost := window_cost pixel_cost left right completed subpix row0 nrow col0 ncol x y in
        let candidates_row := candidate open_raster (q_row_init q') (q_row_range q') subpix x y in
        let candidates_col := candidate open_raster (q_col_init q') (q_col_range q') subpix x y in
        let unit := one / subpix in let bits := Z.max (Z.log2 subpix) (Z.min n 9) in
        let value u v := a * (u - goal_row) ^ 2 + (b * (v - goal_col) ^ 2 + c) in
        leads_to (measure_of completed) candidates_row candidates_col unit 3 cost (fun u => a * (u - goal_row) ^ 2) (fun v => b * (v - goal_col) ^ 2 + c) goal_row goal_col ->
        (forall d, near unit 3 goal_row d -> of_the_window open_raster (q_row_init q') (q_row_range q') subpix row0 nrow col0 ncol d -> candidates_row d) ->
        (forall d, near unit 3 goal_col d -> of_the_window open_raster (q_col_init q') (q_col_range q') subpix row0 nrow col0 ncol d -> candidates_col d) ->
        (forall u v, store (Fin (value u v)) = Fin (value u v)) -> (forall d, near unit 1 goal_row d \/ near unit 1 goal_col d -> not_invalid one subpix q' d) ->
        exists vr vc vs u v, pixel_of saved x y vr vc vs /\ quotient u one vr /\ quotient v one vc /\ quotient (value u v) one vs /\
          Z.abs (u - goal_row) * 2 ^ bits <= one /\ Z.abs (v - goal_col) * 2 ^ bits <= one.
  Proof.
    intros L D K Pr Ar S1 S2 Mo Fo Fm Fa. destruct (subpix_of _ _ _ _ _ _ L D K Mo) as (Hsub & Hdiv & _). assert (Hone : 0 < one) by apply L.
    destruct (C106_precise pixel_cost user q rows cols e n left right completed subpix filter 4 1 L D K Pr Ar S1 S2 Mo Fo (or_introl (conj Fm (conj eq_refl eq_refl))))
      as (q' & row0 & nrow & col0 & ncol & out & saved & Sn & M & O & B).
    exists q', row0, nrow, col0, ncol, out, saved. do 3 (split; [assumption|]). cbv zeta in *. change (Z.of_nat 1 + 2) with 3 in B. intros x y a b c goal_row goal_col Hx Hy Le Ur Uc St Ni.
    refine (B x y (fun u => a * (u - goal_row) ^ 2) (fun v => b * (v - goal_col) ^ 2 + c) goal_row goal_col Hx Hy Le Ur Uc _ St Ni).
    intros sample row col u v Sm Nr Nc Bu Bv. rewrite <- (bicubic_exact one subpix a b c goal_row goal_col ltac:(lia) Hdiv Hone sample row col u v Sm Nr Nc Bu Bv).
    unfold between. rewrite Fa. reflexivity.
  Qed.
End Program.

(** * Example: two bands per pixel, the rows and the columns in 1 / 512 pixel; the left image is at (100, -71) / 512 pixel of the right image. Three iterations: at most 1/8 pixel from it. *)
Definition w20_load (s : dict) (row0 : Z) (nrow : nat) (col0 : Z) (ncol : nat) : image Z :=
  let name := match lookup "img" s with Some (JStr p) => p | _ => "" end in
  mkImage (mkArr2 nrow ncol (fun r c => let x := row0 + Z.of_nat r in let y := col0 + Z.of_nat c in
    if name =? "left.tif" then 512 * x + 100 + 1048576 * (512 * y - 71) else 512 * x + 1048576 * (512 * y))) (-9999) None.
Definition w20_bands (v : Z) : Z * Z := let low := (v + 524288) mod 1048576 - 524288 in (low, (v - low) / 1048576).
Definition w20_pixel (_ : dict) (left : image Z) (right : list (list Z)) (_ : list (list Z)) (r k : nat) (d : Z) : ext :=
  if Z.leb 0 (Z.of_nat k + d) then
    match nth2 (to_list2 (im_data left)) r k, nth2 right r (Z.to_nat (Z.of_nat k + d)) with
    | Some a, Some b => if Z.eqb b (-9999) then NaN else let (u, v) := w20_bands (b - a) in Fin (3 * u ^ 2 + (5 * v ^ 2 + 7))
    | _, _ => NaN end
  else NaN.
Definition w20_cost (c : dict) (m : mc_input) (left : image Z) (right mask : list (list Z)) (r cc i : nat) : ext :=
  match nth_error (col_coords m) cc, disps_col m with
  | Some y, Some ds => match nth_error ds i with Some d => w20_pixel c left right mask r (Z.to_nat (y - mc_col0 m)) d | None => NaN end
  | _, _ => NaN end.
Definition w20_filter (_ : dict) : list (list ext) -> Z -> Z -> ext := bicubic_apply 512.
Definition w20_refinement : dict := [("refinement_method", JStr "dichotomy"); ("iterations", JInt 3); ("filter", JDict [("method", JStr "bicubic")])].
Definition w20_user : dict := w18_user "left.tif" (wh_disp (JInt 0) 2) (wh_disp (JInt 0) 2) w20_refinement.
Definition w20_main : dict -> option outcome :=
  main Z.eqb 0 true wh_pandora (fun _ => mkMargins 1 1 1 1) (fun _ => true) (fun _ => true) (fun _ _ _ _ => true) wh_size wh_raster w20_load w3_transform (fun _ => true)
    (fun _ => MeasureMin) (fun _ => 1) w20_cost (fun _ _ _ _ => 0) 512 (fun x => x) w20_filter w6_lstsq (fun w _ _ => w) (fun _ => []) ex_interp ex_minimise
    w3_estimate wh_margins wh_dict.
Definition w20_check (user : dict) := check_user Z.eqb 0 true wh_pandora (fun _ => mkMargins 1 1 1 1) (fun _ => true) (fun _ => true) (fun _ _ _ _ => true) wh_size wh_raster
    (fun _ => MeasureMin) (fun _ => 1) w20_cost (fun _ _ _ _ => 0) 512 (fun x => x) w20_filter w6_lstsq (fun w _ _ => w) (fun _ => []) ex_interp ex_minimise
    w3_estimate user (new_machine None).
Definition w20_matching (user : dict) : option (dict * dict * dict * Z) :=
  match snd (w20_check user) with
  | Some cfg => match get_path ["input"; "left"] (JDict cfg), get_path ["input"; "right"] (JDict cfg), get_path ["pipeline"; "matching_cost"] (JDict cfg) with
      | Some (JDict l), Some (JDict r), Some (JDict s) => match matching_cost_init wh_pandora s with
          | Some c => match int_at true ["subpix"] c with Some n => Some (l, r, c, n) | None => None end | None => None end
      | _, _, _ => None end
  | None => None end.
Lemma w20_matching_spec user l r c n : w20_matching user = Some (l, r, c, n) -> matching_of Z.eqb 0 true wh_pandora (fun _ => mkMargins 1 1 1 1) (fun _ => true) (fun _ => true) (fun _ _ _ _ => true) wh_size wh_raster
    (fun _ => MeasureMin) (fun _ => 1) w20_cost (fun _ _ _ _ => 0) 512 (fun x => x) w20_filter w6_lstsq (fun w _ _ => w) (fun _ => []) ex_interp ex_minimise
    w3_estimate user l r c n.
Proof.
  unfold w20_matching. destruct (w20_check user) as [m [cfg|]] eqn:E; [|discriminate]. cbn [snd].
  destruct (get_path ["input"; "left"] (JDict cfg)) as [[| | | | | | | |dl]|] eqn:E1; try discriminate. destruct (get_path ["input"; "right"] (JDict cfg)) as [[| | | | | | | |dr]|] eqn:E2; try discriminate.
  destruct (get_path ["pipeline"; "matching_cost"] (JDict cfg)) as [[| | | | | | | |s]|] eqn:E3; try discriminate. destruct (matching_cost_init wh_pandora s) as [c'|] eqn:E4; [|discriminate].
  destruct (int_at true ["subpix"] c') as [n'|] eqn:E5; [|discriminate]. intros H. injection H as <- <- <- <-. exists m, cfg, s. auto 10.
Qed.
Definition w20_filter_at (user : dict) : option dict :=
  match snd (w20_check user) with Some cfg => match get_path ["pipeline"; "refinement"; "filter"] (JDict cfg) with Some (JDict f) => Some f | _ => None end | None => None end.
Lemma w20_filter_spec user f : w20_filter_at user = Some f -> filter_of Z.eqb 0 true wh_pandora (fun _ => mkMargins 1 1 1 1) (fun _ => true) (fun _ => true) (fun _ _ _ _ => true) wh_size wh_raster
    (fun _ => MeasureMin) (fun _ => 1) w20_cost (fun _ _ _ _ => 0) 512 (fun x => x) w20_filter w6_lstsq (fun w _ _ => w) (fun _ => []) ex_interp ex_minimise
    w3_estimate user f.
Proof.
  unfold w20_filter_at. destruct (w20_check user) as [m [cfg|]] eqn:E; [|discriminate]. cbn [snd]. destruct (get_path ["pipeline"; "refinement"; "filter"] (JDict cfg)) as [[| | | | | | | |f']|] eqn:E1; try discriminate.
  intros H. injection H as <-. exists m, cfg. auto.
Qed.
Lemma w20_not_worst c im a b r cc d : w20_pixel c im a b r cc d <> worst MeasureMin.
Proof. unfold w20_pixel. cbn [worst]. destruct (Z.leb _ _); [|discriminate]. destruct (nth2 _ _ _); [|discriminate]. destruct (nth2 _ _ _); [|discriminate]. destruct (Z.eqb _ _); [discriminate|]. destruct (w20_bands _). discriminate. Qed.
Lemma w20_libraries : libraries true wh_pandora (fun _ _ _ _ => true) wh_size w20_load (fun _ => true) (fun _ => MeasureMin) w20_cost 512.
Proof.
  destruct w3_libraries as (L1 & L2 & L3 & L4 & L5 & L6 & L7 & _). do 4 (split; [assumption|]). split; [split; reflexivity|]. do 2 (split; [assumption|]).
  intros c m im a b r cc i. unfold w20_cost. destruct (nth_error (col_coords m) cc); [|discriminate]. destruct (disps_col m); [|discriminate]. destruct (nth_error l i); [|discriminate]. apply w20_not_worst.
Qed.
Lemma w20_dichotomy_libraries : dichotomy_libraries true wh_pandora w20_cost 512 (fun x => x).
Proof. destruct wh_dichotomy_libraries as (D1 & D2 & D3 & _). do 3 (split; [assumption|]). intros. right. reflexivity. Qed.
Lemma w20_contract : cost_contract (fun _ => MeasureMin) w20_cost w20_pixel.
Proof. split; [|intros; apply w20_not_worst]. intros c m im a b r cc i y ds d H1 H2 H3. unfold w20_cost. now rewrite H1, H2, H3. Qed.
Lemma w20_programmed : w5_programmed w20_user (w18_request 0 0) 8 9 false true.
Proof.
  assert (W : wf (JDict w20_user)) by (unfold w20_user, w20_refinement, w18_user, wh_disp; solve_wf).
  split; [split; [split; [exact W|]; split; [apply wh_checked; [exact W | vm_compute; discriminate]|];
  split; [|split; [exists "left.tif"; split; reflexivity | try (cbn; lia); exact I]];
  split; [wh_leaf|]; split; [wh_leaf|]; split; [wh_leaf|]; split; [wh_leaf|];
  split; [right; do 2 eexists; split; [reflexivity|]; split; apply int_int|];
  split; [reflexivity | right; wh_leaf] | intros s H; discriminate H] | eexists; split; reflexivity].
Qed.
Lemma w20_parts : exists l r c, matching_of Z.eqb 0 true wh_pandora (fun _ => mkMargins 1 1 1 1) (fun _ => true) (fun _ => true) (fun _ _ _ _ => true) wh_size wh_raster
    (fun _ => MeasureMin) (fun _ => 1) w20_cost (fun _ _ _ _ => 0) 512 (fun x => x) w20_filter w6_lstsq (fun w _ _ => w) (fun _ => []) ex_interp ex_minimise
    w3_estimate w20_user l r c 1 /\ lookup "img" l = Some (JStr "left.tif") /\ lookup "img" r = Some (JStr "right.tif").
Proof.
  assert (H : match w20_matching w20_user with Some (l, r, c, n) => lookup "img" l = Some (JStr "left.tif") /\ lookup "img" r = Some (JStr "right.tif") /\ n = 1 | None => False end) by (vm_compute; auto).
  destruct (w20_matching w20_user) as [[[[l r] c] n]|] eqn:E; [|contradiction]. destruct H as (H1 & H2 & ->). exists l, r, c. split; [now apply w20_matching_spec|]. auto.
Qed.
(** The costs of the pixel (4, 4). *)
Lemma w20_costs l r c a b : lookup "img" l = Some (JStr "left.tif") -> lookup "img" r = Some (JStr "right.tif") -> -3 <= a <= 3 -> -3 <= b <= 3 ->
  window_cost Z.eqb w20_load (fun _ _ _ _ => 0) w20_pixel l r c 1 0 8 0 9 4 4 a b = Fin (3 * (a * 512 - 100) ^ 2 + (5 * (b * 512 - -71) ^ 2 + 7)).
Proof.
  intros El Er Ha Hb.
  assert (Ll : w20_load l 0 8 0 9 = w20_load [("img", JStr "left.tif")] 0 8 0 9) by (unfold w20_load; now rewrite El).
  assert (Lr : w20_load r 0 8 0 9 = w20_load [("img", JStr "right.tif")] 0 8 0 9) by (unfold w20_load; now rewrite Er).
  unfold window_cost. rewrite Ll, Lr. clear Ll Lr El Er.
  assert (Da : In a [-3; -2; -1; 0; 1; 2; 3]) by (cbn; lia). assert (Db : In b [-3; -2; -1; 0; 1; 2; 3]) by (cbn; lia). clear - Da Db.
  cbn [In] in Da, Db. repeat (destruct Da as [<- | Da]; [repeat (destruct Db as [<- | Db]; [vm_compute; reflexivity|]); contradiction|]). contradiction.
Qed.
Lemma w20_leads l r c : lookup "img" l = Some (JStr "left.tif") -> lookup "img" r = Some (JStr "right.tif") ->
  leads_to MeasureMin (candidate wh_raster (JInt 0) 2 1 4 4) (candidate wh_raster (JInt 0) 2 1 4 4) (512 / 1) 3 (window_cost Z.eqb w20_load (fun _ _ _ _ => 0) w20_pixel l r c 1 0 8 0 9 4 4)
    (fun u => 3 * (u - 100) ^ 2) (fun v => 5 * (v - -71) ^ 2 + 7) 100 (-71).
Proof.
  intros El Er. change (512 / 1) with 512. constructor.
  - intros u v H. cbv beta. rewrite <- (Z.add_0_r (3 * (u - 100) ^ 2)), <- (Z.add_0_r (3 * (v - 100) ^ 2)). apply (square_towards MeasureMin 3 100 (eq_refl : 0 < 3) 0 u v H).
  - apply (square_towards MeasureMin 5 (-71) (eq_refl : 0 < 5) 7).
  - intros d H. unfold near in H. apply w16_candidate. lia.
  - intros d H. unfold near in H. apply w16_candidate. lia.
  - intros dr dc Hr Hc. unfold near in *. apply w20_costs; auto; lia.
  - intros dr dc Hr Hc _. apply w16_candidate in Hr, Hc. rewrite w20_costs by (auto; lia). cbn [at_least_as_good ext_leb]. apply Z.leb_refl.
Qed.
Example C106_bicubic_example : exists out saved vr vc vs a b, w20_main w20_user = Some out /\ o_maps out = Some saved /\ pixel_of saved 4 4 vr vc vs /\
  quotient a 512 vr /\ quotient b 512 vc /\ quotient (3 * (a - 100) ^ 2 + (5 * (b - -71) ^ 2 + 7)) 512 vs /\ Z.abs (a - 100) <= 64 /\ Z.abs (b - -71) <= 64.
Proof.
  unfold w20_main. destruct w20_parts as (l & r & c & M & El & Er).
  assert (A : asks_refinement true w20_user "dichotomy" 3) by (split; [reflexivity | left; wh_leaf]).
  assert (F : filter_of Z.eqb 0 true wh_pandora (fun _ => mkMargins 1 1 1 1) (fun _ => true) (fun _ => true) (fun _ _ _ _ => true) wh_size wh_raster
    (fun _ => MeasureMin) (fun _ => 1) w20_cost (fun _ _ _ _ => 0) 512 (fun x => x) w20_filter w6_lstsq (fun w _ _ => w) (fun _ => []) ex_interp ex_minimise
    w3_estimate w20_user [("method", JStr "bicubic")]) by (apply w20_filter_spec; vm_compute; reflexivity).
  destruct (C83_dichotomy Z.eqb 0 true wh_pandora (fun _ => mkMargins 1 1 1 1) (fun _ => true) (fun _ => true) (fun _ _ _ _ => true) wh_size wh_raster w20_load w3_transform (fun _ => true)
    (fun _ => MeasureMin) (fun _ => 1) w20_cost (fun _ _ _ _ => 0) 512 (fun x => x) w20_filter w6_lstsq (fun w _ _ => w) (fun _ => []) ex_interp ex_minimise
    w3_estimate wh_margins wh_dict
      w20_pixel w20_user (w18_request 0 0) 8 9 false 3 l r c 1 w20_libraries w20_dichotomy_libraries w20_contract w20_programmed A eq_refl eq_refl M) as (q0 & a1 & a2 & a3 & a4 & out & saved & (_ & -> & _) & E1 & E2 & (R1 & R2 & _) & _).
  destruct (C106_bicubic Z.eqb 0 true wh_pandora (fun _ => mkMargins 1 1 1 1) (fun _ => true) (fun _ => true) (fun _ _ _ _ => true) wh_size wh_raster w20_load w3_transform (fun _ => true)
    (fun _ => MeasureMin) (fun _ => 1) w20_cost (fun _ _ _ _ => 0) 512 (fun x => x) w20_filter w6_lstsq (fun w _ _ => w) (fun _ => []) ex_interp ex_minimise
    w3_estimate wh_margins wh_dict
      w20_pixel w20_user (w18_request 0 0) 8 9 false 3 l r c 1 [("method", JStr "bicubic")] w20_libraries w20_dichotomy_libraries w20_contract w20_programmed A eq_refl eq_refl M F eq_refl ltac:(reflexivity))
    as (q' & row0 & nrow & col0 & ncol & out' & saved' & ((-> & -> & -> & ->) & -> & _) & Em & Eo & B).
  rewrite E1 in Em. injection Em as <-. rewrite E2 in Eo. injection Eo as <-.
  cbv zeta in B. cbn [q_row_init q_col_init q_row_range q_col_range w18_request] in B.
  assert (Ix : In 4 (dm_rows saved)) by (apply R1; unfold wanted_row, wanted; cbn; rewrite ?Z.mod_1_r; lia). assert (Iy : In 4 (dm_cols saved)) by (apply R2; unfold wanted_col, wanted; cbn; rewrite ?Z.mod_1_r; lia).
  destruct (B 4 4 3 5 7 100 (-71) Ix Iy (w20_leads l r c El Er)) as (vr & vc & vs & a & b & Px & Q1 & Q2 & Q3 & Q4 & Q5).
  - intros d H W. apply w18_window in W. apply w16_candidate. lia.
  - intros d H W. apply w18_window in W. apply w16_candidate. lia.
  - reflexivity.
  - intros d _. apply w18_valid.
  - change (2 ^ Z.max (Z.log2 1) (Z.min 3 9)) with 8 in Q4, Q5. exists out, saved, vr, vc, vs, a, b. do 6 (split; [assumption|]). split; lia.
Qed.

(** The hypotheses of C106_precise: the programme, the costs of the pixel (4, 4), a filter that is exact near the goal. *)
Example C106_precise_example : exists l r c, matching_of Z.eqb 0 true wh_pandora (fun _ => mkMargins 1 1 1 1) (fun _ => true) (fun _ => true) (fun _ _ _ _ => true) wh_size wh_raster
    (fun _ => MeasureMin) (fun _ => 1) w20_cost (fun _ _ _ _ => 0) 512 (fun x => x) w20_filter w6_lstsq (fun w _ _ => w) (fun _ => []) ex_interp ex_minimise
    w3_estimate w20_user l r c 1 /\ w5_programmed w20_user (w18_request 0 0) 8 9 false true /\
  asks_refinement true w20_user "dichotomy" 3 /\ filter_support true [("method", JStr "bicubic")] 4 1 /\
  leads_to MeasureMin (candidate wh_raster (JInt 0) 2 1 4 4) (candidate wh_raster (JInt 0) 2 1 4 4) (512 / 1) 3 (window_cost Z.eqb w20_load (fun _ _ _ _ => 0) w20_pixel l r c 1 0 8 0 9 4 4)
    (fun u => 3 * (u - 100) ^ 2) (fun v => 5 * (v - -71) ^ 2 + 7) 100 (-71) /\
  exact_between 512 1 4 1 (w20_filter [("method", JStr "bicubic")]) 3 (fun u => 3 * (u - 100) ^ 2) (fun v => 5 * (v - -71) ^ 2 + 7) 100 (-71).
Proof.
  destruct w20_parts as (l & r & c & M & El & Er). exists l, r, c. split; [exact M|]. split; [exact w20_programmed|]. split; [split; [reflexivity | left; wh_leaf]|].
  split; [left; repeat split|]. split; [apply w20_leads; assumption|]. apply (bicubic_exact 512 1 3 5 7 100 (-71)); [lia | exists 512; reflexivity | lia].
Qed.

Print Assumptions C106_precise.
Print Assumptions C106_bicubic.
