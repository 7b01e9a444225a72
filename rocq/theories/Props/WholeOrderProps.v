(** C102: only the order of the costs matters, and rows and columns play the same part. *)
From Coq Require Import List String Bool ZArith QArith Qabs Lia.
From Verif Require Import Base.Ext Base.PyList Base.Arr Base.Json Base.Dict Base.ZRange Model.CommonModel Model.DisparityModel Model.MatchingCostModel Model.DichotomyModel
  Model.RoiModel Model.InputModel Model.ConfigModel Model.DatasetModel Model.EstimationModel Model.OpticalFlowModel Model.InterpolationModel Model.MachineModel Model.CheckConfModel
  Model.PipelineModel Model.WholeModel Model.LucasKanadeModel Model.ImgShiftModel
  Spec.MatchingCostSpec Spec.DichotomySpec Spec.RoiSpec Spec.PipelineSpec Spec.ConfigSpec Spec.InputSpec Spec.MachineSpec Spec.CheckConfSpec Spec.AcceptSpec Spec.WholeSpec Spec.BestSpec Spec.WtaSpec Spec.ShiftSpec Spec.WholeEverySpec Spec.InterpolationSpec Spec.OpticalFlowSpec Spec.WholeRefineSpec Spec.HalvingSpec Spec.WholeExactSpec Spec.WholeFlowSpec Spec.WholeEndSpec Spec.LucasKanadeSpec Spec.WholeMatchSpec Spec.WholeOrderSpec Spec.WholeRoiSpec Spec.WholeInterpSpec Spec.InterpUniqueSpec
  Proofs.CheckConfProofs Proofs.ConfigProofs Proofs.ConfigStepProofs Proofs.AcceptProofs Proofs.RoiProofs Proofs.WtaProofs Proofs.WtaTheorems Proofs.MatchingCostProofs Proofs.MatchingCostTheorems Proofs.PipelineProofs Proofs.WholeRunProofs Proofs.WholeProofs Proofs.WholeMainProofs Proofs.HalvingProofs Proofs.BetweenProofs Proofs.RefineBestProofs Proofs.RefineExactProofs Proofs.WholeMoreProofs Proofs.WholeEveryProofs Proofs.WholeRoiProofs Proofs.InterpUniqueProofs Proofs.BestProofs Proofs.RefineBestProofs Proofs.WholeFlowProofs Proofs.WholeEndProofs Proofs.WholeOrderProofs Proofs.WholeRoiProofs
  Props.RoiProps Props.PipelineProps Props.CheckConfProps Props.InterpolationProps Props.WholeProps Props.WholeMoreProps Props.WholeEveryProps Props.WholeRefineProps Props.WholeExactProps Props.WholeCompareProps Props.WholeInterpProps Props.LucasKanadeProps Props.WholeRoiProps Props.WholeMatchProps.
Import ListNotations.
Open Scope Z_scope.
Open Scope string_scope.
Open Scope list_scope.

Section Program.
  (** The libraries: see WholeModel. *)
  Context {px : Type} (px_eqb : px -> px -> bool) (nan : px).
  Variable bool_ok : bool.
  Variable pandora_check : dict -> option (json * json * json).
  Variable matching_cost_margins : dict -> margins.
  Variable can_open_mandatory can_open : json -> bool.
  Variable images_ok : json -> json -> json -> json -> bool.
  Variable image_size : string -> nat * nat.
  Variable open_raster : string -> reader.
  Variable load : dict -> Z -> nat -> Z -> nat -> image px.
  Variable transform_of : dict -> option affine.
  Variable dataset_ok : image_dataset (image px) -> bool.
  Variable measure_of : dict -> measure.
  Variable offset_of : dict -> Z.
  Variable pandora_cost : dict -> mc_input -> image px -> list (list px) -> list (list Z) -> nat -> nat -> nat -> ext.
  Variable zoomed : image px -> nat -> nat -> nat -> px.
  Variable one : Z.
  Variable store : ext -> ext.
  Variable filter_apply : dict -> list (list ext) -> Z -> Z -> ext.
  (** The motion of Lucas and Kanade: see LucasKanadeModel. *)
  Variable lstsq : list (list px) -> list (list px) -> option (num * num).
  Variable resample : list (list px) -> num -> num -> list (list px).
  Variable junk : nat -> list (list px).
  Variable interp : list Q -> list Q -> list (list cost) -> num -> num -> cost.
  Variable minimise : (num -> num -> cost) -> num * num -> (Q * Q) * (Q * Q) -> num * num.
  Variable estimate : json -> image px -> image px -> (Q * Q) * json * json.
  Variable global_margins : list (string * margins) -> list (string * margins) -> margins.
  Variable margins_to_dict : list (string * margins) -> list (string * margins) -> json.
  Notation main := (main px_eqb nan bool_ok pandora_check matching_cost_margins can_open_mandatory can_open images_ok image_size open_raster load transform_of dataset_ok
    measure_of offset_of pandora_cost zoomed one store filter_apply lstsq resample junk interp minimise estimate global_margins margins_to_dict).
  Notation check_user := (check_user px_eqb nan bool_ok pandora_check matching_cost_margins can_open_mandatory can_open images_ok image_size open_raster
    measure_of offset_of pandora_cost zoomed one store filter_apply lstsq resample junk interp minimise estimate).
  Notation libraries := (libraries bool_ok pandora_check images_ok image_size load dataset_ok measure_of pandora_cost one).
  Notation dichotomy_libraries := (dichotomy_libraries bool_ok pandora_check pandora_cost one store).
  Notation asked := (asked bool_ok pandora_check can_open_mandatory can_open images_ok image_size open_raster).
  Notation asked_estimation := (asked_estimation bool_ok pandora_check can_open_mandatory can_open images_ok image_size open_raster).
  Notation cost_contract := (cost_contract measure_of pandora_cost).

  Notation programmed := (programmed bool_ok pandora_check can_open_mandatory can_open images_ok image_size open_raster).
  Notation matching_of := (matching_of px_eqb nan bool_ok pandora_check matching_cost_margins can_open_mandatory can_open images_ok image_size open_raster measure_of offset_of pandora_cost zoomed one
    store filter_apply lstsq resample junk interp minimise estimate).
  Notation estimated_request := (estimated_request px_eqb nan bool_ok pandora_check matching_cost_margins can_open_mandatory can_open images_ok image_size open_raster load
    measure_of offset_of pandora_cost zoomed one store filter_apply lstsq resample junk interp minimise estimate).
  (** The request with the disparities that are searched, in the window that is loaded. *)
  Notation searched := (searched bool_ok pandora_check can_open_mandatory can_open images_ok image_size open_raster).
  Notation window_cost := (window_cost px_eqb load zoomed).

  Notation local_cost := (local_cost px_eqb load zoomed).
  Notation filter_of := (filter_of px_eqb nan bool_ok pandora_check matching_cost_margins can_open_mandatory can_open images_ok image_size open_raster measure_of offset_of pandora_cost zoomed one
    store filter_apply lstsq resample junk interp minimise estimate).


  Lemma found_best pixel_cost user q rows cols left right completed subpix : libraries -> cost_contract pixel_cost -> searched user q rows cols -> matching_of user left right completed subpix ->
    exists row0 nrow col0 ncol out saved, window_ok q rows cols row0 nrow col0 ncol /\ main user = Some out /\ o_maps out = Some saved /\ saved_pixels q rows cols saved /\
      forall x y, In x (dm_rows saved) -> In y (dm_cols saved) -> exists vr vc vs, pixel_of saved x y vr vc vs /\
        best (measure_of completed) (candidate open_raster (q_row_init q) (q_row_range q) subpix x y) (candidate open_raster (q_col_init q) (q_col_range q) subpix x y)
          (window_cost pixel_cost left right completed subpix row0 nrow col0 ncol x y) (without_disparity one q vr vc vs)
          (fun dr dc s => quotient dr subpix vr /\ quotient dc subpix vc /\ same_number one s vs).
  Proof.
    intros L K Se Mo.
    destruct (searched_best px_eqb nan bool_ok pandora_check matching_cost_margins can_open_mandatory can_open images_ok image_size open_raster load transform_of dataset_ok
      measure_of offset_of pandora_cost zoomed one store filter_apply lstsq resample junk interp minimise estimate global_margins margins_to_dict pixel_cost user q rows cols L K Se)
      as (out & saved & Em & Eo & (Sr1 & Sr2 & Sr3 & Sr4 & Sr5 & _) & row0 & nrow & col0 & ncol & Wo & Wr & B).
    apply (optimal_matching px_eqb nan bool_ok pandora_check matching_cost_margins can_open_mandatory can_open images_ok image_size open_raster load
      measure_of offset_of pandora_cost zoomed one store filter_apply lstsq resample junk interp minimise estimate _ _ _ _ _ _ _ _ _ _ _ _ Mo) in B.
    exists row0, nrow, col0, ncol, out, saved. do 3 (split; [assumption|]). split; [split; [exact Sr1|]; split; [exact Sr2|]; split; [exact Sr3|]; split; [exact Sr4 | exact Sr5]|]. intros x y Hx Hy.
    apply In_nth_error in Hx. destruct Hx as (a & Ha). apply In_nth_error in Hy. destruct Hy as (b & Hb).
    destruct (B a b x y Ha Hb) as (vr & vc & vs & E1 & E2 & E3 & Bp). exists vr, vc, vs. split; [exists a, b; auto 10 | exact Bp].
  Qed.

  (** * C102: two pixels, of two runs, whose candidates have costs in the same order, up to a translation (kr, kc) of the disparities: the saved disparities differ by this translation,
      and the same pair of candidates gives both scores. *)
  Theorem C102_order pixel_cost user user' q q' rows cols rows' cols' left right completed left' right' completed' subpix : libraries -> cost_contract pixel_cost ->
    searched user q rows cols -> searched user' q' rows' cols' -> matching_of user left right completed subpix -> matching_of user' left' right' completed' subpix ->
    exists row0 nrow col0 ncol row0' nrow' col0' ncol' out saved out' saved', window_ok q rows cols row0 nrow col0 ncol /\ window_ok q' rows' cols' row0' nrow' col0' ncol' /\
      main user = Some out /\ o_maps out = Some saved /\ saved_pixels q rows cols saved /\ main user' = Some out' /\ o_maps out' = Some saved' /\ saved_pixels q' rows' cols' saved' /\
      let rows_of x y := candidate open_raster (q_row_init q) (q_row_range q) subpix x y in let cols_of x y := candidate open_raster (q_col_init q) (q_col_range q) subpix x y in
      let rows_of' x y := candidate open_raster (q_row_init q') (q_row_range q') subpix x y in let cols_of' x y := candidate open_raster (q_col_init q') (q_col_range q') subpix x y in
      let cost := window_cost pixel_cost left right completed subpix row0 nrow col0 ncol in let cost' := window_cost pixel_cost left' right' completed' subpix row0' nrow' col0' ncol' in
      forall x y x' y' kr kc, In x (dm_rows saved) -> In y (dm_cols saved) -> In x' (dm_rows saved') -> In y' (dm_cols saved') ->
        moved_by (rows_of x y) (rows_of' x' y') kr -> moved_by (cols_of x y) (cols_of' x' y') kc ->
        same_order (measure_of completed) (measure_of completed') (rows_of x y) (cols_of x y) (cost x y) (fun dr dc => cost' x' y' (dr + kr) (dc + kc)) ->
        exists vr vc vs vr' vc' vs', pixel_of saved x y vr vc vs /\ pixel_of saved' x' y' vr' vc' vs' /\
          (without_disparity one q vr vc vs /\ without_disparity one q' vr' vc' vs' /\ (forall dr dc, rows_of x y dr -> cols_of x y dc -> cost x y dr dc = NaN) \/
           exists dr dc a b, quotient dr subpix vr /\ quotient dc subpix vc /\ quotient (dr + kr) subpix vr' /\ quotient (dc + kc) subpix vc' /\
             rows_of x y a /\ cols_of x y b /\ same_number one (cost x y a b) vs /\ same_number one (cost' x' y' (a + kr) (b + kc)) vs').
  Proof.
    intros L K Se Se' Mo Mo'.
    destruct (found_best pixel_cost user q rows cols left right completed subpix L K Se Mo) as (row0 & nrow & col0 & ncol & out & saved & Wo & Em & Eo & Sp & B).
    destruct (found_best pixel_cost user' q' rows' cols' left' right' completed' subpix L K Se' Mo') as (row0' & nrow' & col0' & ncol' & out' & saved' & Wo' & Em' & Eo' & Sp' & B').
    exists row0, nrow, col0, ncol, row0', nrow', col0', ncol', out, saved, out', saved'. do 8 (split; [assumption|]). cbv zeta. intros x y x' y' kr kc Hx Hy Hx' Hy' Mr Mc O.
    destruct (B x y Hx Hy) as (vr & vc & vs & Px & Bp). destruct (B' x' y' Hx' Hy') as (vr' & vc' & vs' & Px' & Bp'). exists vr, vc, vs, vr', vc', vs'. do 2 (split; [assumption|]).
    destruct (best_order _ _ _ _ _ _ _ _ _ _ _ _ kr kc Mr Mc O Bp Bp') as [N|(dr & dc & s & s' & (F1 & F2 & F3) & (F1' & F2' & F3') & a & b & Ra & Cb & <- & <-)]; [left; exact N|].
    right. exists dr, dc, a, b. auto 10.
  Qed.

  (** * C102: two pixels, of two runs, whose costs are the same when rows and columns are exchanged: the disparities are exchanged, with the same score. *)
  Theorem C102_turned pixel_cost user user' q q' rows cols rows' cols' left right completed left' right' completed' subpix : libraries -> cost_contract pixel_cost ->
    searched user q rows cols -> searched user' q' rows' cols' -> matching_of user left right completed subpix -> matching_of user' left' right' completed' subpix ->
    measure_of completed = measure_of completed' ->
    exists row0 nrow col0 ncol row0' nrow' col0' ncol' out saved out' saved', window_ok q rows cols row0 nrow col0 ncol /\ window_ok q' rows' cols' row0' nrow' col0' ncol' /\
      main user = Some out /\ o_maps out = Some saved /\ saved_pixels q rows cols saved /\ main user' = Some out' /\ o_maps out' = Some saved' /\ saved_pixels q' rows' cols' saved' /\
      let rows_of x y := candidate open_raster (q_row_init q) (q_row_range q) subpix x y in let cols_of x y := candidate open_raster (q_col_init q) (q_col_range q) subpix x y in
      let rows_of' x y := candidate open_raster (q_row_init q') (q_row_range q') subpix x y in let cols_of' x y := candidate open_raster (q_col_init q') (q_col_range q') subpix x y in
      let cost := window_cost pixel_cost left right completed subpix row0 nrow col0 ncol in let cost' := window_cost pixel_cost left' right' completed' subpix row0' nrow' col0' ncol' in
      forall x y x' y', In x (dm_rows saved) -> In y (dm_cols saved) -> In x' (dm_rows saved') -> In y' (dm_cols saved') ->
        (forall d, rows_of x y d <-> cols_of' x' y' d) -> (forall d, cols_of x y d <-> rows_of' x' y' d) ->
        (forall dr dc, rows_of x y dr -> cols_of x y dc -> cost' x' y' dc dr = cost x y dr dc) ->
        exists vr vc vs vr' vc' vs', pixel_of saved x y vr vc vs /\ pixel_of saved' x' y' vr' vc' vs' /\
          (without_disparity one q vr vc vs /\ without_disparity one q' vr' vc' vs' \/ same_cost vr' vc /\ same_cost vc' vr /\ same_cost vs' vs).
  Proof.
    intros L K Se Se' Mo Mo' Et.
    destruct (found_best pixel_cost user q rows cols left right completed subpix L K Se Mo) as (row0 & nrow & col0 & ncol & out & saved & Wo & Em & Eo & Sp & B).
    destruct (found_best pixel_cost user' q' rows' cols' left' right' completed' subpix L K Se' Mo') as (row0' & nrow' & col0' & ncol' & out' & saved' & Wo' & Em' & Eo' & Sp' & B').
    exists row0, nrow, col0, ncol, row0', nrow', col0', ncol', out, saved, out', saved'. do 8 (split; [assumption|]). cbv zeta. intros x y x' y' Hx Hy Hx' Hy' Mr Mc O.
    destruct (B x y Hx Hy) as (vr & vc & vs & Px & Bp). destruct (B' x' y' Hx' Hy') as (vr' & vc' & vs' & Px' & Bp'). exists vr, vc, vs, vr', vc', vs'. do 2 (split; [assumption|]).
    apply best_turned in Bp'. rewrite Et in Bp.
    destruct (best_unique _ _ _ _ _ _ _ _ _ _ _ Mr Mc (fun dr dc Hr Hc => eq_sym (O dr dc Hr Hc)) Bp Bp') as [N|(dr & dc & s & (F1 & F2 & F3) & (F1' & F2' & F3'))]; [left; exact N|].
    right. split; [eapply quotient_same; eassumption|]. split; [eapply quotient_same; eassumption | eapply number_same; eassumption].
  Qed.
End Program.

(** * Examples *)
(** The images of WholeProps and their transposes. *)
Definition w17_load (s : dict) (row0 : Z) (nrow : nat) (col0 : Z) (ncol : nat) : image Z :=
  let name := match lookup "img" s with Some (JStr p) => p | _ => "" end in
  let value x y := if name =? "left.tif" then wh_texture (x + 1) (y - 1) else if name =? "right.tif" then wh_texture x y
    else if name =? "turned_left.tif" then wh_texture (y + 1) (x - 1) else wh_texture y x in
  mkImage (mkArr2 nrow ncol (fun r c => value (row0 + Z.of_nat r) (col0 + Z.of_nat c))) (-9999) None.
Definition w17_user (left right : string) (row col : json) : dict :=
  [("input", JDict [("left", JDict [("img", JStr left)]); ("right", JDict [("img", JStr right)]); ("row_disparity", row); ("col_disparity", col)]);
   ("pipeline", JDict [("matching_cost", JDict [("matching_cost_method", JStr "sad"); ("window_size", JInt 1); ("step", JList [JInt 1; JInt 1])]);
                       ("disparity", JDict [("disparity_method", JStr "wta"); ("invalid_disparity", JStr "NaN")])])].
Definition w17_request (row row_range col col_range : Z) : request := mkRequest (JInt row) row_range (JInt col) col_range 1 1 None JNan.
Definition w17_main : dict -> option outcome :=
  main Z.eqb 0 true wh_pandora (fun _ => mkMargins 1 1 1 1) (fun _ => true) (fun _ => true) (fun _ _ _ _ => true) wh_size wh_raster w17_load w3_transform (fun _ => true)
    (fun _ => MeasureMin) (fun _ => 1) w3_cost (fun _ _ _ _ => 0) 512 (fun x => x) wh_filter (fun _ _ => None) (fun w _ _ => w) (fun _ => []) (fun _ _ _ _ _ => CNan) (fun _ p _ => p)
    w3_estimate wh_margins wh_dict.
Lemma w17_libraries : libraries true wh_pandora (fun _ _ _ _ => true) wh_size w17_load (fun _ => true) (fun _ => MeasureMin) w3_cost 512.
Proof. destruct w3_libraries as (L1 & L2 & L3 & L4 & L5 & L6 & L7 & L8). do 4 (split; [assumption|]). split; [split; reflexivity|]. do 2 (split; [assumption|]). exact L8. Qed.
Ltac w17_wf := unfold w17_user, wh_disp; solve_wf.
Ltac w17_searched_tac name := split; [split; [w17_wf|]; split; [apply wh_checked; [w17_wf | vm_compute; discriminate]|];
  split; [|split; [exists name; split; reflexivity | try (cbn; lia); exact I]];
  split; [wh_leaf|]; split; [wh_leaf|]; split; [wh_leaf|]; split; [wh_leaf|];
  split; [right; do 2 eexists; split; [reflexivity|]; split; apply int_int|];
  split; [reflexivity | right; wh_leaf] | split; [eexists; split; reflexivity|]; left; do 2 eexists; split; constructor].
(** A user, the left one against the right one; the second image against itself; the transposes. *)
Definition w17_first : dict := w17_user "left.tif" "right.tif" (wh_disp (JInt 0) 1) (wh_disp (JInt 1) 2).
Definition w17_second : dict := w17_user "right.tif" "right.tif" (wh_disp (JInt (-1)) 1) (wh_disp (JInt 2) 2).
Definition w17_third : dict := w17_user "turned_left.tif" "turned_right.tif" (wh_disp (JInt 1) 2) (wh_disp (JInt 0) 1).
Lemma w17_searched1 : w3_searched w17_first (w17_request 0 1 1 2) 8 9.
Proof. unfold w17_first. w17_searched_tac "left.tif". Qed.
Lemma w17_searched2 : w3_searched w17_second (w17_request (-1) 1 2 2) 8 9.
Proof. unfold w17_second. w17_searched_tac "right.tif". Qed.
Lemma w17_searched3 : w3_searched w17_third (w17_request 1 2 0 1) 8 9.
Proof. unfold w17_third. w17_searched_tac "turned_left.tif". Qed.
Definition w17_images (s : dict) (name : string) : Prop := lookup "img" s = Some (JStr name).
Lemma w17_matching user n1 n2 : match w3_matching user with Some (l, r, _, n) => lookup "img" l = Some (JStr n1) /\ lookup "img" r = Some (JStr n2) /\ n = 1 | None => False end ->
  exists l r c, w3_matching_of user l r c 1 /\ w17_images l n1 /\ w17_images r n2.
Proof. destruct (w3_matching user) as [[[[l r] c] n]|] eqn:E; [|contradiction]. intros (H1 & H2 & ->). exists l, r, c. split; [now apply w3_matching_spec|]. split; assumption. Qed.
Lemma w17_loads s name row0 nrow col0 ncol : w17_images s name -> w17_load s row0 nrow col0 ncol = w17_load [("img", JStr name)] row0 nrow col0 ncol.
Proof. intros H. unfold w17_load. rewrite H. reflexivity. Qed.
Lemma w17_saved row rr col cr saved x y : 0 <= x < 8 -> 0 <= y < 9 -> saved_pixels (w17_request row rr col cr) 8 9 saved -> In x (dm_rows saved) /\ In y (dm_cols saved).
Proof. intros Hx Hy (R & C & _). split; [apply R | apply C]; unfold wanted_row, wanted_col, wanted; cbn; rewrite ?Z.mod_1_r; lia. Qed.

(** The second run compares the same windows with disparities (-1, 1) farther: the pixel (4, 4) of the first one is the pixel (5, 3) of the second one. *)
Example C102_order_example : exists l r c l' r' c' out saved out' saved', w3_matching_of w17_first l r c 1 /\ w3_matching_of w17_second l' r' c' 1 /\
  w17_main w17_first = Some out /\ o_maps out = Some saved /\ w17_main w17_second = Some out' /\ o_maps out' = Some saved' /\
  exists vr vc vs vr' vc' vs' dr dc, pixel_of saved 4 4 vr vc vs /\ pixel_of saved' 5 3 vr' vc' vs' /\ quotient dr 1 vr /\ quotient dc 1 vc /\ quotient (dr + -1) 1 vr' /\ quotient (dc + 1) 1 vc'.
Proof.
  destruct (w17_matching w17_first "left.tif" "right.tif" ltac:(vm_compute; auto)) as (l & r & c & M & I1 & I2).
  destruct (w17_matching w17_second "right.tif" "right.tif" ltac:(vm_compute; auto)) as (l' & r' & c' & M' & I1' & I2').
  destruct (C102_order Z.eqb 0 true wh_pandora (fun _ => mkMargins 1 1 1 1) (fun _ => true) (fun _ => true) (fun _ _ _ _ => true) wh_size wh_raster w17_load w3_transform (fun _ => true)
    (fun _ => MeasureMin) (fun _ => 1) w3_cost (fun _ _ _ _ => 0) 512 (fun x => x) wh_filter (fun _ _ => None) (fun w _ _ => w) (fun _ => []) (fun _ _ _ _ _ => CNan) (fun _ p _ => p)
    w3_estimate wh_margins wh_dict w3_pixel _ _ _ _ _ _ _ _ l r c l' r' c' 1 w17_libraries w3_contract w17_searched1 w17_searched2 M M')
    as (row0 & nrow & col0 & ncol & row0' & nrow' & col0' & ncol' & out & saved & out' & saved' & (-> & -> & -> & ->) & (-> & -> & -> & ->) & Em & Eo & Sp & Em' & Eo' & Sp' & B).
  cbv zeta in B. cbn [q_row_init q_col_init q_row_range q_col_range w17_request] in B. destruct (w17_saved _ _ _ _ saved 4 4 ltac:(lia) ltac:(lia) Sp) as [S1 S2]. destruct (w17_saved _ _ _ _ saved' 5 3 ltac:(lia) ltac:(lia) Sp') as [S1' S2'].
  assert (N : candidate wh_raster (JInt 0) 1 1 4 4 1 /\ candidate wh_raster (JInt 1) 2 1 4 4 (-1)) by (split; apply w16_candidate; lia).
  destruct (B 4 4 5 3 (-1) 1 S1 S2 S1' S2') as (vr & vc & vs & vr' & vc' & vs' & Px & Px' & D).
  - intros d. rewrite !w16_candidate. lia.
  - intros d. rewrite !w16_candidate. lia.
  - apply order_equal. intros dr dc Hr Hc. apply w16_candidate in Hr, Hc. unfold window_cost.
    rewrite (w17_loads l _ _ _ _ _ I1), (w17_loads r _ _ _ _ _ I2), (w17_loads l' _ _ _ _ _ I1'), (w17_loads r' _ _ _ _ _ I2').
    assert (Dr : dr = -1 \/ dr = 0 \/ dr = 1) by lia. assert (Dc : dc = -1 \/ dc = 0 \/ dc = 1 \/ dc = 2 \/ dc = 3) by lia. clear - Dr Dc.
    destruct Dr as [-> | [-> | ->]]; destruct Dc as [-> | [-> | [-> | [-> | ->]]]]; vm_compute; reflexivity.
  - exists l, r, c, l', r', c', out, saved, out', saved'. do 6 (split; [assumption|]). exists vr, vc, vs, vr', vc', vs'. destruct D as [(_ & _ & N')|(dr & dc & a & b & Q1 & Q2 & Q3 & Q4 & _)]; [|exists dr, dc; auto 10].
    exfalso. destruct N as [N1 N2]. specialize (N' 1 (-1) N1 N2). unfold window_cost in N'. rewrite (w17_loads l _ _ _ _ _ I1), (w17_loads r _ _ _ _ _ I2) in N'. vm_compute in N'. discriminate N'.
Qed.

(** The transposed images, with the searches exchanged: the pixel (4, 3) is the pixel (3, 4) of the transposed ones. *)
Example C102_turned_example : exists l r c l' r' c' out saved out' saved', w3_matching_of w17_first l r c 1 /\ w3_matching_of w17_third l' r' c' 1 /\
  w17_main w17_first = Some out /\ o_maps out = Some saved /\ w17_main w17_third = Some out' /\ o_maps out' = Some saved' /\
  exists vr vc vs vr' vc' vs', pixel_of saved 4 3 vr vc vs /\ pixel_of saved' 3 4 vr' vc' vs' /\
    (without_disparity 512 (w17_request 0 1 1 2) vr vc vs /\ without_disparity 512 (w17_request 1 2 0 1) vr' vc' vs' \/ same_cost vr' vc /\ same_cost vc' vr /\ same_cost vs' vs).
Proof.
  destruct (w17_matching w17_first "left.tif" "right.tif" ltac:(vm_compute; auto)) as (l & r & c & M & I1 & I2).
  destruct (w17_matching w17_third "turned_left.tif" "turned_right.tif" ltac:(vm_compute; auto)) as (l' & r' & c' & M' & I1' & I2').
  destruct (C102_turned Z.eqb 0 true wh_pandora (fun _ => mkMargins 1 1 1 1) (fun _ => true) (fun _ => true) (fun _ _ _ _ => true) wh_size wh_raster w17_load w3_transform (fun _ => true)
    (fun _ => MeasureMin) (fun _ => 1) w3_cost (fun _ _ _ _ => 0) 512 (fun x => x) wh_filter (fun _ _ => None) (fun w _ _ => w) (fun _ => []) (fun _ _ _ _ _ => CNan) (fun _ p _ => p)
    w3_estimate wh_margins wh_dict w3_pixel _ _ _ _ _ _ _ _ l r c l' r' c' 1 w17_libraries w3_contract w17_searched1 w17_searched3 M M' eq_refl)
    as (row0 & nrow & col0 & ncol & row0' & nrow' & col0' & ncol' & out & saved & out' & saved' & (-> & -> & -> & ->) & (-> & -> & -> & ->) & Em & Eo & Sp & Em' & Eo' & Sp' & B).
  cbv zeta in B. cbn [q_row_init q_col_init q_row_range q_col_range w17_request] in B. destruct (w17_saved _ _ _ _ saved 4 3 ltac:(lia) ltac:(lia) Sp) as [S1 S2]. destruct (w17_saved _ _ _ _ saved' 3 4 ltac:(lia) ltac:(lia) Sp') as [S1' S2'].
  destruct (B 4 3 3 4 S1 S2 S1' S2') as (vr & vc & vs & vr' & vc' & vs' & Px & Px' & D).
  - intros d. rewrite !w16_candidate. lia.
  - intros d. rewrite !w16_candidate. lia.
  - intros dr dc Hr Hc. apply w16_candidate in Hr, Hc. unfold window_cost.
    rewrite (w17_loads l _ _ _ _ _ I1), (w17_loads r _ _ _ _ _ I2), (w17_loads l' _ _ _ _ _ I1'), (w17_loads r' _ _ _ _ _ I2').
    assert (Dr : dr = -1 \/ dr = 0 \/ dr = 1) by lia. assert (Dc : dc = -1 \/ dc = 0 \/ dc = 1 \/ dc = 2 \/ dc = 3) by lia. clear - Dr Dc.
    destruct Dr as [-> | [-> | ->]]; destruct Dc as [-> | [-> | [-> | [-> | ->]]]]; vm_compute; reflexivity.
  - exists l, r, c, l', r', c', out, saved, out', saved'. do 6 (split; [assumption|]). exists vr, vc, vs, vr', vc', vs'. split; [exact Px|]. split; [exact Px' | exact D].
Qed.

Print Assumptions C102_order.
Print Assumptions C102_turned.
Print Assumptions C102_order_example.
Print Assumptions C102_turned_example.
