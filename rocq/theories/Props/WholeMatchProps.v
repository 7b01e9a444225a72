(** C101: pixels whose true disparities are known, in the whole program. *)
From Coq Require Import List String Bool ZArith QArith Qabs Lia.
From Verif Require Import Base.Ext Base.PyList Base.Arr Base.Json Base.Dict Base.ZRange Model.CommonModel Model.DisparityModel Model.MatchingCostModel Model.DichotomyModel
  Model.RoiModel Model.InputModel Model.ConfigModel Model.DatasetModel Model.EstimationModel Model.OpticalFlowModel Model.InterpolationModel Model.MachineModel Model.CheckConfModel
  Model.PipelineModel Model.WholeModel Model.LucasKanadeModel Model.ImgShiftModel
  Spec.MatchingCostSpec Spec.DichotomySpec Spec.RoiSpec Spec.PipelineSpec Spec.ConfigSpec Spec.InputSpec Spec.MachineSpec Spec.CheckConfSpec Spec.AcceptSpec Spec.WholeSpec Spec.BestSpec Spec.WtaSpec Spec.ShiftSpec Spec.WholeEverySpec Spec.InterpolationSpec Spec.OpticalFlowSpec Spec.WholeRefineSpec Spec.HalvingSpec Spec.WholeExactSpec Spec.WholeFlowSpec Spec.WholeEndSpec Spec.LucasKanadeSpec Spec.WholeMatchSpec Spec.WholeRoiSpec Spec.WholeInterpSpec Spec.InterpUniqueSpec
  Proofs.CheckConfProofs Proofs.ConfigProofs Proofs.ConfigStepProofs Proofs.AcceptProofs Proofs.RoiProofs Proofs.WtaProofs Proofs.WtaTheorems Proofs.MatchingCostProofs Proofs.MatchingCostTheorems Proofs.PipelineProofs Proofs.WholeRunProofs Proofs.WholeProofs Proofs.WholeMainProofs Proofs.HalvingProofs Proofs.BetweenProofs Proofs.RefineBestProofs Proofs.RefineExactProofs Proofs.WholeMoreProofs Proofs.WholeEveryProofs Proofs.WholeRoiProofs Proofs.InterpUniqueProofs Proofs.BestProofs Proofs.RefineBestProofs Proofs.WholeFlowProofs Proofs.WholeEndProofs Proofs.WholeRoiProofs
  Props.RoiProps Props.PipelineProps Props.CheckConfProps Props.InterpolationProps Props.WholeProps Props.WholeMoreProps Props.WholeEveryProps Props.WholeRefineProps Props.WholeExactProps Props.WholeCompareProps Props.WholeInterpProps Props.LucasKanadeProps Props.WholeRoiProps.
Import ListNotations.
Open Scope Z_scope.
Open Scope string_scope.
Open Scope list_scope.

(** The only best pair is found. *)
Lemma best_only t rows cols cost nothing found tr tc : best t rows cols cost nothing found -> only_best t rows cols cost tr tc -> exists s, found tr tc s.
Proof.
  intros [[_ N]|(dr & dc & s & F & Hr & Hc & Hs & G & (dc' & Hc' & E1) & (dr' & Hr' & E2) & _)] (Tr & Tc & Tn & U); [elim Tn; apply N; assumption|].
  pose proof (G tr tc Tr Tc Tn) as A.
  destruct (U dr dc' Hr Hc') as [-> _]; [congruence | rewrite E1; exact A|]. destruct (U dr' dc Hr' Hc) as [_ ->]; [congruence | rewrite E2; exact A|]. exists s. exact F.
Qed.

(** When the costs measure differences, the only pair with identical windows is the only best one. *)
Lemma difference_only {px} (value : px -> num) left right row0 nrow col0 ncol t h x y (rows cols : Z -> Prop) cost tr tc :
  measures_difference value left right row0 nrow col0 ncol t h x y cost -> rows tr -> cols tc -> WholeFlowSpec.fits row0 nrow col0 ncol h (x + tr) (y + tc) ->
  same_windows value left right row0 col0 h x y tr tc -> (forall dr dc, rows dr -> cols dc -> same_windows value left right row0 col0 h x y dr dc -> dr = tr /\ dc = tc) ->
  only_best t rows cols cost tr tc.
Proof.
  intros [-> D] Tr Tc Ft Sw U. split; [exact Tr|]. split; [exact Tc|]. destruct (D tr tc) as (D1 & _). destruct (D1 Ft) as (d & E & _ & Z0). rewrite (proj2 Z0 Sw) in E. clear D1 Z0 d.
  split; [rewrite E; discriminate|]. intros dr dc Hr Hc Hn A. rewrite E in A. destruct (D dr dc) as (D2 & D3).
  destruct (Z_lt_le_dec (x + dr - Z.of_nat h) row0) as [L|L1]; [elim Hn; apply D3; unfold WholeFlowSpec.fits; lia|].
  destruct (Z_lt_le_dec (x + dr + Z.of_nat h) (row0 + Z.of_nat nrow)) as [L2|L]; [|elim Hn; apply D3; unfold WholeFlowSpec.fits; lia].
  destruct (Z_lt_le_dec (y + dc - Z.of_nat h) col0) as [L|L3]; [elim Hn; apply D3; unfold WholeFlowSpec.fits; lia|].
  destruct (Z_lt_le_dec (y + dc + Z.of_nat h) (col0 + Z.of_nat ncol)) as [L4|L]; [|elim Hn; apply D3; unfold WholeFlowSpec.fits; lia].
  destruct D2 as (d & Ed & P & I); [unfold WholeFlowSpec.fits; lia|]. rewrite Ed in A. cbn in A. apply Z.leb_le in A. apply U; [assumption | assumption | apply I; lia].
Qed.

Lemma truncated_whole q d s : (q == inject_Z d)%Q -> truncated q s -> s = d.
Proof.
  intros E (H1 & H2 & H3). assert (EA : (Qabs q == inject_Z (Z.abs d))%Q) by (rewrite E; reflexivity).
  rewrite EA in H1, H2. rewrite E in H3. rewrite <- Zle_Qle in H1. change 1%Q with (inject_Z 1) in H2. rewrite <- inject_Z_plus, <- Zlt_Qlt in H2. change 0%Q with (inject_Z 0) in H3. rewrite <- inject_Z_mult, <- Zle_Qle in H3. nia.
Qed.
Lemma displacement_whole i a d s : (forall p, i = Some p -> ~ (p == inject_Z d)%Q) -> is_number a (inject_Z d) -> displacement i a s -> s = d.
Proof.
  intros Hi (q & -> & E) H. unfold displacement in H. destruct i as [p|]; [|now apply (truncated_whole q)].
  destruct H as [[H _]|[_ H]]; [|now apply (truncated_whole q)]. elim (Hi p eq_refl). rewrite <- H. exact E.
Qed.
Lemma around_shows {px} (value : px -> num) row0 col0 im h x y f W : WholeFlowSpec.around row0 col0 im h x y W -> values_around value row0 col0 im h x y f -> shows_values value (2 * h + 1) f W.
Proof. intros [R A] V. split; [exact R|]. intros i j Hi Hj. destruct (V i j Hi Hj) as (q & E & Hq). eexists _, q. split; [apply A; assumption|]. split; [exact E | exact Hq]. Qed.
Lemma kept_inside i lo hi d q c v : is_number d q -> (inject_Z lo < q)%Q -> (q < inject_Z hi)%Q -> OpticalFlowSpec.kept i lo hi d c -> saved_number c v -> saved_as v q.
Proof.
  intros (x & -> & E) L H [[N _]|[[_ ->]|[(x' & Ex & B) _]]] S; [discriminate | | ].
  - cbn in S. exists x. split; [exact S | exact E].
  - injection Ex as <-. exfalso. rewrite E in B. destruct B as [B|B]; [apply (Qlt_not_le _ _ L B) | apply (Qlt_not_le _ _ H B)].
Qed.
Lemma same_values {px} (value : px -> num) left right row0 col0 h x y dr dc : same_windows value left right row0 col0 h x y dr dc ->
  exists f, values_around value row0 col0 left h x y f /\ values_around value row0 col0 right h (x + dr) (y + dc) f.
Proof.
  intros S. exists (fun a b => match number_at value row0 col0 left (x - Z.of_nat h + Z.of_nat a) (y - Z.of_nat h + Z.of_nat b) with Some q => q | None => 0%Q end).
  split; intros a b Ha Hb; destruct (S (Z.of_nat a - Z.of_nat h) (Z.of_nat b - Z.of_nat h) ltac:(lia) ltac:(lia)) as (p & (u & E1 & H1) & (v & E2 & H2));
    replace (x + (Z.of_nat a - Z.of_nat h)) with (x - Z.of_nat h + Z.of_nat a) in E1 by lia; replace (y + (Z.of_nat b - Z.of_nat h)) with (y - Z.of_nat h + Z.of_nat b) in E1 by lia; rewrite E1.
  - exists u. split; reflexivity.
  - replace (x + dr + (Z.of_nat a - Z.of_nat h)) with (x + dr - Z.of_nat h + Z.of_nat a) in E2 by lia. replace (y + dc + (Z.of_nat b - Z.of_nat h)) with (y + dc - Z.of_nat h + Z.of_nat b) in E2 by lia.
    exists v. split; [exact E2|]. rewrite H1, H2. reflexivity.
Qed.

(** One pixel after an optical flow. *)
Section Pixel.
  Context {px : Type} (nan : px) (value : px -> num) (solve : list (Q * Q) -> list Q -> option (Q * Q)) (unsolved : list (list px) -> list (list px) -> option (num * num)).
  Variable resample : list (list px) -> num -> num -> list (list px).
  Variables (left right : ImgShiftModel.image px) (row0 : Z) (nrow : nat) (col0 : Z) (ncol : nat).
  Notation lstsq := (lk_lstsq value solve unsolved).

  (** From the result of the iterations to the saved numbers. *)
  Lemma flow_saved open_raster one n h q x y tr tc vr vc vs s u0 v0 :
    (forall i l r a b d', WholeFlowSpec.around row0 col0 left h x y l -> WholeFlowSpec.around row0 col0 right h (x + tr) (y + tc) r -> (a == inject_Z tr)%Q -> (b == inject_Z tc)%Q ->
       refined lstsq resample i l n r (Some a, Some b) d' -> is_number (fst d') (inject_Z tr - v0) /\ is_number (snd d') (inject_Z tc - u0)) ->
    ~ at_border row0 nrow col0 ncol h (q_row_step q) (q_col_step q) x y -> WholeFlowSpec.fits row0 nrow col0 ncol h (x + tr) (y + tc) -> not_marked q tr -> not_marked q tc ->
    inside_interval open_raster (q_row_init q) (q_row_range q) x y (inject_Z tr - v0) -> inside_interval open_raster (q_col_init q) (q_col_range q) x y (inject_Z tc - u0) ->
    flow_found nan lstsq resample left right row0 nrow col0 ncol open_raster one 1 n h q x y vr vc vs tr tc s ->
    saved_as vr (inject_Z tr - v0) /\ saved_as vc (inject_Z tc - u0) /\ same_number one s vs.
  Proof.
    intros R Nb Ft Mr Mc Ir Ic (Ss & a & b & (qa & -> & Ea) & (qb & -> & Eb) & i & a' & b' & c & d & u & v & Ci & Mv & Mu & Kc & Sc & Mv' & Kd & Sd).
    assert (Ea' : (qa == inject_Z tr)%Q) by (rewrite Ea; field). assert (Eb' : (qb == inject_Z tc)%Q) by (rewrite Eb; field). clear Ea Eb.
    destruct Mv as [[B _]|[_ (l & r & srow & scol & Al & D1 & D2 & Ar & _ & Rf)]]; [contradiction|].
    assert (srow = tr) as ->. { apply (displacement_whole i (Some qa)); [|exists qa; split; [reflexivity | exact Ea'] | exact D1]. intros p ->. apply Mr. exact Ci. }
    assert (scol = tc) as ->. { apply (displacement_whole i (Some qb)); [|exists qb; split; [reflexivity | exact Eb'] | exact D2]. intros p ->. apply Mc. exact Ci. }
    destruct (R i l r qa qb (a', b') Al (Ar Ft) Ea' Eb' Rf) as [Na Nb']. cbn [fst snd] in Na, Nb'. destruct (Ir u Mu) as [I1 I2]. destruct (Ic v Mv') as [I3 I4].
    split; [exact (kept_inside i _ _ a' _ c vr Na I1 I2 Kc Sc)|]. split; [exact (kept_inside i _ _ b' _ d vc Nb' I3 I4 Kd Sd) | exact Ss].
  Qed.
End Pixel.

Section Program.
  (** The libraries: see WholeModel. *)
  Context {px : Type} (px_eqb : px -> px -> bool) (nan : px).
  Variable bool_ok : bool.
  Variable pandora_check : dict -> option (json * json * json).
  Variable matching_cost_margins : dict -> margins.
  Variable can_open_mandatory can_open : json -> bool.
  Variable images_ok : json -> json -> json -> json -> bool.
  Variable image_size : string -> nat * nat.
  Variable open_raster : string -> reader.
  Variable load : dict -> Z -> nat -> Z -> nat -> image px.
  Variable transform_of : dict -> option affine.
  Variable dataset_ok : image_dataset (image px) -> bool.
  Variable measure_of : dict -> measure.
  Variable offset_of : dict -> Z.
  Variable pandora_cost : dict -> mc_input -> image px -> list (list px) -> list (list Z) -> nat -> nat -> nat -> ext.
  Variable zoomed : image px -> nat -> nat -> nat -> px.
  Variable one : Z.
  Variable store : ext -> ext.
  Variable filter_apply : dict -> list (list ext) -> Z -> Z -> ext.
  (** The motion of Lucas and Kanade: see LucasKanadeModel. *)
  Variable value : px -> num.
  Variable solve : list (Q * Q) -> list Q -> option (Q * Q).
  Variable unsolved : list (list px) -> list (list px) -> option (num * num).
  Notation lstsq := (lk_lstsq value solve unsolved).
  Variable resample : list (list px) -> num -> num -> list (list px).
  Variable junk : nat -> list (list px).
  Variable interp : list Q -> list Q -> list (list cost) -> num -> num -> cost.
  Variable minimise : (num -> num -> cost) -> num * num -> (Q * Q) * (Q * Q) -> num * num.
  Variable estimate : json -> image px -> image px -> (Q * Q) * json * json.
  Variable global_margins : list (string * margins) -> list (string * margins) -> margins.
  Variable margins_to_dict : list (string * margins) -> list (string * margins) -> json.
  Notation main := (main px_eqb nan bool_ok pandora_check matching_cost_margins can_open_mandatory can_open images_ok image_size open_raster load transform_of dataset_ok
    measure_of offset_of pandora_cost zoomed one store filter_apply lstsq resample junk interp minimise estimate global_margins margins_to_dict).
  Notation check_user := (check_user px_eqb nan bool_ok pandora_check matching_cost_margins can_open_mandatory can_open images_ok image_size open_raster
    measure_of offset_of pandora_cost zoomed one store filter_apply lstsq resample junk interp minimise estimate).
  Notation libraries := (libraries bool_ok pandora_check images_ok image_size load dataset_ok measure_of pandora_cost one).
  Notation dichotomy_libraries := (dichotomy_libraries bool_ok pandora_check pandora_cost one store).
  Notation asked := (asked bool_ok pandora_check can_open_mandatory can_open images_ok image_size open_raster).
  Notation asked_estimation := (asked_estimation bool_ok pandora_check can_open_mandatory can_open images_ok image_size open_raster).
  Notation cost_contract := (cost_contract measure_of pandora_cost).

  Notation programmed := (programmed bool_ok pandora_check can_open_mandatory can_open images_ok image_size open_raster).
  Notation matching_of := (matching_of px_eqb nan bool_ok pandora_check matching_cost_margins can_open_mandatory can_open images_ok image_size open_raster measure_of offset_of pandora_cost zoomed one
    store filter_apply lstsq resample junk interp minimise estimate).
  Notation estimated_request := (estimated_request px_eqb nan bool_ok pandora_check matching_cost_margins can_open_mandatory can_open images_ok image_size open_raster load
    measure_of offset_of pandora_cost zoomed one store filter_apply lstsq resample junk interp minimise estimate).
  (** The request with the disparities that are searched, in the window that is loaded. *)
  Notation searched := (searched bool_ok pandora_check can_open_mandatory can_open images_ok image_size open_raster).
  Notation window_cost := (window_cost px_eqb load zoomed).

  Notation local_cost := (local_cost px_eqb load zoomed).
  Notation filter_of := (filter_of px_eqb nan bool_ok pandora_check matching_cost_margins can_open_mandatory can_open images_ok image_size open_raster measure_of offset_of pandora_cost zoomed one
    store filter_apply lstsq resample junk interp minimise estimate).


  (** * C101: without refinement, the only best pair is saved. *)
  Theorem C101_found pixel_cost user q rows cols left right completed subpix : libraries -> cost_contract pixel_cost -> searched user q rows cols -> matching_of user left right completed subpix ->
    exists row0 nrow col0 ncol out saved, window_ok q rows cols row0 nrow col0 ncol /\ window_reaches open_raster q rows cols row0 nrow col0 ncol /\ main user = Some out /\ o_maps out = Some saved /\ saved_pixels q rows cols saved /\
      forall x y tr tc, In x (dm_rows saved) -> In y (dm_cols saved) ->
        only_best (measure_of completed) (candidate open_raster (q_row_init q) (q_row_range q) subpix x y) (candidate open_raster (q_col_init q) (q_col_range q) subpix x y)
          (window_cost pixel_cost left right completed subpix row0 nrow col0 ncol x y) tr tc ->
        exists vr vc vs, pixel_of saved x y vr vc vs /\ quotient tr subpix vr /\ quotient tc subpix vc.
  Proof.
    intros L K Se Mo.
    destruct (searched_best px_eqb nan bool_ok pandora_check matching_cost_margins can_open_mandatory can_open images_ok image_size open_raster load transform_of dataset_ok
      measure_of offset_of pandora_cost zoomed one store filter_apply lstsq resample junk interp minimise estimate global_margins margins_to_dict pixel_cost user q rows cols L K Se)
      as (out & saved & Em & Eo & (Sr1 & Sr2 & Sr3 & Sr4 & Sr5 & _) & row0 & nrow & col0 & ncol & Wo & Wr & B).
    apply (optimal_matching px_eqb nan bool_ok pandora_check matching_cost_margins can_open_mandatory can_open images_ok image_size open_raster load
      measure_of offset_of pandora_cost zoomed one store filter_apply lstsq resample junk interp minimise estimate _ _ _ _ _ _ _ _ _ _ _ _ Mo) in B.
    exists row0, nrow, col0, ncol, out, saved. do 4 (split; [assumption|]). split; [split; [exact Sr1|]; split; [exact Sr2|]; split; [exact Sr3|]; split; [exact Sr4 | exact Sr5]|]. intros x y tr tc Hx Hy U.
    apply In_nth_error in Hx. destruct Hx as (a & Ha). apply In_nth_error in Hy. destruct Hy as (b & Hb).
    destruct (B a b x y Ha Hb) as (vr & vc & vs & E1 & E2 & E3 & Bp). destruct (best_only _ _ _ _ _ _ tr tc Bp U) as (s & Q1 & Q2 & _).
    exists vr, vc, vs. split; [exists a, b; auto 10|]. split; assumption.
  Qed.

  Definition flow_run_of user q rows cols e n left right completed w pixel_cost : Prop :=
    libraries /\ cost_contract pixel_cost /\ programmed user q rows cols e true /\ asks_refinement bool_ok user "optical_flow" n /\
    (e = true \/ same_middle open_raster (q_row_init q) 0 rows 0 cols /\ same_middle open_raster (q_col_init q) 0 rows 0 cols \/ q_row_step q = 1 /\ q_col_step q = 1 \/
      two_lines q rows cols /\ main user <> None) /\
    (q_zone q = None \/ q_row_step q = 1 /\ q_col_step q = 1) /\
    matching_of user left right completed 1 /\ int_at bool_ok ["window_size"] completed = Some w /\ offset_of completed = (w - 1) / 2 /\ flow_room w q rows cols.
  Notation searched_in := (searched_in px_eqb nan bool_ok pandora_check matching_cost_margins can_open_mandatory can_open images_ok image_size open_raster load measure_of offset_of pandora_cost zoomed one
    store filter_apply lstsq resample junk interp minimise estimate).
  Lemma flow_pixels pixel_cost user q rows cols e n left right completed w : flow_run_of user q rows cols e n left right completed w pixel_cost ->
    exists q' row0 nrow col0 ncol out saved, searched_in user q q' rows cols e row0 nrow col0 ncol /\ main user = Some out /\ o_maps out = Some saved /\ saved_pixels q rows cols saved /\
      let h := Z.to_nat ((w - 1) / 2) in let left_image := load left row0 nrow col0 ncol in let right_image := load right row0 nrow col0 ncol in
      let candidates_row := candidate open_raster (q_row_init q') (q_row_range q') 1 in let candidates_col := candidate open_raster (q_col_init q') (q_col_range q') 1 in
      let cost := window_cost pixel_cost left right completed 1 row0 nrow col0 ncol in
      forall x y tr tc v0 u0, In x (dm_rows saved) -> In y (dm_cols saved) -> only_best (measure_of completed) (candidates_row x y) (candidates_col x y) (cost x y) tr tc ->
        ~ at_border row0 nrow col0 ncol h (q_row_step q') (q_col_step q') x y -> WholeFlowSpec.fits row0 nrow col0 ncol h (x + tr) (y + tc) -> not_marked q' tr -> not_marked q' tc ->
        (forall i l r a b d', WholeFlowSpec.around row0 col0 left_image h x y l -> WholeFlowSpec.around row0 col0 right_image h (x + tr) (y + tc) r -> (a == inject_Z tr)%Q -> (b == inject_Z tc)%Q ->
          refined lstsq resample i l (Z.to_nat n) r (Some a, Some b) d' -> is_number (fst d') (inject_Z tr - v0) /\ is_number (snd d') (inject_Z tc - u0)) ->
        inside_interval open_raster (q_row_init q') (q_row_range q') x y (inject_Z tr - v0) -> inside_interval open_raster (q_col_init q') (q_col_range q') x y (inject_Z tc - u0) ->
        exists vr vc vs, pixel_of saved x y vr vc vs /\ saved_as vr (inject_Z tr - v0) /\ saved_as vc (inject_Z tc - u0).
  Proof.
    intros (H1 & H2 & H3 & H4 & H5 & H6 & H7 & H8 & H9 & H10).
    destruct (C92_optical_flow_exact px_eqb nan bool_ok pandora_check matching_cost_margins can_open_mandatory can_open images_ok image_size open_raster load transform_of dataset_ok
      measure_of offset_of pandora_cost zoomed one store filter_apply lstsq resample junk interp minimise estimate global_margins margins_to_dict pixel_cost user q rows cols e n left right completed 1 w
      H1 H2 H3 H4 H5 H6 H7 H8 H9 H10) as (q' & row0 & nrow & col0 & ncol & out & saved & S & Em & Eo & Sp & B).
    exists q', row0, nrow, col0, ncol, out, saved. do 4 (split; [assumption|]). cbv zeta in B |- *. intros x y tr tc v0 u0 Hx Hy U Nb Ft Mr Mc R Ir Ic.
    destruct (B x y Hx Hy) as (vr & vc & vs & Px & Bp). destruct (best_only _ _ _ _ _ _ tr tc Bp U) as (s & F). exists vr, vc, vs. split; [exact Px|].
    destruct (flow_saved nan value solve unsolved resample _ _ row0 nrow col0 ncol open_raster one _ _ q' x y tr tc vr vc vs s u0 v0 R Nb Ft Mr Mc Ir Ic F) as (X1 & X2 & _). split; assumption.
  Qed.

  (** * C101: the windows of the only best pair are identical: the optical flow keeps it. *)
  Theorem C101_kept pixel_cost user q rows cols e n left right completed w : flow_run_of user q rows cols e n left right completed w pixel_cost -> 3 <= w ->
    least_squares solve -> keeps_windows value resample ->
    exists q' row0 nrow col0 ncol out saved, searched_in user q q' rows cols e row0 nrow col0 ncol /\ main user = Some out /\ o_maps out = Some saved /\ saved_pixels q rows cols saved /\
      let h := Z.to_nat ((w - 1) / 2) in let left_image := load left row0 nrow col0 ncol in let right_image := load right row0 nrow col0 ncol in
      let candidates_row := candidate open_raster (q_row_init q') (q_row_range q') 1 in let candidates_col := candidate open_raster (q_col_init q') (q_col_range q') 1 in
      let cost := window_cost pixel_cost left right completed 1 row0 nrow col0 ncol in
      forall x y tr tc, In x (dm_rows saved) -> In y (dm_cols saved) -> only_best (measure_of completed) (candidates_row x y) (candidates_col x y) (cost x y) tr tc ->
        ~ at_border row0 nrow col0 ncol h (q_row_step q') (q_col_step q') x y -> WholeFlowSpec.fits row0 nrow col0 ncol h (x + tr) (y + tc) -> not_marked q' tr -> not_marked q' tc ->
        same_windows value left_image right_image row0 col0 h x y tr tc ->
        inside_interval open_raster (q_row_init q') (q_row_range q') x y (inject_Z tr) -> inside_interval open_raster (q_col_init q') (q_col_range q') x y (inject_Z tc) ->
        exists vr vc vs, pixel_of saved x y vr vc vs /\ saved_as vr (inject_Z tr) /\ saved_as vc (inject_Z tc).
  Proof.
    intros H Hw Hs Hk. destruct (flow_pixels pixel_cost user q rows cols e n left right completed w H) as (q' & row0 & nrow & col0 & ncol & out & saved & S & Em & Eo & Sp & B).
    exists q', row0, nrow, col0, ncol, out, saved. do 4 (split; [assumption|]). cbv zeta in B |- *. intros x y tr tc Hx Hy U Nb Ft Mr Mc Sw Ir Ic.
    assert (Hh : (2 <= 2 * Z.to_nat ((w - 1) / 2) + 1)%nat). { assert (1 <= (w - 1) / 2) by (apply Z.div_le_lower_bound; lia). lia. }
    assert (Z0 : forall d : Q, (d - 0 == d)%Q) by (intros; ring).
    assert (In0 : forall init range d, inside_interval open_raster init range x y d -> inside_interval open_raster init range x y (d - 0)).
    { intros init range d Hi v Hv. rewrite (Z0 d). exact (Hi v Hv). }
    destruct (B x y tr tc 0%Q 0%Q Hx Hy U Nb Ft Mr Mc) as (vr & vc & vs & Px & (p & -> & Ep) & (p' & -> & Ep')); [| apply In0; exact Ir | apply In0; exact Ic |].
    - intros i l r a b d' Al Ar Ea Eb R. destruct (same_values value _ _ row0 col0 _ x y tr tc Sw) as (f & Vl & Vr).
      destruct (C100_kept value solve unsolved resample i f (Z.to_nat n) _ l r a b d' Hs Hk Hh (around_shows value row0 col0 _ _ x y f l Al Vl) (around_shows value row0 col0 _ _ (x + tr) (y + tc) f r Ar Vr) R) as [(p & Ep & Hp) (p' & Ep' & Hp')].
      split; [exists p | exists p']; (split; [assumption|]); rewrite Z0; [rewrite Hp | rewrite Hp']; assumption.
    - exists (CFin p), (CFin p'), vs. split; [exact Px|]. split; [exists p | exists p']; (split; [reflexivity|]); rewrite Z0 in *; assumption.
  Qed.

  (** * C101: images that differ by a translation. The costs measure the differences of the windows, and no other candidates give identical windows: the translation is saved. *)
  Theorem C101_translation pixel_cost user q rows cols e n left right completed w : flow_run_of user q rows cols e n left right completed w pixel_cost -> 3 <= w ->
    least_squares solve -> keeps_windows value resample ->
    exists q' row0 nrow col0 ncol out saved, searched_in user q q' rows cols e row0 nrow col0 ncol /\ main user = Some out /\ o_maps out = Some saved /\ saved_pixels q rows cols saved /\
      let h := Z.to_nat ((w - 1) / 2) in let left_image := load left row0 nrow col0 ncol in let right_image := load right row0 nrow col0 ncol in
      let candidates_row := candidate open_raster (q_row_init q') (q_row_range q') 1 in let candidates_col := candidate open_raster (q_col_init q') (q_col_range q') 1 in
      let cost := window_cost pixel_cost left right completed 1 row0 nrow col0 ncol in
      forall x y tr tc, In x (dm_rows saved) -> In y (dm_cols saved) -> candidates_row x y tr -> candidates_col x y tc ->
        ~ at_border row0 nrow col0 ncol h (q_row_step q') (q_col_step q') x y -> WholeFlowSpec.fits row0 nrow col0 ncol h (x + tr) (y + tc) -> not_marked q' tr -> not_marked q' tc ->
        measures_difference value left_image right_image row0 nrow col0 ncol (measure_of completed) h x y (cost x y) ->
        same_windows value left_image right_image row0 col0 h x y tr tc ->
        (forall dr dc, candidates_row x y dr -> candidates_col x y dc -> same_windows value left_image right_image row0 col0 h x y dr dc -> dr = tr /\ dc = tc) ->
        inside_interval open_raster (q_row_init q') (q_row_range q') x y (inject_Z tr) -> inside_interval open_raster (q_col_init q') (q_col_range q') x y (inject_Z tc) ->
        exists vr vc vs, pixel_of saved x y vr vc vs /\ saved_as vr (inject_Z tr) /\ saved_as vc (inject_Z tc).
  Proof.
    intros H Hw Hs Hk. destruct (C101_kept pixel_cost user q rows cols e n left right completed w H Hw Hs Hk) as (q' & row0 & nrow & col0 & ncol & out & saved & S & Em & Eo & Sp & B).
    exists q', row0, nrow, col0, ncol, out, saved. do 4 (split; [assumption|]). cbv zeta in B |- *. intros x y tr tc Hx Hy Cr Cc Nb Ft Mr Mc D Sw U Ir Ic.
    apply (B x y tr tc Hx Hy); try assumption. eapply difference_only; eassumption.
  Qed.

  (** * C101: the windows of the only best pair differ by a motion of less than a pixel that the slopes explain: the optical flow saves the exact disparities. *)
  Theorem C101_subpixel pixel_cost user q rows cols e n left right completed w : flow_run_of user q rows cols e n left right completed w pixel_cost -> 3 <= w -> 1 <= n ->
    least_squares solve -> keeps_windows value resample ->
    exists q' row0 nrow col0 ncol out saved, searched_in user q q' rows cols e row0 nrow col0 ncol /\ main user = Some out /\ o_maps out = Some saved /\ saved_pixels q rows cols saved /\
      let h := Z.to_nat ((w - 1) / 2) in let left_image := load left row0 nrow col0 ncol in let right_image := load right row0 nrow col0 ncol in
      let candidates_row := candidate open_raster (q_row_init q') (q_row_range q') 1 in let candidates_col := candidate open_raster (q_col_init q') (q_col_range q') 1 in
      let cost := window_cost pixel_cost left right completed 1 row0 nrow col0 ncol in
      forall x y tr tc f g sx sy v0 u0, In x (dm_rows saved) -> In y (dm_cols saved) -> only_best (measure_of completed) (candidates_row x y) (candidates_col x y) (cost x y) tr tc ->
        ~ at_border row0 nrow col0 ncol h (q_row_step q') (q_col_step q') x y -> WholeFlowSpec.fits row0 nrow col0 ncol h (x + tr) (y + tc) -> not_marked q' tr -> not_marked q' tc ->
        values_around value row0 col0 left_image h x y f -> values_around value row0 col0 right_image h (x + tr) (y + tc) g -> slopes (2 * h + 1) f sx sy -> textured (2 * h + 1) sx sy ->
        (forall i j, (i < 2 * h + 1)%nat -> (j < 2 * h + 1)%nat -> (g i j == f i j + (sx i j * u0 + sy i j * v0))%Q) -> (Qabs u0 < 1)%Q -> (Qabs v0 < 1)%Q ->
        (forall r drow dcol, shows_values value (2 * h + 1) g r -> is_number drow v0 -> is_number dcol u0 -> shows_values value (2 * h + 1) f (resample r drow dcol)) ->
        inside_interval open_raster (q_row_init q') (q_row_range q') x y (inject_Z tr - v0) -> inside_interval open_raster (q_col_init q') (q_col_range q') x y (inject_Z tc - u0) ->
        exists vr vc vs, pixel_of saved x y vr vc vs /\ saved_as vr (inject_Z tr - v0) /\ saved_as vc (inject_Z tc - u0).
  Proof.
    intros H Hw Hn Hs Hk. destruct (flow_pixels pixel_cost user q rows cols e n left right completed w H) as (q' & row0 & nrow & col0 & ncol & out & saved & S & Em & Eo & Sp & B).
    exists q', row0, nrow, col0, ncol, out, saved. do 4 (split; [assumption|]). cbv zeta in B |- *. intros x y tr tc f g sx sy v0 u0 Hx Hy U Nb Ft Mr Mc Vl Vr Sl Tx Eg Au Av Un Ir Ic.
    assert (Hh : (2 <= 2 * Z.to_nat ((w - 1) / 2) + 1)%nat). { assert (1 <= (w - 1) / 2) by (apply Z.div_le_lower_bound; lia). lia. }
    apply (B x y tr tc v0 u0 Hx Hy U Nb Ft Mr Mc); [| exact Ir | exact Ic].
    intros i l r a b d' Al Ar Ea Eb R. assert (En : Z.to_nat n = Datatypes.S (Z.to_nat n - 1)) by lia. rewrite En in R.
    pose proof (around_shows value row0 col0 _ _ x y f l Al Vl) as Sl'. pose proof (around_shows value row0 col0 _ _ (x + tr) (y + tc) g r Ar Vr) as Sr'.
    destruct (C100_corrected value solve unsolved resample i (Z.to_nat n - 1) _ f g sx sy u0 v0 l r a b d' Hs Hk Hh Sl' Sr' Sl Tx Eg Au Av (fun drow dcol => Un r drow dcol Sr') R) as [(p & Ep & Hp) (p' & Ep' & Hp')].
    split; [exists p | exists p']; (split; [assumption|]); [rewrite Hp, Ea | rewrite Hp', Eb]; reflexivity.
  Qed.
End Program.

(** * Examples *)
(** The images of WholeProps: the right image is the left one, moved by one row and by minus one column. *)
Definition w16_value (z : Z) : num := Some (inject_Z z).
Definition w16_unsolved (_ _ : list (list Z)) : option (num * num) := None.
Definition w16_main : dict -> option outcome :=
  main Z.eqb 0 true wh_pandora (fun _ => mkMargins 1 1 1 1) (fun _ => true) (fun _ => true) (fun _ _ _ _ => true) wh_size wh_raster wh_load w3_transform (fun _ => true)
    (fun _ => MeasureMin) (fun _ => 1) w3_cost (fun _ _ _ _ => 0) 512 (fun x => x) w6_filter (lk_lstsq w16_value lk_solve w16_unsolved) (fun w _ _ => w) (fun _ => []) ex_interp ex_minimise
    w3_estimate wh_margins wh_dict.
(** Images in quarters: i j around the pixel (4, 4) of the left image, (i + 1/4) j around the pixel (5, 3) of the right image. *)
Definition w16_load (s : dict) (row0 : Z) (nrow : nat) (col0 : Z) (ncol : nat) : image Z :=
  let shift := match lookup "img" s with Some (JStr p) => p =? "left.tif" | _ => false end in
  mkImage (mkArr2 nrow ncol (fun r c => let x := row0 + Z.of_nat r in let y := col0 + Z.of_nat c in if shift then 4 * (x - 3) * (y - 3) else (4 * x - 15) * (y - 2))) (-9999) None.
Definition w16_quarter (z : Z) : num := Some (z # 4).
(** A resampling of the first order along the rows. *)
Definition w16_resample (W : list (list Z)) (a b : num) : list (list Z) :=
  match a with
  | Some p => if Qeq_bool p 0 then W else
      let at_ i j := match nth2 W i j with Some z => z | None => 0 end in
      map (fun i => map (fun j => at_ i j - Qround.Qfloor (p * inject_Z (at_ 1%nat j - at_ 0%nat j))) (seq 0 3)) (seq 0 3)
  | None => W end.
Definition w16_main' : dict -> option outcome :=
  main Z.eqb 0 true wh_pandora (fun _ => mkMargins 1 1 1 1) (fun _ => true) (fun _ => true) (fun _ _ _ _ => true) wh_size wh_raster w16_load w3_transform (fun _ => true)
    (fun _ => MeasureMin) (fun _ => 1) w3_cost (fun _ _ _ _ => 0) 512 (fun x => x) w6_filter (lk_lstsq w16_quarter lk_solve w16_unsolved) w16_resample (fun _ => []) ex_interp ex_minimise
    w3_estimate wh_margins wh_dict.
Section Checks.
  Variable lstsq : list (list Z) -> list (list Z) -> option (num * num).
  Variable resample : list (list Z) -> num -> num -> list (list Z).
  Definition w16_check (user : dict) := check_user Z.eqb 0 true wh_pandora (fun _ => mkMargins 1 1 1 1) (fun _ => true) (fun _ => true) (fun _ _ _ _ => true) wh_size wh_raster
    (fun _ => MeasureMin) (fun _ => 1) w3_cost (fun _ _ _ _ => 0) 512 (fun x => x) w6_filter lstsq resample (fun _ => []) ex_interp ex_minimise
    w3_estimate user (new_machine None).
  Definition w16_matching (user : dict) : option (dict * dict * dict * Z) :=
    match snd (w16_check user) with
    | Some cfg => match get_path ["input"; "left"] (JDict cfg), get_path ["input"; "right"] (JDict cfg), get_path ["pipeline"; "matching_cost"] (JDict cfg) with
        | Some (JDict l), Some (JDict r), Some (JDict s) => match matching_cost_init wh_pandora s with
            | Some c => match int_at true ["subpix"] c with Some n => Some (l, r, c, n) | None => None end | None => None end
        | _, _, _ => None end
    | None => None end.
  Lemma w16_matching_spec user l r c n : w16_matching user = Some (l, r, c, n) ->
    matching_of Z.eqb 0 true wh_pandora (fun _ => mkMargins 1 1 1 1) (fun _ => true) (fun _ => true) (fun _ _ _ _ => true) wh_size wh_raster
      (fun _ => MeasureMin) (fun _ => 1) w3_cost (fun _ _ _ _ => 0) 512 (fun x => x) w6_filter lstsq resample (fun _ => []) ex_interp ex_minimise w3_estimate user l r c n.
  Proof.
    unfold w16_matching. destruct (w16_check user) as [m [cfg|]] eqn:E; [|discriminate]. cbn [snd].
    destruct (get_path ["input"; "left"] (JDict cfg)) as [[| | | | | | | |dl]|] eqn:E1; try discriminate. destruct (get_path ["input"; "right"] (JDict cfg)) as [[| | | | | | | |dr]|] eqn:E2; try discriminate.
    destruct (get_path ["pipeline"; "matching_cost"] (JDict cfg)) as [[| | | | | | | |s]|] eqn:E3; try discriminate. destruct (matching_cost_init wh_pandora s) as [c'|] eqn:E4; [|discriminate].
    destruct (int_at true ["subpix"] c') as [n'|] eqn:E5; [|discriminate]. intros H. injection H as <- <- <- <-. exists m, cfg, s. auto 10.
  Qed.
End Checks.
Lemma w16_libraries : libraries true wh_pandora (fun _ _ _ _ => true) wh_size w16_load (fun _ => true) (fun _ => MeasureMin) w3_cost 512.
Proof. destruct w3_libraries as (L1 & L2 & L3 & L4 & L5 & L6 & L7 & L8). do 4 (split; [assumption|]). split; [split; reflexivity|]. do 2 (split; [assumption|]). exact L8. Qed.

Definition w16_user : dict := w6_user [JInt 1; JInt 1] [].
Definition w16_request : request := w6_request 1 1 None.
(** The parts of the checked configuration. *)
Definition w16_parts (lstsq : list (list Z) -> list (list Z) -> option (num * num)) resample (l r c : dict) : Prop :=
  w16_matching lstsq resample w16_user = Some (l, r, c, 1) /\ int_at true ["window_size"] c = Some 3 /\ lookup "img" l = Some (JStr "left.tif") /\ lookup "img" r = Some (JStr "right.tif").
Lemma w16_parts_exist lstsq resample : exists l r c, w16_parts lstsq resample l r c.
Proof. unfold w16_parts. do 3 eexists. split; [vm_compute; reflexivity|]. split; [reflexivity|]. split; reflexivity. Qed.
Lemma w16_run load value resample l r c :
  libraries true wh_pandora (fun _ _ _ _ => true) wh_size load (fun _ => true) (fun _ => MeasureMin) w3_cost 512 -> w16_parts (lk_lstsq value lk_solve w16_unsolved) resample l r c ->
  flow_run_of Z.eqb 0 true wh_pandora (fun _ => mkMargins 1 1 1 1) (fun _ => true) (fun _ => true) (fun _ _ _ _ => true) wh_size wh_raster load w3_transform (fun _ => true)
    (fun _ => MeasureMin) (fun _ => 1) w3_cost (fun _ _ _ _ => 0) 512 (fun x => x) w6_filter value lk_solve w16_unsolved resample (fun _ => []) ex_interp ex_minimise
    w3_estimate wh_margins wh_dict w16_user w16_request 8 9 false 4 l r c 3 w3_pixel.
Proof.
  intros L (E & W & _). unfold flow_run_of. split; [exact L|]. split; [exact w3_contract|]. split; [exact (proj2 w14_programmed2)|].
  split; [split; [reflexivity | right; split; [reflexivity|]; split; reflexivity]|]. split; [right; right; left; split; reflexivity|]. split; [left; reflexivity|].
  split; [apply w16_matching_spec; exact E|]. split; [exact W|]. split; [reflexivity|]. split; reflexivity.
Qed.
Lemma w16_middle (z x y v : Z) : middle wh_raster (JInt z) x y v -> v = z.
Proof. intros [H|(s & H & _)]; [|discriminate]. now inversion H. Qed.
Lemma w16_inside z range x y d : (inject_Z (z - range) < d)%Q -> (d < inject_Z (z + range))%Q -> inside_interval wh_raster (JInt z) range x y d.
Proof. intros H1 H2 v Hv. apply w16_middle in Hv. subst v. split; assumption. Qed.
Lemma w16_candidate z range x y d : candidate wh_raster (JInt z) range 1 x y d <-> z - range <= d <= z + range.
Proof. split; [intros (v & Hv & B); apply w16_middle in Hv; subst v; lia | intros B; exists z; split; [left; constructor | lia]]. Qed.
Lemma w16_unmarked d : not_marked w16_request d.
Proof. intros i H. inversion H. Qed.
Lemma w16_saved saved : saved_pixels w16_request 8 9 saved -> In 4 (dm_rows saved) /\ In 4 (dm_cols saved).
Proof. intros (R & C & _). split; [apply R | apply C]; unfold wanted_row, wanted_col, wanted; cbn; rewrite ?Z.mod_1_r; lia. Qed.
Lemma w16_border : ~ at_border 0 8 0 9 1 1 1 4 4.
Proof. unfold at_border, last_point. cbn. lia. Qed.

(** The costs of w3 measure the differences of the windows. *)
Lemma w16_sum f : (forall i j, 0 <= f i j) -> exists s, w3_sum (fun i j => Some (f i j)) = Some s /\ 0 <= s /\ (s = 0 <-> forall i j, Z.abs i <= 1 -> Z.abs j <= 1 -> f i j = 0).
Proof.
  intros P. unfold w3_sum, w3_add. cbn [fold_right fst snd]. eexists. split; [reflexivity|].
  pose proof (P (-1) (-1)); pose proof (P (-1) 0); pose proof (P (-1) 1); pose proof (P 0 (-1)); pose proof (P 0 0); pose proof (P 0 1); pose proof (P 1 (-1)); pose proof (P 1 0); pose proof (P 1 1).
  split; [lia|]. split.
  - intros E i j Hi Hj. assert (Di : i = -1 \/ i = 0 \/ i = 1) by lia. assert (Dj : j = -1 \/ j = 0 \/ j = 1) by lia. clear Hi Hj P. destruct Di as [-> | [-> | ->]]; destruct Dj as [-> | [-> | ->]]; lia.
  - intros E. rewrite !E by lia. reflexivity.
Qed.
Lemma w16_number s x y : 0 <= x < 8 -> 0 <= y < 9 -> number_at w16_value 0 0 (wh_load s 0 8 0 9) x y = Some (inject_Z (w3_image s x y)).
Proof.
  intros Hx Hy. unfold number_at, w16_value, w3_image, wh_load. cbn [im_data a2_get]. rewrite !Z2Nat.id by lia. rewrite !Z.sub_0_r, !Z.add_0_l.
  destruct (match lookup "img" s with Some (JStr p) => p =? "left.tif" | _ => false end); reflexivity.
Qed.
Lemma w16_same l r dr dc : WholeFlowSpec.fits 0 8 0 9 1 (4 + dr) (4 + dc) ->
  (same_windows w16_value (wh_load l 0 8 0 9) (wh_load r 0 8 0 9) 0 0 1 4 4 dr dc <-> forall i j, Z.abs i <= 1 -> Z.abs j <= 1 -> w3_image l (4 + i) (4 + j) = w3_image r (4 + dr + i) (4 + dc + j)).
Proof.
  unfold WholeFlowSpec.fits. intros F. split.
  - intros H i j Hi Hj. destruct (H i j) as (p & (a & Ea & Ha) & b & Eb & Hb); [lia | lia|]. rewrite w16_number in Ea by lia. rewrite w16_number in Eb by lia.
    injection Ea as <-. injection Eb as <-. rewrite <- Hb in Ha. now apply inject_Z_injective.
  - intros H i j Hi Hj. change (Z.of_nat 1) with 1 in Hi, Hj. exists (inject_Z (w3_image l (4 + i) (4 + j))). rewrite !w16_number by lia. split; [eexists; split; reflexivity|]. rewrite (H i j Hi Hj). eexists; split; reflexivity.
Qed.
Lemma w16_measures l r c : measures_difference w16_value (wh_load l 0 8 0 9) (wh_load r 0 8 0 9) 0 8 0 9 MeasureMin 1 4 4
  (window_cost Z.eqb wh_load (fun _ _ _ _ => 0) w3_pixel l r c 1 0 8 0 9 4 4).
Proof.
  split; [reflexivity|]. intros dr dc. unfold window_cost. change (Z.to_nat 1) with 1%nat. cbv beta.
  pose proof (w3_pair l r c 0 8 0 9 4 4 dr dc ltac:(lia) ltac:(lia)) as W. cbv zeta in W. destruct W as [W1 W2]. split.
  - intros F. rewrite W1; [| unfold WholeFlowSpec.fits in F; unfold WholeSpec.fits; lia | unfold WholeFlowSpec.fits in F; unfold WholeSpec.fits; lia].
    destruct (w16_sum (fun i j => Z.abs (w3_image l (4 + i) (4 + j) - w3_image r (4 + i + dr) (4 + j + dc)))) as (s & -> & Hs & E); [intros; apply Z.abs_nonneg|].
    exists s. split; [reflexivity|]. split; [exact Hs|]. rewrite E, (w16_same l r dr dc F).
    split; intros H i j Hi Hj; specialize (H i j Hi Hj); cbv beta in H |- *; replace (4 + i + dr) with (4 + dr + i) in * by lia; replace (4 + j + dc) with (4 + dc + j) in * by lia; lia.
  - intros N. apply W2. intros [F1 F2]. apply N. unfold WholeSpec.fits in F1, F2. unfold WholeFlowSpec.fits. lia.
Qed.
Lemma w16_translation l r : lookup "img" l = Some (JStr "left.tif") -> lookup "img" r = Some (JStr "right.tif") ->
  same_windows w16_value (wh_load l 0 8 0 9) (wh_load r 0 8 0 9) 0 0 1 4 4 1 (-1) /\
  forall dr dc, -2 <= dr <= 2 -> -3 <= dc <= 1 -> same_windows w16_value (wh_load l 0 8 0 9) (wh_load r 0 8 0 9) 0 0 1 4 4 dr dc -> dr = 1 /\ dc = -1.
Proof.
  intros El Er.
  assert (Il : forall x y, w3_image l x y = wh_texture (x + 1) (y - 1)) by (intros; unfold w3_image; now rewrite El).
  assert (Ir : forall x y, w3_image r x y = wh_texture x y) by (intros; unfold w3_image; now rewrite Er).
  split.
  - apply (proj2 (w16_same l r 1 (-1) ltac:(unfold WholeFlowSpec.fits; lia))). intros i j Hi Hj. rewrite Il, Ir. f_equal; lia.
  - intros dr dc Hr Hc H. assert (F : WholeFlowSpec.fits 0 8 0 9 1 (4 + dr) (4 + dc)) by (unfold WholeFlowSpec.fits; lia). pose proof (proj1 (w16_same l r dr dc F) H) as H'. clear F H. rename H' into H. specialize (H 0 0 ltac:(lia) ltac:(lia)). rewrite Il, Ir in H. clear Il Ir El Er.
    assert (Dr : dr = -2 \/ dr = -1 \/ dr = 0 \/ dr = 1 \/ dr = 2) by lia. assert (Dc : dc = -3 \/ dc = -2 \/ dc = -1 \/ dc = 0 \/ dc = 1) by lia. clear Hr Hc.
    destruct Dr as [-> | [-> | [-> | [-> | ->]]]]; destruct Dc as [-> | [-> | [-> | [-> | ->]]]]; vm_compute in H; first [discriminate H | split; reflexivity].
Qed.
(** C101_translation, C101_kept: the translation is found and kept at the pixel (4, 4). *)
Example C101_translation_example : exists l r c out saved vr vc vs, w16_parts (lk_lstsq w16_value lk_solve w16_unsolved) (fun w _ _ => w) l r c /\
  measures_difference w16_value (wh_load l 0 8 0 9) (wh_load r 0 8 0 9) 0 8 0 9 MeasureMin 1 4 4 (window_cost Z.eqb wh_load (fun _ _ _ _ => 0) w3_pixel l r c 1 0 8 0 9 4 4) /\
  same_windows w16_value (wh_load l 0 8 0 9) (wh_load r 0 8 0 9) 0 0 1 4 4 1 (-1) /\
  w16_main w16_user = Some out /\ o_maps out = Some saved /\ pixel_of saved 4 4 vr vc vs /\ saved_as vr 1 /\ saved_as vc (-1).
Proof.
  destruct (w16_parts_exist (lk_lstsq w16_value lk_solve w16_unsolved) (fun w _ _ => w)) as (l & r & c & P). pose proof (w16_run _ _ _ _ _ _ w3_libraries P) as R.
  assert (K : keeps_windows w16_value (fun (w : list (list Z)) _ _ => w)) by (intros n f W a b H _ _; exact H).
  destruct P as (E & W & El & Er). destruct (w16_translation l r El Er) as [T U].
  destruct (C101_translation _ _ _ _ _ _ _ _ _ _ _ _ _ _ _ _ _ _ _ _ _ _ _ _ _ _ _ _ _ _ _ _ _ _ _ _ _ _ _ _ _ R ltac:(lia) lk_solve_least K)
    as (q' & row0 & nrow & col0 & ncol & out & saved & ((-> & -> & -> & ->) & -> & _) & Em & Eo & Sp & B).
  cbv zeta in B. change (Z.to_nat ((3 - 1) / 2)) with 1%nat in B. destruct (w16_saved saved Sp) as [S1 S2].
  destruct (B 4 4 1 (-1) S1 S2) as (vr & vc & vs & Px & A1 & A2).
  - apply w16_candidate. cbn. lia.
  - apply w16_candidate. cbn. lia.
  - exact w16_border.
  - unfold WholeFlowSpec.fits; lia.
  - apply w16_unmarked.
  - apply w16_unmarked.
  - apply w16_measures.
  - exact T.
  - intros dr dc Hr Hc. apply w16_candidate in Hr, Hc. cbn in Hr, Hc. apply U; lia.
  - apply w16_inside; reflexivity.
  - apply w16_inside; reflexivity.
  - exists l, r, c, out, saved, vr, vc, vs. split; [repeat split; assumption|]. split; [apply w16_measures|]. split; [exact T|]. do 3 (split; [assumption|]). split; assumption.
Qed.

(** C101_subpixel: the left window is a quarter of a row before the right one: three quarters of a row are saved. *)
Lemma w16_resample_keeps : keeps_windows w16_quarter w16_resample.
Proof. intros n f W a b H (p & -> & Hp) _. unfold w16_resample. apply Qeq_bool_iff in Hp. rewrite Hp. exact H. Qed.
Lemma w16_undone rw drow dcol : shows_values w16_quarter 3 w15_g rw -> is_number drow (1 # 4) -> is_number dcol 0 -> shows_values w16_quarter 3 w15_f (w16_resample rw drow dcol).
Proof.
  intros [_ H] (p & -> & Hp) _. unfold w16_resample. destruct (Qeq_bool p 0) eqn:E0; [apply Qeq_bool_iff in E0; rewrite E0 in Hp; discriminate Hp|].
  assert (V : forall i j, (i < 3)%nat -> (j < 3)%nat -> nth2 rw i j = Some ((4 * Z.of_nat i + 1) * Z.of_nat j)).
  { intros i j Hi Hj. destruct (H i j Hi Hj) as (z & q & -> & E & Hq). unfold w16_quarter in E. injection E as <-. f_equal. clear H E0 Hp. three i; three j; unfold w15_g, Qeq in Hq; cbn in Hq |- *; lia. }
  assert (Fl : forall k, Qround.Qfloor (p * inject_Z k) = Qround.Qfloor ((1 # 4) * inject_Z k)) by (intros; apply Qround.Qfloor_comp; now rewrite Hp).
  split.
  - split; [reflexivity|]. apply Forall_forall. intros row Hr. apply in_map_iff in Hr. destruct Hr as (i & <- & _). reflexivity.
  - intros i j Hi Hj. cbn [map seq]. rewrite !Fl, !V by lia. three i; three j; do 2 eexists; (split; [reflexivity|]); (split; [reflexivity|]); vm_compute; reflexivity.
Qed.
Lemma w16_values l r : lookup "img" l = Some (JStr "left.tif") -> lookup "img" r = Some (JStr "right.tif") ->
  values_around w16_quarter 0 0 (w16_load l 0 8 0 9) 1 4 4 w15_f /\ values_around w16_quarter 0 0 (w16_load r 0 8 0 9) 1 (4 + 1) (4 + -1) w15_g.
Proof.
  intros El Er. split; intros a b Ha Hb; three a; three b; unfold number_at, w16_load; rewrite ?El, ?Er; eexists; (split; [reflexivity|]); vm_compute; reflexivity.
Qed.
Lemma w16_only l r c : lookup "img" l = Some (JStr "left.tif") -> lookup "img" r = Some (JStr "right.tif") ->
  only_best MeasureMin (candidate wh_raster (JInt 0) 2 1 4 4) (candidate wh_raster (JInt (-1)) 2 1 4 4) (window_cost Z.eqb w16_load (fun _ _ _ _ => 0) w3_pixel l r c 1 0 8 0 9 4 4) 1 (-1).
Proof.
  intros El Er.
  assert (Ll : w16_load l 0 8 0 9 = w16_load [("img", JStr "left.tif")] 0 8 0 9) by (unfold w16_load; now rewrite El).
  assert (Lr : w16_load r 0 8 0 9 = w16_load [("img", JStr "right.tif")] 0 8 0 9) by (unfold w16_load; now rewrite Er).
  unfold window_cost, only_best. rewrite Ll, Lr. clear Ll Lr El Er. split; [apply w16_candidate; lia|]. split; [apply w16_candidate; lia|]. split; [vm_compute; discriminate|].
  intros dr dc Hr Hc _ G. apply w16_candidate in Hr, Hc.
  assert (Dr : dr = -2 \/ dr = -1 \/ dr = 0 \/ dr = 1 \/ dr = 2) by lia. assert (Dc : dc = -3 \/ dc = -2 \/ dc = -1 \/ dc = 0 \/ dc = 1) by lia. clear Hr Hc.
  destruct Dr as [-> | [-> | [-> | [-> | ->]]]]; destruct Dc as [-> | [-> | [-> | [-> | ->]]]]; vm_compute in G; first [split; reflexivity | elim G; reflexivity | discriminate G | now apply G].
Qed.
Example C101_subpixel_example : exists l r c out saved vr vc vs, w16_parts (lk_lstsq w16_quarter lk_solve w16_unsolved) w16_resample l r c /\
  values_around w16_quarter 0 0 (w16_load l 0 8 0 9) 1 4 4 w15_f /\ values_around w16_quarter 0 0 (w16_load r 0 8 0 9) 1 (4 + 1) (4 + -1) w15_g /\ slopes 3 w15_f w15_sx w15_sy /\ textured 3 w15_sx w15_sy /\
  w16_main' w16_user = Some out /\ o_maps out = Some saved /\ pixel_of saved 4 4 vr vc vs /\ saved_as vr (3 # 4) /\ saved_as vc (-1).
Proof.
  destruct (w16_parts_exist (lk_lstsq w16_quarter lk_solve w16_unsolved) w16_resample) as (l & r & c & P). pose proof (w16_run _ _ _ _ _ _ w16_libraries P) as R.
  destruct P as (E & W & El & Er). destruct (w16_values l r El Er) as [V1 V2]. destruct C100_slopes_example as (Sl & Tx & G).
  destruct (C101_subpixel _ _ _ _ _ _ _ _ _ _ _ _ _ _ _ _ _ _ _ _ _ _ _ _ _ _ _ _ _ _ _ _ _ _ _ _ _ _ _ _ _ R ltac:(lia) ltac:(lia) lk_solve_least w16_resample_keeps)
    as (q' & row0 & nrow & col0 & ncol & out & saved & ((-> & -> & -> & ->) & -> & _) & Em & Eo & Sp & B).
  cbv zeta in B. change (Z.to_nat ((3 - 1) / 2)) with 1%nat in B. destruct (w16_saved saved Sp) as [S1 S2].
  destruct (B 4 4 1 (-1) w15_f w15_g w15_sx w15_sy (1 # 4) 0%Q S1 S2) as (vr & vc & vs & Px & (p1 & -> & A1) & (p2 & -> & A2)).
  - apply w16_only; assumption.
  - exact w16_border.
  - unfold WholeFlowSpec.fits; lia.
  - apply w16_unmarked.
  - apply w16_unmarked.
  - exact V1.
  - exact V2.
  - exact Sl.
  - exact Tx.
  - exact G.
  - reflexivity.
  - reflexivity.
  - exact w16_undone.
  - apply w16_inside; reflexivity.
  - apply w16_inside; reflexivity.
  - exists l, r, c, out, saved, (CFin p1), (CFin p2), vs. split; [repeat split; assumption|]. do 7 (split; [assumption|]). split; [exists p1 | exists p2]; (split; [reflexivity|]); [rewrite A1 | rewrite A2]; reflexivity.
Qed.

(** C101_found: without refinement. *)
Example C101_found_example : exists l r c out saved vr vc vs, w16_matching (lk_lstsq w16_value lk_solve w16_unsolved) (fun w _ _ => w) (w3_user []) = Some (l, r, c, 1) /\
  only_best MeasureMin (candidate wh_raster (JInt 0) 1 1 4 4) (candidate wh_raster (JInt 0) 1 1 4 4) (window_cost Z.eqb wh_load (fun _ _ _ _ => 0) w3_pixel l r c 1 0 8 0 9 4 4) 1 (-1) /\
  w16_main (w3_user []) = Some out /\ o_maps out = Some saved /\ pixel_of saved 4 4 vr vc vs /\ quotient 1 1 vr /\ quotient (-1) 1 vc.
Proof.
  assert (Se : w3_searched (w3_user []) (w3_request None) 8 9) by exact (proj1 C79_example).
  destruct (w16_matching (lk_lstsq w16_value lk_solve w16_unsolved) (fun w _ _ => w) (w3_user [])) as [[[[l r] c] n]|] eqn:E; [|exfalso; vm_compute in E; discriminate]. assert (n = 1) as -> by (vm_compute in E; congruence).
  assert (El : lookup "img" l = Some (JStr "left.tif")) by (vm_compute in E; injection E as <- <- <-; reflexivity).
  assert (Er : lookup "img" r = Some (JStr "right.tif")) by (vm_compute in E; injection E as <- <- <-; reflexivity). pose proof (w16_matching_spec _ _ _ _ _ _ _ E) as E'.
  destruct (w16_translation l r El Er) as [T U].
  assert (O : only_best MeasureMin (candidate wh_raster (JInt 0) 1 1 4 4) (candidate wh_raster (JInt 0) 1 1 4 4) (window_cost Z.eqb wh_load (fun _ _ _ _ => 0) w3_pixel l r c 1 0 8 0 9 4 4) 1 (-1)).
  { eapply difference_only; [apply w16_measures | apply w16_candidate; lia | apply w16_candidate; lia | unfold WholeFlowSpec.fits; lia | exact T |].
    intros dr dc Hr Hc. apply w16_candidate in Hr, Hc. apply U; lia. }
  destruct (C101_found Z.eqb 0 true wh_pandora (fun _ => mkMargins 1 1 1 1) (fun _ => true) (fun _ => true) (fun _ _ _ _ => true) wh_size wh_raster wh_load w3_transform (fun _ => true)
      (fun _ => MeasureMin) (fun _ => 1) w3_cost (fun _ _ _ _ => 0) 512 (fun x => x) w6_filter w16_value lk_solve w16_unsolved (fun w _ _ => w) (fun _ => []) ex_interp ex_minimise w3_estimate wh_margins wh_dict w3_pixel (w3_user []) (w3_request None) 8%nat 9%nat l r c 1 w3_libraries w3_contract Se E')
    as (row0 & nrow & col0 & ncol & out & saved & Wo & _ & Em & Eo & Sp & B).
  destruct Wo as (-> & -> & -> & ->).
  assert (In 4 (dm_rows saved) /\ In 4 (dm_cols saved)) as [S1 S2] by (destruct Sp as (R & C & _); split; [apply R | apply C]; unfold wanted_row, wanted_col, wanted; cbn; rewrite ?Z.mod_1_r; lia).
  destruct (B 4 4 1 (-1) S1 S2 O) as (vr & vc & vs & Px & Q1 & Q2). exists l, r, c, out, saved, vr, vc, vs. split; [reflexivity|]. split; [exact O|]. do 3 (split; [assumption|]). split; assumption.
Qed.

Print Assumptions C101_found.
Print Assumptions C101_kept.
Print Assumptions C101_translation.
Print Assumptions C101_subpixel.
Print Assumptions C101_translation_example.
Print Assumptions C101_subpixel_example.
Print Assumptions C101_found_example.
