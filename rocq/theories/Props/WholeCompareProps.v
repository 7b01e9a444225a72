(** C84 - C87: two runs that differ by the step, the ROI, the subpixel or the refinement. *)
From Coq Require Import List String Bool ZArith QArith Qabs Lia.
From Verif Require Import Base.Ext Base.PyList Base.Arr Base.Json Base.Dict Base.ZRange Model.CommonModel Model.DisparityModel Model.MatchingCostModel Model.DichotomyModel
  Model.RoiModel Model.InputModel Model.ConfigModel Model.DatasetModel Model.EstimationModel Model.OpticalFlowModel Model.InterpolationModel Model.MachineModel Model.CheckConfModel
  Model.PipelineModel Model.WholeModel Model.ImgShiftModel
  Spec.MatchingCostSpec Spec.DichotomySpec Spec.RoiSpec Spec.PipelineSpec Spec.ConfigSpec Spec.InputSpec Spec.MachineSpec Spec.CheckConfSpec Spec.AcceptSpec Spec.WholeSpec Spec.BestSpec Spec.WtaSpec Spec.ShiftSpec Spec.WholeEverySpec Spec.InterpolationSpec Spec.OpticalFlowSpec Spec.WholeRefineSpec Spec.WholeCompareSpec
  Proofs.CheckConfProofs Proofs.ConfigProofs Proofs.ConfigStepProofs Proofs.AcceptProofs Proofs.RoiProofs Proofs.WtaProofs Proofs.WtaTheorems Proofs.MatchingCostProofs Proofs.MatchingCostTheorems Proofs.PipelineProofs Proofs.WholeRunProofs Proofs.WholeProofs Proofs.WholeMainProofs Proofs.WholeMoreProofs Proofs.WholeEveryProofs Proofs.WholeEndProofs Proofs.BestProofs Proofs.RefineBestProofs Proofs.WholeFlowProofs Proofs.ShiftProofs
  Props.RoiProps Props.PipelineProps Props.CheckConfProps Props.InterpolationProps Props.WholeProps Props.WholeMoreProps Props.WholeEveryProps Props.WholeRefineProps.
Import ListNotations.
Open Scope Z_scope.
Open Scope string_scope.
Open Scope list_scope.

Section Program.
  (** The libraries: see WholeModel. *)
  Context {px : Type} (px_eqb : px -> px -> bool) (nan : px).
  Variable bool_ok : bool.
  Variable pandora_check : dict -> option (json * json * json).
  Variable matching_cost_margins : dict -> margins.
  Variable can_open_mandatory can_open : json -> bool.
  Variable images_ok : json -> json -> json -> json -> bool.
  Variable image_size : string -> nat * nat.
  Variable open_raster : string -> reader.
  Variable load : dict -> Z -> nat -> Z -> nat -> image px.
  Variable transform_of : dict -> option affine.
  Variable dataset_ok : image_dataset (image px) -> bool.
  Variable measure_of : dict -> measure.
  Variable offset_of : dict -> Z.
  Variable pandora_cost : dict -> mc_input -> image px -> list (list px) -> list (list Z) -> nat -> nat -> nat -> ext.
  Variable zoomed : image px -> nat -> nat -> nat -> px.
  Variable one : Z.
  Variable store : ext -> ext.
  Variable filter_apply : dict -> list (list ext) -> Z -> Z -> ext.
  Variable lstsq : list (list px) -> list (list px) -> option (num * num).
  Variable resample : list (list px) -> num -> num -> list (list px).
  Variable junk : nat -> list (list px).
  Variable interp : list Q -> list Q -> list (list cost) -> num -> num -> cost.
  Variable minimise : (num -> num -> cost) -> num * num -> (Q * Q) * (Q * Q) -> num * num.
  Variable estimate : json -> image px -> image px -> (Q * Q) * json * json.
  Variable global_margins : list (string * margins) -> list (string * margins) -> margins.
  Variable margins_to_dict : list (string * margins) -> list (string * margins) -> json.
  Notation main := (main px_eqb nan bool_ok pandora_check matching_cost_margins can_open_mandatory can_open images_ok image_size open_raster load transform_of dataset_ok
    measure_of offset_of pandora_cost zoomed one store filter_apply lstsq resample junk interp minimise estimate global_margins margins_to_dict).
  Notation check_user := (check_user px_eqb nan bool_ok pandora_check matching_cost_margins can_open_mandatory can_open images_ok image_size open_raster
    measure_of offset_of pandora_cost zoomed one store filter_apply lstsq resample junk interp minimise estimate).
  Notation libraries := (libraries bool_ok pandora_check images_ok image_size load dataset_ok measure_of pandora_cost one).
  Notation dichotomy_libraries := (dichotomy_libraries bool_ok pandora_check pandora_cost one store).
  Notation asked := (asked bool_ok pandora_check can_open_mandatory can_open images_ok image_size open_raster).
  Notation asked_estimation := (asked_estimation bool_ok pandora_check can_open_mandatory can_open images_ok image_size open_raster).
  Notation cost_contract := (cost_contract measure_of pandora_cost).

  Notation programmed := (programmed bool_ok pandora_check can_open_mandatory can_open images_ok image_size open_raster).
  Notation matching_of := (matching_of px_eqb nan bool_ok pandora_check matching_cost_margins can_open_mandatory can_open images_ok image_size open_raster measure_of offset_of pandora_cost zoomed one
    store filter_apply lstsq resample junk interp minimise estimate).
  Notation estimated_request := (estimated_request px_eqb nan bool_ok pandora_check matching_cost_margins can_open_mandatory can_open images_ok image_size open_raster load
    measure_of offset_of pandora_cost zoomed one store filter_apply lstsq resample junk interp minimise estimate).
  (** The request with the disparities that are searched, in the window that is loaded. *)
  Notation searched := (searched bool_ok pandora_check can_open_mandatory can_open images_ok image_size open_raster).
  Notation window_cost := (window_cost px_eqb load zoomed).
  (** The costs of the whole image. *)
  Definition image_cost pixel_cost (left right completed : dict) (subpix : Z) (rows cols : nat) : Z -> Z -> Z -> Z -> ext := window_cost pixel_cost left right completed subpix 0 rows 0 cols.

  Lemma whole_best pixel_cost user q rows cols left right completed subpix out saved : libraries -> cost_contract pixel_cost -> searched user q rows cols ->
    (forall z, q_zone q = Some z -> whole_zone z rows cols) -> matching_of user left right completed subpix -> main user = Some out -> o_maps out = Some saved ->
    saved_right open_raster one q rows cols saved /\ saved_best open_raster one subpix (measure_of completed) q (image_cost pixel_cost left right completed subpix rows cols) saved.
  Proof.
    intros L K (A & S & C) Hz Mo M O.
    assert (G : exists out saved, main user = Some out /\ o_maps out = Some saved /\ saved_right open_raster one q rows cols saved /\
      optimal px_eqb nan bool_ok pandora_check matching_cost_margins can_open_mandatory can_open images_ok image_size open_raster load measure_of offset_of pandora_cost zoomed one
      store filter_apply lstsq resample junk interp minimise estimate pixel_cost user q rows cols saved).
    { destruct C as [(a & b & Ca & Cb)|(S1 & S2 & T)]; [eapply C74_optimal_constant; eauto | eapply C74_optimal_step1; eauto]. }
    destruct G as (o & sv & M1 & O1 & R1 & row0 & nrow & col0 & ncol & Wok & _ & B1). rewrite M in M1. injection M1 as <-. rewrite O in O1. injection O1 as <-.
    split; [exact R1|]. apply (optimal_matching px_eqb nan bool_ok pandora_check matching_cost_margins can_open_mandatory can_open images_ok image_size open_raster load measure_of offset_of pandora_cost zoomed one
      store filter_apply lstsq resample junk interp minimise estimate _ _ _ _ _ _ _ _ _ _ _ _ Mo) in B1.
    assert (row0 = 0 /\ nrow = rows /\ col0 = 0 /\ ncol = cols) as (-> & -> & -> & ->); [|exact B1].
    unfold window_ok in Wok. destruct (q_zone q) as [z|]; [|exact Wok]. destruct (Hz z eq_refl) as (Z1 & Z2 & Z3 & Z4). lia.
  Qed.

  Lemma has_matching pixel_cost user q rows cols : libraries -> cost_contract pixel_cost -> searched user q rows cols -> exists left right completed subpix, matching_of user left right completed subpix.
  Proof.
    intros L K (A & S & C).
    assert (G : exists out saved, main user = Some out /\ o_maps out = Some saved /\ saved_right open_raster one q rows cols saved /\
      optimal px_eqb nan bool_ok pandora_check matching_cost_margins can_open_mandatory can_open images_ok image_size open_raster load measure_of offset_of pandora_cost zoomed one
      store filter_apply lstsq resample junk interp minimise estimate pixel_cost user q rows cols saved).
    { destruct C as [(a & b & Ca & Cb)|(S1 & S2 & T)]; [eapply C74_optimal_constant; eauto | eapply C74_optimal_step1; eauto]. }
    destruct G as (o & sv & _ & _ & _ & row0 & nrow & col0 & ncol & _ & _ & (m1 & cfg1 & l1 & rg1 & st1 & co1 & su1 & D1 & D2 & D3 & D4 & D5 & D6 & _)).
    exists l1, rg1, co1, su1, m1, cfg1, st1. auto 10.
  Qed.

  (** * C84: the step only chooses the pixels *)
  (** The costs do not depend on the step. *)
  Definition step_free (pixel_cost : dict -> image px -> list (list px) -> list (list Z) -> nat -> nat -> Z -> ext) : Prop :=
    forall c c', same_but_step c c' -> measure_of c' = measure_of c /\ forall im a b r k d, pixel_cost c' im a b r k d = pixel_cost c im a b r k d.
  Definition with_steps (q : request) (row col : Z) : request := mkRequest (q_row_init q) (q_row_range q) (q_col_init q) (q_col_range q) row col (q_zone q) (q_invalid q).
  Theorem C84_step pixel_cost user user' q row col rows cols left right completed completed' subpix out saved out' saved' : libraries -> cost_contract pixel_cost -> step_free pixel_cost ->
    searched user q rows cols -> searched user' (with_steps q row col) rows cols -> (forall z, q_zone q = Some z -> whole_zone z rows cols) ->
    matching_of user left right completed subpix -> matching_of user' left right completed' subpix -> same_but_step completed completed' ->
    main user = Some out -> o_maps out = Some saved -> main user' = Some out' -> o_maps out' = Some saved' ->
    agree one q saved saved' /\ ((q_row_step q | row) -> (q_col_step q | col) -> fewer_pixels saved saved').
  Proof.
    intros L K F Se Se' Hz Mo Mo' Sb M O M' O'.
    destruct (whole_best _ _ _ _ _ _ _ _ _ _ _ L K Se Hz Mo M O) as (R1 & B1). destruct (whole_best _ _ _ _ _ _ _ _ _ _ _ L K Se' Hz Mo' M' O') as (R2 & B2).
    destruct (F _ _ Sb) as (Fm & Fc). rewrite Fm in B2. split.
    - intros x y vr vc vs vr' vc' vs' P P'.
      refine (pixel_agree open_raster one subpix (measure_of completed) q (with_steps q row col) _ _ saved saved' x y vr vc vs vr' vc' vs' _ _ _ _ B1 B2 P P'); try (cbn; tauto || reflexivity).
      intros dr dc _ _. unfold image_cost, WholeRefineProps.window_cost, pair_cost. symmetry. apply Fc.
    - intros (i & Ei) (j & Ej). destruct R1 as (Rr & Rc & _), R2 as (Rr' & Rc' & _).
      assert (D : forall s k x, s <> 0 -> x mod (k * s) = 0 -> x mod s = 0).
      { intros s k x Hs E. destruct (Z.eq_dec (k * s) 0) as [E0|N0]; [rewrite E0, Zmod_0_r in E; subst x; apply Z.mod_0_l; exact Hs|].
        apply Z.mod_divide in E; [|exact N0]. apply Z.mod_divide; [exact Hs|]. destruct E as (u & ->). exists (u * k). lia. }
      assert (D0 : forall k x, x mod (k * 0) = 0 -> x mod 0 = 0) by (intros k x; rewrite Z.mul_0_r; auto).
      assert (D' : forall s k x, x mod (k * s) = 0 -> x mod s = 0) by (intros s k x; destruct (Z.eq_dec s 0) as [->|N]; [apply D0 | now apply D]).
      split; intros x; [rewrite Rr, Rr' | rewrite Rc, Rc']; unfold wanted_row, wanted_col, wanted; cbn [with_steps q_zone q_row_step q_col_step]; rewrite ?Ei, ?Ej;
        destruct (q_zone q) as [z|]; cbn; intros; repeat match goal with H : _ /\ _ |- _ => destruct H end; eauto 10 using D'.
  Qed.

  (** * C85: a ROI that contains the whole image changes nothing *)
  Lemma increasing_same (l l' : list Z) : increasing l -> increasing l' -> (forall x, In x l <-> In x l') -> l = l'.
  Proof.
    revert l'. induction l as [|a l IH]; intros [|a' l'] I I' H; [reflexivity | exfalso; apply (H a'); now left | exfalso; apply (proj1 (H a)); now left|].
    assert (T : forall (b : Z) t, increasing (b :: t) -> increasing t /\ forall x, In x t -> b < x).
    { intros b t Hb. split; [intros i j u v Hij Hi Hj; apply (Hb (S i) (S j) u v); [lia | exact Hi | exact Hj]|].
      intros x Hx. destruct (In_nth_error _ _ Hx) as (n & Hn). apply (Hb 0%nat (S n) b x); [lia | reflexivity | exact Hn]. }
    destruct (T _ _ I) as (J & B), (T _ _ I') as (J' & B').
    assert (a = a') as <-. { destruct (proj1 (H a) (or_introl eq_refl)) as [<-|X]; [reflexivity|]. destruct (proj2 (H a') (or_introl eq_refl)) as [<-|Y]; [reflexivity|]. specialize (B _ Y). specialize (B' _ X). lia. }
    f_equal. apply IH; auto. intros x. split; intros X; [destruct (proj1 (H x) (or_intror X)) as [<-|Y] | destruct (proj2 (H x) (or_intror X)) as [<-|Y]]; try assumption; [specialize (B _ X) | specialize (B' _ X)]; lia.
  Qed.
  Theorem C85_whole_roi pixel_cost user user' q z rows cols out saved out' saved' : libraries -> cost_contract pixel_cost ->
    searched user q rows cols -> searched user' (with_zone q None) rows cols -> q_zone q = Some z -> whole_zone z rows cols ->
    lookup "input" user' = lookup "input" user -> lookup "pipeline" user' = lookup "pipeline" user ->
    main user = Some out -> o_maps out = Some saved -> main user' = Some out' -> o_maps out' = Some saved' ->
    dm_rows saved' = dm_rows saved /\ dm_cols saved' = dm_cols saved /\ agree one q saved saved'.
  Proof.
    intros L K Se Se' Hz Hw Hi Hp M O M' O'.
    assert (X : exists left right completed subpix, matching_of user left right completed subpix /\ matching_of user' left right completed subpix).
    { destruct (has_matching _ _ _ _ _ L K Se) as (l & r & c & n & (m & cfg & st & D1 & D2 & D3 & D4 & D5 & D6)). destruct (has_matching _ _ _ _ _ L K Se') as (l' & r' & c' & n' & (m' & cfg' & st' & D1' & D2' & D3' & D4' & D5' & D6')).
      assert (Sec : lookup "input" cfg' = lookup "input" cfg /\ lookup "pipeline" cfg' = lookup "pipeline" cfg).
      { destruct L as (Lp & _). unfold WholeModel.check_user in D1, D1'. refine (same_sections _ _ _ _ _ _ _ _ _ _ _ Lp user user' None m m' cfg cfg' _ _ Hi Hp D1 D1'); [now destruct Se as ((? & _) & _) | now destruct Se' as ((? & _) & _)]. }
      destruct Sec as [Si Sp]. exists l, r, c, n. split; [exists m, cfg, st; auto 10|]. exists m', cfg', st. split; [exact D1'|]. cbn [get_path] in *. rewrite Si, Sp. auto 10. }
    destruct X as (left & right & completed & subpix & Mo & Mo').
    destruct (whole_best _ _ _ _ _ _ _ _ _ _ _ L K Se ltac:(intros z' E; rewrite Hz in E; injection E as <-; exact Hw) Mo M O) as (R1 & B1).
    destruct (whole_best _ _ _ _ _ _ _ _ _ _ _ L K Se' ltac:(intros z' E; discriminate E) Mo' M' O') as (R2 & B2).
    destruct R1 as (Rr & Rc & I1 & I2 & _), R2 as (Rr' & Rc' & I1' & I2' & _). destruct Hw as (Z1 & Z2 & Z3 & Z4).
    split; [|split].
    - apply increasing_same; auto. intros x. rewrite Rr, Rr'. unfold wanted_row, wanted. rewrite Hz. cbn. rewrite Z1, Z.sub_0_r. intuition lia.
    - apply increasing_same; auto. intros x. rewrite Rc, Rc'. unfold wanted_col, wanted. rewrite Hz. cbn. rewrite Z2, Z.sub_0_r. intuition lia.
    - intros x y vr vc vs vr' vc' vs' P P'.
      refine (pixel_agree open_raster one subpix (measure_of completed) q (with_zone q None) _ _ saved saved' x y vr vc vs vr' vc' vs' _ _ _ _ B1 B2 P P'); try (cbn; tauto || reflexivity).
  Qed.

  (** * C86: a subpixel search never gives a worse score *)
  (** At whole disparities the costs are those of the search without subpixel. *)
  Definition same_at_whole (pixel_cost : dict -> image px -> list (list px) -> list (list Z) -> nat -> nat -> Z -> ext) (c c' : dict) (subpix : Z) : Prop :=
    measure_of c' = measure_of c /\ forall im a b r k d, pixel_cost c' im a b r k (d * subpix) = pixel_cost c im a b r k d.
  Lemma moved_whole (zoom zoom' : nat -> nat -> px) (im : image px) n d : (0 < n)%nat -> to_list2 (right_moved zoom' im n (d * Z.of_nat n)) = to_list2 (right_moved zoom im 1 d) /\
    to_list2 (moved_mask px_eqb zoom' im n (d * Z.of_nat n)) = to_list2 (moved_mask px_eqb zoom im 1 d).
  Proof.
    intros Hn. assert (V : forall r c, right_value zoom' im n (Z.of_nat r * Z.of_nat n + d * Z.of_nat n) c = right_value zoom im 1 (Z.of_nat r * Z.of_nat 1 + d) c).
    { intros r c. unfold right_value. rewrite <- Z.mul_add_distr_r, Z.mul_1_r, Z.mod_mul, Z.div_mul by lia. change (Z.of_nat 1) with 1. rewrite Z.mod_1_r, Z.div_1_r, Z.mul_1_r.
      destruct (Z.leb_spec 0 ((Z.of_nat r + d) * Z.of_nat n)), (Z.leb_spec 0 (Z.of_nat r + d)); try nia; cbn [andb]; [|reflexivity].
      destruct (Z.leb_spec ((Z.of_nat r + d) * Z.of_nat n) ((Z.of_nat (a2_n0 (im_data im)) - 1) * Z.of_nat n)), (Z.leb_spec (Z.of_nat r + d) (Z.of_nat (a2_n0 (im_data im)) - 1)); try nia; reflexivity. }
    split; apply to_list2_ext; try reflexivity; intros r c Hr Hc; cbn; [apply V | now rewrite V].
  Qed.
  Theorem C86_subpixel pixel_cost user user' q rows cols left right completed completed' subpix out saved out' saved' : libraries -> cost_contract pixel_cost ->
    searched user q rows cols -> searched user' q rows cols -> (forall z, q_zone q = Some z -> whole_zone z rows cols) -> 0 < subpix ->
    matching_of user left right completed 1 -> matching_of user' left right completed' subpix -> same_at_whole pixel_cost completed completed' subpix ->
    main user = Some out -> o_maps out = Some saved -> main user' = Some out' -> o_maps out' = Some saved' ->
    forall x y vr vc vs vr' vc' vs', pixel_of saved x y vr vc vs -> pixel_of saved' x y vr' vc' vs' -> without_disparity one q vr vc vs \/ good_score (measure_of completed) vs' vs.
  Proof.
    intros L K Se Se' Hz Hs Mo Mo' (Fm & Fc) M O M' O' x y vr vc vs vr' vc' vs' (a & b & A1 & A2 & A3 & A4 & A5) (a' & b' & A1' & A2' & A3' & A4' & A5').
    destruct (whole_best _ _ _ _ _ _ _ _ _ _ _ L K Se Hz Mo M O) as (R1 & B1). destruct (whole_best _ _ _ _ _ _ _ _ _ _ _ L K Se' Hz Mo' M' O') as (R2 & B2). rewrite Fm in B2.
    destruct (B1 _ _ _ _ A1 A2) as (wr & wc & ws & E1 & E2 & E3 & Best). destruct (B2 _ _ _ _ A1' A2') as (wr' & wc' & ws' & E1' & E2' & E3' & Best').
    rewrite A3 in E1. rewrite A4 in E2. rewrite A5 in E3. rewrite A5' in E3'. injection E1 as <-. injection E2 as <-. injection E3 as <-. injection E3' as <-.
    set (k := image_cost pixel_cost left right completed 1 rows cols) in *. set (k' := image_cost pixel_cost left right completed' subpix rows cols) in *.
    assert (Ek : forall dr dc, k' x y (dr * subpix) (dc * subpix) = k x y dr dc).
    { intros dr dc. unfold k, k', image_cost, WholeRefineProps.window_cost, pair_cost. rewrite Fc.
      pose proof (moved_whole (zoomed (load right 0 rows 0 cols) 1) (zoomed (load right 0 rows 0 cols) (Z.to_nat subpix)) (load right 0 rows 0 cols) (Z.to_nat subpix) dr ltac:(lia)) as Mv.
      rewrite Z2Nat.id in Mv by lia. destruct Mv as (-> & ->). reflexivity. }
    assert (Cr : forall i rg d, candidate open_raster i rg 1 x y d -> candidate open_raster i rg subpix x y (d * subpix)) by (intros i rg d (v & Hv & I); exists v; split; [exact Hv | nia]).
    destruct Best as [(N & _)|(dr & dc & s & (_ & _ & Fs) & R & C & S & B & (dc1 & C1 & X1) & _)]; [left; exact N|]. right.
    destruct Best' as [(_ & N')|(dr' & dc' & s' & (_ & _ & Fs') & R' & C' & S' & B' & _)].
    - exfalso. apply S. rewrite <- X1, <- Ek. apply N'; apply Cr; assumption.
    - destruct L as (_ & _ & _ & _ & _ & _ & Hone & _). eapply number_good; [exact Hone | exact Fs | exact Fs' |]. rewrite <- X1, <- Ek. apply B'; [apply Cr; assumption | apply Cr; assumption|]. now rewrite Ek, X1.
  Qed.

  (** * C87: a refinement stays near the result without refinement *)
  Lemma best_keep t R C cost N F : best t R C cost N F ->
    best t R C cost N (fun dr dc s => F dr dc s /\ R dr /\ C dc /\ s <> NaN /\ (exists dc', C dc' /\ cost dr dc' = s) /\ (exists dr', R dr' /\ cost dr' dc = s)).
  Proof. intros [H|(dr & dc & s & H1 & H2 & H3 & H4 & H5 & H6 & H7 & H8)]; [now left|]. right. exists dr, dc, s. auto 15. Qed.
  Lemma shows_same j a b : same_cost a b -> shows one j a -> shows one j b.
  Proof.
    intros H S. revert b H. induction S as [z q E|v q E|f q E|v| |j c S IH]; intros [|v'|q'] H; cbn in H; try contradiction; try subst; try constructor; try (rewrite <- H; exact E); auto.
  Qed.
  Lemma pixel_values saved x y vr vc vs wr wc ws : increasing (dm_rows saved) -> increasing (dm_cols saved) -> pixel_of saved x y vr vc vs -> pixel_of saved x y wr wc ws -> vr = wr /\ vc = wc /\ vs = ws.
  Proof.
    intros I1 I2 (a & b & A1 & A2 & A3 & A4 & A5) (a' & b' & A1' & A2' & A3' & A4' & A5').
    assert (U : forall l i j v, increasing l -> nth_error l i = Some v -> nth_error l j = Some v -> i = j).
    { intros l i j v I Hi Hj. destruct (Nat.lt_trichotomy i j) as [H|[H|H]]; [pose proof (I i j v v H Hi Hj); lia | exact H | pose proof (I j i v v H Hj Hi); lia]. }
    assert (a = a') as <- by (eapply U; [exact I1 | exact A1 | exact A1']). assert (b = b') as <- by (eapply U; [exact I2 | exact A2 | exact A2']). repeat split; congruence.
  Qed.
  Theorem C87_dichotomy pixel_cost user user' q rows cols n left right completed subpix out saved out' saved' : libraries -> dichotomy_libraries -> cost_contract pixel_cost ->
    programmed user q rows cols false true -> asks_refinement bool_ok user "dichotomy" n -> q_row_step q = 1 -> q_col_step q = 1 -> q_zone q = None ->
    searched user' q rows cols -> matching_of user left right completed subpix -> matching_of user' left right completed subpix ->
    main user = Some out -> o_maps out = Some saved -> main user' = Some out' -> o_maps out' = Some saved' ->
    dm_rows saved = dm_rows saved' /\ dm_cols saved = dm_cols saved' /\
    forall x y vr vc vs vr' vc' vs', pixel_of saved x y vr vc vs -> pixel_of saved' x y vr' vc' vs' ->
      without_disparity one q vr' vc' vs' /\ shows one (q_invalid q) vr /\ shows one (q_invalid q) vc \/
      closer_than subpix vr vr' /\ closer_than subpix vc vc' /\
      (no_tie (candidate open_raster (q_row_init q) (q_row_range q) subpix x y) (candidate open_raster (q_col_init q) (q_col_range q) subpix x y)
         (image_cost pixel_cost left right completed subpix rows cols x y) ->
       ~ shows one (q_invalid q) vr' -> ~ shows one (q_invalid q) vc' -> good_score (measure_of completed) vs vs').
  Proof.
    intros L D K Pr Hm S1 S2 Hz Se Mo Mo' M O M' O'.
    destruct (C83_dichotomy px_eqb nan bool_ok pandora_check matching_cost_margins can_open_mandatory can_open images_ok image_size open_raster load transform_of dataset_ok
      measure_of offset_of pandora_cost zoomed one store filter_apply lstsq resample junk interp minimise estimate global_margins margins_to_dict
      pixel_cost user q rows cols false n left right completed subpix L D K Pr Hm S1 S2 Mo) as (q1 & row0 & nrow & col0 & ncol & o & sv & (Wok & -> & _) & M1 & O1 & R1 & B1).
    rewrite M in M1. injection M1 as <-. rewrite O in O1. injection O1 as <-. unfold window_ok in Wok. rewrite Hz in Wok. destruct Wok as (-> & -> & -> & ->).
    destruct (whole_best _ _ _ _ _ _ _ _ _ _ _ L K Se ltac:(intros z' E; rewrite Hz in E; discriminate E) Mo' M' O') as (R2 & B2).
    assert (Hsub : 1 <= subpix).
    { destruct L as (_ & L2 & _). destruct Mo as (m & cfg & st & D1 & D2 & D3 & D4 & D5 & D6). unfold matching_cost_init in D5.
      destruct (matching_cost_check_conf st) as [[|[k1 j1] [|[k2 [| | | | | | |[|s1 [|s2 []]]|]] []]]|]; try discriminate. destruct (pandora_check (assign "step" s2 st)) as [[[jw js] jo]|] eqn:Ep; [|discriminate].
      injection D5 as <-. destruct (L2 _ _ _ _ Ep) as (n0 & In0 & Pn0 & _). cbn in D6. rewrite (int_value_as_int _ _ _ In0) in D6. injection D6 as <-. exact Pn0. }
    destruct R1 as (Rr & Rc & I1 & I2 & _), R2 as (Rr' & Rc' & I1' & I2' & _). 
    split; [apply increasing_same; auto; intros x; now rewrite Rr, Rr'|]. split; [apply increasing_same; auto; intros x; now rewrite Rc, Rc'|].
    intros x y vr vc vs vr' vc' vs' P P'. assert (P0 := P). destruct P0 as (a & b & A1 & A2 & _). destruct P' as (a' & b' & A1' & A2' & A3' & A4' & A5').
    destruct (B1 x y (nth_error_In _ _ A1) (nth_error_In _ _ A2)) as (wr & wc & ws & Pw & Best). destruct (pixel_values _ _ _ _ _ _ _ _ _ I1 I2 P Pw) as (<- & <- & <-).
    destruct (B2 _ _ _ _ A1' A2') as (wr' & wc' & ws' & E1' & E2' & E3' & Best'). rewrite A3' in E1'. rewrite A4' in E2'. rewrite A5' in E3'. injection E1' as <-. injection E2' as <-. injection E3' as <-.
    destruct (best_unique _ _ _ _ _ _ _ _ _ _ _ (fun d => iff_refl _) (fun d => iff_refl _) (fun dr dc _ _ => eq_refl) (best_keep _ _ _ _ _ _ Best) Best')
      as [(N & N')|(dr & dc & s & ((Fr & Fc & Fs) & R & C & S & (dc1 & C1 & X1) & (dr1 & Rr1 & X2)) & (Gr & Gc & Gs))]; [left; unfold without_disparity; tauto|]. right.
    assert (Cl : forall d v v', refined_by subpix (Z.min n 9) d v -> quotient d subpix v' -> closer_than subpix v v').
    { intros d v v' (mm & u & -> & Eu & Hmm) (u' & -> & Eu'). exists u, u'. split; [reflexivity|]. split; [reflexivity|]. rewrite Eu, Eu'.
      set (p := 2 ^ Z.min n 9) in *. assert (0 < p) by nia. 
      setoid_replace (inject_Z d / inject_Z subpix + inject_Z mm / inject_Z p - inject_Z d / inject_Z subpix)%Q with (inject_Z mm / inject_Z p)%Q by ring.
      assert (Ea : (Qabs (inject_Z mm / inject_Z p) == inject_Z (Z.abs mm) / inject_Z p)%Q).
      { unfold Qdiv. rewrite Qabs_Qmult. rewrite (Qabs_pos (/ inject_Z p)); [reflexivity|]. apply Qinv_le_0_compat. unfold Qle. cbn. lia. }
      rewrite Ea. apply Qlt_shift_div_r; [unfold Qlt; cbn; lia|]. 
      setoid_replace (1 / inject_Z subpix * inject_Z p)%Q with (inject_Z p / inject_Z subpix)%Q by (unfold Qdiv; ring).
      apply Qlt_shift_div_l; [unfold Qlt; cbn; lia|]. rewrite <- inject_Z_mult. rewrite <- Zlt_Qlt. exact Hmm. }
    split; [eapply Cl; eauto|]. split; [eapply Cl; eauto|]. intros Nt Nr Nc.
    change (image_cost pixel_cost left right completed subpix rows cols) with (window_cost pixel_cost left right completed subpix 0 rows 0 cols) in Nt.
    destruct (Nt dr dc1 dr1 dc R C1 Rr1 C) as [<- ->]; [now rewrite X1 | now rewrite X1, X2|].
    destruct Fs as (w & Sw & G).
    - now rewrite X1.
    - intros c0 Hc0 Hs. apply Nr. eapply shows_same; [|exact Hs]. eapply quotient_same; eauto.
    - intros c0 Hc0 Hs. apply Nc. eapply shows_same; [|exact Hs]. eapply quotient_same; eauto.
    - destruct L as (_ & _ & _ & _ & _ & _ & Hone & _). rewrite X1 in G. eapply number_good; [exact Hone | exact Gs | exact Sw | exact G].
  Qed.

  Theorem C87_optical_flow pixel_cost user user' q rows cols n left right completed subpix w out saved out' saved' : libraries -> cost_contract pixel_cost ->
    programmed user q rows cols false true -> asks_refinement bool_ok user "optical_flow" n -> q_zone q = None ->
    searched user' q rows cols -> matching_of user left right completed subpix -> matching_of user' left right completed subpix ->
    int_at bool_ok ["window_size"] completed = Some w -> offset_of completed = (w - 1) / 2 -> flow_room w q rows cols ->
    main user = Some out -> o_maps out = Some saved -> main user' = Some out' -> o_maps out' = Some saved' ->
    dm_rows saved = dm_rows saved' /\ dm_cols saved = dm_cols saved' /\
    forall x y vr vc vs vr' vc' vs', pixel_of saved x y vr vc vs -> pixel_of saved' x y vr' vc' vs' ->
      without_disparity one q vr' vc' vs' /\ shows one (q_invalid q) vs \/
      same_cost vs vs' /\ (no_value one q vr \/ within n vr vr') /\ (no_value one q vc \/ within n vc vc').
  Proof.
    intros L K Pr Hm Hz Se Mo Mo' Hw Ho Hroom M O M' O'. 
    destruct (C82_optical_flow px_eqb nan bool_ok pandora_check matching_cost_margins can_open_mandatory can_open images_ok image_size open_raster load transform_of dataset_ok
      measure_of offset_of pandora_cost zoomed one store filter_apply lstsq resample junk interp minimise estimate global_margins margins_to_dict
      pixel_cost user q rows cols false n left right completed subpix w L K Pr Hm ltac:(right; destruct Se as (_ & _ & [(a & b & Ca & Cb)|(S1 & S2 & _)]); [left; split; eapply constant_same; eassumption | auto]) (or_introl Hz) Mo Hw Ho Hroom)
      as (q1 & row0 & nrow & col0 & ncol & o & sv & (Wok & -> & _) & M1 & O1 & R1 & B1).
    rewrite M in M1. injection M1 as <-. rewrite O in O1. injection O1 as <-. unfold window_ok in Wok. rewrite Hz in Wok. destruct Wok as (-> & -> & -> & ->).
    destruct (whole_best _ _ _ _ _ _ _ _ _ _ _ L K Se ltac:(intros z' E; rewrite Hz in E; discriminate E) Mo' M' O') as (R2 & B2).
    destruct R1 as (Rr & Rc & I1 & I2 & _), R2 as (Rr' & Rc' & I1' & I2' & _). 
    split; [apply increasing_same; auto; intros x; now rewrite Rr, Rr'|]. split; [apply increasing_same; auto; intros x; now rewrite Rc, Rc'|].
    intros x y vr vc vs vr' vc' vs' P P'. assert (P0 := P). destruct P0 as (a & b & A1 & A2 & _). destruct P' as (a' & b' & A1' & A2' & A3' & A4' & A5').
    destruct (B1 x y (nth_error_In _ _ A1) (nth_error_In _ _ A2)) as (wr & wc & ws & Pw & Best). destruct (pixel_values _ _ _ _ _ _ _ _ _ I1 I2 P Pw) as (<- & <- & <-).
    destruct (B2 _ _ _ _ A1' A2') as (wr' & wc' & ws' & E1' & E2' & E3' & Best'). rewrite A3' in E1'. rewrite A4' in E2'. rewrite A5' in E3'. injection E1' as <-. injection E2' as <-. injection E3' as <-.
    destruct (best_unique _ _ _ _ _ _ _ _ _ _ _ (fun d => iff_refl _) (fun d => iff_refl _) (fun dr dc _ _ => eq_refl) Best Best')
      as [((N & _) & N')|(dr & dc & s & (Fs & Fr & Fc) & (Gr & Gc & Gs))]; [left; split; [exact N' | exact N]|]. right.
    assert (Cl : forall d v v', moved_at_most n subpix d v -> quotient d subpix v' -> within n v v').
    { intros d v v' (u & -> & Eu) (u' & -> & Eu'). exists u, u'. split; [reflexivity|]. split; [reflexivity|]. now rewrite Eu'. }
    split; [eapply number_same; eauto|]. split; [destruct Fr as [Fr|(_ & Fr)] | destruct Fc as [Fc|(_ & Fc)]]; eauto.
  Qed.
End Program.

(** ** Examples *)
(** Steps of 1, then of 2 and 3. *)
Definition w8_user (row col : Z) : dict := wh_user [JInt row; JInt col] (wh_disp (JInt 0) 1) (wh_disp (JInt 0) 1) [] [].
Definition w8_request (row col : Z) : request := mkRequest (JInt 0) 1 (JInt 0) 1 row col None JNan.
Lemma w8_searched11 : w3_searched (w8_user 1 1) (w8_request 1 1) 8 9.
Proof. split; [unfold w8_user; wh_asked_tac|]. split; [eexists; split; reflexivity|]. left. exists 0, 0. split; constructor. Qed.
Lemma w8_searched23 : w3_searched (w8_user 2 3) (w8_request 2 3) 8 9.
Proof. split; [unfold w8_user; wh_asked_tac|]. split; [eexists; split; reflexivity|]. left. exists 0, 0. split; constructor. Qed.
Example C84_example : libraries true wh_pandora (fun _ _ _ _ => true) wh_size wh_load (fun _ => true) (fun _ => MeasureMin) w3_cost 512 /\
  cost_contract (fun _ => MeasureMin) w3_cost w3_pixel /\ step_free (fun _ => MeasureMin) w3_pixel /\
  w3_searched (w8_user 1 1) (w8_request 1 1) 8 9 /\ w3_searched (w8_user 2 3) (with_steps (w8_request 1 1) 2 3) 8 9 /\
  (exists l r c c', w3_matching_of (w8_user 1 1) l r c 1 /\ w3_matching_of (w8_user 2 3) l r c' 1 /\ same_but_step c c' /\ c <> c') /\
  (exists out saved out' saved' vr vc vs, w3_main (w8_user 1 1) = Some out /\ o_maps out = Some saved /\ w3_main (w8_user 2 3) = Some out' /\ o_maps out' = Some saved' /\
    dm_rows saved' = [0; 2; 4; 6] /\ dm_cols saved' = [0; 3; 6] /\ pixel_of saved 2 3 (CFin vr) (CFin vc) vs /\ pixel_of saved' 2 3 (CFin vr) (CFin vc) vs).
Proof.
  split; [exact w3_libraries|]. split; [exact w3_contract|]. split; [intros c c' _; split; reflexivity|]. split; [exact w8_searched11|]. split; [exact w8_searched23|]. split.
  { destruct (w3_matching (w8_user 1 1)) as [[[[l r] c] n]|] eqn:E; [|exfalso; vm_compute in E; discriminate]. destruct (w3_matching (w8_user 2 3)) as [[[[l' r'] c'] n']|] eqn:E'; [|exfalso; vm_compute in E'; discriminate].
    exists l, r, c, c'. assert (n = 1) as -> by (vm_compute in E; congruence). assert (n' = 1) as -> by (vm_compute in E'; congruence). assert (l' = l) as -> by (vm_compute in E, E'; congruence). assert (r' = r) as -> by (vm_compute in E, E'; congruence).
    split; [now apply w3_matching_spec|]. split; [now apply w3_matching_spec|]. vm_compute in E, E'. injection E as <- <- <-. injection E' as <-. split; [|discriminate].
    intros k Hk. cbn. destruct (String.eqb_spec k "step") as [->|_]; [now elim Hk | reflexivity]. }
  do 7 eexists. do 4 (split; [vm_compute; reflexivity|]). do 2 (split; [reflexivity|]). split; [exists 2%nat, 3%nat | exists 1%nat, 1%nat]; vm_compute; auto 10.
Qed.

(** A ROI with more rows than the image. *)
Definition w8_roi : dict := [("ROI", JDict [("row", JDict [("first", JInt 0); ("last", JInt 12)]); ("col", JDict [("first", JInt 0); ("last", JInt 8)])])].
Ltac w8_rest := split; [|split; [exists "left.tif"; split; reflexivity | try (cbn; lia); exact I]];
  split; [wh_leaf|]; split; [wh_leaf|]; split; [wh_leaf|]; split; [wh_leaf|];
  split; [right; do 2 eexists; split; [reflexivity|]; split; apply int_int|];
  split; [first [reflexivity | split; [wh_leaf|]; split; [wh_leaf|]; split; wh_leaf] | right; wh_leaf].
Example C85_example : w3_searched (w3_user w8_roi) (w3_request (Some (mkZone 0 12 0 8))) 8 9 /\ w3_searched (w3_user []) (with_zone (w3_request (Some (mkZone 0 12 0 8))) None) 8 9 /\
  whole_zone (mkZone 0 12 0 8) 8 9 /\ lookup "input" (w3_user []) = lookup "input" (w3_user w8_roi) /\ lookup "pipeline" (w3_user []) = lookup "pipeline" (w3_user w8_roi) /\
  (exists out saved, w3_main (w3_user w8_roi) = Some out /\ o_maps out = Some saved /\ dm_rows saved = [0; 1; 2; 3; 4; 5; 6; 7] /\ get_path ["ROI"; "margins"] (JDict (o_cfg out)) <> None).
Proof.
  split. { split; [unfold w3_user, w8_roi, wh_user, wh_disp; cbn [app]; split; [solve_wf|]; split; [apply wh_checked; [solve_wf | vm_compute; discriminate]|]; w8_rest | split; [eexists; split; reflexivity|]; left; exists 0, 0; split; constructor]. }
  split. { split; [exact w3_asked|]. split; [eexists; split; reflexivity|]. left. exists 0, 0. split; constructor. }
  split; [unfold whole_zone; cbn; lia|]. do 2 (split; [reflexivity|]).
  do 2 eexists. split; [vm_compute; reflexivity|]. split; [reflexivity|]. split; [reflexivity|]. vm_compute. discriminate.
Qed.

(** A subpix of 2: at the half disparities the cost is the lower one of the two neighbours, minus 10 units. *)
Definition w9_pixel (c : dict) (left : image Z) (right : list (list Z)) (mask : list (list Z)) (r k : nat) (d : Z) : ext :=
  match lookup "subpix" c with
  | Some (JInt 2) => if Z.even d then w3_pixel c left right mask r k (d / 2) else
      match w3_pixel c left right mask r k (d / 2), w3_pixel c left right mask r k (d / 2 + 1) with Fin a, Fin b => Fin (Z.min a b - 10) | _, _ => NaN end
  | _ => w3_pixel c left right mask r k d end.
Definition w9_cost (c : dict) (m : mc_input) (left : image Z) (right mask : list (list Z)) (r cc i : nat) : ext :=
  match nth_error (col_coords m) cc, disps_col m with
  | Some y, Some ds => match nth_error ds i with Some d => w9_pixel c left right mask r (Z.to_nat (y - mc_col0 m)) d | None => NaN end
  | _, _ => NaN end.
(** Between the rows the right image is the mean of its neighbours. *)
Definition w9_zoomed (im : image Z) (n p c : nat) : Z := (a2_get (im_data im) (Nat.div p n) c + a2_get (im_data im) (S (Nat.div p n)) c) / 2.
Definition w9_main : dict -> option outcome :=
  main Z.eqb 0 true wh_pandora (fun _ => mkMargins 1 1 1 1) (fun _ => true) (fun _ => true) (fun _ _ _ _ => true) wh_size wh_raster wh_load w3_transform (fun _ => true)
    (fun _ => MeasureMin) (fun _ => 1) w9_cost w9_zoomed 512 (fun x => x) w6_filter w6_lstsq (fun w _ _ => w) (fun _ => []) ex_interp ex_minimise
    w3_estimate wh_margins wh_dict.
Definition w9_check (user : dict) := check_user Z.eqb 0 true wh_pandora (fun _ => mkMargins 1 1 1 1) (fun _ => true) (fun _ => true) (fun _ _ _ _ => true) wh_size wh_raster
    (fun _ => MeasureMin) (fun _ => 1) w9_cost w9_zoomed 512 (fun x => x) w6_filter w6_lstsq (fun w _ _ => w) (fun _ => []) ex_interp ex_minimise
    w3_estimate user (new_machine None).
Notation w9_matching_of := (matching_of Z.eqb 0 true wh_pandora (fun _ => mkMargins 1 1 1 1) (fun _ => true) (fun _ => true) (fun _ _ _ _ => true) wh_size wh_raster
    (fun _ => MeasureMin) (fun _ => 1) w9_cost w9_zoomed 512 (fun x => x) w6_filter w6_lstsq (fun w _ _ => w) (fun _ => []) ex_interp ex_minimise
    w3_estimate).
Definition w9_matching (user : dict) : option (dict * dict * dict * Z) :=
  match snd (w9_check user) with
  | Some cfg => match get_path ["input"; "left"] (JDict cfg), get_path ["input"; "right"] (JDict cfg), get_path ["pipeline"; "matching_cost"] (JDict cfg) with
      | Some (JDict l), Some (JDict r), Some (JDict s) => match matching_cost_init wh_pandora s with
          | Some c => match int_at true ["subpix"] c with Some n => Some (l, r, c, n) | None => None end | None => None end
      | _, _, _ => None end
  | None => None end.
Lemma w9_matching_spec user l r c n : w9_matching user = Some (l, r, c, n) -> w9_matching_of user l r c n.
Proof.
  unfold w9_matching. destruct (w9_check user) as [m [cfg|]] eqn:E; [|discriminate]. cbn [snd].
  destruct (get_path ["input"; "left"] (JDict cfg)) as [[| | | | | | | |dl]|] eqn:E1; try discriminate. destruct (get_path ["input"; "right"] (JDict cfg)) as [[| | | | | | | |dr]|] eqn:E2; try discriminate.
  destruct (get_path ["pipeline"; "matching_cost"] (JDict cfg)) as [[| | | | | | | |s]|] eqn:E3; try discriminate. destruct (matching_cost_init wh_pandora s) as [c'|] eqn:E4; [|discriminate].
  destruct (int_at true ["subpix"] c') as [n'|] eqn:E5; [|discriminate]. intros H. injection H as <- <- <- <-. exists m, cfg, s. auto 10.
Qed.
Lemma w9_not_worst c im a b r cc d : w9_pixel c im a b r cc d <> worst MeasureMin.
Proof.
  unfold w9_pixel. destruct (lookup "subpix" c) as [[]|]; try apply w3_not_worst. destruct z as [|[p|[p|p|]|]|p]; try apply w3_not_worst. destruct (Z.even d); [apply w3_not_worst|].
  destruct (w3_pixel _ _ _ _ _ _ (d / 2)); try discriminate. destruct (w3_pixel _ _ _ _ _ _ (d / 2 + 1)); discriminate.
Qed.
Lemma w9_libraries : libraries true wh_pandora (fun _ _ _ _ => true) wh_size wh_load (fun _ => true) (fun _ => MeasureMin) w9_cost 512.
Proof.
  destruct wh_libraries as (L1 & L2 & L3 & L4 & L5 & L6 & L7 & _). do 7 (split; [assumption|]).
  intros c m im a b r cc i. unfold w9_cost. destruct (nth_error (col_coords m) cc); [|discriminate]. destruct (disps_col m); [|discriminate]. destruct (nth_error l i); [|discriminate]. apply w9_not_worst.
Qed.
Lemma w9_contract : cost_contract (fun _ => MeasureMin) w9_cost w9_pixel.
Proof. split; [|intros; apply w9_not_worst]. intros c m im a b r cc i y ds d H1 H2 H3. unfold w9_cost. now rewrite H1, H2, H3. Qed.
Definition w9_user (subpix : Z) : dict :=
  [("input", JDict [("left", JDict [("img", JStr "left.tif")]); ("right", JDict [("img", JStr "right.tif")]); ("row_disparity", wh_disp (JInt 0) 1); ("col_disparity", wh_disp (JInt 0) 1)]);
   ("pipeline", JDict [("matching_cost", JDict [("matching_cost_method", JStr "sad"); ("window_size", JInt 1); ("subpix", JInt subpix); ("step", JList [JInt 1; JInt 1])]);
                       ("disparity", JDict [("disparity_method", JStr "wta"); ("invalid_disparity", JStr "NaN")])])].
Lemma w9_searched1 : w3_searched (w9_user 1) (w8_request 1 1) 8 9.
Proof. split; [unfold w9_user, wh_disp; split; [solve_wf|]; split; [apply wh_checked; [solve_wf | vm_compute; discriminate]|]; w8_rest | split; [eexists; split; reflexivity|]; left; exists 0, 0; split; constructor]. Qed.
Lemma w9_searched2 : w3_searched (w9_user 2) (w8_request 1 1) 8 9.
Proof. split; [unfold w9_user, wh_disp; split; [solve_wf|]; split; [apply wh_checked; [solve_wf | vm_compute; discriminate]|]; w8_rest | split; [eexists; split; reflexivity|]; left; exists 0, 0; split; constructor]. Qed.
Example C86_example : libraries true wh_pandora (fun _ _ _ _ => true) wh_size wh_load (fun _ => true) (fun _ => MeasureMin) w9_cost 512 /\ cost_contract (fun _ => MeasureMin) w9_cost w9_pixel /\
  w3_searched (w9_user 1) (w8_request 1 1) 8 9 /\ w3_searched (w9_user 2) (w8_request 1 1) 8 9 /\
  (exists l r c c', w9_matching_of (w9_user 1) l r c 1 /\ w9_matching_of (w9_user 2) l r c' 2 /\ same_at_whole (fun _ => MeasureMin) w9_pixel c c' 2) /\
  (exists rows cols row_map col_map, wh_shown (w9_main (w9_user 2)) = Some (Some (rows, cols, row_map, col_map)) /\ In (Some (1 # 2)%Q) (List.concat col_map)).
Proof.
  split; [exact w9_libraries|]. split; [exact w9_contract|]. split; [exact w9_searched1|]. split; [exact w9_searched2|]. split.
  { destruct (w9_matching (w9_user 1)) as [[[[l r] c] n]|] eqn:E; [|exfalso; vm_compute in E; discriminate]. destruct (w9_matching (w9_user 2)) as [[[[l' r'] c'] n']|] eqn:E'; [|exfalso; vm_compute in E'; discriminate].
    exists l, r, c, c'. assert (n = 1) as -> by (vm_compute in E; congruence). assert (n' = 2) as -> by (vm_compute in E'; congruence). assert (l' = l) as -> by (vm_compute in E, E'; congruence). assert (r' = r) as -> by (vm_compute in E, E'; congruence).
    split; [now apply w9_matching_spec|]. split; [now apply w9_matching_spec|]. vm_compute in E, E'. injection E as <- <- <-. injection E' as <-. split; [reflexivity|].
    intros. unfold w9_pixel. cbn [lookup String.eqb Ascii.eqb Bool.eqb]. rewrite Z.even_mul, orb_true_r, Z.div_mul by lia. reflexivity. }
  do 4 eexists. split; [vm_compute; reflexivity|]. vm_compute. tauto.
Qed.

(** Grids with and without a dichotomy; windows of 3 pixels with and without an optical flow. *)
Definition w6_plain (step : list json) : dict :=
  [("input", JDict [("left", JDict [("img", JStr "left.tif")]); ("right", JDict [("img", JStr "right.tif")]); ("row_disparity", wh_disp (JInt 0) 2); ("col_disparity", wh_disp (JInt (-1)) 2)]);
   ("pipeline", JDict [("matching_cost", JDict [("matching_cost_method", JStr "sad"); ("window_size", JInt 3); ("step", JList step)]);
                       ("disparity", JDict [("disparity_method", JStr "wta"); ("invalid_disparity", JStr "NaN")])])].
Example C87_example : libraries true wh_pandora (fun _ _ _ _ => true) wh_size wh_load (fun _ => true) (fun _ => MeasureMin) w3_cost 512 /\
  dichotomy_libraries true wh_pandora w3_cost 512 (fun x => x) /\ cost_contract (fun _ => MeasureMin) w3_cost w3_pixel /\
  w5_programmed wh_user2 wh_request2 8 9 false true /\ asks_refinement true wh_user2 "dichotomy" 2 /\ w3_searched wh_user4 wh_request2 8 9 /\
  (exists l r c, w6_matching_of wh_user2 l r c 1 /\ w6_matching_of wh_user4 l r c 1) /\
  (exists out saved out' saved' v v' vc vs vc' vs', w6_main wh_user2 = Some out /\ o_maps out = Some saved /\ w6_main wh_user4 = Some out' /\ o_maps out' = Some saved' /\
    pixel_of saved 3 2 (CFin v) vc vs /\ pixel_of saved' 3 2 (CFin v') vc' vs' /\ (v == 7 # 4)%Q /\ (v' == 1)%Q) /\
  w5_programmed (w6_user [JInt 2; JInt 1] []) (w6_request 2 1 None) 8 9 false true /\ asks_refinement true (w6_user [JInt 2; JInt 1] []) "optical_flow" 4 /\
  w3_searched (w6_plain [JInt 2; JInt 1]) (w6_request 2 1 None) 8 9 /\ flow_room 3 (w6_request 2 1 None) 8 9 /\
  (exists l r c, w6_matching_of (w6_user [JInt 2; JInt 1] []) l r c 1 /\ w6_matching_of (w6_plain [JInt 2; JInt 1]) l r c 1 /\ int_at true ["window_size"] c = Some 3) /\
  (exists out saved out' saved' v v' vc vs vc' vs', w6_main (w6_user [JInt 2; JInt 1] []) = Some out /\ o_maps out = Some saved /\ w6_main (w6_plain [JInt 2; JInt 1]) = Some out' /\ o_maps out' = Some saved' /\
    pixel_of saved 4 2 (CFin v) vc vs /\ pixel_of saved' 4 2 (CFin v') vc' vs' /\ (v == 1 # 2)%Q /\ (v' == 1)%Q).
Proof.
  split; [exact w3_libraries|]. split; [exact w6_dichotomy_libraries|]. split; [exact w3_contract|]. split; [exact w6_programmed2|].
  split; [split; [reflexivity | left; wh_leaf]|].
  split; [split; [wh_asked_tac|]; split; [eexists; split; reflexivity|]; right; split; [reflexivity|]; split; [reflexivity|]; intros s _; cbn; lia|]. split.
  { destruct (w6_matching wh_user2) as [[[[l r] c] n]|] eqn:E; [|exfalso; vm_compute in E; discriminate]. exists l, r, c.
    assert (n = 1) as -> by (vm_compute in E; congruence). split; [now apply w6_matching_spec|]. apply w6_matching_spec. rewrite <- E. vm_compute. reflexivity. }
  split. { do 10 eexists. do 4 (split; [vm_compute; reflexivity|]). split; [exists 3%nat, 2%nat; vm_compute; auto 10|]. split; [exists 3%nat, 2%nat; vm_compute; auto 10|]. split; reflexivity. }
  split; [exact w6_programmed_step|]. split; [split; [reflexivity | right; split; [reflexivity|]; split; reflexivity]|].
  split; [split; [unfold w6_plain, wh_disp; split; [solve_wf|]; split; [apply wh_checked; [solve_wf | vm_compute; discriminate]|]; w8_rest | split; [eexists; split; reflexivity|]; left; exists 0, (-1); split; constructor]|].
  split; [split; reflexivity|]. split.
  { destruct (w6_matching (w6_user [JInt 2; JInt 1] [])) as [[[[l r] c] n]|] eqn:E; [|exfalso; vm_compute in E; discriminate]. exists l, r, c.
    assert (n = 1) as -> by (vm_compute in E; congruence). split; [now apply w6_matching_spec|]. split; [apply w6_matching_spec; rewrite <- E; vm_compute; reflexivity|].
    vm_compute in E. injection E as <- <- <-. reflexivity. }
  do 10 eexists. do 4 (split; [vm_compute; reflexivity|]). split; [exists 2%nat, 2%nat; vm_compute; auto 10|]. split; [exists 2%nat, 2%nat; vm_compute; auto 10|]. split; reflexivity.
Qed.

Print Assumptions C84_step.
Print Assumptions C85_whole_roi.
Print Assumptions C86_subpixel.
Print Assumptions C87_dichotomy.
Print Assumptions C87_optical_flow.
