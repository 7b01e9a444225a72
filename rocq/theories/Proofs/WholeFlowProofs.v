(** Proofs about the whole program with an optical flow. *)
From Coq Require Import List String Bool ZArith QArith Lia.
From Verif Require Import Base.Ext Base.PyList Base.Arr Base.Json Base.Dict Base.ZRange Model.CommonModel Model.DisparityModel Model.MatchingCostModel Model.DichotomyModel
  Model.RoiModel Model.InputModel Model.ConfigModel Model.DatasetModel Model.EstimationModel Model.OpticalFlowModel Model.InterpolationModel Model.MachineModel Model.CheckConfModel
  Model.PipelineModel Model.WholeModel Model.ImgShiftModel
  Spec.ConfigSpec Spec.MatchingCostSpec Spec.DichotomySpec Spec.RoiSpec Spec.PipelineSpec Spec.WtaSpec Spec.OpticalFlowSpec Spec.WholeSpec Spec.WholeRefineSpec Spec.WholeFlowSpec
  Proofs.ConfigProofs Proofs.ConfigStepProofs Proofs.CheckConfProofs Proofs.WtaProofs Proofs.MatchingCostProofs Proofs.FlowProofs Proofs.FlowRange Proofs.PipelineProofs Proofs.WholeRunProofs Proofs.WholeMainProofs Props.OpticalFlowProps.
Import ListNotations.
Open Scope Z_scope.
Open Scope string_scope.
Open Scope list_scope.

Lemma border_exists h step : 1 <= step -> exists b, border h step b /\ Z.of_nat b * step < Z.of_nat h + step.
Proof.
  intros Hs. exists (Z.to_nat ((Z.of_nat h + step - 1) / step)). unfold border. pose proof (Z.div_mod (Z.of_nat h + step - 1) step ltac:(lia)). pose proof (Z.mod_pos_bound (Z.of_nat h + step - 1) step ltac:(lia)).
  rewrite Z2Nat.id by (apply Z.div_pos; lia). nia.
Qed.
Lemma strided_count n step : (1 <= step)%nat -> Z.of_nat (strided_len n 0 step) * Z.of_nat step < Z.of_nat n + Z.of_nat step /\ Z.of_nat n <= Z.of_nat (strided_len n 0 step) * Z.of_nat step.
Proof.
  intros Hs. unfold strided_len. rewrite Nat.sub_0_r. pose proof (Nat.div_mod (n + step - 1) step ltac:(lia)). pose proof (Nat.mod_upper_bound (n + step - 1) step ltac:(lia)). nia.
Qed.
Lemma coords_progression start n step : (1 <= step)%nat -> zarange start (start + Z.of_nat n) (Z.of_nat step) = progression start (Z.of_nat step) (strided_len n 0 step).
Proof.
  intros Hs. unfold zarange, progression, strided_len. f_equal. f_equal. rewrite Nat.sub_0_r.
  replace (start + Z.of_nat n - start + Z.of_nat step - 1) with (Z.of_nat (n + step - 1)) by lia. rewrite <- Nat2Z.inj_div. apply Nat2Z.id.
Qed.
Lemma list2_rect {A} (a : arr2 A) : rect (a2_n0 a) (a2_n1 a) (to_list2 a).
Proof.
  unfold to_list2. split; [now rewrite map_length, seq_length|]. apply Forall_forall. intros l Hl. apply in_map_iff in Hl as (r & <- & _). now rewrite map_length, seq_length.
Qed.

Lemma index_of r0 i s : Z.to_nat (r0 + Z.of_nat i * Z.of_nat s - r0) = (i * s)%nat.
Proof. lia. Qed.
(** The points whose window does not fit are the first and the last ones. *)
Lemma border_side h s b n i size r0 : (1 <= s)%nat -> border h (Z.of_nat s) b -> (1 <= size)%nat -> n = strided_len size 0 s -> (i < n)%nat ->
  (r0 + Z.of_nat i * Z.of_nat s - Z.of_nat h < r0 \/ last_point r0 size (Z.of_nat s) < r0 + Z.of_nat i * Z.of_nat s + Z.of_nat h) <-> (i < b \/ n - b <= i)%nat.
Proof.
  intros Hs [B1 B2] H1 -> Hi. destruct (strided_count size s Hs) as [C1 C2]. set (n := strided_len size 0 s) in *.
  assert (E : (Z.of_nat size - 1) / Z.of_nat s = Z.of_nat n - 1).
  { symmetry. apply Z.div_unique with (r := Z.of_nat size - 1 - (Z.of_nat n - 1) * Z.of_nat s); nia. }
  unfold last_point. rewrite E.
  assert (L : Z.of_nat i * Z.of_nat s < Z.of_nat h <-> (i < b)%nat) by (split; intros; [|nia]; assert (Z.of_nat i < Z.of_nat b) by nia; lia).
  assert (R : (Z.of_nat n - 1 - Z.of_nat i) * Z.of_nat s < Z.of_nat h <-> (n - b <= i)%nat).
  { split; intros H; [assert (Z.of_nat n - 1 - Z.of_nat i < Z.of_nat b) by nia; lia|]. assert (Z.of_nat n - 1 - Z.of_nat i <= Z.of_nat b - 1) by lia. nia. }
  rewrite <- L, <- R. lia.
Qed.
Lemma nth2_to_list2 {A} (a : arr2 A) r c : (r < a2_n0 a)%nat -> (c < a2_n1 a)%nat -> nth2 (to_list2 a) r c = Some (a2_get a r c).
Proof.
  intros Hr Hc. unfold nth2, to_list2.
  assert (S : forall n k, (k < n)%nat -> nth_error (seq 0 n) k = Some k).
  { intros n k Hk. rewrite (nth_error_nth' _ 0%nat) by now rewrite seq_length. now rewrite seq_nth by exact Hk. }
  now rewrite nth_error_map, (S _ _ Hr); cbn [option_map]; rewrite nth_error_map, (S _ _ Hc).
Qed.
Lemma centred_around {px} (im : image px) r0 nrow c0 ncol h x y W g : a2_n0 (im_data im) = nrow -> a2_n1 (im_data im) = ncol ->
  fits r0 nrow c0 ncol h x y -> OpticalFlowSpec.centred (flow_image im (mkGridDataset r0 nrow c0 ncol g)) h x y W -> around r0 c0 im h x y W.
Proof.
  intros H1 H2 (F1 & F2 & F3 & F4) [R P]. split; [exact R|]. intros a b Ha Hb. rewrite (P a b Ha Hb). cbn [flow_image i_data i_row0 i_col0 gd_row0 gd_col0].
  rewrite nth2_to_list2 by (rewrite ?H1, ?H2; lia). reflexivity.
Qed.

Section Flow.
  Context {px : Type} (nan : px).
  Variable bool_ok : bool.
  Variable offset_of : dict -> Z.
  Variable one : Z.
  Variable store : ext -> ext.
  Variable filter_apply : dict -> list (list ext) -> Z -> Z -> ext.
  Variable lstsq : list (list px) -> list (list px) -> option (num * num).
  Variable resample : list (list px) -> num -> num -> list (list px).
  Variable junk : nat -> list (list px).
  Variable interp : list Q -> list Q -> list (list cost) -> num -> num -> cost.
  Variable minimise : (num -> num -> cost) -> num * num -> (Q * Q) * (Q * Q) -> num * num.
  Notation refine := (refine nan bool_ok offset_of one store filter_apply lstsq resample junk interp minimise).

  Lemma flow_window st ws x c : lookup "refinement_method" x = Some (JStr "optical_flow") -> refinement_init bool_ok (Some st) ws x = Some c ->
    lookup "refinement_method" c = Some (JStr "optical_flow") /\ lookup "step" c = Some st /\ lookup "window_size" c = Some ws /\
    exists h, (1 <= h)%nat /\ as_int bool_ok ws = Some (Z.of_nat (2 * h + 1)).
  Proof.
    intros Lm H. unfold refinement_init in H. rewrite Lm in H. cbn [String.eqb Ascii.eqb Bool.eqb] in H. destruct (optical_flow_result _ _ _ _ _ H) as [L _]. rewrite !L. cbn [String.eqb Ascii.eqb Bool.eqb].
    rewrite Lm. do 3 (split; [reflexivity|]). unfold optical_flow_init in H. match type of H with (if validate ?a ?b then _ else _) = _ => destruct (validate a b) eqn:Ev; [|discriminate] end. injection H as <-.
    destruct (validate_lookup _ _ "window_size" ws Ev) as (mw & pw & Lw & Pw); [now rewrite L|]. cbn in Lw. injection Lw as <- <-. unfold int_such_that in Pw. destruct (as_int bool_ok ws) as [w|]; [|discriminate].
    apply andb_true_iff in Pw. destruct Pw as [P1 P2]. apply Z.ltb_lt in P1. apply negb_true_iff, Z.eqb_neq in P2. pose proof (Z.div_mod w 2 ltac:(lia)). pose proof (Z.mod_pos_bound w 2 ltac:(lia)).
    exists (Z.to_nat (w / 2)). split; [lia|]. f_equal. lia.
  Qed.

  (** The refinement by optical flow when more pixels are loaded than its window needs. *)
  Lemma refine_flow_exact c inv mc mi (left right : image px) col row score d st x n h sr sc lc lr rgrids : lookup "refinement_method" x = Some (JStr "optical_flow") ->
    (exists ws, as_int bool_ok ws = Some (Z.of_nat (2 * h + 1)) /\ refinement_init bool_ok (Some st) ws x = Some c) ->
    int_at bool_ok ["iterations"] c = Some n -> offset_of mc = Z.of_nat h -> (1 <= h)%nat ->
    mc_steps bool_ok (Some st) = Some (Z.of_nat sr, Z.of_nat sc) -> wf_mc mi right -> mc_step_row mi = Z.of_nat sr -> mc_step_col mi = Z.of_nat sc ->
    row_coords mi = progression (mc_row0 mi) (Z.of_nat sr) (strided_len (mc_nrow mi) 0 sr) -> col_coords mi = progression (mc_col0 mi) (Z.of_nat sc) (strided_len (mc_ncol mi) 0 sc) ->
    2 * (Z.of_nat h + Z.of_nat sr - 1) < Z.of_nat (mc_nrow mi) -> 2 * (Z.of_nat h + Z.of_nat sc - 1) < Z.of_nat (mc_ncol mi) ->
    a2_n0 (im_data left) = mc_nrow mi -> a2_n1 (im_data left) = mc_ncol mi ->
    w_left_image d = left -> w_right_image d = right -> w_left d = mkGridDataset (mc_row0 mi) (mc_nrow mi) (mc_col0 mi) (mc_ncol mi) (lc, lr) ->
    w_right d = mkGridDataset (mc_row0 mi) (mc_nrow mi) (mc_col0 mi) (mc_ncol mi) rgrids -> left_grids mi = mkGrids2 (dg_min lc) (dg_max lc) (dg_min lr) (dg_max lr) ->
    rect (List.length (row_coords mi)) (List.length (col_coords mi)) col -> rect (List.length (row_coords mi)) (List.length (col_coords mi)) row ->
    forall cv, exists oc orow, refine c inv (mc, mi, cv) col row score d = Some (InPixels oc orow (map (map (cost_of_ext one)) score)) /\
      rect (List.length (row_coords mi)) (List.length (col_coords mi)) oc /\ rect (List.length (row_coords mi)) (List.length (col_coords mi)) orow /\
      forall i j xx yy vr vc, nth_error (row_coords mi) i = Some xx -> nth_error (col_coords mi) j = Some yy -> nth2 row i j = Some vr -> nth2 col i j = Some vc ->
        let at_pixel (a : arr2 Z) := a2_get a (Z.to_nat (xx - mc_row0 mi)) (Z.to_nat (yy - mc_col0 mi)) in
        let border := at_border (mc_row0 mi) (mc_nrow mi) (mc_col0 mi) (mc_ncol mi) h (Z.of_nat sr) (Z.of_nat sc) xx yy in
        exists a b dr dc, nth2 orow i j = Some dr /\ nth2 oc i j = Some dc /\
          kept (invalid_num inv) (at_pixel (mc_row_min mi)) (at_pixel (mc_row_max mi)) a dr /\ kept (invalid_num inv) (at_pixel (mc_col_min mi)) (at_pixel (mc_col_max mi)) b dc /\
          (border /\ a = invalid_num inv /\ b = invalid_num inv \/
           ~ border /\ flow_moves nan lstsq resample left right (mc_row0 mi) (mc_nrow mi) (mc_col0 mi) (mc_ncol mi) (invalid_num inv) (Z.to_nat n) h xx yy (num_of_ext one vr) (num_of_ext one vc) a b).
  Proof.
    intros Lm Hws Hn Hoff Hh Hst Wm Esr Esc Er Ec Hbr Hbc Hl1 Hl2 D1 D2 D3 D4 Hg R1 R2 cv.
    destruct Hws as (ws & Ews & Hc). destruct (flow_window _ _ _ _ Lm Hc) as (L1 & L2 & L3 & _).
    destruct Wm as (W1 & W2 & _ & W3 & W4 & W5 & W6 & Wg & _ & _).
    destruct (border_exists h (Z.of_nat sr) ltac:(lia)) as (br & Br & Br'). destruct (border_exists h (Z.of_nat sc) ltac:(lia)) as (bc & Bc & Bc').
    destruct (strided_count (mc_nrow mi) sr ltac:(lia)) as [Cr Cr']. destruct (strided_count (mc_ncol mi) sc ltac:(lia)) as [Cc Cc'].
    set (nr := strided_len (mc_nrow mi) 0 sr) in *. set (nc := strided_len (mc_ncol mi) 0 sc) in *.
    assert (Lr : List.length (row_coords mi) = nr) by (rewrite Er; unfold progression; now rewrite map_length, seq_length).
    assert (Lc : List.length (col_coords mi) = nc) by (rewrite Ec; unfold progression; now rewrite map_length, seq_length).
    rewrite Lr, Lc in *.
    assert (M1 := rect_map (num_of_ext one) _ _ _ R1). assert (M2 := rect_map (num_of_ext one) _ _ _ R2).
    destruct (C32_checked nan lstsq resample junk h (Z.to_nat n) (offset_of mc) (mc_row0 mi) (mc_col0 mi) sr sc nr nc br bc
      (flow_image left (mkGridDataset (mc_row0 mi) (mc_nrow mi) (mc_col0 mi) (mc_ncol mi) (lc, lr))) (flow_image right (mkGridDataset (mc_row0 mi) (mc_nrow mi) (mc_col0 mi) (mc_ncol mi) rgrids))
      (map (map (num_of_ext one)) col) (map (map (num_of_ext one)) row) (invalid_num inv) (left_grids mi)) as (oc & orow & E & X1 & X2 & P).
    { constructor; try assumption; try reflexivity; try lia; cbn [flow_image i_row0 i_col0 i_nrow i_ncol i_data gd_row0 gd_nrow gd_col0 gd_ncol].
      - nia. - nia.
      - rewrite <- Hl1, <- Hl2. apply list2_rect.
      - rewrite <- W5, <- W6. apply list2_rect.
      - nia. - nia. - split; assumption. }
    { reflexivity. } { reflexivity. }
    { unfold OpticalFlowSpec.grids_of, left_grids. cbn [flow_image i_nrow i_ncol gd_nrow gd_ncol g_col_min g_col_max g_row_min g_row_max]. repeat constructor; apply Wg; tauto. }
    exists oc, orow. split; [|split; [exact X1|]; split; [exact X2|]].
    - unfold WholeModel.refine. rewrite L1. cbn [String.eqb Ascii.eqb Bool.eqb]. unfold int_at at 1. cbn [get_path]. rewrite L3. cbn [bind]. rewrite Ews, Hn, L2, Hst, D1, D2, D3, D4, Er, Ec.
      cbn [WholeModel.grids_of gd_grids]. rewrite <- Hg. rewrite !Nat2Z.id. rewrite E. reflexivity.
    - intros i j xx yy vr vc Hi Hj Hvr Hvc at_pixel border.
      assert (Li : (i < nr)%nat) by (rewrite <- Lr; apply nth_error_Some; congruence). assert (Lj : (j < nc)%nat) by (rewrite <- Lc; apply nth_error_Some; congruence).
      assert (Hx : xx = mc_row0 mi + Z.of_nat i * Z.of_nat sr). { rewrite Er, progression_nth in Hi by exact Li. congruence. }
      assert (Hy : yy = mc_col0 mi + Z.of_nat j * Z.of_nat sc). { rewrite Ec, progression_nth in Hj by exact Lj. congruence. }
      destruct (P i j (num_of_ext one vr) (num_of_ext one vc) Li Lj) as (a & b & dr & dc & E1 & E2 & B1 & B2 & B3); [rewrite nth2_map, Hvr; reflexivity | rewrite nth2_map, Hvc; reflexivity|].
      exists a, b, dr, dc. split; [exact E1|]. split; [exact E2|]. unfold at_pixel.
      assert (Z.to_nat (xx - mc_row0 mi) = (i * sr)%nat) as -> by (rewrite Hx; apply index_of). assert (Z.to_nat (yy - mc_col0 mi) = (j * sc)%nat) as -> by (rewrite Hy; apply index_of). split; [assumption|]. split; [assumption|].
      assert (Hb : border <-> (i < br \/ nr - br <= i \/ j < bc \/ nc - bc <= j)%nat).
      { assert (S1 : (1 <= sr)%nat) by lia. assert (S2 : (1 <= sc)%nat) by lia.
        pose proof (border_side h sr br nr i (mc_nrow mi) (mc_row0 mi) S1 Br W1 eq_refl Li) as Q1. pose proof (border_side h sc bc nc j (mc_ncol mi) (mc_col0 mi) S2 Bc W2 eq_refl Lj) as Q2.
        unfold border, at_border. rewrite Hx, Hy. clear -Q1 Q2. tauto. }
      cbv zeta in B3. rewrite <- Hx, <- Hy in B3.
      destruct B3 as [(F1 & F2 & F3)|(F1 & F2 & l & r & s1 & s2 & G1 & G2 & G3 & G4 & G5 & G6 & G7)]; [left; split; [apply Hb; exact F1|]; auto|].
      right. split. { intros Hbd. apply Hb in Hbd. lia. }
      exists l, r, s1, s2. split; [eapply centred_around; [exact Hl1 | exact Hl2 | exact G1 | exact G2]|]. split; [exact G3|]. split; [exact G4|].
      split; [intros Hf; eapply centred_around; [exact W5 | exact W6 | exact Hf | exact (G5 Hf)]|]. split; [exact G6 | exact G7].
  Qed.

  (** The refinement by optical flow succeeds when more pixels are loaded than its window needs. *)
  Lemma refine_flow c inv mc mi (left right : image px) col row score d st x n h sr sc lc lr rgrids : lookup "refinement_method" x = Some (JStr "optical_flow") ->
    (exists ws, as_int bool_ok ws = Some (Z.of_nat (2 * h + 1)) /\ refinement_init bool_ok (Some st) ws x = Some c) ->
    int_at bool_ok ["iterations"] c = Some n -> offset_of mc = Z.of_nat h -> (1 <= h)%nat ->
    mc_steps bool_ok (Some st) = Some (Z.of_nat sr, Z.of_nat sc) -> wf_mc mi right -> mc_step_row mi = Z.of_nat sr -> mc_step_col mi = Z.of_nat sc ->
    row_coords mi = progression (mc_row0 mi) (Z.of_nat sr) (strided_len (mc_nrow mi) 0 sr) -> col_coords mi = progression (mc_col0 mi) (Z.of_nat sc) (strided_len (mc_ncol mi) 0 sc) ->
    2 * (Z.of_nat h + Z.of_nat sr - 1) < Z.of_nat (mc_nrow mi) -> 2 * (Z.of_nat h + Z.of_nat sc - 1) < Z.of_nat (mc_ncol mi) ->
    a2_n0 (im_data left) = mc_nrow mi -> a2_n1 (im_data left) = mc_ncol mi ->
    w_left_image d = left -> w_right_image d = right -> w_left d = mkGridDataset (mc_row0 mi) (mc_nrow mi) (mc_col0 mi) (mc_ncol mi) (lc, lr) ->
    w_right d = mkGridDataset (mc_row0 mi) (mc_nrow mi) (mc_col0 mi) (mc_ncol mi) rgrids -> left_grids mi = mkGrids2 (dg_min lc) (dg_max lc) (dg_min lr) (dg_max lr) ->
    rect (List.length (row_coords mi)) (List.length (col_coords mi)) col -> rect (List.length (row_coords mi)) (List.length (col_coords mi)) row ->
    forall cv, exists oc orow, refine c inv (mc, mi, cv) col row score d = Some (InPixels oc orow (map (map (cost_of_ext one)) score)) /\
      rect (List.length (row_coords mi)) (List.length (col_coords mi)) oc /\ rect (List.length (row_coords mi)) (List.length (col_coords mi)) orow /\
      forall i j xx yy vr vc, nth_error (row_coords mi) i = Some xx -> nth_error (col_coords mi) j = Some yy -> nth2 row i j = Some vr -> nth2 col i j = Some vc ->
        let at_pixel (a : arr2 Z) := a2_get a (Z.to_nat (xx - mc_row0 mi)) (Z.to_nat (yy - mc_col0 mi)) in
        exists dr dc, nth2 orow i j = Some dr /\ nth2 oc i j = Some dc /\
          (dr = invalid_num inv \/ dr = None \/ strictly_inside (at_pixel (mc_row_min mi)) (at_pixel (mc_row_max mi)) dr /\ near (Z.to_nat n) (num_of_ext one vr) dr) /\
          (dc = invalid_num inv \/ dc = None \/ strictly_inside (at_pixel (mc_col_min mi)) (at_pixel (mc_col_max mi)) dc /\ near (Z.to_nat n) (num_of_ext one vc) dc).
  Proof.
    intros Lm Hws Hn Hoff Hh Hst Wm Esr Esc Er Ec Hbr Hbc Hl1 Hl2 D1 D2 D3 D4 Hg R1 R2 cv.
    destruct (refine_flow_exact c inv mc mi left right col row score d st x n h sr sc lc lr rgrids Lm Hws Hn Hoff Hh Hst Wm Esr Esc Er Ec Hbr Hbc Hl1 Hl2 D1 D2 D3 D4 Hg R1 R2 cv) as (oc & orow & E & X1 & X2 & P).
    exists oc, orow. do 3 (split; [assumption|]). intros i j xx yy vr vc Hi Hj Hvr Hvc at_pixel.
    destruct (P i j xx yy vr vc Hi Hj Hvr Hvc) as (a & b & dr & dc & N1 & N2 & K1 & K2 & F). exists dr, dc. split; [exact N1|]. split; [exact N2|].
    assert (Dn : (a = invalid_num inv \/ near (Z.to_nat n) (num_of_ext one vr) a) /\ (b = invalid_num inv \/ near (Z.to_nat n) (num_of_ext one vc) b)).
    { destruct F as [(_ & -> & ->)|(_ & l & r & s1 & s2 & _ & _ & _ & _ & _ & Rf)]; [auto|]. apply refined_near in Rf. destruct Rf as [M1 M2]. auto. }
    assert (Fin : forall (k : nat) (v d x y : num) lo hi, (x = v \/ near k d x) -> kept v lo hi x y -> y = v \/ y = None \/ strictly_inside lo hi y /\ near k d y).
    { intros k v d0 x0 y0 lo hi D0 K. destruct K as [[_ ->]|[[K ->]|[_ ->]]]; auto. destruct D0 as [->|D0]; auto. }
    destruct Dn as [M1 M2]. split; eapply Fin; eauto.
  Qed.
End Flow.

(** ** From the model to the numbers of the user *)
Lemma number_stored bool_ok j : WholeRunProofs.stored bool_ok j -> config_number j (invalid_num j).
Proof.
  intros [(n & Hn & _)|[(f & ->)|Hs]].
  - destruct (proj1 (int_value_json _ _ _ Hn)) as [->|(b & -> & _)]; constructor.
  - constructor.
  - inversion Hs; constructor.
Qed.
Lemma saved_num d : saved_number d (cost_of_num d).
Proof. destruct d; reflexivity. Qed.
Lemma finite_num one v : finite_part (cost_of_ext one v) (num_of_ext one v).
Proof. destruct v; reflexivity. Qed.
Lemma unit_pixels one sub k : 0 < one -> 1 <= sub -> (sub | one) -> in_pixels sub k (num_of_ext one (Fin (k * (one / sub)))).
Proof.
  intros H1 H2 (m & Hm). eexists. split; [reflexivity|]. rewrite Hm, Z.div_mul by lia. rewrite !inject_Z_mult. assert (0 < m) by nia. field. split; intros E; unfold Qeq in E; cbn in E; lia.
Qed.
Lemma interval_of open_raster init range x y lo hi : lo <= hi -> (forall z, lo * 1 <= z <= hi * 1 <-> exists u, middle open_raster init x y u /\ (u - range) * 1 <= z <= (u + range) * 1) ->
  exists u, middle open_raster init x y u /\ lo = u - range /\ hi = u + range.
Proof.
  intros L H. destruct (proj1 (H lo) ltac:(lia)) as (u & Mu & Bu). exists u. split; [exact Mu|].
  pose proof (proj2 (H (u - range)) ltac:(exists u; split; [exact Mu | lia])). pose proof (proj2 (H (u + range)) ltac:(exists u; split; [exact Mu | lia])).
  destruct (proj1 (H hi) ltac:(lia)) as (v & Mv & Bv). rewrite (middle_unique _ _ _ _ _ _ Mv Mu) in Bv. lia.
Qed.
Lemma wf_ordered {px} (m : mc_input) (right : image px) r c : wf_mc m right ->
  (in2 (mc_row_min m) r c -> a2_get (mc_row_min m) r c <= a2_get (mc_row_max m) r c) /\ (in2 (mc_col_min m) r c -> a2_get (mc_col_min m) r c <= a2_get (mc_col_max m) r c).
Proof. intros (_ & _ & _ & _ & _ & _ & _ & _ & (T1 & _) & (T2 & _)). split; intros H; [apply (T1 r c H) | apply (T2 r c H)]. Qed.
Lemma coords_in2 {px} (m : mc_input) (right : image px) x y : wf_mc m right -> mc_row0 m <= x < mc_row0 m + Z.of_nat (mc_nrow m) -> mc_col0 m <= y < mc_col0 m + Z.of_nat (mc_ncol m) ->
  in2 (mc_row_min m) (Z.to_nat (x - mc_row0 m)) (Z.to_nat (y - mc_col0 m)) /\ in2 (mc_col_min m) (Z.to_nat (x - mc_row0 m)) (Z.to_nat (y - mc_col0 m)).
Proof.
  intros (_ & _ & _ & _ & _ & _ & _ & G & _) Hx Hy. destruct (G (mc_row_min m)) as [A1 A2]; [tauto|]. destruct (G (mc_col_min m)) as [A3 A4]; [tauto|]. unfold in2. rewrite A1, A2, A3, A4. lia.
Qed.

(** The range of the values, and their distance to the disparities before. *)
Lemma near_moved n subpix d a c q : 0 <= n -> in_pixels subpix d a -> near (Z.to_nat n) a (Some q) -> c = CFin q -> moved_at_most n subpix d c.
Proof.
  intros Hn (p & -> & Hp) [N|(x & y & Ex & Ey & N)] ->; [discriminate|]. injection Ex as <-. injection Ey as <-. exists q. split; [reflexivity|]. rewrite Z2Nat.id in N by exact Hn. now rewrite <- Hp.
Qed.
Lemma config_no_value one q i c : 0 < one -> config_number (q_invalid q) i -> saved_number i c -> no_value one q c.
Proof.
  intros H1 Hc Hs. unfold no_value.
  assert (0 < 1 / inject_Z one)%Q by (apply Qlt_shift_div_l; [now rewrite (Zlt_Qlt 0 one) in H1 | reflexivity]).
  destruct Hc; cbn in Hs; subst c; auto; left; constructor; try reflexivity. split; [apply Qle_refl|]. rewrite <- (Qplus_0_r f) at 1. now apply Qplus_lt_r.
Qed.
Lemma flow_from_range {px} (nan : px) lstsq resample left right row0 nrow col0 ncol open_raster one n h q x y a b vr vc : 0 < one ->
  flow_from nan lstsq resample left right row0 nrow col0 ncol open_raster n h q x y a b vr vc ->
  (no_value one q vr \/ strictly_in_interval open_raster (q_row_init q) (q_row_range q) x y vr /\ exists p, vr = CFin p /\ near n a (Some p)) /\
  (no_value one q vc \/ strictly_in_interval open_raster (q_col_init q) (q_col_range q) x y vc /\ exists p, vc = CFin p /\ near n b (Some p)).
Proof.
  intros H1 (i & a' & b' & c & d & u & v & Hi & F & Mu & K1 & S1 & Mv & K2 & S2).
  assert (Dn : (a' = i \/ near n a a') /\ (b' = i \/ near n b b')).
  { destruct F as [(_ & -> & ->)|(_ & l & r & s1 & s2 & _ & _ & _ & _ & _ & Rf)]; [auto|]. apply refined_near in Rf. destruct Rf as [M1 M2]. auto. }
  assert (Fin : forall init range m e e' d vv, middle open_raster init x y m -> (e' = i \/ near n e e') -> kept i (m - range) (m + range) e' d -> saved_number d vv ->
    no_value one q vv \/ strictly_in_interval open_raster init range x y vv /\ exists p, vv = CFin p /\ near n e (Some p)).
  { intros init range m e e' d0 vv Mm D0 K S. destruct K as [[_ ->]|[[K ->]|[_ ->]]].
    - left. right. exact S.
    - destruct D0 as [->|D0]; [left; eapply config_no_value; eassumption|]. right. destruct K as (p & -> & P1 & P2). cbn in S. split; [exists m, p; auto|]. exists p. auto.
    - left. eapply config_no_value; eassumption. }
  destruct Dn as [M1 M2]. split; eapply Fin; eauto.
Qed.
