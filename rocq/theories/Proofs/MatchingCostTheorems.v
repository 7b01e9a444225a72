From Coq Require Import ZArith List Lia Bool Arith.
From Verif Require Import Base.Ext Base.PyList Base.Arr Base.ZRange Model.DisparityModel Model.CommonModel
  Model.ImgShiftModel Model.MatchingCostModel Spec.MaskSpec Spec.ShiftSpec Spec.MatchingCostSpec Spec.WtaSpec
  Proofs.MaskProofs Proofs.ShiftProofs Proofs.WtaProofs Proofs.WtaTheorems Proofs.MatchingCostProofs.
Import ListNotations.
Open Scope Z_scope.

Section P.
  Context {px : Type} (px_eqb : px -> px -> bool).
  Variable pandora_cost : list (list px) -> list (list Z) -> nat -> nat -> nat -> ext.
  Variable zoomed : nat -> nat -> px.
  Variables (m : mc_input) (right : image px).
  Hypothesis wf : wf_mc m right.
  Let s := Z.of_nat (mc_subpix m).

  (** Whatever the step and the grids. *)
  Lemma compute_fields cv : compute_cost_volumes px_eqb pandora_cost zoomed m right = Some cv ->
    cv_nrow cv = length (row_coords m) /\ cv_ncol cv = length (col_coords m) /\
    cv_disp_col cv = col_range m /\ cv_disp_row cv = row_range m /\ cv_subpix cv = mc_subpix m /\
    cv_measure cv = mc_measure m /\ cv_margins cv = mc_margins m /\
    rect (cv_nrow cv) (cv_ncol cv) (cv_data cv) /\
    (forall r c plane, nth2 (cv_data cv) r c = Some plane -> rect (length (cv_disp_col cv)) (length (cv_disp_row cv)) plane).
  Proof.
    assert (wf' := wf). destruct wf' as (W1&W2&W3&_&_&W4&W5&Hg&Tr&Tc).
    unfold compute_cost_volumes. rewrite (disps_row_ok m right wf), (disps_col_ok m right wf). cbn [bind].
    destruct (shift_subpix_ok zoomed right (mc_subpix m) W3 ltac:(lia)) as (imgs & Eimgs & _). rewrite Eimgs. cbn [bind].
    destruct (fill_ok px_eqb pandora_cost zoomed m right wf imgs Eimgs) as (data & Ed & N0 & N1 & N2 & N3 & G).
    pose proof (row_range_nonempty m right wf) as Hne. destruct (row_range m) as [|d0 dl] eqn:Err; [congruence|]. rewrite <- Err in *. clear Err Hne d0 dl.
    rewrite Ed. cbn [bind]. unfold set_out_of_row.
    match goal with |- context [fold_left ?f ?l (Some data)] => destruct (fold_left f l (Some data)) as [d1|] eqn:E1 end; [|discriminate].
    apply loop_row_spec in E1. destruct E1 as [(S0 & S1 & S2 & S3) _]. cbn [bind]. unfold set_out_of_col.
    match goal with |- context [fold_left ?f ?l (Some d1)] => destruct (fold_left f l (Some d1)) as [d2|] eqn:E2 end; [|discriminate].
    apply loop_col_spec in E2. destruct E2 as [(S0' & S1' & S2' & S3') _]. cbn [bind].
    intros H. injection H as <-. simpl. repeat (split; [reflexivity|]).
    destruct (to_list4_rect d2) as [R1 R2].
    split; [replace (length (row_coords m)) with (a4_n0 d2) by congruence; replace (length (col_coords m)) with (a4_n1 d2) by congruence; exact R1|].
    replace (length (col_range m)) with (a4_n2 d2) by congruence. replace (length (row_range m)) with (a4_n3 d2) by congruence. exact R2.
  Qed.

  Lemma user_col_range cv : cv_disp_col cv = col_range m -> cv_subpix cv = mc_subpix m -> cv_margins cv = mc_margins m ->
    (forall i d, nth_error (cv_disp_col cv) i = Some d ->
       (user_col cv i <-> fst (mc_col_source m) * s <= d <= snd (mc_col_source m) * s)) /\
    (forall d, fst (mc_col_source m) * s <= d <= snd (mc_col_source m) * s ->
       exists i, user_col cv i /\ nth_error (cv_disp_col cv) i = Some d).
  Proof.
    intros E1 E2 E3. unfold user_col, margin_samples. rewrite E1, E2, E3. unfold col_range, margins_of. fold s.
    destruct (mc_margins m) as [g|].
    - rewrite zarange_length, Z.div_1_r. split.
      + intros i d Hd. apply zarange_nth in Hd; [|lia]. unfold s in *. nia.
      + intros d Hd. exists (Z.to_nat (d - (fst (mc_col_source m) - Z.of_nat (m_left g)) * s)). split.
        * unfold s in *. nia.
        * apply zarange_nth; unfold s in *; nia.
    - rewrite zarange_length, Z.div_1_r. split.
      + intros i d Hd. apply zarange_nth in Hd; [|lia]. unfold s in *. lia.
      + intros d Hd. exists (Z.to_nat (d - (fst (mc_col_source m) - 0) * s)). split.
        * unfold s in *. lia.
        * apply zarange_nth; unfold s in *; lia.
  Qed.
  Lemma user_row_range cv : cv_disp_row cv = row_range m -> cv_subpix cv = mc_subpix m -> cv_margins cv = mc_margins m ->
    (forall i d, nth_error (cv_disp_row cv) i = Some d ->
       (user_row cv i <-> fst (mc_row_source m) * s <= d <= snd (mc_row_source m) * s)) /\
    (forall d, fst (mc_row_source m) * s <= d <= snd (mc_row_source m) * s ->
       exists i, user_row cv i /\ nth_error (cv_disp_row cv) i = Some d).
  Proof.
    intros E1 E2 E3. unfold user_row, margin_samples. rewrite E1, E2, E3. unfold row_range, margins_of. fold s.
    destruct (mc_margins m) as [g|].
    - rewrite zarange_length, Z.div_1_r. split.
      + intros i d Hd. apply zarange_nth in Hd; [|lia]. unfold s in *. nia.
      + intros d Hd. exists (Z.to_nat (d - (fst (mc_row_source m) - Z.of_nat (m_up g)) * s)). split.
        * unfold s in *. nia.
        * apply zarange_nth; unfold s in *; nia.
    - rewrite zarange_length, Z.div_1_r. split.
      + intros i d Hd. apply zarange_nth in Hd; [|lia]. unfold s in *. lia.
      + intros d Hd. exists (Z.to_nat (d - (fst (mc_row_source m) - 0) * s)). split.
        * unfold s in *. lia.
        * apply zarange_nth; unfold s in *; lia.
  Qed.

  Lemma compute_wf_cv cv : compute_cost_volumes px_eqb pandora_cost zoomed m right = Some cv -> wf_cv cv.
  Proof.
    intros H. apply compute_fields in H. destruct H as (H1 & H2 & H3 & H4 & H5 & H6 & H7 & H8 & H9).
    split; [exact H8|]. split; [exact H9|].
    assert (wf' := wf). destruct wf' as (W1&W2&W3&_&_&W4&W5&Hg&Tr&Tc).
    pose proof (source_le_gen _ _ _ Tr) as Lr. pose proof (source_le_gen _ _ _ Tc) as Lc. split.
    - destruct (proj2 (user_col_range cv H3 H5 H7) (fst (mc_col_source m) * s)) as (i & Hi & _); [unfold s; nia|]. eauto.
    - destruct (proj2 (user_row_range cv H4 H5 H7) (fst (mc_row_source m) * s)) as (i & Hi & _); [unfold s; nia|]. eauto.
  Qed.

  (** C06 *)
  Theorem user_range_exact cv : compute_cost_volumes px_eqb pandora_cost zoomed m right = Some cv ->
    (forall i d, nth_error (cv_disp_col cv) i = Some d ->
       (user_col cv i <-> fst (mc_col_source m) * s <= d <= snd (mc_col_source m) * s)) /\
    (forall d, fst (mc_col_source m) * s <= d <= snd (mc_col_source m) * s ->
       exists i, user_col cv i /\ nth_error (cv_disp_col cv) i = Some d) /\
    (forall i d, nth_error (cv_disp_row cv) i = Some d ->
       (user_row cv i <-> fst (mc_row_source m) * s <= d <= snd (mc_row_source m) * s)) /\
    (forall d, fst (mc_row_source m) * s <= d <= snd (mc_row_source m) * s ->
       exists i, user_row cv i /\ nth_error (cv_disp_row cv) i = Some d).
  Proof.
    intros H. apply compute_fields in H. destruct H as (H1 & H2 & H3 & H4 & H5 & H6 & H7 & H8 & H9).
    destruct (user_col_range cv H3 H5 H7), (user_row_range cv H4 H5 H7). auto.
  Qed.

  Lemma zarange1_list a b : zarange a (b + 1) 1 = map (fun k => a + Z.of_nat k) (seq 0 (Z.to_nat (b - a + 1))).
  Proof.
    unfold zarange. rewrite Z.div_1_r. replace (b + 1 - a + 1 - 1) with (b - a + 1) by ring.
    apply map_ext. intros k. ring.
  Qed.
  Lemma slice_zarange a b lo hi : a <= lo -> lo <= hi + 1 -> hi <= b ->
    slice (Z.to_nat (lo - a)) (length (zarange a (b + 1) 1) - Z.to_nat (b - hi)) (zarange a (b + 1) 1) = zarange lo (hi + 1) 1.
  Proof.
    intros H1 H2 H3. apply list_eq_nth_error. intros i.
    rewrite slice_nth. rewrite zarange_length, Z.div_1_r.
    destruct (Nat.ltb_spec (Z.to_nat (lo - a) + i) (Z.to_nat (b + 1 - a + 1 - 1) - Z.to_nat (b - hi))) as [H|H].
    - assert (X : nth_error (zarange a (b + 1) 1) (Z.to_nat (lo - a) + i) = Some (lo + Z.of_nat i)) by (apply zarange_nth; lia).
      rewrite X. symmetry. apply zarange_nth; lia.
    - destruct (nth_error (zarange lo (hi + 1) 1) i) eqn:E; auto. apply zarange_nth in E; lia.
  Qed.

  (** The coordinates left by the disparity step, in order. *)
  Theorem user_coords_exact cv : compute_cost_volumes px_eqb pandora_cost zoomed m right = Some cv ->
    cv_disp_col (cost_volumes_user cv) = zarange (fst (mc_col_source m) * s) (snd (mc_col_source m) * s + 1) 1 /\
    cv_disp_row (cost_volumes_user cv) = zarange (fst (mc_row_source m) * s) (snd (mc_row_source m) * s + 1) 1.
  Proof.
    intros H. pose proof (compute_wf_cv cv H) as Wf. apply compute_fields in H.
    destruct H as (H1 & H2 & H3 & H4 & H5 & H6 & H7 & H8 & H9).
    assert (wf' := wf). destruct wf' as (W1&W2&W3&_&_&W4&W5&Hg&Tr&Tc).
    pose proof (source_le_gen _ _ _ Tr) as Lr. pose proof (source_le_gen _ _ _ Tc) as Lc.
    destruct (user_view cv Wf) as (U1 & U2 & _).
    assert (EU : (cv_disp_col (cost_volumes_user cv) = slice (user_l cv) (length (cv_disp_col cv) - user_r cv) (cv_disp_col cv) /\
      cv_disp_row (cost_volumes_user cv) = slice (user_u cv) (length (cv_disp_row cv) - user_d cv) (cv_disp_row cv))).
    { tauto. }
    destruct EU as [-> ->]. rewrite H3, H4. unfold user_l, user_r, user_u, user_d, margin_samples. rewrite H5, H7.
    unfold col_range, row_range, margins_of. fold s. destruct (mc_margins m) as [g|].
    - split; match goal with |- slice ?x (_ - ?y) (zarange ?a (?b + 1) 1) = zarange ?lo (?hi + 1) 1 =>
        replace x with (Z.to_nat (lo - a)) by (unfold s; nia); replace y with (Z.to_nat (b - hi)) by (unfold s; nia) end;
      apply slice_zarange; unfold s; nia.
    - split; rewrite Nat.sub_0_r, slice_full, Z.sub_0_r, Z.add_0_r; reflexivity.
  Qed.

  (** C07 *)
  Theorem pixel_range_respected chunk inv : mc_step_row m = 1 -> mc_step_col m = 1 ->
    (forall a b r c i, pandora_cost a b r c i <> worst (mc_measure m)) ->
    exists cv mcol mrow score, compute_cost_volumes px_eqb pandora_cost zoomed m right = Some cv /\
      compute_disp_maps chunk inv cv = Some (mcol, mrow, score) /\
      forall r c, (r < mc_nrow m)%nat -> (c < mc_ncol m)%nat ->
        (nth2 mcol r c = Some inv /\ nth2 mrow r c = Some inv) \/
        (exists dc dr, nth2 mcol r c = Some (Fin dc) /\ nth2 mrow r c = Some (Fin dr) /\
           a2_get (mc_col_min m) r c * s <= dc <= a2_get (mc_col_max m) r c * s /\
           a2_get (mc_row_min m) r c * s <= dr <= a2_get (mc_row_max m) r c * s).
  Proof.
    intros Sr Sc Hw.
    destruct (compute_cost_volumes_step1 px_eqb pandora_cost zoomed m right wf Sr Sc) as
      (cv & E & F1 & F2 & F3 & F4 & F5 & F6 & F7 & _ & _ & G).
    pose proof (compute_wf_cv cv E) as Wf.
    destruct (wta_disparities_reach_best chunk inv cv Wf) as (mcol & mrow & score & Em & B).
    destruct (wta_invalid_iff chunk inv cv Wf) as (mcol' & mrow' & score' & Em' & _ & _ & _ & I).
    rewrite Em in Em'. injection Em' as <- <- <-.
    exists cv, mcol, mrow, score. split; [exact E|]. split; [exact Em|].
    intros r c Hr Hc.
    destruct (user_col_range cv F3 F5 F7) as [UC _]. destruct (user_row_range cv F4 F5 F7) as [UR _].
    assert (CA : forall i j x, cost_at cv r c i j = Some x -> exists di dj, nth_error (cv_disp_col cv) i = Some di /\ nth_error (cv_disp_row cv) j = Some dj).
    { intros i j x Hx. unfold cost_at in Hx. destruct (nth2 (cv_data cv) r c) as [p|] eqn:Ep; [|discriminate].
      destruct Wf as (_ & Wp & _). apply Wp in Ep. apply (nth2_lt _ _ _ _ _ _ Ep) in Hx. destruct Hx as [X Y].
      apply nth_error_Some in X, Y. destruct (nth_error (cv_disp_col cv) i), (nth_error (cv_disp_row cv) j); try congruence. eauto. }
    assert (V : forall i j x, computed cv r c i j x -> exists di dj, nth_error (cv_disp_col cv) i = Some di /\ nth_error (cv_disp_row cv) j = Some dj /\
        x = cost_for px_eqb pandora_cost zoomed m right dj r c i /\
        a2_get (mc_col_min m) r c * s <= di <= a2_get (mc_col_max m) r c * s /\
        a2_get (mc_row_min m) r c * s <= dj <= a2_get (mc_row_max m) r c * s).
    { intros i j x (Hi & Hj & Hx & Hn). destruct (CA i j x Hx) as (di & dj & Ei & Ej). exists di, dj. do 2 (split; [assumption|]).
      destruct (G r c i j di dj Hr Hc Ei Ej) as [G1 G2].
      assert (Dr : in_pixel_range m (mc_row_min m) (mc_row_max m) (mc_row_source m) r c dj \/ ~ in_pixel_range m (mc_row_min m) (mc_row_max m) (mc_row_source m) r c dj).
      { unfold in_pixel_range. lia. }
      assert (Dc : in_pixel_range m (mc_col_min m) (mc_col_max m) (mc_col_source m) r c di \/ ~ in_pixel_range m (mc_col_min m) (mc_col_max m) (mc_col_source m) r c di).
      { unfold in_pixel_range. lia. }
      destruct Dr as [Dr|Dr]; [|rewrite G2 in Hx by tauto; congruence].
      destruct Dc as [Dc|Dc]; [|rewrite G2 in Hx by tauto; congruence].
      rewrite G1 in Hx by auto. split; [congruence|].
      apply (UC i di Ei) in Hi. apply (UR j dj Ej) in Hj. unfold in_pixel_range in Dr, Dc. fold s in Dr, Dc. tauto. }
    assert (D : (forall dc dr x, user_col cv dc -> user_row cv dr -> cost_at cv r c dc dr = Some x -> x = NaN) \/
                exists dc dr x, computed cv r c dc dr x).
    { destruct (nth2 (cv_data cv) r c) as [P|] eqn:EP.
      - pose proof (all_nan_computed cv r c P EP) as A. destruct (all_nan (plane_user cv P)).
        + left. intros dc dr x U1 U2 Hx. destruct (ext_eq_dec x NaN) as [|Hn]; auto. exfalso.
          destruct A as [_ A]. discriminate A. exists dc, dr, x. repeat split; auto.
        + right. apply A. auto.
      - left. intros dc dr x _ _ Hx. unfold cost_at in Hx. rewrite EP in Hx. discriminate. }
    rewrite F1, F2 in *.
    destruct D as [D|D].
    - left. destruct (I r c Hr Hc) as [I1 _]. destruct (I1 D) as (? & ? & _). auto.
    - right. destruct (B r c Hr Hc) as (sc & i & j & di & dj & _ & Ei & Mi & Ej & Mj & (dr & C1) & (dc & C2) & _); auto.
      + intros dc dr C. destruct (V _ _ _ C) as (? & ? & _ & _ & X & _). rewrite F6 in X. eapply Hw. symmetry. exact X.
      + exists di, dj. split; [auto|]. split; [auto|].
        destruct (V _ _ _ C1) as (d1 & d2 & X1 & _ & _ & X2 & _). destruct (V _ _ _ C2) as (d3 & d4 & _ & X3 & _ & _ & X4).
        rewrite Ei in X1. rewrite Ej in X3. injection X1 as <-. injection X3 as <-. auto.
  Qed.
End P.

(** C13: rows. *)
Theorem roi_coords_exact (row0 first margin n step x : Z) : 1 <= step -> 0 <= first -> 0 <= margin ->
  row0 = Z.max 0 (first - margin) ->
  (In x (get_coordinates (Z.min margin first) row0 (row0 + n - 1) step) <->
   row0 <= x < row0 + n /\ (x - first) mod step = 0).
Proof.
  intros Hs Hf Hm ->. unfold get_coordinates. set (k := Z.min margin first).
  assert (Ek : Z.max 0 (first - margin) = first - k) by lia. rewrite Ek. clearbody k. clear Ek.
  assert (E : (if k mod step =? 0 then first - k else first - k + k mod step) = first - k + k mod step).
  { destruct (Z.eqb_spec (k mod step) 0) as [->|]; lia. }
  rewrite E. rewrite zarange_In by lia.
  pose proof (Z.mod_pos_bound k step ltac:(lia)). pose proof (Z.div_mod k step ltac:(lia)).
  assert (Eq : (x - (first - k + k mod step)) mod step = (x - first) mod step).
  { replace (x - (first - k + k mod step)) with (x - first + (k / step) * step) by (rewrite H0 at 2; ring). apply Z.mod_add. lia. }
  rewrite Eq. split; intros [A B]; (split; [|assumption]); try lia.
  split; [|lia].
  destruct (Z_le_gt_dec (first - k + k mod step) x) as [|G]; auto. exfalso.
  apply Z.mod_divide in B; [|lia]. destruct B as [q Hq].
  assert (q * step < (- (k / step)) * step) by nia. assert (H2 : (- (k / step) - 1) * step < q * step) by nia.
  apply Z.mul_lt_mono_pos_r in H1; [|lia]. apply Z.mul_lt_mono_pos_r in H2; [|lia]. lia.
Qed.

Theorem get_coordinates_spaced margin first last step k x : 1 <= step ->
  nth_error (get_coordinates margin first last step) (S k) = Some x ->
  nth_error (get_coordinates margin first last step) k = Some (x - step).
Proof.
  intros Hs H. unfold get_coordinates in *. apply zarange_nth in H; [|lia]. apply zarange_nth; lia.
Qed.
