(** Proofs about the best disparities of a pixel. *)
From Coq Require Import ZArith List Lia Bool Arith.
From Verif Require Import Base.Ext Base.PyList Base.Arr Base.ZRange Model.DisparityModel Model.CommonModel
  Model.ImgShiftModel Model.MatchingCostModel Model.PipelineModel Spec.ShiftSpec Spec.MatchingCostSpec Spec.WtaSpec Spec.DichotomySpec Spec.PipelineSpec Spec.BestSpec
  Proofs.WtaProofs Proofs.WtaTheorems Proofs.MatchingCostProofs Proofs.MatchingCostTheorems Proofs.PipelineProofs.
Import ListNotations.
Open Scope Z_scope.

(** When the computed costs of a pixel are those of the candidates. *)
Lemma wta_best chunk inv cv k r c (rows cols : Z -> Prop) cost : wf_cv cv -> (r < cv_nrow cv)%nat -> (c < cv_ncol cv)%nat ->
  increasing (cv_disp_col cv) -> increasing (cv_disp_row cv) ->
  (forall i j v, computed cv r c i j v <-> exists dc dr, nth_error (cv_disp_col cv) i = Some dc /\ nth_error (cv_disp_row cv) j = Some dr /\ cols dc /\ rows dr /\ cost dr dc = v /\ v <> NaN) ->
  (forall d, cols d -> exists i, nth_error (cv_disp_col cv) i = Some d) -> (forall d, rows d -> exists j, nth_error (cv_disp_row cv) j = Some d) ->
  (forall dr dc, cost dr dc <> worst (cv_measure cv)) ->
  exists mcol mrow score, compute_disp_maps chunk inv (in_units k cv) = Some (mcol, mrow, score) /\
    exists vr vc vs, nth2 mrow r c = Some vr /\ nth2 mcol r c = Some vc /\ nth2 score r c = Some vs /\
      best (cv_measure cv) rows cols cost (vr = inv /\ vc = inv /\ vs = inv) (fun dr dc s => vr = Fin (dr * k) /\ vc = Fin (dc * k) /\ vs = s).
Proof.
  intros Wf Hr Hc Oc Or A Bc Br Hw.
  destruct (wta_disparities_reach_best chunk inv (in_units k cv) (units_wf k cv Wf)) as (mcol & mrow & score & Em & B).
  destruct (wta_invalid_iff chunk inv (in_units k cv) (units_wf k cv Wf)) as (mcol' & mrow' & score' & Em' & _ & _ & _ & I). rewrite Em in Em'. injection Em' as <- <- <-.
  exists mcol, mrow, score. split; [exact Em|].
  assert (D : (forall dc dr x, user_col cv dc -> user_row cv dr -> cost_at cv r c dc dr = Some x -> x = NaN) \/ exists dc dr x, computed cv r c dc dr x).
  { destruct (nth2 (cv_data cv) r c) as [P|] eqn:EP.
    - pose proof (all_nan_computed cv r c P EP) as X. destruct (all_nan (plane_user cv P)).
      + left. intros dc dr x U1 U2 Hx. destruct (ext_eq_dec x NaN) as [|Hn]; auto. exfalso. destruct X as [_ X]. discriminate X. exists dc, dr, x. repeat split; auto.
      + right. apply X. auto.
    - left. intros dc dr x _ _ Hx. unfold cost_at in Hx. rewrite EP in Hx. discriminate. }
  destruct D as [D|D].
  - destruct (proj1 (I r c Hr Hc)) as (I1 & I2 & I3).
    { intros dc dr x U1 U2 Hx. apply units_user_col in U1. apply units_user_row in U2. exact (D dc dr x U1 U2 Hx). }
    exists inv, inv, inv. split; [exact I2|]. split; [exact I1|]. split; [exact I3|]. left. split; [auto|].
    intros dr dc Hdr Hdc. destruct (ext_eq_dec (cost dr dc) NaN) as [|Hn]; [assumption|]. exfalso.
    destruct (Bc dc Hdc) as (i & Ei). destruct (Br dr Hdr) as (j & Ej).
    destruct (proj2 (A i j (cost dr dc))) as (U1 & U2 & Hx & _); [exists dc, dr; auto 10|]. elim Hn. exact (D i j _ U1 U2 Hx).
  - destruct (B r c Hr Hc) as (s & i & j & di & dj & Es & Ei & Mi & Ej & Mj & (j' & C1) & (i' & C2) & G & T1 & T2 & _).
    { intros dc dr C0. assert (C := proj1 (A _ _ _) (proj1 (units_computed k cv _ _ _ _ _) C0)). destruct C as (? & ? & _ & _ & _ & _ & C & _). exact (Hw _ _ C). }
    { destruct D as (dc & dr & x & D). exists dc, dr, x. now apply units_computed. }
    cbn in Ei, Ej. apply units_nth in Ei, Ej. destruct Ei as (dc & Ei & ->), Ej as (dr & Ej & ->).
    apply (proj1 (units_computed k cv _ _ _ _ _)) in C1, C2. apply (proj1 (A _ _ _)) in C1, C2.
    destruct C1 as (dc1 & dr1 & X1 & X2 & X3 & X4 & X5 & X6). destruct C2 as (dc2 & dr2 & Y1 & Y2 & Y3 & Y4 & Y5 & Y6).
    rewrite Ei in X1. injection X1 as <-. rewrite Ej in Y2. injection Y2 as <-.
    exists (Fin (dr * k)), (Fin (dc * k)), s. split; [exact Mj|]. split; [exact Mi|]. split; [exact Es|]. right.
    exists dr, dc, s. split; [auto|]. split; [exact Y4|]. split; [exact X3|]. split; [exact X6|]. split.
    { intros dr' dc' R' C' Hn. destruct (Bc dc' C') as (a & Ea). destruct (Br dr' R') as (b & Eb). apply (G a b). apply units_computed. apply A. exists dc', dr'. auto 10. }
    split; [eauto|]. split; [eauto|]. intros dr' dc' R' C' E. destruct (Bc dc' C') as (a & Ea). destruct (Br dr' R') as (b & Eb).
    assert (C : computed (in_units k cv) r c a b s) by (apply units_computed; apply A; exists dc', dr'; auto 10). split.
    + destruct (lt_eq_lt_dec b j) as [[H| ->]|H].
      * elim (T2 b a H C).
      * rewrite Ej in Eb. injection Eb as <-. lia.
      * pose proof (Or _ _ _ _ H Ej Eb). lia.
    + destruct (lt_eq_lt_dec a i) as [[H| ->]|H].
      * elim (T1 a b H C).
      * rewrite Ei in Ea. injection Ea as <-. lia.
      * pose proof (Oc _ _ _ _ H Ei Ea). lia.
Qed.

Section Run.
  Context {px : Type} (px_eqb : px -> px -> bool).
  Variable pandora_cost : list (list px) -> list (list Z) -> nat -> nat -> nat -> ext.
  Variable zoomed : nat -> nat -> px.
  Variables (m : mc_input) (right : image px).
  Hypothesis wf : wf_mc m right.
  Variable pixel_cost : list (list px) -> list (list Z) -> nat -> nat -> Z -> ext.
  Hypothesis Hcost : forall a b r cc i y ds d, nth_error (col_coords m) cc = Some y -> disps_col m = Some ds -> nth_error ds i = Some d ->
    pandora_cost a b r cc i = pixel_cost a b r (Z.to_nat (y - mc_col0 m)) d.
  Hypothesis Hw : forall a b r c d, pixel_cost a b r c d <> worst (mc_measure m).
  Let s := Z.of_nat (mc_subpix m).
  Notation cost x y := (pair_cost px_eqb pixel_cost zoomed right (mc_subpix m) (mc_row0 m) (mc_col0 m) x y).

  Lemma ranges_increasing : increasing (col_range m) /\ increasing (row_range m).
  Proof.
    assert (X : forall a b, increasing (zarange a b 1)).
    { intros a b i j x y H Hi Hj. apply zarange_nth in Hi; [|lia]. apply zarange_nth in Hj; [|lia]. lia. }
    unfold col_range, row_range. destruct (margins_of m) as [[[? ?] ?] ?]. split; apply X.
  Qed.

  Lemma run_best chunk inv k cv : constant_ranges m \/ mc_step_row m = 1 /\ mc_step_col m = 1 ->
    compute_cost_volumes px_eqb pandora_cost zoomed m right = Some cv ->
    exists mcol mrow score, compute_disp_maps chunk inv (in_units k cv) = Some (mcol, mrow, score) /\
    forall r c x y, nth_error (row_coords m) r = Some x -> nth_error (col_coords m) c = Some y ->
      exists vr vc vs, nth2 mrow r c = Some vr /\ nth2 mcol r c = Some vc /\ nth2 score r c = Some vs /\
        best (mc_measure m) (user_row_interval m s x y) (user_col_interval m s x y) (cost x y) (vr = inv /\ vc = inv /\ vs = inv)
          (fun dr dc v => vr = Fin (dr * k) /\ vc = Fin (dc * k) /\ vs = v).
  Proof.
    intros Hcase E. assert (Wcv := compute_wf_cv px_eqb pandora_cost zoomed m right wf cv E).
    destruct (compute_fields px_eqb pandora_cost zoomed m right wf cv E) as (F1 & F2 & F3 & F4 & F5 & F6 & F7 & _).
    destruct (user_col_range m cv F3 F5 F7) as [UC1 UC2]. destruct (user_row_range m cv F4 F5 F7) as [UR1 UR2]. fold s in UC1, UC2, UR1, UR2.
    destruct (wta_invalid_iff chunk inv (in_units k cv) (units_wf k cv Wcv)) as (mcol & mrow & score & Em & _).
    exists mcol, mrow, score. split; [exact Em|]. intros r c x y Hr Hc.
    assert (Lr : (r < cv_nrow cv)%nat) by (rewrite F1; apply nth_error_Some; congruence). assert (Lc : (c < cv_ncol cv)%nat) by (rewrite F2; apply nth_error_Some; congruence).
    assert (Xr := Hr). assert (Xc := Hc). apply nth_error_In in Xr, Xc. apply (row_coords_in m right wf) in Xr. apply (col_coords_in m right _ wf) in Xc.
    assert (wf' := wf). destruct wf' as (W1&W2&W3&_&_&W4&W5&Hg&(Tr&_)&(Tc&_)).
    assert (Ir : in2 (mc_row_min m) (Z.to_nat (x - mc_row0 m)) (Z.to_nat (y - mc_col0 m))).
    { destruct (Hg (mc_row_min m) ltac:(auto)) as [Y1 Y2]. split; [rewrite Y1|rewrite Y2]; lia. }
    assert (Ic : in2 (mc_col_min m) (Z.to_nat (x - mc_row0 m)) (Z.to_nat (y - mc_col0 m))).
    { destruct (Hg (mc_col_min m) ltac:(auto)) as [Y1 Y2]. split; [rewrite Y1|rewrite Y2]; lia. }
    assert (Hs : 0 < s) by (unfold s; lia).
    assert (Sub_r : forall d, user_row_interval m s x y d -> fst (mc_row_source m) * s <= d <= snd (mc_row_source m) * s).
    { intros d H. unfold user_row_interval in H. specialize (Tr _ _ Ir). nia. }
    assert (Sub_c : forall d, user_col_interval m s x y d -> fst (mc_col_source m) * s <= d <= snd (mc_col_source m) * s).
    { intros d H. unfold user_col_interval in H. specialize (Tc _ _ Ic). nia. }
    assert (A : forall i j di dj, nth_error (cv_disp_col cv) i = Some di -> nth_error (cv_disp_row cv) j = Some dj -> user_col cv i -> user_row cv j ->
      (user_row_interval m s x y dj /\ user_col_interval m s x y di -> cost_at cv r c i j = Some (cost x y dj di)) /\
      (~ (user_row_interval m s x y dj /\ user_col_interval m s x y di) -> cost_at cv r c i j = Some NaN)).
    { intros i j di dj Ei Ej Ui Uj.
      assert (P : pandora_cost (to_list2 (right_moved zoomed right (mc_subpix m) dj)) (to_list2 (moved_mask px_eqb zoomed right (mc_subpix m) dj)) (Z.to_nat (x - mc_row0 m)) c i = cost x y dj di).
      { unfold pair_cost. apply (Hcost _ _ _ _ _ y (col_range m)); [exact Hc | exact (disps_col_ok m right wf) | rewrite <- F3; exact Ei]. }
      apply (UC1 _ _ Ei) in Ui. apply (UR1 _ _ Ej) in Uj.
      destruct Hcase as [Cst|[Sr Sc]].
      - destruct (compute_cost_volumes_const px_eqb pandora_cost zoomed m right wf Cst) as (cv' & E' & _ & _ & _ & _ & _ & _ & _ & _ & _ & G). rewrite E in E'. injection E' as <-.
        destruct Cst as [Cr Cc]. destruct (Cr _ _ Ir) as [R1 R2]. destruct (Cc _ _ Ic) as [R3 R4]. unfold user_row_interval, user_col_interval. rewrite R1, R2, R3, R4. split; [|lia].
        intros _. rewrite (G r c i j x di dj Hr ltac:(rewrite <- F2; exact Lc) Ei Ej). unfold cost_for. now rewrite P.
      - destruct (compute_cost_volumes_step1 px_eqb pandora_cost zoomed m right wf Sr Sc) as (cv' & E' & N1 & N2 & _ & _ & _ & _ & _ & _ & _ & G). rewrite E in E'. injection E' as <-.
        destruct (step1_lengths m right wf Sr Sc) as (LR & LC & NR & NC).
        assert (Er : Z.to_nat (x - mc_row0 m) = r) by (rewrite (NR r ltac:(lia)) in Hr; injection Hr as <-; lia).
        assert (Ec : Z.to_nat (y - mc_col0 m) = c) by (rewrite (NC c ltac:(lia)) in Hc; injection Hc as <-; lia).
        destruct (G r c i j di dj ltac:(lia) ltac:(lia) Ei Ej) as [G1 G2]. unfold in_pixel_range in G1, G2. fold s in G1, G2. unfold user_row_interval, user_col_interval. rewrite Er, Ec in *. split.
        + intros [H1 H2]. rewrite G1 by auto. unfold cost_for. now rewrite P.
        + intros H. apply G2. lia. }
    destruct (wta_best chunk inv cv k r c (user_row_interval m s x y) (user_col_interval m s x y) (cost x y) Wcv Lr Lc) as (mcol' & mrow' & score' & Em' & Z).
    - rewrite F3. apply ranges_increasing.
    - rewrite F4. apply ranges_increasing.
    - intros i j v. split.
      + intros (Ui & Uj & Hx & Hn). destruct (nth_error (cv_disp_col cv) i) as [di|] eqn:Ei; [|apply nth_error_None in Ei; rewrite user_col_eq in Ui; lia].
        destruct (nth_error (cv_disp_row cv) j) as [dj|] eqn:Ej; [|apply nth_error_None in Ej; rewrite user_row_eq in Uj; lia].
        destruct (A i j di dj Ei Ej Ui Uj) as [A1 A2].
        assert (D : (user_row_interval m s x y dj /\ user_col_interval m s x y di) \/ ~ (user_row_interval m s x y dj /\ user_col_interval m s x y di)).
        { unfold user_row_interval, user_col_interval. lia. }
        destruct D as [D|D]; [|rewrite (A2 D) in Hx; congruence]. rewrite (A1 D) in Hx. injection Hx as <-. exists di, dj. tauto.
      + intros (di & dj & Ei & Ej & Hi & Hj & <- & Hn). assert (Ui := proj2 (UC1 _ _ Ei) (Sub_c _ Hi)). assert (Uj := proj2 (UR1 _ _ Ej) (Sub_r _ Hj)).
        split; [exact Ui|]. split; [exact Uj|]. split; [|exact Hn]. now apply (A i j di dj Ei Ej Ui Uj).
    - intros d H. destruct (UC2 d (Sub_c _ H)) as (i & _ & Ei). eauto.
    - intros d H. destruct (UR2 d (Sub_r _ H)) as (i & _ & Ei). eauto.
    - intros dr dc. rewrite F6. apply Hw.
    - rewrite Em in Em'. injection Em' as <- <- <-. rewrite F6 in Z. exact Z.
  Qed.
End Run.
