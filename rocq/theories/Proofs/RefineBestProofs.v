(** Proofs about the refinement by dichotomy of the optimal disparities. *)
From Coq Require Import List Bool ZArith Lia.
From Verif Require Import Base.Ext Base.PyList Base.Arr Base.ZRange Model.CommonModel Model.DisparityModel Model.MatchingCostModel Model.DichotomyModel Model.PipelineModel Model.ImgShiftModel
  Spec.MatchingCostSpec Spec.ShiftSpec Spec.DichotomySpec Spec.WtaSpec Spec.PipelineSpec Spec.BestSpec
  Proofs.WtaProofs Proofs.MatchingCostProofs Proofs.MatchingCostTheorems Proofs.DichotomyProofs Proofs.DichotomyTheorems Proofs.PipelineProofs Proofs.BestProofs Props.PipelineProps.
Import ListNotations.
Open Scope Z_scope.

Lemma best_imp t (R R' C C' : Z -> Prop) cost (N N' : Prop) (F F' : Z -> Z -> ext -> Prop) : (forall d, R d <-> R' d) -> (forall d, C d <-> C' d) -> (N -> N') ->
  (forall dr dc s, R dr -> C dc -> s <> NaN -> F dr dc s -> F' dr dc s) -> best t R C cost N F -> best t R' C' cost N' F'.
Proof.
  intros HR HC HN HF [[H1 H2]|(dr & dc & s & H1 & H2 & H3 & H4 & H5 & (dc' & H6 & H6') & (dr' & H7 & H7') & H8)].
  - left. split; [auto|]. intros. apply H2; [now apply HR | now apply HC].
  - right. exists dr, dc, s. split; [auto|]. split; [now apply HR|]. split; [now apply HC|]. split; [auto|]. split; [intros; apply H5; [now apply HR | now apply HC | assumption]|].
    split; [exists dc'; split; [now apply HC | auto]|]. split; [exists dr'; split; [now apply HR | auto]|]. intros; apply H8; [now apply HR | now apply HC | assumption].
Qed.

Section Run.
  Context {px : Type} (px_eqb : px -> px -> bool).
  Variable pandora_cost : list (list px) -> list (list Z) -> nat -> nat -> nat -> ext.
  Variable zoomed : nat -> nat -> px.
  Variables (m : mc_input) (right : image px).
  Hypothesis wf : wf_mc m right.
  Variable pixel_cost : list (list px) -> list (list Z) -> nat -> nat -> Z -> ext.
  Hypothesis Hcost : forall a b r cc i y ds d, nth_error (col_coords m) cc = Some y -> disps_col m = Some ds -> nth_error ds i = Some d ->
    pandora_cost a b r cc i = pixel_cost a b r (Z.to_nat (y - mc_col0 m)) d.
  Hypothesis Hw : forall a b r c d, pixel_cost a b r c d <> worst (mc_measure m).
  Hypothesis Hwp : forall a b r c i, pandora_cost a b r c i <> worst (mc_measure m).
  Let s := Z.of_nat (mc_subpix m).
  Notation cost x y := (pair_cost px_eqb pixel_cost zoomed right (mc_subpix m) (mc_row0 m) (mc_col0 m) x y).
  Hypothesis Sr : mc_step_row m = 1.
  Hypothesis Sc : mc_step_col m = 1.

  Lemma run_pair_cost cv r c x y dr dc : compute_cost_volumes px_eqb pandora_cost zoomed m right = Some cv ->
    nth_error (row_coords m) r = Some x -> nth_error (col_coords m) c = Some y -> user_row_interval m s x y dr -> user_col_interval m s x y dc ->
    exists i j, nth_error (cv_disp_col cv) i = Some dc /\ nth_error (cv_disp_row cv) j = Some dr /\ cost_at cv r c i j = Some (cost x y dr dc).
  Proof.
    intros E Hr Hc Ur Uc.
    destruct (compute_cost_volumes_step1 px_eqb pandora_cost zoomed m right wf Sr Sc) as (cv' & E' & F1 & F2 & F3 & F4 & F5 & F6 & F7 & D1 & D2 & G). rewrite E in E'. injection E' as <-.
    destruct (user_col_range m cv F3 F5 F7) as [_ UC2]. destruct (user_row_range m cv F4 F5 F7) as [_ UR2]. fold s in UC2, UR2.
    destruct (step1_lengths m right wf Sr Sc) as (LR & LC & NR & NC).
    assert (Lr : (r < mc_nrow m)%nat) by (rewrite <- LR; apply nth_error_Some; congruence). assert (Lc : (c < mc_ncol m)%nat) by (rewrite <- LC; apply nth_error_Some; congruence).
    assert (Er : Z.to_nat (x - mc_row0 m) = r) by (rewrite (NR r ltac:(lia)) in Hr; injection Hr as <-; lia).
    assert (Ec : Z.to_nat (y - mc_col0 m) = c) by (rewrite (NC c ltac:(lia)) in Hc; injection Hc as <-; lia).
    assert (wf' := wf). destruct wf' as (W1&W2&W3&_&_&W4&W5&Hg&(Tr&_)&(Tc&_)).
    assert (Ir : in2 (mc_row_min m) r c). { destruct (Hg (mc_row_min m) ltac:(auto)) as [Y1 Y2]. split; [rewrite Y1|rewrite Y2]; lia. }
    assert (Ic : in2 (mc_col_min m) r c). { destruct (Hg (mc_col_min m) ltac:(auto)) as [Y1 Y2]. split; [rewrite Y1|rewrite Y2]; lia. }
    specialize (Tr _ _ Ir). specialize (Tc _ _ Ic). unfold user_row_interval, user_col_interval in *. rewrite Er, Ec in *.
    assert (Hs : 0 < s) by (unfold s; lia).
    destruct (UC2 dc ltac:(nia)) as (i & _ & Ei). destruct (UR2 dr ltac:(nia)) as (j & _ & Ej). exists i, j. split; [exact Ei|]. split; [exact Ej|].
    destruct (G r c i j dc dr Lr Lc Ei Ej) as [G1 _]. rewrite G1 by (unfold in_pixel_range; fold s; lia). unfold MatchingCostProofs.cost_for. f_equal. unfold pair_cost. rewrite Er.
    apply (Hcost _ _ _ _ _ y (col_range m)); [exact Hc | exact (disps_col_ok m right wf) | rewrite <- F3; exact Ei].
  Qed.

  Variable one : Z.
  Hypothesis Hone : 0 < one.
  Hypothesis Hdiv : (Z.of_nat (mc_subpix m) | one).
  Variable store : ext -> ext.
  Variables (flt : filter) (iterations : nat).
  Hypothesis Hro : rounding store.
  Hypothesis Hit : (2 ^ Z.of_nat iterations | one).
  Hypothesis Hsub : exists e, mc_subpix m = (2 ^ e)%nat.
  Hypothesis Hmg : exists margins, mc_margins m = Some margins /\ covered flt margins.
  Hypothesis Hst : forall a b r c i, pandora_cost a b r c i = NaN \/ store (pandora_cost a b r c i) = pandora_cost a b r c i.
  Let k := one / s.

  Lemma run_refined chunk inv : exists mcol mrow score,
    run_maps px_eqb pandora_cost zoomed one store chunk inv (Some (flt, iterations)) m right = Some (mcol, mrow, score) /\
    rect (length (row_coords m)) (length (col_coords m)) mcol /\ rect (length (row_coords m)) (length (col_coords m)) mrow /\ rect (length (row_coords m)) (length (col_coords m)) score /\
    forall r c x y, nth_error (row_coords m) r = Some x -> nth_error (col_coords m) c = Some y ->
      exists vr vc vs, nth2 mrow r c = Some vr /\ nth2 mcol r c = Some vc /\ nth2 score r c = Some vs /\ respects_user m one inv x y vr vc /\
        best (mc_measure m) (user_row_interval m s x y) (user_col_interval m s x y) (cost x y) (vr = inv /\ vc = inv)
          (fun dr dc v => exists a b, vr = Fin a /\ vc = Fin b /\ Z.abs (a - dr * k) * s < one /\ Z.abs (b - dc * k) * s < one /\
             (one / 2 ^ Z.of_nat iterations | a - dr * k) /\ (one / 2 ^ Z.of_nat iterations | b - dc * k) /\
             (cost x y dr dc <> NaN -> Fin (dr * k) <> inv -> Fin (dc * k) <> inv -> at_least_as_good (mc_measure m) vs (cost x y dr dc))).
  Proof.
    destruct (run_step1_in_range px_eqb pandora_cost zoomed one store chunk inv (Some (flt, iterations)) m right wf Hone Hdiv Sr Sc Hwp) as (mcol & mrow & score & Em & R1 & R2 & R3 & Rsp).
    { intros f n H. injection H as <- <-. auto. }
    exists mcol, mrow, score. split; [exact Em|]. split; [exact R1|]. split; [exact R2|]. split; [exact R3|].
    unfold run_maps in Em. destruct (compute_cost_volumes px_eqb pandora_cost zoomed m right) as [cv|] eqn:E; [|discriminate]. cbn [bind] in Em. fold s in Em. fold k in Em.
    destruct (compute_cost_volumes_step1 px_eqb pandora_cost zoomed m right wf Sr Sc) as (cv' & E' & F1 & F2 & F3 & F4 & F5 & F6 & F7 & D1 & D2 & _). rewrite E in E'. injection E' as <-.
    destruct (run_best px_eqb pandora_cost zoomed m right wf pixel_cost Hcost Hw chunk inv k cv (or_intror (conj Sr Sc)) E) as (col0 & row0 & sc0 & Ew & B). rewrite Ew in Em. cbn [bind] in Em.
    destruct (wta_in_range px_eqb pandora_cost zoomed m right wf one Hone Hdiv Sr Sc Hwp chunk inv cv E) as (col0' & row0' & sc0' & Ew' & Q1 & Q2 & Q3 & P). fold s in Ew'. fold k in Ew'. rewrite Ew in Ew'. injection Ew' as <- <- <-.
    destruct Hmg as (margins & Hm1 & Hm2).
    assert (Rdy : ready one flt iterations (in_units k cv) inv col0 row0 (left_grids m)) by exact (run_ready px_eqb pandora_cost zoomed m right wf one Hone Hdiv Sr Sc flt iterations inv cv col0 row0 margins E Hit Hsub Hm1 Hm2 Q1 Q2 P).
    assert (Rd' := Rdy). destruct Rd' as (_ & _ & Hk & _ & SC & SR & _ & _ & _ & Sh & _).
    assert (IC := spaced_increasing _ _ _ SC). assert (IR := spaced_increasing _ _ _ SR).
    destruct (step1_lengths m right wf Sr Sc) as (LR & LC & NR & NC).
    intros r c x y Hr Hc.
    assert (Lr : (r < mc_nrow m)%nat) by (rewrite <- LR; apply nth_error_Some; congruence). assert (Lc : (c < mc_ncol m)%nat) by (rewrite <- LC; apply nth_error_Some; congruence).
    assert (Lr' : (r < cv_nrow (in_units k cv))%nat) by (cbn; lia). assert (Lc' : (c < cv_ncol (in_units k cv))%nat) by (cbn; lia).
    destruct (B r c x y Hr Hc) as (wr & wc & ws & N1 & N2 & N3 & Bst).
    destruct (nth2_some _ _ _ r c R1) as (vc & Evc); [lia|lia|]. destruct (nth2_some _ _ _ r c R2) as (vr & Evr); [lia|lia|]. destruct (nth2_some _ _ _ r c R3) as (vs & Evs); [lia|lia|].
    exists vr, vc, vs. do 3 (split; [assumption|]). split. { destruct (Rsp r c x y Hr Hc) as (vr' & vc' & X1 & X2 & X3). congruence. }
    assert (Kept := kept_theorem one store flt iterations (in_units k cv) inv col0 row0 (left_grids m) mcol mrow score r c Sh Em Lr' Lc').
    revert Bst. apply best_imp; [reflexivity | reflexivity | |].
    - intros (-> & -> & _). destruct (Kept (or_introl N1)) as [K1 K2]. split; congruence.
    - intros dr dc v Ur Uc Hv (-> & -> & ->). destruct (run_pair_cost cv r c x y dr dc E Hr Hc Ur Uc) as (i & j & Ei & Ej & Ex).
      assert (Cf : DichotomySpec.cost_for (in_units k cv) r c (dr * k) (dc * k) i j (cost x y dr dc)) by (split; [apply units_nth; eauto|]; split; [apply units_nth; eauto|]; exact Ex).
      assert (Dec : (Fin (dr * k) <> inv /\ Fin (dc * k) <> inv) \/ (Fin (dr * k) = inv \/ Fin (dc * k) = inv)) by (destruct (ext_eq_dec (Fin (dr * k)) inv), (ext_eq_dec (Fin (dc * k)) inv); tauto).
      destruct Dec as [[I1 I2]|Dec].
      + assert (M : matched inv col0 row0 r c (dr * k) (dc * k)) by (split; [exact N1|]; split; auto).
        destruct (small_moves one store flt iterations (in_units k cv) inv col0 row0 (left_grids m) mcol mrow score r c _ _ i j _ Hone Hit Hk IC IR Em Lr' Lc' M Cf) as (a & b & A1 & A2 & A3 & A4 & A5 & A6).
        cbn [in_units cv_subpix] in A3, A4. rewrite F5 in A3, A4. fold s in A3, A4.
        exists a, b. split; [congruence|]. split; [congruence|]. do 4 (split; [assumption|]). intros Hn _ _.
        assert (O : cost x y dr dc <> worst_cost (cv_measure (in_units k cv)) /\ store (cost x y dr dc) = cost x y dr dc).
        { cbn. rewrite F6. unfold pair_cost in *. split; [unfold worst_cost; specialize (Hw (to_list2 (right_moved zoomed right (mc_subpix m) dr)) (to_list2 (moved_mask px_eqb zoomed right (mc_subpix m) dr)) (Z.to_nat (x - mc_row0 m)) (Z.to_nat (y - mc_col0 m)) dc);
            unfold worst in Hw; destruct (mc_measure m); exact Hw|].
          rewrite F3 in Ei. rewrite <- (Hcost (to_list2 (right_moved zoomed right (mc_subpix m) dr)) (to_list2 (moved_mask px_eqb zoomed right (mc_subpix m) dr)) (Z.to_nat (x - mc_row0 m)) c i y (col_range m) dc Hc (disps_col_ok m right wf) Ei) in *.
          destruct (Hst (to_list2 (right_moved zoomed right (mc_subpix m) dr)) (to_list2 (moved_mask px_eqb zoomed right (mc_subpix m) dr)) (Z.to_nat (x - mc_row0 m)) c i) as [X|X]; [contradiction | exact X]. }
        destruct O as [O1 O2].
        destruct (score_theorem one store flt iterations (in_units k cv) inv col0 row0 (left_grids m) mcol mrow score r c _ _ i j _ Hro IC IR Em Lr' Lc' M Cf Hn O1 O2) as (a' & b' & v' & _ & _ & B3 & B4 & _).
        cbn [in_units cv_measure] in B4. rewrite F6 in B4. assert (vs = v') as -> by congruence. exact B4.
      + destruct Kept as [K1 K2]; [destruct Dec as [<-|<-]; auto|]. exists (dr * k), (dc * k). rewrite K1, N1 in Evr. rewrite K2, N2 in Evc. split; [congruence|]. split; [congruence|].
        rewrite !Z.sub_diag. cbn [Z.abs]. do 2 (split; [lia|]). do 2 (split; [apply Z.divide_0_r|]). tauto.
  Qed.
End Run.
