(** Proofs about the exact result of the refinement by dichotomy of the optimal disparities. *)
From Coq Require Import List Bool ZArith Lia.
From Verif Require Import Base.Ext Base.PyList Base.Arr Base.ZRange Model.CommonModel Model.DisparityModel Model.MatchingCostModel Model.DichotomyModel Model.PipelineModel Model.ImgShiftModel
  Spec.MatchingCostSpec Spec.ShiftSpec Spec.DichotomySpec Spec.WtaSpec Spec.PipelineSpec Spec.BestSpec Spec.HalvingSpec
  Proofs.WtaProofs Proofs.MatchingCostProofs Proofs.MatchingCostTheorems Proofs.DichotomyProofs Proofs.DichotomyTheorems Proofs.PipelineProofs Proofs.BestProofs Proofs.HalvingProofs Proofs.BetweenProofs
  Proofs.RefineBestProofs Props.PipelineProps.
Import ListNotations.
Open Scope Z_scope.

(** Scores of the pixels that are not searched. *)
Lemma kept_nan one store flt iterations cv invalid col_map row_map g mc mr sc r c :
  refinement_method one store flt iterations cv invalid col_map row_map g = Some (mc, mr, sc) -> (r < cv_nrow cv)%nat -> (c < cv_ncol cv)%nat ->
  nth2 row_map r c = Some invalid \/ nth2 col_map r c = Some invalid -> nth2 sc r c = Some NaN.
Proof.
  intros E Hr Hc I. destruct (refinement_nth _ _ _ _ _ _ _ _ _ _ _ _ r c E Hr Hc) as (y & row' & col' & Ea & Es & _). rewrite Es. f_equal.
  destruct (refine_at_grids _ _ _ _ _ _ _ _ _ _ _ _ Ea) as (a1 & a2 & a3 & a4 & surface & G1 & G2 & G3 & G4 & Sf).
  unfold refine_at in Ea. rewrite Sf in Ea. destruct (nth2 row_map r c) as [rv|]; [|discriminate]. destruct (nth2 col_map r c) as [cw|]; [|discriminate].
  destruct (cost_value cv surface invalid rv cw) as [x|] eqn:Cv; [|discriminate]. rewrite G1, G2, G3, G4 in Ea. unfold refine_pixel in Ea.
  unfold cost_value in Cv. destruct (sel_index _ _ _); [|discriminate]; destruct (sel_index _ _ _); [|discriminate]; destruct (nth2 _ _ _); [|discriminate].
  destruct I as [I|I]; injection I as ->; rewrite (proj2 (is_invalid_spec invalid invalid) eq_refl), ?orb_true_r in Cv; cbn [orb] in Cv; injection Cv as <-; cbn in Ea; congruence.
Qed.

Lemma kept_exactly one store flt iterations cv invalid col_map row_map g mc mr sc r c row col i j x : same_shape cv g ->
  refinement_method one store flt iterations cv invalid col_map row_map g = Some (mc, mr, sc) -> (r < cv_nrow cv)%nat -> (c < cv_ncol cv)%nat ->
  increasing (cv_disp_col cv) -> increasing (cv_disp_row cv) -> matched invalid col_map row_map r c row col -> DichotomySpec.cost_for cv r c row col i j x ->
  x = NaN \/ at_an_end row (DichotomySpec.row_range one g r c) \/ at_an_end col (DichotomySpec.col_range one g r c) -> nth2 mr r c = Some (Fin row) /\ nth2 mc r c = Some (Fin col) /\ nth2 sc r c = Some x.
Proof.
  intros Sh E Hr Hc IC IR M C Cases. destruct (refinement_nth _ _ _ _ _ _ _ _ _ _ _ _ r c E Hr Hc) as (y & row' & col' & Ea & Es & Er & Ec). rewrite Es, Er, Ec.
  destruct (shapes store cv invalid g r c Sh) as (G1 & G2 & G3 & G4). destruct (refine_at_grids _ _ _ _ _ _ _ _ _ _ _ _ Ea) as (_ & _ & _ & _ & surface & _ & _ & _ & _ & Sf).
  rewrite (refine_at_matched _ _ _ _ _ _ _ _ _ _ _ _ _ _ _ _ _ _ _ _ _ IC IR M C Sf G1 G2 G3 G4) in Ea.
  destruct Cases as [-> |[A|A]]; cbn [ext_isnan] in Ea. { injection Ea as <- <- <-. auto. }
  - destruct (ext_isnan x). { injection Ea as <- <- <-. auto. } replace (_ || _) with true in Ea by (symmetry; apply orb_true_iff; rewrite !Z.eqb_eq; exact A). injection Ea as <- <- <-. auto.
  - destruct (ext_isnan x). { injection Ea as <- <- <-. auto. } destruct (_ || _). { injection Ea as <- <- <-. auto. } replace (_ || _) with true in Ea by (symmetry; apply orb_true_iff; rewrite !Z.eqb_eq; exact A). injection Ea as <- <- <-. auto.
Qed.

(** A disparity that has samples for a pixel: in its interval, or in the margins. *)
Definition has_samples (lo hi all_lo all_hi d : Z) : bool := negb ((all_lo <=? d) && (d <=? all_hi)) || ((lo <=? d) && (d <=? hi)).
Definition pixel_samples (m : mc_input) (cost : Z -> Z -> ext) (x y dr dc : Z) : ext :=
  let s := Z.of_nat (mc_subpix m) in let r := Z.to_nat (x - mc_row0 m) in let c := Z.to_nat (y - mc_col0 m) in
  if has_samples (a2_get (mc_row_min m) r c * s) (a2_get (mc_row_max m) r c * s) (fst (mc_row_source m) * s) (snd (mc_row_source m) * s) dr &&
     has_samples (a2_get (mc_col_min m) r c * s) (a2_get (mc_col_max m) r c * s) (fst (mc_col_source m) * s) (snd (mc_col_source m) * s) dc
  then cost dr dc else NaN.

Lemma has_samples_spec lo hi a b d : has_samples lo hi a b d = true <-> ~ (a <= d <= b) \/ lo <= d <= hi.
Proof. unfold has_samples. rewrite orb_true_iff, negb_true_iff, andb_false_iff, andb_true_iff, !Z.leb_gt, !Z.leb_le. lia. Qed.

Lemma ends one s k lo hi d : one = s * k -> 0 < k -> 0 < s -> lo * s <= d <= hi * s -> (extreme (fun d => lo * s <= d <= hi * s) d <-> d * k = lo * one \/ d * k = hi * one).
Proof.
  intros E Hk Hs Hd. subst one. split.
  - intros [X|X]; [left; specialize (X (lo * s)); assert (d = lo * s) by lia | right; specialize (X (hi * s)); assert (d = hi * s) by lia]; subst d; ring.
  - intros [X|X]; [left|right]; intros d' Hd'; rewrite Z.mul_assoc in X; apply Z.mul_cancel_r in X; lia.
Qed.
Lemma strictly one s k lo hi d : one = s * k -> 0 < k -> lo * s <= d <= hi * s -> ~ (d * k = lo * one \/ d * k = hi * one) -> lo * one < d * k < hi * one.
Proof. intros E Hk Hd H. subst one. nia. Qed.
Lemma halving_nil store t value value' row col s row' col' s' : halving store t value [] row col s row' col' s' -> halving store t value' [] row col s row' col' s'.
Proof. intros H. inversion H; subst. constructor. Qed.
Lemma either (x a b : Z) : (x = a \/ x = b) \/ ~ (x = a \/ x = b).
Proof. lia. Qed.

Section Run.
  Context {px : Type} (px_eqb : px -> px -> bool).
  Variable pandora_cost : list (list px) -> list (list Z) -> nat -> nat -> nat -> ext.
  Variable zoomed : nat -> nat -> px.
  Variables (m : mc_input) (right : image px).
  Hypothesis wf : wf_mc m right.
  Variable pixel_cost : list (list px) -> list (list Z) -> nat -> nat -> Z -> ext.
  Hypothesis Hcost : forall a b r cc i y ds d, nth_error (col_coords m) cc = Some y -> disps_col m = Some ds -> nth_error ds i = Some d ->
    pandora_cost a b r cc i = pixel_cost a b r (Z.to_nat (y - mc_col0 m)) d.
  Hypothesis Hw : forall a b r c d, pixel_cost a b r c d <> worst (mc_measure m).
  Hypothesis Hwp : forall a b r c i, pandora_cost a b r c i <> worst (mc_measure m).
  Let s := Z.of_nat (mc_subpix m).
  Notation cost x y := (pair_cost px_eqb pixel_cost zoomed right (mc_subpix m) (mc_row0 m) (mc_col0 m) x y).
  Hypothesis Sr : mc_step_row m = 1.
  Hypothesis Sc : mc_step_col m = 1.

  Lemma run_samples cv r c x y i j dr dc : compute_cost_volumes px_eqb pandora_cost zoomed m right = Some cv ->
    nth_error (row_coords m) r = Some x -> nth_error (col_coords m) c = Some y -> nth_error (cv_disp_col cv) i = Some dc -> nth_error (cv_disp_row cv) j = Some dr ->
    cost_at cv r c i j = Some (pixel_samples m (cost x y) x y dr dc).
  Proof.
    intros E Hr Hc Ei Ej.
    destruct (compute_cost_volumes_step1 px_eqb pandora_cost zoomed m right wf Sr Sc) as (cv' & E' & F1 & F2 & F3 & F4 & F5 & F6 & F7 & D1 & D2 & G). rewrite E in E'. injection E' as <-.
    destruct (step1_lengths m right wf Sr Sc) as (LR & LC & NR & NC).
    assert (Lr : (r < mc_nrow m)%nat) by (rewrite <- LR; apply nth_error_Some; congruence). assert (Lc : (c < mc_ncol m)%nat) by (rewrite <- LC; apply nth_error_Some; congruence).
    assert (Er : Z.to_nat (x - mc_row0 m) = r) by (rewrite (NR r ltac:(lia)) in Hr; injection Hr as <-; lia).
    assert (Ec : Z.to_nat (y - mc_col0 m) = c) by (rewrite (NC c ltac:(lia)) in Hc; injection Hc as <-; lia).
    destruct (G r c i j dc dr Lr Lc Ei Ej) as [G1 G2]. unfold pixel_samples. rewrite Er, Ec. unfold in_pixel_range in G1, G2.
    destruct (has_samples _ _ _ _ dr) eqn:B1; destruct (has_samples _ _ _ _ dc) eqn:B2; cbn [andb].
    - apply has_samples_spec in B1, B2. rewrite G1 by auto. unfold MatchingCostProofs.cost_for. f_equal. unfold pair_cost. rewrite Er.
      apply (Hcost _ _ _ _ _ y (col_range m)); [exact Hc | exact (disps_col_ok m right wf) | rewrite <- F3; exact Ei].
    - apply G2. intros [_ X]. apply has_samples_spec in X. congruence.
    - apply G2. intros [X _]. apply has_samples_spec in X. congruence.
    - apply G2. intros [X _]. apply has_samples_spec in X. congruence.
  Qed.

  Variable one : Z.
  Hypothesis Hone : 0 < one.
  Hypothesis Hdiv : (Z.of_nat (mc_subpix m) | one).
  Variable store : ext -> ext.
  Variables (flt : filter) (iterations e : nat).
  Hypothesis Hro : rounding store.
  Hypothesis Hit : (2 ^ Z.of_nat iterations | one).
  Hypothesis Hsub : mc_subpix m = (2 ^ e)%nat.
  Hypothesis Hmax : (iterations <= 22)%nat.
  Hypothesis Hmg : exists margins, mc_margins m = Some margins /\ covered flt margins.
  Hypothesis Hst : forall a b r c i, pandora_cost a b r c i = NaN \/ store (pandora_cost a b r c i) = pandora_cost a b r c i.
  Let k := one / s.

  Lemma run_exact chunk inv : exists mcol mrow score,
    run_maps px_eqb pandora_cost zoomed one store chunk inv (Some (flt, iterations)) m right = Some (mcol, mrow, score) /\
    rect (length (row_coords m)) (length (col_coords m)) mcol /\ rect (length (row_coords m)) (length (col_coords m)) mrow /\ rect (length (row_coords m)) (length (col_coords m)) score /\
    forall r c x y, nth_error (row_coords m) r = Some x -> nth_error (col_coords m) c = Some y ->
      exists vr vc vs, nth2 mrow r c = Some vr /\ nth2 mcol r c = Some vc /\ nth2 score r c = Some vs /\ respects_user m one inv x y vr vc /\
        best (mc_measure m) (user_row_interval m s x y) (user_col_interval m s x y) (cost x y) (vr = inv /\ vc = inv /\ vs = NaN)
          (fun dr dc v => refined_exactly (user_row_interval m s x y) (user_col_interval m s x y) k inv
             (halving store (mc_measure m) (between one s (f_size flt) (f_left flt) (f_up flt) (f_apply flt) (pixel_samples m (cost x y) x y)) (halves one e iterations))
             (cost x y dr dc) dr dc vr vc vs).
  Proof.
    assert (Hsub' : exists e, mc_subpix m = (2 ^ e)%nat) by eauto.
    destruct (run_step1_in_range px_eqb pandora_cost zoomed one store chunk inv (Some (flt, iterations)) m right wf Hone Hdiv Sr Sc Hwp) as (mcol & mrow & score & Em & R1 & R2 & R3 & Rsp).
    { intros f n H. injection H as <- <-. auto. }
    exists mcol, mrow, score. split; [exact Em|]. split; [exact R1|]. split; [exact R2|]. split; [exact R3|].
    unfold run_maps in Em. destruct (compute_cost_volumes px_eqb pandora_cost zoomed m right) as [cv|] eqn:E; [|discriminate]. cbn [bind] in Em. fold s in Em. fold k in Em.
    destruct (compute_cost_volumes_step1 px_eqb pandora_cost zoomed m right wf Sr Sc) as (cv' & E' & F1 & F2 & F3 & F4 & F5 & F6 & F7 & D1 & D2 & _). rewrite E in E'. injection E' as <-.
    destruct (run_best px_eqb pandora_cost zoomed m right wf pixel_cost Hcost Hw chunk inv k cv (or_intror (conj Sr Sc)) E) as (col0 & row0 & sc0 & Ew & B). rewrite Ew in Em. cbn [bind] in Em.
    destruct (wta_in_range px_eqb pandora_cost zoomed m right wf one Hone Hdiv Sr Sc Hwp chunk inv cv E) as (col0' & row0' & sc0' & Ew' & Q1 & Q2 & Q3 & P). fold s in Ew'. fold k in Ew'. rewrite Ew in Ew'. injection Ew' as <- <- <-.
    destruct Hmg as (margins & Hm1 & Hm2).
    assert (Rdy : ready one flt iterations (in_units k cv) inv col0 row0 (left_grids m)) by exact (run_ready px_eqb pandora_cost zoomed m right wf one Hone Hdiv Sr Sc flt iterations inv cv col0 row0 margins E Hit Hsub' Hm1 Hm2 Q1 Q2 P).
    assert (Rd' := Rdy). destruct Rd' as (_ & _ & Hk & _ & SC & SR & _ & _ & _ & Sh & _).
    assert (IC := spaced_increasing _ _ _ SC). assert (IR := spaced_increasing _ _ _ SR).
    destruct (step1_lengths m right wf Sr Sc) as (LR & LC & NR & NC).
    intros r c x y Hr Hc.
    assert (Lr : (r < mc_nrow m)%nat) by (rewrite <- LR; apply nth_error_Some; congruence). assert (Lc : (c < mc_ncol m)%nat) by (rewrite <- LC; apply nth_error_Some; congruence).
    assert (Lr' : (r < cv_nrow (in_units k cv))%nat) by (cbn; lia). assert (Lc' : (c < cv_ncol (in_units k cv))%nat) by (cbn; lia).
    destruct (B r c x y Hr Hc) as (wr & wc & ws & N1 & N2 & N3 & Bst).
    destruct (nth2_some _ _ _ r c R1) as (vc & Evc); [lia|lia|]. destruct (nth2_some _ _ _ r c R2) as (vr & Evr); [lia|lia|]. destruct (nth2_some _ _ _ r c R3) as (vs & Evs); [lia|lia|].
    exists vr, vc, vs. do 3 (split; [assumption|]). split. { destruct (Rsp r c x y Hr Hc) as (vr' & vc' & X1 & X2 & X3). congruence. }
    assert (Kept := kept_theorem one store flt iterations (in_units k cv) inv col0 row0 (left_grids m) mcol mrow score r c Sh Em Lr' Lc').
    assert (KeptN := kept_nan one store flt iterations (in_units k cv) inv col0 row0 (left_grids m) mcol mrow score r c Em Lr' Lc').
    assert (Er : Z.to_nat (x - mc_row0 m) = r) by (rewrite (NR r ltac:(lia)) in Hr; injection Hr as <-; lia).
    assert (Ec : Z.to_nat (y - mc_col0 m) = c) by (rewrite (NC c ltac:(lia)) in Hc; injection Hc as <-; lia).
    assert (Hs : 0 < s) by (unfold s; rewrite Hsub; assert (2 ^ e <> 0)%nat by (apply Nat.pow_nonzero; lia); lia).
    assert (Eone : one = s * k) by (unfold k; fold s in Hdiv; destruct Hdiv as [w Ew1]; rewrite Ew1, Z.div_mul by lia; lia).
    assert (Pk : 0 < k) by nia.
    revert Bst. apply best_imp; [reflexivity | reflexivity | |].
    - intros (-> & -> & _). destruct (Kept (or_introl N1)) as [K1 K2]. specialize (KeptN (or_introl N1)). repeat split; congruence.
    - intros dr dc v Ur Uc Hv (-> & -> & ->). destruct (run_pair_cost px_eqb pandora_cost zoomed m right wf pixel_cost Hcost Sr Sc cv r c x y dr dc E Hr Hc Ur Uc) as (i & j & Ei & Ej & Ex).
      assert (Cf : DichotomySpec.cost_for (in_units k cv) r c (dr * k) (dc * k) i j (cost x y dr dc)) by (split; [apply units_nth; eauto|]; split; [apply units_nth; eauto|]; exact Ex).
      assert (Dec : (Fin (dr * k) <> inv /\ Fin (dc * k) <> inv) \/ (Fin (dr * k) = inv \/ Fin (dc * k) = inv)) by (destruct (ext_eq_dec (Fin (dr * k)) inv), (ext_eq_dec (Fin (dc * k)) inv); tauto).
      destruct Dec as [[I1 I2]|Dec].
      2:{ left. split; [exact Dec|]. assert (Q : nth2 row0 r c = Some inv \/ nth2 col0 r c = Some inv) by (destruct Dec as [<-|<-]; auto).
          specialize (KeptN Q). destruct Kept as [K1 K2]; [tauto|]. repeat split; congruence. }
      right. split; [exact I1|]. split; [exact I2|].
      assert (M : matched inv col0 row0 r c (dr * k) (dc * k)) by (split; [exact N1|]; split; auto).
      unfold user_row_interval, user_col_interval in *. rewrite Er, Ec in *.
      set (r0 := a2_get (mc_row_min m) r c) in *. set (r1 := a2_get (mc_row_max m) r c) in *. set (c0 := a2_get (mc_col_min m) r c) in *. set (c1 := a2_get (mc_col_max m) r c) in *.
      assert (Ends := fun lo hi d => ends one s k lo hi d Eone Pk Hs).
      assert (Dn : cost x y dr dc = NaN \/ cost x y dr dc <> NaN) by (destruct (cost x y dr dc); auto; right; discriminate).
      assert (Dr := either (dr * k) (r0 * one) (r1 * one)). assert (Dc := either (dc * k) (c0 * one) (c1 * one)).
      assert (Cases : (cost x y dr dc = NaN \/ (dr * k = r0 * one \/ dr * k = r1 * one) \/ (dc * k = c0 * one \/ dc * k = c1 * one)) \/
        (cost x y dr dc <> NaN /\ ~ (dr * k = r0 * one \/ dr * k = r1 * one) /\ ~ (dc * k = c0 * one \/ dc * k = c1 * one))) by (clear -Dn Dr Dc; destruct Dn, Dr, Dc; auto).
      destruct Cases as [Cs|(Hn & Xr & Xc)].
      + left. destruct (kept_exactly one store flt iterations (in_units k cv) inv col0 row0 (left_grids m) mcol mrow score r c (dr * k) (dc * k) i j (cost x y dr dc) Sh Em Lr' Lc' IC IR M Cf) as (K1 & K2 & K3).
        { exact Cs. }
        rewrite <- (Ends r0 r1 dr Ur), <- (Ends c0 c1 dc Uc) in Cs. split; [exact Cs|]. repeat split; congruence.
      + right. split; [exact Hn|]. split; [rewrite (Ends r0 r1 dr Ur); exact Xr|]. split; [rewrite (Ends c0 c1 dc Uc); exact Xc|].
        assert (O : cost x y dr dc <> worst_cost (cv_measure (in_units k cv)) /\ store (cost x y dr dc) = cost x y dr dc).
        { cbn. rewrite F6. unfold pair_cost in *. rewrite Er in *. split; [unfold worst_cost; specialize (Hw (to_list2 (right_moved zoomed right (mc_subpix m) dr)) (to_list2 (moved_mask px_eqb zoomed right (mc_subpix m) dr)) r (Z.to_nat (y - mc_col0 m)) dc);
            unfold worst in Hw; destruct (mc_measure m); exact Hw|].
          rewrite F3 in Ei. rewrite <- (Hcost (to_list2 (right_moved zoomed right (mc_subpix m) dr)) (to_list2 (moved_mask px_eqb zoomed right (mc_subpix m) dr)) r c i y (MatchingCostProofs.col_range m) dc Hc (disps_col_ok m right wf) Ei) in *.
          destruct (Hst (to_list2 (right_moved zoomed right (mc_subpix m) dr)) (to_list2 (moved_mask px_eqb zoomed right (mc_subpix m) dr)) r c i) as [X|X]; [contradiction | exact X]. }
        destruct O as [O1 O2].
        assert (Sf : exists surface, nth2 (cv_data cv) r c = Some surface) by (unfold cost_at in Ex; destruct (nth2 (cv_data cv) r c); [eauto|discriminate]). destruct Sf as [surface Sf].
        assert (Hke : cv_subpix (in_units k cv) = (2 ^ e)%nat) by (cbn; congruence).
        destruct (halving_theorem one store flt iterations (in_units k cv) inv col0 row0 (left_grids m) mcol mrow score r c (dr * k) (dc * k) i j (cost x y dr dc) surface e Hro Hke IC IR Sh Em Lr' Lc' M Cf Sf Hn O1 O2 Xr Xc)
          as (row' & col' & y' & Y1 & Y2 & Y3 & Hv').
        exists row', col'. split; [congruence|]. split; [congruence|]. assert (vs = y') as -> by congruence. cbn [in_units cv_measure] in Hv'. rewrite F6 in Hv'. unfold halves.
        destruct (Nat.le_gt_cases e iterations) as [Lei|Lei].
        2:{ replace (iterations - e)%nat with 0%nat in * by lia. cbn [seq map] in *. revert Hv'. apply halving_nil. }
        revert Hv'. apply (halving_agree one store (mc_measure m) _ _ e iterations (dr * k) (dc * k) Hone Hit) ; try (rewrite Z.sub_diag; first [apply Z.divide_0_r | cbn [Z.abs]; lia]); try lia.
        intros u v' Bu Bv Du Dv.
        assert (Es : s = Z.of_nat (cv_subpix (in_units k cv))) by (cbn; rewrite F5; reflexivity). rewrite Es.
        assert (Nz : forall a b n, (n < length (zarange a b 1))%nat -> nth_error (zarange a b 1) n = Some (a + Z.of_nat n)).
        { intros a b n Hn'. destruct (nth_error (zarange a b 1) n) as [z|] eqn:Ez; [|apply nth_error_None in Ez; lia]. apply zarange_nth in Ez; [|lia]. destruct Ez as [-> _]. f_equal. lia. }
        set (br := fst (mc_row_source m) * s - Z.of_nat (m_up margins) * s). set (bc := fst (mc_col_source m) * s - Z.of_nat (m_left margins) * s).
        assert (NR' : forall n, (n < length (cv_disp_row cv))%nat -> nth_error (cv_disp_row cv) n = Some (br + Z.of_nat n)).
        { intros n Hn'. rewrite F4 in *. unfold MatchingCostProofs.row_range, margins_of in *. rewrite Hm1 in *. rewrite Nz by exact Hn'. f_equal. fold s. unfold br. ring. }
        assert (NC' : forall n, (n < length (cv_disp_col cv))%nat -> nth_error (cv_disp_col cv) n = Some (bc + Z.of_nat n)).
        { intros n Hn'. rewrite F3 in *. unfold MatchingCostProofs.col_range, margins_of in *. rewrite Hm1 in *. rewrite Nz by exact Hn'. f_equal. fold s. unfold bc. ring. }
        apply (between_surface one flt iterations (in_units k cv) inv col0 row0 (left_grids m) Rdy e k br bc (pixel_samples m (cost x y) x y) surface r c Hke ltac:(lia)) with (i := i) (j := j); auto.
        * rewrite <- Es. exact Eone.
        * intros n Hn'. cbn in Hn' |- *. rewrite map_length in Hn'. apply units_nth. eauto.
        * intros n Hn'. cbn in Hn' |- *. rewrite map_length in Hn'. apply units_nth. eauto.
        * intros i' j' Hi' Hj'. cbn in Hi', Hj'. rewrite map_length in Hi', Hj'. pose proof (run_samples cv r c x y i' j' _ _ E Hr Hc (NC' _ Hi') (NR' _ Hj')) as X. unfold cost_at in X. rewrite Sf in X. exact X.
        * apply Cf.
        * apply Cf.
        * unfold strictly_in, DichotomySpec.row_range. cbn. fold r0 r1. exact (strictly one s k r0 r1 dr Eone Pk Ur Xr).
        * unfold strictly_in, DichotomySpec.col_range. cbn. fold c0 c1. exact (strictly one s k c0 c1 dc Eone Pk Uc Xc).
  Qed.
End Run.
