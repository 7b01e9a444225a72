(** Proofs about the exact result of the refinement by interpolation. *)
From Coq Require Import List String Bool ZArith QArith Lia.
From Verif Require Import Base.Ext Base.PyList Base.Arr Base.Json Base.Dict Base.ZRange Model.CommonModel Model.DisparityModel Model.MatchingCostModel Model.DichotomyModel
  Model.RoiModel Model.InputModel Model.ConfigModel Model.DatasetModel Model.EstimationModel Model.OpticalFlowModel Model.InterpolationModel Model.MachineModel Model.CheckConfModel
  Model.PipelineModel Model.WholeModel Model.ImgShiftModel
  Spec.MatchingCostSpec Spec.ShiftSpec Spec.PipelineSpec Spec.BestSpec Spec.WtaSpec Spec.WholeSpec Spec.InterpolationSpec Spec.WholeFlowSpec Spec.WholeInterpSpec
  Proofs.WtaProofs Proofs.MatchingCostProofs Proofs.MatchingCostTheorems Proofs.PipelineProofs Proofs.BestProofs Proofs.RefineExactProofs Proofs.InterpolationProofs Proofs.WholeFlowProofs Proofs.WholeEveryProofs
  Props.InterpolationProps.
Import ListNotations.
Open Scope Z_scope.

Section Samples.
  Context {px : Type} (px_eqb : px -> px -> bool).
  Variable pandora_cost : list (list px) -> list (list Z) -> nat -> nat -> nat -> ext.
  Variable zoomed : nat -> nat -> px.
  Variables (m : mc_input) (right : image px).
  Hypothesis wf : wf_mc m right.
  Variable pixel_cost : list (list px) -> list (list Z) -> nat -> nat -> Z -> ext.
  Hypothesis Hcost : forall a b r cc i y ds d, nth_error (col_coords m) cc = Some y -> disps_col m = Some ds -> nth_error ds i = Some d ->
    pandora_cost a b r cc i = pixel_cost a b r (Z.to_nat (y - mc_col0 m)) d.
  Notation cost x y := (pair_cost px_eqb pixel_cost zoomed right (mc_subpix m) (mc_row0 m) (mc_col0 m) x y).
  (** The samples of the volumes: any step with constant ranges, steps of 1 otherwise. *)
  Lemma run_samples_any cv r c x y i j dr dc : constant_ranges m \/ mc_step_row m = 1 /\ mc_step_col m = 1 -> compute_cost_volumes px_eqb pandora_cost zoomed m right = Some cv ->
    nth_error (row_coords m) r = Some x -> nth_error (col_coords m) c = Some y -> nth_error (cv_disp_col cv) i = Some dc -> nth_error (cv_disp_row cv) j = Some dr ->
    cost_at cv r c i j = Some (pixel_samples m (cost x y) x y dr dc).
  Proof.
    intros [HC|[S1 S2]] E Hr Hc Ei Ej; [|eapply run_samples; eassumption].
    destruct (compute_cost_volumes_const px_eqb pandora_cost zoomed m right wf HC) as (cv' & E' & F1 & F2 & F3 & F4 & F5 & F6 & F7 & D1 & D2 & G). rewrite E in E'. injection E' as <-.
    rewrite (G r c i j x dc dr Hr ltac:(apply nth_error_Some; congruence) Ei Ej).
    assert (Xr := Hr). assert (Xc := Hc). apply nth_error_In in Xr, Xc. apply (row_coords_in m right wf) in Xr. apply (col_coords_in m right _ wf) in Xc.
    destruct (coords_in2 m right x y wf Xr Xc) as [I1 I2]. destruct HC as [Cr Cc]. destruct (Cr _ _ I1) as [A1 A2]. destruct (Cc _ _ I2) as [A3 A4].
    unfold pixel_samples. rewrite A1, A2, A3, A4.
    assert (T : forall lo hi d, has_samples lo hi lo hi d = true) by (intros; apply has_samples_spec; lia). rewrite !T. cbn [andb].
    f_equal. unfold pair_cost, MatchingCostProofs.cost_for.
    apply (Hcost _ _ _ _ _ y (col_range m)); [exact Hc | exact (disps_col_ok m right wf) | rewrite <- F3; exact Ei].
  Qed.
End Samples.

(** The disparities of the volumes. *)
Lemma axis_of one s a b (all : Z -> Prop) : 0 < one -> 1 <= s -> (s | one) -> a <= b -> (forall d, all d <-> a * s <= d <= b * s) ->
  axis all s ((a - 3) * s) (rational_disp one (map (fun d => d * (one / s)) (zarange ((a - 3) * s) ((b + 3) * s + 1) 1))).
Proof.
  intros Ho Hs (k & Hk) Hab Hall. exists (a * s), (b * s). split; [nia|]. split; [exact Hall|]. split; [ring|]. split.
  - unfold rational_disp. rewrite !map_length, zarange_length, Z.div_1_r. nia.
  - intros i q Hq. unfold rational_disp in Hq. rewrite !nth_error_map in Hq. destruct (nth_error (zarange _ _ _) i) as [z|] eqn:Ez; [|discriminate]. cbn [option_map] in Hq. injection Hq as <-.
    apply zarange_nth in Ez; [|lia]. destruct Ez as [-> _]. rewrite Z.mul_1_l || rewrite Z.mul_1_r. rewrite Hk, Z.div_mul by lia. rewrite !inject_Z_mult. assert (0 < k) by nia. field. split; intros X; unfold Qeq in X; cbn in X; lia.
Qed.

Section Interpolated.
  Context {px : Type} (nan : px).
  Variable bool_ok : bool.
  Variable offset_of : dict -> Z.
  Variable one : Z.
  Variable store : ext -> ext.
  Variable filter_apply : dict -> list (list ext) -> Z -> Z -> ext.
  Variable lstsq : list (list px) -> list (list px) -> option (num * num).
  Variable resample : list (list px) -> num -> num -> list (list px).
  Variable junk : nat -> list (list px).
  Variable interp : list Q -> list Q -> list (list cost) -> num -> num -> cost.
  Variable minimise : (num -> num -> cost) -> num * num -> (Q * Q) * (Q * Q) -> num * num.
  Notation refine := (refine nan bool_ok offset_of one store filter_apply lstsq resample junk interp minimise).

  (** The refinement by interpolation from volumes with these samples. *)
  Lemma refine_interpolation_exact c inv mc mi (right : image px) cv col row score d (all_rows all_cols : Z -> Prop) : lookup "refinement_method"%string c = Some (JStr "interpolation"%string) ->
    wf_mc mi right -> 0 < one -> (Z.of_nat (mc_subpix mi) | one) -> mc_margins mi = Some (mkMargins 3 3 3 3) ->
    cv_disp_col cv = MatchingCostProofs.col_range mi -> cv_disp_row cv = MatchingCostProofs.row_range mi -> (0 < cv_nrow cv)%nat -> (0 < cv_ncol cv)%nat ->
    rect (cv_nrow cv) (cv_ncol cv) col -> rect (cv_nrow cv) (cv_ncol cv) row ->
    (forall d, all_rows d <-> fst (mc_row_source mi) * Z.of_nat (mc_subpix mi) <= d <= snd (mc_row_source mi) * Z.of_nat (mc_subpix mi)) ->
    (forall d, all_cols d <-> fst (mc_col_source mi) * Z.of_nat (mc_subpix mi) <= d <= snd (mc_col_source mi) * Z.of_nat (mc_subpix mi)) ->
    exists dc dr sc, refine c inv (mc, mi, in_units (one / Z.of_nat (mc_subpix mi)) cv) col row score d = Some (InPixels dc dr sc) /\
      rect (cv_nrow cv) (cv_ncol cv) dc /\ rect (cv_nrow cv) (cv_ncol cv) dr /\ rect (cv_nrow cv) (cv_ncol cv) sc /\
      forall r c vr vc sample, (r < cv_nrow cv)%nat -> (c < cv_ncol cv)%nat -> nth2 row r c = Some vr -> nth2 col r c = Some vc ->
        (forall i j dr dc, nth_error (cv_disp_col cv) i = Some dc -> nth_error (cv_disp_row cv) j = Some dr -> cost_at cv r c i j = Some (sample dr dc)) ->
        exists a b s, nth2 dc r c = Some b /\ nth2 dr r c = Some a /\ nth2 sc r c = Some s /\
          interpolated interp minimise one (Z.of_nat (mc_subpix mi)) (cv_measure cv) all_rows all_cols sample (num_of_ext one vr) (num_of_ext one vc) (cost_of_num a) (cost_of_num b) s.
  Proof.
    intros Lm Wm Ho Hd Hmg Ec Er Hn Hm R1 R2 Har Hac. destruct Wm as (_ & _ & Hs & _ & _ & _ & _ & _ & Tr & Tc).
    pose proof (source_le_gen _ _ _ Tr) as Lr. pose proof (source_le_gen _ _ _ Tc) as Lc. set (s := Z.of_nat (mc_subpix mi)) in *.
    destruct (range_ends one s (fst (mc_col_source mi) - 3) (snd (mc_col_source mi) + 3) Ho ltac:(unfold s; lia) Hd ltac:(lia)) as (c0 & c1 & Q0 & Q1 & Fc).
    destruct (range_ends one s (fst (mc_row_source mi) - 3) (snd (mc_row_source mi) + 3) Ho ltac:(unfold s; lia) Hd ltac:(lia)) as (r0 & r1 & Q2 & Q3 & Fr).
    pose proof (axis_of one s _ _ all_rows Ho ltac:(unfold s; lia) Hd Lr Har) as Axr. pose proof (axis_of one s _ _ all_cols Ho ltac:(unfold s; lia) Hd Lc Hac) as Axc.
    set (u := in_units (one / s) cv).
    assert (Dc : rational_disp one (cv_disp_col u) = rational_disp one (map (fun d => d * (one / s)) (zarange ((fst (mc_col_source mi) - 3) * s) ((snd (mc_col_source mi) + 3) * s + 1) 1))).
    { cbn [u in_units cv_disp_col]. rewrite Ec. unfold MatchingCostProofs.col_range, margins_of. rewrite Hmg. reflexivity. }
    assert (Dr : rational_disp one (cv_disp_row u) = rational_disp one (map (fun d => d * (one / s)) (zarange ((fst (mc_row_source mi) - 3) * s) ((snd (mc_row_source mi) + 3) * s + 1) 1))).
    { cbn [u in_units cv_disp_row]. rewrite Er. unfold MatchingCostProofs.row_range, margins_of. rewrite Hmg. reflexivity. }
    rewrite <- Dc in Axc, Fc. rewrite <- Dr in Axr, Fr.
    assert (M1 := rect_map (num_of_ext one) _ _ _ R1). assert (M2 := rect_map (num_of_ext one) _ _ _ R2).
    destruct (C33_in_place interp minimise (cv_measure u) _ _ _ _ _ _ _ _ Fc Fr Hn Hm (rational_volumes one u) _ _ eq_refl eq_refl M1 M2) as (dc & dr & sc & E & X1 & X2 & X3 & P).
    exists dc, dr, sc. split; [|split; [exact X1|]; split; [exact X2|]; split; [exact X3|]].
    - unfold WholeModel.refine. rewrite Lm. cbn [String.eqb Ascii.eqb Bool.eqb]. fold u. rewrite E. reflexivity.
    - intros r cc vr vc sample Hr Hc Hvr Hvc Hsm.
      assert (Hx : nth2 (map (map (num_of_ext one)) col) r cc = Some (num_of_ext one vc)) by (rewrite nth2_map, Hvc; reflexivity).
      assert (Hy : nth2 (map (map (num_of_ext one)) row) r cc = Some (num_of_ext one vr)) by (rewrite nth2_map, Hvr; reflexivity).
      pose proof (cost_matrix_surface (rational_volumes one u) r cc Hr Hc) as Sf. set (S := cost_matrix (rational_volumes one u) (r * a4_n1 (rational_volumes one u) + cc)) in *.
      destruct (P r cc _ _ S Hr Hc Hx Hy Sf) as (b & a & v & E1 & E2 & E3 & N & U).
      exists a, b, v. do 3 (split; [assumption|]).
      exists ((fst (mc_row_source mi) - 3) * s), (rational_disp one (cv_disp_row u)), ((fst (mc_col_source mi) - 3) * s), (rational_disp one (cv_disp_col u)), r0, r1, c0, c1, S.
      do 4 (split; [assumption|]). split.
      + destruct Sf as [Rs Ps]. cbn [rational_volumes a4_n2 a4_n3 a4_get] in Rs, Ps.
        assert (Ldr : List.length (rational_disp one (cv_disp_row u)) = List.length (cv_disp_row u)) by apply map_length. assert (Ldc : List.length (rational_disp one (cv_disp_col u)) = List.length (cv_disp_col u)) by apply map_length.
        rewrite Ldr, Ldc. split; [exact Rs|]. intros j i Hj Hi. rewrite (Ps i j Hi Hj). eexists. split; [reflexivity|].
        cbn [u in_units cv_disp_row cv_disp_col] in Hj, Hi. rewrite map_length in Hj, Hi.
        assert (Nz : forall a b n, (n < List.length (zarange a b 1))%nat -> nth_error (zarange a b 1) n = Some (a + Z.of_nat n)).
        { intros a' b' n Hn'. destruct (nth_error (zarange a' b' 1) n) as [z|] eqn:Ez; [|apply nth_error_None in Ez; lia]. apply zarange_nth in Ez; [|lia]. destruct Ez as [-> _]. f_equal. lia. }
        assert (NR : nth_error (cv_disp_row cv) j = Some ((fst (mc_row_source mi) - 3) * s + Z.of_nat j)).
        { rewrite Er in *. unfold MatchingCostProofs.row_range, margins_of in *. rewrite Hmg in *. rewrite Nz by exact Hj. reflexivity. }
        assert (NC : nth_error (cv_disp_col cv) i = Some ((fst (mc_col_source mi) - 3) * s + Z.of_nat i)).
        { rewrite Ec in *. unfold MatchingCostProofs.col_range, margins_of in *. rewrite Hmg in *. rewrite Nz by exact Hi. reflexivity. }
        pose proof (Hsm i j _ _ NC NR) as Hc'. unfold cost_at in Hc'. cbn [u in_units cv_data].
        destruct (nth2 (cv_data cv) r cc) as [p|]; [|discriminate]. destruct (nth2 p i j) as [z|]; [|discriminate]. injection Hc' as ->.
        destruct (sample _ _); cbn; try reflexivity. eexists. split; reflexivity.
      + change (cv_measure cv) with (cv_measure u). destruct (nothing_dec (cv_measure u) S) as [D|D].
        * left. split; [exact D|]. destruct (N D) as (-> & -> & ->). auto.
        * right. split; [exact D|]. destruct (U D) as (F & Cf & Eab & Es). exists F, a, b. split; [exact Cf|]. split; [symmetry; exact Eab|]. split; [apply saved_num|]. split; [apply saved_num | exact Es].
  Qed.
End Interpolated.
