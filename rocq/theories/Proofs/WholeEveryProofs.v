(** Proofs about the whole program, for every refinement method. *)
From Coq Require Import List String Bool ZArith QArith Lia.
From Verif Require Import Base.Ext Base.PyList Base.Arr Base.Json Base.Dict Model.CommonModel Model.DisparityModel Model.MatchingCostModel Model.DichotomyModel
  Model.RoiModel Model.InputModel Model.ConfigModel Model.DatasetModel Model.EstimationModel Model.OpticalFlowModel Model.InterpolationModel Model.MachineModel Model.CheckConfModel
  Model.PipelineModel Model.WholeModel Model.ImgShiftModel
  Spec.MatchingCostSpec Spec.DichotomySpec Spec.RoiSpec Spec.PipelineSpec Spec.WtaSpec
  Proofs.ChunkProofs Proofs.DichotomyTheorems Proofs.WtaProofs Proofs.WtaTheorems Proofs.MatchingCostTheorems Proofs.InterpolationProofs Proofs.PipelineProofs Proofs.MatchingCostProofs Proofs.WholeMainProofs Props.PipelineProps Props.InterpolationProps Base.ZRange Spec.InterpolationSpec.
Import ListNotations.
Open Scope Z_scope.
Open Scope string_scope.
Open Scope list_scope.

Lemma grid_rect {A} (f : nat -> nat -> option A) n m l : map_opt (fun r => map_opt (f r) (seq 0 m)) (seq 0 n) = Some l -> rect n m l.
Proof.
  intros H. split; [apply map_opt_length in H; now rewrite seq_length in H|].
  apply Forall_forall. intros x Hx. apply In_nth_error in Hx as (k & Hk). rewrite (map_opt_nth _ _ _ k H) in Hk.
  destruct (nth_error (seq 0 n) k) as [i|]; [|discriminate]. apply map_opt_length in Hk. now rewrite seq_length in Hk.
Qed.
Lemma out_of_grid_rect invalid rs cs gmin gmax n m d d' : invalid_out_of_grid invalid rs cs gmin gmax n m d = Some d' -> rect n m d'.
Proof. unfold invalid_out_of_grid. destruct (put_where nle _ _ _ _ _) as [x|]; [|discriminate]. cbn [bind]. apply grid_rect. Qed.

Section Refined.
  Context {px : Type} (nan : px).
  Variable bool_ok : bool.
  Variable offset_of : dict -> Z.
  Variable one : Z.
  Variable store : ext -> ext.
  Variable filter_apply : dict -> list (list ext) -> Z -> Z -> ext.
  Variable lstsq : list (list px) -> list (list px) -> option (num * num).
  Variable resample : list (list px) -> num -> num -> list (list px).
  Variable junk : nat -> list (list px).
  Variable interp : list Q -> list Q -> list (list cost) -> num -> num -> cost.
  Variable minimise : (num -> num -> cost) -> num * num -> (Q * Q) * (Q * Q) -> num * num.
  Notation refine := (refine nan bool_ok offset_of one store filter_apply lstsq resample junk interp minimise).

  Definition maps_rect (n m : nat) (mps : maps) : Prop :=
    match mps with
    | InUnits col row score => rect n m col /\ rect n m row /\ rect n m score
    | InPixels col row score => rect n m col /\ rect n m row /\ rect n m score
    end.
  Lemma dataset_rect n m mi tr mps : maps_rect n m mps -> exists mrow mcol score, dataset_of one mi tr mps = mkDmaps (row_coords mi) (col_coords mi) mrow mcol score tr /\
    rect n m mcol /\ rect n m mrow /\ rect n m score.
  Proof. destruct mps; intros (A & B & C); do 3 eexists; (split; [reflexivity|]); (split; [|split]); try (apply rect_map; assumption); assumption. Qed.

  (** The maps after a refinement have the size of the cost volumes. *)
  Lemma refine_rect c inv mc mi cv col row score d mps : wf_cv cv -> cv_nrow cv = List.length (row_coords mi) -> cv_ncol cv = List.length (col_coords mi) ->
    rect (cv_nrow cv) (cv_ncol cv) col -> rect (cv_nrow cv) (cv_ncol cv) row -> rect (cv_nrow cv) (cv_ncol cv) score ->
    refine c inv (mc, mi, cv) col row score d = Some mps -> maps_rect (cv_nrow cv) (cv_ncol cv) mps.
  Proof.
    intros W En Em R1 R2 R3 H. unfold WholeModel.refine in H. destruct (lookup "refinement_method" c) as [[| | | | | |s| |]|]; try discriminate. destruct (s =? "dichotomy").
    - destruct (lookup "filter" c) as [[| | | | | | | |f]|]; try discriminate. destruct (int_at bool_ok _ c) as [n|]; [|discriminate].
      match type of H with context [refinement_method ?a ?b ?c ?d ?e ?f ?g ?h ?i] => destruct (refinement_method a b c d e f g h i) as [[[c' r'] s']|] eqn:E end; [|discriminate].
      cbn [bind] in H. injection H as <-. apply refinement_rect in E. exact E.
    - destruct (s =? "optical_flow").
      + destruct (int_at bool_ok _ c) as [w|]; [|discriminate]. destruct (int_at bool_ok ["iterations"] c) as [n|]; [|discriminate].
        destruct (mc_steps bool_ok _) as [[a b]|]; [|discriminate]. unfold flow_refinement in H.
        match type of H with context [flow_maps ?a ?b ?c ?d ?e ?f ?g ?h ?i ?j ?k ?l ?m ?n ?o ?p] => destruct (flow_maps a b c d e f g h i j k l m n o p) as [mm|] end; [|discriminate]. cbn [bind] in H.
        destruct (invalid_out_of_grid _ _ _ _ _ _ _ (fst mm)) as [x|] eqn:Ex; [|discriminate]. cbn [bind] in H.
        destruct (invalid_out_of_grid _ _ _ _ _ _ _ (snd mm)) as [y|] eqn:Ey; [|discriminate]. cbn [bind fst snd] in H. injection H as <-.
        apply out_of_grid_rect in Ex, Ey. cbn [maps_rect]. rewrite En, Em. split; [exact Ex|]. split; [exact Ey|]. rewrite <- En, <- Em. now apply rect_map.
      + match type of H with context [interpolation_refinement ?a ?b ?c ?d ?e ?f ?g ?h] => destruct (interpolation_refinement a b c d e f g h) as [[[c' r'] s']|] eqn:E end; [|discriminate].
        cbn [bind] in H. injection H as <-. cbn [maps_rect].
        assert (Hn : (0 < cv_nrow cv)%nat /\ (0 < cv_ncol cv)%nat).
        { destruct (Nat.eq_dec (cv_nrow cv * cv_ncol cv) 0) as [Z|Z]; [|nia]. exfalso. unfold interpolation_refinement in E. cbn [rational_volumes a4_n0 a4_n1] in E. rewrite Z in E. cbn in E. discriminate. }
        assert (D : cv_disp_col cv <> [] /\ cv_disp_row cv <> []).
        { destruct W as (_ & _ & (i & Hi) & (j & Hj)). split; intros X; [unfold user_col in Hi; rewrite X in Hi | unfold user_row in Hj; rewrite X in Hj]; destruct (margin_samples cv) as [[[? ?] ?] ?]; cbn in *; lia. }
        destruct D as [D1 D2].
        destruct (refinement_spec interp minimise (cv_measure cv) (rational_disp one (cv_disp_col cv)) (rational_disp one (cv_disp_row cv)) (rational_volumes one cv)
          (map (map (num_of_ext one)) col) (map (map (num_of_ext one)) row) (cv_nrow cv) (cv_ncol cv)) as (dc & dr & sc & F & X1 & X2 & X3 & _); auto; try (apply rect_map; assumption); try tauto.
        * intros X. apply D1. now apply map_eq_nil in X.
        * intros X. apply D2. now apply map_eq_nil in X.
        * rewrite E in F. injection F as <- <- <-. auto.
  Qed.
End Refined.

(** * Interpolation *)
Lemma loaded_not_empty m sc height width : loaded m sc height width -> 0 < height -> 0 < width -> (0 < List.length (row_coords m))%nat /\ (0 < List.length (col_coords m))%nat.
Proof.
  intros Ld Hh Hw. set (mp := repeat (repeat tt (List.length (col_coords m))) (List.length (row_coords m))).
  assert (R : rect (List.length (row_coords m)) (List.length (col_coords m)) mp).
  { split; [apply repeat_length|]. apply Forall_forall. intros l Hl. apply repeat_spec in Hl. subst l. apply repeat_length. }
  destruct (saved_spec m sc height width mp mp mp None Ld R R R) as (saved & after & _ & Ar & Ac & _ & _ & _ & P).
  assert (X : exists x y, asked_row sc height (mc_step_row m) x /\ asked_col sc width (mc_step_col m) y).
  { destruct Ld as (_ & S1 & S2 & Ld). unfold asked_row, asked_col, asked. destruct (sc_roi sc) as [r|]; cbn [option_map].
    - destruct (roi_mg r) as [[[a b] c] d]. exists (roi_r0 r), (roi_c0 r). rewrite !Z.sub_diag, !Z.mod_0_l by lia. destruct Ld as (_ & _ & _ & _ & _ & ? & ? & ? & ? & _). lia.
    - exists 0, 0. rewrite !Z.mod_0_l by lia. lia. }
  destruct X as (x & y & Hx & Hy). apply Ar in Hx. apply Ac in Hy. apply In_nth_error in Hx as (a & Ha). apply In_nth_error in Hy as (b & Hb).
  destruct (P a b x y Ha Hb) as (r & c & Er & Ec & _). split; [assert (r < List.length (row_coords m))%nat | assert (c < List.length (col_coords m))%nat]; try lia; apply nth_error_Some; congruence.
Qed.

(** First and last disparities, in pixels. *)
Lemma range_ends one s a b : 0 < one -> 1 <= s -> (s | one) -> a <= b -> exists x y, (x == inject_Z a)%Q /\ (y == inject_Z b)%Q /\
  first_last (rational_disp one (map (fun d => d * (one / s)) (zarange (a * s) (b * s + 1) 1))) x y.
Proof.
  intros Ho Hs (k & Hk) Hab. assert (one / s = k) as Ek by (rewrite Hk; apply Z.div_mul; lia). rewrite Ek.
  exists (inject_Z (a * s * k) / inject_Z one)%Q, (inject_Z (b * s * k) / inject_Z one)%Q.
  split; [replace (a * s * k) with (a * one) by (rewrite Hk; ring); now apply units_quotient|]. split; [replace (b * s * k) with (b * one) by (rewrite Hk; ring); now apply units_quotient|].
  unfold rational_disp, first_last. rewrite !map_length, zarange_length, Z.div_1_r. rewrite !nth_error_map.
  assert (E0 : nth_error (zarange (a * s) (b * s + 1) 1) 0 = Some (a * s)) by (apply zarange_nth; [lia|]; split; nia).
  assert (E1 : nth_error (zarange (a * s) (b * s + 1) 1) (Z.to_nat (b * s + 1 - a * s + 1 - 1) - 1) = Some (b * s)) by (apply zarange_nth; [lia|]; split; nia).
  rewrite E0, E1. split; reflexivity.
Qed.

Section Interpolated.
  Context {px : Type} (nan : px).
  Variable bool_ok : bool.
  Variable offset_of : dict -> Z.
  Variable one : Z.
  Variable store : ext -> ext.
  Variable filter_apply : dict -> list (list ext) -> Z -> Z -> ext.
  Variable lstsq : list (list px) -> list (list px) -> option (num * num).
  Variable resample : list (list px) -> num -> num -> list (list px).
  Variable junk : nat -> list (list px).
  Variable interp : list Q -> list Q -> list (list cost) -> num -> num -> cost.
  Variable minimise : (num -> num -> cost) -> num * num -> (Q * Q) * (Q * Q) -> num * num.
  Notation refine := (refine nan bool_ok offset_of one store filter_apply lstsq resample junk interp minimise).
  (** The refinement by interpolation succeeds; every pixel has no value, or disparities between the bounds of the cost volumes. *)
  Lemma refine_interpolation c inv mc mi (right : image px) cv col row score d : lookup "refinement_method" c = Some (JStr "interpolation") -> respects_bounds minimise ->
    wf_mc mi right -> 0 < one -> (Z.of_nat (mc_subpix mi) | one) -> mc_margins mi = Some (mkMargins 3 3 3 3) ->
    cv_disp_col cv = col_range mi -> cv_disp_row cv = row_range mi -> (0 < cv_nrow cv)%nat -> (0 < cv_ncol cv)%nat ->
    rect (cv_nrow cv) (cv_ncol cv) col -> rect (cv_nrow cv) (cv_ncol cv) row ->
    exists dc dr sc, refine c inv (mc, mi, in_units (one / Z.of_nat (mc_subpix mi)) cv) col row score d = Some (InPixels dc dr sc) /\
      rect (cv_nrow cv) (cv_ncol cv) dc /\ rect (cv_nrow cv) (cv_ncol cv) dr /\ rect (cv_nrow cv) (cv_ncol cv) sc /\
      forall r c, (r < cv_nrow cv)%nat -> (c < cv_ncol cv)%nat -> exists a b s, nth2 dc r c = Some a /\ nth2 dr r c = Some b /\ nth2 sc r c = Some s /\
        (a = None /\ b = None /\ s = CNan \/
         in_bounds (inject_Z (fst (mc_col_source mi) - 3)) (inject_Z (snd (mc_col_source mi) + 3)) a /\ in_bounds (inject_Z (fst (mc_row_source mi) - 3)) (inject_Z (snd (mc_row_source mi) + 3)) b).
  Proof.
    intros Lm B Wm Ho Hd Hmg Ec Er Hn Hm R1 R2. destruct Wm as (_ & _ & Hs & _ & _ & _ & _ & _ & Tr & Tc).
    pose proof (source_le_gen _ _ _ Tr) as Lr. pose proof (source_le_gen _ _ _ Tc) as Lc. set (s := Z.of_nat (mc_subpix mi)) in *.
    destruct (range_ends one s (fst (mc_col_source mi) - 3) (snd (mc_col_source mi) + 3) Ho ltac:(unfold s; lia) Hd ltac:(lia)) as (c0 & c1 & Q0 & Q1 & Fc).
    destruct (range_ends one s (fst (mc_row_source mi) - 3) (snd (mc_row_source mi) + 3) Ho ltac:(unfold s; lia) Hd ltac:(lia)) as (r0 & r1 & Q2 & Q3 & Fr).
    set (u := in_units (one / s) cv).
    assert (Fc' : first_last (rational_disp one (cv_disp_col u)) c0 c1). { cbn [u in_units cv_disp_col]. rewrite Ec. unfold col_range, margins_of. rewrite Hmg. exact Fc. }
    assert (Fr' : first_last (rational_disp one (cv_disp_row u)) r0 r1). { cbn [u in_units cv_disp_row]. rewrite Er. unfold row_range, margins_of. rewrite Hmg. exact Fr. }
    assert (M1 := rect_map (num_of_ext one) _ _ _ R1). assert (M2 := rect_map (num_of_ext one) _ _ _ R2).
    destruct (C33_in_place interp minimise (cv_measure u) _ _ _ _ _ _ _ _ Fc' Fr' Hn Hm (rational_volumes one u) _ _ eq_refl eq_refl M1 M2) as (dc & dr & sc & E & X1 & X2 & X3 & P).
    assert (Lec : (c0 <= c1)%Q) by (rewrite Q0, Q1, <- Zle_Qle; lia). assert (Ler : (r0 <= r1)%Q) by (rewrite Q2, Q3, <- Zle_Qle; lia).
    exists dc, dr, sc. split; [|split; [exact X1|]; split; [exact X2|]; split; [exact X3|]].
    - unfold WholeModel.refine. rewrite Lm. cbn [String.eqb Ascii.eqb Bool.eqb]. fold u. rewrite E. reflexivity.
    - intros r cc Hr Hc. destruct (nth2_some _ _ _ r cc M1 Hr Hc) as [x Hx]. destruct (nth2_some _ _ _ r cc M2 Hr Hc) as [y Hy].
      destruct (P r cc x y _ Hr Hc Hx Hy (cost_matrix_surface (rational_volumes one u) r cc Hr Hc)) as (a & b & v & E1 & E2 & E3 & N & U).
      exists a, b, v. do 3 (split; [assumption|]). destruct (nothing_dec (cv_measure u) (cost_matrix (rational_volumes one u) (r * a4_n1 (rational_volumes one u) + cc))) as [D|D]; [left; exact (N D)|]. right.
      destruct (U D) as (F & _ & Eab & _). destruct (B (interp (rational_disp one (cv_disp_col u)) (rational_disp one (cv_disp_row u)) F) (x, y) c0 c1 r0 r1 Lec Ler) as [B1 B2]. rewrite <- Eab in B1, B2.
      destruct B1 as (p & Ep & p1 & p2), B2 as (p' & Ep' & p3 & p4). cbn in Ep, Ep'. split; [exists p | exists p']; (split; [assumption|]); rewrite <- ?Q0, <- ?Q1, <- ?Q2, <- ?Q3; auto.
  Qed.
End Interpolated.
