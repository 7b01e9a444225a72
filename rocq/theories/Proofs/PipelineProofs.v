(** Proofs about whole runs. *)
From Coq Require Import ZArith List Lia Bool Arith.
From Verif Require Import Base.Ext Base.PyList Base.Arr Base.ZRange Model.CommonModel Model.ImgShiftModel Model.DisparityModel Model.MatchingCostModel
  Model.DichotomyModel Model.RoiModel Model.PipelineModel Spec.WtaSpec Spec.MatchingCostSpec Spec.DichotomySpec Spec.RoiSpec Spec.PipelineSpec
  Proofs.WtaProofs Proofs.WtaTheorems Proofs.MatchingCostProofs Proofs.MatchingCostTheorems Proofs.DichotomyProofs Proofs.DichotomyTheorems Proofs.RoiProofs.
Import ListNotations.
Open Scope Z_scope.

(** *** Units *)
Lemma units_nth k l i d : nth_error (map (fun d => d * k) l) i = Some d <-> exists d0, nth_error l i = Some d0 /\ d = d0 * k.
Proof.
  rewrite nth_error_map. destruct (nth_error l i) as [x|]; cbn; split.
  - intros [= <-]. eauto.
  - intros (d0 & [= <-] & ->). reflexivity.
  - discriminate.
  - intros (d0 & H & _). discriminate.
Qed.
Lemma units_user_col k cv i : user_col (in_units k cv) i <-> user_col cv i.
Proof. unfold user_col, margin_samples. cbn. rewrite map_length. reflexivity. Qed.
Lemma units_user_row k cv i : user_row (in_units k cv) i <-> user_row cv i.
Proof. unfold user_row, margin_samples. cbn. rewrite map_length. reflexivity. Qed.
Lemma units_wf k cv : wf_cv cv -> wf_cv (in_units k cv).
Proof.
  intros (H1 & H2 & (i & H3) & (j & H4)). split; [exact H1|]. split; [|split].
  - intros r c p H. cbn. rewrite !map_length. apply (H2 r c p H).
  - exists i. now apply units_user_col.
  - exists j. now apply units_user_row.
Qed.
Lemma units_computed k cv r c i j x : computed (in_units k cv) r c i j x <-> computed cv r c i j x.
Proof. unfold computed. rewrite units_user_col, units_user_row. reflexivity. Qed.

(** *** Winner takes all, with a property of the disparities that have a cost *)
Lemma wta_prop chunk inv cv (Pc Pr : nat -> nat -> Z -> Prop) : wf_cv cv ->
  (forall r c i j x di dj, computed cv r c i j x -> nth_error (cv_disp_col cv) i = Some di -> nth_error (cv_disp_row cv) j = Some dj ->
     (r < cv_nrow cv)%nat -> (c < cv_ncol cv)%nat -> x <> worst (cv_measure cv) /\ Pc r c di /\ Pr r c dj) ->
  exists mcol mrow score, compute_disp_maps chunk inv cv = Some (mcol, mrow, score) /\
    rect (cv_nrow cv) (cv_ncol cv) mcol /\ rect (cv_nrow cv) (cv_ncol cv) mrow /\ rect (cv_nrow cv) (cv_ncol cv) score /\
    forall r c, (r < cv_nrow cv)%nat -> (c < cv_ncol cv)%nat ->
      (nth2 mcol r c = Some inv /\ nth2 mrow r c = Some inv) \/
      (exists dc dr, nth2 mcol r c = Some (Fin dc) /\ nth2 mrow r c = Some (Fin dr) /\ In dc (cv_disp_col cv) /\ In dr (cv_disp_row cv) /\ Pc r c dc /\ Pr r c dr).
Proof.
  intros Wf H. destruct (wta_disparities_reach_best chunk inv cv Wf) as (mcol & mrow & score & Em & B).
  destruct (wta_invalid_iff chunk inv cv Wf) as (mcol' & mrow' & score' & Em' & R1 & R2 & R3 & I). rewrite Em in Em'. injection Em' as <- <- <-.
  exists mcol, mrow, score. split; [exact Em|]. split; [exact R1|]. split; [exact R2|]. split; [exact R3|]. intros r c Hr Hc.
  assert (CA : forall i j x, cost_at cv r c i j = Some x -> exists di dj, nth_error (cv_disp_col cv) i = Some di /\ nth_error (cv_disp_row cv) j = Some dj).
  { intros i j x Hx. unfold cost_at in Hx. destruct (nth2 (cv_data cv) r c) as [p|] eqn:Ep; [|discriminate].
    destruct Wf as (_ & Wp & _). apply Wp in Ep. apply (nth2_lt _ _ _ _ _ _ Ep) in Hx. destruct Hx as [X Y].
    apply nth_error_Some in X, Y. destruct (nth_error (cv_disp_col cv) i), (nth_error (cv_disp_row cv) j); try congruence. eauto. }
  assert (V : forall i j x, computed cv r c i j x -> exists di dj, nth_error (cv_disp_col cv) i = Some di /\ nth_error (cv_disp_row cv) j = Some dj /\
      x <> worst (cv_measure cv) /\ Pc r c di /\ Pr r c dj).
  { intros i j x C. destruct (CA i j x (proj1 (proj2 (proj2 C)))) as (di & dj & Ei & Ej). exists di, dj. split; [exact Ei|]. split; [exact Ej|]. eapply H; eauto. }
  assert (D : (forall dc dr x, user_col cv dc -> user_row cv dr -> cost_at cv r c dc dr = Some x -> x = NaN) \/ exists dc dr x, computed cv r c dc dr x).
  { destruct (nth2 (cv_data cv) r c) as [P|] eqn:EP.
    - pose proof (all_nan_computed cv r c P EP) as A. destruct (all_nan (plane_user cv P)).
      + left. intros dc dr x U1 U2 Hx. destruct (ext_eq_dec x NaN) as [|Hn]; auto. exfalso. destruct A as [_ A]. discriminate A. exists dc, dr, x. repeat split; auto.
      + right. apply A. auto.
    - left. intros dc dr x _ _ Hx. unfold cost_at in Hx. rewrite EP in Hx. discriminate. }
  destruct D as [D|D].
  - left. destruct (I r c Hr Hc) as [I1 _]. destruct (I1 D) as (? & ? & _). auto.
  - right. destruct (B r c Hr Hc) as (sc & i & j & di & dj & _ & Ei & Mi & Ej & Mj & (dr & C1) & (dc & C2) & _); auto.
    + intros dc dr C. destruct (V _ _ _ C) as (? & ? & _ & _ & X & _). congruence.
    + exists di, dj. split; [auto|]. split; [auto|]. split; [eapply nth_error_In; eauto|]. split; [eapply nth_error_In; eauto|].
      destruct (V _ _ _ C1) as (d1 & d2 & X1 & _ & _ & X2 & _). destruct (V _ _ _ C2) as (d3 & d4 & _ & X3 & _ & _ & X4).
      rewrite Ei in X1. rewrite Ej in X3. injection X1 as <-. injection X3 as <-. auto.
Qed.

(** *** Range of the maps of a run *)
Section Run.
  Context {px : Type} (px_eqb : px -> px -> bool).
  Variable pandora_cost : list (list px) -> list (list Z) -> nat -> nat -> nat -> ext.
  Variable zoomed : nat -> nat -> px.
  Variables (m : mc_input) (right : image px).
  Hypothesis wf : wf_mc m right.
  Variable one : Z.
  Hypothesis Hone : 0 < one.
  Hypothesis Hdiv : (Z.of_nat (mc_subpix m) | one).
  Let s := Z.of_nat (mc_subpix m).
  Let k := one / s.

  Lemma one_eq : one = s * k /\ 0 < k /\ 0 < s.
  Proof.
    destruct Hdiv as [q Hq]. assert (wf' := wf). destruct wf' as (_ & _ & W3 & _). assert (Hs : 0 < s) by (unfold s; lia).
    assert (k = q) by (unfold k; rewrite Hq; fold s; apply Z.div_mul; lia). rewrite H. fold s in Hq. split; [lia|]. split; [nia|exact Hs].
  Qed.
  Lemma scale_le a d b : a * s <= d <= b * s -> a * one <= d * k <= b * one.
  Proof. destruct one_eq as (E & Hk & Hs). rewrite E. nia. Qed.

  (** Coordinates of the volumes in the finest units. *)
  Lemma spaced_units l : (exists a b, l = zarange (a * s) (b * s + 1) 1) -> spaced one (mc_subpix m) (map (fun d => d * k) l).
  Proof.
    intros (a & b & ->). destruct one_eq as (E & Hk & Hs). exists k, (a * s * k). split; [exact Hk|]. split; [exact E|].
    intros j Hj. rewrite map_length in Hj. apply units_nth. exists (a * s + Z.of_nat j * 1). split; [|ring].
    destruct (nth_error (zarange (a * s) (b * s + 1) 1) j) as [x|] eqn:Ex; [|apply nth_error_None in Ex; lia]. apply zarange_nth in Ex; [|lia]. destruct Ex as [-> _]. reflexivity.
  Qed.

  Section Step1.
    Hypothesis Sr : mc_step_row m = 1.
    Hypothesis Sc : mc_step_col m = 1.
    Hypothesis Hw : forall a b r c i, pandora_cost a b r c i <> worst (mc_measure m).

    Lemma computed_in_range cv r c i j x di dj : compute_cost_volumes px_eqb pandora_cost zoomed m right = Some cv ->
      computed cv r c i j x -> nth_error (cv_disp_col cv) i = Some di -> nth_error (cv_disp_row cv) j = Some dj -> (r < mc_nrow m)%nat -> (c < mc_ncol m)%nat ->
      x <> worst (mc_measure m) /\ a2_get (mc_col_min m) r c * s <= di <= a2_get (mc_col_max m) r c * s /\ a2_get (mc_row_min m) r c * s <= dj <= a2_get (mc_row_max m) r c * s.
    Proof.
      intros E (Hi & Hj & Hx & Hn) Ei Ej Hr Hc.
      destruct (compute_cost_volumes_step1 px_eqb pandora_cost zoomed m right wf Sr Sc) as (cv' & E' & F1 & F2 & F3 & F4 & F5 & F6 & F7 & _ & _ & G). rewrite E in E'. injection E' as <-.
      destruct (user_col_range m cv F3 F5 F7) as [UC _]. destruct (user_row_range m cv F4 F5 F7) as [UR _].
      destruct (G r c i j di dj Hr Hc Ei Ej) as [G1 G2].
      assert (Dr : in_pixel_range m (mc_row_min m) (mc_row_max m) (mc_row_source m) r c dj \/ ~ in_pixel_range m (mc_row_min m) (mc_row_max m) (mc_row_source m) r c dj) by (unfold in_pixel_range; lia).
      assert (Dc : in_pixel_range m (mc_col_min m) (mc_col_max m) (mc_col_source m) r c di \/ ~ in_pixel_range m (mc_col_min m) (mc_col_max m) (mc_col_source m) r c di) by (unfold in_pixel_range; lia).
      destruct Dr as [Dr|Dr]; [|rewrite G2 in Hx by tauto; congruence]. destruct Dc as [Dc|Dc]; [|rewrite G2 in Hx by tauto; congruence].
      rewrite G1 in Hx by auto. split. { injection Hx as <-. apply Hw. }
      apply (UC i di Ei) in Hi. apply (UR j dj Ej) in Hj. unfold in_pixel_range in Dr, Dc. fold s in Dr, Dc, Hi, Hj |- *. tauto.
    Qed.
    Definition in_pixel (r c : nat) (row col : Z) : Prop :=
      in_range row (DichotomySpec.row_range one (left_grids m) r c) /\ in_range col (DichotomySpec.col_range one (left_grids m) r c).

    Lemma wta_in_range chunk inv cv : compute_cost_volumes px_eqb pandora_cost zoomed m right = Some cv ->
      exists mcol mrow score, compute_disp_maps chunk inv (in_units k cv) = Some (mcol, mrow, score) /\
        rect (cv_nrow cv) (cv_ncol cv) mcol /\ rect (cv_nrow cv) (cv_ncol cv) mrow /\ rect (cv_nrow cv) (cv_ncol cv) score /\
        forall r c, (r < mc_nrow m)%nat -> (c < mc_ncol m)%nat ->
          (nth2 mcol r c = Some inv /\ nth2 mrow r c = Some inv) \/
          (exists dc dr, nth2 mcol r c = Some (Fin dc) /\ nth2 mrow r c = Some (Fin dr) /\ In dc (cv_disp_col (in_units k cv)) /\ In dr (cv_disp_row (in_units k cv)) /\ in_pixel r c dr dc).
    Proof.
      intros E. destruct (compute_cost_volumes_step1 px_eqb pandora_cost zoomed m right wf Sr Sc) as (cv' & E' & F1 & F2 & _ & _ & _ & F6 & _). rewrite E in E'. injection E' as <-.
      destruct (wta_prop chunk inv (in_units k cv) (fun r c d => in_range d (DichotomySpec.col_range one (left_grids m) r c)) (fun r c d => in_range d (DichotomySpec.row_range one (left_grids m) r c)))
        as (mcol & mrow & score & Em & R1 & R2 & R3 & P).
      - apply units_wf. exact (compute_wf_cv px_eqb pandora_cost zoomed m right wf cv E).
      - intros r c i j x di dj C Ei Ej Hr Hc. cbn in Ei, Ej, Hr, Hc. rewrite F1 in Hr. rewrite F2 in Hc. apply units_nth in Ei, Ej. destruct Ei as (d0 & Ei & ->), Ej as (d1 & Ej & ->). assert (C0 := proj1 (units_computed k cv r c i j x) C).
        destruct (computed_in_range cv r c i j x d0 d1 E C0 Ei Ej Hr Hc) as (W & A & B). cbn [cv_measure in_units]. rewrite F6. split; [exact W|]. unfold in_range. cbn. split; apply scale_le; assumption.
      - exists mcol, mrow, score. split; [exact Em|]. split; [exact R1|]. split; [exact R2|]. split; [exact R3|]. intros r c Hr Hc.
        destruct (P r c) as [Q|(dc & dr & N1 & N2 & I1 & I2 & A & B)]; [cbn; lia|cbn; lia|left; exact Q|]. right. exists dc, dr. unfold in_pixel. auto 10.
    Qed.

    (** What the refinement needs. *)
    Lemma run_ready flt iterations inv cv mcol mrow margins : compute_cost_volumes px_eqb pandora_cost zoomed m right = Some cv ->
      (2 ^ Z.of_nat iterations | one) -> (exists e, mc_subpix m = (2 ^ e)%nat) -> mc_margins m = Some margins -> covered flt margins ->
      rect (cv_nrow cv) (cv_ncol cv) mcol -> rect (cv_nrow cv) (cv_ncol cv) mrow ->
      (forall r c, (r < mc_nrow m)%nat -> (c < mc_ncol m)%nat ->
          (nth2 mcol r c = Some inv /\ nth2 mrow r c = Some inv) \/
          (exists dc dr, nth2 mcol r c = Some (Fin dc) /\ nth2 mrow r c = Some (Fin dr) /\ In dc (cv_disp_col (in_units k cv)) /\ In dr (cv_disp_row (in_units k cv)) /\ in_pixel r c dr dc)) ->
      ready one flt iterations (in_units k cv) inv mcol mrow (left_grids m).
    Proof.
      intros E Hp Hs Em Hcov R1 R2 P.
      destruct (compute_cost_volumes_step1 px_eqb pandora_cost zoomed m right wf Sr Sc) as (cv' & E' & F1 & F2 & F3 & F4 & F5 & F6 & F7 & _ & _ & _). rewrite E in E'. injection E' as <-.
      destruct (user_col_range m cv F3 F5 F7) as [_ UC]. destruct (user_row_range m cv F4 F5 F7) as [_ UR].
      assert (wf' := wf). destruct wf' as (W1 & W2 & W3 & _ & _ & W4 & W5 & Hg & Tr & Tc). destruct one_eq as (E1 & Hk & Hs0).
      split; [exact Hone|]. split; [exact Hp|]. split; [cbn; rewrite F5; exact Hs|]. split; [apply units_wf; exact (compute_wf_cv px_eqb pandora_cost zoomed m right wf cv E)|].
      split. { cbn. rewrite F5, F3. apply spaced_units. unfold col_range, margins_of. destruct (mc_margins m) as [g|]; eauto. }
      split. { cbn. rewrite F5, F4. apply spaced_units. unfold row_range, margins_of. destruct (mc_margins m) as [g|]; eauto. }
      split. { exists margins. cbn. rewrite F7. auto. }
      split; [exact R1|]. split; [exact R2|].
      split. { intros a Ha. cbn. rewrite F1, F2. apply Hg. cbn in Ha. destruct Ha as [<-|[<-|[<-|[<-|[]]]]]; auto. }
      intros r c Hr Hc. cbn in Hr, Hc. rewrite F1 in Hr. rewrite F2 in Hc.
      assert (Gr : in2 (mc_row_min m) r c) by (split; [rewrite (proj1 (Hg (mc_row_min m) ltac:(auto)))|rewrite (proj2 (Hg (mc_row_min m) ltac:(auto)))]; assumption).
      assert (Gc : in2 (mc_col_min m) r c) by (split; [rewrite (proj1 (Hg (mc_col_min m) ltac:(auto)))|rewrite (proj2 (Hg (mc_col_min m) ltac:(auto)))]; assumption).
      destruct (proj1 Tr r c Gr) as (T1 & T2 & T3). destruct (proj1 Tc r c Gc) as (T4 & T5 & T6). fold s in UC, UR.
      assert (UR' : forall v, fst (mc_row_source m) <= v <= snd (mc_row_source m) -> user_disparity_row (in_units k cv) (v * one)).
      { intros v Hv. destruct (UR (v * s)) as (i & Ui & Ei); [nia|]. exists i. split; [apply units_user_row; exact Ui|]. apply units_nth. exists (v * s). split; [exact Ei|]. rewrite E1 at 1. ring. }
      assert (UC' : forall v, fst (mc_col_source m) <= v <= snd (mc_col_source m) -> user_disparity_col (in_units k cv) (v * one)).
      { intros v Hv. destruct (UC (v * s)) as (i & Ui & Ei); [nia|]. exists i. split; [apply units_user_col; exact Ui|]. apply units_nth. exists (v * s). split; [exact Ei|]. rewrite E1 at 1. ring. }
      split; [apply UR'; cbn; lia|]. split; [apply UR'; cbn; lia|]. split; [apply UC'; cbn; lia|]. split; [apply UC'; cbn; lia|].
      destruct (P r c Hr Hc) as [[Q1 Q2]|(dc & dr & N1 & N2 & I1 & I2 & A & B)]; [auto|]. split; right; [exists dr|exists dc]; auto.
    Qed.

    Variable store : ext -> ext.
    Variable dichotomy : option (filter * nat).
    Hypothesis Hdich : forall flt iterations, dichotomy = Some (flt, iterations) ->
      rounding store /\ (2 ^ Z.of_nat iterations | one) /\ (exists e, mc_subpix m = (2 ^ e)%nat) /\ (exists margins, mc_margins m = Some margins /\ covered flt margins) /\
      (forall a b r c i, pandora_cost a b r c i = NaN \/ store (pandora_cost a b r c i) = pandora_cost a b r c i).

    Lemma run_in_range chunk inv : exists mcol mrow score, run_maps px_eqb pandora_cost zoomed one store chunk inv dichotomy m right = Some (mcol, mrow, score) /\
      rect (mc_nrow m) (mc_ncol m) mcol /\ rect (mc_nrow m) (mc_ncol m) mrow /\ rect (mc_nrow m) (mc_ncol m) score /\
      forall r c, (r < mc_nrow m)%nat -> (c < mc_ncol m)%nat ->
        (nth2 mcol r c = Some inv /\ nth2 mrow r c = Some inv) \/
        (exists dc dr, nth2 mcol r c = Some (Fin dc) /\ nth2 mrow r c = Some (Fin dr) /\ in_pixel r c dr dc).
    Proof.
      destruct (compute_cost_volumes_step1 px_eqb pandora_cost zoomed m right wf Sr Sc) as (cv & E & F1 & F2 & F3 & F4 & F5 & F6 & F7 & D1 & D2 & G).
      destruct (wta_in_range chunk inv cv E) as (mcol & mrow & score & Em & R1 & R2 & R3 & P). rewrite F1, F2 in *.
      unfold run_maps. rewrite E. cbn [bind]. fold s. fold k. rewrite Em. cbn [bind]. destruct dichotomy as [[flt iterations]|] eqn:Ed.
      2: { exists mcol, mrow, score. split; [reflexivity|]. split; [exact R1|]. split; [exact R2|]. split; [exact R3|]. intros r c Hr Hc.
           destruct (P r c Hr Hc) as [Q|(dc & dr & N1 & N2 & _ & _ & A)]; [left; exact Q|right; eauto]. }
      destruct (Hdich flt iterations eq_refl) as (Rd & Hp & Hs & (margins & Emg & Hcov) & Hst).
      assert (Rdy : ready one flt iterations (in_units k cv) inv mcol mrow (left_grids m)).
      { apply (run_ready flt iterations inv cv mcol mrow margins E Hp Hs Emg Hcov); [rewrite F1, F2; exact R1|rewrite F1, F2; exact R2|exact P]. }
      assert (Ord : ordinary_costs store (in_units k cv)).
      { intros r c i j x Hx. change (cost_at cv r c i j = Some x) in Hx.
        destruct (Nat.lt_ge_cases r (mc_nrow m)) as [Hr|Hr]; [|exfalso; unfold cost_at in Hx; destruct (nth2 (cv_data cv) r c) eqn:Ep; [|discriminate]; apply (nth2_lt _ _ _ _ _ _ D1) in Ep; lia].
        destruct (Nat.lt_ge_cases c (mc_ncol m)) as [Hc|Hc]; [|exfalso; unfold cost_at in Hx; destruct (nth2 (cv_data cv) r c) eqn:Ep; [|discriminate]; apply (nth2_lt _ _ _ _ _ _ D1) in Ep; lia].
        assert (Hij : exists di dj, nth_error (cv_disp_col cv) i = Some di /\ nth_error (cv_disp_row cv) j = Some dj).
        { unfold cost_at in Hx. destruct (nth2 (cv_data cv) r c) as [p|] eqn:Ep; [|discriminate]. apply D2 in Ep. apply (nth2_lt _ _ _ _ _ _ Ep) in Hx. destruct Hx as [X Y].
          apply nth_error_Some in X, Y. destruct (nth_error (cv_disp_col cv) i), (nth_error (cv_disp_row cv) j); try congruence. eauto. }
        destruct Hij as (di & dj & Hi & Hj). destruct (G r c i j di dj Hr Hc Hi Hj) as [G1 G2].
        assert (Dec : (in_pixel_range m (mc_row_min m) (mc_row_max m) (mc_row_source m) r c dj /\ in_pixel_range m (mc_col_min m) (mc_col_max m) (mc_col_source m) r c di) \/
                      ~ (in_pixel_range m (mc_row_min m) (mc_row_max m) (mc_row_source m) r c dj /\ in_pixel_range m (mc_col_min m) (mc_col_max m) (mc_col_source m) r c di)) by (unfold in_pixel_range; lia).
        destruct Dec as [Y|N]; [rewrite (G1 Y) in Hx|rewrite (G2 N) in Hx; left; congruence]. injection Hx as <-.
        unfold MatchingCostProofs.cost_for. destruct (Hst (to_list2 (ShiftSpec.right_moved zoomed right (mc_subpix m) dj)) (to_list2 (ShiftSpec.moved_mask px_eqb zoomed right (mc_subpix m) dj)) r c i) as [Hn|Hn]; [left; exact Hn|right].
        split; [|exact Hn]. cbn. rewrite F6. specialize (Hw (to_list2 (ShiftSpec.right_moved zoomed right (mc_subpix m) dj)) (to_list2 (ShiftSpec.moved_mask px_eqb zoomed right (mc_subpix m) dj)) r c i).
        unfold worst, worst_cost in *. destruct (mc_measure m); exact Hw. }
      destruct (total_theorem one store flt iterations (in_units k cv) inv mcol mrow (left_grids m) Rdy Rd Ord) as ([[mc mr] sc] & Er). rewrite Er.
      destruct (refinement_rect _ _ _ _ _ _ _ _ _ _ _ _ Er) as (S1 & S2 & S3). cbn in S1, S2, S3. rewrite F1, F2 in S1, S2, S3.
      exists mc, mr, sc. split; [reflexivity|]. split; [exact S1|]. split; [exact S2|]. split; [exact S3|]. intros r c Hr Hc.
      assert (Shape : same_shape (in_units k cv) (left_grids m)) by apply Rdy.
      assert (Kept := kept_theorem one store flt iterations (in_units k cv) inv mcol mrow (left_grids m) mc mr sc r c Shape Er ltac:(cbn; lia) ltac:(cbn; lia)).
      destruct (P r c Hr Hc) as [[Q1 Q2]|(dc & dr & N1 & N2 & I1 & I2 & A & B)].
      - destruct (Kept (or_introl Q2)) as [K1 K2]. left. rewrite K1, K2. auto.
      - right. destruct (ext_eq_dec (Fin dr) inv) as [Eir|Nir]. { destruct (Kept ltac:(left; congruence)) as [K1 K2]. exists dc, dr. rewrite K1, K2. unfold in_pixel. auto. }
        destruct (ext_eq_dec (Fin dc) inv) as [Eic|Nic]. { destruct (Kept ltac:(right; left; congruence)) as [K1 K2]. exists dc, dr. rewrite K1, K2. unfold in_pixel. auto. }
        assert (Hr' : at_an_end dr (DichotomySpec.row_range one (left_grids m) r c) \/ strictly_in dr (DichotomySpec.row_range one (left_grids m) r c)) by (unfold at_an_end, strictly_in; unfold in_range in A; lia).
        destruct Hr' as [Hr'|Hr']. { destruct (Kept ltac:(right; right; left; eauto)) as [K1 K2]. exists dc, dr. rewrite K1, K2. unfold in_pixel. auto. }
        assert (Hc' : at_an_end dc (DichotomySpec.col_range one (left_grids m) r c) \/ strictly_in dc (DichotomySpec.col_range one (left_grids m) r c)) by (unfold at_an_end, strictly_in; unfold in_range in B; lia).
        destruct Hc' as [Hc'|Hc']. { destruct (Kept ltac:(right; right; right; left; eauto)) as [K1 K2]. exists dc, dr. rewrite K1, K2. unfold in_pixel. auto. }
        apply In_nth_error in I1, I2. destruct I1 as [i Hi], I2 as [j Hj].
        assert (X : exists x, cost_at (in_units k cv) r c i j = Some x).
        { unfold cost_at. change (cv_data (in_units k cv)) with (cv_data cv). destruct (nth2_some _ _ _ r c D1 Hr Hc) as (p & Ep). rewrite Ep. apply D2 in Ep.
          apply (nth2_some _ _ _ _ _ Ep); [rewrite <- (map_length (fun d => d * k))|rewrite <- (map_length (fun d => d * k))]; apply nth_error_Some; cbn in Hi, Hj; congruence. }
        destruct X as (x & Hx).
        destruct (range_theorem one store flt iterations (in_units k cv) inv mcol mrow (left_grids m) Rdy mc mr sc r c dr dc i j x Er) as (row' & col' & M1 & M2 & M3 & M4); auto.
        { cbn; lia. } { cbn; lia. } { split; [exact N2|]. split; [exact N1|]. auto. } { split; [exact Hi|]. split; [exact Hj|exact Hx]. }
        exists col', row'. split; [exact M2|]. split; [exact M1|]. unfold in_pixel, in_range. unfold strictly_in in M3, M4. lia.
    Qed.
  End Step1.
End Run.

(** *** Saving *)
Lemma keep_nth {B} first lst coords (v : list B) : length v = length coords ->
  length (keep first lst coords v) = length (List.filter (in_roi first lst) coords) /\
  forall a x, nth_error (List.filter (in_roi first lst) coords) a = Some x ->
    exists i, nth_error coords i = Some x /\ nth_error (keep first lst coords v) a = nth_error v i.
Proof.
  unfold keep. revert v. induction coords as [|y l IH]; intros [|w v] L; try discriminate.
  - split; [reflexivity|]. intros [|a] x H; discriminate.
  - cbn [combine List.filter fst map length] in *. injection L as L. destruct (IH v L) as [I1 I2].
    destruct (in_roi first lst y) eqn:E; cbn [List.filter fst map snd length].
    + split; [cbn; lia|]. intros [|a] x H.
      * cbn in H. injection H as <-. exists O. auto.
      * cbn in H. destruct (I2 a x H) as (i & A & C). exists (S i). auto.
    + split; [exact I1|]. intros a x H. destruct (I2 a x H) as (i & A & C). exists (S i). auto.
Qed.
Lemma crop_nth {A} r rows cols (mp : list (list A)) : rect (length rows) (length cols) mp ->
  rect (length (List.filter (in_roi (roi_r0 r) (roi_r1 r)) rows)) (length (List.filter (in_roi (roi_c0 r) (roi_c1 r)) cols)) (crop r rows cols mp).
Proof.
  intros [L F]. unfold crop. split; [rewrite map_length; apply keep_nth; exact L|]. apply Forall_forall. intros row H. apply in_map_iff in H. destruct H as (row0 & <- & H).
  apply keep_incl in H. rewrite Forall_forall in F. apply keep_nth. apply F. exact H.
Qed.

(** Two indices in the volumes for a saved pixel, the same for all the maps. *)
Lemma keep_index first lst coords a x : nth_error (List.filter (in_roi first lst) coords) a = Some x ->
  exists i, nth_error coords i = Some x /\ forall B (v : list B), length v = length coords -> nth_error (keep first lst coords v) a = nth_error v i.
Proof.
  unfold keep. revert a. induction coords as [|y l IH]; intros a H; [destruct a; discriminate|]. cbn [List.filter] in H.
  destruct (in_roi first lst y) eqn:E.
  - destruct a as [|a].
    + cbn in H. injection H as <-. exists O. split; [reflexivity|]. intros B [|w v] L; [discriminate|]. cbn [combine List.filter fst map]. rewrite E. reflexivity.
    + cbn in H. destruct (IH a H) as (i & A & C). exists (S i). split; [exact A|]. intros B [|w v] L; [discriminate|]. injection L as L. cbn [combine List.filter fst map]. rewrite E. cbn. apply C. exact L.
  - destruct (IH a H) as (i & A & C). exists (S i). split; [exact A|]. intros B [|w v] L; [discriminate|]. injection L as L. cbn [combine List.filter fst map]. rewrite E. cbn. apply C. exact L.
Qed.
Lemma crop_index {A} r rows cols a b x y : nth_error (List.filter (in_roi (roi_r0 r) (roi_r1 r)) rows) a = Some x -> nth_error (List.filter (in_roi (roi_c0 r) (roi_c1 r)) cols) b = Some y ->
  exists i j, nth_error rows i = Some x /\ nth_error cols j = Some y /\
    forall mp : list (list A), rect (length rows) (length cols) mp -> nth2 (crop r rows cols mp) a b = nth2 mp i j.
Proof.
  intros Ha Hb. destruct (keep_index _ _ _ _ _ Ha) as (i & Ei & Ki). destruct (keep_index _ _ _ _ _ Hb) as (j & Ej & Kj). exists i, j. split; [exact Ei|]. split; [exact Ej|].
  intros mp [L F]. unfold nth2, crop. rewrite nth_error_map, (Ki _ mp L). destruct (nth_error mp i) as [row|] eqn:Er; [|reflexivity]. cbn. apply Kj.
  rewrite Forall_forall in F. apply F. eapply nth_error_In; eauto.
Qed.

(** *** A pixel of the maps depends on its own costs only *)
Section Local.
  Context {px px' : Type} (px_eqb : px -> px -> bool) (px_eqb' : px' -> px' -> bool).
  Variable pandora_cost : list (list px) -> list (list Z) -> nat -> nat -> nat -> ext.
  Variable pandora_cost' : list (list px') -> list (list Z) -> nat -> nat -> nat -> ext.
  Variable zoomed : nat -> nat -> px.
  Variable zoomed' : nat -> nat -> px'.
  Variables (m m' : mc_input) (right : image px) (right' : image px').
  Hypothesis wf : wf_mc m right.
  Hypothesis wf' : wf_mc m' right'.
  Hypothesis frame : same_frame m m'.
  Variables (one : Z) (store : ext -> ext) (chunk chunk' : nat) (inv : ext) (dichotomy : option (filter * nat)).

  Lemma frame_coords : row_coords m' = row_coords m /\ col_coords m' = col_coords m.
  Proof. destruct frame as (H1 & H2 & H3 & H4 & H5 & H6 & H7 & H8 & H9 & H10 & H11 & H12). unfold row_coords, col_coords. rewrite H1, H2, H3, H4, H8, H9, H12. auto. Qed.
  Lemma frame_ranges : row_range m' = row_range m /\ col_range m' = col_range m.
  Proof. destruct frame as (H1 & H2 & H3 & H4 & H5 & H6 & H7 & H8 & H9 & H10 & H11 & H12). unfold row_range, col_range, margins_of. rewrite H5, H6, H7, H11. auto. Qed.

  Lemma run_local cv cv' mcol mrow sc mcol' mrow' sc' r c :
    compute_cost_volumes px_eqb pandora_cost zoomed m right = Some cv -> compute_cost_volumes px_eqb' pandora_cost' zoomed' m' right' = Some cv' ->
    run_maps px_eqb pandora_cost zoomed one store chunk inv dichotomy m right = Some (mcol, mrow, sc) ->
    run_maps px_eqb' pandora_cost' zoomed' one store chunk' inv dichotomy m' right' = Some (mcol', mrow', sc') ->
    (r < length (row_coords m))%nat -> (c < length (col_coords m))%nat ->
    nth2 (cv_data cv) r c = nth2 (cv_data cv') r c ->
    (dichotomy <> None -> (mc_step_row m = 1 /\ mc_step_col m = 1) /\
      a2_get (mc_row_min m') r c = a2_get (mc_row_min m) r c /\ a2_get (mc_row_max m') r c = a2_get (mc_row_max m) r c /\
      a2_get (mc_col_min m') r c = a2_get (mc_col_min m) r c /\ a2_get (mc_col_max m') r c = a2_get (mc_col_max m) r c) ->
    nth2 mcol r c = nth2 mcol' r c /\ nth2 mrow r c = nth2 mrow' r c /\ nth2 sc r c = nth2 sc' r c.
  Proof.
    intros E E' Er Er' Hr Hc Ep Hd. pose proof frame_coords as [FC1 FC2]. pose proof frame_ranges as [FR1 FR2].
    destruct (compute_fields px_eqb pandora_cost zoomed m right wf cv E) as (F1 & F2 & F3 & F4 & F5 & F6 & F7 & F8 & _).
    destruct (compute_fields px_eqb' pandora_cost' zoomed' m' right' wf' cv' E') as (G1 & G2 & G3 & G4 & G5 & G6 & G7 & G8 & _).
    assert (fr := frame). destruct fr as (H1 & H2 & H3 & H4 & H5 & H6 & H7 & H8 & H9 & H10 & H11 & H12).
    unfold run_maps in Er, Er'. rewrite E in Er. rewrite E' in Er'. cbn [bind] in Er, Er'. rewrite H7 in Er'. set (k := one / Z.of_nat (mc_subpix m)) in *.
    assert (W : wf_cv (in_units k cv)) by (apply units_wf; exact (compute_wf_cv px_eqb pandora_cost zoomed m right wf cv E)).
    assert (W' : wf_cv (in_units k cv')) by (apply units_wf; exact (compute_wf_cv px_eqb' pandora_cost' zoomed' m' right' wf' cv' E')).
    destruct (wta_pixelwise chunk 1%nat inv _ W) as (a1 & a2 & a3 & Ew & Pw). destruct (wta_pixelwise chunk' 1%nat inv _ W') as (b1 & b2 & b3 & Ew' & Pw').
    rewrite Ew in Er. rewrite Ew' in Er'. cbn [bind] in Er, Er'.
    rewrite <- F1 in Hr. rewrite <- F2 in Hc. destruct (nth2_some _ _ _ r c F8 Hr Hc) as (P & EP). assert (EP' : nth2 (cv_data cv') r c = Some P) by congruence.
    destruct (Pw r c P EP) as (dc & dr & s & A1 & A2 & A3 & A4). destruct (Pw' r c P EP') as (dc' & dr' & s' & B1 & B2 & B3 & B4).
    assert (O : one_pixel (in_units k cv') P = one_pixel (in_units k cv) P).
    { unfold one_pixel, in_units. cbn. rewrite F3, F4, F5, F6, F7, G3, G4, G5, G6, G7, FR1, FR2, H7, H10, H11. reflexivity. }
    rewrite O, A4 in B4. injection B4 as <- <- <-.
    destruct dichotomy as [[flt iterations]|] eqn:Ed.
    2: { injection Er as <- <- <-. injection Er' as <- <- <-. rewrite A1, A2, A3, B1, B2, B3. auto. }
    destruct Hd as [(S1 & S2) (D1 & D2 & D3 & D4)]; [discriminate|].
    destruct (step1_lengths m right wf S1 S2) as (L1 & L2 & _).
    assert (Hr' : (r < cv_nrow (in_units k cv))%nat) by exact Hr. assert (Hc' : (c < cv_ncol (in_units k cv))%nat) by exact Hc.
    assert (Ir : (r < cv_nrow (in_units k cv'))%nat) by (cbn; lia || (cbn; rewrite G1, FC1; lia)). assert (Ic : (c < cv_ncol (in_units k cv'))%nat) by (cbn; rewrite G2, FC2; lia).
    destruct (refinement_nth _ _ _ _ _ _ _ _ _ _ _ _ r c Er Hr' Hc') as (x & row & col & R1 & R2 & R3 & R4).
    destruct (refinement_nth _ _ _ _ _ _ _ _ _ _ _ _ r c Er' Ir Ic) as (x' & row' & col' & Q1 & Q2 & Q3 & Q4).
    rewrite R2, R3, R4, Q2, Q3, Q4. cut (Some (x', row', col') = Some (x, row, col)). { intros [= -> -> ->]. auto. }
    rewrite <- R1, <- Q1. assert (wf0 := wf). assert (wf1 := wf'). destruct wf0 as (_ & _ & _ & _ & _ & _ & _ & Hg & _). destruct wf1 as (_ & _ & _ & _ & _ & _ & _ & Hg' & _).
    unfold refine_at. change (cv_data (in_units k cv)) with (cv_data cv). change (cv_data (in_units k cv')) with (cv_data cv'). rewrite EP, EP', A1, A2, B1, B2.
    assert (Ga : forall g, (g = mc_row_min m \/ g = mc_row_max m \/ g = mc_col_min m \/ g = mc_col_max m) -> grid_at g (cv_nrow (in_units k cv)) (cv_ncol (in_units k cv)) r c = Some (a2_get g r c)).
    { intros g Hi. apply grid_at_shape. cbn. rewrite F1, F2, L1, L2. apply Hg. exact Hi. }
    assert (Gb : forall g, (g = mc_row_min m' \/ g = mc_row_max m' \/ g = mc_col_min m' \/ g = mc_col_max m') -> grid_at g (cv_nrow (in_units k cv')) (cv_ncol (in_units k cv')) r c = Some (a2_get g r c)).
    { intros g Hi. apply grid_at_shape. cbn. rewrite G1, G2, FC1, FC2, L1, L2, <- H2, <- H4. apply Hg'. exact Hi. }
    unfold left_grids. cbn [g_row_min g_row_max g_col_min g_col_max]. rewrite !Ga, !Gb by auto. rewrite D1, D2, D3, D4. unfold cost_value. cbn [in_units cv_disp_col cv_disp_row cv_measure cv_subpix].
    rewrite F3, F4, F5, F6, G3, G4, G5, G6, FR1, FR2, H7, H10. reflexivity.
  Qed.

  Lemma run_maps_rect mcol mrow sc : run_maps px_eqb pandora_cost zoomed one store chunk inv dichotomy m right = Some (mcol, mrow, sc) ->
    rect (length (row_coords m)) (length (col_coords m)) mcol /\ rect (length (row_coords m)) (length (col_coords m)) mrow /\ rect (length (row_coords m)) (length (col_coords m)) sc.
  Proof.
    unfold run_maps. intros H. destruct (compute_cost_volumes px_eqb pandora_cost zoomed m right) as [cv|] eqn:E; [|discriminate]. cbn [bind] in H.
    destruct (compute_fields px_eqb pandora_cost zoomed m right wf cv E) as (F1 & F2 & F3 & F4 & F5 & F6 & F7 & F8 & _). rewrite <- F1, <- F2.
    set (k := one / Z.of_nat (mc_subpix m)) in *.
    destruct (wta_invalid_iff chunk inv (in_units k cv) (units_wf k cv (compute_wf_cv px_eqb pandora_cost zoomed m right wf cv E))) as (a1 & a2 & a3 & Ew & R1 & R2 & R3 & _).
    rewrite Ew in H. cbn [bind] in H. destruct dichotomy as [[flt iterations]|].
    - apply refinement_rect in H. exact H.
    - injection H as <- <- <-. auto.
  Qed.
End Local.
Lemma coords_unique {px} (m : mc_input) (right : image px) : wf_mc m right ->
  (forall r r' x, nth_error (row_coords m) r = Some x -> nth_error (row_coords m) r' = Some x -> r = r') /\
  (forall r r' x, nth_error (col_coords m) r = Some x -> nth_error (col_coords m) r' = Some x -> r = r').
Proof.
  intros wf. destruct (row_coords_shape m right wf) as (s1 & -> & _). destruct (col_coords_shape m right wf) as (s2 & -> & _). destruct wf as (_ & _ & _ & Hr & Hc & _).
  split; intros r r' x H H'; (apply zarange_nth in H; [|lia]); (apply zarange_nth in H'; [|lia]); nia.
Qed.
Lemma col_coords_in {px} (m : mc_input) (right : image px) x : wf_mc m right -> In x (col_coords m) -> mc_col0 m <= x < mc_col0 m + Z.of_nat (mc_ncol m).
Proof. intros wf. destruct (col_coords_shape m right wf) as (st & -> & Hst & _). destruct wf as (_ & _ & _ & _ & Hsc & _). rewrite zarange_In by lia. lia. Qed.
