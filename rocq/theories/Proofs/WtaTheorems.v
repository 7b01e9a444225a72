From Coq Require Import ZArith List Lia Bool Arith.
From Verif Require Import Base.Ext Base.PyList Model.DisparityModel Spec.WtaSpec Proofs.ChunkProofs Proofs.WtaProofs.
Import ListNotations.

Lemma all_nan_false P : all_nan P = false <-> exists dc dr x, nth2 P dc dr = Some x /\ x <> NaN.
Proof.
  unfold all_nan. split.
  - intros H. induction P as [|l P IH]; simpl in H; try discriminate.
    apply andb_false_iff in H. destruct H as [H|H].
    + assert (exists dr x, nth_error l dr = Some x /\ x <> NaN) as (dr & x & Hx & Hn).
      { clear IH. induction l as [|a l IHl]; simpl in H; try discriminate.
        apply andb_false_iff in H. destruct H as [H|H].
        - exists 0, a. split; auto. intros ->. discriminate.
        - destruct (IHl H) as (dr & x & Hx & Hn). exists (S dr), x. auto. }
      exists 0, dr, x. auto.
    + destruct (IH H) as (dc & dr & x & Hx & Hn). exists (S dc), dr, x. auto.
  - intros (dc & dr & x & Hx & Hn). destruct (forallb (forallb ext_isnan) P) eqn:E; auto.
    exfalso. apply nth2_In in Hx. destruct Hx as (row & Hrow & Hx).
    rewrite forallb_forall in E. specialize (E row Hrow). rewrite forallb_forall in E.
    specialize (E x Hx). destruct x; try discriminate. congruence.
Qed.

Lemma computed_plane cv r c P dc dr x :
  nth2 (cv_data cv) r c = Some P ->
  (computed cv r c dc dr x <->
   user_col cv dc /\ user_row cv dr /\ nth2 (plane_user cv P) (dc - user_l cv) (dr - user_u cv) = Some x /\ x <> NaN).
Proof.
  intros HP. unfold computed, cost_at. rewrite HP.
  rewrite user_col_eq, user_row_eq, plane_user_nth.
  split; intros (H1 & H2 & H3 & H4); repeat (split; [solve [auto]|]).
  - replace (user_l cv + (dc - user_l cv)) with dc by lia.
    replace (user_u cv + (dr - user_u cv)) with dr by lia.
    replace (dc <? _) with true by (symmetry; apply Nat.ltb_lt; lia).
    replace (dr <? _) with true by (symmetry; apply Nat.ltb_lt; lia). simpl. auto.
  - replace (user_l cv + (dc - user_l cv)) with dc in H3 by lia.
    replace (user_u cv + (dr - user_u cv)) with dr in H3 by lia.
    destruct (_ && _); try discriminate. auto.
Qed.

Lemma plane_computed cv r c P i j x :
  nth2 (cv_data cv) r c = Some P -> nth2 (plane_user cv P) i j = Some x -> x <> NaN ->
  computed cv r c (user_l cv + i) (user_u cv + j) x.
Proof.
  intros HP Hx Hn. apply (computed_plane cv r c P _ _ x HP).
  rewrite user_col_eq, user_row_eq.
  pose proof Hx as Hx'. rewrite plane_user_nth in Hx'.
  destruct (Nat.ltb_spec (user_l cv + i) (length (cv_disp_col cv) - user_r cv)); try discriminate.
  destruct (Nat.ltb_spec (user_u cv + j) (length (cv_disp_row cv) - user_d cv)); try discriminate.
  replace (user_l cv + i - user_l cv) with i by lia.
  replace (user_u cv + j - user_u cv) with j by lia.
  repeat split; auto; lia.
Qed.

Lemma all_nan_computed cv r c P : nth2 (cv_data cv) r c = Some P ->
  (all_nan (plane_user cv P) = false <-> exists dc dr x, computed cv r c dc dr x).
Proof.
  intros HP. rewrite all_nan_false. split.
  - intros (i & j & x & Hx & Hn). exists (user_l cv + i), (user_u cv + j), x. eapply plane_computed; eauto.
  - intros (dc & dr & x & H). apply (computed_plane cv r c P dc dr x HP) in H. destruct H as (_ & _ & H & Hn). eauto.
Qed.

Lemma fill_nth t P i j x : nth2 (map (map (fill_nan t)) P) i j = Some x ->
  exists y, nth2 P i j = Some y /\ x = fill_nan t y.
Proof. rewrite nth2_map. destruct (nth2 P i j); simpl; try discriminate. intros H. injection H as <-. eauto. Qed.
Lemma fill_id t y : y <> NaN -> fill_nan t y = y.
Proof. destruct y; simpl; auto. congruence. Qed.

(** The chosen value of a pixel is the best computed cost. *)
Lemma plane_best_computed cv r c P m :
  nth2 (cv_data cv) r c = Some P -> (exists dc dr x, computed cv r c dc dr x) ->
  plane_best (cv_measure cv) (map (map (fill_nan (cv_measure cv))) (plane_user cv P)) m ->
  m <> NaN /\ (exists dc dr, computed cv r c dc dr m) /\
  (forall dc dr x, computed cv r c dc dr x -> at_least_as_good (cv_measure cv) m x).
Proof.
  intros HP (dc0 & dr0 & x0 & Hx0) ((i & j & Hij) & Hbest). set (t := cv_measure cv) in *.
  apply fill_nth in Hij. destruct Hij as (y & Hy & ->).
  assert (Hall : forall dc dr x, computed cv r c dc dr x -> at_least_as_good t (fill_nan t y) x).
  { intros dc dr x H. apply (computed_plane cv r c P dc dr x HP) in H. destruct H as (_ & _ & H & Hn).
    apply (Hbest (dc - user_l cv) (dr - user_u cv)). rewrite nth2_map, H. simpl. rewrite fill_id; auto. }
  split; [apply fill_not_nan|]. split; auto.
  destruct (ext_eq_dec y NaN) as [->|Hyn].
  - (* the best is the filling value: the computed cost x0 is equal to it *)
    simpl. unfold fill_nan in *. simpl in *. specialize (Hall _ _ _ Hx0).
    exists dc0, dr0. replace (worst t) with x0; auto.
    apply (good_antisym t); auto. apply good_worst. apply Hx0.
  - rewrite fill_id by auto. exists (user_l cv + i), (user_u cv + j). eapply plane_computed; eauto.
Qed.

(** *** C01 *)
Theorem wta_score_best chunk inv cv : wf_cv cv ->
  exists mcol mrow score, compute_disp_maps chunk inv cv = Some (mcol, mrow, score) /\
  forall r c, r < cv_nrow cv -> c < cv_ncol cv ->
    (exists dc dr x, computed cv r c dc dr x) ->
    exists s, nth2 score r c = Some s /\
      (exists dc dr, computed cv r c dc dr s) /\
      (forall dc dr x, computed cv r c dc dr x -> at_least_as_good (cv_measure cv) s x).
Proof.
  intros Hwf. destruct (compute_disp_maps_pixels chunk inv cv Hwf) as (mcol & mrow & score & E & _ & _ & _ & Hpx).
  exists mcol, mrow, score. split; auto. intros r c Hr Hc Hex.
  destruct Hwf as (Hrect & _). destruct (nth2_some _ _ _ r c Hrect Hr Hc) as [P HP].
  destruct (Hpx r c P HP) as (dcol & drow & sc & _ & _ & Hs & Hres & _).
  unfold pixel_result in Hres. pose proof (proj2 (all_nan_computed cv r c P HP) Hex) as Hnn. rewrite Hnn in Hres.
  destruct Hres as (i & j & zi & zj & _ & _ & _ & _ & _ & _ & Hb & _).
  destruct (plane_best_computed cv r c P sc HP Hex Hb) as (_ & H1 & H2). eauto.
Qed.

(** *** C02 *)
(** Costs produced by the measures are not the worst infinity. *)
Definition no_worst_infinity (cv : cost_volumes) (r c : nat) : Prop :=
  forall dc dr, ~ computed cv r c dc dr (worst (cv_measure cv)).

Theorem wta_disparities_reach_best chunk inv cv : wf_cv cv ->
  exists mcol mrow score, compute_disp_maps chunk inv cv = Some (mcol, mrow, score) /\
  forall r c, r < cv_nrow cv -> c < cv_ncol cv -> no_worst_infinity cv r c ->
    (exists dc dr x, computed cv r c dc dr x) ->
    exists s i j di dj, nth2 score r c = Some s /\
      nth_error (cv_disp_col cv) i = Some di /\ nth2 mcol r c = Some (Fin di) /\
      nth_error (cv_disp_row cv) j = Some dj /\ nth2 mrow r c = Some (Fin dj) /\
      (exists dr, computed cv r c i dr s) /\ (exists dc, computed cv r c dc j s) /\
      (forall dc dr x, computed cv r c dc dr x -> at_least_as_good (cv_measure cv) s x) /\
      (forall k dr, k < i -> ~ computed cv r c k dr s) /\
      (forall k dc, k < j -> ~ computed cv r c dc k s) /\
      (forall dc0 dr0, (forall dc dr, computed cv r c dc dr s -> dc = dc0 /\ dr = dr0) -> i = dc0 /\ j = dr0).
Proof.
  intros Hwf. destruct (compute_disp_maps_pixels chunk inv cv Hwf) as (mcol & mrow & score & E & _ & _ & _ & Hpx).
  exists mcol, mrow, score. split; auto. intros r c Hr Hc Hnw Hex.
  destruct Hwf as (Hrect & _). destruct (nth2_some _ _ _ r c Hrect Hr Hc) as [P HP].
  destruct (Hpx r c P HP) as (dcol & drow & sc & Hmc & Hmr & Hs & Hres & _).
  unfold pixel_result in Hres. pose proof (proj2 (all_nan_computed cv r c P HP) Hex) as Hnn. rewrite Hnn in Hres.
  destruct Hres as (i & j & zi & zj & Hzi & -> & Hi & Hzj & -> & Hj & Hb & Hn & (dr & Hdr) & (dc & Hdc) & Hfi & Hfj).
  destruct (plane_best_computed cv r c P sc HP Hex Hb) as (_ & H1 & H2).
  assert (Hsw : sc <> worst (cv_measure cv)).
  { intros ->. destruct H1 as (a & b & Hab). eapply Hnw; eauto. }
  assert (H3 : forall a b, nth2 (map (map (fill_nan (cv_measure cv))) (plane_user cv P)) a b = Some sc ->
      computed cv r c (user_l cv + a) (user_u cv + b) sc).
  { intros a b Hab. apply fill_nth in Hab. destruct Hab as (y & Hy & Ey).
    assert (y <> NaN) by (intros ->; apply Hsw; auto).
    rewrite fill_id in Ey by auto. subst y. eapply plane_computed; eauto. }
  exists sc, (user_l cv + i), (user_u cv + j), zi, zj.
  repeat (split; [solve [auto]|]).
  split; [eauto|]. split; [eauto|]. split; [auto|].
  split; [|split].
  { intros k b Hk Hcp. apply (computed_plane cv r c P _ _ _ HP) in Hcp. destruct Hcp as (Hku & _ & Hcp & _).
    apply user_col_eq in Hku.
    apply (Hfi (k - user_l cv) (b - user_u cv)); [lia|]. rewrite nth2_map, Hcp. simpl. rewrite fill_id; auto. }
  { intros k b Hk Hcp. apply (computed_plane cv r c P _ _ _ HP) in Hcp. destruct Hcp as (_ & Hku & Hcp & _).
    apply user_row_eq in Hku.
    apply (Hfj (k - user_u cv) (b - user_l cv)); [lia|]. rewrite nth2_map, Hcp. simpl. rewrite fill_id; auto. }
  intros dc0 dr0 Hu. split.
  - apply (Hu (user_l cv + i) (user_u cv + dr)). auto.
  - apply (Hu (user_l cv + dc) (user_u cv + j)). auto.
Qed.

(** *** C04 *)
Theorem wta_invalid_iff chunk inv cv : wf_cv cv ->
  exists mcol mrow score, compute_disp_maps chunk inv cv = Some (mcol, mrow, score) /\
  rect (cv_nrow cv) (cv_ncol cv) mcol /\ rect (cv_nrow cv) (cv_ncol cv) mrow /\ rect (cv_nrow cv) (cv_ncol cv) score /\
  forall r c, r < cv_nrow cv -> c < cv_ncol cv ->
    ((forall dc dr x, user_col cv dc -> user_row cv dr -> cost_at cv r c dc dr = Some x -> x = NaN) ->
      nth2 mcol r c = Some inv /\ nth2 mrow r c = Some inv /\ nth2 score r c = Some inv) /\
    (~ (forall dc dr x, user_col cv dc -> user_row cv dr -> cost_at cv r c dc dr = Some x -> x = NaN) ->
      exists i j di dj s, user_col cv i /\ user_row cv j /\
        nth_error (cv_disp_col cv) i = Some di /\ nth2 mcol r c = Some (Fin di) /\
        nth_error (cv_disp_row cv) j = Some dj /\ nth2 mrow r c = Some (Fin dj) /\
        nth2 score r c = Some s /\ s <> NaN).
Proof.
  intros Hwf. destruct (compute_disp_maps_pixels chunk inv cv Hwf) as (mcol & mrow & score & E & R1 & R2 & R3 & Hpx).
  exists mcol, mrow, score. repeat (split; [solve [auto]|]). intros r c Hr Hc.
  destruct Hwf as (Hrect & _). destruct (nth2_some _ _ _ r c Hrect Hr Hc) as [P HP].
  destruct (Hpx r c P HP) as (dcol & drow & sc & Hmc & Hmr & Hs & Hres & _).
  unfold pixel_result in Hres.
  destruct (all_nan (plane_user cv P)) eqn:Hnn.
  - destruct Hres as (-> & -> & ->). split; auto. intros Hno. exfalso. apply Hno.
    intros dc dr x Hu Hv Hx. destruct (ext_eq_dec x NaN); auto. exfalso.
    assert (all_nan (plane_user cv P) = false); [|congruence].
    apply (all_nan_computed cv r c P HP). exists dc, dr, x. split; auto.
  - split.
    + intros Hall. exfalso. apply (all_nan_computed cv r c P HP) in Hnn.
      destruct Hnn as (dc & dr & x & Hu & Hv & Hx & Hn). apply Hn. eauto.
    + intros _. destruct Hres as (i & j & zi & zj & Hzi & -> & Hi & Hzj & -> & Hj & Hb & Hn & _).
      exists (user_l cv + i), (user_u cv + j), zi, zj, sc.
      rewrite user_col_eq, user_row_eq. repeat (split; [solve [auto; lia]|]). auto.
Qed.

(** *** C05 *)
Lemma list_eq_nth_error {A} (l l' : list A) : (forall i, nth_error l i = nth_error l' i) -> l = l'.
Proof.
  revert l'. induction l as [|a l IH]; intros [|b l'] H; auto.
  - specialize (H 0). discriminate.
  - specialize (H 0). discriminate.
  - f_equal.
    + specialize (H 0). simpl in H. congruence.
    + apply IH. intros i. apply (H (S i)).
Qed.

Lemma nth2_ext {A} nr nc (m m' : list (list A)) :
  rect nr nc m -> rect nr nc m' -> (forall r c, r < nr -> c < nc -> nth2 m r c = nth2 m' r c) -> m = m'.
Proof.
  intros [H1 H2] [H3 H4] H. apply list_eq_nth_error. intros r.
  destruct (nth_error m r) as [row|] eqn:E, (nth_error m' r) as [row'|] eqn:E'; auto.
  - f_equal. apply list_eq_nth_error. intros c.
    rewrite Forall_forall in H2, H4.
    assert (L : length row = nc) by (apply H2; eapply nth_error_In; eauto).
    assert (L' : length row' = nc) by (apply H4; eapply nth_error_In; eauto).
    assert (r < nr). { rewrite <- H1. apply nth_error_Some. congruence. }
    destruct (le_lt_dec nc c).
    + rewrite (proj2 (nth_error_None row c)), (proj2 (nth_error_None row' c)) by lia. auto.
    + specialize (H r c H0 l). unfold nth2 in H. rewrite E, E' in H. auto.
  - apply nth_error_None in E'. assert (r < nr). { rewrite <- H1. apply nth_error_Some. congruence. } lia.
  - apply nth_error_None in E. assert (r < nr). { rewrite <- H3. apply nth_error_Some. congruence. } lia.
Qed.

Theorem wta_chunk_independent chunk chunk' inv cv : wf_cv cv ->
  compute_disp_maps chunk inv cv = compute_disp_maps chunk' inv cv.
Proof.
  intros Hwf. destruct (compute_disp_maps_pixels chunk inv cv Hwf) as (mcol & mrow & score & E & R1 & R2 & R3 & Hpx).
  destruct (compute_disp_maps_pixels chunk' inv cv Hwf) as (mcol' & mrow' & score' & E' & R1' & R2' & R3' & Hpx').
  rewrite E, E'. destruct Hwf as (Hrect & _).
  assert (H : forall r c, r < cv_nrow cv -> c < cv_ncol cv ->
     nth2 mcol r c = nth2 mcol' r c /\ nth2 mrow r c = nth2 mrow' r c /\ nth2 score r c = nth2 score' r c).
  { intros r c Hr Hc. destruct (nth2_some _ _ _ r c Hrect Hr Hc) as [P HP].
    destruct (Hpx r c P HP) as (? & ? & ? & -> & -> & -> & _ & F1).
    destruct (Hpx' r c P HP) as (? & ? & ? & -> & -> & -> & _ & F2).
    rewrite F1 in F2. injection F2 as -> -> ->. auto. }
  f_equal. f_equal; [f_equal|]; eapply nth2_ext; eauto; intros; apply H; auto.
Qed.

(** The volume reduced to one pixel. *)
Definition one_pixel (cv : cost_volumes) (P : list (list ext)) : cost_volumes :=
  mkCV 1 1 (cv_disp_col cv) (cv_disp_row cv) [[P]] (cv_subpix cv) (cv_measure cv) (cv_margins cv).

Theorem wta_pixelwise chunk chunk' inv cv : wf_cv cv ->
  exists mcol mrow score, compute_disp_maps chunk inv cv = Some (mcol, mrow, score) /\
  forall r c P, nth2 (cv_data cv) r c = Some P ->
    exists dcol drow s, nth2 mcol r c = Some dcol /\ nth2 mrow r c = Some drow /\ nth2 score r c = Some s /\
      compute_disp_maps chunk' inv (one_pixel cv P) = Some ([[dcol]], [[drow]], [[s]]).
Proof.
  intros Hwf. destruct (compute_disp_maps_pixels chunk inv cv Hwf) as (mcol & mrow & score & E & _ & _ & _ & Hpx).
  exists mcol, mrow, score. split; auto. intros r c P HP.
  destruct (Hpx r c P HP) as (dcol & drow & s & H1 & H2 & H3 & _ & HF).
  exists dcol, drow, s. repeat (split; [solve [auto]|]).
  destruct Hwf as (Hrect & Hp & Huc & Hur).
  assert (Hwf1 : wf_cv (one_pixel cv P)).
  { split; [|split; [|split]].
    - split; simpl; auto.
    - intros [|r'] [|c'] P' HP'; unfold nth2 in HP'; simpl in HP'; try discriminate.
      + injection HP' as <-. simpl. eauto.
      + destruct c'; discriminate.
      + destruct r'; discriminate.
      + destruct r'; discriminate.
    - exact Huc.
    - exact Hur. }
  destruct (compute_disp_maps_pixels chunk' inv _ Hwf1) as (mc & mr & sc & E' & R1 & R2 & R3 & Hpx').
  rewrite E'. destruct (Hpx' 0 0 P eq_refl) as (d1 & d2 & d3 & N1 & N2 & N3 & _ & HF').
  replace (pixel_fun (one_pixel cv P) inv P) with (pixel_fun cv inv P) in HF' by reflexivity.
  rewrite HF in HF'. injection HF' as <- <- <-.
  assert (Hone : forall (m : list (list ext)) x, rect 1 1 m -> nth2 m 0 0 = Some x -> m = [[x]]).
  { intros m x [L F] N. destruct m as [|row [|]]; simpl in L; try lia.
    inversion F; subst. destruct row as [|y [|]]; simpl in H4; try lia.
    unfold nth2 in N. simpl in N. congruence. }
  rewrite (Hone mc dcol), (Hone mr drow), (Hone sc s); auto.
Qed.
