(** C33: the interpolation refinement. C60 - C62: findings. *)
From Coq Require Import ZArith QArith Qabs List Bool Lia Lqa Arith.
From Verif Require Import Base.PyList Base.Arr Base.ZRange Model.CommonModel Model.DisparityModel Model.OpticalFlowModel Model.InterpolationModel Spec.InterpolationSpec
  Proofs.ChunkProofs Proofs.WtaProofs Proofs.FlowProofs Proofs.FlowRange Proofs.InterpolationProofs.
Import ListNotations.
Open Scope nat_scope.

Section C33.
  (** Any interpolation and any optimiser. *)
  Variable interp : list Q -> list Q -> list (list cost) -> num -> num -> cost.
  Variable minimise : (num -> num -> cost) -> num * num -> (Q * Q) * (Q * Q) -> num * num.
  Variables (t : measure) (disp_col disp_row : list Q) (c0 c1 r0 r1 : Q) (n m : nat).
  Hypothesis Fc : first_last disp_col c0 c1.
  Hypothesis Fr : first_last disp_row r0 r1.
  Hypothesis Hn : 0 < n.
  Hypothesis Hm : 0 < m.

  Lemma disp_col_not_nil : disp_col <> []. Proof. destruct Fc as [H _]. destruct disp_col; [discriminate|discriminate]. Qed.
  Lemma disp_row_not_nil : disp_row <> []. Proof. destruct Fr as [H _]. destruct disp_row; [discriminate|discriminate]. Qed.

  (** * C33: the maps have the shape of the image; the values at a pixel come from the costs of this pixel alone (completed where they are missing),
      starting from the disparities of this pixel; NaN without any cost. *)
  Theorem C33_in_place data col_map row_map : a4_n0 data = n -> a4_n1 data = m -> rect n m col_map -> rect n m row_map ->
    exists dc dr sc, interpolation_refinement interp minimise t disp_col disp_row data col_map row_map = Some (dc, dr, sc) /\ rect n m dc /\ rect n m dr /\ rect n m sc /\
      forall r c x y S, r < n -> c < m -> nth2 col_map r c = Some x -> nth2 row_map r c = Some y -> surface_of data r c S ->
        exists a b s, nth2 dc r c = Some a /\ nth2 dr r c = Some b /\ nth2 sc r c = Some s /\
        (nothing_usable t S -> a = None /\ b = None /\ s = CNan) /\
        (~ nothing_usable t S -> exists F, completed t S F /\ (a, b) = minimise (interp disp_col disp_row F) (x, y) ((c0, c1), (r0, r1)) /\
           s = c_abs (interp disp_col disp_row F a b)).
  Proof.
    intros En Em Rc Rr. destruct (refinement_spec interp minimise t disp_col disp_row data col_map row_map n m En Em Hn Hm Rc Rr disp_col_not_nil disp_row_not_nil) as (dc & dr & sc & E & R1 & R2 & R3 & P).
    exists dc, dr, sc. split; [exact E|]. split; [exact R1|]. split; [exact R2|]. split; [exact R3|]. intros r c x y S Hr Hc Hx Hy HS.
    destruct (P r c Hr Hc) as (x' & y' & a & b & s & Ex & Ey & Ecm & E1 & E2 & E3). rewrite Hx in Ex. injection Ex as <-. rewrite Hy in Ey. injection Ey as <-.
    exists a, b, s. split; [exact E1|]. split; [exact E2|]. split; [exact E3|].
    assert (S = cost_matrix data (r * m + c)) as ->. { eapply surface_unique; [exact HS|]. rewrite <- Em. apply cost_matrix_surface; lia. }
    eapply compute_cost_matrix_spec; eassumption.
  Qed.

  (** Costs and disparities of other pixels have no effect. *)
  Theorem C33_locality data col_map row_map data' col_map' row_map' dc dr sc dc' dr' sc' r c :
    a4_n0 data = n -> a4_n1 data = m -> rect n m col_map -> rect n m row_map -> a4_n0 data' = n -> a4_n1 data' = m -> rect n m col_map' -> rect n m row_map' ->
    interpolation_refinement interp minimise t disp_col disp_row data col_map row_map = Some (dc, dr, sc) ->
    interpolation_refinement interp minimise t disp_col disp_row data' col_map' row_map' = Some (dc', dr', sc') ->
    r < n -> c < m -> nth2 col_map r c = nth2 col_map' r c -> nth2 row_map r c = nth2 row_map' r c ->
    a4_n2 data = a4_n2 data' -> a4_n3 data = a4_n3 data' -> (forall i j, i < a4_n2 data -> j < a4_n3 data -> a4_get data r c i j = a4_get data' r c i j) ->
    nth2 dc r c = nth2 dc' r c /\ nth2 dr r c = nth2 dr' r c /\ nth2 sc r c = nth2 sc' r c.
  Proof.
    intros En Em Rc Rr En' Em' Rc' Rr' E E' Hr Hc Exc Exr E2 E3 Eq.
    destruct (refinement_spec interp minimise t disp_col disp_row data col_map row_map n m En Em Hn Hm Rc Rr disp_col_not_nil disp_row_not_nil) as (dc1 & dr1 & sc1 & F & _ & _ & _ & P).
    destruct (refinement_spec interp minimise t disp_col disp_row data' col_map' row_map' n m En' Em' Hn Hm Rc' Rr' disp_col_not_nil disp_row_not_nil) as (dc2 & dr2 & sc2 & F' & _ & _ & _ & P').
    rewrite E in F. injection F as <- <- <-. rewrite E' in F'. injection F' as <- <- <-.
    destruct (P r c Hr Hc) as (x & y & a & b & s & Ex & Ey & Ecm & G1 & G2 & G3). destruct (P' r c Hr Hc) as (x' & y' & a' & b' & s' & Ex' & Ey' & Ecm' & G1' & G2' & G3').
    rewrite <- Exc, Ex in Ex'. injection Ex' as <-. rewrite <- Exr, Ey in Ey'. injection Ey' as <-.
    assert (cost_matrix data (r * m + c) = cost_matrix data' (r * m + c)) as Emat.
    { eapply (surface_unique data r c); [rewrite <- Em; apply cost_matrix_surface; lia|].
      destruct (cost_matrix_surface data' r c) as [Rs Ps]; [lia|lia|]. rewrite Em' in Rs, Ps. split; [rewrite E2, E3; exact Rs|]. intros i j Hi Hj. rewrite Eq by assumption. apply Ps; lia. }
    rewrite Emat in Ecm. rewrite Ecm in Ecm'. injection Ecm' as <- <- <-. rewrite G1, G2, G3, G1', G2', G3'. auto.
  Qed.

  (** Refined disparities are NaN or inside the range of the cost volumes. *)
  Theorem C33_range data col_map row_map dc dr sc : respects_bounds minimise -> (c0 <= c1)%Q -> (r0 <= r1)%Q ->
    a4_n0 data = n -> a4_n1 data = m -> rect n m col_map -> rect n m row_map ->
    interpolation_refinement interp minimise t disp_col disp_row data col_map row_map = Some (dc, dr, sc) ->
    forall r c, r < n -> c < m -> exists a b, nth2 dc r c = Some a /\ nth2 dr r c = Some b /\
      ((a = None /\ b = None) \/ (in_bounds c0 c1 a /\ in_bounds r0 r1 b)).
  Proof.
    intros B Lc Lr En Em Rc Rr E r c Hr Hc. destruct (C33_in_place data col_map row_map En Em Rc Rr) as (dc1 & dr1 & sc1 & F & R1 & R2 & R3 & P).
    rewrite E in F. injection F as <- <- <-.
    destruct (nth2_some n m col_map r c Rc Hr Hc) as [x Hx]. destruct (nth2_some n m row_map r c Rr Hr Hc) as [y Hy].
    assert (HS : surface_of data r c (cost_matrix data (r * m + c))) by (rewrite <- Em; apply cost_matrix_surface; lia).
    destruct (P r c x y _ Hr Hc Hx Hy HS) as (a & b & s & E1 & E2 & E3 & N & U). exists a, b. split; [exact E1|]. split; [exact E2|].
    destruct (nothing_dec t (cost_matrix data (r * m + c))) as [D|D]; [left; destruct (N D) as (-> & -> & _); auto|]. right. destruct (U D) as (F & _ & Eab & _).
    destruct (B (interp disp_col disp_row F) (x, y) c0 c1 r0 r1 Lc Lr) as [B1 B2]. rewrite <- Eab in B1, B2. auto.
  Qed.
End C33.

(** The costs used in place of the missing ones are never better than the best cost nor worse than the worst cost of the pixel. *)
Theorem C33_missing_costs t S F lo hi : completed t S F ->
  (forall j i x, nth2 S j i = Some x -> usable t x -> exists q, oriented t x = CFin q /\ (lo <= q)%Q /\ (q <= hi)%Q) ->
  forall j i x, nth2 S j i = Some x -> exists q, nth2 F j i = Some (CFin q) /\ (lo <= q)%Q /\ (q <= hi)%Q.
Proof.
  intros (L & Ll & P) B j i x Hx. destruct (P j i x Hx) as (y & Ey & P1 & P2). destruct (usable_dec t x) as [U|U].
  - destruct (B j i x Hx U) as (q & Eq & b1 & b2). exists q. rewrite Ey, (P1 U), Eq. auto.
  - destruct (replacement_bounds t S j y lo hi (P2 U) B) as (q & -> & b1 & b2). exists q. auto.
Qed.

(** * Counterexamples. The user asks for column and row disparities in [-1, 1]: the cost volumes are in [-4, 4] because of the margins (3) of the
    interpolation (state_machine.py:337-351). *)
Definition user_disparities : list Q := map inject_Z (zarange (-1 - 3) (1 + 3 + 1) 1).
Definition volume (f : Z -> cost) : arr4 cost := mkArr4 1 1 9 9 (fun _ _ i _ => f (Z.of_nat i - 4)%Z).

Lemma user_first_last : first_last user_disparities (-(4)) 4.
Proof. split; reflexivity. Qed.
Lemma user_nth i d : nth_error user_disparities i = Some d -> i < 9 /\ d = inject_Z (Z.of_nat i - 4).
Proof.
  intros H. assert (i < 9) by (change 9 with (length user_disparities); apply nth_error_Some; congruence). split; [assumption|].
  destruct i as [|[|[|[|[|[|[|[|[|i]]]]]]]]]; [..|lia]; injection H as <-; reflexivity.
Qed.
Lemma user_increasing : increasingQ user_disparities.
Proof. intros i j a b Hij Ha Hb. apply user_nth in Ha, Hb. destruct Ha as [_ ->], Hb as [_ ->]. rewrite <- Zlt_Qlt. lia. Qed.
Lemma volume_surface f S : surface_of (volume f) 0 0 S -> forall j i x, nth2 S j i = Some x -> i < 9 /\ j < 9 /\ x = f (Z.of_nat i - 4)%Z.
Proof.
  intros [R P] j i x Hx. destruct R as [L F]. assert (j < 9). { change 9 with (a4_n3 (volume f)). rewrite <- L. apply nth2_in in Hx. destruct Hx as (l & E & _). apply nth_error_Some. congruence. }
  assert (i < 9). { apply nth2_in in Hx. destruct Hx as (l & E & E'). rewrite Forall_forall in F. change 9 with (a4_n2 (volume f)). rewrite <- (F l) by (eapply nth_error_In; eauto). apply nth_error_Some. congruence. }
  split; [assumption|]. split; [assumption|]. specialize (P i j H0 H). rewrite Hx in P. injection P as ->. reflexivity.
Qed.
Lemma volume_surface_exists f : surface_of (volume f) 0 0 (cost_matrix (volume f) 0).
Proof. exact (cost_matrix_surface (volume f) 0 0 Nat.lt_0_1 Nat.lt_0_1). Qed.

(** The completed surface of a volume without missing cost. *)
Lemma volume_completed t f F : (forall d, (-4 <= d <= 4)%Z -> usable t (f d)) -> completed t (cost_matrix (volume f) 0) F ->
  rect 9 9 F /\ forall j i, j < 9 -> i < 9 -> nth2 F j i = Some (oriented t (f (Z.of_nat i - 4)%Z)).
Proof.
  intros U (L & Ll & P). destruct (volume_surface_exists f) as [[RL RF] RP]. split.
  - split; [rewrite L; exact RL|]. apply Forall_forall. intros l Hl. apply In_nth_error in Hl. destruct Hl as [j Hj].
    destruct (nth_error (cost_matrix (volume f) 0) j) as [line|] eqn:El.
    + rewrite (Ll j line l El Hj). rewrite Forall_forall in RF. apply RF. eapply nth_error_In; eauto.
    + apply nth_error_None in El. assert (j < length F) by (apply nth_error_Some; congruence). lia.
  - intros j i Hj Hi. destruct (P j i (f (Z.of_nat i - 4)%Z)) as (y & Ey & P1 & _); [exact (RP i j Hi Hj)|]. rewrite Ey, P1; [reflexivity|]. apply U. lia.
Qed.

(** * C60: refined disparities stay in the range asked by the user. False: the bounds are those of the cost volumes, margins included. *)
Theorem C60_user_range_refuted : exists data, (* costs d + 10, the best of the range [-1, 1] is at -1 *)
  (forall i j, i < 9 -> j < 9 -> a4_get data 0 0 i j = CFin (inject_Z (Z.of_nat i - 4 + 10))) /\ a4_n0 data = 1 /\ a4_n1 data = 1 /\ a4_n2 data = 9 /\ a4_n3 data = 9 /\
  forall interp minimise, affine_exact interp -> finds_affine_minimum minimise -> forall row_disparity,
    exists dc dr sc v, interpolation_refinement interp minimise MeasureMin user_disparities user_disparities data [[Some (-(1))%Q]] [[row_disparity]] = Some (dc, dr, sc) /\
      nth2 dc 0 0 = Some (Some v) /\ (v < -(1))%Q.
Proof.
  set (f := fun d : Z => CFin (inject_Z (d + 10))). exists (volume f). split; [reflexivity|]. do 4 (split; [reflexivity|]).
  intros interp minimise A M y.
  destruct (C33_in_place interp minimise MeasureMin user_disparities user_disparities _ _ _ _ 1 1 user_first_last user_first_last Nat.lt_0_1 Nat.lt_0_1 (volume f) [[Some (-(1))%Q]] [[y]])
    as (dc & dr & sc & E & _ & _ & _ & P); [reflexivity|reflexivity|split; [reflexivity|repeat constructor]|split; [reflexivity|repeat constructor]|].
  exists dc, dr, sc. destruct (P 0 0 (Some (-(1))%Q) y _ Nat.lt_0_1 Nat.lt_0_1 eq_refl eq_refl (volume_surface_exists f)) as (a & b & s & E1 & _ & _ & _ & U).
  assert (Uf : forall d, usable MeasureMin (f d)) by (intros d; split; discriminate).
  destruct U as (F & C & Eab & _). { intros N. refine (N 0 0 (f (-4)%Z) _ (Uf _)). reflexivity. }
  destruct (volume_completed MeasureMin f F (fun d _ => Uf d) C) as [RF PF].
  destruct (M (interp user_disparities user_disparities F) (Some (-(1))%Q, y) (-(4))%Q 4%Q (-(4))%Q 4%Q 10%Q 1%Q) as (v & Ev & Hv); [reflexivity|discriminate|reflexivity| |].
  { apply (A user_disparities user_disparities F 10%Q 1%Q _ _ _ _ user_increasing user_increasing); [apply Nat.leb_le; reflexivity|apply Nat.leb_le; reflexivity|exact user_first_last|exact user_first_last|exact RF|].
    intros j i d Hj Hd. apply user_nth in Hd. destruct Hd as [Hi ->]. eexists. split; [apply PF; assumption|]. rewrite inject_Z_plus. ring. }
  assert (Ev' : fst (a, b) = Some v) by (rewrite Eab; exact Ev). exists v. split; [exact E|]. split; [rewrite E1; cbn in Ev'; rewrite Ev'; reflexivity|]. rewrite Hv. reflexivity.
Qed.

(** * C61: the score is the (interpolated) cost of the refined disparity. False: its sign is lost. *)
Theorem C61_score_refuted : exists data, (* every cost is -1/2 *)
  (forall i j, i < 9 -> j < 9 -> a4_get data 0 0 i j = CFin (-(1#2))) /\ a4_n0 data = 1 /\ a4_n1 data = 1 /\ a4_n2 data = 9 /\ a4_n3 data = 9 /\
  forall interp minimise, affine_exact interp -> respects_bounds minimise -> forall col_disparity row_disparity,
    exists dc dr sc z, interpolation_refinement interp minimise MeasureMax user_disparities user_disparities data [[col_disparity]] [[row_disparity]] = Some (dc, dr, sc) /\
      nth2 sc 0 0 = Some (CFin z) /\ (z == 1#2)%Q.
Proof.
  set (f := fun d : Z => CFin (-(1#2))). exists (volume f). split; [reflexivity|]. do 4 (split; [reflexivity|]).
  intros interp minimise A M x y.
  destruct (C33_in_place interp minimise MeasureMax user_disparities user_disparities _ _ _ _ 1 1 user_first_last user_first_last Nat.lt_0_1 Nat.lt_0_1 (volume f) [[x]] [[y]])
    as (dc & dr & sc & E & _ & _ & _ & P); [reflexivity|reflexivity|split; [reflexivity|repeat constructor]|split; [reflexivity|repeat constructor]|].
  exists dc, dr, sc. destruct (P 0 0 x y _ Nat.lt_0_1 Nat.lt_0_1 eq_refl eq_refl (volume_surface_exists f)) as (a & b & s & _ & _ & E3 & _ & U).
  assert (Uf : forall d, usable MeasureMax (f d)) by (intros d; split; discriminate).
  destruct U as (F & C & Eab & Es). { intros N. refine (N 0 0 (f (-4)%Z) _ (Uf _)). reflexivity. }
  destruct (volume_completed MeasureMax f F (fun d _ => Uf d) C) as [RF PF].
  destruct (M (interp user_disparities user_disparities F) (x, y) (-(4))%Q 4%Q (-(4))%Q 4%Q) as [B1 B2]; [discriminate|discriminate|]. rewrite <- Eab in B1, B2.
  destruct B1 as (xa & Exa & a1 & a2), B2 as (xb & Exb & b1 & b2). cbn in Exa, Exb. subst a b.
  destruct (fun h1 h2 h3 h4 h5 h6 => A user_disparities user_disparities F (1#2)%Q 0%Q (-(4))%Q 4%Q (-(4))%Q 4%Q user_increasing user_increasing h1 h2 h3 h4 h5 h6 xa xb) as (z & Ez & Hz);
    [apply Nat.leb_le; reflexivity|apply Nat.leb_le; reflexivity|exact user_first_last|exact user_first_last|exact RF| |assumption|assumption|assumption|assumption|].
  { intros j i d Hj Hd. apply user_nth in Hd. destruct Hd as [Hi ->]. eexists. split; [apply PF; assumption|]. cbn [oriented c_neg f]. ring. }
  exists (Qabs z). split; [exact E|]. split; [rewrite E3, Es, Ez; reflexivity|]. rewrite Qabs_pos; [rewrite Hz; ring|]. rewrite Hz. lra.
Qed.

(** What holds: the score is the interpolated cost when costs to minimise are not negative (resp. correlations are not negative). *)
Theorem C61_score_partial interp minimise t disp_col disp_row c0 c1 r0 r1 n m data col_map row_map dc dr sc :
  first_last disp_col c0 c1 -> first_last disp_row r0 r1 -> 0 < n -> 0 < m -> a4_n0 data = n -> a4_n1 data = m -> rect n m col_map -> rect n m row_map ->
  interpolation_refinement interp minimise t disp_col disp_row data col_map row_map = Some (dc, dr, sc) ->
  forall r c S, r < n -> c < m -> surface_of data r c S -> ~ nothing_usable t S ->
  exists F a b s, completed t S F /\ nth2 dc r c = Some a /\ nth2 dr r c = Some b /\ nth2 sc r c = Some s /\
    forall z, interp disp_col disp_row F a b = oriented t (CFin z) -> (0 <= z)%Q -> exists z', s = CFin z' /\ (z' == z)%Q.
Proof.
  intros Fc Fr Hn Hm En Em Rc Rr E r c S Hr Hc HS U. destruct (C33_in_place interp minimise t disp_col disp_row c0 c1 r0 r1 n m Fc Fr Hn Hm data col_map row_map En Em Rc Rr) as (dc1 & dr1 & sc1 & F & _ & _ & _ & P).
  rewrite E in F. injection F as <- <- <-. destruct (nth2_some n m col_map r c Rc Hr Hc) as [x Hx]. destruct (nth2_some n m row_map r c Rr Hr Hc) as [y Hy].
  destruct (P r c x y S Hr Hc Hx Hy HS) as (a & b & s & E1 & E2 & E3 & _ & V). destruct (V U) as (F & C & _ & ->). exists F, a, b. eexists. split; [exact C|]. split; [exact E1|]. split; [exact E2|]. split; [exact E3|].
  intros z -> Hz. destruct t; cbn [oriented c_neg c_abs]; eexists; (split; [reflexivity|]); [apply Qabs_pos; exact Hz|]. rewrite Qabs_opp. apply Qabs_pos. exact Hz.
Qed.

(** * C62: invalid pixels stay invalid. False: NaN is returned without any cost, whatever the invalid disparity; a pixel without any cost in the
    range of the user gets a disparity from the costs of the margins. *)
Theorem C62_invalid_becomes_nan interp minimise t disp_col disp_row c0 c1 r0 r1 n m data col_map row_map dc dr sc :
  first_last disp_col c0 c1 -> first_last disp_row r0 r1 -> 0 < n -> 0 < m -> a4_n0 data = n -> a4_n1 data = m -> rect n m col_map -> rect n m row_map ->
  interpolation_refinement interp minimise t disp_col disp_row data col_map row_map = Some (dc, dr, sc) ->
  forall r c, r < n -> c < m -> (forall i j, i < a4_n2 data -> j < a4_n3 data -> ~ usable t (a4_get data r c i j)) ->
  nth2 dc r c = Some None /\ nth2 dr r c = Some None /\ nth2 sc r c = Some CNan.
Proof.
  intros Fc Fr Hn Hm En Em Rc Rr E r c Hr Hc N. destruct (C33_in_place interp minimise t disp_col disp_row c0 c1 r0 r1 n m Fc Fr Hn Hm data col_map row_map En Em Rc Rr) as (dc1 & dr1 & sc1 & F & _ & _ & _ & P).
  rewrite E in F. injection F as <- <- <-. destruct (nth2_some n m col_map r c Rc Hr Hc) as [x Hx]. destruct (nth2_some n m row_map r c Rr Hr Hc) as [y Hy].
  assert (HS : surface_of data r c (cost_matrix data (r * m + c))) by (rewrite <- Em; apply cost_matrix_surface; lia).
  destruct (P r c x y _ Hr Hc Hx Hy HS) as (a & b & s & E1 & E2 & E3 & V & _). destruct V as (-> & -> & ->); [|auto].
  intros j i z Hz. destruct HS as [[L FS] PS]. assert (Hj : j < a4_n3 data). { rewrite <- L. apply nth2_in in Hz. destruct Hz as (l & El & _). apply nth_error_Some. congruence. }
  assert (Hi : i < a4_n2 data). { apply nth2_in in Hz. destruct Hz as (l & El & El'). rewrite Forall_forall in FS. rewrite <- (FS l) by (eapply nth_error_In; eauto). apply nth_error_Some. congruence. }
  rewrite (PS i j Hi Hj) in Hz. injection Hz as <-. apply N; assumption.
Qed.
Theorem C62_invalid_lost_refuted : exists data invalid, (* no cost in the cost volumes: the map contains the invalid disparity *)
  (forall i j, a4_get data 0 0 i j = CNan) /\ a4_n0 data = 1 /\ a4_n1 data = 1 /\ a4_n2 data = 9 /\ a4_n3 data = 9 /\
  forall interp minimise, exists dc dr sc, interpolation_refinement interp minimise MeasureMin user_disparities user_disparities data [[Some invalid]] [[Some invalid]] = Some (dc, dr, sc) /\
    nth2 dc 0 0 <> Some (Some invalid) /\ nth2 dr 0 0 <> Some (Some invalid).
Proof.
  exists (volume (fun _ => CNan)), (-(9999))%Q. split; [reflexivity|]. do 4 (split; [reflexivity|]). intros interp minimise. eexists. eexists. eexists. split; [reflexivity|]. split; discriminate.
Qed.
Theorem C62_margins_refuted : exists data, (* no cost for the column disparities -1, 0 and 1 *)
  (forall i j, 3 <= i <= 5 -> a4_get data 0 0 i j = CNan) /\ a4_n0 data = 1 /\ a4_n1 data = 1 /\ a4_n2 data = 9 /\ a4_n3 data = 9 /\
  forall interp minimise, respects_bounds minimise -> forall invalid, exists dc dr sc v w,
    interpolation_refinement interp minimise MeasureMin user_disparities user_disparities data [[invalid]] [[invalid]] = Some (dc, dr, sc) /\
    nth2 dc 0 0 = Some (Some v) /\ nth2 dr 0 0 = Some (Some w) /\ (-(4) <= v <= 4)%Q /\ (-(4) <= w <= 4)%Q.
Proof.
  set (f := fun d : Z => if (Z.abs d <=? 1)%Z then CNan else CFin 7). exists (volume f).
  split. { intros i j Hi. cbn [volume a4_get]. unfold f. assert (Z.abs (Z.of_nat i - 4) <= 1)%Z as H by lia. apply Z.leb_le in H. rewrite H. reflexivity. } do 4 (split; [reflexivity|]).
  intros interp minimise B v.
  destruct (C33_in_place interp minimise MeasureMin user_disparities user_disparities _ _ _ _ 1 1 user_first_last user_first_last Nat.lt_0_1 Nat.lt_0_1 (volume f) [[v]] [[v]])
    as (dc & dr & sc & E & _ & _ & _ & P); [reflexivity|reflexivity|split; [reflexivity|repeat constructor]|split; [reflexivity|repeat constructor]|].
  destruct (P 0 0 v v _ Nat.lt_0_1 Nat.lt_0_1 eq_refl eq_refl (volume_surface_exists f)) as (a & b & s & E1 & E2 & _ & _ & U).
  destruct U as (F & C & Eab & _). { intros N. refine (N 0 0 (f (-4)%Z) _ _); [reflexivity|split; discriminate]. }
  destruct (B (interp user_disparities user_disparities F) (v, v) (-(4))%Q 4%Q (-(4))%Q 4%Q) as [B1 B2]; [discriminate|discriminate|]. rewrite <- Eab in B1, B2.
  destruct B1 as (xa & Exa & a1 & a2), B2 as (xb & Exb & b1 & b2). cbn in Exa, Exb. subst a b. exists dc, dr, sc, xa, xb. split; [exact E|]. split; [exact E1|]. split; [exact E2|]. split; split; assumption.
Qed.

(** * Examples *)
(** An interpolation exact on affine costs, and an optimiser that compares the ends of the columns. *)
Definition ex_interp (dcol drow : list Q) (F : list (list cost)) (x y : num) : cost :=
  match dcol, F, x with
  | c0 :: c1 :: _, (CFin f0 :: CFin f1 :: _) :: _, Some v => CFin (f0 + (f1 - f0) / (c1 - c0) * (v - c0))
  | _, _, _ => CNan
  end.
Definition ex_minimise (f : num -> num -> cost) (x0 : num * num) (b : (Q * Q) * (Q * Q)) : num * num :=
  let '((c0, c1), (r0, r1)) := b in
  match f (Some c0) (Some r0), f (Some c1) (Some r0) with
  | CFin u, CFin v => (Some (if Qle_bool u v then c0 else c1), Some r0)
  | _, _ => (Some c0, Some r0)
  end.
Example ex_contracts : affine_exact ex_interp /\ respects_bounds ex_minimise /\ finds_affine_minimum ex_minimise.
Proof.
  split; [|split].
  - intros dcol drow F p q c0 c1 r0 r1 Ic Ir Lc Lr Fc Fr RF P x y _ _ _ _. destruct dcol as [|d0 [|d1 dl]]; [simpl in Lc; lia|simpl in Lc; lia|]. assert (D := Ic 0 1 d0 d1 Nat.lt_0_1 eq_refl eq_refl).
    destruct (P 0 0 d0) as (z0 & E0 & H0); [lia|reflexivity|]. destruct (P 0 1 d1) as (z1 & E1 & H1); [lia|reflexivity|]. unfold ex_interp. unfold nth2 in E0, E1.
    destruct F as [|[|f0 [|f1 l]] F]; try discriminate. simpl in E0, E1. injection E0 as ->. injection E1 as ->. eexists. split; [reflexivity|]. rewrite H0, H1. field. intros H. lra.
  - intros f x0 c0 c1 r0 r1 Lc Lr. unfold ex_minimise. destruct (f (Some c0) (Some r0)), (f (Some c1) (Some r0)); cbn [fst snd]; split; eexists; (split; [reflexivity|]);
      try destruct (Qle_bool _ _); split; try lra.
  - intros f x0 c0 c1 r0 r1 p q Lc Lr Hq P. unfold ex_minimise. destruct (P c0 r0) as (z0 & -> & H0); [lra|lra|lra|lra|]. destruct (P c1 r0) as (z1 & -> & H1); [lra|lra|lra|lra|]. cbn [fst].
    assert (Qle_bool z0 z1 = true) as ->. { apply Qle_bool_iff. rewrite H0, H1. nra. } exists c0. split; reflexivity.
Qed.
(** Two pixels with different costs, the second one with missing costs: the lowest known costs are at the other ends. *)
Definition ex_data : arr4 cost :=
  mkArr4 1 2 3 3 (fun _ c i j => match c with 0 => CFin (inject_Z (Z.of_nat i)) | _ => if (j =? 1) then CNan else CFin (inject_Z (10 - Z.of_nat i)) end).
Example ex_C33 : interpolation_refinement ex_interp ex_minimise MeasureMin [(-(1))%Q; 0%Q; 1%Q] [0%Q; 1%Q; 2%Q] ex_data [[Some 0%Q; Some 0%Q]] [[Some 0%Q; Some 0%Q]] <> None /\
  match interpolation_refinement ex_interp ex_minimise MeasureMin [(-(1))%Q; 0%Q; 1%Q] [0%Q; 1%Q; 2%Q] ex_data [[Some 0%Q; Some 0%Q]] [[Some 0%Q; Some 0%Q]] with
  | Some (dc, _, _) => dc = [[Some (-(1))%Q; Some 1%Q]] | None => False end.
Proof. vm_compute. split; [discriminate|reflexivity]. Qed.
(** Missing costs: last known cost of the line, segment between lines, ends. *)
Example ex_fill : fill_missing [[CNan]; [CFin 1; CFin 2; CNan]; [CNan]; [CFin 4; CFin 9]; [CNan]] = [[CFin 1]; [CFin 1; CFin 2; CFin 2]; [CFin (6#2)]; [CFin 4; CFin 9]; [CFin 9]].
Proof. reflexivity. Qed.
Example ex_C61_partial : exists F a b z, completed MeasureMax (cost_matrix (volume (fun _ => CFin (1#2))) 0) F /\
  ex_interp user_disparities user_disparities F a b = oriented MeasureMax (CFin z) /\ (0 <= z)%Q.
Proof.
  exists (prepare MeasureMax (cost_matrix (volume (fun _ => CFin (1#2))) 0)), (Some (-(4))%Q), (Some 0%Q), (4#8)%Q. split; [|split; [vm_compute; reflexivity|vm_compute; discriminate]].
  apply (completed_full MeasureMax (cost_matrix (volume (fun _ => CFin (1#2))) 0)). intros N. refine (N 0 0 (CFin (1#2)) _ _); [reflexivity|split; discriminate].
Qed.

Print Assumptions C33_in_place.
Print Assumptions C33_locality.
Print Assumptions C33_range.
Print Assumptions C33_missing_costs.
Print Assumptions C60_user_range_refuted.
Print Assumptions C61_score_refuted.
Print Assumptions C61_score_partial.
Print Assumptions C62_invalid_becomes_nan.
Print Assumptions C62_invalid_lost_refuted.
Print Assumptions C62_margins_refuted.
