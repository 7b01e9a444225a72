(** Comparison of best disparities, of the sections of two configurations. *)
From Coq Require Import List String Bool ZArith QArith Lia Lqa.
From Verif Require Import Base.Ext Base.PyList Base.Arr Base.Json Base.Dict Model.CommonModel Model.DisparityModel Model.RoiModel Model.MachineModel Model.ConfigModel Model.CheckConfModel Model.InputModel
  Model.InterpolationModel Spec.WtaSpec Spec.BestSpec Spec.ConfigSpec Spec.CheckConfSpec Spec.EstimationSpec Spec.WholeSpec
  Proofs.ConfigProofs Proofs.CheckConfProofs Proofs.WholeProofs.
Import ListNotations.
Open Scope Z_scope.
Open Scope string_scope.
Open Scope list_scope.

Lemma good_antisym t a b : a <> NaN -> b <> NaN -> at_least_as_good t a b -> at_least_as_good t b a -> a = b.
Proof. destruct t, a, b; cbn; intros; try congruence; f_equal; lia. Qed.
Lemma good_trans t a b c : at_least_as_good t a b -> at_least_as_good t b c -> at_least_as_good t a c.
Proof. destruct t, a, b, c; cbn; intros; try congruence; lia. Qed.

(** The best disparities depend on the costs of the candidates only. *)
Lemma best_unique t (rows cols rows' cols' : Z -> Prop) cost cost' nothing found nothing' found' :
  (forall d, rows d <-> rows' d) -> (forall d, cols d <-> cols' d) -> (forall dr dc, rows dr -> cols dc -> cost dr dc = cost' dr dc) ->
  best t rows cols cost nothing found -> best t rows' cols' cost' nothing' found' ->
  nothing /\ nothing' \/ exists dr dc s, found dr dc s /\ found' dr dc s.
Proof.
  intros Hr Hc Hk [(N & A)|(dr & dc & s & F & R & C & S & B & (dc1 & C1 & E1) & (dr1 & R1 & E2) & M)] [(N' & A')|(dr' & dc' & s' & F' & R' & C' & S' & B' & (dc1' & C1' & E1') & (dr1' & R1' & E2') & M')].
  - left. auto.
  - exfalso. apply S'. rewrite <- E1', <- Hk by (apply Hr + apply Hc; assumption). apply A; [now apply Hr | now apply Hc].
  - exfalso. apply S. rewrite <- E1, Hk by assumption. apply A'; [now apply Hr | now apply Hc].
  - assert (Hk' : forall dr dc, rows' dr -> cols' dc -> cost dr dc = cost' dr dc) by (intros; apply Hk; [now apply Hr | now apply Hc]).
    right. assert (s = s') as <-.
    { apply (good_antisym t); auto.
      - rewrite <- E1', <- Hk' by assumption. apply B; [now apply Hr | now apply Hc | rewrite Hk', E1'; assumption].
      - rewrite <- E1, Hk by assumption. apply B'; [now apply Hr | now apply Hc | rewrite <- Hk, E1; assumption]. }
    assert (dr = dr') as <-.
    { destruct (M dr' dc1') as [X _]; [now apply Hr | now apply Hc | rewrite Hk'; assumption|]. destruct (M' dr dc1) as [Y _]; [now apply Hr | now apply Hc | rewrite <- Hk; assumption|]. lia. }
    assert (dc = dc') as <-.
    { destruct (M dr1' dc') as [_ X]; [now apply Hr | now apply Hc | rewrite Hk'; assumption|]. destruct (M' dr1 dc) as [_ Y]; [now apply Hr | now apply Hc | rewrite <- Hk; assumption|]. lia. }
    eauto.
Qed.
(** With more candidates the best cost is at least as good. *)
Lemma best_more t (rows cols rows' cols' : Z -> Prop) cost nothing found nothing' found' :
  (forall d, rows d -> rows' d) -> (forall d, cols d -> cols' d) ->
  best t rows cols cost nothing found -> best t rows' cols' cost nothing' found' ->
  nothing \/ exists dr dc s dr' dc' s', found dr dc s /\ found' dr' dc' s' /\ at_least_as_good t s' s.
Proof.
  intros Hr Hc [(N & A)|(dr & dc & s & F & R & C & S & B & (dc1 & C1 & E1) & (dr1 & R1 & E2) & M)] [(N' & A')|(dr' & dc' & s' & F' & R' & C' & S' & B' & _)]; try (left; assumption).
  - exfalso. apply S. rewrite <- E1. apply A'; auto.
  - right. exists dr, dc, s, dr', dc', s'. split; [exact F|]. split; [exact F'|]. rewrite <- E1. apply B'; auto. now rewrite E1.
Qed.

Lemma quotient_same n k c c' : quotient n k c -> quotient n k c' -> same_cost c c'.
Proof. intros (q & -> & E) (q' & -> & E'). cbn. now rewrite E, E'. Qed.
Lemma number_same one s c c' : same_number one s c -> same_number one s c' -> same_cost c c'.
Proof. destruct s; cbn; try (intros -> ->; cbn; auto; fail). apply quotient_same. Qed.
Lemma number_good t one s s' c c' : 0 < one -> same_number one s c -> same_number one s' c' -> at_least_as_good t s' s -> good_score t c' c.
Proof.
  intros Ho H H' G. assert (L : forall a b ca cb, same_number one a ca -> same_number one b cb -> ext_leb a b = true -> score_le ca cb).
  { intros a b ca cb Ha Hb L. destruct a, b; cbn in L, Ha, Hb; try discriminate; subst; cbn; auto;
      repeat match goal with H : quotient _ _ _ |- _ => let p := fresh "p" in let E := fresh "E" in destruct H as (p & -> & E); cbn end; auto.
    rewrite E, E0. apply Qle_shift_div_l; [unfold Qlt; cbn; lia|].
    unfold Qdiv. rewrite <- Qmult_assoc, (Qmult_comm (/ _)), Qmult_inv_r, Qmult_1_r; [unfold Qle; cbn; lia|]. unfold Qeq. cbn. lia. }
  destruct t; cbn in *; eauto.
Qed.

(** Saved maps that are optimal for the same costs agree. *)
Lemma pixel_agree open_raster one subpix t q q' cost cost' saved saved' x y vr vc vs vr' vc' vs' :
  (forall d, candidate open_raster (q_row_init q) (q_row_range q) subpix x y d <-> candidate open_raster (q_row_init q') (q_row_range q') subpix x y d) ->
  (forall d, candidate open_raster (q_col_init q) (q_col_range q) subpix x y d <-> candidate open_raster (q_col_init q') (q_col_range q') subpix x y d) ->
  q_invalid q' = q_invalid q ->
  (forall dr dc, candidate open_raster (q_row_init q) (q_row_range q) subpix x y dr -> candidate open_raster (q_col_init q) (q_col_range q) subpix x y dc -> cost x y dr dc = cost' x y dr dc) ->
  saved_best open_raster one subpix t q cost saved -> saved_best open_raster one subpix t q' cost' saved' ->
  pixel_of saved x y vr vc vs -> pixel_of saved' x y vr' vc' vs' ->
  without_disparity one q vr vc vs /\ without_disparity one q vr' vc' vs' \/ same_cost vr vr' /\ same_cost vc vc' /\ same_cost vs vs'.
Proof.
  intros M1 M2 I K B B' (a & b & A1 & A2 & A3 & A4 & A5) (a' & b' & A1' & A2' & A3' & A4' & A5').
  destruct (B _ _ _ _ A1 A2) as (wr & wc & ws & E1 & E2 & E3 & Best). destruct (B' _ _ _ _ A1' A2') as (wr' & wc' & ws' & E1' & E2' & E3' & Best').
  rewrite A3 in E1. rewrite A4 in E2. rewrite A5 in E3. rewrite A3' in E1'. rewrite A4' in E2'. rewrite A5' in E3'. injection E1 as <-. injection E2 as <-. injection E3 as <-.
  injection E1' as <-. injection E2' as <-. injection E3' as <-.
  destruct (best_unique t _ _ _ _ _ _ _ _ _ _ M1 M2 K Best Best') as [[N N']|(dr & dc & s & (F1 & F2 & F3) & F1' & F2' & F3')].
  - left. unfold without_disparity. rewrite I in N'. auto.
  - right. split; [eapply quotient_same; eauto|]. split; [eapply quotient_same; eauto | eapply number_same; eauto].
Qed.
(** With more candidates the score of every pixel is at least as good. *)
Lemma saved_better open_raster one subpix t q q' cost saved saved' : 0 < one ->
  (forall x y d, candidate open_raster (q_row_init q) (q_row_range q) subpix x y d -> candidate open_raster (q_row_init q') (q_row_range q') subpix x y d) ->
  (forall x y d, candidate open_raster (q_col_init q) (q_col_range q) subpix x y d -> candidate open_raster (q_col_init q') (q_col_range q') subpix x y d) ->
  saved_best open_raster one subpix t q cost saved -> saved_best open_raster one subpix t q' cost saved' ->
  forall x y vr vc vs vr' vc' vs', pixel_of saved x y vr vc vs -> pixel_of saved' x y vr' vc' vs' -> without_disparity one q vr vc vs \/ good_score t vs' vs.
Proof.
  intros Ho M1 M2 B B' x y vr vc vs vr' vc' vs' (a & b & A1 & A2 & A3 & A4 & A5) (a' & b' & A1' & A2' & A3' & A4' & A5').
  destruct (B _ _ _ _ A1 A2) as (wr & wc & ws & E1 & E2 & E3 & Best). destruct (B' _ _ _ _ A1' A2') as (wr' & wc' & ws' & E1' & E2' & E3' & Best').
  rewrite A3 in E1. rewrite A4 in E2. rewrite A5 in E3. rewrite A5' in E3'. injection E1 as <-. injection E2 as <-. injection E3 as <-. injection E3' as <-.
  destruct (best_more t _ _ _ _ _ _ _ _ _ (M1 x y) (M2 x y) Best Best') as [N|(dr & dc & s & dr' & dc' & s' & (_ & _ & F) & (_ & _ & F') & G)]; [left; exact N|].
  right. eapply number_good; eauto.
Qed.

(** The rounding is determined. *)
Lemma rounding_unique a b b' : nearest a b -> half_to_even a b -> nearest a b' -> half_to_even a b' -> b = b'.
Proof.
  assert (G : forall b b', nearest a b -> half_to_even a b -> nearest a b' -> half_to_even a b' -> b <= b').
  { clear. intros b b' [N1 N2] H [N1' N2'] H'. destruct (Z_le_gt_dec b b') as [L|L]; [exact L|]. exfalso.
    assert (b = b' + 1) as ->.
    { assert (X : (inject_Z b <= inject_Z (b' + 1))%Q) by (rewrite inject_Z_plus; change (inject_Z 1) with 1%Q; lra). unfold Qle in X. cbn in X. lia. }
    rewrite inject_Z_plus in N1, N2. change (inject_Z 1) with 1%Q in *.
    assert (E1 : Z.Even (b' + 1)). { apply H. right. rewrite inject_Z_plus. change (inject_Z 1) with 1%Q. lra. }
    assert (E2 : Z.Even b'). { apply H'. left. lra. }
    destruct E1 as (u & E1), E2 as (v & E2). lia. }
  intros. apply Z.le_antisymm; apply G; assumption.
Qed.
Lemma merged_unique q p p2 p3 : merged q p p2 -> merged q p p3 -> p2 = p3.
Proof.
  intros H. revert p3. induction H as [|name c c' c2 p p2 Hl D0 D1 Hm D2 W N Hm2 Hmm HM IH]; intros p3 H3; inversion H3; subst; [reflexivity|].
  rewrite Hl in *. match goal with H : Some _ = Some _ |- _ => injection H as <- end. rewrite Hm in *. match goal with H : Some _ = Some _ |- _ => injection H as <- end. f_equal. now apply IH.
Qed.
(** The sections input and pipeline of the completed configuration come from the same sections of the configuration of the user. *)
Section Sections.
  Context {D M : Type}.
  Variable bool_ok : bool.
  Variable pandora_check : dict -> option (json * json * json).
  Variable matching_cost_margins refinement_margins : dict -> M.
  Variable disparity_margins : M.
  Variable run_step : callback -> string -> json -> option M -> option json -> option json -> D -> option D.
  Variable can_open_mandatory can_open check_images : json -> bool.
  Variable image_size : string -> nat * nat.
  Variable open_raster : string -> reader.
  Hypothesis Hpandora : pandora_contract pandora_check.
  Notation check_conf := (check_conf bool_ok pandora_check matching_cost_margins refinement_margins disparity_margins run_step
    can_open_mandatory can_open check_images image_size open_raster).
  Lemma same_sections u u' d m m' cfg cfg' : wf (JDict u) -> wf (JDict u') -> lookup "input" u' = lookup "input" u -> lookup "pipeline" u' = lookup "pipeline" u ->
    check_conf u (new_machine d) = (m, Some cfg) -> check_conf u' (new_machine d) = (m', Some cfg') ->
    lookup "input" cfg' = lookup "input" cfg /\ lookup "pipeline" cfg' = lookup "pipeline" cfg.
  Proof.
    intros W W' Hi Hp H H'.
    destruct (check_conf_parts _ _ _ _ _ _ _ _ _ _ _ Hpandora _ _ _ _ W H) as (raw & i2 & cr & p & p2 & L1 & Mp & Ei & _ & Hm & HM & W2 & N2 & F1 & _ & F3).
    destruct (check_conf_parts _ _ _ _ _ _ _ _ _ _ _ Hpandora _ _ _ _ W' H') as (raw' & i2' & cr' & p' & p2' & L1' & Mp' & Ei' & _ & Hm' & HM' & W2' & N2' & F1' & _ & F3').
    rewrite Hp, L1 in L1'. injection L1' as <-. rewrite Mp in Mp'. injection Mp' as <-. rewrite Hm in Hm'. injection Hm' as <-.
    assert (get_config_input u' = get_config_input u) as E by (unfold get_config_input; now rewrite Hi). rewrite E, Ei in Ei'. injection Ei' as <-.
    rewrite F1, F1', F3, F3'. split; [reflexivity|]. f_equal. f_equal. exact (merged_unique _ _ _ _ HM' HM).
  Qed.
End Sections.
