(** The refinements of two pixels that see the same things with disparities farther by a translation. *)
From Coq Require Import List String Bool ZArith QArith Qabs Lia Lqa.
From Verif Require Import Base.Ext Base.PyList Base.Json Base.Dict Base.Arr Model.CommonModel Model.DisparityModel Model.InputModel Model.DichotomyModel Model.OpticalFlowModel Model.InterpolationModel Model.ImgShiftModel
  Spec.WtaSpec Spec.BestSpec Spec.HalvingSpec Spec.OpticalFlowSpec Spec.WholeSpec Spec.WholeFlowSpec Spec.WholeRefineSpec Spec.WholeExactSpec Spec.WholeRoiSpec Spec.InterpUniqueSpec Spec.WholeOrderSpec Spec.WholeMovedSpec
  Proofs.WtaTheorems Proofs.HalvingProofs Proofs.WholeRunProofs Proofs.WholeMoreProofs Proofs.WholeRoiProofs Proofs.WholeOrderProofs.
Import ListNotations.
Open Scope Z_scope.

(** ** Dichotomy *)
Lemma kept_moved t v v' tr tc p row col s a b w : (forall i j, v' (i + tr) (j + tc) = v i j) -> HalvingSpec.kept t v p row col s a b w -> HalvingSpec.kept t v' p (row + tr) (col + tc) s a b w.
Proof.
  intros E. assert (P : forall a b, proposed v p row col s a b = proposed v' p (row + tr) (col + tc) s a b).
  { intros a0 b0. unfold proposed. replace (row + tr + a0 * p) with (row + a0 * p + tr) by lia. replace (col + tc + b0 * p) with (col + b0 * p + tc) by lia. now rewrite E. }
  intros (D & K & N & G & F). split; [exact D|]. split; [now rewrite <- P|]. split; [exact N|]. split.
  - intros a' b' D'. rewrite <- P. auto.
  - destruct F as [(F & A & B)|((a' & b' & D' & X) & F)].
    + left. split; [|auto]. intros a' b' D'. rewrite <- P. auto.
    + right. split; [exists a', b'; rewrite <- P; auto|]. intros a1 b1 D1 B1. rewrite <- P. auto.
Qed.
Lemma halving_moved store t v v' tr tc l row col s row' col' s' : (forall i j, v' (i + tr) (j + tc) = v i j) ->
  halving store t v l row col s row' col' s' -> halving store t v' l (row + tr) (col + tc) s (row' + tr) (col' + tc) s'.
Proof.
  intros E H. induction H as [row col s|p l row col s a b w row' col' s' K H IH]; [constructor|]. econstructor; [eapply kept_moved; eassumption|].
  replace (row + tr + a * p) with (row + a * p + tr) by lia. replace (col + tc + b * p) with (col + b * p + tc) by lia. exact IH.
Qed.
Lemma window_moved size left up s s' kr kc r c : (forall a b, s' (a + kr) (b + kc) = s a b) -> window_at size left up s' (r + kr) (c + kc) = window_at size left up s r c.
Proof.
  intros E. unfold window_at. apply map_ext. intros p. apply map_ext. intros q.
  replace (r + kr - Z.of_nat up + Z.of_nat q) with (r - Z.of_nat up + Z.of_nat q + kr) by lia. replace (c + kc - Z.of_nat left + Z.of_nat p) with (c - Z.of_nat left + Z.of_nat p + kc) by lia. apply E.
Qed.
Lemma between_moved one subpix size left up apply s s' kr kc u v : 0 < one -> (subpix | one) -> (forall a b, s' (a + kr) (b + kc) = s a b) ->
  between one subpix size left up apply s' (u + kr * (one / subpix)) (v + kc * (one / subpix)) = between one subpix size left up apply s u v.
Proof.
  intros Ho (m & Hm) E. assert (subpix <> 0) by lia. assert (D : one / subpix * subpix = one) by (rewrite Hm, Z.div_mul by assumption; reflexivity). unfold between.
  replace ((u + kr * (one / subpix)) * subpix) with (u * subpix + kr * one) by (rewrite <- D at 1; ring). replace ((v + kc * (one / subpix)) * subpix) with (v * subpix + kc * one) by (rewrite <- D at 1; ring).
  rewrite !Z.div_add, !Z.mod_add by lia. now rewrite (window_moved size left up s s' kr kc _ _ E).
Qed.
Lemma sampled_moved (rows cols ar ac rows' cols' ar' ac' : Z -> Prop) cost cost' sample sample' kr kc :
  moved_by rows rows' kr -> moved_by cols cols' kc -> moved_by ar ar' kr -> moved_by ac ac' kc -> 
  sampled rows cols ar ac cost sample -> sampled rows' cols' ar' ac' cost' sample' -> forall a b, cost' (a + kr) (b + kc) = cost a b -> sample' (a + kr) (b + kc) = sample a b.
Proof.
  intros Mr Mc Mar Mac S S' a b E. specialize (Mr a). specialize (Mc b). specialize (Mar a). specialize (Mac b).
  destruct (S a b) as [(R & C & V)|(N & V)], (S' (a + kr) (b + kc)) as [(R' & C' & V')|(N' & V')]; rewrite V, V'; auto; exfalso; clear S S' V V' E; tauto.
Qed.
Lemma extreme_moved (P P' : Z -> Prop) k d : moved_by P P' k -> extreme P d <-> extreme P' (d + k).
Proof.
  intros M. split; intros [H|H]; [left|right|left|right]; intros d' Hd.
  - replace d' with (d' - k + k) in Hd by lia. apply M in Hd. apply H in Hd. lia.
  - replace d' with (d' - k + k) in Hd by lia. apply M in Hd. apply H in Hd. lia.
  - apply M in Hd. apply H in Hd. lia.
  - apply M in Hd. apply H in Hd. lia.
Qed.
Lemma farther_quotient d k n c c' : 0 < n -> quotient d n c -> quotient (d + k) n c' -> farther k n c c'.
Proof.
  intros Hn (p & -> & E) (p' & -> & E'). exists p, p'. do 2 (split; [reflexivity|]). rewrite E, E', inject_Z_plus. field. intros X. apply (inject_Z_injective n 0) in X. lia.
Qed.
Lemma farther_unit k one subpix c c' : 0 < one -> 0 < subpix -> (subpix | one) -> farther (k * (one / subpix)) one c c' -> farther k subpix c c'.
Proof.
  intros Ho Hs (m & Hm) (p & p' & -> & -> & E). exists p, p'. do 2 (split; [reflexivity|]). rewrite E. subst one. rewrite Z.div_mul by lia. rewrite !inject_Z_mult. field.
  assert (m <> 0) by nia. split; intros X; [apply (inject_Z_injective subpix 0) in X | apply (inject_Z_injective m 0) in X]; lia.
Qed.

(** ** Optical flow *)
Definition more (k : Z) (a b : num) : Prop := match a, b with Some p, Some q => (q == p + inject_Z k)%Q | None, None => True | _, _ => False end.
Lemma more_sub k a b m : more k a b -> more k (nsub a m) (nsub b m).
Proof. destruct a, b, m; cbn; try contradiction; auto. intros ->. ring. Qed.
Lemma moved_more k a b m a' : more k a b -> OpticalFlowSpec.moved a m a' -> exists b', OpticalFlowSpec.moved b m b' /\ more k a' b'.
Proof. intros E [[H ->]|[H ->]]; [exists b; split; [now left | exact E] | exists (nsub b m); split; [now right | now apply more_sub]]. Qed.
Lemma refined_more {px} kr kc lstsq resample invalid (l : list (list px)) n r p p' a b : refined lstsq resample invalid l n r p p' -> more kr (fst p) a -> more kc (snd p) b ->
  exists a' b', refined lstsq resample invalid l n r (a, b) (a', b') /\ more kr (fst p') a' /\ more kc (snd p') b'.
Proof.
  intros H. revert a b. induction H as [r d|n r c d mc mr d' E H1 H2 H IH|n r c d mc mr c' d' E H1 H2 H3]; intros a b Ea Eb; cbn [fst snd] in *.
  - exists a, b. split; [constructor | auto].
  - destruct (IH _ _ (more_sub _ _ _ mr Ea) (more_sub _ _ _ mc Eb)) as (a' & b' & R & X). exists a', b'. split; [|exact X]. eapply refined_go; eauto.
  - destruct (moved_more _ _ _ _ _ Ea H2) as (a' & Ma & Xa). destruct (moved_more _ _ _ _ _ Eb H3) as (b' & Mb & Xb). exists a', b'. split; [|auto]. eapply refined_stop; eauto.
Qed.
Lemma pixels_one d a : in_pixels 1 d a -> exists q, a = Some q /\ (q == inject_Z d)%Q.
Proof. intros (q & -> & E). exists q. split; [reflexivity|]. rewrite E. field. Qed.
Lemma more_pixels d k a b : in_pixels 1 d a -> in_pixels 1 (d + k) b -> more k a b.
Proof. intros Ha Hb. apply pixels_one in Ha as (p & -> & E). apply pixels_one in Hb as (p' & -> & E'). cbn. now rewrite E, E', inject_Z_plus. Qed.
(** A whole disparity is its own displacement, unless it is the invalid value. *)
Lemma displacement_whole one q i d a s : 0 < one -> config_number (q_invalid q) i -> not_invalid one 1 q d -> in_pixels 1 d a -> displacement i a s -> s = d.
Proof.
  intros Ho Ci Ni Ha D. apply pixels_one in Ha as (p & -> & E).
  assert (T : truncated p d). { rewrite E || idtac. unfold truncated. rewrite !E. unfold Qabs, Qle, Qlt. cbn. repeat split; nia. }
  assert (N : match i with Some r => ~ (p == r)%Q | None => True end).
  { destruct i as [r|]; [|exact I]. intros X. apply (Ni (CFin r)); [exists r; split; [reflexivity|]; rewrite <- X, E; field|].
    inversion Ci; subst; [apply shows_int; reflexivity | apply shows_bool; reflexivity | apply shows_float]. split; [apply Qle_refl|].
    assert (0 < 1 / inject_Z one)%Q; [|lra]. apply Qlt_shift_div_l; [unfold Qlt; cbn; lia | lra]. }
  cbn in D. destruct i as [r|]; [destruct D as [[X _]|[_ X]]; [contradiction|]|rename D into X]; eapply truncated_unique; [reflexivity | exact X | exact T | reflexivity | exact X | exact T].
Qed.
Lemma config_no_value one q i c : 0 < one -> config_number (q_invalid q) i -> saved_number i c -> no_value one q c.
Proof.
  intros Ho Ci S. unfold no_value. destruct Ci; cbn in S; subst c; try (right; reflexivity); left.
  - apply shows_int; reflexivity.
  - apply shows_bool; reflexivity.
  - apply shows_float. split; [apply Qle_refl|]. assert (0 < 1 / inject_Z one)%Q; [|lra]. apply Qlt_shift_div_l; [unfold Qlt; cbn; lia | lra].
Qed.
Lemma border_fits row0 nrow col0 ncol h x y : at_border row0 nrow col0 ncol h 1 1 x y <-> ~ WholeFlowSpec.fits row0 nrow col0 ncol h x y.
Proof. unfold at_border, last_point, WholeFlowSpec.fits. rewrite !Z.div_1_r. lia. Qed.
Lemma kept_invalid i lo hi c : OpticalFlowSpec.kept i lo hi i c -> c = i.
Proof. intros [(-> & ->)|[(_ & ->)|(_ & ->)]]; reflexivity. Qed.
Lemma kept_more one q i lo hi k a b c d v v' : 0 < one -> config_number (q_invalid q) i -> more k a b -> OpticalFlowSpec.kept i lo hi a c -> OpticalFlowSpec.kept i (lo + k) (hi + k) b d ->
  saved_number c v -> saved_number d v' -> lost_or_farther one q k v v'.
Proof.
  intros Ho Ci M [(-> & ->)|[((x & -> & X1 & X2) & ->)|((x & -> & X) & ->)]] [(-> & ->)|[((y & -> & Y1 & Y2) & ->)|((y & -> & Y) & ->)]] S S'; cbn in M; try contradiction.
  - cbn in S, S'. subst. left. split; right; reflexivity.
  - cbn in S, S'. subst. right. exists x, y. do 2 (split; [reflexivity|]). rewrite M. field.
  - exfalso. rewrite !inject_Z_plus in Y. destruct Y; lra.
  - exfalso. rewrite !inject_Z_plus in Y1, Y2. destruct X; lra.
  - left. split; eapply config_no_value; eassumption.
Qed.
Lemma range_moved open_raster init init' range range' x y x' y' k d u u' : moved_by (candidate open_raster init range 1 x y) (candidate open_raster init' range' 1 x' y') k ->
  candidate open_raster init range 1 x y d -> middle open_raster init x y u -> middle open_raster init' x' y' u' -> u' - range' = u - range + k /\ u' + range' = u + range + k.
Proof.
  intros M (v & Mv & Iv) Mu Mu'. assert (v = u) as -> by (eapply middle_unique; eassumption).
  assert (C : forall e, candidate open_raster init range 1 x y e <-> u - range <= e <= u + range).
  { intros e. split; [intros (w & Mw & Iw); assert (w = u) as -> by (eapply middle_unique; eassumption); lia | intros H; exists u; split; [assumption | lia]]. }
  assert (C' : forall e, candidate open_raster init' range' 1 x' y' e <-> u' - range' <= e <= u' + range').
  { intros e. split; [intros (w & Mw & Iw); assert (w = u') as -> by (eapply middle_unique; eassumption); lia | intros H; exists u'; split; [assumption | lia]]. }
  assert (H : forall e, u - range <= e <= u + range <-> u' - range' <= e + k <= u' + range') by (intros e; rewrite <- C, <- C'; apply M).
  pose proof (proj1 (H (u - range)) ltac:(lia)). pose proof (proj1 (H (u + range)) ltac:(lia)). pose proof (proj2 (H (u' - range' - k)) ltac:(lia)). pose proof (proj2 (H (u' + range' - k)) ltac:(lia)). lia.
Qed.
Section Flow.
  Context {px : Type} (nan : px).
  Variable lstsq : list (list px) -> list (list px) -> option (num * num).
  Variable resample : list (list px) -> num -> num -> list (list px).
  Lemma around_same h (im im' : ImgShiftModel.image px) row0 col0 x y row0' col0' x' y' W W' : same_window h im row0 col0 x y im' row0' col0' x' y' ->
    WholeFlowSpec.around row0 col0 im h x y W -> WholeFlowSpec.around row0' col0' im' h x' y' W' -> W = W'.
  Proof.
    intros S (R & V) (R' & V'). eapply nth2_ext; [exact R | exact R'|]. intros a b Ha Hb. rewrite V, V' by assumption. f_equal.
    specialize (S (Z.of_nat a - Z.of_nat h) (Z.of_nat b - Z.of_nat h) ltac:(lia) ltac:(lia)). unfold value_at in S.
    replace (x - Z.of_nat h + Z.of_nat a - row0) with (x + (Z.of_nat a - Z.of_nat h) - row0) by lia. replace (y - Z.of_nat h + Z.of_nat b - col0) with (y + (Z.of_nat b - Z.of_nat h) - col0) by lia.
    replace (x' - Z.of_nat h + Z.of_nat a - row0') with (x' + (Z.of_nat a - Z.of_nat h) - row0') by lia. replace (y' - Z.of_nat h + Z.of_nat b - col0') with (y' + (Z.of_nat b - Z.of_nat h) - col0') by lia. exact S.
  Qed.
  Lemma flow_farther open_raster one n h q q' row0 nrow col0 ncol row0' nrow' col0' ncol' (left right left' right' : ImgShiftModel.image px) x y x' y' kr kc vr vc vs vr' vc' vs' dr dc s : 0 < one ->
    q_invalid q' = q_invalid q ->
    (at_border row0 nrow col0 ncol h (q_row_step q) (q_col_step q) x y <-> at_border row0' nrow' col0' ncol' h (q_row_step q') (q_col_step q') x' y') ->
    not_invalid one 1 q dr -> not_invalid one 1 q dc -> not_invalid one 1 q (dr + kr) -> not_invalid one 1 q (dc + kc) ->
    candidate open_raster (q_row_init q) (q_row_range q) 1 x y dr -> candidate open_raster (q_col_init q) (q_col_range q) 1 x y dc ->
    moved_by (candidate open_raster (q_row_init q) (q_row_range q) 1 x y) (candidate open_raster (q_row_init q') (q_row_range q') 1 x' y') kr ->
    moved_by (candidate open_raster (q_col_init q) (q_col_range q) 1 x y) (candidate open_raster (q_col_init q') (q_col_range q') 1 x' y') kc ->
    same_window h left row0 col0 x y left' row0' col0' x' y' ->
    (WholeFlowSpec.fits row0 nrow col0 ncol h (x + dr) (y + dc) <-> WholeFlowSpec.fits row0' nrow' col0' ncol' h (x' + (dr + kr)) (y' + (dc + kc))) ->
    (WholeFlowSpec.fits row0 nrow col0 ncol h (x + dr) (y + dc) -> same_window h right row0 col0 (x + dr) (y + dc) right' row0' col0' (x' + (dr + kr)) (y' + (dc + kc))) ->
    flow_found nan lstsq resample left right row0 nrow col0 ncol open_raster one 1 n h q x y vr vc vs dr dc s ->
    flow_found nan lstsq resample left' right' row0' nrow' col0' ncol' open_raster one 1 n h q' x' y' vr' vc' vs' (dr + kr) (dc + kc) s ->
    lost_or_farther one q kr vr vr' /\ lost_or_farther one q kc vc vc' /\ same_cost vs vs'.
  Proof.
    intros Ho Iv Bo N1 N2 N3 N4 Cr Cc Mr Mc Sl Fi Sr
      (Sn & a & b & Pa & Pb & i & a1 & b1 & c & d & u & v & Ci & M & Mu & Ku & Su & Mv & Kv & Sv) (Sn' & a' & b' & Pa' & Pb' & i' & a1' & b1' & c' & d' & u' & v' & Ci' & M' & Mu' & Ku' & Su' & Mv' & Kv' & Sv').
    rewrite Iv in Ci'. assert (i' = i) as -> by (clear - Ci Ci'; destruct Ci; inversion Ci'; reflexivity).
    destruct (range_moved _ _ _ _ _ _ _ _ _ _ _ _ _ Mr Cr Mu Mu') as [L1 L2]. destruct (range_moved _ _ _ _ _ _ _ _ _ _ _ _ _ Mc Cc Mv Mv') as [L3 L4]. rewrite L1, L2 in Ku'. rewrite L3, L4 in Kv'.
    enough (G : lost_or_farther one q kr vr vr' /\ lost_or_farther one q kc vc vc') by (destruct G; split; [assumption|]; split; [assumption|]; eapply number_same; eassumption).
    destruct M as [(B & -> & ->)|(B & l & r & sr & sc & Al & Dr & Dc & Af & An & Rf)], M' as [(B' & -> & ->)|(B' & l' & r' & sr' & sc' & Al' & Dr' & Dc' & Af' & An' & Rf')]; try (exfalso; tauto).
    - apply kept_invalid in Ku, Kv, Ku', Kv'. subst. split; left; split; eapply config_no_value; eassumption.
    - assert (sr = dr) as -> by exact (displacement_whole one q i dr a sr Ho Ci N1 Pa Dr). assert (sc = dc) as -> by exact (displacement_whole one q i dc b sc Ho Ci N2 Pb Dc).
      assert (sr' = dr + kr) as -> by exact (displacement_whole one q i (dr + kr) a' sr' Ho Ci N3 Pa' Dr'). assert (sc' = dc + kc) as -> by exact (displacement_whole one q i (dc + kc) b' sc' Ho Ci N4 Pb' Dc').
      assert (l' = l) as -> by (symmetry; exact (around_same h _ _ _ _ _ _ _ _ _ _ _ _ Sl Al Al')).
      assert (r' = r) as ->.
      { assert (Dec : WholeFlowSpec.fits row0 nrow col0 ncol h (x + dr) (y + dc) \/ ~ WholeFlowSpec.fits row0 nrow col0 ncol h (x + dr) (y + dc)) by (unfold WholeFlowSpec.fits; lia).
        destruct Dec as [G|G]; [symmetry; eapply around_same; [exact (Sr G) | exact (Af G) | apply Af'; now apply Fi]|]. rewrite (An G), An'; [reflexivity|]. intros X. apply G. now apply Fi. }
      destruct (refined_more kr kc _ _ _ _ _ _ _ _ _ _ Rf (more_pixels _ _ _ _ Pa Pa') (more_pixels _ _ _ _ Pb Pb')) as (p1 & p2 & Rp & E1 & E2). cbn [fst snd] in E1, E2.
      pose proof (refined_unique _ _ _ _ _ _ _ _ _ Rp Rf') as X. injection X as -> ->.
      split; eapply kept_more; eassumption.
  Qed.
End Flow.
