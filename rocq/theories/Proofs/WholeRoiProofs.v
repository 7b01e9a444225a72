(** What a refinement reads around the disparities of a pixel; the part of the images that is loaded for the pixels of a ROI. *)
From Coq Require Import List String Bool ZArith QArith Qabs Lia Lqa.
From Verif Require Import Base.Ext Base.PyList Base.Json Base.Dict Base.Arr Model.DisparityModel Model.InputModel Model.OpticalFlowModel Model.InterpolationModel Model.ImgShiftModel
  Spec.WtaSpec Spec.BestSpec Spec.HalvingSpec Spec.OpticalFlowSpec Spec.WholeSpec Spec.WholeFlowSpec Spec.WholeRoiSpec Spec.InterpUniqueSpec Proofs.WtaTheorems Proofs.WholeRunProofs Proofs.WholeMoreProofs.
Import ListNotations.
Open Scope Z_scope.

(** ** The search reads the values near its starting point *)
Fixpoint total_of (l : list Z) : Z := match l with [] => 0 | p :: l => p + total_of l end.
Lemma kept_near t v1 v2 p row col s a b v : (forall a b, direction a b -> v1 (row + a * p) (col + b * p) = v2 (row + a * p) (col + b * p)) ->
  HalvingSpec.kept t v1 p row col s a b v -> HalvingSpec.kept t v2 p row col s a b v.
Proof.
  intros E. assert (P : forall a b, direction a b -> proposed v1 p row col s a b = proposed v2 p row col s a b).
  { intros a0 b0 D. unfold proposed. rewrite (E _ _ D). reflexivity. }
  intros (D & K & N & G & F). split; [exact D|]. split; [now rewrite <- P|]. split; [exact N|]. split.
  - intros a' b' D'. rewrite <- P by exact D'. auto.
  - destruct F as [(F & A & B)|((a' & b' & D' & X) & F)].
    + left. split; [|auto]. intros a' b' D'. rewrite <- P by exact D'. auto.
    + right. split; [exists a', b'; rewrite <- P by exact D'; auto|]. intros a1 b1 D1 B1. rewrite <- P by exact D1. auto.
Qed.
Lemma halving_near store t v1 v2 l row col s row' col' s' : Forall (fun p => 0 <= p) l ->
  (forall u v, Z.abs (u - row) <= total_of l -> Z.abs (v - col) <= total_of l -> v1 u v = v2 u v) ->
  halving store t v1 l row col s row' col' s' -> halving store t v2 l row col s row' col' s'.
Proof.
  intros F E H. revert F E. induction H as [row col s|p l row col s a b v row' col' s' K H IH]; intros F E; [constructor|].
  inversion F as [|? ? Hp Fl]; subst. cbn [total_of] in E.
  assert (T : 0 <= total_of l). { clear - Fl. induction Fl; cbn; lia. }
  assert (D := K). destruct D as ((Da & Db) & _).
  econstructor.
  - eapply kept_near; [|exact K]. intros a' b' [Ha Hb]. apply E; nia.
  - apply IH; [exact Fl|]. intros u w Hu Hw. apply E; nia.
Qed.
Lemma halves_total one k n : 0 < one -> 0 <= total_of (map (fun it => one / 2 ^ Z.of_nat it) (seq (S k) n)) /\
  total_of (map (fun it => one / 2 ^ Z.of_nat it) (seq (S k) n)) + one / 2 ^ Z.of_nat (k + n) <= one / 2 ^ Z.of_nat k.
Proof.
  intros Ho. revert k. induction n as [|n IH]; intros k.
  - cbn [seq map total_of]. rewrite Nat.add_0_r. lia.
  - cbn [seq map total_of]. destruct (IH (S k)) as [I1 I2]. replace (S k + n)%nat with (k + S n)%nat in I2 by lia.
    assert (D : 2 * (one / 2 ^ Z.of_nat (S k)) <= one / 2 ^ Z.of_nat k).
    { rewrite Nat2Z.inj_succ, Z.pow_succ_r by lia. rewrite (Z.mul_comm 2 (2 ^ _)), <- Z.div_div by (try apply Z.pow_nonzero; try apply Z.pow_pos_nonneg; lia). apply Z.mul_div_le. lia. }
    assert (0 <= one / 2 ^ Z.of_nat (S k)) by (apply Z.div_pos; [lia | apply Z.pow_pos_nonneg; lia]). lia.
Qed.
(** The precisions of the dichotomy add up to less than one sample. *)
Lemma halves_short one k n : 0 < one -> (512 | one) -> (2 ^ Z.of_nat k | one) -> (n <= 9)%nat -> Forall (fun p => 0 <= p) (halves one k n) /\ 0 <= total_of (halves one k n) < one / 2 ^ Z.of_nat k.
Proof.
  intros Ho (m & Hm) (u & Hu) Hn. unfold halves. split.
  { apply Forall_forall. intros p Hp. apply in_map_iff in Hp as (i & <- & _). apply Z.div_pos; [lia | apply Z.pow_pos_nonneg; lia]. }
  destruct (halves_total one k (n - k) Ho) as [T1 T2]. split; [exact T1|].
  assert (0 < one / 2 ^ Z.of_nat (k + (n - k))); [|lia]. apply Z.div_str_pos. split; [apply Z.pow_pos_nonneg; lia|].
  destruct (Nat.le_gt_cases k n) as [L|L].
  - replace (k + (n - k))%nat with n by lia. assert (2 ^ Z.of_nat n <= 2 ^ 9) by (apply Z.pow_le_mono_r; lia). change (2 ^ 9) with 512 in *. lia.
  - replace (k + (n - k))%nat with k by lia. assert (P : 0 < 2 ^ Z.of_nat k) by (apply Z.pow_pos_nonneg; lia). clear - Ho Hu P. assert (1 <= u) by nia. nia.
Qed.

(** The filter reads the samples around the position. *)
Lemma between_near one subpix size left up apply s1 s2 row col u v T :
  0 < one -> 0 < subpix -> (subpix | one) -> Z.abs (u - row * (one / subpix)) < one / subpix -> Z.abs (v - col * (one / subpix)) < one / subpix ->
  Z.of_nat left + 1 <= T -> Z.of_nat up + 1 <= T -> Z.of_nat size <= Z.of_nat left + T + 1 -> Z.of_nat size <= Z.of_nat up + T + 1 ->
  (forall a b, Z.abs (a - row) <= T -> Z.abs (b - col) <= T -> s1 a b = s2 a b) ->
  between one subpix size left up apply s1 u v = between one subpix size left up apply s2 u v.
Proof.
  intros Ho Hs (k & Hk) Hu Hv T1 T2 T3 T4 E. rewrite Hk, Z.div_mul in Hu, Hv by lia. assert (Hkp : 0 < k) by nia.
  assert (Near : forall u r, Z.abs (u - r * k) < k -> r - 1 <= u * subpix / one <= r).
  { intros w r H. rewrite Hk, Z.div_mul_cancel_r by lia. split; [apply Z.div_le_lower_bound; lia|]. assert (w / k < r + 1); [|lia]. apply Z.div_lt_upper_bound; lia. }
  pose proof (Near _ _ Hu) as N1. pose proof (Near _ _ Hv) as N2. unfold between. do 2 f_equal. unfold window_at.
  apply map_ext_in. intros p Hp. apply map_ext_in. intros q Hq. apply in_seq in Hp, Hq. apply E; lia.
Qed.

(** ** The window of the ROI *)
Lemma reached half T subpix rows x d t row0 hi (Row : Z -> Prop) (cand : Z -> Prop) : 0 <= half -> 0 <= T -> 0 < subpix ->
  (forall a, x - (half + T) <= a <= x + (half + T) -> Row a) ->
  (forall a b, Row a -> cand b -> 0 <= a + b < rows -> row0 <= a + b < hi) ->
  cand (d / subpix) -> cand (- (- d / subpix)) -> Z.abs t <= T * subpix -> row0 <= x - half -> x + half < hi ->
  WholeSpec.fits half subpix x (d + t) 0 rows -> WholeSpec.fits half subpix x (d + t) row0 hi.
Proof.
  intros Hh HT Hs HR Hw C1 C2 Ht B1 B2 (F1 & F2 & F3 & F4).
  set (f := (d + t) / subpix). set (g := - (- (d + t) / subpix)).
  assert (Hf : f * subpix <= d + t < (f + 1) * subpix) by (unfold f; pose proof (Z.div_mod (d + t) subpix); pose proof (Z.mod_pos_bound (d + t) subpix); nia).
  assert (Hg : (g - 1) * subpix < d + t <= g * subpix) by (unfold g; pose proof (Z.div_mod (- (d + t)) subpix); pose proof (Z.mod_pos_bound (- (d + t)) subpix); nia).
  set (f0 := d / subpix) in *. set (g0 := - (- d / subpix)) in *.
  assert (Hf0 : f0 * subpix <= d < (f0 + 1) * subpix) by (unfold f0; pose proof (Z.div_mod d subpix); pose proof (Z.mod_pos_bound d subpix); nia).
  assert (Hg0 : (g0 - 1) * subpix < d <= g0 * subpix) by (unfold g0; pose proof (Z.div_mod (- d) subpix); pose proof (Z.mod_pos_bound (- d) subpix); nia).
  clearbody f g f0 g0.
  assert (Df : Z.abs (f - f0) <= T) by (clear - Hf Hf0 Ht Hs HT; nia). assert (Dg : Z.abs (g - g0) <= T) by (clear - Hg Hg0 Ht Hs HT; nia).
  assert (P1 : 0 <= x - half + f) by (clear - F3 Hf Hs; nia). assert (P2 : x + half + g < rows) by (clear - F4 Hg Hs; nia).
  assert (P3 : f <= g) by (clear - Hf Hg Hs; nia).
  assert (Q1 : row0 <= x - half + f).
  { pose proof (Hw (x - half + f - f0) f0 ltac:(apply HR; lia) C1 ltac:(lia)). lia. }
  assert (Q2 : x + half + g < hi).
  { pose proof (Hw (x + half + g - g0) g0 ltac:(apply HR; lia) C2 ltac:(lia)). lia. }
  unfold WholeSpec.fits. clear - B1 B2 Q1 Q2 Hf Hg Hs. nia.
Qed.

(** ** The flow of a pixel in two parts of the images *)
Lemma num_eq_saved a b c d : num_eq a b -> saved_number a c -> saved_number b d -> same_cost c d.
Proof. destruct a, b; cbn; try contradiction; intros H -> ->; cbn; auto. Qed.
Lemma num_eq_sub a b m : num_eq a b -> num_eq (nsub a m) (nsub b m).
Proof. destruct a, b, m; cbn; try contradiction; auto. intros ->. reflexivity. Qed.
Lemma moved_eq a b m a' : num_eq a b -> OpticalFlowSpec.moved a m a' -> exists b', OpticalFlowSpec.moved b m b' /\ num_eq a' b'.
Proof. intros E [[H ->]|[H ->]]; [exists b; split; [now left | exact E] | exists (nsub b m); split; [now right | now apply num_eq_sub]]. Qed.
Lemma refined_eq {px} lstsq resample invalid (l : list (list px)) n r p p' a b : refined lstsq resample invalid l n r p p' -> num_eq (fst p) a -> num_eq (snd p) b ->
  exists a' b', refined lstsq resample invalid l n r (a, b) (a', b') /\ num_eq (fst p') a' /\ num_eq (snd p') b'.
Proof.
  intros H. revert a b. induction H as [r d|n r c d mc mr d' E H1 H2 H IH|n r c d mc mr c' d' E H1 H2 H3]; intros a b Ea Eb; cbn [fst snd] in *.
  - exists a, b. split; [constructor | auto].
  - destruct (IH _ _ (num_eq_sub _ _ mr Ea) (num_eq_sub _ _ mc Eb)) as (a' & b' & R & X). exists a', b'. split; [|exact X]. eapply refined_go; eauto.
  - destruct (moved_eq _ _ _ _ Ea H2) as (a' & Ma & Xa). destruct (moved_eq _ _ _ _ Eb H3) as (b' & Mb & Xb). exists a', b'. split; [|auto]. eapply refined_stop; eauto.
Qed.
Lemma refined_unique {px} lstsq resample invalid (l : list (list px)) n r d d1 d2 : refined lstsq resample invalid l n r d d1 -> refined lstsq resample invalid l n r d d2 -> d1 = d2.
Proof.
  assert (M : forall d0 m e e', OpticalFlowSpec.moved d0 m e -> OpticalFlowSpec.moved d0 m e' -> e = e') by (intros d0 m e e' [[A ->]|[A ->]] [[B ->]|[B ->]]; tauto).
  intros H. revert d2. induction H as [r d|n r a b mc mr d' E H1 H2 H IH|n r a b mc mr a' b' E H1 H2 H3]; intros d2 K.
  - inversion K. reflexivity.
  - inversion K as [|? ? ? ? mc' mr' ? E' K1 K2 K3|? ? ? ? mc' mr' ? ? E' K1 K2 K3]; subst; rewrite E in E'; injection E' as <- <-; [auto | tauto].
  - inversion K as [|? ? ? ? mc' mr' ? E' K1 K2 K3|? ? ? ? mc' mr' ? ? E' K1 K2 K3]; subst; rewrite E in E'; injection E' as <- <-; [tauto|]. f_equal; eauto.
Qed.
Lemma abs_int_le a b : (inject_Z a < inject_Z b + 1)%Q -> a <= b.
Proof. intros H. change 1%Q with (inject_Z 1) in H. rewrite <- inject_Z_plus, <- Zlt_Qlt in H. lia. Qed.
Lemma truncated_unique q q' s s' : (q == q')%Q -> truncated q s -> truncated q' s' -> s = s'.
Proof.
  intros E (A & B & C) (A' & B' & C'). rewrite <- E in A', B', C'.
  assert (H1 : Z.abs s <= Z.abs s') by (apply abs_int_le; eapply Qle_lt_trans; eassumption). assert (H2 : Z.abs s' <= Z.abs s) by (apply abs_int_le; eapply Qle_lt_trans; eassumption).
  destruct (Z.eq_dec s s') as [|N]; [assumption|]. exfalso. assert (Hs : s' = - s) by lia. subst s'. rewrite inject_Z_opp in C'.
  assert (Z0 : (q * inject_Z s == 0)%Q) by (apply Qle_antisym; lra). apply Qmult_integral in Z0 as [Z0|Z0].
  - rewrite Z0 in A. change (Qabs 0) with (inject_Z 0) in A. rewrite <- Zle_Qle in A. lia.
  - unfold Qeq in Z0. cbn in Z0. lia.
Qed.
Lemma displacement_unique invalid a b s s' : num_eq a b -> displacement invalid a s -> displacement invalid b s' -> s = s'.
Proof.
  destruct a as [p|], b as [q|]; cbn; try contradiction; [|congruence]. intros E. destruct invalid as [i|].
  - intros [[A ->]|[A T]] [[B ->]|[B T']]; [reflexivity | elim B; now rewrite <- E | elim A; now rewrite E | eapply truncated_unique; eauto].
  - intros T T'. eapply truncated_unique; eauto.
Qed.
Lemma truncated_within lo hi q s : (inject_Z lo <= q <= inject_Z hi)%Q -> truncated q s -> lo <= s <= hi.
Proof.
  intros [L H] (A & B & C).
  destruct (Z.lt_trichotomy s 0) as [N|[->|P]].
  - assert (Q0 : (q <= 0)%Q).
    { destruct (Qlt_le_dec 0 q) as [G|G]; [|exact G]. exfalso. assert (X : (q * inject_Z s < 0)%Q); [|lra]. setoid_replace 0%Q with (q * 0)%Q by ring. apply Qmult_lt_l; [exact G|]. unfold Qlt. cbn. lia. }
    rewrite (Qabs_neg q Q0), Z.abs_neq in A, B by lia. rewrite inject_Z_opp in A, B. split.
    + apply abs_int_le. lra.
    + assert (X : (inject_Z (s - 1) < inject_Z hi)%Q) by (unfold Z.sub; rewrite inject_Z_plus; change (inject_Z (- (1))) with (- (1))%Q; lra). rewrite <- Zlt_Qlt in X. lia.
  - change (inject_Z (Z.abs 0)) with 0%Q in *. apply Qabs_Qlt_condition in B. destruct B as [B1 B2]. split; apply abs_int_le; change (inject_Z 0) with 0%Q; lra.
  - assert (Q0 : (0 <= q)%Q).
    { destruct (Qlt_le_dec q 0) as [G|G]; [|exact G]. exfalso. assert (X : (q * inject_Z s < 0)%Q); [|lra]. setoid_replace 0%Q with (0 * inject_Z s)%Q by ring. apply Qmult_lt_r; [unfold Qlt; cbn; lia | exact G]. }
    rewrite (Qabs_pos q Q0), Z.abs_eq in A, B by lia. split; apply abs_int_le; lra.
Qed.
(** The displacement of a candidate is a candidate, or zero. *)
Lemma displacement_candidate invalid subpix lo hi d a s : 0 < subpix -> lo * subpix <= d <= hi * subpix -> in_pixels subpix d a -> displacement invalid a s -> lo <= s <= hi \/ s = 0.
Proof.
  intros Hs Hd (q & -> & E) D. assert (X : (inject_Z lo <= q <= inject_Z hi)%Q).
  { rewrite E. assert (P : (0 < inject_Z subpix)%Q) by (unfold Qlt; cbn; lia). split; [apply Qle_shift_div_l | apply Qle_shift_div_r]; try exact P; rewrite <- inject_Z_mult, <- Zle_Qle; lia. }
  cbn in D. destruct invalid as [i|]; [destruct D as [[_ ->]|[_ T]]; [now right|] |rename D into T]; left; eapply truncated_within; eauto.
Qed.
Lemma kept_eq invalid lo hi a b c d : num_eq a b -> OpticalFlowSpec.kept invalid lo hi a c -> OpticalFlowSpec.kept invalid lo hi b d -> num_eq c d.
Proof.
  assert (R : forall i : num, num_eq i i) by (intros [i|]; cbn; reflexivity || auto).
  intros E [(-> & ->)|[((x & -> & X1 & X2) & ->)|((x & -> & X) & ->)]] [(-> & ->)|[((y & -> & Y1 & Y2) & ->)|((y & -> & Y) & ->)]]; try apply R; cbn in E; try contradiction; try exact E;
    exfalso; first [destruct X; lra | destruct Y; lra].
Qed.
Section Flow.
  Context {px : Type} (nan : px).
  Variable lstsq : list (list px) -> list (list px) -> option (num * num).
  Variable resample : list (list px) -> num -> num -> list (list px).
  Lemma around_part row0 nrow col0 ncol (part whole : ImgShiftModel.image px) h x y W W' : part_of_image row0 nrow col0 ncol part whole ->
    WholeFlowSpec.fits row0 nrow col0 ncol h x y -> around row0 col0 part h x y W -> around 0 0 whole h x y W' -> W = W'.
  Proof.
    intros P (F1 & F2 & F3 & F4) (R & V) (R' & V'). eapply nth2_ext; [exact R | exact R'|]. intros a b Ha Hb. rewrite V, V' by assumption. f_equal. rewrite !Z.sub_0_r. apply P; lia.
  Qed.
  Lemma flow_agree open_raster one subpix n h q q' rows cols row0 nrow col0 ncol (left right left' right' : ImgShiftModel.image px) x y vr vc vs vr' vc' vs' dr dc s : 0 < subpix ->
    q_row_init q' = q_row_init q -> q_col_init q' = q_col_init q -> q_row_range q' = q_row_range q -> q_col_range q' = q_col_range q -> q_invalid q' = q_invalid q ->
    q_row_step q = 1 -> q_col_step q = 1 -> q_row_step q' = 1 -> q_col_step q' = 1 ->
    0 <= row0 -> row0 + Z.of_nat nrow <= Z.of_nat rows -> 0 <= col0 -> col0 + Z.of_nat ncol <= Z.of_nat cols ->
    WholeFlowSpec.fits row0 nrow col0 ncol h x y ->
    (forall a, candidate open_raster (q_row_init q) (q_row_range q) 1 x y a -> 0 <= x - Z.of_nat h + a -> x + Z.of_nat h + a < Z.of_nat rows -> row0 <= x - Z.of_nat h + a /\ x + Z.of_nat h + a < row0 + Z.of_nat nrow) ->
    (forall a, candidate open_raster (q_col_init q) (q_col_range q) 1 x y a -> 0 <= y - Z.of_nat h + a -> y + Z.of_nat h + a < Z.of_nat cols -> col0 <= y - Z.of_nat h + a /\ y + Z.of_nat h + a < col0 + Z.of_nat ncol) ->
    candidate open_raster (q_row_init q) (q_row_range q) subpix x y dr -> candidate open_raster (q_col_init q) (q_col_range q) subpix x y dc ->
    part_of_image row0 nrow col0 ncol left left' -> part_of_image row0 nrow col0 ncol right right' ->
    flow_found nan lstsq resample left right row0 nrow col0 ncol open_raster one subpix n h q x y vr vc vs dr dc s ->
    flow_found nan lstsq resample left' right' 0 rows 0 cols open_raster one subpix n h q' x y vr' vc' vs' dr dc s ->
    same_cost vr vr' /\ same_cost vc vc' /\ same_cost vs vs'.
  Proof.
    intros Hs Ir Ic Rr Rc Iv S1 S2 S1' S2' B1 B2 B3 B4 F Wr Wc Cr Cc Pl Pr
      (N1 & a & b & Pa & Pb & i & a1 & b1 & c & d & u & v & Ci & M & Mu & Ku & Su & Mv & Kv & Sv) (N1' & a' & b' & Pa' & Pb' & i' & a1' & b1' & c' & d' & u' & v' & Ci' & M' & Mu' & Ku' & Su' & Mv' & Kv' & Sv').
    rewrite Ir, Ic, Rr, Rc, Iv in *. assert (i' = i) as -> by (clear - Ci Ci'; destruct Ci; inversion Ci'; reflexivity).
    assert (u' = u) as -> by (eapply middle_unique; [exact Mu' | exact Mu]). assert (v' = v) as -> by (eapply middle_unique; [exact Mv' | exact Mv]).
    assert (Ea : num_eq a a') by (destruct Pa as (p & -> & X), Pa' as (p' & -> & X'); cbn; now rewrite X, X'). assert (Eb : num_eq b b') by (destruct Pb as (p & -> & X), Pb' as (p' & -> & X'); cbn; now rewrite X, X').
    assert (F0 := F). destruct F0 as (F1 & F2 & F3 & F4).
    destruct M as [(Bo & _)|(_ & l & r & sr & sc & Al & Dr & Dc & Af & An & Rf)]; [exfalso; revert Bo; unfold at_border, last_point; rewrite S1, S2, !Z.div_1_r; lia|].
    destruct M' as [(Bo & _)|(_ & l' & r' & sr' & sc' & Al' & Dr' & Dc' & Af' & An' & Rf')]; [exfalso; revert Bo; unfold at_border, last_point; rewrite S1', S2', !Z.div_1_r; lia|].
    assert (sr' = sr) as -> by (symmetry; exact (displacement_unique _ _ _ _ _ Ea Dr Dr')). assert (sc' = sc) as -> by (symmetry; exact (displacement_unique _ _ _ _ _ Eb Dc Dc')).
    assert (l' = l) as -> by (symmetry; exact (around_part _ _ _ _ _ _ _ _ _ _ _ Pl F Al Al')).
    assert (Reach : WholeFlowSpec.fits 0 rows 0 cols h (x + sr) (y + sc) <-> WholeFlowSpec.fits row0 nrow col0 ncol h (x + sr) (y + sc)).
    { split; [|unfold WholeFlowSpec.fits; lia]. intros (G1 & G2 & G3 & G4).
      destruct Cr as (v1 & X1 & Y1), Cc as (v2 & X2 & Y2).
      destruct (displacement_candidate _ _ _ _ _ _ _ Hs Y1 Pa Dr) as [H1|H1], (displacement_candidate _ _ _ _ _ _ _ Hs Y2 Pb Dc) as [H2|H2];
        try (destruct (Wr sr ltac:(exists v1; split; [exact X1 | lia]) ltac:(lia) ltac:(lia)) as [J1 J2]); try (destruct (Wc sc ltac:(exists v2; split; [exact X2 | lia]) ltac:(lia) ltac:(lia)) as [J3 J4]);
        unfold WholeFlowSpec.fits; lia. }
    assert (r' = r) as ->.
    { assert (Dec : WholeFlowSpec.fits row0 nrow col0 ncol h (x + sr) (y + sc) \/ ~ WholeFlowSpec.fits row0 nrow col0 ncol h (x + sr) (y + sc)) by (unfold WholeFlowSpec.fits; lia).
      destruct Dec as [G|G]; [symmetry; eapply around_part; [exact Pr | exact G | now apply Af | apply Af'; now apply Reach]|]. rewrite (An G), An'; [reflexivity|]. intros X. apply G. now apply Reach. }
    destruct (refined_eq _ _ _ _ _ _ _ _ _ _ Rf Ea Eb) as (p1 & p2 & Rp & E1 & E2). cbn [fst snd] in E1, E2. pose proof (refined_unique _ _ _ _ _ _ _ _ _ Rp Rf') as X. injection X as -> ->.
    split; [eapply num_eq_saved; [exact (kept_eq _ _ _ _ _ _ _ E1 Ku Ku') | exact Su | exact Su']|]. split; [eapply num_eq_saved; [exact (kept_eq _ _ _ _ _ _ _ E2 Kv Kv') | exact Sv | exact Sv']|].
    eapply number_same; eassumption.
  Qed.
End Flow.
