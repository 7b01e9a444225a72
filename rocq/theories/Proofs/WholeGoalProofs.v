(** Proofs about costs that lead to a position between the samples. *)
From Coq Require Import ZArith QArith Qround Qabs List Bool Lia Lqa Arith Znumtheory.
From Verif Require Import Base.Ext Base.PyList Base.Arr Model.CommonModel Model.DisparityModel Model.DichotomyModel Model.FilterModel
  Spec.WtaSpec Spec.DichotomySpec Spec.HalvingSpec Spec.BestSpec Spec.WholeGoalSpec Proofs.ChunkProofs Proofs.WtaProofs Proofs.DichotomyProofs Proofs.DichotomyTheorems Proofs.BicubicProofs Proofs.HalvingProofs Proofs.BicubicHalving.
Import ListNotations.
Open Scope Z_scope.

(** The best sample is next to the goal. *)
Lemma best_sample t f goal unit : towards t f goal -> 0 < unit ->
  exists d, near unit 2 goal d /\ forall d', match t with MeasureMin => f (d * unit) <= f (d' * unit) | MeasureMax => f (d' * unit) <= f (d * unit) end.
Proof.
  intros T P. pose proof (Z.div_mod goal unit ltac:(lia)) as E. pose proof (Z.mod_pos_bound goal unit P) as B. set (d := goal / unit) in *.
  assert (N0 : near unit 2 goal d) by (unfold near; lia). assert (N1 : near unit 2 goal (d + 1)) by (unfold near; lia).
  assert (L : forall d', d' < d -> match t with MeasureMin => f (d * unit) < f (d' * unit) | MeasureMax => f (d' * unit) < f (d * unit) end).
  { intros d' H. apply (T (d * unit) (d' * unit)). right. nia. }
  assert (R : forall d', d + 1 < d' -> match t with MeasureMin => f ((d + 1) * unit) < f (d' * unit) | MeasureMax => f (d' * unit) < f ((d + 1) * unit) end).
  { intros d' H. apply (T ((d + 1) * unit) (d' * unit)). left. nia. }
  assert (C : match t with MeasureMin => f (d * unit) <= f ((d + 1) * unit) | MeasureMax => f ((d + 1) * unit) <= f (d * unit) end \/
              match t with MeasureMin => f ((d + 1) * unit) <= f (d * unit) | MeasureMax => f (d * unit) <= f ((d + 1) * unit) end) by (destruct t; lia).
  destruct C as [C|C]; [exists d | exists (d + 1)]; (split; [assumption|]); intros d';
    (destruct (Z_lt_le_dec d' d) as [H|H]; [pose proof (L d' H); destruct t; lia|]); (destruct (Z_lt_le_dec (d + 1) d') as [H'|H']; [pose proof (R d' H'); destruct t; lia|]);
    assert (d' = d \/ d' = d + 1) as [-> | ->] by lia; destruct t; lia.
Qed.
Lemma next_near t f goal unit d : towards t f goal -> 0 < unit -> (forall d', match t with MeasureMin => f (d * unit) <= f (d' * unit) | MeasureMax => f (d' * unit) <= f (d * unit) end) -> near unit 1 goal d.
Proof.
  intros T P H. unfold near. rewrite Z.mul_1_l. apply (best_close t f); auto. intros u [-> | ->].
  - specialize (H (d + 1)). replace ((d + 1) * unit) with (d * unit + unit) in H by ring. exact H.
  - specialize (H (d - 1)). replace ((d - 1) * unit) with (d * unit - unit) in H by ring. exact H.
Qed.

(** The best pair, in samples, is less than one sample from the goal. *)
Lemma best_near t rows cols unit reach cost f h goal_row goal_col dr dc s : leads_to t rows cols unit reach cost f h goal_row goal_col -> 0 < unit -> 2 <= reach ->
  rows dr -> cols dc -> s <> NaN -> (forall dr' dc', rows dr' -> cols dc' -> cost dr' dc' <> NaN -> at_least_as_good t s (cost dr' dc')) ->
  (exists dc', cols dc' /\ cost dr dc' = s) -> (exists dr', rows dr' /\ cost dr' dc = s) -> near unit 1 goal_row dr /\ near unit 1 goal_col dc.
Proof.
  intros [Tr Tc Nr Nc Near Far] P Hr Rr Rc Hs Best (dc' & Cd & Ed) (dr' & Rd & Ed').
  destruct (best_sample t f goal_row unit Tr P) as (r0 & N0 & B0). destruct (best_sample t h goal_col unit Tc P) as (c0 & M0 & C0).
  assert (Wide : forall goal d, near unit 2 goal d -> near unit reach goal d) by (unfold near; intros; nia).
  assert (E0 : cost r0 c0 = Fin (f (r0 * unit) + h (c0 * unit))) by (apply Near; auto).
  assert (S0 : at_least_as_good t s (Fin (f (r0 * unit) + h (c0 * unit)))) by (rewrite <- E0; apply Best; auto; rewrite E0; discriminate).
  assert (F1 : at_least_as_good t (Fin (f (dr * unit) + h (dc' * unit))) s) by (rewrite <- Ed; apply Far; auto; rewrite Ed; exact Hs).
  assert (F2 : at_least_as_good t (Fin (f (dr' * unit) + h (dc * unit))) s) by (rewrite <- Ed'; apply Far; auto; rewrite Ed'; exact Hs).
  pose proof (B0 dr) as X1. pose proof (B0 dr') as X2. pose proof (C0 dc) as Y1. pose proof (C0 dc') as Y2.
  destruct s; try (destruct t; cbn in S0, F1, F2; discriminate); try congruence.
  assert (Br : match t with MeasureMin => f (dr * unit) <= f (r0 * unit) | MeasureMax => f (r0 * unit) <= f (dr * unit) end).
  { destruct t; cbn in S0, F1; apply Z.leb_le in S0, F1; lia. }
  assert (Bc : match t with MeasureMin => h (dc * unit) <= h (c0 * unit) | MeasureMax => h (c0 * unit) <= h (dc * unit) end).
  { destruct t; cbn in S0, F2; apply Z.leb_le in S0, F2; lia. }
  split; [apply (next_near t f) | apply (next_near t h)]; auto; intros d'; [pose proof (B0 d') | pose proof (C0 d')]; destruct t; lia.
Qed.

(** The search from the best pair ends near the goal. *)
Lemma search_near one store t value f h goal_row goal_col k n dr dc a b w : 0 < one -> (2 ^ Z.of_nat (Nat.max k n) | one) ->
  towards t f goal_row -> towards t h goal_col -> (forall u v, store (Fin (f u + h v)) = Fin (f u + h v)) ->
  near (one / 2 ^ Z.of_nat k) 1 goal_row dr -> near (one / 2 ^ Z.of_nat k) 1 goal_col dc ->
  (forall u v, Z.abs (u - dr * (one / 2 ^ Z.of_nat k)) < one / 2 ^ Z.of_nat k -> Z.abs (v - dc * (one / 2 ^ Z.of_nat k)) < one / 2 ^ Z.of_nat k -> value u v = Some (Fin (f u + h v))) ->
  halving store t value (halves one k n) (dr * (one / 2 ^ Z.of_nat k)) (dc * (one / 2 ^ Z.of_nat k)) (Fin (f (dr * (one / 2 ^ Z.of_nat k)) + h (dc * (one / 2 ^ Z.of_nat k)))) a b w ->
  Z.abs (a - goal_row) * 2 ^ Z.of_nat (Nat.max k n) <= one /\ Z.abs (b - goal_col) * 2 ^ Z.of_nat (Nat.max k n) <= one /\ w = Fin (f a + h b).
Proof.
  intros P D Tf Th St Nr Nc V E. set (unit := one / 2 ^ Z.of_nat k) in *.
  assert (P2k : 0 < 2 ^ Z.of_nat k) by (apply Z.pow_pos_nonneg; lia). assert (P2m : 0 < 2 ^ Z.of_nat (Nat.max k n)) by (apply Z.pow_pos_nonneg; lia).
  assert (Dk : (2 ^ Z.of_nat k | one)) by (apply (Z.divide_trans _ (2 ^ Z.of_nat (Nat.max k n))); auto; exists (2 ^ Z.of_nat (Nat.max k n - k)); rewrite <- Z.pow_add_r by lia; f_equal; lia).
  assert (Eu : unit * 2 ^ Z.of_nat k = one) by (unfold unit; destruct Dk as [q Hq]; rewrite Hq, Z.div_mul by lia; reflexivity).
  assert (Pu : 0 < unit) by nia.
  unfold near in Nr, Nc. rewrite Z.mul_1_l in Nr, Nc.
  assert (Sr : sum_resampled one (2 ^ k) (Nat.max k n) value (dr * unit) (dc * unit) f h).
  { intros u v Bu Bv _ _. rewrite Nat2Z.inj_pow in Bu, Bv. change (Z.of_nat 2) with 2 in Bu, Bv.
    assert (Z.abs (u - dr * unit) < unit) by (clear - Bu Eu P2k; nia). assert (Z.abs (v - dc * unit) < unit) by (clear - Bv Eu P2k; nia). apply V; auto. }
  destruct (halving_precise one store t value f h goal_row goal_col k (Nat.max k n) (dr * unit) (dc * unit) (2 ^ k) P D eq_refl Sr Tf Th St (n - k) (S k) (dr * unit) (dc * unit) a b w) as (A & B & C);
    try lia; auto; try (rewrite Z.sub_diag; cbn [Z.abs pred]; fold unit; lia); try (rewrite Z.sub_diag; apply Z.divide_0_r); try (cbn [pred]; fold unit; lia).
  replace (pred (S k + (n - k))) with (Nat.max k n) in A, B by lia.
  destruct D as [q Hq]. rewrite Hq, Z.div_mul in A, B by lia. rewrite Hq. split; [nia|]. split; [nia|exact C].
Qed.

(** ** The bicubic filter on costs of degree two *)
Lemma bicubic_area one (area : list (list ext)) (fr fc : Z) (A0 A1 A2 B1 B2 : Z) : 0 < one -> 0 <= fr < one -> 0 <= fc < one ->
  area = map (fun p => map (fun q => Fin (A0 + A1 * (q - 1) + A2 * (q - 1) ^ 2 + B1 * (p - 1) + B2 * (p - 1) ^ 2)) [0; 1; 2; 3]) [0; 1; 2; 3] ->
  exists x, bicubic_apply one area fr fc = Fin (Qfloor x) /\
    (x == inject_Z A0 + inject_Z A1 * (inject_Z fc / inject_Z one) + inject_Z A2 * (inject_Z fc / inject_Z one) * (inject_Z fc / inject_Z one) +
          inject_Z B1 * (inject_Z fr / inject_Z one) + inject_Z B2 * (inject_Z fr / inject_Z one) * (inject_Z fr / inject_Z one))%Q.
Proof.
  intros P Hr Hc ->. unfold bicubic_apply. cbn [map forallb finite andb q_of]. eexists. split; [reflexivity|].
  unfold bicubic_coeffs. cbn [seq map]. rewrite apply4 by reflexivity. cbv zeta. cbn [nth].
  rewrite <- !(units one P).
  assert (F : forall z, 0 <= z < one -> (0 <= z # Z.to_pos one)%Q /\ (z # Z.to_pos one < 1)%Q).
  { intros z Hz. split; [unfold Qle | unfold Qlt]; cbn [Qnum Qden]; rewrite ?Z2Pos.id by lia; lia. }
  destruct (F fr Hr) as [R0 R1]. destruct (F fc Hc) as [C0 C1].
  destruct (moments (fr # Z.to_pos one) _ _ _ _ R0 R1 (Qeq_refl _) (Qeq_refl _) (Qeq_refl _) (Qeq_refl _)) as (M0 & M1 & M2).
  destruct (moments (fc # Z.to_pos one) _ _ _ _ C0 C1 (Qeq_refl _) (Qeq_refl _) (Qeq_refl _) (Qeq_refl _)) as (N0 & N1 & N2).
  set (r0 := bicubic_coeff (fr # Z.to_pos one) 0) in *. set (r1 := bicubic_coeff (fr # Z.to_pos one) 1) in *. set (r2 := bicubic_coeff (fr # Z.to_pos one) 2) in *. set (r3 := bicubic_coeff (fr # Z.to_pos one) 3) in *.
  set (c0 := bicubic_coeff (fc # Z.to_pos one) 0) in *. set (c1 := bicubic_coeff (fc # Z.to_pos one) 1) in *. set (c2 := bicubic_coeff (fc # Z.to_pos one) 2) in *. set (c3 := bicubic_coeff (fc # Z.to_pos one) 3) in *.
  set (y := (fr # Z.to_pos one)%Q) in *. set (x := (fc # Z.to_pos one)%Q) in *. clearbody r0 r1 r2 r3 c0 c1 c2 c3 x y.
  assert (V : forall p q, (inject_Z (A0 + A1 * (q - 1) + A2 * (q - 1) ^ 2 + B1 * (p - 1) + B2 * (p - 1) ^ 2) ==
    inject_Z A0 + inject_Z A1 * inject_Z (q - 1) + inject_Z A2 * inject_Z (q - 1) * inject_Z (q - 1) + inject_Z B1 * inject_Z (p - 1) + inject_Z B2 * inject_Z (p - 1) * inject_Z (p - 1))%Q).
  { intros p q. rewrite !Z.pow_2_r, !inject_Z_plus, !inject_Z_mult. ring. }
  rewrite !V. cbn [Z.sub Z.add Z.opp Z.pos_sub]. cbn.
  change (inject_Z (-1)) with (- (1))%Q. change (inject_Z 0) with 0%Q. change (inject_Z 1) with 1%Q. change (inject_Z 2) with (1 + 1)%Q.
  set (a0 := inject_Z A0). set (a1 := inject_Z A1). set (a2 := inject_Z A2). set (b1 := inject_Z B1). set (b2 := inject_Z B2).
  transitivity ((c0 + c1 + c2 + c3) * (a0 * (r0 + r1 + r2 + r3) + b1 * (- r0 + r2 + 2 * r3) + b2 * (r0 + r2 + 4 * r3)) +
    (a1 * (- c0 + c2 + 2 * c3) + a2 * (c0 + c2 + 4 * c3)) * (r0 + r1 + r2 + r3))%Q; [ring|].
  rewrite M0, M1, M2, N0, N1, N2. ring.
Qed.

Lemma bicubic_exact one subpix a b e goal_row goal_col : 0 < subpix -> (subpix | one) -> 0 < one ->
  exact_between one subpix 4 1 (bicubic_apply one) 3 (fun u => a * (u - goal_row) ^ 2) (fun v => b * (v - goal_col) ^ 2 + e) goal_row goal_col.
Proof.
  intros Ps [unit Ho] P. intros sample row col u v S Nr Nc Bu Bv. rewrite Ho, Z.div_mul in * by lia. rewrite <- Ho in *.
  assert (Pu : 0 < unit) by nia.
  assert (Du : u * subpix / one = u / unit) by (rewrite Ho; apply Z.div_mul_cancel_r; lia).
  assert (Dv : v * subpix / one = v / unit) by (rewrite Ho; apply Z.div_mul_cancel_r; lia).
  assert (Mu : (u * subpix) mod one = (u mod unit) * subpix) by (rewrite Ho; apply Z.mul_mod_distr_r; lia).
  assert (Mv : (v * subpix) mod one = (v mod unit) * subpix) by (rewrite Ho; apply Z.mul_mod_distr_r; lia).
  unfold between. rewrite Du, Dv, Mu, Mv.
  pose proof (Z.div_mod u unit ltac:(lia)) as Eu. pose proof (Z.div_mod v unit ltac:(lia)) as Ev. pose proof (Z.mod_pos_bound u unit Pu) as Ru. pose proof (Z.mod_pos_bound v unit Pu) as Rv.
  set (ru := u mod unit) in *. set (rv := v mod unit) in *. set (iu := u / unit) in *. set (iv := v / unit) in *.
  set (x := iu * unit - goal_row). set (y := iv * unit - goal_col).
  assert (Rv' : 0 <= rv * subpix < one) by (clear - Ho Rv Ps; nia). assert (Ru' : 0 <= ru * subpix < one) by (clear - Ho Ru Ps; nia).
  destruct (bicubic_area one (window_at 4 1 1 sample iu iv) (rv * subpix) (ru * subpix) (a * x ^ 2 + b * y ^ 2 + e) (2 * a * x * unit) (a * unit ^ 2) (2 * b * y * unit) (b * unit ^ 2) P Rv' Ru') as (w & Ew & Vw).
  - unfold window_at. cbn [seq map].
    assert (Q : forall p q, -1 <= p <= 2 -> -1 <= q <= 2 -> sample (iu + q) (iv + p) = Fin (a * x ^ 2 + b * y ^ 2 + e + 2 * a * x * unit * q + a * unit ^ 2 * q ^ 2 + 2 * b * y * unit * p + b * unit ^ 2 * p ^ 2)).
    { intros p q Hp Hq. rewrite S.
      - f_equal. unfold x, y. ring.
      - clear - Eu Ru Hq Bu Pu Nr. unfold near in *. assert (row - 1 <= iu <= row) by nia. assert (row - 2 <= iu + q <= row + 2) by lia. nia.
      - clear - Ev Rv Hp Bv Pu Nc. unfold near in *. assert (col - 1 <= iv <= col) by nia. assert (col - 2 <= iv + p <= col + 2) by lia. nia. }
    assert (Q' : forall p q, 0 <= p <= 3 -> 0 <= q <= 3 -> sample (iu - Z.of_nat 1 + q) (iv - Z.of_nat 1 + p) =
      Fin (a * x ^ 2 + b * y ^ 2 + e + 2 * a * x * unit * (q - 1) + a * unit ^ 2 * (q - 1) ^ 2 + 2 * b * y * unit * (p - 1) + b * unit ^ 2 * (p - 1) ^ 2)).
    { intros p q Hp Hq. rewrite <- (Q (p - 1) (q - 1)) by lia. f_equal; lia. }
    change (Z.of_nat 0) with 0. change (Z.of_nat 2) with 2. change (Z.of_nat 3) with 3. change (Z.of_nat 1) with 1 in *.
    rewrite !Q' by lia. reflexivity.
  - rewrite Ew. do 2 f_equal.
    assert (Ex : (w == inject_Z (a * (u - goal_row) ^ 2 + (b * (v - goal_col) ^ 2 + e)))%Q).
    { rewrite Vw.
      assert (Fu : (inject_Z (ru * subpix) / inject_Z one == inject_Z ru / inject_Z unit)%Q).
      { rewrite Ho, !inject_Z_mult. field. split; intros Z0; apply (Qeq_sym) in Z0; unfold Qeq, inject_Z in Z0; cbn in Z0; lia. }
      assert (Fv : (inject_Z (rv * subpix) / inject_Z one == inject_Z rv / inject_Z unit)%Q).
      { rewrite Ho, !inject_Z_mult. field. split; intros Z0; apply (Qeq_sym) in Z0; unfold Qeq, inject_Z in Z0; cbn in Z0; lia. }
      rewrite Fu, Fv.
      replace (u - goal_row) with (x + ru) by (unfold x; lia). replace (v - goal_col) with (y + rv) by (unfold y; lia).
      rewrite !Z.pow_2_r, !inject_Z_plus, !inject_Z_mult, !inject_Z_plus. change (inject_Z 2) with (1 + 1)%Q. field.
      intros Z0; apply (Qeq_sym) in Z0; unfold Qeq, inject_Z in Z0; cbn in Z0; lia. }
    rewrite Ex. apply Qfloor_Z.
Qed.
