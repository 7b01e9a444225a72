(** The dichotomy with the bicubic filter on costs of degree two. *)
From Coq Require Import ZArith QArith Qround Qabs List Bool Lia Lqa Arith Znumtheory.
From Verif Require Import Base.Ext Base.PyList Base.Arr Model.CommonModel Model.DisparityModel Model.DichotomyModel Model.FilterModel
  Spec.WtaSpec Spec.DichotomySpec Spec.HalvingSpec Spec.FilterSpec Proofs.ChunkProofs Proofs.WtaProofs Proofs.DichotomyProofs Proofs.DichotomyTheorems Proofs.BicubicProofs Proofs.HalvingProofs.
Import ListNotations.
Open Scope Z_scope.

(** interpolation_filter.py:130-145 (apply) with the coefficients of bicubic.py:46-59, on costs that are integers: the result is rounded down to an integer; a window
    with a NaN (or an infinite number) gives NaN. *)
Definition finite (x : ext) : bool := match x with Fin _ => true | _ => false end.
Definition q_of (x : ext) : Q := match x with Fin z => inject_Z z | _ => 0%Q end.
Definition bicubic_apply (one : Z) (area : list (list ext)) (fr fc : Z) : ext :=
  if forallb (forallb finite) area
  then Fin (Qfloor (apply Qplus Qmult 0%Q (map (map q_of) area) (bicubic_coeffs (fr # Z.to_pos one)) (bicubic_coeffs (fc # Z.to_pos one)))) else NaN.

Lemma coeff_proper f f' i : (f == f')%Q -> (bicubic_coeff f i == bicubic_coeff f' i)%Q.
Proof.
  intros E. rewrite (coeff_dist f i (Qabs (- (1) + inject_Z (Z.of_nat i) - f'))); [|rewrite E; reflexivity]. symmetry. apply coeff_dist. reflexivity.
Qed.
Lemma py_slice_map {A B} (f : A -> B) a b l : py_slice a b (map f l) = map f (py_slice a b l).
Proof. unfold py_slice. rewrite map_length. unfold slice. now rewrite skipn_map, firstn_map. Qed.
Lemma area_map (h : ext -> Q) size top left image : area_at size top left (map (map h) image) = map (map h) (area_at size top left image).
Proof. unfold area_at. rewrite py_slice_map, !map_map. apply map_ext. intros. apply py_slice_map. Qed.

Section Quadratic.
  Variable one : Z.
  Hypothesis pos_one : 0 < one.

  Lemma floor_units p : Qfloor (p # Z.to_pos one) = p / one.
  Proof. cbn [Qfloor]. now rewrite Z2Pos.id. Qed.
  Lemma units (p : Z) : (p # Z.to_pos one == inject_Z p / inject_Z one)%Q.
  Proof. rewrite Qmake_Qdiv. rewrite Z2Pos.id by auto. reflexivity. Qed.

  (** The interpolation of the dichotomy is the one of FilterModel. *)
  Lemma bicubic_same image nrow ncol n pos_row pos_col w : rect nrow ncol image -> (forall r c x, nth2 image r c = Some x -> finite x = true) ->
    window_inside one (bicubic_filter (bicubic_apply one)) nrow ncol pos_row pos_col ->
    (n <= 22)%nat -> (2 ^ Z.of_nat n | one) -> (one / 2 ^ Z.of_nat n | pos_row) -> (one / 2 ^ Z.of_nat n | pos_col) ->
    bicubic_interpolate (map (map q_of) image) (pos_col # Z.to_pos one, pos_row # Z.to_pos one)%Q = Some w ->
    interpolate1 one (bicubic_filter (bicubic_apply one)) image (pos_col, pos_row) = Some (Fin (Qfloor w)).
  Proof.
    intros R Fi W Hn Dn Dr Dc E. rewrite (interpolate_inside one _ nrow ncol image R _ _ W). f_equal.
    destruct W as (W1 & W2 & W3 & W4). cbn [f_left f_up f_size bicubic_filter] in W1, W2, W3, W4.
    pose proof (Z.mul_div_le pos_row one pos_one) as Lr. pose proof (Z.mul_div_le pos_col one pos_one) as Lc.
    assert (Pr : 0 <= pos_row) by nia. assert (Pc : 0 <= pos_col) by nia.
    rewrite !(fractional_exact one n) by auto.
    unfold bicubic_interpolate in E. rewrite !floor_units in E.
    set (area := resampling_area one (bicubic_filter (bicubic_apply one)) image pos_row pos_col).
    assert (Ea : area_at 4 (pos_row / one - 1) (pos_col / one - 1) (map (map q_of) image) = map (map q_of) area).
    { rewrite area_map. reflexivity. }
    rewrite Ea in E. destruct (_ && _) eqn:Eb in E; [|discriminate]. injection E as <-. apply andb_true_iff in Eb. destruct Eb as [El _]. apply Nat.eqb_eq in El.
    cbn [f_apply bicubic_filter]. unfold bicubic_apply.
    assert (Ff : forallb (forallb finite) area = true).
    { apply forallb_forall. intros line Hl. apply forallb_forall. intros x Hx. unfold area, resampling_area in Hl. apply in_map_iff in Hl. destruct Hl as (line0 & <- & Hl).
      assert (Sl : forall (A : Type) (y : A) a b l, In y (py_slice a b l) -> In y l).
      { intros A y a b l Hy. unfold py_slice, slice in Hy. revert Hy. generalize (py_index b (length l)) (py_index a (length l)). intros u v Hy.
        rewrite <- (firstn_skipn v l). apply in_or_app. right. rewrite <- (firstn_skipn (u - v) (skipn v l)). apply in_or_app. left. exact Hy. }
      apply Sl in Hx, Hl. apply In_nth_error in Hx, Hl. destruct Hx as [c Hx], Hl as [r Hl]. apply (Fi r c). unfold nth2. rewrite Hl. exact Hx. }
    rewrite Ff. f_equal. apply Qfloor_comp. unfold bicubic_coeffs. cbn [seq map]. rewrite !(apply4 (map (map q_of) area)) by auto. cbv zeta.
    assert (Fq : forall pos, 0 <= pos -> (one / 2 ^ Z.of_nat n | pos) -> (pos mod one # Z.to_pos one == q_fractional (pos # Z.to_pos one))%Q).
    { intros pos Hp Dp. assert (Q0 : (0 <= pos # Z.to_pos one)%Q) by (unfold Qle; cbn; lia).
      assert (Fr : (pos mod one # Z.to_pos one == (pos # Z.to_pos one) - inject_Z (Qfloor (pos # Z.to_pos one)))%Q).
      { rewrite floor_units. unfold Qeq, Qminus, Qplus, Qopp, inject_Z. cbn [Qnum Qden]. rewrite !Pos2Z.inj_mul, !Z2Pos.id by auto. pose proof (Z.div_mod pos one ltac:(lia)) as Ed. clear -Ed. nia. }
      rewrite Fr. symmetry. apply q_fractional_exact; auto.
      unfold not_just_below. rewrite <- Fr. pose proof (fractional_exact one n pos pos_one Hn Dn Dp Hp) as Fx. unfold fractional in Fx. rewrite Z.abs_eq in Fx by auto. cbv zeta in Fx.
      pose proof (Z.mod_pos_bound pos one pos_one) as Mb.
      assert (Le : one <= (one - pos mod one) * 2 ^ 23).
      { destruct (Z.ltb_spec ((one - pos mod one) * 2 ^ 23) one) as [Lt|]; auto. exfalso.
        assert (P2 : 0 < 2 ^ Z.of_nat n) by (apply Z.pow_pos_nonneg; lia). destruct Dn as [q Hq]. rewrite Hq, Z.div_mul in Dp by lia. assert (0 < q) by nia.
        assert (Dm : (q | pos mod one)).
        { rewrite Z.mod_eq by lia. apply Z.divide_sub_r; auto. apply Z.divide_mul_l. rewrite Hq. apply Z.divide_factor_l. }
        destruct Dm as [m Hm]. assert (P22 : 2 ^ Z.of_nat n <= 2 ^ 22) by (apply Z.pow_le_mono_r; lia). rewrite Hm, Hq in Lt, Mb.
        assert (m + 1 <= 2 ^ Z.of_nat n) by nia. assert (q <= q * 2 ^ Z.of_nat n - m * q) by nia. assert (q * 2 ^ Z.of_nat n <= q * 2 ^ 22) by nia. change (2 ^ 23) with (2 * 2 ^ 22) in Lt. nia. }
      unfold Qle, Qminus, Qplus, Qopp. cbn [Qnum Qden]. rewrite ?Pos2Z.inj_mul, ?Z2Pos.id by auto. change (Z.pos 8388608) with (2 ^ 23). lia. }
    rewrite !(fun i => coeff_proper _ _ i (Fq pos_row Pr Dr)), !(fun i => coeff_proper _ _ i (Fq pos_col Pc Dc)). reflexivity.
  Qed.

  (** Costs of degree two: [a] (u - goal_row)^2 + [b] (v - goal_col)^2 + [e]. *)
  Lemma square_towards t a goal : (match t with MeasureMin => 0 < a | MeasureMax => a < 0 end) -> forall e, towards t (fun u => a * (u - goal) ^ 2 + e) goal.
  Proof.
    intros A e u v H. assert (L : (u - goal) ^ 2 < (v - goal) ^ 2) by (destruct H; nia). destruct t; nia.
  Qed.

  Lemma quadratic_resampled iterations cv invalid col_map row_map g r c row col i j surface k a b e goal_row goal_col :
    let flt := bicubic_filter (bicubic_apply one) in
    ready one flt iterations cv invalid col_map row_map g -> (iterations <= 22)%nat -> cv_subpix cv = (2 ^ k)%nat -> (k <= iterations)%nat ->
    (r < cv_nrow cv)%nat -> (c < cv_ncol cv)%nat -> nth2 (cv_data cv) r c = Some surface ->
    nth_error (cv_disp_col cv) i = Some col -> nth_error (cv_disp_row cv) j = Some row ->
    strictly_in row (row_range one g r c) -> strictly_in col (col_range one g r c) ->
    (forall i j u v, nth_error (cv_disp_col cv) i = Some v -> nth_error (cv_disp_row cv) j = Some u -> cost_at cv r c i j = Some (Fin (a * (u - goal_row) ^ 2 + (b * (v - goal_col) ^ 2 + e)))) ->
    sum_resampled one (cv_subpix cv) iterations (cost_between one flt cv surface i j row col) row col (fun u => a * (u - goal_row) ^ 2) (fun v => b * (v - goal_col) ^ 2 + e).
  Proof.
    intros flt Rd H22 Hk Ki Hr Hc Sf Ei Ej Ir Ic Sm u v Bu Bv Du Dv.
    pose proof Rd as Rd'. destruct Rd' as (H1 & Dn & _ & _ & SC & SR & (m & Hm & Cov) & _ & _ & _ & Px).
    destruct (Px r c Hr Hc) as (U1 & U2 & U3 & U4 & _ & _).
    unfold user_disparity_row, user_disparity_col, user_row, user_col, margin_samples in U1, U2, U3, U4. rewrite Hm in U1, U2, U3, U4.
    destruct Cov as (F1 & F2 & F3 & F4).
    pose proof (surface_rect one flt iterations cv invalid col_map row_map g Rd r c surface Sf) as Rs.
    assert (P2n : 0 < 2 ^ Z.of_nat iterations) by (apply Z.pow_pos_nonneg; lia).
    assert (Un : 0 < one / 2 ^ Z.of_nat iterations) by (destruct Dn as [q Hq]; rewrite Hq, Z.div_mul by lia; nia).
    assert (Q0 : one / 2 ^ Z.of_nat k = 2 ^ Z.of_nat (iterations - k) * (one / 2 ^ Z.of_nat iterations)) by (apply pow2_div; auto).
    assert (P2k : 0 < 2 ^ Z.of_nat k) by (apply Z.pow_pos_nonneg; lia).
    assert (Es : 2 ^ Z.of_nat k * (one / 2 ^ Z.of_nat k) = one).
    { assert (Dk : (2 ^ Z.of_nat k | one)) by (apply (Z.divide_trans _ (2 ^ Z.of_nat iterations)); auto; exists (2 ^ Z.of_nat (iterations - k)); rewrite <- Z.pow_add_r by lia; f_equal; lia).
      destruct Dk as [q Hq]. rewrite Hq, Z.div_mul by lia. lia. }
    assert (Esub : Z.of_nat (cv_subpix cv) = 2 ^ Z.of_nat k) by (rewrite Hk, Nat2Z.inj_pow; reflexivity).
    assert (Bound : forall d, Z.abs d * Z.of_nat (cv_subpix cv) < one -> (one / 2 ^ Z.of_nat iterations | d) -> Z.abs d + one / 2 ^ Z.of_nat (k + (iterations - k)) <= one / 2 ^ Z.of_nat k).
    { intros d Bd Dd. replace (k + (iterations - k))%nat with iterations by lia. rewrite Esub in Bd. assert (L : Z.abs d < one / 2 ^ Z.of_nat k) by (apply (Z.mul_lt_mono_pos_r (2 ^ Z.of_nat k)); [exact P2k|]; rewrite (Z.mul_comm (one / _)), Es; exact Bd). rewrite Q0 in L. rewrite Q0.
      destruct Dd as [q ->]. rewrite Z.abs_mul, (Z.abs_eq (one / 2 ^ Z.of_nat iterations)) in L by (apply Z.lt_le_incl; exact Un). rewrite Z.abs_mul, (Z.abs_eq (one / 2 ^ Z.of_nat iterations)) by (apply Z.lt_le_incl; exact Un).
      apply Z.mul_lt_mono_pos_r in L; [|exact Un]. clear -L Un. nia. }
    pose proof (index_window one flt iterations cv invalid col_map row_map g Rd (cv_disp_col cv) (m_left m) (m_right m) (f_left flt) (f_size flt) _ _ col i k (iterations - k) (v - col) SC Hk ltac:(lia) U3 U4 F1 F3 Ei Ic (Bound _ Bv Dv)) as W1.
    pose proof (index_window one flt iterations cv invalid col_map row_map g Rd (cv_disp_row cv) (m_up m) (m_down m) (f_up flt) (f_size flt) _ _ row j k (iterations - k) (u - row) SR Hk ltac:(lia) U1 U2 F2 F4 Ej Ir (Bound _ Bu Du)) as W2.
    unfold cost_between. set (pos_col := Z.of_nat j * one + (u - row) * Z.of_nat (cv_subpix cv)) in *. set (pos_row := Z.of_nat i * one + (v - col) * Z.of_nat (cv_subpix cv)) in *.
    assert (W : window_inside one flt (length (cv_disp_col cv)) (length (cv_disp_row cv)) pos_row pos_col) by (destruct W1, W2; repeat split; auto).
    destruct SR as (sr & br & Psr & Osr & Hsr). destruct SC as (sc & bc & Psc & Osc & Hsc).
    assert (sc = sr) by (clear -Osr Osc Psr Psc pos_one; nia). subst sc. rename sr into s.
    assert (Lj : (j < length (cv_disp_row cv))%nat) by (apply nth_error_Some; congruence). assert (Li : (i < length (cv_disp_col cv))%nat) by (apply nth_error_Some; congruence).
    assert (Erow : row = br + Z.of_nat j * s) by (rewrite (Hsr j Lj) in Ej; congruence). assert (Ecol : col = bc + Z.of_nat i * s) by (rewrite (Hsc i Li) in Ei; congruence).
    pose (co := [[inject_Z (a * (br - goal_row) ^ 2 + b * (bc - goal_col) ^ 2 + e); inject_Z (2 * a * s * (br - goal_row)); inject_Z (a * s ^ 2)]; [inject_Z (2 * b * s * (bc - goal_col))]; [inject_Z (b * s ^ 2)]]).
    assert (Poly : forall x y, (quadratic co x y == inject_Z a * (inject_Z (br - goal_row) + y * inject_Z s) * (inject_Z (br - goal_row) + y * inject_Z s) + inject_Z b * (inject_Z (bc - goal_col) + x * inject_Z s) * (inject_Z (bc - goal_col) + x * inject_Z s) + inject_Z e)%Q).
    { intros x y. unfold quadratic, co. cbn [nth]. replace (2 * a * s * (br - goal_row)) with ((1 + 1) * a * s * (br - goal_row)) by lia. replace (2 * b * s * (bc - goal_col)) with ((1 + 1) * b * s * (bc - goal_col)) by lia.
      rewrite !Z.pow_2_r, !inject_Z_plus, !inject_Z_mult, !inject_Z_plus. change (inject_Z 1) with 1%Q. ring. }
    assert (Fin' : forall r' c' x, nth2 surface r' c' = Some x -> (r' < length (cv_disp_col cv))%nat /\ (c' < length (cv_disp_row cv))%nat /\
      x = Fin (a * (br + Z.of_nat c' * s - goal_row) ^ 2 + (b * (bc + Z.of_nat r' * s - goal_col) ^ 2 + e))).
    { intros r' c' x Hx. assert (L1 : (r' < length (cv_disp_col cv))%nat /\ (c' < length (cv_disp_row cv))%nat).
      { destruct Rs as [Ls Fs]. unfold nth2 in Hx. destruct (nth_error surface r') as [line|] eqn:El; [|discriminate]. split; [rewrite <- Ls; apply nth_error_Some; congruence|].
        rewrite Forall_forall in Fs. rewrite <- (Fs line) by (eapply nth_error_In; eauto). apply nth_error_Some. congruence. }
      destruct L1 as [L1 L2]. split; auto. split; auto. pose proof (Sm r' c' _ _ (Hsc r' L1) (Hsr c' L2)) as Hs. unfold cost_at in Hs. rewrite Sf in Hs. congruence. }
    assert (Samp : sampled (map (map q_of) surface) (length (cv_disp_col cv)) (length (cv_disp_row cv)) (quadratic co)).
    { split.
      - destruct Rs as [Ls Fs]. split; [now rewrite map_length|]. apply Forall_forall. intros line Hl. apply in_map_iff in Hl. destruct Hl as (line0 & <- & Hl). rewrite map_length. rewrite Forall_forall in Fs. auto.
      - intros r' c' x Hx. unfold nth2 in Hx. rewrite nth_error_map in Hx. destruct (nth_error surface r') as [line|] eqn:El; [|discriminate]. cbn [option_map] in Hx. rewrite nth_error_map in Hx.
        destruct (nth_error line c') as [x0|] eqn:Ex; [|discriminate]. cbn [option_map] in Hx. injection Hx as <-.
        destruct (Fin' r' c' x0) as (_ & _ & ->); [unfold nth2; rewrite El; auto|]. cbn [q_of]. rewrite Poly.
        rewrite !Z.pow_2_r. replace (br + Z.of_nat c' * s - goal_row) with (br - goal_row + Z.of_nat c' * s) by lia. replace (bc + Z.of_nat r' * s - goal_col) with (bc - goal_col + Z.of_nat r' * s) by lia.
        set (x1 := br - goal_row). set (x2 := bc - goal_col). rewrite !inject_Z_plus, !inject_Z_mult, !inject_Z_plus, !inject_Z_mult. ring. }
    assert (Dpos : forall n d, (one / 2 ^ Z.of_nat iterations | d) -> (one / 2 ^ Z.of_nat iterations | Z.of_nat n * one + d * Z.of_nat (cv_subpix cv))).
    { intros n d Dd. apply Z.divide_add_r; [apply Z.divide_mul_r; exists (2 ^ Z.of_nat iterations); destruct Dn as [q Hq]; rewrite Hq, Z.div_mul by lia; lia|]. now apply Z.divide_mul_l. }
    assert (Nb : forall pos, 0 <= pos -> (one / 2 ^ Z.of_nat iterations | pos) -> not_just_below (pos # Z.to_pos one)).
    { intros pos Hp Dp. unfold not_just_below. rewrite floor_units.
      assert (Fr : ((pos # Z.to_pos one) - inject_Z (pos / one) == pos mod one # Z.to_pos one)%Q).
      { unfold Qeq, Qminus, Qplus, Qopp, inject_Z. cbn [Qnum Qden]. rewrite !Pos2Z.inj_mul, !Z2Pos.id by auto. pose proof (Z.div_mod pos one ltac:(lia)) as Ed. clear -Ed. nia. }
      rewrite Fr. pose proof (Z.mod_pos_bound pos one pos_one) as Mb.
      destruct Dn as [q Hq]. rewrite Hq, Z.div_mul in Dp, Un by lia. 
      assert (Dm : (q | pos mod one)).
      { rewrite Z.mod_eq by lia. apply Z.divide_sub_r; auto. apply Z.divide_mul_l. rewrite Hq. apply Z.divide_factor_l. }
      destruct Dm as [w Hw]. assert (P22 : 2 ^ Z.of_nat iterations <= 2 ^ 22) by (apply Z.pow_le_mono_r; lia). 
      assert (Le : one <= (one - pos mod one) * 2 ^ 23).
      { rewrite Hw. rewrite Hw in Mb. clear -Mb Hq Un P22 P2n. rewrite Hq in *. clear Hq. revert P22 P2n Mb. generalize (2 ^ Z.of_nat iterations) as t. intros t P22 P2n Mb.
        assert (w + 1 <= t) by nia. assert (q <= q * t - w * q) by nia. assert (q * t <= q * 2 ^ 22) by nia. change (2 ^ 23) with (2 * 2 ^ 22). nia. }
      unfold Qle, Qminus, Qplus, Qopp. cbn [Qnum Qden]. rewrite ?Pos2Z.inj_mul, ?Z2Pos.id by auto. change (Z.pos 8388608) with (2 ^ 23). lia. }
    destruct W as (V1 & V2 & V3 & V4). cbn [flt f_left f_up f_size bicubic_filter] in V1, V2, V3, V4.
    pose proof (Z.mul_div_le pos_row one pos_one) as Lr. pose proof (Z.mul_div_le pos_col one pos_one) as Lc.
    assert (Ppr : 0 <= pos_row) by (clear -Lr V1 pos_one; nia). assert (Ppc : 0 <= pos_col) by (clear -Lc V3 pos_one; nia).
    destruct (bicubic_quadratic _ _ _ co (pos_row # Z.to_pos one) (pos_col # Z.to_pos one) Samp) as (w & Ew & Vw).
    { unfold in_window. rewrite !floor_units. lia. } { apply Nb; auto. apply Dpos; auto. } { apply Nb; auto. apply Dpos; auto. }
    unfold flt. rewrite (bicubic_same surface (length (cv_disp_col cv)) (length (cv_disp_row cv)) iterations pos_row pos_col w); auto; try (apply Dpos; auto).
    2:{ intros r' c' x Hx. destruct (Fin' r' c' x Hx) as (_ & _ & ->). reflexivity. }
    2:{ repeat split; auto. }
    do 2 f_equal.
    assert (Ex : (w == inject_Z (a * (u - goal_row) ^ 2 + (b * (v - goal_col) ^ 2 + e)))%Q).
    { rewrite Vw, Poly, !units by auto.
      assert (No : ~ (inject_Z one == 0)%Q) by (unfold Qeq; cbn; lia).
      assert (Y : (inject_Z pos_col / inject_Z one * inject_Z s == inject_Z (u - br))%Q).
      { assert (E1 : (inject_Z pos_col * inject_Z s == inject_Z (u - br) * inject_Z one)%Q).
        { rewrite <- !inject_Z_mult. unfold Qeq. cbn. unfold pos_col. rewrite Osr, Erow. ring. }
        transitivity (inject_Z pos_col * inject_Z s / inject_Z one)%Q; [field; auto|]. rewrite E1. field. auto. }
      assert (X : (inject_Z pos_row / inject_Z one * inject_Z s == inject_Z (v - bc))%Q).
      { assert (E1 : (inject_Z pos_row * inject_Z s == inject_Z (v - bc) * inject_Z one)%Q).
        { rewrite <- !inject_Z_mult. unfold Qeq. cbn. unfold pos_row. rewrite Osr, Ecol. ring. }
        transitivity (inject_Z pos_row * inject_Z s / inject_Z one)%Q; [field; auto|]. rewrite E1. field. auto. }
      rewrite X, Y. rewrite <- !inject_Z_plus, <- !inject_Z_mult, <- !inject_Z_plus. unfold Qeq. cbn. ring. }
    rewrite Ex. apply Qfloor_Z.
  Qed.
End Quadratic.
