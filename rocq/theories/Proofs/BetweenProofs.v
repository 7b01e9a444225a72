(** The search of the dichotomy on the costs between the samples. *)
From Coq Require Import ZArith List Bool Lia Arith Znumtheory.
From Verif Require Import Base.Ext Base.PyList Base.Arr Model.CommonModel Model.DisparityModel Model.DichotomyModel
  Spec.WtaSpec Spec.DichotomySpec Spec.HalvingSpec Proofs.ChunkProofs Proofs.WtaProofs Proofs.DichotomyProofs Proofs.DichotomyTheorems Proofs.HalvingProofs.
Import ListNotations.
Open Scope Z_scope.

Lemma list_ext {A} (l l' : list A) : (forall n, nth_error l n = nth_error l' n) -> l = l'.
Proof.
  revert l'. induction l as [|x l IH]; intros [|y l'] H; auto; try (specialize (H 0%nat); discriminate).
  pose proof (H 0%nat) as H0. cbn in H0. injection H0 as ->. f_equal. apply IH. intros n. exact (H (S n)).
Qed.

(** Two costs that are the same less than one sample from the start give the same search. *)
Lemma kept_agree t (value value' : Z -> Z -> option ext) p row col s a b v :
  (forall a b, direction a b -> value (row + a * p) (col + b * p) = value' (row + a * p) (col + b * p)) -> kept t value p row col s a b v -> kept t value' p row col s a b v.
Proof.
  intros H (D & P & N & A & X).
  assert (E : forall a b, direction a b -> proposed value' p row col s a b = proposed value p row col s a b).
  { intros a' b' D'. unfold proposed. destruct (_ && _); auto. symmetry. auto. }
  split; [exact D|]. rewrite E by exact D. split; [exact P|]. split; [exact N|]. split.
  - intros a' b' D'. rewrite E by exact D'. auto.
  - destruct X as [(X1 & X2)|((a' & b' & X1 & X2) & X3)].
    + left. split; auto. intros a' b' D'. rewrite E by exact D'. auto.
    + right. split. { exists a', b'. rewrite E by exact X1. auto. } intros a2 b2 D' B'. rewrite E by exact D'. auto.
Qed.

Lemma halving_agree one store t value value' k iterations row0 col0 : 0 < one -> (2 ^ Z.of_nat iterations | one) -> 
  (forall u v, Z.abs (u - row0) * 2 ^ Z.of_nat k < one -> Z.abs (v - col0) * 2 ^ Z.of_nat k < one -> (one / 2 ^ Z.of_nat iterations | u - row0) -> (one / 2 ^ Z.of_nat iterations | v - col0) ->
     value u v = value' u v) ->
  forall len first row col s row' col' s', (k <= first)%nat -> (first + len <= iterations)%nat ->
    Z.abs (row - row0) + one / 2 ^ Z.of_nat first <= one / 2 ^ Z.of_nat k -> Z.abs (col - col0) + one / 2 ^ Z.of_nat first <= one / 2 ^ Z.of_nat k ->
    (one / 2 ^ Z.of_nat iterations | row - row0) -> (one / 2 ^ Z.of_nat iterations | col - col0) ->
    halving store t value (map (fun it => one / 2 ^ Z.of_nat it) (seq (S first) len)) row col s row' col' s' ->
    halving store t value' (map (fun it => one / 2 ^ Z.of_nat it) (seq (S first) len)) row col s row' col' s'.
Proof.
  intros P1 Dv Ag. induction len as [|len IH]; intros first row col s row' col' s' K L Br Bc Dr Dc H; cbn [seq map] in *.
  - inversion H; subst. constructor.
  - set (p := one / 2 ^ Z.of_nat (S first)) in *.
    assert (P2n : 0 < 2 ^ Z.of_nat iterations) by (apply Z.pow_pos_nonneg; lia).
    assert (Un : 0 < one / 2 ^ Z.of_nat iterations) by (destruct Dv as [q Hq]; rewrite Hq, Z.div_mul by lia; nia).
    assert (Ep : p = 2 ^ Z.of_nat (iterations - S first) * (one / 2 ^ Z.of_nat iterations)) by (apply pow2_div; [lia|auto]).
    assert (Ef : one / 2 ^ Z.of_nat first = 2 * p).
    { rewrite Ep, (pow2_div one iterations first) by (auto; lia). replace (iterations - first)%nat with (S (iterations - S first)) by lia. rewrite Nat2Z.inj_succ, Z.pow_succ_r by lia. lia. }
    assert (Pp : 0 < p) by (rewrite Ep; apply Z.mul_pos_pos; [apply Z.pow_pos_nonneg; lia | exact Un]).
    assert (Dp : (one / 2 ^ Z.of_nat iterations | p)) by (rewrite Ep; apply Z.divide_factor_r).
    assert (P2k : 0 < 2 ^ Z.of_nat k) by (apply Z.pow_pos_nonneg; lia).
    assert (Ek : one / 2 ^ Z.of_nat k * 2 ^ Z.of_nat k = one).
    { assert (Dk : (2 ^ Z.of_nat k | one)) by (apply (Z.divide_trans _ (2 ^ Z.of_nat iterations)); auto; exists (2 ^ Z.of_nat (iterations - k)); rewrite <- Z.pow_add_r by lia; f_equal; lia).
      destruct Dk as [q Hq]. rewrite Hq, Z.div_mul by lia. lia. }
    rewrite Ef in Br, Bc.
    inversion H as [|? ? ? ? ? a b v ? ? ? Hk Hrest]; subst.
    apply halving_next with a b v.
    + revert Hk. apply kept_agree. intros a' b' (D1 & D2). apply Ag.
      * assert (Z.abs (row + a' * p - row0) < one / 2 ^ Z.of_nat k) by (clear -Br D1 Pp; nia). apply Z.lt_le_trans with (one / 2 ^ Z.of_nat k * 2 ^ Z.of_nat k); [apply Z.mul_lt_mono_pos_r; auto | lia].
      * assert (Z.abs (col + b' * p - col0) < one / 2 ^ Z.of_nat k) by (clear -Bc D2 Pp; nia). apply Z.lt_le_trans with (one / 2 ^ Z.of_nat k * 2 ^ Z.of_nat k); [apply Z.mul_lt_mono_pos_r; auto | lia].
      * replace (row + a' * p - row0) with ((row - row0) + a' * p) by lia. apply Z.divide_add_r; auto. now apply Z.divide_mul_r.
      * replace (col + b' * p - col0) with ((col - col0) + b' * p) by lia. apply Z.divide_add_r; auto. now apply Z.divide_mul_r.
    + destruct Hk as ((D1 & D2) & _). apply IH; auto; try lia; fold p.
      * clear -Br D1 Pp. nia.
      * clear -Bc D2 Pp. nia.
      * replace (row + a * p - row0) with ((row - row0) + a * p) by lia. apply Z.divide_add_r; auto. now apply Z.divide_mul_r.
      * replace (col + b * p - col0) with ((col - col0) + b * p) by lia. apply Z.divide_add_r; auto. now apply Z.divide_mul_r.
Qed.

(** The interpolation of the model on a surface is the one of the specification on the samples. *)
Section Between.
  Variables (one : Z) (flt : filter) (iterations : nat) (cv : cost_volumes) (invalid : ext) (col_map row_map : list (list ext)) (g : grids).
  Hypothesis Rd : ready one flt iterations cv invalid col_map row_map g.
  Variables (k : nat) (step br bc : Z) (sample : Z -> Z -> ext) (surface : list (list ext)) (r c : nat).
  Hypothesis Hk : cv_subpix cv = (2 ^ k)%nat.
  Hypothesis Hki : (k <= iterations <= 22)%nat.
  Hypothesis Hstep : one = Z.of_nat (cv_subpix cv) * step.
  Hypothesis Hrows : forall j, (j < length (cv_disp_row cv))%nat -> nth_error (cv_disp_row cv) j = Some ((br + Z.of_nat j) * step).
  Hypothesis Hcols : forall i, (i < length (cv_disp_col cv))%nat -> nth_error (cv_disp_col cv) i = Some ((bc + Z.of_nat i) * step).
  Hypothesis Hr : (r < cv_nrow cv)%nat.
  Hypothesis Hc : (c < cv_ncol cv)%nat.
  Hypothesis Hsf : nth2 (cv_data cv) r c = Some surface.
  Hypothesis Hsample : forall i j, (i < length (cv_disp_col cv))%nat -> (j < length (cv_disp_row cv))%nat -> nth2 surface i j = Some (sample (br + Z.of_nat j) (bc + Z.of_nat i)).

  Lemma between_surface i j row col u v : nth_error (cv_disp_col cv) i = Some col -> nth_error (cv_disp_row cv) j = Some row ->
    strictly_in row (row_range one g r c) -> strictly_in col (col_range one g r c) ->
    Z.abs (u - row) * 2 ^ Z.of_nat k < one -> Z.abs (v - col) * 2 ^ Z.of_nat k < one -> (one / 2 ^ Z.of_nat iterations | u - row) -> (one / 2 ^ Z.of_nat iterations | v - col) ->
    cost_between one flt cv surface i j row col u v = between one (Z.of_nat (cv_subpix cv)) (f_size flt) (f_left flt) (f_up flt) (f_apply flt) sample u v.
  Proof.
    intros Ei Ej Ir Ic Bu Bv Du Dv.
    pose proof Rd as Rd'. destruct Rd' as (H1 & Dn & _ & _ & SC & SR & (m & Hm & Cov) & _ & _ & _ & Px).
    destruct (Px r c Hr Hc) as (U1 & U2 & U3 & U4 & _ & _).
    unfold user_disparity_row, user_disparity_col, user_row, user_col, margin_samples in U1, U2, U3, U4. rewrite Hm in U1, U2, U3, U4.
    destruct Cov as (F1 & F2 & F3 & F4).
    pose proof (surface_rect one flt iterations cv invalid col_map row_map g Rd r c surface Hsf) as Rs.
    assert (P2n : 0 < 2 ^ Z.of_nat iterations) by (apply Z.pow_pos_nonneg; lia).
    assert (Un : 0 < one / 2 ^ Z.of_nat iterations) by (destruct Dn as [q Hq]; rewrite Hq, Z.div_mul by lia; nia).
    assert (Q0 : one / 2 ^ Z.of_nat k = 2 ^ Z.of_nat (iterations - k) * (one / 2 ^ Z.of_nat iterations)) by (apply pow2_div; [lia|auto]).
    assert (P2k : 0 < 2 ^ Z.of_nat k) by (apply Z.pow_pos_nonneg; lia).
    assert (Es : 2 ^ Z.of_nat k * (one / 2 ^ Z.of_nat k) = one).
    { assert (Dk : (2 ^ Z.of_nat k | one)) by (apply (Z.divide_trans _ (2 ^ Z.of_nat iterations)); auto; exists (2 ^ Z.of_nat (iterations - k)); rewrite <- Z.pow_add_r by lia; f_equal; lia).
      destruct Dk as [q Hq]. rewrite Hq, Z.div_mul by lia. lia. }
    assert (Esub : Z.of_nat (cv_subpix cv) = 2 ^ Z.of_nat k) by (rewrite Hk, Nat2Z.inj_pow; reflexivity).
    assert (Bound : forall d, Z.abs d * 2 ^ Z.of_nat k < one -> (one / 2 ^ Z.of_nat iterations | d) -> Z.abs d + one / 2 ^ Z.of_nat (k + (iterations - k)) <= one / 2 ^ Z.of_nat k).
    { intros d Bd Dd. replace (k + (iterations - k))%nat with iterations by lia. assert (L : Z.abs d < one / 2 ^ Z.of_nat k) by (apply (Z.mul_lt_mono_pos_r (2 ^ Z.of_nat k)); [exact P2k|]; rewrite (Z.mul_comm (one / _)), Es; exact Bd). rewrite Q0 in L. rewrite Q0.
      destruct Dd as [q ->]. rewrite Z.abs_mul, (Z.abs_eq (one / 2 ^ Z.of_nat iterations)) in L by (apply Z.lt_le_incl; exact Un). rewrite Z.abs_mul, (Z.abs_eq (one / 2 ^ Z.of_nat iterations)) by (apply Z.lt_le_incl; exact Un).
      apply Z.mul_lt_mono_pos_r in L; [|exact Un]. clear -L Un. nia. }
    pose proof (index_window one flt iterations cv invalid col_map row_map g Rd (cv_disp_col cv) (m_left m) (m_right m) (f_left flt) (f_size flt) _ _ col i k (iterations - k) (v - col) SC Hk ltac:(lia) U3 U4 F1 F3 Ei Ic (Bound _ Bv Dv)) as W1.
    pose proof (index_window one flt iterations cv invalid col_map row_map g Rd (cv_disp_row cv) (m_up m) (m_down m) (f_up flt) (f_size flt) _ _ row j k (iterations - k) (u - row) SR Hk ltac:(lia) U1 U2 F2 F4 Ej Ir (Bound _ Bu Du)) as W2.
    assert (Lj : (j < length (cv_disp_row cv))%nat) by (apply nth_error_Some; congruence). assert (Li : (i < length (cv_disp_col cv))%nat) by (apply nth_error_Some; congruence).
    assert (Erow : row = (br + Z.of_nat j) * step) by (rewrite (Hrows j Lj) in Ej; congruence). assert (Ecol : col = (bc + Z.of_nat i) * step) by (rewrite (Hcols i Li) in Ei; congruence).
    unfold cost_between. set (s := Z.of_nat (cv_subpix cv)) in *. set (pos_col := Z.of_nat j * one + (u - row) * s) in *. set (pos_row := Z.of_nat i * one + (v - col) * s) in *.
    assert (Eu : u * s = pos_col + br * one). { unfold pos_col. rewrite Erow. clear -Hstep. replace ((u - (br + Z.of_nat j) * step) * s) with (u * s - (br + Z.of_nat j) * (s * step)) by ring. rewrite <- Hstep. ring. }
    assert (Ev : v * s = pos_row + bc * one). { unfold pos_row. rewrite Ecol. clear -Hstep. replace ((v - (bc + Z.of_nat i) * step) * s) with (v * s - (bc + Z.of_nat i) * (s * step)) by ring. rewrite <- Hstep. ring. }
    assert (W : window_inside one flt (length (cv_disp_col cv)) (length (cv_disp_row cv)) pos_row pos_col) by (destruct W1, W2; repeat split; auto).
    rewrite (interpolate_inside one flt _ _ surface Rs pos_row pos_col W). unfold between. f_equal.
    assert (Pr : 0 <= pos_row). { destruct W as (X & _). pose proof (Z.mul_div_le pos_row one H1). clear -X H H1. nia. }
    assert (Pc : 0 <= pos_col). { destruct W as (_ & _ & X & _). pose proof (Z.mul_div_le pos_col one H1). clear -X H H1. nia. }
    assert (Dpos : forall n d, (one / 2 ^ Z.of_nat iterations | d) -> (one / 2 ^ Z.of_nat iterations | Z.of_nat n * one + d * s)).
    { intros n d Hd. apply Z.divide_add_r; [apply Z.divide_mul_r|apply Z.divide_mul_l; exact Hd]. destruct Dn as [q Hq]. exists (2 ^ Z.of_nat iterations). rewrite Hq at 2. rewrite Z.div_mul by lia. rewrite Hq. lia. }
    rewrite !(fractional_exact one iterations) by (auto; lia || (apply Dpos; auto)).
    rewrite Eu, Ev, !Z.div_add, !Z.mod_add by lia. f_equal.
    apply list_ext. intros p. unfold window_at. rewrite nth_error_map.
    pose proof (area_rect one flt _ _ surface Rs pos_row pos_col W) as [Lx Fx].
    destruct (Nat.lt_ge_cases p (f_size flt)) as [Hp|Hp].
    2:{ assert (nth_error (seq 0 (f_size flt)) p = None) as -> by (apply nth_error_None; rewrite seq_length; lia). apply nth_error_None. lia. }
    assert (Sq : forall n, (n < f_size flt)%nat -> nth_error (seq 0 (f_size flt)) n = Some n).
    { intros n Hn. rewrite (nth_error_nth' _ 0%nat) by (rewrite seq_length; lia). rewrite seq_nth by lia. reflexivity. }
    rewrite Sq by exact Hp. cbn [option_map].
    destruct (nth_error (resampling_area one flt surface pos_row pos_col) p) as [line|] eqn:El; [|apply nth_error_None in El; lia]. f_equal.
    apply list_ext. intros q. rewrite nth_error_map.
    assert (Ll : length line = f_size flt) by (rewrite Forall_forall in Fx; apply Fx; eapply nth_error_In; eauto).
    destruct (Nat.lt_ge_cases q (f_size flt)) as [Hq|Hq].
    2:{ assert (nth_error (seq 0 (f_size flt)) q = None) as -> by (apply nth_error_None; rewrite seq_length; lia). apply nth_error_None. lia. }
    rewrite Sq by exact Hq. cbn [option_map].
    pose proof (area_read one flt _ _ surface Rs pos_row pos_col p q W Hp Hq) as Ar. unfold nth2 at 1 in Ar. rewrite El in Ar. rewrite Ar.
    destruct W as (X1 & X2 & X3 & X4). rewrite Hsample by lia. f_equal. f_equal; lia.
  Qed.
End Between.
