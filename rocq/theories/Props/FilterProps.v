(** Properties of the interpolation filters: C29 (bicubic), C30 (cardinal sine), C54. *)
From Coq Require Import ZArith QArith Qround Qabs Reals List Bool Lia Lqa Lra Arith.
From Verif Require Import Base.PyList Base.ZRange Model.DichotomyModel Model.FilterModel Spec.FilterSpec Proofs.BicubicProofs Proofs.SincProofs.
Import ListNotations.

(** ** Bicubic filter *)
Open Scope Q_scope.

(** The four coefficients sum to one for every fractional position. *)
Theorem C29_sum_to_one f : 0 <= f -> f < 1 -> sumQ (bicubic_coeffs f) == 1.
Proof.
  intros A B. destruct (moments f _ _ _ _ A B (Qeq_refl _) (Qeq_refl _) (Qeq_refl _) (Qeq_refl _)) as (M & _ & _). rewrite <- M.
  unfold sumQ, bicubic_coeffs. cbn [seq map fold_right]. ring.
Qed.

(** At an integer position the coefficients select the sample. *)
Theorem C29_sample i : (i < 4)%nat -> exists v, nth_error (bicubic_coeffs 0) i = Some v /\ v == if (i =? 1)%nat then 1 else 0.
Proof. intros H. destruct i as [|[|[|[|i]]]]; [| | | |lia]; eexists; (split; [reflexivity|]); vm_compute; reflexivity. Qed.

(** The resampling of a polynomial surface of degree at most two in each direction is exact. *)
Theorem C29_quadratic_exact image nrow ncol co pos_row pos_col :
  sampled image nrow ncol (quadratic co) -> in_window nrow ncol pos_row pos_col -> not_just_below pos_row -> not_just_below pos_col ->
  exists v, bicubic_interpolate image (pos_col, pos_row) = Some v /\ v == quadratic co pos_row pos_col.
Proof. apply bicubic_quadratic. Qed.

(** At an integer position the sample of the image is given back, for any image. *)
Theorem C29_image_sample image nrow ncol r c v : rect nrow ncol image -> (1 <= r)%nat -> (r + 3 <= nrow)%nat -> (1 <= c)%nat -> (c + 3 <= ncol)%nat ->
  nth2 image r c = Some v -> exists w, bicubic_interpolate image (inject_Z (Z.of_nat c), inject_Z (Z.of_nat r)) = Some w /\ w == v.
Proof.
  intros R H1 H2 H3 H4 V. unfold bicubic_interpolate. rewrite !Qfloor_Z.
  destruct (area_inside image nrow ncol 4 (Z.of_nat r - 1) (Z.of_nat c - 1) 0 R) as (L & F & N); try lia.
  rewrite L. assert (Fb : forallb (fun line : list Q => (length line =? 4)%nat) (area_at 4 (Z.of_nat r - 1) (Z.of_nat c - 1) image) = true).
  { apply forallb_forall. intros x Hx. rewrite Forall_forall in F. apply Nat.eqb_eq. auto. }
  rewrite Fb. cbn [Nat.eqb andb]. eexists. split; [reflexivity|].
  assert (Fr : forall n, q_fractional (inject_Z (Z.of_nat n)) == 0).
  { intros n. rewrite q_fractional_exact.
    - rewrite Qfloor_Z. ring.
    - change 0 with (inject_Z 0). rewrite <- Zle_Qle. lia.
    - unfold not_just_below. rewrite Qfloor_Z. setoid_replace (1 - (inject_Z (Z.of_nat n) - inject_Z (Z.of_nat n))) with 1 by ring. discriminate. }
  unfold bicubic_coeffs. cbn [seq map]. rewrite (apply4 (area_at 4 (Z.of_nat r - 1) (Z.of_nat c - 1) image)) by auto. cbv zeta.
  assert (B : forall n, 0 <= q_fractional (inject_Z (Z.of_nat n)) /\ q_fractional (inject_Z (Z.of_nat n)) < 1) by (intros n; rewrite Fr; split; [discriminate|reflexivity]).
  rewrite !coeff0, !coeff1, !coeff2, !coeff3 by apply B. rewrite !Fr.
  assert (N' := proj2 (N 1%nat 1%nat ltac:(lia) ltac:(lia))). replace (Z.to_nat (Z.of_nat r - 1) + 1)%nat with r in N' by lia.
  replace (Z.to_nat (Z.of_nat c - 1) + 1)%nat with c in N' by lia. rewrite V in N'. rewrite N'. ring.
Qed.

(** Example: a 5 x 5 image of x^2 y^2 - 3 x + 2, at the position (row 9/4, column 5/3). *)
Definition ex_co : list (list Q) := [[2; 0; 0]; [- (3); 0; 0]; [0; 0; 1]].
Definition ex_image : list (list Q) :=
  map (fun r => map (fun c => quadratic ex_co (inject_Z (Z.of_nat r)) (inject_Z (Z.of_nat c))) (seq 0 5)) (seq 0 5).
Example C29_example : sampled ex_image 5 5 (quadratic ex_co) /\ in_window 5 5 (9 # 4) (5 # 3) /\ not_just_below (9 # 4) /\ not_just_below (5 # 3) /\
  exists v, bicubic_interpolate ex_image ((5 # 3), (9 # 4)) = Some v /\ v == 149 # 16.
Proof.
  split; [apply sampled_grid|]. split; [repeat split; discriminate|]. split; [discriminate|]. split; [discriminate|].
  eexists. split; [vm_compute; reflexivity|vm_compute; reflexivity].
Qed.

(** Just below an integer the fraction is replaced by 511/512 (interpolation_filter.py:166-178): the resampling is not exact there. *)
Theorem C54_exact_everywhere_refuted : exists image nrow ncol co pos_row pos_col v,
  sampled image nrow ncol (quadratic co) /\ in_window nrow ncol pos_row pos_col /\ bicubic_interpolate image (pos_col, pos_row) = Some v /\
  pos_row == 2 /\ ~ not_just_below pos_col /\ 1 # 513 < Qabs (v - quadratic co pos_row pos_col).
Proof.
  exists (map (fun r => map (fun c => quadratic [[0; 1; 0]] (inject_Z (Z.of_nat r)) (inject_Z (Z.of_nat c))) (seq 0 5)) (seq 0 5)), 5%nat, 5%nat, [[0; 1; 0]], 2,
    (2 - (1 # 16777216)). eexists.
  split; [apply sampled_grid|].
  split; [repeat split; vm_compute; discriminate|]. split; [vm_compute; reflexivity|]. split; [reflexivity|]. split; [|vm_compute; reflexivity].
    intros H. vm_compute in H. apply H. reflexivity.
Qed.

(** At every position of the window: the surface is evaluated at the position that is used, less than 1/512 pixel away from the one asked for. *)
Theorem C54_exact image nrow ncol co pos_row pos_col : sampled image nrow ncol (quadratic co) -> in_window nrow ncol pos_row pos_col ->
  exists v row col, bicubic_interpolate image (pos_col, pos_row) = Some v /\ v == quadratic co row col /\ used_position pos_row row /\ used_position pos_col col /\
    Qabs (row - pos_row) < 1 # 512 /\ Qabs (col - pos_col) < 1 # 512.
Proof.
  intros S W. destruct (bicubic_quadratic_at image nrow ncol co pos_row pos_col S W) as (v & E & V). exists v. do 2 eexists. split; [exact E|]. split; [exact V|].
  assert (P : forall pos, (1 <= Qfloor pos)%Z -> used_position pos (inject_Z (Qfloor pos) + q_fractional pos) /\ Qabs (inject_Z (Qfloor pos) + q_fractional pos - pos) < 1 # 512).
  { clear. intros pos H. assert (H0 : 0 <= pos) by (apply Qle_trans with (inject_Z (Qfloor pos)); [change 0 with (inject_Z 0); rewrite <- Zle_Qle; lia | apply Qfloor_le]).
    unfold used_position. destruct (Qlt_le_dec (1 - (pos - inject_Z (Qfloor pos))) (1 # 8388608)) as [L|L].
    - assert (N : ~ not_just_below pos) by (unfold not_just_below; intros N; apply (Qlt_not_le _ _ L N)). rewrite (q_fractional_below pos H0 N). split; [right; split; [exact N | reflexivity]|].
      pose proof (Qlt_floor pos) as B. rewrite inject_Z_plus in B. change (inject_Z 1) with 1 in B. apply Qabs_Qlt_condition. split; Lqa.lra.
    - assert (N : not_just_below pos) by exact L. pose proof (q_fractional_exact pos H0 N) as F. split.
      + left. split; [exact N|]. rewrite F. ring.
      + rewrite F. setoid_replace (inject_Z (Qfloor pos) + (pos - inject_Z (Qfloor pos)) - pos) with 0 by ring. reflexivity. }
  destruct W as (W1 & _ & W3 & _). destruct (P _ W1) as [U1 A1]. destruct (P _ W3) as [U2 A2]. auto.
Qed.
Example C54_example : let image := map (fun r => map (fun c => quadratic [[0; 1; 0]] (inject_Z (Z.of_nat r)) (inject_Z (Z.of_nat c))) (seq 0 5)) (seq 0 5) in
  sampled image 5 5 (quadratic [[0; 1; 0]]) /\ in_window 5 5 2 (2 - (1 # 16777216)) /\ used_position (2 - (1 # 16777216)) (1023 # 512) /\
  exists v, bicubic_interpolate image (2 - (1 # 16777216), 2) = Some v /\ v == 1023 # 512.
Proof.
  cbv zeta. split; [apply sampled_grid|]. split; [repeat split; vm_compute; discriminate|].
  split; [right; split; [intros H; vm_compute in H; apply H; reflexivity | vm_compute; reflexivity]|]. eexists. split; vm_compute; reflexivity.
Qed.

(** ** Cardinal sine filter *)
Open Scope R_scope.

(** The coefficients of every row of the table sum to one (the sum that divides them is never null). *)
Theorem C30_sum_to_one half f : (0 < half)%nat -> 0 <= f < 1 -> sumR (sinc_coeffs half f) = 1.
Proof. apply sinc_sum_one. Qed.
Theorem C30_normalised half f : (0 < half)%nat -> 0 <= f < 1 -> 0 < sumR (map (raw_coeff half f) (coeff_range half)).
Proof.
  intros H [F0 F1]. destruct (Req_EM_T f 0) as [->|N]; [rewrite raw_sum_zero; lra|]. apply raw_sum_pos; [auto|lra|auto].
Qed.
(** At an integer position the coefficients select the sample in the middle of the window. *)
Theorem C30_sample half j : (j < 1 + 2 * half)%nat -> nth_error (sinc_coeffs half 0) j = Some (if (j =? half)%nat then 1 else 0).
Proof. apply sinc_delta. Qed.
(** For a multiple of the precision the row of the table is the one of that position. *)
Theorem C30_table half one shift frac : (0 < shift)%Z -> (0 <= frac < one)%Z -> (shift | frac)%Z ->
  sinc_get_coeffs half one shift frac = Some (sinc_coeffs half (IZR frac / IZR one)).
Proof. intros. apply sinc_table; auto; lia. Qed.

(** The window of a position is in the image. *)
Definition sinc_window (half : nat) (one : Z) (nrow ncol : nat) (pos_row pos_col : Z) : Prop :=
  (Z.of_nat half <= pos_row / one /\ pos_row / one + Z.of_nat half + 1 <= Z.of_nat nrow /\
   Z.of_nat half <= pos_col / one /\ pos_col / one + Z.of_nat half + 1 <= Z.of_nat ncol)%Z.

(** At an integer position the sample of the image is given back, for any image. *)
Theorem C30_image_sample half one shift image nrow ncol r c v : (0 < shift)%Z -> (0 < one)%Z -> rect nrow ncol image ->
  (half <= r)%nat -> (r + half + 1 <= nrow)%nat -> (half <= c)%nat -> (c + half + 1 <= ncol)%nat -> nth2 image r c = Some v ->
  sinc_interpolate half one shift image ((Z.of_nat c * one)%Z, (Z.of_nat r * one)%Z) = Some v.
Proof.
  intros S0 O0 Rc H1 H2 H3 H4 V. unfold sinc_interpolate.
  assert (Fr : forall n, fractional one (Z.of_nat n * one) = 0%Z).
  { intros n. unfold fractional. rewrite Z.abs_eq by lia. rewrite Z.mod_mul by lia. cbv zeta. rewrite Z.sub_0_r. destruct (Z.ltb_spec (one * 2 ^ 23) one); lia. }
  rewrite !Fr, !(sinc_table one shift S0 O0 half 0) by (try lia; apply Z.divide_0_r).
  rewrite !Z.div_mul by lia.
  destruct (area_inside image nrow ncol (1 + 2 * half) (Z.of_nat r - Z.of_nat half) (Z.of_nat c - Z.of_nat half) 0 Rc) as (L & F & N); try lia.
  rewrite L, Nat.eqb_refl.
  assert (Fb : forallb (fun line : list R => (length line =? 1 + 2 * half)%nat) (area_at (1 + 2 * half) (Z.of_nat r - Z.of_nat half) (Z.of_nat c - Z.of_nat half) image) = true).
  { apply forallb_forall. intros x Hx. rewrite Forall_forall in F. apply Nat.eqb_eq. auto. }
  rewrite Fb. cbn [andb]. unfold Rdiv. rewrite Rmult_0_l, sinc_coeffs_delta, apply_delta by (try exact L; lia).
  rewrite (proj2 (N half half ltac:(lia) ltac:(lia))).
  replace (Z.to_nat (Z.of_nat r - Z.of_nat half) + half)%nat with r by lia. replace (Z.to_nat (Z.of_nat c - Z.of_nat half) + half)%nat with c by lia. now rewrite V.
Qed.

(** A constant surface is resampled as that constant at every position that has a row in the table. *)
Theorem C30_constant half one shift image nrow ncol pos_row pos_col a : (0 < half)%nat -> (0 < shift)%Z -> (0 < one)%Z -> rect nrow ncol image ->
  (forall r c v, nth2 image r c = Some v -> v = a) -> sinc_window half one nrow ncol pos_row pos_col ->
  (shift | fractional one pos_row)%Z -> (shift | fractional one pos_col)%Z ->
  sinc_interpolate half one shift image (pos_col, pos_row) = Some a.
Proof.
  intros H0 S0 O0 Rc V (W1 & W2 & W3 & W4) D1 D2. unfold sinc_interpolate.
  rewrite !(sinc_table one shift S0 O0) by (auto; apply fractional_range; auto).
  destruct (area_inside image nrow ncol (1 + 2 * half) (pos_row / one - Z.of_nat half) (pos_col / one - Z.of_nat half) 0 Rc) as (L & F & N); try lia.
  rewrite L, Nat.eqb_refl.
  assert (Fb : forallb (fun line : list R => (length line =? 1 + 2 * half)%nat) (area_at (1 + 2 * half) (pos_row / one - Z.of_nat half) (pos_col / one - Z.of_nat half) image) = true).
  { apply forallb_forall. intros x Hx. rewrite Forall_forall in F. apply Nat.eqb_eq. auto. }
  rewrite Fb. cbn [andb]. f_equal.
  assert (U : forall pos, 0 <= IZR (fractional one pos) / IZR one < 1).
  { intros pos. pose proof (fractional_range one pos O0) as B. assert (0 < IZR one) by (apply IZR_lt; lia).
    assert (0 <= IZR (fractional one pos)) by (apply IZR_le; lia). assert (IZR (fractional one pos) < IZR one) by (apply IZR_lt; lia).
    split; [apply Rmult_le_pos; [auto|left; apply Rinv_0_lt_compat; auto]|]. apply Rmult_lt_reg_r with (IZR one); [auto|]. unfold Rdiv. rewrite Rmult_assoc, Rinv_l by lra. lra. }
  apply apply_const with (n := (1 + 2 * half)%nat); [exact L|apply sinc_coeffs_length| |apply sinc_sum_one; auto|apply sinc_sum_one; auto].
  intros i j Hi Hj. rewrite sinc_coeffs_length in Hj. destruct (N i j Hi Hj) as [N1 N2]. rewrite N2.
  destruct (nth2 image _ _) as [v|] eqn:E; [now apply V in E|]. exfalso. apply nth_error_None in N1.
  rewrite Forall_forall in F. rewrite F in N1; [lia|]. apply nth_In. lia.
Qed.

(** Example: the default size 6, precision 1/4, 13 x 13 images. *)
Example C30_example : (0 < 6)%nat /\ (0 < 1)%Z /\ (0 <= 3 < 4)%Z /\ (1 | 3)%Z /\ sinc_window 6 4 13 13 27 25 /\ (1 | fractional 4 27)%Z /\
  fractional_shifts 4 1 = [0; 1; 2; 3]%Z /\
  sinc_interpolate 6 4 1 (repeat (repeat 7 13) 13) (25, 27)%Z = Some 7.
Proof.
  split; [lia|]. split; [lia|]. split; [lia|]. split; [exists 3%Z; lia|]. split; [repeat split; vm_compute; discriminate|].
  split; [exists 3%Z; reflexivity|]. split; [reflexivity|].
  apply (C30_constant 6 4 1 _ 13 13); try lia.
  - split; [reflexivity|]. apply Forall_forall. intros x Hx. apply repeat_spec in Hx. subst. reflexivity.
  - intros r c v H. unfold nth2 in H. destruct (nth_error (repeat (repeat 7 13) 13) r) as [l|] eqn:E; [|discriminate]. apply nth_error_In, repeat_spec in E. subst.
    apply nth_error_In, repeat_spec in H. exact H.
  - repeat split; vm_compute; discriminate.
  - exists 3%Z; reflexivity.
  - exists 1%Z; reflexivity.
Qed.

(** A fraction above the last row of the table has no coefficients: IndexError (the dichotomy never asks for one, C30_table and C28_fractional). *)
Theorem C30_beyond_table half one shift frac : (0 < shift)%Z -> (0 < one)%Z -> (forall z, In z (fractional_shifts one shift) -> (z < frac)%Z) ->
  sinc_get_coeffs half one shift frac = None.
Proof.
  intros S0 O0 H. unfold sinc_get_coeffs. apply nth_error_None. unfold coefficient_table. rewrite map_length.
  induction (fractional_shifts one shift) as [|x l IH]; [reflexivity|]. simpl. assert (Hx : (x < frac)%Z) by (apply H; now left).
  destruct (Z.ltb_spec x frac); [|lia]. simpl. apply le_n_S, IH. intros. apply H. now right.
Qed.
Example C30_beyond_example : sinc_get_coeffs 6 512 128 511 = None.
Proof. apply C30_beyond_table; try lia. intros z Hz. apply zarange_In in Hz; [|lia]. destruct Hz as [Hz M]. assert (z <> 511)%Z; [|lia]. intros ->. vm_compute in M. discriminate M. Qed.

Print Assumptions C29_sum_to_one.
Print Assumptions C29_sample.
Print Assumptions C29_quadratic_exact.
Print Assumptions C29_image_sample.
Print Assumptions C54_exact_everywhere_refuted.
Print Assumptions C54_exact.
Print Assumptions C30_sum_to_one.
Print Assumptions C30_normalised.
Print Assumptions C30_sample.
Print Assumptions C30_table.
Print Assumptions C30_image_sample.
Print Assumptions C30_constant.
Print Assumptions C30_beyond_table.
