(** Proofs about the cardinal sine filter. *)
From Coq Require Import ZArith Reals List Bool Lia Lra Arith.
From Verif Require Import Base.PyList Base.ZRange Model.DichotomyModel Model.FilterModel Proofs.ChunkProofs Proofs.WtaProofs Proofs.WtaTheorems Proofs.DichotomyProofs Spec.DichotomySpec.
Import ListNotations.
Open Scope R_scope.

(** *** Alternating sums *)
Fixpoint total (u : nat -> R) (n : nat) : R := match n with O => 0 | S m => total u m + u m end.
Lemma total_head u n : total u (S n) = u 0%nat + total (fun j => u (S j)) n.
Proof. induction n as [|n IH]; [simpl; ring|]. change (total u (S (S n))) with (total u (S n) + u (S n)). rewrite IH. simpl. ring. Qed.
Lemma total_ext u v n : (forall j, (j < n)%nat -> u j = v j) -> total u n = total v n.
Proof. induction n as [|n IH]; intros H; [reflexivity|]. simpl. rewrite IH by auto. rewrite H by lia. reflexivity. Qed.
Lemma total_scale a u n : total (fun j => a * u j) n = a * total u n.
Proof. induction n as [|n IH]; simpl; [ring|]. rewrite IH. ring. Qed.

Definition alternating (u : nat -> R) (n : nat) : R := total (fun j => (-1) ^ j * u j) n.
Lemma alternating_head u n : alternating u (S n) = u 0%nat - alternating (fun j => u (S j)) n.
Proof.
  unfold alternating. rewrite total_head. simpl pow at 1. rewrite (total_ext _ (fun j => -1 * ((-1) ^ j * u (S j)))).
  - rewrite total_scale. ring.
  - intros. simpl. ring.
Qed.
Lemma alternating_bounds n : forall u, (forall j, 0 < u j) -> (forall j, u (S j) < u j) ->
  0 <= alternating u n <= u 0%nat /\ ((0 < n)%nat -> 0 < alternating u n).
Proof.
  induction n as [|n IH]; intros u P D.
  - unfold alternating. simpl. specialize (P 0%nat). split; [lra|lia].
  - rewrite alternating_head. destruct (IH (fun j => u (S j))) as [B _]; [auto|auto|]. pose proof (D 0%nat). cbv beta in B. split; [|intros _]; lra.
Qed.

(** *** The sum of the raw coefficients *)
Lemma coeff_range_succ n : coeff_range (S n) = (- Z.of_nat (S n))%Z :: coeff_range n ++ [Z.of_nat (S n)].
Proof.
  unfold coeff_range, zarange. rewrite !Z.div_1_r.
  replace (Z.to_nat (Z.of_nat (S n) + 1 - - Z.of_nat (S n) + 1 - 1)) with (S (S (2 * n + 1))) by lia.
  replace (Z.to_nat (Z.of_nat n + 1 - - Z.of_nat n + 1 - 1)) with (2 * n + 1)%nat by lia.
  remember (2 * n + 1)%nat as len eqn:El. rewrite seq_S, map_app. change (seq 0 (S len)) with (0%nat :: seq 1 len). rewrite <- seq_shift.
  cbn [map app]. rewrite map_map. apply f_equal2; [lia|]. apply f_equal2; [|f_equal; lia]. apply map_ext. intros. lia.
Qed.
Lemma coeff_range_0 : coeff_range 0 = [0%Z].
Proof. reflexivity. Qed.
Lemma coeff_range_length n : length (coeff_range n) = (1 + 2 * n)%nat.
Proof. unfold coeff_range. rewrite zarange_length, Z.div_1_r. lia. Qed.
Lemma coeff_range_nth n j : (j < 1 + 2 * n)%nat -> nth_error (coeff_range n) j = Some (Z.of_nat j - Z.of_nat n)%Z.
Proof. intros H. apply zarange_nth; lia. Qed.
Lemma sumR_app l m : sumR (l ++ m) = sumR l + sumR m.
Proof. induction l as [|x l IH]; simpl; [ring|]. rewrite IH. ring. Qed.
Lemma sum_range h n : sumR (map h (coeff_range n)) = total (fun j => h (- Z.of_nat j)%Z) (S n) + total (fun j => h (Z.of_nat j + 1)%Z) n.
Proof.
  induction n as [|n IH].
  - rewrite coeff_range_0. simpl. ring.
  - rewrite coeff_range_succ. cbn [map]. rewrite map_app. simpl sumR. rewrite sumR_app, IH. simpl.
    replace (Z.pos (Pos.of_succ_nat n)) with (Z.of_nat n + 1)%Z by lia. simpl. replace (Z.neg (Pos.of_succ_nat n)) with (- (Z.of_nat n + 1))%Z by lia. ring.
Qed.

Lemma sin_shift x j : sin (x + PI * INR j) = (-1) ^ j * sin x.
Proof.
  induction j as [|j IH].
  - simpl. rewrite Rmult_0_r, Rplus_0_r. ring.
  - rewrite S_INR. replace (x + PI * (INR j + 1)) with ((x + PI * INR j) + PI) by ring. rewrite neg_sin, IH. simpl. ring.
Qed.

Section Positive.
  Variables (half : nat) (f : R).
  Hypothesis H0 : (0 < half)%nat.
  Let a := (-2 * PI) / (INR half * INR half).
  Definition bump (x : R) : R := exp ((-2 * PI) / (INR half * INR half) * x * x) / (PI * x).

  Lemma a_neg : a < 0.
  Proof.
    unfold a. assert (0 < INR half) by (apply lt_0_INR; auto). pose proof PI_RGT_0. assert (0 < / (INR half * INR half)) by (apply Rinv_0_lt_compat; nra).
    unfold Rdiv. nra.
  Qed.
  Lemma bump_pos x : 0 < x -> 0 < bump x.
  Proof. intros. unfold bump. pose proof PI_RGT_0. apply Rdiv_lt_0_compat; [apply exp_pos|nra]. Qed.
  Lemma bump_decreasing x y : 0 < x -> x < y -> bump y < bump x.
  Proof.
    intros Hx Hy. unfold bump. pose proof PI_RGT_0. pose proof a_neg as A. fold a.
    assert (E : exp (a * y * y) < exp (a * x * x)). { apply exp_increasing. assert (Q : x * x < y * y) by (apply Rmult_le_0_lt_compat; lra). rewrite !Rmult_assoc. clear - A Q. clearbody a. nra. }
    pose proof (exp_pos (a * y * y)). unfold Rdiv.
    assert (I : / (PI * y) < / (PI * x)). { apply Rinv_lt_contravar; [apply Rmult_lt_0_compat; nra|nra]. }
    assert (0 < / (PI * y)) by (apply Rinv_0_lt_compat; nra). apply Rmult_le_0_lt_compat; lra.
  Qed.

  Hypothesis f0 : 0 < f.
  Hypothesis f1 : f < 1.

  Lemma raw_neg j : raw_coeff half f (- Z.of_nat j) = sin (PI * f) * ((-1) ^ j * bump (f + INR j)).
  Proof.
    unfold raw_coeff, sinc, bump. cbv zeta. rewrite opp_IZR, <- INR_IZR_INZ. replace (f - - INR j) with (f + INR j) by ring.
    pose proof (pos_INR j). destruct (Req_EM_T (f + INR j) 0) as [E|_]; [lra|]. rewrite Rmult_plus_distr_l, sin_shift. rewrite <- Rmult_plus_distr_l. unfold Rdiv. ring.
  Qed.
  Lemma raw_pos j : raw_coeff half f (Z.of_nat j + 1) = sin (PI * f) * ((-1) ^ j * bump (1 - f + INR j)).
  Proof.
    unfold raw_coeff, sinc, bump. cbv zeta. rewrite plus_IZR, <- INR_IZR_INZ. pose proof (pos_INR j).
    destruct (Req_EM_T (f - (INR j + 1)) 0) as [E|_]; [lra|].
    replace (f - (INR j + 1)) with (- (1 - f + INR j)) by ring.
    set (x := 1 - f + INR j). assert (Hx : x <> 0) by (unfold x; lra).
    replace (PI * - x) with (- (PI * x)) by ring. rewrite sin_neg.
    assert (Es : sin (PI * x) = (-1) ^ j * sin (PI * f)).
    { unfold x. replace (PI * (1 - f + INR j)) with ((PI - PI * f) + PI * INR j) by ring. rewrite sin_shift. f_equal. rewrite sin_PI_x. reflexivity. }
    rewrite Es. pose proof PI_neq0. replace (-2 * PI / (INR half * INR half) * - x * - x) with (-2 * PI / (INR half * INR half) * x * x) by ring.
    field. auto.
  Qed.
  Lemma raw_sum_pos : 0 < sumR (map (raw_coeff half f) (coeff_range half)).
  Proof.
    rewrite sum_range.
    rewrite (total_ext _ (fun j => sin (PI * f) * ((-1) ^ j * bump (f + INR j)))) by (intros; apply raw_neg).
    rewrite (total_ext (fun j => raw_coeff half f (Z.of_nat j + 1)) (fun j => sin (PI * f) * ((-1) ^ j * bump (1 - f + INR j)))) by (intros; apply raw_pos).
    rewrite !total_scale. fold (alternating (fun j => bump (f + INR j)) (S half)). fold (alternating (fun j => bump (1 - f + INR j)) half).
    assert (D : forall b, 0 < b -> forall j, 0 < bump (b + INR j) /\ bump (b + INR (S j)) < bump (b + INR j)).
    { intros b Hb j. pose proof (pos_INR j). split; [apply bump_pos; lra|]. apply bump_decreasing; [lra|]. rewrite S_INR. lra. }
    destruct (alternating_bounds (S half) (fun j => bump (f + INR j))) as [_ P1]; [intros; apply D; lra|intros; apply D; lra|].
    destruct (alternating_bounds half (fun j => bump (1 - f + INR j))) as [[P2 _] _]; [intros; apply D; lra|intros; apply D; lra|].
    assert (S0 : 0 < sin (PI * f)). { pose proof PI_RGT_0. apply sin_gt_0; nra. }
    specialize (P1 ltac:(lia)). nra.
  Qed.
End Positive.

Lemma raw_zero half k : raw_coeff half 0 k = if Z.eqb k 0 then 1 else 0.
Proof.
  unfold raw_coeff, sinc. cbv zeta. destruct (Z.eqb_spec k 0) as [->|N].
  - rewrite Rminus_0_r. destruct (Req_EM_T 0 0) as [_|E]; [|lra]. rewrite !Rmult_0_r, exp_0. ring.
  - destruct (Req_EM_T (0 - IZR k) 0) as [E|_]; [exfalso; apply N, eq_IZR; lra|].
    rewrite sin_eq_0_1; [unfold Rdiv; ring|]. exists (- k)%Z. rewrite opp_IZR. ring.
Qed.
Lemma raw_sum_zero half : sumR (map (raw_coeff half 0) (coeff_range half)) = 1.
Proof.
  rewrite sum_range. rewrite total_head. rewrite !raw_zero. simpl Z.eqb. cbv iota.
  assert (Z0 : forall u n, (forall j, u j = 0) -> total u n = 0).
  { intros u n Hu. induction n as [|n IH]; simpl; [reflexivity|]. rewrite IH, Hu. ring. }
  rewrite !Z0; [ring| |]; intros; rewrite raw_zero; destruct (Z.eqb_spec (Z.of_nat j + 1) 0); try destruct (Z.eqb_spec (- Z.of_nat (S j)) 0); auto; lia.
Qed.

Lemma sum_scale s l : sumR (map (fun x => x / s) l) = sumR l / s.
Proof. induction l as [|x l IH]; simpl; [unfold Rdiv; ring|]. rewrite IH. unfold Rdiv. ring. Qed.

Theorem sinc_sum_one half f : (0 < half)%nat -> 0 <= f < 1 -> sumR (sinc_coeffs half f) = 1.
Proof.
  intros Hh [F0 F1]. unfold sinc_coeffs. cbv zeta. rewrite sum_scale. apply Rinv_r.
  destruct (Req_EM_T f 0) as [->|N]; [rewrite raw_sum_zero; lra|]. pose proof (raw_sum_pos half f Hh ltac:(lra) F1). lra.
Qed.

Lemma sinc_coeffs_length half f : length (sinc_coeffs half f) = (1 + 2 * half)%nat.
Proof. unfold sinc_coeffs. rewrite !map_length. apply coeff_range_length. Qed.

Theorem sinc_delta half j : (j < 1 + 2 * half)%nat -> nth_error (sinc_coeffs half 0) j = Some (if (j =? half)%nat then 1 else 0).
Proof.
  intros Hj. unfold sinc_coeffs. cbv zeta. rewrite raw_sum_zero, map_map, nth_error_map, coeff_range_nth by auto. simpl. f_equal.
  rewrite raw_zero. destruct (Nat.eqb_spec j half) as [->|N].
  - rewrite Z.sub_diag. simpl. field.
  - destruct (Z.eqb_spec (Z.of_nat j - Z.of_nat half) 0); [lia|]. field.
Qed.

(** *** The table *)
Section Table.
  Variables (one shift : Z).
  Hypothesis s0 : (0 < shift)%Z.
  Hypothesis one0 : (0 < one)%Z.

  Lemma shifts_increasing : increasing (fractional_shifts one shift).
  Proof. intros i j x y Hij Hx Hy. apply zarange_nth in Hx; auto. apply zarange_nth in Hy; auto. nia. Qed.
  Lemma searchsorted_shift frac : (0 <= frac < one)%Z -> (shift | frac)%Z ->
    nth_error (fractional_shifts one shift) (searchsorted (fractional_shifts one shift) frac) = Some frac.
  Proof.
    intros B [q Hq]. assert (N : nth_error (fractional_shifts one shift) (Z.to_nat q) = Some frac) by (apply zarange_nth; [auto|]; nia).
    rewrite (searchsorted_index _ _ _ shifts_increasing N). exact N.
  Qed.
  Theorem sinc_table half frac : (0 <= frac < one)%Z -> (shift | frac)%Z -> sinc_get_coeffs half one shift frac = Some (sinc_coeffs half (IZR frac / IZR one)).
  Proof. intros B D. unfold sinc_get_coeffs, coefficient_table. rewrite nth_error_map, searchsorted_shift by auto. reflexivity. Qed.
  Lemma sinc_get_coeffs_In half frac cs : sinc_get_coeffs half one shift frac = Some cs -> exists f, 0 <= f < 1 /\ cs = sinc_coeffs half f.
  Proof.
    unfold sinc_get_coeffs. intros H. apply nth_error_In in H. unfold coefficient_table in H. apply in_map_iff in H. destruct H as (z & <- & Hz).
    apply zarange_In in Hz; auto. destruct Hz as [Hz _]. exists (IZR z / IZR one). split; [|reflexivity].
    assert (0 < IZR one) by (apply IZR_lt; auto). assert (0 <= IZR z) by (apply IZR_le; lia). assert (IZR z < IZR one) by (apply IZR_lt; lia).
    split; [apply Rmult_le_pos; [auto|left; apply Rinv_0_lt_compat; auto]|]. apply Rmult_lt_reg_r with (IZR one); [auto|]. unfold Rdiv. rewrite Rmult_assoc, Rinv_l by lra. lra.
  Qed.
End Table.

(** *** Resampling *)
Lemma dot_const u c n : length u = n -> dot Rplus Rmult 0 u (repeat c n) = sumR u * c.
Proof.
  revert n. induction u as [|x u IH]; intros [|n] L; simpl in L; try discriminate; unfold dot in *; simpl; [ring|]. rewrite IH by lia. ring.
Qed.
Lemma dot_const_l u c n : length u = n -> dot Rplus Rmult 0 (repeat c n) u = c * sumR u.
Proof.
  revert n. induction u as [|x u IH]; intros [|n] L; simpl in L; try discriminate; unfold dot in *; simpl; [ring|]. rewrite IH by lia. ring.
Qed.
Lemma map_const {A B} (l : list A) (g : A -> B) c : (forall x, In x l -> g x = c) -> map g l = repeat c (length l).
Proof. induction l as [|x l IH]; intros H; [reflexivity|]. simpl. rewrite H, IH; auto; simpl; auto. intros. apply H. now right. Qed.

Lemma apply_const m n c row col : length m = n -> length row = n -> (forall i j, (i < n)%nat -> (j < length col)%nat -> nth j (nth i m []) 0 = c) ->
  sumR row = 1 -> sumR col = 1 -> apply Rplus Rmult 0 m row col = c.
Proof.
  intros Lm Lr V S1 S2. unfold apply, vec_dot.
  rewrite (map_const _ _ c).
  - rewrite seq_length. rewrite dot_const_l by auto. rewrite S2. ring.
  - intros j Hj. apply in_seq in Hj. rewrite (map_const _ _ c).
    + rewrite dot_const by (rewrite Lr, Lm; auto). rewrite S1. ring.
    + intros line Hl. apply In_nth with (d := []) in Hl. destruct Hl as (i & Hi & <-). apply V; lia.
Qed.

Definition delta (n k : nat) : list R := map (fun j => if (j =? k)%nat then 1 else 0) (seq 0 n).
Lemma dot_delta (v : list R) : forall s k, (s <= k)%nat ->
  dot Rplus Rmult 0 (map (fun j => if (j =? k)%nat then 1 else 0) (seq s (length v))) v = nth (k - s) v 0.
Proof.
  induction v as [|x v IH]; intros s k Hk; [destruct (k - s)%nat; reflexivity|].
  unfold dot in *. cbn [length seq map combine fold_right fst snd]. destruct (Nat.eqb_spec s k) as [->|N].
  - rewrite Nat.sub_diag. cbn [nth]. replace (map (fun j => if (j =? k)%nat then 1 else 0) (seq (S k) (length v))) with (repeat 0 (length v)).
    + fold (dot Rplus Rmult 0 (repeat 0 (length v)) v). rewrite dot_const_l by auto. ring.
    + symmetry. rewrite (map_const _ _ 0); [rewrite seq_length; reflexivity|]. intros j Hj. apply in_seq in Hj. destruct (Nat.eqb_spec j k); [lia|auto].
  - rewrite IH by lia. replace (k - s)%nat with (S (k - S s)) by lia. cbn [nth]. ring.
Qed.
Lemma dot_comm u v : length u = length v -> dot Rplus Rmult 0 u v = dot Rplus Rmult 0 v u.
Proof. revert v. induction u as [|x u IH]; intros [|y v] L; simpl in L; try discriminate; [reflexivity|]. unfold dot in *. simpl. rewrite IH by lia. ring. Qed.
Lemma apply_delta m n k : length m = n -> (k < n)%nat -> apply Rplus Rmult 0 m (delta n k) (delta n k) = nth k (nth k m []) 0.
Proof.
  intros Lm Hk. assert (Ld : length (delta n k) = n) by (unfold delta; rewrite map_length, seq_length; auto).
  unfold apply. rewrite dot_comm by (unfold vec_dot; rewrite map_length, seq_length; auto).
  unfold vec_dot. rewrite Ld. set (v := map _ (seq 0 n)). assert (Lv : length v = n) by (unfold v; rewrite map_length, seq_length; auto).
  unfold delta at 1. rewrite <- Lv at 1. rewrite dot_delta by lia. rewrite Nat.sub_0_r. unfold v.
  rewrite (nth_indep _ 0 (dot Rplus Rmult 0 (delta n k) (map (fun line => nth 0 line 0) m))) by (fold v; rewrite Lv; auto).
  rewrite (map_nth (fun j => dot Rplus Rmult 0 (delta n k) (map (fun line => nth j line 0) m)) (seq 0 n) 0%nat k).
  rewrite seq_nth by auto. simpl. set (w := map (fun line => nth k line 0) m). assert (Lw : length w = n) by (unfold w; rewrite map_length; auto).
  unfold delta. rewrite <- Lw at 1. rewrite dot_delta by lia. rewrite Nat.sub_0_r. unfold w.
  replace 0 with (nth k (@nil R) 0) at 1 by (destruct k; reflexivity). rewrite (map_nth (fun line => nth k line 0)). reflexivity.
Qed.
Lemma sinc_coeffs_delta half : sinc_coeffs half 0 = delta (1 + 2 * half) half.
Proof.
  apply list_eq_nth_error. intros j. unfold delta. destruct (Nat.lt_ge_cases j (1 + 2 * half)) as [Hj|Hj].
  - rewrite sinc_delta by auto. rewrite nth_error_map, (nth_error_nth' _ 0%nat) by (rewrite seq_length; auto). rewrite seq_nth by auto. reflexivity.
  - rewrite (proj2 (nth_error_None _ _)) by (rewrite sinc_coeffs_length; auto). symmetry. apply nth_error_None. rewrite map_length, seq_length. auto.
Qed.

(** The window of a position is a block of the image. *)
Lemma area_inside {T} (image : list (list T)) nrow ncol size top left d : rect nrow ncol image ->
  (0 <= top)%Z -> (top + Z.of_nat size <= Z.of_nat nrow)%Z -> (0 <= left)%Z -> (left + Z.of_nat size <= Z.of_nat ncol)%Z ->
  length (area_at size top left image) = size /\ Forall (fun line => length line = size) (area_at size top left image) /\
  forall i j, (i < size)%nat -> (j < size)%nat -> nth_error (nth i (area_at size top left image) []) j = nth2 image (Z.to_nat top + i) (Z.to_nat left + j)
     /\ nth j (nth i (area_at size top left image) []) d = match nth2 image (Z.to_nat top + i) (Z.to_nat left + j) with Some v => v | None => d end.
Proof.
  intros [L F] H1 H2 H3 H4. unfold area_at. rewrite py_slice_inside by (rewrite ?L; auto).
  assert (E : forall line : list T, length line = ncol -> py_slice left (left + Z.of_nat size) line = slice (Z.to_nat left) (Z.to_nat left + size) line).
  { intros line Hl. apply py_slice_inside; [auto|rewrite Hl; auto]. }
  rewrite Forall_forall in F.
  split; [rewrite map_length, slice_length; lia|]. split.
  - apply Forall_forall. intros x Hx. apply in_map_iff in Hx. destruct Hx as (line & <- & Hl). apply In_nth_error in Hl. destruct Hl as [i Hi].
    rewrite slice_nth in Hi. destruct (_ <? _)%nat; [|discriminate]. apply nth_error_In in Hi. rewrite E by auto. rewrite slice_length; [lia|]. rewrite (F _ Hi). lia.
  - intros i j Hi Hj.
    assert (N : nth_error (map (py_slice left (left + Z.of_nat size)) (slice (Z.to_nat top) (Z.to_nat top + size) image)) i =
                option_map (py_slice left (left + Z.of_nat size)) (nth_error image (Z.to_nat top + i))).
    { rewrite nth_error_map, slice_nth. replace (Z.to_nat top + i <? Z.to_nat top + size)%nat with true by (symmetry; apply Nat.ltb_lt; lia). reflexivity. }
    destruct (nth_error image (Z.to_nat top + i)) as [line|] eqn:El; [|apply nth_error_None in El; lia].
    simpl in N. rewrite (nth_error_nth _ _ _ N). rewrite E by (apply F; eapply nth_error_In; eauto).
    assert (G : nth_error (slice (Z.to_nat left) (Z.to_nat left + size) line) j = nth2 image (Z.to_nat top + i) (Z.to_nat left + j)).
    { rewrite slice_nth. replace (Z.to_nat left + j <? Z.to_nat left + size)%nat with true by (symmetry; apply Nat.ltb_lt; lia). unfold nth2. rewrite El. reflexivity. }
    split; [exact G|]. rewrite <- G. destruct (nth_error _ j) eqn:En; [eapply nth_error_nth; eauto|]. apply nth_overflow. now apply nth_error_None.
Qed.

Lemma fractional_range one pos : (0 < one)%Z -> (0 <= fractional one pos < one)%Z.
Proof.
  intros H. unfold fractional. cbv zeta. destruct (_ <? _)%Z; [|apply Z.mod_pos_bound; auto].
  split; [apply Z.div_pos; lia|]. apply Z.div_lt_upper_bound; lia.
Qed.
