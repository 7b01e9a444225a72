(** Proofs about the bicubic filter. *)
From Coq Require Import ZArith QArith Qround Qabs List Bool Lia Lqa Arith.
From Verif Require Import Base.PyList Model.FilterModel Spec.FilterSpec Proofs.ChunkProofs Proofs.WtaProofs Proofs.DichotomyProofs.
Import ListNotations.
Open Scope Q_scope.

Lemma coeff_dist frac i d : Qabs (- (1) + inject_Z (Z.of_nat i) - frac) == d ->
  bicubic_coeff frac i == (if Qle_bool d 1 then (((alpha + 2) * d - (alpha + 3)) * d * d) + 1
    else (((alpha * d - 5 * alpha) * d) + 8 * alpha) * d - 4 * alpha).
Proof.
  intros E. unfold bicubic_coeff. cbv zeta.
  destruct (Qle_bool (Qabs _) 1) eqn:A, (Qle_bool d 1) eqn:B.
  - rewrite E. reflexivity.
  - exfalso. rewrite Qle_bool_iff in A. rewrite E in A. apply Qle_bool_iff in A. congruence.
  - exfalso. rewrite Qle_bool_iff in B. rewrite <- E in B. apply Qle_bool_iff in B. congruence.
  - rewrite E. reflexivity.
Qed.

Section Coeffs.
  Variable f : Q.
  Hypothesis f0 : 0 <= f.
  Hypothesis f1 : f < 1.

  Lemma coeff0 : bicubic_coeff f 0 == - (1 # 2) * f + f * f - (1 # 2) * f * f * f.
  Proof.
    rewrite (coeff_dist f 0 (1 + f)).
    2:{ change (inject_Z (Z.of_nat 0)) with 0. rewrite Qabs_neg; lra. }
    destruct (Qle_bool (1 + f) 1) eqn:A.
    - apply Qle_bool_iff in A. assert (E : f == 0) by lra. rewrite E. unfold alpha. lra.
    - unfold alpha. ring.
  Qed.
  Lemma coeff1 : bicubic_coeff f 1 == 1 - (5 # 2) * f * f + (3 # 2) * f * f * f.
  Proof.
    rewrite (coeff_dist f 1 f).
    2:{ change (inject_Z (Z.of_nat 1)) with 1. rewrite Qabs_neg; lra. }
    assert (A : Qle_bool f 1 = true) by (apply Qle_bool_iff; lra). rewrite A. unfold alpha. ring.
  Qed.
  Lemma coeff2 : bicubic_coeff f 2 == (1 # 2) * f + 2 * f * f - (3 # 2) * f * f * f.
  Proof.
    rewrite (coeff_dist f 2 (1 - f)).
    2:{ change (inject_Z (Z.of_nat 2)) with 2. rewrite Qabs_pos; lra. }
    assert (A : Qle_bool (1 - f) 1 = true) by (apply Qle_bool_iff; lra). rewrite A. unfold alpha. ring.
  Qed.
  Lemma coeff3 : bicubic_coeff f 3 == - (1 # 2) * f * f + (1 # 2) * f * f * f.
  Proof.
    rewrite (coeff_dist f 3 (2 - f)).
    2:{ change (inject_Z (Z.of_nat 3)) with 3. rewrite Qabs_pos; lra. }
    destruct (Qle_bool (2 - f) 1) eqn:A.
    - apply Qle_bool_iff in A. lra.
    - unfold alpha. ring.
  Qed.
End Coeffs.

Lemma fraction_bounds pos : 0 <= pos - inject_Z (Qfloor pos) /\ pos - inject_Z (Qfloor pos) < 1.
Proof. pose proof (Qfloor_le pos). pose proof (Qlt_floor pos). rewrite inject_Z_plus in H0. change (inject_Z 1) with 1 in H0. split; lra. Qed.

Lemma q_fractional_exact pos : 0 <= pos -> not_just_below pos -> q_fractional pos == pos - inject_Z (Qfloor pos).
Proof.
  intros H N. unfold q_fractional. cbv zeta.
  assert (E : Qabs pos == pos) by (apply Qabs_pos; auto).
  assert (F : Qfloor (Qabs pos) = Qfloor pos) by (rewrite E; reflexivity). rewrite F.
  destruct (Qle_bool _ _) eqn:A.
  - rewrite E. reflexivity.
  - exfalso. unfold not_just_below in N. rewrite <- E in N at 1. apply Qle_bool_iff in N. congruence.
Qed.

(** Moments of the coefficients: the polynomials of degree at most 2 are reproduced. *)
Lemma moments f (c0 c1 c2 c3 : Q) : 0 <= f -> f < 1 ->
  c0 == bicubic_coeff f 0 -> c1 == bicubic_coeff f 1 -> c2 == bicubic_coeff f 2 -> c3 == bicubic_coeff f 3 ->
  c0 + c1 + c2 + c3 == 1 /\ - c0 + c2 + 2 * c3 == f /\ c0 + c2 + 4 * c3 == f * f.
Proof.
  intros A B -> -> -> ->. rewrite coeff0, coeff1, coeff2, coeff3 by auto. repeat split; ring.
Qed.

Lemma py_slice4 {A} (l : list A) s : (0 <= s)%Z -> (s + 4 <= Z.of_nat (length l))%Z ->
  exists a b c d, py_slice s (s + 4) l = [a; b; c; d] /\ nth_error l (Z.to_nat s) = Some a /\ nth_error l (Z.to_nat s + 1) = Some b /\
    nth_error l (Z.to_nat s + 2) = Some c /\ nth_error l (Z.to_nat s + 3) = Some d.
Proof.
  intros H1 H2. pose proof (py_slice_inside l s 4 H1 H2) as E. change (Z.of_nat 4) with 4%Z in E.
  assert (L : length (py_slice s (s + 4) l) = 4%nat) by (rewrite E, slice_length; lia).
  destruct (py_slice s (s + 4) l) as [|a [|b [|c [|d [|? ?]]]]]; simpl in L; try discriminate.
  exists a, b, c, d. split; [reflexivity|].
  assert (N : forall k, (k < 4)%nat -> nth_error l (Z.to_nat s + k) = nth_error [a; b; c; d] k).
  { intros k Hk. rewrite E, slice_nth. replace (Z.to_nat s + k <? Z.to_nat s + 4)%nat with true by (symmetry; apply Nat.ltb_lt; lia). reflexivity. }
  repeat split; [rewrite <- (Nat.add_0_r (Z.to_nat s))| | |]; rewrite N by lia; reflexivity.
Qed.

Lemma area4 (image : list (list Q)) nrow ncol f top left : sampled image nrow ncol f ->
  (0 <= top)%Z -> (top + 4 <= Z.of_nat nrow)%Z -> (0 <= left)%Z -> (left + 4 <= Z.of_nat ncol)%Z ->
  exists m, area_at 4 top left image = m /\ length m = 4%nat /\ Forall (fun line => length line = 4%nat) m /\
    forall i j, (i < 4)%nat -> (j < 4)%nat -> nth j (nth i m []) 0 == f (inject_Z (top + Z.of_nat i)) (inject_Z (left + Z.of_nat j)).
Proof.
  intros [[L F] S] H1 H2 H3 H4. eexists. split; [reflexivity|]. unfold area_at. change (Z.of_nat 4) with 4%Z.
  destruct (py_slice4 image top) as (a & b & c & d & E & Na & Nb & Nc & Nd); [auto|rewrite L; auto|]. rewrite E. cbn [map].
  assert (Line : forall k line, nth_error image k = Some line -> length (py_slice left (left + 4) line) = 4%nat /\
     forall j, (j < 4)%nat -> nth j (py_slice left (left + 4) line) 0 == f (inject_Z (Z.of_nat k)) (inject_Z (left + Z.of_nat j))).
  { intros k line Hk. rewrite Forall_forall in F. assert (Ll : length line = ncol) by (apply F; eapply nth_error_In; eauto).
    destruct (py_slice4 line left) as (x & y & z & w & E' & Nx & Ny & Nz & Nw); [auto|rewrite Ll; auto|]. rewrite E'. split; [reflexivity|].
    assert (V : forall j v, nth_error line (Z.to_nat left + j) = Some v -> v == f (inject_Z (Z.of_nat k)) (inject_Z (left + Z.of_nat j))).
    { intros j v Hv. rewrite (S k (Z.to_nat left + j)%nat v); [|unfold nth2; rewrite Hk; auto]. rewrite Nat2Z.inj_add, Z2Nat.id by auto. reflexivity. }
    intros j Hj. destruct j as [|[|[|[|j]]]]; [| | | |lia]; cbn [nth]; apply V; auto. now rewrite Nat.add_0_r. }
  split; [reflexivity|]. split.
  - repeat constructor; eapply Line; eauto.
  - assert (T : forall i, Z.of_nat (Z.to_nat top + i) = (top + Z.of_nat i)%Z) by (intros; lia).
    intros i j Hi Hj. destruct i as [|[|[|[|i]]]]; [| | | |lia]; cbn [nth].
    + rewrite (proj2 (Line _ _ Na) j Hj). rewrite <- (T 0%nat), Nat.add_0_r. reflexivity.
    + rewrite (proj2 (Line _ _ Nb) j Hj). rewrite T. reflexivity.
    + rewrite (proj2 (Line _ _ Nc) j Hj). rewrite T. reflexivity.
    + rewrite (proj2 (Line _ _ Nd) j Hj). rewrite T. reflexivity.
Qed.

Lemma apply4 m (r0 r1 r2 r3 c0 c1 c2 c3 : Q) : length m = 4%nat ->
  let a i j := nth j (nth i m []) 0 in
  apply Qplus Qmult 0 m [r0; r1; r2; r3] [c0; c1; c2; c3] ==
    c0 * (r0 * a 0%nat 0%nat + r1 * a 1%nat 0%nat + r2 * a 2%nat 0%nat + r3 * a 3%nat 0%nat) +
    c1 * (r0 * a 0%nat 1%nat + r1 * a 1%nat 1%nat + r2 * a 2%nat 1%nat + r3 * a 3%nat 1%nat) +
    c2 * (r0 * a 0%nat 2%nat + r1 * a 1%nat 2%nat + r2 * a 2%nat 2%nat + r3 * a 3%nat 2%nat) +
    c3 * (r0 * a 0%nat 3%nat + r1 * a 1%nat 3%nat + r2 * a 2%nat 3%nat + r3 * a 3%nat 3%nat).
Proof.
  intros L a. unfold a. destruct m as [|l0 [|l1 [|l2 [|l3 [|? ?]]]]]; simpl in L; try discriminate.
  unfold apply, vec_dot, dot. cbn [length seq map combine fold_right fst snd nth]. ring.
Qed.

(** A polynomial of degree 2 in one variable around p is reproduced. *)
Lemma moments_poly f c0 c1 c2 c3 p u v w : c0 + c1 + c2 + c3 == 1 -> - c0 + c2 + 2 * c3 == f -> c0 + c2 + 4 * c3 == f * f ->
  c0 * (u + v * (p - 1) + w * (p - 1) * (p - 1)) + c1 * (u + v * p + w * p * p) + c2 * (u + v * (p + 1) + w * (p + 1) * (p + 1)) +
  c3 * (u + v * (p + 2) + w * (p + 2) * (p + 2)) == u + v * (p + f) + w * (p + f) * (p + f).
Proof.
  intros A B C.
  transitivity ((u + v * p + w * p * p) * (c0 + c1 + c2 + c3) + (v + 2 * w * p) * (- c0 + c2 + 2 * c3) + w * (c0 + c2 + 4 * c3)); [ring|].
  rewrite A, B, C. ring.
Qed.

Lemma q_fractional_bounds pos : 0 <= q_fractional pos /\ q_fractional pos < 1.
Proof.
  unfold q_fractional. cbv zeta. destruct (Qle_bool _ _) eqn:A; [|split; [discriminate | reflexivity]]. apply (fraction_bounds (Qabs pos)).
Qed.
Lemma q_fractional_below pos : 0 <= pos -> ~ not_just_below pos -> q_fractional pos == 511 # 512.
Proof.
  intros H N. unfold q_fractional. cbv zeta.
  assert (E : Qabs pos == pos) by (apply Qabs_pos; auto).
  assert (F : Qfloor (Qabs pos) = Qfloor pos) by (rewrite E; reflexivity). rewrite F.
  destruct (Qle_bool _ _) eqn:A; [|reflexivity]. exfalso. apply N. unfold not_just_below. rewrite <- E at 1. apply Qle_bool_iff in A. exact A.
Qed.

(** Every position: the polynomial at the fraction that is used. *)
Theorem bicubic_quadratic_at image nrow ncol co pos_row pos_col : sampled image nrow ncol (quadratic co) -> in_window nrow ncol pos_row pos_col ->
  exists v, bicubic_interpolate image (pos_col, pos_row) = Some v /\
    v == quadratic co (inject_Z (Qfloor pos_row) + q_fractional pos_row) (inject_Z (Qfloor pos_col) + q_fractional pos_col).
Proof.
  intros S (W1 & W2 & W3 & W4).
  destruct (area4 image nrow ncol _ (Qfloor pos_row - 1) (Qfloor pos_col - 1) S) as (m & Em & Lm & Fm & Vm); try lia.
  unfold bicubic_interpolate. rewrite Em, Lm.
  assert (Fb : forallb (fun line : list Q => (length line =? 4)%nat) m = true).
  { apply forallb_forall. intros x Hx. rewrite Forall_forall in Fm. apply Nat.eqb_eq. auto. }
  rewrite Fb. cbn [Nat.eqb andb]. eexists. split; [reflexivity|].
  destruct (q_fractional_bounds pos_row) as [B1 B2]. destruct (q_fractional_bounds pos_col) as [B3 B4].
  set (fr := q_fractional pos_row) in *. set (fc := q_fractional pos_col) in *.
  unfold bicubic_coeffs. cbn [seq map]. rewrite (apply4 m) by auto. cbv zeta. rewrite !Vm by lia.
  assert (I : forall z k, inject_Z (z - 1 + Z.of_nat k) == inject_Z z + inject_Z (Z.of_nat k - 1)).
  { intros. rewrite <- inject_Z_plus. replace (z + (Z.of_nat k - 1))%Z with (z - 1 + Z.of_nat k)%Z by lia. reflexivity. }
  destruct (moments fr _ _ _ _ B1 B2 (Qeq_refl _) (Qeq_refl _) (Qeq_refl _) (Qeq_refl _)) as (A1 & A2 & A3).
  destruct (moments fc _ _ _ _ B3 B4 (Qeq_refl _) (Qeq_refl _) (Qeq_refl _) (Qeq_refl _)) as (C1 & C2 & C3).
  set (r0 := bicubic_coeff fr 0) in *. set (r1 := bicubic_coeff fr 1) in *. set (r2 := bicubic_coeff fr 2) in *. set (r3 := bicubic_coeff fr 3) in *.
  set (c0 := bicubic_coeff fc 0) in *. set (c1 := bicubic_coeff fc 1) in *. set (c2 := bicubic_coeff fc 2) in *. set (c3 := bicubic_coeff fc 3) in *.
  set (pr := inject_Z (Qfloor pos_row)) in *. set (pc := inject_Z (Qfloor pos_col)) in *.
  assert (X : forall z, inject_Z (z - 1 + Z.of_nat 0) == inject_Z z - 1) by (intros; rewrite I; change (inject_Z (Z.of_nat 0 - 1)) with (- (1)); ring).
  assert (X1 : forall z, inject_Z (z - 1 + Z.of_nat 1) == inject_Z z) by (intros; rewrite I; change (inject_Z (Z.of_nat 1 - 1)) with 0; ring).
  assert (X2 : forall z, inject_Z (z - 1 + Z.of_nat 2) == inject_Z z + 1) by (intros; rewrite I; change (inject_Z (Z.of_nat 2 - 1)) with 1; ring).
  assert (X3 : forall z, inject_Z (z - 1 + Z.of_nat 3) == inject_Z z + 2) by (intros; rewrite I; change (inject_Z (Z.of_nat 3 - 1)) with 2; ring).
  set (g := fun a b : nat => nth b (nth a co []) 0).
  assert (Poly : forall x y, quadratic co x y == (g 0%nat 0%nat + g 1%nat 0%nat * x + g 2%nat 0%nat * x * x) + (g 0%nat 1%nat + g 1%nat 1%nat * x + g 2%nat 1%nat * x * x) * y + (g 0%nat 2%nat + g 1%nat 2%nat * x + g 2%nat 2%nat * x * x) * y * y)
    by (intros; unfold quadratic, g; ring).
  rewrite !Poly, !X, !X1, !X2, !X3. fold pr pc.
  (* sum over the rows for each column, then over the columns *)
  assert (Row : forall y,
    r0 * ((g 0%nat 0%nat + g 1%nat 0%nat * (pr - 1) + g 2%nat 0%nat * (pr - 1) * (pr - 1)) + (g 0%nat 1%nat + g 1%nat 1%nat * (pr - 1) + g 2%nat 1%nat * (pr - 1) * (pr - 1)) * y + (g 0%nat 2%nat + g 1%nat 2%nat * (pr - 1) + g 2%nat 2%nat * (pr - 1) * (pr - 1)) * y * y) +
    r1 * ((g 0%nat 0%nat + g 1%nat 0%nat * pr + g 2%nat 0%nat * pr * pr) + (g 0%nat 1%nat + g 1%nat 1%nat * pr + g 2%nat 1%nat * pr * pr) * y + (g 0%nat 2%nat + g 1%nat 2%nat * pr + g 2%nat 2%nat * pr * pr) * y * y) +
    r2 * ((g 0%nat 0%nat + g 1%nat 0%nat * (pr + 1) + g 2%nat 0%nat * (pr + 1) * (pr + 1)) + (g 0%nat 1%nat + g 1%nat 1%nat * (pr + 1) + g 2%nat 1%nat * (pr + 1) * (pr + 1)) * y + (g 0%nat 2%nat + g 1%nat 2%nat * (pr + 1) + g 2%nat 2%nat * (pr + 1) * (pr + 1)) * y * y) +
    r3 * ((g 0%nat 0%nat + g 1%nat 0%nat * (pr + 2) + g 2%nat 0%nat * (pr + 2) * (pr + 2)) + (g 0%nat 1%nat + g 1%nat 1%nat * (pr + 2) + g 2%nat 1%nat * (pr + 2) * (pr + 2)) * y + (g 0%nat 2%nat + g 1%nat 2%nat * (pr + 2) + g 2%nat 2%nat * (pr + 2) * (pr + 2)) * y * y) ==
    (g 0%nat 0%nat + g 1%nat 0%nat * (pr + fr) + g 2%nat 0%nat * (pr + fr) * (pr + fr)) + (g 0%nat 1%nat + g 1%nat 1%nat * (pr + fr) + g 2%nat 1%nat * (pr + fr) * (pr + fr)) * y + (g 0%nat 2%nat + g 1%nat 2%nat * (pr + fr) + g 2%nat 2%nat * (pr + fr) * (pr + fr)) * y * y).
  { intros y. pose proof (moments_poly fr r0 r1 r2 r3 pr (g 0%nat 0%nat + g 0%nat 1%nat * y + g 0%nat 2%nat * y * y) (g 1%nat 0%nat + g 1%nat 1%nat * y + g 1%nat 2%nat * y * y) (g 2%nat 0%nat + g 2%nat 1%nat * y + g 2%nat 2%nat * y * y) A1 A2 A3) as Q.
    rewrite <- (Qplus_0_r (_ + _ * y + _ * y * y)) at 1. transitivity ((g 0%nat 0%nat + g 0%nat 1%nat * y + g 0%nat 2%nat * y * y) + (g 1%nat 0%nat + g 1%nat 1%nat * y + g 1%nat 2%nat * y * y) * (pr + fr) + (g 2%nat 0%nat + g 2%nat 1%nat * y + g 2%nat 2%nat * y * y) * (pr + fr) * (pr + fr)); [rewrite <- Q; ring|ring]. }
  rewrite !Row.
  apply (moments_poly fc c0 c1 c2 c3 pc _ _ _ C1 C2 C3).
Qed.
Theorem bicubic_quadratic image nrow ncol co pos_row pos_col : sampled image nrow ncol (quadratic co) -> in_window nrow ncol pos_row pos_col ->
  not_just_below pos_row -> not_just_below pos_col ->
  exists v, bicubic_interpolate image (pos_col, pos_row) = Some v /\ v == quadratic co pos_row pos_col.
Proof.
  intros S W N1 N2. destruct (bicubic_quadratic_at image nrow ncol co pos_row pos_col S W) as (v & E & V). exists v. split; [exact E|]. rewrite V.
  assert (P : forall pos, (1 <= Qfloor pos)%Z -> 0 <= pos) by (intros pos H; apply Qle_trans with (inject_Z (Qfloor pos)); [|apply Qfloor_le]; change 0 with (inject_Z 0); rewrite <- Zle_Qle; lia).
  destruct W as (W1 & _ & W3 & _). unfold quadratic. rewrite (q_fractional_exact pos_row (P _ W1) N1), (q_fractional_exact pos_col (P _ W3) N2). ring.
Qed.

(** The image of the values of a function. *)
Lemma sampled_grid f n m : sampled (map (fun r => map (fun c => f (inject_Z (Z.of_nat r)) (inject_Z (Z.of_nat c))) (seq 0 m)) (seq 0 n)) n m f.
Proof.
  split; [split; [rewrite map_length, seq_length; reflexivity|]|].
  - apply Forall_forall. intros x Hx. apply in_map_iff in Hx. destruct Hx as (r & <- & _). rewrite map_length, seq_length. reflexivity.
  - intros r c v. unfold nth2. rewrite nth_error_map. destruct (nth_error (seq 0 n) r) as [r'|] eqn:Er; [|discriminate]. cbn [option_map].
    rewrite nth_error_map. destruct (nth_error (seq 0 m) c) as [c'|] eqn:Ec; [|discriminate]. cbn [option_map]. intros H. injection H as <-.
    assert (S : forall t k j, nth_error (seq 0 t) k = Some j -> j = k).
    { intros t k j Hk. assert (Lk : (k < t)%nat) by (rewrite <- (seq_length t 0); apply nth_error_Some; congruence).
      rewrite (nth_error_nth' _ 0%nat) in Hk by (rewrite seq_length; auto). rewrite seq_nth in Hk by auto. simpl in Hk. congruence. }
    rewrite (S _ _ _ Er), (S _ _ _ Ec). reflexivity.
Qed.
