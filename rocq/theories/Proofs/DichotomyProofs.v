(** Proofs about the dichotomy refinement. *)
From Coq Require Import ZArith List Bool Lia Arith.
From Verif Require Import Base.Ext Base.PyList Base.Arr Model.CommonModel Model.DisparityModel Model.DichotomyModel
  Spec.WtaSpec Spec.DichotomySpec Proofs.ChunkProofs Proofs.WtaProofs.
Import ListNotations.
Open Scope Z_scope.

Section Search.
  Variable one : Z.
  Variable store : ext -> ext.
  Variable flt : filter.
  Variable t : measure.
  Variable subpix : Z.
  Variable surface : list (list ext).

  Definition unit_shift (a : Z) : Prop := a = -1 \/ a = 0 \/ a = 1.

  Lemma good_store a b : rounding store -> at_least_as_good t a b -> at_least_as_good t (store a) (store b).
  Proof. intros (H & _ & _). destruct t; simpl; auto. Qed.

  (** nanarg: the chosen value is at least as good as any value that is not NaN. *)
  Lemma nanarg_spec l b x : np_nanarg t l = Some b -> In x l -> x <> NaN -> x <> worst_cost t ->
    exists m, nth_error l b = Some m /\ at_least_as_good t m x.
  Proof.
    unfold np_nanarg. destruct (forallb ext_isnan l); try discriminate. intros E Hin Hx Hw.
    destruct (np_arg_spec t (map (fill_nan t) l)) as (i & m & E1 & E2 & E3 & _).
    - destruct l; [destruct Hin|discriminate].
    - intros y Hy. apply in_map_iff in Hy. destruct Hy as (z & <- & _). unfold fill_nan, worst. destruct z, t; cbn; discriminate.
    - assert (i = b) by congruence. subst i. rewrite nth_error_map in E2.
      destruct (nth_error l b) as [z|] eqn:Ez; simpl in E2; [|discriminate]. injection E2 as E2.
      assert (G : at_least_as_good t m x).
      { apply E3. apply in_map_iff. exists x. split; auto. destruct x; try reflexivity. congruence. }
      assert (z = m).
      { destruct z; auto. exfalso. unfold fill_nan, worst in E2. cbn [ext_isnan] in E2. subst m. unfold worst_cost in Hw. destruct t, x; cbn in G; try discriminate; congruence. }
      subst z. eauto.
  Qed.

  Lemma map_opt9 {A B} (f : A -> option B) (a0 a1 a2 a3 a4 a5 a6 a7 a8 : A) res :
    map_opt f [a0; a1; a2; a3; a4; a5; a6; a7; a8] = Some res ->
    exists b0 b1 b2 b3 b4 b5 b6 b7 b8, res = [b0; b1; b2; b3; b4; b5; b6; b7; b8] /\
      f a0 = Some b0 /\ f a1 = Some b1 /\ f a2 = Some b2 /\ f a3 = Some b3 /\ f a4 = Some b4 /\ f a5 = Some b5 /\ f a6 = Some b6 /\ f a7 = Some b7 /\ f a8 = Some b8.
  Proof.
    cbn [map_opt]. destruct (f a0), (f a1), (f a2), (f a3), (f a4), (f a5), (f a6), (f a7), (f a8); try discriminate.
    intros H. injection H as <-. do 9 eexists. repeat split; reflexivity.
  Qed.

  Ltac case_best a b E Better :=
    cbn [nth_error] in E; injection E as <-; cbn [pt_pos_row pt_pos_col pt_row pt_col pt_value]; split;
    [ exists a, b; split; [unfold unit_shift; lia|]; split; [unfold unit_shift; lia|]; split; [reflexivity|]; split; [reflexivity|]; split; [reflexivity|]; split; [reflexivity|];
      first [ left; repeat split; reflexivity | right; eexists; split; [eassumption|reflexivity] ]
    | let N := fresh in let W := fresh in let m := fresh in let Em := fresh in let G := fresh in
      intros N W; destruct (Better N W) as (m & Em & G); cbn in Em; injection Em as <-; eexists; split; [exact G|reflexivity] ].

  (** One step of the search. *)
  Lemma search_step precision p p' : search_new_best_point one store flt t subpix surface precision p = Some p' ->
    (exists a b, unit_shift a /\ unit_shift b /\
      pt_pos_row p' = a * precision * subpix + pt_pos_row p /\ pt_pos_col p' = b * precision * subpix + pt_pos_col p /\
      pt_row p' = a * precision + pt_row p /\ pt_col p' = b * precision + pt_col p /\
      ((a = 0 /\ b = 0 /\ pt_value p' = store (pt_value p)) \/
       (exists z, interpolate1 one flt surface (pt_pos_row p', pt_pos_col p') = Some z /\ pt_value p' = store z))) /\
    (pt_value p <> NaN -> pt_value p <> worst_cost t -> exists m, at_least_as_good t m (pt_value p) /\ pt_value p' = store m).
  Proof.
    unfold search_new_best_point. cbv zeta. unfold row_shifts, col_shifts. cbn [map combine].
    destruct (map_opt _ _) as [inter|] eqn:E; [|discriminate].
    apply map_opt9 in E. destruct E as (b0 & b1 & b2 & b3 & b4 & b5 & b6 & b7 & b8 & -> & H0 & H1 & H2 & H3 & H4 & H5 & H6 & H7 & H8).
    unfold set4. cbn [firstn skipn app].
    set (cands := [b0; b1; b2; b3; pt_value p; b5; b6; b7; b8]).
    destruct (if all_same cands then Some 4%nat else np_nanarg t cands) as [best|] eqn:Eb; [|discriminate].
    intros E.
    assert (Better : pt_value p <> NaN -> pt_value p <> worst_cost t -> exists m, nth_error cands best = Some m /\ at_least_as_good t m (pt_value p)).
    { intros N W. destruct (all_same cands).
      - injection Eb as <-. exists (pt_value p). split; [reflexivity|]. destruct t; simpl; apply ext_leb_refl; auto.
      - apply (nanarg_spec _ _ _ Eb); auto. simpl. tauto. }
    destruct best as [|best]; [case_best (-1) (-1) E Better|].
    destruct best as [|best]; [case_best (-1) (0) E Better|].
    destruct best as [|best]; [case_best (-1) (1) E Better|].
    destruct best as [|best]; [case_best (0) (-1) E Better|].
    destruct best as [|best]; [case_best (0) (0) E Better|].
    destruct best as [|best]; [case_best (0) (1) E Better|].
    destruct best as [|best]; [case_best (1) (-1) E Better|].
    destruct best as [|best]; [case_best (1) (0) E Better|].
    destruct best as [|best]; [case_best (1) (1) E Better|].
    cbn [nth_error] in E. destruct best; discriminate.
  Qed.

  (** Induction on the iterations: position and disparities move together. *)
  Lemma search_all_moves precisions p p' : search_all one store flt t subpix surface precisions p = Some p' ->
    pt_pos_row p' - pt_pos_row p = (pt_row p' - pt_row p) * subpix /\ pt_pos_col p' - pt_pos_col p = (pt_col p' - pt_col p) * subpix.
  Proof.
    revert p. induction precisions as [|pr ps IH]; simpl; intros p E.
    - injection E as <-. split; lia.
    - destruct (search_new_best_point _ _ _ _ _ _ _ _) as [q|] eqn:Eq; [|discriminate].
      destruct (search_step _ _ _ Eq) as [(a & b & _ & _ & P1 & P2 & P3 & P4 & _) _]. destruct (IH _ E). split; nia.
  Qed.

  (** Induction on the iterations: the value. *)
  Lemma search_all_value precisions p p' : rounding store -> store (pt_value p) = pt_value p -> pt_value p <> NaN -> pt_value p <> worst_cost t ->
    search_all one store flt t subpix surface precisions p = Some p' ->
    at_least_as_good t (pt_value p') (pt_value p) /\
    (p' = p \/ exists z, interpolate1 one flt surface (pt_pos_row p', pt_pos_col p') = Some z /\ pt_value p' = store z).
  Proof.
    intros R. revert p. induction precisions as [|pr ps IH]; cbn [search_all]; intros p S N W E.
    - injection E as <-. split; [|auto]. destruct t; simpl; apply ext_leb_refl; auto.
    - destruct (search_new_best_point _ _ _ _ _ _ _ _) as [q|] eqn:Eq; [|discriminate].
      destruct (search_step _ _ _ Eq) as [(a & b & _ & _ & P1 & P2 & P3 & P4 & P5) B].
      destruct (B N W) as (m & G & Em).
      assert (Gq : at_least_as_good t (pt_value q) (pt_value p)).
      { rewrite Em, <- S. apply good_store; auto. }
      assert (Sq : store (pt_value q) = pt_value q) by (rewrite Em; apply R).
      assert (Nq : pt_value q <> NaN).
      { intros C. rewrite C in Gq. destruct t, (pt_value p); simpl in Gq; discriminate. }
      assert (Wq : pt_value q <> worst_cost t).
      { intros C. rewrite C in Gq. destruct t, (pt_value p); simpl in *; congruence. }
      destruct (IH _ Sq Nq Wq E) as [G' O]. split.
      + eapply good_trans; eauto.
      + destruct O as [->|O]; [|auto]. destruct P5 as [(-> & -> & V)|Z]; [|auto].
        left. destruct p as [x1 x2 x3 x4 x5], q as [y1 y2 y3 y4 y5]; simpl in *. f_equal; try lia. congruence.
  Qed.

  Lemma search_all_app l1 l2 p : search_all one store flt t subpix surface (l1 ++ l2) p =
    match search_all one store flt t subpix surface l1 p with Some q => search_all one store flt t subpix surface l2 q | None => None end.
  Proof. revert p. induction l1; simpl; intros; auto. destruct (search_new_best_point _ _ _ _ _ _ _ _); auto. Qed.

  Lemma pow2_div (n m : nat) : (m <= n)%nat -> (2 ^ Z.of_nat n | one) -> one / 2 ^ Z.of_nat m = 2 ^ Z.of_nat (n - m) * (one / 2 ^ Z.of_nat n).
  Proof.
    intros L [q Hq]. subst one. rewrite Z.div_mul by (apply Z.pow_nonzero; lia).
    replace (2 ^ Z.of_nat n) with (2 ^ Z.of_nat (n - m) * 2 ^ Z.of_nat m) by (rewrite <- Z.pow_add_r by lia; f_equal; lia).
    rewrite Z.mul_assoc, Z.div_mul by (apply Z.pow_nonzero; lia). lia.
  Qed.

  (** Displacement from a starting disparity after the iterations first .. first + len - 1. *)
  Lemma search_all_range (n first len : nat) p p' B :
    0 < one -> (2 ^ Z.of_nat n | one) -> (1 <= first)%nat -> (first + len <= S n)%nat ->
    search_all one store flt t subpix surface (map (fun it => one / 2 ^ Z.of_nat it) (seq first len)) p = Some p' ->
    forall r0 c0, Z.abs (pt_row p - r0) + one / 2 ^ Z.of_nat (pred first) <= B -> Z.abs (pt_col p - c0) + one / 2 ^ Z.of_nat (pred first) <= B ->
    (one / 2 ^ Z.of_nat n | pt_row p - r0) -> (one / 2 ^ Z.of_nat n | pt_col p - c0) ->
    Z.abs (pt_row p' - r0) + one / 2 ^ Z.of_nat (pred (first + len)) <= B /\ Z.abs (pt_col p' - c0) + one / 2 ^ Z.of_nat (pred (first + len)) <= B /\
    (one / 2 ^ Z.of_nat n | pt_row p' - r0) /\ (one / 2 ^ Z.of_nat n | pt_col p' - c0).
  Proof.
    intros H1 D. revert first p. induction len as [|len IH]; intros first p Hf Hl E r0 c0 Br Bc Dr Dc.
    - simpl in E. injection E as <-. rewrite Nat.add_0_r. auto.
    - cbn [seq map search_all] in E.
      destruct (search_new_best_point _ _ _ _ _ _ _ _) as [q|] eqn:Eq; [|discriminate].
      destruct (search_step _ _ _ Eq) as [(a & b & Ha & Hb & _ & _ & P3 & P4 & _) _].
      replace (first + S len)%nat with (S first + len)%nat by lia.
      assert (Q1 : one / 2 ^ Z.of_nat first = 2 ^ Z.of_nat (n - first) * (one / 2 ^ Z.of_nat n)) by (apply pow2_div; auto; lia).
      assert (Q2 : one / 2 ^ Z.of_nat (pred first) = 2 * (one / 2 ^ Z.of_nat first)).
      { rewrite (pow2_div n (pred first)), Q1 by (auto; lia). replace (n - pred first)%nat with (S (n - first)) by lia.
        rewrite Nat2Z.inj_succ, Z.pow_succ_r by lia. lia. }
      assert (Pos : 0 <= one / 2 ^ Z.of_nat first) by (apply Z.div_pos; [lia|apply Z.pow_pos_nonneg; lia]).
      apply (IH (S first) q); try lia; auto.
      + cbn [pred]. unfold unit_shift in Ha. nia.
      + cbn [pred]. unfold unit_shift in Hb. nia.
      + rewrite P3, Q1. replace (a * (2 ^ Z.of_nat (n - first) * (one / 2 ^ Z.of_nat n)) + pt_row p - r0) with ((a * 2 ^ Z.of_nat (n - first)) * (one / 2 ^ Z.of_nat n) + (pt_row p - r0)) by lia.
        apply Z.divide_add_r; auto. apply Z.divide_factor_r.
      + rewrite P4, Q1. replace (b * (2 ^ Z.of_nat (n - first) * (one / 2 ^ Z.of_nat n)) + pt_col p - c0) with ((b * 2 ^ Z.of_nat (n - first)) * (one / 2 ^ Z.of_nat n) + (pt_col p - c0)) by lia.
        apply Z.divide_add_r; auto. apply Z.divide_factor_r.
  Qed.
End Search.

(** *** Windows *)
Lemma py_slice_inside {A} (l : list A) s n : 0 <= s -> s + Z.of_nat n <= Z.of_nat (length l) ->
  py_slice s (s + Z.of_nat n) l = slice (Z.to_nat s) (Z.to_nat s + n) l.
Proof.
  intros H1 H2. unfold py_slice, slice, py_index. rewrite !(proj2 (Z.ltb_ge _ _)) by lia. rewrite !Z.min_l by lia.
  replace (Z.to_nat (s + Z.of_nat n)) with (Z.to_nat s + n)%nat by lia. reflexivity.
Qed.

Section Window.
  Variable one : Z.
  Variable flt : filter.
  Variables (nrow ncol : nat) (surface : list (list ext)).
  Hypothesis Hrect : rect nrow ncol surface.

  Lemma area_inside pos_row pos_col : window_inside one flt nrow ncol pos_row pos_col ->
    resampling_area one flt surface pos_row pos_col =
    map (slice (Z.to_nat (pos_col / one - Z.of_nat (f_up flt))) (Z.to_nat (pos_col / one - Z.of_nat (f_up flt)) + f_size flt))
      (slice (Z.to_nat (pos_row / one - Z.of_nat (f_left flt))) (Z.to_nat (pos_row / one - Z.of_nat (f_left flt)) + f_size flt) surface).
  Proof.
    destruct Hrect as [L F]. intros (A & B & C & D). unfold resampling_area.
    rewrite py_slice_inside by (rewrite ?L; lia).
    apply map_ext_in. intros line Hline. apply py_slice_inside; [lia|].
    rewrite Forall_forall in F. rewrite F; [lia|]. unfold slice in Hline.
    assert (G : forall (m : list (list ext)) k, In line (firstn k m) -> In line m).
    { intros m k Hk. rewrite <- (firstn_skipn k m). apply in_or_app. auto. }
    apply G in Hline. rewrite <- (firstn_skipn (Z.to_nat (pos_row / one - Z.of_nat (f_left flt))) surface). apply in_or_app. auto.
  Qed.

  Lemma area_read pos_row pos_col i j : window_inside one flt nrow ncol pos_row pos_col -> (i < f_size flt)%nat -> (j < f_size flt)%nat ->
    nth2 (resampling_area one flt surface pos_row pos_col) i j =
    nth2 surface (Z.to_nat (pos_row / one - Z.of_nat (f_left flt)) + i) (Z.to_nat (pos_col / one - Z.of_nat (f_up flt)) + j).
  Proof.
    intros W Hi Hj. rewrite area_inside by auto. unfold nth2. rewrite nth_error_map, slice_nth.
    replace (Z.to_nat (pos_row / one - Z.of_nat (f_left flt)) + i <? Z.to_nat (pos_row / one - Z.of_nat (f_left flt)) + f_size flt)%nat with true
      by (symmetry; apply Nat.ltb_lt; lia).
    destruct (nth_error surface _) as [line|]; simpl; auto. rewrite slice_nth.
    replace (Z.to_nat (pos_col / one - Z.of_nat (f_up flt)) + j <? Z.to_nat (pos_col / one - Z.of_nat (f_up flt)) + f_size flt)%nat with true
      by (symmetry; apply Nat.ltb_lt; lia). reflexivity.
  Qed.

  Lemma area_rect pos_row pos_col : window_inside one flt nrow ncol pos_row pos_col ->
    rect (f_size flt) (f_size flt) (resampling_area one flt surface pos_row pos_col).
  Proof.
    intros W. rewrite area_inside by auto. destruct W as (A & B & C & D). destruct Hrect as [L F]. split.
    - rewrite map_length, slice_length by (rewrite L; lia). lia.
    - rewrite Forall_forall in *. intros x Hx. apply in_map_iff in Hx. destruct Hx as (line & <- & Hl).
      rewrite slice_length; [lia|]. rewrite F; [lia|].
      apply In_nth_error in Hl. destruct Hl as [k Hk]. rewrite slice_nth in Hk.
      destruct (_ <? _)%nat; [|discriminate]. eapply nth_error_In; eauto.
  Qed.

  Lemma interpolate_inside pos_row pos_col : window_inside one flt nrow ncol pos_row pos_col ->
    interpolate1 one flt surface (pos_col, pos_row) =
    Some (f_apply flt (resampling_area one flt surface pos_row pos_col) (fractional one pos_row) (fractional one pos_col)).
  Proof.
    intros W. unfold interpolate1. destruct (area_rect _ _ W) as [L F]. rewrite L, Nat.eqb_refl. simpl.
    assert (E : forallb (fun line => (length line =? f_size flt)%nat) (resampling_area one flt surface pos_row pos_col) = true).
    { apply forallb_forall. intros x Hx. apply Nat.eqb_eq. rewrite Forall_forall in F. auto. }
    rewrite E. reflexivity.
  Qed.
End Window.

(** *** Coordinates *)
Lemma searchsorted_index l j v : increasing l -> nth_error l j = Some v -> searchsorted l v = j.
Proof.
  revert j. induction l as [|x l IH]; intros j H E; [destruct j; discriminate|]. simpl. destruct j as [|j].
  - injection E as ->. now rewrite Z.ltb_irrefl.
  - assert (x < v) by (apply (H 0%nat (S j) x v); auto; lia). apply Z.ltb_lt in H0. rewrite H0. f_equal. apply IH; auto.
    intros a b y z Hab Ha Hb. apply (H (S a) (S b)); auto; lia.
Qed.
Lemma index_of_index l j v : increasing l -> nth_error l j = Some v -> index_of l v = Some j.
Proof.
  revert j. induction l as [|x l IH]; intros j H E; [destruct j; discriminate|]. simpl. destruct j as [|j].
  - injection E as ->. now rewrite Z.eqb_refl.
  - assert (x < v) by (apply (H 0%nat (S j) x v); auto; lia). replace (x =? v) with false by (symmetry; apply Z.eqb_neq; lia).
    rewrite (IH j); auto. intros a b y z Hab Ha Hb. apply (H (S a) (S b)); auto; lia.
Qed.
Lemma index_of_some l v j : index_of l v = Some j -> nth_error l j = Some v.
Proof.
  revert j. induction l as [|x l IH]; simpl; intros j; [discriminate|]. destruct (x =? v) eqn:E.
  - intros H. injection H as <-. apply Z.eqb_eq in E. now subst.
  - destruct (index_of l v); simpl; [|discriminate]. intros H. injection H as <-. simpl. auto.
Qed.
Lemma spaced_increasing one subpix l : spaced one subpix l -> increasing l.
Proof.
  intros (step & base & Hs & _ & H) i j x y Hij Hx Hy.
  assert (i < length l)%nat by (apply nth_error_Some; congruence). assert (j < length l)%nat by (apply nth_error_Some; congruence).
  rewrite H in Hx, Hy by auto. injection Hx as <-. injection Hy as <-. nia.
Qed.
Lemma is_invalid_spec invalid x : is_invalid invalid x = true <-> x = invalid.
Proof.
  unfold is_invalid. destruct invalid, x; simpl; split; intros H; try congruence; try reflexivity.
  - apply Z.eqb_eq in H. congruence.
  - injection H as ->. apply Z.eqb_refl.
Qed.
Lemma bit_length_pow2 k : bit_length (2 ^ k) = S k.
Proof.
  unfold bit_length. assert (2 ^ k <> 0)%nat by (apply Nat.pow_nonzero; lia). destruct (2 ^ k)%nat eqn:E; [lia|].
  rewrite <- E. now rewrite Nat.log2_pow2 by lia.
Qed.
