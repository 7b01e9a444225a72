(** Proofs about the search of the dichotomy: the nine candidates of every iteration. *)
From Coq Require Import ZArith List Bool Lia Arith Znumtheory.
From Verif Require Import Base.Ext Base.PyList Base.Arr Model.CommonModel Model.DisparityModel Model.DichotomyModel
  Spec.WtaSpec Spec.DichotomySpec Spec.HalvingSpec Proofs.ChunkProofs Proofs.WtaProofs Proofs.DichotomyProofs Proofs.DichotomyTheorems.
Import ListNotations.
Open Scope Z_scope.

Lemma nine_cases (P : Z -> Z -> Prop) : P (-1) (-1) -> P (-1) 0 -> P (-1) 1 -> P 0 (-1) -> P 0 0 -> P 0 1 -> P 1 (-1) -> P 1 0 -> P 1 1 -> forall a b, direction a b -> P a b.
Proof.
  intros. destruct H8 as [A B]. assert (a = -1 \/ a = 0 \/ a = 1) as [-> | [-> | ->]] by lia; assert (b = -1 \/ b = 0 \/ b = 1) as [-> | [-> | ->]] by lia; auto.
Qed.

(** Place of a candidate in the list. *)
Definition place (a b : Z) : nat := Z.to_nat (3 * (a + 1) + (b + 1)).
Lemma place_before a b a' b' : direction a b -> direction a' b' -> before a' b' a b -> (place a' b' < place a b)%nat.
Proof. unfold direction, before, place. lia. Qed.
Lemma place_of n : (n < 9)%nat -> exists a b, direction a b /\ place a b = n.
Proof.
  intros H. do 9 (destruct n as [|n]; [solve [do 2 eexists; split; [|reflexivity]; unfold direction; lia
    | exists (-1), (-1); split; [unfold direction; lia|reflexivity] | exists (-1), 0; split; [unfold direction; lia|reflexivity] | exists (-1), 1; split; [unfold direction; lia|reflexivity]
    | exists 0, (-1); split; [unfold direction; lia|reflexivity] | exists 0, 0; split; [unfold direction; lia|reflexivity] | exists 0, 1; split; [unfold direction; lia|reflexivity]
    | exists 1, (-1); split; [unfold direction; lia|reflexivity] | exists 1, 0; split; [unfold direction; lia|reflexivity] | exists 1, 1; split; [unfold direction; lia|reflexivity]]|]). lia.
Qed.

Lemma all_same_forall l v : In v l -> all_same l = true -> Forall (eq v) l.
Proof.
  destruct l as [|x l]; [intros []|]. cbn [all_same]. intros Hi H. rewrite forallb_forall in H.
  assert (A : forall y, In y l -> y = x).
  { intros y Hy. specialize (H y Hy). destruct x, y; cbn in H; try discriminate; auto. apply Z.eqb_eq in H. now subst. }
  assert (v = x) by (destruct Hi as [->|Hi]; auto). subst v. constructor; auto. apply Forall_forall. intros y Hy. symmetry. auto.
Qed.
Lemma forall_all_same l v : l <> [] -> v <> NaN -> Forall (eq v) l -> all_same l = true.
Proof.
  destruct l as [|x l]; [congruence|]. intros _ N F. inversion F as [|? ? Ex F']. subst x. cbn [all_same]. apply forallb_forall. intros y Hy.
  rewrite Forall_forall in F'. rewrite <- (F' y Hy). destruct v; cbn; auto; try congruence. apply Z.eqb_refl.
Qed.

Section Search.
  Variable one : Z.
  Variable store : ext -> ext.
  Variable flt : filter.
  Variable t : measure.
  Variable subpix : Z.
  Variable surface : list (list ext).

  (** The chosen index, completely. *)
  Lemma nanarg_first l b x : np_nanarg t l = Some b -> In x l -> x <> NaN -> x <> worst_cost t ->
    exists m, nth_error l b = Some m /\ m <> NaN /\ m <> worst_cost t /\ (forall y, In y l -> y = NaN \/ at_least_as_good t m y) /\ (forall k, (k < b)%nat -> nth_error l k <> Some m).
  Proof.
    unfold np_nanarg. destruct (forallb ext_isnan l); try discriminate. intros E Hin Hx Hw.
    destruct (np_arg_spec t (map (fill_nan t) l)) as (i & m & E1 & E2 & E3 & E4).
    - destruct l; [destruct Hin|discriminate].
    - intros y Hy. apply in_map_iff in Hy. destruct Hy as (z & <- & _). unfold fill_nan, worst. destruct z, t; cbn; discriminate.
    - assert (i = b) by congruence. subst i. rewrite nth_error_map in E2.
      destruct (nth_error l b) as [z|] eqn:Ez; simpl in E2; [|discriminate]. injection E2 as E2.
      assert (Fx : forall y, y <> NaN -> fill_nan t y = y) by (intros y Hy; destruct y; try reflexivity; congruence).
      assert (G : at_least_as_good t m x).
      { apply E3. apply in_map_iff. exists x. auto. }
      assert (Wm : m <> worst_cost t).
      { intros ->. unfold worst_cost in *. destruct t, x; cbn in G; try discriminate; congruence. }
      assert (Nm : m <> NaN).
      { intros ->. destruct t, x; cbn in G; discriminate. }
      assert (z = m).
      { destruct z; auto. exfalso. unfold fill_nan, worst in E2. cbn [ext_isnan] in E2. subst m. unfold worst_cost in Wm. destruct t; congruence. }
      subst z. exists m. split; auto. split; auto. split; auto. split.
      + intros y Hy. destruct (ext_eq_dec y NaN) as [|Ny]; [auto|right]. apply E3. apply in_map_iff. exists y. auto.
      + intros k Hk C. apply (E4 k Hk). rewrite nth_error_map, C. cbn [option_map]. now rewrite Fx.
  Qed.

  (** Value around a point. *)
  Definition around (p : point) (row col : Z) : option ext :=
    interpolate1 one flt surface (pt_pos_row p + (row - pt_row p) * subpix, pt_pos_col p + (col - pt_col p) * subpix).

  Lemma search_kept precision p p' : pt_value p <> NaN -> pt_value p <> worst_cost t ->
    search_new_best_point one store flt t subpix surface precision p = Some p' ->
    exists a b v, kept t (around p) precision (pt_row p) (pt_col p) (pt_value p) a b v /\ v <> worst_cost t /\
      p' = mkPoint (a * precision * subpix + pt_pos_row p) (b * precision * subpix + pt_pos_col p) (a * precision + pt_row p) (b * precision + pt_col p) (store v).
  Proof.
    intros N W. unfold search_new_best_point. cbv zeta. unfold row_shifts, col_shifts. cbn [map combine].
    destruct (map_opt _ _) as [inter|] eqn:E; [|discriminate].
    apply map_opt9 in E. destruct E as (b0 & b1 & b2 & b3 & b4 & b5 & b6 & b7 & b8 & -> & H0 & H1 & H2 & H3 & H4 & H5 & H6 & H7 & H8).
    unfold set4. cbn [firstn skipn app].
    set (cands := [b0; b1; b2; b3; pt_value p; b5; b6; b7; b8]).
    assert (Pr : forall a b, direction a b -> proposed (around p) precision (pt_row p) (pt_col p) (pt_value p) a b = nth_error cands (place a b)).
    { unfold proposed, around. apply nine_cases; cbn [Z.eqb andb]; try reflexivity;
        match goal with |- interpolate1 _ _ _ (?a, ?b) = _ => match goal with H : interpolate1 _ _ _ (?u, ?v) = Some _ |- interpolate1 _ _ _ (?a, ?b) = nth_error _ ?n =>
          replace a with u by lia; replace b with v by lia; transitivity (Some (nth n cands NaN)); [exact H | reflexivity] end end. }
    destruct (if all_same cands then Some 4%nat else np_nanarg t cands) as [best|] eqn:Eb; [|discriminate].
    intros E.
    assert (In4 : In (pt_value p) cands) by (unfold cands; cbn; tauto).
    assert (X : exists v, nth_error cands best = Some v /\ v <> NaN /\ v <> worst_cost t /\ (forall y, In y cands -> y = NaN \/ at_least_as_good t v y) /\
      (Forall (eq v) cands /\ best = 4%nat \/ ~ Forall (eq v) cands /\ forall k, (k < best)%nat -> nth_error cands k <> Some v)).
    { destruct (all_same cands) eqn:As.
      - injection Eb as <-. exists (pt_value p). split; [reflexivity|]. split; auto. split; auto. pose proof (all_same_forall cands _ In4 As) as F. split; [|left; auto].
        intros y Hy. rewrite Forall_forall in F. rewrite <- (F y Hy). right. now apply good_refl.
      - destruct (nanarg_first cands best _ Eb In4 N W) as (m & M1 & M2 & M3 & M4 & M5). exists m. do 4 (split; auto). right. split; auto.
        intros F. rewrite (forall_all_same cands m) in As; auto; [discriminate|]. unfold cands. discriminate. }
    destruct X as (v & Ev & Nv & Wv & Gv & Fv).
    assert (Lb : (best < 9)%nat) by (change 9%nat with (length cands); apply nth_error_Some; congruence).
    destruct (place_of best Lb) as (a & b & Dab & Pab). exists a, b, v. split; [|split; auto].
    - split; auto. split; [rewrite Pr, Pab by auto; exact Ev|]. split; auto. split.
      + intros a' b' D'. rewrite Pr by auto. destruct (nth_error cands (place a' b')) as [v'|] eqn:E'.
        * exists v'. split; auto. apply Gv. eapply nth_error_In; eauto.
        * exfalso. apply nth_error_None in E'. destruct D'. unfold place in E'. change (length cands) with 9%nat in E'. lia.
      + destruct Fv as [[F ->]|[F B]].
        * left. split; [|split; unfold direction, place in *; lia]. intros a' b' D'. rewrite Pr by auto. rewrite Forall_forall in F.
          destruct (nth_error cands (place a' b')) as [v'|] eqn:E'; [f_equal; symmetry; apply F; eapply nth_error_In; eauto|].
          exfalso. apply nth_error_None in E'. destruct D'. unfold place in E'. change (length cands) with 9%nat in E'. lia.
        * right. split.
          -- destruct (Forall_Exists_dec (eq v) (fun y => ext_eq_dec v y) cands) as [F'|Ex]; [contradiction|].
             apply Exists_exists in Ex. destruct Ex as (y & Hy & Ny). apply In_nth_error in Hy. destruct Hy as [n Hn].
             assert (Ln : (n < 9)%nat) by (change 9%nat with (length cands); apply nth_error_Some; congruence).
             destruct (place_of n Ln) as (a' & b' & D' & P'). exists a', b'. split; auto. rewrite Pr, P', Hn by auto. congruence.
          -- intros a' b' D' Bf. rewrite Pr by auto. apply B. rewrite <- Pab. now apply place_before.
    - rewrite <- Pab in Ev, E. clear -Dab Ev E. destruct Dab as [A B].
      assert (a = -1 \/ a = 0 \/ a = 1) as [-> | [-> | ->]] by lia; assert (b = -1 \/ b = 0 \/ b = 1) as [-> | [-> | ->]] by lia;
        match type of E with context [place ?a ?b] => let n := eval vm_compute in (place a b) in change (place a b) with n in E, Ev end;
        cbn [nth_error] in E; unfold cands in Ev; cbn [nth_error] in Ev; injection Ev as <-; injection E as <-; reflexivity.
  Qed.

  Lemma search_halving precisions p p' : rounding store -> pt_value p <> NaN -> pt_value p <> worst_cost t -> store (pt_value p) = pt_value p ->
    search_all one store flt t subpix surface precisions p = Some p' ->
    halving store t (around p) precisions (pt_row p) (pt_col p) (pt_value p) (pt_row p') (pt_col p') (pt_value p').
  Proof.
    intros R. revert p. induction precisions as [|pr ps IH]; cbn [search_all]; intros p N W S E.
    - injection E as <-. constructor.
    - destruct (search_new_best_point _ _ _ _ _ _ _ _) as [q|] eqn:Eq; [|discriminate].
      destruct (search_kept _ _ _ N W Eq) as (a & b & v & K & Wv & ->).
      assert (Good : at_least_as_good t v (pt_value p)).
      { destruct K as (_ & _ & _ & K & _). destruct (K 0 0) as (v' & Hv & G); [unfold direction; lia|]. cbn in Hv. injection Hv as <-. destruct G; [congruence|auto]. }
      assert (Gs : at_least_as_good t (store v) (pt_value p)) by (rewrite <- S; apply good_store; auto).
      apply IH in E; cbn [pt_value pt_row pt_col] in *.
      + apply (halving_next _ _ _ _ _ _ _ _ a b v); auto.
        rewrite (Z.add_comm (pt_row p)), (Z.add_comm (pt_col p)).
        assert (Q : forall u w, around (mkPoint (a * pr * subpix + pt_pos_row p) (b * pr * subpix + pt_pos_col p) (a * pr + pt_row p) (b * pr + pt_col p) (store v)) u w = around p u w).
        { intros. unfold around. cbn [pt_pos_row pt_pos_col pt_row pt_col]. do 2 f_equal; lia. }
        clear -E Q. revert E. generalize (around (mkPoint (a * pr * subpix + pt_pos_row p) (b * pr * subpix + pt_pos_col p) (a * pr + pt_row p) (b * pr + pt_col p) (store v))) (around p) Q.
        intros f h Q'. generalize (a * pr + pt_row p) (b * pr + pt_col p) (store v) (pt_row p') (pt_col p') (pt_value p').
        clear -Q'. induction 1; [constructor|]. apply (halving_next _ _ _ _ _ _ _ _ a b v); auto.
        destruct H as (K1 & K2 & K3 & K4 & K5).
        assert (P : forall a b, proposed h precision row col s a b = proposed f precision row col s a b) by (intros; unfold proposed; now rewrite Q').
        split; auto. rewrite P. split; auto. split; auto. split; [intros; rewrite P; auto|]. destruct K5 as [(K5 & K6)|((a' & b' & K5 & K6) & K7)]; [left|right].
        * split; auto. intros; rewrite P; auto.
        * split; [exists a', b'; rewrite P; auto|]. intros; rewrite P; auto.
      + intros C. rewrite C in Gs. destruct t, (pt_value p); cbn in Gs; discriminate.
      + intros C. rewrite C in Gs. destruct t, (pt_value p); cbn in *; congruence.
      + apply R.
  Qed.
End Search.

(** The search has one result. *)
Lemma kept_unique t value precision row col s a b v a' b' v' : kept t value precision row col s a b v -> kept t value precision row col s a' b' v' -> a = a' /\ b = b' /\ v = v'.
Proof.
  intros (D & P & N & G & F) (D' & P' & N' & G' & F').
  assert (v = v').
  { destruct (G a' b' D') as (w & Hw & O). destruct (G' a b D) as (w' & Hw' & O'). assert (w = v') by congruence. assert (w' = v) by congruence. subst w w'.
    destruct O as [|O]; [congruence|]. destruct O' as [|O']; [congruence|]. destruct t, v, v'; cbn in O, O'; try discriminate; try congruence; f_equal; apply Z.leb_le in O, O'; lia. }
  subst v'. destruct F as [(F & -> & ->)|((u & w & Du & Fu) & F)], F' as [(F' & -> & ->)|((u' & w' & Du' & Fu') & F')]; auto; try (exfalso; apply Fu; now apply F'); try (exfalso; apply Fu'; now apply F).
  assert (C : (a = a' /\ b = b') \/ before a b a' b' \/ before a' b' a b) by (unfold before; lia).
  destruct C as [[-> ->]|[C|C]]; auto; exfalso; [apply (F' a b D C P)|apply (F a' b' D' C P')].
Qed.
Lemma halving_unique store t value precisions row col s r1 c1 s1 r2 c2 s2 : halving store t value precisions row col s r1 c1 s1 -> halving store t value precisions row col s r2 c2 s2 ->
  r1 = r2 /\ c1 = c2 /\ s1 = s2.
Proof.
  intros H. revert r2 c2 s2. induction H; intros r2 c2 s2 H'; inversion H'; subst; auto.
  match goal with A : kept _ _ _ _ _ _ _ _ _, B : kept _ _ _ _ _ _ _ _ _ |- _ => destruct (kept_unique _ _ _ _ _ _ _ _ _ _ _ _ A B) as (<- & <- & <-) end. auto.
Qed.

(** ** Costs that are a sum of a function of the row disparity and of a function of the column disparity *)
Lemma closer t f goal p row a : towards t f goal -> 0 <= p -> Z.abs (row - goal) <= 2 * p -> -1 <= a <= 1 ->
  (forall a', -1 <= a' <= 1 -> match t with MeasureMin => f (row + a * p) <= f (row + a' * p) | MeasureMax => f (row + a' * p) <= f (row + a * p) end) ->
  Z.abs (row + a * p - goal) <= p.
Proof.
  intros T P B A H. destruct (Z_le_gt_dec (Z.abs (row + a * p - goal)) p) as [|Gt]; auto. exfalso.
  assert (C : a = -1 \/ a = 0 \/ a = 1) by lia.
  pose proof (H (-1) ltac:(lia)) as Hm. pose proof (H 0 ltac:(lia)) as H0. pose proof (H 1 ltac:(lia)) as Hp.
  rewrite ?Z.mul_0_l, ?Z.mul_1_l, ?Z.add_0_r in *. replace (-1 * p) with (- p) in Hm by lia.
  destruct C as [-> | [-> | ->]]; rewrite ?Z.mul_0_l, ?Z.mul_1_l, ?Z.add_0_r in *; try replace (-1 * p) with (- p) in * by lia.
  - (* - p : the goal is above row *) pose proof (T row (row + - p)) as T1. destruct t; lia.
  - destruct (Z_lt_le_dec row goal).
    + pose proof (T (row + p) row) as T1. destruct t; lia.
    + pose proof (T (row + - p) row) as T1. destruct t; lia.
  - pose proof (T row (row + p)) as T1. destruct t; lia.
Qed.

Lemma unit_move a p : 0 <= p -> -1 <= a <= 1 -> Z.abs (a * p) <= p.
Proof. intros P A. assert (a = -1 \/ a = 0 \/ a = 1) as [-> | [-> | ->]] by lia; lia. Qed.

Lemma halving_precise one store t value f g goal_row goal_col k n row0 col0 (subpix : nat) : 0 < one -> (2 ^ Z.of_nat n | one) -> subpix = (2 ^ k)%nat ->
  sum_resampled one subpix n value row0 col0 f g -> towards t f goal_row -> towards t g goal_col -> (forall u v, store (Fin (f u + g v)) = Fin (f u + g v)) ->
  forall len first row col row' col' s', (1 <= first)%nat -> (k < first)%nat -> (first + len <= S n)%nat ->
  halving store t value (map (fun it => one / 2 ^ Z.of_nat it) (seq first len)) row col (Fin (f row + g col)) row' col' s' ->
  Z.abs (row - row0) + one / 2 ^ Z.of_nat (pred first) <= one / 2 ^ Z.of_nat k -> Z.abs (col - col0) + one / 2 ^ Z.of_nat (pred first) <= one / 2 ^ Z.of_nat k ->
  (one / 2 ^ Z.of_nat n | row - row0) -> (one / 2 ^ Z.of_nat n | col - col0) ->
  Z.abs (row - goal_row) <= one / 2 ^ Z.of_nat (pred first) -> Z.abs (col - goal_col) <= one / 2 ^ Z.of_nat (pred first) ->
  Z.abs (row' - goal_row) <= one / 2 ^ Z.of_nat (pred (first + len)) /\ Z.abs (col' - goal_col) <= one / 2 ^ Z.of_nat (pred (first + len)) /\ s' = Fin (f row' + g col').
Proof.
  intros H1 D Sk Sr Tf Tg St. induction len as [|len IH]; intros first row col row' col' s' Hf Hk Hl E Br Bc Dr Dc Gr Gc.
  - cbn [seq map] in E. inversion E; subst. rewrite Nat.add_0_r. auto.
  - cbn [seq map] in E. inversion E as [|? ? ? ? ? a b v ? ? ? K E']; subst.
    remember (one / 2 ^ Z.of_nat first) as p eqn:Ep.
    assert (Q1 : p = 2 ^ Z.of_nat (n - first) * (one / 2 ^ Z.of_nat n)) by (rewrite Ep; apply pow2_div; auto; lia).
    assert (Q2 : one / 2 ^ Z.of_nat (pred first) = 2 * p).
    { rewrite (pow2_div one n (pred first)), Q1 by (auto; lia). replace (n - pred first)%nat with (S (n - first)) by lia.
      rewrite Nat2Z.inj_succ, Z.pow_succ_r by lia. lia. }
    assert (Q0 : one / 2 ^ Z.of_nat k = 2 ^ Z.of_nat (n - k) * (one / 2 ^ Z.of_nat n)) by (apply pow2_div; auto; lia).
    assert (U : 0 < one / 2 ^ Z.of_nat n).
    { destruct D as [q Hq]. assert (0 < 2 ^ Z.of_nat n) by (apply Z.pow_pos_nonneg; lia). rewrite Hq, Z.div_mul by lia. nia. }
    assert (Pp : 0 < p) by (rewrite Q1; apply Z.mul_pos_pos; [apply Z.pow_pos_nonneg; lia|auto]).
    assert (Es : Z.of_nat (2 ^ k) * (one / 2 ^ Z.of_nat k) = one).
    { rewrite Nat2Z.inj_pow. change (Z.of_nat 2) with 2. assert (Dk : (2 ^ Z.of_nat k | one)).
      { apply (Z.divide_trans _ (2 ^ Z.of_nat n)); auto. exists (2 ^ Z.of_nat (n - k)). rewrite <- Z.pow_add_r by lia. f_equal. lia. }
      destruct Dk as [q Hq]. rewrite Hq, Z.div_mul by (apply Z.pow_nonzero; lia). lia. }
    assert (P2k : 0 < Z.of_nat (2 ^ k)) by (rewrite Nat2Z.inj_pow; apply Z.pow_pos_nonneg; lia).
    rewrite Q2 in Br, Bc, Gr, Gc.
    assert (Pv : forall a b, direction a b -> proposed value p row col (Fin (f row + g col)) a b = Some (Fin (f (row + a * p) + g (col + b * p)))).
    { intros a' b' [Ha Hb]. unfold proposed. destruct ((a' =? 0) && (b' =? 0)) eqn:Z0.
      - apply andb_true_iff in Z0. destruct Z0 as [Za Zb]. apply Z.eqb_eq in Za, Zb. subst. rewrite !Z.mul_0_l, !Z.add_0_r. reflexivity.
      - apply Sr.
        + apply (Z.lt_le_trans _ (one / 2 ^ Z.of_nat k * Z.of_nat (2 ^ k))); [|lia]. apply Z.mul_lt_mono_pos_r; auto. pose proof (unit_move a' p (Z.lt_le_incl _ _ Pp) Ha) as M. clear -Br M Pp. lia.
        + apply (Z.lt_le_trans _ (one / 2 ^ Z.of_nat k * Z.of_nat (2 ^ k))); [|lia]. apply Z.mul_lt_mono_pos_r; auto. pose proof (unit_move b' p (Z.lt_le_incl _ _ Pp) Hb) as M. clear -Bc M Pp. lia.
        + replace (row + a' * p - row0) with ((row - row0) + a' * 2 ^ Z.of_nat (n - first) * (one / 2 ^ Z.of_nat n)) by (rewrite Q1; ring). apply Z.divide_add_r; auto. apply Z.divide_factor_r.
        + replace (col + b' * p - col0) with ((col - col0) + b' * 2 ^ Z.of_nat (n - first) * (one / 2 ^ Z.of_nat n)) by (rewrite Q1; ring). apply Z.divide_add_r; auto. apply Z.divide_factor_r. }
    destruct K as (Dab & Kv & _ & Kb & _). rewrite (Pv a b Dab) in Kv. injection Kv as <-. rewrite St in E'.
    assert (Cmp : forall a' b', direction a' b' -> match t with MeasureMin => f (row + a * p) + g (col + b * p) <= f (row + a' * p) + g (col + b' * p)
      | MeasureMax => f (row + a' * p) + g (col + b' * p) <= f (row + a * p) + g (col + b * p) end).
    { intros a' b' D'. destruct (Kb a' b' D') as (v' & Hv & G). rewrite (Pv a' b' D') in Hv. injection Hv as <-. destruct G as [G|G]; [discriminate|]. destruct t; cbn in G; apply Z.leb_le in G; exact G. }
    destruct Dab as [Da Db].
    assert (Cr : Z.abs (row + a * p - goal_row) <= p).
    { apply (closer t f); auto; try lia. intros a' Ha'. specialize (Cmp a' b (conj Ha' Db)). destruct t; lia. }
    assert (Cc : Z.abs (col + b * p - goal_col) <= p).
    { apply (closer t g); auto; try lia. intros b' Hb'. specialize (Cmp a b' (conj Da Hb')). destruct t; lia. }
    replace (first + S len)%nat with (S first + len)%nat by lia.
    pose proof (unit_move a p ltac:(lia) Da) as Ma. pose proof (unit_move b p ltac:(lia) Db) as Mb.
    assert (N1 : Z.abs (row + a * p - row0) + p <= one / 2 ^ Z.of_nat k) by (clear -Br Ma; lia).
    assert (N2 : Z.abs (col + b * p - col0) + p <= one / 2 ^ Z.of_nat k) by (clear -Bc Mb; lia).
    assert (N3 : (one / 2 ^ Z.of_nat n | row + a * p - row0)).
    { replace (row + a * p - row0) with ((row - row0) + a * 2 ^ Z.of_nat (n - first) * (one / 2 ^ Z.of_nat n)) by (rewrite Q1; ring). apply Z.divide_add_r; auto. apply Z.divide_factor_r. }
    assert (N4 : (one / 2 ^ Z.of_nat n | col + b * p - col0)).
    { replace (col + b * p - col0) with ((col - col0) + b * 2 ^ Z.of_nat (n - first) * (one / 2 ^ Z.of_nat n)) by (rewrite Q1; ring). apply Z.divide_add_r; auto. apply Z.divide_factor_r. }
    assert (F1 : (1 <= S first)%nat) by (clear; lia). assert (F2 : (k < S first)%nat) by (clear -Hk; lia). assert (F3 : (S first + len <= S n)%nat) by (clear -Hl; lia).
    apply (IH (S first) (row + a * p) (col + b * p) row' col' s' F1 F2 F3 E'); cbn [pred]; rewrite <- ?Ep; assumption.
Qed.

Section Maps.
  Variable one : Z.
  Variable store : ext -> ext.
  Variable flt : filter.
  Variable iterations : nat.
  Variable cv : cost_volumes.
  Variable invalid : ext.
  Variables col_map row_map : list (list ext).
  Variable g : grids.

  (** Cost of the pixel between its samples: (row, col) are the disparities of indices j and i. *)
  Definition cost_between (surface : list (list ext)) (i j : nat) (row col u v : Z) : option ext :=
    interpolate1 one flt surface (Z.of_nat j * one + (u - row) * Z.of_nat (cv_subpix cv), Z.of_nat i * one + (v - col) * Z.of_nat (cv_subpix cv)).

  Lemma halving_theorem mc mr sc r c row col i j x surface k :
    rounding store -> cv_subpix cv = (2 ^ k)%nat -> increasing (cv_disp_col cv) -> increasing (cv_disp_row cv) -> same_shape cv g ->
    refinement_method one store flt iterations cv invalid col_map row_map g = Some (mc, mr, sc) -> (r < cv_nrow cv)%nat -> (c < cv_ncol cv)%nat ->
    matched invalid col_map row_map r c row col -> cost_for cv r c row col i j x -> nth2 (cv_data cv) r c = Some surface ->
    x <> NaN -> x <> worst_cost (cv_measure cv) -> store x = x -> ~ at_an_end row (row_range one g r c) -> ~ at_an_end col (col_range one g r c) ->
    exists row' col' y, nth2 mr r c = Some (Fin row') /\ nth2 mc r c = Some (Fin col') /\ nth2 sc r c = Some y /\
      halving store (cv_measure cv) (cost_between surface i j row col) (map (fun it => one / 2 ^ Z.of_nat it) (seq (S k) (iterations - k))) row col x row' col' y.
  Proof.
    intros R Hk IC IR Sh E Hr Hc M C Sf N W S Er Ec.
    destruct (refinement_nth _ _ _ _ _ _ _ _ _ _ _ _ r c E Hr Hc) as (y & rowv & colv & Ea & E1 & E2 & E3).
    destruct (shapes store cv invalid g r c Sh) as (G1 & G2 & G3 & G4).
    rewrite (refine_at_matched _ _ _ _ _ _ _ _ _ r c row col i j x surface _ _ _ _ IC IR M C Sf G1 G2 G3 G4) in Ea.
    unfold at_an_end, row_range, col_range in Er, Ec. cbn [fst snd] in Er, Ec.
    destruct (ext_isnan x) eqn:Nx; [destruct x; try discriminate; congruence|].
    destruct (_ || _) eqn:B1 in Ea; [exfalso; apply Er; apply orb_true_iff in B1; rewrite !Z.eqb_eq in B1; tauto|].
    destruct (_ || _) eqn:B2 in Ea; [exfalso; apply Ec; apply orb_true_iff in B2; rewrite !Z.eqb_eq in B2; tauto|].
    rewrite (precisions_pow2 one iterations cv k Hk) in Ea.
    destruct (search_all _ _ _ _ _ _ _ _) as [p|] eqn:Es; [|discriminate]. injection Ea as <- <- <-.
    exists (pt_row p), (pt_col p), (pt_value p). split; auto. split; auto. split; auto.
    pose proof (search_halving one store flt (cv_measure cv) (Z.of_nat (cv_subpix cv)) surface _ (mkPoint (Z.of_nat j * one) (Z.of_nat i * one) row col x) _ R N W S Es) as H. cbn [pt_row pt_col pt_value] in H. exact H.
  Qed.

  Lemma next_samples (l : list Z) (rng : Z * Z) v j : 0 < one -> spaced one (cv_subpix cv) l -> In (fst rng) l -> In (snd rng) l -> nth_error l j = Some v -> strictly_in v rng ->
    exists step, 0 < step /\ one = Z.of_nat (cv_subpix cv) * step /\ (exists j', nth_error l j' = Some (v + step)) /\ (exists j', nth_error l j' = Some (v - step)) /\ in_range (v + step) rng /\ in_range (v - step) rng.
  Proof.
    intros P (step & base & P1 & P2 & H) I1 I2 Ej S. exists step. split; auto. split; auto.
    apply In_nth_error in I1, I2. destruct I1 as [a Ha], I2 as [b Hb].
    assert (La : (a < length l)%nat) by (apply nth_error_Some; congruence). assert (Lb : (b < length l)%nat) by (apply nth_error_Some; congruence).
    assert (Lj : (j < length l)%nat) by (apply nth_error_Some; congruence).
    rewrite (H a La) in Ha. rewrite (H b Lb) in Hb. rewrite (H j Lj) in Ej. injection Ha as Ha. injection Hb as Hb. injection Ej as Ej. destruct S as [S1 S2]. rewrite <- Ha in S1. rewrite <- Hb in S2.
    assert (A1 : (a < j)%nat) by nia. assert (A2 : (j < b)%nat) by nia.
    split; [exists (S j); rewrite H by lia; f_equal; nia|]. split; [exists (j - 1)%nat; rewrite H by lia; f_equal; nia|]. unfold in_range. rewrite <- Ha, <- Hb. split; nia.
  Qed.

  Lemma best_close t f goal row step : towards t f goal -> 0 < step ->
    (forall u, u = row + step \/ u = row - step -> match t with MeasureMin => f row <= f u | MeasureMax => f u <= f row end) -> Z.abs (row - goal) < step.
  Proof.
    intros T P H. pose proof (H _ (or_introl eq_refl)) as H1. pose proof (H _ (or_intror eq_refl)) as H2.
    destruct (Z_lt_le_dec (Z.abs (row - goal)) step) as [|L]; auto. exfalso. destruct (Z_lt_le_dec row goal).
    - pose proof (T (row + step) row) as T1. destruct t; lia.
    - pose proof (T (row - step) row) as T1. destruct t; lia.
  Qed.

  Lemma precision_theorem mc mr sc r c row col i j surface k f h goal_row goal_col u2 v2 :
    ready one flt iterations cv invalid col_map row_map g -> rounding store -> cv_subpix cv = (2 ^ k)%nat -> (forall u v, store (Fin (f u + h v)) = Fin (f u + h v)) ->
    refinement_method one store flt iterations cv invalid col_map row_map g = Some (mc, mr, sc) -> (r < cv_nrow cv)%nat -> (c < cv_ncol cv)%nat ->
    matched invalid col_map row_map r c row col -> nth_error (cv_disp_col cv) i = Some col -> nth_error (cv_disp_row cv) j = Some row -> nth2 (cv_data cv) r c = Some surface ->
    strictly_in row (row_range one g r c) -> strictly_in col (col_range one g r c) ->
    optimal_pair cv r c (row_range one g r c) (col_range one g r c) row v2 -> optimal_pair cv r c (row_range one g r c) (col_range one g r c) u2 col ->
    sum_sampled cv r c (row_range one g r c) (col_range one g r c) f h -> sum_resampled one (cv_subpix cv) iterations (cost_between surface i j row col) row col f h ->
    towards (cv_measure cv) f goal_row -> towards (cv_measure cv) h goal_col ->
    exists row' col', nth2 mr r c = Some (Fin row') /\ nth2 mc r c = Some (Fin col') /\ nth2 sc r c = Some (Fin (f row' + h col')) /\
      Z.abs (row' - goal_row) * 2 ^ Z.of_nat (Nat.max k iterations) <= one /\ Z.abs (col' - goal_col) * 2 ^ Z.of_nat (Nat.max k iterations) <= one.
  Proof.
    intros Rd R Hk St E Hr Hc M Ei Ej Sf Sr Sc O1 O2 Sm Rs Tf Th.
    pose proof Rd as (H1 & Dv & _ & _ & SC & SR & _ & _ & _ & Sh & Px). destruct (Px r c Hr Hc) as (U1 & U2 & U3 & U4 & _).
    assert (In1 : forall v, user_disparity_row cv v -> In v (cv_disp_row cv)) by (intros v (jj & _ & Hj); eapply nth_error_In; eauto).
    assert (In2 : forall v, user_disparity_col cv v -> In v (cv_disp_col cv)) by (intros v (jj & _ & Hj); eapply nth_error_In; eauto).
    assert (Rw : in_range row (row_range one g r c)) by (unfold strictly_in, in_range in *; lia).
    assert (Cw : in_range col (col_range one g r c)) by (unfold strictly_in, in_range in *; lia).
    assert (Cost : cost_at cv r c i j = Some (Fin (f row + h col))) by (apply Sm; auto).
    destruct (halving_theorem mc mr sc r c row col i j (Fin (f row + h col)) surface k) as (row' & col' & y & N1 & N2 & N3 & Hv); auto.
    { eapply spaced_increasing; eauto. } { eapply spaced_increasing; eauto. } { split; auto. } { discriminate. } { unfold worst_cost. destruct (cv_measure cv); discriminate. }
    { unfold at_an_end, strictly_in in *. lia. } { unfold at_an_end, strictly_in in *. lia. }
    destruct (next_samples (cv_disp_row cv) (row_range one g r c) row j H1 SR (In1 _ U1) (In1 _ U2) Ej Sr) as (step & P1 & P2 & (j1 & J1) & (j2 & J2) & R1 & R2).
    destruct (next_samples (cv_disp_col cv) (col_range one g r c) col i H1 SC (In2 _ U3) (In2 _ U4) Ei Sc) as (step' & P1' & P2' & (i1 & I1) & (i2 & I2) & R1' & R2').
    assert (Gr : Z.abs (row - goal_row) < step).
    { apply (best_close (cv_measure cv) f); auto. destruct O1 as (_ & Rv & iv & jv & xv & (Cv1 & Cv2 & Cv3) & Ov).
      rewrite (Sm row v2 iv jv Rw Rv Cv1 Cv2) in Cv3. injection Cv3 as <-.
      assert (Q : forall u ju, in_range u (row_range one g r c) -> nth_error (cv_disp_row cv) ju = Some u -> match cv_measure cv with MeasureMin => f row <= f u | MeasureMax => f u <= f row end).
      { intros u ju Ru Hu. pose proof (Ov u v2 iv ju (Fin (f u + h v2)) Ru Rv) as O. assert (at_least_as_good (cv_measure cv) (Fin (f row + h v2)) (Fin (f u + h v2))) as G.
        { apply O. split; auto. } destruct (cv_measure cv); cbn in G; apply Z.leb_le in G; lia. }
      intros u [-> | ->]; eapply Q; eauto. }
    assert (Gc : Z.abs (col - goal_col) < step').
    { apply (best_close (cv_measure cv) h); auto. destruct O2 as (Ru & _ & iv & jv & xv & (Cv1 & Cv2 & Cv3) & Ov).
      rewrite (Sm u2 col iv jv Ru Cw Cv1 Cv2) in Cv3. injection Cv3 as <-.
      assert (Q : forall v iw, in_range v (col_range one g r c) -> nth_error (cv_disp_col cv) iw = Some v -> match cv_measure cv with MeasureMin => h col <= h v | MeasureMax => h v <= h col end).
      { intros v iw Rv Hv'. pose proof (Ov u2 v iw jv (Fin (f u2 + h v)) Ru Rv) as O. assert (at_least_as_good (cv_measure cv) (Fin (f u2 + h col)) (Fin (f u2 + h v))) as G.
        { apply O. split; auto. } destruct (cv_measure cv); cbn in G; apply Z.leb_le in G; lia. }
      intros u [-> | ->]; eapply Q; eauto. }
    assert (P2k : 0 < 2 ^ Z.of_nat k) by (apply Z.pow_pos_nonneg; lia).
    rewrite Hk, Nat2Z.inj_pow in P2, P2'. change (Z.of_nat 2) with 2 in P2, P2'.
    assert (step' = step) by nia. subst step'.
    assert (Est : one / 2 ^ Z.of_nat k = step) by (rewrite P2, Z.mul_comm, Z.div_mul; lia).
    exists row', col'. split; auto. split; auto.
    destruct (Nat.le_gt_cases iterations k) as [Le|Gt].
    - replace (iterations - k)%nat with 0%nat in Hv by lia. cbn [seq map] in Hv. inversion Hv; subst. rewrite N3. split; auto. rewrite Nat.max_l by auto. nia.
    - destruct (halving_precise one store (cv_measure cv) (cost_between surface i j row col) f h goal_row goal_col k iterations row col (cv_subpix cv)) with (len := (iterations - k)%nat) (first := S k)
        (row := row) (col := col) (row' := row') (col' := col') (s' := y) as (A & B & ->); auto; cbn [pred]; rewrite ?Est; try lia; try (rewrite Z.sub_diag; first [apply Z.divide_0_r | lia]).
      rewrite Nat.max_r by lia. cbn [pred Nat.add] in A, B. replace (k + (iterations - k))%nat with iterations in A, B by lia.
      assert (Pn : 0 < 2 ^ Z.of_nat iterations) by (apply Z.pow_pos_nonneg; lia). destruct Dv as [q Hq]. rewrite Hq, Z.div_mul in A, B by lia. split; auto. rewrite Hq. nia.
  Qed.
End Maps.
