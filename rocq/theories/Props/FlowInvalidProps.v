(** C59: for which invalid values the invalid pixels stay invalid. *)
From Coq Require Import ZArith QArith Qabs List Bool Lia Lqa Arith.
From Verif Require Import Base.Ext Base.PyList Base.Arr Base.ZRange Model.DisparityModel Model.CommonModel Model.MatchingCostModel Model.DichotomyModel
  Model.OpticalFlowModel Spec.OpticalFlowSpec Spec.FlowInvalidSpec Props.OpticalFlowProps.
Import ListNotations.
Open Scope Z_scope.

(** A point of the range, not [v], at less than [n] of [v]. *)
Lemma pick (lo hi v n : Q) : (1 <= n)%Q -> (lo < hi)%Q -> (lo < v + n)%Q -> (v - n < hi)%Q ->
  exists x, (lo < x)%Q /\ (x < hi)%Q /\ (v - n < x)%Q /\ (x < v + n)%Q /\ ~ (x == v)%Q.
Proof.
  intros Hn H1 H2 H3.
  assert (B : exists L U, (L < U)%Q /\ (lo <= L)%Q /\ (U <= hi)%Q /\ (v - n <= L)%Q /\ (U <= v + n)%Q).
  { destruct (Qlt_le_dec lo (v - n)) as [A|A], (Qlt_le_dec hi (v + n)) as [B|B].
    - exists (v - n)%Q, hi. repeat split; lra.
    - exists (v - n)%Q, (v + n)%Q. repeat split; lra.
    - exists lo, hi. repeat split; lra.
    - exists lo, (v + n)%Q. repeat split; lra. }
  destruct B as (L & U & H & A1 & A2 & A3 & A4).
  destruct (Qeq_dec ((1#2) * (L + U)) v) as [E|E].
  - exists ((1#4) * L + (3#4) * U)%Q. repeat split; try lra.
  - exists ((1#2) * (L + U))%Q. repeat split; try lra; exact E.
Qed.

(** The same motion at every iteration. *)
Lemma refined_constant {A} (resample : list (list A) -> num -> num -> list (list A)) (mo : Q) invalid l n : (Qabs mo < 1)%Q ->
  forall r d d', refined (fun _ _ => Some (Some mo, Some mo)) resample invalid l n r d d' -> forall x y, d = (Some x, Some y) ->
  exists x' y', d' = (Some x', Some y') /\ (x' == x - inject_Z (Z.of_nat n) * mo)%Q /\ (y' == y - inject_Z (Z.of_nat n) * mo)%Q.
Proof.
  intros Hm r d d' H. induction H as [r d|n r drow dcol mcol mrow d' Hmo W1 W2 H IH|n r drow dcol mcol mrow drow' dcol' Hmo N M1 M2]; intros x y E.
  - exists x, y. split; [exact E|]. change (inject_Z (Z.of_nat 0)) with 0%Q. split; lra.
  - unfold motion in Hmo. injection Hmo as <- <-. injection E as -> ->. destruct (IH (x - mo)%Q (y - mo)%Q eq_refl) as (x' & y' & -> & P1 & P2).
    exists x', y'. split; [reflexivity|]. rewrite Nat2Z.inj_succ, <- Z.add_1_l, inject_Z_plus. change (inject_Z 1) with 1%Q. split; [rewrite P1 | rewrite P2]; ring.
  - exfalso. apply N. unfold motion in Hmo. injection Hmo as <- <-. split; exists mo; auto.
Qed.

(** * C59: the invalid pixels always stay invalid exactly when no value of the range is at less than one pixel per iteration of the invalid value *)
Theorem C59_exact v iterations lo hi : (1 <= iterations)%nat ->
  (stays_invalid v iterations lo hi <->
   hi <= lo \/ (v + inject_Z (Z.of_nat iterations) <= inject_Z lo)%Q \/ (inject_Z hi <= v - inject_Z (Z.of_nat iterations))%Q).
Proof.
  intros Hit. split.
  - intros S. destruct (Z_le_gt_dec hi lo) as [A|A]; [now left|]. right.
    destruct (Qlt_le_dec (inject_Z lo) (v + inject_Z (Z.of_nat iterations))) as [B|B]; [|now left]. right.
    destruct (Qlt_le_dec (v - inject_Z (Z.of_nat iterations)) (inject_Z hi)) as [C|C]; [|exact C]. exfalso.
    assert (Hn : (1 <= inject_Z (Z.of_nat iterations))%Q) by (change 1%Q with (inject_Z 1); rewrite <- Zle_Qle; lia).
    assert (Hlh : (inject_Z lo < inject_Z hi)%Q) by (rewrite <- Zlt_Qlt; lia).
    destruct (pick _ _ _ _ Hn Hlh B C) as (x & X1 & X2 & X3 & X4 & X5). set (N := inject_Z (Z.of_nat iterations)) in *.
    set (mo := ((v - x) / N)%Q). assert (EN : (N * mo == v - x)%Q) by (unfold mo; field; lra).
    assert (Hmo : (Qabs mo < 1)%Q).
    { apply Qabs_Qlt_condition. split; nra. }
    set (map_ := repeat (repeat (Some v) 5) 5).
    set (g := mkGrids2 (const_grid 5 5 lo) (const_grid 5 5 hi) (const_grid 5 5 lo) (const_grid 5 5 hi)).
    assert (I : flow_inputs (2 * 1 + 1) 1 1 0 0 (Z.of_nat 1) (Z.of_nat 1) 5 5 1 1 left_ex right_ex map_ map_).
    { constructor; try reflexivity; try lia; try (unfold border; lia); try (split; [reflexivity|repeat constructor]); simpl; try lia. split; (split; [reflexivity|repeat constructor]). }
    assert (G : grids_of (i_nrow left_ex) (i_ncol left_ex) g) by (repeat constructor).
    destruct (C32_checked 0 (fun _ _ => Some (Some mo, Some mo)) (fun w _ _ => w) (fun _ => []) 1 iterations 1 0 0 1 1 5 5 1 1 left_ex right_ex map_ map_ (Some v) g I eq_refl eq_refl G)
      as (oc & orow & E & _ & _ & P).
    assert (Hv : nth2 map_ 2 2 = Some (Some v)) by reflexivity.
    destruct (S 0 (fun _ _ => Some (Some mo, Some mo)) (fun w _ _ => w) (fun _ => []) 1%nat 1 0 0 1%nat 1%nat 5%nat 5%nat 1%nat 1%nat left_ex right_ex map_ map_ g oc orow 2%nat 2%nat (Some v) (Some v)
      I eq_refl eq_refl G E ltac:(lia) ltac:(lia) Hv Hv) as [Keep _].
    specialize (Keep eq_refl eq_refl eq_refl).
    destruct (P 2%nat 2%nat (Some v) (Some v) ltac:(lia) ltac:(lia) Hv Hv) as (a & b & dr & dc & Na & Nb & Ka & _ & [(O & _)|(_ & _ & l & r & sr & sc & _ & _ & _ & _ & _ & _ & Rf)]); [lia|].
    destruct (refined_constant _ mo _ _ _ Hmo _ _ _ Rf v v eq_refl) as (a' & b' & Eab & Ea & _). injection Eab as -> ->. fold N in Ea. rewrite EN in Ea.
    change (a2_get (g_row_min g) (2 * 1) (2 * 1)) with lo in Ka. change (a2_get (g_row_max g) (2 * 1) (2 * 1)) with hi in Ka.
    destruct Ka as [[Ka _]|[[_ Ka]|[(y & Ey & Ky) _]]]; [discriminate| |injection Ey as <-; destruct Ky; lra].
    subst dr. rewrite Na in Keep. destruct Keep as [Keep|Keep]; [|discriminate]. injection Keep as Keep. subst a'. apply X5. lra.
  - intros C nan lstsq resample junk h offset first_row first_col row_step col_step n m b_row b_col left right col_map row_map g out_col out_row i j drow dcol I Hn Hm G E Hi Hj Hr Hc at_pixel.
    destruct (C31_range nan lstsq resample junk h iterations offset first_row first_col row_step col_step n m b_row b_col left right col_map row_map (Some v) g I Hn Hm G) as (oc & orow & E' & _ & _ & P).
    rewrite E in E'. injection E' as <- <-. destruct (P i j drow dcol Hi Hj Hr Hc) as (a & b & Na & Nb & Ka & Kb). fold (at_pixel (g_row_min g)) (at_pixel (g_row_max g)) in Ka.
    fold (at_pixel (g_col_min g)) (at_pixel (g_col_max g)) in Kb.
    assert (Far : forall d', strictly_inside lo hi d' -> near iterations (Some v) d' -> False).
    { intros d' (x & -> & X1 & X2) [K|(p & q & Ep & Eq & K)]; [discriminate|]. injection Ep as <-. injection Eq as <-. apply Qabs_Qle_condition in K. destruct K as [K1 K2].
      destruct C as [C|[C|C]]; [|lra|lra]. rewrite Zle_Qle in C. lra. }
    split; intros -> L H; rewrite L, H in *.
    + rewrite Na. destruct Ka as [->|[->|[K1 K2]]]; auto. exfalso. eauto.
    + rewrite Nb. destruct Kb as [->|[->|[K1 K2]]]; auto. exfalso. eauto.
Qed.
(** The default invalid value with the default number of iterations: safe for the ranges above -9995; an invalid value of -5 is not with a range that begins at -2. *)
Example C59_exact_example : stays_invalid (-9999#1) 4 (-9995) 10 /\ ~ stays_invalid (-9999#1) 4 (-9996) 10 /\ ~ stays_invalid (-5#1) 4 (-2) 2.
Proof.
  rewrite !C59_exact by lia. split; [right; left; vm_compute; discriminate|]. split; (intros [H|[H|H]]; [lia | vm_compute in H; apply H; reflexivity | vm_compute in H; apply H; reflexivity]).
Qed.

Print Assumptions C59_exact.
