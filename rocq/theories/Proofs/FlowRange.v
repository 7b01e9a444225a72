(** The optical flow refinement: distance to the initial disparities, check of the range. *)
From Coq Require Import ZArith QArith Qabs Qround List Bool Lia Lqa Arith.
From Verif Require Import Base.PyList Base.Arr Base.ZRange Model.CommonModel Model.MatchingCostModel Model.DichotomyModel Model.OpticalFlowModel Spec.OpticalFlowSpec
  Proofs.WtaProofs Proofs.FlowProofs Proofs.FlowWindows Proofs.FlowTheorems.
Import ListNotations.
Open Scope Z_scope.

Lemma above_one_dec m : {above_one m} + {~ above_one m}.
Proof. destruct (ngt1 m) eqn:E; [left; apply ngt1_spec, E|right; intros H; apply ngt1_spec in H; congruence]. Qed.

(** A motion of at most one pixel. *)
Lemma near_step n d m : ~ above_one m -> near (S n) d (nsub d m).
Proof.
  intros H. destruct d as [x|]; [|left; reflexivity]. destruct m as [y|]; [|left; reflexivity]. right. exists x, (x - y)%Q. split; [reflexivity|]. split; [reflexivity|].
  assert (B : (Qabs y <= 1)%Q). { destruct (Qlt_le_dec 1 (Qabs y)) as [L|L]; [exfalso; apply H; exists y; auto|exact L]. }
  assert (E : (x - y - x == - y)%Q) by ring. rewrite E, Qabs_opp. eapply Qle_trans; [exact B|]. change 1%Q with (inject_Z 1). rewrite <- Zle_Qle. lia.
Qed.
Lemma near_refl n d : near n d d.
Proof. destruct d as [x|]; [|left; reflexivity]. right. exists x, x. split; [reflexivity|]. split; [reflexivity|]. assert (E : (x - x == 0)%Q) by ring. rewrite E. change (Qabs 0) with (inject_Z 0). rewrite <- Zle_Qle. lia. Qed.
Lemma within_not_above m : within_one m -> ~ above_one m.
Proof. intros (q & -> & H) (q' & E & H'). injection E as <-. eapply Qlt_irrefl, Qlt_trans; eauto. Qed.
Lemma near_trans n a b c : near 1 a b -> near n b c -> near (S n) a c.
Proof.
  intros [->|(x & y & -> & -> & H)] [->|(x' & z & E & -> & H')]; try (left; reflexivity); [discriminate|]. injection E as <-. right. exists x, z. split; [reflexivity|]. split; [reflexivity|].
  assert (E : (z - x == (y - x) + (z - y))%Q) by ring. rewrite E. eapply Qle_trans; [apply Qabs_triangle|]. replace (Z.of_nat (S n)) with (1 + Z.of_nat n) by lia. rewrite inject_Z_plus.
  apply Qplus_le_compat; auto.
Qed.
Lemma near_moved n d m d' : moved d m d' -> near (S n) d d'.
Proof. intros [[_ ->]|[H ->]]; [apply near_refl|apply near_step, H]. Qed.

Section Drift.
  Context {A : Type}.
  Variable lstsq : list (list A) -> list (list A) -> option (num * num).
  Variable resample : list (list A) -> num -> num -> list (list A).

  Lemma refined_near invalid l n r d d' : refined lstsq resample invalid l n r d d' -> near n (fst d) (fst d') /\ near n (snd d) (snd d').
  Proof.
    induction 1 as [r d|n r drow dcol mcol mrow d' Em Hc Hr _ IH|n r drow dcol mcol mrow drow' dcol' Em H Hr Hc].
    - split; apply near_refl.
    - destruct IH as [I1 I2]. cbn [fst snd] in *. split; (eapply near_trans; [|eassumption]; apply near_step, within_not_above; assumption).
    - split; eapply near_moved; eassumption.
  Qed.
End Drift.

(** *** Check of the range *)
Lemma seq_nth_error n : forall k i, (i < n)%nat -> nth_error (seq k n) i = Some (k + i)%nat.
Proof. induction n as [|n IH]; intros k i Hi; [lia|]. destruct i; simpl; [f_equal; lia|]. rewrite IH by lia. f_equal. lia. Qed.

Lemma put_where_spec cond v (g : arr2 Z) n m delta : rect n m delta -> a2_n0 g = n -> a2_n1 g = m ->
  exists out, put_where cond v g n m delta = Some out /\ rect n m out /\
    forall i j x, (i < n)%nat -> (j < m)%nat -> nth2 delta i j = Some x -> nth2 out i j = Some (if cond x (a2_get g i j) then v else x).
Proof.
  intros [L F] E0 E1. rewrite Forall_forall in F. unfold put_where.
  assert (G : forall i j, (i < n)%nat -> (j < m)%nat -> exists x, nth2 delta i j = Some x /\ grid_at g n m i j = Some (a2_get g i j)).
  { intros i j Hi Hj. destruct (nth_error_some delta i) as [line El]; [lia|]. destruct (nth_error_some line j) as [x Ex]; [rewrite (F line); auto; eapply nth_error_In; eauto|].
    exists x. split; [unfold nth2; rewrite El; exact Ex|]. unfold grid_at, broadcast. rewrite E0, E1, !Nat.eqb_refl. reflexivity. }
  set (f := fun r => map_opt _ _).
  assert (Row : forall i, (i < n)%nat -> exists line, f i = Some line /\ length line = m /\ forall j x, (j < m)%nat -> nth2 delta i j = Some x -> nth_error line j = Some (if cond x (a2_get g i j) then v else x)).
  { intros i Hi. unfold f. set (h := fun c : nat => match nth2 delta i c with Some _ => _ | None => _ end). destruct (map_opt_some h (seq 0 m)) as [line El].
    - intros c Hc. apply in_seq in Hc. unfold h. destruct (G i c) as (x & -> & ->); [auto|lia|discriminate].
    - exists line. split; [exact El|]. destruct (map_opt_nth h (seq 0 m) line El) as [Ll P]. rewrite seq_length in Ll. split; [exact Ll|].
      intros j x Hj Hx. destruct (P j j) as (y & Ey & Ny); [apply (seq_nth_error m 0 j Hj)|]. rewrite Ny. rewrite <- Ey. unfold h. destruct (G i j Hi Hj) as (x' & Ex' & ->). rewrite Hx. reflexivity. }
  destruct (map_opt_some f (seq 0 n)) as [out Eo].
  { intros i Hi. apply in_seq in Hi. destruct (Row i) as (line & -> & _); [lia|discriminate]. }
  exists out. split; [exact Eo|]. destruct (map_opt_nth f (seq 0 n) out Eo) as [Lo P]. rewrite seq_length in Lo. split.
  - split; [exact Lo|]. apply Forall_forall. intros line Hl. apply In_nth_error in Hl. destruct Hl as [i Hi]. assert (Hin : (i < n)%nat) by (rewrite <- Lo; apply nth_error_Some; congruence).
    destruct (P i i) as (y & Ey & Ny); [apply (seq_nth_error n 0 i Hin)|]. destruct (Row i Hin) as (line' & El & Ll & _). congruence.
  - intros i j x Hi Hj Hx. destruct (P i i) as (y & Ey & Ny); [apply (seq_nth_error n 0 i Hi)|]. destruct (Row i Hi) as (line & El & _ & Q). rewrite El in Ey. injection Ey as <-.
    unfold nth2. rewrite Ny. apply Q; auto.
Qed.

Lemma nle_spec x z : nle x z = true <-> exists q, x = Some q /\ (q <= inject_Z z)%Q.
Proof.
  destruct x as [q|]; cbn [nle].
  - rewrite Qle_bool_iff. split; [intros H; exists q; auto|intros (q' & E & H); injection E as <-; exact H].
  - split; [discriminate|intros (q & E & _); discriminate].
Qed.
Lemma nge_spec x z : nge x z = true <-> exists q, x = Some q /\ (inject_Z z <= q)%Q.
Proof.
  destruct x as [q|]; cbn [nge].
  - rewrite Qle_bool_iff. split; [intros H; exists q; auto|intros (q' & E & H); injection E as <-; exact H].
  - split; [discriminate|intros (q & E & _); discriminate].
Qed.

Lemma invalid_out_of_grid_spec invalid row_step col_step (gmin gmax : arr2 Z) n m delta : rect n m delta ->
  strided_len (a2_n0 gmin) 0 row_step = n -> strided_len (a2_n1 gmin) 0 col_step = m -> strided_len (a2_n0 gmax) 0 row_step = n -> strided_len (a2_n1 gmax) 0 col_step = m ->
  exists out, invalid_out_of_grid invalid row_step col_step gmin gmax n m delta = Some out /\ rect n m out /\
    forall i j x, (i < n)%nat -> (j < m)%nat -> nth2 delta i j = Some x ->
      exists y, nth2 out i j = Some y /\ kept invalid (a2_get gmin (i * row_step) (j * col_step)) (a2_get gmax (i * row_step) (j * col_step)) x y.
Proof.
  intros Rd E1 E2 E3 E4. unfold invalid_out_of_grid.
  destruct (put_where_spec nle invalid (stride2 row_step col_step gmin) n m delta Rd E1 E2) as (d1 & -> & R1 & P1). cbn [bind].
  destruct (put_where_spec nge invalid (stride2 row_step col_step gmax) n m d1 R1 E3 E4) as (d2 & -> & R2 & P2).
  exists d2. split; [reflexivity|]. split; [exact R2|]. intros i j x Hi Hj Hx. specialize (P1 i j x Hi Hj Hx). cbn [stride2 a2_get] in P1, P2.
  specialize (P2 i j _ Hi Hj P1). eexists. split; [exact P2|].
  set (lo := a2_get gmin _ _) in *. set (hi := a2_get gmax _ _) in *. clearbody lo hi. clear -x.
  destruct (nle x lo) eqn:El.
  - right. right. apply nle_spec in El. destruct El as (q & -> & Hq). split; [exists q; auto|]. destruct (nge invalid hi); reflexivity.
  - destruct (nge x hi) eqn:Eh.
    + right. right. apply nge_spec in Eh. destruct Eh as (q & -> & Hq). split; [exists q; auto|reflexivity].
    + destruct x as [q|]; [right; left|left; auto]. split; [|reflexivity]. exists q. split; [reflexivity|].
      split; apply Qnot_le_lt; intros H; [assert (nle (Some q) lo = true) by (apply nle_spec; exists q; auto)|assert (nge (Some q) hi = true) by (apply nge_spec; exists q; auto)]; congruence.
Qed.

(** ROI: points of an axis far enough from its ends. *)
Lemma get_coordinates_interior M first last c0 c1 step h b k x : 1 <= step -> 0 <= Z.of_nat h -> first = c0 - M -> last = c1 + M -> c0 <= c1 ->
  Z.of_nat h * step <= M -> border h step b -> nth_error (get_coordinates M first last step) k = Some x -> c0 <= x <= c1 ->
  (b <= k < length (get_coordinates M first last step) - b)%nat.
Proof.
  intros Hs Hh -> -> Hc HM [B1 B2] Hk Hx. unfold get_coordinates in *.
  assert (Mm := Z.mod_pos_bound M step ltac:(lia)). assert (Md := Z.div_mod M step ltac:(lia)).
  set (s := if M mod step =? 0 then c0 - M else c0 - M + M mod step) in *.
  assert (Es : s = c0 - step * (M / step)). { unfold s. destruct (Z.eqb_spec (M mod step) 0); lia. }
  clearbody s. assert (Hkl : (k < length (zarange s (c1 + M + 1) step))%nat) by (apply nth_error_Some; congruence).
  apply zarange_nth in Hk; [|lia]. destruct Hk as [-> Hlt]. rewrite zarange_length in *.
  assert (Bh : Z.of_nat b <= Z.of_nat h) by nia.
  assert (Hd : Z.of_nat h <= M / step) by (apply Z.div_le_lower_bound; lia).
  split; [nia|].
  assert (Q : Z.of_nat k + Z.of_nat b < (c1 + M + 1 - s + step - 1) / step).
  { apply Z.lt_le_trans with (Z.of_nat k + Z.of_nat b + 1); [lia|]. apply Z.div_le_lower_bound; [lia|]. nia. }
  lia.
Qed.
