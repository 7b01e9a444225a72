(** The best disparities only depend on the order of the costs. *)
From Coq Require Import ZArith Lia.
From Verif Require Import Base.Ext Model.DisparityModel Spec.WtaSpec Spec.BestSpec Spec.WholeOrderSpec Proofs.WholeMoreProofs.
Open Scope Z_scope.

Lemma best_order t t' rows cols rows' cols' cost cost' nothing found nothing' found' kr kc :
  moved_by rows rows' kr -> moved_by cols cols' kc -> same_order t t' rows cols cost (fun dr dc => cost' (dr + kr) (dc + kc)) ->
  best t rows cols cost nothing found -> best t' rows' cols' cost' nothing' found' ->
  nothing /\ nothing' /\ (forall dr dc, rows dr -> cols dc -> cost dr dc = NaN) \/ exists dr dc s s', found dr dc s /\ found' (dr + kr) (dc + kc) s' /\ exists a b, rows a /\ cols b /\ cost a b = s /\ cost' (a + kr) (b + kc) = s'.
Proof.
  intros Hr Hc (Hn & Ho) [(N & A)|(dr & dc & s & F & R & C & S & B & (dc1 & C1 & E1) & (dr1 & R1 & E2) & M)] H.
  { destruct H as [(N' & _)|(dr' & dc' & s' & F' & R' & C' & S' & B' & (dc1' & C1' & E1') & _)]; [left; split; [assumption | split; assumption]|]. exfalso. apply S'. rewrite <- E1'.
    replace dr' with (dr' - kr + kr) in * by lia. replace dc1' with (dc1' - kc + kc) in * by lia. apply Hr in R'. apply Hc in C1'. apply (Hn _ _ R' C1'). apply A; assumption. }
  destruct H as [(N' & A')|(dr' & dc' & s' & F' & R' & C' & S' & B' & (dc1' & C1' & E1') & (dr1' & R1' & E2') & M')].
  { exfalso. apply S. rewrite <- E1. apply (Hn _ _ R C1). apply A'; [now apply Hr | now apply Hc]. }
  right.
  assert (Up : forall a b, rows a -> cols b -> cost a b = s -> cost' (a + kr) (b + kc) = s').
  { intros a b Ra Cb E. assert (X : cost' (a + kr) (b + kc) <> NaN) by (intros Y; apply (Hn a b Ra Cb) in Y; congruence).
    apply (good_antisym t'); [exact X | exact S' | | apply B'; [now apply Hr | now apply Hc | exact X]].
    rewrite <- E1' in *. replace dr' with (dr' - kr + kr) in * by lia. replace dc1' with (dc1' - kc + kc) in * by lia. apply Hr in R'. apply Hc in C1'.
    assert (Y : cost (dr' - kr) (dc1' - kc) <> NaN) by (intros Z; apply (Hn _ _ R' C1') in Z; contradiction).
    apply (Ho a b _ _ Ra Cb R' C1'); [congruence | exact Y|]. rewrite E. apply B; assumption. }
  assert (Down : forall a b, rows a -> cols b -> cost' (a + kr) (b + kc) = s' -> cost a b = s).
  { intros a b Ra Cb E. assert (X : cost a b <> NaN) by (intros Y; apply (Hn a b Ra Cb) in Y; congruence).
    apply (good_antisym t); [exact X | exact S | | apply B; assumption]. rewrite <- E1. apply (Ho a b dr dc1 Ra Cb R C1); [exact X | congruence|]. rewrite E. rewrite (Up dr dc1 R C1 E1).
    destruct t', s'; cbn; try congruence; try lia; exact I. }
  assert (dr' = dr + kr) as ->.
  { assert (X := R'). replace dr' with (dr' - kr + kr) in X by lia. apply Hr in X. assert (Y := C1'). replace dc1' with (dc1' - kc + kc) in Y by lia. apply Hc in Y.
    assert (Z : cost (dr' - kr) (dc1' - kc) = s) by (apply Down; [assumption | assumption|]; replace (dr' - kr + kr) with dr' by lia; replace (dc1' - kc + kc) with dc1' by lia; exact E1').
    destruct (M _ _ X Y Z) as [L _]. destruct (M' (dr + kr) (dc1 + kc)) as [L' _]; [now apply Hr | now apply Hc | now apply Up|]. lia. }
  assert (dc' = dc + kc) as ->.
  { assert (X := R1'). replace dr1' with (dr1' - kr + kr) in X by lia. apply Hr in X. assert (Y := C'). replace dc' with (dc' - kc + kc) in Y by lia. apply Hc in Y.
    assert (Z : cost (dr1' - kr) (dc' - kc) = s) by (apply Down; [assumption | assumption|]; replace (dr1' - kr + kr) with dr1' by lia; replace (dc' - kc + kc) with dc' by lia; exact E2').
    destruct (M _ _ X Y Z) as [_ L]. destruct (M' (dr1 + kr) (dc + kc)) as [_ L']; [now apply Hr | now apply Hc | now apply Up|]. lia. }
  exists dr, dc, s, s'. split; [exact F|]. split; [exact F'|]. exists dr, dc1. split; [exact R|]. split; [exact C1|]. split; [exact E1|]. apply Up; assumption.
Qed.
(** Rows and columns play the same part. *)
Lemma best_turned t rows cols cost nothing found : best t rows cols cost nothing found -> best t cols rows (fun dc dr => cost dr dc) nothing (fun dc dr s => found dr dc s).
Proof.
  intros [(N & A)|(dr & dc & s & F & R & C & S & B & E1 & E2 & M)]; [left; split; auto|]. right. exists dc, dr, s. do 4 (split; [assumption|]). split; [auto|]. split; [exact E2|]. split; [exact E1|].
  intros dc' dr' Hc Hr E. destruct (M dr' dc' Hr Hc E). split; assumption.
Qed.
Lemma order_equal t (rows cols : Z -> Prop) cost cost' : (forall dr dc, rows dr -> cols dc -> cost dr dc = cost' dr dc) -> same_order t t rows cols cost cost'.
Proof. intros H. split; [intros dr dc Hr Hc; rewrite (H dr dc Hr Hc); reflexivity|]. intros dr dc er ec H1 H2 H3 H4 _ _. rewrite (H dr dc), (H er ec) by assumption. reflexivity. Qed.
Lemma moved_zero (P P' : Z -> Prop) : (forall d, P d <-> P' d) -> moved_by P P' 0.
Proof. intros H d. rewrite Z.add_0_r. apply H. Qed.
