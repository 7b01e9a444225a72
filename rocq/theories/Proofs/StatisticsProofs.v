(** Proofs about the statistics. *)
From Coq Require Import ZArith QArith List Bool Permutation Sorted Lia Lqa.
From Verif Require Import Base.Ext Model.StatisticsModel Spec.StatisticsSpec.
Import ListNotations.
Open Scope Z_scope.

(** *** Sorting *)
Lemma insert_perm z l : Permutation (z :: l) (insert z l).
Proof. induction l as [|x l IH]; [reflexivity|]. simpl. destruct (z <=? x); [reflexivity|]. etransitivity; [apply perm_swap|]. constructor. exact IH. Qed.
Lemma sort_perm l : Permutation l (sort l).
Proof. induction l as [|x l IH]; [reflexivity|]. simpl. etransitivity; [|apply insert_perm]. constructor. exact IH. Qed.
Lemma insert_sorted z l : Sorted Z.le l -> Sorted Z.le (insert z l).
Proof.
  induction l as [|x l IH]; intros H; [repeat constructor|]. simpl. destruct (z <=? x) eqn:E.
  - apply Z.leb_le in E. constructor; [exact H|constructor; exact E].
  - apply Z.leb_gt in E. inversion H as [|? ? H1 H2]; subst. constructor; [apply IH; exact H1|]. destruct l as [|y l]; simpl; [constructor; lia|].
    destruct (z <=? y); constructor; [lia|inversion H2; assumption].
Qed.
Lemma sort_sorted l : Sorted Z.le (sort l).
Proof. induction l as [|x l IH]; [constructor|]. apply insert_sorted. exact IH. Qed.
Lemma sorted_unique s : forall s', Permutation s s' -> Sorted Z.le s -> Sorted Z.le s' -> s = s'.
Proof.
  induction s as [|a s IH]; intros s' P H H'; [apply Permutation_nil in P; congruence|]. destruct s' as [|b s']; [symmetry in P; apply Permutation_nil in P; discriminate|].
  assert (T : Relations_1.Transitive Z.le) by (intros x y z; lia).
  apply Sorted_StronglySorted in H; [|exact T]. apply Sorted_StronglySorted in H'; [|exact T]. inversion H as [|? ? H1 F1]; subst. inversion H' as [|? ? H2 F2]; subst.
  rewrite Forall_forall in F1, F2.
  assert (a = b).
  { assert (A : In a (b :: s')) by (apply (Permutation_in _ P); now left). assert (B : In b (a :: s)) by (apply (Permutation_in _ (Permutation_sym P)); now left).
    destruct A as [->|A]; [reflexivity|]. destruct B as [->|B]; [reflexivity|]. specialize (F1 _ B). specialize (F2 _ A). lia. }
  subst b. f_equal. apply IH; [eapply Permutation_cons_inv; exact P|apply StronglySorted_Sorted; assumption|apply StronglySorted_Sorted; assumption].
Qed.
Lemma sorted_nth s : Sorted Z.le s -> forall i j a b, (i <= j)%nat -> nth_error s i = Some a -> nth_error s j = Some b -> a <= b.
Proof.
  intros H. apply Sorted_StronglySorted in H; [|intros x y z; lia]. induction H as [|x s H IH F]; intros i j a b Hij Ha Hb; [destruct i; discriminate|]. rewrite Forall_forall in F.
  destruct i as [|i].
  - injection Ha as <-. destruct j as [|j]; [injection Hb as <-; lia|]. apply F. eapply nth_error_In; eauto.
  - destruct j as [|j]; [lia|]. eapply (IH i j); eauto. lia.
Qed.

(** *** Quantiles *)
Lemma lerp_eq a b t : (lerp a b t == a + t * (b - a))%Q.
Proof. unfold lerp. destruct (Qle_bool _ _); ring. Qed.

Lemma quantile_spec l p d : l <> [] -> 0 <= p < d -> exists v, quantile p d (sort l) = Some v /\ is_quantile l p d v.
Proof.
  intros Hl Hp. assert (P := sort_perm l). assert (So := sort_sorted l). assert (L := Permutation_length P). generalize dependent (sort l). intros s P So L.
  assert (Hs : exists x r, s = x :: r) by (destruct s as [|x r]; [destruct l; [congruence|discriminate]|eauto]). destruct Hs as (x & r & Es).
  assert (Q0 : quantile p d s = Some (let last_index := Z.of_nat (length s) - 1 in let previous := p * last_index / d in
      lerp (inject_Z (nth (Z.to_nat previous) s x)) (inject_Z (nth (Z.to_nat (Z.min (previous + 1) last_index)) s x)) (inject_Z (p * last_index mod d) / inject_Z d)%Q)) by (rewrite Es; reflexivity).
  eexists. split; [exact Q0|]. cbv zeta. clear Q0. exists s. split; [exact P|]. split; [exact So|]. rewrite L in *. assert (Hn0 : (1 <= length s)%nat) by (rewrite Es; simpl; lia). clear Es r.
  set (n := length s) in *. assert (Hn : (1 <= n)%nat) by exact Hn0.
  set (h := p * (Z.of_nat n - 1)). assert (Hd : 0 < d) by lia. assert (Hh := Z.div_mod h d ltac:(lia)). assert (Hm := Z.mod_pos_bound h d Hd). set (k := h / d) in *.
  assert (Hk0 : 0 <= k) by (apply Z.div_pos; unfold h; nia). assert (Hk1 : k <= Z.of_nat n - 1). { assert (h <= d * (Z.of_nat n - 1)) by (unfold h; nia). nia. }
  assert (N : forall i, (i < n)%nat -> nth_error s i = Some (nth i s x)) by (intros i Hi; apply nth_error_nth'; exact Hi).
  exists (Z.to_nat k), (nth (Z.to_nat k) s x), (nth (Z.to_nat (Z.min (k + 1) (Z.of_nat n - 1))) s x).
  split; [apply N; lia|]. split.
  - destruct (Z_le_gt_dec (k + 1) (Z.of_nat n - 1)) as [H|H].
    + left. rewrite Z.min_l by lia. replace (Z.to_nat (k + 1)) with (S (Z.to_nat k)) by lia. apply N. lia.
    + right. rewrite Z.min_r by lia. replace (Z.of_nat n - 1) with k by lia. split; [lia|reflexivity].
  - rewrite Z2Nat.id by lia. split; [nia|]. rewrite lerp_eq.
    assert (Hne : ~ (inject_Z d == 0)%Q) by (intros H; unfold Qeq in H; simpl in H; lia).
    set (a := inject_Z (nth (Z.to_nat k) s x)). set (b := inject_Z (nth (Z.to_nat (Z.min (k + 1) (Z.of_nat n - 1))) s x)).
    assert (E : (inject_Z h == inject_Z d * inject_Z k + inject_Z (h mod d))%Q) by (rewrite <- inject_Z_mult, <- inject_Z_plus, <- Hh; reflexivity).
    setoid_rewrite E. field. exact Hne.
Qed.

(** A quantile is between the two values around it. *)
Lemma quantile_between l p d v : 0 < d -> is_quantile l p d v -> exists s k a b, Permutation l s /\ Sorted Z.le s /\ nth_error s k = Some a /\
  (nth_error s (S k) = Some b \/ (S k = length s /\ b = a)) /\ (inject_Z a <= v)%Q /\ (v <= inject_Z b)%Q.
Proof.
  intros Hd (s & P & So & k & a & b & Ha & Hb & Hk & Hv). exists s, k, a, b. repeat (split; [assumption|]).
  assert (Hab : a <= b) by (destruct Hb as [Hb|[_ ->]]; [apply (sorted_nth s So k (S k) a b); [lia|assumption|assumption]|lia]).
  rewrite Zle_Qle in Hab. set (h := p * (Z.of_nat (length l) - 1)) in *.
  assert (Hd' : (0 < inject_Z d)%Q) by (rewrite <- (Zlt_Qlt 0); lia).
  assert (B : (0 <= inject_Z h / inject_Z d - inject_Z (Z.of_nat k))%Q /\ (inject_Z h / inject_Z d - inject_Z (Z.of_nat k) <= 1)%Q).
  { destruct Hk as [K1 K2]. rewrite Zle_Qle, inject_Z_mult in K1. rewrite Zlt_Qlt, inject_Z_mult, inject_Z_plus in K2. set (K := inject_Z (Z.of_nat k)) in *. set (H := inject_Z h) in *. set (D := inject_Z d) in *.
    split.
    - assert (K <= H / D)%Q by (apply Qle_shift_div_l; assumption). lra.
    - assert (H / D <= K + 1)%Q by (apply Qle_shift_div_r; [assumption|]; change (inject_Z 1) with 1%Q in K2; lra). lra. }
  destruct B as [B1 B2]. rewrite Hv. set (t := (inject_Z h / inject_Z d - inject_Z (Z.of_nat k))%Q) in *. clearbody t. split; nra.
Qed.

Lemma quantile_monotone l p d p' d' v v' : 0 < d -> 0 < d' -> p * d' <= p' * d -> is_quantile l p d v -> is_quantile l p' d' v' -> (v <= v')%Q.
Proof.
  intros Hd Hd' Hp Q1 Q2. assert (I1 := Q1). assert (I2 := Q2).
  destruct Q1 as (s & P & So & k & a & b & Ha & Hb & Hk & Hv). destruct Q2 as (s' & P' & So' & k' & a' & b' & Ha' & Hb' & Hk' & Hv').
  assert (s = s') by (apply sorted_unique; [rewrite <- P; exact P'|assumption|assumption]). subst s'.
  assert (Hab : a <= b) by (destruct Hb as [Hb|[_ ->]]; [apply (sorted_nth s So k (S k) a b); [lia|assumption|assumption]|lia]).
  assert (Hab' : a' <= b') by (destruct Hb' as [Hb'|[_ ->]]; [apply (sorted_nth s So k' (S k') a' b'); [lia|assumption|assumption]|lia]).
  assert (Ln : (1 <= length l)%nat). { rewrite (Permutation_length P). assert (k < length s)%nat by (apply nth_error_Some; congruence). lia. }
  set (n1 := Z.of_nat (length l) - 1) in *. assert (Hn1 : 0 <= n1) by (unfold n1; lia).
  assert (Hkk : (k <= k')%nat). { destruct (Nat.leb_spec k k'); [assumption|exfalso]. assert (Z.of_nat k' + 1 <= Z.of_nat k) by lia. assert (p * n1 * d' <= p' * n1 * d) by nia.
    assert (Z.of_nat k * d * d' <= p * n1 * d') by nia. assert (p' * n1 * d < (Z.of_nat k' + 1) * d' * d) by nia. nia. }
  assert (Eh : (inject_Z (p * n1) / inject_Z d <= inject_Z (p' * n1) / inject_Z d')%Q).
  { assert (0 < inject_Z d)%Q by (rewrite <- (Zlt_Qlt 0); lia). assert (0 < inject_Z d')%Q by (rewrite <- (Zlt_Qlt 0); lia).
    apply Qle_shift_div_l; [assumption|]. setoid_replace (inject_Z (p * n1) / inject_Z d * inject_Z d')%Q with (inject_Z (p * n1) * inject_Z d' / inject_Z d)%Q by (field; lra).
    apply Qle_shift_div_r; [assumption|]. rewrite <- !inject_Z_mult, <- Zle_Qle. nia. }
  destruct (Nat.eq_dec k k') as [<-|Nk].
  - rewrite Ha in Ha'. injection Ha' as <-. assert (b = b'). { destruct Hb as [Hb|[Hb1 Hb2]], Hb' as [Hb'|[Hb1' Hb2']]; try congruence.
      - assert (S k < length s)%nat by (apply nth_error_Some; congruence). lia.
      - assert (S k < length s)%nat by (apply nth_error_Some; congruence). lia. } subst b'.
    rewrite Hv, Hv'. rewrite Zle_Qle in Hab. set (x := (inject_Z (p * n1) / inject_Z d)%Q) in *. set (x' := (inject_Z (p' * n1) / inject_Z d')%Q) in *. clearbody x x'. nra.
  - assert (B : (v <= inject_Z b)%Q). { destruct (quantile_between l p d v Hd I1) as (s2 & k2 & a2 & b2 & P2 & So2 & A2 & B2 & _ & U).
      clear U. rewrite Hv. assert (T : (inject_Z (p * n1) / inject_Z d - inject_Z (Z.of_nat k) <= 1)%Q).
      { assert (0 < inject_Z d)%Q by (rewrite <- (Zlt_Qlt 0); lia). assert (inject_Z (p * n1) / inject_Z d <= inject_Z (Z.of_nat k) + 1)%Q; [|lra]. apply Qle_shift_div_r; [assumption|].
        destruct Hk as [_ K2]. rewrite Zlt_Qlt, (inject_Z_mult (_ + 1)), inject_Z_plus in K2. change (inject_Z 1) with 1%Q in K2. lra. }
      rewrite Zle_Qle in Hab. set (x := (inject_Z (p * n1) / inject_Z d - inject_Z (Z.of_nat k))%Q) in *. clearbody x. nra. }
    assert (A : (inject_Z a' <= v')%Q).
    { rewrite Hv'. assert (T : (0 <= inject_Z (p' * n1) / inject_Z d' - inject_Z (Z.of_nat k'))%Q).
      { assert (0 < inject_Z d')%Q by (rewrite <- (Zlt_Qlt 0); lia). assert (inject_Z (Z.of_nat k') <= inject_Z (p' * n1) / inject_Z d')%Q; [|lra]. apply Qle_shift_div_l; [assumption|].
        destruct Hk' as [K1 _]. rewrite Zle_Qle, inject_Z_mult in K1. exact K1. }
      rewrite Zle_Qle in Hab'. set (x := (inject_Z (p' * n1) / inject_Z d' - inject_Z (Z.of_nat k'))%Q) in *. clearbody x. nra. }
    assert (M : b <= a'). { destruct Hb as [Hb|[Hb1 Hb2]]; [apply (sorted_nth s So (S k) k' b a'); [lia|assumption|assumption]|]. assert (k' < length s)%nat by (apply nth_error_Some; congruence). lia. }
    rewrite Zle_Qle in M. lra.
Qed.
Lemma quantile_range l p d v m M : 0 < d -> is_quantile l p d v -> is_min l m -> is_max l M -> (inject_Z m <= v)%Q /\ (v <= inject_Z M)%Q.
Proof.
  intros Hd Q1 [_ Hm] [_ HM]. destruct (quantile_between l p d v Hd Q1) as (s & k & a & b & P & So & Ha & Hb & A & B).
  assert (Ia : In a l) by (apply (Permutation_in _ (Permutation_sym P)); eapply nth_error_In; eauto).
  assert (Ib : In b l) by (destruct Hb as [Hb|[_ ->]]; [apply (Permutation_in _ (Permutation_sym P)); eapply nth_error_In; eauto|exact Ia]).
  apply Hm in Ia. apply HM in Ib. rewrite Zle_Qle in Ia, Ib. split; lra.
Qed.

(** *** Mean and variance *)
Definition squares (mu : Q) (l : list Z) : Q := fold_right Qplus 0%Q (map (fun z => (inject_Z z - mu) * (inject_Z z - mu))%Q l).
Lemma over_spec x n : (0 < n)%nat -> exists v, over x n = Some v /\ (v * inject_Z (Z.of_nat n) == x)%Q.
Proof.
  intros Hn. destruct n; [lia|]. eexists. split; [reflexivity|]. set (k := Z.of_nat (S n)). assert (~ (inject_Z k == 0)%Q) by (intros H; unfold Qeq in H; simpl in H; lia).
  field. assumption.
Qed.
Lemma sum_total l : sum l = total l. Proof. reflexivity. Qed.
Lemma total_perm l l' : Permutation l l' -> total l = total l'.
Proof. unfold total. induction 1; simpl; lia. Qed.
Lemma squares_perm mu l l' : Permutation l l' -> (squares mu l == squares mu l')%Q.
Proof. unfold squares. induction 1; simpl; [reflexivity|rewrite IHPermutation; reflexivity|ring|etransitivity; eassumption]. Qed.
Lemma sq_nonneg (x : Q) : (0 <= x * x)%Q.
Proof. unfold Qle. simpl. nia. Qed.
Lemma squares_nonneg mu l : (0 <= squares mu l)%Q.
Proof. unfold squares. induction l as [|z l IH]; simpl; [lra|]. assert (H := sq_nonneg (inject_Z z - mu)). lra. Qed.
Lemma squares_zero mu l : (squares mu l == 0)%Q <-> forall z, In z l -> (inject_Z z == mu)%Q.
Proof.
  unfold squares. induction l as [|x l IH]; simpl; [split; [intros _ z []|reflexivity]|].
  assert (N := squares_nonneg mu l). unfold squares in N. set (T := fold_right _ _ _) in *. split.
  - intros H. assert (P := sq_nonneg (inject_Z x - mu)). assert (T == 0)%Q by lra. assert ((inject_Z x - mu) * (inject_Z x - mu) == 0)%Q as S by lra.
    intros z [<-|Hz]; [apply Qmult_integral in S; destruct S; lra|]. apply IH; assumption.
  - intros H. assert (T == 0)%Q as -> by (apply IH; auto). rewrite (H x) by auto. ring.
Qed.
Lemma total_bounds l m M : (forall z, In z l -> m <= z <= M) -> m * Z.of_nat (length l) <= total l <= M * Z.of_nat (length l).
Proof. induction l as [|x l IH]; intros H; [simpl; lia|]. assert (IH' := IH (fun z Hz => H z (or_intror Hz))). assert (Hx := H x (or_introl eq_refl)). unfold total in *. cbn [fold_right length]. rewrite Nat2Z.inj_succ. lia. Qed.

(** *** Valid values *)
Definition keep_of (invalid : ext) (data : list ext) : list ext := match invalid with NaN => data | v => filter (fun x => negb (ext_same x v)) data end.
Lemma ext_same_spec x v : ext_same x v = true <-> x = v /\ x <> NaN.
Proof.
  destruct x, v; simpl; (split; [intros H|intros [H1 H2]]); try discriminate; try congruence; try (split; congruence).
  - apply Z.eqb_eq in H. subst. split; congruence.
  - injection H1 as ->. apply Z.eqb_refl.
Qed.
Lemma numbers_valid invalid data l : valid_values invalid data l -> numbers (keep_of invalid data) = Some l.
Proof.
  induction 1 as [|x data l Hx H IH|z data l Hz H IH].
  - destruct invalid; reflexivity.
  - destruct Hx as [Hx|Hx]; subst x; [destruct invalid; simpl in *; exact IH|]. destruct invalid as [| |v|]; simpl in *; try exact IH. rewrite Z.eqb_refl. simpl. exact IH.
  - destruct invalid as [| |v|]; simpl in *; [rewrite IH; reflexivity|rewrite IH; reflexivity| |rewrite IH; reflexivity].
    destruct (z =? v) eqn:E; [apply Z.eqb_eq in E; congruence|]. simpl. rewrite IH. reflexivity.
Qed.
Lemma valid_of_numbers invalid data : forall l, numbers (keep_of invalid data) = Some l -> valid_values invalid data l.
Proof.
  induction data as [|x data IH]; intros l H.
  - destruct invalid; simpl in H; injection H as <-; constructor.
  - assert (K' : keep_of invalid (x :: data) = (if match invalid with NaN => true | v => negb (ext_same x v) end then x :: keep_of invalid data else keep_of invalid data)) by (destruct invalid; reflexivity).
    rewrite K' in H. destruct (match invalid with NaN => true | v => negb (ext_same x v) end) eqn:E.
    + destruct x; simpl in H; try discriminate.
      * constructor; [now left|]. apply IH. exact H.
      * destruct (numbers (keep_of invalid data)) as [r|]; [|discriminate]. injection H as <-. apply vv_keep.
        { intros Ez. rewrite <- Ez in E. simpl in E. rewrite Z.eqb_refl in E. discriminate. } apply IH. reflexivity.
    + assert (x = invalid). { destruct invalid; [discriminate| | |]; apply negb_false_iff in E; apply ext_same_spec in E; tauto. }
      constructor; [right; assumption|]. apply IH. exact H.
Qed.

Lemma compute_of invalid data : compute_statistics data (Some invalid) =
  match numbers (keep_of invalid data) with
  | None => None
  | Some l => Some (mkStats (mean l) (variance l) (if (length (keep_of invalid data) =? 0)%nat then [None; None; None; None; None] else map (fun p => quantile (fst p) (snd p) (sort l)) levels)
      (over (inject_Z (Z.of_nat (match invalid with NaN => count (fun x => negb (ext_nan x)) data | v => count (fun x => negb (ext_same x v)) data end))) (length data)))
  end.
Proof. destruct invalid; reflexivity. Qed.

Lemma valid_perm invalid data data' l : Permutation data data' -> valid_values invalid data l -> exists l', valid_values invalid data' l' /\ Permutation l l'.
Proof.
  intros P. revert l. induction P as [|x d d' P IH|x y d|d1 d2 d3 P1 IH1 P2 IH2]; intros l H.
  - exists l. auto.
  - inversion H as [|? ? ? Hx H1|z ? l1 Hz H1]; subst; destruct (IH _ H1) as (l' & V & Pl).
    + exists l'. split; [constructor; assumption|exact Pl].
    + exists (z :: l'). split; [apply vv_keep; assumption|constructor; exact Pl].
  - inversion H as [|? ? ? Hy H1|z ? l1 Hz H1]; subst; inversion H1 as [|? ? ? Hx H2|z' ? l2 Hz' H2]; subst.
    + exists l. split; [repeat ((apply vv_keep || apply vv_skip); [assumption|]); assumption|reflexivity].
    + exists (z' :: l2). split; [repeat ((apply vv_keep || apply vv_skip); [assumption|]); assumption|reflexivity].
    + exists (z :: l1). split; [repeat ((apply vv_keep || apply vv_skip); [assumption|]); assumption|reflexivity].
    + exists (z' :: z :: l2). split; [repeat ((apply vv_keep || apply vv_skip); [assumption|]); assumption|apply perm_swap].
  - destruct (IH1 _ H) as (l1 & V1 & Q1). destruct (IH2 _ V1) as (l2 & V2 & Q2). exists l2. split; [exact V2|]. etransitivity; eassumption.
Qed.
Lemma count_perm {A} (f : A -> bool) l l' : Permutation l l' -> count f l = count f l'.
Proof. unfold count. induction 1; simpl; auto; [destruct (f x); simpl; congruence|destruct (f x), (f y); reflexivity|congruence]. Qed.
