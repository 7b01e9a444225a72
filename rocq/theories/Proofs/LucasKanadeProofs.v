(** Least squares in two dimensions. *)
From Coq Require Import QArith Qabs List Arith Lia Lqa Psatz.
From Verif Require Import Base.PyList Base.Arr Model.DichotomyModel Model.OpticalFlowModel Model.LucasKanadeModel Spec.LucasKanadeSpec.
Import ListNotations.
Open Scope Q_scope.

(** ** Sums *)
Lemma sum_ext n f g : (forall k, (k < n)%nat -> f k == g k) -> sum_to n f == sum_to n g.
Proof. induction n; cbn; intros H; [reflexivity|]. rewrite IHn by (intros; apply H; lia). rewrite (H n) by lia. reflexivity. Qed.
Lemma sum_zero n f : (forall k, (k < n)%nat -> f k == 0) -> sum_to n f == 0.
Proof. induction n; cbn; intros H; [reflexivity|]. rewrite IHn by (intros; apply H; lia). rewrite (H n) by lia. reflexivity. Qed.
Lemma sum_nonneg n f : (forall k, (k < n)%nat -> 0 <= f k) -> 0 <= sum_to n f.
Proof. induction n; cbn; intros H; [lra|]. assert (0 <= sum_to n f) by (apply IHn; intros; apply H; lia). assert (0 <= f n) by (apply H; lia). lra. Qed.
Lemma sum_null n f : (forall k, (k < n)%nat -> 0 <= f k) -> sum_to n f == 0 -> forall k, (k < n)%nat -> f k == 0.
Proof.
  induction n; cbn; intros H E k Hk; [lia|].
  assert (0 <= sum_to n f) by (apply sum_nonneg; intros; apply H; lia). assert (0 <= f n) by (apply H; lia).
  destruct (Nat.eq_dec k n) as [-> | N]; [lra|]. apply IHn; [intros; apply H; lia | lra | lia].
Qed.
Lemma sum_linear n f g a b : sum_to n (fun k => a * f k + b * g k) == a * sum_to n f + b * sum_to n g.
Proof. induction n; cbn; [ring|]. rewrite IHn. ring. Qed.
Lemma square_nonneg (x : Q) : 0 <= x * x. Proof. nra. Qed.
Lemma square_null (x : Q) : x * x == 0 -> x == 0.
Proof. intros H. apply Qmult_integral in H. tauto. Qed.

Definition sum2 (n : nat) (f : nat -> nat -> Q) : Q := sum_to n (fun i => sum_to n (f i)).
Lemma sum2_ext n f g : (forall i j, (i < n)%nat -> (j < n)%nat -> f i j == g i j) -> sum2 n f == sum2 n g.
Proof. intros H. apply sum_ext. intros. apply sum_ext. intros. apply H; assumption. Qed.
Lemma sum2_zero n f : (forall i j, (i < n)%nat -> (j < n)%nat -> f i j == 0) -> sum2 n f == 0.
Proof. intros H. apply sum_zero. intros. apply sum_zero. intros. apply H; assumption. Qed.
Lemma sum2_nonneg n f : (forall i j, (i < n)%nat -> (j < n)%nat -> 0 <= f i j) -> 0 <= sum2 n f.
Proof. intros H. apply sum_nonneg. intros. apply sum_nonneg. intros. apply H; assumption. Qed.
Lemma sum2_null n f : (forall i j, (i < n)%nat -> (j < n)%nat -> 0 <= f i j) -> sum2 n f == 0 -> forall i j, (i < n)%nat -> (j < n)%nat -> f i j == 0.
Proof.
  intros H E i j Hi Hj. eapply sum_null with (f := f i); [| |exact Hj].
  - intros. apply H; assumption.
  - apply (sum_null n (fun i => sum_to n (f i))); [| exact E | exact Hi]. intros k Hk. apply sum_nonneg. intros. apply H; assumption.
Qed.
Lemma sum2_linear n f g a b : sum2 n (fun i j => a * f i j + b * g i j) == a * sum2 n f + b * sum2 n g.
Proof. unfold sum2. rewrite <- sum_linear. apply sum_ext. intros. apply sum_linear. Qed.

(** ** Properties of a least motion *)
Section Motion.
  Variables (n : nat) (f g sx sy : nat -> nat -> Q).
  Local Notation e := (mismatch n f g sx sy).

  Lemma mismatch_nonneg u v : 0 <= e u v.
  Proof. apply sum2_nonneg. intros. apply square_nonneg. Qed.
  Lemma mismatch_null u v : e u v == 0 -> forall i j, (i < n)%nat -> (j < n)%nat -> sx i j * u + sy i j * v == g i j - f i j.
  Proof.
    intros E i j Hi Hj. assert (X := sum2_null n _ (fun i j _ _ => square_nonneg (sx i j * u + sy i j * v - (g i j - f i j))) E i j Hi Hj). cbv beta in X.
    apply square_null in X. lra.
  Qed.
  Lemma mismatch_exact u v : (forall i j, (i < n)%nat -> (j < n)%nat -> sx i j * u + sy i j * v == g i j - f i j) -> e u v == 0.
  Proof. intros H. apply sum2_zero. intros i j Hi Hj. cbv zeta. rewrite (H i j Hi Hj). ring. Qed.
  Lemma mismatch_same u v u' v' : (forall i j, (i < n)%nat -> (j < n)%nat -> sx i j * u + sy i j * v == sx i j * u' + sy i j * v') -> e u v == e u' v'.
  Proof. intros H. apply sum2_ext. intros i j Hi Hj. cbv zeta. rewrite (H i j Hi Hj). reflexivity. Qed.

  (** Middle of two motions. *)
  Lemma mismatch_middle u v u' v' :
    e ((u + u') / 2) ((v + v') / 2) + sum2 n (fun i j => let d := sx i j * (u - u') + sy i j * (v - v') in d * d) / 4 == (e u v + e u' v') / 2.
  Proof.
    assert (X : sum2 n (fun i j => 1 * (let d := sx i j * ((u + u') / 2) + sy i j * ((v + v') / 2) - (g i j - f i j) in d * d) + (1 # 4) * (let d := sx i j * (u - u') + sy i j * (v - v') in d * d)) ==
                sum2 n (fun i j => (1 # 2) * (let d := sx i j * u + sy i j * v - (g i j - f i j) in d * d) + (1 # 2) * (let d := sx i j * u' + sy i j * v' - (g i j - f i j) in d * d))).
    { apply sum2_ext. intros i j _ _. cbv zeta. field. }
    rewrite !sum2_linear in X.
    assert (D : forall a : Q, a / 4 == (1 # 4) * a) by (intros; field). assert (D' : forall a : Q, a / 2 == (1 # 2) * a) by (intros; field).
    rewrite D, (D' (e u v + e u' v')). rewrite Qmult_1_l in X. change (e ((u + u') / 2) ((v + v') / 2)) with (sum2 n (fun i j => let d := sx i j * ((u + u') / 2) + sy i j * ((v + v') / 2) - (g i j - f i j) in d * d)). cbv zeta in X |- *. rewrite X. change ((1 # 2) * e u v + (1 # 2) * e u' v' == (1 # 2) * (e u v + e u' v')). ring.
  Qed.

  Lemma least_unique u v u' v' : least e u v -> least e u' v' -> u == u' /\ v == v'.
  Proof.
    intros [M1 N1] [M2 N2]. pose proof (M1 u' v') as A1. pose proof (M2 u v) as A2. pose proof (M1 ((u + u') / 2) ((v + v') / 2)) as A3. pose proof (mismatch_middle u v u' v') as Mid.
    assert (P : 0 <= sum2 n (fun i j => let d := sx i j * (u - u') + sy i j * (v - v') in d * d)) by (apply sum2_nonneg; intros; apply square_nonneg).
    set (s := sum2 n _) in *.
    assert (Hs : s / 4 == s * (1 # 4)) by field. assert (Hm : (e u v + e u' v') / 2 == (e u v + e u' v') * (1 # 2)) by field. rewrite Hs, Hm in Mid. clear Hs Hm.
    assert (E : e ((u + u') / 2) ((v + v') / 2) == e u v) by lra. assert (E' : e u' v' == e u v) by lra.
    pose proof (N1 _ _ E) as B1. pose proof (N1 _ _ E') as B2. pose proof (N2 u v) as B3. assert (B4 : u' * u' + v' * v' <= u * u + v * v) by (apply B3; lra).
    assert (Mu : (u + u') / 2 * ((u + u') / 2) + (v + v') / 2 * ((v + v') / 2) == (1 # 2) * (u * u + v * v) + (1 # 2) * (u' * u' + v' * v') - (1 # 4) * ((u - u') * (u - u') + (v - v') * (v - v'))) by field.
    rewrite Mu in B1. pose proof (square_nonneg (u - u')). pose proof (square_nonneg (v - v')).
    assert (Z1 : (u - u') * (u - u') == 0) by lra. assert (Z2 : (v - v') * (v - v') == 0) by lra. apply square_null in Z1. apply square_null in Z2. lra.
  Qed.

  Lemma norm_null u v : u * u + v * v <= 0 -> u == 0 /\ v == 0.
  Proof. intros H. pose proof (square_nonneg u). pose proof (square_nonneg v). split; apply square_null; lra. Qed.

  Lemma least_still u v : least e u v -> (forall i j, (i < n)%nat -> (j < n)%nat -> g i j == f i j) -> u == 0 /\ v == 0.
  Proof.
    intros [M N] H. assert (Z : e 0 0 == 0). { apply mismatch_exact. intros i j Hi Hj. rewrite (H i j Hi Hj). ring. }
    pose proof (mismatch_nonneg u v) as P. pose proof (M 0 0) as M0. assert (E : e 0 0 == e u v) by lra. apply norm_null. pose proof (N 0 0 E). lra.
  Qed.

  Lemma least_flat u v : least e u v -> (forall i j, (i < n)%nat -> (j < n)%nat -> sx i j == 0 /\ sy i j == 0) -> u == 0 /\ v == 0.
  Proof.
    intros [M N] H. assert (E : e 0 0 == e u v). { apply mismatch_same. intros i j Hi Hj. destruct (H i j Hi Hj) as [-> ->]. ring. }
    apply norm_null. pose proof (N 0 0 E). lra.
  Qed.

  Lemma least_exact u v u0 v0 : least e u v -> textured n sx sy -> (forall i j, (i < n)%nat -> (j < n)%nat -> g i j == f i j + (sx i j * u0 + sy i j * v0)) -> u == u0 /\ v == v0.
  Proof.
    intros [M _] (i & j & i' & j' & Hi & Hj & Hi' & Hj' & T) H.
    assert (Z : e u0 v0 == 0). { apply mismatch_exact. intros a b Ha Hb. rewrite (H a b Ha Hb). ring. }
    pose proof (mismatch_nonneg u v) as P. pose proof (M u0 v0) as M0. assert (E : e u v == 0) by lra.
    pose proof (mismatch_null u v E i j Hi Hj) as E1. pose proof (mismatch_null u v E i' j' Hi' Hj') as E2. rewrite (H i j Hi Hj) in E1. rewrite (H i' j' Hi' Hj') in E2. clear -E1 E2 T.
    assert (T' : ~ sx i j * sy i' j' - sx i' j' * sy i j == 0) by lra.
    assert (F1 : sx i j * (u - u0) + sy i j * (v - v0) == 0) by lra. assert (F2 : sx i' j' * (u - u0) + sy i' j' * (v - v0) == 0) by lra.
    generalize dependent (sx i j). intros a. generalize dependent (sy i j). intros b. generalize dependent (sx i' j'). intros c. generalize dependent (sy i' j'). intros d. intros.
    assert (G1 : (a * d - c * b) * (u - u0) == 0).
    { transitivity (d * (a * (u - u0) + b * (v - v0)) - b * (c * (u - u0) + d * (v - v0))); [ring|]. rewrite F1, F2. ring. }
    assert (G2 : (a * d - c * b) * (v - v0) == 0).
    { transitivity (a * (c * (u - u0) + d * (v - v0)) - c * (a * (u - u0) + b * (v - v0))); [ring|]. rewrite F1, F2. ring. }
    apply Qmult_integral in G1. apply Qmult_integral in G2. split; [destruct G1 as [G1|G1] | destruct G2 as [G2|G2]]; try contradiction; lra.
  Qed.

  Lemma least_along u v p q : least e u v -> ~ p * p + q * q == 0 -> (forall i j, (i < n)%nat -> (j < n)%nat -> sx i j * q == sy i j * p) -> u * q == v * p.
  Proof.
    intros [_ N] T H. set (c := (u * q - v * p) / (p * p + q * q)).
    assert (C : c * (p * p + q * q) == u * q - v * p) by (unfold c; field; exact T).
    assert (E : e (u - c * q) (v + c * p) == e u v).
    { apply mismatch_same. intros i j Hi Hj. pose proof (H i j Hi Hj) as X.
      transitivity (sx i j * u + sy i j * v - c * (sx i j * q - sy i j * p)); [ring|]. rewrite X. ring. }
    pose proof (N _ _ E) as B.
    assert (S : (u - c * q) * (u - c * q) + (v + c * p) * (v + c * p) == u * u + v * v - 2 * c * (u * q - v * p) + c * (c * (p * p + q * q))) by ring.
    rewrite S, C in B. assert (B' : c * (u * q - v * p) <= 0) by lra. clear S B E N.
    assert (Ps : 0 < p * p + q * q). { pose proof (square_nonneg p). pose proof (square_nonneg q). destruct (Qlt_le_dec 0 (p * p + q * q)) as [L|L]; [exact L|]. exfalso. apply T. lra. }
    rewrite <- C in B'. assert (c * (c * (p * p + q * q)) == (c * c) * (p * p + q * q)) by ring.
    assert (Z : c * c == 0). { pose proof (square_nonneg c). destruct (Qlt_le_dec 0 (c * c)) as [L|L]; [|lra]. exfalso. pose proof (Qmult_lt_0_compat _ _ L Ps). lra. }
    apply square_null in Z. rewrite Z in C. lra.
  Qed.
End Motion.

(** ** From the lists of the code to the windows *)
Lemma squared_error_map {X} (l : list X) a b t u v :
  squared_error (map (fun x => (a x, b x)) l) (map t l) u v == fold_right (fun x s => (a x * u + b x * v - t x) * (a x * u + b x * v - t x) + s) 0 l.
Proof. induction l as [|x l IH]; cbn; [reflexivity|]. rewrite IH. reflexivity. Qed.

Lemma fold_add {X} (l : list X) f s : fold_right (fun x s => f x + s) s l == fold_right (fun x s => f x + s) 0 l + s.
Proof. induction l as [|x l IH]; cbn; [ring|]. rewrite IH. ring. Qed.
Lemma fold_seq n f : fold_right (fun x s => f x + s) 0 (seq 0 n) == sum_to n f.
Proof. induction n; [reflexivity|]. rewrite seq_S, fold_right_app. cbn [fold_right]. rewrite fold_add, IHn. cbn. ring. Qed.

Definition indices (n m : nat) : list (nat * nat) := flat_map (fun i => map (pair i) (seq 0 m)) (seq 0 n).
Lemma flattened_indices {X} n m (f : nat -> nat -> X) : flattened n m f = map (fun p => f (fst p) (snd p)) (indices n m).
Proof.
  unfold flattened, indices. induction (seq 0 n) as [|i l IH]; cbn; [reflexivity|]. rewrite map_app, map_map, IH. reflexivity.
Qed.
Lemma fold_indices (l : list nat) m (f : nat -> nat -> Q) : fold_right (fun p s => f (fst p) (snd p) + s) 0 (flat_map (fun i => map (pair i) (seq 0 m)) l) == fold_right (fun i s => sum_to m (f i) + s) 0 l.
Proof.
  induction l as [|i l IH]; [reflexivity|]. cbn [flat_map fold_right]. rewrite fold_right_app, (fold_add _ (fun p => f (fst p) (snd p))), IH.
  apply Qplus_comp; [|reflexivity]. rewrite <- fold_seq. generalize (seq 0 m). intros k. induction k as [|j k IHk]; cbn; [reflexivity|]. rewrite IHk. reflexivity.
Qed.

Lemma squared_error_windows n L R u v :
  squared_error (grad_matrix n n L) (time_matrix n n L R) u v == mismatch n (value_at L) (value_at R) (grad_x n L) (grad_y n L) u v.
Proof.
  unfold grad_matrix, time_matrix. rewrite !flattened_indices.
  rewrite (squared_error_map (indices n n) (fun p => grad_x n L (fst p) (snd p)) (fun p => grad_y n L (fst p) (snd p)) (fun p => value_at R (fst p) (snd p) - value_at L (fst p) (snd p))).
  unfold indices. set (e := fun i j => (grad_x n L i j * u + grad_y n L i j * v - (value_at R i j - value_at L i j)) * (grad_x n L i j * u + grad_y n L i j * v - (value_at R i j - value_at L i j))).
  change (fold_right (fun p s => e (fst p) (snd p) + s) 0 (flat_map (fun i => map (pair i) (seq 0 n)) (seq 0 n)) == sum_to n (fun i => sum_to n (e i))).
  rewrite (fold_indices (seq 0 n) n e). apply (fold_seq n (fun i => sum_to n (e i))).
Qed.

Lemma matrices_length n m L R : length (grad_matrix n m L) = length (time_matrix n m L R).
Proof. unfold grad_matrix, time_matrix. rewrite !flattened_indices, !map_length. reflexivity. Qed.

(** The numbers of a window. *)
Lemma row_numbers {px} (value : px -> num) m (f : nat -> Q) : forall (l : list px), length l = m -> (forall j, (j < m)%nat -> exists p q, nth_error l j = Some p /\ value p = Some q /\ q == f j) ->
  exists r, map_opt value l = Some r /\ length r = m /\ forall j, (j < m)%nat -> nth j r 0 == f j.
Proof.
  intros l. revert m f. induction l as [|x l IH]; intros m f E H; cbn in E; subst m.
  - exists []. cbn. split; [reflexivity|]. split; [reflexivity | intros; lia].
  - destruct (H 0%nat ltac:(lia)) as (p & q & Ep & Eq & Hq). cbn in Ep. injection Ep as ->.
    destruct (IH (length l) (fun j => f (S j)) eq_refl) as (r & Er & Lr & Hr). { intros j Hj. apply (H (S j)). lia. }
    exists (q :: r). cbn. rewrite Eq, Er. split; [reflexivity|]. split; [congruence|]. intros [|j] Hj; [exact Hq | apply Hr; lia].
Qed.
Lemma window_numbers {px} (value : px -> num) m (f : nat -> nat -> Q) : forall (W : list (list px)) n, rect n m W -> (forall i j, (i < n)%nat -> (j < m)%nat -> exists p q, nth2 W i j = Some p /\ value p = Some q /\ q == f i j) ->
  exists L, numbers value W = Some L /\ rect n m L /\ forall i j, (i < n)%nat -> (j < m)%nat -> value_at L i j == f i j.
Proof.
  intros W. revert f. induction W as [|l W IH]; intros f n [E F] H; cbn in E; subst n.
  - exists []. cbn. split; [reflexivity|]. split; [split; [reflexivity | constructor] | intros; lia].
  - inversion F as [|? ? Fl FW]; subst.
    destruct (row_numbers value (length l) (f 0%nat) l eq_refl) as (r & Er & Lr & Hr).
    { intros j Hj. exact (H 0%nat j ltac:(lia) Hj). }
    destruct (IH (fun i => f (S i)) (length W)) as (L & EL & [LL FL] & HL).
    { split; [reflexivity | exact FW]. }
    { intros i j Hi Hj. exact (H (S i) j ltac:(lia) Hj). }
    exists (r :: L). unfold numbers in *. cbn. rewrite Er, EL. split; [reflexivity|]. split; [split; [cbn; congruence | constructor; assumption]|].
    intros [|i] j Hi Hj; [apply Hr; exact Hj | apply HL; lia].
Qed.

Lemma gradient_slope n f h k : (2 <= n)%nat -> (k < n)%nat -> (forall i, (i < n)%nat -> f i == h i) -> forall s, slope n h k s -> gradient n f k == s.
Proof.
  intros Hn Hk H s Hs. unfold gradient. destruct (Nat.eqb_spec k 0) as [->|N0].
  - destruct Hs as [[_ E]|[(L & _)|(L & _)]]; try lia. rewrite E, !H by lia. reflexivity.
  - destruct (Nat.eqb_spec k (n - 1)) as [->|N1].
    + destruct Hs as [[E _]|[(_ & E & E')|(_ & L & _)]]; try lia. rewrite E'. replace (pred (n - 1)) with (n - 2)%nat by lia. rewrite !H by lia. reflexivity.
    + destruct Hs as [[E _]|[(_ & E & _)|(_ & L & E')]]; try lia. rewrite E'. replace (pred k) with (k - 1)%nat by lia. replace (S k) with (k + 1)%nat by lia. rewrite !H by lia. reflexivity.
Qed.

Lemma mismatch_ext n f g sx sy f' g' sx' sy' u v :
  (forall i j, (i < n)%nat -> (j < n)%nat -> f i j == f' i j /\ g i j == g' i j /\ sx i j == sx' i j /\ sy i j == sy' i j) -> mismatch n f g sx sy u v == mismatch n f' g' sx' sy' u v.
Proof. intros H. apply sum2_ext. intros i j Hi Hj. cbv zeta. destruct (H i j Hi Hj) as (-> & -> & -> & ->). reflexivity. Qed.

Lemma least_ext e e' u v : (forall a b, e a b == e' a b) -> least e u v -> least e' u v.
Proof.
  intros H [M N]. split.
  - intros u' v'. rewrite <- !H. apply M.
  - intros u' v' E. apply N. rewrite !H. exact E.
Qed.

Lemma lk_least {px} (value : px -> num) solve unsolved n f g sx sy l r : least_squares solve -> (2 <= n)%nat -> shows_values value n f l -> shows_values value n g r -> slopes n f sx sy ->
  exists u v, lk_lstsq value solve unsolved l r = Some (Some u, Some v) /\ least (mismatch n f g sx sy) u v.
Proof.
  intros Hs Hn [Rl Hl] [Rr Hr] Hsl.
  destruct (window_numbers value n f l n Rl Hl) as (L & EL & [LL FL] & HL). destruct (window_numbers value n g r n Rr Hr) as (R & ER & RR & HR).
  unfold lk_lstsq. rewrite EL, ER. cbv zeta.
  assert (Eh : length (hd [] L) = n). { destruct L as [|a L]; [cbn in LL; lia|]. inversion FL; assumption. }
  rewrite LL, Eh. destruct (Hs (grad_matrix n n L) (time_matrix n n L R) (matrices_length _ _ _ _)) as (u & v & E & M). rewrite E.
  exists u, v. split; [reflexivity|]. revert M. apply least_ext. intros a b. rewrite squared_error_windows. apply mismatch_ext. intros i j Hi Hj.
  destruct (Hsl i j Hi Hj) as [S1 S2]. split; [auto|]. split; [auto|]. split.
  - unfold grad_x. eapply gradient_slope; [exact Hn | exact Hj | | exact S1]. intros k Hk. cbv beta. apply HL; assumption.
  - unfold grad_y. eapply gradient_slope; [exact Hn | exact Hi | | exact S2]. intros k Hk. cbv beta. apply HL; assumption.
Qed.

(** Slopes always exist. *)
Lemma slopes_exist n f : (2 <= n)%nat -> exists sx sy, slopes n f sx sy.
Proof.
  intros Hn. assert (X : forall h k, (k < n)%nat -> slope n h k (gradient n h k)).
  { intros h k Hk. unfold gradient, slope. destruct (Nat.eqb_spec k 0) as [->|N0]; [left; split; reflexivity|]. destruct (Nat.eqb_spec k (n - 1)) as [->|N1]; right.
    - left. split; [lia|]. split; [lia|]. replace (pred (n - 1)) with (n - 2)%nat by lia. reflexivity.
    - right. split; [lia|]. split; [lia|]. replace (pred k) with (k - 1)%nat by lia. replace (S k) with (k + 1)%nat by lia. reflexivity. }
  exists (fun i j => gradient n (fun k => f i k) j), (fun i j => gradient n (fun k => f k j) i). intros i j Hi Hj. split; apply X; assumption.
Qed.
