(** C100: the motion measured by the optical flow between two windows. *)
From Coq Require Import QArith Qabs List Arith ZArith Lia Lqa Psatz.
From Verif Require Import Base.PyList Base.Arr Model.DichotomyModel Model.OpticalFlowModel Model.LucasKanadeModel Spec.OpticalFlowSpec Spec.LucasKanadeSpec Proofs.LucasKanadeProofs.
Import ListNotations.
Open Scope Q_scope.

Section Motion.
  Context {px : Type} (value : px -> num).
  Variable solve : list (Q * Q) -> list Q -> option (Q * Q).
  Variable unsolved : list (list px) -> list (list px) -> option (num * num).
  Variable resample : list (list px) -> num -> num -> list (list px).
  Local Notation lstsq := (lk_lstsq value solve unsolved).

  (** The code measures a motion that explains at best the differences of the windows by the slopes of the left one, and this motion is unique. *)
  Theorem C100_motion invalid n f g sx sy l r : least_squares solve -> (2 <= n)%nat -> shows_values value n f l -> shows_values value n g r -> slopes n f sx sy ->
    exists u v, motion lstsq invalid l r = (Some u, Some v) /\ least (mismatch n f g sx sy) u v /\ forall u' v', least (mismatch n f g sx sy) u' v' -> u' == u /\ v' == v.
  Proof.
    intros Hs Hn Hl Hr Hsl. destruct (lk_least value solve unsolved n f g sx sy l r Hs Hn Hl Hr Hsl) as (u & v & E & L). exists u, v. unfold motion. rewrite E. split; [reflexivity|]. split; [exact L|].
    intros u' v' L'. eapply least_unique; eassumption.
  Qed.

  (** Equal windows: no motion. *)
  Theorem C100_still invalid n f l r : least_squares solve -> (2 <= n)%nat -> shows_values value n f l -> shows_values value n f r ->
    exists u v, motion lstsq invalid l r = (Some u, Some v) /\ u == 0 /\ v == 0.
  Proof.
    intros Hs Hn Hl Hr. destruct (slopes_exist n f Hn) as (sx & sy & Hsl). destruct (C100_motion invalid n f f sx sy l r Hs Hn Hl Hr Hsl) as (u & v & E & L & _).
    exists u, v. split; [exact E|]. apply (least_still n f f sx sy u v L). reflexivity.
  Qed.

  (** A left window without slope: no motion, whatever the right window. *)
  Theorem C100_flat invalid n f g l r : least_squares solve -> (2 <= n)%nat -> shows_values value n f l -> shows_values value n g r ->
    (forall i j, (i < n)%nat -> (j < n)%nat -> f i j == f 0%nat 0%nat) -> exists u v, motion lstsq invalid l r = (Some u, Some v) /\ u == 0 /\ v == 0.
  Proof.
    intros Hs Hn Hl Hr Hf. assert (Hsl : slopes n f (fun _ _ => 0) (fun _ _ => 0)).
    { intros i j Hi Hj. assert (X : forall h k c, (k < n)%nat -> (forall a, (a < n)%nat -> h a == c) -> slope n h k 0).
      { intros h k c Hk Hc. unfold slope. destruct k as [|k]; [left; split; [reflexivity|]; rewrite !Hc by lia; ring|]. right. destruct (Nat.eq_dec (S (S k)) n) as [E|N].
        - left. split; [lia|]. split; [lia|]. rewrite !Hc by (cbn; lia). ring.
        - right. split; [lia|]. split; [lia|]. rewrite !Hc by (cbn; lia). field. }
      split; eapply X; auto; intros; cbv beta; apply Hf; assumption. }
    destruct (C100_motion invalid n f g _ _ l r Hs Hn Hl Hr Hsl) as (u & v & E & L & _). exists u, v. split; [exact E|]. apply (least_flat n f g _ _ u v L). intros; split; reflexivity.
  Qed.

  (** Differences explained exactly by a motion (u0, v0), slopes of different directions: this motion is measured. *)
  Theorem C100_exact invalid n f g sx sy u0 v0 l r : least_squares solve -> (2 <= n)%nat -> shows_values value n f l -> shows_values value n g r -> slopes n f sx sy -> textured n sx sy ->
    (forall i j, (i < n)%nat -> (j < n)%nat -> g i j == f i j + (sx i j * u0 + sy i j * v0)) -> exists u v, motion lstsq invalid l r = (Some u, Some v) /\ u == u0 /\ v == v0.
  Proof.
    intros Hs Hn Hl Hr Hsl Ht He. destruct (C100_motion invalid n f g sx sy l r Hs Hn Hl Hr Hsl) as (u & v & E & L & _). exists u, v. split; [exact E|].
    exact (least_exact n f g sx sy u v u0 v0 L Ht He).
  Qed.

  (** All the slopes along one direction (p, q): the motion is along it. *)
  Theorem C100_direction invalid n f g sx sy p q l r : least_squares solve -> (2 <= n)%nat -> shows_values value n f l -> shows_values value n g r -> slopes n f sx sy -> ~ p * p + q * q == 0 ->
    (forall i j, (i < n)%nat -> (j < n)%nat -> sx i j * q == sy i j * p) -> exists u v, motion lstsq invalid l r = (Some u, Some v) /\ u * q == v * p.
  Proof.
    intros Hs Hn Hl Hr Hsl Hd Hp. destruct (C100_motion invalid n f g sx sy l r Hs Hn Hl Hr Hsl) as (u & v & E & L & _). exists u, v. split; [exact E|].
    exact (least_along n f g sx sy u v p q L Hd Hp).
  Qed.

  Lemma within_zero u : u == 0 -> within_one (Some u).
  Proof. intros H. exists u. split; [reflexivity|]. rewrite H. reflexivity. Qed.

  (** Equal windows: the iterations change nothing. *)
  Theorem C100_kept invalid f n N : forall l r a b d', least_squares solve -> keeps_windows value resample -> (2 <= N)%nat -> shows_values value N f l -> shows_values value N f r ->
    refined lstsq resample invalid l n r (Some a, Some b) d' -> is_number (fst d') a /\ is_number (snd d') b.
  Proof.
    induction n as [|n IH]; intros l r a b d' Hs Hk HN Hl Hr H.
    - inversion H; subst. split; eexists; split; reflexivity.
    - destruct (C100_still invalid N f l r Hs HN Hl Hr) as (u & v & E & Eu & Ev).
      inversion H as [|n0 r0 drow dcol mcol mrow d0 E' W1 W2 R | n0 r0 drow dcol mcol mrow drow' dcol' E' W M1 M2]; subst; rewrite E in E'; injection E' as <- <-.
      + cbn [nsub] in R. destruct (IH l (resample r (Some v) (Some u)) (a - v) (b - u) d' Hs Hk HN Hl) as [(x & Ex & X) (y & Ey & Y)]; [| exact R |].
        * apply Hk; [exact Hr | exists v; auto | exists u; auto].
        * split; [exists x; split; [exact Ex | lra] | exists y; split; [exact Ey | lra]].
      + exfalso. apply W. split; apply within_zero; assumption.
  Qed.

  (** A motion of less than a pixel, explained exactly by the slopes, and a resampling that undoes it: the disparities are corrected by the motion. *)
  Theorem C100_corrected invalid n N f g sx sy u0 v0 l r a b d' : least_squares solve -> keeps_windows value resample -> (2 <= N)%nat -> shows_values value N f l -> shows_values value N g r ->
    slopes N f sx sy -> textured N sx sy -> (forall i j, (i < N)%nat -> (j < N)%nat -> g i j == f i j + (sx i j * u0 + sy i j * v0)) -> Qabs u0 < 1 -> Qabs v0 < 1 ->
    (forall drow dcol, is_number drow v0 -> is_number dcol u0 -> shows_values value N f (resample r drow dcol)) ->
    refined lstsq resample invalid l (S n) r (Some a, Some b) d' -> is_number (fst d') (a - v0) /\ is_number (snd d') (b - u0).
  Proof.
    intros Hs Hk HN Hl Hr Hsl Ht He Hu Hv Hb H. destruct (C100_exact invalid N f g sx sy u0 v0 l r Hs HN Hl Hr Hsl Ht He) as (u & v & E & Eu & Ev).
    inversion H as [|n0 r0 drow dcol mcol mrow d0 E' W1 W2 R | n0 r0 drow dcol mcol mrow drow' dcol' E' W M1 M2]; subst; rewrite E in E'; injection E' as <- <-.
    - cbn [nsub] in R. destruct (C100_kept invalid f n N l (resample r (Some v) (Some u)) (a - v) (b - u) d' Hs Hk HN Hl) as [(x & Ex & X) (y & Ey & Y)]; [| exact R |].
      + apply Hb; [exists v; auto | exists u; auto].
      + split; [exists x; split; [exact Ex | lra] | exists y; split; [exact Ey | lra]].
    - exfalso. apply W. split; [exists u | exists v]; (split; [reflexivity|]). { rewrite Eu. exact Hu. } { rewrite Ev. exact Hv. }
  Qed.
End Motion.

(** ** A solver: the normal equations. *)
Definition moment (h : Q -> Q -> Q -> Q) (A : list (Q * Q)) (B : list Q) : Q := fold_right (fun p s => h (fst (fst p)) (snd (fst p)) (snd p) + s) 0 (combine A B).
Definition lk_solve (A : list (Q * Q)) (B : list Q) : option (Q * Q) :=
  let aa := moment (fun a b t => a * a) A B in let ab := moment (fun a b t => a * b) A B in let bb := moment (fun a b t => b * b) A B in
  let at' := moment (fun a b t => a * t) A B in let bt := moment (fun a b t => b * t) A B in
  let det := aa * bb - ab * ab in
  if Qeq_bool det 0 then if Qeq_bool (aa + bb) 0 then Some (0, 0) else Some (at' / (aa + bb), bt / (aa + bb))
  else Some ((bb * at' - ab * bt) / det, (aa * bt - ab * at') / det).

Lemma moment_cons h a b t A B : moment h ((a, b) :: A) (t :: B) = h a b t + moment h A B. Proof. reflexivity. Qed.
Lemma moment_linear h k p q A B : moment (fun a b t => p * h a b t + q * k a b t) A B == p * moment h A B + q * moment k A B.
Proof. unfold moment. induction (combine A B) as [|x l IH]; cbn [fold_right]; [ring|]. rewrite IH. ring. Qed.
Lemma moment_ext h k A B : (forall a b t, h a b t == k a b t) -> moment h A B == moment k A B.
Proof. intros H. unfold moment. induction (combine A B) as [|x l IH]; cbn [fold_right]; [reflexivity|]. rewrite IH, H. reflexivity. Qed.
Lemma moment_nonneg h A B : (forall a b t, 0 <= h a b t) -> 0 <= moment h A B.
Proof. intros H. unfold moment. induction (combine A B) as [|x l IH]; cbn [fold_right]; [lra|]. specialize (H (fst (fst x)) (snd (fst x)) (snd x)). lra. Qed.
(** A null sum of squares of k makes any sum of multiples of k null. *)
Lemma moment_null h k A B : moment (fun a b t => k a b t * k a b t) A B == 0 -> moment (fun a b t => h a b t * k a b t) A B == 0.
Proof.
  unfold moment. induction (combine A B) as [|x l IH]; cbn [fold_right]; intros H; [reflexivity|].
  assert (P : 0 <= fold_right (fun p s => k (fst (fst p)) (snd (fst p)) (snd p) * k (fst (fst p)) (snd (fst p)) (snd p) + s) 0 l).
  { clear. induction l as [|x l IH]; cbn [fold_right]; [lra|]. pose proof (square_nonneg (k (fst (fst x)) (snd (fst x)) (snd x))). lra. }
  pose proof (square_nonneg (k (fst (fst x)) (snd (fst x)) (snd x))) as S. rewrite IH by lra.
  assert (Z : k (fst (fst x)) (snd (fst x)) (snd x) * k (fst (fst x)) (snd (fst x)) (snd x) == 0) by lra. apply square_null in Z. rewrite Z. ring.
Qed.
Lemma squared_error_moment A B u v : length A = length B -> squared_error A B u v == moment (fun a b t => (a * u + b * v - t) * (a * u + b * v - t)) A B.
Proof.
  revert B. induction A as [|[a b] A IH]; intros [|t B] E; try discriminate; [reflexivity|]. rewrite moment_cons. cbn [squared_error]. injection E as E. rewrite (IH B E). reflexivity.
Qed.

(** A pair that satisfies the normal equations and is a combination of the gradients. *)
Lemma normal_least A B u v : length A = length B ->
  (forall p q, moment (fun a b t => (a * p + b * q) * (a * u + b * v - t)) A B == 0) ->
  (forall p q, moment (fun a b t => (a * p + b * q) * (a * p + b * q)) A B == 0 -> p * u + q * v == 0) -> least (squared_error A B) u v.
Proof.
  intros E Hn Hr.
  assert (D : forall p q, squared_error A B p q == squared_error A B u v + moment (fun a b t => (a * (p - u) + b * (q - v)) * (a * (p - u) + b * (q - v))) A B).
  { intros p q. rewrite !squared_error_moment by exact E. set (k := fun a b t : Q => (a * (p - u) + b * (q - v)) * (a * (p - u) + b * (q - v))).
    rewrite (moment_ext _ (fun a b t => 1 * ((a * u + b * v - t) * (a * u + b * v - t)) + 1 * (2 * ((a * (p - u) + b * (q - v)) * (a * u + b * v - t)) + 1 * k a b t)))
      by (intros; unfold k; ring).
    rewrite (moment_linear (fun a b t => (a * u + b * v - t) * (a * u + b * v - t)) (fun a b t => 2 * ((a * (p - u) + b * (q - v)) * (a * u + b * v - t)) + 1 * k a b t)).
    rewrite (moment_linear (fun a b t => (a * (p - u) + b * (q - v)) * (a * u + b * v - t)) k). rewrite Hn. ring. }
  assert (P : forall p q, 0 <= moment (fun a b t => (a * (p - u) + b * (q - v)) * (a * (p - u) + b * (q - v))) A B) by (intros; apply moment_nonneg; intros; apply square_nonneg).
  split.
  - intros u' v'. rewrite (D u' v'). specialize (P u' v'). lra.
  - intros u' v' Z. rewrite (D u' v') in Z. assert (Z' : moment (fun a b t => (a * (u' - u) + b * (v' - v)) * (a * (u' - u) + b * (v' - v))) A B == 0) by lra.
    apply Hr in Z'. pose proof (square_nonneg (u' - u)). pose proof (square_nonneg (v' - v)).
    assert (I : u' * u' + v' * v' == u * u + v * v + 2 * ((u' - u) * u + (v' - v) * v) + (u' - u) * (u' - u) + (v' - v) * (v' - v)) by ring. rewrite I, Z'. lra.
Qed.

Lemma lk_solve_least : least_squares lk_solve.
Proof.
  intros A B E. unfold lk_solve. set (aa := moment (fun a b t => a * a) A B). set (ab := moment (fun a b t => a * b) A B). set (bb := moment (fun a b t => b * b) A B).
  set (at' := moment (fun a b t => a * t) A B). set (bt := moment (fun a b t => b * t) A B). cbv zeta.
  assert (Lin : forall p q u v, moment (fun a b t => (a * p + b * q) * (a * u + b * v - t)) A B == p * (aa * u + ab * v - at') + q * (ab * u + bb * v - bt)).
  { intros p q u v. rewrite (moment_ext _ (fun a b t => p * (1 * (u * (a * a) + v * (a * b)) + (-1) * (a * t)) + q * (1 * (u * (a * b) + v * (b * b)) + (-1) * (b * t)))) by (intros; ring).
    rewrite (moment_linear (fun a b t => 1 * (u * (a * a) + v * (a * b)) + (-1) * (a * t)) (fun a b t => 1 * (u * (a * b) + v * (b * b)) + (-1) * (b * t))).
    rewrite (moment_linear (fun a b t => u * (a * a) + v * (a * b)) (fun a b t => a * t)), (moment_linear (fun a b t => u * (a * b) + v * (b * b)) (fun a b t => b * t)).
    rewrite (moment_linear (fun a b t => a * a) (fun a b t => a * b)), (moment_linear (fun a b t => a * b) (fun a b t => b * b)). fold aa ab bb at' bt. ring. }
  assert (Quad : forall p q, moment (fun a b t => (a * p + b * q) * (a * p + b * q)) A B == aa * (p * p) + 2 * ab * (p * q) + bb * (q * q)).
  { intros p q. rewrite (moment_ext _ (fun a b t => 1 * ((p * p) * (a * a) + (2 * (p * q)) * (a * b)) + (q * q) * (b * b))) by (intros; ring).
    rewrite (moment_linear (fun a b t => (p * p) * (a * a) + (2 * (p * q)) * (a * b)) (fun a b t => b * b)), (moment_linear (fun a b t => a * a) (fun a b t => a * b)). fold aa ab bb. ring. }
  assert (Cross : forall p q, moment (fun a b t => (a * p + b * q) * (a * p + b * q)) A B == 0 -> p * at' + q * bt == 0).
  { intros p q Z. pose proof (moment_null (fun a b t => t) (fun a b t => a * p + b * q) A B Z) as X. cbv beta in X.
    rewrite (moment_ext _ (fun a b t => p * (a * t) + q * (b * t))) in X by (intros; ring). rewrite (moment_linear (fun a b t => a * t) (fun a b t => b * t)) in X. exact X. }
  assert (Paa : 0 <= aa) by (apply moment_nonneg; intros; apply square_nonneg). assert (Pbb : 0 <= bb) by (apply moment_nonneg; intros; apply square_nonneg).
  destruct (Qeq_bool (aa * bb - ab * ab) 0) eqn:Ed.
  - apply Qeq_bool_iff in Ed.
    assert (C1 : bb * at' - ab * bt == 0). { setoid_replace (bb * at' - ab * bt) with (bb * at' + (- ab) * bt) by ring. apply Cross. rewrite Quad. transitivity (bb * (aa * bb - ab * ab)); [ring|]. rewrite Ed. ring. }
    assert (C2 : aa * bt - ab * at' == 0). { setoid_replace (aa * bt - ab * at') with ((- ab) * at' + aa * bt) by ring. apply Cross. rewrite Quad. transitivity (aa * (aa * bb - ab * ab)); [ring|]. rewrite Ed. ring. }
    destruct (Qeq_bool (aa + bb) 0) eqn:Et.
    + apply Qeq_bool_iff in Et. assert (Za : aa == 0) by lra. assert (Zb : bb == 0) by lra.
      assert (Zab : ab == 0). { apply square_null. rewrite Za in Ed. lra. }
      exists 0, 0. split; [reflexivity|]. apply normal_least; [exact E | | intros; ring]. intros p q. rewrite Lin, Za, Zb, Zab.
      assert (X : p * at' + q * bt == 0). { apply Cross. rewrite Quad, Za, Zb, Zab. ring. } lra.
    + apply Qeq_bool_neq in Et. eexists _, _. split; [reflexivity|]. apply normal_least; [exact E | |].
      * intros p q. rewrite Lin. assert (N1 : aa * (at' / (aa + bb)) + ab * (bt / (aa + bb)) - at' == 0).
        { transitivity ((ab * bt - bb * at') / (aa + bb)); [field; exact Et|]. setoid_replace (ab * bt - bb * at') with (- (bb * at' - ab * bt)) by ring. rewrite C1. field. exact Et. }
        assert (N2 : ab * (at' / (aa + bb)) + bb * (bt / (aa + bb)) - bt == 0).
        { transitivity ((ab * at' - aa * bt) / (aa + bb)); [field; exact Et|]. setoid_replace (ab * at' - aa * bt) with (- (aa * bt - ab * at')) by ring. rewrite C2. field. exact Et. }
        rewrite N1, N2. ring.
      * intros p q Z. apply Cross in Z. transitivity ((p * at' + q * bt) / (aa + bb)); [field; exact Et|]. rewrite Z. field. exact Et.
  - apply Qeq_bool_neq in Ed. eexists _, _. split; [reflexivity|]. apply normal_least; [exact E | |].
    + intros p q. rewrite Lin. field. exact Ed.
    + intros p q Z. rewrite Quad in Z.
      assert (Z1 : aa * p + ab * q == 0).
      { assert (S : (aa * p + ab * q) * (aa * p + ab * q) + (aa * bb - ab * ab) * (q * q) == 0). { transitivity (aa * (aa * (p * p) + 2 * ab * (p * q) + bb * (q * q))); [ring|]. rewrite Z. ring. }
        assert (CS : 0 <= aa * bb - ab * ab \/ aa == 0).
        { destruct (Qeq_dec aa 0) as [Za|Na]; [right; exact Za | left].
          pose proof (moment_nonneg (fun a b t => (a * (- ab) + b * aa) * (a * (- ab) + b * aa)) A B (fun a b t => square_nonneg _)) as X. rewrite Quad in X.
          assert (Y : aa * (- ab * - ab) + 2 * ab * (- ab * aa) + bb * (aa * aa) == aa * (aa * bb - ab * ab)) by ring. rewrite Y in X.
          destruct (Qlt_le_dec (aa * bb - ab * ab) 0) as [L|L]; [|exact L]. exfalso. assert (Pa : 0 < aa) by (destruct (Qlt_le_dec 0 aa); [assumption | exfalso; apply Na; lra]).
          pose proof (Qmult_lt_0_compat aa (- (aa * bb - ab * ab)) Pa ltac:(lra)) as M. lra. }
        destruct CS as [CS|Za].
        - pose proof (square_nonneg (aa * p + ab * q)). pose proof (Qmult_le_0_compat _ _ CS (square_nonneg q)). apply square_null. lra.
        - exfalso. apply Ed. assert (X : ab * ab == 0); [| rewrite Za; lra].
          pose proof (moment_null (fun a b t => b) (fun a b t => a) A B Za) as X. cbv beta in X. rewrite (moment_ext _ (fun a b t => a * b)) in X by (intros; ring). fold ab in X. rewrite X. ring. }
      assert (Z2 : ab * p + bb * q == 0).
      { assert (S : (ab * p + bb * q) * (ab * p + bb * q) + (aa * bb - ab * ab) * (p * p) == 0). { transitivity (bb * (aa * (p * p) + 2 * ab * (p * q) + bb * (q * q))); [ring|]. rewrite Z. ring. }
        assert (G : (aa * bb - ab * ab) * p == - (ab * (ab * p + bb * q))). { transitivity (bb * (aa * p + ab * q) - ab * (ab * p + bb * q)); [ring|]. rewrite Z1. ring. }
        assert (K : (ab * p + bb * q) * (ab * p + bb * q) == (ab * p + bb * q) * (bb * q) + (ab * p + bb * q) * (ab * p)) by ring.
        assert (S' : (ab * p + bb * q) * (ab * p + bb * q) + p * ((aa * bb - ab * ab) * p) == 0) by (rewrite <- S; ring). rewrite G in S'.
        assert (S2 : bb * q * (ab * p + bb * q) == 0) by (rewrite <- S'; ring). apply Qmult_integral in S2. destruct S2 as [S2|S2]; [|exact S2].
        assert (Eq : q * (aa * p + ab * q) == 0) by (rewrite Z1; ring). assert (Zq : p * (aa * p) + q * (ab * p) == 0) by (transitivity (p * (aa * p + ab * q)); [ring | rewrite Z1; ring]).
        assert (S3 : ab * p * (ab * p) + (aa * bb - ab * ab) * (p * p) == 0). { assert (Y : ab * p + bb * q == ab * p) by (rewrite S2; ring). rewrite Y in S. exact S. }
        assert (S4 : aa * bb * (p * p) == 0) by (rewrite <- S3; ring).
        apply Qmult_integral in S4. destruct S4 as [S4|S4].
        - assert (Zab : ab * p == 0). { apply Qmult_integral in S4. destruct S4 as [Za|Zb].
            + apply square_null. pose proof (moment_null (fun a b t => b) (fun a b t => a) A B Za) as X. cbv beta in X. rewrite (moment_ext _ (fun a b t => a * b)) in X by (intros; ring). fold ab in X. rewrite X. ring.
            + apply square_null. pose proof (moment_null (fun a b t => a) (fun a b t => b) A B Zb) as X. cbv beta in X. fold ab in X. rewrite X. ring. }
          rewrite Zab, S2. ring.
        - apply square_null in S4. rewrite S4, S2. ring. }
      assert (Gp : (aa * bb - ab * ab) * p == 0). { transitivity (bb * (aa * p + ab * q) - ab * (ab * p + bb * q)); [ring|]. rewrite Z1, Z2. ring. }
      assert (Gq : (aa * bb - ab * ab) * q == 0). { transitivity (aa * (ab * p + bb * q) - ab * (aa * p + ab * q)); [ring|]. rewrite Z1, Z2. ring. }
      apply Qmult_integral in Gp. apply Qmult_integral in Gq. destruct Gp as [Gp|Gp]; [contradiction|]. destruct Gq as [Gq|Gq]; [contradiction|]. rewrite Gp, Gq. ring.
Qed.

Definition w15_value (x : num) : num := x.
(** A resampling of the first order. *)
Definition build (n m : nat) (f : nat -> nat -> Q) : list (list num) := map (fun i => map (fun j => Some (f i j)) (seq 0 m)) (seq 0 n).
Definition lk_resample (W : list (list num)) (a b : num) : list (list num) :=
  match numbers w15_value W, a, b with
  | Some L, Some x, Some y => build (length L) (length (hd [] L)) (fun i j => value_at L i j - x * grad_y (length L) L i j - y * grad_x (length (hd [] L)) L i j)
  | _, _, _ => W
  end.

Lemma build_shows n f g : (forall i j, (i < n)%nat -> (j < n)%nat -> g i j == f i j) -> shows_values w15_value n f (build n n g).
Proof.
  intros H. split.
  - split; [unfold build; rewrite map_length, seq_length; reflexivity|]. apply Forall_forall. intros l Hl. apply in_map_iff in Hl. destruct Hl as (i & <- & _). rewrite map_length, seq_length. reflexivity.
  - intros i j Hi Hj. exists (Some (g i j)), (g i j). split; [|split; [reflexivity | apply H; assumption]]. unfold nth2, build.
    assert (S : forall k N, (k < N)%nat -> nth_error (seq 0 N) k = Some k). { intros k N Hk. rewrite (nth_error_nth' _ 0%nat) by (rewrite seq_length; exact Hk). rewrite seq_nth by exact Hk. reflexivity. }
    rewrite (map_nth_error _ i (seq 0 n) (S i n Hi)). apply (map_nth_error (fun j => Some (g i j)) j (seq 0 n) (S j n Hj)).
Qed.

Lemma lk_resample_keeps : keeps_windows w15_value lk_resample.
Proof.
  intros n f W a b [R H] (x & -> & Hx) (y & -> & Hy). destruct (window_numbers w15_value n f W n R H) as (L & EL & [LL FL] & HL). unfold lk_resample. rewrite EL.
  destruct L as [|c L].
  - cbn in LL. subst n. cbn. split; [split; [reflexivity | constructor] | intros; lia].
  - assert (Eh : length (hd [] (c :: L)) = n) by (inversion FL; assumption). rewrite LL, Eh. apply build_shows. intros i j Hi Hj. rewrite Hx, Hy, (HL i j Hi Hj). ring.
Qed.

(** A window i * j, and the same window a quarter of row further. *)
Definition w15_f (i j : nat) : Q := inject_Z (Z.of_nat i) * inject_Z (Z.of_nat j).
Definition w15_g (i j : nat) : Q := (inject_Z (Z.of_nat i) + (1 # 4)) * inject_Z (Z.of_nat j).
Definition w15_sx (i j : nat) : Q := inject_Z (Z.of_nat i).
Definition w15_sy (i j : nat) : Q := inject_Z (Z.of_nat j).
Definition w15_unsolved (l r : list (list num)) : option (num * num) := None.

Ltac three i := let H := fresh in assert (H : i = 0%nat \/ i = 1%nat \/ i = 2%nat) by lia; destruct H as [-> | [-> | ->]].

Example C100_slopes_example : slopes 3 w15_f w15_sx w15_sy /\ textured 3 w15_sx w15_sy /\
  forall i j, (i < 3)%nat -> (j < 3)%nat -> w15_g i j == w15_f i j + (w15_sx i j * 0 + w15_sy i j * (1 # 4)).
Proof.
  split; [|split].
  - intros i j Hi Hj. unfold slope. three i; three j; split;
      first [left; split; [reflexivity | vm_compute; reflexivity] | right; left; split; [lia|]; split; [lia | vm_compute; reflexivity] | right; right; split; [lia|]; split; [lia | vm_compute; reflexivity]].
  - exists 1%nat, 0%nat, 0%nat, 1%nat. do 4 (split; [lia|]). vm_compute. discriminate.
  - intros i j Hi Hj. three i; three j; vm_compute; reflexivity.
Qed.
Example C100_exact_example : exists u v, motion (lk_lstsq w15_value lk_solve w15_unsolved) None (build 3 3 w15_f) (build 3 3 w15_g) = (Some u, Some v) /\ u == 0 /\ v == (1 # 4).
Proof.
  destruct C100_slopes_example as (S & T & G).
  apply (C100_exact w15_value lk_solve w15_unsolved None 3 w15_f w15_g w15_sx w15_sy 0 (1 # 4)); [apply lk_solve_least | lia | apply build_shows; reflexivity | apply build_shows; reflexivity | exact S | exact T | exact G].
Qed.
(** Four iterations from the disparities (2, 1): the rows are corrected. *)
Example C100_corrected_example : exists d', refined (lk_lstsq w15_value lk_solve w15_unsolved) lk_resample None (build 3 3 w15_f) 4 (build 3 3 w15_g) (Some 2, Some 1) d' /\
  is_number (fst d') (7 # 4) /\ is_number (snd d') 1.
Proof.
  destruct C100_slopes_example as (S & T & G).
  assert (B : forall drow dcol, is_number drow (1 # 4) -> is_number dcol 0 -> shows_values w15_value 3 w15_f (lk_resample (build 3 3 w15_g) drow dcol)).
  { intros drow dcol (x & -> & Hx) (y & -> & Hy). unfold lk_resample. change (numbers w15_value (build 3 3 w15_g)) with (Some (map (fun i => map (fun j => w15_g i j) (seq 0 3)) (seq 0 3))). cbn [length map seq hd].
    apply build_shows. intros i j Hi Hj. rewrite Hx, Hy. three i; three j; vm_compute; reflexivity. }
  assert (R : forall n l r d, exists d', refined (lk_lstsq w15_value lk_solve w15_unsolved) lk_resample None l n r d d').
  { induction n as [|n IH]; intros l r d; [exists d; constructor|]. destruct (motion (lk_lstsq w15_value lk_solve w15_unsolved) None l r) as [mcol mrow] eqn:E. destruct d as [drow dcol].
    assert (W : forall m, within_one m \/ ~ within_one m).
    { intros [q|]; [destruct (Qlt_le_dec (Qabs q) 1) as [L|L]|]; [left; exists q; auto | right; intros (p & Ep & Hp); injection Ep as <-; lra | right; intros (p & Ep & _); discriminate]. }
    assert (M : forall d m, exists d', moved d m d').
    { intros d [q|]; [destruct (Qlt_le_dec 1 (Qabs q)) as [L|L]|]; [exists d; left; split; [exists q; auto | reflexivity] | |]; (eexists; right; split; [|reflexivity]); intros (p & Ep & Hp); [injection Ep as <-; lra | discriminate]. }
    destruct (W mcol) as [W1|W1]; [destruct (W mrow) as [W2|W2]|].
    - destruct (IH l (lk_resample r mrow mcol) (nsub drow mrow, nsub dcol mcol)) as (d' & R'). exists d'. econstructor 2; eassumption.
    - destruct (M drow mrow) as (a & Ma). destruct (M dcol mcol) as (b & Mb). exists (a, b). econstructor 3; try eassumption. tauto.
    - destruct (M drow mrow) as (a & Ma). destruct (M dcol mcol) as (b & Mb). exists (a, b). econstructor 3; try eassumption. tauto. }
  destruct (R 4%nat (build 3 3 w15_f) (build 3 3 w15_g) (Some 2, Some 1)) as (d' & Rd). exists d'. split; [exact Rd|].
  destruct (C100_corrected w15_value lk_solve w15_unsolved lk_resample None 3 3 w15_f w15_g w15_sx w15_sy 0 (1 # 4) (build 3 3 w15_f) (build 3 3 w15_g) 2 1 d') as [(x & Ex & Hx) (y & Ey & Hy)];
    [apply lk_solve_least | apply lk_resample_keeps | lia | apply build_shows; reflexivity | apply build_shows; reflexivity | exact S | exact T | exact G | reflexivity | reflexivity | exact B | exact Rd |].
  split; [exists x; split; [exact Ex | rewrite Hx; reflexivity] | exists y; split; [exact Ey | rewrite Hy; reflexivity]].
Qed.

(** All the slopes along the columns. *)
Definition w15_ramp (i j : nat) : Q := inject_Z (Z.of_nat j).
Example C100_direction_example : slopes 3 w15_ramp (fun _ _ => 1) (fun _ _ => 0) /\
  exists u v, motion (lk_lstsq w15_value lk_solve w15_unsolved) None (build 3 3 w15_ramp) (build 3 3 w15_g) = (Some u, Some v) /\ v == 0 /\ ~ u == 0.
Proof.
  assert (S : slopes 3 w15_ramp (fun _ _ => 1) (fun _ _ => 0)).
  { intros i j Hi Hj. unfold slope. three i; three j; split;
      first [left; split; [reflexivity | vm_compute; reflexivity] | right; left; split; [lia|]; split; [lia | vm_compute; reflexivity] | right; right; split; [lia|]; split; [lia | vm_compute; reflexivity]]. }
  split; [exact S|].
  destruct (C100_direction w15_value lk_solve w15_unsolved None 3 w15_ramp w15_g (fun _ _ => 1) (fun _ _ => 0) 1 0 (build 3 3 w15_ramp) (build 3 3 w15_g)) as (u & v & E & D);
    [apply lk_solve_least | lia | apply build_shows; reflexivity | apply build_shows; reflexivity | exact S | lra | intros; ring |].
  exists u, v. split; [exact E|]. split; [lra|]. vm_compute in E. injection E as <- _. vm_compute. discriminate.
Qed.
Example C100_still_example : exists u v, motion (lk_lstsq w15_value lk_solve w15_unsolved) None (build 3 3 w15_f) (build 3 3 w15_f) = (Some u, Some v) /\ u == 0 /\ v == 0.
Proof. apply (C100_still w15_value lk_solve w15_unsolved None 3 w15_f); [apply lk_solve_least | lia | apply build_shows; reflexivity | apply build_shows; reflexivity]. Qed.
Example C100_flat_example : exists u v, motion (lk_lstsq w15_value lk_solve w15_unsolved) None (build 3 3 (fun _ _ => 7)) (build 3 3 w15_f) = (Some u, Some v) /\ u == 0 /\ v == 0.
Proof. apply (C100_flat w15_value lk_solve w15_unsolved None 3 (fun _ _ => 7) w15_f); [apply lk_solve_least | lia | apply build_shows; reflexivity | apply build_shows; reflexivity | reflexivity]. Qed.

(** A change of brightness, without any motion, is measured as a motion of half a column. *)
Theorem C100_brightness_refuted : exists n f g c l r, (2 <= n)%nat /\ shows_values w15_value n f l /\ shows_values w15_value n g r /\ (forall i j, g i j == f i j + c) /\
  forall solve unsolved invalid, least_squares solve -> exists u v, motion (lk_lstsq w15_value solve unsolved) invalid l r = (Some u, Some v) /\ u == (1 # 2) /\ v == 0.
Proof.
  exists 3%nat, w15_ramp, (fun i j => w15_ramp i j + (1 # 2)), (1 # 2), (build 3 3 w15_ramp), (build 3 3 (fun i j => w15_ramp i j + (1 # 2))).
  split; [lia|]. split; [apply build_shows; reflexivity|]. split; [apply build_shows; reflexivity|]. split; [reflexivity|]. intros solve unsolved invalid Hs.
  destruct C100_direction_example as [S _].
  destruct (C100_motion w15_value solve unsolved invalid 3 w15_ramp (fun i j => w15_ramp i j + (1 # 2)) (fun _ _ => 1) (fun _ _ => 0) (build 3 3 w15_ramp) (build 3 3 (fun i j => w15_ramp i j + (1 # 2))) Hs ltac:(lia)) as (u & v & E & L & _);
    [apply build_shows; reflexivity | apply build_shows; reflexivity | exact S |].
  exists u, v. split; [exact E|].
  assert (Z : mismatch 3 w15_ramp (fun i j => w15_ramp i j + (1 # 2)) (fun _ _ => 1) (fun _ _ => 0) (1 # 2) 0 == 0) by (apply mismatch_exact; intros; ring).
  pose proof (proj1 L (1 # 2) 0) as B. pose proof (mismatch_nonneg 3 w15_ramp (fun i j => w15_ramp i j + (1 # 2)) (fun _ _ => 1) (fun _ _ => 0) u v) as P. cbv beta in *.
  assert (N : mismatch 3 w15_ramp (fun i j => w15_ramp i j + (1 # 2)) (fun _ _ => 1) (fun _ _ => 0) u v == 0) by lra.
  pose proof (mismatch_null _ _ _ _ _ u v N 0%nat 0%nat ltac:(lia) ltac:(lia)) as N0. cbv beta in N0. split; [lra|].
  pose proof (least_along _ _ _ _ _ u v 1 0 L ltac:(lra) (fun i j _ _ => ltac:(cbv beta; ring))) as D. lra.
Qed.

(** Without texture a motion is not measured: half a row of motion of a ramp along the columns. *)
Theorem C100_without_texture_refuted : exists n f g sx sy u0 v0 l r, (2 <= n)%nat /\ shows_values w15_value n f l /\ shows_values w15_value n g r /\ slopes n f sx sy /\
  (forall i j, g i j == f i j + (sx i j * u0 + sy i j * v0)) /\ v0 == (1 # 2) /\
  forall solve unsolved invalid, least_squares solve -> exists u v, motion (lk_lstsq w15_value solve unsolved) invalid l r = (Some u, Some v) /\ v == 0.
Proof.
  exists 3%nat, w15_ramp, w15_ramp, (fun _ _ => 1), (fun _ _ => 0), 0, (1 # 2), (build 3 3 w15_ramp), (build 3 3 w15_ramp).
  split; [lia|]. split; [apply build_shows; reflexivity|]. split; [apply build_shows; reflexivity|]. split; [apply C100_direction_example|]. split; [intros; ring|]. split; [reflexivity|].
  intros solve unsolved invalid Hs. destruct (C100_still w15_value solve unsolved invalid 3 w15_ramp (build 3 3 w15_ramp) (build 3 3 w15_ramp) Hs ltac:(lia)) as (u & v & E & _ & V); [apply build_shows; reflexivity | apply build_shows; reflexivity|].
  exists u, v. split; [exact E | exact V].
Qed.

Print Assumptions C100_motion.
Print Assumptions C100_still.
Print Assumptions C100_flat.
Print Assumptions C100_exact.
Print Assumptions C100_direction.
Print Assumptions C100_kept.
Print Assumptions C100_corrected.
Print Assumptions C100_brightness_refuted.
Print Assumptions C100_without_texture_refuted.
