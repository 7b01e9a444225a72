(** The refinement by interpolation only depends on the numbers it is given. *)
From Coq Require Import List String Bool ZArith QArith Lia Lqa.
From Verif Require Import Base.Ext Base.PyList Base.Arr Base.Json Model.CommonModel Model.DisparityModel Model.InputModel Model.OpticalFlowModel Model.InterpolationModel
  Spec.InterpolationSpec Spec.WholeSpec Spec.WholeFlowSpec Spec.WholeInterpSpec Spec.InterpUniqueSpec Proofs.WtaTheorems Proofs.WholeMoreProofs.
Import ListNotations.
Open Scope nat_scope.

Lemma same_cost_refl c : same_cost c c.
Proof. destruct c; cbn; auto. reflexivity. Qed.
Lemma same_cost_sym a b : same_cost a b -> same_cost b a.
Proof. destruct a, b; cbn; auto. now symmetry. Qed.
Lemma same_cost_trans a b c : same_cost a b -> same_cost b c -> same_cost a c.
Proof. destruct a, b, c; cbn; auto; try contradiction; congruence || (intros; etransitivity; eassumption). Qed.
Lemma usable_same t a b : same_cost a b -> usable t a -> usable t b.
Proof. unfold usable. destruct a, b; cbn; try contradiction; auto; try (intros; split; discriminate). intros <-. auto. Qed.
Lemma oriented_same t a b : same_cost a b -> same_cost (oriented t a) (oriented t b).
Proof. destruct t, a, b; cbn; auto; try contradiction. - intros E. now rewrite E. - now intros ->. Qed.
Lemma c_abs_same a b : same_cost a b -> same_cost (c_abs a) (c_abs b).
Proof. destruct a, b; cbn; auto; try contradiction. intros E. now rewrite E. Qed.

(** Two tables with the same numbers. *)
Definition alike (S S' : list (list cost)) : Prop :=
  List.length S = List.length S' /\ (forall j l l', nth_error S j = Some l -> nth_error S' j = Some l' -> List.length l = List.length l') /\
  forall j i x x', nth2 S j i = Some x -> nth2 S' j i = Some x' -> same_cost x x'.
Lemma alike_sym S S' : alike S S' -> alike S' S.
Proof. intros (A & B & C). split; [auto|]. split; [intros; symmetry; eauto | intros; apply same_cost_sym; eauto]. Qed.
Lemma alike_at S S' j i x : alike S S' -> nth2 S j i = Some x -> exists x', nth2 S' j i = Some x' /\ same_cost x x'.
Proof.
  intros (A & B & C) E. pose proof E as E0. unfold nth2 in E. destruct (nth_error S j) as [l|] eqn:El; [|discriminate].
  assert (J : j < List.length S') by (rewrite <- A; apply nth_error_Some; congruence). apply nth_error_Some in J. destruct (nth_error S' j) as [l'|] eqn:El'; [|congruence].
  assert (I : i < List.length l') by (rewrite <- (B _ _ _ El El'); apply nth_error_Some; congruence). apply nth_error_Some in I. destruct (nth_error l' i) as [x'|] eqn:Ex; [|congruence].
  assert (E' : nth2 S' j i = Some x') by (unfold nth2; now rewrite El'). exists x'. split; [exact E' | eauto].
Qed.
Lemma without_alike t S S' j : alike S S' -> line_without t S j -> line_without t S' j.
Proof. intros A W i x E U. destruct (alike_at _ _ _ _ _ (alike_sym _ _ A) E) as (x' & E' & C). exact (W i x' E' (usable_same _ _ _ C U)). Qed.
Lemma first_alike t S S' j x : alike S S' -> first_of_line t S j x -> exists x', first_of_line t S' j x' /\ same_cost x x'.
Proof.
  intros A (i & E & U & F). destruct (alike_at _ _ _ _ _ A E) as (x' & E' & C). exists x'. split; [|exact C]. exists i. split; [exact E'|]. split; [eapply usable_same; eauto|].
  intros i' y L Ey Uy. destruct (alike_at _ _ _ _ _ (alike_sym _ _ A) Ey) as (z & Ez & Cz). exact (F i' z L Ez (usable_same _ _ _ Cz Uy)).
Qed.
Lemma last_alike t S S' j x : alike S S' -> last_of_line t S j x -> exists x', last_of_line t S' j x' /\ same_cost x x'.
Proof.
  intros A (i & E & U & F). destruct (alike_at _ _ _ _ _ A E) as (x' & E' & C). exists x'. split; [|exact C]. exists i. split; [exact E'|]. split; [eapply usable_same; eauto|].
  intros i' y L Ey Uy. destruct (alike_at _ _ _ _ _ (alike_sym _ _ A) Ey) as (z & Ez & Cz). exact (F i' z L Ez (usable_same _ _ _ Cz Uy)).
Qed.
Lemma first_unique t S j x y : first_of_line t S j x -> first_of_line t S j y -> x = y.
Proof.
  intros (i & E & U & F) (i' & E' & U' & F'). destruct (Nat.lt_trichotomy i i') as [L|[<-|L]]; [elim (F' i x L E U) | congruence | elim (F i' y L E' U')].
Qed.
Lemma last_unique t S j x y : last_of_line t S j x -> last_of_line t S j y -> x = y.
Proof.
  intros (i & E & U & F) (i' & E' & U' & F'). destruct (Nat.lt_trichotomy i i') as [L|[<-|L]]; [elim (F i' y L E' U') | congruence | elim (F' i x L E U)].
Qed.
Lemma first_line t S j x : first_of_line t S j x -> line_without t S j -> False.
Proof. intros (i & E & U & _) W. exact (W i x E U). Qed.
Lemma last_line t S j x : last_of_line t S j x -> line_without t S j -> False.
Proof. intros (i & E & U & _) W. exact (W i x E U). Qed.

Lemma replacement_alike t S S' j y : alike S S' -> replacement t S j y -> exists y', replacement t S' j y' /\ same_cost y y'.
Proof.
  intros A [(x & L & ->)|[(W & a & xa & b & xb & Hj & La & Fb & N & V)|[(b & xb & Hj & N & Fb & ->)|(a & xa & Hj & N & La & ->)]]].
  - destruct (last_alike _ _ _ _ _ A L) as (x' & L' & C). exists (oriented t x'). split; [left; eauto | now apply oriented_same].
  - destruct (last_alike _ _ _ _ _ A La) as (xa' & La' & Ca). destruct (first_alike _ _ _ _ _ A Fb) as (xb' & Fb' & Cb).
    apply (oriented_same t) in Ca, Cb. exists y. split; [|apply same_cost_refl]. right. left. split; [eapply without_alike; eauto|]. exists a, xa', b, xb'. split; [exact Hj|]. split; [exact La'|]. split; [exact Fb'|].
    split; [intros; eapply without_alike; eauto|]. destruct V as [(p & q & Ep & Eq & v & -> & Hv)|(I & ->)].
    + left. rewrite Ep in Ca. rewrite Eq in Cb. destruct (oriented t xa') as [| |p'] eqn:Ep'; try contradiction. destruct (oriented t xb') as [| |q'] eqn:Eq'; try contradiction.
      exists p', q'. split; [reflexivity|]. split; [reflexivity|]. exists v. split; [reflexivity|]. cbn in Ca, Cb. rewrite <- Ca, <- Cb. exact Hv.
    + right. split; [|reflexivity]. destruct I as [I|I]; [left|right]; intros p Hp.
      * rewrite Hp in Ca. destruct (oriented t xa) as [| |p0]; try contradiction. now apply (I p0).
      * rewrite Hp in Cb. destruct (oriented t xb) as [| |p0]; try contradiction. now apply (I p0).
  - destruct (first_alike _ _ _ _ _ A Fb) as (xb' & Fb' & Cb). exists (oriented t xb'). split; [|now apply oriented_same]. right. right. left. exists b, xb'. split; [exact Hj|]. split; [intros; eapply without_alike; eauto|]. auto.
  - destruct (last_alike _ _ _ _ _ A La) as (xa' & La' & Ca). exists (oriented t xa'). split; [|now apply oriented_same]. right. right. right. exists a, xa'. split; [exact Hj|]. split; [intros; eapply without_alike; eauto|]. auto.
Qed.
Lemma segment_unique (v v' p q a b c : Q) : (0 < a)%Q -> (v * a == p * b + q * c)%Q -> (v' * a == p * b + q * c)%Q -> (v == v')%Q.
Proof. intros Ha H H'. assert (E : (v * a == v' * a)%Q) by (rewrite H, H'; reflexivity). apply Qmult_inj_r in E; [exact E|]. intros X. rewrite X in Ha. discriminate. Qed.
Lemma replacement_unique t S j y y' : replacement t S j y -> replacement t S j y' -> same_cost y y'.
Proof.
  intros [(x & L & ->)|[(W & a & xa & b & xb & Hj & La & Fb & N & V)|[(b & xb & Hj & N & Fb & ->)|(a & xa & Hj & N & La & ->)]]]
    [(x' & L' & ->)|[(W' & a' & xa' & b' & xb' & Hj' & La' & Fb' & N' & V')|[(b' & xb' & Hj' & N' & Fb' & ->)|(a' & xa' & Hj' & N' & La' & ->)]]].
  - rewrite (last_unique _ _ _ _ _ L L'). apply same_cost_refl.
  - elim (last_line _ _ _ _ L W').
  - elim (last_line _ _ _ _ L (N' j Hj')).
  - elim (last_line _ _ _ _ L (N' j Hj')).
  - elim (last_line _ _ _ _ L' W).
  - assert (a = a'). { destruct (Nat.lt_trichotomy a a') as [X|[X|X]]; [|exact X|]; exfalso; [eapply last_line; [exact La' | apply N; lia] | eapply last_line; [exact La | apply N'; lia]]. }
    assert (b = b'). { destruct (Nat.lt_trichotomy b b') as [X|[X|X]]; [|exact X|]; exfalso; [eapply first_line; [exact Fb | apply N'; lia] | eapply first_line; [exact Fb' | apply N; lia]]. }
    subst a' b'. rewrite (last_unique _ _ _ _ _ La' La) in V'. rewrite (first_unique _ _ _ _ _ Fb' Fb) in V'.
    destruct V as [(p & q & Ep & Eq & v & -> & Hv)|(I & ->)], V' as [(p' & q' & Ep' & Eq' & v' & -> & Hv')|(I' & ->)].
    + rewrite Ep in Ep'. rewrite Eq in Eq'. injection Ep' as <-. injection Eq' as <-. cbn. eapply segment_unique; [|exact Hv | exact Hv']. change 0%Q with (inject_Z 0). rewrite <- Zlt_Qlt. lia.
    + exfalso. destruct I' as [I'|I']; eapply I'; eassumption.
    + exfalso. destruct I as [I|I]; eapply I; eassumption.
    + reflexivity.
  - exfalso. eapply last_line; [exact La | apply N'; lia].
  - exfalso. eapply first_line; [exact Fb | apply N'; lia].
  - elim (last_line _ _ _ _ L' (N j Hj)).
  - exfalso. eapply last_line; [exact La' | apply N; lia].
  - assert (b = b'). { destruct (Nat.lt_trichotomy b b') as [X|[X|X]]; [|exact X|]; exfalso; [eapply first_line; [exact Fb | apply N'; lia] | eapply first_line; [exact Fb' | apply N; lia]]. }
    subst b'. rewrite (first_unique _ _ _ _ _ Fb Fb'). apply same_cost_refl.
  - exfalso. eapply first_line; [exact Fb | apply N'; lia].
  - elim (last_line _ _ _ _ L' (N j Hj)).
  - exfalso. eapply first_line; [exact Fb' | apply N; lia].
  - exfalso. eapply first_line; [exact Fb' | apply N; lia].
  - assert (a = a'). { destruct (Nat.lt_trichotomy a a') as [X|[X|X]]; [|exact X|]; exfalso; [eapply last_line; [exact La' | apply N; lia] | eapply last_line; [exact La | apply N'; lia]]. }
    subst a'. rewrite (last_unique _ _ _ _ _ La La'). apply same_cost_refl.
Qed.
Lemma usable_dec t x : usable t x \/ ~ usable t x.
Proof. unfold usable. destruct t, x as [|[|]|]; try (left; split; discriminate); right; intros [A B]; congruence. Qed.
Lemma completed_alike t S S' F F' : alike S S' -> completed t S F -> completed t S' F' -> alike F F'.
Proof.
  intros A (L & R & V) (L' & R' & V'). pose proof A as (A1 & A2 & A3). split; [congruence|].
  assert (Len : forall (T G : list (list cost)) j l, List.length G = List.length T -> nth_error G j = Some l -> exists l0 : list cost, nth_error T j = Some l0).
  { intros T G j l E El. assert (J : j < List.length T) by (rewrite <- E; apply nth_error_Some; congruence). apply nth_error_Some in J. destruct (nth_error T j); [eauto | congruence]. }
  split.
  - intros j l l' E E'. destruct (Len S F j l L E) as (l0 & E0). destruct (Len S' F' j l' L' E') as (l0' & E0').
    rewrite (R _ _ _ E0 E), (R' _ _ _ E0' E'). eauto.
  - intros j i y y' E E'.
    assert (X : exists x, nth2 S j i = Some x).
    { unfold nth2 in E. destruct (nth_error F j) as [l|] eqn:El; [|discriminate]. destruct (Len S F j l L El) as (l0 & E0). unfold nth2. rewrite E0.
      assert (I : i < List.length l0) by (rewrite <- (R _ _ _ E0 El); apply nth_error_Some; congruence). apply nth_error_Some in I. destruct (nth_error l0 i); [eauto | congruence]. }
    destruct X as (x & Ex). destruct (alike_at _ _ _ _ _ A Ex) as (x' & Ex' & C). destruct (V _ _ _ Ex) as (y0 & Ey & U1 & U2). destruct (V' _ _ _ Ex') as (y0' & Ey' & U1' & U2').
    rewrite E in Ey. injection Ey as <-. rewrite E' in Ey'. injection Ey' as <-.
    destruct (usable_dec t x) as [U|U].
    + rewrite (U1 U), (U1' (usable_same _ _ _ C U)). now apply oriented_same.
    + destruct (replacement_alike _ _ _ _ _ A (U2 U)) as (z & Rz & Cz). eapply same_cost_trans; [exact Cz|]. eapply replacement_unique; [exact Rz|]. apply U2'. intros Hu. apply U. eapply usable_same; [apply same_cost_sym; exact C | exact Hu].
Qed.
Lemma alike_lists S S' : alike S S' -> Forall2 (Forall2 same_cost) S S'.
Proof.
  assert (G : forall (A : Type) (P : A -> A -> Prop) l l', List.length l = List.length l' -> (forall i x x', nth_error l i = Some x -> nth_error l' i = Some x' -> P x x') -> Forall2 P l l').
  { intros A P l. induction l as [|x l IH]; intros [|x' l'] E H; try discriminate; constructor; [apply (H 0); reflexivity|]. apply IH; [now injection E|]. intros i. apply (H (Datatypes.S i)). }
  intros (A & B & C). apply G; [exact A|]. intros j l l' E E'. apply G; [eauto|]. intros i x x' Ex Ex'. apply (C j i); unfold nth2; [now rewrite E | now rewrite E'].
Qed.
Open Scope Z_scope.
Lemma axis_unique (all : Z -> Prop) subpix f l f' l' : axis all subpix f l -> axis all subpix f' l' -> f = f' /\ List.length l = List.length l' /\ Forall2 Qeq l l'.
Proof.
  intros (lo & hi & Le & A & Ef & Len & V) (lo' & hi' & Le' & A' & Ef' & Len' & V').
  assert (lo = lo' /\ hi = hi').
  { pose proof (proj1 (A' lo) (proj2 (A lo) ltac:(lia))). pose proof (proj1 (A' hi) (proj2 (A hi) ltac:(lia))). pose proof (proj1 (A lo') (proj2 (A' lo') ltac:(lia))). pose proof (proj1 (A hi') (proj2 (A' hi') ltac:(lia))). lia. }
  destruct H as [<- <-]. assert (Hf : f' = f) by congruence. clear Ef'. subst f'. assert (El : List.length l = List.length l') by lia. split; [reflexivity|]. split; [exact El|].
  assert (G : forall i x x', nth_error l i = Some x -> nth_error l' i = Some x' -> (x == x')%Q) by (intros i x x' E E'; rewrite (V _ _ E), (V' _ _ E'); reflexivity).
  clear - El G. revert l' El G. induction l as [|x l IH]; intros [|x' l'] El G; try discriminate; constructor; [apply (G O); reflexivity|]. apply IH; [now injection El|]. intros i. apply (G (Datatypes.S i)).
Qed.
Lemma forall2_nth {A} (P : A -> A -> Prop) l l' i x x' : Forall2 P l l' -> nth_error l i = Some x -> nth_error l' i = Some x' -> P x x'.
Proof. intros H. revert i. induction H as [|a b l l' Hab H IH]; intros [|i] E E'; try discriminate; [cbn in *; congruence | eauto]. Qed.
Lemma ends_unique l l' a b a' b' : Forall2 Qeq l l' -> List.length l = List.length l' -> first_last l a b -> first_last l' a' b' -> (a == a')%Q /\ (b == b')%Q.
Proof. intros H E [A B] [A' B']. rewrite <- E in B'. split; eapply forall2_nth; eauto. Qed.
(** The numbers of two tables of the same samples. *)
Lemma table_alike one s s' fr n fc m S S' : (forall j i, (j < n)%nat -> (i < m)%nat -> s (fr + Z.of_nat j) (fc + Z.of_nat i) = s' (fr + Z.of_nat j) (fc + Z.of_nat i)) ->
  table one s fr n fc m S -> table one s' fr n fc m S' -> alike S S'.
Proof.
  intros E ([R1 R2] & V) ([R1' R2'] & V'). split; [congruence|]. split.
  - intros j l l' H H'. pose proof (proj1 (Forall_forall _ _) R2 l (nth_error_In _ _ H)). pose proof (proj1 (Forall_forall _ _) R2' l' (nth_error_In _ _ H')). cbn in *. congruence.
  - intros j i x x' H H'. pose proof H as H0. unfold nth2 in H. destruct (nth_error S j) as [l|] eqn:El; [|discriminate].
    assert (J : (j < n)%nat) by (rewrite <- R1; apply nth_error_Some; congruence). pose proof (proj1 (Forall_forall _ _) R2 l (nth_error_In _ _ El)) as Hl. cbn in Hl.
    assert (I : (i < m)%nat) by (rewrite <- Hl; apply nth_error_Some; congruence). destruct (V j i J I) as (c & Ec & Sc). destruct (V' j i J I) as (c' & Ec' & Sc').
    rewrite H0 in Ec. injection Ec as <-. rewrite H' in Ec'. injection Ec' as <-. rewrite <- (E j i J I) in Sc'. eapply number_same; eauto.
Qed.
Lemma num_eq_save a b c d : num_eq a b -> saved_number a c -> saved_number b d -> same_cost c d.
Proof. destruct a, b; cbn; try contradiction; intros E -> ->; cbn; auto. Qed.
Lemma interpolated_unique interp minimise one subpix t all_rows all_cols s s' a b a' b' vr vc vs vr' vc' vs' : uses_numbers interp minimise ->
  (forall lor hir loc hic dr dc, (forall d, all_rows d <-> lor <= d <= hir) -> (forall d, all_cols d <-> loc <= d <= hic) -> lor <= hir -> loc <= hic ->
    lor - 3 * subpix <= dr <= hir + 3 * subpix -> loc - 3 * subpix <= dc <= hic + 3 * subpix -> s dr dc = s' dr dc) ->
  num_eq a a' -> num_eq b b' ->
  interpolated interp minimise one subpix t all_rows all_cols s a b vr vc vs -> interpolated interp minimise one subpix t all_rows all_cols s' a' b' vr' vc' vs' ->
  same_cost vr vr' /\ same_cost vc vc' /\ same_cost vs vs'.
Proof.
  intros [U1 U2] E Ea Eb (fr & drow & fc & dcol & r0 & r1 & c0 & c1 & S & Ar & Ac & Lr & Lc & T & H) (fr' & drow' & fc' & dcol' & r0' & r1' & c0' & c1' & S' & Ar' & Ac' & Lr' & Lc' & T' & H').
  destruct (axis_unique _ _ _ _ _ _ Ar Ar') as (<- & Er & Fr). destruct (axis_unique _ _ _ _ _ _ Ac Ac') as (<- & Ec & Fc).
  destruct (ends_unique _ _ _ _ _ _ Fr Er Lr Lr') as [Q1 Q2]. destruct (ends_unique _ _ _ _ _ _ Fc Ec Lc Lc') as [Q3 Q4]. rewrite <- Er, <- Ec in T'.
  assert (A : alike S S').
  { eapply table_alike; [|exact T | exact T']. destruct Ar as (lo & hi & L1 & A1 & A2 & A3 & _), Ac as (lo' & hi' & L2 & B1 & B2 & B3 & _).
    intros j i J I. apply (E lo hi lo' hi'); auto; lia. }
  assert (N : nothing_usable t S <-> nothing_usable t S').
  { split; intros N j i x Ex U; [destruct (alike_at _ _ _ _ _ (alike_sym _ _ A) Ex) as (x' & Ex' & C) | destruct (alike_at _ _ _ _ _ A Ex) as (x' & Ex' & C)]; exact (N j i x' Ex' (usable_same _ _ _ C U)). }
  destruct H as [(Hn & -> & -> & ->)|(Hn & F & u & v & Cf & Em & V1 & V2 & ->)], H' as [(Hn' & -> & -> & ->)|(Hn' & F' & u' & v' & Cf' & Em' & V1' & V2' & ->)]; try tauto.
  - cbn. auto.
  - assert (X : forall x x' y y', num_eq x x' -> num_eq y y' -> same_cost (interp dcol drow F x y) (interp dcol' drow' F' x' y')).
    { intros. apply U1; auto. apply alike_lists. eapply completed_alike; eauto. }
    destruct (U2 _ _ b b' a a' c0 c0' c1 c1' r0 r0' r1 r1' X Eb Ea Q3 Q4 Q1 Q2) as [W1 W2]. rewrite Em, Em' in W1, W2. cbn [fst snd] in W1, W2.
    split; [exact (num_eq_save _ _ _ _ W2 V1 V1')|]. split; [exact (num_eq_save _ _ _ _ W1 V2 V2')|]. apply c_abs_same. apply X; assumption.
Qed.
Lemma interpolated_all interp minimise one subpix t (R R' C C' : Z -> Prop) s a b vr vc vs : (forall d, R d <-> R' d) -> (forall d, C d <-> C' d) ->
  interpolated interp minimise one subpix t R C s a b vr vc vs -> interpolated interp minimise one subpix t R' C' s a b vr vc vs.
Proof.
  intros ER EC (fr & drow & fc & dcol & r0 & r1 & c0 & c1 & S & Ar & Ac & H). exists fr, drow, fc, dcol, r0, r1, c0, c1, S.
  assert (G : forall (P P' : Z -> Prop) f l, (forall d, P d <-> P' d) -> axis P subpix f l -> axis P' subpix f l).
  { intros P P' f l E (lo & hi & A & B & D). exists lo, hi. split; [exact A|]. split; [intros d; rewrite <- E; apply B | exact D]. }
  split; [eapply G; eauto|]. split; [eapply G; eauto | exact H].
Qed.
Lemma in_pixels_eq subpix d a a' : in_pixels subpix d a -> in_pixels subpix d a' -> num_eq a a'.
Proof. intros (p & -> & E) (q & -> & E'). cbn. now rewrite E, E'. Qed.
Lemma finite_part_eq c c' a a' : same_cost c c' -> finite_part c a -> finite_part c' a' -> num_eq a a'.
Proof. destruct c, c'; cbn; try contradiction; intros H -> ->; cbn; auto. Qed.
Lemma single_int one z : single_value one (JInt z).
Proof. intros a b A B. inversion A; subst. inversion B; subst. cbn. etransitivity; [eassumption | now symmetry]. Qed.
Lemma single_nan one : single_value one JNan.
Proof. intros a b A B. inversion A; subst. inversion B; subst. cbn. auto. Qed.
Lemma single_inf one s : single_value one (JInf s).
Proof. intros a b A B. inversion A; subst. inversion B; subst. cbn. auto. Qed.
