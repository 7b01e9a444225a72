(** The chunked loops compute the pixel-wise map. *)
From Coq Require Import ZArith List Lia Bool Arith.
From Verif Require Import Base.Ext Base.PyList Model.DisparityModel.
Import ListNotations.

(** *** map_opt *)
Lemma map_opt_length {A B} (f : A -> option B) l r : map_opt f l = Some r -> length r = length l.
Proof.
  revert r. induction l as [|a l IH]; simpl; intros r H.
  - injection H as <-. reflexivity.
  - destruct (f a); try discriminate. destruct (map_opt f l); try discriminate.
    injection H as <-. simpl. f_equal. auto.
Qed.

Lemma map_opt_firstn {A B} (f : A -> option B) n l r :
  map_opt f l = Some r -> map_opt f (firstn n l) = Some (firstn n r).
Proof.
  revert n r. induction l as [|a l IH]; simpl; intros n r H.
  - injection H as <-. rewrite !firstn_nil. reflexivity.
  - destruct (f a) eqn:Ha; try discriminate. destruct (map_opt f l) eqn:Hl; try discriminate.
    injection H as <-. destruct n; simpl; auto. rewrite Ha, (IH n l0 eq_refl). reflexivity.
Qed.

Lemma map_opt_skipn {A B} (f : A -> option B) n l r :
  map_opt f l = Some r -> map_opt f (skipn n l) = Some (skipn n r).
Proof.
  revert n r. induction l as [|a l IH]; simpl; intros n r H.
  - injection H as <-. rewrite !skipn_nil. reflexivity.
  - destruct (f a) eqn:Ha; try discriminate. destruct (map_opt f l) eqn:Hl; try discriminate.
    injection H as <-. destruct n; simpl; auto. rewrite Ha, Hl. reflexivity.
Qed.

Lemma map_opt_slice {A B} (f : A -> option B) s e l r :
  map_opt f l = Some r -> map_opt f (slice s e l) = Some (slice s e r).
Proof. intros. unfold slice. apply map_opt_firstn, map_opt_skipn; auto. Qed.

Lemma map_opt_map_slice {A B} (f : A -> option B) s e l r :
  map_opt (map_opt f) l = Some r ->
  map_opt (map_opt f) (map (slice s e) l) = Some (map (slice s e) r).
Proof.
  revert r. induction l as [|a l IH]; simpl; intros r H.
  - injection H as <-. reflexivity.
  - destruct (map_opt f a) eqn:Ha; try discriminate.
    destruct (map_opt (map_opt f) l) eqn:Hl; try discriminate.
    injection H as <-. rewrite (map_opt_slice f s e a l0 Ha), (IH _ eq_refl). reflexivity.
Qed.

Lemma map_opt_Forall_len {A B} (f : A -> option B) n l r :
  map_opt (map_opt f) l = Some r -> Forall (fun x => length x = n) l ->
  Forall (fun x => length x = n) r.
Proof.
  revert r. induction l as [|a l IH]; simpl; intros r H HF.
  - injection H as <-. constructor.
  - destruct (map_opt f a) eqn:Ha; try discriminate.
    destruct (map_opt (map_opt f) l) eqn:Hl; try discriminate.
    injection H as <-. inversion HF; subst. constructor; auto.
    eapply map_opt_length; eauto.
Qed.

Lemma map_opt_nth {A B} (f : A -> option B) l r i :
  map_opt f l = Some r ->
  nth_error r i = match nth_error l i with Some a => f a | None => None end.
Proof.
  revert r i. induction l as [|a l IH]; simpl; intros r i H.
  - injection H as <-. destruct i; reflexivity.
  - destruct (f a) eqn:Ha; try discriminate. destruct (map_opt f l) eqn:Hl; try discriminate.
    injection H as <-. destruct i; simpl; auto.
Qed.

Lemma map_opt_total {A B} (f : A -> option B) l :
  (forall a, In a l -> f a <> None) -> exists r, map_opt f l = Some r.
Proof.
  induction l as [|a l IH]; simpl; intros H; eauto.
  destruct (f a) eqn:Ha; [|exfalso; apply (H a); auto].
  destruct IH as [r ->]; eauto.
Qed.

Lemma map_opt_ext {A B} (f g : A -> option B) l :
  (forall a, In a l -> f a = g a) -> map_opt f l = map_opt g l.
Proof.
  induction l as [|a l IH]; simpl; intros H; auto.
  rewrite (H a), IH; auto.
Qed.

(** *** Rows under construction *)
Definition mix {A} (p : nat) (res old : list A) : list A := firstn p res ++ skipn p old.
Fixpoint zipw {A B C} (f : A -> B -> C) (la : list A) (lb : list B) : list C :=
  match la, lb with
  | a :: la', b :: lb' => f a b :: zipw f la' lb'
  | _, _ => []
  end.

Lemma skipn_skipn' {A} (a b : nat) (l : list A) : skipn a (skipn b l) = skipn (a + b) l.
Proof.
  revert l. induction b; intros l.
  - rewrite Nat.add_0_r. reflexivity.
  - rewrite Nat.add_succ_r. destruct l; simpl; auto. apply skipn_nil.
Qed.

Lemma firstn_slice_app {A} (l : list A) p q : p <= q -> firstn p l ++ slice p q l = firstn q l.
Proof.
  intros H. unfold slice. replace q with (p + (q - p)) at 2 by lia.
  revert p q H. induction l as [|a l IH]; intros p q H.
  - rewrite !firstn_nil, skipn_nil, firstn_nil. reflexivity.
  - destruct p; simpl; auto. destruct q; [lia|]. f_equal. simpl.
    replace (q - p) with (q - p) by lia. apply IH. lia.
Qed.

Lemma slice_skipn_app {A} (l : list A) p q : p <= q -> slice p q l ++ skipn q l = skipn p l.
Proof.
  intros H. unfold slice. replace (skipn q l) with (skipn (q - p) (skipn p l)).
  apply firstn_skipn. rewrite skipn_skipn'. f_equal. lia.
Qed.

Lemma slice_length {A} (l : list A) p q : q <= length l -> length (slice p q l) = q - p.
Proof. intros. unfold slice. rewrite firstn_length, skipn_length. lia. Qed.

Lemma slice_mid {A} (pre mid post : list A) rb h :
  length pre = rb -> length mid = h -> slice rb (rb + h) (pre ++ mid ++ post) = mid.
Proof.
  intros <- <-. unfold slice.
  rewrite skipn_app, skipn_all, Nat.sub_diag. simpl.
  rewrite firstn_app. replace (length pre + length mid - length pre) with (length mid) by lia.
  rewrite firstn_all, Nat.sub_diag. simpl. apply app_nil_r.
Qed.

Lemma assign1_mix {A} (d p q : nat) (res old : list A) :
  p <= q -> q <= d -> length res = d -> length old = d ->
  assign1 p (q - p) (slice p q res) (mix p res old) = Some (mix q res old).
Proof.
  intros Hpq Hq Hr Ho. unfold assign1, mix.
  assert (Hp : length (firstn p res) = p) by (rewrite firstn_length; lia).
  assert (Hs : slice p (p + (q - p)) (firstn p res ++ skipn p old) = slice p q old).
  { replace (p + (q - p)) with q by lia. unfold slice.
    rewrite skipn_app, Hp, Nat.sub_diag. simpl.
    rewrite (skipn_all2 (firstn p res)) by lia. reflexivity. }
  rewrite Hs, !slice_length by lia. rewrite Nat.eqb_refl. f_equal.
  rewrite firstn_app, Hp, Nat.sub_diag. simpl. rewrite app_nil_r.
  rewrite (firstn_all2 (firstn p res)) by lia.
  rewrite app_assoc, firstn_slice_app by lia. f_equal.
  replace (p + (q - p)) with q by lia.
  rewrite skipn_app, Hp. rewrite (skipn_all2 (firstn p res)) by lia. simpl.
  rewrite skipn_skipn'. f_equal. lia.
Qed.

Lemma map2_assign1 {A} (d p q : nat) (res old : list (list A)) :
  p <= q -> q <= d ->
  Forall (fun x => length x = d) res -> Forall (fun x => length x = d) old ->
  length res = length old ->
  map2_opt (assign1 p (q - p)) (map (slice p q) res) (zipw (mix p) res old) = Some (zipw (mix q) res old).
Proof.
  intros Hpq Hq. revert old. induction res as [|r res IH]; intros [|o old] Hr Ho Hl; simpl in *; auto; try discriminate.
  inversion Hr; inversion Ho; subst.
  rewrite (assign1_mix (length r)) by auto. rewrite IH; auto.
Qed.

Lemma assign2_mid {A} (rb h cb w : nat) (pre mid post block new : list (list A)) :
  length pre = rb -> length mid = h ->
  map2_opt (assign1 cb w) block mid = Some new ->
  assign2 rb h cb w block (pre ++ mid ++ post) = Some (pre ++ new ++ post).
Proof.
  intros Hp Hm H. unfold assign2. rewrite (slice_mid pre mid post rb h Hp Hm), H. f_equal.
  subst. rewrite firstn_app, Nat.sub_diag. simpl. rewrite app_nil_r, firstn_all. f_equal. f_equal.
  rewrite app_assoc, <- app_length. rewrite skipn_app, skipn_all, Nat.sub_diag. reflexivity.
Qed.

Lemma zipw_mix0 {A} (res old : list (list A)) : length res = length old -> zipw (mix 0) res old = old.
Proof.
  revert old. induction res; intros [|o old]; simpl; intros; auto; try discriminate.
  f_equal. apply IHres. lia.
Qed.

Lemma zipw_mix_full {A} d (res old : list (list A)) :
  length res = length old ->
  Forall (fun x => length x = d) res -> Forall (fun x => length x = d) old -> zipw (mix d) res old = res.
Proof.
  revert old. induction res; intros [|o old]; simpl; intros Hl Hr Ho; auto; try discriminate.
  inversion Hr; inversion Ho; subst. rewrite IHres; auto. f_equal. unfold mix.
  rewrite firstn_all, skipn_all2 by lia. apply app_nil_r.
Qed.

Lemma zipw_length {A B C} (f : A -> B -> C) la lb : length la = length lb -> length (zipw f la lb) = length la.
Proof. revert lb. induction la; intros [|b lb]; simpl; intros; auto; try discriminate. Qed.

(** Increasing list of split indices. *)
Fixpoint inc_from (prev : nat) (idx : list nat) : Prop :=
  match idx with
  | [] => True
  | i :: r => prev <= i /\ inc_from i r
  end.

Lemma arange_inc start stop step : inc_from 0 (arange start stop step).
Proof.
  unfold arange. generalize ((stop - start + step - 1) / step) as n. intros n.
  assert (H : forall n k prev, prev <= start + k * step ->
             inc_from prev (map (fun k => start + k * step) (seq k n))).
  { clear. induction n; simpl; intros; auto. split; auto. apply IHn. simpl. lia. }
  apply H. lia.
Qed.

(** *** One band of rows *)
Lemma chunk_cols_spec {A B} (f : A -> option B) (bounds1 : list nat) (d1 : nat)
    (cv_row : list (list A)) (res : list (list B)) (pre old post : list (list B)) h :
  map_opt (map_opt f) cv_row = Some res ->
  Forall (fun x => length x = d1) cv_row ->
  Forall (fun x => length x = d1) old ->
  length cv_row = h -> length old = h -> inc_from 0 bounds1 ->
  chunk_cols f bounds1 d1 cv_row (length pre) h (pre ++ old ++ post) = Some (pre ++ res ++ post).
Proof.
  intros Hres Hd Hold Hh Hoh Hinc.
  assert (Hrd : Forall (fun x => length x = d1) res) by (eapply map_opt_Forall_len; eauto).
  assert (Hrl : length res = h) by (rewrite (map_opt_length _ _ _ Hres); auto).
  unfold chunk_cols, sections.
  match goal with |- context [fold_left ?g _ _] => set (step := g) end.
  assert (Hstep : forall p q, p <= q -> q <= d1 ->
    step (Some (p, pre ++ zipw (mix p) res old ++ post)) (p, q) =
    Some (q, pre ++ zipw (mix q) res old ++ post)).
  { intros p q Hpq Hq. unfold step.
    rewrite (map_opt_map_slice f p q _ _ Hres).
    rewrite (assign2_mid _ _ p (q - p) pre (zipw (mix p) res old) post _ (zipw (mix q) res old)); auto.
    - replace (p + (q - p)) with q by lia. reflexivity.
    - rewrite zipw_length; lia.
    - apply (map2_assign1 d1); auto. lia. }
  assert (H : forall idx prev, inc_from prev idx ->
     fold_left step (sections_from prev idx d1) (Some (min prev d1, pre ++ zipw (mix (min prev d1)) res old ++ post))
     = Some (d1, pre ++ zipw (mix d1) res old ++ post)).
  { induction idx as [|i idx IH]; intros prev Hi; cbn [sections_from fold_left].
    - apply Hstep; lia.
    - destruct Hi as [Hi1 Hi2]. rewrite Hstep by lia. apply IH. auto. }
  specialize (H bounds1 0 Hinc). simpl min in H.
  rewrite zipw_mix0 in H by lia. rewrite H.
  rewrite zipw_mix_full; auto. lia.
Qed.

(** *** The whole loop *)
Theorem chunked_spec {A B} (f : A -> option B) (init : B) b0 b1 d0 d1 (data : list (list A)) res :
  rect d0 d1 data -> inc_from 0 b0 -> inc_from 0 b1 ->
  map_opt (map_opt f) data = Some res ->
  chunked f init b0 b1 d0 d1 data = Some res.
Proof.
  intros [Hd0 Hd1] Hb0 Hb1 Hres.
  assert (Hrd : Forall (fun x => length x = d1) res) by (eapply map_opt_Forall_len; eauto).
  assert (Hrl : length res = d0) by (rewrite (map_opt_length _ _ _ Hres); auto).
  unfold chunked, sections.
  set (out0 := repeat (repeat init d1) d0).
  assert (Ho0 : length out0 = d0) by apply repeat_length.
  assert (Ho1 : Forall (fun x => length x = d1) out0).
  { apply Forall_forall. intros x Hx. apply repeat_spec in Hx. subst. apply repeat_length. }
  match goal with |- context [fold_left ?g _ _] => set (step := g) end.
  assert (Hstep : forall p q, p <= q -> q <= d0 ->
    step (Some (p, mix p res out0)) (p, q) = Some (q, mix q res out0)).
  { intros p q Hpq Hq. unfold step, mix.
    rewrite <- (slice_skipn_app out0 p q) by lia.
    assert (Hp : p = length (firstn p res)) by (rewrite firstn_length; lia).
    rewrite Hp at 2.
    rewrite (chunk_cols_spec f b1 d1 (slice p q data) (slice p q res)); auto.
    - rewrite app_assoc, firstn_slice_app by lia.
      replace (p + (q - p)) with q by lia. reflexivity.
    - apply map_opt_slice; auto.
    - rewrite Forall_forall in *. intros x Hx. apply Hd1.
      unfold slice in Hx. rewrite <- (firstn_skipn p data). apply in_or_app. right.
      rewrite <- (firstn_skipn (q-p) (skipn p data)). apply in_or_app. auto.
    - rewrite Forall_forall in *. intros x Hx. apply Ho1.
      unfold slice in Hx. rewrite <- (firstn_skipn p out0). apply in_or_app. right.
      rewrite <- (firstn_skipn (q-p) (skipn p out0)). apply in_or_app. auto.
    - apply slice_length. lia.
    - apply slice_length. lia. }
  assert (H : forall idx prev, inc_from prev idx ->
     fold_left step (sections_from prev idx d0) (Some (min prev d0, mix (min prev d0) res out0))
     = Some (d0, mix d0 res out0)).
  { induction idx as [|i idx IH]; intros prev Hi; cbn [sections_from fold_left].
    - apply Hstep; lia.
    - destruct Hi as [Hi1 Hi2]. rewrite Hstep by lia. apply IH. auto. }
  specialize (H b0 0 Hb0). simpl min in H. unfold mix at 1 in H. simpl in H.
  rewrite H. f_equal. unfold mix.
  rewrite firstn_all2, skipn_all2 by lia. apply app_nil_r.
Qed.
