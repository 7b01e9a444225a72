From Coq Require Import ZArith List Lia Bool Arith.
From Verif Require Import Base.Ext Base.PyList Base.Arr Model.CommonModel Spec.MaskSpec.
Import ListNotations.
Open Scope Z_scope.

Lemma put_masked_row_shape {A} (v : A) g0 g1 m k d d' : put_masked_row v g0 g1 m k d = Some d' -> same_shape4 d' d.
Proof. unfold put_masked_row. destruct (forall2b _ _ _); intros H; inversion H; subst. repeat split. Qed.

(** Value at a point after the loop over the row disparities [ks]. *)
Lemma loop_row_spec {A} (v : A) (g0 g1 : nat) (m : nat -> nat -> nat -> bool) ks (d d' : arr4 A) :
  fold_left (fun acc k => bind acc (put_masked_row v g0 g1 (m k) k)) ks (Some d) = Some d' ->
  same_shape4 d' d /\
  forall r c i j, a4_get d' r c i j =
    if existsb (Nat.eqb j) ks && (r <? g0)%nat && (c <? g1)%nat && m j r c then v else a4_get d r c i j.
Proof.
  revert d. induction ks as [|k ks IH]; intros d H.
  - simpl in H. inversion H; subst. split; [repeat split|]. reflexivity.
  - cbn [fold_left bind] in H. destruct (put_masked_row v g0 g1 (m k) k d) as [d1|] eqn:E.
    + destruct (IH d1 H) as [Hs Hg]. pose proof (put_masked_row_shape _ _ _ _ _ _ _ E) as Hs1. split.
      * destruct Hs as (?&?&?&?), Hs1 as (?&?&?&?). repeat split; congruence.
      * intros r c i j. rewrite Hg. unfold put_masked_row in E.
        destruct (forall2b _ _ _); inversion E; subst. simpl.
        destruct (Nat.eqb_spec j k) as [->|Hne]; simpl.
        -- destruct ((r <? g0)%nat && (c <? g1)%nat && m k r c) eqn:Em.
           ++ apply andb_prop in Em. destruct Em as [Em ->]. apply andb_prop in Em. destruct Em as [-> ->]. simpl.
              destruct (existsb _ ks); reflexivity.
           ++ destruct (existsb _ ks); simpl.
              ** rewrite Em. reflexivity.
              ** reflexivity.
        -- reflexivity.
    + exfalso. clear -H. induction ks; simpl in H; [discriminate|auto].
Qed.

Lemma loop_row_total {A} (v : A) (g0 g1 : nat) (m : nat -> nat -> nat -> bool) ks (d : arr4 A) :
  (forall k r c, In k ks -> (r < g0)%nat -> (c < g1)%nat -> m k r c = true -> (r < a4_n0 d)%nat /\ (c < a4_n1 d)%nat) <->
  exists d', fold_left (fun acc k => bind acc (put_masked_row v g0 g1 (m k) k)) ks (Some d) = Some d'.
Proof.
  revert d. induction ks as [|k ks IH]; intros d.
  - simpl. split; eauto. intros _ k r c [].
  - cbn [fold_left bind].
    assert (E : (forall r c, (r < g0)%nat -> (c < g1)%nat -> m k r c = true -> (r < a4_n0 d)%nat /\ (c < a4_n1 d)%nat) <->
       forall2b g0 g1 (fun r c => negb (m k r c) || ((r <? a4_n0 d)%nat && (c <? a4_n1 d)%nat)) = true).
    { rewrite forall2b_spec. split; intros H r c Hr Hc.
      - specialize (H r c Hr Hc). destruct (m k r c); simpl; auto. destruct H as [H1 H2]; auto.
        apply andb_true_intro. split; apply Nat.ltb_lt; auto.
      - specialize (H r c Hr Hc). intros Hm. rewrite Hm in H. simpl in H. apply andb_prop in H.
        destruct H as [H1 H2]. apply Nat.ltb_lt in H1, H2. auto. }
    unfold put_masked_row at 2.
    destruct (forall2b _ _ _) eqn:F.
    + cbn [bind]. rewrite <- IH. simpl. split.
      * intros H k' r c Hk. apply H. auto.
      * intros H k' r c [<-|Hk]; [|apply H; auto]. apply E. auto.
    + split.
      * intros H. exfalso. assert (false = true); [|discriminate]. apply E. intros r c. apply H. left; auto.
      * intros [d' H]. exfalso. clear -H. induction ks; simpl in H; [discriminate|auto].
Qed.

Lemma put_masked_col_shape {A} (v : A) g0 g1 m k d d' : put_masked_col v g0 g1 m k d = Some d' -> same_shape4 d' d.
Proof. unfold put_masked_col. destruct (forall2b _ _ _); intros H; inversion H; subst. repeat split. Qed.

Lemma loop_col_spec {A} (v : A) (g0 g1 : nat) (m : nat -> nat -> nat -> bool) ks (d d' : arr4 A) :
  fold_left (fun acc k => bind acc (put_masked_col v g0 g1 (m k) k)) ks (Some d) = Some d' ->
  same_shape4 d' d /\
  forall r c i j, a4_get d' r c i j =
    if existsb (Nat.eqb i) ks && (r <? g0)%nat && (c <? g1)%nat && m i r c then v else a4_get d r c i j.
Proof.
  revert d. induction ks as [|k ks IH]; intros d H.
  - simpl in H. inversion H; subst. split; [repeat split|]. reflexivity.
  - cbn [fold_left bind] in H. destruct (put_masked_col v g0 g1 (m k) k d) as [d1|] eqn:E.
    + destruct (IH d1 H) as [Hs Hg]. pose proof (put_masked_col_shape _ _ _ _ _ _ _ E) as Hs1. split.
      * destruct Hs as (?&?&?&?), Hs1 as (?&?&?&?). repeat split; congruence.
      * intros r c i j. rewrite Hg. unfold put_masked_col in E.
        destruct (forall2b _ _ _); inversion E; subst. simpl.
        destruct (Nat.eqb_spec i k) as [->|Hne]; simpl.
        -- destruct ((r <? g0)%nat && (c <? g1)%nat && m k r c) eqn:Em.
           ++ apply andb_prop in Em. destruct Em as [Em ->]. apply andb_prop in Em. destruct Em as [-> ->]. simpl.
              destruct (existsb _ ks); reflexivity.
           ++ destruct (existsb _ ks); simpl.
              ** rewrite Em. reflexivity.
              ** reflexivity.
        -- reflexivity.
    + exfalso. clear -H. induction ks; simpl in H; [discriminate|auto].
Qed.

Lemma loop_col_total {A} (v : A) (g0 g1 : nat) (m : nat -> nat -> nat -> bool) ks (d : arr4 A) :
  (forall k r c, In k ks -> (r < g0)%nat -> (c < g1)%nat -> m k r c = true -> (r < a4_n0 d)%nat /\ (c < a4_n1 d)%nat) <->
  exists d', fold_left (fun acc k => bind acc (put_masked_col v g0 g1 (m k) k)) ks (Some d) = Some d'.
Proof.
  revert d. induction ks as [|k ks IH]; intros d.
  - simpl. split; eauto. intros _ k r c [].
  - cbn [fold_left bind].
    assert (E : (forall r c, (r < g0)%nat -> (c < g1)%nat -> m k r c = true -> (r < a4_n0 d)%nat /\ (c < a4_n1 d)%nat) <->
       forall2b g0 g1 (fun r c => negb (m k r c) || ((r <? a4_n0 d)%nat && (c <? a4_n1 d)%nat)) = true).
    { rewrite forall2b_spec. split; intros H r c Hr Hc.
      - specialize (H r c Hr Hc). destruct (m k r c); simpl; auto. destruct H as [H1 H2]; auto.
        apply andb_true_intro. split; apply Nat.ltb_lt; auto.
      - specialize (H r c Hr Hc). intros Hm. rewrite Hm in H. simpl in H. apply andb_prop in H.
        destruct H as [H1 H2]. apply Nat.ltb_lt in H1, H2. auto. }
    unfold put_masked_col at 2.
    destruct (forall2b _ _ _) eqn:F.
    + cbn [bind]. rewrite <- IH. simpl. split.
      * intros H k' r c Hk. apply H. auto.
      * intros H k' r c [<-|Hk]; [|apply H; auto]. apply E. auto.
    + split.
      * intros H. exfalso. assert (false = true); [|discriminate]. apply E. intros r c. apply H. left; auto.
      * intros [d' H]. exfalso. clear -H. induction ks; simpl in H; [discriminate|auto].
Qed.

Lemma existsb_seq j n : existsb (Nat.eqb j) (seq 0 n) = (j <? n)%nat.
Proof.
  destruct (Nat.ltb_spec j n) as [H|H].
  - apply existsb_exists. exists j. split; [apply in_seq; lia|apply Nat.eqb_refl].
  - destruct (existsb _ _) eqn:E; auto. apply existsb_exists in E. destruct E as (x & Hx & Ex).
    apply in_seq in Hx. apply Nat.eqb_eq in Ex. lia.
Qed.

Lemma to_mask_none d dmin dmax : to_mask None d dmin dmax = true <-> ~ (dmin <= d <= dmax).
Proof. unfold to_mask. rewrite orb_true_iff, !Z.ltb_lt. lia. Qed.
Lemma to_mask_some g0 g1 d dmin dmax : g0 <= dmin -> dmax <= g1 -> dmin <= dmax ->
  (to_mask (Some (g0, g1)) d dmin dmax = true <-> ~ (dmin <= d <= dmax) /\ g0 <= d <= g1).
Proof. intros. unfold to_mask. rewrite orb_true_iff, !andb_true_iff, !Z.ltb_lt, !Z.leb_le. lia. Qed.

Theorem set_out_of_row_spec {A} disp_row min_grid max_grid (v : A) global data :
  a2_n0 min_grid = a4_n0 data -> a2_n1 min_grid = a4_n1 data ->
  exists data', set_out_of_row disp_row min_grid max_grid v global data = Some data' /\ same_shape4 data' data /\
    forall r c i j, in4 data r c i j ->
      a4_get data' r c i j =
      if to_mask global (disp_row j) (a2_get min_grid r c) (a2_get max_grid r c) then v else a4_get data r c i j.
Proof.
  intros H0 H1. unfold set_out_of_row. rewrite H0, H1.
  destruct (proj1 (loop_row_total v (a4_n0 data) (a4_n1 data)
     (fun k r c => to_mask global (disp_row k) (a2_get min_grid r c) (a2_get max_grid r c)) (seq 0 (a4_n3 data)) data)) as [d' Hd'].
  { auto. }
  exists d'. split; auto. destruct (loop_row_spec _ _ _ _ _ _ _ Hd') as [Hs Hg]. split; auto.
  intros r c i j (Hr & Hc & Hi & Hj). rewrite Hg, existsb_seq.
  apply Nat.ltb_lt in Hr, Hc, Hj. rewrite Hr, Hc, Hj. reflexivity.
Qed.

Theorem set_out_of_col_spec {A} disp_col min_grid max_grid (v : A) global data :
  a2_n0 min_grid = a4_n0 data -> a2_n1 min_grid = a4_n1 data ->
  exists data', set_out_of_col disp_col min_grid max_grid v global data = Some data' /\ same_shape4 data' data /\
    forall r c i j, in4 data r c i j ->
      a4_get data' r c i j =
      if to_mask global (disp_col i) (a2_get min_grid r c) (a2_get max_grid r c) then v else a4_get data r c i j.
Proof.
  intros H0 H1. unfold set_out_of_col. rewrite H0, H1.
  destruct (proj1 (loop_col_total v (a4_n0 data) (a4_n1 data)
     (fun k r c => to_mask global (disp_col k) (a2_get min_grid r c) (a2_get max_grid r c)) (seq 0 (a4_n2 data)) data)) as [d' Hd'].
  { auto. }
  exists d'. split; auto. destruct (loop_col_spec _ _ _ _ _ _ _ Hd') as [Hs Hg]. split; auto.
  intros r c i j (Hr & Hc & Hi & Hj). rewrite Hg, existsb_seq.
  apply Nat.ltb_lt in Hr, Hc, Hi. rewrite Hr, Hc, Hi. reflexivity.
Qed.

Lemma to_mask_spec global d dmin dmax : global_contains global dmin dmax ->
  (to_mask global d dmin dmax = true <-> out_of_pixel_range global d dmin dmax).
Proof.
  unfold global_contains, out_of_pixel_range. destruct global as [[g0 g1]|]; intros H.
  - apply to_mask_some; lia.
  - rewrite to_mask_none. tauto.
Qed.

Theorem row_masking_exact {A} disp_row min_grid max_grid (v : A) global data :
  a2_n0 min_grid = a4_n0 data -> a2_n1 min_grid = a4_n1 data ->
  (forall r c, in2 min_grid r c -> global_contains global (a2_get min_grid r c) (a2_get max_grid r c)) ->
  exists data', set_out_of_row disp_row min_grid max_grid v global data = Some data' /\ same_shape4 data' data /\
    (forall r c i j, in4 data r c i j ->
      (out_of_pixel_range global (disp_row j) (a2_get min_grid r c) (a2_get max_grid r c) -> a4_get data' r c i j = v) /\
      (~ out_of_pixel_range global (disp_row j) (a2_get min_grid r c) (a2_get max_grid r c) ->
         a4_get data' r c i j = a4_get data r c i j)) /\
    (exists data'', set_out_of_row disp_row min_grid max_grid v global data' = Some data'' /\ same_shape4 data'' data /\
       forall r c i j, in4 data r c i j -> a4_get data'' r c i j = a4_get data' r c i j).
Proof.
  intros H0 H1 Hg.
  destruct (set_out_of_row_spec disp_row min_grid max_grid v global data H0 H1) as (d' & E & Hs & H).
  assert (Hs' := Hs). destruct Hs' as (S0 & S1 & S2 & S3).
  destruct (set_out_of_row_spec disp_row min_grid max_grid v global d') as (d'' & E'' & Hs'' & H''); try congruence.
  exists d'. split; [exact E|]. split; [exact Hs|]. split.
  - intros r c i j Hin. rewrite (H r c i j Hin).
    assert (G : global_contains global (a2_get min_grid r c) (a2_get max_grid r c)).
    { apply Hg. destruct Hin as (?&?&_). split; congruence || lia. }
    pose proof (to_mask_spec global (disp_row j) _ _ G) as T.
    destruct (to_mask _ _ _ _); split; intros O; auto; exfalso.
    + apply O. apply T. auto.
    + apply T in O. discriminate.
  - exists d''. split; [exact E''|]. split.
    + destruct Hs'' as (?&?&?&?). repeat split; congruence.
    + intros r c i j Hin. rewrite H''.
      * rewrite (H r c i j Hin). destruct (to_mask _ _ _ _); auto.
      * destruct Hin as (?&?&?&?). repeat split; congruence || lia.
Qed.

Theorem col_masking_exact {A} disp_col min_grid max_grid (v : A) global data :
  a2_n0 min_grid = a4_n0 data -> a2_n1 min_grid = a4_n1 data ->
  (forall r c, in2 min_grid r c -> global_contains global (a2_get min_grid r c) (a2_get max_grid r c)) ->
  exists data', set_out_of_col disp_col min_grid max_grid v global data = Some data' /\ same_shape4 data' data /\
    (forall r c i j, in4 data r c i j ->
      (out_of_pixel_range global (disp_col i) (a2_get min_grid r c) (a2_get max_grid r c) -> a4_get data' r c i j = v) /\
      (~ out_of_pixel_range global (disp_col i) (a2_get min_grid r c) (a2_get max_grid r c) ->
         a4_get data' r c i j = a4_get data r c i j)) /\
    (exists data'', set_out_of_col disp_col min_grid max_grid v global data' = Some data'' /\ same_shape4 data'' data /\
       forall r c i j, in4 data r c i j -> a4_get data'' r c i j = a4_get data' r c i j).
Proof.
  intros H0 H1 Hg.
  destruct (set_out_of_col_spec disp_col min_grid max_grid v global data H0 H1) as (d' & E & Hs & H).
  assert (Hs' := Hs). destruct Hs' as (S0 & S1 & S2 & S3).
  destruct (set_out_of_col_spec disp_col min_grid max_grid v global d') as (d'' & E'' & Hs'' & H''); try congruence.
  exists d'. split; [exact E|]. split; [exact Hs|]. split.
  - intros r c i j Hin. rewrite (H r c i j Hin).
    assert (G : global_contains global (a2_get min_grid r c) (a2_get max_grid r c)).
    { apply Hg. destruct Hin as (?&?&_). split; congruence || lia. }
    pose proof (to_mask_spec global (disp_col i) _ _ G) as T.
    destruct (to_mask _ _ _ _); split; intros O; auto; exfalso.
    + apply O. apply T. auto.
    + apply T in O. discriminate.
  - exists d''. split; [exact E''|]. split.
    + destruct Hs'' as (?&?&?&?). repeat split; congruence.
    + intros r c i j Hin. rewrite H''.
      * rewrite (H r c i j Hin). destruct (to_mask _ _ _ _); auto.
      * destruct Hin as (?&?&?&?). repeat split; congruence || lia.
Qed.

(** Without the hypothesis on the shapes: an error exactly when a point to mask is outside of the data. *)
Theorem row_masking_total {A} disp_row min_grid max_grid (v : A) global data :
  set_out_of_row disp_row min_grid max_grid v global data = None <->
  exists r c j, in2 min_grid r c /\ (j < a4_n3 data)%nat /\
    to_mask global (disp_row j) (a2_get min_grid r c) (a2_get max_grid r c) = true /\
    ~ ((r < a4_n0 data)%nat /\ (c < a4_n1 data)%nat).
Proof.
  unfold set_out_of_row.
  set (m := fun k r c => to_mask global (disp_row k) (a2_get min_grid r c) (a2_get max_grid r c)).
  pose proof (loop_row_total v (a2_n0 min_grid) (a2_n1 min_grid) m (seq 0 (a4_n3 data)) data) as T.
  assert (B : forall n0 n1 (p : nat -> nat -> bool), (exists r c, (r < n0)%nat /\ (c < n1)%nat /\ p r c = false) \/
      (forall r c, (r < n0)%nat -> (c < n1)%nat -> p r c = true)).
  { intros n0 n1 p. destruct (forall2b n0 n1 p) eqn:E.
    - right. apply forall2b_spec. auto.
    - left. unfold forall2b in E.
      assert (X : forall l (q : nat -> bool), forallb q l = false -> exists x, In x l /\ q x = false).
      { induction l as [|a l IH]; simpl; intros q Hq; [discriminate|]. destruct (q a) eqn:Eq; eauto.
        simpl in Hq. destruct (IH q Hq) as (x & ? & ?); eauto. }
      apply X in E. destruct E as (r & Hr & E). apply X in E. destruct E as (c & Hc & E).
      apply in_seq in Hr, Hc. exists r, c. repeat split; auto; lia. }
  split.
  - intros H.
    assert (N : ~ forall k r c, In k (seq 0 (a4_n3 data)) -> (r < a2_n0 min_grid)%nat -> (c < a2_n1 min_grid)%nat ->
       m k r c = true -> (r < a4_n0 data)%nat /\ (c < a4_n1 data)%nat).
    { intros X. apply T in X. destruct X as [d' X]. unfold m in X. rewrite X in H. discriminate. }
    assert (K : forall n, (forall k r c, In k (seq 0 n) -> (r < a2_n0 min_grid)%nat -> (c < a2_n1 min_grid)%nat ->
       m k r c = true -> (r < a4_n0 data)%nat /\ (c < a4_n1 data)%nat) \/
       exists r c j, in2 min_grid r c /\ (j < n)%nat /\ m j r c = true /\ ~ ((r < a4_n0 data)%nat /\ (c < a4_n1 data)%nat)).
    { induction n as [|n IH]; [left; intros k r c []|].
      destruct IH as [IH|(r & c & j & ? & ? & ? & ?)]; [|right; exists r, c, j; repeat split; try lia; auto; apply H0].
      destruct (B (a2_n0 min_grid) (a2_n1 min_grid) (fun r c => negb (m n r c) || ((r <? a4_n0 data)%nat && (c <? a4_n1 data)%nat)))
        as [(r & c & Hr & Hc & Hf)|Ht].
      - right. exists r, c, n. apply orb_false_iff in Hf. destruct Hf as [Hf1 Hf2]. apply negb_false_iff in Hf1.
        repeat split; auto. intros [X Y]. apply Nat.ltb_lt in X, Y. rewrite X, Y in Hf2. discriminate.
      - left. intros k r c Hk Hr Hc Hm. rewrite seq_S in Hk. apply in_app_or in Hk. destruct Hk as [Hk|[<-|[]]]; [eauto|].
        specialize (Ht r c Hr Hc). simpl in Ht. simpl in Hm. rewrite Hm in Ht. simpl in Ht. apply andb_prop in Ht.
        destruct Ht as [X Y]. apply Nat.ltb_lt in X, Y. auto. }
    destruct (K (a4_n3 data)); [contradiction|assumption].
  - intros (r & c & j & [Hr Hc] & Hj & Hm & Hn).
    match goal with |- ?x = None => destruct x as [d'|] eqn:E end; auto. exfalso. apply Hn.
    destruct T as [_ T]. eapply T; eauto. apply in_seq. lia.
Qed.
