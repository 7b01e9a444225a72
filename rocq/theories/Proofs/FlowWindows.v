(** Proofs about the windows of the optical flow refinement. *)
From Coq Require Import ZArith QArith Qabs Qround List Bool Lia Lqa Arith.
From Verif Require Import Base.PyList Base.Arr Base.ZRange Model.CommonModel Model.DichotomyModel Model.OpticalFlowModel Spec.OpticalFlowSpec Spec.DichotomySpec
  Proofs.WtaProofs Proofs.WtaTheorems Proofs.ChunkProofs Proofs.DichotomyProofs Proofs.FlowProofs.
Import ListNotations.
Open Scope Z_scope.

Lemma combine_nth {X Y} (a : list X) : forall (b : list Y) k x y, nth_error (combine a b) k = Some (x, y) <-> nth_error a k = Some x /\ nth_error b k = Some y.
Proof.
  induction a as [|u a IH]; intros [|v b] [|k] x y; simpl; try (split; [discriminate|intros [? ?]; discriminate]).
  - split; [intros H; injection H as -> ->; auto|intros [H1 H2]; congruence].
  - apply IH.
Qed.
Lemma dict_get_at {X} (d : list (Z * X)) key : forall k v, nth_error d k = Some (key, v) -> (forall k' v', nth_error d k' = Some (key, v') -> k' = k) -> dict_get d key = Some v.
Proof.
  induction d as [|[k0 v0] d IH]; intros k v H U; [destruct k; discriminate|]. simpl. destruct k as [|k].
  - simpl in H. injection H as -> ->. rewrite Z.eqb_refl. destruct (dict_get d key) as [x|] eqn:E; [|reflexivity]. exfalso.
    assert (exists k' v', nth_error d k' = Some (key, v')).
    { clear - E. revert x E. induction d as [|[k1 v1] d IH]; intros x E; [discriminate|]. simpl in E. destruct (dict_get d key) as [y|] eqn:Ed.
      - destruct (IH y eq_refl) as (k' & v' & H). exists (S k'), v'. exact H.
      - destruct (Z.eqb_spec k1 key); [|discriminate]. subst. exists 0%nat, v1. reflexivity. }
    destruct H as (k' & v' & H). specialize (U (S k') v' H). discriminate.
  - rewrite (IH k v H); [reflexivity|]. intros k' v' H'. assert (S k' = S k) by (eapply U; exact H'). lia.
Qed.

Lemma py_slice_both {X} (l : list X) h : (1 <= h)%nat -> (2 * h <= length l)%nat -> py_slice (Z.of_nat h) (- Z.of_nat h) l = slice h (length l - h) l.
Proof.
  intros H1 H2. unfold py_slice, slice, py_index.
  destruct (Z.ltb_spec (Z.of_nat h) 0); [lia|]. destruct (Z.ltb_spec (- Z.of_nat h) 0); [|lia].
  replace (Z.to_nat (Z.min (Z.of_nat h) (Z.of_nat (length l)))) with h by lia.
  replace (Z.to_nat (Z.max 0 (- Z.of_nat h + Z.of_nat (length l)))) with (length l - h)%nat by lia. reflexivity.
Qed.

(** A block of the data. *)
Lemma block_spec {A} (data : list (list A)) nr nc i j w : rect nr nc data -> (i + w <= nr)%nat -> (j + w <= nc)%nat ->
  rect w w (map (slice j (j + w)) (slice i (i + w) data)) /\
  forall a b, (a < w)%nat -> (b < w)%nat -> nth2 (map (slice j (j + w)) (slice i (i + w) data)) a b = nth2 data (i + a) (j + b).
Proof.
  intros [L F] Hi Hj. rewrite Forall_forall in F. split; [split|].
  - rewrite map_length, slice_length; lia.
  - apply Forall_forall. intros x Hx. apply in_map_iff in Hx. destruct Hx as (line & <- & Hl). apply In_nth_error in Hl. destruct Hl as [k Hk].
    rewrite slice_nth in Hk. destruct (_ <? _)%nat; [|discriminate]. apply nth_error_In in Hk. rewrite slice_length; [lia|]. rewrite (F _ Hk). lia.
  - intros a b Ha Hb. unfold nth2. rewrite nth_error_map, slice_nth. destruct (Nat.ltb_spec (i + a) (i + w)); [|lia].
    destruct (nth_error data (i + a)) as [line|]; [|reflexivity]. simpl. rewrite slice_nth. destruct (Nat.ltb_spec (j + b) (j + w)); [|lia]. reflexivity.
Qed.

Section Windows.
  Context {A : Type} (nan : A).

  Lemma left_windows_spec (im : @image A) h R C sr sc n m : (1 <= h)%nat -> rect (i_nrow im) (i_ncol im) (i_data im) -> 1 <= sr -> 1 <= sc -> (1 <= n)%nat -> (1 <= m)%nat ->
    i_row0 im + Z.of_nat h <= R -> R + (Z.of_nat n - 1) * sr + Z.of_nat h < i_row0 im + Z.of_nat (i_nrow im) ->
    i_col0 im + Z.of_nat h <= C -> C + (Z.of_nat m - 1) * sc + Z.of_nat h < i_col0 im + Z.of_nat (i_ncol im) ->
    exists ws, left_windows (2 * h + 1) (Z.of_nat h) im (progression R sr n) (progression C sc m) = Some ws /\ length ws = (n * m)%nat /\
      forall i j, (i < n)%nat -> (j < m)%nat -> exists W, nth_error ws (i * m + j) = Some W /\ centred im h (R + Z.of_nat i * sr) (C + Z.of_nat j * sc) W.
  Proof.
    intros Hh Rc Hsr Hsc Hn Hm B1 B2 B3 B4. unfold left_windows, sliding_windows. set (w := (2 * h + 1)%nat).
    set (nr := i_nrow im) in *. set (nc := i_ncol im) in *.
    assert (Wr : (w <= nr)%nat) by nia. assert (Wc : (w <= nc)%nat) by nia.
    destruct (Nat.ltb_spec nr w); [lia|]. destruct (Nat.ltb_spec nc w); [lia|]. cbn [orb].
    set (patches := flat_map _ (seq 0 (nr - w + 1))).
    assert (Lp : length patches = ((nr - w + 1) * (nc - w + 1))%nat).
    { unfold patches. rewrite (flat_map_len _ _ (nc - w + 1)); [rewrite seq_length; auto|]. intros. rewrite map_length, seq_length. auto. }
    assert (Np : forall i j, (i < nr - w + 1)%nat -> (j < nc - w + 1)%nat ->
      nth_error patches (i * (nc - w + 1) + j) = Some (map (slice j (j + w)) (slice i (i + w) (i_data im)))).
    { intros i j Hi Hj. unfold patches. rewrite (flat_map_nth _ _ (nc - w + 1) i j i); auto.
      - rewrite nth_error_map, (nth_error_nth' _ 0%nat) by (rewrite seq_length; auto). rewrite seq_nth by auto. reflexivity.
      - intros. rewrite map_length, seq_length. auto.
      - rewrite (nth_error_nth' _ 0%nat) by (rewrite seq_length; auto). rewrite seq_nth by auto. reflexivity. }
    unfold i_rows, i_cols. fold nr nc. rewrite !progression_zarange.
    rewrite !py_slice_both; rewrite ?progression_length; auto; [|unfold w in *; lia|unfold w in *; lia].
    rewrite !slice_progression by (unfold w in *; lia).
    replace (nr - h - h)%nat with (nr - w + 1)%nat by (unfold w in *; lia). replace (nc - h - h)%nat with (nc - w + 1)%nat by (unfold w in *; lia).
    set (ids := pixels _ _ _).
    assert (Li : length ids = ((nr - w + 1) * (nc - w + 1))%nat) by (unfold ids; rewrite pixels_length, !progression_length; auto).
    rewrite Lp, Li, Nat.ltb_irrefl.
    assert (Ni : forall i j, (i < nr - w + 1)%nat -> (j < nc - w + 1)%nat ->
      nth_error ids (i * (nc - w + 1) + j) = Some ((i_row0 im + Z.of_nat h + Z.of_nat i) * Z.of_nat nc + (i_col0 im + Z.of_nat h + Z.of_nat j))).
    { intros i j Hi Hj. assert (P := pixels_nth (progression (i_row0 im + Z.of_nat h * 1) 1 (nr - w + 1)) (progression (i_col0 im + Z.of_nat h * 1) 1 (nc - w + 1))
        (fun r c => r * Z.of_nat nc + c) i j _ _ (progression_nth _ _ _ _ Hi) (progression_nth _ _ _ _ Hj)).
      rewrite progression_length in P. unfold ids. rewrite P. f_equal. lia. }
    assert (G : forall i j, (i < nr - w + 1)%nat -> (j < nc - w + 1)%nat ->
      dict_get (combine ids patches) ((i_row0 im + Z.of_nat h + Z.of_nat i) * Z.of_nat nc + (i_col0 im + Z.of_nat h + Z.of_nat j)) =
      Some (map (slice j (j + w)) (slice i (i + w) (i_data im)))).
    { intros i j Hi Hj. apply dict_get_at with (k := (i * (nc - w + 1) + j)%nat).
      - apply combine_nth. auto.
      - intros k' v' H'. apply combine_nth in H'. destruct H' as [H' _].
        assert (Hk : (k' < (nr - w + 1) * (nc - w + 1))%nat) by (rewrite <- Li; apply nth_error_Some; congruence).
        destruct (index_split _ _ _ Hk) as (i' & j' & -> & Hi' & Hj'). rewrite Ni in H' by auto. injection H' as H'.
        assert (Z.of_nat i' = Z.of_nat i) by nia. assert (i' = i) by lia. subst i'. assert (j' = j) by lia. subst. reflexivity. }
    set (keys := pixels (progression R sr n) (progression C sc m) _).
    assert (Lk : length keys = (n * m)%nat) by (unfold keys; rewrite pixels_length, !progression_length; auto).
    assert (Nk : forall i j, (i < n)%nat -> (j < m)%nat -> nth_error keys (i * m + j) = Some ((R + Z.of_nat i * sr) * Z.of_nat nc + (C + Z.of_nat j * sc))).
    { intros i j Hi Hj. assert (P := pixels_nth (progression R sr n) (progression C sc m) (fun r c => r * Z.of_nat nc + c) i j _ _ (progression_nth _ _ _ _ Hi) (progression_nth _ _ _ _ Hj)).
      rewrite progression_length in P. exact P. }
    set (got := fun key => match dict_get (combine ids patches) key with Some p => [p] | None => [] end).
    assert (Gk : forall i j, (i < n)%nat -> (j < m)%nat -> exists i' j', got ((R + Z.of_nat i * sr) * Z.of_nat nc + (C + Z.of_nat j * sc)) = [map (slice j' (j' + w)) (slice i' (i' + w) (i_data im))] /\
       Z.of_nat i' = R + Z.of_nat i * sr - Z.of_nat h - i_row0 im /\ Z.of_nat j' = C + Z.of_nat j * sc - Z.of_nat h - i_col0 im /\ (i' + w <= nr)%nat /\ (j' + w <= nc)%nat).
    { intros i j Hi Hj. exists (Z.to_nat (R + Z.of_nat i * sr - Z.of_nat h - i_row0 im)), (Z.to_nat (C + Z.of_nat j * sc - Z.of_nat h - i_col0 im)).
      assert (0 <= Z.of_nat i * sr <= (Z.of_nat n - 1) * sr) by nia. assert (0 <= Z.of_nat j * sc <= (Z.of_nat m - 1) * sc) by nia.
      assert (D := G (Z.to_nat (R + Z.of_nat i * sr - Z.of_nat h - i_row0 im)) (Z.to_nat (C + Z.of_nat j * sc - Z.of_nat h - i_col0 im)) ltac:(unfold w in *; lia) ltac:(unfold w in *; lia)).
      rewrite !Z2Nat.id in D by lia. unfold got.
      replace ((R + Z.of_nat i * sr) * Z.of_nat nc + (C + Z.of_nat j * sc)) with
        ((i_row0 im + Z.of_nat h + (R + Z.of_nat i * sr - Z.of_nat h - i_row0 im)) * Z.of_nat nc + (i_col0 im + Z.of_nat h + (C + Z.of_nat j * sc - Z.of_nat h - i_col0 im))) by ring.
      rewrite D. split; [reflexivity|]. unfold w. lia. }
    assert (One : forall x, In x keys -> length (got x) = 1%nat).
    { intros x Hx. apply In_nth_error in Hx. destruct Hx as [k Hk]. assert (Hl : (k < n * m)%nat) by (rewrite <- Lk; apply nth_error_Some; congruence).
      destruct (index_split _ _ _ Hl) as (i & j & -> & Hi & Hj). rewrite Nk in Hk by auto. injection Hk as <-. destruct (Gk i j Hi Hj) as (i' & j' & E & _). rewrite E. reflexivity. }
    assert (Lf : length (flat_map got keys) = (n * m)%nat) by (rewrite (flat_map_len _ _ 1); auto; lia).
    destruct (flat_map got keys) as [|x0 rest] eqn:Ef; [simpl in Lf; nia|]. rewrite <- Ef in *. exists (flat_map got keys). split; [reflexivity|]. split; [exact Lf|].
    intros i j Hi Hj. destruct (Gk i j Hi Hj) as (i' & j' & E & Ei & Ej & Wi & Wj). eexists. split.
    - replace (i * m + j)%nat with ((i * m + j) * 1 + 0)%nat by lia. rewrite (flat_map_nth keys got 1 _ 0 _ One (Nk i j Hi Hj)) by lia. rewrite E. reflexivity.
    - destruct (block_spec (i_data im) nr nc i' j' w Rc Wi Wj) as [B5 B6]. split; [exact B5|]. intros a b Ha Hb. rewrite B6 by auto. f_equal; lia.
  Qed.

  (** The window of the right image. *)
  Lemma shift_of_spec invalid d : displacement invalid d (shift_of invalid d).
  Proof.
    unfold displacement, shift_of. destruct d as [q|]; [|reflexivity].
    assert (T : truncated q (q_int q)).
    { unfold truncated, q_int. destruct (Qle_bool 0 q) eqn:E.
      - apply Qle_bool_iff in E. pose proof (Qfloor_le q). pose proof (Qlt_floor q). rewrite inject_Z_plus in H0. change (inject_Z 1) with 1%Q in H0.
        assert (F0 : 0 <= Qfloor q) by (change 0 with (Qfloor 0); apply Qfloor_resp_le; auto). rewrite Z.abs_eq by auto. rewrite Qabs_pos by auto. split; [auto|]. split; [auto|].
        apply Qmult_le_0_compat; [auto|]. change 0%Q with (inject_Z 0). rewrite <- Zle_Qle. auto.
      - assert (N : (q < 0)%Q) by (apply Qnot_le_lt; intros Hc; apply Qle_bool_iff in Hc; congruence).
        pose proof (Qle_ceiling q). pose proof (Qceiling_lt q). unfold Z.sub in H0. rewrite inject_Z_plus in H0. change (inject_Z (Z.opp 1)) with (- (1))%Q in H0.
        assert (C0 : Qceiling q <= 0) by (change 0 with (Qceiling 0); apply Qceiling_resp_le; lra). rewrite Z.abs_neq by auto. rewrite inject_Z_opp. rewrite Qabs_neg by lra.
        split; [lra|]. split; [lra|]. assert (C1 : (inject_Z (Qceiling q) <= 0)%Q) by (change 0%Q with (inject_Z 0); rewrite <- Zle_Qle; auto).
        setoid_replace (q * inject_Z (Qceiling q))%Q with ((- q) * (- inject_Z (Qceiling q)))%Q by ring. apply Qmult_le_0_compat; lra. }
    destruct invalid as [i|]; simpl neqb; [|exact T]. destruct (Qeq_bool q i) eqn:E.
    - left. split; [now apply Qeq_bool_iff|reflexivity].
    - right. split; [|exact T]. intros H. apply Qeq_bool_iff in H. congruence.
  Qed.

  Lemma axis_slice {X} first n (data : list X) h x : length data = n ->
    label_slice (progression first 1 n) data (x - Z.of_nat h) (x + Z.of_nat h) =
      slice (Z.to_nat (Z.min (Z.max 0 (x - Z.of_nat h - first)) (Z.of_nat n))) (Z.to_nat (Z.min (Z.max 0 (x + Z.of_nat h + 1 - first)) (Z.of_nat n))) data.
  Proof.
    intros L. rewrite label_slice_spec; [|apply progression_increasing; lia|rewrite progression_length; auto|lia]. f_equal.
    - apply searchsorted_progression; lia.
    - apply searchsorted_right_progression; lia.
  Qed.

  Definition low (x : Z) (h : nat) (first : Z) (n : nat) : nat := Z.to_nat (Z.min (Z.max 0 (x - Z.of_nat h - first)) (Z.of_nat n)).
  Definition high (x : Z) (h : nat) (first : Z) (n : nat) : nat := Z.to_nat (Z.min (Z.max 0 (x + Z.of_nat h + 1 - first)) (Z.of_nat n)).
  Lemma low_high x h first n : (high x h first n <= n)%nat /\
    (first <= x - Z.of_nat h /\ x + Z.of_nat h < first + Z.of_nat n -> low x h first n = Z.to_nat (x - Z.of_nat h - first) /\ high x h first n = (low x h first n + (2 * h + 1))%nat) /\
    ((high x h first n - low x h first n = 2 * h + 1)%nat -> first <= x - Z.of_nat h /\ x + Z.of_nat h < first + Z.of_nat n).
  Proof. unfold low, high. split; [lia|]. split; [intros [? ?]; split; lia|]. intros E. split; lia. Qed.

  Lemma right_window_spec (im : @image A) h invalid row col drow dcol : rect (i_nrow im) (i_ncol im) (i_data im) ->
    let W := right_window nan (2 * h + 1) im invalid row col drow dcol in
    let r := row + shift_of invalid drow in let c := col + shift_of invalid dcol in
    (window_in im h r c -> centred im h r c W) /\ (~ window_in im h r c -> no_window nan h W).
  Proof.
    intros Rc W r c. unfold W, right_window. set (w := (2 * h + 1)%nat). cbv zeta.
    assert (Ew : Z.of_nat w / 2 = Z.of_nat h). { unfold w. replace (Z.of_nat (2 * h + 1)) with (1 + Z.of_nat h * 2) by lia. rewrite Z.div_add by lia. reflexivity. }
    rewrite Ew. set (sr := shift_of invalid drow) in *. set (sc := shift_of invalid dcol) in *. fold sr in r. fold sc in c.
    replace (row - Z.of_nat h + sr) with (r - Z.of_nat h) by (unfold r; ring). replace (row + Z.of_nat h + sr) with (r + Z.of_nat h) by (unfold r; ring).
    replace (col - Z.of_nat h + sc) with (c - Z.of_nat h) by (unfold c; ring). replace (col + Z.of_nat h + sc) with (c + Z.of_nat h) by (unfold c; ring).
    unfold i_rows, i_cols. rewrite !progression_zarange. pose proof Rc as [L F]. rewrite Forall_forall in F.
    set (patch := map _ _).
    assert (Ep : patch = map (slice (low c h (i_col0 im) (i_ncol im)) (high c h (i_col0 im) (i_ncol im))) (slice (low r h (i_row0 im) (i_nrow im)) (high r h (i_row0 im) (i_nrow im)) (i_data im))).
    { unfold patch. rewrite (axis_slice _ _ (i_data im)) by auto. apply map_ext_in. intros line Hl. apply axis_slice. apply F.
      apply In_nth_error in Hl. destruct Hl as [k Hk]. rewrite slice_nth in Hk. destruct (_ <? _)%nat; [|discriminate]. eapply nth_error_In; eauto. }
    destruct (low_high r h (i_row0 im) (i_nrow im)) as (R1 & R2 & R3). destruct (low_high c h (i_col0 im) (i_ncol im)) as (C1 & C2 & C3).
    set (pr := low r h (i_row0 im) (i_nrow im)) in *. set (qr := high r h (i_row0 im) (i_nrow im)) in *.
    set (pc := low c h (i_col0 im) (i_ncol im)) in *. set (qc := high c h (i_col0 im) (i_ncol im)) in *.
    clearbody patch pr qr pc qc r c. fold w in R2, R3, C2, C3.
    assert (Lpatch : length patch = (qr - pr)%nat) by (rewrite Ep, map_length, slice_length; [reflexivity|rewrite L; auto]).
    assert (Lline : forall line, In line patch -> length line = (qc - pc)%nat).
    { intros line Hl. rewrite Ep in Hl. apply in_map_iff in Hl. destruct Hl as (x & <- & Hx). apply In_nth_error in Hx. destruct Hx as [k Hk].
      rewrite slice_nth in Hk. destruct (_ <? _)%nat; [|discriminate]. apply nth_error_In in Hk. rewrite slice_length; [reflexivity|]. rewrite (F _ Hk). auto. }
    split; intros Hw; unfold window_in in Hw.
    - destruct Hw as (H1 & H2 & H3 & H4). destruct (R2 (conj H1 H2)) as [Ep1 Er]. destruct (C2 (conj H3 H4)) as [Ep2 Ec].
      assert (T : ((length patch =? w)%nat && forallb (fun line => (length line =? w)%nat) patch)%bool = true).
      { apply andb_true_iff. split; [apply Nat.eqb_eq; rewrite Lpatch; clear - Er; lia|]. apply forallb_forall. intros x Hx. apply Nat.eqb_eq. rewrite (Lline x Hx). clear - Ec; lia. }
      rewrite T, Ep, Er, Ec.
      destruct (block_spec (i_data im) _ _ pr pc w Rc) as [B1 B2]; [rewrite <- Er; auto|rewrite <- Ec; auto|]. split; [exact B1|].
      intros a b Ha Hb. rewrite B2 by auto. rewrite Ep1, Ep2. clear - H1 H3. f_equal; lia.
    - unfold no_window. fold w.
      destruct ((length patch =? w)%nat && forallb (fun line => (length line =? w)%nat) patch)%bool eqn:T; [exfalso|reflexivity].
      apply andb_true_iff in T. destruct T as [T1 T2]. apply Nat.eqb_eq in T1. rewrite forallb_forall in T2.
      assert (exists x, In x patch) as [x Hx]. { destruct patch as [|x ?]; [exfalso; unfold w in T1; simpl in T1; clear - T1; lia|]. exists x. now left. }
      specialize (T2 x Hx). apply Nat.eqb_eq in T2. rewrite (Lline x Hx) in T2. rewrite Lpatch in T1. apply Hw. destruct (R3 T1). destruct (C3 T2). auto.
  Qed.

  Lemma map_opt_nth {X Y} (f : X -> option Y) l : forall ys, map_opt f l = Some ys -> length ys = length l /\
    forall k x, nth_error l k = Some x -> exists y, f x = Some y /\ nth_error ys k = Some y.
  Proof.
    induction l as [|a l IH]; intros ys H; simpl in H; [injection H as <-; split; [reflexivity|intros [|k] x Hx; discriminate]|].
    destruct (f a) as [b|] eqn:Ea; [|discriminate]. destruct (map_opt f l) as [bs|]; [|discriminate]. injection H as <-. destruct (IH bs eq_refl) as [L P]. split; [simpl; lia|].
    intros [|k] x Hx; simpl in Hx; [injection Hx as <-; exists b; auto|]. apply P in Hx. exact Hx.
  Qed.
  Lemma map_opt_some {X Y} (f : X -> option Y) l : (forall x, In x l -> f x <> None) -> exists ys, map_opt f l = Some ys.
  Proof.
    induction l as [|a l IH]; intros H; [eexists; reflexivity|]. simpl. destruct (f a) eqn:Ea; [|exfalso; eapply H; [now left|exact Ea]].
    destruct IH as [ys ->]; [intros; apply H; now right|]. eexists. reflexivity.
  Qed.

  Lemma right_windows_spec (im : @image A) h invalid R C sr sc n m drow dcol : length drow = (n * m)%nat -> length dcol = (n * m)%nat ->
    exists ws, right_windows nan (2 * h + 1) im invalid (progression R sr n) (progression C sc m) drow dcol = Some ws /\ length ws = (n * m)%nat /\
      forall i j a b, (i < n)%nat -> (j < m)%nat -> nth_error drow (i * m + j) = Some a -> nth_error dcol (i * m + j) = Some b ->
        nth_error ws (i * m + j) = Some (right_window nan (2 * h + 1) im invalid (R + Z.of_nat i * sr) (C + Z.of_nat j * sc) a b).
  Proof.
    intros L1 L2. unfold right_windows. set (px := pixels _ _ _).
    assert (Lx : length px = (n * m)%nat) by (unfold px; rewrite pixels_length, !progression_length; auto).
    set (f := fun p : nat * (Z * Z) => _). set (l := combine (seq 0 (length px)) px).
    assert (Hl : forall k x, nth_error l k = Some x -> (k < n * m)%nat /\ fst x = k /\ nth_error px k = Some (snd x)).
    { intros k [a b] H. apply combine_nth in H. destruct H as [Ha Hb]. assert (Hk : (k < length px)%nat) by (apply nth_error_Some; congruence).
      rewrite (nth_error_nth' _ 0%nat) in Ha by (rewrite seq_length; auto). rewrite seq_nth in Ha by auto. simpl in Ha. injection Ha as <-. simpl. rewrite <- Lx. auto. }
    destruct (map_opt_some f l) as [ws E].
    { intros [k [r c]] Hx. apply In_nth_error in Hx. destruct Hx as [k' Hk]. destruct (Hl _ _ Hk) as (B & Ek & _). simpl in Ek. subst k'. unfold f.
      destruct (nth_error_some drow k) as [a ->]; [lia|]. destruct (nth_error_some dcol k) as [b ->]; [lia|]. discriminate. }
    exists ws. split; [exact E|]. destruct (map_opt_nth f l ws E) as [Lw P]. split.
    - rewrite Lw. unfold l. rewrite combine_length, seq_length. lia.
    - intros i j a b Hi Hj Ha Hb.
      assert (Hp : nth_error px (i * m + j) = Some (R + Z.of_nat i * sr, C + Z.of_nat j * sc)).
      { assert (Q := pixels_nth (progression R sr n) (progression C sc m) (fun r c => (r, c)) i j _ _ (progression_nth _ _ _ _ Hi) (progression_nth _ _ _ _ Hj)).
        rewrite progression_length in Q. exact Q. }
      destruct (P (i * m + j)%nat ((i * m + j)%nat, (R + Z.of_nat i * sr, C + Z.of_nat j * sc))) as (y & Ey & Ny).
      + apply combine_nth. split; [|exact Hp]. rewrite (nth_error_nth' _ 0%nat) by (rewrite seq_length; nia). rewrite seq_nth by nia. reflexivity.
      + rewrite Ny. unfold f in Ey. rewrite Ha, Hb in Ey. congruence.
  Qed.
End Windows.
