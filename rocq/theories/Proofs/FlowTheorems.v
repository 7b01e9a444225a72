(** The optical flow refinement, pixel by pixel. *)
From Coq Require Import ZArith QArith Qabs Qround List Bool Lia Lqa Arith.
From Verif Require Import Base.PyList Base.Arr Base.ZRange Model.CommonModel Model.DichotomyModel Model.OpticalFlowModel Spec.OpticalFlowSpec Spec.DichotomySpec
  Proofs.WtaProofs Proofs.WtaTheorems Proofs.ChunkProofs Proofs.DichotomyProofs Proofs.FlowProofs Proofs.FlowWindows.
Import ListNotations.
Open Scope Z_scope.

(** *** Numbers *)
Lemma nlt1_spec m : nlt1 m = true <-> within_one m.
Proof.
  unfold nlt1, within_one. destruct m as [q|].
  - rewrite negb_true_iff. split.
    + intros H. exists q. split; [reflexivity|]. apply Qnot_le_lt. intros Hc. apply Qle_bool_iff in Hc. congruence.
    + intros (x & E & H). injection E as <-. destruct (Qle_bool 1 (Qabs q)) eqn:Eb; [|reflexivity]. apply Qle_bool_iff in Eb. exfalso. eapply Qlt_not_le; eauto.
  - split; [discriminate|]. intros (x & E & _). discriminate.
Qed.
Lemma ngt1_spec m : ngt1 m = true <-> above_one m.
Proof.
  unfold ngt1, above_one. destruct m as [q|].
  - rewrite negb_true_iff. split.
    + intros H. exists q. split; [reflexivity|]. apply Qnot_le_lt. intros Hc. apply Qle_bool_iff in Hc. congruence.
    + intros (x & E & H). injection E as <-. destruct (Qle_bool (Qabs q) 1) eqn:Eb; [|reflexivity]. apply Qle_bool_iff in Eb. exfalso. eapply Qlt_not_le; eauto.
  - split; [discriminate|]. intros (x & E & _). discriminate.
Qed.
Lemma moved_cancel d m : moved d m (nsub d (cancel m)).
Proof.
  unfold moved, cancel. destruct (ngt1 m) eqn:E.
  - left. split; [now apply ngt1_spec|apply nsub_zero].
  - right. split; [|reflexivity]. intros H. apply ngt1_spec in H. congruence.
Qed.

Section Pixel.
  Context {A : Type} (nan : A).
  Variable lstsq : list (list A) -> list (list A) -> option (num * num).
  Variable resample : list (list A) -> num -> num -> list (list A).
  Variable junk : nat -> list (list A).

  Lemma lucas_kanade_motion invalid l r : lucas_kanade lstsq invalid l r = (snd (motion lstsq invalid l r), fst (motion lstsq invalid l r)).
  Proof. unfold lucas_kanade, motion. destruct (lstsq l r) as [[x y]|]; reflexivity. Qed.

  Lemma refine_one_refined invalid l n : forall r a b, refined lstsq resample invalid l n r (a, b) (refine_one lstsq resample invalid n l r a b).
  Proof.
    induction n as [|n IH]; intros r a b; [constructor|]. cbn [refine_one]. rewrite lucas_kanade_motion. destruct (motion lstsq invalid l r) as [mc mr] eqn:Em. cbn [fst snd].
    destruct (small (mr, mc)) eqn:Es; unfold small in Es; cbn [fst snd] in Es.
    - apply andb_true_iff in Es. destruct Es as [Ec Er]. apply nlt1_spec in Ec. apply nlt1_spec in Er. eapply refined_go; eauto.
    - eapply refined_stop; eauto using moved_cancel. intros [Hc Hr]. apply nlt1_spec in Hc. apply nlt1_spec in Hr. rewrite Hc, Hr in Es. discriminate.
  Qed.

  (** *** Reshape and pad *)
  Lemma chunks_nth {X} n m : forall (l : list X) i j, length l = (n * m)%nat -> (i < n)%nat -> (j < m)%nat -> nth2 (chunks n m l) i j = nth_error l (i * m + j).
  Proof.
    induction n as [|n IH]; intros l i j L Hi Hj; [lia|]. destruct i as [|i].
    - unfold nth2. simpl. rewrite <- (firstn_skipn m l) at 2. rewrite nth_error_app1; [reflexivity|]. rewrite firstn_length. lia.
    - unfold nth2. simpl. fold (nth2 (chunks n m (skipn m l)) i j). rewrite IH; [|rewrite skipn_length; lia|lia|lia].
      rewrite <- (firstn_skipn m l) at 2. rewrite nth_error_app2; rewrite firstn_length; [|lia]. f_equal. lia.
  Qed.
  Lemma chunks_rect {X} n m : forall (l : list X), length l = (n * m)%nat -> rect n m (chunks n m l).
  Proof.
    induction n as [|n IH]; intros l L; [split; [reflexivity|constructor]|]. destruct (IH (skipn m l)) as [L1 F1]; [rewrite skipn_length; lia|].
    split; [simpl; lia|]. constructor; [rewrite firstn_length; lia|exact F1].
  Qed.
  Lemma pad2_spec {X} (v : X) t b l r n m (M : list (list X)) : rect n m M ->
    rect (t + n + b) (l + m + r) (pad2 v t b l r m M) /\
    forall i j, (i < t + n + b)%nat -> (j < l + m + r)%nat ->
      ((i < t \/ t + n <= i \/ j < l \/ l + m <= j)%nat -> nth2 (pad2 v t b l r m M) i j = Some v) /\
      ((t <= i < t + n)%nat -> (l <= j < l + m)%nat -> nth2 (pad2 v t b l r m M) i j = nth2 M (i - t) (j - l)).
  Proof.
    intros [L F]. rewrite Forall_forall in F. unfold pad2. split; [split|].
    - rewrite !app_length, !repeat_length, map_length. lia.
    - apply Forall_app. split; [apply Forall_forall; intros x Hx; apply repeat_spec in Hx; subst; apply repeat_length|].
      apply Forall_app. split; [|apply Forall_forall; intros x Hx; apply repeat_spec in Hx; subst; apply repeat_length].
      apply Forall_forall. intros x Hx. apply in_map_iff in Hx. destruct Hx as (line & <- & Hl). rewrite !app_length, !repeat_length, (F _ Hl). lia.
    - intros i j Hi Hj. unfold nth2.
      assert (Mid : (t <= i < t + n)%nat -> exists line, nth_error M (i - t) = Some line /\ length line = m /\
         nth_error (repeat (repeat v (l + m + r)) t ++ map (fun line => repeat v l ++ line ++ repeat v r) M ++ repeat (repeat v (l + m + r)) b) i = Some (repeat v l ++ line ++ repeat v r)).
      { intros H. destruct (nth_error_some M (i - t)) as [line El]; [lia|]. exists line. split; [auto|]. split; [apply F; eapply nth_error_In; eauto|].
        rewrite nth_error_app2; rewrite repeat_length; [|lia]. rewrite nth_error_app1; [|rewrite map_length; lia]. rewrite nth_error_map, El. reflexivity. }
      split.
      + intros H. destruct (Nat.lt_ge_cases i t) as [Hit|Hit].
        { rewrite nth_error_app1 by (rewrite repeat_length; auto). rewrite repeat_nth by auto. apply repeat_nth. auto. }
        destruct (Nat.lt_ge_cases i (t + n)) as [Hin|Hin].
        * destruct (Mid (conj Hit Hin)) as (line & El & Ll & ->). destruct (Nat.lt_ge_cases j l) as [Hjl|Hjl].
          -- rewrite nth_error_app1 by (rewrite repeat_length; auto). apply repeat_nth. auto.
          -- rewrite nth_error_app2; rewrite repeat_length; [|lia]. rewrite nth_error_app2; [|lia]. apply repeat_nth. lia.
        * rewrite nth_error_app2; rewrite repeat_length; [|lia]. rewrite nth_error_app2; rewrite map_length; [|lia]. rewrite repeat_nth by lia. apply repeat_nth. auto.
      + intros H1 H2. destruct (Mid H1) as (line & El & Ll & ->). rewrite El. rewrite nth_error_app2; rewrite repeat_length; [|lia]. apply nth_error_app1. lia.
  Qed.

  (** The part of a map that is refined. *)
  Lemma sub_map_spec {X} (M : list (list X)) n m p q p' q' : rect n m M -> (p <= q)%nat -> (q <= n)%nat -> (p' <= q')%nat -> (q' <= m)%nat ->
    length (concat (map (slice p' q') (slice p q M))) = ((q - p) * (q' - p'))%nat /\
    forall i j, (i < q - p)%nat -> (j < q' - p')%nat -> nth_error (concat (map (slice p' q') (slice p q M))) (i * (q' - p') + j) = nth2 M (p + i) (p' + j).
  Proof.
    intros [L F] H1 H2 H3 H4. rewrite Forall_forall in F. rewrite <- flat_map_concat_map.
    assert (Len : forall x, In x (slice p q M) -> length (slice p' q' x) = (q' - p')%nat).
    { intros x Hx. apply In_nth_error in Hx. destruct Hx as [k Hk]. rewrite slice_nth in Hk. destruct (_ <? _)%nat; [|discriminate]. apply nth_error_In in Hk.
      apply slice_length. rewrite (F _ Hk). auto. }
    split; [rewrite (flat_map_len _ _ (q' - p') Len), slice_length; lia|].
    intros i j Hi Hj. assert (Hs : nth_error (slice p q M) i = nth_error M (p + i)).
    { rewrite slice_nth. destruct (Nat.ltb_spec (p + i) q); [reflexivity|lia]. }
    destruct (nth_error_some M (p + i)) as [line El]; [lia|].
    rewrite (flat_map_nth _ _ (q' - p') i j line Len); [|congruence|auto]. unfold nth2. rewrite El, slice_nth. destruct (Nat.ltb_spec (p' + j) q'); [reflexivity|lia].
  Qed.

  Section Main.
    Variables (w h iterations : nat) (offset first_row first_col row_step col_step : Z) (n m b_row b_col : nat) (img_left img_right : @image A)
      (col_map row_map : list (list num)) (invalid : num).
    Hypothesis I : flow_inputs w h offset first_row first_col row_step col_step n m b_row b_col img_left img_right col_map row_map.

    Theorem flow_maps_spec : exists out_col out_row,
      flow_maps nan lstsq resample junk w iterations offset row_step col_step (progression first_row row_step n) (progression first_col col_step m) img_left img_right invalid col_map row_map
        = Some (out_col, out_row) /\ rect n m out_col /\ rect n m out_row /\
      forall i j, (i < n)%nat -> (j < m)%nat ->
        ((i < b_row \/ n - b_row <= i \/ j < b_col \/ m - b_col <= j)%nat -> nth2 out_row i j = Some invalid /\ nth2 out_col i j = Some invalid) /\
        ((b_row <= i < n - b_row)%nat -> (b_col <= j < m - b_col)%nat -> forall drow dcol, nth2 row_map i j = Some drow -> nth2 col_map i j = Some dcol ->
          exists l r srow scol drow' dcol', let row := first_row + Z.of_nat i * row_step in let col := first_col + Z.of_nat j * col_step in
            window_in img_left h row col /\ centred img_left h row col l /\ displacement invalid drow srow /\ displacement invalid dcol scol /\
            (window_in img_right h (row + srow) (col + scol) -> centred img_right h (row + srow) (col + scol) r) /\
            (~ window_in img_right h (row + srow) (col + scol) -> no_window nan h r) /\
            refined lstsq resample invalid l iterations r (drow, dcol) (drow', dcol') /\ nth2 out_row i j = Some drow' /\ nth2 out_col i j = Some dcol').
    Proof.
      destruct I as [-> Hh -> Hsr Hsc Br Bc Hn Hm Rl Rr [R1 R2] [C1 C2] [Mc Mr]].
      unfold flow_maps. rewrite (extrema_progression first_col col_step m h b_col) by auto. cbn [bind]. rewrite (extrema_progression first_row row_step n h b_row) by auto. cbn [bind fst snd].
      assert (Sub : forall M : list (list num), rect n m M -> concat (map (fun line => label_slice (progression first_col col_step m) line (first_col + Z.of_nat b_col * col_step) (first_col + Z.of_nat (m - 1 - b_col) * col_step))
          (label_slice (progression first_row row_step n) M (first_row + Z.of_nat b_row * row_step) (first_row + Z.of_nat (n - 1 - b_row) * row_step))) =
          concat (map (slice b_col (m - b_col)) (slice b_row (n - b_row) M))).
      { intros M [L F]. rewrite Forall_forall in F. rewrite (label_slice_progression first_row row_step n) by (auto; lia). replace (S (n - 1 - b_row)) with (n - b_row)%nat by lia. f_equal.
        apply map_ext_in. intros line Hl. apply In_nth_error in Hl. destruct Hl as [k Hk]. rewrite slice_nth in Hk. destruct (_ <? _)%nat; [|discriminate]. apply nth_error_In in Hk.
        rewrite (label_slice_progression first_col col_step m) by (auto; lia). f_equal. lia. }
      rewrite (Sub row_map Mr), (Sub col_map Mc). clear Sub.
      rewrite (label_slice_progression first_row row_step n) by (rewrite ?progression_length; auto; lia).
      rewrite (label_slice_progression first_col col_step m) by (rewrite ?progression_length; auto; lia).
      rewrite !slice_progression by lia.
      replace (S (n - 1 - b_row)) with (n - b_row)%nat by lia. replace (S (m - 1 - b_col)) with (m - b_col)%nat by lia.
      destruct (sub_map_spec row_map n m b_row (n - b_row) b_col (m - b_col) Mr) as [Lr Nr]; try lia.
      destruct (sub_map_spec col_map n m b_row (n - b_row) b_col (m - b_col) Mc) as [Lc Nc]; try lia.
      set (dr := concat (map (slice b_col (m - b_col)) (slice b_row (n - b_row) row_map))) in *.
      set (dc := concat (map (slice b_col (m - b_col)) (slice b_row (n - b_row) col_map))) in *.
      remember (n - b_row - b_row)%nat as n' eqn:En'. remember (m - b_col - b_col)%nat as m' eqn:Em'.
      destruct Br as [Br1 Br2]. destruct Bc as [Bc1 Bc2].
      assert (Zn : Z.of_nat n = Z.of_nat n' + 2 * Z.of_nat b_row) by lia. assert (Zm : Z.of_nat m = Z.of_nat m' + 2 * Z.of_nat b_col) by lia.
      assert (Hn' : (1 <= n')%nat) by lia. assert (Hm' : (1 <= m')%nat) by lia.
      destruct (left_windows_spec img_left h (first_row + Z.of_nat b_row * row_step) (first_col + Z.of_nat b_col * col_step) row_step col_step n' m') as (left & El & Ll & Pl); auto; try nia.
      rewrite El. cbn [bind].
      destruct (right_windows_spec nan img_right h invalid (first_row + Z.of_nat b_row * row_step) (first_col + Z.of_nat b_col * col_step) row_step col_step n' m' dr dc Lr Lc) as (right & Er & Lri & Pr).
      rewrite Er. cbn [bind].
      destruct (iterate_spec lstsq resample junk invalid iterations left right (seq 0 (length left)) dr dc (n' * m')) as (dr' & dc' & Ei & Ldr & Ldc & Pi); auto.
      { intros idx Hi. apply in_seq in Hi. lia. }
      { apply seq_NoDup. }
      rewrite Ei. cbn [bind fst snd].
      replace (first_row + Z.of_nat (n - 1 - b_row) * row_step - (first_row + Z.of_nat b_row * row_step) + row_step) with (Z.of_nat n' * row_step) by (replace (Z.of_nat (n - 1 - b_row)) with (Z.of_nat n' + Z.of_nat b_row - 1) by lia; ring).
      replace (first_col + Z.of_nat (m - 1 - b_col) * col_step - (first_col + Z.of_nat b_col * col_step) + col_step) with (Z.of_nat m' * col_step) by (replace (Z.of_nat (m - 1 - b_col)) with (Z.of_nat m' + Z.of_nat b_col - 1) by lia; ring).
      rewrite !Z.quot_mul by lia.
      destruct (Z.ltb_spec (Z.of_nat n') 0); [lia|]. destruct (Z.ltb_spec (Z.of_nat m') 0); [lia|]. cbn [orb].
      rewrite !Nat2Z.id. unfold reshape2. rewrite Ldr, Ldc, Nat.eqb_refl. cbn [bind]. rewrite !progression_length.
      replace (Z.of_nat n - Z.of_nat n') with (Z.of_nat b_row * 2) by lia. replace (Z.of_nat m - Z.of_nat m') with (Z.of_nat b_col * 2) by lia.
      rewrite !Z.div_mul by lia. replace (Z.of_nat b_row * 2 - Z.of_nat b_row) with (Z.of_nat b_row) by lia. replace (Z.of_nat b_col * 2 - Z.of_nat b_col) with (Z.of_nat b_col) by lia.
      destruct (Z.ltb_spec (Z.of_nat b_row) 0); [lia|]. destruct (Z.ltb_spec (Z.of_nat b_col) 0); [lia|]. cbn [orb]. rewrite !Nat2Z.id.
      eexists. eexists. split; [reflexivity|].
      destruct (pad2_spec invalid b_row b_row b_col b_col n' m' (chunks n' m' dc') (chunks_rect n' m' dc' Ldc)) as [Rc1 Pc1].
      destruct (pad2_spec invalid b_row b_row b_col b_col n' m' (chunks n' m' dr') (chunks_rect n' m' dr' Ldr)) as [Rr1 Pr1].
      replace (b_row + n' + b_row)%nat with n in * by lia. replace (b_col + m' + b_col)%nat with m in * by lia.
      split; [exact Rc1|]. split; [exact Rr1|]. intros i j Hi Hj. destruct (Pc1 i j Hi Hj) as [Pc2 Pc3]. destruct (Pr1 i j Hi Hj) as [Pr2 Pr3]. split.
      - intros Hb. split; [apply Pr2|apply Pc2]; lia.
      - intros Hi' Hj' drow dcol Hr Hc.
        assert (Ir : (i - b_row < n')%nat) by lia. assert (Ic : (j - b_col < m')%nat) by lia.
        specialize (Nr (i - b_row)%nat (j - b_col)%nat Ir Ic). specialize (Nc (i - b_row)%nat (j - b_col)%nat Ir Ic).
        replace (b_row + (i - b_row))%nat with i in * by lia. replace (b_col + (j - b_col))%nat with j in * by lia. rewrite Hr in Nr. rewrite Hc in Nc.
        destruct (Pl (i - b_row)%nat (j - b_col)%nat Ir Ic) as (W & Nl & Cl). specialize (Pr (i - b_row)%nat (j - b_col)%nat drow dcol Ir Ic Nr Nc).
        replace (first_row + Z.of_nat b_row * row_step + Z.of_nat (i - b_row) * row_step) with (first_row + Z.of_nat i * row_step) in * by (replace (Z.of_nat (i - b_row)) with (Z.of_nat i - Z.of_nat b_row) by lia; ring).
        replace (first_col + Z.of_nat b_col * col_step + Z.of_nat (j - b_col) * col_step) with (first_col + Z.of_nat j * col_step) in * by (replace (Z.of_nat (j - b_col)) with (Z.of_nat j - Z.of_nat b_col) by lia; ring).
        destruct (Pi ((i - b_row) * m' + (j - b_col))%nat _ _ _ _ Nl Pr Nr Nc) as [Pin _]. destruct Pin as [O1 O2]; [apply in_seq; nia|].
        exists W. eexists. exists (shift_of invalid drow), (shift_of invalid dcol). eexists. eexists. cbv zeta.
        split; [unfold window_in; nia|]. split; [exact Cl|]. split; [apply shift_of_spec|]. split; [apply shift_of_spec|].
        split; [apply (right_window_spec nan img_right h invalid (first_row + Z.of_nat i * row_step) (first_col + Z.of_nat j * col_step) drow dcol Rr)|].
        split; [apply (right_window_spec nan img_right h invalid (first_row + Z.of_nat i * row_step) (first_col + Z.of_nat j * col_step) drow dcol Rr)|].
        split; [rewrite <- surjective_pairing; apply refine_one_refined|].
        split; [rewrite Pr3, chunks_nth, O1 by lia; reflexivity|rewrite Pc3, chunks_nth, O2 by lia; reflexivity].
    Qed.
  End Main.
End Pixel.
