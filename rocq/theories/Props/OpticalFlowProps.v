(** C31, C32: the optical flow refinement. C55 - C59: findings. *)
From Coq Require Import ZArith QArith Qabs Qround List Bool Lia Lqa Arith.
From Verif Require Import Base.Ext Base.PyList Base.Arr Base.ZRange Model.DisparityModel Model.CommonModel Model.MatchingCostModel Model.RoiModel Model.DichotomyModel
  Model.OpticalFlowModel Spec.OpticalFlowSpec Proofs.WtaProofs Proofs.FlowProofs Proofs.FlowWindows Proofs.FlowTheorems Proofs.FlowRange.
Import ListNotations.
Open Scope Z_scope.

Section Flow.
  Context {A : Type} (nan : A).
  (** Any least squares, resampling and content of uninitialised memory. *)
  Variable lstsq : list (list A) -> list (list A) -> option (num * num).
  Variable resample : list (list A) -> num -> num -> list (list A).
  Variable junk : nat -> list (list A).

  (** * C32: one window per point, row by row: centred on the point in the left image, on the point displaced by its disparities (whole part)
      in the right image, all NaN when this window is not in the right image. *)
  Theorem C32_left_windows (im : @image A) h R C sr sc n m : (1 <= h)%nat -> rect (i_nrow im) (i_ncol im) (i_data im) -> 1 <= sr -> 1 <= sc -> (1 <= n)%nat -> (1 <= m)%nat ->
    i_row0 im + Z.of_nat h <= R -> R + (Z.of_nat n - 1) * sr + Z.of_nat h < i_row0 im + Z.of_nat (i_nrow im) ->
    i_col0 im + Z.of_nat h <= C -> C + (Z.of_nat m - 1) * sc + Z.of_nat h < i_col0 im + Z.of_nat (i_ncol im) ->
    exists ws, left_windows (2 * h + 1) (Z.of_nat h) im (progression R sr n) (progression C sc m) = Some ws /\ length ws = (n * m)%nat /\
      forall i j, (i < n)%nat -> (j < m)%nat -> exists W, nth_error ws (i * m + j) = Some W /\ centred im h (R + Z.of_nat i * sr) (C + Z.of_nat j * sc) W.
  Proof. apply left_windows_spec. Qed.

  Theorem C32_right_windows (im : @image A) h invalid R C sr sc n m drow dcol : rect (i_nrow im) (i_ncol im) (i_data im) -> length drow = (n * m)%nat -> length dcol = (n * m)%nat ->
    exists ws, right_windows nan (2 * h + 1) im invalid (progression R sr n) (progression C sc m) drow dcol = Some ws /\ length ws = (n * m)%nat /\
      forall i j a b, (i < n)%nat -> (j < m)%nat -> nth_error drow (i * m + j) = Some a -> nth_error dcol (i * m + j) = Some b ->
        exists W srow scol, nth_error ws (i * m + j) = Some W /\ displacement invalid a srow /\ displacement invalid b scol /\
          let r := R + Z.of_nat i * sr + srow in let c := C + Z.of_nat j * sc + scol in
          (window_in im h r c -> centred im h r c W) /\ (~ window_in im h r c -> no_window nan h W).
  Proof.
    intros Rc L1 L2. destruct (right_windows_spec nan im h invalid R C sr sc n m drow dcol L1 L2) as (ws & E & Lw & P). exists ws. split; [exact E|]. split; [exact Lw|].
    intros i j a b Hi Hj Ha Hb. eexists. exists (shift_of invalid a), (shift_of invalid b). split; [exact (P i j a b Hi Hj Ha Hb)|]. split; [apply shift_of_spec|]. split; [apply shift_of_spec|].
    apply right_window_spec. exact Rc.
  Qed.

  Section Whole.
    Variables (h iterations : nat) (offset first_row first_col : Z) (row_step col_step n m b_row b_col : nat) (img_left img_right : @image A)
      (col_map row_map : list (list num)) (invalid : num) (g : grids).
    Hypothesis I : flow_inputs (2 * h + 1) h offset first_row first_col (Z.of_nat row_step) (Z.of_nat col_step) n m b_row b_col img_left img_right col_map row_map.

    (** The whole refinement before the check of the range: points whose window is not between the ends of the axes are invalid, the others are refined
        from their own windows and stored at their own place. *)
    Theorem C32_refined_in_place : exists out_col out_row,
      flow_maps nan lstsq resample junk (2 * h + 1) iterations offset (Z.of_nat row_step) (Z.of_nat col_step) (progression first_row (Z.of_nat row_step) n) (progression first_col (Z.of_nat col_step) m)
        img_left img_right invalid col_map row_map = Some (out_col, out_row) /\ rect n m out_col /\ rect n m out_row /\
      forall i j, (i < n)%nat -> (j < m)%nat ->
        ((i < b_row \/ n - b_row <= i \/ j < b_col \/ m - b_col <= j)%nat -> nth2 out_row i j = Some invalid /\ nth2 out_col i j = Some invalid) /\
        ((b_row <= i < n - b_row)%nat -> (b_col <= j < m - b_col)%nat -> forall drow dcol, nth2 row_map i j = Some drow -> nth2 col_map i j = Some dcol ->
          exists l r srow scol drow' dcol', let row := first_row + Z.of_nat i * Z.of_nat row_step in let col := first_col + Z.of_nat j * Z.of_nat col_step in
            window_in img_left h row col /\ centred img_left h row col l /\ displacement invalid drow srow /\ displacement invalid dcol scol /\
            (window_in img_right h (row + srow) (col + scol) -> centred img_right h (row + srow) (col + scol) r) /\
            (~ window_in img_right h (row + srow) (col + scol) -> no_window nan h r) /\
            refined lstsq resample invalid l iterations r (drow, dcol) (drow', dcol') /\ nth2 out_row i j = Some drow' /\ nth2 out_col i j = Some dcol').
    Proof. exact (flow_maps_spec nan lstsq resample junk (2 * h + 1) h iterations offset first_row first_col (Z.of_nat row_step) (Z.of_nat col_step) n m b_row b_col img_left img_right col_map row_map invalid I). Qed.

    Hypothesis Hn : n = strided_len (i_nrow img_left) 0 row_step.
    Hypothesis Hm : m = strided_len (i_ncol img_left) 0 col_step.
    Hypothesis G : grids_of (i_nrow img_left) (i_ncol img_left) g.

    (** C32: the maps returned: the result of the refinement of the pixel in its own windows, after the check of its range. *)
    Theorem C32_checked : exists out_col out_row,
      flow_refinement nan lstsq resample junk (2 * h + 1) iterations offset row_step col_step (progression first_row (Z.of_nat row_step) n) (progression first_col (Z.of_nat col_step) m)
        img_left img_right g invalid col_map row_map = Some (out_col, out_row) /\ rect n m out_col /\ rect n m out_row /\
      forall i j drow dcol, (i < n)%nat -> (j < m)%nat -> nth2 row_map i j = Some drow -> nth2 col_map i j = Some dcol ->
        let at_pixel (a : arr2 Z) := a2_get a (i * row_step) (j * col_step) in
        let row := first_row + Z.of_nat i * Z.of_nat row_step in let col := first_col + Z.of_nat j * Z.of_nat col_step in
        exists a b drow' dcol', nth2 out_row i j = Some drow' /\ nth2 out_col i j = Some dcol' /\
          kept invalid (at_pixel (g_row_min g)) (at_pixel (g_row_max g)) a drow' /\ kept invalid (at_pixel (g_col_min g)) (at_pixel (g_col_max g)) b dcol' /\
          ((i < b_row \/ n - b_row <= i \/ j < b_col \/ m - b_col <= j)%nat /\ a = invalid /\ b = invalid \/
           (b_row <= i < n - b_row)%nat /\ (b_col <= j < m - b_col)%nat /\ exists l r srow scol,
             window_in img_left h row col /\ centred img_left h row col l /\ displacement invalid drow srow /\ displacement invalid dcol scol /\
             (window_in img_right h (row + srow) (col + scol) -> centred img_right h (row + srow) (col + scol) r) /\
             (~ window_in img_right h (row + srow) (col + scol) -> no_window nan h r) /\
             refined lstsq resample invalid l iterations r (drow, dcol) (a, b)).
    Proof.
      destruct C32_refined_in_place as (mc & mr & E & Rc & Rr & P). unfold flow_refinement. rewrite E. cbn [bind fst snd]. rewrite !progression_length.
      unfold grids_of in G. rewrite Forall_forall in G.
      destruct (G (g_col_min g)) as [A1 A2]; [simpl; auto|]. destruct (G (g_col_max g)) as [A3 A4]; [simpl; auto|].
      destruct (G (g_row_min g)) as [A5 A6]; [simpl; auto|]. destruct (G (g_row_max g)) as [A7 A8]; [simpl; auto|].
      destruct (invalid_out_of_grid_spec invalid row_step col_step (g_col_min g) (g_col_max g) n m mc Rc) as (oc & -> & Roc & Pc); try congruence. cbn [bind].
      destruct (invalid_out_of_grid_spec invalid row_step col_step (g_row_min g) (g_row_max g) n m mr Rr) as (orow & -> & Ror & Pr); try congruence. cbn [bind].
      exists oc, orow. split; [reflexivity|]. split; [exact Roc|]. split; [exact Ror|]. intros i j drow dcol Hi Hj Hr Hc.
      destruct (P i j Hi Hj) as [P1 P2].
      assert (Ho : (i < b_row \/ n - b_row <= i \/ j < b_col \/ m - b_col <= j)%nat \/ (b_row <= i < n - b_row)%nat /\ (b_col <= j < m - b_col)%nat) by lia.
      destruct Ho as [Ho|[Ho1 Ho2]].
      - destruct (P1 Ho) as [O1 O2]. destruct (Pr i j _ Hi Hj O1) as (y & Ny & Ky). destruct (Pc i j _ Hi Hj O2) as (z & Nz & Kz).
        exists invalid, invalid, y, z. auto 8.
      - destruct (P2 Ho1 Ho2 drow dcol Hr Hc) as (l & r & srow & scol & drow' & dcol' & F). cbv zeta in F. destruct F as (F1 & F2 & F3 & F4 & F5 & F6 & Rf & O1 & O2).
        destruct (Pr i j _ Hi Hj O1) as (y & Ny & Ky). destruct (Pc i j _ Hi Hj O2) as (z & Nz & Kz).
        exists drow', dcol', y, z. do 4 (split; [assumption|]). right. split; [exact Ho1|]. split; [exact Ho2|]. exists l, r, srow, scol. auto 8.
    Qed.

    (** * C31: every value returned is the invalid one, NaN, or strictly inside the range of the pixel and at most one pixel per iteration away from
        the initial disparity. *)
    Theorem C31_range : exists out_col out_row,
      flow_refinement nan lstsq resample junk (2 * h + 1) iterations offset row_step col_step (progression first_row (Z.of_nat row_step) n) (progression first_col (Z.of_nat col_step) m)
        img_left img_right g invalid col_map row_map = Some (out_col, out_row) /\ rect n m out_col /\ rect n m out_row /\
      forall i j drow dcol, (i < n)%nat -> (j < m)%nat -> nth2 row_map i j = Some drow -> nth2 col_map i j = Some dcol ->
        let at_pixel (a : arr2 Z) := a2_get a (i * row_step) (j * col_step) in
        exists drow' dcol', nth2 out_row i j = Some drow' /\ nth2 out_col i j = Some dcol' /\
          (drow' = invalid \/ drow' = None \/ strictly_inside (at_pixel (g_row_min g)) (at_pixel (g_row_max g)) drow' /\ near iterations drow drow') /\
          (dcol' = invalid \/ dcol' = None \/ strictly_inside (at_pixel (g_col_min g)) (at_pixel (g_col_max g)) dcol' /\ near iterations dcol dcol').
    Proof.
      destruct C32_checked as (oc & orow & E & Rc & Rr & P). exists oc, orow. do 3 (split; [assumption|]). intros i j drow dcol Hi Hj Hr Hc at_pixel.
      destruct (P i j drow dcol Hi Hj Hr Hc) as (a & b & y & z & N1 & N2 & K1 & K2 & F). exists y, z. split; [exact N1|]. split; [exact N2|].
      assert (D : (a = invalid \/ near iterations drow a) /\ (b = invalid \/ near iterations dcol b)).
      { destruct F as [(_ & -> & ->)|(_ & _ & l & r & sr & sc & _ & _ & _ & _ & _ & _ & Rf)]; [auto|]. apply refined_near in Rf. destruct Rf as [M1 M2]. auto. }
      assert (Fin : forall (d x y : num) lo hi, (x = invalid \/ near iterations d x) -> kept invalid lo hi x y -> y = invalid \/ y = None \/ strictly_inside lo hi y /\ near iterations d y).
      { intros d x0 y0 lo hi D0 K. destruct K as [[_ ->]|[[K ->]|[_ ->]]]; auto. destruct D0 as [->|D0]; auto. }
      destruct D as [D1 D2]. split; eapply Fin; eauto.
    Qed.

    (** * C59: a pixel that is invalid before stays invalid (or NaN) when the invalid value is farther from its range than the number of iterations. *)
    Theorem C59_invalid_kept_partial v out_col out_row i j : invalid = Some v ->
      flow_refinement nan lstsq resample junk (2 * h + 1) iterations offset row_step col_step (progression first_row (Z.of_nat row_step) n) (progression first_col (Z.of_nat col_step) m)
        img_left img_right g invalid col_map row_map = Some (out_col, out_row) -> (i < n)%nat -> (j < m)%nat ->
      (nth2 row_map i j = Some invalid -> nth2 col_map i j <> None ->
        (v + inject_Z (Z.of_nat iterations) <= inject_Z (a2_get (g_row_min g) (i * row_step) (j * col_step)) \/ inject_Z (a2_get (g_row_max g) (i * row_step) (j * col_step)) <= v - inject_Z (Z.of_nat iterations))%Q ->
        nth2 out_row i j = Some invalid \/ nth2 out_row i j = Some None) /\
      (nth2 col_map i j = Some invalid -> nth2 row_map i j <> None ->
        (v + inject_Z (Z.of_nat iterations) <= inject_Z (a2_get (g_col_min g) (i * row_step) (j * col_step)) \/ inject_Z (a2_get (g_col_max g) (i * row_step) (j * col_step)) <= v - inject_Z (Z.of_nat iterations))%Q ->
        nth2 out_col i j = Some invalid \/ nth2 out_col i j = Some None).
    Proof.
      intros Ev E Hi Hj. destruct C31_range as (oc & orow & E' & _ & _ & P). rewrite E in E'. injection E' as <- <-. specialize (P i j).
      assert (Far : forall lo hi d', (v + inject_Z (Z.of_nat iterations) <= inject_Z lo \/ inject_Z hi <= v - inject_Z (Z.of_nat iterations))%Q -> strictly_inside lo hi d' -> near iterations invalid d' -> False).
      { intros lo hi d' F (x & -> & X1 & X2) [N|(a & b & Ea & Eb & N)]; [discriminate|]. injection Eb as <-. rewrite Ev in Ea. injection Ea as <-. apply Qabs_Qle_condition in N. destruct N as [N1 N2].
        destruct F as [F|F]; lra. }
      split.
      - intros Hr Hc F. destruct (nth2 col_map i j) as [dc|]; [|congruence]. destruct (P invalid dc Hi Hj Hr eq_refl) as (a & b & Na & Nb & Ka & Kb). rewrite Na.
        destruct Ka as [->|[->|[S1 S2]]]; auto. exfalso. eapply Far; eauto.
      - intros Hc Hr F. destruct (nth2 row_map i j) as [dr|]; [|congruence]. destruct (P dr invalid Hi Hj eq_refl Hc) as (a & b & Na & Nb & Ka & Kb). rewrite Nb.
        destruct Kb as [->|[->|[S1 S2]]]; auto. exfalso. eapply Far; eauto.
    Qed.
    (** C59: with an invalid_disparity that is NaN, an invalid pixel stays invalid, always. *)
    Theorem C59_nan_kept out_col out_row i j : invalid = None ->
      flow_refinement nan lstsq resample junk (2 * h + 1) iterations offset row_step col_step (progression first_row (Z.of_nat row_step) n) (progression first_col (Z.of_nat col_step) m)
        img_left img_right g invalid col_map row_map = Some (out_col, out_row) -> (i < n)%nat -> (j < m)%nat ->
      (nth2 row_map i j = Some None -> nth2 col_map i j <> None -> nth2 out_row i j = Some None) /\
      (nth2 col_map i j = Some None -> nth2 row_map i j <> None -> nth2 out_col i j = Some None).
    Proof.
      intros Ev E Hi Hj. destruct C31_range as (oc & orow & E' & _ & _ & P). rewrite E in E'. injection E' as <- <-. specialize (P i j).
      assert (Far : forall lo hi d', strictly_inside lo hi d' -> near iterations None d' -> False) by (intros lo hi d' (x & -> & _) [N|(a & b & Ea & _)]; discriminate).
      split.
      - intros Hr Hc. destruct (nth2 col_map i j) as [dc|] eqn:Ec; [|congruence]. destruct (P None dc Hi Hj Hr eq_refl) as (a & b & Na & Nb & [Ea|[Ea|[Ia Ja]]] & _); [rewrite Na, Ea; exact (f_equal Some Ev) | rewrite Na, Ea; reflexivity | exfalso; eauto].
      - intros Hc Hr. destruct (nth2 row_map i j) as [dr|] eqn:Er; [|congruence]. destruct (P dr None Hi Hj eq_refl Hc) as (a & b & Na & Nb & _ & [Ea|[Ea|[Ia Ja]]]); [rewrite Nb, Ea; exact (f_equal Some Ev) | rewrite Nb, Ea; reflexivity | exfalso; eauto].
    Qed.

    (** * C57: exactly one of the two maps is invalidated when exactly one of the refined values is out of its range. *)
    Theorem C57_exact out_col out_row i j drow dcol : 
      flow_refinement nan lstsq resample junk (2 * h + 1) iterations offset row_step col_step (progression first_row (Z.of_nat row_step) n) (progression first_col (Z.of_nat col_step) m)
        img_left img_right g invalid col_map row_map = Some (out_col, out_row) -> (b_row <= i < n - b_row)%nat -> (b_col <= j < m - b_col)%nat ->
      nth2 row_map i j = Some drow -> nth2 col_map i j = Some dcol -> 
      let at_pixel (a : arr2 Z) := a2_get a (i * row_step) (j * col_step) in
      exists l r a b, refined lstsq resample invalid l iterations r (drow, dcol) (a, b) /\ centred img_left h (first_row + Z.of_nat i * Z.of_nat row_step) (first_col + Z.of_nat j * Z.of_nat col_step) l /\
        (out_of_range (at_pixel (g_row_min g)) (at_pixel (g_row_max g)) a -> nth2 out_row i j = Some invalid) /\ (~ out_of_range (at_pixel (g_row_min g)) (at_pixel (g_row_max g)) a -> nth2 out_row i j = Some a) /\
        (out_of_range (at_pixel (g_col_min g)) (at_pixel (g_col_max g)) b -> nth2 out_col i j = Some invalid) /\ (~ out_of_range (at_pixel (g_col_min g)) (at_pixel (g_col_max g)) b -> nth2 out_col i j = Some b).
    Proof.
      intros E Bi Bj Hr Hc at_pixel. destruct C32_checked as (oc & orow & E' & _ & _ & P). rewrite E in E'. injection E' as <- <-.
      destruct (P i j drow dcol ltac:(lia) ltac:(lia) Hr Hc) as (a & b & y & z & Ny & Nz & Ky & Kz & [(O & _)|(_ & _ & l & r & sr & sc & _ & Cl & _ & _ & _ & _ & Rf)]); [lia|].
      exists l, r, a, b. split; [exact Rf|]. split; [exact Cl|].
      assert (K : forall lo hi d d', kept invalid lo hi d d' -> (out_of_range lo hi d -> d' = invalid) /\ (~ out_of_range lo hi d -> d' = d)).
      { intros lo hi d d' [[-> ->]|[[(x & -> & X1 & X2) ->]|[(x & -> & X) ->]]].
        - split; [intros (x & Ex & _); discriminate | reflexivity].
        - split; [|reflexivity]. intros (x' & Ex & [X|X]); injection Ex as <-; exfalso; lra.
        - split; [reflexivity|]. intros N. exfalso. apply N. exists x. auto. }
      destruct (K _ _ _ _ Ky) as [K1 K2]. destruct (K _ _ _ _ Kz) as [K3 K4]. unfold at_pixel in *.
      split; [intros O; rewrite Ny, K1 by exact O; reflexivity|]. split; [intros O; rewrite Ny, K2 by exact O; reflexivity|].
      split; [intros O; rewrite Nz, K3 by exact O; reflexivity | intros O; rewrite Nz, K4 by exact O; reflexivity].
    Qed.
  End Whole.

  (** C31: one iteration moves a disparity by one pixel at most (or gives NaN). *)
  Theorem C31_one_iteration invalid l r d d' : refined lstsq resample invalid l 1 r d d' -> near 1 (fst d) (fst d') /\ near 1 (snd d) (snd d').
  Proof. apply refined_near. Qed.
  Theorem C31_iterations invalid l n r d d' : refined lstsq resample invalid l n r d d' -> near n (fst d) (fst d') /\ near n (snd d) (snd d').
  Proof. apply refined_near. Qed.

  (** C31: whatever the other pixels do, a pixel out of the process keeps its values during all the iterations. *)
  Theorem C31_out_of_process n invalid left right todo drow dcol N idx a b : length left = N -> length right = N -> length drow = N -> length dcol = N ->
    (forall k, In k todo -> (k < N)%nat) -> NoDup todo -> ~ In idx todo -> nth_error drow idx = Some a -> nth_error dcol idx = Some b ->
    exists drow' dcol', iterate lstsq resample junk n invalid left right todo drow dcol = Some (drow', dcol') /\ nth_error drow' idx = Some a /\ nth_error dcol' idx = Some b.
  Proof.
    intros LL LR L1 L2 Hlt ND Hi Ha Hb. destruct (iterate_spec lstsq resample junk invalid n left right todo drow dcol N LL LR L1 L2 Hlt ND) as (dr & dc & E & _ & _ & P).
    exists dr, dc. split; [exact E|]. assert (Hk : (idx < N)%nat) by (rewrite <- L1; apply nth_error_Some; congruence).
    destruct (nth_error_some left idx) as [l El]; [lia|]. destruct (nth_error_some right idx) as [r Er]; [lia|]. apply (P idx l r a b El Er Ha Hb). exact Hi.
  Qed.

  (** * C58: a whole disparity whose windows show no motion is returned unchanged, and is the displacement between the windows. *)
  Theorem C58_whole_disparity invalid l n : forall r d s d' q, d = Some q -> (q == inject_Z (Qfloor q))%Q -> ~ (neqb d invalid = true) -> displacement invalid d s ->
    lstsq l r = Some (Some 0%Q, Some 0%Q) -> resample r (Some 0%Q) (Some 0%Q) = r ->
    refined lstsq resample invalid l n r (d, d) d' -> exists a b, d' = (Some a, Some b) /\ (a == inject_Z s)%Q /\ (b == inject_Z s)%Q.
  Proof.
    intros r d s d' q -> Hw Hi Hd Hl Hr Rf.
    assert (Es : (q == inject_Z s)%Q).
    { assert (T : truncated q s). { destruct invalid as [v|]; [|exact Hd]. destruct Hd as [[E _]|[_ T]]; [|exact T]. exfalso. apply Hi. cbn [neqb]. apply Qeq_bool_iff, E. }
      destruct T as (T1 & T2 & T3). rewrite Hw in T1, T2, T3 |- *. set (z := Qfloor q) in *. clearbody z. unfold Qabs in T1, T2. cbn [inject_Z] in T1, T2.
      change (Z.abs z # 1) with (inject_Z (Z.abs z)) in T1, T2. change 1%Q with (inject_Z 1) in T2. rewrite <- inject_Z_plus in T2. rewrite <- Zle_Qle in T1. rewrite <- Zlt_Qlt in T2.
      rewrite <- inject_Z_mult in T3. change 0%Q with (inject_Z 0) in T3. rewrite <- Zle_Qle in T3. assert (z = s) by nia. subst. reflexivity. }
    assert (Gen : forall n r' a b d', refined lstsq resample invalid l n r' (Some a, Some b) d' -> r' = r -> (a == inject_Z s)%Q -> (b == inject_Z s)%Q -> exists a' b', d' = (Some a', Some b') /\ (a' == inject_Z s)%Q /\ (b' == inject_Z s)%Q).
    { clear Rf d' n. intros n. induction n as [|n IH]; intros r' a b d' Rf Er Ea Eb; inversion Rf; subst; clear Rf.
      - exists a, b. auto.
      - match goal with H : motion _ _ _ _ = _ |- _ => unfold motion in H; rewrite Hl in H; injection H as <- <- end.
        match goal with H : refined _ _ _ _ _ _ _ _ |- _ => rewrite Hr in H; cbn [nsub] in H; eapply IH; [exact H|reflexivity| |] end; [rewrite <- Ea|rewrite <- Eb]; ring.
      - exfalso. match goal with H : motion _ _ _ _ = _ |- _ => unfold motion in H; rewrite Hl in H; injection H as <- <- end.
        match goal with H : ~ (within_one _ /\ within_one _) |- _ => apply H end. split; exists 0%Q; split; reflexivity. }
    eapply Gen; eauto.
  Qed.
End Flow.

(** ** Examples: images of integers (-1 is NaN), the least squares read the difference of the centres of the windows. *)
Definition centre (w : list (list Z)) : Z := match nth2 w 1 1 with Some z => z | None => 0 end.
Definition lstsq_ex (l r : list (list Z)) : option (num * num) :=
  if centre r =? -1 then None else Some (Some ((centre r - centre l) # 8), Some ((centre r - centre l) # 8)).
Definition resample_ex (r : list (list Z)) (drow dcol : num) : list (list Z) := map (map (fun z => z - 1)) r.
Definition left_ex : @image Z := mkImage 0 0 5 5 [[0; 0; 0; 0; 0]; [0; 10; 10; 10; 0]; [0; 10; 10; 10; 0]; [0; 10; 10; 10; 0]; [0; 0; 0; 0; 0]].
Definition right_ex : @image Z := mkImage 0 0 5 5 [[0; 0; 0; 0; 0]; [0; 14; 18; 30; 0]; [0; 8; 6; 10; 0]; [0; 14; 10; 18; 0]; [0; 0; 0; 0; 0]].
Definition const_grid (n m : nat) (z : Z) : arr2 Z := mkArr2 n m (fun _ _ => z).
Definition grids_ex : grids := mkGrids2 (const_grid 5 5 (-2)) (const_grid 5 5 2) (const_grid 5 5 (-1)) (const_grid 5 5 1).
Definition zeros_ex (n m : nat) : list (list num) := repeat (repeat (Some 0%Q) m) n.

Example C31_C32_inputs : flow_inputs (2 * 1 + 1) 1 1 0 0 (Z.of_nat 1) (Z.of_nat 1) 5 5 1 1 left_ex right_ex (zeros_ex 5 5) (zeros_ex 5 5) /\
  5%nat = strided_len 5 0 1 /\ grids_of 5 5 grids_ex.
Proof.
  split; [|split; [reflexivity|repeat constructor]].
  constructor; try reflexivity; try lia; try (unfold border; lia); try (split; [reflexivity|repeat constructor]); simpl; try lia.
  split; (split; [reflexivity|repeat constructor]).
Qed.
(** Motion 4/8 then 3/8; 1 (stays in the sense that it is subtracted, then leaves); 20/8 cancelled; -1/4 then -3/8... *)
Example C31_example : exists out_col out_row,
  flow_refinement (-1) lstsq_ex resample_ex (fun _ => []) 3 2 1 1 1 (progression 0 1 5) (progression 0 1 5) left_ex right_ex grids_ex (Some (-9999#1)%Q) (zeros_ex 5 5) (zeros_ex 5 5) = Some (out_col, out_row) /\
  map (map (option_map Qred)) out_col = (let x := Some (-9999#1)%Q in
    [[x; x; x; x; x]; [x; Some (-7#8); Some (-1#1); Some (0#1); x]; [x; Some (5#8); Some (9#8); Some (1#8); x]; [x; Some (-7#8); Some (1#8); Some (-1#1); x]; [x; x; x; x; x]])%Q /\
  map (map (option_map Qred)) out_row = (let x := Some (-9999#1)%Q in
    [[x; x; x; x; x]; [x; Some (-7#8); x; Some (0#1); x]; [x; Some (5#8); x; Some (1#8); x]; [x; Some (-7#8); Some (1#8); x; x]; [x; x; x; x; x]])%Q.
Proof. eexists. eexists. split; [vm_compute; reflexivity|]. split; vm_compute; reflexivity. Qed.

(** * C55: with a ROI and a step the points of the cost volumes are not always as many as the points of the grids: the check of the range fails. *)
Definition roi_ex (c1 : Z) : roi := mkRoi 6 c1 6 12 (flow_margins 3 1 2).
Definition disp_ex : disparity := mkDisp (DInt 0) 1.
Definition roi_image (n m : nat) : @image Z := mkImage 4 5 n m (repeat (repeat 7 m) n).
(** The matching cost step on the part of the images loaded for the ROI. *)
Definition roi_mc (n m : nat) (mg : Z * Z * Z * Z) : mc_input :=
  mkMC 4 n 5 m (const_grid n m (-1)) (const_grid n m 1) (const_grid n m (-1)) (const_grid n m 1) (-1, 1) (-1, 1) 1 1 2 MeasureMin None (Some (mkRoiCfg 6 6 mg)).
Definition still (l r : list (list Z)) : option (num * num) := Some (Some 0%Q, Some 0%Q).
Definition grids_1 (n m : nat) : grids := mkGrids2 (const_grid n m (-1)) (const_grid n m 1) (const_grid n m (-1)) (const_grid n m 1).

Theorem C55_roi_and_step_refuted : exists (r new user : roi) (nr nc n m b_row b_col : nat) first_row first_col,
  let '(m0, m1, m2, m3) := roi_mg new in
  roi_mg r = flow_margins 3 1 2 /\ get_roi_processing r disp_ex disp_ex = Some (new, user) /\
  window_of (roi_r0 new) (roi_r1 new) m1 m3 20 = (4, 4 + Z.of_nat nr) /\ window_of (roi_c0 new) (roi_c1 new) m0 m2 20 = (5, 5 + Z.of_nat nc) /\
  row_coords (roi_mc nr nc (roi_mg user)) = progression first_row 1 n /\ col_coords (roi_mc nr nc (roi_mg user)) = progression first_col 2 m /\
  flow_inputs 3 1 1 first_row first_col 1 2 n m b_row b_col (roi_image nr nc) (roi_image nr nc) (zeros_ex n m) (zeros_ex n m) /\
  grids_of nr nc (grids_1 nr nc) /\
  flow_refinement (-1) still resample_ex (fun _ => []) 3 1 1 1 2 (row_coords (roi_mc nr nc (roi_mg user))) (col_coords (roi_mc nr nc (roi_mg user)))
    (roi_image nr nc) (roi_image nr nc) (grids_1 nr nc) (Some (-9999#1)%Q) (zeros_ex n m) (zeros_ex n m) = None.
Proof.
  exists (roi_ex 12), (roi_ex 12), (roi_ex 12), 11%nat, 9%nat, 11%nat, 4%nat, 1%nat, 1%nat, 4, 6. cbn [roi_ex roi_mg flow_margins]. 
  split; [reflexivity|]. split; [vm_compute; reflexivity|]. split; [vm_compute; reflexivity|]. split; [vm_compute; reflexivity|]. split; [vm_compute; reflexivity|]. split; [vm_compute; reflexivity|].
  split.
  { constructor; try reflexivity; try lia; try (unfold border; lia); try (split; [reflexivity|repeat constructor]); simpl; try lia. split; (split; [reflexivity|repeat constructor]). }
  split; [repeat constructor|]. vm_compute. reflexivity.
Qed.

(** * C56: the margins of the optical flow take the row step for the columns and the column step for the rows: points of the ROI are in the border of the
    part of the image that is loaded, and invalid, though they are refined without ROI. *)
Theorem C56_roi_points_refuted : exists (r new user : roi) (nr nc n m : nat) first_row first_col out_col out_row full_col full_row i j fi fj row col,
  let '(m0, m1, m2, m3) := roi_mg new in
  roi_mg r = flow_margins 3 1 2 /\ get_roi_processing r disp_ex disp_ex = Some (new, user) /\
  window_of (roi_r0 new) (roi_r1 new) m1 m3 20 = (4, 4 + Z.of_nat nr) /\ window_of (roi_c0 new) (roi_c1 new) m0 m2 20 = (5, 5 + Z.of_nat nc) /\
  row_coords (roi_mc nr nc (roi_mg user)) = progression first_row 1 n /\ col_coords (roi_mc nr nc (roi_mg user)) = progression first_col 2 m /\
  flow_refinement (-1) still resample_ex (fun _ => []) 3 1 1 1 2 (progression first_row 1 n) (progression first_col 2 m)
    (roi_image nr nc) (roi_image nr nc) (grids_1 nr nc) (Some (-9999#1)%Q) (zeros_ex n m) (zeros_ex n m) = Some (out_col, out_row) /\
  flow_refinement (-1) still resample_ex (fun _ => []) 3 1 1 1 2 (progression 0 1 20) (progression 0 2 10)
    (mkImage 0 0 20 20 (repeat (repeat 7 20) 20)) (mkImage 0 0 20 20 (repeat (repeat 7 20) 20)) (grids_1 20 20) (Some (-9999#1)%Q) (zeros_ex 20 10) (zeros_ex 20 10) = Some (full_col, full_row) /\
  (** the same point of the ROI *)
  nth_error (progression first_row 1 n) i = Some row /\ nth_error (progression first_col 2 m) j = Some col /\
  nth_error (progression 0 1 20) fi = Some row /\ nth_error (progression 0 2 10) fj = Some col /\
  roi_r0 r <= row <= roi_r1 r /\ roi_c0 r <= col <= roi_c1 r /\
  nth2 out_col i j = Some (Some (-9999#1)%Q) /\ nth2 full_col fi fj = Some (Some (0#1)%Q).
Proof.
  exists (roi_ex 13), (roi_ex 13), (roi_ex 13), 11%nat, 10%nat, 11%nat, 5%nat, 4, 6. do 4 eexists. exists 3%nat, 0%nat, 7%nat, 3%nat, 7, 6. cbn [roi_ex roi_mg flow_margins].
  split; [reflexivity|]. split; [vm_compute; reflexivity|]. split; [vm_compute; reflexivity|]. split; [vm_compute; reflexivity|]. split; [vm_compute; reflexivity|]. split; [vm_compute; reflexivity|].
  split; [vm_compute; reflexivity|]. split; [vm_compute; reflexivity|]. split; [vm_compute; reflexivity|]. split; [vm_compute; reflexivity|]. split; [vm_compute; reflexivity|]. split; [vm_compute; reflexivity|].
  split; [simpl; lia|]. split; [simpl; lia|]. split; vm_compute; reflexivity.
Qed.

(** With margins of h times the step of the axis (as they are when both steps are the same) and a ROI far enough from the ends of the image, no
    point of the ROI is in the border. *)
Theorem C56_margins_of_the_axis M first last c0 c1 step h b k x : 1 <= step -> first = c0 - M -> last = c1 + M -> c0 <= c1 ->
  Z.of_nat h * step <= M -> border h step b -> nth_error (get_coordinates M first last step) k = Some x -> c0 <= x <= c1 ->
  (b <= k < length (get_coordinates M first last step) - b)%nat.
Proof. intros. eapply get_coordinates_interior; eauto. lia. Qed.
Example C56_example : nth_error (get_coordinates 4 2 16 2) 2 = Some 6 /\ border 2 2 1 /\ length (get_coordinates 4 2 16 2) = 8%nat.
Proof. split; [reflexivity|]. split; [unfold border; lia|reflexivity]. Qed.

(** * C57: the row and column disparities of a pixel are invalidated separately. *)
Theorem C57_both_maps_refuted : exists nan lstsq resample junk (left right : @image Z) g col_map row_map out_col out_row i j,
  flow_inputs 3 1 1 0 0 1 1 5 5 1 1 left right col_map row_map /\ grids_of 5 5 g /\
  flow_refinement nan lstsq resample junk 3 2 1 1 1 (progression 0 1 5) (progression 0 1 5) left right g (Some (-9999#1)%Q) col_map row_map = Some (out_col, out_row) /\
  nth2 out_row i j = Some (Some (-9999#1)%Q) /\ exists x, nth2 out_col i j = Some (Some x) /\ (x == -1)%Q.
Proof.
  exists (-1), lstsq_ex, resample_ex, (fun _ => []), left_ex, right_ex, grids_ex, (zeros_ex 5 5), (zeros_ex 5 5). do 2 eexists. exists 1%nat, 2%nat.
  split; [apply C31_C32_inputs|]. split; [apply C31_C32_inputs|]. split; [vm_compute; reflexivity|]. split; [vm_compute; reflexivity|]. eexists. split; [vm_compute; reflexivity|reflexivity].
Qed.

(** * C58: with a disparity that is not whole the windows are compared at its whole part: when they show no motion, the disparity returned is not the
    displacement between them. *)
Theorem C58_fractional_disparity_refuted : exists nan lstsq resample junk (left : @image Z) g col_map row_map out_col out_row i j x s,
  flow_inputs 3 1 1 0 0 1 1 5 5 1 1 left left col_map row_map /\ grids_of 5 5 g /\
  (forall w, lstsq w w = Some (Some 0%Q, Some 0%Q)) /\ (forall w, resample w (Some 0%Q) (Some 0%Q) = w) /\
  flow_refinement nan lstsq resample junk 3 2 1 1 1 (progression 0 1 5) (progression 0 1 5) left left g (Some (-9999#1)%Q) col_map row_map = Some (out_col, out_row) /\
  (exists d, nth2 col_map i j = Some d /\ displacement (Some (-9999#1)%Q) d s) /\ nth2 out_col i j = Some (Some x) /\ ~ (x == inject_Z s)%Q.
Proof.
  exists (-1), still, (fun w _ _ => w), (fun _ => []), left_ex, grids_ex, (repeat (repeat (Some (1#2)%Q) 5) 5), (zeros_ex 5 5). do 2 eexists. exists 2%nat, 2%nat. eexists. exists 0.
  split. { constructor; try reflexivity; try lia; try (unfold border; lia); try (split; [reflexivity|repeat constructor]); simpl; try lia. split; (split; [reflexivity|repeat constructor]). }
  split; [apply C31_C32_inputs|]. split; [reflexivity|]. split; [reflexivity|]. split; [vm_compute; reflexivity|].
  split; [exists (Some (1#2)%Q); split; [reflexivity|]|]. { right. split; [intros H; discriminate|]. split; [vm_compute; discriminate|]. split; [reflexivity|vm_compute; discriminate]. }
  split; [vm_compute; reflexivity|]. intros H. vm_compute in H. discriminate.
Qed.
Example C58_example : exists q, (q == inject_Z (Qfloor q))%Q /\ displacement (Some (-9999#1)%Q) (Some q) 3 /\
  refined still (fun w _ _ => w) (Some (-9999#1)%Q) [[1]] 2 [[1]] (Some q, Some q) (Some (q - 0 - 0)%Q, Some (q - 0 - 0)%Q).
Proof.
  exists (3#1)%Q. split; [reflexivity|]. split; [right; split; [intros H; discriminate|]; split; [vm_compute; discriminate|]; split; [reflexivity|vm_compute; discriminate]|].
  eapply refined_go; [reflexivity|exists 0%Q; split; reflexivity|exists 0%Q; split; reflexivity|]. eapply refined_go; [reflexivity|exists 0%Q; split; reflexivity|exists 0%Q; split; reflexivity|]. apply refined_end.
Qed.

(** * C59: an invalid value inside the range is refined like a disparity; and an invalid pixel may become NaN. *)
Theorem C59_invalid_refined_refuted : exists nan lstsq resample junk (left right : @image Z) g invalid col_map row_map out_col out_row i j x,
  flow_inputs 3 1 1 0 0 1 1 5 5 1 1 left right col_map row_map /\ grids_of 5 5 g /\
  flow_refinement nan lstsq resample junk 3 2 1 1 1 (progression 0 1 5) (progression 0 1 5) left right g (Some invalid) col_map row_map = Some (out_col, out_row) /\
  nth2 col_map i j = Some (Some invalid) /\ nth2 row_map i j = Some (Some invalid) /\
  nth2 out_col i j = Some (Some x) /\ nth2 out_row i j = Some (Some x) /\ ~ (x == invalid)%Q.
Proof.
  exists (-1), lstsq_ex, resample_ex, (fun _ => []), left_ex, right_ex, grids_ex, 0%Q, (zeros_ex 5 5), (zeros_ex 5 5). do 2 eexists. exists 1%nat, 1%nat. eexists.
  split; [apply C31_C32_inputs|]. split; [apply C31_C32_inputs|]. split; [vm_compute; reflexivity|]. split; [reflexivity|]. split; [reflexivity|]. split; [vm_compute; reflexivity|]. split; [vm_compute; reflexivity|].
  intros H. vm_compute in H. discriminate.
Qed.
Example C59_example : let bad := repeat (repeat (Some (-9999#1)%Q) 5) 5 in
  flow_inputs (2 * 1 + 1) 1 1 0 0 (Z.of_nat 1) (Z.of_nat 1) 5 5 1 1 left_ex right_ex bad bad /\
  ((-9999#1) + inject_Z (Z.of_nat 2) <= inject_Z (a2_get (g_row_min grids_ex) (2 * 1) (2 * 1)))%Q /\
  flow_refinement (-1) lstsq_ex resample_ex (fun _ => []) 3 2 1 1 1 (progression 0 1 5) (progression 0 1 5) left_ex right_ex grids_ex (Some (-9999#1)%Q) bad bad = Some (bad, bad).
Proof.
  intros bad. split; [|split; [vm_compute; discriminate|vm_compute; reflexivity]].
  constructor; try reflexivity; try lia; try (unfold border; lia); try (split; [reflexivity|repeat constructor]); simpl; try lia. split; (split; [reflexivity|repeat constructor]).
Qed.
(** The same maps of invalid values with a NaN as invalid value: it stays at every pixel. *)
Example C59_nan_example : let bad := repeat (repeat (@None Q) 5) 5 in
  flow_inputs (2 * 1 + 1) 1 1 0 0 (Z.of_nat 1) (Z.of_nat 1) 5 5 1 1 left_ex right_ex bad bad /\ nth2 bad 2 2 = Some None /\
  flow_refinement (-1) lstsq_ex resample_ex (fun _ => []) 3 2 1 1 1 (progression 0 1 5) (progression 0 1 5) left_ex right_ex grids_ex None bad bad = Some (bad, bad).
Proof.
  intros bad. split; [|split; vm_compute; reflexivity].
  constructor; try reflexivity; try lia; try (unfold border; lia); try (split; [reflexivity|repeat constructor]); simpl; try lia. split; (split; [reflexivity|repeat constructor]).
Qed.
(** The inputs of C57_both_maps_refuted: the row of the pixel (1, 2) is invalidated and its column is kept. *)
Example C57_exact_example : exists out_col out_row,
  flow_inputs (2 * 1 + 1) 1 1 0 0 (Z.of_nat 1) (Z.of_nat 1) 5 5 1 1 left_ex right_ex (zeros_ex 5 5) (zeros_ex 5 5) /\ grids_of 5 5 grids_ex /\
  flow_refinement (-1) lstsq_ex resample_ex (fun _ => []) 3 2 1 1 1 (progression 0 1 5) (progression 0 1 5) left_ex right_ex grids_ex (Some (-9999#1)%Q) (zeros_ex 5 5) (zeros_ex 5 5)
    = Some (out_col, out_row) /\ (1 <= 1 < 5 - 1)%nat /\ (1 <= 2 < 5 - 1)%nat /\ nth2 out_row 1 2 = Some (Some (-9999#1)%Q) /\ exists x, nth2 out_col 1 2 = Some (Some x) /\ (x == -1)%Q.
Proof.
  do 2 eexists. split; [apply C31_C32_inputs|]. split; [apply C31_C32_inputs|]. split; [vm_compute; reflexivity|]. split; [lia|]. split; [lia|]. split; [vm_compute; reflexivity|].
  eexists. split; [vm_compute; reflexivity|reflexivity].
Qed.
(** Right windows of two points: disparities (row, column) (1, -1/2) and (0, 3). *)
Example C32_example : right_windows (-1) (2 * 1 + 1) right_ex (Some (-9999#1)%Q) (progression 2 1 1) (progression 2 1 2) ([Some (1#1)%Q; Some (0#1)%Q] : list num) ([Some (-1#2)%Q; Some (3#1)%Q] : list num) =
  Some [[[8; 6; 10]; [14; 10; 18]; [0; 0; 0]]; [[-1; -1; -1]; [-1; -1; -1]; [-1; -1; -1]]] /\ left_windows (2 * 1 + 1) (Z.of_nat 1) right_ex (progression 1 2 2) (progression 2 1 1) = Some [[[0; 0; 0]; [14; 18; 30]; [8; 6; 10]]; [[8; 6; 10]; [14; 10; 18]; [0; 0; 0]]].
Proof. split; vm_compute; reflexivity. Qed.

Print Assumptions C32_left_windows.
Print Assumptions C32_right_windows.
Print Assumptions C32_refined_in_place.
Print Assumptions C32_checked.
Print Assumptions C31_range.
Print Assumptions C31_one_iteration.
Print Assumptions C31_iterations.
Print Assumptions C31_out_of_process.
Print Assumptions C55_roi_and_step_refuted.
Print Assumptions C56_roi_points_refuted.
Print Assumptions C56_margins_of_the_axis.
Print Assumptions C57_both_maps_refuted.
Print Assumptions C58_whole_disparity.
Print Assumptions C58_fractional_disparity_refuted.
Print Assumptions C59_invalid_kept_partial.
Print Assumptions C59_nan_kept.
Print Assumptions C57_exact.
Print Assumptions C59_invalid_refined_refuted.
