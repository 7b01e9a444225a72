(** Proofs about the dichotomy refinement of whole maps. *)
From Coq Require Import ZArith List Bool Lia Arith Znumtheory.
From Verif Require Import Base.Ext Base.PyList Base.Arr Model.CommonModel Model.DisparityModel Model.DichotomyModel
  Spec.WtaSpec Spec.DichotomySpec Proofs.ChunkProofs Proofs.WtaProofs Proofs.DichotomyProofs.
Import ListNotations.
Open Scope Z_scope.

Section Maps.
  Variable one : Z.
  Variable store : ext -> ext.
  Variable flt : filter.
  Variable iterations : nat.
  Variable cv : cost_volumes.
  Variable invalid : ext.
  Variables col_map row_map : list (list ext).
  Variable g : grids.

  Local Notation refine := (refinement_method one store flt iterations cv invalid col_map row_map g).
  Local Notation refine_one := (refine_at one store flt iterations cv invalid col_map row_map g).

  Lemma refinement_nth mc mr sc r c : refine = Some (mc, mr, sc) -> (r < cv_nrow cv)%nat -> (c < cv_ncol cv)%nat ->
    exists x row col, refine_one r c = Some (x, row, col) /\ nth2 sc r c = Some x /\ nth2 mr r c = Some row /\ nth2 mc r c = Some col.
  Proof.
    unfold refinement_method. destruct (map_opt _ _) as [m|] eqn:E; [|discriminate]. intros H Hr Hc. injection H as <- <- <-.
    pose proof (map_opt_nth _ _ _ r E) as Er. rewrite (nth_error_nth' _ 0%nat) in Er by (rewrite seq_length; lia).
    rewrite seq_nth in Er by lia. cbn [Nat.add] in Er.
    destruct (map_opt (refine_one r) (seq 0 (cv_ncol cv))) as [line|] eqn:El.
    2:{ apply nth_error_None in Er. apply map_opt_length in E. rewrite seq_length in E. lia. }
    pose proof (map_opt_nth _ _ _ c El) as Ec. rewrite (nth_error_nth' _ 0%nat) in Ec by (rewrite seq_length; lia).
    rewrite seq_nth in Ec by lia. cbn [Nat.add] in Ec.
    destruct (nth_error line c) as [[[x row] col]|] eqn:En.
    2:{ apply nth_error_None in En. apply map_opt_length in El. rewrite seq_length in El. lia. }
    exists x, row, col. rewrite !nth2_map. unfold nth2. rewrite Er, En. simpl. auto.
  Qed.

  Lemma refinement_total : (forall r c, (r < cv_nrow cv)%nat -> (c < cv_ncol cv)%nat -> refine_one r c <> None) -> exists res, refine = Some res.
  Proof.
    intros H. unfold refinement_method.
    destruct (map_opt_total (fun r => map_opt (refine_one r) (seq 0 (cv_ncol cv))) (seq 0 (cv_nrow cv))) as [m ->]; eauto.
    intros r Hr. apply in_seq in Hr. destruct (map_opt_total (refine_one r) (seq 0 (cv_ncol cv))) as [line ->]; [|discriminate].
    intros c Hc. apply in_seq in Hc. apply H; lia.
  Qed.

  Lemma refinement_rect mc mr sc : refine = Some (mc, mr, sc) ->
    rect (cv_nrow cv) (cv_ncol cv) mc /\ rect (cv_nrow cv) (cv_ncol cv) mr /\ rect (cv_nrow cv) (cv_ncol cv) sc.
  Proof.
    unfold refinement_method. destruct (map_opt _ _) as [m|] eqn:E; [|discriminate]. intros H. injection H as <- <- <-.
    assert (R : rect (cv_nrow cv) (cv_ncol cv) m).
    { split; [rewrite (map_opt_length _ _ _ E); apply seq_length|]. apply Forall_forall. intros line Hl.
      apply In_nth_error in Hl. destruct Hl as [k Hk]. pose proof (map_opt_nth _ _ _ k E) as Ek. rewrite Hk in Ek.
      destruct (nth_error (seq 0 (cv_nrow cv)) k); [|discriminate]. symmetry in Ek. apply map_opt_length in Ek. now rewrite seq_length in Ek. }
    split; [|split]; apply rect_map; auto.
  Qed.

  (** What refine_at does on a valid pixel. *)
  Lemma refine_at_matched r c row col i j x surface rmin rmax cmin cmax :
    increasing (cv_disp_col cv) -> increasing (cv_disp_row cv) ->
    matched invalid col_map row_map r c row col -> cost_for cv r c row col i j x -> nth2 (cv_data cv) r c = Some surface ->
    grid_at (g_row_min g) (cv_nrow cv) (cv_ncol cv) r c = Some rmin -> grid_at (g_row_max g) (cv_nrow cv) (cv_ncol cv) r c = Some rmax ->
    grid_at (g_col_min g) (cv_nrow cv) (cv_ncol cv) r c = Some cmin -> grid_at (g_col_max g) (cv_nrow cv) (cv_ncol cv) r c = Some cmax ->
    refine_one r c =
      if ext_isnan x then Some (x, Fin row, Fin col)
      else if (row =? rmin * one) || (row =? rmax * one) then Some (x, Fin row, Fin col)
      else if (col =? cmin * one) || (col =? cmax * one) then Some (x, Fin row, Fin col)
      else match search_all one store flt (cv_measure cv) (Z.of_nat (cv_subpix cv)) surface (precisions one (cv_subpix cv) iterations)
                   (mkPoint (Z.of_nat j * one) (Z.of_nat i * one) row col x) with
           | Some p => Some (pt_value p, Fin (pt_row p), Fin (pt_col p))
           | None => None
           end.
  Proof.
    intros IC IR (M1 & M2 & M3 & M4) (C1 & C2 & C3) S G1 G2 G3 G4. unfold refine_at. rewrite S, M1, M2, G1, G2, G3, G4.
    assert (V1 : is_invalid invalid (Fin row) = false) by (apply not_true_is_false; intros E; apply is_invalid_spec in E; congruence).
    assert (V2 : is_invalid invalid (Fin col) = false) by (apply not_true_is_false; intros E; apply is_invalid_spec in E; congruence).
    unfold cost_value, sel_index. rewrite V1, V2. rewrite (index_of_index _ _ _ IR C2), (index_of_index _ _ _ IC C1).
    unfold cost_at in C3. rewrite S in C3. rewrite C3. cbn [orb]. unfold refine_pixel. cbn [ext_eqb].
    rewrite (searchsorted_index _ _ _ IR C2), (searchsorted_index _ _ _ IC C1). reflexivity.
  Qed.

  Lemma refine_at_grids r c res : refine_one r c = Some res -> exists rmin rmax cmin cmax surface,
    grid_at (g_row_min g) (cv_nrow cv) (cv_ncol cv) r c = Some rmin /\ grid_at (g_row_max g) (cv_nrow cv) (cv_ncol cv) r c = Some rmax /\
    grid_at (g_col_min g) (cv_nrow cv) (cv_ncol cv) r c = Some cmin /\ grid_at (g_col_max g) (cv_nrow cv) (cv_ncol cv) r c = Some cmax /\
    nth2 (cv_data cv) r c = Some surface.
  Proof.
    unfold refine_at. destruct (nth2 (cv_data cv) r c) as [surface|]; [|discriminate].
    destruct (nth2 row_map r c); [|discriminate]. destruct (nth2 col_map r c); [|discriminate]. destruct (cost_value _ _ _ _ _); [|discriminate].
    destruct (grid_at (g_row_min g) _ _ _ _) as [a|]; [|discriminate]. destruct (grid_at (g_row_max g) _ _ _ _) as [b|]; [|discriminate].
    destruct (grid_at (g_col_min g) _ _ _ _) as [a'|]; [|discriminate]. destruct (grid_at (g_col_max g) _ _ _ _) as [b'|]; [|discriminate].
    intros _. exists a, b, a', b', surface. auto.
  Qed.

  Lemma score_theorem mc mr sc r c row col i j x :
    rounding store -> increasing (cv_disp_col cv) -> increasing (cv_disp_row cv) ->
    refine = Some (mc, mr, sc) -> (r < cv_nrow cv)%nat -> (c < cv_ncol cv)%nat ->
    matched invalid col_map row_map r c row col -> cost_for cv r c row col i j x -> x <> NaN -> x <> worst_cost (cv_measure cv) -> store x = x ->
    exists row' col' y, nth2 mr r c = Some (Fin row') /\ nth2 mc r c = Some (Fin col') /\ nth2 sc r c = Some y /\
      at_least_as_good (cv_measure cv) y x /\
      ((row' = row /\ col' = col /\ y = x) \/
       exists surface z, nth2 (cv_data cv) r c = Some surface /\ y = store z /\
         interpolate1 one flt surface (Z.of_nat j * one + (row' - row) * Z.of_nat (cv_subpix cv), Z.of_nat i * one + (col' - col) * Z.of_nat (cv_subpix cv)) = Some z).
  Proof.
    intros R IC IR E Hr Hc M C N W S. destruct (refinement_nth _ _ _ r c E Hr Hc) as (y & row' & col' & Ea & Es & Er & Ec).
    destruct (refine_at_grids _ _ _ Ea) as (rmin & rmax & cmin & cmax & surface & G1 & G2 & G3 & G4 & Sf).
    rewrite (refine_at_matched _ _ _ _ _ _ _ _ _ _ _ _ IC IR M C Sf G1 G2 G3 G4) in Ea.
    assert (Same : (x, Fin row, Fin col) = (y, row', col') -> exists row' col' y, nth2 mr r c = Some (Fin row') /\ nth2 mc r c = Some (Fin col') /\ nth2 sc r c = Some y /\
      at_least_as_good (cv_measure cv) y x /\
      ((row' = row /\ col' = col /\ y = x) \/
       exists surface z, nth2 (cv_data cv) r c = Some surface /\ y = store z /\
         interpolate1 one flt surface (Z.of_nat j * one + (row' - row) * Z.of_nat (cv_subpix cv), Z.of_nat i * one + (col' - col) * Z.of_nat (cv_subpix cv)) = Some z)).
    { intros H. injection H as <- <- <-. exists row, col, x. split; auto. split; auto. split; auto. split; [|auto].
      destruct (cv_measure cv); simpl; apply ext_leb_refl; auto. }
    destruct (ext_isnan x). { apply Same. congruence. }
    destruct ((row =? rmin * one) || (row =? rmax * one)). { apply Same. congruence. }
    destruct ((col =? cmin * one) || (col =? cmax * one)). { apply Same. congruence. }
    clear Same. destruct (search_all _ _ _ _ _ _ _ _) as [p|] eqn:Ep; [|discriminate]. injection Ea as <- <- <-.
    destruct (search_all_value one store flt (cv_measure cv) (Z.of_nat (cv_subpix cv)) surface (precisions one (cv_subpix cv) iterations)
                (mkPoint (Z.of_nat j * one) (Z.of_nat i * one) row col x) p R S N W Ep) as [G V]. cbn [pt_value] in G.
    destruct (search_all_moves _ _ _ _ _ _ _ _ _ Ep) as [P1 P2]. cbn [pt_pos_row pt_pos_col pt_row pt_col] in P1, P2.
    exists (pt_row p), (pt_col p), (pt_value p). split; auto. split; auto. split; auto. split; auto.
    destruct V as [->|(z & Z1 & Z2)]; [left; auto|]. right. exists surface, z. split; auto. split; auto.
    replace (Z.of_nat j * one + (pt_row p - row) * Z.of_nat (cv_subpix cv)) with (pt_pos_row p) by lia.
    replace (Z.of_nat i * one + (pt_col p - col) * Z.of_nat (cv_subpix cv)) with (pt_pos_col p) by lia. exact Z1.
  Qed.

  Lemma precisions_pow2 k : cv_subpix cv = (2 ^ k)%nat ->
    precisions one (cv_subpix cv) iterations = map (fun it => one / 2 ^ Z.of_nat it) (seq (S k) (iterations - k)).
  Proof. intros ->. unfold precisions. now rewrite bit_length_pow2. Qed.

  Lemma move_bound k len d : 0 < one -> (2 ^ Z.of_nat iterations | one) -> (k + len <= iterations)%nat ->
    d + one / 2 ^ Z.of_nat (k + len) <= one / 2 ^ Z.of_nat k -> d * Z.of_nat (2 ^ k) < one.
  Proof.
    intros H1 D L B. rewrite Nat2Z.inj_pow. change (Z.of_nat 2) with 2.
    assert (P1 : 0 < 2 ^ Z.of_nat k) by (apply Z.pow_pos_nonneg; lia).
    assert (P2 : 0 < one / 2 ^ Z.of_nat (k + len)).
    { destruct D as [q Hq]. rewrite (pow2_div one iterations) by (auto; exists q; auto). rewrite Hq, Z.div_mul by (apply Z.pow_nonzero; lia).
      apply Z.mul_pos_pos; [apply Z.pow_pos_nonneg; lia|]. assert (0 < 2 ^ Z.of_nat iterations) by (apply Z.pow_pos_nonneg; lia). nia. }
    pose proof (Z.mul_div_le one (2 ^ Z.of_nat k) P1). nia.
  Qed.

  (** Moves of the first [len] iterations. *)
  Lemma moves_theorem k len surface p p' : 0 < one -> (2 ^ Z.of_nat iterations | one) -> (k + len <= iterations)%nat -> cv_subpix cv = (2 ^ k)%nat ->
    search_all one store flt (cv_measure cv) (Z.of_nat (cv_subpix cv)) surface (map (fun it => one / 2 ^ Z.of_nat it) (seq (S k) len)) p = Some p' ->
    Z.abs (pt_row p' - pt_row p) + one / 2 ^ Z.of_nat (k + len) <= one / 2 ^ Z.of_nat k /\
    Z.abs (pt_col p' - pt_col p) + one / 2 ^ Z.of_nat (k + len) <= one / 2 ^ Z.of_nat k /\
    (one / 2 ^ Z.of_nat iterations | pt_row p' - pt_row p) /\ (one / 2 ^ Z.of_nat iterations | pt_col p' - pt_col p).
  Proof.
    intros H1 D L Hk E.
    destruct (search_all_range one store flt (cv_measure cv) (Z.of_nat (cv_subpix cv)) surface iterations (S k) len p p' (one / 2 ^ Z.of_nat k) H1 D) with (r0 := pt_row p) (c0 := pt_col p) as (A & B & C & F);
      auto; try lia.
    - cbn [pred]. rewrite Z.sub_diag. simpl. lia.
    - cbn [pred]. rewrite Z.sub_diag. simpl. lia.
    - rewrite Z.sub_diag. apply Z.divide_0_r.
    - rewrite Z.sub_diag. apply Z.divide_0_r.
  Qed.

  Lemma small_moves mc mr sc r c row col i j x :
    0 < one -> (2 ^ Z.of_nat iterations | one) -> (exists k, cv_subpix cv = (2 ^ k)%nat) -> increasing (cv_disp_col cv) -> increasing (cv_disp_row cv) ->
    refine = Some (mc, mr, sc) -> (r < cv_nrow cv)%nat -> (c < cv_ncol cv)%nat ->
    matched invalid col_map row_map r c row col -> cost_for cv r c row col i j x ->
    exists row' col', nth2 mr r c = Some (Fin row') /\ nth2 mc r c = Some (Fin col') /\
      Z.abs (row' - row) * Z.of_nat (cv_subpix cv) < one /\ Z.abs (col' - col) * Z.of_nat (cv_subpix cv) < one /\
      (one / 2 ^ Z.of_nat iterations | row' - row) /\ (one / 2 ^ Z.of_nat iterations | col' - col).
  Proof.
    intros H1 D [k Hk] IC IR E Hr Hc M C. destruct (refinement_nth _ _ _ r c E Hr Hc) as (y & row' & col' & Ea & Es & Er & Ec).
    destruct (refine_at_grids _ _ _ Ea) as (rmin & rmax & cmin & cmax & surface & G1 & G2 & G3 & G4 & Sf).
    rewrite (refine_at_matched _ _ _ _ _ _ _ _ _ _ _ _ IC IR M C Sf G1 G2 G3 G4) in Ea.
    assert (Same : (x, Fin row, Fin col) = (y, row', col') -> exists row' col', nth2 mr r c = Some (Fin row') /\ nth2 mc r c = Some (Fin col') /\
      Z.abs (row' - row) * Z.of_nat (cv_subpix cv) < one /\ Z.abs (col' - col) * Z.of_nat (cv_subpix cv) < one /\
      (one / 2 ^ Z.of_nat iterations | row' - row) /\ (one / 2 ^ Z.of_nat iterations | col' - col)).
    { intros H. injection H as <- <- <-. exists row, col. rewrite !Z.sub_diag. repeat split; auto; apply Z.divide_0_r. }
    destruct (ext_isnan x). { apply Same. congruence. }
    destruct ((row =? rmin * one) || (row =? rmax * one)). { apply Same. congruence. }
    destruct ((col =? cmin * one) || (col =? cmax * one)). { apply Same. congruence. }
    destruct (search_all _ _ _ _ _ _ _ _) as [p|] eqn:Ep; [|discriminate]. injection Ea as <- <- <-.
    rewrite (precisions_pow2 k) in Ep by auto. destruct (Nat.le_gt_cases k iterations) as [L|L].
    - destruct (moves_theorem k (iterations - k) surface _ _ H1 D ltac:(lia) Hk Ep) as (A & B & C1 & C2). cbn [pt_row pt_col] in *.
      exists (pt_row p), (pt_col p). split; auto. split; auto. rewrite Hk. split; [|split]; auto.
      + apply (move_bound k (iterations - k)); auto. lia.
      + apply (move_bound k (iterations - k)); auto. lia.
    - replace (iterations - k)%nat with 0%nat in Ep by lia. simpl in Ep. injection Ep as <-. apply Same. f_equal.
  Qed.

  (** *** Skipped pixels *)
  Lemma grid_at_shape a r c : a2_n0 a = cv_nrow cv /\ a2_n1 a = cv_ncol cv -> grid_at a (cv_nrow cv) (cv_ncol cv) r c = Some (a2_get a r c).
  Proof. intros [H1 H2]. unfold grid_at, broadcast. now rewrite H1, H2, !Nat.eqb_refl. Qed.

  Lemma shapes r c : same_shape cv g ->
    grid_at (g_row_min g) (cv_nrow cv) (cv_ncol cv) r c = Some (a2_get (g_row_min g) r c) /\
    grid_at (g_row_max g) (cv_nrow cv) (cv_ncol cv) r c = Some (a2_get (g_row_max g) r c) /\
    grid_at (g_col_min g) (cv_nrow cv) (cv_ncol cv) r c = Some (a2_get (g_col_min g) r c) /\
    grid_at (g_col_max g) (cv_nrow cv) (cv_ncol cv) r c = Some (a2_get (g_col_max g) r c).
  Proof. intros H. repeat split; apply grid_at_shape, H; simpl; tauto. Qed.

  Lemma kept_theorem mc mr sc r c : same_shape cv g ->
    refine = Some (mc, mr, sc) -> (r < cv_nrow cv)%nat -> (c < cv_ncol cv)%nat ->
    (nth2 row_map r c = Some invalid \/ nth2 col_map r c = Some invalid \/
     (exists row, nth2 row_map r c = Some (Fin row) /\ at_an_end row (row_range one g r c)) \/
     (exists col, nth2 col_map r c = Some (Fin col) /\ at_an_end col (col_range one g r c)) \/
     (exists row col i j, matched invalid col_map row_map r c row col /\ increasing (cv_disp_col cv) /\ increasing (cv_disp_row cv) /\ cost_for cv r c row col i j NaN)) ->
    nth2 mr r c = nth2 row_map r c /\ nth2 mc r c = nth2 col_map r c.
  Proof.
    intros Sh E Hr Hc Cases. destruct (refinement_nth _ _ _ r c E Hr Hc) as (y & row' & col' & Ea & Es & Er & Ec).
    rewrite Er, Ec. destruct (shapes r c Sh) as (G1 & G2 & G3 & G4).
    destruct Cases as [I|[I|[(row & I & A)|[(col & I & A)|(row & col & i & j & M & IC & IR & C)]]]].
    5:{ destruct (refine_at_grids _ _ _ Ea) as (_ & _ & _ & _ & surface & _ & _ & _ & _ & Sf).
        rewrite (refine_at_matched _ _ _ _ _ _ _ _ _ _ _ _ IC IR M C Sf G1 G2 G3 G4) in Ea. simpl in Ea. injection Ea as <- <- <-.
        destruct M as (-> & -> & _). auto. }
    all: unfold refine_at in Ea; destruct (nth2 (cv_data cv) r c) as [surface|]; [|discriminate];
      destruct (nth2 row_map r c) as [rv|]; [|discriminate]; destruct (nth2 col_map r c) as [cw|]; [|discriminate];
      destruct (cost_value cv surface invalid rv cw) as [x|] eqn:Cv; [|discriminate]; rewrite G1, G2, G3, G4 in Ea; injection I as ->; unfold refine_pixel in Ea.
    1,2: unfold cost_value in Cv; destruct (sel_index _ _ _); [|discriminate]; destruct (sel_index _ _ _); [|discriminate]; destruct (nth2 _ _ _); [|discriminate];
      rewrite (proj2 (is_invalid_spec invalid invalid) eq_refl), ?orb_true_r in Cv; cbn [orb] in Cv; injection Cv as <-; cbn in Ea; injection Ea as <- <- <-; auto.
    - destruct (ext_isnan x). { injection Ea as <- <- <-. auto. }
      replace (ext_eqb (Fin row) (Fin (a2_get (g_row_min g) r c * one)) || ext_eqb (Fin row) (Fin (a2_get (g_row_max g) r c * one))) with true in Ea.
      { injection Ea as <- <- <-. auto. }
      symmetry. cbn [ext_eqb]. apply orb_true_iff. rewrite !Z.eqb_eq. exact A.
    - destruct (ext_isnan x). { injection Ea as <- <- <-. auto. } destruct (ext_eqb rv _ || ext_eqb rv _). { injection Ea as <- <- <-. auto. }
      replace (ext_eqb (Fin col) (Fin (a2_get (g_col_min g) r c * one)) || ext_eqb (Fin col) (Fin (a2_get (g_col_max g) r c * one))) with true in Ea.
      { injection Ea as <- <- <-. auto. }
      symmetry. cbn [ext_eqb]. apply orb_true_iff. rewrite !Z.eqb_eq. exact A.
  Qed.

  (** *** Ready inputs *)
  Lemma spaced_diff (l : list Z) u v : spaced one (cv_subpix cv) l -> In u l -> In v l -> exists step, 0 < step /\ one = Z.of_nat (cv_subpix cv) * step /\ (step | u - v).
  Proof.
    intros (step & base & P & Q & H) Hu Hv. exists step. split; auto. split; auto.
    apply In_nth_error in Hu, Hv. destruct Hu as [a Ha], Hv as [b Hb].
    assert (a < length l)%nat by (apply nth_error_Some; congruence). assert (b < length l)%nat by (apply nth_error_Some; congruence).
    rewrite H in Ha, Hb by auto. injection Ha as <-. injection Hb as <-. exists (Z.of_nat a - Z.of_nat b). lia.
  Qed.

  Lemma inside_stays (l : list Z) lo hi v v' : spaced one (cv_subpix cv) l -> In lo l -> In hi l -> In v l -> lo < v < hi ->
    Z.abs (v' - v) * Z.of_nat (cv_subpix cv) < one -> lo < v' < hi.
  Proof.
    intros S Hl Hh Hv I B. destruct (spaced_diff l v lo S Hv Hl) as (s & P & Q & [a Ha]). destruct (spaced_diff l hi v S Hh Hv) as (s' & P' & Q' & [b Hb]).
    assert (0 < Z.of_nat (cv_subpix cv)) by nia. assert (s = s') by nia. subst s'.
    assert (Z.abs (v' - v) < s) by nia. assert (1 <= a) by nia. assert (1 <= b) by nia. nia.
  Qed.

  Definition candidate_position (p : point) (precision a b : Z) : Z * Z :=
    (a * precision * Z.of_nat (cv_subpix cv) + pt_pos_row p, b * precision * Z.of_nat (cv_subpix cv) + pt_pos_col p).

  Lemma search_some surface precision p : pt_value p <> NaN ->
    (forall a b, unit_shift a -> unit_shift b -> exists z, interpolate1 one flt surface (candidate_position p precision a b) = Some z) ->
    exists p', search_new_best_point one store flt (cv_measure cv) (Z.of_nat (cv_subpix cv)) surface precision p = Some p'.
  Proof.
    intros N H. unfold search_new_best_point. cbv zeta. unfold row_shifts, col_shifts. cbn [map combine].
    unfold candidate_position in H.
    assert (U0 : unit_shift (-1)) by (unfold unit_shift; lia). assert (U1 : unit_shift 0) by (unfold unit_shift; lia). assert (U2 : unit_shift 1) by (unfold unit_shift; lia).
    destruct (H _ _ U0 U0) as [z0 E0]. destruct (H _ _ U0 U1) as [z1 E1]. destruct (H _ _ U0 U2) as [z2 E2].
    destruct (H _ _ U1 U0) as [z3 E3]. destruct (H _ _ U1 U1) as [z4 E4]. destruct (H _ _ U1 U2) as [z5 E5].
    destruct (H _ _ U2 U0) as [z6 E6]. destruct (H _ _ U2 U1) as [z7 E7]. destruct (H _ _ U2 U2) as [z8 E8].
    cbn [map_opt]. rewrite E0, E1, E2, E3, E4, E5, E6, E7, E8. unfold set4. cbn [firstn skipn app].
    set (cands := [z0; z1; z2; z3; pt_value p; z5; z6; z7; z8]).
    assert (Best : exists b, (if all_same cands then Some 4%nat else np_nanarg (cv_measure cv) cands) = Some b /\ (b < 9)%nat).
    { destruct (all_same cands); [exists 4%nat; split; auto; lia|]. unfold np_nanarg.
      assert (F : forallb ext_isnan cands = false).
      { apply not_true_is_false. intros F. rewrite forallb_forall in F. assert (In (pt_value p) cands) as I by (simpl; tauto).
        apply F in I. destruct (pt_value p); simpl in I; congruence. }
      rewrite F. destruct (np_arg_spec (cv_measure cv) (map (fill_nan (cv_measure cv)) cands)) as (b & m & -> & Eb & _).
      - discriminate.
      - intros y Hy. apply in_map_iff in Hy. destruct Hy as (z & <- & _). unfold fill_nan, worst. destruct z, (cv_measure cv); cbn; discriminate.
      - exists b. split; auto. apply (proj1 (nth_error_Some (map (fill_nan (cv_measure cv)) cands) b)). congruence. }
    destruct Best as (b & -> & Hb). do 9 (destruct b as [|b]; [cbn; eauto|]). lia.
  Qed.

  Section Ready.
    Hypothesis Rd : ready one flt iterations cv invalid col_map row_map g.

    (** Index of the window for one dimension. *)
    Lemma index_window (l : list Z) (low high fl size : nat) lo hi v j k len d :
      spaced one (cv_subpix cv) l -> cv_subpix cv = (2 ^ k)%nat -> (k + len <= iterations)%nat ->
      (exists a, (low * cv_subpix cv <= a < length l - high * cv_subpix cv)%nat /\ nth_error l a = Some lo) ->
      (exists b, (low * cv_subpix cv <= b < length l - high * cv_subpix cv)%nat /\ nth_error l b = Some hi) ->
      (fl <= low)%nat -> (size <= fl + high + 1)%nat -> nth_error l j = Some v -> lo < v < hi ->
      Z.abs d + one / 2 ^ Z.of_nat (k + len) <= one / 2 ^ Z.of_nat k ->
      0 <= (Z.of_nat j * one + d * Z.of_nat (cv_subpix cv)) / one - Z.of_nat fl /\
      (Z.of_nat j * one + d * Z.of_nat (cv_subpix cv)) / one - Z.of_nat fl + Z.of_nat size <= Z.of_nat (length l).
    Proof.
      destruct Rd as (H1 & Dv & _). intros S Hk L (a & Ra & Ea) (b & Rb & Eb) Fl Fs Ej I B.
      assert (M : Z.abs d * Z.of_nat (cv_subpix cv) < one) by (rewrite Hk; apply (move_bound k len); auto).
      pose proof (spaced_increasing _ _ _ S) as Inc.
      assert (a < j)%nat. { destruct (Nat.lt_total a j) as [?|[->|G]]; auto; [assert (lo = v) by congruence; lia|]. pose proof (Inc _ _ _ _ G Ej Ea). lia. }
      assert (j < b)%nat. { destruct (Nat.lt_total j b) as [?|[->|G]]; auto; [assert (hi = v) by congruence; lia|]. pose proof (Inc _ _ _ _ G Eb Ej). lia. }
      set (s := Z.of_nat (cv_subpix cv)) in *. assert (1 <= s) by (unfold s; rewrite Hk; assert (2 ^ k <> 0)%nat by (apply Nat.pow_nonzero; lia); lia).
      assert (Q1 : Z.of_nat j - 1 <= (Z.of_nat j * one + d * s) / one) by (apply Z.div_le_lower_bound; nia).
      assert (Q2 : (Z.of_nat j * one + d * s) / one < Z.of_nat j + 1) by (apply Z.div_lt_upper_bound; nia).
      assert (Z.of_nat low * s <= Z.of_nat a) by (unfold s; lia). assert (Z.of_nat b + Z.of_nat high * s < Z.of_nat (length l)) by (unfold s; lia).
      split; nia.
    Qed.

    (** Every candidate of every iteration. *)
    Lemma windows_theorem r c row col i j surface k len x p a b :
      (r < cv_nrow cv)%nat -> (c < cv_ncol cv)%nat -> nth2 (cv_data cv) r c = Some surface ->
      nth_error (cv_disp_col cv) i = Some col -> nth_error (cv_disp_row cv) j = Some row ->
      strictly_in row (row_range one g r c) -> strictly_in col (col_range one g r c) ->
      cv_subpix cv = (2 ^ k)%nat -> (k + len < iterations)%nat -> unit_shift a -> unit_shift b ->
      search_all one store flt (cv_measure cv) (Z.of_nat (cv_subpix cv)) surface (map (fun it => one / 2 ^ Z.of_nat it) (seq (S k) len))
        (mkPoint (Z.of_nat j * one) (Z.of_nat i * one) row col x) = Some p ->
      let pos := candidate_position p (one / 2 ^ Z.of_nat (k + S len)) a b in
      window_inside one flt (length (cv_disp_col cv)) (length (cv_disp_row cv)) (snd pos) (fst pos).
    Proof.
      intros Hr Hc Sf Ei Ej Ir Ic Hk L Ha Hb E pos.
      pose proof Rd as Rd'. destruct Rd' as (H1 & Dv & _ & _ & SC & SR & (m & Hm & Cov) & _ & _ & _ & Px).
      destruct (Px r c Hr Hc) as (U1 & U2 & U3 & U4 & _ & _).
      unfold user_disparity_row, user_disparity_col, user_row, user_col, margin_samples in U1, U2, U3, U4. rewrite Hm in U1, U2, U3, U4.
      destruct Cov as (F1 & F2 & F3 & F4).
      destruct (moves_theorem k len surface _ _ H1 Dv ltac:(lia) Hk E) as (A & B & _ & _). cbn [pt_row pt_col] in A, B.
      destruct (search_all_moves _ _ _ _ _ _ _ _ _ E) as [P1 P2]. cbn [pt_pos_row pt_pos_col pt_row pt_col] in P1, P2.
      assert (Q : one / 2 ^ Z.of_nat (k + len) = 2 * (one / 2 ^ Z.of_nat (k + S len))).
      { rewrite (pow2_div one iterations (k + len)), (pow2_div one iterations (k + S len)) by (auto; lia).
        replace (iterations - (k + len))%nat with (S (iterations - (k + S len))) by lia. rewrite Nat2Z.inj_succ, Z.pow_succ_r by lia. lia. }
      set (pr := one / 2 ^ Z.of_nat (k + S len)) in *.
      assert (Pp : 0 <= pr) by (apply Z.div_pos; [lia|apply Z.pow_pos_nonneg; lia]).
      unfold window_inside, pos, candidate_position. cbn [fst snd].
      replace (b * pr * Z.of_nat (cv_subpix cv) + pt_pos_col p) with (Z.of_nat i * one + (pt_col p - col + b * pr) * Z.of_nat (cv_subpix cv)) by nia.
      replace (a * pr * Z.of_nat (cv_subpix cv) + pt_pos_row p) with (Z.of_nat j * one + (pt_row p - row + a * pr) * Z.of_nat (cv_subpix cv)) by nia.
      destruct (index_window (cv_disp_col cv) (m_left m) (m_right m) (f_left flt) (f_size flt) _ _ col i k (S len) (pt_col p - col + b * pr) SC Hk ltac:(lia) U3 U4 F1 F3 Ei Ic) as [W1 W2].
      { fold pr. unfold unit_shift in Hb. nia. }
      destruct (index_window (cv_disp_row cv) (m_up m) (m_down m) (f_up flt) (f_size flt) _ _ row j k (S len) (pt_row p - row + a * pr) SR Hk ltac:(lia) U1 U2 F2 F4 Ej Ir) as [W3 W4].
      { fold pr. unfold unit_shift in Ha. nia. }
      auto.
    Qed.

    Lemma surface_rect r c surface : nth2 (cv_data cv) r c = Some surface -> rect (length (cv_disp_col cv)) (length (cv_disp_row cv)) surface.
    Proof. destruct Rd as (_ & _ & _ & (_ & W & _) & _). apply W. Qed.

    Lemma search_total r c row col i j surface k x : rounding store ->
      (r < cv_nrow cv)%nat -> (c < cv_ncol cv)%nat -> nth2 (cv_data cv) r c = Some surface ->
      nth_error (cv_disp_col cv) i = Some col -> nth_error (cv_disp_row cv) j = Some row ->
      strictly_in row (row_range one g r c) -> strictly_in col (col_range one g r c) ->
      cv_subpix cv = (2 ^ k)%nat -> x <> NaN -> x <> worst_cost (cv_measure cv) -> store x = x ->
      forall len, (k + len <= iterations)%nat ->
      exists p, search_all one store flt (cv_measure cv) (Z.of_nat (cv_subpix cv)) surface (map (fun it => one / 2 ^ Z.of_nat it) (seq (S k) len))
        (mkPoint (Z.of_nat j * one) (Z.of_nat i * one) row col x) = Some p.
    Proof.
      intros R Hr Hc Sf Ei Ej Ir Ic Hk N W St. induction len as [|len IH]; intros L; [simpl; eauto|].
      destruct IH as [p Hp]; [lia|]. rewrite seq_S, map_app, search_all_app, Hp. cbn [map search_all].
      destruct (search_all_value one store flt (cv_measure cv) (Z.of_nat (cv_subpix cv)) surface _
                (mkPoint (Z.of_nat j * one) (Z.of_nat i * one) row col x) p R St N W Hp) as [G _].
      destruct (search_some surface (one / 2 ^ Z.of_nat (S k + len)) p) as [p' ->]; [| |eauto].
      - intros Q. rewrite Q in G. destruct (cv_measure cv), x; simpl in G; discriminate.
      - intros a b Ha Hb. replace (S k + len)%nat with (k + S len)%nat by lia.
        pose proof (windows_theorem r c row col i j surface k len x p a b Hr Hc Sf Ei Ej Ir Ic Hk ltac:(lia) Ha Hb Hp) as Wi. cbv zeta in Wi.
        destruct (candidate_position p _ a b) as [pc pr]. cbn [fst snd] in Wi.
        rewrite (interpolate_inside one flt _ _ surface (surface_rect _ _ _ Sf) pr pc Wi). eauto.
    Qed.

    Lemma ready_cases r c : (r < cv_nrow cv)%nat -> (c < cv_ncol cv)%nat ->
      exists surface rv cw, nth2 (cv_data cv) r c = Some surface /\ nth2 row_map r c = Some rv /\ nth2 col_map r c = Some cw /\
        rect (length (cv_disp_col cv)) (length (cv_disp_row cv)) surface /\
        ((rv = invalid \/ cw = invalid) \/ exists row col i j x, rv = Fin row /\ cw = Fin col /\ matched invalid col_map row_map r c row col /\ cost_for cv r c row col i j x /\
           in_range row (row_range one g r c) /\ in_range col (col_range one g r c)) /\
        (exists jr ic, sel_index (cv_disp_row cv) (is_invalid invalid rv) rv = Some jr /\ sel_index (cv_disp_col cv) (is_invalid invalid cw) cw = Some ic /\
           (jr < length (cv_disp_row cv))%nat /\ (ic < length (cv_disp_col cv))%nat).
    Proof.
      intros Hr Hc. pose proof Rd as Rd'. destruct Rd' as (H1 & Dv & _ & (W1 & W2 & (uc & Huc) & (ur & Hur)) & SC & SR & (m & Hm & Cov) & _ & _ & _ & Px).
      destruct (Px r c Hr Hc) as (_ & _ & _ & _ & Vr & Vc).
      destruct (nth2_some _ _ _ r c W1 Hr Hc) as [surface Sf]. pose proof (W2 _ _ _ Sf) as Rs.
      assert (Lr : (0 < length (cv_disp_row cv))%nat) by (unfold user_row in Hur; destruct (margin_samples cv) as [[[? ?] ?] ?]; lia).
      assert (Lc : (0 < length (cv_disp_col cv))%nat) by (unfold user_col in Huc; destruct (margin_samples cv) as [[[? ?] ?] ?]; lia).
      assert (Sel : forall l x, (0 < length l)%nat -> (x = invalid \/ exists v, x = Fin v /\ In v l) -> exists n, sel_index l (is_invalid invalid x) x = Some n /\ (n < length l)%nat).
      { intros l x Ll Hx. destruct (is_invalid invalid x) eqn:Iv; cbn [sel_index].
        - destruct l; [simpl in Ll; lia|]. exists 0%nat. auto.
        - destruct Hx as [->|(v & -> & Hv)]. { rewrite (proj2 (is_invalid_spec invalid invalid) eq_refl) in Iv. discriminate. }
          assert (Ex : exists n, index_of l v = Some n).
          { clear -Hv. induction l as [|y l IH]; simpl in *; [easy|]. destruct (y =? v) eqn:Y; eauto. destruct Hv as [->|Hv]; [rewrite Z.eqb_refl in Y; discriminate|].
            destruct (IH Hv) as [n ->]. simpl. eauto. }
          destruct Ex as [n Hn]. exists n. split; auto. apply index_of_some in Hn. apply nth_error_Some. congruence. }
      assert (Er : exists rv, nth2 row_map r c = Some rv /\ (rv = invalid \/ exists v, rv = Fin v /\ In v (cv_disp_row cv) /\ in_range v (row_range one g r c))).
      { destruct Vr as [E|(v & E & I & Rg)]; eauto 8. }
      assert (Ec : exists cw, nth2 col_map r c = Some cw /\ (cw = invalid \/ exists v, cw = Fin v /\ In v (cv_disp_col cv) /\ in_range v (col_range one g r c))).
      { destruct Vc as [E|(v & E & I & Rg)]; eauto 8. }
      destruct Er as (rv & Er & Vr'). destruct Ec as (cw & Ec & Vc').
      exists surface, rv, cw. split; auto. split; auto. split; auto. split; auto. split.
      - destruct (ext_eq_dec rv invalid) as [D1|D1]; [auto|]. destruct (ext_eq_dec cw invalid) as [D2|D2]; [auto|]. right.
        destruct Vr' as [?|(row & -> & Ir & Rr)]; [easy|]. destruct Vc' as [?|(col & -> & Ic & Rc)]; [easy|].
        apply In_nth_error in Ir, Ic. destruct Ir as [j Hj], Ic as [i Hi].
        assert (j < length (cv_disp_row cv))%nat by (apply nth_error_Some; congruence). assert (i < length (cv_disp_col cv))%nat by (apply nth_error_Some; congruence).
        destruct (nth2_some _ _ _ i j Rs) as [x Hx]; auto.
        exists row, col, i, j, x. split; auto. split; auto. split; [repeat split; auto|]. split; [|auto]. repeat split; auto. unfold cost_at. now rewrite Sf.
      - destruct (Sel (cv_disp_row cv) rv Lr) as (jr & ? & ?). { destruct Vr' as [?|(v & ? & ? & _)]; eauto. }
        destruct (Sel (cv_disp_col cv) cw Lc) as (ic & ? & ?). { destruct Vc' as [?|(v & ? & ? & _)]; eauto. }
        eauto 8.
    Qed.

    Lemma total_theorem : rounding store -> ordinary_costs store cv -> exists res, refine = Some res.
    Proof.
      intros R Oc. apply refinement_total. intros r c Hr Hc.
      pose proof Rd as Rd'. destruct Rd' as (H1 & Dv & (k & Hk) & _ & SC & SR & _ & _ & _ & Sh & _).
      destruct (ready_cases r c Hr Hc) as (surface & rv & cw & Sf & Er & Ec & Rs & Cases & (jr & ic & S1 & S2 & Lj & Li)).
      destruct (shapes r c Sh) as (G1 & G2 & G3 & G4).
      destruct Cases as [Iv|(row & col & i & j & x & -> & -> & M & C & Rr & Rc)].
      - unfold refine_at. rewrite Sf, Er, Ec. unfold cost_value. rewrite S1, S2.
        destruct (nth2_some _ _ _ ic jr Rs Li Lj) as [x ->]. rewrite G1, G2, G3, G4.
        assert (Or : is_invalid invalid rv || is_invalid invalid cw = true).
        { apply orb_true_iff. destruct Iv as [->| ->]; [left|right]; now apply is_invalid_spec. }
        rewrite Or. discriminate.
      - rewrite (refine_at_matched r c row col i j x surface _ _ _ _ (spaced_increasing _ _ _ SC) (spaced_increasing _ _ _ SR) M C Sf G1 G2 G3 G4).
        destruct (ext_isnan x) eqn:Nx; [discriminate|].
        destruct ((row =? _) || (row =? _)) eqn:E1; [discriminate|]. destruct ((col =? _) || (col =? _)) eqn:E2; [discriminate|].
        apply orb_false_iff in E1, E2. rewrite !Z.eqb_neq in E1, E2.
        destruct C as (C1 & C2 & C3). destruct (Oc _ _ _ _ _ C3) as [->|[W St]]; [discriminate|].
        rewrite (precisions_pow2 k Hk).
        destruct (Nat.le_gt_cases k iterations) as [L|L].
        + destruct (search_total r c row col i j surface k x R Hr Hc Sf C1 C2) with (len := (iterations - k)%nat) as [p ->]; auto; try lia; try discriminate.
          * unfold in_range, row_range in Rr. unfold strictly_in, row_range. cbn [fst snd] in *. lia.
          * unfold in_range, col_range in Rc. unfold strictly_in, col_range. cbn [fst snd] in *. lia.
          * intros ->. discriminate.
        + replace (iterations - k)%nat with 0%nat by lia. discriminate.
    Qed.

    (** Refined disparities stay in the range of the pixel. *)
    Lemma range_theorem mc mr sc r c row col i j x : refine = Some (mc, mr, sc) -> (r < cv_nrow cv)%nat -> (c < cv_ncol cv)%nat ->
      matched invalid col_map row_map r c row col -> cost_for cv r c row col i j x ->
      strictly_in row (row_range one g r c) -> strictly_in col (col_range one g r c) ->
      exists row' col', nth2 mr r c = Some (Fin row') /\ nth2 mc r c = Some (Fin col') /\
        strictly_in row' (row_range one g r c) /\ strictly_in col' (col_range one g r c).
    Proof.
      intros E Hr Hc M C Ir Ic.
      pose proof Rd as Rd'. destruct Rd' as (H1 & Dv & Hk & _ & SC & SR & _ & _ & _ & Sh & Px).
      destruct (Px r c Hr Hc) as ((j1 & _ & U1) & (j2 & _ & U2) & (i1 & _ & U3) & (i2 & _ & U4) & _ & _).
      apply nth_error_In in U1, U2, U3, U4.
      destruct (small_moves mc mr sc r c row col i j x H1 Dv Hk (spaced_increasing _ _ _ SC) (spaced_increasing _ _ _ SR) E Hr Hc M C) as (row' & col' & A & B & Mr & Mc & _).
      destruct C as (C1 & C2 & _). apply nth_error_In in C1, C2.
      exists row', col'. split; auto. split; auto. split.
      - apply (inside_stays (cv_disp_row cv) _ _ row); auto.
      - apply (inside_stays (cv_disp_col cv) _ _ col); auto.
    Qed.
  End Ready.
End Maps.

(** Fractional part used for the coefficients. *)
Lemma fractional_exact one (n : nat) pos : 0 < one -> (n <= 22)%nat -> (2 ^ Z.of_nat n | one) -> (one / 2 ^ Z.of_nat n | pos) -> 0 <= pos ->
  fractional one pos = pos mod one.
Proof.
  intros H1 Hn [q Hq] [m Hm] Hp. unfold fractional. rewrite Z.abs_eq by auto.
  assert (P : 0 < 2 ^ Z.of_nat n) by (apply Z.pow_pos_nonneg; lia).
  rewrite Hq, Z.div_mul in Hm by lia. assert (0 < q) by nia.
  assert (Bound : 2 ^ Z.of_nat n <= 2 ^ 22) by (apply Z.pow_le_mono_r; lia).
  pose proof (Z.mod_pos_bound pos one H1) as B.
  assert (Hd : (q | one - pos mod one)).
  { apply Z.divide_sub_r; [exists (2 ^ Z.of_nat n); lia|]. rewrite Z.mod_eq by lia. apply Z.divide_sub_r; [exists m; lia|]. exists (2 ^ Z.of_nat n * (pos / one)). lia. }
  destruct Hd as [w Hw]. assert (1 <= w) by nia.
  replace ((one - pos mod one) * 2 ^ 23 <? one) with false; auto.
  symmetry. apply Z.ltb_ge. rewrite Hw. change (2 ^ 23) with (2 * 2 ^ 22). nia.
Qed.
