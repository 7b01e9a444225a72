From Coq Require Import ZArith List Bool Arith Lia.
From Verif Require Import Base.PyList Base.Arr Model.CommonModel Model.MatchingCostModel Model.RoiModel Model.InputModel
  Spec.MatchingCostSpec Spec.InputSpec Proofs.MatchingCostProofs.
Import ListNotations.
Open Scope Z_scope.

Lemma reaches_iff v range size : 0 <= range -> (reaches v range size <-> Z.abs v - range <= Z.of_nat size).
Proof.
  intros Hr. unfold reaches. split; [intros (d & H); lia|]. intros H.
  destruct (Z.le_gt_cases 0 v).
  - exists (Z.max (v - range) (- Z.of_nat size)). lia.
  - exists (Z.min (v + range) (Z.of_nat size)). lia.
Qed.
Lemma ranges_inside_iff rows cols ri rr ci cr : 0 <= rr -> 0 <= cr ->
  (check_disparity_ranges_are_inside_image rows cols ri rr ci cr = true <-> reaches ri rr rows /\ reaches ci cr cols).
Proof.
  intros Hr Hc. rewrite !reaches_iff by auto. unfold check_disparity_ranges_are_inside_image.
  destruct (Z.ltb_spec (Z.of_nat rows) (Z.abs ri - rr)); [split; [discriminate|lia]|].
  destruct (Z.ltb_spec (Z.of_nat cols) (Z.abs ci - cr)); [split; [discriminate|lia]|]. split; [lia|auto].
Qed.
Lemma keeps_iff d size : keeps_a_position d size <-> Z.abs d < Z.of_nat size.
Proof.
  unfold keeps_a_position. split; [intros (x & H); lia|]. intros H. exists (Z.max 0 (- d)). lia.
Qed.

Lemma grid_abs_max f m range size : 0 <= range -> get_dictionary_from_init_grid f = Some m ->
  (reaches m range size <-> forall r c, in2 (rd_band f) r c -> reaches (a2_get (rd_band f) r c) range size).
Proof.
  intros Hr E. unfold get_dictionary_from_init_grid in E. apply grid_max_spec in E. destruct E as [(r0 & c0 & Hin & Hv) B]. cbn [grid_abs a2_get] in *.
  rewrite reaches_iff by auto. split.
  - intros H r c Hrc. rewrite reaches_iff by auto. specialize (B r c Hrc). lia.
  - intros H. specialize (H r0 c0 Hin). rewrite reaches_iff in H by auto. lia.
Qed.
Lemma grid_max_total g : (0 < a2_n0 g)%nat -> (0 < a2_n1 g)%nat -> exists m, grid_max g = Some m.
Proof.
  intros H0 H1. unfold grid_max, to_list2. destruct (a2_n0 g) as [|n0]; [lia|]. destruct (a2_n1 g) as [|n1]; [lia|]. cbn. eauto.
Qed.
Lemma grid_min_total g : (0 < a2_n0 g)%nat -> (0 < a2_n1 g)%nat -> exists m, grid_min g = Some m.
Proof.
  intros H0 H1. unfold grid_min, to_list2. destruct (a2_n0 g) as [|n0]; [lia|]. destruct (a2_n1 g) as [|n1]; [lia|]. cbn. eauto.
Qed.

Theorem check_disparity_iff rows cols row col : (0 < rows)%nat -> (0 < cols)%nat -> 0 <= cd_range row -> 0 <= cd_range col ->
  (check_disparity rows cols row col = true <->
   match cd_init row, cd_init col with
   | CInt ri, CInt ci => reaches ri (cd_range row) rows /\ reaches ci (cd_range col) cols
   | CFile fr, CFile fc =>
       rd_count fr = 1%nat /\ rd_count fc = 1%nat /\
       a2_n0 (rd_band fr) = rows /\ a2_n1 (rd_band fr) = cols /\ a2_n0 (rd_band fc) = rows /\ a2_n1 (rd_band fc) = cols /\
       (forall r c, in2 (rd_band fr) r c -> reaches (a2_get (rd_band fr) r c) (cd_range row) rows) /\
       (forall r c, in2 (rd_band fc) r c -> reaches (a2_get (rd_band fc) r c) (cd_range col) cols)
   | _, _ => False end).
Proof.
  intros Hr Hc Rr Rc. unfold check_disparity. destruct (cd_init row) as [ri|fr|], (cd_init col) as [ci|fc|]; try (split; [discriminate|tauto]).
  - apply ranges_inside_iff; auto.
  - destruct (check_disparity_grids rows cols fr && check_disparity_grids rows cols fc) eqn:E.
    + apply andb_true_iff in E. unfold check_disparity_grids in E. rewrite !andb_true_iff, !Nat.eqb_eq in E.
      destruct E as [(A1 & A2 & A3) (B1 & B2 & B3)].
      destruct (grid_max_total (grid_abs (rd_band fr))) as [m Em]; cbn; try lia.
      destruct (grid_max_total (grid_abs (rd_band fc))) as [n En]; cbn; try lia.
      unfold get_dictionary_from_init_grid. rewrite Em, En. rewrite ranges_inside_iff by auto.
      rewrite (grid_abs_max fr m), (grid_abs_max fc n) by auto. tauto.
    + split; [discriminate|]. intros (A1 & A2 & A3 & A4 & A5 & A6 & _). exfalso.
      unfold check_disparity_grids in E. rewrite A1, A2, A3, A4, A5, A6, !Nat.eqb_refl in E. discriminate.
Qed.

(** Grids. *)
Lemma py_index_in i n : 0 <= i -> i <= Z.of_nat n -> py_index i n = Z.to_nat i.
Proof. intros. unfold py_index. destruct (Z.ltb_spec i 0); [lia|]. f_equal. lia. Qed.

Lemma sub_grid_spec g row0 nrow col0 ncol : 0 <= row0 -> 0 <= col0 ->
  row0 + Z.of_nat nrow <= Z.of_nat (a2_n0 g) -> col0 + Z.of_nat ncol <= Z.of_nat (a2_n1 g) ->
  a2_n0 (sub_grid g row0 nrow col0 ncol) = nrow /\ a2_n1 (sub_grid g row0 nrow col0 ncol) = ncol /\
  forall r c, a2_get (sub_grid g row0 nrow col0 ncol) r c = a2_get g (Z.to_nat (row0 + Z.of_nat r)) (Z.to_nat (col0 + Z.of_nat c)).
Proof.
  intros H0 H1 H2 H3. unfold sub_grid. cbn [a2_n0 a2_n1 a2_get]. rewrite !py_index_in by lia.
  split; [lia|]. split; [lia|]. intros r c. f_equal; lia.
Qed.

Theorem min_max_disp_spec row0 nrow col0 ncol d right : (1 <= nrow)%nat -> (1 <= ncol)%nat -> 0 <= cd_range d ->
  file_covers d row0 nrow col0 ncol ->
  exists g, get_min_max_disp row0 nrow col0 ncol d right = Some g /\
    a2_n0 (dg_min g) = nrow /\ a2_n1 (dg_min g) = ncol /\ a2_n0 (dg_max g) = nrow /\ a2_n1 (dg_max g) = ncol /\
    tight_source (dg_min g) (dg_max g) (dg_source g) /\
    (if right then right_interval g d row0 col0 else left_interval g d row0 col0).
Proof.
  intros Hn Hc Hr Cv. unfold get_min_max_disp, file_covers in *. unfold left_interval, right_interval, asked.
  destruct (cd_init d) as [v|f|] eqn:Ei; [| |tauto].
  - eexists. split; [reflexivity|]. cbn [dg_min dg_max dg_source a2_n0 a2_n1 a2_get in2]. do 4 (split; [reflexivity|]). split.
    + split; [|split].
      * intros r c _. cbn [a2_get fst snd]. lia.
      * exists 0%nat, 0%nat. split; [split; cbn; lia|reflexivity].
      * exists 0%nat, 0%nat. split; [split; cbn; lia|reflexivity].
    + destruct right; intros r c _; exists v; (split; [reflexivity|]); intros x; cbn [sign_of dg_min dg_max a2_get]; lia.
  - destruct Cv as (C1 & C2 & C3 & C4 & C5 & C6 & C7).
    destruct (Nat.eqb_spec nrow 0); [lia|]. destruct (Nat.eqb_spec ncol 0); [lia|]. cbn [orb].
    destruct (sub_grid_spec (rd_band f) row0 nrow col0 ncol C2 C3 C4 C5) as (N0 & N1 & G).
    set (g := sub_grid (rd_band f) row0 nrow col0 ncol) in *.
    set (gmin := mkArr2 (a2_n0 g) (a2_n1 g) (fun r c => a2_get g r c * sign_of right - cd_range d)).
    set (gmax := mkArr2 (a2_n0 g) (a2_n1 g) (fun r c => a2_get g r c * sign_of right + cd_range d)).
    destruct (grid_min_total gmin) as [lo Elo]; [cbn [gmin gmax a2_n0 a2_n1]; lia|cbn [gmin gmax a2_n0 a2_n1]; lia|]. destruct (grid_max_total gmax) as [hi Ehi]; [cbn [gmin gmax a2_n0 a2_n1]; lia|cbn [gmin gmax a2_n0 a2_n1]; lia|].
    rewrite Elo, Ehi. rewrite N0, N1, C1, !Nat.eqb_refl.
    destruct (Nat.eqb_spec nrow 1); [lia|]. destruct (Nat.eqb_spec ncol 1); [lia|]. cbn [andb negb].
    eexists. split; [reflexivity|]. cbn [dg_min dg_max dg_source]. do 4 (split; [cbn; auto|]).
    apply grid_min_spec in Elo. apply grid_max_spec in Ehi. destruct Elo as [(r1 & c1 & I1 & V1) B1], Ehi as [(r2 & c2 & I2 & V2) B2].
    split.
    + split; [|split].
      * intros r c Hin. cbn [fst snd]. specialize (B1 r c Hin). specialize (B2 r c Hin). cbn [gmin gmax a2_get] in *. lia.
      * exists r1, c1. auto.
      * exists r2, c2. auto.
    + assert (I : forall r c, in2 gmin r c -> in2 (rd_band f) (Z.to_nat (row0 + Z.of_nat r)) (Z.to_nat (col0 + Z.of_nat c)) /\ 0 <= row0 + Z.of_nat r /\ 0 <= col0 + Z.of_nat c).
      { intros r c [Ir Ic]. cbn [gmin a2_n0 a2_n1] in Ir, Ic. unfold in2. lia. }
      destruct right; intros r c Hin; destruct (I r c Hin) as (J1 & J2 & J3); eexists; (split; [repeat split; eauto; apply J1|]);
        intros x; cbn [gmin gmax a2_get sign_of]; rewrite G; lia.
Qed.
