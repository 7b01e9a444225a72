(** C15, C16, C43, C44: disparities of the inputs. *)
From Coq Require Import ZArith List Bool Arith Lia.
From Verif Require Import Base.PyList Base.Arr Model.CommonModel Model.MatchingCostModel Model.RoiModel Model.InputModel
  Spec.MatchingCostSpec Spec.InputSpec Proofs.InputProofs.
Import ListNotations.
Open Scope Z_scope.

Definition in_arr (l : list (list Z)) : arr2 Z :=
  mkArr2 (length l) (length (hd [] l)) (fun r c => nth c (nth r l []) 0).
(** 3 x 4 file. *)
Definition ex_file : reader := mkReader 1 (in_arr [[0; 1; 2; 3]; [-4; 5; -6; 7]; [8; -9; 10; 11]]).

(** ** C15: the grids that are built. The dataset has the rows row0 .. row0 + nrow - 1 of the image and the columns col0 ..
    col0 + ncol - 1 (a part of the image with a ROI). A file has one band and covers these rows and columns, of which there are
    at least two of each (see C44). Note that the recorded source is tight, which is the hypothesis of C06, C07, C24. *)
Theorem C15_grids row0 nrow col0 ncol col row : (1 <= nrow)%nat -> (1 <= ncol)%nat -> 0 <= cd_range col -> 0 <= cd_range row ->
  file_covers col row0 nrow col0 ncol -> file_covers row row0 nrow col0 ncol ->
  exists lc lr rc rr,
    add_disparity_grid row0 nrow col0 ncol col row false = Some (lc, lr) /\
    add_disparity_grid row0 nrow col0 ncol col row true = Some (rc, rr) /\
    (forall g, In g [lc; lr; rc; rr] -> a2_n0 (dg_min g) = nrow /\ a2_n1 (dg_min g) = ncol /\ a2_n0 (dg_max g) = nrow /\ a2_n1 (dg_max g) = ncol /\
       tight_source (dg_min g) (dg_max g) (dg_source g)) /\
    left_interval lc col row0 col0 /\ left_interval lr row row0 col0 /\
    right_interval rc col row0 col0 /\ right_interval rr row row0 col0.
Proof.
  intros Hn Hm Hc Hr Cc Cr.
  destruct (min_max_disp_spec row0 nrow col0 ncol col false Hn Hm Hc Cc) as (lc & E1 & P1 & P2 & P3 & P4 & T1 & I1).
  destruct (min_max_disp_spec row0 nrow col0 ncol row false Hn Hm Hr Cr) as (lr & E2 & Q1 & Q2 & Q3 & Q4 & T2 & I2).
  destruct (min_max_disp_spec row0 nrow col0 ncol col true Hn Hm Hc Cc) as (rc & E3 & R1 & R2 & R3 & R4 & T3 & I3).
  destruct (min_max_disp_spec row0 nrow col0 ncol row true Hn Hm Hr Cr) as (rr & E4 & S1 & S2 & S3 & S4 & T4 & I4).
  exists lc, lr, rc, rr. unfold add_disparity_grid. rewrite E1, E2, E3, E4. do 2 (split; [reflexivity|]).
  split; [|repeat split; assumption].
  intros g [<-|[<-|[<-|[<-|[]]]]]; auto 6.
Qed.
(** Rows 1, 2 and columns 1 .. 3 of the file, range 2. *)
Example C15_example :
  match get_min_max_disp 1 2 1 3 (mkCfgDisp (CFile ex_file) 2) false, get_min_max_disp 1 2 1 3 (mkCfgDisp (CFile ex_file) 2) true with
  | Some l, Some r => to_list2 (dg_min l) = [[3; -8; 5]; [-11; 8; 9]] /\ dg_source l = (-11, 13) /\
                      to_list2 (dg_max r) = [[-3; 8; -5]; [11; -8; -9]] /\ dg_source r = (-13, 11)
  | _, _ => False end /\
  file_covers (mkCfgDisp (CFile ex_file) 2) 1 2 1 3.
Proof. split; [vm_compute; auto|]. cbn. lia. Qed.

(** ** C44: a ROI or an image reduced to one row or one column with a grid file: np.squeeze drops the axis. *)
Theorem C44_single_row_refuted : exists row0 nrow col0 ncol d f,
  cd_init d = CFile f /\ rd_count f = 1%nat /\ 0 <= cd_range d /\ (1 <= nrow)%nat /\ (1 <= ncol)%nat /\ 0 <= row0 /\ 0 <= col0 /\
  row0 + Z.of_nat nrow <= Z.of_nat (a2_n0 (rd_band f)) /\ col0 + Z.of_nat ncol <= Z.of_nat (a2_n1 (rd_band f)) /\
  get_min_max_disp row0 nrow col0 ncol d false = None.
Proof. exists 1, 1%nat, 0, 3%nat, (mkCfgDisp (CFile ex_file) 2), ex_file. vm_compute. intuition (discriminate || auto). Qed.
(** For files covering the dataset, this is the only case of failure. *)
Theorem C44_fails_exactly_on_single_axis_partial row0 nrow col0 ncol d f right :
  cd_init d = CFile f -> rd_count f = 1%nat -> 0 <= cd_range d -> (1 <= nrow)%nat -> (1 <= ncol)%nat -> 0 <= row0 -> 0 <= col0 ->
  row0 + Z.of_nat nrow <= Z.of_nat (a2_n0 (rd_band f)) -> col0 + Z.of_nat ncol <= Z.of_nat (a2_n1 (rd_band f)) ->
  (get_min_max_disp row0 nrow col0 ncol d right = None <-> nrow = 1%nat \/ ncol = 1%nat).
Proof.
  intros E C R Hn Hc H0 H1 H2 H3.
  destruct (Nat.eq_dec nrow 1) as [N|N]; [|destruct (Nat.eq_dec ncol 1) as [M|M]].
  - split; auto. intros _. unfold get_min_max_disp. rewrite E. destruct (_ || _); auto.
    destruct (sub_grid_spec (rd_band f) row0 nrow col0 ncol H0 H1 H2 H3) as (N0 & N1 & _). rewrite N0, N.
    repeat match goal with |- context [match ?x with Some _ => _ | None => _ end] => destruct x; auto end; cbn [Nat.eqb negb andb]; rewrite ?andb_false_r; reflexivity.
  - split; auto. intros _. unfold get_min_max_disp. rewrite E. destruct (_ || _); auto.
    destruct (sub_grid_spec (rd_band f) row0 nrow col0 ncol H0 H1 H2 H3) as (N0 & N1 & _). rewrite N1, M.
    repeat match goal with |- context [match ?x with Some _ => _ | None => _ end] => destruct x; auto end; cbn [Nat.eqb negb andb]; rewrite ?andb_false_r; reflexivity.
  - split; [|lia]. destruct (min_max_disp_spec row0 nrow col0 ncol d right Hn Hc R) as (g & Eg & _); [|congruence].
    unfold file_covers. rewrite E. lia.
Qed.
Example C44_example : get_min_max_disp 1 2 0 3 (mkCfgDisp (CFile ex_file) 2) false <> None /\ get_min_max_disp 0 3 2 1 (mkCfgDisp (CFile ex_file) 2) false = None.
Proof. split; [vm_compute; discriminate|reflexivity]. Qed.

(** ** C16: which disparities the configuration check accepts. *)
Theorem C16_accepted_iff_reaches_image rows cols row col : (0 < rows)%nat -> (0 < cols)%nat -> 0 <= cd_range row -> 0 <= cd_range col ->
  (check_disparity rows cols row col = true <->
   match cd_init row, cd_init col with
   | CInt ri, CInt ci => reaches ri (cd_range row) rows /\ reaches ci (cd_range col) cols
   | CFile fr, CFile fc =>
       rd_count fr = 1%nat /\ rd_count fc = 1%nat /\
       a2_n0 (rd_band fr) = rows /\ a2_n1 (rd_band fr) = cols /\ a2_n0 (rd_band fc) = rows /\ a2_n1 (rd_band fc) = cols /\
       (forall r c, in2 (rd_band fr) r c -> reaches (a2_get (rd_band fr) r c) (cd_range row) rows) /\
       (forall r c, in2 (rd_band fc) r c -> reaches (a2_get (rd_band fc) r c) (cd_range col) cols)
   | _, _ => False end).
Proof. exact (check_disparity_iff rows cols row col). Qed.
Example C16_example : check_disparity 3 4 (mkCfgDisp (CInt (-5)) 2) (mkCfgDisp (CInt 4) 0) = true /\
  check_disparity 3 4 (mkCfgDisp (CInt (-6)) 2) (mkCfgDisp (CInt 4) 0) = false /\
  check_disparity 3 4 (mkCfgDisp (CFile ex_file) 8) (mkCfgDisp (CFile ex_file) 7) = true /\
  check_disparity 3 4 (mkCfgDisp (CFile ex_file) 7) (mkCfgDisp (CFile ex_file) 7) = false.
Proof. repeat split. Qed.

(** ** C43: an accepted range can send every pixel out of the image. *)
Theorem C43_accepted_range_useful_refuted : exists rows cols row col, (0 < rows)%nat /\ (0 < cols)%nat /\ 0 <= cd_range row /\ 0 <= cd_range col /\
  check_disparity rows cols row col = true /\
  forall v d, cd_init row = CInt v -> v - cd_range row <= d <= v + cd_range row -> ~ keeps_a_position d rows.
Proof.
  exists 10%nat, 10%nat, (mkCfgDisp (CInt 12) 2), (mkCfgDisp (CInt 0) 0). cbn. do 5 (split; [lia || reflexivity|]).
  intros v d [= <-] Hd. rewrite keeps_iff. lia.
Qed.
(** Except for ranges that just touch the size of the image, a constant range is useful. *)
Theorem C43_accepted_range_useful_partial rows cols row col ri ci : (0 < rows)%nat -> (0 < cols)%nat -> 0 <= cd_range row -> 0 <= cd_range col ->
  cd_init row = CInt ri -> cd_init col = CInt ci -> check_disparity rows cols row col = true ->
  Z.abs ri - cd_range row <> Z.of_nat rows -> Z.abs ci - cd_range col <> Z.of_nat cols ->
  (exists d, ri - cd_range row <= d <= ri + cd_range row /\ keeps_a_position d rows) /\
  (exists d, ci - cd_range col <= d <= ci + cd_range col /\ keeps_a_position d cols).
Proof.
  intros Hr Hc Rr Rc Er Ec H Nr Nc. apply C16_accepted_iff_reaches_image in H; auto. rewrite Er, Ec in H. rewrite !reaches_iff in H by auto.
  assert (X : forall v range size, 0 <= range -> (0 < size)%nat -> Z.abs v - range <= Z.of_nat size -> Z.abs v - range <> Z.of_nat size ->
     exists d, v - range <= d <= v + range /\ keeps_a_position d size).
  { intros v range size H1 H2 H3 H4. destruct (Z.le_gt_cases 0 v).
    - exists (Z.max (v - range) (1 - Z.of_nat size)). rewrite keeps_iff. lia.
    - exists (Z.min (v + range) (Z.of_nat size - 1)). rewrite keeps_iff. lia. }
  split; apply X; tauto.
Qed.
Example C43_example : check_disparity 10 10 (mkCfgDisp (CInt 11) 2) (mkCfgDisp (CInt 0) 0) = true /\ Z.abs 11 - 2 <> Z.of_nat 10.
Proof. split; [reflexivity|cbn; lia]. Qed.

Print Assumptions C15_grids.
Print Assumptions C44_single_row_refuted.
Print Assumptions C44_fails_exactly_on_single_axis_partial.
Print Assumptions C16_accepted_iff_reaches_image.
Print Assumptions C43_accepted_range_useful_refuted.
Print Assumptions C43_accepted_range_useful_partial.
