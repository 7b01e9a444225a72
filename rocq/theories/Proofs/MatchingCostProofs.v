From Coq Require Import ZArith List Lia Bool Arith.
From Verif Require Import Base.Ext Base.PyList Base.Arr Base.ZRange Model.DisparityModel Model.CommonModel
  Model.ImgShiftModel Model.MatchingCostModel Spec.MaskSpec Spec.ShiftSpec Spec.MatchingCostSpec Spec.WtaSpec
  Proofs.MaskProofs Proofs.ShiftProofs.
Import ListNotations.
Open Scope Z_scope.

(** ** Minimum and maximum of grids *)
Lemma fold_min_spec l a : (In (fold_left Z.min l a) (a :: l)) /\ forall y, In y (a :: l) -> fold_left Z.min l a <= y.
Proof.
  revert a. induction l as [|b l IH]; intros a.
  - simpl. split; auto. intros y [->|[]]; lia.
  - destruct (IH (Z.min a b)) as [H1 H2]. cbn [fold_left]. split.
    + destruct H1 as [H1|H1]; [|right; right; auto]. rewrite <- H1. destruct (Z.min_spec a b) as [[_ ->]|[_ ->]]; simpl; auto.
    + intros y [<-|[<-|Hy]].
      * specialize (H2 (Z.min a b) ltac:(left; auto)). lia.
      * specialize (H2 (Z.min a b) ltac:(left; auto)). lia.
      * apply H2. right; auto.
Qed.
Lemma fold_max_spec l a : (In (fold_left Z.max l a) (a :: l)) /\ forall y, In y (a :: l) -> y <= fold_left Z.max l a.
Proof.
  revert a. induction l as [|b l IH]; intros a.
  - simpl. split; auto. intros y [->|[]]; lia.
  - destruct (IH (Z.max a b)) as [H1 H2]. cbn [fold_left]. split.
    + destruct H1 as [H1|H1]; [|right; right; auto]. rewrite <- H1. destruct (Z.max_spec a b) as [[_ ->]|[_ ->]]; simpl; auto.
    + intros y [<-|[<-|Hy]].
      * specialize (H2 (Z.max a b) ltac:(left; auto)). lia.
      * specialize (H2 (Z.max a b) ltac:(left; auto)). lia.
      * apply H2. right; auto.
Qed.
Lemma list_min_spec l x : list_min l = Some x <-> In x l /\ forall y, In y l -> x <= y.
Proof.
  destruct l as [|a l]; simpl list_min.
  - split; [discriminate|]. intros [[] _].
  - destruct (fold_min_spec l a) as [H1 H2]. split.
    + intros E. injection E as <-. auto.
    + intros [Hx Hl]. f_equal. specialize (H2 x Hx). specialize (Hl _ H1). lia.
Qed.
Lemma list_max_spec l x : list_max l = Some x <-> In x l /\ forall y, In y l -> y <= x.
Proof.
  destruct l as [|a l]; simpl list_max.
  - split; [discriminate|]. intros [[] _].
  - destruct (fold_max_spec l a) as [H1 H2]. split.
    + intros E. injection E as <-. auto.
    + intros [Hx Hl]. f_equal. specialize (H2 x Hx). specialize (Hl _ H1). lia.
Qed.
Lemma in_concat_list2 {A} (g : arr2 A) x : In x (concat (to_list2 g)) <-> exists r c, in2 g r c /\ a2_get g r c = x.
Proof.
  unfold to_list2, in2. rewrite in_concat. split.
  - intros (l & Hl & Hx). apply in_map_iff in Hl. destruct Hl as (r & <- & Hr). apply in_map_iff in Hx.
    destruct Hx as (c & <- & Hc). apply in_seq in Hr, Hc. exists r, c. repeat split; lia.
  - intros (r & c & [Hr Hc] & <-). eexists. split; apply in_map_iff; eexists; split; try reflexivity; apply in_seq; lia.
Qed.
Lemma grid_min_spec g x : grid_min g = Some x <-> (exists r c, in2 g r c /\ a2_get g r c = x) /\ forall r c, in2 g r c -> x <= a2_get g r c.
Proof.
  unfold grid_min. rewrite list_min_spec, in_concat_list2. split; intros [H1 H2]; split; auto.
  - intros r c H. apply H2. apply in_concat_list2. eauto.
  - intros y Hy. apply in_concat_list2 in Hy. destruct Hy as (r & c & H & <-). auto.
Qed.
Lemma grid_max_spec g x : grid_max g = Some x <-> (exists r c, in2 g r c /\ a2_get g r c = x) /\ forall r c, in2 g r c -> a2_get g r c <= x.
Proof.
  unfold grid_max. rewrite list_max_spec, in_concat_list2. split; intros [H1 H2]; split; auto.
  - intros r c H. apply H2. apply in_concat_list2. eauto.
  - intros y Hy. apply in_concat_list2 in Hy. destruct Hy as (r & c & H & <-). auto.
Qed.

Lemma tight_min_max gmin gmax src a b : a2_n0 gmin = a2_n0 gmax -> a2_n1 gmin = a2_n1 gmax -> tight_source gmin gmax src ->
  get_min_max_from_grid (add_grid gmin a) (add_grid gmax b) = Some (fst src + a, snd src + b).
Proof.
  intros N0 N1 (H & (r & c & I & E) & (r' & c' & I' & E')). unfold get_min_max_from_grid.
  replace (grid_min (add_grid gmin a)) with (Some (fst src + a)).
  replace (grid_max (add_grid gmax b)) with (Some (snd src + b)). auto.
  - symmetry. apply grid_max_spec. split.
    + exists r', c'. split; [exact I'|]. simpl. lia.
    + intros r0 c0 I0. simpl. destruct (H r0 c0); [|lia]. destruct I0; split; simpl in *; congruence.
  - symmetry. apply grid_min_spec. split.
    + exists r, c. split; [exact I|]. simpl. lia.
    + intros r0 c0 I0. simpl. destruct (H r0 c0); [exact I0|lia].
Qed.
Lemma tight_min_max0 gmin gmax src : a2_n0 gmin = a2_n0 gmax -> a2_n1 gmin = a2_n1 gmax -> tight_source gmin gmax src ->
  get_min_max_from_grid gmin gmax = Some src.
Proof.
  intros N0 N1 (H & (r & c & I & E) & (r' & c' & I' & E')). unfold get_min_max_from_grid.
  replace (grid_min gmin) with (Some (fst src)).
  replace (grid_max gmax) with (Some (snd src)). destruct src; auto.
  - symmetry. apply grid_max_spec. split.
    + exists r', c'. split; [exact I'|]. simpl. lia.
    + intros r0 c0 I0. simpl. destruct (H r0 c0); [|lia]. destruct I0; split; simpl in *; congruence.
  - symmetry. apply grid_min_spec. split.
    + exists r, c. split; [exact I|]. simpl. lia.
    + intros r0 c0 I0. simpl. destruct (H r0 c0); [exact I0|lia].
Qed.

Lemma source_le_gen gmin gmax src : tight_source gmin gmax src -> fst src <= snd src.
Proof. intros (H & (r & c & I & E) & _). destruct (H r c I). lia. Qed.

Section P.
  Context {px : Type} (px_eqb : px -> px -> bool).
  Variable pandora_cost : list (list px) -> list (list Z) -> nat -> nat -> nat -> ext.
  Variable zoomed : nat -> nat -> px.
  Variables (m : mc_input) (right : image px).
  Hypothesis wf : wf_mc m right.
  Let s := Z.of_nat (mc_subpix m).

  Definition col_range : list Z :=
    let '(l, _, r, _) := margins_of m in
    zarange ((fst (mc_col_source m) - l) * s) ((snd (mc_col_source m) + r) * s + 1) 1.
  Definition row_range : list Z :=
    let '(_, u, _, d) := margins_of m in
    zarange ((fst (mc_row_source m) - u) * s) ((snd (mc_row_source m) + d) * s + 1) 1.

  Lemma disps_col_ok : disps_col m = Some col_range.
  Proof.
    destruct wf as (_&_&_&_&_&_&_&Hg&_&Ht).
    assert (N0 : a2_n0 (mc_col_min m) = a2_n0 (mc_col_max m)) by (rewrite (proj1 (Hg (mc_col_min m) ltac:(tauto))), (proj1 (Hg (mc_col_max m) ltac:(tauto))); reflexivity).
    assert (N1 : a2_n1 (mc_col_min m) = a2_n1 (mc_col_max m)) by (rewrite (proj2 (Hg (mc_col_min m) ltac:(tauto))), (proj2 (Hg (mc_col_max m) ltac:(tauto))); reflexivity).
    unfold disps_col, col_range, margins_of. destruct (mc_margins m) as [g|].
    - rewrite (tight_min_max _ _ _ _ _ N0 N1 Ht). unfold get_disparity_range. do 2 f_equal.
    - rewrite (tight_min_max0 _ _ _ N0 N1 Ht). destruct (mc_col_source m) as [a b]. unfold get_disparity_range. simpl.
      rewrite Z.sub_0_r, Z.add_0_r. reflexivity.
  Qed.
  Lemma disps_row_ok : disps_row m = Some row_range.
  Proof.
    destruct wf as (_&_&_&_&_&_&_&Hg&Ht&_).
    assert (N0 : a2_n0 (mc_row_min m) = a2_n0 (mc_row_max m)) by (rewrite (proj1 (Hg (mc_row_min m) ltac:(tauto))), (proj1 (Hg (mc_row_max m) ltac:(tauto))); reflexivity).
    assert (N1 : a2_n1 (mc_row_min m) = a2_n1 (mc_row_max m)) by (rewrite (proj2 (Hg (mc_row_min m) ltac:(tauto))), (proj2 (Hg (mc_row_max m) ltac:(tauto))); reflexivity).
    unfold disps_row, row_range, margins_of. destruct (mc_margins m) as [g|].
    - rewrite (tight_min_max _ _ _ _ _ N0 N1 Ht). unfold get_disparity_range. do 2 f_equal.
    - rewrite (tight_min_max0 _ _ _ N0 N1 Ht). destruct (mc_row_source m) as [a b]. unfold get_disparity_range. simpl.
      rewrite Z.sub_0_r, Z.add_0_r. reflexivity.
  Qed.

  Lemma row_range_nonempty : row_range <> [].
  Proof.
    destruct wf as (_&_&Hs&_&_&_&_&_&Ht&_). apply source_le_gen in Ht.
    unfold row_range, margins_of. destruct (mc_margins m) as [g|]; intros E;
    apply (f_equal (@length _)) in E; rewrite zarange_length in E; simpl in E;
    rewrite Z.div_1_r in E; unfold s in *; nia.
  Qed.

  (** Row coordinates are inside the image. *)
  Lemma row_coords_shape : exists start, row_coords m = zarange start (mc_row0 m + Z.of_nat (mc_nrow m)) (mc_step_row m) /\
     mc_row0 m <= start /\ (mc_step_row m = 1 -> start = mc_row0 m).
  Proof.
    destruct wf as (_&_&_&Hsr&_). unfold row_coords, get_coordinates.
    destruct (mc_roi m) as [roi|].
    - destruct (roi_margins roi) as [[[l u] r] d]. eexists. split; [f_equal; lia|].
      set (k := Z.min u (roi_row_first roi)). pose proof (Z.mod_pos_bound k (mc_step_row m) ltac:(lia)).
      destruct (Z.eqb_spec (k mod mc_step_row m) 0); split; try lia.
    - eexists. split; [f_equal; lia|]. lia.
  Qed.
  Lemma col_coords_shape : exists start, col_coords m = zarange start (mc_col0 m + Z.of_nat (mc_ncol m)) (mc_step_col m) /\
     mc_col0 m <= start /\ (mc_step_col m = 1 -> start = mc_col0 m).
  Proof.
    destruct wf as (_&_&_&_&Hsr&_). unfold col_coords, get_coordinates.
    destruct (mc_roi m) as [roi|].
    - destruct (roi_margins roi) as [[[l u] r] d]. eexists. split; [f_equal; lia|].
      set (k := Z.min l (roi_col_first roi)). pose proof (Z.mod_pos_bound k (mc_step_col m) ltac:(lia)).
      destruct (Z.eqb_spec (k mod mc_step_col m) 0); split; try lia.
    - eexists. split; [f_equal; lia|]. lia.
  Qed.

  Lemma row_coords_in x : In x (row_coords m) -> mc_row0 m <= x < mc_row0 m + Z.of_nat (mc_nrow m).
  Proof.
    destruct row_coords_shape as (st & -> & Hst & _). destruct wf as (_&_&_&Hsr&_).
    rewrite zarange_In by lia. lia.
  Qed.

  (** Right image seen at the row disparity [d], given to the cost function. *)
  Definition cost_for (d : Z) : nat -> nat -> nat -> ext :=
    pandora_cost (to_list2 (right_moved zoomed right (mc_subpix m) d))
                 (to_list2 (moved_mask px_eqb zoomed right (mc_subpix m) d)).

  Lemma fill_loop imgs (Himgs : shift_subpix_img zoomed right (mc_subpix m) = Some imgs) row_index :
    (forall r, In r row_index -> (r < mc_nrow m)%nat) ->
    forall l k data,
    exists data', fold_left
      (fun acc (p : nat * Z) =>
         bind acc (fun data =>
         bind (right_for_disp px_eqb imgs (mc_subpix m) (snd p)) (fun right =>
         put_cost row_index (mc_nrow m) (pandora_cost (to_list2 (fst right)) (to_list2 (snd right))) (fst p) data)))
      (combine (seq k (length l)) l) (Some data) = Some data' /\ same_shape4 data' data /\
     forall r c i j, a4_get data' r c i j =
       if ((k <=? j) && (j <? k + length l))%nat then cost_for (nth (j - k) l 0) (nth r row_index 0%nat) c i
       else a4_get data r c i j.
  Proof.
    intros Hri. induction l as [|d l IH]; intros k data.
    - simpl. exists data. split; [auto|split; [repeat split|]]. intros r c i j.
      destruct (Nat.leb_spec k j), (Nat.ltb_spec j (k + 0)); simpl; auto; lia.
    - cbn [length seq combine fold_left bind fst snd].
      destruct wf as (W1&_&W3&_&_&W4&_).
      destruct (right_for_disp_lists px_eqb zoomed right (mc_subpix m) W3 ltac:(lia) imgs d Himgs) as (dat & msk & E & E1 & E2).
      rewrite E. cbn [bind fst snd]. rewrite E1, E2. fold (cost_for d). unfold put_cost at 2.
      replace (forallb (fun r => (r <? mc_nrow m)%nat) row_index) with true.
      2:{ symmetry. apply forallb_forall. intros r Hr. apply Nat.ltb_lt. auto. }
      edestruct (IH (S k)) as (data' & F & Sh & G). exists data'. split; [exact F|]. split; [exact Sh|].
      intros r c i j. rewrite G. cbn [a4_get length].
      destruct (Nat.eqb_spec j k) as [->|Hne].
      + replace ((S k <=? k)%nat) with false by (symmetry; apply Nat.leb_gt; lia). simpl.
        replace (k <=? k)%nat with true by (symmetry; apply Nat.leb_le; lia).
        replace (k <? k + S (length l))%nat with true by (symmetry; apply Nat.ltb_lt; lia). simpl.
        rewrite Nat.sub_diag. reflexivity.
      + destruct (Nat.leb_spec (S k) j), (Nat.ltb_spec j (S k + length l)), (Nat.leb_spec k j), (Nat.ltb_spec j (k + S (length l)));
          cbn [andb]; try lia; auto. replace (j - k)%nat with (S (j - S k)) by lia. reflexivity.
  Qed.

  Definition image_row (r : nat) : nat := Z.to_nat (nth r (row_coords m) 0 - mc_row0 m).

  Lemma fill_ok imgs (Himgs : shift_subpix_img zoomed right (mc_subpix m) = Some imgs) :
    exists data, fill_cost_volumes px_eqb pandora_cost m imgs col_range row_range = Some data /\
      a4_n0 data = length (row_coords m) /\ a4_n1 data = length (col_coords m) /\
      a4_n2 data = length col_range /\ a4_n3 data = length row_range /\
      forall r c i j, in4 data r c i j -> a4_get data r c i j = cost_for (nth j row_range 0) (image_row r) c i.
  Proof.
    unfold fill_cost_volumes.
    edestruct (fill_loop imgs Himgs (map (fun x => Z.to_nat (x - mc_row0 m)) (row_coords m))) with (k := 0%nat) (l := row_range)
      as (data & E & (S0 & S1 & S2 & S3) & G).
    { intros r Hr. apply in_map_iff in Hr. destruct Hr as (x & <- & Hx). apply row_coords_in in Hx. lia. }
    exists data. split; [exact E|]. repeat (split; [assumption|]).
    intros r c i j (Hr & _ & _ & Hj). rewrite G. rewrite S3 in Hj. simpl in Hj.
    replace (0 <=? j)%nat with true by reflexivity. replace (j <? 0 + length row_range)%nat with true by (symmetry; apply Nat.ltb_lt; lia).
    simpl. rewrite Nat.sub_0_r. f_equal. rewrite S0 in Hr. simpl in Hr. unfold image_row.
    apply nth_error_nth. rewrite nth_error_map, (nth_error_nth' _ 0 Hr). reflexivity.
  Qed.

  Lemma nth4 (a : arr4 ext) r c i j : in4 a r c i j ->
    (match nth2 (to_list4 a) r c with Some p => nth2 p i j | None => None end) = Some (a4_get a r c i j).
  Proof.
    intros (H0 & H1 & H2 & H3). unfold to_list4, nth2.
    rewrite nth_error_map, (nth_error_nth' _ 0%nat) by (rewrite seq_length; auto). rewrite seq_nth by auto. simpl.
    rewrite nth_error_map, (nth_error_nth' _ 0%nat) by (rewrite seq_length; auto). rewrite seq_nth by auto. simpl.
    rewrite nth_error_map, (nth_error_nth' _ 0%nat) by (rewrite seq_length; auto). rewrite seq_nth by auto. simpl.
    rewrite nth_error_map, (nth_error_nth' _ 0%nat) by (rewrite seq_length; auto). rewrite seq_nth by auto. reflexivity.
  Qed.

  (** Rectangular data. *)
  Lemma to_list4_rect (a : arr4 ext) : rect (a4_n0 a) (a4_n1 a) (to_list4 a) /\
    forall r c p, nth2 (to_list4 a) r c = Some p -> rect (a4_n2 a) (a4_n3 a) p.
  Proof.
    unfold to_list4, rect, nth2. split.
    - split. rewrite map_length, seq_length; auto. apply Forall_forall. intros l Hl. apply in_map_iff in Hl.
      destruct Hl as (? & <- & _). rewrite map_length, seq_length; auto.
    - intros r c p H. rewrite nth_error_map in H. destruct (nth_error (seq 0 (a4_n0 a)) r); [|discriminate]. simpl in H.
      rewrite nth_error_map in H. destruct (nth_error (seq 0 (a4_n1 a)) c); [|discriminate]. simpl in H.
      injection H as <-. split. rewrite map_length, seq_length; auto. apply Forall_forall. intros l Hl. apply in_map_iff in Hl.
      destruct Hl as (? & <- & _). rewrite map_length, seq_length; auto.
  Qed.

  (** Is the point (r, c, disparities dc, dr) of the volume masked? Valid when the volume has the shape of the image. *)
  Definition in_pixel_range (gmin gmax : arr2 Z) (src : Z * Z) (r c : nat) (d : Z) : Prop :=
    ~ (fst src * s <= d <= snd src * s) \/ a2_get gmin r c * s <= d <= a2_get gmax r c * s.

  Lemma mask_scaled gmin gmax src r c d : tight_source gmin gmax src -> in2 gmin r c ->
    to_mask (Some (scale_pair (mc_subpix m) src)) d (a2_get (scale_grid (mc_subpix m) gmin) r c)
       (a2_get (scale_grid (mc_subpix m) gmax) r c) = false <-> in_pixel_range gmin gmax src r c d.
  Proof.
    intros (H & _) I. destruct (H r c I) as (H1 & H2 & H3). simpl. unfold scale_pair, in_pixel_range. fold s.
    assert (Hs : 0 <= s) by (unfold s; lia).
    assert (fst src * s <= a2_get gmin r c * s) by nia. assert (a2_get gmin r c * s <= a2_get gmax r c * s) by nia.
    assert (a2_get gmax r c * s <= snd src * s) by nia.
    rewrite orb_false_iff, !andb_false_iff, !Z.ltb_ge, !Z.leb_gt. lia.
  Qed.

  Lemma step1_lengths : mc_step_row m = 1 -> mc_step_col m = 1 ->
    length (row_coords m) = mc_nrow m /\ length (col_coords m) = mc_ncol m /\
    (forall r, (r < mc_nrow m)%nat -> nth_error (row_coords m) r = Some (mc_row0 m + Z.of_nat r)) /\
    (forall c, (c < mc_ncol m)%nat -> nth_error (col_coords m) c = Some (mc_col0 m + Z.of_nat c)).
  Proof.
    intros H1 H2. destruct row_coords_shape as (st & Er & _ & Hst). destruct col_coords_shape as (st' & Ec & _ & Hst').
    rewrite Er, Ec, Hst, Hst', H1, H2 by auto. rewrite !zarange_length, !Z.div_1_r. repeat split; try lia.
    - intros r Hr. apply zarange_nth; lia.
    - intros c Hc. apply zarange_nth; lia.
  Qed.

  (** The volume, step of one. *)
  Theorem compute_cost_volumes_step1 : mc_step_row m = 1 -> mc_step_col m = 1 ->
    exists cv, compute_cost_volumes px_eqb pandora_cost zoomed m right = Some cv /\
      cv_nrow cv = mc_nrow m /\ cv_ncol cv = mc_ncol m /\
      cv_disp_col cv = col_range /\ cv_disp_row cv = row_range /\ cv_subpix cv = mc_subpix m /\
      cv_measure cv = mc_measure m /\ cv_margins cv = mc_margins m /\
      rect (cv_nrow cv) (cv_ncol cv) (cv_data cv) /\
      (forall r c plane, nth2 (cv_data cv) r c = Some plane -> rect (length (cv_disp_col cv)) (length (cv_disp_row cv)) plane) /\
      forall r c i j di dj, (r < mc_nrow m)%nat -> (c < mc_ncol m)%nat ->
        nth_error (cv_disp_col cv) i = Some di -> nth_error (cv_disp_row cv) j = Some dj ->
        (in_pixel_range (mc_row_min m) (mc_row_max m) (mc_row_source m) r c dj /\
         in_pixel_range (mc_col_min m) (mc_col_max m) (mc_col_source m) r c di ->
           cost_at cv r c i j = Some (cost_for dj r c i)) /\
        (~ (in_pixel_range (mc_row_min m) (mc_row_max m) (mc_row_source m) r c dj /\
         in_pixel_range (mc_col_min m) (mc_col_max m) (mc_col_source m) r c di) ->
           cost_at cv r c i j = Some NaN).
  Proof.
    intros Hr1 Hc1. destruct (step1_lengths Hr1 Hc1) as (Lr & Lc & Nr & _).
    assert (wf' := wf). destruct wf' as (W1&W2&W3&_&_&W4&W5&Hg&Tr&Tc).
    unfold compute_cost_volumes. rewrite disps_row_ok, disps_col_ok. cbn [bind].
    destruct (shift_subpix_ok zoomed right (mc_subpix m) W3 ltac:(lia)) as (imgs & Eimgs & _). rewrite Eimgs. cbn [bind].
    destruct (fill_ok imgs Eimgs) as (data & Ed & N0 & N1 & N2 & N3 & G).
    pose proof row_range_nonempty as Hne. destruct row_range as [|d0 dl] eqn:Err; [congruence|]. rewrite <- Err in *. clear Err Hne d0 dl.
    rewrite Ed. cbn [bind].
    assert (Grm := Hg (mc_row_min m) ltac:(auto)). assert (Gcm := Hg (mc_col_min m) ltac:(auto)).
    destruct (set_out_of_row_spec (fun j => nth j row_range 0) (scale_grid (mc_subpix m) (mc_row_min m))
      (scale_grid (mc_subpix m) (mc_row_max m)) NaN (Some (scale_pair (mc_subpix m) (mc_row_source m))) data)
      as (d1 & E1 & (S0 & S1 & S2 & S3) & G1); try (simpl; destruct Grm; congruence).
    rewrite E1. cbn [bind].
    destruct (set_out_of_col_spec (fun j => nth j col_range 0) (scale_grid (mc_subpix m) (mc_col_min m))
      (scale_grid (mc_subpix m) (mc_col_max m)) NaN (Some (scale_pair (mc_subpix m) (mc_col_source m))) d1)
      as (d2 & E2 & (S0' & S1' & S2' & S3') & G2); try (simpl; destruct Gcm; congruence).
    rewrite E2. cbn [bind]. eexists. split; [reflexivity|]. simpl. repeat (split; [assumption || reflexivity|]).
    destruct (to_list4_rect d2) as [R1 R2].
    split; [replace (length (row_coords m)) with (a4_n0 d2) by congruence; replace (length (col_coords m)) with (a4_n1 d2) by congruence; exact R1|].
    split. { replace (length col_range) with (a4_n2 d2) by congruence. replace (length row_range) with (a4_n3 d2) by congruence. exact R2. }
    intros r c i j di dj Hr Hc Hi Hj. unfold cost_at. simpl.
    assert (Li : (i < length col_range)%nat) by (apply nth_error_Some; congruence).
    assert (Lj : (j < length row_range)%nat) by (apply nth_error_Some; congruence).
    rewrite nth4 by (repeat split; congruence || lia).
    rewrite G2 by (repeat split; congruence || lia). rewrite G1 by (repeat split; congruence || lia).
    rewrite G by (repeat split; congruence || lia).
    rewrite (nth_error_nth _ _ 0 Hi), (nth_error_nth _ _ 0 Hj).
    assert (Ir : image_row r = r). { unfold image_row. rewrite (nth_error_nth _ _ 0 (Nr r Hr)). lia. } rewrite Ir.
    pose proof (mask_scaled (mc_row_min m) (mc_row_max m) (mc_row_source m) r c dj Tr ltac:(destruct Grm; split; congruence)) as Mr.
    pose proof (mask_scaled (mc_col_min m) (mc_col_max m) (mc_col_source m) r c di Tc ltac:(destruct Gcm; split; congruence)) as Mc.
    destruct (to_mask (Some (scale_pair _ (mc_col_source m))) _ _ _), (to_mask (Some (scale_pair _ (mc_row_source m))) _ _ _);
      split; intros X; auto; exfalso.
    - destruct X as [_ X]. apply Mc in X. discriminate.
    - destruct X as [_ X]. apply Mc in X. discriminate.
    - destruct X as [X _]. apply Mr in X. discriminate.
    - apply X. split; [apply Mr|apply Mc]; auto.
  Qed.

  Lemma to_mask_const g0 g1 d dmin dmax : dmin = g0 -> dmax = g1 -> to_mask (Some (g0, g1)) d dmin dmax = false.
  Proof. intros -> ->. simpl. rewrite orb_false_iff, !andb_false_iff, !Z.ltb_ge, !Z.leb_gt. lia. Qed.

  Lemma const_row_id (gmin gmax : arr2 Z) src (disp : nat -> Z) data :
    (forall r c, in2 gmin r c -> a2_get gmin r c = fst src /\ a2_get gmax r c = snd src) ->
    exists data', set_out_of_row disp (scale_grid (mc_subpix m) gmin) (scale_grid (mc_subpix m) gmax) NaN
      (Some (scale_pair (mc_subpix m) src)) data = Some data' /\ same_shape4 data' data /\
      forall r c i j, in4 data r c i j -> a4_get data' r c i j = a4_get data r c i j.
  Proof.
    intros Hc. unfold set_out_of_row.
    assert (M : forall k r c, (r < a2_n0 gmin)%nat -> (c < a2_n1 gmin)%nat ->
      to_mask (Some (scale_pair (mc_subpix m) src)) (disp k) (a2_get (scale_grid (mc_subpix m) gmin) r c)
        (a2_get (scale_grid (mc_subpix m) gmax) r c) = false).
    { intros k r c H1 H2. destruct (Hc r c (conj H1 H2)) as [A B]. unfold scale_pair. apply to_mask_const; simpl; congruence. }
    destruct (proj1 (loop_row_total NaN (a2_n0 gmin) (a2_n1 gmin)
     (fun k r c => to_mask (Some (scale_pair (mc_subpix m) src)) (disp k) (a2_get (scale_grid (mc_subpix m) gmin) r c) (a2_get (scale_grid (mc_subpix m) gmax) r c)) (seq 0 (a4_n3 data)) data)) as [d' Hd'].
    { intros k r c _ H1 H2 H. rewrite M in H by auto. discriminate. }
    exists d'. split; [exact Hd'|]. destruct (loop_row_spec _ _ _ _ _ _ _ Hd') as [Hs Hg]. split; auto.
    intros r c i j _. rewrite Hg. destruct (Nat.ltb_spec r (a2_n0 gmin)), (Nat.ltb_spec c (a2_n1 gmin)); rewrite ?andb_false_r; cbn [andb]; auto.
    rewrite M by auto. rewrite andb_false_r. auto.
  Qed.
  Lemma const_col_id (gmin gmax : arr2 Z) src (disp : nat -> Z) data :
    (forall r c, in2 gmin r c -> a2_get gmin r c = fst src /\ a2_get gmax r c = snd src) ->
    exists data', set_out_of_col disp (scale_grid (mc_subpix m) gmin) (scale_grid (mc_subpix m) gmax) NaN
      (Some (scale_pair (mc_subpix m) src)) data = Some data' /\ same_shape4 data' data /\
      forall r c i j, in4 data r c i j -> a4_get data' r c i j = a4_get data r c i j.
  Proof.
    intros Hc. unfold set_out_of_col.
    assert (M : forall k r c, (r < a2_n0 gmin)%nat -> (c < a2_n1 gmin)%nat ->
      to_mask (Some (scale_pair (mc_subpix m) src)) (disp k) (a2_get (scale_grid (mc_subpix m) gmin) r c)
        (a2_get (scale_grid (mc_subpix m) gmax) r c) = false).
    { intros k r c H1 H2. destruct (Hc r c (conj H1 H2)) as [A B]. unfold scale_pair. apply to_mask_const; simpl; congruence. }
    destruct (proj1 (loop_col_total NaN (a2_n0 gmin) (a2_n1 gmin)
     (fun k r c => to_mask (Some (scale_pair (mc_subpix m) src)) (disp k) (a2_get (scale_grid (mc_subpix m) gmin) r c) (a2_get (scale_grid (mc_subpix m) gmax) r c)) (seq 0 (a4_n2 data)) data)) as [d' Hd'].
    { intros k r c _ H1 H2 H. rewrite M in H by auto. discriminate. }
    exists d'. split; [exact Hd'|]. destruct (loop_col_spec _ _ _ _ _ _ _ Hd') as [Hs Hg]. split; auto.
    intros r c i j _. rewrite Hg. destruct (Nat.ltb_spec r (a2_n0 gmin)), (Nat.ltb_spec c (a2_n1 gmin)); rewrite ?andb_false_r; cbn [andb]; auto.
    rewrite M by auto. rewrite andb_false_r. auto.
  Qed.

  (** The volume, any step, the same range for every pixel. *)
  Theorem compute_cost_volumes_const : constant_ranges m ->
    exists cv, compute_cost_volumes px_eqb pandora_cost zoomed m right = Some cv /\
      cv_nrow cv = length (row_coords m) /\ cv_ncol cv = length (col_coords m) /\
      cv_disp_col cv = col_range /\ cv_disp_row cv = row_range /\ cv_subpix cv = mc_subpix m /\
      cv_measure cv = mc_measure m /\ cv_margins cv = mc_margins m /\
      rect (cv_nrow cv) (cv_ncol cv) (cv_data cv) /\
      (forall r c plane, nth2 (cv_data cv) r c = Some plane -> rect (length (cv_disp_col cv)) (length (cv_disp_row cv)) plane) /\
      forall r c i j x di dj, nth_error (row_coords m) r = Some x -> (c < length (col_coords m))%nat ->
        nth_error (cv_disp_col cv) i = Some di -> nth_error (cv_disp_row cv) j = Some dj ->
        cost_at cv r c i j = Some (cost_for dj (Z.to_nat (x - mc_row0 m)) c i).
  Proof.
    intros [Cr Cc]. assert (wf' := wf). destruct wf' as (W1&W2&W3&_&_&W4&W5&Hg&Tr&Tc).
    unfold compute_cost_volumes. rewrite disps_row_ok, disps_col_ok. cbn [bind].
    destruct (shift_subpix_ok zoomed right (mc_subpix m) W3 ltac:(lia)) as (imgs & Eimgs & _). rewrite Eimgs. cbn [bind].
    destruct (fill_ok imgs Eimgs) as (data & Ed & N0 & N1 & N2 & N3 & G).
    pose proof row_range_nonempty as Hne. destruct row_range as [|d0 dl] eqn:Err; [congruence|]. rewrite <- Err in *. clear Err Hne d0 dl.
    rewrite Ed. cbn [bind].
    destruct (const_row_id _ _ (mc_row_source m) (fun j => nth j row_range 0) data Cr) as (d1 & E1 & (S0 & S1 & S2 & S3) & G1).
    rewrite E1. cbn [bind].
    destruct (const_col_id _ _ (mc_col_source m) (fun j => nth j col_range 0) d1 Cc) as (d2 & E2 & (S0' & S1' & S2' & S3') & G2).
    rewrite E2. cbn [bind]. eexists. split; [reflexivity|]. simpl. repeat (split; [assumption || reflexivity|]).
    destruct (to_list4_rect d2) as [R1 R2].
    split; [replace (length (row_coords m)) with (a4_n0 d2) by congruence; replace (length (col_coords m)) with (a4_n1 d2) by congruence; exact R1|].
    split. { replace (length col_range) with (a4_n2 d2) by congruence. replace (length row_range) with (a4_n3 d2) by congruence. exact R2. }
    intros r c i j x di dj Hr Hc Hi Hj. unfold cost_at. simpl.
    assert (Lr : (r < length (row_coords m))%nat) by (apply nth_error_Some; congruence).
    assert (Li : (i < length col_range)%nat) by (apply nth_error_Some; congruence).
    assert (Lj : (j < length row_range)%nat) by (apply nth_error_Some; congruence).
    rewrite nth4 by (repeat split; congruence || lia).
    rewrite G2 by (repeat split; congruence || lia). rewrite G1 by (repeat split; congruence || lia).
    rewrite G by (repeat split; congruence || lia).
    rewrite (nth_error_nth _ _ 0 Hj). unfold image_row. rewrite (nth_error_nth _ _ 0 Hr). reflexivity.
  Qed.
End P.
