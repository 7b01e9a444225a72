(** C11, C12, C14, C41, C42: ROI and saved maps. *)
From Coq Require Import ZArith QArith List Bool Arith Lia.
From Verif Require Import Base.PyList Base.Arr Base.ZRange Model.CommonModel Model.DisparityModel Model.MatchingCostModel Model.RoiModel
  Spec.RoiSpec Proofs.MatchingCostTheorems Proofs.RoiProofs.
Import ListNotations.
Open Scope Z_scope.

Definition roi_arr (l : list (list Z)) : arr2 Z :=
  mkArr2 (length l) (length (hd [] l)) (fun r c => nth c (nth r l []) 0).

(** ** C11: margins of the ROI. [m0 .. m3] are those of the pipeline, [n0 .. n3] those of the ROI that is loaded. *)
Theorem C11_roi_margins r col row new updated m0 m1 m2 m3 : 0 <= d_range col -> 0 <= d_range row ->
  roi_mg r = (m0, m1, m2, m3) -> get_roi_processing r col row = Some (new, updated) ->
  (roi_c0 new, roi_c1 new, roi_r0 new, roi_r1 new) = (roi_c0 r, roi_c1 r, roi_r0 r, roi_r1 r) /\
  updated = new /\
  exists n0 n1 n2 n3, roi_mg new = (n0, n1, n2, n3) /\
    m0 <= n0 /\ m1 <= n1 /\ m2 <= n2 /\ m3 <= n3 /\
    covers col (roi_c0 r) (roi_c1 r) n0 n2 /\ covers row (roi_r0 r) (roi_r1 r) n1 n3 /\
    (* the smallest ones when the allowed displacements go on both sides of 0 *)
    (roi_c0 r <= roi_c1 r -> (exists a b, allowed col a /\ allowed col b /\ a <= 0 <= b) ->
       forall k0 k2, m0 <= k0 -> m2 <= k2 -> covers col (roi_c0 r) (roi_c1 r) k0 k2 -> 0 <= k0 -> 0 <= k2 -> n0 <= k0 /\ n2 <= k2) /\
    (roi_r0 r <= roi_r1 r -> (exists a b, allowed row a /\ allowed row b /\ a <= 0 <= b) ->
       forall k1 k3, m1 <= k1 -> m3 <= k3 -> covers row (roi_r0 r) (roi_r1 r) k1 k3 -> 0 <= k1 -> 0 <= k3 -> n1 <= k1 /\ n3 <= k3).
Proof.
  intros Hc Hr Em. unfold get_roi_processing. rewrite Em. destruct (same_kind col row); [|discriminate].
  destruct (disp_min col) as [cmin|] eqn:E1; [|discriminate]. destruct (disp_min row) as [rmin|] eqn:E2; [|discriminate].
  destruct (disp_max col) as [cmax|] eqn:E3; [|discriminate]. destruct (disp_max row) as [rmax|] eqn:E4; [|discriminate].
  intros [= <- <-]. cbn [roi_c0 roi_c1 roi_r0 roi_r1 roi_mg]. split; [reflexivity|]. split; [reflexivity|].
  apply (disp_min_spec _ _ Hc) in E1. apply (disp_min_spec _ _ Hr) in E2. apply (disp_max_spec _ _ Hc) in E3. apply (disp_max_spec _ _ Hr) in E4.
  destruct E1 as [A1 B1], E2 as [A2 B2], E3 as [A3 B3], E4 as [A4 B4].
  do 4 eexists. split; [reflexivity|]. do 4 (split; [lia|]).
  split; [|split; [|split]].
  - intros x d Hx Hd. specialize (B1 _ Hd). specialize (B3 _ Hd). lia.
  - intros x d Hx Hd. specialize (B2 _ Hd). specialize (B4 _ Hd). lia.
  - intros Hf (a & b & Ha & Hb & Hab) k0 k2 L0 L2 Cv P0 P2. specialize (B1 _ Ha). specialize (B3 _ Hb).
    pose proof (Cv (roi_c0 r) cmin ltac:(lia) A1). pose proof (Cv (roi_c1 r) cmax ltac:(lia) A3). lia.
  - intros Hf (a & b & Ha & Hb & Hab) k0 k2 L0 L2 Cv P0 P2. specialize (B2 _ Ha). specialize (B4 _ Hb).
    pose proof (Cv (roi_r0 r) rmin ltac:(lia) A2). pose proof (Cv (roi_r1 r) rmax ltac:(lia) A4). lia.
Qed.

(** The value of the margins, one sided displacements included: the largest of the margin of the pipeline and of the length of the
    extreme displacement on that side. *)
Theorem C11_margins_value r col row new updated m0 m1 m2 m3 : 0 <= d_range col -> 0 <= d_range row ->
  roi_mg r = (m0, m1, m2, m3) -> get_roi_processing r col row = Some (new, updated) ->
  exists cmin rmin cmax rmax, least_allowed col cmin /\ least_allowed row rmin /\ greatest_allowed col cmax /\ greatest_allowed row rmax /\
    roi_mg new = (Z.max (Z.abs cmin) m0, Z.max (Z.abs rmin) m1, Z.max (Z.abs cmax) m2, Z.max (Z.abs rmax) m3).
Proof.
  intros Hc Hr Em. unfold get_roi_processing. rewrite Em. destruct (same_kind col row); [|discriminate].
  destruct (disp_min col) as [cmin|] eqn:E1; [|discriminate]. destruct (disp_min row) as [rmin|] eqn:E2; [|discriminate].
  destruct (disp_max col) as [cmax|] eqn:E3; [|discriminate]. destruct (disp_max row) as [rmax|] eqn:E4; [|discriminate].
  intros [= <- _]. exists cmin, rmin, cmax, rmax.
  apply (disp_min_spec _ _ Hc) in E1. apply (disp_min_spec _ _ Hr) in E2. apply (disp_max_spec _ _ Hc) in E3. apply (disp_max_spec _ _ Hr) in E4. auto.
Qed.

(** A matching position that exists in the image has been read. *)
Theorem C11_matching_position_loaded dsp first last before after size x d :
  covers dsp first last before after -> first <= x <= last -> allowed dsp d -> 0 <= x + d < size ->
  fst (window_of first last before after size) <= x + d < snd (window_of first last before after size).
Proof. intros Cv Hx Hd Hs. specialize (Cv x d Hx Hd). cbn [window_of fst snd]. lia. Qed.

(** The computation succeeds for two constants or two non empty grids, and fails (TypeError) for a mix. *)
Theorem C11_total r col row :
  (exists p, get_roi_processing r col row = Some p) <->
  match d_init col, d_init row with
  | DInt _, DInt _ => True
  | DGrid g, DGrid h => (0 < a2_n0 g /\ 0 < a2_n1 g /\ 0 < a2_n0 h /\ 0 < a2_n1 h)%nat
  | _, _ => False end.
Proof.
  unfold get_roi_processing, same_kind, disp_min, disp_max. destruct (roi_mg r) as [[[m0 m1] m2] m3].
  assert (X : forall g : arr2 Z, concat (to_list2 g) = [] <-> ~ (0 < a2_n0 g /\ 0 < a2_n1 g)%nat).
  { intros g. unfold to_list2. destruct (a2_n0 g) as [|n0]; [cbn; split; [lia|auto]|]. destruct (a2_n1 g) as [|n1].
    - split; [lia|]. intros _. apply concat_nil_Forall. apply Forall_forall. intros l Hl. apply in_map_iff in Hl. destruct Hl as (? & <- & _). reflexivity.
    - cbn. split; [discriminate|lia]. }
  destruct (d_init col) as [v|g], (d_init row) as [w|h]; cbn.
  - split; eauto.
  - split; [intros [? H]; discriminate|tauto].
  - split; [intros [? H]; discriminate|tauto].
  - unfold grid_min, grid_max. specialize (X g) as Xg. specialize (X h) as Xh. unfold list_min, list_max.
    destruct (concat (to_list2 g)) eqn:Eg; cbn [option_map].
    + split; [intros [? H]; discriminate|]. intros H. exfalso. apply Xg; tauto.
    + destruct (concat (to_list2 h)) eqn:Eh; cbn [option_map].
      * split; [intros [? H]; discriminate|]. intros H. exfalso. apply Xh; tauto.
      * split; [|eauto]. intros _. destruct (a2_n0 g), (a2_n1 g), (a2_n0 h), (a2_n1 h);
        try lia; exfalso; (assert (C : z :: l = []) by (apply Xg; lia); discriminate) || (assert (C : z0 :: l0 = []) by (apply Xh; lia); discriminate).
Qed.

(** Margins 2 of the pipeline, columns -30 +- 30, rows 1 +- 3. *)
Example C11_example :
  get_roi_processing (mkRoi 10 20 15 25 (2, 2, 2, 2)) (mkDisp (DInt (-30)) 30) (mkDisp (DInt 1) 3) =
    Some (mkRoi 10 20 15 25 (60, 2, 2, 4), mkRoi 10 20 15 25 (60, 2, 2, 4)) /\
  (exists a b, allowed (mkDisp (DInt 1) 3) a /\ allowed (mkDisp (DInt 1) 3) b /\ a <= 0 <= b) /\
  get_roi_processing (mkRoi 10 20 15 25 (2, 2, 2, 2)) (mkDisp (DGrid (roi_arr [[1; -4]; [3; 0]])) 2) (mkDisp (DGrid (roi_arr [[0; 1]; [9; 9]])) 1) =
    Some (mkRoi 10 20 15 25 (6, 2, 5, 10), mkRoi 10 20 15 25 (6, 2, 5, 10)).
Proof. split; [reflexivity|]. split; [exists 0, 1; unfold allowed; simpl; lia|reflexivity]. Qed.

(** When all the displacements are on the same side the margins are not the smallest: the range [20, 40] needs no margin on the left. *)
Theorem C11_smallest_one_sided_refuted : exists r col row new updated n0 n1 n2 n3,
  roi_mg r = (0, 0, 0, 0) /\ get_roi_processing r col row = Some (new, updated) /\ roi_mg new = (n0, n1, n2, n3) /\
  covers col (roi_c0 r) (roi_c1 r) 0 n2 /\ 0 < n0.
Proof.
  exists (mkRoi 10 20 15 25 (0, 0, 0, 0)), (mkDisp (DInt 30) 10), (mkDisp (DInt 0) 0). do 6 eexists.
  split; [reflexivity|]. split; [reflexivity|]. split; [reflexivity|]. split; [|reflexivity].
  intros x d Hx Hd. cbn in *. lia.
Qed.

(** ** C41: the matching window around a matching position is not always in the loaded image although it is in the full
    image: margins are the maximum, not the sum, of the window and of the displacement. *)
Theorem C41_window_loaded_refuted : exists r col row new updated n0 n1 n2 n3 width x d half,
  (* the pipeline demands the margins of a window of half size [half] *)
  roi_mg r = (half, half, half, half) /\ get_roi_processing r col row = Some (new, updated) /\ roi_mg new = (n0, n1, n2, n3) /\
  roi_c0 r <= x <= roi_c1 r /\ allowed col d /\
  (* the window is in the image *)
  0 <= x + d - half /\ x + d + half < width /\
  (* but not in what is loaded *)
  x + d - half < fst (window_of (roi_c0 r) (roi_c1 r) n0 n2 width).
Proof.
  exists (mkRoi 50 60 50 60 (2, 2, 2, 2)), (mkDisp (DInt 0) 5), (mkDisp (DInt 0) 0). do 6 eexists. exists 100, 50, (-5), 2.
  split; [reflexivity|]. split; [reflexivity|]. split; [reflexivity|]. cbn. lia.
Qed.

(** The window is loaded for the pixels that are far enough of the edges of the ROI, or for small displacements. *)
Theorem C41_window_loaded_partial r col row new updated m0 m1 m2 m3 n0 n1 n2 n3 width x d half :
  0 <= d_range col -> 0 <= d_range row -> roi_mg r = (m0, m1, m2, m3) ->
  get_roi_processing r col row = Some (new, updated) -> roi_mg new = (n0, n1, n2, n3) ->
  half <= m0 -> half <= m2 -> 0 <= half -> allowed col d ->
  (roi_c0 r + half <= x <= roi_c1 r - half \/ (roi_c0 r <= x <= roi_c1 r /\ Z.abs d + half <= Z.min n0 n2)) ->
  0 <= x + d - half -> x + d + half < width ->
  fst (window_of (roi_c0 r) (roi_c1 r) n0 n2 width) <= x + d - half /\ x + d + half < snd (window_of (roi_c0 r) (roi_c1 r) n0 n2 width).
Proof.
  intros Hc Hr Em E En L0 L2 Hh Hd Hx H0 H1. destruct (C11_roi_margins r col row new updated m0 m1 m2 m3 Hc Hr Em E) as (_ & _ & a & b & c & e & E2 & ? & ? & ? & ? & Cv & _).
  rewrite En in E2. injection E2 as <- <- <- <-. cbn [window_of fst snd].
  destruct Hx as [Hx|Hx]; [|lia].
  pose proof (Cv (x - half) d ltac:(lia) Hd). pose proof (Cv (x + half) d ltac:(lia) Hd). lia.
Qed.
Example C41_example : let r := mkRoi 50 60 50 60 (2, 2, 2, 2) in
  allowed (mkDisp (DInt 0) 5) (-5) /\ roi_c0 r + 2 <= 53 <= roi_c1 r - 2 /\ 0 <= 53 + -5 - 2 /\ 53 + -5 + 2 < 100.
Proof. cbn. lia. Qed.

(** ** C12: what is left after the removal of the margins is the crop, by coordinates, to the ROI of the user. *)
Theorem C12_crop_exact {A} (ds : dmaps A) r row_step col_step cfg r0 c0 :
  sc_roi cfg = Some r -> sc_step cfg = Some (row_step, col_step) -> 1 <= row_step -> 1 <= col_step ->
  wf_dmaps ds -> dm_rows ds <> [] -> dm_cols ds <> [] ->
  progression r0 row_step (dm_rows ds) -> progression c0 col_step (dm_cols ds) ->
  ((roi_r0 r - r0) mod row_step = 0 \/ roi_r0 r <= r0) -> ((roi_c0 r - c0) mod col_step = 0 \/ roi_c0 r <= c0) ->
  remove_roi_margins ds cfg = Some (mkDmaps
    (filter (in_roi (roi_r0 r) (roi_r1 r)) (dm_rows ds)) (filter (in_roi (roi_c0 r) (roi_c1 r)) (dm_cols ds))
    (crop r (dm_rows ds) (dm_cols ds) (dm_row_map ds)) (crop r (dm_rows ds) (dm_cols ds) (dm_col_map ds))
    (crop r (dm_rows ds) (dm_cols ds) (dm_score ds)) (dm_transform ds)).
Proof. exact (remove_roi_spec ds r row_step col_step cfg r0 c0). Qed.

Lemma loaded_axes m cfg height width r : loaded m cfg height width -> sc_roi cfg = Some r ->
  exists r0 c0, progression r0 (mc_step_row m) (row_coords m) /\ progression c0 (mc_step_col m) (col_coords m) /\
    (roi_r0 r - r0) mod mc_step_row m = 0 /\ (roi_c0 r - c0) mod mc_step_col m = 0 /\ r0 <= roi_r0 r /\ c0 <= roi_c0 r /\
    In (roi_r0 r) (row_coords m) /\ In (roi_c0 r) (col_coords m) /\
    (forall x, In x (filter (in_roi (roi_r0 r) (roi_r1 r)) (row_coords m)) <-> roi_r0 r <= x <= roi_r1 r /\ x < height /\ (x - roi_r0 r) mod mc_step_row m = 0) /\
    (forall x, In x (filter (in_roi (roi_c0 r) (roi_c1 r)) (col_coords m)) <-> roi_c0 r <= x <= roi_c1 r /\ x < width /\ (x - roi_c0 r) mod mc_step_col m = 0).
Proof.
  intros (Es & Hr & Hc & L) Er. rewrite Er in L. destruct (roi_mg r) as [[[lft up] rgt] down] eqn:Em.
  destruct L as (E & P0 & P1 & P2 & P3 & C & R & Wc & Wr & [Wr0 Wr1] & [Wc0 Wc1]).
  assert (Erow : row_coords m = get_coordinates (Z.min up (roi_r0 r)) (mc_row0 m) (mc_row0 m + Z.of_nat (mc_nrow m) - 1) (mc_step_row m)).
  { unfold row_coords. rewrite E. reflexivity. }
  assert (Ecol : col_coords m = get_coordinates (Z.min lft (roi_c0 r)) (mc_col0 m) (mc_col0 m + Z.of_nat (mc_ncol m) - 1) (mc_step_col m)).
  { unfold col_coords. rewrite E. reflexivity. }
  destruct (roi_axis (roi_r0 r) up down (roi_r1 r) height (mc_row0 m) (mc_nrow m) (mc_step_row m) _ Hr P1 P3 R Wr Wr0 ltac:(lia) Erow) as (sr & A1 & A2 & A3 & A4 & A5).
  destruct (roi_axis (roi_c0 r) lft rgt (roi_c1 r) width (mc_col0 m) (mc_ncol m) (mc_step_col m) _ Hc P0 P2 C Wc Wc0 ltac:(lia) Ecol) as (sc & B1 & B2 & B3 & B4 & B5).
  exists sr, sc. repeat split; auto; try (apply A5; auto); try (apply B5; auto).
Qed.

(** In a run the coordinates are always aligned: the rows and columns left are all the multiples of the step inside the ROI
    and the image, counted from the first one, which is there. *)
Theorem C12_run_exact {A} (ds : dmaps A) m cfg height width r : loaded m cfg height width -> sc_roi cfg = Some r ->
  dm_rows ds = row_coords m -> dm_cols ds = col_coords m -> wf_dmaps ds ->
  exists out, remove_roi_margins ds cfg = Some out /\
    (forall x, In x (dm_rows out) <-> roi_r0 r <= x <= roi_r1 r /\ x < height /\ (x - roi_r0 r) mod mc_step_row m = 0) /\
    (forall x, In x (dm_cols out) <-> roi_c0 r <= x <= roi_c1 r /\ x < width /\ (x - roi_c0 r) mod mc_step_col m = 0) /\
    dm_row_map out = crop r (dm_rows ds) (dm_cols ds) (dm_row_map ds) /\
    dm_col_map out = crop r (dm_rows ds) (dm_cols ds) (dm_col_map ds) /\
    dm_score out = crop r (dm_rows ds) (dm_cols ds) (dm_score ds).
Proof.
  intros L Er Rr Rc W. destruct (loaded_axes m cfg height width r L Er) as (r0 & c0 & P1 & P2 & A1 & A2 & _ & _ & I1 & I2 & F1 & F2).
  destruct L as (Es & Hr & Hc & _). eexists. split.
  - apply (remove_roi_spec ds r _ _ cfg r0 c0 Er Es); auto; try (rewrite Rr || rewrite Rc; auto); try congruence;
      intros N; rewrite N in *; simpl in *; tauto.
  - cbn [dm_rows dm_cols dm_row_map dm_col_map dm_score]. rewrite Rr, Rc. auto.
Qed.

Definition ex_ds : dmaps Z := mkDmaps [0; 4; 8; 12] [8; 10; 12; 14; 16]
  (map (fun r => map (fun c => 100 * r + c) [8; 10; 12; 14; 16]) [0; 4; 8; 12])
  (map (fun r => map (fun c => 100 * r + c) [8; 10; 12; 14; 16]) [0; 4; 8; 12])
  (map (fun r => map (fun c => 100 * r + c) [8; 10; 12; 14; 16]) [0; 4; 8; 12]) (Some (mkAffine 2 1 100 0 (-3) 200)).
Definition ex_save : save_cfg := mkSave (Some (mkRoi 10 14 0 10 (3, 3, 3, 3))) (Some (4, 2)).
Definition ex_roi_input : mc_input := mkMC 0 14 7 11 (roi_arr []) (roi_arr []) (roi_arr []) (roi_arr []) (0, 0) (0, 0) 1 4 2 MeasureMax None
  (Some (mkRoiCfg 10 0 (3, 3, 3, 3))).
Example C12_example : remove_roi_margins ex_ds ex_save = Some (mkDmaps [0; 4; 8] [10; 12; 14]
  [[10; 12; 14]; [410; 412; 414]; [810; 812; 814]] [[10; 12; 14]; [410; 412; 414]; [810; 812; 814]]
  [[10; 12; 14]; [410; 412; 414]; [810; 812; 814]] (dm_transform ex_ds)).
Proof. reflexivity. Qed.
Example C12_hypotheses : loaded ex_roi_input ex_save 20 20 /\ dm_rows ex_ds = row_coords ex_roi_input /\ dm_cols ex_ds = col_coords ex_roi_input /\ wf_dmaps ex_ds.
Proof.
  split; [unfold loaded; cbn; repeat split; lia|]. split; [reflexivity|]. split; [reflexivity|].
  intros m [-> | [-> | ->]]; (split; [reflexivity|repeat constructor]).
Qed.
(** The alignment is needed: with rows 1, 4, 7 and a ROI that begins at 3, the row 1 is kept. *)
Example C12_alignment_needed : option_map dm_rows (remove_roi_margins
    (mkDmaps [1; 4; 7] [0] [[1]; [2]; [3]] [[1]; [2]; [3]] [[1]; [2]; [3]] None)
    (mkSave (Some (mkRoi 0 0 3 7 (0, 0, 0, 0))) (Some (3, 1)))) = Some [1; 4; 7].
Proof. reflexivity. Qed.

(** ** C14: world coordinates of the saved pixels. (c, r) is the position, in the input image, of the pixel saved at the
    line i and column j. *)
Theorem C14_saved_maps_georeferenced {A} (ds : dmaps A) m cfg height width t : loaded m cfg height width ->
  dm_rows ds = row_coords m -> dm_cols ds = col_coords m -> wf_dmaps ds -> dm_transform ds = Some t ->
  exists saved ds' t', save_dataset ds cfg = Some (saved, ds') /\ dm_transform saved = Some t' /\
    forall i j r c, nth_error (dm_rows saved) i = Some r -> nth_error (dm_cols saved) j = Some c ->
      same_point (world t' (inject_Z (Z.of_nat j)) (inject_Z (Z.of_nat i))) (world t (inject_Z c) (inject_Z r)).
Proof.
  intros L Rr Rc W Et. unfold save_dataset. destruct (sc_roi cfg) as [r|] eqn:Er.
  - destruct (loaded_axes m cfg height width r L Er) as (r0 & c0 & P1 & P2 & A1 & A2 & L1 & L2 & I1 & I2 & _).
    destruct L as (Es & Hr & Hc & _).
    rewrite (remove_roi_spec ds r _ _ cfg r0 c0 Er Es); auto; try (rewrite Rr || rewrite Rc; auto); try congruence;
      try (intros N; rewrite N in *; simpl in *; tauto).
    cbn [bind dm_rows dm_cols dm_transform]. do 3 eexists. split; [reflexivity|]. cbn [dm_transform dm_rows dm_cols]. rewrite Et. split; [reflexivity|].
    intros i j rr cc Hi Hj. try rewrite Rr in Hi. try rewrite Rc in Hj.
    apply (filter_progression_nth r0 (mc_step_row m)) in Hi; auto. apply (filter_progression_nth c0 (mc_step_col m)) in Hj; auto.
    eapply same_point_trans; [apply adjust_world|]. rewrite Er. unfold get_step. rewrite Es. cbn [fst snd].
    apply world_ext; subst; rewrite inject_Z_plus, inject_Z_mult; ring.
  - destruct L as (Es & Hr & Hc & L). rewrite Er in L. destruct L as (E & R0 & C0 & _).
    do 3 eexists. split; [reflexivity|]. cbn [dm_transform dm_rows dm_cols]. rewrite Et. split; [reflexivity|].
    intros i j rr cc Hi Hj. rewrite Rr in Hi. rewrite Rc in Hj. unfold row_coords in Hi. unfold col_coords in Hj. rewrite E in Hi, Hj.
    rewrite zarange_nth in Hi by lia. rewrite zarange_nth in Hj by lia. destruct Hi as [Hi _], Hj as [Hj _]. rewrite R0 in Hi. rewrite C0 in Hj.
    eapply same_point_trans; [apply adjust_world|]. rewrite Er. unfold get_step. rewrite Es. cbn [fst snd].
    apply world_ext; subst; rewrite inject_Z_plus, inject_Z_mult; ring.
Qed.
(** Second line and third column of the example: row 4, column 14. *)
Example C14_example : match save_dataset ex_ds ex_save with
  | Some (saved, _) => match dm_transform saved, dm_transform ex_ds with
      | Some t', Some t => nth_error (dm_rows saved) 1 = Some 4 /\ nth_error (dm_cols saved) 2 = Some 14 /\
          same_point (world t' 2 1) (132, 188)%Q /\ same_point (world t 14 4) (132, 188)%Q
      | _, _ => False end
  | None => False end.
Proof. cbn. repeat split. Qed.

(** ** C42: several saves. With a ROI the dataset of the caller is untouched, so every save writes the same. *)
Theorem C42_save_again_with_roi_partial {A} (ds ds' saved : dmaps A) cfg r : sc_roi cfg = Some r -> save_dataset ds cfg = Some (saved, ds') ->
  ds' = ds /\ save_dataset ds' cfg = Some (saved, ds').
Proof.
  intros Er H. assert (E : ds' = ds).
  { unfold save_dataset in H. rewrite Er in H. destruct (remove_roi_margins ds cfg); [|discriminate]. cbn [bind] in H. congruence. }
  subst ds'. auto.
Qed.
(** Without ROI the transform of the caller is scaled in place: the second save is wrong as soon as there is a step. *)
Theorem C42_save_again_without_roi_refuted : exists (ds ds' saved : dmaps Z) cfg saved2 ds'' t t2,
  sc_roi cfg = None /\ save_dataset ds cfg = Some (saved, ds') /\ save_dataset ds' cfg = Some (saved2, ds'') /\
  dm_transform saved = Some t /\ dm_transform saved2 = Some t2 /\ ~ same_point (world t 1 0) (world t2 1 0).
Proof.
  exists (mkDmaps [0; 2] [0; 2] [[1; 1]; [1; 1]] [[1; 1]; [1; 1]] [[1; 1]; [1; 1]] (Some (mkAffine 1 0 0 0 1 0))).
  do 2 eexists. exists (mkSave None (Some (2, 2))). do 4 eexists.
  split; [reflexivity|]. split; [reflexivity|]. split; [reflexivity|]. split; [reflexivity|]. split; [reflexivity|].
  intros [H _]. vm_compute in H. discriminate.
Qed.

Print Assumptions C11_roi_margins.
Print Assumptions C11_margins_value.
Print Assumptions C11_matching_position_loaded.
Print Assumptions C11_total.
Print Assumptions C11_smallest_one_sided_refuted.
Print Assumptions C41_window_loaded_refuted.
Print Assumptions C41_window_loaded_partial.
Print Assumptions C12_crop_exact.
Print Assumptions C12_run_exact.
Print Assumptions C14_saved_maps_georeferenced.
Print Assumptions C42_save_again_with_roi_partial.
Print Assumptions C42_save_again_without_roi_refuted.
