(** C06, C07, C08, C13, C23, C24, C39: matching cost step and masking by disparity range. *)
From Coq Require Import ZArith List Lia Bool Arith.
From Verif Require Import Base.Ext Base.PyList Base.Arr Base.ZRange Model.DisparityModel Model.CommonModel
  Model.ImgShiftModel Model.MatchingCostModel Spec.MaskSpec Spec.ShiftSpec Spec.MatchingCostSpec Spec.WtaSpec
  Proofs.MaskProofs Proofs.ShiftProofs Proofs.MatchingCostProofs Proofs.MatchingCostTheorems.
Import ListNotations.
Open Scope Z_scope.

(** ** Concrete inputs *)
Definition arr_of (l : list (list Z)) : arr2 Z :=
  mkArr2 (length l) (length (hd [] l)) (fun r c => nth c (nth r l []) 0).

(** 2 x 3 images, subpix 2, margins (1, 0, 2, 1), different ranges for the pixels. *)
Definition ex_right : image Z := mkImage (arr_of [[10; 20; 30]; [40; 50; 60]]) (-9999) None.
Definition ex_mc : mc_input :=
  mkMC 0 2 0 3 (arr_of [[0; -1; 0]; [0; 0; 0]]) (arr_of [[1; 1; 0]; [0; 1; 0]])
    (arr_of [[-2; -2; -1]; [-1; -1; -1]]) (arr_of [[0; 0; 0]; [1; 0; 0]]) (-1, 1) (-2, 1)
    2 1 1 MeasureMin (Some (mkMargins 1 0 2 1)) None.
Definition ex_zoomed (k c : nat) : Z := nth k [0; 25 + Z.of_nat c; 0] 0.
Definition ex_cost (img : list (list Z)) (msk : list (list Z)) (r c i : nat) : ext :=
  Fin (nth c (nth r img []) 0 - Z.of_nat i).

Ltac grid_cases :=
  intros r c [Hr Hc]; simpl in Hr, Hc;
  destruct r as [|[|[|r]]]; try lia; destruct c as [|[|[|c]]]; try lia; simpl; lia.
Lemma ex_mc_wf : wf_mc ex_mc ex_right.
Proof.
  unfold wf_mc. simpl. repeat (split; [lia || reflexivity|]).
  split. { intros g [-> | [-> | [-> | ->]]]; split; reflexivity. }
  split.
  - split; [|split].
    + grid_cases.
    + exists 0%nat, 1%nat. split; [split; simpl; lia|reflexivity].
    + exists 0%nat, 0%nat. split; [split; simpl; lia|reflexivity].
  - split; [|split].
    + grid_cases.
    + exists 0%nat, 0%nat. split; [split; simpl; lia|reflexivity].
    + exists 1%nat, 0%nat. split; [split; simpl; lia|reflexivity].
Qed.

(** ** C06: the disparities asked by the user, and only them, are explored by the disparity step.
    Disparities are in units of 1/subpix: user range [g0, g1] is [g0 * subpix, g1 * subpix]. [user_col cv i]
    says that the index i is one of those over which C01 - C04 take the best cost. *)
Theorem C06_user_range_exact {px} (px_eqb : px -> px -> bool) pandora_cost zoomed m right cv :
  wf_mc m right -> compute_cost_volumes px_eqb pandora_cost zoomed m right = Some cv ->
  let s := Z.of_nat (mc_subpix m) in
  (forall i d, nth_error (cv_disp_col cv) i = Some d ->
     (user_col cv i <-> fst (mc_col_source m) * s <= d <= snd (mc_col_source m) * s)) /\
  (forall d, fst (mc_col_source m) * s <= d <= snd (mc_col_source m) * s ->
     exists i, user_col cv i /\ nth_error (cv_disp_col cv) i = Some d) /\
  (forall i d, nth_error (cv_disp_row cv) i = Some d ->
     (user_row cv i <-> fst (mc_row_source m) * s <= d <= snd (mc_row_source m) * s)) /\
  (forall d, fst (mc_row_source m) * s <= d <= snd (mc_row_source m) * s ->
     exists i, user_row cv i /\ nth_error (cv_disp_row cv) i = Some d).
Proof. intros wf H. exact (user_range_exact px_eqb pandora_cost zoomed m right wf cv H). Qed.

(** The coordinates left by the restriction of the disparity step are the user range, in order. *)
Theorem C06_user_coordinates_exact {px} (px_eqb : px -> px -> bool) pandora_cost zoomed m right cv :
  wf_mc m right -> compute_cost_volumes px_eqb pandora_cost zoomed m right = Some cv ->
  let s := Z.of_nat (mc_subpix m) in
  cv_disp_col (cost_volumes_user cv) = zarange (fst (mc_col_source m) * s) (snd (mc_col_source m) * s + 1) 1 /\
  cv_disp_row (cost_volumes_user cv) = zarange (fst (mc_row_source m) * s) (snd (mc_row_source m) * s + 1) 1.
Proof. intros wf H. exact (user_coords_exact px_eqb pandora_cost zoomed m right wf cv H). Qed.

Example C06_example : wf_mc ex_mc ex_right /\
  exists cv, compute_cost_volumes Z.eqb ex_cost ex_zoomed ex_mc ex_right = Some cv /\
    cv_disp_col cv = [-6; -5; -4; -3; -2; -1; 0; 1; 2; 3; 4; 5; 6] /\ cv_disp_row cv = [-2; -1; 0; 1; 2; 3; 4] /\
    cv_disp_col (cost_volumes_user cv) = [-4; -3; -2; -1; 0; 1; 2] /\ cv_disp_row (cost_volumes_user cv) = [-2; -1; 0; 1; 2].
Proof. split. apply ex_mc_wf. eexists. split; [vm_compute; reflexivity|]. repeat split. Qed.

(** ** C07: the disparities found for a pixel are in its own range. *)
Theorem C07_pixel_range_respected {px} (px_eqb : px -> px -> bool) pandora_cost zoomed m right chunk inv :
  wf_mc m right -> mc_step_row m = 1 -> mc_step_col m = 1 ->
  (* costs are never the worst infinity *)
  (forall img msk r c i, pandora_cost img msk r c i <> worst (mc_measure m)) ->
  let s := Z.of_nat (mc_subpix m) in
  exists cv mcol mrow score, compute_cost_volumes px_eqb pandora_cost zoomed m right = Some cv /\
    compute_disp_maps chunk inv cv = Some (mcol, mrow, score) /\
    forall r c, (r < mc_nrow m)%nat -> (c < mc_ncol m)%nat ->
      (nth2 mcol r c = Some inv /\ nth2 mrow r c = Some inv) \/
      (exists dc dr, nth2 mcol r c = Some (Fin dc) /\ nth2 mrow r c = Some (Fin dr) /\
         a2_get (mc_col_min m) r c * s <= dc <= a2_get (mc_col_max m) r c * s /\
         a2_get (mc_row_min m) r c * s <= dr <= a2_get (mc_row_max m) r c * s).
Proof. intros wf. exact (pixel_range_respected px_eqb pandora_cost zoomed m right wf chunk inv). Qed.
Example C07_example : wf_mc ex_mc ex_right /\ mc_step_row ex_mc = 1 /\ mc_step_col ex_mc = 1 /\
  (forall img msk r c i, ex_cost img msk r c i <> worst (mc_measure ex_mc)) /\
  exists cv, compute_cost_volumes Z.eqb ex_cost ex_zoomed ex_mc ex_right = Some cv /\
   compute_disp_maps 100 (Fin (-1)) cv =
     Some ([[Fin 0; Fin 0; Fin 0]; [Fin 2; Fin 0; Fin 0]],
           [[Fin 0; Fin (-2); Fin 0]; [Fin 0; Fin 1; Fin 0]],
           [[Fin 4; Fin (-10005); Fin 24]; [Fin 32; Fin (-10005); Fin 54]]).
Proof.
  split. apply ex_mc_wf. repeat (split; [reflexivity|]). split; [discriminate|].
  eexists. split; [vm_compute; reflexivity|]. vm_compute. reflexivity.
Qed.

(** ** C08: masking. [disp_row j] is the row disparity of index j, grids have the shape of the data. *)
Theorem C08_row_masking_exact {A} disp_row min_grid max_grid (v : A) global data :
  a2_n0 min_grid = a4_n0 data -> a2_n1 min_grid = a4_n1 data ->
  (forall r c, in2 min_grid r c -> global_contains global (a2_get min_grid r c) (a2_get max_grid r c)) ->
  exists data', set_out_of_row disp_row min_grid max_grid v global data = Some data' /\ same_shape4 data' data /\
    (forall r c i j, in4 data r c i j ->
      (out_of_pixel_range global (disp_row j) (a2_get min_grid r c) (a2_get max_grid r c) -> a4_get data' r c i j = v) /\
      (~ out_of_pixel_range global (disp_row j) (a2_get min_grid r c) (a2_get max_grid r c) ->
         a4_get data' r c i j = a4_get data r c i j)) /\
    (* again: nothing changes *)
    (exists data'', set_out_of_row disp_row min_grid max_grid v global data' = Some data'' /\ same_shape4 data'' data /\
       forall r c i j, in4 data r c i j -> a4_get data'' r c i j = a4_get data' r c i j).
Proof. exact (row_masking_exact disp_row min_grid max_grid v global data). Qed.
Theorem C08_col_masking_exact {A} disp_col min_grid max_grid (v : A) global data :
  a2_n0 min_grid = a4_n0 data -> a2_n1 min_grid = a4_n1 data ->
  (forall r c, in2 min_grid r c -> global_contains global (a2_get min_grid r c) (a2_get max_grid r c)) ->
  exists data', set_out_of_col disp_col min_grid max_grid v global data = Some data' /\ same_shape4 data' data /\
    (forall r c i j, in4 data r c i j ->
      (out_of_pixel_range global (disp_col i) (a2_get min_grid r c) (a2_get max_grid r c) -> a4_get data' r c i j = v) /\
      (~ out_of_pixel_range global (disp_col i) (a2_get min_grid r c) (a2_get max_grid r c) ->
         a4_get data' r c i j = a4_get data r c i j)) /\
    (exists data'', set_out_of_col disp_col min_grid max_grid v global data' = Some data'' /\ same_shape4 data'' data /\
       forall r c i j, in4 data r c i j -> a4_get data'' r c i j = a4_get data' r c i j).
Proof. exact (col_masking_exact disp_col min_grid max_grid v global data). Qed.
Example C08_example :
  let data := mkArr4 2 2 1 5 (fun r c i j => Z.of_nat (100 * r + 10 * c + j)) in
  let gmin := arr_of [[0; 1]; [-1; 0]] in
  let gmax := arr_of [[0; 2]; [2; 1]] in
  a2_n0 gmin = a4_n0 data /\ a2_n1 gmin = a4_n1 data /\
  (forall r c, in2 gmin r c -> global_contains (Some (-1, 2)) (a2_get gmin r c) (a2_get gmax r c)) /\
  (* row disparities -2 .. 2: -2 is in the margins, it is not touched *)
  option_map to_list4 (set_out_of_row (fun j => Z.of_nat j - 2) gmin gmax 7 (Some (-1, 2)) data) =
  Some [[[[0; 7; 2; 7; 7]]; [[10; 7; 7; 13; 14]]]; [[[100; 101; 102; 103; 104]]; [[110; 7; 112; 113; 7]]]].
Proof.
  repeat (split; [reflexivity|]). split; [|reflexivity]. simpl. unfold global_contains. grid_cases.
Qed.

(** Grids that have not the shape of the data (step different from 1): an error is raised as soon as a
    point to mask is outside of the data. *)
Theorem C08_row_masking_error {A} disp_row min_grid max_grid (v : A) global data :
  set_out_of_row disp_row min_grid max_grid v global data = None <->
  exists r c j, in2 min_grid r c /\ (j < a4_n3 data)%nat /\
    to_mask global (disp_row j) (a2_get min_grid r c) (a2_get max_grid r c) = true /\
    ~ ((r < a4_n0 data)%nat /\ (c < a4_n1 data)%nat).
Proof. exact (row_masking_total disp_row min_grid max_grid v global data). Qed.

(** ** C13: the rows (columns) computed with a ROI are all the rows of the loaded image that are at a multiple
    of the step of the first row (column) of the ROI. The image loaded by Pandora begins at
    max(0, first - margin). *)
Theorem C13_roi_rows_exact m roi left up rgt down : mc_roi m = Some roi -> roi_margins roi = (left, up, rgt, down) ->
  1 <= mc_step_row m -> 0 <= roi_row_first roi -> 0 <= up ->
  mc_row0 m = Z.max 0 (roi_row_first roi - up) ->
  (forall x, In x (row_coords m) <->
     mc_row0 m <= x < mc_row0 m + Z.of_nat (mc_nrow m) /\ (x - roi_row_first roi) mod mc_step_row m = 0) /\
  (roi_row_first roi < mc_row0 m + Z.of_nat (mc_nrow m) -> In (roi_row_first roi) (row_coords m)) /\
  (forall k x, nth_error (row_coords m) (S k) = Some x -> nth_error (row_coords m) k = Some (x - mc_step_row m)).
Proof.
  intros Hroi Hm Hs Hf Hu H0.
  assert (E : row_coords m = get_coordinates (Z.min up (roi_row_first roi)) (mc_row0 m) (mc_row0 m + Z.of_nat (mc_nrow m) - 1) (mc_step_row m)).
  { unfold row_coords. rewrite Hroi, Hm. reflexivity. }
  rewrite E. assert (A : forall x, In x (get_coordinates (Z.min up (roi_row_first roi)) (mc_row0 m) (mc_row0 m + Z.of_nat (mc_nrow m) - 1) (mc_step_row m)) <->
     mc_row0 m <= x < mc_row0 m + Z.of_nat (mc_nrow m) /\ (x - roi_row_first roi) mod mc_step_row m = 0)
    by (intros x; apply roi_coords_exact; auto).
  split; [exact A|]. split.
  - intros H. apply A. rewrite Z.sub_diag, Z.mod_0_l by lia. lia.
  - intros k x. apply get_coordinates_spaced. lia.
Qed.
Theorem C13_roi_cols_exact m roi left up rgt down : mc_roi m = Some roi -> roi_margins roi = (left, up, rgt, down) ->
  1 <= mc_step_col m -> 0 <= roi_col_first roi -> 0 <= left ->
  mc_col0 m = Z.max 0 (roi_col_first roi - left) ->
  (forall x, In x (col_coords m) <->
     mc_col0 m <= x < mc_col0 m + Z.of_nat (mc_ncol m) /\ (x - roi_col_first roi) mod mc_step_col m = 0) /\
  (roi_col_first roi < mc_col0 m + Z.of_nat (mc_ncol m) -> In (roi_col_first roi) (col_coords m)) /\
  (forall k x, nth_error (col_coords m) (S k) = Some x -> nth_error (col_coords m) k = Some (x - mc_step_col m)).
Proof.
  intros Hroi Hm Hs Hf Hu H0.
  assert (E : col_coords m = get_coordinates (Z.min left (roi_col_first roi)) (mc_col0 m) (mc_col0 m + Z.of_nat (mc_ncol m) - 1) (mc_step_col m)).
  { unfold col_coords. rewrite Hroi, Hm. reflexivity. }
  rewrite E. assert (A : forall x, In x (get_coordinates (Z.min left (roi_col_first roi)) (mc_col0 m) (mc_col0 m + Z.of_nat (mc_ncol m) - 1) (mc_step_col m)) <->
     mc_col0 m <= x < mc_col0 m + Z.of_nat (mc_ncol m) /\ (x - roi_col_first roi) mod mc_step_col m = 0)
    by (intros x; apply roi_coords_exact; auto).
  split; [exact A|]. split.
  - intros H. apply A. rewrite Z.sub_diag, Z.mod_0_l by lia. lia.
  - intros k x. apply get_coordinates_spaced. lia.
Qed.
(** ROI at row 2 and column 7, margins 5, step (3, 4): the up margin is truncated by the image. *)
Definition ex_roi_mc : mc_input :=
  mkMC 0 12 2 14 (arr_of []) (arr_of []) (arr_of []) (arr_of []) (0, 0) (0, 0) 1 3 4 MeasureMax None
    (Some (mkRoiCfg 7 2 (5, 5, 5, 5))).
Example C13_example : mc_row0 ex_roi_mc = Z.max 0 (2 - 5) /\ mc_col0 ex_roi_mc = Z.max 0 (7 - 5) /\
  row_coords ex_roi_mc = [2; 5; 8; 11] /\ col_coords ex_roi_mc = [3; 7; 11; 15].
Proof. repeat split. Qed.

(** ** C23: right image used for the row disparity d / subpix. *)
Theorem C23_row_shift {px} (px_eqb : px -> px -> bool) interp (img : image px) subpix d :
  (1 <= subpix)%nat -> (1 <= a2_n0 (im_data img))%nat ->
  exists imgs data msk, shift_subpix_img interp img subpix = Some imgs /\
    right_for_disp px_eqb imgs subpix d = Some (data, msk) /\
    a2_n0 data = a2_n0 (im_data img) /\ a2_n1 data = a2_n1 (im_data img) /\
    a2_n0 msk = a2_n0 (im_data img) /\ a2_n1 msk = a2_n1 (im_data img) /\
    forall r c, (r < a2_n0 (im_data img))%nat ->
      (* position in the right image, in units of 1/subpix *)
      let p := Z.of_nat r * Z.of_nat subpix + d in
      let last := (Z.of_nat (a2_n0 (im_data img)) - 1) * Z.of_nat subpix in
      (~ (0 <= p <= last) -> a2_get data r c = im_no_data img) /\
      (0 <= p <= last -> forall q, p = Z.of_nat q * Z.of_nat subpix -> a2_get data r c = a2_get (im_data img) q c) /\
      (0 <= p <= last -> (forall q, p <> Z.of_nat q * Z.of_nat subpix) -> a2_get data r c = interp (Z.to_nat p) c) /\
      (* mask: 1 = no data, 0 = valid *)
      a2_get msk r c = if px_eqb (a2_get data r c) (im_no_data img) then 1 else 0.
Proof.
  intros Hs Hn. destruct (shift_subpix_ok interp img subpix Hs Hn) as (imgs & E & _).
  destruct (right_for_disp_spec px_eqb interp img subpix Hs Hn imgs d E) as (data & msk & E' & N0 & N1 & N2 & N3 & HD & HM).
  exists imgs, data, msk. repeat (split; [assumption|]). intros r c Hr p last.
  rewrite HM, HD by auto. fold p. unfold right_value. fold last.
  destruct (Z.leb_spec 0 p), (Z.leb_spec p last); cbn [andb]; (split; [intros H'; auto; lia|]);
    (split; [intros H' q Hq; try lia|split; [intros H' Hq; try lia|reflexivity]]).
  - rewrite Hq, Z.mod_mul, Z.div_mul, Nat2Z.id by lia. reflexivity.
  - destruct (Z.eqb_spec (p mod Z.of_nat subpix) 0) as [Hz|]; auto. exfalso.
    apply Z.mod_divide in Hz; [|lia]. destruct Hz as [q Hz]. apply (Hq (Z.to_nat q)). rewrite Z2Nat.id; [exact Hz|]. nia.
Qed.
(** Three rows, subpix 4, disparity -1.25: row 0 and row 1 fall before the image, row 2 at 0.75. *)
Example C23_example :
  let img := mkImage (arr_of [[10]; [20]; [30]]) (-9999) None in
  option_map (fun imgs => option_map (fun p => (to_list2 (fst p), to_list2 (snd p))) (right_for_disp Z.eqb imgs 4 (-5)))
    (shift_subpix_img (fun k c => 1000 + Z.of_nat k) img 4) =
  Some (Some ([[-9999]; [-9999]; [1003]], [[1]; [1]; [0]])).
Proof. reflexivity. Qed.

(** ** C24: cost volumes, step [1, 1]. [disp] of index i, j: column disparity di, row disparity dj, in units of 1/subpix.
    The cost at (r, c, i, j) is the one given by the cost function for the right image moved by dj, for the row r, the column c
    and the column disparity i; it is NaN when di or dj are in the user range but not in the range of the pixel. *)
Theorem C24_cost_volumes_step1 {px} (px_eqb : px -> px -> bool) pandora_cost interp m right :
  wf_mc m right -> mc_step_row m = 1 -> mc_step_col m = 1 ->
  let s := Z.of_nat (mc_subpix m) in
  exists cv, compute_cost_volumes px_eqb pandora_cost interp m right = Some cv /\
    cv_nrow cv = mc_nrow m /\ cv_ncol cv = mc_ncol m /\ wf_cv cv /\
    forall r c i j di dj, (r < mc_nrow m)%nat -> (c < mc_ncol m)%nat ->
      nth_error (cv_disp_col cv) i = Some di -> nth_error (cv_disp_row cv) j = Some dj ->
      let masked := out_of_pixel_range (Some (fst (mc_row_source m) * s, snd (mc_row_source m) * s)) dj
                      (a2_get (mc_row_min m) r c * s) (a2_get (mc_row_max m) r c * s) \/
                    out_of_pixel_range (Some (fst (mc_col_source m) * s, snd (mc_col_source m) * s)) di
                      (a2_get (mc_col_min m) r c * s) (a2_get (mc_col_max m) r c * s) in
      (masked -> cost_at cv r c i j = Some NaN) /\
      (~ masked -> cost_at cv r c i j =
         Some (pandora_cost (to_list2 (right_moved interp right (mc_subpix m) dj))
                            (to_list2 (moved_mask px_eqb interp right (mc_subpix m) dj)) r c i)).
Proof.
  intros wf H1 H2 s. destruct (compute_cost_volumes_step1 px_eqb pandora_cost interp m right wf H1 H2) as
    (cv & E & F1 & F2 & _ & _ & _ & _ & _ & _ & _ & G).
  exists cv. split; [exact E|]. split; [exact F1|]. split; [exact F2|]. split.
  { exact (compute_wf_cv px_eqb pandora_cost interp m right wf cv E). }
  intros r c i j di dj Hr Hc Hi Hj. destruct (G r c i j di dj Hr Hc Hi Hj) as [G1 G2].
  unfold in_pixel_range in G1, G2. fold s in G1, G2. unfold out_of_pixel_range. split; intros M.
  - apply G2. lia.
  - apply G1. lia.
Qed.

(** Any step (and ROI), the same range for every pixel (disparities given by init and range). *)
Theorem C24_cost_volumes_constant_range {px} (px_eqb : px -> px -> bool) pandora_cost interp m right :
  wf_mc m right -> constant_ranges m ->
  exists cv, compute_cost_volumes px_eqb pandora_cost interp m right = Some cv /\
    cv_nrow cv = length (row_coords m) /\ cv_ncol cv = length (col_coords m) /\ wf_cv cv /\
    (forall x, In x (row_coords m) -> mc_row0 m <= x < mc_row0 m + Z.of_nat (mc_nrow m)) /\
    (forall x, In x (col_coords m) -> mc_col0 m <= x < mc_col0 m + Z.of_nat (mc_ncol m)) /\
    forall r c i j x di dj, nth_error (row_coords m) r = Some x -> (c < length (col_coords m))%nat ->
      nth_error (cv_disp_col cv) i = Some di -> nth_error (cv_disp_row cv) j = Some dj ->
      cost_at cv r c i j =
         Some (pandora_cost (to_list2 (right_moved interp right (mc_subpix m) dj))
                            (to_list2 (moved_mask px_eqb interp right (mc_subpix m) dj)) (Z.to_nat (x - mc_row0 m)) c i).
Proof.
  intros wf H. destruct (compute_cost_volumes_const px_eqb pandora_cost interp m right wf H) as
    (cv & E & F1 & F2 & _ & _ & _ & _ & _ & _ & _ & G).
  exists cv. split; [exact E|]. split; [exact F1|]. split; [exact F2|]. split.
  { exact (compute_wf_cv px_eqb pandora_cost interp m right wf cv E). }
  split. { exact (row_coords_in m right wf). }
  split; [|exact G]. intros x. destruct (col_coords_shape m right wf) as (st & -> & Hst & _).
  destruct wf as (_&_&_&_&Hsc&_). rewrite zarange_In by lia. lia.
Qed.
Definition ex_const_mc : mc_input :=
  mkMC 5 3 0 1 (arr_of [[0]; [0]; [0]]) (arr_of [[1]; [1]; [1]]) (arr_of [[-1]; [-1]; [-1]]) (arr_of [[-1]; [-1]; [-1]]) (0, 1) (-1, -1)
    1 2 1 MeasureMin None None.
Definition ex_const_right : image Z := mkImage (arr_of [[10]; [20]; [30]]) (-9999) None.
Example C24_example : wf_mc ex_mc ex_right /\ mc_step_row ex_mc = 1 /\ mc_step_col ex_mc = 1 /\
  wf_mc ex_const_mc ex_const_right /\ constant_ranges ex_const_mc /\ row_coords ex_const_mc = [5; 7] /\
  option_map cv_data (compute_cost_volumes Z.eqb ex_cost ex_zoomed ex_const_mc ex_const_right) =
    Some [[[[Fin 10; Fin 20]]]; [[[Fin 30; Fin (-9999)]]]].
Proof.
  split. apply ex_mc_wf. repeat (split; [reflexivity|]). split; [|split].
  - unfold wf_mc. simpl. repeat (split; [lia || reflexivity|]).
    split. { intros g [-> | [-> | [-> | ->]]]; split; reflexivity. }
    split; (split; [grid_cases|split; exists 0%nat, 0%nat; (split; [split; simpl; lia|reflexivity])]).
  - split; grid_cases.
  - split; reflexivity.
Qed.

(** C40 is false (grids that change with the pixel and a step): the masking uses the indices of the
    full resolution grids in the sub sampled volume. It fails, or it masks the wrong pixel. *)
Definition bad_mc (rmax : list (list Z)) : mc_input :=
  mkMC 0 3 0 1 (arr_of [[0]; [0]; [0]]) (arr_of rmax) (arr_of [[0]; [0]; [0]]) (arr_of [[0]; [0]; [0]]) (0, 1) (0, 0)
    1 2 1 MeasureMin None None.
Theorem C40_grids_with_step_refuted :
  (exists m right, wf_mc m right /\ compute_cost_volumes Z.eqb ex_cost ex_zoomed m right = None) /\
  (exists m right cv, wf_mc m right /\ compute_cost_volumes Z.eqb ex_cost ex_zoomed m right = Some cv /\
     (* the second row of the volume is the row 2 of the image, for which 1 is in the range *)
     nth_error (row_coords m) 1 = Some 2 /\ nth_error (cv_disp_row cv) 1 = Some 1 /\
     a2_get (mc_row_min m) 2 0 <= 1 <= a2_get (mc_row_max m) 2 0 /\
     a2_get (mc_col_min m) 2 0 <= 0 <= a2_get (mc_col_max m) 2 0 /\
     cost_at cv 1 0 0 1 = Some NaN /\
     (forall img msk r c i, ex_cost img msk r c i <> NaN)).
Proof.
  split.
  - exists (bad_mc [[1]; [1]; [0]]), ex_const_right. split; [|reflexivity].
    unfold wf_mc. simpl. repeat (split; [lia || reflexivity|]).
    split. { intros g [-> | [-> | [-> | ->]]]; split; reflexivity. }
    split; (split; [grid_cases|split; exists 0%nat, 0%nat; (split; [split; simpl; lia|reflexivity])]).
  - exists (bad_mc [[1]; [0]; [1]]), ex_const_right. eexists. split; [|split; [vm_compute; reflexivity|]].
    + unfold wf_mc. simpl. repeat (split; [lia || reflexivity|]).
      split. { intros g [-> | [-> | [-> | ->]]]; split; reflexivity. }
      split; (split; [grid_cases|split; exists 0%nat, 0%nat; (split; [split; simpl; lia|reflexivity])]).
    + repeat (split; [reflexivity || (simpl; lia)|]). discriminate.
Qed.

(** ** C39: the mask given by the user for the right image is not used by the matching. *)
Theorem C39_right_mask_used_refuted :
  exists (img : image Z) (mask : arr2 Z) imgs data msk, im_msk img = Some mask /\ a2_get mask 1 0 <> 0 /\
    shift_subpix_img ex_zoomed img 1 = Some imgs /\
    right_for_disp Z.eqb imgs 1 0 = Some (data, msk) /\ a2_get msk 1 0 = 0 /\ a2_get data 1 0 = a2_get (im_data img) 1 0.
Proof.
  exists (mkImage (arr_of [[10]; [20]; [30]]) (-9999) (Some (arr_of [[0]; [2]; [0]]))).
  eexists _, _, _, _. split; [reflexivity|]. split; [simpl; lia|]. repeat split.
Qed.
(** Partial: the pixels that have the no data value are marked, for every disparity. Missing: the other masked pixels. *)
Theorem C39_right_no_data_marked_partial {px} (px_eqb : px -> px -> bool) interp (img : image px) subpix d :
  (forall x y, px_eqb x y = true <-> x = y) ->
  (1 <= subpix)%nat -> (1 <= a2_n0 (im_data img))%nat ->
  exists imgs data msk, shift_subpix_img interp img subpix = Some imgs /\
    right_for_disp px_eqb imgs subpix (d * Z.of_nat subpix) = Some (data, msk) /\
    forall r c q, (r < a2_n0 (im_data img))%nat -> Z.of_nat q = Z.of_nat r + d -> (q < a2_n0 (im_data img))%nat ->
      (a2_get msk r c = 1 <-> a2_get (im_data img) q c = im_no_data img).
Proof.
  intros He Hs Hn. destruct (C23_row_shift px_eqb interp img subpix (d * Z.of_nat subpix) Hs Hn) as
    (imgs & data & msk & E & E' & _ & _ & _ & _ & H).
  exists imgs, data, msk. split; [exact E|]. split; [exact E'|]. intros r c q Hr Hq Hlt.
  destruct (H r c Hr) as (_ & H2 & _ & H4). rewrite H4. rewrite (H2 ltac:(nia) q ltac:(nia)).
  destruct (px_eqb (a2_get (im_data img) q c) (im_no_data img)) eqn:X.
  - apply He in X. tauto.
  - split; [discriminate|]. intros Y. apply He in Y. congruence.
Qed.
Example C39_example : (forall x y, Z.eqb x y = true <-> x = y) /\ (1 <= a2_n0 (im_data ex_right))%nat.
Proof. split. apply Z.eqb_eq. simpl. lia. Qed.

Print Assumptions C06_user_range_exact.
Print Assumptions C06_user_coordinates_exact.
Print Assumptions C07_pixel_range_respected.
Print Assumptions C08_row_masking_exact.
Print Assumptions C08_col_masking_exact.
Print Assumptions C08_row_masking_error.
Print Assumptions C13_roi_rows_exact.
Print Assumptions C13_roi_cols_exact.
Print Assumptions C23_row_shift.
Print Assumptions C24_cost_volumes_step1.
Print Assumptions C24_cost_volumes_constant_range.
Print Assumptions C40_grids_with_step_refuted.
Print Assumptions C39_right_mask_used_refuted.
Print Assumptions C39_right_no_data_marked_partial.
