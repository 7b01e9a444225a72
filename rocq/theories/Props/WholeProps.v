(** C72, C73, C74, C75, C76: the whole program, from the configuration of the user to the saved maps. *)
From Coq Require Import List String Bool ZArith QArith Lia.
From Verif Require Import Base.Ext Base.PyList Base.Arr Base.Json Base.Dict Model.CommonModel Model.DisparityModel Model.MatchingCostModel Model.DichotomyModel
  Model.RoiModel Model.InputModel Model.ConfigModel Model.DatasetModel Model.EstimationModel Model.OpticalFlowModel Model.InterpolationModel Model.MachineModel Model.CheckConfModel
  Model.PipelineModel Model.WholeModel Model.ImgShiftModel
  Spec.MatchingCostSpec Spec.DichotomySpec Spec.RoiSpec Spec.PipelineSpec Spec.ConfigSpec Spec.InputSpec Spec.MachineSpec Spec.CheckConfSpec Spec.AcceptSpec Spec.WholeSpec Spec.BestSpec
  Proofs.ConfigProofs Proofs.AcceptProofs Proofs.WholeProofs Proofs.WholeMainProofs Proofs.WholeAgainProofs Props.CheckConfProps.
Import ListNotations.
Open Scope Z_scope.
Open Scope string_scope.
Open Scope list_scope.

Section Program.
  (** The libraries: see WholeModel. *)
  Context {px : Type} (px_eqb : px -> px -> bool) (nan : px).
  Variable bool_ok : bool.
  Variable pandora_check : dict -> option (json * json * json).
  Variable matching_cost_margins : dict -> margins.
  Variable can_open_mandatory can_open : json -> bool.
  Variable images_ok : json -> json -> json -> json -> bool.
  Variable image_size : string -> nat * nat.
  Variable open_raster : string -> reader.
  Variable load : dict -> Z -> nat -> Z -> nat -> image px.
  Variable transform_of : dict -> option affine.
  Variable dataset_ok : image_dataset (image px) -> bool.
  Variable measure_of : dict -> measure.
  Variable offset_of : dict -> Z.
  Variable pandora_cost : dict -> mc_input -> image px -> list (list px) -> list (list Z) -> nat -> nat -> nat -> ext.
  Variable zoomed : image px -> nat -> nat -> nat -> px.
  Variable one : Z.
  Variable store : ext -> ext.
  Variable filter_apply : dict -> list (list ext) -> Z -> Z -> ext.
  Variable lstsq : list (list px) -> list (list px) -> option (num * num).
  Variable resample : list (list px) -> num -> num -> list (list px).
  Variable junk : nat -> list (list px).
  Variable interp : list Q -> list Q -> list (list cost) -> num -> num -> cost.
  Variable minimise : (num -> num -> cost) -> num * num -> (Q * Q) * (Q * Q) -> num * num.
  Variable estimate : json -> image px -> image px -> (Q * Q) * json * json.
  Variable global_margins : list (string * margins) -> list (string * margins) -> margins.
  Variable margins_to_dict : list (string * margins) -> list (string * margins) -> json.
  Notation main := (main px_eqb nan bool_ok pandora_check matching_cost_margins can_open_mandatory can_open images_ok image_size open_raster load transform_of dataset_ok
    measure_of offset_of pandora_cost zoomed one store filter_apply lstsq resample junk interp minimise estimate global_margins margins_to_dict).
  Notation check_user := (check_user px_eqb nan bool_ok pandora_check matching_cost_margins can_open_mandatory can_open images_ok image_size open_raster
    measure_of offset_of pandora_cost zoomed one store filter_apply lstsq resample junk interp minimise estimate).
  Notation accepted := (accepted bool_ok pandora_check can_open_mandatory can_open images_ok image_size open_raster).

  (** What is assumed of the libraries: Pandora completes configurations in a stable way, with a subpix of at least 1 (and the unit of the disparities is
      small enough for it); images are not empty; compatible images have the same size; the part of an image that is loaded has the size of the window and is
      accepted by Pandora; a cost that is computed is not infinite. *)
  Definition libraries : Prop :=
    pandora_contract pandora_check /\ (forall c w s o, pandora_check c = Some (w, s, o) -> exists n, int_value bool_ok s n /\ 1 <= n /\ (n | one)) /\
    (forall s, (0 < fst (image_size s))%nat /\ (0 < snd (image_size s))%nat) /\
    (forall a b x y, images_ok (JStr a) (JStr b) x y = true -> image_size b = image_size a) /\
    (forall s a n b k, (1 <= n)%nat -> (1 <= k)%nat -> a2_n0 (im_data (load s a n b k)) = n /\ a2_n1 (im_data (load s a n b k)) = k) /\
    (forall s a n b k shapes, dataset_ok (mkDataset shapes (load s a n b k)) = true) /\
    0 < one /\ (forall c m im a b r cc i, pandora_cost c m im a b r cc i <> worst (measure_of c)).
  (** With a dichotomy: float32 rounds to a float32; the unit is a fraction 1 / 512 k of a pixel; the subpix are powers of two; costs are float32. *)
  Definition dichotomy_libraries : Prop :=
    rounding store /\ (512 | one) /\
    (forall c w s o n, pandora_check c = Some (w, s, o) -> int_value bool_ok s n -> exists e, n = 2 ^ Z.of_nat e) /\
    (forall c m im a b r cc i, pandora_cost c m im a b r cc i = NaN \/ store (pandora_cost c m im a b r cc i) = pandora_cost c m im a b r cc i).
  (** A configuration that is accepted, what it asks for, the size of the image; the ROI begins inside the image. *)
  Definition asked (user : dict) (q : request) (rows cols : nat) : Prop :=
    wf (JDict user) /\ accepted user /\ asks bool_ok user q /\
    (exists left_path, get_path ["input"; "left"; "img"] (JDict user) = Some (JStr left_path) /\ image_size left_path = (rows, cols)) /\
    match q_zone q with Some z => z_r0 z < Z.of_nat rows /\ z_c0 z < Z.of_nat cols | None => True end.
  Definition steps_are (user : dict) (names : list string) : Prop := exists raw, lookup "pipeline" user = Some (JDict raw) /\ keys raw = names.

  (** * C72: the saved maps are what the user asked for *)
  (** Constant disparities, every step, no refinement. *)
  Theorem C72_main_constant user q rows cols a b : libraries -> asked user q rows cols -> steps_are user ["matching_cost"; "disparity"] ->
    constant (q_row_init q) a -> constant (q_col_init q) b ->
    exists out saved, main user = Some out /\ o_maps out = Some saved /\ saved_right open_raster one q rows cols saved.
  Proof.
    intros (L1 & L2 & L3 & L4 & L5 & L6 & L7 & L8) (W & A & Q & (p & G & S) & Z) (raw & Lp & K) Ca Cb. assert (Ho := Q). destruct Ho as (_ & _ & _ & _ & Ho).
    destruct (main_saved px_eqb nan bool_ok pandora_check matching_cost_margins can_open_mandatory can_open images_ok image_size open_raster load transform_of dataset_ok
      measure_of offset_of pandora_cost zoomed one store filter_apply lstsq resample junk interp minimise estimate global_margins margins_to_dict L1 L2 L3 L4 L5 L6 L7 L8 user q rows cols p W A Ho G S Z)
      with (e := false) (raw := raw) (r := false) as (cfg & l & rg & row0 & nrow & col0 & ncol & q' & out & saved & (-> & _) & H); auto; try discriminate.
    - intros _. split; [exact Q|]. intros s Hs. rewrite Hs in Ca. inversion Ca.
    - left. split; [reflexivity|]. right. eauto.
    - eauto.
  Qed.
  (** A step of 1, constant disparities or grids, with or without a dichotomy. With grids at least two rows and two columns are asked for (see C44). *)
  Theorem C72_main_step1 user q rows cols (refinement : bool) : libraries -> asked user q rows cols ->
    steps_are user (["matching_cost"; "disparity"] ++ (if refinement then ["refinement"] else [])) ->
    (refinement = true -> get_path ["pipeline"; "refinement"; "refinement_method"] (JDict user) = Some (JStr "dichotomy") /\ dichotomy_libraries) ->
    q_row_step q = 1 -> q_col_step q = 1 -> (forall s, q_row_init q = JStr s -> two_lines q rows cols) ->
    exists out saved, main user = Some out /\ o_maps out = Some saved /\ saved_right open_raster one q rows cols saved.
  Proof.
    intros (L1 & L2 & L3 & L4 & L5 & L6 & L7 & L8) (W & A & Q & (p & G & S) & Z) (raw & Lp & K) D S1 S2 T. assert (Ho := Q). destruct Ho as (_ & _ & _ & _ & Ho).
    destruct (main_saved px_eqb nan bool_ok pandora_check matching_cost_margins can_open_mandatory can_open images_ok image_size open_raster load transform_of dataset_ok
      measure_of offset_of pandora_cost zoomed one store filter_apply lstsq resample junk interp minimise estimate global_margins margins_to_dict L1 L2 L3 L4 L5 L6 L7 L8 user q rows cols p W A Ho G S Z)
      with (e := false) (raw := raw) (r := refinement) as (cfg & l & rg & row0 & nrow & col0 & ncol & q' & out & saved & (-> & _) & H); auto; try discriminate.
    eauto.
  Qed.

  (** * C73: run again *)
  (** The completed configuration gives the same results, whatever the pipeline. *)
  Theorem C73_completed user m cfg : pandora_contract pandora_check -> wf (JDict user) -> check_user user (new_machine None) = (m, Some cfg) -> main cfg = main user.
  Proof. intros HP Hw H. apply main_checked. rewrite H. now apply (C68_check_twice _ _ _ _ _ _ _ _ _ _ _ user). Qed.
  (** And so does the configuration that is saved with the maps, without ROI and without estimation. *)
  Theorem C73_saved_partial user out : pandora_contract pandora_check -> (forall a b, wf (margins_to_dict a b)) -> wf (JDict user) ->
    lookup "ROI" user = None -> get_path ["pipeline"; "estimation"] (JDict user) = None -> main user = Some out -> main (o_cfg out) = Some out.
  Proof. intros HP HM Hw HR HE H. now apply (main_again _ _ _ _ _ _ _ _ _ _ _ _ _ _ _ _ _ _ _ _ _ _ _ _ _ _ _ _ HP HM user). Qed.

  (** * C74: the saved maps are optimal *)
  (** Pandora's cost at a column disparity depends on the pixel and on the disparity, not on the way they are numbered. *)
  Definition cost_contract (pixel_cost : dict -> image px -> list (list px) -> list (list Z) -> nat -> nat -> Z -> ext) : Prop :=
    (forall c m im a b r cc i y ds d, nth_error (col_coords m) cc = Some y -> disps_col m = Some ds -> nth_error ds i = Some d ->
      pandora_cost c m im a b r cc i = pixel_cost c im a b r (Z.to_nat (y - mc_col0 m)) d) /\
    (forall c im a b r cc d, pixel_cost c im a b r cc d <> worst (measure_of c)).
  (** The images and the matching cost are those of the completed configuration; the cost of a pair is the one of the left image against the right image
      moved by the row disparity, at the column disparity, in the window that is loaded. *)
  Definition optimal_in pixel_cost (user : dict) (q : request) (row0 : Z) (nrow : nat) (col0 : Z) (ncol : nat) (saved : dmaps cost) : Prop :=
    exists m cfg left right step completed subpix,
      check_user user (new_machine None) = (m, Some cfg) /\
      get_path ["input"; "left"] (JDict cfg) = Some (JDict left) /\ get_path ["input"; "right"] (JDict cfg) = Some (JDict right) /\
      get_path ["pipeline"; "matching_cost"] (JDict cfg) = Some (JDict step) /\ matching_cost_init pandora_check step = Some completed /\
      int_at bool_ok ["subpix"] completed = Some subpix /\
      saved_best open_raster one subpix (measure_of completed) q
        (pair_cost px_eqb (pixel_cost completed (load left row0 nrow col0 ncol)) (zoomed (load right row0 nrow col0 ncol) (Z.to_nat subpix)) (load right row0 nrow col0 ncol)
           (Z.to_nat subpix) row0 col0) saved.
  (** The window contains all that the pixels asked for can be matched with. *)
  Definition optimal pixel_cost (user : dict) (q : request) (rows cols : nat) (saved : dmaps cost) : Prop :=
    exists row0 nrow col0 ncol, window_ok q rows cols row0 nrow col0 ncol /\ window_reaches open_raster q rows cols row0 nrow col0 ncol /\
      optimal_in pixel_cost user q row0 nrow col0 ncol saved.
  Theorem C74_optimal_constant pixel_cost user q rows cols a b : libraries -> cost_contract pixel_cost -> asked user q rows cols ->
    steps_are user ["matching_cost"; "disparity"] -> constant (q_row_init q) a -> constant (q_col_init q) b ->
    exists out saved, main user = Some out /\ o_maps out = Some saved /\ saved_right open_raster one q rows cols saved /\ optimal pixel_cost user q rows cols saved.
  Proof.
    intros (L1 & L2 & L3 & L4 & L5 & L6 & L7 & L8) (K1 & K2) (W & A & Q & (p & G & S) & Z) (raw & Lp & K) Ca Cb. assert (Ho := Q). destruct Ho as (_ & _ & _ & _ & Ho).
    destruct (main_best px_eqb nan bool_ok pandora_check matching_cost_margins can_open_mandatory can_open images_ok image_size open_raster load transform_of dataset_ok
      measure_of offset_of pandora_cost zoomed one store filter_apply lstsq resample junk interp minimise estimate global_margins margins_to_dict L1 L2 L3 L4 L5 L6 L7 L8 user q rows cols p W A Ho G S Z)
      with (e := false) (raw := raw) (r := false) (pixel_cost := pixel_cost) as (m & cfg & l & rg & x1 & c1 & sub & row0 & nrow & col0 & ncol & q' & out & saved & H); auto; try discriminate.
    - intros _. split; [exact Q|]. intros s Hs. rewrite Hs in Ca. inversion Ca.
    - left. split; [reflexivity|]. right. eauto.
    - destruct H as (H1 & H2 & H3 & H4 & H5 & H6 & H7 & (-> & H8) & H9 & H10 & H11 & H12). exists out, saved. do 3 (split; [assumption|]).
      exists row0, nrow, col0, ncol. do 2 (split; [assumption|]). exists m, cfg, l, rg, x1, c1, sub. auto 10.
  Qed.
  Theorem C74_optimal_step1 pixel_cost user q rows cols : libraries -> cost_contract pixel_cost -> asked user q rows cols ->
    steps_are user ["matching_cost"; "disparity"] -> q_row_step q = 1 -> q_col_step q = 1 -> (forall s, q_row_init q = JStr s -> two_lines q rows cols) ->
    exists out saved, main user = Some out /\ o_maps out = Some saved /\ saved_right open_raster one q rows cols saved /\ optimal pixel_cost user q rows cols saved.
  Proof.
    intros (L1 & L2 & L3 & L4 & L5 & L6 & L7 & L8) (K1 & K2) (W & A & Q & (p & G & S) & Z) (raw & Lp & K) S1 S2 T. assert (Ho := Q). destruct Ho as (_ & _ & _ & _ & Ho).
    destruct (main_best px_eqb nan bool_ok pandora_check matching_cost_margins can_open_mandatory can_open images_ok image_size open_raster load transform_of dataset_ok
      measure_of offset_of pandora_cost zoomed one store filter_apply lstsq resample junk interp minimise estimate global_margins margins_to_dict L1 L2 L3 L4 L5 L6 L7 L8 user q rows cols p W A Ho G S Z)
      with (e := false) (raw := raw) (r := false) (pixel_cost := pixel_cost) as (m & cfg & l & rg & x1 & c1 & sub & row0 & nrow & col0 & ncol & q' & out & saved & H); auto; try discriminate.
    destruct H as (H1 & H2 & H3 & H4 & H5 & H6 & H7 & (-> & H8) & H9 & H10 & H11 & H12). exists out, saved. do 3 (split; [assumption|]).
    exists row0, nrow, col0, ncol. do 2 (split; [assumption|]). exists m, cfg, l, rg, x1, c1, sub. auto 10.
  Qed.

  (** * C76: with an estimation *)
  (** A configuration without disparities that is accepted. *)
  Definition asked_estimation (user : dict) (q : request) (rows cols : nat) : Prop :=
    wf (JDict user) /\ accepted user /\ asks_others bool_ok user q /\ asks_estimation user q /\
    (exists left_path, get_path ["input"; "left"; "img"] (JDict user) = Some (JStr left_path) /\ image_size left_path = (rows, cols)) /\
    match q_zone q with Some z => z_r0 z < Z.of_nat rows /\ z_c0 z < Z.of_nat cols | None => True end.
  (** [q'] is the request with the disparities found by the estimation method, given its section of the completed configuration and the part of both images that
      is loaded: all that is at less than 9996 pixels of the pixels asked for. *)
  Definition estimated_request (user : dict) (q q' : request) (rows cols : nat) (row0 : Z) (nrow : nat) (col0 : Z) (ncol : nat) : Prop :=
    exists m cfg left right step shifts error phase init_row init_col,
      check_user user (new_machine None) = (m, Some cfg) /\
      get_path ["input"; "left"] (JDict cfg) = Some (JDict left) /\ get_path ["input"; "right"] (JDict cfg) = Some (JDict right) /\
      get_path ["pipeline"; "estimation"] (JDict cfg) = Some step /\
      window_ok q rows cols row0 nrow col0 ncol /\ window_around 9995 q rows cols row0 nrow col0 ncol /\
      estimate step (load left row0 nrow col0 ncol) (load right row0 nrow col0 ncol) = (shifts, error, phase) /\
      q' = with_disparities q init_row (q_row_range q) init_col (q_col_range q) /\ centred shifts q'.
  (** Every step, no refinement: the saved maps are optimal for the estimated disparities. *)
  Theorem C76_estimation pixel_cost user q rows cols : libraries -> cost_contract pixel_cost -> asked_estimation user q rows cols ->
    steps_are user ["estimation"; "matching_cost"; "disparity"] ->
    exists q' row0 nrow col0 ncol out saved, estimated_request user q q' rows cols row0 nrow col0 ncol /\ main user = Some out /\ o_maps out = Some saved /\
      saved_right open_raster one q' rows cols saved /\ optimal_in pixel_cost user q' row0 nrow col0 ncol saved.
  Proof.
    intros (L1 & L2 & L3 & L4 & L5 & L6 & L7 & L8) (K1 & K2) (W & A & Ho & Q & (p & G & S) & Z) (raw & Lp & K).
    destruct (main_best px_eqb nan bool_ok pandora_check matching_cost_margins can_open_mandatory can_open images_ok image_size open_raster load transform_of dataset_ok
      measure_of offset_of pandora_cost zoomed one store filter_apply lstsq resample junk interp minimise estimate global_margins margins_to_dict L1 L2 L3 L4 L5 L6 L7 L8 user q rows cols p W A Ho G S Z)
      with (e := true) (raw := raw) (r := false) (pixel_cost := pixel_cost) as (m & cfg & l & rg & x1 & c1 & sub & row0 & nrow & col0 & ncol & q' & out & saved & H); auto; try discriminate.
    destruct H as (H1 & H2 & H3 & H4 & H5 & H6 & H7 & H8 & H9 & H10 & H11 & H12). destruct H8 as (j & shifts & error & phase & ir & ic & E1 & E2 & E3 & E4 & E5).
    exists q', row0, nrow, col0, ncol, out, saved. split; [|split; [assumption|]; split; [assumption|]; split; [assumption|]].
    - exists m, cfg, l, rg, j, shifts, error, phase, ir, ic. auto 12.
    - exists m, cfg, l, rg, x1, c1, sub. auto 10.
  Qed.
  (** A step of 1 and a dichotomy. *)
  Theorem C76_estimation_dichotomy user q rows cols : libraries -> dichotomy_libraries -> asked_estimation user q rows cols ->
    steps_are user ["estimation"; "matching_cost"; "disparity"; "refinement"] ->
    get_path ["pipeline"; "refinement"; "refinement_method"] (JDict user) = Some (JStr "dichotomy") -> q_row_step q = 1 -> q_col_step q = 1 ->
    exists q' row0 nrow col0 ncol out saved, estimated_request user q q' rows cols row0 nrow col0 ncol /\ main user = Some out /\ o_maps out = Some saved /\
      saved_right open_raster one q' rows cols saved.
  Proof.
    intros (L1 & L2 & L3 & L4 & L5 & L6 & L7 & L8) D (W & A & Ho & Q & (p & G & S) & Z) (raw & Lp & K) M S1 S2.
    destruct (main_ran px_eqb nan bool_ok pandora_check matching_cost_margins can_open_mandatory can_open images_ok image_size open_raster load transform_of dataset_ok
      measure_of offset_of pandora_cost zoomed one store filter_apply lstsq resample junk interp minimise estimate global_margins margins_to_dict L1 L2 L3 L4 L5 L6 L7 L8 user q rows cols p W A Ho G S Z)
      with (e := true) (raw := raw) (r := true)
      as (m & cfg & l & rg & x1 & c1 & sub & row0 & nrow & col0 & ncol & q' & mi & cv & mcol & mrow & score & sc & tr & out & saved & after & H); auto; try discriminate.
    destruct H as (A1 & A2 & A3 & A4 & A5 & A6 & Fsub & Psub & Dsub & Wok & Hans & F1 & F2 & F3 & F4 & Fme & Wm & Hc2 & Hint & Ecv & Edm & R1 & R2 & R3 & Ld & Sto & Esave & _ & _ & _ & Em & Eo & Hok).
    destruct Hans as (j & shifts & error & phase & ir & ic & E1 & E2 & E3 & E4 & E5).
    exists q', row0, nrow, col0, ncol, out, saved. split; [|auto]. exists m, cfg, l, rg, j, shifts, error, phase, ir, ic. auto 12.
  Qed.
  (** Images of at most 9995 rows and columns are loaded entirely, even with a ROI. *)
  Theorem C76_whole_image user q q' rows cols row0 nrow col0 ncol : asked_estimation user q rows cols -> estimated_request user q q' rows cols row0 nrow col0 ncol ->
    (exists x y, wanted_row q (Z.of_nat rows) x /\ wanted_col q (Z.of_nat cols) y) ->
    Z.of_nat rows <= 9995 -> Z.of_nat cols <= 9995 -> row0 = 0 /\ nrow = rows /\ col0 = 0 /\ ncol = cols.
  Proof.
    intros _ (m & cfg & l & rg & j & sh & er & ph & ir & ic & _ & _ & _ & _ & Wok & (Ar & Ac) & _) (x & y & Hx & Hy) Br Bc.
    assert (0 <= x < Z.of_nat rows /\ 0 <= y < Z.of_nat cols) as [Ix Iy].
    { unfold wanted_row, wanted_col, wanted, window_ok in *. destruct (q_zone q); cbn in *; lia. }
    apply wanted_inside in Hx, Hy.
    pose proof (Ar x (- x) Hx) as A0. pose proof (Ar x (Z.of_nat rows - 1 - x) Hx) as A1. pose proof (Ac y (- y) Hy) as C0. pose proof (Ac y (Z.of_nat cols - 1 - y) Hy) as C1.
    unfold window_ok in Wok. destruct (q_zone q); lia.
  Qed.

  (** * C75: the saved configuration *)
  (** The configuration saved with the maps is the completed one; the margins are added, at its top and in its ROI, and nothing else changes. *)
  Theorem C75_saved_configuration user out : pandora_contract pandora_check -> wf (JDict user) -> get_path ["pipeline"; "estimation"] (JDict user) = None -> main user = Some out ->
    exists m cfg, check_user user (new_machine None) = (m, Some cfg) /\ lookup "margins" (o_cfg out) = Some (margins_to_dict (m_cumulative m) (m_non_cumulative m)) /\
      (forall k, k <> "margins" -> k <> "ROI" -> lookup k (o_cfg out) = lookup k cfg) /\
      (lookup "ROI" cfg = None /\ lookup "ROI" (o_cfg out) = None \/
       exists roi roi', lookup "ROI" cfg = Some (JDict roi) /\ lookup "ROI" (o_cfg out) = Some (JDict roi') /\ forall k, k <> "margins" -> lookup k roi' = lookup k roi).
  Proof. intros HP Hw HE H. exact (main_configuration _ _ _ _ _ _ _ _ _ _ _ _ _ _ _ _ _ _ _ _ _ _ _ _ _ _ _ _ HP user out Hw HE H). Qed.
  (** Every value written by the user in the sections input and ROI is saved as it was written (the string NaN as the number). *)
  Theorem C75_user_values user out path v : pandora_contract pandora_check -> wf (JDict user) -> get_path ["pipeline"; "estimation"] (JDict user) = None -> main user = Some out ->
    get_path path (JDict user) = Some v -> is_dict v = false -> (exists rest, path = "input" :: rest) \/ (exists k rest, path = "ROI" :: k :: rest /\ k <> "margins") ->
    get_path path (JDict (o_cfg out)) = Some (conv v).
  Proof.
    intros HP Hw HE H Hv Hd Hpath. destruct (C75_saved_configuration user out HP Hw HE H) as (m & cfg & Hc & _ & K & R). unfold check_user in Hc.
    destruct Hpath as [(rest & ->)|(k & rest & -> & Hk)].
    - pose proof (kept_input _ _ _ _ _ _ _ _ _ _ _ HP _ _ _ _ Hw Hc rest v Hv Hd) as X. cbn [get_path] in *. rewrite K by discriminate. exact X.
    - pose proof (kept_roi _ _ _ _ _ _ _ _ _ _ _ HP _ _ _ _ Hw Hc (k :: rest) v Hv Hd) as X. cbn [get_path] in *.
      destruct R as [(R1 & _)|(roi & roi' & R1 & R2 & R3)]; rewrite R1 in X; [discriminate|]. rewrite R2. now rewrite (R3 k Hk).
  Qed.
End Program.

(** * Examples *)
(** Images of 8 rows and 9 columns. The left image at row r and column c is the right one at row r + 1 and column c - 1. *)
Definition wh_texture (r c : Z) : Z := (31 * r * r + 17 * c + 5 * r * c * c) mod 97.
Definition wh_load (s : dict) (row0 : Z) (nrow : nat) (col0 : Z) (ncol : nat) : image Z :=
  let shift := match lookup "img" s with Some (JStr p) => p =? "left.tif" | _ => false end in
  mkImage (mkArr2 nrow ncol (fun r c => let x := row0 + Z.of_nat r in let y := col0 + Z.of_nat c in if shift then wh_texture (x + 1) (y - 1) else wh_texture x y)) (-9999) None.
(** Absolute differences of pixels, with integer disparities. *)
Definition wh_pixel (_ : dict) (left : image Z) (right : list (list Z)) (_ : list (list Z)) (r k : nat) (d : Z) : ext :=
  if Z.leb 0 (Z.of_nat k + d) then
    match nth2 (to_list2 (im_data left)) r k, nth2 right r (Z.to_nat (Z.of_nat k + d)) with
    | Some a, Some b => if Z.eqb b (-9999) then NaN else Fin (Z.abs (a - b))
    | _, _ => NaN end
  else NaN.
Definition wh_cost (c : dict) (m : mc_input) (left : image Z) (right mask : list (list Z)) (r cc i : nat) : ext :=
  match nth_error (col_coords m) cc, disps_col m with
  | Some y, Some ds => match nth_error ds i with Some d => wh_pixel c left right mask r (Z.to_nat (y - mc_col0 m)) d | None => NaN end
  | _, _ => NaN end.
Lemma wh_not_worst c im a b r cc d : wh_pixel c im a b r cc d <> worst MeasureMin.
Proof.
  unfold wh_pixel. cbn [worst]. destruct (Z.leb _ _); [|discriminate]. destruct (nth2 _ r _); [|discriminate]. destruct (nth2 a r _); [|discriminate]. destruct (Z.eqb _ _); discriminate.
Qed.
(** Pandora with a subpix of 1, 2 or 4. *)
Definition wh_pandora (c : dict) : option (json * json * json) :=
  match pandora_default c with Some (w, JInt s, o) => if Z.eqb s 1 || Z.eqb s 2 || Z.eqb s 4 then Some (w, JInt s, o) else None | _ => None end.
(** The grids: 1 in the rows 3 and more, 0 before; 0 or -1 for the columns. *)
Definition wh_raster (s : string) : reader :=
  mkReader 1 (mkArr2 8 9 (if s =? "rows.tif" then fun r _ => if (r <? 3)%nat then 0 else 1 else fun _ c => if (c <? 4)%nat then -1 else 0)).
Definition wh_size (_ : string) : nat * nat := (8, 9)%nat.
Definition wh_margins (a b : list (string * margins)) : margins := mkMargins 1 1 1 1.
Definition wh_dict (a b : list (string * margins)) : json := JDict [("cumulative margins", JInt (Z.of_nat (List.length a))); ("global margins", JList [JInt 1; JInt 1; JInt 1; JInt 1])].
(** A filter: the value of the middle of the window. *)
Definition wh_filter (_ : dict) (w : list (list ext)) (_ _ : Z) : ext := match nth2 w 1 1 with Some x => x | None => NaN end.
Definition wh_main : dict -> option outcome :=
  main Z.eqb 0 true wh_pandora (fun _ => mkMargins 2 2 2 2) (fun _ => true) (fun _ => true) (fun _ _ _ _ => true) wh_size wh_raster wh_load (fun _ => None) (fun _ => true)
    (fun _ => MeasureMin) (fun _ => 0) wh_cost (fun _ _ _ _ => 0) 512 (fun x => x) wh_filter (fun _ _ => None) (fun w _ _ => w) (fun _ => []) (fun _ _ _ _ _ => CNan) (fun _ p _ => p)
    (fun _ _ _ => ((0, 0)%Q, JNull, JNull)) wh_margins wh_dict.
Definition wh_user (step : list json) (row col : json) (roi : dict) (more : dict) : dict :=
  [("input", JDict [("left", JDict [("img", JStr "left.tif")]); ("right", JDict [("img", JStr "right.tif")]); ("row_disparity", row); ("col_disparity", col)])] ++ roi ++
  [("pipeline", JDict ([("matching_cost", JDict [("matching_cost_method", JStr "sad"); ("window_size", JInt 1); ("step", JList step)]);
                        ("disparity", JDict [("disparity_method", JStr "wta"); ("invalid_disparity", JStr "NaN")])] ++ more))].
Definition wh_disp (init : json) (range : Z) : json := JDict [("init", init); ("range", JInt range)].
Definition wh_roi : dict := [("ROI", JDict [("row", JDict [("first", JInt 1); ("last", JInt 6)]); ("col", JDict [("first", JInt 2); ("last", JInt 7)])])].
Definition wh_dichotomy : dict := [("refinement", JDict [("refinement_method", JStr "dichotomy"); ("iterations", JInt 2); ("filter", JDict [("method", JStr "bicubic")])])].
Definition wh_user1 : dict := wh_user [JInt 2; JInt 3] (wh_disp (JInt 0) 2) (wh_disp (JInt (-1)) 1) wh_roi [].
Definition wh_request1 : request := mkRequest (JInt 0) 2 (JInt (-1)) 1 2 3 (Some (mkZone 1 6 2 7)) JNan.
Definition wh_user2 : dict := wh_user [JInt 1; JInt 1] (wh_disp (JStr "rows.tif") 1) (wh_disp (JStr "cols.tif") 1) [] wh_dichotomy.
Definition wh_request2 : request := mkRequest (JStr "rows.tif") 1 (JStr "cols.tif") 1 1 1 None JNan.
(** The same grids with a step of 2. *)
Definition wh_user3 : dict := wh_user [JInt 2; JInt 1] (wh_disp (JStr "rows.tif") 1) (wh_disp (JStr "cols.tif") 1) [] [].
Definition wh_request3 : request := mkRequest (JStr "rows.tif") 1 (JStr "cols.tif") 1 2 1 None JNan.
(** The same grids with a step of 1, without refinement. *)
Definition wh_user4 : dict := wh_user [JInt 1; JInt 1] (wh_disp (JStr "rows.tif") 1) (wh_disp (JStr "cols.tif") 1) [] [].
Definition wh_request4 : request := mkRequest (JStr "rows.tif") 1 (JStr "cols.tif") 1 1 1 None JNan.
Notation wh_accepted := (accepted true wh_pandora (fun _ => true) (fun _ => true) (fun _ _ _ _ => true) wh_size wh_raster).
Notation wh_asked := (asked true wh_pandora (fun _ => true) (fun _ => true) (fun _ _ _ _ => true) wh_size wh_raster).
Ltac wh_wf := unfold wh_user1, wh_user2, wh_user3, wh_user4, wh_user, wh_roi, wh_dichotomy, wh_disp; cbn [app]; solve_wf.

Lemma wh_pandora_contract : pandora_contract wh_pandora.
Proof.
  intros c w s o H. unfold wh_pandora in H. destruct (pandora_default c) as [[[w' s'] o']|] eqn:E; [|discriminate]. destruct s' as [| |s'| | | | | |]; try discriminate.
  destruct (Z.eqb s' 1 || Z.eqb s' 2 || Z.eqb s' 4) eqn:B; [|discriminate]. injection H as <- <- <-. destruct (pandora_default_contract _ _ _ _ E) as (I1 & I2 & I3 & G).
  split; [exact I1|]. split; [exact I2|]. split; [exact I3|]. intros c' Hc. unfold wh_pandora. rewrite (G c' Hc), B. reflexivity.
Qed.
Lemma wh_subpix c w s o : wh_pandora c = Some (w, s, o) -> s = JInt 1 \/ s = JInt 2 \/ s = JInt 4.
Proof.
  unfold wh_pandora. destruct (pandora_default c) as [[[w' s'] o']|]; [|discriminate]. destruct s' as [| |s'| | | | | |]; try discriminate.
  destruct (Z.eqb_spec s' 1) as [->|_]; [intros H; injection H as <- <- <-; auto|]. destruct (Z.eqb_spec s' 2) as [->|_]; [intros H; injection H as <- <- <-; auto|].
  destruct (Z.eqb_spec s' 4) as [->|_]; [intros H; injection H as <- <- <-; auto | discriminate].
Qed.
Lemma wh_libraries : libraries true wh_pandora (fun _ _ _ _ => true) wh_size wh_load (fun _ => true) (fun _ => MeasureMin) wh_cost 512.
Proof.
  split; [exact wh_pandora_contract|]. split.
  { intros c w s o H. destruct (wh_subpix _ _ _ _ H) as [-> | [-> | ->]]; [exists 1 | exists 2 | exists 4]; (split; [constructor|]); (split; [lia|]); [exists 512 | exists 256 | exists 128]; reflexivity. }
  split; [intros s; cbn; lia|]. split; [reflexivity|]. split; [split; reflexivity|]. split; [reflexivity|]. split; [lia|].
  intros c m im a b r cc i. unfold wh_cost. destruct (nth_error (col_coords m) cc); [|discriminate]. destruct (disps_col m); [|discriminate]. destruct (nth_error l i); [|discriminate]. apply wh_not_worst.
Qed.
Lemma wh_dichotomy_libraries : dichotomy_libraries true wh_pandora wh_cost 512 (fun x => x).
Proof.
  split; [split; intros; auto|]. split; [exists 1; reflexivity|]. split.
  - intros c w s o n H In_. assert (X : forall z, int_value true (JInt z) n -> n = z) by (intros z Hz; now inversion Hz).
    destruct (wh_subpix _ _ _ _ H) as [-> | [-> | ->]]; apply X in In_; subst n; [exists 0%nat | exists 1%nat | exists 2%nat]; reflexivity.
  - intros. right. reflexivity.
Qed.
Lemma wh_accepts user : wf (JDict user) -> (exists out, wh_main user = Some out) -> wh_accepted user.
Proof.
  intros Hw (out & H). unfold wh_main, main, process in H.
  match type of H with context [let '(m, checked) := ?X in _] => destruct X as [m [cfg|]] eqn:E end; [|discriminate].
  unfold check_user in E. refine (proj1 (check_conf_accepts _ _ wh_pandora_contract _ _ _ _ _ _ _ _ (fun s => _) _ user _ Hw) (ex_intro _ m (ex_intro _ cfg E))). cbn. lia.
Qed.
(** The check alone, for the configurations whose run fails. *)
Definition wh_check (user : dict) := check_user Z.eqb 0 true wh_pandora (fun _ => mkMargins 2 2 2 2) (fun _ => true) (fun _ => true) (fun _ _ _ _ => true) wh_size wh_raster
    (fun _ => MeasureMin) (fun _ => 0) wh_cost (fun _ _ _ _ => 0) 512 (fun x => x) wh_filter (fun _ _ => None) (fun w _ _ => w) (fun _ => []) (fun _ _ _ _ _ => CNan) (fun _ p _ => p)
    (fun _ _ _ => ((0, 0)%Q, JNull, JNull)) user (new_machine None).
Lemma wh_checked user : wf (JDict user) -> snd (wh_check user) <> None -> wh_accepted user.
Proof.
  intros Hw H. destruct (wh_check user) as [m [cfg|]] eqn:E; [|now elim H]. unfold wh_check, check_user in E.
  refine (proj1 (check_conf_accepts _ _ wh_pandora_contract _ _ _ _ _ _ _ _ (fun s => _) _ user _ Hw) (ex_intro _ m (ex_intro _ cfg E))). cbn. lia.
Qed.
Ltac wh_leaf := eexists; (split; [reflexivity|]); first [split; [reflexivity|]; first [apply reads_nan | apply reads_same; discriminate] | apply int_int].
Ltac wh_asked_tac := split; [wh_wf|]; split; [apply wh_checked; [wh_wf | vm_compute; discriminate]|];
  split; [|split; [exists "left.tif"; split; reflexivity | try (cbn; lia); exact I]];
  split; [wh_leaf|]; split; [wh_leaf|]; split; [wh_leaf|]; split; [wh_leaf|];
  split; [right; do 2 eexists; split; [reflexivity|]; split; apply int_int|];
  split; [first [reflexivity | split; [wh_leaf|]; split; [wh_leaf|]; split; wh_leaf] | right; wh_leaf].
Lemma wh_asked1 : wh_asked wh_user1 wh_request1 8 9.
Proof. wh_asked_tac. Qed.
Lemma wh_asked2 : wh_asked wh_user2 wh_request2 8 9.
Proof. wh_asked_tac. Qed.
Lemma wh_asked3 : wh_asked wh_user3 wh_request3 8 9.
Proof. wh_asked_tac. Qed.

(** The saved maps: rows, columns, row disparities, column disparities. *)
Definition wh_number (c : cost) : option Q := match c with CFin q => Some (Qred q) | _ => None end.
Definition wh_shown (o : option outcome) :=
  option_map (fun o => option_map (fun d => (dm_rows d, dm_cols d, map (map wh_number) (dm_row_map d), map (map wh_number) (dm_col_map d))) (o_maps o)) o.
(** Constants, steps of 2 and 3, ROI: the disparities are found, but at a pixel that looks like another one. *)
Example C72_example_constant : libraries true wh_pandora (fun _ _ _ _ => true) wh_size wh_load (fun _ => true) (fun _ => MeasureMin) wh_cost 512 /\
  wh_asked wh_user1 wh_request1 8 9 /\ steps_are wh_user1 ["matching_cost"; "disparity"] /\ constant (q_row_init wh_request1) 0 /\ constant (q_col_init wh_request1) (-1) /\
  wh_shown (wh_main wh_user1) = Some (Some ([1; 3; 5], [2; 5],
    [[Some 1%Q; Some 1%Q]; [Some 1%Q; Some 1%Q]; [Some 0%Q; Some 1%Q]], [[Some (-1)%Q; Some (-1)%Q]; [Some (-1)%Q; Some (-1)%Q]; [Some (-2)%Q; Some (-1)%Q]])).
Proof.
  split; [exact wh_libraries|]. split; [exact wh_asked1|]. split; [eexists; split; reflexivity|]. split; [constructor|]. split; [constructor|]. vm_compute. reflexivity.
Qed.
(** Grids and a dichotomy. *)
Example C72_example_step1 : wh_asked wh_user2 wh_request2 8 9 /\ steps_are wh_user2 ["matching_cost"; "disparity"; "refinement"] /\
  get_path ["pipeline"; "refinement"; "refinement_method"] (JDict wh_user2) = Some (JStr "dichotomy") /\ dichotomy_libraries true wh_pandora wh_cost 512 (fun x => x) /\
  two_lines wh_request2 8 9 /\
  (exists rows cols row_map col_map, wh_shown (wh_main wh_user2) = Some (Some (rows, cols, row_map, col_map)) /\
    nth 5 row_map [] = map (fun z => Some (inject_Z z)) [2; 1; 0; 1; 0; 1; 1; 1; 0] /\ nth 5 col_map [] = map (fun z => Some (inject_Z z)) [0; -1; -2; -1; -1; -1; -1; -1; -1]).
Proof.
  split; [exact wh_asked2|]. split; [eexists; split; reflexivity|]. split; [reflexivity|]. split; [exact wh_dichotomy_libraries|]. split; [cbn; lia|].
  do 4 eexists. split; [vm_compute; reflexivity|]. vm_compute. auto.
Qed.
(** With grids and a step the program stops with an error (see C40): a configuration that is accepted gives no result. *)
Theorem C72_grids_with_step_refuted : exists user q, wh_asked user q 8 9 /\ steps_are user ["matching_cost"; "disparity"] /\ two_lines q 8 9 /\ wh_main user = None.
Proof. exists wh_user3, wh_request3. split; [exact wh_asked3|]. split; [eexists; split; reflexivity|]. split; [cbn; lia|]. vm_compute. reflexivity. Qed.

Lemma wh_dict_wf a b : wf (wh_dict a b).
Proof. unfold wh_dict. solve_wf. Qed.
(** The second configuration meets the hypotheses of C73_saved_partial. *)
Example C73_example : wf (JDict wh_user2) /\ lookup "ROI" wh_user2 = None /\ get_path ["pipeline"; "estimation"] (JDict wh_user2) = None /\
  (exists out, wh_main wh_user2 = Some out /\ o_cfg out <> wh_user2 /\ lookup "margins" (o_cfg out) <> None) /\
  (exists m cfg, wh_check wh_user2 = (m, Some cfg) /\ cfg <> wh_user2).
Proof.
  split; [wh_wf|]. split; [reflexivity|]. split; [reflexivity|]. split.
  - eexists. split; [vm_compute; reflexivity|]. split; vm_compute; discriminate.
  - do 2 eexists. split; [vm_compute; reflexivity|]. vm_compute. discriminate.
Qed.
(** With a ROI the saved configuration gives no result. *)
Theorem C73_saved_roi_refuted : exists user out, wf (JDict user) /\ wh_main user = Some out /\ wh_main (o_cfg out) = None.
Proof. exists wh_user1. eexists. split; [wh_wf|]. split; [vm_compute; reflexivity|]. vm_compute. reflexivity. Qed.

(** The cost of the examples follows the contract; the scores of the first example; grids without refinement. *)
Definition wh_score (o : option outcome) := option_map (fun o => option_map (fun d => map (map wh_number) (dm_score d)) (o_maps o)) o.
Example C74_example : cost_contract (fun _ => MeasureMin) wh_cost wh_pixel /\ wh_asked wh_user1 wh_request1 8 9 /\
  wh_score (wh_main wh_user1) = Some (Some (map (map (fun z => Some (inject_Z z))) [[0; 0]; [0; 0]; [0; 0]])) /\
  wh_asked wh_user4 wh_request4 8 9 /\ steps_are wh_user4 ["matching_cost"; "disparity"] /\ two_lines wh_request4 8 9 /\
  option_map (option_map (map (@List.length _))) (wh_score (wh_main wh_user4)) = Some (Some [9; 9; 9; 9; 9; 9; 9; 9]%nat).
Proof.
  split.
  { split; [|intros; apply wh_not_worst]. intros c m im a b r cc i y ds d H1 H2 H3. unfold wh_cost. now rewrite H1, H2, H3. }
  split; [exact wh_asked1|]. split; [vm_compute; reflexivity|]. split; [wh_asked_tac|]. split; [eexists; split; reflexivity|]. split; [cbn; lia|]. vm_compute. reflexivity.
Qed.

(** A configuration with a ROI: the section is saved with its margins. *)
Example C75_example : wf (JDict wh_user1) /\ get_path ["pipeline"; "estimation"] (JDict wh_user1) = None /\
  (exists out, wh_main wh_user1 = Some out /\ get_path ["ROI"; "margins"] (JDict (o_cfg out)) <> None /\
    get_path ["ROI"; "col"; "first"] (JDict (o_cfg out)) = get_path ["ROI"; "col"; "first"] (JDict wh_user1)) /\
  get_path ["ROI"; "col"; "first"] (JDict wh_user1) = Some (JInt 2).
Proof.
  split; [wh_wf|]. split; [reflexivity|]. split; [|reflexivity]. eexists. split; [vm_compute; reflexivity|]. split; [vm_compute; discriminate|]. vm_compute. reflexivity.
Qed.

(** An estimation of 6/5 of a row and -1 column, a ROI, steps of 2 and 3; the same with a dichotomy and a step of 1. The disparities searched are in 1 +- 3 and -1 +- 5. *)
Definition wh_main_estimation : dict -> option outcome :=
  main Z.eqb 0 true wh_pandora (fun _ => mkMargins 2 2 2 2) (fun _ => true) (fun _ => true) (fun _ _ _ _ => true) wh_size wh_raster wh_load (fun _ => None) (fun _ => true)
    (fun _ => MeasureMin) (fun _ => 0) wh_cost (fun _ _ _ _ => 0) 512 (fun x => x) wh_filter (fun _ _ => None) (fun w _ _ => w) (fun _ => []) (fun _ _ _ _ _ => CNan) (fun _ p _ => p)
    (fun _ l _ => ((- (6 # 5), inject_Z (Z.of_nat (a2_n0 (im_data l)) - 7))%Q, JNull, JNull)) wh_margins wh_dict.
Definition wh_user_estimation (step : list json) (more : dict) : dict :=
  [("input", JDict [("left", JDict [("img", JStr "left.tif")]); ("right", JDict [("img", JStr "right.tif")])])] ++ wh_roi ++
  [("pipeline", JDict ([("estimation", JDict [("estimation_method", JStr "phase_cross_correlation"); ("range_row", JInt 3)]);
                        ("matching_cost", JDict [("matching_cost_method", JStr "sad"); ("window_size", JInt 1); ("step", JList step)]);
                        ("disparity", JDict [("disparity_method", JStr "wta"); ("invalid_disparity", JStr "NaN")])] ++ more))].
Definition wh_user5 : dict := wh_user_estimation [JInt 2; JInt 3] [].
Definition wh_user6 : dict := wh_user_estimation [JInt 1; JInt 1] wh_dichotomy.
Definition wh_request5 (row col : Z) : request := mkRequest JNull 3 JNull 5 row col (Some (mkZone 1 6 2 7)) JNan.
Ltac wh_asked_estimation_tac := split; [unfold wh_user5, wh_user6, wh_user_estimation, wh_roi, wh_dichotomy; cbn [app]; solve_wf|];
  split; [apply wh_checked; [unfold wh_user5, wh_user6, wh_user_estimation, wh_roi, wh_dichotomy; cbn [app]; solve_wf | vm_compute; discriminate]|];
  split; [split; [right; do 2 eexists; split; [reflexivity|]; split; apply int_int|]; split; [split; [wh_leaf|]; split; [wh_leaf|]; split; wh_leaf|]; right; wh_leaf|];
  split; [split; [reflexivity|]; split; [reflexivity|]; split; [right; reflexivity | left; split; reflexivity]|];
  split; [exists "left.tif"; split; reflexivity | cbn; lia].
Notation wh_asked_estimation := (asked_estimation true wh_pandora (fun _ => true) (fun _ => true) (fun _ _ _ _ => true) wh_size wh_raster).
Example C76_example : wh_asked_estimation wh_user5 (wh_request5 2 3) 8 9 /\ steps_are wh_user5 ["estimation"; "matching_cost"; "disparity"] /\
  wh_asked_estimation wh_user6 (wh_request5 1 1) 8 9 /\ steps_are wh_user6 ["estimation"; "matching_cost"; "disparity"; "refinement"] /\
  get_path ["pipeline"; "refinement"; "refinement_method"] (JDict wh_user6) = Some (JStr "dichotomy") /\
  wh_shown (wh_main_estimation wh_user5) = Some (Some ([1; 3; 5], [2; 5],
    [[Some 1%Q; Some 1%Q]; [Some 0%Q; Some 1%Q]; [Some 0%Q; Some 1%Q]], [[Some (-1)%Q; Some (-1)%Q]; [Some (-1)%Q; Some (-5)%Q]; [Some (-2)%Q; Some (-1)%Q]])).
Proof.
  split; [wh_asked_estimation_tac|]. split; [eexists; split; reflexivity|]. split; [wh_asked_estimation_tac|]. split; [eexists; split; reflexivity|]. split; [reflexivity|].
  vm_compute. reflexivity.
Qed.

Print Assumptions C72_main_constant.
Print Assumptions C72_main_step1.
Print Assumptions C72_grids_with_step_refuted.
Print Assumptions C73_completed.
Print Assumptions C73_saved_partial.
Print Assumptions C73_saved_roi_refuted.
Print Assumptions C74_optimal_constant.
Print Assumptions C74_optimal_step1.
Print Assumptions C75_saved_configuration.
Print Assumptions C75_user_values.
Print Assumptions C76_estimation.
Print Assumptions C76_estimation_dichotomy.
Print Assumptions C76_whole_image.
