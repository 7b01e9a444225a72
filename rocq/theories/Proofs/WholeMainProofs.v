(** Proofs about the whole program: pandora2d.main. *)
From Coq Require Import List String Bool ZArith QArith Qround Lia.
From Verif Require Import Base.Ext Base.PyList Base.Arr Base.Json Base.Dict Model.CommonModel Model.DisparityModel Model.MatchingCostModel Model.DichotomyModel
  Model.RoiModel Model.InputModel Model.ConfigModel Model.DatasetModel Model.EstimationModel Model.OpticalFlowModel Model.InterpolationModel Model.MachineModel Model.CheckConfModel
  Model.PipelineModel Model.WholeModel Model.ImgShiftModel
  Spec.MatchingCostSpec Spec.DichotomySpec Spec.RoiSpec Spec.PipelineSpec Spec.ConfigSpec Spec.InputSpec Spec.MachineSpec Spec.CheckConfSpec Spec.AcceptSpec Spec.WholeSpec Spec.WtaSpec Spec.BestSpec Spec.EstimationSpec
  Proofs.ConfigProofs Proofs.ConfigStepProofs Proofs.MergeProofs Proofs.CheckConfProofs Proofs.AcceptProofs Proofs.InputProofs Proofs.WtaProofs Proofs.MatchingCostProofs
  Proofs.PipelineProofs Proofs.EstimationProofs Proofs.BestProofs Proofs.WholeProofs Proofs.WholeRunProofs Props.DichotomyProps Props.PipelineProps.
Import ListNotations.
Open Scope Z_scope.
Open Scope string_scope.
Open Scope list_scope.

(** * Numbers *)
Lemma units_quotient one z : 0 < one -> (inject_Z (z * one) / inject_Z one == inject_Z z)%Q.
Proof. intros H. rewrite inject_Z_mult. field. intros E. unfold Qeq in E. cbn in E. lia. Qed.
Lemma units_interval one a b d : 0 < one -> a * one <= d <= b * one -> (inject_Z a <= inject_Z d / inject_Z one <= inject_Z b)%Q.
Proof.
  intros H [H1 H2]. assert (P : (0 < inject_Z one)%Q) by (change 0%Q with (inject_Z 0); rewrite <- Zlt_Qlt; exact H).
  split; [apply Qle_shift_div_l | apply Qle_shift_div_r]; try exact P; rewrite <- inject_Z_mult, <- Zle_Qle; assumption.
Qed.
Lemma shows_stored bool_ok one j : 0 < one -> stored bool_ok j -> shows one j (cost_of_ext one (invalid_of one j)).
Proof.
  intros H [(n & Hn & _)|[(f & ->)|Hs]].
  - destruct (proj1 (int_value_json _ _ _ Hn)) as [->|(b & -> & _)]; cbn; constructor; now apply units_quotient.
  - cbn [invalid_of cost_of_ext]. constructor. assert (P : (0 < inject_Z one)%Q) by (change 0%Q with (inject_Z 0); rewrite <- Zlt_Qlt; exact H). split.
    + apply Qle_shift_div_r; [exact P | apply Qfloor_le].
    + assert (E : (inject_Z (Qfloor (f * inject_Z one)) / inject_Z one + 1 / inject_Z one == inject_Z (Qfloor (f * inject_Z one) + 1) / inject_Z one)%Q).
      { rewrite inject_Z_plus. field. intros E. rewrite E in P. now apply Qlt_irrefl in P. }
      rewrite E. apply Qlt_shift_div_l; [exact P | apply Qlt_floor].
  - induction Hs as [|b|j Hs IH]; [constructor | destruct b; constructor | cbn; now constructor].
Qed.
(** A number of units that is the value of the configuration. *)
Lemma shows_units one j c n : 0 < one -> shows one j c -> quotient n one c -> invalid_of one j = Fin n.
Proof.
  intros H S. assert (P : (0 < inject_Z one)%Q) by (change 0%Q with (inject_Z 0); rewrite <- Zlt_Qlt; exact H).
  assert (U : forall z q, (q == inject_Z z)%Q -> (q == inject_Z n / inject_Z one)%Q -> z * one = n).
  { intros z q E1 E2. rewrite E1 in E2. apply (proj1 (inject_Z_injective _ _)). rewrite inject_Z_mult, E2. field. intros E. rewrite E in P. now apply Qlt_irrefl in P. }
  induction S as [z q E|b q E|f q [E1 E2]|b| |j c S IH]; intros (p & X & Y); try discriminate X; cbn [invalid_of].
  - injection X as <-. f_equal. eauto.
  - injection X as <-. f_equal. eauto.
  - injection X as <-. f_equal. rewrite Y in E1, E2.
    assert (L : (inject_Z n <= f * inject_Z one)%Q).
    { setoid_replace (inject_Z n) with (inject_Z n / inject_Z one * inject_Z one)%Q by (field; intros E; rewrite E in P; now apply Qlt_irrefl in P). apply Qmult_le_compat_r; [exact E1 | apply Qlt_le_weak; exact P]. }
    assert (G : (f * inject_Z one < inject_Z (n + 1))%Q).
    { setoid_replace (inject_Z (n + 1)) with ((inject_Z n / inject_Z one + 1 / inject_Z one) * inject_Z one)%Q by (rewrite inject_Z_plus; field; intros E; rewrite E in P; now apply Qlt_irrefl in P).
      apply Qmult_lt_compat_r; [exact P | exact E2]. }
    pose proof (Qfloor_le (f * inject_Z one)) as F1. pose proof (Qlt_floor (f * inject_Z one)) as F2.
    assert (A : (inject_Z n < inject_Z (Qfloor (f * inject_Z one) + 1))%Q) by (eapply Qle_lt_trans; eassumption).
    assert (B : (inject_Z (Qfloor (f * inject_Z one)) < inject_Z (n + 1))%Q) by (eapply Qle_lt_trans; eassumption).
    rewrite <- Zlt_Qlt in A, B. lia.
  - apply IH. exists p. auto.
Qed.
Lemma nats_eqb_refl l : nats_eqb l l = true.
Proof. induction l; cbn; [reflexivity|]. now rewrite Nat.eqb_refl. Qed.

Lemma wanted_inside q0 height x : (wanted_row q0 height x -> inside_row q0 height x) /\ (wanted_col q0 height x -> inside_col q0 height x).
Proof. unfold wanted_row, wanted_col, inside_row, inside_col, wanted, inside. destruct (q_zone q0); cbn; tauto. Qed.
Section Main.
  Context {px : Type} (px_eqb : px -> px -> bool) (nan : px).
  Variable bool_ok : bool.
  Variable pandora_check : dict -> option (json * json * json).
  Variable matching_cost_margins : dict -> margins.
  Variable can_open_mandatory can_open : json -> bool.
  Variable images_ok : json -> json -> json -> json -> bool.
  Variable image_size : string -> nat * nat.
  Variable open_raster : string -> reader.
  Variable load : dict -> Z -> nat -> Z -> nat -> image px.
  Variable transform_of : dict -> option affine.
  Variable dataset_ok : image_dataset (image px) -> bool.
  Variable measure_of : dict -> measure.
  Variable offset_of : dict -> Z.
  Variable pandora_cost : dict -> mc_input -> image px -> list (list px) -> list (list Z) -> nat -> nat -> nat -> ext.
  Variable zoomed : image px -> nat -> nat -> nat -> px.
  Variable one : Z.
  Variable store : ext -> ext.
  Variable filter_apply : dict -> list (list ext) -> Z -> Z -> ext.
  Variable lstsq : list (list px) -> list (list px) -> option (num * num).
  Variable resample : list (list px) -> num -> num -> list (list px).
  Variable junk : nat -> list (list px).
  Variable interp : list Q -> list Q -> list (list cost) -> num -> num -> cost.
  Variable minimise : (num -> num -> cost) -> num * num -> (Q * Q) * (Q * Q) -> num * num.
  Variable estimate : json -> image px -> image px -> (Q * Q) * json * json.
  Variable global_margins : list (string * margins) -> list (string * margins) -> margins.
  Variable margins_to_dict : list (string * margins) -> list (string * margins) -> json.
  Notation main := (main px_eqb nan bool_ok pandora_check matching_cost_margins can_open_mandatory can_open images_ok image_size open_raster load transform_of dataset_ok
    measure_of offset_of pandora_cost zoomed one store filter_apply lstsq resample junk interp minimise estimate global_margins margins_to_dict).
  Notation process := (process px_eqb nan bool_ok pandora_check matching_cost_margins can_open_mandatory can_open images_ok image_size open_raster load transform_of dataset_ok
    measure_of offset_of pandora_cost zoomed one store filter_apply lstsq resample junk interp minimise estimate global_margins).
  Notation check_user := (check_user px_eqb nan bool_ok pandora_check matching_cost_margins can_open_mandatory can_open images_ok image_size open_raster
    measure_of offset_of pandora_cost zoomed one store filter_apply lstsq resample junk interp minimise estimate).
  Notation run_step := (run_step px_eqb nan bool_ok pandora_check measure_of offset_of pandora_cost zoomed one store filter_apply lstsq resample junk interp minimise estimate).

  Hypothesis Hpandora : pandora_contract pandora_check.
  Hypothesis Hsubpix : forall c w s o, pandora_check c = Some (w, s, o) -> exists n, int_value bool_ok s n /\ 1 <= n /\ (n | one).
  Hypothesis Hsize : forall s, (0 < fst (image_size s))%nat /\ (0 < snd (image_size s))%nat.
  Hypothesis Hsame : forall a b x y, images_ok (JStr a) (JStr b) x y = true -> image_size b = image_size a.
  Hypothesis Hload : forall s a n b k, (1 <= n)%nat -> (1 <= k)%nat -> a2_n0 (im_data (load s a n b k)) = n /\ a2_n1 (im_data (load s a n b k)) = k.
  Hypothesis Hdataset : forall s a n b k shapes, dataset_ok (mkDataset shapes (load s a n b k)) = true.
  Hypothesis Hone : 0 < one.
  Hypothesis Hworst : forall c m im a b r cc i, pandora_cost c m im a b r cc i <> worst (measure_of c).

  Variables (user : dict) (q : request) (rows cols : nat) (left_path : string).
  Hypothesis Hw : wf (JDict user).
  Hypothesis Hacc : accepted bool_ok pandora_check can_open_mandatory can_open images_ok image_size open_raster user.
  Hypothesis Ho : asks_others bool_ok user q.
  Hypothesis Hleft : get_path ["input"; "left"; "img"] (JDict user) = Some (JStr left_path).
  Hypothesis Hdim : image_size left_path = (rows, cols).
  Hypothesis Hinside : match q_zone q with Some z => z_r0 z < Z.of_nat rows /\ z_c0 z < Z.of_nat cols | None => True end.
  (** Whether there is an estimation. *)
  Variable e : bool.
  Hypothesis Hfixed : e = false -> asks bool_ok user q /\ forall s, q_row_init q = JStr s -> two_lines q rows cols.
  Hypothesis Hestimated : e = true -> asks_estimation user q.

  Lemma saved_maps q0 m sc (rim : image px) mcol mrow score tr :
    wf_mc m rim -> loaded m sc (Z.of_nat rows) (Z.of_nat cols) -> mc_step_row m = q_row_step q0 -> mc_step_col m = q_col_step q0 ->
    (forall x, asked_row sc (Z.of_nat rows) (q_row_step q0) x <-> wanted_row q0 (Z.of_nat rows) x) ->
    (forall y, asked_col sc (Z.of_nat cols) (q_col_step q0) y <-> wanted_col q0 (Z.of_nat cols) y) ->
    (forall x y one dr, mc_row0 m <= x < mc_row0 m + Z.of_nat (mc_nrow m) -> mc_col0 m <= y < mc_col0 m + Z.of_nat (mc_ncol m) -> 0 < one ->
        (user_row_interval m one x y dr <-> exists v, middle open_raster (q_row_init q0) x y v /\ (v - q_row_range q0) * one <= dr <= (v + q_row_range q0) * one) /\
        (user_col_interval m one x y dr <-> exists v, middle open_raster (q_col_init q0) x y v /\ (v - q_col_range q0) * one <= dr <= (v + q_col_range q0) * one)) ->
    rect (List.length (row_coords m)) (List.length (col_coords m)) mcol -> rect (List.length (row_coords m)) (List.length (col_coords m)) mrow ->
    rect (List.length (row_coords m)) (List.length (col_coords m)) score -> stored bool_ok (q_invalid q0) ->
    (forall r c x y, nth_error (row_coords m) r = Some x -> nth_error (col_coords m) c = Some y ->
      exists vr vc, nth2 mrow r c = Some vr /\ nth2 mcol r c = Some vc /\ respects_user m one (invalid_of one (q_invalid q0)) x y vr vc) ->
    exists saved after, save_dataset (mkDmaps (row_coords m) (col_coords m) (map (map (cost_of_ext one)) mrow) (map (map (cost_of_ext one)) mcol)
       (map (map (cost_of_ext one)) score) tr) sc = Some (saved, after) /\ saved_right open_raster one q0 rows cols saved.
  Proof.
    intros Wm Ld Sr Sc Ar Ac Hi R1 R2 R3 St P.
    destruct (saved_spec m sc (Z.of_nat rows) (Z.of_nat cols) (map (map (cost_of_ext one)) mrow) (map (map (cost_of_ext one)) mcol) (map (map (cost_of_ext one)) score) tr Ld)
      as (saved & after & Es & A & B & O1 & O2 & W & G); try (now apply rect_map).
    exists saved, after. split; [exact Es|]. rewrite Sr in A. rewrite Sc in B.
    split; [intros x; rewrite A; apply Ar|]. split; [intros y; rewrite B; apply Ac|]. split; [exact O1|]. split; [exact O2|]. split; [exact W|].
    intros a b x y Hx Hy. destruct (G a b x y Hx Hy) as (r & c & Hr & Hc & G1 & G2 & _). rewrite G1, G2. destruct (P r c x y Hr Hc) as (vr & vc & N1 & N2 & Rs).
    rewrite !nth2_map, N1, N2. cbn [option_map]. do 2 eexists. split; [reflexivity|]. split; [reflexivity|].
    destruct Rs as [[-> ->]|(dr & dc & -> & -> & Ur & Uc)].
    - left. split; now apply (shows_stored bool_ok).
    - right. apply nth_error_In in Hr, Hc. apply (row_coords_in m rim Wm) in Hr. apply (col_coords_in m rim _ Wm) in Hc.
      destruct (proj1 (proj1 (Hi x y one dr Hr Hc Hone)) Ur) as (v & Mv & Iv). destruct (proj1 (proj2 (Hi x y one dc Hr Hc Hone)) Uc) as (v' & Mv' & Iv').
      split; [exists v | exists v']; eexists; (split; [eassumption|]); (split; [reflexivity|]); now apply units_interval.
  Qed.

  (** * The run *)
  Variables (raw : dict) (r : bool).
  Hypothesis Lraw : lookup "pipeline" user = Some (JDict raw).
  Hypothesis Kraw : keys raw = (if e then ["estimation"] else []) ++ ["matching_cost"; "disparity"] ++ (if r then ["refinement"] else []).
  (** The filter and the number of iterations of a dichotomy. *)
  Definition flt_of (f : dict) : DichotomyModel.filter :=
    match lookup "method" f with
    | Some (JStr k) => if k =? "bicubic" then bicubic_filter (filter_apply f) else sinc_filter (sinc_half bool_ok f) (filter_apply f)
    | _ => bicubic_filter (filter_apply f) end.
  Lemma dichotomy_ready s w x cr' : wf (JDict x) -> refinement_init bool_ok s w x = Some cr' -> lookup "refinement_method" x = Some (JStr "dichotomy") -> (512 | one) ->
    exists f n, lookup "refinement_method" cr' = Some (JStr "dichotomy") /\ lookup "filter" cr' = Some (JDict f) /\ int_at bool_ok ["iterations"] cr' = Some n /\
      (2 ^ Z.of_nat (Z.to_nat n) | one) /\ covered (flt_of f) (refinement_margins bool_ok cr').
  Proof.
    intros Wx H Lx Hd. unfold refinement_init in H. rewrite Lx in H. cbn [String.eqb Ascii.eqb Bool.eqb] in H.
    destruct (dichotomy_result _ _ _ H) as (j & n & Lj & Ij & E). unfold dichotomy_init in H. destruct (dichotomy_check_conf bool_ok x) as [y|] eqn:Ey; [|discriminate].
    destruct (lookup "filter" y) as [[| | | | | | | |f]|] eqn:Lf; try discriminate. destruct (filter_check_conf bool_ok f) as [f'|] eqn:Ef; [|discriminate]. injection H as H. rewrite H in Lf.
    assert (Hx : described (dichotomy_fields bool_ok) x).
    { apply (dichotomy_accepts _ _ Wx). unfold dichotomy_init. rewrite Ey. rewrite <- H in Lf. rewrite Lf, Ef. discriminate. }
    assert (Pn : 0 <= n).
    { destruct Hx as [Hx _]. destruct (Hx _ _ Lj) as (b & P & Hin & HP). cbn in Hin. destruct Hin as [X|[X|[X|[]]]]; try congruence. injection X as <- <-.
      destruct HP as (n' & In' & Hn'). rewrite (int_value_unique _ _ _ _ Ij In'). lia. }
    exists f, (Z.min n 9).
    assert (L1 : lookup "refinement_method" cr' = Some (JStr "dichotomy")) by (rewrite E; destruct (Z.ltb 9 n); [rewrite lookup_assign|]; exact Lx).
    split; [exact L1|]. split; [exact Lf|]. split.
    { unfold int_at. cbn [get_path]. rewrite E. destruct (Z.ltb_spec 9 n) as [H9|H9]; [rewrite lookup_assign, String.eqb_refl | rewrite Lj]; cbn [bind].
      - cbn. f_equal. lia.
      - rewrite (int_value_as_int _ _ _ Ij). f_equal. lia. }
    split.
    { apply Z.divide_trans with 512; [|exact Hd]. exists (2 ^ (9 - Z.min n 9)). rewrite Z2Nat.id by lia. rewrite <- Z.pow_add_r by lia. replace (9 - Z.min n 9 + Z.min n 9) with 9 by lia. reflexivity. }
    unfold refinement_margins. rewrite L1, Lf. cbn [String.eqb Ascii.eqb Bool.eqb]. unfold filter_margins, flt_of. unfold filter_check_conf in Ef.
    destruct (lookup "method" f) as [[| | | | | |k| |]|]; try discriminate. destruct (k =? "bicubic"); apply C28_filters.
  Qed.

  (** The request that is answered: the one of the user, or the one with the estimated disparities. *)
  Definition answered (cfg l rg : dict) (row0 : Z) (nrow : nat) (col0 : Z) (ncol : nat) (q' : request) : Prop :=
    if e then exists j shifts error phase init_row init_col, get_path ["pipeline"; "estimation"] (JDict cfg) = Some j /\
           estimate j (load l row0 nrow col0 ncol) (load rg row0 nrow col0 ncol) = (shifts, error, phase) /\
           q' = with_disparities q init_row (q_row_range q) init_col (q_col_range q) /\ centred shifts q' /\ window_around 9995 q rows cols row0 nrow col0 ncol
    else q' = q /\ window_reaches open_raster q rows cols row0 nrow col0 ncol.
  Lemma window_zone q0 z rr row0 nrow col0 ncol lft up rgt down : q_zone q0 = Some z -> rr = Some (with_margins z (lft, up, rgt, down)) -> frame_ok rows cols rr (row0, nrow, col0, ncol) ->
    (forall x d, inside_row q0 (Z.of_nat rows) x -> - up <= d <= down -> 0 <= x + d < Z.of_nat rows -> row0 <= x + d < row0 + Z.of_nat nrow) /\
    (forall y d, inside_col q0 (Z.of_nat cols) y -> - lft <= d <= rgt -> 0 <= y + d < Z.of_nat cols -> col0 <= y + d < col0 + Z.of_nat ncol).
  Proof.
    intros Hz -> Hf. unfold frame_ok in Hf. cbn in Hf. unfold window_of in Hf. unfold inside_row, inside_col, inside. rewrite Hz. cbn. split; intros x d Hx Hd Hb; lia.
  Qed.
  Lemma window_whole q0 row0 nrow col0 ncol : q_zone q0 = None -> frame_ok rows cols None (row0, nrow, col0, ncol) ->
    (forall x, 0 <= x < Z.of_nat rows -> row0 <= x < row0 + Z.of_nat nrow) /\ (forall y, 0 <= y < Z.of_nat cols -> col0 <= y < col0 + Z.of_nat ncol).
  Proof. intros Hz (-> & -> & -> & ->). split; intros; lia. Qed.
  Lemma wanted_rows q0 x : 1 <= q_row_step q0 -> (forall z, q_zone q0 = Some z -> 0 <= z_r0 z) -> wanted_row q0 (Z.of_nat rows) x -> 0 <= x < Z.of_nat rows.
  Proof. intros _ H Hx. unfold wanted_row, wanted in Hx. destruct (q_zone q0) as [z|]; cbn in Hx; [specialize (H z eq_refl)|]; lia. Qed.
  Lemma wanted_cols q0 x : 1 <= q_col_step q0 -> (forall z, q_zone q0 = Some z -> 0 <= z_c0 z) -> wanted_col q0 (Z.of_nat cols) x -> 0 <= x < Z.of_nat cols.
  Proof. intros _ H Hx. unfold wanted_col, wanted in Hx. destruct (q_zone q0) as [z|]; cbn in Hx; [specialize (H z eq_refl)|]; lia. Qed.

  (** The maps as a dataset. *)
  Definition dataset_of (mi : mc_input) (tr : option affine) (mps : maps) : dmaps cost :=
    match mps with
    | InUnits col row score => mkDmaps (row_coords mi) (col_coords mi) (map (map (cost_of_ext one)) row) (map (map (cost_of_ext one)) col) (map (map (cost_of_ext one)) score) tr
    | InPixels col row score => mkDmaps (row_coords mi) (col_coords mi) (map (map cost_of_num) row) (map (map cost_of_num) col) score tr
    end.
  (** main, from the datasets on. *)
  Definition finish (l rg : dict) (row0 : Z) (nrow : nat) (col0 : Z) (ncol : nat) (c1 : dict) (mi : mc_input) (sc : save_cfg) (cr' : option dict) (d0 : data) (final : dict) : option outcome :=
    bind (compute_cost_volumes px_eqb (pandora_cost c1 mi (load l row0 nrow col0 ncol)) (zoomed (load rg row0 nrow col0 ncol) (mc_subpix mi)) mi (load rg row0 nrow col0 ncol)) (fun cv =>
    let units := in_units (one / Z.of_nat (mc_subpix mi)) cv in
    bind (compute_disp_maps 100 (invalid_of one (q_invalid q)) units) (fun res => let '(col, row, score) := res in
    bind (match cr' with None => Some (InUnits col row score)
          | Some c => refine nan bool_ok offset_of one store filter_apply lstsq resample junk interp minimise c (q_invalid q) (c1, mi, units) col row score d0 end) (fun mps =>
    bind (save_dataset (dataset_of mi (transform_of l) mps) sc) (fun p => Some (mkOutcome (Some (fst p)) (Some (q_invalid q, snd p)) final))))).
  (** The run of three or four steps, whatever the refinement: what was checked and loaded; main is [finish]. *)
  Theorem main_ready : exists m cfg l rg x1 c1 sub row0 nrow col0 ncol q' mi sc cr' lc lr rgrids cfg3 final,
    check_user user (new_machine None) = (m, Some cfg) /\ get_path ["input"; "left"] (JDict cfg) = Some (JDict l) /\ get_path ["input"; "right"] (JDict cfg) = Some (JDict rg) /\
    get_path ["pipeline"; "matching_cost"] (JDict cfg) = Some (JDict x1) /\ matching_cost_init pandora_check x1 = Some c1 /\
    int_at bool_ok ["subpix"] c1 = Some sub /\ mc_subpix mi = Z.to_nat sub /\ 1 <= sub /\ (sub | one) /\
    (exists pc w0 s0 o0, pandora_check pc = Some (w0, s0, o0) /\ int_value bool_ok s0 sub) /\
    window_ok q rows cols row0 nrow col0 ncol /\ answered cfg l rg row0 nrow col0 ncol q' /\
    (q_zone q' = q_zone q /\ q_row_step q' = q_row_step q /\ q_col_step q' = q_col_step q /\ q_invalid q' = q_invalid q) /\
    (e = true -> exists a b, constant (q_row_init q') a /\ constant (q_col_init q') b) /\
    mc_row0 mi = row0 /\ mc_nrow mi = nrow /\ mc_col0 mi = col0 /\ mc_ncol mi = ncol /\ mc_measure mi = measure_of c1 /\
    mc_step_row mi = q_row_step q /\ mc_step_col mi = q_col_step q /\
    wf_mc mi (load rg row0 nrow col0 ncol) /\ (forall a b, constant (q_row_init q') a -> constant (q_col_init q') b -> constant_ranges mi) /\
    (forall x, asked_row sc (Z.of_nat rows) (q_row_step q') x <-> wanted_row q' (Z.of_nat rows) x) /\
    (forall y, asked_col sc (Z.of_nat cols) (q_col_step q') y <-> wanted_col q' (Z.of_nat cols) y) /\
    (forall x y one dr, mc_row0 mi <= x < mc_row0 mi + Z.of_nat (mc_nrow mi) -> mc_col0 mi <= y < mc_col0 mi + Z.of_nat (mc_ncol mi) -> 0 < one ->
        (user_row_interval mi one x y dr <-> exists v, middle open_raster (q_row_init q') x y v /\ (v - q_row_range q') * one <= dr <= (v + q_row_range q') * one) /\
        (user_col_interval mi one x y dr <-> exists v, middle open_raster (q_col_init q') x y v /\ (v - q_col_range q') * one <= dr <= (v + q_col_range q') * one)) /\
    loaded mi sc (Z.of_nat rows) (Z.of_nat cols) /\ stored bool_ok (q_invalid q) /\ (q_zone q = None -> sc_roi sc = None) /\
    (cr' <> None <-> r = true) /\
    match cr' with
    | None => mc_margins mi = None
    | Some c => mc_margins mi = Some (refinement_margins bool_ok c) /\ exists x st ws, get_path ["pipeline"; "refinement"] (JDict cfg) = Some (JDict x) /\ wf (JDict x) /\ refinement_init bool_ok (Some st) ws x = Some c /\
        lookup "step" c1 = Some st /\ lookup "window_size" c1 = Some ws /\ mc_steps bool_ok (Some st) = Some (q_row_step q, q_col_step q)
    end /\
    left_grids mi = mkGrids2 (dg_min lc) (dg_max lc) (dg_min lr) (dg_max lr) /\
    main user = finish l rg row0 nrow col0 ncol c1 mi sc cr'
      (mkData cfg3 (load l row0 nrow col0 ncol) (load rg row0 nrow col0 ncol) (mkGridDataset row0 nrow col0 ncol (lc, lr)) (mkGridDataset row0 nrow col0 ncol rgrids) (transform_of l) None None) final.
  Proof.
    assert (Hck : exists m cfg, check_user user (new_machine None) = (m, Some cfg)).
    { apply (check_conf_accepts bool_ok pandora_check Hpandora matching_cost_margins (refinement_margins bool_ok) (mkMargins 0 0 0 0) run_step can_open_mandatory can_open images_ok image_size Hsize open_raster user None Hw). exact Hacc. }
    destruct Hck as (m & cfg & Hck). assert (Hc := Hck). unfold WholeModel.check_user in Hc.
    assert (Hzn : forall z, q_zone q = Some z -> exists roi, lookup "ROI" cfg = Some (JDict roi) /\
        (forall mg cfg', lookup "ROI" cfg' = Some (JDict (assign "margins" (margins_json mg) roi)) -> roi_of bool_ok cfg' = Some (with_margins z mg))).
    { intros z Hz. destruct (checked_zone bool_ok pandora_check _ _ _ _ _ _ _ _ _ Hpandora _ _ _ _ _ Hw Hc Ho z Hz) as (roi & A & B & _). eauto. }
    assert (Hnz : q_zone q = None -> lookup "ROI" cfg = None).
    { intros Hz. destruct Ho as (_ & A & _). unfold asks_zone in A. rewrite Hz in A. exact (no_roi _ _ _ _ _ _ _ _ _ _ _ Hpandora _ _ _ _ Hw Hc A). }
    assert (Hzi : match q_zone q with Some z => 0 <= z_r0 z <= z_r1 z /\ z_r0 z < Z.of_nat rows /\ 0 <= z_c0 z <= z_c1 z /\ z_c0 z < Z.of_nat cols | None => True end).
    { destruct (q_zone q) as [z|] eqn:Hz; [|exact I]. destruct (checked_zone bool_ok pandora_check _ _ _ _ _ _ _ _ _ Hpandora _ _ _ _ _ Hw Hc Ho z Hz) as (_ & _ & _ & Z1 & Z2). tauto. }
    destruct (checked_steps bool_ok pandora_check _ _ _ _ _ _ _ _ _ Hpandora _ _ _ _ _ Hw Hc Ho raw Lraw e r Kraw)
      as (ce & x1 & x2 & cr & c1 & c2 & st & ws & Lp & Hce & Hr & Hest & Emc & Est & (pc & w0 & s0 & o0 & Hpc & Ls & Lst & Lws) & Gst & Pr & Pc & Edc & Ei & Gi & Sto & Ms & Mt & Mst & Mw & Mr).
    destruct (Hsubpix _ _ _ _ Hpc) as (sub & Isub & Psub & Dsub).
    assert (Himages : exists input l rg rpath, lookup "input" cfg = Some (JDict input) /\ lookup "left" input = Some (JDict l) /\ lookup "img" l = Some (JStr left_path) /\
        lookup "right" input = Some (JDict rg) /\ lookup "img" rg = Some (JStr rpath) /\ image_size rpath = (rows, cols) /\
        if e then lookup "row_disparity" input = Some (JDict [("init", JInt (-9997)); ("range", JInt 2)]) /\ lookup "col_disparity" input = Some (JDict [("init", JInt (-9997)); ("range", JInt 2)])
        else exists row col, lookup "row_disparity" input = Some (JDict row) /\ lookup "col_disparity" input = Some (JDict col) /\
          cfg_disp_of open_raster row = mkCfgDisp (init_of open_raster (q_row_init q)) (q_row_range q) /\ cfg_disp_of open_raster col = mkCfgDisp (init_of open_raster (q_col_init q)) (q_col_range q) /\
          0 <= q_row_range q /\ 0 <= q_col_range q /\ check_disparities input = true /\ two_forms open_raster q rows cols).
    { assert (Path : forall input l lpath, lookup "input" cfg = Some (JDict input) -> lookup "left" input = Some (JDict l) -> lookup "img" l = Some (JStr lpath) -> lpath = left_path).
      { intros input l lpath Li Ll Lli. pose proof (kept_input _ _ _ _ _ _ _ _ _ _ _ Hpandora _ _ _ _ Hw Hc _ _ Hleft eq_refl) as K. cbn [get_path] in K. rewrite Li, Ll, Lli in K. injection K as K.
        cbn in K. destruct (left_path =? "NaN"); [discriminate|]. destruct (left_path =? "inf"); [discriminate|]. destruct (left_path =? "-inf"); [discriminate|]. congruence. }
      destruct e.
      - destruct (Hestimated eq_refl) as (Nr & Nc & _).
        destruct (checked_input_estimation bool_ok pandora_check _ _ _ _ _ _ _ _ Hsize _ Hpandora _ _ _ _ Hw Hc raw Lraw true r Kraw eq_refl Nr Nc) as (input & l & rg & lpath & rpath & Li & Ll & Lli & Lr & Lri & (ja & jb & Him) & Lrow & Lcol).
        assert (lpath = left_path) as -> by exact (Path _ _ _ Li Ll Lli). exists input, l, rg, rpath. do 5 (split; [assumption|]). split; [rewrite (Hsame _ _ _ _ Him); exact Hdim|]. auto.
      - destruct (Hfixed eq_refl) as [Ha _].
        destruct (checked_input bool_ok pandora_check _ _ _ _ _ _ _ _ Hsize _ Hpandora _ _ _ _ _ Hw Hc raw Lraw false r Kraw Ha eq_refl) as (input & l & rg & lpath & rpath & row & col & F).
        destruct F as (Li & Ll & Lli & Lr & Lri & (ja & jb & Him) & Lrow & Lcol & Erow & Ecol & Nr & Nc & Ckd & Hins).
        assert (lpath = left_path) as -> by exact (Path _ _ _ Li Ll Lli). exists input, l, rg, rpath. do 5 (split; [assumption|]). split; [rewrite (Hsame _ _ _ _ Him); exact Hdim|].
        exists row, col. do 7 (split; [assumption|]). rewrite Hdim in Hins. cbn [fst snd] in Hins. exact (inside_forms _ _ _ _ Hins). }
    destruct Himages as (input & l & rg & rpath & Li & Ll & Lli & Lr & Lri & Hdr & Hdisp).
    destruct (Hsize left_path) as [Hr1 Hc1]. rewrite Hdim in Hr1, Hc1. cbn [fst snd] in Hr1, Hc1.
    (* the datasets, and the estimation *)
    assert (Hready : exists q' cfg2 cfgd cfg3 rr row0 nrow col0 ncol lgrids rgrids lc lr,
      answered cfg l rg row0 nrow col0 ncol q' /\ (q_zone q' = q_zone q /\ q_row_step q' = q_row_step q /\ q_col_step q' = q_col_step q /\ q_invalid q' = q_invalid q) /\
      0 <= q_row_range q' /\ 0 <= q_col_range q' /\ (e = true -> exists a b, constant (q_row_init q') a /\ constant (q_col_init q') b) /\
      prepare_roi bool_ok open_raster (global_margins (m_cumulative m) (m_non_cumulative m)) cfg = Some (cfg2, rr) /\
      create_datasets image_size open_raster load transform_of rr cfg2 = Some (cfgd, (load l row0 nrow col0 ncol, mkGridDataset row0 nrow col0 ncol lgrids, transform_of l),
        (load rg row0 nrow col0 ncol, mkGridDataset row0 nrow col0 ncol rgrids, transform_of rg)) /\
      lookup "pipeline" cfgd = lookup "pipeline" cfg /\
      optional_run run_step EstimationRun "estimation" ce m (Some (mkData cfgd (load l row0 nrow col0 ncol) (load rg row0 nrow col0 ncol) (mkGridDataset row0 nrow col0 ncol lgrids)
        (mkGridDataset row0 nrow col0 ncol rgrids) (transform_of l) None None)) = Some (Some (mkData cfg3 (load l row0 nrow col0 ncol) (load rg row0 nrow col0 ncol)
        (mkGridDataset row0 nrow col0 ncol (lc, lr)) (mkGridDataset row0 nrow col0 ncol rgrids) (transform_of l) None None)) /\
      zone_ready bool_ok q cfg3 rr /\ frame_ok rows cols rr (row0, nrow, col0, ncol) /\ (1 <= nrow)%nat /\ (1 <= ncol)%nat /\
      grid_ready lc row0 nrow col0 ncol (mkCfgDisp (init_of open_raster (q_col_init q')) (q_col_range q')) /\
      grid_ready lr row0 nrow col0 ncol (mkCfgDisp (init_of open_raster (q_row_init q')) (q_row_range q')) /\
      exists p3, lookup "pipeline" cfg3 = Some (JDict p3) /\ forall k, k <> "estimation" -> lookup k p3 = lookup k (pipeline_of ce (JDict x1) (JDict x2) cr)).
    { destruct e eqn:Ee.
      - destruct Hdisp as [Lrow Lcol]. destruct (Hestimated eq_refl) as (_ & _ & Ar & Ac).
        destruct ce as [ce|]; [|elim (proj2 Hce eq_refl); reflexivity]. destruct (Hest _ eq_refl) as (x & y & -> & Wx & Hy).
        set (q0 := with_disparities q (JInt (-9997)) 2 (JInt (-9997)) 2).
        destruct (prepared bool_ok open_raster cfg q0 rows cols Hr1 Hc1 _ _ eq_refl eq_refl ltac:(cbn; lia) ltac:(cbn; lia) (or_introl (ex_intro _ (-9997) (ex_intro _ (-9997) (conj (constant_int _) (constant_int _)))))
                    input Li _ _ Lrow Lcol eq_refl eq_refl Hzn Hnz (global_margins (m_cumulative m) (m_non_cumulative m))) as (cfg2 & rr & Ep & Li2 & Lp2 & Zr & Rm).
        assert (He : has_estimation cfg2 = true) by (unfold has_estimation; cbn [get_path]; rewrite Lp2, Lp; reflexivity).
        destruct (created_estimation bool_ok image_size open_raster load transform_of cfg q0 rows cols Hr1 Hc1 input Hzn Hnz Hzi l rg left_path rpath Ll Lli Lr Lri Hdim Hdr cfg2 rr Li2 He Zr)
          as (cfgd & row0 & nrow & col0 & ncol & lgrids & rgrids & Ecd & Hf & N1 & N2 & Oc & (input3 & Li3)).
        assert (Lpd : lookup "pipeline" cfgd = Some (JDict (pipeline_of (Some (JDict x)) (JDict x1) (JDict x2) cr))) by (rewrite Oc, Lp2 by discriminate; exact Lp).
        assert (Gx : get_path ["pipeline"; "estimation"] (JDict cfg) = Some (JDict x)) by (cbn [get_path]; rewrite Lp; reflexivity).
        assert (Ra := kept_range _ _ _ _ _ _ _ _ _ _ _ Hpandora _ _ _ _ Hw Hc raw Lraw true r Kraw "range_row" _ (or_introl eq_refl) Ar _ _ Gx Hy).
        assert (Rb := kept_range _ _ _ _ _ _ _ _ _ _ _ Hpandora _ _ _ _ Hw Hc raw Lraw true r Kraw "range_col" _ (or_intror (or_introl eq_refl)) Ac _ _ Gx Hy).
        pose proof (checked_range_positive _ _ _ _ _ (proj1 (wf_dict_inv _ Wx)) (or_introl eq_refl) Hy Ra) as Pa.
        pose proof (checked_range_positive _ _ _ _ _ (proj1 (wf_dict_inv _ Wx)) (or_intror (or_introl eq_refl)) Hy Rb) as Pb.
        destruct (estimate (JDict x) (load l row0 nrow col0 ncol) (load rg row0 nrow col0 ncol)) as [[shifts er] ph] eqn:Eest.
        destruct (estimated bool_ok cfgd _ x y _ _ input3 row0 nrow col0 ncol lgrids (mkGridDataset row0 nrow col0 ncol rgrids) shifts er ph Lpd eq_refl Hy Ra Rb ltac:(lia) ltac:(lia) Li3 N1 N2)
          as (cfg3 & lc & lr & Erun & O3 & (p3 & Lp3 & Op3) & Gc & Gr).
        exists (with_disparities q (JInt (py_round (- fst shifts))) (q_row_range q) (JInt (py_round (- snd shifts))) (q_col_range q)), cfg2, cfgd, cfg3, rr, row0, nrow, col0, ncol, lgrids, rgrids, lc, lr.
        split.
        { unfold answered. rewrite Ee. exists (JDict x), shifts, er, ph. do 2 eexists. split; [exact Gx|]. split; [exact Eest|]. split; [reflexivity|]. split.
          - do 2 eexists. split; [reflexivity|]. split; [reflexivity|]. auto using py_round_nearest, py_round_even.
          - unfold window_around. destruct (q_zone q) as [z|] eqn:Hz.
            + destruct (Rm z Hz) as ([[[lft up] rgt] down] & Err & _ & Rc). destruct (Rc (-9997) (-9997) (constant_int _) (constant_int _)) as (U1 & U2 & U3 & U4). cbn in U1, U2, U3, U4.
              destruct (window_zone q z rr _ _ _ _ _ _ _ _ Hz Err Hf) as [W1 W2]. split; intros x' d Hx Hd Hb; [apply W1 | apply W2]; auto; lia.
            + unfold zone_ready in Zr. cbn [q0 with_disparities q_zone] in Zr. rewrite Hz in Zr. destruct Zr as [-> _].
              destruct (window_whole q _ _ _ _ Hz Hf) as [W1 W2]. split; intros; auto. }
        split; [repeat split|]. split; [cbn; lia|]. split; [cbn; lia|]. split; [intros _; do 2 eexists; split; constructor|].
        split; [exact Ep|]. split; [exact Ecd|]. split; [congruence|]. split.
        { cbn [optional_run]. unfold WholeModel.run_step. cbn [bind]. unfold estimation_step. cbn [w_left_image w_right_image w_cfg w_left w_right w_transform w_volumes w_maps]. rewrite Eest. rewrite Erun. reflexivity. }
        split; [apply (zone_ready_lookup bool_ok q cfg2); [rewrite O3, Oc by discriminate; reflexivity | exact Zr]|]. split; [exact Hf|]. split; [exact N1|]. split; [exact N2|]. split; [exact Gc|]. split; [exact Gr|]. eauto.
      - destruct Hdisp as (row & col & Lrow & Lcol & Erow & Ecol & Nr & Nc & Ckd & Hins). destruct (Hfixed eq_refl) as [_ Hgrids].
        destruct ce as [ce|]; [assert (X : false = true) by (apply Hce; discriminate); discriminate|].
        destruct (prepared bool_ok open_raster cfg q rows cols Hr1 Hc1 _ _ eq_refl eq_refl Nr Nc Hins input Li row col Lrow Lcol Erow Ecol Hzn Hnz
                    (global_margins (m_cumulative m) (m_non_cumulative m))) as (cfg2 & rr & Ep & Li2 & Lp2 & Zr & Rm).
        assert (He : has_estimation cfg2 = false) by (unfold has_estimation; cbn [get_path]; rewrite Lp2, Lp; destruct cr; reflexivity).
        destruct (created bool_ok image_size open_raster load transform_of cfg q rows cols Hr1 Hc1 _ _ eq_refl eq_refl Nr Nc Hins input row col Lrow Lcol Erow Ecol Hzn Hnz Hzi l rg left_path rpath
                    Ll Lli Lr Lri Hdim Hdr Ckd Hgrids cfg2 rr Li2 He Zr) as (row0 & nrow & col0 & ncol & lc & lr & rgrids & Ecd & Hf & N1 & N2 & Gc & Gr).
        exists q, cfg2, cfg2, cfg2, rr, row0, nrow, col0, ncol, (lc, lr), rgrids, lc, lr.
        split.
        { unfold answered. rewrite Ee. split; [reflexivity|]. unfold window_reaches.
          intros x y x' y' d Hx Hy Bx By. destruct (q_zone q) as [z|] eqn:Hz.
          - destruct (Rm z eq_refl) as ([[[lft up] rgt] down] & Err & Rv & _). destruct (window_zone q z rr _ _ _ _ _ _ _ _ Hz Err Hf) as [W1 W2].
            split; intros (v & Mv & Hd) Hb; destruct (Rv x' y' v Bx By) as [R1 R2]; [apply W1 | apply W2]; auto; [specialize (R1 Mv) | specialize (R2 Mv)]; lia.
          - unfold zone_ready in Zr. rewrite Hz in Zr. destruct Zr as [-> _]. destruct (window_whole q _ _ _ _ Hz Hf) as [W1 W2]. split; intros; auto. }
        split; [auto|]. split; [exact Nr|]. split; [exact Nc|]. split; [discriminate|]. split; [exact Ep|]. split; [exact Ecd|]. split; [exact Lp2|]. split; [reflexivity|].
        split; [exact Zr|]. split; [exact Hf|]. split; [exact N1|]. split; [exact N2|]. split; [exact Gc|]. split; [exact Gr|]. exists (pipeline_of None (JDict x1) (JDict x2) cr). split; [congruence | auto]. }
    destruct Hready as (q' & cfg2 & cfgd & cfg3 & rr & row0 & nrow & col0 & ncol & lgrids & rgrids & lc & lr & Hans & (Qz & Qr & Qc & Qi) & Nr & Nc & Ccst & Ep & Ecd & Lpd & Eest & Zr & Hf & N1 & N2 & Gc & Gr & p3 & Lp3 & Op3).
    destruct (Hload rg row0 nrow col0 ncol N1 N2) as [S1 S2]. destruct (Hload l row0 nrow col0 ncol N1 N2) as [S3 S4].
    assert (Gst2 : mc_steps bool_ok (get_path ["pipeline"; "matching_cost"; "step"] (JDict cfg3)) = Some (q_row_step q', q_col_step q')).
    { cbn [get_path] in Gst |- *. rewrite Lp3, Op3 by discriminate. rewrite Lp in Gst. rewrite Qr, Qc. exact Gst. }
    assert (Gi2 : get_path ["pipeline"; "disparity"; "invalid_disparity"] (JDict cfg3) = Some (q_invalid q)).
    { cbn [get_path] in Gi |- *. rewrite Lp3, Op3 by discriminate. rewrite Lp in Gi. exact Gi. }
    assert (Zr' : zone_ready bool_ok q' cfg3 rr) by (unfold zone_ready in Zr |- *; rewrite Qz; exact Zr).
    destruct (input_ready bool_ok open_raster transform_of cfg q' rows cols Hr1 Hc1 _ _ eq_refl eq_refl Nr Nc ltac:(rewrite Qz; exact Hzn) ltac:(rewrite Qz; exact Hnz) ltac:(rewrite Qz; exact Hzi) measure_of c1 sub s0 ltac:(rewrite Qr, Qc; exact Est) ltac:(rewrite Qr, Qc; exact (conj Pr Pc)) Ls Isub Psub cfg3 rr row0 nrow col0 ncol lc lr
                (mkGridDataset row0 nrow col0 ncol rgrids) (load l row0 nrow col0 ncol) (load rg row0 nrow col0 ncol) (transform_of l) None None
                (lookup "refinement" (m_non_cumulative m)) Zr' Hf N1 N2 Gc Gr Gst2 S1 S2)
      as (mi & sc & Emi & Esv & Wm & Ld & (Fw1 & Fw2 & Fw3 & Fw4) & Fsub & Fsr & Fsc & Fme & Fmg & Fgr & Ar & Ac & Cst & Hint).
    set (d0 := mkData cfg3 (load l row0 nrow col0 ncol) (load rg row0 nrow col0 ncol) (mkGridDataset row0 nrow col0 ncol (lc, lr)) (mkGridDataset row0 nrow col0 ncol rgrids) (transform_of l) None None) in *.
    set (di := mkData cfgd (load l row0 nrow col0 ncol) (load rg row0 nrow col0 ncol) (mkGridDataset row0 nrow col0 ncol lgrids) (mkGridDataset row0 nrow col0 ncol rgrids) (transform_of l) None None) in *.
    assert (Wok : window_ok q rows cols row0 nrow col0 ncol).
    { unfold window_ok, frame_ok in *. unfold zone_ready in Zr. destruct (q_zone q) as [z|]; [|destruct Zr as [-> _]; exact Hf].
      destruct Zr as (mg & j & -> & Pm & _). cbn in Hf. destruct mg as [[[m0 m1] m2] m3]. cbn in Pm. unfold window_of in Hf. lia. }
    assert (Hcr : exists cr', (cr' <> None <-> r = true) /\ match cr', cr with
      | None, None => mc_margins mi = None
      | Some c', Some c => exists x, c = JDict x /\ wf (JDict x) /\ refinement_init bool_ok (Some st) ws x = Some c' /\ mc_margins mi = Some (refinement_margins bool_ok c')
      | _, _ => False end).
    { destruct cr as [c|].
      - destruct Mr as (x & c' & -> & Wx & Hri & Mn). exists (Some c'). split; [rewrite <- Hr; split; intros; discriminate|]. exists x. rewrite Fmg, Mn. auto.
      - exists None. split; [rewrite <- Hr; tauto|]. rewrite Fmg, Mr. reflexivity. }
    destruct Hcr as (cr' & Hr' & Hcr).
    set (final := assign "margins" (margins_to_dict (m_cumulative m) (m_non_cumulative m)) cfg3).
    exists m, cfg, l, rg, x1, c1, sub, row0, nrow, col0, ncol, q', mi, sc, cr', lc, lr, rgrids, cfg3, final.
    split; [exact Hck|]. split; [cbn [get_path]; rewrite Li, Ll; reflexivity|]. split; [cbn [get_path]; rewrite Li, Lr; reflexivity|].
    split; [cbn [get_path]; rewrite Lp; destruct ce; reflexivity|]. split; [exact Emc|]. split; [unfold int_at; cbn [get_path]; rewrite Ls; cbn [bind]; exact (int_value_as_int _ _ _ Isub)|].
    split; [exact Fsub|]. split; [exact Psub|]. split; [exact Dsub|]. split; [eauto 6|]. split; [exact Wok|]. split; [exact Hans|]. split; [auto|]. split; [exact Ccst|].
    split; [exact Fw1|]. split; [exact Fw2|]. split; [exact Fw3|]. split; [exact Fw4|]. split; [exact Fme|]. split; [congruence|]. split; [congruence|].
    split; [exact Wm|]. split; [exact Cst|]. split; [exact Ar|]. split; [exact Ac|]. split; [exact Hint|]. split; [exact Ld|]. split; [exact Sto|].
    split. { intros Hz. unfold saving in Esv. unfold zone_ready in Zr'. rewrite Qz, Hz in Zr'. destruct Zr' as [_ Zr']. rewrite Zr' in Esv. injection Esv as <-. reflexivity. }
    split; [exact Hr'|].
    split. { destruct cr' as [c'|], cr as [c|]; try contradiction; [|exact Hcr]. destruct Hcr as (x & -> & Wx & Hri & Hmg). split; [exact Hmg|]. exists x, st, ws.
      split; [cbn [get_path]; rewrite Lp; destruct ce; reflexivity|]. rewrite Lst in Est. auto 10. }
    split; [exact Fgr|].
    assert (Eds : check_datasets dataset_ok (shapes_of (load l row0 nrow col0 ncol, mkGridDataset row0 nrow col0 ncol lgrids, transform_of l))
             (shapes_of (load rg row0 nrow col0 ncol, mkGridDataset row0 nrow col0 ncol rgrids, transform_of rg)) = true).
    { unfold check_datasets, shapes_of. rewrite S1, S2, S3, S4, !Hdataset. cbn [andb]. cbn [has lookup ds_shapes String.eqb Ascii.eqb Bool.eqb negb orb andb]. apply nats_eqb_refl. }
    unfold WholeModel.main, WholeModel.process. rewrite Hck. cbn [bind]. rewrite Ep. cbn [bind]. rewrite Ecd. cbn [bind]. rewrite Eds, Lpd, Lp. fold di.
    pose proof (run_chain (est_conf bool_ok) (mc_conf pandora_check matching_cost_margins) (disp_conf bool_ok (mkMargins 0 0 0 0)) (ref_conf bool_ok (refinement_margins bool_ok)) run_step
      ce (JDict x1) (JDict x2) cr (Some di) m Ms Mt) as Hrun.
    unfold WholeModel.run_machine. set (R := MachineModel.run _ _ _ _ _ (Some di) _ m) in *. clearbody R. rewrite Eest in Hrun. cbn [bind] in Hrun.
    unfold optional_run at 1 2 in Hrun. unfold WholeModel.run_step at 1 2 in Hrun. cbn [bind] in Hrun. unfold matching_cost_run in Hrun. rewrite Emc in Hrun. cbn [bind] in Hrun.
    rewrite Emi in Hrun. cbn [bind] in Hrun. unfold d0 in Hrun at 1 2 3. cbn [w_left_image w_right_image] in Hrun. unfold finish. fold d0.
    destruct (compute_cost_volumes _ _ _ _ _) as [cv|]; [|cbn [bind option_map] in Hrun; destruct Hrun as (m' & er & ->); reflexivity].
    cbn [bind option_map] in Hrun |- *.
    unfold disparity_run in Hrun. cbn [w_volumes] in Hrun. rewrite Edc in Hrun. cbn [bind] in Hrun. rewrite Ei in Hrun. cbn [bind] in Hrun.
    destruct (compute_disp_maps _ _ _) as [[[mc0 mr0] sc0]|]; [|cbn [bind option_map] in Hrun; destruct Hrun as (m' & er & ->); reflexivity].
    cbn [bind w_cfg] in Hrun. unfold d0 in Hrun at 1. cbn [w_cfg] in Hrun. rewrite Gi2 in Hrun. cbn [bind option_map] in Hrun |- *.
    assert (Save : forall mps (m' : @machine json (option (data (px := px))) margins json json), m_data m' = Some (mkData cfg3 (load l row0 nrow col0 ncol) (load rg row0 nrow col0 ncol) (mkGridDataset row0 nrow col0 ncol (lc, lr))
        (mkGridDataset row0 nrow col0 ncol rgrids) (transform_of l) (Some (c1, mi, in_units (one / Z.of_nat (mc_subpix mi)) cv)) (Some (q_invalid q, mps))) ->
      m_cumulative m' = m_cumulative m -> m_non_cumulative m' = m_non_cumulative m ->
      bind (bind (m_data m') (fun d => Some (mkResult (maps_dataset_of one d) (w_cfg d) (m_cumulative m', m_non_cumulative m')))) (fun res =>
        let cfg := assign "margins" (margins_to_dict (fst (r_margins res)) (snd (r_margins res))) (r_cfg res) in
        match r_maps res with
        | None => Some (mkOutcome None None cfg)
        | Some (inv, ds) => bind (saving bool_ok (r_cfg res)) (fun s => bind (save_dataset ds s) (fun p => Some (mkOutcome (Some (fst p)) (Some (inv, snd p)) cfg)))
        end) =
      bind (save_dataset (dataset_of mi (transform_of l) mps) sc) (fun p => Some (mkOutcome (Some (fst p)) (Some (q_invalid q, snd p)) final))).
    { intros mps m' Hd Hc2 Hn. rewrite Hd. cbn [bind r_margins r_maps r_cfg fst snd]. unfold maps_dataset_of. cbn [w_volumes w_maps w_cfg w_transform]. rewrite Hc2, Hn. fold final.
      destruct mps; rewrite Esv; reflexivity. }
    unfold optional_run in Hrun. destruct cr as [c|], cr' as [c'|]; try contradiction.
    - destruct Hcr as (x & -> & Wx & Hri & _). unfold WholeModel.run_step in Hrun. cbn [bind] in Hrun. unfold refinement_run in Hrun. cbn [w_volumes w_maps] in Hrun. rewrite Mst, Mw, Hri in Hrun. cbn [bind] in Hrun.
      match type of Hrun with context [refine _ _ _ _ _ _ _ _ _ _ _ _ _ _ _ _ _ ?dd] => change (refine nan bool_ok offset_of one store filter_apply lstsq resample junk interp minimise c' (q_invalid q) (c1, mi, in_units (one / Z.of_nat (mc_subpix mi)) cv) mc0 mr0 sc0 dd)
        with (refine nan bool_ok offset_of one store filter_apply lstsq resample junk interp minimise c' (q_invalid q) (c1, mi, in_units (one / Z.of_nat (mc_subpix mi)) cv) mc0 mr0 sc0 d0) in Hrun end.
      destruct (refine _ _ _ _ _ _ _ _ _ _ _ _ _ _ _ _ _ d0) as [mps|]; [|cbn [bind option_map] in Hrun; destruct Hrun as (m' & er & ->); reflexivity].
      cbn [bind option_map] in Hrun |- *. destruct Hrun as (m' & -> & Hd & Hc2 & Hn). exact (Save mps m' Hd Hc2 Hn).
    - cbn [bind option_map] in Hrun |- *. destruct Hrun as (m' & -> & Hd & Hc2 & Hn). exact (Save _ m' Hd Hc2 Hn).
  Qed.

  Hypothesis Hcase : r = false /\ (e = true \/ exists a b, constant (q_row_init q) a /\ constant (q_col_init q) b) \/ q_row_step q = 1 /\ q_col_step q = 1.
  Hypothesis Hdich : r = true -> get_path ["pipeline"; "refinement"; "refinement_method"] (JDict user) = Some (JStr "dichotomy") /\ rounding store /\ (512 | one) /\
    (forall c w s o n, pandora_check c = Some (w, s, o) -> int_value bool_ok s n -> exists e, n = 2 ^ Z.of_nat e) /\
    (forall c m im a b r cc i, pandora_cost c m im a b r cc i = NaN \/ store (pandora_cost c m im a b r cc i) = pandora_cost c m im a b r cc i).

  (** The run of the three or four steps, and what is saved. *)
  Theorem main_ran : exists m cfg l rg x1 c1 sub row0 nrow col0 ncol q' mi cv mcol mrow score sc tr out saved after,
    check_user user (new_machine None) = (m, Some cfg) /\ get_path ["input"; "left"] (JDict cfg) = Some (JDict l) /\ get_path ["input"; "right"] (JDict cfg) = Some (JDict rg) /\
    get_path ["pipeline"; "matching_cost"] (JDict cfg) = Some (JDict x1) /\ matching_cost_init pandora_check x1 = Some c1 /\
    int_at bool_ok ["subpix"] c1 = Some sub /\ mc_subpix mi = Z.to_nat sub /\ 1 <= sub /\ (sub | one) /\
    window_ok q rows cols row0 nrow col0 ncol /\ answered cfg l rg row0 nrow col0 ncol q' /\
    mc_row0 mi = row0 /\ mc_nrow mi = nrow /\ mc_col0 mi = col0 /\ mc_ncol mi = ncol /\ mc_measure mi = measure_of c1 /\
    wf_mc mi (load rg row0 nrow col0 ncol) /\ (constant_ranges mi \/ mc_step_row mi = 1 /\ mc_step_col mi = 1) /\
    (forall x y one dr, mc_row0 mi <= x < mc_row0 mi + Z.of_nat (mc_nrow mi) -> mc_col0 mi <= y < mc_col0 mi + Z.of_nat (mc_ncol mi) -> 0 < one ->
        (user_row_interval mi one x y dr <-> exists v, middle open_raster (q_row_init q') x y v /\ (v - q_row_range q') * one <= dr <= (v + q_row_range q') * one) /\
        (user_col_interval mi one x y dr <-> exists v, middle open_raster (q_col_init q') x y v /\ (v - q_col_range q') * one <= dr <= (v + q_col_range q') * one)) /\
    compute_cost_volumes px_eqb (pandora_cost c1 mi (load l row0 nrow col0 ncol)) (zoomed (load rg row0 nrow col0 ncol) (mc_subpix mi)) mi (load rg row0 nrow col0 ncol) = Some cv /\
    (r = false -> compute_disp_maps 100 (invalid_of one (q_invalid q)) (in_units (one / Z.of_nat (mc_subpix mi)) cv) = Some (mcol, mrow, score)) /\
    rect (List.length (row_coords mi)) (List.length (col_coords mi)) mcol /\ rect (List.length (row_coords mi)) (List.length (col_coords mi)) mrow /\
    rect (List.length (row_coords mi)) (List.length (col_coords mi)) score /\
    loaded mi sc (Z.of_nat rows) (Z.of_nat cols) /\ stored bool_ok (q_invalid q) /\
    save_dataset (mkDmaps (row_coords mi) (col_coords mi) (map (map (cost_of_ext one)) mrow) (map (map (cost_of_ext one)) mcol) (map (map (cost_of_ext one)) score) tr) sc = Some (saved, after) /\
    (q_zone q = None -> sc_roi sc = None) /\ tr = transform_of l /\ o_reported out = Some (q_invalid q, after) /\
    main user = Some out /\ o_maps out = Some saved /\ saved_right open_raster one q' rows cols saved.
  Proof.
    destruct main_ready as (m & cfg & l & rg & x1 & c1 & sub & row0 & nrow & col0 & ncol & q' & mi & sc & cr' & lc & lr & rgrids & cfg3 & final & Hck & Gl & Grg & Gx1 & Emc & Gsub & Fsub & Psub & Dsub &
      (pc & w0 & s0 & o0 & Hpc & Isub) & Wok & Hans & (Qz & Qr & Qc & Qi) & Ccst & Fw1 & Fw2 & Fw3 & Fw4 & Fme & Fsr0 & Fsc0 & Wm & Cst & Ar & Ac & Hint & Ld & Sto & Hnz & Hr & Hcr & Fgr & Emain).
    assert (Hc := Hck). unfold WholeModel.check_user in Hc.
    assert (Fsr : mc_step_row mi = q_row_step q') by congruence. assert (Fsc : mc_step_col mi = q_col_step q') by congruence.
    (* the refinement *)
    assert (HD : exists dich,
      (forall flt iterations, dich = Some (flt, iterations) ->
        rounding store /\ (2 ^ Z.of_nat iterations | one) /\ (exists e0, mc_subpix mi = (2 ^ e0)%nat) /\ (exists margins, mc_margins mi = Some margins /\ covered flt margins) /\
        (forall a b r c i, pandora_cost c1 mi (load l row0 nrow col0 ncol) a b r c i = NaN \/
           store (pandora_cost c1 mi (load l row0 nrow col0 ncol) a b r c i) = pandora_cost c1 mi (load l row0 nrow col0 ncol) a b r c i)) /\
      (r = false -> dich = None) /\
      match cr' with
      | None => dich = None
      | Some c => exists f n, lookup "refinement_method" c = Some (JStr "dichotomy") /\ lookup "filter" c = Some (JDict f) /\ int_at bool_ok ["iterations"] c = Some n /\ dich = Some (flt_of f, Z.to_nat n)
      end).
    { destruct cr' as [c|].
      - assert (r = true) as Hrt by (apply Hr; discriminate). destruct (Hdich Hrt) as (Hm & Hro & H512 & Hpow & Hst).
        pose proof (kept_method _ _ _ _ _ _ _ _ _ _ _ Hpandora _ _ _ _ Hw Hc raw Lraw e r Kraw "dichotomy" Hm (or_introl eq_refl)) as Km.
        destruct Hcr as (Fmg & x & st & ws & Gx & Wx & Hri & _). destruct (path_dict _ _ _ _ _ Gx) as (pl & Lpl). cbn [get_path] in Gx, Km. rewrite Lpl in Gx, Km. cbn [get_path] in Gx, Km.
        destruct (lookup "refinement" pl) as [jx|]; [|discriminate]. cbn [get_path] in Gx, Km. injection Gx as ->. cbn [get_path] in Km.
        destruct (lookup "refinement_method" x) as [jm|] eqn:Ljm; [|discriminate]. cbn [get_path] in Km. injection Km as ->.
        destruct (dichotomy_ready _ _ _ _ Wx Hri Ljm H512) as (f & n & L1 & L2 & L3 & L4 & L5).
        exists (Some (flt_of f, Z.to_nat n)). split; [|split; [congruence|]].
        + intros flt it E. injection E as <- <-. split; [exact Hro|]. split; [exact L4|]. split.
          * destruct (Hpow _ _ _ _ _ Hpc Isub) as (e0 & Ee). exists e0. rewrite Fsub, Ee. apply Nat2Z.inj. rewrite Z2Nat.id by (apply Z.pow_nonneg; lia). now rewrite Nat2Z.inj_pow.
          * split; [|intros; apply Hst]. exists (refinement_margins bool_ok c). split; [exact Fmg | exact L5].
        + exists f, n. auto 10.
      - exists None. split; [intros; discriminate|]. auto. }
    destruct HD as (dich & HD1 & HD2 & HD3).
    assert (Dsub' : (Z.of_nat (mc_subpix mi) | one)) by (rewrite Fsub, Z2Nat.id by lia; exact Dsub).
    assert (Hworst' : forall a b r c i, pandora_cost c1 mi (load l row0 nrow col0 ncol) a b r c i <> worst (mc_measure mi)) by (intros; rewrite Fme; apply Hworst).
    assert (Hcons : r = false /\ constant_ranges mi \/ mc_step_row mi = 1 /\ mc_step_col mi = 1).
    { destruct Hcase as [(-> & HC)|[St1 St2]]; [left | right; split; congruence]. split; [reflexivity|].
      assert (HC' : exists a b, constant (q_row_init q') a /\ constant (q_col_init q') b).
      { unfold answered in Hans. destruct e; [now apply Ccst|]. destruct Hans as [-> _]. destruct HC as [HC|HC]; [discriminate | exact HC]. }
      destruct HC' as (a & b & Ca & Cb). exact (Cst a b Ca Cb). }
    assert (Hrun : exists mcol mrow score,
      run_maps px_eqb (pandora_cost c1 mi (load l row0 nrow col0 ncol)) (zoomed (load rg row0 nrow col0 ncol) (mc_subpix mi)) one store 100 (invalid_of one (q_invalid q)) dich mi
        (load rg row0 nrow col0 ncol) = Some (mcol, mrow, score) /\
      rect (List.length (row_coords mi)) (List.length (col_coords mi)) mcol /\ rect (List.length (row_coords mi)) (List.length (col_coords mi)) mrow /\
      rect (List.length (row_coords mi)) (List.length (col_coords mi)) score /\
      forall r c x y, nth_error (row_coords mi) r = Some x -> nth_error (col_coords mi) c = Some y ->
        exists vr vc, nth2 mrow r c = Some vr /\ nth2 mcol r c = Some vc /\ respects_user mi one (invalid_of one (q_invalid q)) x y vr vc).
    { destruct Hcons as [(Er & HC)|[St1 St2]].
      - rewrite (HD2 Er). apply run_const_in_range; auto.
      - apply run_step1_in_range; auto. }
    destruct Hrun as (mcol & mrow & score & Erm & R1 & R2 & R3 & P).
    unfold run_maps in Erm. destruct (compute_cost_volumes _ _ _ _ _) as [cv|] eqn:Ecv; [|discriminate]. cbn [bind] in Erm.
    destruct (compute_disp_maps _ _ _) as [[[mc0 mr0] sc0]|] eqn:Edm; [|discriminate]. cbn [bind] in Erm.
    set (tr0 := transform_of l).
    destruct (saved_maps q' mi sc _ mcol mrow score tr0 Wm Ld Fsr Fsc Ar Ac Hint R1 R2 R3 ltac:(rewrite Qi; exact Sto) ltac:(rewrite Qi; exact P)) as (saved & after & Esave & Hok).
    exists m, cfg, l, rg, x1, c1, sub, row0, nrow, col0, ncol, q', mi, cv, mcol, mrow, score, sc, tr0, (mkOutcome (Some saved) (Some (q_invalid q, after)) final), saved, after.
    do 16 (split; [assumption|]).
    split; [exact Wm|]. split. { destruct Hcons as [[_ HC]|HC]; [left | right]; exact HC. }
    split; [exact Hint|]. split; [exact Ecv|]. split. { intros Hrf. rewrite (HD2 Hrf) in Erm. injection Erm as <- <- <-. exact Edm. }
    split; [exact R1|]. split; [exact R2|]. split; [exact R3|]. split; [exact Ld|]. split; [exact Sto|]. split; [exact Esave|]. split; [exact Hnz|]. split; [reflexivity|]. split; [reflexivity|].
    split; [|split; [reflexivity | exact Hok]].
    rewrite Emain. unfold finish. rewrite Ecv. cbn [bind]. rewrite Edm. cbn [bind]. destruct cr' as [c|].
    - destruct HD3 as (f & n & L1 & L2 & L3 & ->). rewrite Fgr in Erm. unfold refine. rewrite L1. cbn [String.eqb Ascii.eqb Bool.eqb].
      rewrite L2, L3. cbv zeta. fold (flt_of f). unfold grids_of. cbn [w_left gd_grids]. rewrite Erm. cbn [bind dataset_of]. fold tr0. rewrite Esave. reflexivity.
    - rewrite HD3 in Erm. injection Erm as -> -> ->. cbn [bind dataset_of]. fold tr0. rewrite Esave. reflexivity.
  Qed.
  Theorem main_saved : exists cfg l rg row0 nrow col0 ncol q' out saved, answered cfg l rg row0 nrow col0 ncol q' /\
    main user = Some out /\ o_maps out = Some saved /\ saved_right open_raster one q' rows cols saved.
  Proof.
    destruct main_ran as (m & cfg & l & rg & x1 & c1 & sub & row0 & nrow & col0 & ncol & q' & mi & cv & mcol & mrow & score & sc & tr & out & saved & after & H).
    exists cfg, l, rg, row0, nrow, col0, ncol, q', out, saved. repeat match goal with H : _ /\ _ |- _ => destruct H as [? H] end. auto.
  Qed.

  (** * The saved maps are optimal, without refinement *)
  Variable pixel_cost : dict -> image px -> list (list px) -> list (list Z) -> nat -> nat -> Z -> ext.
  Hypothesis Hcost : forall c m im a b r cc i y ds d, nth_error (col_coords m) cc = Some y -> disps_col m = Some ds -> nth_error ds i = Some d ->
    pandora_cost c m im a b r cc i = pixel_cost c im a b r (Z.to_nat (y - mc_col0 m)) d.
  Hypothesis Hpw : forall c im a b r cc d, pixel_cost c im a b r cc d <> worst (measure_of c).
  Theorem main_best : r = false -> exists m cfg l rg x1 c1 sub row0 nrow col0 ncol q' out saved,
    check_user user (new_machine None) = (m, Some cfg) /\ get_path ["input"; "left"] (JDict cfg) = Some (JDict l) /\ get_path ["input"; "right"] (JDict cfg) = Some (JDict rg) /\
    get_path ["pipeline"; "matching_cost"] (JDict cfg) = Some (JDict x1) /\ matching_cost_init pandora_check x1 = Some c1 /\
    int_at bool_ok ["subpix"] c1 = Some sub /\ window_ok q rows cols row0 nrow col0 ncol /\ answered cfg l rg row0 nrow col0 ncol q' /\
    main user = Some out /\ o_maps out = Some saved /\ saved_right open_raster one q' rows cols saved /\
    saved_best open_raster one sub (measure_of c1) q'
      (pair_cost px_eqb (pixel_cost c1 (load l row0 nrow col0 ncol)) (zoomed (load rg row0 nrow col0 ncol) (Z.to_nat sub)) (load rg row0 nrow col0 ncol) (Z.to_nat sub) row0 col0) saved.
  Proof.
    intros Hrf.
    destruct main_ran as (m & cfg & l & rg & x1 & c1 & sub & row0 & nrow & col0 & ncol & q' & mi & cv & mcol & mrow & score & sc & tr & out & saved & after & H).
    destruct H as (A1 & A2 & A3 & A4 & A5 & A6 & Fsub & Psub & Dsub & Wok & Hans & F1 & F2 & F3 & F4 & Fme & Wm & Hc2 & Hint & Ecv & Edm & R1 & R2 & R3 & Ld & Sto & Esave & _ & _ & _ & Em & Eo & Hok).
    exists m, cfg, l, rg, x1, c1, sub, row0, nrow, col0, ncol, q', out, saved. do 11 (split; [assumption|]).
    assert (Qi : q_invalid q' = q_invalid q).
    { unfold answered in Hans. destruct e; [destruct Hans as (? & ? & ? & ? & ? & ? & _ & _ & -> & _) | destruct Hans as [-> _]]; reflexivity. }
    destruct (run_best px_eqb (pandora_cost c1 mi (load l row0 nrow col0 ncol)) (zoomed (load rg row0 nrow col0 ncol) (mc_subpix mi)) mi (load rg row0 nrow col0 ncol) Wm
      (pixel_cost c1 (load l row0 nrow col0 ncol))) with (chunk := 100%nat) (inv := invalid_of one (q_invalid q)) (k := one / Z.of_nat (mc_subpix mi)) (cv := cv) as (mcol' & mrow' & score' & Edm' & P); auto.
    { intros. eapply Hcost; eauto. }
    { intros. rewrite Fme. apply Hpw. }
    rewrite (Edm Hrf) in Edm'. injection Edm' as <- <- <-.
    destruct (saved_spec mi sc (Z.of_nat rows) (Z.of_nat cols) (map (map (cost_of_ext one)) mrow) (map (map (cost_of_ext one)) mcol) (map (map (cost_of_ext one)) score) tr Ld)
      as (saved' & after' & Es & _ & _ & _ & _ & _ & G); try (now apply rect_map). rewrite Esave in Es. injection Es as <- <-.
    intros a b x y Hx Hy. destruct (G a b x y Hx Hy) as (r0 & c0 & Hr0 & Hc0 & G1 & G2 & G3). destruct (P r0 c0 x y Hr0 Hc0) as (vr & vc & vs & N1 & N2 & N3 & B).
    exists (cost_of_ext one vr), (cost_of_ext one vc), (cost_of_ext one vs).
    rewrite G1, G2, G3, !nth2_map, N1, N2, N3. do 3 (split; [reflexivity|]).
    assert (Xr := Hr0). assert (Xc := Hc0). apply nth_error_In in Xr, Xc. apply (row_coords_in mi _ Wm) in Xr. apply (col_coords_in mi _ _ Wm) in Xc.
    assert (Esub : Z.of_nat (mc_subpix mi) = sub) by (rewrite Fsub; lia). rewrite Esub in B. rewrite Fme, Fsub, F1, F3 in B.
    assert (Ir : forall d, user_row_interval mi sub x y d <-> candidate open_raster (q_row_init q') (q_row_range q') sub x y d) by (intros d; apply (Hint x y sub d); auto; lia).
    assert (Ic : forall d, user_col_interval mi sub x y d <-> candidate open_raster (q_col_init q') (q_col_range q') sub x y d) by (intros d; apply (Hint x y sub d); auto; lia).
    assert (Qk : forall d, quotient d sub (cost_of_ext one (Fin (d * (one / sub))))).
    { intros d. destruct Dsub as (k & Hk). rewrite Hk, Z.div_mul by lia. eexists. split; [reflexivity|]. rewrite !inject_Z_mult. assert (0 < k) by nia. field.
      split; intros E; unfold Qeq in E; cbn in E; lia. }
    assert (Sn : forall v, same_number one v (cost_of_ext one v)).
    { intros [| | |]; cbn; try reflexivity. eexists. split; reflexivity. }
    destruct B as [[(-> & -> & ->) B]|(dr & dc & s & (-> & -> & ->) & Hr & Hc & Hn & B1 & (dc' & B2 & B2') & (dr' & B3 & B3') & B4)].
    - left. split; [rewrite Qi; split; [|split]; now apply (shows_stored bool_ok)|]. intros dr dc Hdr Hdc. apply B; [now apply Ir | now apply Ic].
    - right. exists dr, dc, s. split; [auto|]. split; [now apply Ir|]. split; [now apply Ic|]. split; [exact Hn|]. split; [intros; apply B1; [now apply Ir | now apply Ic | assumption]|].
      split; [exists dc'; split; [now apply Ic | exact B2']|]. split; [exists dr'; split; [now apply Ir | exact B3']|]. intros; apply B4; [now apply Ir | now apply Ic | assumption].
  Qed.
End Main.
