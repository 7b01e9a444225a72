(** C109: the steps of the pipeline in the checked and saved configuration have the values of the user, and the defaults elsewhere. *)
From Coq Require Import List String Bool ZArith QArith Lia.
From Verif Require Import Base.Ext Base.PyList Base.Arr Base.Json Base.Dict Model.CommonModel Model.DisparityModel Model.MatchingCostModel Model.DichotomyModel
  Model.RoiModel Model.InputModel Model.ConfigModel Model.DatasetModel Model.EstimationModel Model.OpticalFlowModel Model.InterpolationModel Model.MachineModel Model.CheckConfModel
  Model.PipelineModel Model.WholeModel Model.ImgShiftModel
  Spec.ConfigSpec Spec.MachineSpec Spec.CheckConfSpec Spec.DefaultsSpec Proofs.ConfigProofs Proofs.MergeProofs Proofs.CheckConfProofs Proofs.MachineProofs Proofs.WholeProofs Proofs.DefaultsProofs Proofs.SavedProofs Props.CheckConfProps Props.WholeProps.
Import ListNotations.
Open Scope Z_scope.
Open Scope string_scope.
Open Scope list_scope.

Section Environment.
  Context {D M : Type}.
  Variable bool_ok : bool.
  Variable pandora_check : dict -> option (json * json * json).
  Variable matching_cost_margins refinement_margins : dict -> M.
  Variable disparity_margins : M.
  Variable run_step : callback -> string -> json -> option M -> option json -> option json -> D -> option D.
  Variable can_open_mandatory can_open check_images : json -> bool.
  Variable image_size : string -> nat * nat.
  Variable open_raster : string -> reader.
  Notation check_conf := (check_conf bool_ok pandora_check matching_cost_margins refinement_margins disparity_margins run_step
    can_open_mandatory can_open check_images image_size open_raster).
  Notation mach := (@machine json D M json json).
  Variables (user cfg : dict) (d : D) (m : mach).
  Hypothesis HP : pandora_contract pandora_check.
  Hypothesis Hw : wf (JDict user).
  Hypothesis Hc : check_conf user (new_machine d) = (m, Some cfg).
  Notation method n := (get_path ["pipeline"; n; "refinement_method"] (JDict user)).

  (** Every value of the user in a step is kept as it is read ("NaN", "inf" and "-inf" are numbers). *)
  Theorem C109_kept n k rest v : get_path ("pipeline" :: n :: k :: rest) (JDict user) = Some v -> is_dict v = false -> ~ other_rule n (method n) k ->
    exists w, get_path ("pipeline" :: n :: k :: rest) (JDict cfg) = Some w /\ reads_as v w.
  Proof.
    intros Hg Hv Ho. destruct (user_step _ _ _ _ _ _ _ _ _ _ _ HP _ _ _ _ Hw Hc n) as (u & x & z & Gu & Wu & Hm & Gz & F & _).
    { cbn [get_path] in *. destruct (lookup "pipeline" user) as [[| | | | | | | |p]|]; try discriminate. destruct (lookup n p); discriminate. }
    cbn [get_path] in *. destruct (lookup "pipeline" user) as [[| | | | | | | |p]|]; try discriminate. destruct (lookup n p) as [c|]; try discriminate. injection Gu as ->.
    destruct (lookup "pipeline" cfg) as [[| | | | | | | |p2]|]; try discriminate. destruct (lookup n p2) as [c|]; try discriminate. injection Gz as ->.
    destruct (read_value u x k rest v Wu Hm Hg Hv) as (vk & Lx & Gk).
    exists (conv v). split; [|apply conv_reads]. rewrite F; [rewrite Lx; exact Gk|]. rewrite (read_rule _ _ _ _ Wu Hm).
    intros X. apply Ho. destruct (lookup "refinement_method" u); exact X.
  Qed.
  (** A key that the user leaves out gets its default, and none when there is none: nothing else is added. *)
  Theorem C109_default n k : get_path ["pipeline"; n] (JDict user) <> None -> get_path ["pipeline"; n; k] (JDict user) = None -> ~ other_rule n (method n) k ->
    get_path ["pipeline"; n; k] (JDict cfg) = lookup k (defaults n (method n)).
  Proof.
    intros Hn Hg Ho. destruct (user_step _ _ _ _ _ _ _ _ _ _ _ HP _ _ _ _ Hw Hc n Hn) as (u & x & z & Gu & Wu & Hm & Gz & F & _).
    cbn [get_path] in *. destruct (lookup "pipeline" user) as [[| | | | | | | |p]|]; try discriminate. destruct (lookup n p) as [c|]; try discriminate. injection Gu as ->.
    destruct (lookup "pipeline" cfg) as [[| | | | | | | |p2]|]; try discriminate. destruct (lookup n p2) as [c|]; try discriminate. injection Gz as ->.
    assert (E : match lookup "refinement_method" u with Some v => Some v | None => None end = lookup "refinement_method" u) by now destruct (lookup "refinement_method" u).
    rewrite E in *. rewrite F; [|now rewrite (read_rule _ _ _ _ Wu Hm)]. rewrite (read_lookup _ _ _ Wu Hm), (read_defaults _ _ _ Wu Hm).
    destruct (lookup k u); [discriminate|]. now destruct (lookup k (defaults _ _)).
  Qed.
  (** A dichotomy does at most nine iterations. *)
  Theorem C109_iterations : method "refinement" = Some (JStr "dichotomy") -> exists j i, get_path ["pipeline"; "refinement"; "iterations"] (JDict user) = Some j /\ int_value bool_ok j i /\
    get_path ["pipeline"; "refinement"; "iterations"] (JDict cfg) = Some (if Z.ltb 9 i then JInt 9 else j).
  Proof.
    intros Hd. destruct (user_step _ _ _ _ _ _ _ _ _ _ _ HP _ _ _ _ Hw Hc "refinement") as (u & x & z & Gu & Wu & Hm & Gz & _ & _ & F & _).
    { cbn [get_path] in *. destruct (lookup "pipeline" user) as [[| | | | | | | |p]|]; try discriminate. destruct (lookup "refinement" p); discriminate. }
    cbn [get_path] in *. destruct (lookup "pipeline" user) as [[| | | | | | | |p]|]; try discriminate. destruct (lookup "refinement" p) as [c|]; try discriminate. injection Gu as ->.
    destruct (lookup "pipeline" cfg) as [[| | | | | | | |p2]|]; try discriminate. destruct (lookup "refinement" p2) as [c|]; try discriminate. injection Gz as ->.
    assert (E : lookup "refinement_method" u = Some (JStr "dichotomy")) by now destruct (lookup "refinement_method" u).
    apply (read_method _ _ Wu Hm) in E; try discriminate. destruct (F eq_refl E) as (j & i & Lj & Ij & Lz). exists j, i.
    assert (X : match lookup "iterations" u with Some v => Some v | None => None end = Some j).
    { rewrite (read_lookup _ _ _ Wu Hm) in Lj. destruct (lookup "iterations" u) as [v|]; [|discriminate].
      assert (merge1 (JDict []) v = Some v) as Y; [|congruence]. destruct v as [| | | | | |s| |v]; try reflexivity.
      - change (Some (conv (JStr s)) = Some j) in Lj. pose proof (conv_reads (JStr s)) as R. assert (conv (JStr s) = j) as X by congruence. rewrite X in R. clear X. exfalso. remember (JStr s) as js eqn:Ejs. destruct R; try (inversion Ij; fail). subst. inversion Ij.
      - unfold merge1 in Lj. cbn [is_dict] in Lj. rewrite update_conf_dict in Lj. destruct (upd_items v []); [|discriminate]. cbn in Lj. injection Lj as <-. inversion Ij. }
    split; [exact X|]. split; [exact Ij|]. now rewrite Lz.
  Qed.
  (** The optical flow uses the window and the step of the matching cost, whatever the user writes. *)
  Theorem C109_optical_flow k : method "refinement" = Some (JStr "optical_flow") -> In k matching_cost_keys ->
    get_path ["pipeline"; "refinement"; k] (JDict cfg) = get_path ["pipeline"; "matching_cost"; k] (JDict cfg) /\ get_path ["pipeline"; "matching_cost"; k] (JDict cfg) <> None.
  Proof.
    intros Hd Hk. destruct (user_step _ _ _ _ _ _ _ _ _ _ _ HP _ _ _ _ Hw Hc "refinement") as (u & x & z & Gu & Wu & Hm & Gz & _ & _ & _ & F).
    { cbn [get_path] in *. destruct (lookup "pipeline" user) as [[| | | | | | | |p]|]; try discriminate. destruct (lookup "refinement" p); discriminate. }
    assert (E : lookup "refinement_method" u = Some (JStr "optical_flow")).
    { cbn [get_path] in *. destruct (lookup "pipeline" user) as [[| | | | | | | |p]|]; try discriminate. destruct (lookup "refinement" p) as [c|]; try discriminate. injection Gu as ->.
      now destruct (lookup "refinement_method" u). }
    apply (read_method _ _ Wu Hm) in E; try discriminate. destruct (F eq_refl E) as (y & Ey & G). destruct (G k Hk) as [G1 G2].
    destruct (checked_matching_cost _ _ _ _ _ _ _ _ _ _ _ HP _ _ _ _ Hw Hc y Ey) as (z0 & Gz0 & L). 
    cbn [get_path] in *. destruct (lookup "pipeline" cfg) as [[| | | | | | | |p2]|]; try discriminate. destruct (lookup "refinement" p2) as [c|]; try discriminate. injection Gz as ->.
    destruct (lookup "matching_cost" p2) as [c|]; try discriminate. injection Gz0 as ->. rewrite G1, (L k Hk). destruct (lookup k y); [split; congruence | congruence].
  Qed.
  (** The window size, the subpix and the spline order of the user are those of the matching cost, with a Pandora that keeps the values it is given. *)
  Theorem C109_pandora k v : keeps_values pandora_check -> In k pandora_keys -> get_path ["pipeline"; "matching_cost"; k] (JDict user) = Some v ->
    get_path ["pipeline"; "matching_cost"; k] (JDict cfg) = Some v /\ is_integer v.
  Proof.
    intros HK Hk Hg. destruct (user_step _ _ _ _ _ _ _ _ _ _ _ HP _ _ _ _ Hw Hc "matching_cost") as (u & x & z & Gu & Wu & Hm & Gz & _ & F & _).
    { cbn [get_path] in *. destruct (lookup "pipeline" user) as [[| | | | | | | |p]|]; try discriminate. destruct (lookup "matching_cost" p); discriminate. }
    destruct (F eq_refl) as ((b & w & s & o & Hp & G) & _).
    cbn [get_path] in *. destruct (lookup "pipeline" user) as [[| | | | | | | |p]|]; try discriminate. destruct (lookup "matching_cost" p) as [c|]; try discriminate. injection Gu as ->.
    destruct (lookup "pipeline" cfg) as [[| | | | | | | |p2]|]; try discriminate. destruct (lookup "matching_cost" p2) as [c|]; try discriminate. injection Gz as ->.
    destruct (lookup k u) as [v'|] eqn:Lu; [|discriminate]. injection Hg as ->.
    pose proof (read_lookup _ _ k Wu Hm) as R. rewrite Lu in R. destruct (merge1 (JDict []) v) as [v'|] eqn:Em.
    - assert (Lv : lookup k (assign "step" b x) = Some v').
      { rewrite lookup_assign. destruct Hk as [<-|[<-|[<-|[]]]]; exact R. }
      pose proof (HK _ _ _ _ Hp k v' Lv Hk) as K. rewrite (G k Hk), K.
      destruct (HP _ _ _ _ Hp) as (I1 & I2 & I3 & _).
      assert (I : is_integer v') by (destruct Hk as [<-|[<-|[<-|[]]]]; cbn in K; injection K as <-; assumption).
      assert (v' = v) as ->; [|auto]. destruct (is_dict v) eqn:Dv.
      + destruct v; try discriminate. unfold merge1 in Em. cbn [is_dict] in Em. rewrite update_conf_dict in Em. destruct (upd_items _ _); [|discriminate].
        cbn in Em. injection Em as <-. destruct I as [[? X]|[? X]]; discriminate.
      + unfold merge1 in Em. rewrite Dv in Em. assert (conv v = v') as X by congruence. pose proof (conv_reads v) as C. rewrite X in C. clear X.
        destruct C; try reflexivity; destruct I as [[? Y]|[? Y]]; discriminate.
    - exfalso. destruct (is_dict v) eqn:Dv; [|unfold merge1 in Em; rewrite Dv in Em; discriminate].
      destruct (update_empty_total v Dv (wf_lookup _ _ _ Wu Lu)) as (c & E). unfold merge1 in Em. rewrite Dv, E in Em. discriminate.
  Qed.
End Environment.

(** * The configuration saved by the program *)
Section Program.
  (** The libraries: see WholeModel. *)
  Context {px : Type} (px_eqb : px -> px -> bool) (nan : px).
  Variable bool_ok : bool.
  Variable pandora_check : dict -> option (json * json * json).
  Variable matching_cost_margins : dict -> margins.
  Variable can_open_mandatory can_open : json -> bool.
  Variable images_ok : json -> json -> json -> json -> bool.
  Variable image_size : string -> nat * nat.
  Variable open_raster : string -> reader.
  Variable load : dict -> Z -> nat -> Z -> nat -> image px.
  Variable transform_of : dict -> option affine.
  Variable dataset_ok : image_dataset (image px) -> bool.
  Variable measure_of : dict -> measure.
  Variable offset_of : dict -> Z.
  Variable pandora_cost : dict -> mc_input -> image px -> list (list px) -> list (list Z) -> nat -> nat -> nat -> ext.
  Variable zoomed : image px -> nat -> nat -> nat -> px.
  Variable one : Z.
  Variable store : ext -> ext.
  Variable filter_apply : dict -> list (list ext) -> Z -> Z -> ext.
  Variable lstsq : list (list px) -> list (list px) -> option (num * num).
  Variable resample : list (list px) -> num -> num -> list (list px).
  Variable junk : nat -> list (list px).
  Variable interp : list Q -> list Q -> list (list cost) -> num -> num -> cost.
  Variable minimise : (num -> num -> cost) -> num * num -> (Q * Q) * (Q * Q) -> num * num.
  Variable estimate : json -> image px -> image px -> (Q * Q) * json * json.
  Variable global_margins : list (string * margins) -> list (string * margins) -> margins.
  Variable margins_to_dict : list (string * margins) -> list (string * margins) -> json.
  Notation main := (main px_eqb nan bool_ok pandora_check matching_cost_margins can_open_mandatory can_open images_ok image_size open_raster load transform_of dataset_ok
    measure_of offset_of pandora_cost zoomed one store filter_apply lstsq resample junk interp minimise estimate global_margins margins_to_dict).
  Variables (user : dict) (out : outcome).
  Hypothesis HP : pandora_contract pandora_check.
  Hypothesis Hw : wf (JDict user).
  Hypothesis Hmain : main user = Some out.
  Notation method n := (get_path ["pipeline"; n; "refinement_method"] (JDict user)).

  (** With or without estimation, what is kept by the check is saved. *)
  Theorem C109_saved_kept n k rest v : n <> "estimation" \/ ~ In k estimation_results ->
    get_path ("pipeline" :: n :: k :: rest) (JDict user) = Some v -> is_dict v = false -> ~ other_rule n (method n) k ->
    exists w, get_path ("pipeline" :: n :: k :: rest) (JDict (o_cfg out)) = Some w /\ reads_as v w.
  Proof.
    intros Hk Hg Hv Ho.
    destruct (main_unwritten _ _ _ _ _ _ _ _ _ _ _ _ _ _ _ _ _ _ _ _ _ _ _ _ _ _ _ _ user out Hmain) as (m & cfg & Hc & K). unfold check_user in Hc.
    destruct (C109_kept _ _ _ _ _ _ _ _ _ _ _ _ _ _ _ HP Hw Hc n k rest v Hg Hv Ho) as (w & G & R). exists w. split; [|exact R].
    apply K; [now constructor | exact G].
  Qed.
  Theorem C109_saved_default n k v : get_path ["pipeline"; n] (JDict user) <> None -> get_path ["pipeline"; n; k] (JDict user) = None -> ~ other_rule n (method n) k ->
    lookup k (defaults n (method n)) = Some v -> get_path ["pipeline"; n; k] (JDict (o_cfg out)) = Some v.
  Proof.
    intros Hn Hg Ho Hd.
    destruct (main_unwritten _ _ _ _ _ _ _ _ _ _ _ _ _ _ _ _ _ _ _ _ _ _ _ _ _ _ _ _ user out Hmain) as (m & cfg & Hc & K). unfold check_user in Hc.
    apply K; [|rewrite <- Hd; exact (C109_default _ _ _ _ _ _ _ _ _ _ _ _ _ _ _ HP Hw Hc n k Hn Hg Ho)].
    constructor. right. intros X. unfold defaults in Hd. destruct (n =? "estimation"); [destruct X as [<-|[<-|[<-|[]]]]; discriminate|].
    destruct (n =? "matching_cost"); [destruct X as [<-|[<-|[<-|[]]]]; discriminate|]. destruct (n =? "disparity"); [destruct X as [<-|[<-|[<-|[]]]]; discriminate|].
    destruct (method n) as [[| | | | | |q| |]|]; try discriminate. destruct (q =? "optical_flow"); [|discriminate]. destruct X as [<-|[<-|[<-|[]]]]; discriminate.
  Qed.
  (** Nothing else is saved when there is no estimation. *)
  Theorem C109_saved_absent n k : get_path ["pipeline"; "estimation"] (JDict user) = None ->
    get_path ["pipeline"; n] (JDict user) <> None -> get_path ["pipeline"; n; k] (JDict user) = None -> ~ other_rule n (method n) k ->
    lookup k (defaults n (method n)) = None -> get_path ["pipeline"; n; k] (JDict (o_cfg out)) = None.
  Proof.
    intros HE Hn Hg Ho Hd.
    destruct (C75_saved_configuration _ _ _ _ _ _ _ _ _ _ _ _ _ _ _ _ _ _ _ _ _ _ _ _ _ _ _ _ user out HP Hw HE Hmain) as (m & cfg & Hc & _ & K & _). unfold check_user in Hc.
    rewrite <- Hd, <- (C109_default _ _ _ _ _ _ _ _ _ _ _ _ _ _ _ HP Hw Hc n k Hn Hg Ho). cbn [get_path]. now rewrite (K "pipeline") by discriminate.
  Qed.
  (** The sections input and ROI (C75), with an estimation too: the disparities of the input are the only values that may change. *)
  Theorem C75_user_values_estimation path v : get_path path (JDict user) = Some v -> is_dict v = false -> unwritten path -> hd_error path <> Some "pipeline" ->
    exists w, get_path path (JDict (o_cfg out)) = Some w /\ reads_as v w.
  Proof.
    intros Hg Hv Hu Hn.
    destruct (main_unwritten _ _ _ _ _ _ _ _ _ _ _ _ _ _ _ _ _ _ _ _ _ _ _ _ _ _ _ _ user out Hmain) as (m & cfg & Hc & K). unfold check_user in Hc.
    exists (conv v). split; [|apply conv_reads]. apply K; [exact Hu|]. destruct Hu as [k rest K1 K2|n k rest _|k rest _]; [| cbn in Hn; congruence |].
    - exact (kept_input _ _ _ _ _ _ _ _ _ _ _ HP _ _ _ _ Hw Hc (k :: rest) v Hg Hv).
    - exact (kept_roi _ _ _ _ _ _ _ _ _ _ _ HP _ _ _ _ Hw Hc (k :: rest) v Hg Hv).
  Qed.
End Program.

(** * Examples *)
Lemma pandora_default_keeps : keeps_values pandora_default.
Proof.
  intros c w s o H k v Hv Hk. unfold pandora_default in H.
  destruct (match lookup "window_size" c with Some (JInt v) => Some (JInt v) | None => Some (JInt 5) | Some _ => None end) eqn:E1; [|discriminate].
  destruct (match lookup "subpix" c with Some (JInt v) => Some (JInt v) | None => Some (JInt 1) | Some _ => None end) eqn:E2; [|discriminate].
  destruct (match lookup "spline_order" c with Some (JInt v) => Some (JInt v) | None => Some (JInt 1) | Some _ => None end) eqn:E3; [|discriminate].
  injection H as <- <- <-. destruct Hk as [<-|[<-|[<-|[]]]]; cbn; rewrite Hv in *; destruct v; congruence.
Qed.
(** The optical flow of CheckConfProps with a window of 7, which the refinement must not change; then an estimation and a dichotomy of twelve iterations. *)
Definition d_user (estimation : dict) (disparity : dict) (refinement : dict) (input : dict) : dict :=
  [("pipeline", JDict (estimation ++ [("matching_cost", JDict [("matching_cost_method", JStr "zncc"); ("window_size", JInt 7); ("step", JList [JInt 2; JInt 1])]);
                                      ("disparity", JDict ([("disparity_method", JStr "wta")] ++ disparity)); ("refinement", JDict refinement)]));
   ("input", JDict ([("left", JDict [("img", JStr "left.tif")]); ("right", JDict [("img", JStr "right.tif")])] ++ input))].
Definition d_flow : dict := d_user [] [("invalid_disparity", JStr "NaN")] [("refinement_method", JStr "optical_flow"); ("window_size", JInt 3)]
  [("col_disparity", example_disparity); ("row_disparity", example_disparity)].
Definition d_dichotomy : dict := d_user [("estimation", JDict [("estimation_method", JStr "phase_cross_correlation"); ("range_row", JInt 3)])] []
  [("refinement_method", JStr "dichotomy"); ("iterations", JInt 12); ("filter", JDict [("method", JStr "sinc"); ("size", JInt 8)])] [].
Definition d_step (n k : string) (user : dict) : option json :=
  match snd (env_check user (new_machine tt)) with Some cfg => get_path ["pipeline"; n; k] (JDict cfg) | None => None end.
Example C109_example : wf (JDict d_flow) /\ wf (JDict d_dichotomy) /\
  snd (env_check d_flow (new_machine tt)) <> None /\ snd (env_check d_dichotomy (new_machine tt)) <> None /\
  d_step "disparity" "invalid_disparity" d_flow = Some JNan /\ d_step "disparity" "invalid_disparity" d_dichotomy = Some (JInt (-9999)) /\
  d_step "refinement" "window_size" d_flow = Some (JInt 7) /\ d_step "refinement" "step" d_flow = Some (JList [JInt 2; JInt 1]) /\
  d_step "refinement" "iterations" d_flow = Some (JInt 4) /\ d_step "refinement" "iterations" d_dichotomy = Some (JInt 9) /\
  d_step "refinement" "filter" d_dichotomy = Some (JDict [("method", JStr "sinc"); ("size", JInt 8)]) /\
  d_step "estimation" "range_row" d_dichotomy = Some (JInt 3) /\ d_step "estimation" "range_col" d_dichotomy = Some (JInt 5) /\ d_step "estimation" "sample_factor" d_dichotomy = Some (JInt 1) /\
  d_step "matching_cost" "window_size" d_flow = Some (JInt 7) /\ d_step "matching_cost" "subpix" d_flow = Some (JInt 1).
Proof.
  split; [unfold d_flow, d_user, example_disparity; cbn [app]; solve_wf|]. split; [unfold d_dichotomy, d_user; cbn [app]; solve_wf|].
  vm_compute. repeat split; discriminate.
Qed.
(** The documentation (docs/source/userguide/step_by_step/disparity.rst) gives NaN for an invalid disparity that is left out. *)
Theorem C109_documented_refuted : exists user m cfg, wf (JDict user) /\ env_check user (new_machine tt) = (m, Some cfg) /\
  get_path ["pipeline"; "disparity"; "invalid_disparity"] (JDict user) = None /\ get_path ["pipeline"; "disparity"; "invalid_disparity"] (JDict cfg) <> Some JNan.
Proof.
  exists d_dichotomy. do 2 eexists. split; [unfold d_dichotomy, d_user; cbn [app]; solve_wf|]. split; [vm_compute; reflexivity|]. split; [reflexivity|]. vm_compute. discriminate.
Qed.
(** The hypotheses of the theorems on the saved configuration: those of C75_example and C76_example. *)
Example C109_saved_example : pandora_contract wh_pandora /\ wf (JDict wh_user1) /\ get_path ["pipeline"; "estimation"] (JDict wh_user1) = None /\ wh_main wh_user1 <> None /\
  get_path ["pipeline"; "matching_cost"; "step"] (JDict wh_user1) = Some (JList [JInt 2; JInt 3]) /\
  ~ other_rule "matching_cost" (get_path ["pipeline"; "matching_cost"; "refinement_method"] (JDict wh_user1)) "step" /\
  wf (JDict wh_user5) /\ option_map (fun out => get_path ["pipeline"; "estimation"] (JDict (o_cfg out))) (wh_main wh_user5) =
    Some (Some (JDict [("estimation_method", JStr "phase_cross_correlation"); ("range_row", JInt 3); ("range_col", JInt 5); ("sample_factor", JInt 1);
                       ("estimated_shifts", JList [JFloat 0; JFloat 0]); ("error", JNull); ("phase_diff", JNull)])).
Proof.
  split; [exact wh_pandora_contract|]. split; [wh_wf|]. split; [reflexivity|]. split; [vm_compute; discriminate|]. split; [reflexivity|]. split.
  - intros [[_ X]|[[X _]|[X _]]]; try discriminate. cbn in X. intuition discriminate.
  - split; [unfold wh_user5, wh_user_estimation, wh_roi; cbn [app]; solve_wf|]. vm_compute. reflexivity.
Qed.

Print Assumptions C109_kept.
Print Assumptions C109_default.
Print Assumptions C109_iterations.
Print Assumptions C109_optical_flow.
Print Assumptions C109_pandora.
Print Assumptions C109_saved_kept.
Print Assumptions C109_saved_default.
Print Assumptions C109_saved_absent.
Print Assumptions C75_user_values_estimation.
Print Assumptions C109_documented_refuted.
