(** C17 and C37: completion and checks of the configuration. *)
From Coq Require Import List String Bool ZArith QArith Lia.
From Verif Require Import Base.Json Model.ConfigModel Spec.ConfigSpec Proofs.ConfigProofs Proofs.ConfigStepProofs.
Import ListNotations.
Open Scope Z_scope.
Open Scope string_scope.
Open Scope list_scope.

(** * C17 *)

(** ** The merge with the defaults *)

(** Every value of the user is in the result; "NaN", "inf" and "-inf" are read as floats. *)
Theorem C17_user_values_kept d u r p v w : wf u -> update_conf d u = Some r ->
  get_path p u = Some v -> is_dict v = false -> reads_as v w -> get_path p r = Some w.
Proof. intros Hw H Hp Hv Hr. apply reads_conv in Hr. subst w. eapply update_keeps; eauto. Qed.
(** Every key of the result is a key of the user or of the defaults. *)
Theorem C17_only_defaults_added d u r p : wf u -> update_conf d u = Some r -> get_path p r <> None ->
  get_path p u <> None \/ get_path p d <> None.
Proof. intros. eapply update_adds; eauto. Qed.
(** Where the user wrote nothing, the result is the default. *)
Theorem C17_defaults_elsewhere d u r p : wf u -> update_conf d u = Some r -> get_path p u = None ->
  (forall q v, strict_prefix q p -> get_path q u = Some v -> is_dict v = true) -> get_path p r = get_path p d.
Proof. intros. eapply update_default; eauto. Qed.
(** Merging the result again changes nothing. *)
Theorem C17_merge_again d u r : wf d -> wf u -> normal d -> is_dict d = true -> update_conf d u = Some r -> update_conf d r = Some r.
Proof. intros Hd Hu Hn Hx H. exact (proj2 (update_again u d r Hu Hd Hn Hx H)). Qed.

Definition user_example : json :=
  JDict [("input", JDict [("left", JDict [("img", JStr "left.tif"); ("nodata", JStr "NaN")]);
                          ("right", JDict [("img", JStr "right.tif"); ("nodata", JInt 5)])])].
Example C17_merge_example :
  wf user_example /\ wf default_short_configuration_input /\ normal default_short_configuration_input /\
  get_path ["input"; "left"; "nodata"] user_example = Some (JStr "NaN") /\ reads_as (JStr "NaN") JNan /\
  get_path ["input"; "right"; "mask"] user_example = None /\
  complete_input false user_example =
    Some (JDict [("input", JDict [("left", JDict [("nodata", JNan); ("mask", JNull); ("img", JStr "left.tif")]);
                                  ("right", JDict [("nodata", JInt 5); ("mask", JNull); ("img", JStr "right.tif")])])]).
Proof.
  assert (N : forall a b : string, a <> b -> NoDup [a; b]).
  { intros a b H. repeat constructor; cbn; intuition. }
  assert (W2 : forall k1 v1 k2 v2, k1 <> k2 -> wf v1 -> wf v2 -> wf (JDict [(k1, v1); (k2, v2)])).
  { intros. constructor; [now apply N|]. intros k v [H'|[H'|[]]]; injection H' as <- <-; auto. }
  assert (W1 : forall k1 v1, wf v1 -> wf (JDict [(k1, v1)])).
  { intros. constructor; [repeat constructor; cbn; tauto|]. intros k v [H'|[]]; injection H' as <- <-; auto. }
  split; [|split; [|split; [|split; [|split; [|split]]]]]; try reflexivity; [| | |constructor].
  - apply W1, W2; [discriminate| |]; apply W2; try discriminate; now constructor.
  - apply W1, W2; [discriminate| |]; apply W2; try discriminate; now constructor.
  - intros p v H. apply reads_same; intros ->.
    all: destruct p as [|k1 [|k2 [|k3 [|k4 p]]]]; cbn in H; try discriminate;
      repeat (match type of H with context [?a =? ?b] => destruct (a =? b) end; cbn in H; try discriminate).
Qed.

(** The completion done by check_input_section. *)
Theorem C17_input estimation user r : wf user -> complete_input estimation user = Some r ->
  (forall p v w, get_path p user = Some v -> is_dict v = false -> reads_as v w -> get_path p r = Some w) /\
  (forall p, get_path p r <> None -> get_path p user <> None \/ get_path p default_short_configuration_input <> None \/
             (estimation = true /\ get_path p default_configuration_disp <> None)).
Proof.
  intros Hw H. unfold complete_input in H.
  destruct (update_conf default_short_configuration_input user) as [c|] eqn:E; [|discriminate].
  assert (Hd : wf default_short_configuration_input).
  { apply (proj1 (proj2 C17_merge_example)). }
  destruct estimation.
  - assert (Hc : wf c) by (exact (update_wf _ _ _ Hw Hd E)). split.
    + intros p v w Hp Hv Hr. assert (Hx := C17_user_values_kept _ _ _ _ _ _ Hw E Hp Hv Hr).
      assert (Hl : is_dict w = false). { apply reads_conv in Hr. subst w. now apply conv_leaf. }
      assert (Hs : reads_as w w). { apply reads_conv in Hr. subst w. rewrite <- (conv_conv v) at 2. apply conv_reads. }
      exact (C17_user_values_kept _ _ _ _ _ _ Hc H Hx Hl Hs).
    + intros p Hp. destruct (C17_only_defaults_added _ _ _ _ Hc H Hp) as [G|G]; [|now right; right].
      destruct (C17_only_defaults_added _ _ _ _ Hw E G); auto.
  - injection H as <-. split.
    + intros p v w. exact (C17_user_values_kept _ _ _ _ _ _ Hw E).
    + intros p Hp. destruct (C17_only_defaults_added _ _ _ _ Hw E Hp); auto.
Qed.

(** ** The check of each step *)
Theorem C17_estimation b cfg cfg' : estimation_check_conf b cfg = Some cfg' ->
  completed_by [("range_row", JInt 5); ("range_col", JInt 5); ("sample_factor", JInt 1)] cfg cfg' /\
  estimation_check_conf b cfg' = Some cfg'.
Proof. apply estimation_result. Qed.
Example C17_estimation_example :
  estimation_check_conf false [("estimation_method", JStr "phase_cross_correlation"); ("range_col", JInt 7)] =
  Some [("estimation_method", JStr "phase_cross_correlation"); ("range_col", JInt 7); ("range_row", JInt 5); ("sample_factor", JInt 1)].
Proof. reflexivity. Qed.

(** The string "NaN" is read as a float. *)
Theorem C17_disparity b cfg cfg' : NoDup (keys cfg) -> disparity_check_conf b cfg = Some cfg' ->
  (lookup "invalid_disparity" cfg <> Some (JStr "NaN") -> completed_by [("invalid_disparity", JInt (-9999))] cfg cfg') /\
  (lookup "invalid_disparity" cfg = Some (JStr "NaN") -> completed_except "invalid_disparity" JNan [] cfg cfg') /\
  disparity_check_conf b cfg' = Some cfg'.
Proof.
  intros Hn H. destruct (disparity_again _ _ _ Hn H) as [-> Ha]. split; [|split; [|exact Ha]].
  - intros Hx k. rewrite disparity_lookup. cbn [lookup]. destruct (String.eqb_spec k "invalid_disparity") as [->|].
    + destruct (lookup "invalid_disparity" cfg) as [[| | | | | |s| |]|]; auto.
      destruct (String.eqb_spec s "NaN"); [subst; congruence | reflexivity].
    + now destruct (lookup k cfg).
  - intros Hx k. rewrite disparity_lookup, Hx. cbn. destruct (k =? "invalid_disparity"); [reflexivity|]. now destruct (lookup k cfg).
Qed.
Example C17_disparity_example :
  disparity_check_conf false [("disparity_method", JStr "wta")] = Some [("disparity_method", JStr "wta"); ("invalid_disparity", JInt (-9999))] /\
  disparity_check_conf false [("disparity_method", JStr "wta"); ("invalid_disparity", JStr "NaN")] =
    Some [("disparity_method", JStr "wta"); ("invalid_disparity", JNan)].
Proof. split; reflexivity. Qed.

(** More than 9 iterations become 9. *)
Theorem C17_dichotomy b cfg cfg' : wf (JDict cfg) -> dichotomy_init b cfg = Some cfg' ->
  exists j n, lookup "iterations" cfg = Some j /\ int_value b j n /\
    (n <= 9 -> completed_by [] cfg cfg') /\ (9 < n -> completed_except "iterations" (JInt 9) [] cfg cfg') /\
    dichotomy_init b cfg' = Some cfg'.
Proof.
  intros Hw H. destruct (dichotomy_result _ _ _ H) as (j & n & Hj & Hn & E). exists j, n. split; [auto|]. split; [auto|].
  split; [|split; [|eapply dichotomy_again; eauto]].
  - intros Hle. destruct (Z.ltb_spec 9 n); [lia|]. subst. intros k. now destruct (lookup k cfg).
  - intros Hlt. destruct (Z.ltb_spec 9 n); [|lia]. subst. intros k. rewrite lookup_assign. cbn [lookup].
    destruct (k =? "iterations"); [reflexivity|]. now destruct (lookup k cfg).
Qed.
Example C17_dichotomy_example :
  dichotomy_init false [("refinement_method", JStr "dichotomy"); ("iterations", JInt 12); ("filter", JDict [("method", JStr "bicubic")])] =
  Some [("refinement_method", JStr "dichotomy"); ("iterations", JInt 9); ("filter", JDict [("method", JStr "bicubic")])].
Proof. reflexivity. Qed.

(** The window and the step are those of the matching cost, whatever the user wrote. *)
Theorem C17_optical_flow b step w cfg cfg' : optical_flow_init b step w cfg = Some cfg' ->
  lookup "window_size" cfg' = Some w /\
  lookup "step" cfg' = Some (match step with Some s => s | None => JList [JInt 1; JInt 1] end) /\
  (forall k, k <> "window_size" -> k <> "step" ->
     lookup k cfg' = match lookup k cfg with Some v => Some v | None => lookup k [("iterations", JInt 4)] end) /\
  optical_flow_init b step w cfg' = Some cfg'.
Proof.
  intros H. destruct (optical_flow_result _ _ _ _ _ H) as [L A]. split; [now rewrite L|]. split; [now rewrite L|]. split; [|exact A].
  intros k H1 H2. rewrite L. apply String.eqb_neq in H1, H2. now rewrite H1, H2.
Qed.
Example C17_optical_flow_example :
  optical_flow_init false (Some (JList [JInt 1; JInt 2])) (JInt 5) [("refinement_method", JStr "optical_flow"); ("window_size", JInt 3)] =
  Some [("refinement_method", JStr "optical_flow"); ("window_size", JInt 5); ("step", JList [JInt 1; JInt 2]); ("iterations", JInt 4)].
Proof. reflexivity. Qed.

Theorem C17_interpolation cfg cfg' : interpolation_init cfg = Some cfg' -> cfg' = cfg.
Proof. apply interpolation_result. Qed.
Example C17_interpolation_example : interpolation_init [("refinement_method", JStr "interpolation")] = Some [("refinement_method", JStr "interpolation")].
Proof. reflexivity. Qed.

(** The matching cost, for a Pandora that keeps the values it is given and accepts again what it completed. *)
Definition pandora_keeps (pandora_check : dict -> option (json * json * json)) : Prop :=
  forall c w s o, pandora_check c = Some (w, s, o) ->
    (forall v, lookup "window_size" c = Some v -> w = v) /\ (forall v, lookup "subpix" c = Some v -> s = v) /\
    (forall v, lookup "spline_order" c = Some v -> o = v).
Definition pandora_stable (pandora_check : dict -> option (json * json * json)) : Prop :=
  forall c m st w s o, lookup "matching_cost_method" c = Some m -> lookup "step" c = Some st -> pandora_check c = Some (w, s, o) ->
    pandora_check [("matching_cost_method", m); ("step", st); ("window_size", w); ("subpix", s); ("spline_order", o)] = Some (w, s, o).
Theorem C17_matching_cost pandora_check cfg cfg' : pandora_keeps pandora_check -> pandora_stable pandora_check ->
  matching_cost_init pandora_check cfg = Some cfg' ->
  keys cfg' = ["matching_cost_method"; "step"; "window_size"; "subpix"; "spline_order"] /\
  (forall k v, In k (keys cfg') -> lookup k cfg = Some v -> lookup k cfg' = Some v) /\
  (lookup "step" cfg = None -> lookup "step" cfg' = Some (JList [JInt 1; JInt 1])) /\
  matching_cost_init pandora_check cfg' = Some cfg'.
Proof.
  intros HK HS H. destruct (matching_cost_result _ _ _ H) as (m & a & b & w & s & o & Hm & Ms & Hs & Ha & Hb & Hp & ->).
  assert (L : forall k, k <> "step" -> lookup k (assign "step" b cfg) = lookup k cfg).
  { intros k Hk. rewrite lookup_assign. apply String.eqb_neq in Hk. now rewrite Hk. }
  destruct (HK _ _ _ _ Hp) as (Kw & Ks & Ko). rewrite !L in Kw, Ks, Ko by discriminate.
  split; [reflexivity|]. split; [|split].
  - intros k v [<-|[<-|[<-|[<-|[<-|[]]]]]] Hv; cbn [fst] in Hv; cbn; try congruence.
    + now rewrite Hv in Hs; subst.
    + f_equal. now apply Kw.
    + f_equal. now apply Ks.
    + f_equal. now apply Ko.
  - intros Hn. rewrite Hn in Hs. injection Hs as <- <-. reflexivity.
  - assert (Hp' := HS _ m b _ _ _ ltac:(rewrite L by discriminate; exact Hm) ltac:(now rewrite lookup_assign) Hp).
    set (cfg' := [("matching_cost_method", m); ("step", JList [a; b]); ("window_size", w); ("subpix", s); ("spline_order", o)]) in *.
    assert (N : matching_cost_init pandora_check cfg' <> None).
    { apply matching_cost_accepts. exists m, a, b. cbn. repeat split; auto. congruence. }
    destruct (matching_cost_init pandora_check cfg') as [c|] eqn:Ec; [|congruence].
    destruct (matching_cost_result _ _ _ Ec) as (m2 & a2 & b2 & w2 & s2 & o2 & Hm2 & _ & Hs2 & _ & _ & Hp2 & ->).
    cbn in Hm2, Hs2. injection Hm2 as <-. injection Hs2 as <- <-. cbn in Hp2. unfold cfg'. congruence.
Qed.
Definition pandora_example (c : dict) : option (json * json * json) :=
  let get k d := match lookup k c with Some v => v | None => d end in
  Some (get "window_size" (JInt 5), get "subpix" (JInt 1), get "spline_order" (JInt 1)).
Example C17_matching_cost_example :
  pandora_keeps pandora_example /\ pandora_stable pandora_example /\
  matching_cost_init pandora_example [("matching_cost_method", JStr "zncc"); ("window_size", JInt 7)] =
  Some [("matching_cost_method", JStr "zncc"); ("step", JList [JInt 1; JInt 1]); ("window_size", JInt 7); ("subpix", JInt 1); ("spline_order", JInt 1)].
Proof.
  split; [|split; [|reflexivity]].
  - intros c w s o H. injection H as <- <- <-. repeat split; intros v Hv; now rewrite Hv.
  - intros c m st w s o _ _ H. reflexivity.
Qed.

(** * C37: accepted values *)
Theorem C37_estimation b cfg : NoDup (keys cfg) -> (estimation_check_conf b cfg <> None <-> described (estimation_fields b) cfg).
Proof. apply estimation_accepts. Qed.
Theorem C37_dichotomy b cfg : wf (JDict cfg) -> (dichotomy_init b cfg <> None <-> described (dichotomy_fields b) cfg).
Proof. apply dichotomy_accepts. Qed.
(** The number of iterations that is used is the one of the user, at most 9. *)
Theorem C37_dichotomy_iterations b cfg cfg' j n : dichotomy_init b cfg = Some cfg' -> lookup "iterations" cfg = Some j -> int_value b j n ->
  exists j', lookup "iterations" cfg' = Some j' /\ int_value b j' (Z.min n 9).
Proof.
  intros H Hj Hn. destruct (dichotomy_result _ _ _ H) as (j2 & n2 & Hj2 & Hn2 & E). rewrite Hj in Hj2. injection Hj2 as <-.
  rewrite (int_value_unique _ _ _ _ Hn2 Hn) in *. destruct (Z.ltb_spec 9 n); subst.
  - exists (JInt 9). rewrite lookup_assign. split; [reflexivity|]. replace (Z.min n 9) with 9 by lia. constructor.
  - exists j. replace (Z.min n 9) with n by lia. auto.
Qed.
Theorem C37_optical_flow b step w cfg : NoDup (keys cfg) ->
  (optical_flow_init b step w cfg <> None <->
   described (optical_flow_fields b) cfg /\ odd_window b w /\
   pair_at_least_one (match step with Some s => s | None => JList [JInt 1; JInt 1] end)).
Proof. apply optical_flow_accepts. Qed.
Theorem C37_interpolation cfg : NoDup (keys cfg) -> (interpolation_init cfg <> None <-> described interpolation_fields cfg).
Proof. apply interpolation_accepts. Qed.
Theorem C37_filter b f : NoDup (keys f) -> (filter_check_conf b f <> None <-> described bicubic_fields f \/ described (sinc_fields b) f).
Proof. apply filter_accepts. Qed.
Theorem C37_disparity b cfg : NoDup (keys cfg) -> (disparity_check_conf b cfg <> None <-> described (disparity_fields b) cfg).
Proof. apply disparity_accepts. Qed.
Theorem C37_roi b roi : wf (JDict roi) -> (check_roi b roi = true <-> described (roi_fields b) roi).
Proof. apply roi_accepts. Qed.
Theorem C37_matching_cost pandora_check cfg :
  matching_cost_init pandora_check cfg <> None <->
  exists m a b,
    lookup "matching_cost_method" cfg = Some m /\ string_among ["ssd"; "sad"; "zncc"; "mc_cnn"] m /\
    match lookup "step" cfg with Some x => x | None => JList [JInt 1; JInt 1] end = JList [a; b] /\
    number_at_least_one a /\ number_at_least_one b /\ pandora_check (assign "step" b cfg) <> None.
Proof. apply matching_cost_accepts. Qed.
(** Every documented step is accepted; what is accepted is a pair of numbers, not always integers. *)
Theorem C37_step j : (documented_step j -> step_schema j = true) /\ (step_schema j = true <-> pair_at_least_one j).
Proof.
  split; [|apply step_schema_spec]. intros (a & b & -> & Ha & Hb). apply step_schema_spec.
  exists (JInt a), (JInt b). split; [reflexivity|]. split; now constructor.
Qed.
(** A row step that is not an integer is accepted by the check of the matching cost: Pandora sees the column step only. *)
Theorem C50_step_refuted : exists cfg step, lookup "step" cfg = Some step /\ ~ documented_step step /\
  forall pandora_check, pandora_check [("matching_cost_method", JStr "sad"); ("step", JInt 1)] <> None ->
    matching_cost_init pandora_check cfg <> None.
Proof.
  exists [("matching_cost_method", JStr "sad"); ("step", JList [JFloat (3 # 2); JInt 1])], (JList [JFloat (3 # 2); JInt 1]).
  split; [reflexivity|]. split; [intros (a & b & H & _); discriminate|].
  intros pc H. apply matching_cost_accepts. exists (JStr "sad"), (JFloat (3 # 2)), (JInt 1). cbn.
  split; [reflexivity|]. split; [exists "sad"; cbn; auto|]. split; [reflexivity|]. split; [constructor; discriminate|]. split; [constructor; lia | exact H].
Qed.

(** Members and non members of each domain. *)
Example C37_examples :
  estimation_check_conf false [("estimation_method", JStr "phase_cross_correlation"); ("range_row", JInt 4)] = None /\
  estimation_check_conf false [("estimation_method", JStr "phase_cross_correlation"); ("sample_factor", JInt 20)] <> None /\
  estimation_check_conf false [("estimation_method", JStr "phase_cross_correlation"); ("sample_factor", JInt 15)] = None /\
  dichotomy_init false [("refinement_method", JStr "dichotomy"); ("iterations", JInt 0); ("filter", JDict [("method", JStr "bicubic")])] = None /\
  filter_check_conf false [("method", JStr "sinc"); ("size", JInt 21)] <> None /\
  filter_check_conf false [("method", JStr "sinc"); ("size", JInt 22)] = None /\
  optical_flow_init false None (JInt 4) [("refinement_method", JStr "optical_flow")] = None /\
  optical_flow_init false None (JInt 5) [("refinement_method", JStr "optical_flow")] <> None /\
  disparity_check_conf false [("disparity_method", JStr "wta"); ("invalid_disparity", JStr "none")] = None /\
  check_roi false [("row", JDict [("first", JInt 3); ("last", JInt 3)]); ("col", JDict [("first", JInt 0); ("last", JInt 9)])] = true /\
  check_roi false [("row", JDict [("first", JInt 4); ("last", JInt 3)]); ("col", JDict [("first", JInt 0); ("last", JInt 9)])] = false /\
  wf (JDict [("row", JDict [("first", JInt 4); ("last", JInt 3)]); ("col", JInt 0)]).
Proof.
  repeat split; try reflexivity; try discriminate.
  constructor; [repeat constructor; cbn; intuition discriminate|].
  intros k v [H|[H|[]]]; injection H as <- <-; [|now constructor].
  constructor; [repeat constructor; cbn; intuition discriminate|].
  intros k v [H|[H|[]]]; injection H as <- <-; now constructor.
Qed.
Example C37_matching_cost_example :
  matching_cost_init pandora_example [("matching_cost_method", JStr "sad"); ("step", JList [JInt 2; JInt 3])] <> None /\
  matching_cost_init pandora_example [("matching_cost_method", JStr "sad"); ("step", JList [JInt 2; JInt 0])] = None /\
  matching_cost_init pandora_example [("matching_cost_method", JStr "census")] = None.
Proof. repeat split; try reflexivity; discriminate. Qed.

Print Assumptions C17_user_values_kept.
Print Assumptions C17_only_defaults_added.
Print Assumptions C17_defaults_elsewhere.
Print Assumptions C17_merge_again.
Print Assumptions C17_input.
Print Assumptions C17_estimation.
Print Assumptions C17_disparity.
Print Assumptions C17_dichotomy.
Print Assumptions C17_optical_flow.
Print Assumptions C17_interpolation.
Print Assumptions C17_matching_cost.
Print Assumptions C37_estimation.
Print Assumptions C37_dichotomy.
Print Assumptions C37_dichotomy_iterations.
Print Assumptions C37_optical_flow.
Print Assumptions C37_interpolation.
Print Assumptions C37_filter.
Print Assumptions C37_disparity.
Print Assumptions C37_roi.
Print Assumptions C37_matching_cost.
Print Assumptions C37_step.
Print Assumptions C50_step_refuted.
