(** C70: the configurations that are accepted. *)
From Coq Require Import List String Bool ZArith Lia.
From Verif Require Import Base.Json Base.Arr Model.CommonModel Model.ConfigModel Model.InputModel Model.MachineModel Model.CheckConfModel
  Spec.ConfigSpec Spec.MachineSpec Spec.CheckConfSpec Spec.AcceptSpec Proofs.ConfigProofs Proofs.MachineProofs Proofs.AcceptProofs Props.CheckConfProps.
Import ListNotations.
Open Scope Z_scope.
Open Scope string_scope.
Open Scope list_scope.

Section Environment.
  Context {D M : Type}.
  Variable bool_ok : bool.
  Variable pandora_check : dict -> option (json * json * json).
  Variable matching_cost_margins refinement_margins : dict -> M.
  Variable disparity_margins : M.
  Variable run_step : callback -> string -> json -> option M -> option json -> option json -> D -> option D.
  Variable can_open_mandatory can_open : json -> bool.
  Variable images_ok : json -> json -> json -> json -> bool.
  Variable image_size : string -> nat * nat.
  Variable open_raster : string -> reader.
  Notation check_conf := (check_conf bool_ok pandora_check matching_cost_margins refinement_margins disparity_margins run_step
    can_open_mandatory can_open (check_images_of images_ok) image_size open_raster).
  Notation accepted := (accepted bool_ok pandora_check can_open_mandatory can_open images_ok image_size open_raster).
  (** Images are not empty. *)
  Definition sized : Prop := forall s, (0 < fst (image_size s))%nat /\ (0 < snd (image_size s))%nat.

  (** * C70: a configuration is accepted exactly when it is as described *)
  Theorem C70_accepted_iff user d : pandora_contract pandora_check -> sized -> wf (JDict user) ->
    ((exists m cfg, check_conf user (new_machine d) = (m, Some cfg)) <-> accepted user).
  Proof. intros HP HS Hw. apply check_conf_accepts; auto. Qed.
  (** Nothing else is looked at: other sections, even misspelled ones, and the order of the sections do not matter. *)
  Theorem C70_other_sections user user2 d : pandora_contract pandora_check -> sized -> wf (JDict user) -> wf (JDict user2) ->
    (forall k, In k ["input"; "ROI"; "pipeline"; "expert_mode"] -> lookup k user2 = lookup k user) ->
    ((exists m cfg, check_conf user (new_machine d) = (m, Some cfg)) <-> (exists m cfg, check_conf user2 (new_machine d) = (m, Some cfg))).
  Proof.
    intros HP HS Hw Hw2 L. rewrite !C70_accepted_iff by auto. unfold AcceptSpec.accepted. rewrite !L by (cbn; auto). reflexivity.
  Qed.
End Environment.

(** * Examples *)
Definition images_any (_ _ _ _ : json) : bool := true.
Definition env_accept : dict -> @machine json unit Z json json -> @machine json unit Z json json * option dict :=
  CheckConfModel.check_conf true pandora_default (fun _ => 3) (fun _ => 2) 0 (fun _ _ _ _ _ _ d => Some d)
    (fun _ => true) (fun _ => true) (check_images_of images_any) (fun _ => (10, 12)%nat) (fun _ => mkReader 1 (mkArr2 0 0 (fun _ _ => 0))).
Definition env_accepted : dict -> Prop :=
  accepted true pandora_default (fun _ => true) (fun _ => true) images_any (fun _ => (10, 12)%nat) (fun _ => mkReader 1 (mkArr2 0 0 (fun _ _ => 0))).
Definition user_with (method : string) (estimation : bool) (right_nodata : json) (disparities : dict) : dict :=
  [("pipeline", JDict ((if estimation then [("estimation", JDict [("estimation_method", JStr "phase_cross_correlation")])] else []) ++
                       [("matching_cost", JDict [("matching_cost_method", JStr method); ("step", JList [JInt 2; JInt 1])]);
                        ("disparity", JDict [("disparity_method", JStr "wta")])]));
   ("input", JDict ([("left", JDict [("img", JStr "left.tif")]); ("right", JDict [("img", JStr "right.tif"); ("nodata", right_nodata)])] ++ disparities))].
Definition both (d : json) : dict := [("row_disparity", d); ("col_disparity", d)].
Ltac wf_user := unfold user_with, both, example_user, example_disparity, example_roi; cbn [app]; solve_wf.
Lemma env_iff user : wf (JDict user) -> (snd (env_accept user (new_machine tt)) <> None <-> env_accepted user).
Proof.
  intros Hw. unfold env_accepted. rewrite <- (C70_accepted_iff true pandora_default (fun _ => 3) (fun _ => 2) 0 (fun _ _ _ _ _ _ d => Some d)
    (fun _ => true) (fun _ => true) images_any (fun _ => (10, 12)%nat) (fun _ => mkReader 1 (mkArr2 0 0 (fun _ _ => 0))) user tt pandora_default_contract);
    [|intros s; cbn; lia|exact Hw].
  fold env_accept. destruct (env_accept user (new_machine tt)) as [m [c|]]; split; try (intros; discriminate).
  - intros _. eauto.
  - intros H. now elim H.
  - intros (m' & c & E). discriminate.
Qed.
(** With an optical flow, a ROI and profiling; with an estimation and no disparity at all; with a range that reaches the image. *)
Example C70_example : env_accepted (example_user example_roi) /\ env_accepted (user_with "zncc" true (JStr "NaN") []) /\
  env_accepted (user_with "sad" false (JInt 0) (both (JDict [("init", JInt 11); ("range", JInt 2)]))) /\
  env_accepted (("roi", JDict [("row", JInt 0)]) :: example_user []).
Proof.
  repeat split; (apply env_iff; [wf_user | vm_compute; discriminate]).
Qed.
(** Refused: no disparity; no integer for the no-data of the right image with sad; a disparity outside of the image; an unknown key; a negative range. *)
Example C70_refused : ~ env_accepted (user_with "zncc" false (JInt 0) []) /\ ~ env_accepted (user_with "sad" false (JStr "NaN") (both example_disparity)) /\
  ~ env_accepted (user_with "sad" false (JInt 0) (both (JDict [("init", JInt 13); ("range", JInt 2)]))) /\
  ~ env_accepted (user_with "sad" true (JInt 0) (both (JDict [("init", JInt 1); ("rang", JInt 2)]))) /\
  ~ env_accepted (user_with "sad" true (JInt 0) (both (JDict [("range", JInt (-1))]))).
Proof.
  repeat split; (rewrite <- env_iff; [|wf_user]); intros H; apply H; vm_compute; reflexivity.
Qed.

Print Assumptions C70_accepted_iff.
Print Assumptions C70_other_sections.
