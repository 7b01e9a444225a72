(** C68, C69: the checked configuration can be used again. *)
From Coq Require Import List String Bool ZArith Lia.
From Verif Require Import Base.Json Base.Arr Model.CommonModel Model.ConfigModel Model.InputModel Model.MachineModel Model.CheckConfModel
  Spec.ConfigSpec Spec.MachineSpec Spec.CheckConfSpec Proofs.ConfigProofs Proofs.MachineProofs Proofs.MergeProofs Proofs.CheckConfProofs.
Import ListNotations.
Open Scope Z_scope.
Open Scope string_scope.
Open Scope list_scope.

Section Environment.
  Context {D M : Type}.
  Variable bool_ok : bool.
  Variable pandora_check : dict -> option (json * json * json).
  Variable matching_cost_margins refinement_margins : dict -> M.
  Variable disparity_margins : M.
  Variable run_step : callback -> string -> json -> option M -> option json -> option json -> D -> option D.
  Variable can_open_mandatory can_open check_images : json -> bool.
  Variable image_size : string -> nat * nat.
  Variable open_raster : string -> reader.
  Notation check_conf := (check_conf bool_ok pandora_check matching_cost_margins refinement_margins disparity_margins run_step
    can_open_mandatory can_open check_images image_size open_raster).

  (** * C68: an accepted configuration, completed, is accepted again: same completed configuration, same machine. What the new
      configuration has outside the four sections does not matter. *)
  Theorem C68_check_again user d m cfg : pandora_contract pandora_check -> wf (JDict user) -> check_conf user (new_machine d) = (m, Some cfg) ->
    forall user2, wf (JDict user2) -> (forall k, In k ["input"; "ROI"; "pipeline"; "expert_mode"] -> lookup k user2 = lookup k cfg) ->
      check_conf user2 (new_machine d) = (m, Some cfg).
  Proof. intros HP Hw H user2 W2 L. now apply (check_conf_again _ _ _ _ _ _ _ _ _ _ _ HP user d m cfg Hw H). Qed.
  Theorem C68_check_twice user d m cfg : pandora_contract pandora_check -> wf (JDict user) -> check_conf user (new_machine d) = (m, Some cfg) ->
    check_conf cfg (new_machine d) = (m, Some cfg).
  Proof. intros HP Hw H. destruct (check_conf_again _ _ _ _ _ _ _ _ _ _ _ HP user d m cfg Hw H) as (W & _ & _ & _ & _ & _ & A). now apply A. Qed.
  (** The completed configuration has the sections of the user (input and pipeline are mandatory), and no other. *)
  Theorem C68_sections user d m cfg : pandora_contract pandora_check -> wf (JDict user) -> check_conf user (new_machine d) = (m, Some cfg) ->
    (forall k, In k (keys cfg) -> In k ["input"; "ROI"; "pipeline"; "expert_mode"]) /\
    lookup "input" cfg <> None /\ lookup "pipeline" cfg <> None /\ (lookup "ROI" cfg <> None <-> lookup "ROI" user <> None).
  Proof. intros HP Hw H. destruct (check_conf_again _ _ _ _ _ _ _ _ _ _ _ HP user d m cfg Hw H) as (_ & B & C & E & F & _ & _). auto. Qed.

  (** * C69: the configuration saved by main *)
  (** Without ROI it is accepted, and completed in the same way. *)
  Theorem C69_saved_again_partial user d m cfg roi_margins margins : pandora_contract pandora_check -> wf (JDict user) -> wf margins ->
    check_conf user (new_machine d) = (m, Some cfg) -> lookup "ROI" user = None ->
    check_conf (saved_configuration roi_margins margins cfg) (new_machine d) = (m, Some cfg).
  Proof.
    intros HP Hw Wm H HR. destruct (check_conf_again _ _ _ _ _ _ _ _ _ _ _ HP user d m cfg Hw H) as (W & _ & _ & _ & F & _ & A).
    assert (R : lookup "ROI" cfg = None) by (destruct (lookup "ROI" cfg) eqn:E; [exfalso; apply (proj1 F); [discriminate | exact HR] | reflexivity]).
    unfold saved_configuration, add_roi_margins. rewrite R. apply A.
    - now apply wf_assign.
    - intros k Hk. rewrite lookup_assign. destruct (k =? "margins") eqn:E; [|reflexivity]. apply String.eqb_eq in E. subst k.
      cbn in Hk. intuition discriminate.
  Qed.
  (** With a ROI it is always refused: the margins were added to the section. *)
  Theorem C69_roi_never_again user d m cfg roi_margins margins : pandora_contract pandora_check -> wf (JDict user) ->
    check_conf user (new_machine d) = (m, Some cfg) -> lookup "ROI" user <> None ->
    forall m0, snd (check_conf (saved_configuration roi_margins margins cfg) m0) = None.
  Proof.
    intros HP Hw H HR m0. destruct (check_conf_again _ _ _ _ _ _ _ _ _ _ _ HP user d m cfg Hw H) as (W & _ & _ & _ & F & G & _).
    destruct (lookup "ROI" cfg) as [roi|] eqn:R; [|exfalso; apply (proj2 F); [exact HR | reflexivity]].
    destruct (G roi eq_refl) as (r & -> & Wr & Hc). unfold saved_configuration, add_roi_margins. rewrite R.
    set (cfg2 := assign "margins" margins (assign "ROI" (JDict (assign "margins" roi_margins r)) cfg)).
    assert (L : lookup "ROI" cfg2 = Some (JDict (assign "margins" roi_margins r))) by (unfold cfg2; rewrite !lookup_assign; reflexivity).
    assert (C : check_roi_section bool_ok (get_roi_config cfg2) = None).
    { unfold get_roi_config. rewrite L. unfold check_roi_section. rewrite update_conf_dict. cbn [upd_items]. unfold get_or_empty. cbn [lookup].
      destruct (merge1 (JDict []) _) as [w|] eqn:E; [|reflexivity]. cbn [option_map assign lookup String.eqb Ascii.eqb Bool.eqb].
      destruct w as [| | | | | | | |w]; try reflexivity.
      destruct (check_roi bool_ok w) eqn:Ec; [|reflexivity]. exfalso.
      unfold merge1 in E. cbn [is_dict] in E. rewrite update_conf_dict in E. destruct (upd_items _ []) as [w2|] eqn:Eu; [|discriminate]. injection E as ->.
      assert (K : NoDup (keys (assign "margins" roi_margins r))) by (apply assign_nodup; exact (proj1 (wf_dict_inv _ Wr))).
      pose proof (upd_lookup _ _ _ Eu K "margins") as Lm. rewrite lookup_assign in Lm. cbn [String.eqb Ascii.eqb Bool.eqb] in Lm. destruct Lm as [L1 L2].
      unfold check_roi in Ec. apply andb_true_iff in Ec. destruct Ec as [Ec _].
      destruct (lookup "margins" w) as [v|] eqn:Ew; [|congruence]. destruct (validate_lookup _ _ _ _ Ec Ew) as (mm & pp & Y & _). cbn in Y. discriminate. }
    unfold CheckConfModel.check_conf. destruct (lookup "pipeline" cfg2) as [[| | | | | | | |p]|]; try reflexivity.
    rewrite C. destruct (check_input_section _ _ _ _ _ _ _ _); reflexivity.
  Qed.
End Environment.

(** * Examples *)
Definition pandora_default (c : dict) : option (json * json * json) :=
  let get k d := match lookup k c with Some (JInt v) => Some (JInt v) | None => Some (JInt d) | Some _ => None end in
  match get "window_size" 5, get "subpix" 1, get "spline_order" 1 with Some w, Some s, Some o => Some (w, s, o) | _, _, _ => None end.
Lemma pandora_default_contract : pandora_contract pandora_default.
Proof.
  intros c w s o H. unfold pandora_default in H.
  assert (I : forall k d j, match lookup k c with Some (JInt v) => Some (JInt v) | None => Some (JInt d) | Some _ => None end = Some j -> exists z, j = JInt z).
  { intros k d j E. destruct (lookup k c) as [[]|]; try discriminate; injection E as <-; eauto. }
  destruct (match lookup "window_size" c with Some (JInt v) => Some (JInt v) | None => Some (JInt 5) | Some _ => None end) eqn:E1; [|discriminate].
  destruct (match lookup "subpix" c with Some (JInt v) => Some (JInt v) | None => Some (JInt 1) | Some _ => None end) eqn:E2; [|discriminate].
  destruct (match lookup "spline_order" c with Some (JInt v) => Some (JInt v) | None => Some (JInt 1) | Some _ => None end) eqn:E3; [|discriminate].
  apply I in E1, E2, E3. destruct E1 as (a & ->), E2 as (b & ->), E3 as (e & ->). injection H as <- <- <-.
  split; [left; eauto|]. split; [left; eauto|]. split; [left; eauto|]. intros c' L. unfold pandora_default. rewrite !L. reflexivity.
Qed.

Definition env_check : dict -> @machine json unit Z json json -> @machine json unit Z json json * option dict :=
  CheckConfModel.check_conf true pandora_default (fun _ => 3) (fun _ => 2) 0 (fun _ _ _ _ _ _ d => Some d)
    (fun _ => true) (fun _ => true) (fun _ => true) (fun _ => (10, 12)%nat) (fun _ => mkReader 1 (mkArr2 0 0 (fun _ _ => 0))).

Definition example_disparity : json := JDict [("init", JInt (-1)); ("range", JInt 2)].
Definition example_user (roi : dict) : dict :=
  [("pipeline", JDict [("matching_cost", JDict [("matching_cost_method", JStr "zncc")]);
                       ("disparity", JDict [("disparity_method", JStr "wta"); ("invalid_disparity", JStr "NaN")]);
                       ("refinement", JDict [("refinement_method", JStr "optical_flow")])]);
   ("input", JDict [("left", JDict [("img", JStr "left.tif"); ("nodata", JStr "NaN")]); ("right", JDict [("img", JStr "right.tif")]);
                    ("col_disparity", example_disparity); ("row_disparity", example_disparity)])] ++ roi ++
  [("expert_mode", JDict [("profiling", JDict [("folder_name", JStr "out")])])].
Definition example_cfg (roi : dict) : dict :=
  [("input", JDict [("left", JDict [("nodata", JNan); ("mask", JNull); ("img", JStr "left.tif")]);
                    ("right", JDict [("nodata", JInt (-9999)); ("mask", JNull); ("img", JStr "right.tif")]);
                    ("col_disparity", example_disparity); ("row_disparity", example_disparity)])] ++ roi ++
  [("pipeline", JDict [("matching_cost", JDict [("matching_cost_method", JStr "zncc"); ("step", JList [JInt 1; JInt 1]); ("window_size", JInt 5);
                                                ("subpix", JInt 1); ("spline_order", JInt 1)]);
                       ("disparity", JDict [("disparity_method", JStr "wta"); ("invalid_disparity", JNan)]);
                       ("refinement", JDict [("refinement_method", JStr "optical_flow"); ("window_size", JInt 5); ("step", JList [JInt 1; JInt 1]);
                                             ("iterations", JInt 4)])]);
   ("expert_mode", JDict [("profiling", JDict [("folder_name", JStr "out")])])].
Definition example_roi : dict :=
  [("ROI", JDict [("row", JDict [("first", JInt 2); ("last", JInt 5)]); ("col", JDict [("first", JInt 1); ("last", JInt 7)])])].

Ltac solve_wf := repeat match goal with
  | |- wf (JDict _) => constructor; [repeat constructor; cbn; intuition discriminate|]; intros ? ?; cbn [In app]; intros; repeat match goal with
      | H : _ \/ _ |- _ => destruct H | H : False |- _ => destruct H | H : (_, _) = (_, _) |- _ => injection H as <- <- end
  | |- wf _ => apply wf_leaf; reflexivity
  end.
Example C68_example : wf (JDict (example_user [])) /\ wf (JDict (example_user example_roi)) /\
  snd (env_check (example_user []) (new_machine tt)) = Some (example_cfg []) /\
  snd (env_check (example_user example_roi) (new_machine tt)) = Some (example_cfg example_roi).
Proof. split; [unfold example_user, example_disparity; solve_wf|]. split; [unfold example_user, example_disparity, example_roi; solve_wf|]. split; vm_compute; reflexivity. Qed.

(** The run of a configuration with a ROI saves a configuration that is refused: the margins are under ROI. *)
Theorem C69_saved_roi_refuted : exists user m cfg, wf (JDict user) /\ env_check user (new_machine tt) = (m, Some cfg) /\
  forall roi_margins margins m0, snd (env_check (saved_configuration roi_margins margins cfg) m0) = None.
Proof.
  destruct C68_example as (_ & W & _ & E). revert W E. generalize (eq_refl : lookup "ROI" (example_user example_roi) = lookup "ROI" example_roi).
  generalize (example_user example_roi) as user. intros user L W E. destruct (env_check user (new_machine tt)) as [m o] eqn:H. cbn [snd] in E. subst o.
  exists user, m, (example_cfg example_roi). split; [exact W|]. split; [exact H|]. intros rm mg m0. revert H. generalize (example_cfg example_roi) as cfg.
  intros cfg H. unfold env_check in *.
  eapply (C69_roi_never_again _ _ _ _ _ _ _ _ _ _ _ _ _ _ _ _ _ pandora_default_contract W H). rewrite L. discriminate.
Qed.
Example C69_example : snd (env_check (saved_configuration (JList []) (JDict [("global margins", JInt 3)]) (example_cfg [])) (new_machine tt)) = Some (example_cfg []).
Proof. vm_compute. reflexivity. Qed.

Print Assumptions C68_check_again.
Print Assumptions C68_check_twice.
Print Assumptions C68_sections.
Print Assumptions C69_saved_again_partial.
Print Assumptions C69_roi_never_again.
Print Assumptions C69_saved_roi_refuted.
