(** Proofs about the whole program: the checked configuration and the machine after the check. *)
From Coq Require Import List String Bool ZArith QArith Lia.
From Verif Require Import Base.Ext Base.PyList Base.Arr Base.Json Base.Dict Model.CommonModel Model.ConfigModel Model.InputModel Model.MachineModel Model.CheckConfModel
  Spec.ConfigSpec Spec.InputSpec Spec.MachineSpec Spec.CheckConfSpec Spec.AcceptSpec Spec.WholeSpec
  Proofs.ConfigProofs Proofs.ConfigStepProofs Proofs.MachineProofs Proofs.MergeProofs Proofs.CheckConfProofs Proofs.AcceptProofs.
Import ListNotations.
Open Scope Z_scope.
Open Scope string_scope.
Open Scope list_scope.

(** * The checked configuration *)
Section Checked.
  Context {D M : Type}.
  Variable bool_ok : bool.
  Variable pandora_check : dict -> option (json * json * json).
  Variable matching_cost_margins refinement_margins : dict -> M.
  Variable disparity_margins : M.
  Variable run_step : callback -> string -> json -> option M -> option json -> option json -> D -> option D.
  Variable can_open_mandatory can_open check_images : json -> bool.
  Variable image_size : string -> nat * nat.
  Variable open_raster : string -> reader.
  Hypothesis Hpandora : pandora_contract pandora_check.
  Notation machine_check := (machine_check bool_ok pandora_check matching_cost_margins refinement_margins disparity_margins run_step).
  Notation check_pipeline_section := (check_pipeline_section bool_ok pandora_check matching_cost_margins refinement_margins disparity_margins run_step).
  Notation check_input_section := (check_input_section bool_ok can_open_mandatory can_open check_images image_size open_raster).
  Notation check_roi_section := (check_roi_section bool_ok).
  Notation check_conf := (check_conf bool_ok pandora_check matching_cost_margins refinement_margins disparity_margins run_step
    can_open_mandatory can_open check_images image_size open_raster).

  (** The sections of an accepted configuration, what they come from. *)
  Definition flag_of (p : dict) : bool := match lookup "estimation" p with None | Some JNull => false | Some _ => true end.
  Lemma check_conf_parts user d m cfg : wf (JDict user) -> check_conf user (new_machine d) = (m, Some cfg) ->
    exists raw i2 cr p p2, lookup "pipeline" user = Some (JDict raw) /\ merge1 (JDict []) (JDict raw) = Some (JDict p) /\
      check_input_section (get_config_input user) (flag_of raw) = Some [("input", i2)] /\ check_roi_section (get_roi_config user) = Some cr /\
      machine_check p (new_machine d) = (m, None) /\ merged (m_pipeline m) p p2 /\ wf (JDict p2) /\ normal (JDict p2) /\
      lookup "input" cfg = Some i2 /\ lookup "ROI" cfg = lookup "ROI" cr /\ lookup "pipeline" cfg = Some (JDict p2).
  Proof.
    intros Hw H. unfold CheckConfModel.check_conf in H.
    destruct (lookup "pipeline" user) as [[| | | | | | | |raw]|] eqn:Eraw; try discriminate. fold (flag_of raw) in H.
    destruct (check_input_section (get_config_input user) (flag_of raw)) as [ci|] eqn:Eci; [|discriminate].
    destruct (check_roi_section (get_roi_config user)) as [cr|] eqn:Ecr; [|discriminate].
    destruct (check_pipeline_section user (new_machine d)) as [m' [cp|]] eqn:Ecp; [|discriminate].
    destruct (input_again _ _ _ _ _ _ _ _ _ Hw Eci) as (i2 & -> & Di & Wi & Ai).
    destruct (roi_again _ _ _ Hw Ecr) as (Hroi & Ar).
    destruct (pipeline_again _ _ _ _ _ _ can_open_mandatory can_open check_images image_size open_raster Hpandora _ _ _ _ Hw Ecp) as (p & p2 & -> & Hraw & Hmach & HM & Kp & Ap).
    unfold get_or_empty in Hraw. rewrite Eraw in Hraw.
    destruct (match get_path ["pipeline"; "matching_cost"] _ with Some _ => _ | None => true end) eqn:End_; [|discriminate].
    assert (Xcr : cr = [] \/ exists roi, cr = [("ROI", JDict roi)]).
    { destruct (lookup "ROI" user); [right; destruct Hroi as (roi & -> & _); eauto | left; exact Hroi]. }
    assert (HN : NoDup (keys p2)) by (rewrite (merged_keys _ _ _ HM); exact Kp). pose proof (merged_lookup _ _ _ HM) as ML.
    assert (W2 : wf (JDict p2)).
    { constructor; [exact HN|]. intros k v Hv. apply In_lookup in Hv; [|exact HN]. specialize (ML k).
      destruct (lookup k p); [destruct ML as (? & ? & ? & ? & ? & ? & ? & ? & ? & ? & ? & ?); congruence | congruence]. }
    assert (N2 : normal (JDict p2)).
    { apply normal_dict. intros k v Hv. specialize (ML k). destruct (lookup k p); [|congruence].
      destruct ML as (? & w & E & _ & _ & _ & _ & _ & _ & Nw & _). rewrite Hv in E. injection E as <-. exact Nw. }
    exists raw, i2, cr, p, p2.
    assert (Fin : m' = m /\ lookup "input" cfg = Some i2 /\ lookup "ROI" cfg = lookup "ROI" cr /\ lookup "pipeline" cfg = Some (JDict p2)).
    { assert (Plain : forall c, (m', Some (concat_conf [[("input", i2)]; cr; [("pipeline", JDict p2)]])) = (m, Some c) ->
        m' = m /\ lookup "input" c = Some i2 /\ lookup "ROI" c = lookup "ROI" cr /\ lookup "pipeline" c = Some (JDict p2)).
      { intros c X. injection X as <- <-. destruct Xcr as [->|(roi & ->)]; auto. }
      assert (Expert : forall c j, match check_expert_mode_section j with
          | Some ce => (m', Some (concat_conf [[("input", i2)]; cr; [("pipeline", JDict p2)]; ce])) | None => (m', None) end = (m, Some c) ->
        m' = m /\ lookup "input" c = Some i2 /\ lookup "ROI" c = lookup "ROI" cr /\ lookup "pipeline" c = Some (JDict p2)).
      { intros c j X. destruct (check_expert_mode_section j) as [ce|] eqn:Ece; [|discriminate].
        unfold check_expert_mode_section in Ece. destruct j as [| | | | | | | |dj]; try discriminate.
        destruct (lookup "profiling" dj); [|discriminate]. destruct (sub_schema _ _); [|discriminate]. injection Ece as <-.
        injection X as <- <-. destruct Xcr as [->|(roi & ->)]; auto. }
      destruct (lookup "expert_mode" user) as [j|]; [|now apply Plain].
      destruct j as [| | | | | | | |[|e0 dj]]; try (now apply Plain); now apply (Expert _ _ H). }
    destruct Fin as (-> & F1 & F2 & F3). split; [reflexivity|]. split; [exact Hraw|]. auto 12.
  Qed.

  (** The checked configuration is a configuration that is accepted with no change. *)
  Lemma check_conf_fixed user d m cfg : wf (JDict user) -> check_conf user (new_machine d) = (m, Some cfg) ->
    exists i cr p, check_conf cfg (new_machine d) = (m, Some cfg) /\ wf (JDict cfg) /\
      lookup "input" cfg = Some i /\ check_input_section (get_config_input cfg) (flag_of p) = Some [("input", i)] /\
      check_roi_section (get_roi_config cfg) = Some cr /\ lookup "ROI" cfg = lookup "ROI" cr /\
      lookup "pipeline" cfg = Some (JDict p) /\ wf (JDict p) /\ normal (JDict p) /\
      machine_check p (new_machine d) = (m, None) /\ merged (m_pipeline m) p p.
  Proof.
    intros Hw H. destruct (check_conf_again _ _ _ _ _ _ _ _ _ _ _ Hpandora user d m cfg Hw H) as (W & _ & _ & _ & _ & _ & A).
    assert (F : check_conf cfg (new_machine d) = (m, Some cfg)) by (apply A; auto).
    destruct (check_conf_parts _ _ _ _ Hw H) as (_ & _ & _ & _ & q2 & _ & _ & _ & _ & _ & _ & Wq & Nq & _ & _ & Lq).
    destruct (check_conf_parts _ _ _ _ W F) as (raw & i & cr & p & p2 & L1 & Mp & Ei & Er & Em & HM & W2 & N2 & L2 & L3 & L4).
    rewrite Lq in L1, L4. injection L1 as <-. injection L4 as <-. rewrite (merge_empty _ Wq Nq) in Mp. injection Mp as <-.
    exists i, cr, q2. auto 12.
  Qed.
End Checked.

(** * The machine after the check of a pipeline with a matching cost and a disparity, and its run *)
Section Machine.
  Context {C D M S W : Type}.
  Variable est_conf : C -> option C.
  Variable mc_conf : C -> option (C * S * W * M).
  Variable disp_conf : C -> option (C * M).
  Variable ref_conf : C -> option S -> option W -> option (C * M).
  Variable run_step : callback -> string -> C -> option M -> option S -> option W -> D -> option D.
  Notation check_conf := (MachineModel.check_conf est_conf mc_conf disp_conf ref_conf run_step).
  Notation run := (MachineModel.run est_conf mc_conf disp_conf ref_conf run_step).

  Definition pipeline_of (e : option C) (c1 c2 : C) (r : option C) : list (string * C) :=
    match e with Some c => [("estimation", c)] | None => [] end ++ [("matching_cost", c1); ("disparity", c2)] ++
    match r with Some c => [("refinement", c)] | None => [] end.
  (** The optional steps. *)
  Definition checked_estimation (e e' : option C) : Prop :=
    match e, e' with Some c, Some c' => est_conf c = Some c' | None, None => True | _, _ => False end.
  Definition checked_refinement (s : S) (w : W) (r : option C) (r' : option (C * M)) : Prop :=
    match r, r' with Some c, Some x => ref_conf c (Some s) (Some w) = Some x | None, None => True | _, _ => False end.
  Definition margins_kept (r' : option (C * M)) : option M := option_map snd r'.

  Notation mach := (@machine C D M S W).
  Notation trigger := (MachineModel.trigger est_conf mc_conf disp_conf ref_conf run_step).
  Notation trigger_all := (MachineModel.trigger_all est_conf mc_conf disp_conf ref_conf run_step).
  Lemma check_one n s' c (m : mach) : m_transitions m = copies transitions_check 1 -> next (m_state m) n = Some s' ->
    trigger n n c m = match MachineModel.call est_conf mc_conf disp_conf ref_conf run_step (check_callback n) n c m with Some m' => (set_state s' m', None) | None => (m, Some CallbackError) end.
  Proof. intros Ht Hn. rewrite trigger_check by (exists 0%nat; exact Ht). now rewrite Hn. Qed.
  Lemma run_one n s' c (m : mach) : m_transitions m = copies transitions_run 1 -> next (m_state m) n = Some s' ->
    trigger n n c m = match MachineModel.call est_conf mc_conf disp_conf ref_conf run_step (run_callback n) n c m with Some m' => (set_state s' m', None) | None => (m, Some CallbackError) end.
  Proof. intros Ht Hn. rewrite trigger_run by (exists 0%nat; exact Ht). now rewrite Hn. Qed.

  Lemma trigger_all_cons f n c l (m : mach) : trigger_all f ((n, c) :: l) m =
    match trigger (f n) n c m with (m', None) => trigger_all f l m' | (m', Some e) => (m', Some e) end.
  Proof. reflexivity. Qed.
  Lemma checked_machine e c1 c2 r d m : check_conf (pipeline_of e c1 c2 r) (new_machine d) = (m, None) ->
    exists e' c1' s w mg1 c2' mg2 r', checked_estimation e e' /\ mc_conf c1 = Some (c1', s, w, mg1) /\ disp_conf c2 = Some (c2', mg2) /\ checked_refinement s w r r' /\
      m_pipeline m = pipeline_of e' c1' c2' (option_map fst r') /\
      m_state m = Begin /\ m_transitions m = [] /\ m_step m = Some s /\ m_window m = Some w /\ m_data m = d /\
      m_non_cumulative m = match r' with Some x => [("refinement", snd x)] | None => [] end.
  Proof.
    intros H. rewrite (check_conf_spec _ _ _ _ _ _ (new_machine d) 0 eq_refl) in H.
    change (set_transitions (copies transitions_check 1) (new_machine d)) with (mkMachine Begin (copies transitions_check 1) [] None None [] [] d : mach) in H.
    assert (Next : forall (st : state) pl sp wi cu nc, st = Begin \/ st = Assumption ->
      match trigger_all (fun n => n) ([("matching_cost", c1); ("disparity", c2)] ++ match r with Some c => [("refinement", c)] | None => [] end)
              (mkMachine st (copies transitions_check 1) pl sp wi cu nc d) with
      | (m', Some e) => (m', Some e) | (m', None) => (set_state Begin (set_transitions [] m'), None) end = (m, None) ->
      exists c1' s w mg1 c2' mg2 r', mc_conf c1 = Some (c1', s, w, mg1) /\ disp_conf c2 = Some (c2', mg2) /\ checked_refinement s w r r' /\
        m = set_state Begin (set_transitions [] (mkMachine DispMaps (copies transitions_check 1)
              match r' with Some x => assign "refinement" (fst x) (assign "disparity" c2' (assign "matching_cost" c1' pl)) | None => assign "disparity" c2' (assign "matching_cost" c1' pl) end
              (Some s) (Some w) (assign "disparity" mg2 (assign "matching_cost" mg1 cu)) match r' with Some x => assign "refinement" (snd x) nc | None => nc end d))).
    { clear H. intros st pl sp wi cu nc Hst H. change ([("matching_cost", c1); ("disparity", c2)] ++ ?l) with (("matching_cost", c1) :: ("disparity", c2) :: l) in H.
      rewrite trigger_all_cons in H. rewrite (check_one "matching_cost" CostVolumes) in H by (try reflexivity; destruct Hst as [-> | ->]; reflexivity).
      change (check_callback "matching_cost") with MatchingCostCheck in H. cbn [MachineModel.call] in H.
      destruct (mc_conf c1) as [[[[c1' s] w] mg1]|] eqn:E1; [|discriminate]. cbn [m_state m_transitions m_pipeline m_step m_window m_cumulative m_non_cumulative m_data set_state set_transitions set_data] in H.
      rewrite trigger_all_cons in H. rewrite (check_one "disparity" DispMaps) in H by reflexivity.
      change (check_callback "disparity") with DisparityCheck in H. cbn [MachineModel.call] in H.
      destruct (disp_conf c2) as [[c2' mg2]|] eqn:E2; [|discriminate].
      exists c1', s, w, mg1, c2', mg2.
      destruct r as [cr|].
      - rewrite trigger_all_cons in H. rewrite (check_one "refinement" DispMaps) in H by reflexivity.
        change (check_callback "refinement") with RefinementCheck in H. cbn [MachineModel.call] in H. 
        cbn [m_state m_transitions m_pipeline m_step m_window m_cumulative m_non_cumulative m_data set_state set_transitions set_data] in H.
        destruct (ref_conf cr (Some s) (Some w)) as [[cr' mg3]|] eqn:E3; [|discriminate].
        exists (Some (cr', mg3)). cbn [MachineModel.trigger_all] in H. injection H as <-. auto.
      - exists None. cbn [MachineModel.trigger_all] in H. injection H as <-. cbn [checked_refinement]. auto. }
    unfold pipeline_of in H. destruct e as [ce|].
    - change ([("estimation", ce)] ++ ?l) with (("estimation", ce) :: l) in H. rewrite trigger_all_cons in H.
      rewrite (check_one "estimation" Assumption) in H by reflexivity. change (check_callback "estimation") with EstimationCheck in H. cbn [MachineModel.call] in H.
      destruct (est_conf ce) as [ce'|] eqn:Ee; [|discriminate].
      destruct (Next Assumption _ _ _ _ _ (or_intror eq_refl) H) as (c1' & s & w & mg1 & c2' & mg2 & r' & E1 & E2 & E3 & ->).
      exists (Some ce'), c1', s, w, mg1, c2', mg2, r'. split; [exact Ee|]. split; [exact E1|]. split; [exact E2|]. split; [exact E3|]. destruct r' as [[cr' mg3]|]; repeat split; reflexivity.
    - destruct (Next Begin _ _ _ _ _ (or_introl eq_refl) H) as (c1' & s & w & mg1 & c2' & mg2 & r' & E1 & E2 & E3 & ->).
      exists None, c1', s, w, mg1, c2', mg2, r'. split; [exact I|]. split; [exact E1|]. split; [exact E2|]. split; [exact E3|]. destruct r' as [[cr' mg3]|]; repeat split; reflexivity.
  Qed.

  (** The run is the composition of the runs of the steps. *)
  Definition optional_run (cb : callback) (name : string) (c : option C) (m : @machine C D M S W) (d : D) : option D :=
    match c with
    | Some c => run_step cb name c (lookup "refinement" (m_non_cumulative m)) (m_step m) (m_window m) d
    | None => Some d
    end.
  Lemma run_spec e c1 c2 r d m : m_state m = Begin -> m_transitions m = [] ->
    forall d', (exists m', run d (pipeline_of e c1 c2 r) m = (m', None) /\ m_data m' = d' /\ m_cumulative m' = m_cumulative m /\ m_non_cumulative m' = m_non_cumulative m) <->
    exists d0 d1 d2, optional_run EstimationRun "estimation" e m d = Some d0 /\ optional_run MatchingCostRun "matching_cost" (Some c1) m d0 = Some d1 /\
      optional_run DisparityRun "disparity" (Some c2) m d1 = Some d2 /\ optional_run RefinementRun "refinement" r m d2 = Some d'.
  Proof.
    intros Hs Ht d'. destruct m as [st tr pl sp wi cu nc dd]. cbn in Hs, Ht. subst st tr.
    unfold MachineModel.run. change (run_prepare d _) with (mkMachine Begin (copies transitions_run 1) pl sp wi cu nc d : mach).
    unfold optional_run. cbn [m_non_cumulative m_step m_window m_cumulative].
    assert (Exit : forall st d0, run_exit (mkMachine st (copies transitions_run 1) pl sp wi cu nc d0 : mach) = (mkMachine Begin [] pl sp wi cu nc d0, None)).
    { intros st d0. unfold run_exit. rewrite (remove_all transitions_run 0) by auto. reflexivity. }
    assert (Next : forall (st : state) d0, st = Begin \/ st = Assumption ->
      match trigger_all before_dot ([("matching_cost", c1); ("disparity", c2)] ++ match r with Some c => [("refinement", c)] | None => [] end)
              (mkMachine st (copies transitions_run 1) pl sp wi cu nc d0) with
      | (m', Some e) => (m', Some e) | (m', None) => run_exit m' end =
      match run_step MatchingCostRun "matching_cost" c1 (lookup "refinement" nc) sp wi d0 with
      | None => (mkMachine st (copies transitions_run 1) pl sp wi cu nc d0, Some CallbackError)
      | Some d1 => match run_step DisparityRun "disparity" c2 (lookup "refinement" nc) sp wi d1 with
          | None => (mkMachine CostVolumes (copies transitions_run 1) pl sp wi cu nc d1, Some CallbackError)
          | Some d2 => match match r with Some c => run_step RefinementRun "refinement" c (lookup "refinement" nc) sp wi d2 | None => Some d2 end with
              | None => (mkMachine DispMaps (copies transitions_run 1) pl sp wi cu nc d2, Some CallbackError)
              | Some d3 => (mkMachine Begin [] pl sp wi cu nc d3, None) end end end).
    { intros st d0 Hst. change ([("matching_cost", c1); ("disparity", c2)] ++ ?l) with (("matching_cost", c1) :: ("disparity", c2) :: l).
      rewrite trigger_all_cons. change (before_dot "matching_cost") with "matching_cost".
      rewrite (run_one "matching_cost" CostVolumes) by (try reflexivity; destruct Hst as [-> | ->]; reflexivity).
      change (run_callback "matching_cost") with MatchingCostRun. cbn [MachineModel.call m_non_cumulative m_step m_window m_data].
      destruct (run_step MatchingCostRun "matching_cost" c1 (lookup "refinement" nc) sp wi d0) as [d1|]; [|reflexivity].
      unfold set_state, set_data; cbn [m_state m_transitions m_pipeline m_step m_window m_cumulative m_non_cumulative m_data].
      rewrite trigger_all_cons. change (before_dot "disparity") with "disparity". rewrite (run_one "disparity" DispMaps) by reflexivity.
      change (run_callback "disparity") with DisparityRun. cbn [MachineModel.call m_non_cumulative m_step m_window m_data].
      destruct (run_step DisparityRun "disparity" c2 (lookup "refinement" nc) sp wi d1) as [d2|]; [|reflexivity].
      unfold set_state, set_data; cbn [m_state m_transitions m_pipeline m_step m_window m_cumulative m_non_cumulative m_data].
      destruct r as [cr|]; [|cbn [MachineModel.trigger_all]; apply Exit].
      rewrite trigger_all_cons. change (before_dot "refinement") with "refinement". rewrite (run_one "refinement" DispMaps) by reflexivity.
      change (run_callback "refinement") with RefinementRun. cbn [MachineModel.call m_non_cumulative m_step m_window m_data].
      destruct (run_step RefinementRun "refinement" cr (lookup "refinement" nc) sp wi d2) as [d3|]; [|reflexivity].
      cbn [MachineModel.trigger_all]. apply Exit. }
    assert (All : (fun x => (exists m', x = (m', None) /\ m_data m' = d' /\ m_cumulative m' = cu /\ m_non_cumulative m' = nc)) 
      (match trigger_all before_dot (pipeline_of e c1 c2 r) (mkMachine Begin (copies transitions_run 1) pl sp wi cu nc d) with
       | (m', Some e) => (m', Some e) | (m', None) => run_exit m' end) <->
      exists d0 d1 d2, match e with Some c => run_step EstimationRun "estimation" c (lookup "refinement" nc) sp wi d | None => Some d end = Some d0 /\
        run_step MatchingCostRun "matching_cost" c1 (lookup "refinement" nc) sp wi d0 = Some d1 /\ run_step DisparityRun "disparity" c2 (lookup "refinement" nc) sp wi d1 = Some d2 /\
        match r with Some c => run_step RefinementRun "refinement" c (lookup "refinement" nc) sp wi d2 | None => Some d2 end = Some d'); [|exact All].
    assert (Tail : forall st d0, (st = Begin \/ st = Assumption) -> (exists m', match trigger_all before_dot ([("matching_cost", c1); ("disparity", c2)] ++ match r with Some c => [("refinement", c)] | None => [] end)
              (mkMachine st (copies transitions_run 1) pl sp wi cu nc d0) with
      | (m', Some e) => (m', Some e) | (m', None) => run_exit m' end = (m', None) /\ m_data m' = d' /\ m_cumulative m' = cu /\ m_non_cumulative m' = nc) <->
      exists d1 d2, run_step MatchingCostRun "matching_cost" c1 (lookup "refinement" nc) sp wi d0 = Some d1 /\ run_step DisparityRun "disparity" c2 (lookup "refinement" nc) sp wi d1 = Some d2 /\
        match r with Some c => run_step RefinementRun "refinement" c (lookup "refinement" nc) sp wi d2 | None => Some d2 end = Some d').
    { intros st d0 Hst. rewrite (Next st d0 Hst). split.
      - intros (m' & H & Hd & _). destruct (run_step MatchingCostRun _ _ _ _ _ d0) as [d1|] eqn:E1; [|discriminate]. exists d1.
        destruct (run_step DisparityRun _ _ _ _ _ d1) as [d2|] eqn:E2; [|discriminate]. exists d2.
        destruct (match r with Some c => _ | None => Some d2 end) as [d3|]; [|discriminate]. injection H as <-. cbn in Hd. subst. auto.
      - intros (d1 & d2 & E1 & E2 & E3). rewrite E1, E2, E3. eexists. split; [reflexivity|]. auto. }
    unfold pipeline_of. destruct e as [ce|].
    - change ([("estimation", ce)] ++ ?l) with (("estimation", ce) :: l). rewrite trigger_all_cons. change (before_dot "estimation") with "estimation".
      rewrite (run_one "estimation" Assumption) by reflexivity. change (run_callback "estimation") with EstimationRun.
      cbn [MachineModel.call m_non_cumulative m_step m_window m_data].
      destruct (run_step EstimationRun "estimation" ce (lookup "refinement" nc) sp wi d) as [d0|].
      + unfold set_state, set_data; cbn [m_state m_transitions m_pipeline m_step m_window m_cumulative m_non_cumulative m_data].
        rewrite (Tail Assumption d0 (or_intror eq_refl)). split.
        * intros (d1 & d2 & E). exists d0, d1, d2. auto.
        * intros (d0' & d1 & d2 & E0 & E). injection E0 as <-. eauto.
      + split; [intros (m' & H & _); discriminate | intros (d0 & d1 & d2 & H & _); discriminate].
    - change ([] ++ ?l) with l. rewrite (Tail Begin d (or_introl eq_refl)). split.
      + intros (d1 & d2 & E). exists d, d1, d2. auto.
      + intros (d0' & d1 & d2 & E0 & E). injection E0 as <-. eauto.
  Qed.
  (** The same with the errors. *)
  Lemma run_chain e c1 c2 r d m : m_state m = Begin -> m_transitions m = [] ->
    match bind (optional_run EstimationRun "estimation" e m d) (fun d0 => bind (optional_run MatchingCostRun "matching_cost" (Some c1) m d0) (fun d1 =>
          bind (optional_run DisparityRun "disparity" (Some c2) m d1) (fun d2 => optional_run RefinementRun "refinement" r m d2))) with
    | Some d' => exists m', run d (pipeline_of e c1 c2 r) m = (m', None) /\ m_data m' = d' /\ m_cumulative m' = m_cumulative m /\ m_non_cumulative m' = m_non_cumulative m
    | None => exists m' er, run d (pipeline_of e c1 c2 r) m = (m', Some er)
    end.
  Proof.
    intros Hs Ht. pose proof (run_spec e c1 c2 r d m Hs Ht) as H. destruct (bind _ _) as [d'|] eqn:E.
    - apply H. destruct (optional_run EstimationRun _ _ _ _) as [d0|]; [|discriminate]. cbn [bind] in E. destruct (optional_run MatchingCostRun _ _ _ d0) as [d1|] eqn:E1; [|discriminate]. cbn [bind] in E.
      destruct (optional_run DisparityRun _ _ _ d1) as [d2|] eqn:E2; [|discriminate]. cbn [bind] in E. exists d0, d1, d2. auto.
    - destruct (run d (pipeline_of e c1 c2 r) m) as [m' [er|]] eqn:Er; [eauto|]. exfalso.
      destruct (run_clean _ _ _ _ _ _ _ _ _ (conj Hs Ht) Er) as (_ & _ & A & B & _).
      destruct (proj1 (H (m_data m'))) as (d0 & d1 & d2 & E0 & E1 & E2 & E3); [eauto 6|]. rewrite E0 in E. cbn [bind] in E. rewrite E1 in E. cbn [bind] in E. rewrite E2 in E. cbn [bind] in E. congruence.
  Qed.
End Machine.

(** * The values of the user are kept *)
Section Kept.
  Context {D M : Type}.
  Variable bool_ok : bool.
  Variable pandora_check : dict -> option (json * json * json).
  Variable matching_cost_margins refinement_margins : dict -> M.
  Variable disparity_margins : M.
  Variable run_step : callback -> string -> json -> option M -> option json -> option json -> D -> option D.
  Variable can_open_mandatory can_open check_images : json -> bool.
  Variable image_size : string -> nat * nat.
  Variable open_raster : string -> reader.
  Hypothesis Hpandora : pandora_contract pandora_check.
  Notation check_conf := (check_conf bool_ok pandora_check matching_cost_margins refinement_margins disparity_margins run_step
    can_open_mandatory can_open check_images image_size open_raster).
  Variables (user cfg : dict) (d : D) (m : @machine json D M json json).
  Hypothesis Hw : wf (JDict user).
  Hypothesis Hc : check_conf user (new_machine d) = (m, Some cfg).

  Lemma merge_keeps path u r v : wf u -> merge1 (JDict []) u = Some r -> get_path path u = Some v -> is_dict v = false -> get_path path r = Some (conv v).
  Proof.
    intros Wu H Hg Hv. unfold merge1 in H. destruct (is_dict u) eqn:E; [now apply (update_keeps path (JDict []) u)|].
    injection H as <-. destruct path; [cbn in *; congruence|]. destruct u; discriminate.
  Qed.
  Lemma kept_input path v : get_path ("input" :: path) (JDict user) = Some v -> is_dict v = false -> get_path ("input" :: path) (JDict cfg) = Some (conv v).
  Proof.
    intros Hg Hv. destruct (check_conf_parts _ _ _ _ _ _ _ _ _ _ _ Hpandora _ _ _ _ Hw Hc) as (raw & i2 & cr & p & p2 & _ & _ & Hi & _ & _ & _ & _ & _ & L & _ & _).
    cbn [get_path] in *. rewrite L. unfold get_config_input in Hi. destruct (lookup "input" user) as [i|] eqn:Li; [|discriminate].
    unfold CheckConfModel.check_input_section in Hi. cbn [lookup String.eqb Ascii.eqb Bool.eqb] in Hi.
    destruct (complete_input (flag_of raw) (JDict [("input", i)])) as [[| | | | | | | |c]|] eqn:Ec; try discriminate.
    assert (Ec2 : c = [("input", i2)]).
    { destruct (validate _ c); [|discriminate]. destruct (lookup "input" c) as [[]|]; try discriminate. destruct (_ && _); [|discriminate]. now injection Hi. }
    subst c. assert (Wi : wf i) by exact (wf_lookup _ _ _ Hw Li).
    assert (W1 : wf (JDict [("input", i)])).
    { constructor; [repeat constructor; intros []|]. intros k x [E|[]]. now injection E as <- <-. }
    unfold complete_input in Ec. destruct (update_conf default_short_configuration_input (JDict [("input", i)])) as [x|] eqn:E1; [|discriminate].
    assert (G1 : get_path ("input" :: path) x = Some (conv v)).
    { apply (update_keeps _ _ _ _ _ W1 E1); [cbn; exact Hg | exact Hv]. }
    destruct (flag_of raw).
    - assert (Wx : wf x).
      { apply (update_wf _ _ _ W1 (proj1 defaults_ok) E1). }
      pose proof (update_keeps _ _ _ _ _ Wx Ec G1 (conv_leaf _ Hv)) as G2. rewrite conv_conv in G2. exact G2.
    - injection Ec as ->. exact G1.
  Qed.
  Lemma kept_roi path v : get_path ("ROI" :: path) (JDict user) = Some v -> is_dict v = false -> get_path ("ROI" :: path) (JDict cfg) = Some (conv v).
  Proof.
    intros Hg Hv. destruct (check_conf_parts _ _ _ _ _ _ _ _ _ _ _ Hpandora _ _ _ _ Hw Hc) as (raw & i2 & cr & p & p2 & _ & _ & _ & Hr & _ & _ & _ & _ & _ & L & _).
    cbn [get_path] in *. rewrite L. unfold get_roi_config in Hr. destruct (lookup "ROI" user) as [r|] eqn:Lr; [|discriminate].
    unfold CheckConfModel.check_roi_section in Hr. rewrite update_conf_dict in Hr. cbn [upd_items] in Hr. unfold get_or_empty in Hr. cbn [lookup] in Hr.
    destruct (merge1 (JDict []) r) as [w|] eqn:Em; [|discriminate]. cbn [option_map assign lookup String.eqb Ascii.eqb Bool.eqb] in Hr.
    destruct w as [| | | | | | | |roi]; try discriminate. destruct (check_roi bool_ok roi); [|discriminate]. injection Hr as <-.
    cbn [lookup String.eqb Ascii.eqb Bool.eqb]. apply (merge_keeps path r _ v (wf_lookup _ _ _ Hw Lr) Em Hg Hv).
  Qed.
  Lemma no_roi : lookup "ROI" user = None -> lookup "ROI" cfg = None.
  Proof.
    intros Hn. destruct (check_conf_parts _ _ _ _ _ _ _ _ _ _ _ Hpandora _ _ _ _ Hw Hc) as (raw & i2 & cr & p & p2 & _ & _ & _ & Hr & _ & _ & _ & _ & _ & L & _).
    rewrite L. unfold get_roi_config in Hr. rewrite Hn in Hr. cbn in Hr. injection Hr as <-. reflexivity.
  Qed.

  (** Pipelines with a matching cost and a disparity step. *)
  Variable raw : dict.
  Hypothesis Lraw : lookup "pipeline" user = Some (JDict raw).
  Variables (e r : bool).
  Hypothesis Kraw : keys raw = (if e then ["estimation"] else []) ++ ["matching_cost"; "disparity"] ++ (if r then ["refinement"] else []).
  Lemma keys_pipeline (p : dict) : keys p = keys raw -> exists ce c1 c2 cr, p = pipeline_of ce c1 c2 cr /\ (ce <> None <-> e = true) /\ (cr <> None <-> r = true).
  Proof.
    rewrite Kraw. unfold pipeline_of.
    destruct e, r; cbn; intros K; repeat match type of K with
      | map fst ?q = [] => destruct q; [clear K | discriminate]
      | keys ?q = [] => destruct q; [clear K | discriminate]
      | keys ?q = _ :: _ => destruct q as [|[? ?] ?]; [discriminate|]; cbn in K; injection K as -> K
      | map fst ?q = _ :: _ => destruct q as [|[? ?] ?]; [discriminate|]; cbn in K; injection K as -> K end.
    - eexists (Some _), _, _, (Some _). split; [reflexivity|]. split; split; congruence.
    - eexists (Some _), _, _, None. split; [reflexivity|]. split; split; congruence.
    - eexists None, _, _, (Some _). split; [reflexivity|]. split; split; congruence.
    - eexists None, _, _, None. split; [reflexivity|]. split; split; congruence.
  Qed.
  Lemma kept_pipeline : exists ce c1 c2 cr p, lookup "pipeline" cfg = Some (JDict (pipeline_of ce c1 c2 cr)) /\ (ce <> None <-> e = true) /\ (cr <> None <-> r = true) /\
    merge1 (JDict []) (JDict raw) = Some (JDict p) /\ keys p = keys raw /\ merged (m_pipeline m) p (pipeline_of ce c1 c2 cr) /\
    CheckConfModel.machine_check bool_ok pandora_check matching_cost_margins refinement_margins disparity_margins run_step p (new_machine d) = (m, None).
  Proof.
    destruct (check_conf_parts _ _ _ _ _ _ _ _ _ _ _ Hpandora _ _ _ _ Hw Hc) as (raw' & i2 & cr0 & p & p2 & L1 & Mp & _ & _ & Hm & HM & _ & _ & _ & _ & L2).
    rewrite Lraw in L1. injection L1 as <-. assert (Wraw : wf (JDict raw)) by exact (wf_lookup _ _ _ Hw Lraw).
    assert (Kp : keys p = keys raw).
    { rewrite merge_dict in Mp. destruct (upd_items raw []) as [q|] eqn:Eq; [|discriminate]. injection Mp as <-. apply (upd_read _ _ (proj1 (wf_dict_inv _ Wraw)) Eq). }
    destruct (keys_pipeline p2) as (ce & c1 & c2 & cr & -> & He & Hr); [rewrite (merged_keys _ _ _ HM); exact Kp|].
    exists ce, c1, c2, cr, p. repeat split; try tauto; auto.
  Qed.
  Lemma absent_read k1 k2 : get_path [k1; k2] (JDict raw) = None -> forall p, merge1 (JDict []) (JDict raw) = Some (JDict p) -> get_path [k1; k2] (JDict p) = None.
  Proof.
    intros Hn p Mp. destruct (get_path [k1; k2] (JDict p)) as [v|] eqn:E; [|reflexivity]. exfalso.
    destruct (update_adds [k1; k2] (JDict []) (JDict raw) (JDict p)) as [H|H]; [exact (wf_lookup _ _ _ Hw Lraw) | exact Mp | congruence | congruence|]. now elim H.
  Qed.
  Lemma kept_step a b : asks_steps bool_ok user a b -> exists ja jb, get_path ["pipeline"; "matching_cost"; "step"] (JDict cfg) = Some (JList [ja; jb]) /\
    int_value bool_ok ja a /\ int_value bool_ok jb b.
  Proof.
    destruct kept_pipeline as (ce & c1 & c2 & cr & p & Lp & _ & _ & Mp & Kp & HM & Hm). intros Ha.
    pose proof (merged_lookup _ _ _ HM "matching_cost") as ML.
    destruct (keys_pipeline p Kp) as (ce0 & c10 & c20 & cr0 & Ep & _).
    rewrite Ep in Hm. destruct (checked_machine _ _ _ _ _ _ _ _ _ _ _ Hm) as (e' & c1' & s & w & mg1 & c2' & mg2 & r' & _ & E1 & _ & _ & Pm & _).
    assert (L1 : lookup "matching_cost" p = Some c10) by (rewrite Ep; destruct ce0; reflexivity). rewrite L1 in ML.
    destruct ML as (x & y & L2 & L3 & D0 & D1 & Mg & D2 & _).
    assert (L4 : lookup "matching_cost" (m_pipeline m) = Some c1') by (rewrite Pm; destruct e'; reflexivity). rewrite L4 in L3. injection L3 as <-.
    destruct c10 as [| | | | | | | |c0]; try discriminate. destruct c1' as [| | | | | | | |c']; try discriminate. destruct y as [| | | | | | | |y]; try discriminate.
    unfold CheckConfModel.mc_conf in E1. destruct (matching_cost_init pandora_check c0) as [c0'|] eqn:Ei; [|discriminate].
    destruct (lookup "step" c0') as [st|] eqn:Es; [|discriminate]. destruct (lookup "window_size" c0') as [ws|] eqn:Ew; [|discriminate]. injection E1 as <- _ _ _.
    destruct (matching_cost_result _ _ _ Ei) as (mm & ja & jb & w0 & s0 & o0 & _ & _ & Hstep & _ & _ & _ & Ec0). 
    assert (Ly : lookup "step" y = Some (JList [ja; jb])).
    { rewrite merge_dict in Mg. destruct (upd_items c0' c0) as [y'|] eqn:Ey; [|discriminate]. injection Mg as <-.
      assert (Nd : NoDup (keys c0')) by (rewrite Ec0; repeat constructor; cbn; intuition discriminate).
      pose proof (upd_lookup _ _ _ Ey Nd "step") as Lu. rewrite Ec0 in Lu. cbn [lookup String.eqb Ascii.eqb Bool.eqb] in Lu. destruct Lu as [Lu _]. rewrite Lu. reflexivity. }
    exists ja, jb. split.
    { cbn [get_path]. rewrite Lp. rewrite L2. cbn [get_path]. now rewrite Ly. }
    assert (Raw : forall v, get_path ["matching_cost"; "step"] (JDict raw) = Some v -> is_dict v = false -> lookup "step" c0 = Some (conv v)).
    { intros v Hv Hd. pose proof (merge_keeps _ _ _ _ (wf_lookup _ _ _ Hw Lraw) Mp Hv Hd) as G. cbn [get_path] in G. rewrite L1 in G. cbn [get_path] in G.
      destruct (lookup "step" c0); [exact G | discriminate]. }
    destruct Ha as [(Hn & -> & ->)|(a0 & b0 & Hg & Ia & Ib)].
    - cbn [get_path] in Hn. rewrite Lraw in Hn. pose proof (absent_read "matching_cost" "step" Hn p Mp) as A. cbn [get_path] in A. rewrite L1 in A.
      destruct (lookup "step" c0); [discriminate|]. injection Hstep as <- <-. split; constructor.
    - change (get_path ["pipeline"; "matching_cost"; "step"] (JDict user)) with (match lookup "pipeline" user with Some v => get_path ["matching_cost"; "step"] v | None => None end) in Hg.
      rewrite Lraw in Hg. rewrite (Raw _ Hg eq_refl) in Hstep. cbn in Hstep. injection Hstep as <- <-. auto.
  Qed.
  Lemma kept_invalid j : asks_invalid user j -> get_path ["pipeline"; "disparity"; "invalid_disparity"] (JDict cfg) = Some j /\ conv j = j.
  Proof.
    destruct kept_pipeline as (ce & c1 & c2 & cr & p & Lp & _ & _ & Mp & Kp & HM & Hm). intros Ha.
    pose proof (merged_lookup _ _ _ HM "disparity") as ML.
    destruct (keys_pipeline p Kp) as (ce0 & c10 & c20 & cr0 & Ep & _).
    rewrite Ep in Hm. destruct (checked_machine _ _ _ _ _ _ _ _ _ _ _ Hm) as (e' & c1' & s & w & mg1 & c2' & mg2 & r' & _ & _ & E2 & _ & Pm & _).
    assert (L1 : lookup "disparity" p = Some c20) by (rewrite Ep; destruct ce0; reflexivity). rewrite L1 in ML.
    destruct ML as (x & y & L2 & L3 & D0 & D1 & Mg & D2 & _).
    assert (L4 : lookup "disparity" (m_pipeline m) = Some c2') by (rewrite Pm; destruct e'; reflexivity). rewrite L4 in L3. injection L3 as <-.
    destruct c20 as [| | | | | | | |c0]; try discriminate. destruct c2' as [| | | | | | | |c']; try discriminate. destruct y as [| | | | | | | |y]; try discriminate.
    unfold CheckConfModel.disp_conf in E2. destruct (disparity_check_conf bool_ok c0) as [c0'|] eqn:Ei; [|discriminate]. injection E2 as <- _.
    assert (Wp : wf (JDict p)) by exact (merge_wf _ _ _ (wf_lookup _ _ _ Hw Lraw) wf_empty Mp).
    assert (W0 : wf (JDict c0)) by exact (wf_lookup _ _ _ Wp L1). assert (Nd0 := proj1 (wf_dict_inv _ W0)).
    destruct (disparity_again _ _ _ Nd0 Ei) as [Ec0 _]. assert (Nd : NoDup (keys c0')) by (rewrite Ec0; now apply disparity_completed_nodup).
    assert (L5 : lookup "invalid_disparity" c0' = Some match lookup "invalid_disparity" c0 with
            | None => JInt (-9999) | Some (JStr s) => if s =? "NaN" then JNan else JStr s | Some j => j end).
    { rewrite Ec0, disparity_lookup. reflexivity. }
    set (z := match lookup "invalid_disparity" c0 with None => JInt (-9999) | Some (JStr s) => if s =? "NaN" then JNan else JStr s | Some j => j end) in *.
    assert (Ly : is_dict z = false -> lookup "invalid_disparity" y = Some (conv z)).
    { intros Hz. rewrite merge_dict in Mg. destruct (upd_items c0' c0) as [y'|] eqn:Ey; [|discriminate]. injection Mg as <-.
      pose proof (upd_lookup _ _ _ Ey Nd "invalid_disparity") as Lu. rewrite L5 in Lu. destruct Lu as [Lu _]. rewrite Lu. now apply merge_leaf. }
    assert (Gy : forall v, lookup "invalid_disparity" y = Some v -> get_path ["pipeline"; "disparity"; "invalid_disparity"] (JDict cfg) = Some v).
    { intros v Hv. cbn [get_path]. rewrite Lp, L2. cbn [get_path]. now rewrite Hv. }
    destruct Ha as [(Hn & ->)|(w0 & Hg & Hd & Hr)].
    - cbn [get_path] in Hn. rewrite Lraw in Hn. pose proof (absent_read "disparity" "invalid_disparity" Hn p Mp) as A. cbn [get_path] in A. rewrite L1 in A.
      destruct (lookup "invalid_disparity" c0) eqn:E0; [discriminate|]. split; [|reflexivity]. apply Gy. apply Ly. reflexivity.
    - apply reads_conv in Hr. subst j.
      change (get_path ["pipeline"; "disparity"; "invalid_disparity"] (JDict user)) with
        (match lookup "pipeline" user with Some v => get_path ["disparity"; "invalid_disparity"] v | None => None end) in Hg. rewrite Lraw in Hg.
      pose proof (merge_keeps _ _ _ _ (wf_lookup _ _ _ Hw Lraw) Mp Hg Hd) as G. cbn [get_path] in G. rewrite L1 in G. cbn [get_path] in G.
      destruct (lookup "invalid_disparity" c0) as [v0|] eqn:E0; [|discriminate]. injection G as ->. split; [|apply conv_conv]. apply Gy.
      assert (z = conv w0) as Ez.
      { unfold z. destruct (conv w0) as [| | | | | |s0| |] eqn:Ew; try reflexivity. destruct (s0 =? "NaN") eqn:En; [|reflexivity].
        exfalso. apply String.eqb_eq in En. subst s0. pose proof (conv_conv w0) as X. rewrite Ew in X. cbn in X. discriminate. }
      rewrite Ly by (rewrite Ez; now apply conv_leaf). rewrite Ez. f_equal. apply conv_conv.
  Qed.
  (** The ranges of the estimation. *)
  Lemma kept_range k range : In k ["range_row"; "range_col"] -> asks_range user k range ->
    forall x y, get_path ["pipeline"; "estimation"] (JDict cfg) = Some (JDict x) -> estimation_check_conf bool_ok x = Some y -> lookup k y = Some (JInt range).
  Proof.
    intros Hk Ha x y Gx Hy. destruct kept_pipeline as (ce & c1 & c2 & cr & p & Lp & _ & _ & Mp & Kp & HM & Hm).
    pose proof (merged_lookup _ _ _ HM "estimation") as ML. cbn [get_path] in Gx. rewrite Lp in Gx.
    destruct (lookup "estimation" (pipeline_of ce c1 c2 cr)) as [j|] eqn:L2; [|discriminate]. injection Gx as ->.
    destruct (keys_pipeline p Kp) as (ce0 & c10 & c20 & cr0 & Ep & _).
    rewrite Ep in Hm. destruct (checked_machine _ _ _ _ _ _ _ _ _ _ _ Hm) as (e' & c1' & s & w & mg1 & c2' & mg2 & r' & E0 & _ & _ & _ & Pm & _).
    destruct (lookup "estimation" p) as [v|] eqn:L1; [|congruence].
    destruct ML as (x0 & y0 & L3 & L4 & D0 & D1 & Mg & D2 & _).
    destruct ce0 as [ce0|]; [|exfalso; rewrite Ep in L1; destruct cr0; cbn in L1; discriminate L1]. assert (ce0 = v) as -> by (rewrite Ep in L1; cbn in L1; congruence).
    destruct e' as [e'|]; [|contradiction]. rewrite Pm in L4. cbn in L4. injection L4 as <-. cbn [checked_estimation] in E0.
    destruct v as [| | | | | | | |c0]; try discriminate. unfold est_conf in E0. destruct (estimation_check_conf bool_ok c0) as [c0'|] eqn:Ei; cbn in E0; [|discriminate E0]. injection E0 as <-.
    injection L3 as <-.
    assert (Wp : wf (JDict p)) by exact (merge_wf _ _ _ (wf_lookup _ _ _ Hw Lraw) wf_empty Mp).
    assert (Nd0 := proj1 (wf_dict_inv _ (wf_lookup _ _ _ Wp L1))).
    assert (E : lookup k c0' = Some (JInt range)).
    { destruct (estimation_result _ _ _ Ei) as [Cb _]. rewrite Cb. destruct Ha as [(Hn & ->)|Hg].
      - cbn [get_path] in Hn. rewrite Lraw in Hn. pose proof (absent_read "estimation" k Hn p Mp) as A. cbn [get_path] in A. rewrite L1 in A.
        destruct (lookup k c0); [discriminate|]. cbn in Hk. destruct Hk as [<-|[<-|[]]]; reflexivity.
      - change (get_path ["pipeline"; "estimation"; k] (JDict user)) with
          (match lookup "pipeline" user with Some v => get_path ["estimation"; k] v | None => None end) in Hg. rewrite Lraw in Hg.
        pose proof (merge_keeps _ _ _ _ (wf_lookup _ _ _ Hw Lraw) Mp Hg eq_refl) as G. cbn [get_path] in G. rewrite L1 in G. cbn [get_path] in G.
        destruct (lookup k c0); [exact G | discriminate]. }
    assert (Ex : lookup k x = Some (JInt range)).
    { rewrite merge_dict in Mg. destruct (upd_items c0' c0) as [y'|] eqn:Ey; [|discriminate]. injection Mg as <-.
      assert (Nd : NoDup (keys c0')). { unfold estimation_check_conf in Ei. destruct (validate _ _); [|discriminate]. injection Ei as <-. repeat apply set_default_nodup. exact Nd0. }
      pose proof (upd_lookup _ _ _ Ey Nd k) as Lu. rewrite E in Lu. destruct Lu as [Lu _]. rewrite Lu. reflexivity. }
    destruct (estimation_result _ _ _ Hy) as [Cb _]. rewrite Cb, Ex. reflexivity.
  Qed.
  Lemma kept_method s : get_path ["pipeline"; "refinement"; "refinement_method"] (JDict user) = Some (JStr s) -> In s ["dichotomy"; "interpolation"; "optical_flow"] ->
    get_path ["pipeline"; "refinement"; "refinement_method"] (JDict cfg) = Some (JStr s).
  Proof.
    intros Hg Hs. destruct kept_pipeline as (ce & c1 & c2 & cr & p & Lp & _ & _ & Mp & Kp & HM & Hm).
    pose proof (merged_lookup _ _ _ HM "refinement") as ML.
    destruct (keys_pipeline p Kp) as (ce0 & c10 & c20 & cr0 & Ep & _).
    change (get_path ["pipeline"; "refinement"; "refinement_method"] (JDict user)) with
      (match lookup "pipeline" user with Some v => get_path ["refinement"; "refinement_method"] v | None => None end) in Hg. rewrite Lraw in Hg.
    pose proof (merge_keeps _ _ _ _ (wf_lookup _ _ _ Hw Lraw) Mp Hg eq_refl) as G.
    assert (Es : conv (JStr s) = JStr s) by (cbn in Hs; destruct Hs as [<-|[<-|[<-|[]]]]; reflexivity). rewrite Es in G. cbn [get_path] in G.
    destruct (lookup "refinement" p) as [x0|] eqn:L1; [|discriminate]. destruct x0 as [| | | | | | | |c0]; try discriminate.
    destruct (lookup "refinement_method" c0) as [v0|] eqn:E0; [|discriminate]. injection G as ->.
    rewrite Ep in Hm. destruct (checked_machine _ _ _ _ _ _ _ _ _ _ _ Hm) as (e' & c1' & st & w & mg1 & c2' & mg2 & r' & _ & _ & _ & E3 & Pm & _).
    destruct cr0 as [cr0|]; [|rewrite Ep in L1; destruct ce0; discriminate].
    assert (cr0 = JDict c0) as -> by (rewrite Ep in L1; destruct ce0; cbn in L1; congruence).
    destruct r' as [[c' mg]|]; [|contradiction]. cbn [checked_refinement CheckConfModel.ref_conf] in E3.
    destruct (refinement_init bool_ok (Some st) w c0) as [y0|] eqn:Er; [|discriminate]. injection E3 as <- _.
    destruct ML as (x & y & L2 & L3 & D0 & D1 & Mg & D2 & _).
    assert (L4 : lookup "refinement" (m_pipeline m) = Some (JDict y0)) by (rewrite Pm; destruct e'; reflexivity). rewrite L4 in L3. injection L3 as <-.
    assert (W0 : wf (JDict c0)). { apply (wf_lookup "refinement" _ _ (merge_wf _ _ _ (wf_lookup _ _ _ Hw Lraw) wf_empty Mp) L1). }
    destruct y as [| | | | | | | |y]; try discriminate.
    assert (Ly0 : lookup "refinement_method" y0 = Some (JStr s) /\ NoDup (keys y0)).
    { unfold refinement_init in Er. rewrite E0 in Er. assert (N0 := proj1 (wf_dict_inv _ W0)). destruct (s =? "dichotomy") eqn:S1.
      - destruct (dichotomy_result _ _ _ Er) as (j & n & _ & _ & ->). destruct (Z.ltb 9 n); [|auto]. split; [rewrite lookup_assign; exact E0 | now apply assign_nodup].
      - destruct (s =? "optical_flow") eqn:S2.
        + unfold optical_flow_init in Er. destruct (validate _ _); [|discriminate]. injection Er as <-. split; [|apply set_default_nodup; now repeat apply assign_nodup].
          unfold set_default. rewrite !lookup_assign. cbn. destruct (lookup "iterations" c0); rewrite ?lookup_assign; exact E0.
        + destruct (s =? "interpolation"); [|discriminate]. unfold interpolation_init in Er. destruct (validate _ _); [|discriminate]. injection Er as <-. auto. }
    destruct Ly0 as [Ly0 Ny0]. cbn [get_path]. rewrite Lp, L2. cbn [get_path]. rewrite merge_dict in Mg. destruct (upd_items y0 c0) as [y'|] eqn:Ey; [|discriminate]. injection Mg as <-.
    pose proof (upd_lookup _ _ _ Ey Ny0 "refinement_method") as Lu. rewrite Ly0 in Lu. destruct Lu as [Lu _]. rewrite Lu, merge_leaf by reflexivity. now rewrite Es.
  Qed.
  Lemma init_iterations s cfg0 st ws y n : In s ["dichotomy"; "optical_flow"] -> lookup "refinement_method" cfg0 = Some (JStr s) ->
    (exists j, lookup "iterations" cfg0 = Some j /\ int_value bool_ok j n) \/ s = "optical_flow" /\ lookup "iterations" cfg0 = None /\ n = 4%Z ->
    refinement_init bool_ok st ws cfg0 = Some y -> exists j, lookup "iterations" y = Some j /\ int_value bool_ok j (if s =? "dichotomy" then Z.min n 9 else n).
  Proof.
    intros Hs E0 A0 Er. unfold refinement_init in Er. rewrite E0 in Er. destruct Hs as [<-|[<-|[]]]; cbn [String.eqb Ascii.eqb Bool.eqb] in Er |- *.
    - destruct A0 as [(j & Lj & Ij)|(X & _)]; [|discriminate X]. destruct (dichotomy_result _ _ _ Er) as (j' & n' & Lj' & Ij' & ->). rewrite Lj in Lj'. injection Lj' as <-.
      assert (n' = n) as -> by (apply as_int_value in Ij, Ij'; congruence).
      destruct (Z.ltb 9 n) eqn:L9; [apply Z.ltb_lt in L9 | apply Z.ltb_ge in L9].
      + exists (JInt 9). rewrite lookup_assign. split; [reflexivity|]. rewrite Z.min_r by lia. constructor.
      + exists j. rewrite Z.min_l by lia. auto.
    - unfold optical_flow_init in Er. destruct (validate _ _); [|discriminate]. injection Er as <-. unfold set_default. rewrite !lookup_assign. cbn [String.eqb Ascii.eqb Bool.eqb].
      destruct A0 as [(j & E & Ij)|(_ & E & ->)].
      + rewrite E, !lookup_assign. cbn [String.eqb Ascii.eqb Bool.eqb]. eauto.
      + rewrite E, lookup_assign. exists (JInt 4). split; [reflexivity | constructor].
  Qed.
  (** The iterations of the refinement: at most 9 for a dichotomy. *)
  Lemma kept_iterations s n : In s ["dichotomy"; "optical_flow"] -> asks_refinement bool_ok user s n ->
    forall x st ws c, get_path ["pipeline"; "refinement"] (JDict cfg) = Some (JDict x) -> refinement_init bool_ok (Some st) ws x = Some c ->
    exists j, lookup "iterations" c = Some j /\ int_value bool_ok j (if s =? "dichotomy" then Z.min n 9 else n).
  Proof.
    intros Hs (Hmeth & Ha) x st0 ws0 c Gx Hx.
    pose proof (kept_method s Hmeth ltac:(cbn in Hs |- *; tauto)) as Km.
    assert (Mx : lookup "refinement_method" x = Some (JStr s)).
    { cbn [get_path] in Gx, Km. destruct (lookup "pipeline" cfg) as [[| | | | | | | |pl]|]; try discriminate. cbn [get_path] in Gx, Km. destruct (lookup "refinement" pl) as [jx|]; [|discriminate]. cbn [get_path] in Gx, Km.
      injection Gx as ->. cbn [get_path] in Km. destruct (lookup "refinement_method" x); [exact Km | discriminate]. }
    destruct kept_pipeline as (ce & c1 & c2 & cr & p & Lp & _ & _ & Mp & Kp & HM & Hm).
    pose proof (merged_lookup _ _ _ HM "refinement") as ML.
    destruct (keys_pipeline p Kp) as (ce0 & c10 & c20 & cr0 & Ep & _).
    assert (Hg := Hmeth). change (get_path ["pipeline"; "refinement"; "refinement_method"] (JDict user)) with
      (match lookup "pipeline" user with Some v => get_path ["refinement"; "refinement_method"] v | None => None end) in Hg. rewrite Lraw in Hg.
    pose proof (merge_keeps _ _ _ _ (wf_lookup _ _ _ Hw Lraw) Mp Hg eq_refl) as G.
    assert (Es : conv (JStr s) = JStr s) by (cbn in Hs; destruct Hs as [<-|[<-|[]]]; reflexivity). rewrite Es in G. cbn [get_path] in G.
    destruct (lookup "refinement" p) as [x0|] eqn:L1; [|discriminate]. destruct x0 as [| | | | | | | |c0]; try discriminate.
    destruct (lookup "refinement_method" c0) as [v0|] eqn:E0; [|discriminate]. injection G as ->.
    rewrite Ep in Hm. destruct (checked_machine _ _ _ _ _ _ _ _ _ _ _ Hm) as (e' & c1' & st & w & mg1 & c2' & mg2 & r' & _ & _ & _ & E3 & Pm & _).
    destruct cr0 as [cr0|]; [|rewrite Ep in L1; destruct ce0; discriminate].
    assert (cr0 = JDict c0) as -> by (rewrite Ep in L1; destruct ce0; cbn in L1; congruence).
    destruct r' as [[c' mg]|]; [|contradiction]. cbn [checked_refinement CheckConfModel.ref_conf] in E3.
    destruct (refinement_init bool_ok (Some st) w c0) as [y0|] eqn:Er; [|discriminate]. injection E3 as <- _.
    destruct ML as (x1 & y & L2 & L3 & D0 & D1 & Mg & D2 & _).
    assert (L4 : lookup "refinement" (m_pipeline m) = Some (JDict y0)) by (rewrite Pm; destruct e'; reflexivity). rewrite L4 in L3. injection L3 as <-.
    assert (W0 : wf (JDict c0)). { apply (wf_lookup "refinement" _ _ (merge_wf _ _ _ (wf_lookup _ _ _ Hw Lraw) wf_empty Mp) L1). }
    destruct y as [| | | | | | | |y]; try discriminate.
    assert (y = x) as ->. { cbn [get_path] in Gx. rewrite Lp in Gx. cbn [get_path] in Gx. rewrite L2 in Gx. cbn [get_path] in Gx. congruence. }
    (* what the user wrote, as it is read *)
    assert (A0 : (exists j, lookup "iterations" c0 = Some j /\ int_value bool_ok j n) \/ s = "optical_flow" /\ lookup "iterations" c0 = None /\ n = 4%Z).
    { destruct Ha as [(j & Gj & Ij)|(-> & Gn & ->)].
      - left. exists j. split; [|exact Ij]. assert (Dj : is_dict j = false /\ conv j = j) by (inversion Ij; subst; split; reflexivity). destruct Dj as [Dj Cj].
        change (get_path ["pipeline"; "refinement"; "iterations"] (JDict user)) with
          (match lookup "pipeline" user with Some v => get_path ["refinement"; "iterations"] v | None => None end) in Gj. rewrite Lraw in Gj.
        pose proof (merge_keeps _ _ _ _ (wf_lookup _ _ _ Hw Lraw) Mp Gj Dj) as G. rewrite Cj in G. cbn [get_path] in G. rewrite L1 in G. cbn [get_path] in G.
        destruct (lookup "iterations" c0); [exact G | discriminate].
      - right. split; [reflexivity|]. split; [|reflexivity]. cbn [get_path] in Gn. rewrite Lraw in Gn. pose proof (absent_read "refinement" "iterations" Gn p Mp) as A. cbn [get_path] in A. rewrite L1 in A. cbn [get_path] in A.
        destruct (lookup "iterations" c0); [discriminate | reflexivity]. }
    destruct (init_iterations s c0 _ _ _ n Hs E0 A0 Er) as (j & Lj & Ij).
    assert (Ny0 : NoDup (keys y0)).
    { assert (N0 := proj1 (wf_dict_inv _ W0)). unfold refinement_init in Er. rewrite E0 in Er. destruct Hs as [<-|[<-|[]]]; cbn [String.eqb Ascii.eqb Bool.eqb] in Er.
      - destruct (dichotomy_result _ _ _ Er) as (j' & n' & _ & _ & ->). destruct (Z.ltb 9 n'); [now apply assign_nodup | exact N0].
      - unfold optical_flow_init in Er. destruct (validate _ _); [|discriminate]. injection Er as <-. apply set_default_nodup. now repeat apply assign_nodup. }
    assert (Lx : lookup "iterations" x = Some j).
    { rewrite merge_dict in Mg. destruct (upd_items y0 c0) as [y'|] eqn:Ey; [|discriminate]. injection Mg as <-. pose proof (upd_lookup _ _ _ Ey Ny0 "iterations") as Lu. rewrite Lj in Lu. destruct Lu as [Lu _]. rewrite Lu.
      inversion Ij; subst; now rewrite merge_leaf by reflexivity. }
    destruct (init_iterations s x _ _ _ _ Hs Mx (or_introl (ex_intro _ j (conj Lx Ij))) Hx) as (j' & Lj' & Ij'). exists j'. split; [exact Lj'|].
    destruct (s =? "dichotomy"); [|exact Ij']. now rewrite Z.min_l in Ij' by lia.
  Qed.
End Kept.
