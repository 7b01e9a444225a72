(** Properties C18, C19, C20, C21, C45, C46: the state machine. *)
From Coq Require Import List String Bool Arith Lia.
From Verif Require Import Model.MachineModel Spec.MachineSpec Proofs.MachineProofs.
Import ListNotations.
Open Scope string_scope.
Open Scope list_scope.

Section Props.
  Context {C D M S W : Type}.
  Variable est_conf : C -> option C.
  Variable mc_conf : C -> option (C * S * W * M).
  Variable disp_conf : C -> option (C * M).
  Variable ref_conf : C -> option S -> option W -> option (C * M).
  Variable run_step : callback -> string -> C -> option M -> option S -> option W -> D -> option D.
  Variable merge : C -> C -> C.
  Notation check := (check_conf est_conf mc_conf disp_conf ref_conf run_step).
  Notation run := (run est_conf mc_conf disp_conf ref_conf run_step).
  Notation used := (used est_conf mc_conf disp_conf ref_conf run_step).
  Notation accepted := (configurations_accepted est_conf mc_conf disp_conf ref_conf).

  (** C18: on every machine obtained by successful checks and runs, a pipeline is accepted exactly when the order of its steps is
      documented and each step accepts its configuration. *)
  Theorem C18_accepted_iff_documented names m cfg : used names m ->
    (snd (check cfg m) = None <-> documented (map fst cfg) /\ accepted cfg).
  Proof.
    intros Hu. apply used_inv in Hu. destruct Hu as ((Hs & Ht) & _). now apply (check_conf_verdict _ _ _ _ _ cfg m 0).
  Qed.

  (** In particular a name with a dot ("refinement.1"), that run would accept, is always refused by the check, so that a
      pipeline (a dictionary, without two identical names) has at most four steps. *)
  Theorem C18_no_dotted_step names m cfg n : used names m -> In n (map fst cfg) -> before_dot n <> n -> snd (check cfg m) <> None.
  Proof.
    intros Hu Hin Hn H. apply C18_accepted_iff_documented with (1 := Hu) in H. destruct H as [H _].
    now apply Hn, (documented_no_dot _ _ H).
  Qed.

  (** C19, the check: the machine is clean after a successful check, whatever was done before. *)
  Theorem C19_clean names m cfg m' : used names m -> check cfg m = (m', None) -> clean m'.
  Proof. intros Hu H. exact (proj1 (used_inv _ _ _ _ _ _ _ (used_check _ _ _ _ _ _ _ _ _ Hu H))). Qed.

  (** C19, the run: it does the steps of the configuration in order, each once, and leaves the machine clean; the only errors are
      the errors of the steps. The machine may have been prepared before ([n] times) without being run. *)
  Theorem C19_run names m cfg m' d0 d n : used names m -> check cfg m = (m', None) ->
    let result := run d cfg (Nat.iter n (run_prepare d0) m') in
    let f cb name c := run_step cb name c (lookup "refinement" (m_non_cumulative m')) (m_step m') (m_window m') in
    match execute f cfg d with
    | Some d' => snd result = None /\ clean (fst result) /\ m_data (fst result) = d'
    | None => snd result = Some CallbackError
    end.
  Proof.
    intros Hu H result f.
    assert (Hd : documented (map fst cfg)).
    { apply (C18_accepted_iff_documented names m cfg Hu). now rewrite H. }
    assert (Hc : clean m') by exact (C19_clean _ _ _ _ Hu H).
    subst result. unfold MachineModel.run.
    assert (Hi : run_prepare d (Nat.iter n (run_prepare d0) m') =
                 set_transitions (copies transitions_run (Datatypes.S n)) (set_data d m')).
    { destruct Hc as (_ & Ht). assert (G : Nat.iter n (run_prepare d0) m' =
        set_transitions (copies transitions_run n) (match n with O => m' | _ => set_data d0 m' end)).
      { clear H Hu. induction n; [destruct m'; cbn in *; subst; reflexivity|].
        change (Nat.iter (Datatypes.S n) (run_prepare d0) m') with (run_prepare d0 (Nat.iter n (run_prepare d0) m')).
        rewrite IHn. unfold run_prepare, add_transitions, set_transitions, set_data. cbn.
        rewrite copies_snoc. destruct n; reflexivity. }
      rewrite G. unfold run_prepare, add_transitions, set_transitions, set_data. cbn. rewrite copies_snoc. destruct n; reflexivity. }
    rewrite Hi. set (m0 := set_transitions _ _).
    pose proof (trigger_all_run est_conf mc_conf disp_conf ref_conf run_step cfg m0) as T.
    assert (R0 : run_machine m0) by (exists n; reflexivity).
    assert (P0 : path (m_state m0) (map fst cfg) <> None) by (cbn; rewrite (proj1 Hc); now apply path_documented).
    specialize (T R0 P0 (fun x Hx => documented_no_dot _ _ Hd Hx)).
    change (lookup "refinement" (m_non_cumulative m0)) with (lookup "refinement" (m_non_cumulative m')) in T.
    change (m_step m0) with (m_step m') in T. change (m_window m0) with (m_window m') in T. change (m_data m0) with d in T.
    change (fun (cb : callback) (n0 : string) (c : C) => run_step cb n0 c (lookup "refinement" (m_non_cumulative m')) (m_step m') (m_window m'))
      with f in T.
    destruct (execute f cfg d) as [d'|].
    - destruct T as [s T]. rewrite T. unfold run_exit. rewrite (remove_all transitions_run n); auto. cbn. repeat split; reflexivity.
    - destruct (trigger_all _ _ _ _ _ before_dot cfg m0) as [m1 [e|]]; cbn in T; [|discriminate]. now injection T as ->.
  Qed.

  (** C20, what holds: after any number of failures due to the first step of the pipeline, every pipeline gives the same result as
      before. What is missing: failures of a later step. *)
  Theorem C20_failures_at_first_step_partial (failures : list (list (string * C))) names m cfg m' :
    used names m ->
    Forall (fun a => exists s rest, a = s :: rest /\ snd (check [s] m) <> None) failures ->
    let after := fold_left (fun x a => fst (check a x)) failures m in
    Forall (fun a => snd (check a m) <> None) failures /\
    (check cfg after = (m', None) <-> check cfg m = (m', None)).
  Proof.
    intros Hu Hf. apply used_inv in Hu. destruct Hu as ((Hs & Ht) & _). cbv zeta. split.
    - eapply Forall_impl; [|exact Hf]. intros a (s & rest & -> & H).
      destruct (first_step_fails _ _ _ _ _ s rest m 0 Hs Ht H) as (e & ->). discriminate.
    - assert (G : forall x k, x = set_transitions (copies transitions_check k) m ->
        exists k', fold_left (fun x a => fst (check a x)) failures x = set_transitions (copies transitions_check k') m).
      { induction Hf as [|a l (s & rest & -> & H) Hl IH]; intros x k Hx; [eauto|].
        cbn [fold_left].
        destruct (first_step_fails est_conf mc_conf disp_conf ref_conf run_step s rest x k) as (e & He).
        - subst x. exact Hs.
        - subst x. reflexivity.
        - intros Hn. apply H. apply (check_conf_verdict _ _ _ _ _ [s] x k) in Hn; [|subst x; auto|subst x; reflexivity].
          now apply (check_conf_verdict _ _ _ _ _ [s] m 0).
        - rewrite He. apply (IH _ (Datatypes.S k)). subst x. reflexivity. }
      destruct (G m O) as (k' & Hk); [destruct m; cbn in *; now subst|]. rewrite Hk.
      rewrite (check_conf_copies _ _ _ _ _ cfg _ k'); [|reflexivity].
      replace (set_transitions [] (set_transitions (copies transitions_check k') m)) with m by (destruct m; cbn in *; now subst).
      reflexivity.
  Qed.

  (** C21, verdict: whether a pipeline is accepted, and the kind of error, do not depend on what was checked or run before. *)
  Theorem C21_same_verdict names m cfg d : used names m -> snd (check cfg m) = snd (check cfg (new_machine d)).
  Proof. apply used_verdict. Qed.

  (** C21, result: when the names of the steps checked before are all in the pipeline, the completed pipeline and the margins are
      those given by a new machine. What is missing: other histories, see the refutation below. *)
  Theorem C21_same_result_partial names m cfg d m1 m2 : used names m -> (forall n, In n names -> In n (map fst cfg)) ->
    check cfg m = (m1, None) -> check cfg (new_machine d) = (m2, None) ->
    forall k, lookup k (update_pipeline merge cfg (m_pipeline m1)) = lookup k (update_pipeline merge cfg (m_pipeline m2)) /\
              lookup k (m_cumulative m1) = lookup k (m_cumulative m2) /\
              lookup k (m_non_cumulative m1) = lookup k (m_non_cumulative m2).
  Proof.
    intros Hu Hn H1 H2 k.
    destruct (used_result _ _ _ _ _ names m cfg d m1 m2 Hu Hn H1 H2 k) as (A1 & A2 & A3); [auto|].
    repeat split; auto.
    pose proof (used_inv _ _ _ _ _ _ _ (used_check _ _ _ _ _ _ _ _ _ Hu H1)) as (_ & _ & _ & _ & N1).
    pose proof (used_inv _ _ _ _ _ _ _ (used_check _ _ _ _ _ _ _ _ _ (used_new _ _ _ _ _ d) H2)) as (_ & _ & _ & _ & N2).
    now rewrite !lookup_update, A1 by auto.
  Qed.
End Props.

(** * A concrete machine: configurations are numbers, 99 is refused by every step, the run of a step with 98 raises an error, the data is the list of the steps executed. *)
Definition ex_conf (c : nat) : option nat := if Nat.eqb c 99 then None else Some c.
Definition ex_est := ex_conf.
Definition ex_mc (c : nat) : option (nat * nat * nat * nat) := match ex_conf c with Some c => Some (c, c, c, c) | None => None end.
Definition ex_disp (c : nat) : option (nat * nat) := match ex_conf c with Some c => Some (c, c) | None => None end.
Definition ex_ref (c : nat) (_ _ : option nat) : option (nat * nat) := ex_disp c.
Definition ex_run (_ : callback) (n : string) (c : nat) (_ _ _ : option nat) (d : list string) : option (list string) :=
  if Nat.eqb c 98 then None else Some (d ++ [n]).
Definition ex_check := @check_conf nat (list string) nat nat nat ex_est ex_mc ex_disp ex_ref ex_run.
Definition ex_run_all := @run nat (list string) nat nat nat ex_est ex_mc ex_disp ex_ref ex_run.
Definition ex_new : @machine nat (list string) nat nat nat := new_machine [].
Definition ex_used := @used nat (list string) nat nat nat ex_est ex_mc ex_disp ex_ref ex_run.

Example C18_example : snd (ex_check [("estimation", 1); ("matching_cost", 2); ("disparity", 3); ("refinement", 4)] ex_new) = None
  /\ documented ["estimation"; "matching_cost"; "disparity"; "refinement"]
  /\ snd (ex_check [("disparity", 3); ("matching_cost", 2)] ex_new) = Some NotAllowed.
Proof. split; [vm_compute; reflexivity|]. split; [exists true, true, true, 1; reflexivity | vm_compute; reflexivity]. Qed.

Example C18_dotted_example : before_dot "refinement.1" <> "refinement.1" /\
  snd (ex_check [("matching_cost", 2); ("disparity", 3); ("refinement", 4); ("refinement.1", 4)] ex_new) = Some UnknownTrigger /\
  m_data (fst (ex_run_all [] [("matching_cost", 2); ("disparity", 3); ("refinement", 4); ("refinement.1", 4)] ex_new)) =
    ["matching_cost"; "disparity"; "refinement"; "refinement.1"].
Proof. vm_compute. repeat split; discriminate. Qed.

Example C19_example : exists m', ex_check [("matching_cost", 2); ("disparity", 3)] ex_new = (m', None) /\
  m_data (fst (ex_run_all ["start"] [("matching_cost", 2); ("disparity", 3)] m')) = ["start"; "matching_cost"; "disparity"].
Proof.
  exists (fst (ex_check [("matching_cost", 2); ("disparity", 3)] ex_new)). vm_compute. split; reflexivity.
Qed.

(** The first step fails, then a good pipeline is accepted. *)
Example C20_example : snd (ex_check [("matching_cost", 99)] ex_new) = Some CallbackError /\
  snd (ex_check [("matching_cost", 2); ("disparity", 3)] (fst (ex_check [("matching_cost", 99)] ex_new))) = None.
Proof. vm_compute. split; reflexivity. Qed.

(** C20 is false: when a later step fails, a correct pipeline is refused afterwards. *)
Theorem C20_check_after_failure_refuted : exists bad good,
  snd (ex_check bad ex_new) <> None /\ snd (ex_check good ex_new) = None /\
  snd (ex_check good (fst (ex_check bad ex_new))) = Some NotAllowed.
Proof. exists [("matching_cost", 1); ("disparity", 99)], [("matching_cost", 1)]. vm_compute. repeat split; discriminate. Qed.

(** C45 is false: a pipeline that a new machine refuses is accepted after a failed check. *)
Theorem C45_wrong_pipeline_accepted_refuted : exists bad wrong,
  snd (ex_check bad ex_new) <> None /\ snd (ex_check wrong ex_new) <> None /\ ~ documented (map fst wrong) /\
  snd (ex_check wrong (fst (ex_check bad ex_new))) = None.
Proof.
  exists [("matching_cost", 1); ("disparity", 99)], [("disparity", 1)].
  split; [vm_compute; discriminate|]. split; [vm_compute; discriminate|]. split; [|vm_compute; reflexivity].
  intros ([|] & [|] & d & n & H); cbn in H; discriminate.
Qed.

(** C46 is false: after a failed check, a run of a correct pipeline reports no error and executes no step. *)
Theorem C46_run_after_failed_check_refuted : exists bad good,
  snd (ex_check bad ex_new) <> None /\
  m_data (fst (ex_run_all ["start"] good ex_new)) = ["start"; "matching_cost"; "disparity"] /\
  snd (ex_run_all ["start"] good (fst (ex_check bad ex_new))) = None /\
  m_data (fst (ex_run_all ["start"] good (fst (ex_check bad ex_new)))) = ["start"].
Proof. exists [("matching_cost", 99)], [("matching_cost", 1); ("disparity", 1)]. vm_compute. repeat split; discriminate. Qed.

(** C47 is false: after an error during a run, a correct pipeline is refused. *)
Theorem C47_check_after_failed_run_refuted : exists cfg m good,
  ex_check cfg ex_new = (m, None) /\ snd (ex_run_all [] cfg m) = Some CallbackError /\
  snd (ex_check good m) = None /\ snd (ex_check good (fst (ex_run_all [] cfg m))) <> None.
Proof.
  pose (cfg := [("matching_cost", 1); ("disparity", 98)]).
  exists cfg, (fst (ex_check cfg ex_new)), [("matching_cost", 1)]. vm_compute. repeat split; discriminate.
Qed.

(** C21 is false: the completed pipeline and the margins keep the steps of a pipeline checked before. *)
Theorem C21_same_result_refuted : exists before cfg m m1 m2,
  ex_used (map fst before) m /\ ex_check before ex_new = (m, None) /\
  ex_check cfg m = (m1, None) /\ ex_check cfg ex_new = (m2, None) /\
  lookup "refinement" (update_pipeline (fun _ c => c) cfg (m_pipeline m1)) <> None /\
  lookup "refinement" (update_pipeline (fun _ c => c) cfg (m_pipeline m2)) = None /\
  m_non_cumulative m1 <> m_non_cumulative m2.
Proof.
  pose (before := [("matching_cost", 1); ("disparity", 2); ("refinement", 3)]).
  pose (cfg := [("matching_cost", 1); ("disparity", 2)]).
  exists before, cfg, (fst (ex_check before ex_new)), (fst (ex_check cfg (fst (ex_check before ex_new)))), (fst (ex_check cfg ex_new)).
  split. { apply (used_check _ _ _ _ _ [] ex_new before); [constructor | vm_compute; reflexivity]. }
  split; [vm_compute; reflexivity|]. split; [vm_compute; reflexivity|]. split; [vm_compute; reflexivity|].
  split; [vm_compute; discriminate|]. split; [vm_compute; reflexivity | vm_compute; discriminate].
Qed.

Example C21_example : exists m m1, ex_used ["matching_cost"] m /\
  ex_check [("matching_cost", 1); ("disparity", 2)] m = (m1, None) /\
  (forall n, In n ["matching_cost"] -> In n (map fst [("matching_cost", 1); ("disparity", 2)])).
Proof.
  pose (before := [("matching_cost", 7)]). pose (cfg := [("matching_cost", 1); ("disparity", 2)]).
  exists (fst (ex_check before ex_new)), (fst (ex_check cfg (fst (ex_check before ex_new)))).
  split. { apply (used_check _ _ _ _ _ [] ex_new before); [constructor | vm_compute; reflexivity]. }
  split; [vm_compute; reflexivity|]. cbn. tauto.
Qed.

Print Assumptions C18_accepted_iff_documented.
Print Assumptions C18_no_dotted_step.
Print Assumptions C19_clean.
Print Assumptions C19_run.
Print Assumptions C20_failures_at_first_step_partial.
Print Assumptions C20_check_after_failure_refuted.
Print Assumptions C21_same_verdict.
Print Assumptions C21_same_result_partial.
Print Assumptions C21_same_result_refuted.
Print Assumptions C45_wrong_pipeline_accepted_refuted.
Print Assumptions C46_run_after_failed_check_refuted.
Print Assumptions C47_check_after_failed_run_refuted.
