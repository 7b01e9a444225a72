(** C71: what a machine does after failures. *)
From Coq Require Import List String Bool Arith.
From Verif Require Import Model.MachineModel Spec.MachineSpec Spec.HistorySpec Proofs.MachineProofs Proofs.HistoryProofs Props.MachineProps.
Import ListNotations.
Open Scope string_scope.
Open Scope list_scope.

Section C71.
  Context {C D M S W : Type}.
  Variable est_conf : C -> option C.
  Variable mc_conf : C -> option (C * S * W * M).
  Variable disp_conf : C -> option (C * M).
  Variable ref_conf : C -> option S -> option W -> option (C * M).
  Variable run_step : callback -> string -> C -> option M -> option S -> option W -> D -> option D.
  Notation mach := (@machine C D M S W).
  Notation walk := (walk est_conf mc_conf disp_conf ref_conf run_step).
  Notation perform := (perform est_conf mc_conf disp_conf ref_conf run_step).
  Notation reached := (reached est_conf mc_conf disp_conf ref_conf run_step).
  Notation check := (check_conf est_conf mc_conf disp_conf ref_conf run_step).
  Notation run := (run est_conf mc_conf disp_conf ref_conf run_step).
  Notation step_of m := (fun cb name c => run_step cb name c (lookup "refinement" (m_non_cumulative m)) (m_step m) (m_window m)).

  (** After any history, an operation goes on from the state where the last operation failed (the initial state if it did not), with the
      functions (those of a check or those of a run) of the first failed operation since the last successful one; when it succeeds the machine
      is clean. *)
  Theorem C71_operation m s u o : reached m s u ->
    let w := walk (match u with Some x => x | None => use_of o end) (name_of o) (steps_of o) (given o m) in
    m_state m = s /\
    exists m', perform o m = (m', snd w) /\ contents m' = contents (fst w) /\
      match snd w with None => clean m' | Some _ => m_state m' = m_state (fst w) end.
  Proof. apply reached_operation. Qed.

  (** A check that succeeds was given steps allowed from that state; so a sequence of steps that is not documented is accepted only when the
      last operation failed after its first step. *)
  Theorem C71_accepted m s u cfg : reached m s u -> snd (check cfg m) = None ->
    allowed s (map fst cfg) /\ (s = Begin -> documented (map fst cfg)).
  Proof.
    intros H Hc. destruct (C71_operation m s u (Check cfg) H) as (Hs & m' & P & _). cbn [HistorySpec.perform] in P. rewrite P in Hc. cbn [snd] in Hc.
    apply walk_path in Hc. cbn [given steps_of name_of] in Hc. rewrite Hs in Hc. split; [now apply allowed_path|]. intros ->. now apply path_documented.
  Qed.
  (** After a failure in the cost volumes or in the maps, every documented pipeline is refused, whatever its configuration (but the empty
      one). *)
  Theorem C71_refused m s u cfg : reached m s u -> s = CostVolumes \/ s = DispMaps -> documented (map fst cfg) -> cfg <> [] -> snd (check cfg m) <> None.
  Proof.
    intros H Hs Hd Hn Hc. apply (C71_accepted m s u cfg H) in Hc. destruct Hc as [Hc _]. destruct cfg as [|[n c] l]; [congruence|]. cbn [map fst allowed] in Hc.
    destruct Hd as (e & mc & d & k & E). cbn [map fst] in E.
    assert (In n ["estimation"; "matching_cost"]) as Hin. { destruct e; cbn in E; [injection E as -> _; cbn; auto|]. destruct mc; [injection E as -> _; cbn; auto | discriminate]. }
    destruct Hin as [<-|[<-|[]]], Hs as [-> | ->]; cbn in Hc; exact Hc.
  Qed.
  (** The check of an empty pipeline always succeeds and cleans the machine: this is the way out. *)
  Theorem C71_way_out m s u : reached m s u -> exists m', check [] m = (m', None) /\ clean m' /\ contents m' = contents m.
  Proof.
    intros H. destruct (C71_operation m s u (Check []) H) as (_ & m' & P & Q & R). cbn [snd fst HistorySpec.walk steps_of given] in *. exists m'. auto.
  Qed.

  (** A run that returns, when no failed check is pending, has executed its steps on its images. *)
  Theorem C71_run_executes m s u d cfg m' : reached m s u -> u <> Some Checking -> run d cfg m = (m', None) ->
    executed (step_of m) cfg d = Some (m_data m') /\ allowed s (map (fun n => before_dot (fst n)) cfg) /\ clean m'.
  Proof.
    intros H Hu Hr. destruct (C71_operation m s u (Run d cfg) H) as (Hs & m1 & P & Q & R). cbn [HistorySpec.perform name_of steps_of given use_of] in *. rewrite Hr in P. injection P as <- E. rewrite <- E in R.
    assert (match u with Some x => x | None => Running end = Running) as X by (destruct u as [[|]|]; congruence). rewrite X in *. clear X.
    cbn [name_of steps_of given] in *. destruct (walk Running before_dot cfg (set_data d m)) as [m2 e] eqn:Ew. cbn [fst snd] in *. subst e.
    assert (Hd : m_data m' = m_data m2) by (unfold contents in Q; congruence). rewrite Hd. split; [|split; [|exact R]].
    - exact (walk_run_executed _ _ _ _ _ before_dot cfg (fun _ _ => eq_refl) _ _ Ew).
    - assert (Hp := walk_path est_conf mc_conf disp_conf ref_conf run_step Running before_dot cfg (set_data d m)). rewrite Ew in Hp. specialize (Hp eq_refl).
      cbn [m_state set_data] in Hp. rewrite Hs in Hp. now apply allowed_path.
  Qed.
  (** When a failed check is pending, a run that returns has executed none of its steps: its data are the images it was given. *)
  Theorem C71_run_executes_nothing m s d cfg m' : reached m s (Some Checking) -> run d cfg m = (m', None) -> m_data m' = d.
  Proof.
    intros H Hr. destruct (C71_operation m s (Some Checking) (Run d cfg) H) as (Hs & m1 & P & Q & R). cbn [HistorySpec.perform] in P. rewrite Hr in P. injection P as <- _.
    cbn [name_of steps_of given] in Q. assert (m_data m' = m_data (fst (walk Checking before_dot cfg (set_data d m)))) as -> by (unfold contents in Q; congruence).
    now rewrite walk_check_data.
  Qed.
  (** When a failed run is pending, a check that returns has checked nothing: it has executed its steps on the data left by the failed run. *)
  Theorem C71_check_executes m s cfg m' : reached m s (Some Running) -> check cfg m = (m', None) ->
    executed (step_of m) cfg (m_data m) = Some (m_data m') /\ m_pipeline m' = m_pipeline m /\
    m_cumulative m' = m_cumulative m /\ m_non_cumulative m' = m_non_cumulative m.
  Proof.
    intros H Hr. pose proof (C71_accepted m s (Some Running) cfg H) as Ha. rewrite Hr in Ha. destruct (Ha eq_refl) as [Hal _]. clear Ha.
    destruct (C71_operation m s (Some Running) (Check cfg) H) as (Hs & m1 & P & Q & R). cbn [HistorySpec.perform] in P. rewrite Hr in P. injection P as <- E.
    cbn [name_of steps_of given] in *. destruct (walk_run_same est_conf mc_conf disp_conf ref_conf run_step (fun n => n) cfg m) as (W1 & W2 & W3 & W4 & W5).
    destruct (walk Running (fun n => n) cfg m) as [m2 e] eqn:Ew. cbn [fst snd] in *. subst e.
    unfold contents in Q. injection Q as Q1 Q2 Q3 Q4 Q5 Q6. rewrite Q1, Q4, Q5, Q6. split; [|auto].
    apply (walk_run_executed est_conf mc_conf disp_conf ref_conf run_step (fun n => n) cfg); [|exact Ew].
    intros n Hn. now rewrite (allowed_no_dot _ _ Hal n Hn).
  Qed.
End C71.

(** * Examples, with the machine of MachineProps *)
Notation ex_reached := (@reached nat (list string) nat nat nat ex_est ex_mc ex_disp ex_ref ex_run).
Definition bad_disparity : list (string * nat) := [("matching_cost", 1); ("disparity", 99)].
Definition failing_run : list (string * nat) := [("matching_cost", 1); ("disparity", 98)].
(** A check that fails in the cost volumes; a run that fails in the cost volumes, after a successful check. *)
Definition after_check := fst (ex_check bad_disparity ex_new).
Definition checked := fst (ex_check failing_run ex_new).
Definition after_run := fst (ex_run_all ["start"] failing_run checked).
Lemma ex_failed_check : ex_reached after_check CostVolumes (Some Checking).
Proof.
  assert (S : m_state after_check = CostVolumes) by (vm_compute; reflexivity). rewrite <- S.
  assert (E : perform ex_est ex_mc ex_disp ex_ref ex_run (Check bad_disparity) ex_new = (after_check, Some CallbackError)) by (vm_compute; reflexivity).
  exact (reached_failure ex_est ex_mc ex_disp ex_ref ex_run ex_new Begin None _ _ _ (reached_new _ _ _ _ _ []) E).
Qed.
Lemma ex_failed_run : ex_reached after_run CostVolumes (Some Running).
Proof.
  assert (S : m_state after_run = CostVolumes) by (vm_compute; reflexivity). rewrite <- S.
  assert (E1 : perform ex_est ex_mc ex_disp ex_ref ex_run (Check failing_run) ex_new = (checked, None)) by (vm_compute; reflexivity).
  assert (E2 : perform ex_est ex_mc ex_disp ex_ref ex_run (Run ["start"] failing_run) checked = (after_run, Some CallbackError)) by (vm_compute; reflexivity).
  assert (R : ex_reached checked Begin None) by exact (reached_success ex_est ex_mc ex_disp ex_ref ex_run ex_new Begin None _ _ (reached_new _ _ _ _ _ []) E1).
  exact (reached_failure ex_est ex_mc ex_disp ex_ref ex_run checked Begin None _ _ _ R E2).
Qed.
(** C71_accepted, C71_refused, C71_run_executes_nothing, C71_way_out: after the failed check the disparity alone is accepted, the whole pipeline is
    refused, the disparity alone can be run and nothing is executed; the check of an empty pipeline makes the machine usable again. *)
Example C71_example_check :
  snd (ex_check [("disparity", 1)] after_check) = None /\ snd (ex_check [("matching_cost", 1); ("disparity", 1)] after_check) = Some NotAllowed /\
  snd (ex_run_all ["start"] [("disparity", 1)] after_check) = None /\ m_data (fst (ex_run_all ["start"] [("disparity", 1)] after_check)) = ["start"] /\
  snd (ex_check [("matching_cost", 1); ("disparity", 1)] (fst (ex_check [] after_check))) = None.
Proof. vm_compute. repeat split. Qed.
(** C71_run_executes, C71_check_executes: after the failed run, a run goes on from the disparity, and the check of a disparity, even with a
    configuration that is always refused, executes it. The data of the machine is that of the failed step: what is left by an error is not modelled. *)
Example C71_example_run :
  m_data (fst (ex_run_all ["again"] [("disparity", 1); ("refinement.1", 1)] after_run)) = ["again"; "disparity"; "refinement.1"] /\
  snd (ex_check [("disparity", 99)] after_run) = None /\ m_data (fst (ex_check [("disparity", 99)] after_run)) = ["start"; "matching_cost"; "disparity"].
Proof. vm_compute. repeat split. Qed.

Print Assumptions C71_operation.
Print Assumptions C71_accepted.
Print Assumptions C71_refused.
Print Assumptions C71_way_out.
Print Assumptions C71_run_executes.
Print Assumptions C71_run_executes_nothing.
Print Assumptions C71_check_executes.
