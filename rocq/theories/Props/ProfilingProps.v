(** Properties of the profiling decorator. *)
From Coq Require Import ZArith List Bool Lia.
From Verif Require Import Model.ProfilingModel Proofs.ProfilingProofs.
Import ListNotations.
Open Scope Z_scope.

(** ** C35: expert mode does not change what the decorated function does *)

(** The finished executions with expert mode on give exactly the outcomes, final worlds and calls of expert mode off. *)
Theorem C35_same_as_disabled (Args Val Err World : Type) (runs : Args -> World -> outcome Val Err -> World -> Prop) (a : Args) (w : World) (o : outcome Val Err) (w' : World) (k : list Args) :
  (exists s row, steps Args Val Err World runs None a (enabled_start Args Val Err World w) s /\ st_main s = Done o row /\ st_world s = w' /\ st_calls s = k)
  <-> disabled_call Args Val Err World runs a w o w' k.
Proof.
  split.
  - intros (s & row & H & E & <- & <-). destruct (reach_inv runs None a w s H) as (got & _ & c & _ & _ & M). unfold main_ok in M. rewrite E in M. destruct o as [v|e].
    + destruct M as (_ & _ & _ & -> & R). constructor. exact R.
    + destruct M as (_ & -> & [[_ R]|[F _]]); [constructor; exact R|discriminate].
  - intros H. destruct H as [w o w' R]. destruct o as [v|e].
    + exists (mkState (Done (Ret v) (Some (None, None))) SendReady [] [0] w' [a] false), (Some (None, None)). split; [|auto].
      econstructor; [left; apply m_poll_ready_timeout|]. econstructor; [left; apply m_call_ret; exact R|]. econstructor; [left; apply m_send_stop|].
      econstructor; [left; apply m_poll_end_timeout|]. econstructor; [left; apply m_write; reflexivity|]. constructor.
    + exists (mkState (Done (Exc e) None) SendReady [] [] w' [a] false), None. split; [|auto].
      econstructor; [left; apply m_poll_ready_timeout|]. econstructor; [left; apply m_call_exc; exact R|]. constructor.
Qed.

(** In every reachable state: at most one call, with the given arguments, and the world is the initial one or the one the function left. *)
Theorem C35_one_call (Args Val Err World : Type) (runs : Args -> World -> outcome Val Err -> World -> Prop) (csv_error : option Err) (a : Args) (w : World) (s : state Args Val Err World) :
  steps Args Val Err World runs csv_error a (enabled_start Args Val Err World w) s ->
  (st_calls s = [] /\ st_world s = w) \/ (st_calls s = [a] /\ exists o, runs a w o (st_world s)).
Proof.
  intros H. destruct (reach_inv runs csv_error a w s H) as (got & _ & c & _ & _ & M). unfold main_ok in M. destruct (st_main s) as [| | |v|v|v|v m|v x y|[v|e] row].
  - left. intuition.
  - left. intuition.
  - left. intuition.
  - right. intuition eauto.
  - right. intuition eauto.
  - right. intuition eauto.
  - right. intuition eauto.
  - right. intuition eauto.
  - right. intuition eauto.
  - right. destruct M as (_ & K & [[_ R]|(_ & _ & v & R)]); split; eauto.
Qed.

(** No deadlock: whatever was done so far, the call can be finished. *)
Theorem C35_can_finish (Args Val Err World : Type) (runs : Args -> World -> outcome Val Err -> World -> Prop) (csv_error : option Err) (a : Args) (w : World) (s : state Args Val Err World) :
  (forall w, exists o w', runs a w o w') -> steps Args Val Err World runs csv_error a (enabled_start Args Val Err World w) s ->
  exists s' o row, steps Args Val Err World runs csv_error a s s' /\ st_main s' = Done o row.
Proof.
  intros T H. destruct (reach_inv runs csv_error a w s H) as (got & I). destruct (can_finish runs csv_error a w T got s I) as (s' & H' & o & row & D). eauto.
Qed.

(** Once the function has returned and the monitor is told to stop, every execution is finite, at most 15 steps, and one that
    cannot go on has finished the call and the monitor. *)
Theorem C35_finishes (Args Val Err World : Type) (runs : Args -> World -> outcome Val Err -> World -> Prop) (csv_error : option Err) (a : Args) (w : World) (s s' : state Args Val Err World) (v : Val) (n : nat) :
  steps Args Val Err World runs csv_error a (enabled_start Args Val Err World w) s -> st_main s = PollEnd v -> stepsN runs csv_error a n s s' ->
  (n <= 15)%nat /\ ((forall s'', ~ step Args Val Err World runs csv_error a s' s'') -> st_monitor s' = Ended /\ exists o row, st_main s' = Done o row).
Proof.
  intros H E N. destruct (reach_inv runs csv_error a w s H) as (got & I). assert (S : stopping s). { destruct I as (_ & c & _ & _ & M). unfold main_ok in M. rewrite E in M. left. destruct M as (_ & -> & _). discriminate. }
  split. { assert (A := stopping_bounded runs csv_error a n s s' N S). assert (B := rank_le s). lia. }
  intros Stuck. assert (EN : st_monitor s' = Ended). { destruct (st_monitor s') eqn:F; [| | | | |reflexivity]; destruct (monitor_enabled s') as (x & X); try congruence; exfalso; apply (Stuck x); right; left; exact X. }
  split; [exact EN|]. destruct (reach_inv runs csv_error a w s' (steps_trans runs csv_error a _ _ _ H (stepsN_steps runs csv_error a n s s' N))) as (g & _ & c & Hs & Hr & M).
  assert (Past : (main_rank s' <= 5)%nat).
  { assert (L : forall n s s', stepsN runs csv_error a n s s' -> (main_rank s' <= main_rank s)%nat).
    { induction 1 as [x|m x y z H1 H2 IH]; [lia|]. destruct H1 as [Q|[Q|Q]]; destruct Q; unfold main_rank in *; cbn in *; lia. }
    assert (Q := L n s s' N). unfold main_rank in Q at 2. rewrite E in Q. exact Q. }
  destruct s' as [x t p ch w1 k q]. cbn in EN. subst t. cbn in Hs, Hr. destruct x as [| | |u|u|u|u m|u x y|o row]; unfold main_rank in Past; cbn in Past; try lia; cbn [st_main].
  - exfalso. destruct p as [|m p]; [eapply Stuck; left; apply m_poll_end_timeout|eapply Stuck; left; apply m_poll_end].
  - exfalso. cbn in M. destruct M as (_ & Np & _). destruct p as [|m p]; [congruence|eapply Stuck; left; apply m_recv_memory].
  - exfalso. cbn in M. destruct M as ((Ec & _) & _). destruct q; [destruct (Hr eq_refl) as (o & row & F); discriminate|].
    destruct (Hs eq_refl) as (m1 & c1 & _ & Eh). destruct p as [|m' p]; [rewrite app_nil_r in Eh; rewrite Eh in Ec; destruct g; discriminate|eapply Stuck; left; apply m_recv_cpu].
  - exfalso. destruct csv_error as [e|]; eapply Stuck; left; [apply m_write_error|apply m_write]; reflexivity.
  - eauto.
Qed.

(** The hypotheses are met: a function that increments the world and returns its double, an execution that uses the monitor. *)
Definition double_runs (a : Z) (w : Z) (o : outcome Z Z) (w' : Z) : Prop := w' = w + 1 /\ o = Ret (2 * a).
Definition fail_runs (a : Z) (w : Z) (o : outcome Z Z) (w' : Z) : Prop := w' = w + 1 /\ o = Exc a.

Example C35_example_execution (csv_error : option Z) :
  csv_error = None ->
  exists s, steps Z Z Z Z double_runs csv_error 21 (enabled_start Z Z Z Z 5) s /\ st_main s = Done (Ret 42) (Some (Some 7, Some 3)) /\ st_world s = 6 /\ st_calls s = [21].
Proof.
  intros ->. exists (mkState (Done (Ret 42) (Some (Some 7, Some 3))) Ended [] [0] 6 [21] false). split; [|auto].
  econstructor; [right; left; apply t_ready|]. cbn. econstructor; [left; apply m_poll_ready|]. econstructor; [left; apply m_recv_ready|].
  econstructor; [right; left; apply (t_measure _ _ _ _ _ _ _ _ _ _ _ 7 1); lia|]. cbn. econstructor; [right; left; apply t_poll_timeout|].
  econstructor; [left; apply (m_call_ret _ _ _ _ _ _ _ _ _ _ _ _ 42 6); split; reflexivity|].
  econstructor; [right; left; apply (t_measure _ _ _ _ _ _ _ _ _ _ _ 4 3); lia|]. cbn.
  econstructor; [left; apply m_send_stop|]. cbn. econstructor; [right; left; apply t_poll_stop|]. econstructor; [right; left; apply t_memory|]. cbn.
  econstructor; [left; apply m_poll_end|]. econstructor; [left; apply m_recv_memory|]. econstructor; [right; left; apply t_cpu|]. cbn.
  econstructor; [left; apply m_recv_cpu|]. econstructor; [left; apply m_write; reflexivity|]. constructor.
Qed.
Example C35_example_total : forall w, exists o w', double_runs 21 w o w'.
Proof. intros w. exists (Ret 42), (w + 1). split; reflexivity. Qed.
Example C35_example_stopping : exists s, steps Z Z Z Z double_runs None 21 (enabled_start Z Z Z Z 5) s /\ st_main s = PollEnd 42.
Proof.
  exists (mkState (PollEnd 42) SendReady [] [0] 6 [21] false). split; [|reflexivity]. econstructor; [left; apply m_poll_ready_timeout|]. econstructor; [left; apply (m_call_ret _ _ _ _ _ _ _ _ _ _ _ _ 42 6); split; reflexivity|].
  econstructor; [left; apply m_send_stop|]. constructor.
Qed.

(** ** C64: the monitoring thread stops after the call *)

(** False when the function raises: while its frame is kept (the traceback refers to it), the monitor is never ended, and it goes on for ever.
    The thread is not a daemon: the process does not end. *)
Theorem C64_monitor_after_error_refuted :
  exists (runs : Z -> Z -> outcome Z Z -> Z -> Prop) (a w : Z) (s : state Z Z Z Z) (e : Z),
    steps Z Z Z Z runs None a (enabled_start Z Z Z Z w) s /\ st_main s = Done (Exc e) None /\ st_released s = false /\
    (forall n s', stepsN runs None a n s s' -> st_released s' = false -> st_monitor s' <> Ended) /\
    (forall n, exists s', stepsN runs None a n s s' /\ st_released s' = false).
Proof.
  exists fail_runs, 4, 5. exists (mkState (Done (Exc 4) None) SendReady [] [] 6 [4] false), 4.
  assert (L : looping (mkState (Done (Exc 4) None) SendReady [] [] 6 [4] false : state Z Z Z Z)). { split; [reflexivity|]. split; [cbn; eauto|exact I]. }
  split. { econstructor; [left; apply m_poll_ready_timeout|]. econstructor; [left; apply (m_call_exc _ _ _ _ _ _ _ _ _ _ _ _ 4 6); split; reflexivity|]. constructor. }
  split; [reflexivity|]. split; [reflexivity|]. split.
  - intros n s' N Nr E. destruct (looping_steps fail_runs None 4 n _ s' N Nr L) as (_ & _ & M). rewrite E in M. exact M.
  - intros n. apply loops_forever; [exact L|reflexivity].
Qed.

(** For every function and every execution: after an error of the function the monitor cannot end before its pipe is closed. *)
Theorem C64_monitor_after_error (Args Val Err World : Type) (runs : Args -> World -> outcome Val Err -> World -> Prop) (a : Args) (w : World) (s s' : state Args Val Err World) (e : Err) (row : option (option Z * option Z)) (n : nat) :
  steps Args Val Err World runs None a (enabled_start Args Val Err World w) s -> st_main s = Done (Exc e) row -> stepsN runs None a n s s' -> st_released s' = false -> st_monitor s' <> Ended.
Proof.
  intros H E N Nr En. destruct (reach_inv runs None a w s H) as (got & _ & c & _ & _ & M). unfold main_ok in M. rewrite E in M. destruct M as (_ & _ & [[C _]|[F _]]); [|discriminate].
  assert (Nr0 : st_released s = false). { destruct (st_released s) eqn:F; [|reflexivity]. rewrite (released_stays runs None a n s s' N F) in Nr. discriminate. }
  assert (L : looping s). { split; [exact C|]. split; [eauto|]. apply (quiet_reach runs None a w s H C Nr0). }
  destruct (looping_steps runs None a n s s' N Nr L) as (_ & _ & Q). rewrite En in Q. exact Q.
Qed.

(** After a normal return, or once the frame is freed, it ends: executions are bounded and only an ended monitor stops them. *)
Theorem C64_monitor_ends_partial (Args Val Err World : Type) (runs : Args -> World -> outcome Val Err -> World -> Prop) (csv_error : option Err) (a : Args) (w : World) (s s' : state Args Val Err World) (n : nat) :
  steps Args Val Err World runs csv_error a (enabled_start Args Val Err World w) s -> (exists v row, st_main s = Done (Ret v) row) \/ st_released s = true -> stepsN runs csv_error a n s s' ->
  (n <= 15)%nat /\ ((forall s'', ~ monitor_step Args Val Err World s' s'') -> st_monitor s' = Ended).
Proof.
  intros H D N. assert (S : stopping s).
  { destruct D as [(v & row & E)|R]; [|right; exact R]. destruct (reach_inv runs csv_error a w s H) as (got & _ & c & _ & _ & M). unfold main_ok in M. rewrite E in M. left. destruct M as (_ & _ & -> & _). discriminate. }
  split. { assert (A := stopping_bounded runs csv_error a n s s' N S). assert (B := rank_le s). lia. }
  intros Stuck. destruct (st_monitor s') eqn:F; [| | | | |reflexivity]; destruct (monitor_enabled s') as (x & X); try congruence; exfalso; apply (Stuck x); exact X.
Qed.
Example C64_example_released : exists s, steps Z Z Z Z fail_runs None 4 (enabled_start Z Z Z Z 5) s /\ st_main s = Done (Exc 4) None /\ st_released s = true.
Proof.
  exists (mkState (Done (Exc 4) None) SendReady [] [] 6 [4] true). split; [|split; reflexivity]. econstructor; [left; apply m_poll_ready_timeout|]. econstructor; [left; apply (m_call_exc _ _ _ _ _ _ _ _ _ _ _ _ 4 6); split; reflexivity|].
  econstructor; [right; right; apply r_release|]. constructor.
Qed.

(** ** C65: the row of the CSV holds the measured memory and CPU *)

(** When "ready" was received in time: nothing measured, or the two values the monitor sent. *)
Theorem C65_row_partial (Args Val Err World : Type) (runs : Args -> World -> outcome Val Err -> World -> Prop) (csv_error : option Err) (a : Args) (w : World) (s1 s2 : state Args Val Err World) (o : outcome Val Err) (row : option Z * option Z) :
  steps Args Val Err World runs csv_error a (enabled_start Args Val Err World w) s1 -> st_main s1 = RecvReady -> steps Args Val Err World runs csv_error a s1 s2 -> st_main s2 = Done o (Some row) ->
  row = (None, None) \/
  exists m c s, row = (Some m, Some c) /\ steps Args Val Err World runs csv_error a (enabled_start Args Val Err World w) s /\ steps Args Val Err World runs csv_error a s s2 /\ st_monitor s = SendMemory m c.
Proof.
  intros H1 E1 H2 E2. destruct (reach_ready runs csv_error a w s1 s2 H1 E1 H2) as [F|(_ & c & _ & _ & M)]; [congruence|]. unfold main_ok in M. rewrite E2 in M. destruct o as [v|e]; [|destruct M; discriminate].
  destruct M as (_ & [R|(m & c' & R & m2 & c2 & (s & W1 & W2 & W3) & X)] & _).
  - left. injection R as ->. reflexivity.
  - right. injection X as <- <-. injection R as ->. exists m, c', s. auto.
Qed.

(** When it was not: the late "ready" is recorded as the memory, and the memory as the CPU. *)
Theorem C65_late_ready_refuted :
  exists (s : state Z Z Z Z) (m c : Z),
    steps Z Z Z Z double_runs None 21 (enabled_start Z Z Z Z 5) s /\ st_main s = Done (Ret 42) (Some (Some 0, Some m)) /\ st_monitor s = SendCpu c /\ 0 < m /\ m <> c.
Proof.
  exists (mkState (Done (Ret 42) (Some (Some 0, Some 7))) (SendCpu 3) [] [0] 6 [21] false), 7, 3. split; [|repeat split; lia].
  econstructor; [left; apply m_poll_ready_timeout|]. econstructor; [right; left; apply t_ready|]. cbn.
  econstructor; [left; apply (m_call_ret _ _ _ _ _ _ _ _ _ _ _ _ 42 6); split; reflexivity|].
  econstructor; [right; left; apply (t_measure _ _ _ _ _ _ _ _ _ _ _ 7 3); lia|]. cbn. econstructor; [left; apply m_send_stop|]. cbn.
  econstructor; [right; left; apply t_poll_stop|]. econstructor; [left; apply m_poll_end|]. econstructor; [left; apply m_recv_memory|].
  econstructor; [right; left; apply t_memory|]. cbn. econstructor; [left; apply m_recv_cpu|]. econstructor; [left; apply m_write; reflexivity|]. constructor.
Qed.
Example C65_example : exists s1 s2, steps Z Z Z Z double_runs None 21 (enabled_start Z Z Z Z 5) s1 /\ st_main s1 = RecvReady /\ steps Z Z Z Z double_runs None 21 s1 s2 /\ st_main s2 = Done (Ret 42) (Some (Some 7, Some 3)).
Proof.
  exists (mkState RecvReady (Measure 0 0) [0] [] 5 [] false). exists (mkState (Done (Ret 42) (Some (Some 7, Some 3))) Ended [] [0] 6 [21] false). split.
  { econstructor; [right; left; apply t_ready|]. cbn. econstructor; [left; apply m_poll_ready|]. constructor. }
  split; [reflexivity|]. split; [|reflexivity].
  econstructor; [left; apply m_recv_ready|].
  econstructor; [right; left; apply (t_measure _ _ _ _ _ _ _ _ _ _ _ 7 3); lia|]. cbn.
  econstructor; [left; apply (m_call_ret _ _ _ _ _ _ _ _ _ _ _ _ 42 6); split; reflexivity|].
  econstructor; [left; apply m_send_stop|]. cbn. econstructor; [right; left; apply t_poll_stop|]. econstructor; [right; left; apply t_memory|]. cbn.
  econstructor; [left; apply m_poll_end|]. econstructor; [left; apply m_recv_memory|]. econstructor; [right; left; apply t_cpu|]. cbn.
  econstructor; [left; apply m_recv_cpu|]. econstructor; [left; apply m_write; reflexivity|]. constructor.
Qed.

(** ** C66: a result is never lost by the profiling *)

(** False when the CSV cannot be written: for every function and execution, no value is ever returned, though the function may have returned one. *)
Theorem C66_csv_error (Args Val Err World : Type) (runs : Args -> World -> outcome Val Err -> World -> Prop) (e : Err) (a : Args) (w : World) (s : state Args Val Err World) (o : outcome Val Err) (row : option (option Z * option Z)) :
  steps Args Val Err World runs (Some e) a (enabled_start Args Val Err World w) s -> st_main s = Done o row -> exists e', o = Exc e'.
Proof.
  intros H E. destruct (reach_inv runs (Some e) a w s H) as (got & _ & c & _ & _ & M). unfold main_ok in M. rewrite E in M. destruct o as [v|e']; [destruct M as (F & _); discriminate|eauto].
Qed.
Theorem C66_result_lost_refuted :
  exists (s : state Z Z Z Z) (e : Z), steps Z Z Z Z double_runs (Some e) 21 (enabled_start Z Z Z Z 5) s /\ st_main s = Done (Exc e) None /\ st_calls s = [21] /\ double_runs 21 5 (Ret 42) (st_world s).
Proof.
  exists (mkState (Done (Exc 9) None) SendReady [] [0] 6 [21] false), 9. split; [|split; [reflexivity|split; [reflexivity|split; reflexivity]]].
  econstructor; [left; apply m_poll_ready_timeout|]. econstructor; [left; apply (m_call_ret _ _ _ _ _ _ _ _ _ _ _ _ 42 6); split; reflexivity|]. econstructor; [left; apply m_send_stop|].
  econstructor; [left; apply m_poll_end_timeout|]. econstructor; [left; apply (m_write_error _ _ _ _ _ (Some 9) _ _ _ _ _ _ _ _ _ 9); reflexivity|]. constructor.
Qed.

Print Assumptions C35_same_as_disabled.
Print Assumptions C35_one_call.
Print Assumptions C35_can_finish.
Print Assumptions C35_finishes.
Print Assumptions C64_monitor_after_error_refuted.
Print Assumptions C64_monitor_after_error.
Print Assumptions C64_monitor_ends_partial.
Print Assumptions C65_row_partial.
Print Assumptions C65_late_ready_refuted.
Print Assumptions C66_csv_error.
Print Assumptions C66_result_lost_refuted.
