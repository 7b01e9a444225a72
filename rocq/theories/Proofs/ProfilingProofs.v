(** Proofs about the profiling decorator. *)
From Coq Require Import ZArith List Bool Lia.
From Verif Require Import Model.ProfilingModel.
Import ListNotations.
Open Scope Z_scope.

Section Proofs.
  Context {Args Val Err World : Type}.
  Variable runs : Args -> World -> outcome Val Err -> World -> Prop.
  Variable csv_error : option Err.
  Variable a : Args.
  Notation state := (state Args Val Err World).
  Notation step := (step Args Val Err World runs csv_error a).
  Notation steps := (steps Args Val Err World runs csv_error a).

  Lemma steps_trans s s' s'' : steps s s' -> steps s' s'' -> steps s s''.
  Proof. induction 1; [auto|]. intros. econstructor; eauto. Qed.
  Lemma steps_one s s' : step s s' -> steps s s'.
  Proof. intros. econstructor; [eassumption|constructor]. Qed.

  Variable w0 : World.
  Let start : state := enabled_start Args Val Err World w0.

  (** The monitor was about to send these values. *)
  Definition witness (s : state) (m c : Z) : Prop := exists s', steps start s' /\ steps s' s /\ st_monitor s' = SendMemory m c.
  Lemma witness_step s s' m c : step s s' -> witness s m c -> witness s' m c.
  Proof. intros H (x & H1 & H2 & H3). exists x. split; [exact H1|]. split; [|exact H3]. eapply steps_trans; [exact H2|apply steps_one; exact H]. Qed.

  (** Messages sent so far by the monitor. *)
  Definition sent_ok (s : state) (h : list Z) : Prop :=
    match st_monitor s with
    | SendReady => h = []
    | Measure _ _ | Poll _ _ | SendMemory _ _ => h = [0]
    | SendCpu c => exists m, witness s m c /\ h = [0; m]
    | Ended => exists m c, witness s m c /\ h = [0; m; c]
    end.
  Definition row_ok (got : bool) (s : state) (x y : Z) : Prop := exists m c, witness s m c /\ (x, y) = (if got then (m, c) else (0, m)).
  Definition read (got : bool) : list Z := if got then [0] else [].
  Definition main_ok (got : bool) (s : state) (consumed : list Z) : Prop :=
    match st_main s with
    | PollReady => consumed = [] /\ got = false /\ to_child s = [] /\ st_calls s = [] /\ st_world s = w0
    | RecvReady => consumed = [] /\ got = false /\ to_parent s <> [] /\ to_child s = [] /\ st_calls s = [] /\ st_world s = w0
    | Call => consumed = read got /\ to_child s = [] /\ st_calls s = [] /\ st_world s = w0
    | SendStop v => consumed = read got /\ to_child s = [] /\ st_calls s = [a] /\ runs a w0 (Ret v) (st_world s)
    | PollEnd v => consumed = read got /\ to_child s = [0] /\ st_calls s = [a] /\ runs a w0 (Ret v) (st_world s)
    | RecvMemory v => consumed = read got /\ to_parent s <> [] /\ to_child s = [0] /\ st_calls s = [a] /\ runs a w0 (Ret v) (st_world s)
    | RecvCpu v mem => (consumed = (if got then [0; mem] else [0]) /\ (got = false -> mem = 0)) /\ to_child s = [0] /\ st_calls s = [a] /\ runs a w0 (Ret v) (st_world s)
    | WriteCsv v x y => ((x = None /\ y = None) \/ exists m c, x = Some m /\ y = Some c /\ row_ok got s m c) /\ to_child s = [0] /\ st_calls s = [a] /\ runs a w0 (Ret v) (st_world s)
    | Done (Ret v) row => csv_error = None /\ (row = Some (None, None) \/ exists m c, row = Some (Some m, Some c) /\ row_ok got s m c) /\ to_child s = [0] /\ st_calls s = [a] /\ runs a w0 (Ret v) (st_world s)
    | Done (Exc e) row => row = None /\ st_calls s = [a] /\
        ((to_child s = [] /\ runs a w0 (Exc e) (st_world s)) \/ (csv_error = Some e /\ to_child s = [0] /\ exists v, runs a w0 (Ret v) (st_world s)))
    end.
  Definition inv (got : bool) (s : state) : Prop :=
    steps start s /\ exists consumed, (st_released s = false -> sent_ok s (consumed ++ to_parent s)) /\ (st_released s = true -> exists o row, st_main s = Done o row) /\ main_ok got s consumed.

  Lemma inv_start : inv false start.
  Proof. split; [constructor|]. exists []. split; [intros _; reflexivity|]. split; [discriminate|]. cbn. auto. Qed.

  Lemma row_ok_step got s s' x y : step s s' -> row_ok got s x y -> row_ok got s' x y.
  Proof. intros H (m & c & W & E). exists m, c. split; [eapply witness_step; eauto|exact E]. Qed.

  (** A step of the caller does not change the monitor. *)
  Lemma sent_step s s' h : step s s' -> st_monitor s = st_monitor s' -> sent_ok s h -> sent_ok s' h.
  Proof.
    intros H E. unfold sent_ok. rewrite <- E. destruct (st_monitor s); auto.
    - intros (m & W & P). exists m. split; [eapply witness_step; eauto|exact P].
    - intros (m & c & W & P). exists m, c. split; [eapply witness_step; eauto|exact P].
  Qed.
  (** Messages already sent: the first is "ready", the second the memory. *)
  Lemma sent_first s m p : sent_ok s (m :: p) -> m = 0.
  Proof. unfold sent_ok. destruct (st_monitor s); intros H; try discriminate; try (injection H as -> ->; reflexivity); [destruct H as (x & _ & H)|destruct H as (x & y & _ & H)]; injection H as -> _; reflexivity. Qed.
  Lemma sent_second s z m p : sent_ok s (z :: m :: p) -> exists c, witness s m c.
  Proof. unfold sent_ok. destruct (st_monitor s) as [| | | |c|]; intros H; try discriminate; [destruct H as (x & W & H)|destruct H as (x & y & W & H)]; injection H as -> -> _; eauto. Qed.
  Lemma sent_third s z m c p : sent_ok s (z :: m :: c :: p) -> witness s m c.
  Proof. unfold sent_ok. destruct (st_monitor s) as [| | | |c'|]; intros H; try discriminate; [destruct H as (x & W & H)|destruct H as (x & y & W & H)]; [discriminate|injection H as -> -> -> _; exact W]. Qed.

  Lemma main_inv got s s' : main_step Args Val Err World runs csv_error a s s' -> inv got s -> exists got', inv got' s' /\ (st_main s = RecvReady -> got' = true) /\ (st_main s <> RecvReady -> got' = got).
  Proof.
    intros H [R (consumed & Hs & Hr & Hm)]. assert (St : step s s') by (left; exact H). assert (R' : steps start s') by (eapply steps_trans; [exact R|apply steps_one; exact St]).
    assert (NR : st_released s = false). { destruct (st_released s) eqn:E; [|reflexivity]. destruct (Hr eq_refl) as (o & row & Eo). destruct H; cbn in Eo; discriminate. }
    specialize (Hs NR). assert (Mon : st_monitor s = st_monitor s') by (destruct H; reflexivity). assert (NR' : st_released s' = false) by (destruct H; exact NR). clear Hr.
    assert (G : forall consumed' got', sent_ok s (consumed' ++ to_parent s') -> main_ok got' s' consumed' -> inv got' s').
    { intros c' g' H1 H2. split; [exact R'|]. exists c'. split; [intros _; eapply sent_step; eauto|]. split; [congruence|exact H2]. }
    destruct H; cbn [st_main st_monitor to_parent to_child st_world st_calls main_ok] in *.
    - destruct Hm as (-> & -> & -> & -> & ->). exists false. split; [|split; [discriminate|reflexivity]]. apply (G [] false Hs). cbn. repeat split; auto. discriminate.
    - destruct Hm as (-> & -> & -> & -> & ->). exists false. split; [|split; [discriminate|reflexivity]]. apply (G [] false Hs). cbn. repeat split; auto.
    - destruct Hm as (-> & -> & _ & -> & -> & ->). exists true. split; [|split; [reflexivity|congruence]]. assert (m = 0) by (eapply sent_first; exact Hs). subst m. apply (G [0] true Hs). cbn. auto.
    - destruct Hm as (-> & -> & -> & ->). exists got. split; [|split; [discriminate|reflexivity]]. apply (G _ got Hs). cbn. auto.
    - destruct Hm as (-> & -> & -> & ->). exists got. split; [|split; [discriminate|reflexivity]]. apply (G _ got Hs). cbn. auto.
    - destruct Hm as (-> & -> & -> & Hv). exists got. split; [|split; [discriminate|reflexivity]]. apply (G _ got Hs). cbn. auto.
    - destruct Hm as (-> & -> & -> & Hv). exists got. split; [|split; [discriminate|reflexivity]]. apply (G _ got Hs). cbn. repeat split; auto. discriminate.
    - destruct Hm as (-> & -> & -> & Hv). exists got. split; [|split; [discriminate|reflexivity]]. apply (G _ got Hs). cbn. auto.
    - destruct Hm as (-> & _ & -> & -> & Hv). exists got. split; [|split; [discriminate|reflexivity]]. apply (G (read got ++ [m]) got); [rewrite <- app_assoc; exact Hs|]. cbn.
      assert (got = false -> m = 0) by (intros ->; eapply sent_first; exact Hs). destruct got; cbn; [auto|]. rewrite H by reflexivity. auto.
    - destruct Hm as ((-> & Hz) & -> & -> & Hv). exists got. split; [|split; [discriminate|reflexivity]]. destruct got.
      + apply (G ([0; mem] ++ [m]) true Hs). cbn. split; [|auto]. right. exists mem, m. split; [reflexivity|]. split; [reflexivity|]. exists mem, m. split; [|reflexivity].
        eapply witness_step; [exact St|]. eapply sent_third. exact Hs.
      + assert (mem = 0) by (apply Hz; reflexivity). subst mem. apply (G ([0] ++ [m]) false Hs). cbn. split; [|auto]. right. exists 0, m. split; [reflexivity|]. split; [reflexivity|]. cbn [app] in Hs. destruct (sent_second _ _ _ _ Hs) as (c' & W).
        exists m, c'. split; [eapply witness_step; eauto|reflexivity].
    - destruct Hm as (Row & -> & -> & Hv). exists got. split; [|split; [discriminate|reflexivity]]. apply (G consumed got Hs). cbn. split; [assumption|]. split; [|auto].
      destruct Row as [[-> ->]|(x & y & -> & -> & Ro)]; [left; reflexivity|right; exists x, y; split; [reflexivity|]; eapply row_ok_step; eauto].
    - destruct Hm as (Row & -> & -> & Hv). exists got. split; [|split; [discriminate|reflexivity]]. apply (G consumed got Hs). cbn. split; [reflexivity|]. split; [reflexivity|]. right. eauto.
  Qed.

  Lemma main_ok_monitor got s s' consumed : step s s' -> st_main s = st_main s' -> to_child s = to_child s' -> st_world s = st_world s' -> st_calls s = st_calls s' ->
    (to_parent s <> [] -> to_parent s' <> []) -> main_ok got s consumed -> main_ok got s' consumed.
  Proof.
    intros H E1 E2 E3 E4 E5. unfold main_ok. rewrite <- E1, <- E2, <- E3, <- E4. destruct (st_main s) as [| | |v|v|v|v mem|v x y|[v|e] row]; try tauto.
    - intros [[N|(m & c & X & Y & Ro)] T]; (split; [|exact T]); [left; exact N|right; exists m, c]. split; [exact X|]. split; [exact Y|]. eapply row_ok_step; eauto.
    - intros (Z0 & [N|(m & c & X & Ro)] & T); (split; [exact Z0|]; split; [|exact T]); [left; exact N|right; exists m, c]. split; [exact X|]. eapply row_ok_step; eauto.
  Qed.

  Lemma monitor_inv got s s' : monitor_step Args Val Err World s s' -> inv got s -> inv got s'.
  Proof.
    intros H [R (consumed & Hs & Hr & Hm)]. assert (St : step s s') by (right; left; exact H). assert (R' : steps start s') by (eapply steps_trans; [exact R|apply steps_one; exact St]).
    split; [exact R'|]. exists consumed.
    assert (M : main_ok got s' consumed). { apply (main_ok_monitor got s s' consumed); auto; destruct H; cbn; auto; intros _ Q; apply app_eq_nil in Q; destruct Q; discriminate. }
    split; [|split; [destruct H; cbn in *; auto|exact M]].
    intros NR. assert (NR0 : st_released s = false) by (destruct H; exact NR). specialize (Hs NR0). assert (Ws := fun m c => witness_step s s' m c St).
    assert (Wn : forall m c, st_monitor s = SendMemory m c -> witness s' m c). { intros m c E. exists s. split; [exact R|]. split; [apply steps_one; exact St|exact E]. }
    destruct H; cbn [st_monitor to_parent st_released sent_ok] in *; try discriminate; try exact Hs.
    - rewrite app_assoc, Hs. reflexivity.
    - exists mem. split; [apply (Wn mem cpu eq_refl)|]. rewrite app_assoc, Hs. reflexivity.
    - destruct Hs as (m & W & E). exists m, cpu. split; [apply Ws; exact W|]. rewrite app_assoc, E. reflexivity.
  Qed.
  Lemma release_inv got s s' : release_step Args Val Err World s s' -> inv got s -> inv got s'.
  Proof.
    intros H [R (consumed & Hs & Hr & Hm)]. assert (St : step s s') by (right; right; exact H). split; [eapply steps_trans; [exact R|apply steps_one; exact St]|]. exists consumed.
    destruct H. split; [discriminate|]. split; [intros _; exists o, row; reflexivity|]. eapply main_ok_monitor; [exact St|reflexivity|reflexivity|reflexivity|reflexivity|auto|exact Hm].
  Qed.
  Lemma step_inv got s s' : step s s' -> inv got s -> exists got', inv got' s' /\ (got = true -> got' = true).
  Proof.
    intros [H|[H|H]] I.
    - destruct (main_inv got s s' H I) as (got' & I' & G1 & G2). exists got'. split; [exact I'|]. intros ->. destruct H; try (apply G2; discriminate). apply G1. reflexivity.
    - exists got. split; [eapply monitor_inv; eauto|auto].
    - exists got. split; [eapply release_inv; eauto|auto].
  Qed.
  Lemma steps_inv got s s' : steps s s' -> inv got s -> exists got', inv got' s' /\ (got = true -> got' = true).
  Proof.
    intros H. revert got. induction H as [s|s s1 s2 H1 H2 IH]; intros got I; [eauto|]. destruct (step_inv got s s1 H1 I) as (g1 & I1 & G1). destruct (IH g1 I1) as (g2 & I2 & G2). exists g2. auto.
  Qed.
  Lemma reach_inv s : steps start s -> exists got, inv got s.
  Proof. intros H. destruct (steps_inv false start s H inv_start) as (got & I & _). eauto. Qed.

  (** A state where the caller is about to read "ready" leads to states where it was read. *)
  Lemma reach_ready s1 s2 : steps start s1 -> st_main s1 = RecvReady -> steps s1 s2 -> st_main s2 = RecvReady \/ inv true s2.
  Proof.
    intros H1 E H2. destruct (reach_inv s1 H1) as (got & I). clear H1. revert got I. induction H2 as [s|s s1 s2 St H2 IH]; intros got I; [left; exact E|].
    destruct St as [St|[St|St]].
    - destruct (main_inv got s s1 St I) as (g & I1 & G1 & _). rewrite (G1 E) in I1. destruct (steps_inv true s1 s2 H2 I1) as (g2 & I2 & G2). right. rewrite <- (G2 eq_refl). exact I2.
    - apply IH with (got := got); [destruct St; exact E|eapply monitor_inv; eauto].
    - destruct St. discriminate.
  Qed.

  (** *** The caller can always finish *)
  Hypothesis total : forall w, exists o w', runs a w o w'.

  Lemma finish_write v x y t p c w k q : exists s', steps (mkState (WriteCsv v x y) t p c w k q) s' /\ exists o row, st_main s' = Done o row.
  Proof.
    assert (D : (exists e, csv_error = Some e) \/ csv_error = None) by (destruct csv_error; eauto). destruct D as [(e & E)|E].
    - eexists. split; [apply steps_one; left; eapply m_write_error; exact E|]. cbn. eauto.
    - eexists. split; [apply steps_one; left; apply m_write; exact E|]. cbn. eauto.
  Qed.
  Lemma then_finish (s s1 : state) : steps s s1 -> (exists s', steps s1 s' /\ exists o row, st_main s' = Done o row) -> exists s', steps s s' /\ exists o row, st_main s' = Done o row.
  Proof. intros H (s' & H' & D). exists s'. split; [eapply steps_trans; eauto|exact D]. Qed.
  (** One message from the monitor, once it was told to stop. *)
  Lemma next_message x t w k m0 : t <> Ended -> exists t' m, steps (mkState x t [] [m0] w k false) (mkState x t' [m] [m0] w k false).
  Proof.
    intros N. destruct t as [|mem cpu|mem cpu|mem cpu|cpu|].
    - exists (Measure 0 0), 0. apply steps_one. right. left. apply (t_ready _ _ _ _ x []).
    - exists (SendCpu (Z.max cpu 0)), (Z.max mem 0). econstructor; [right; left; apply (t_measure _ _ _ _ x [] [m0] w k mem cpu 0 0 false); lia|].
      econstructor; [right; left; apply t_poll_stop|]. apply steps_one. right. left. apply (t_memory _ _ _ _ x []).
    - exists (SendCpu cpu), mem. econstructor; [right; left; apply t_poll_stop|]. apply steps_one. right. left. apply (t_memory _ _ _ _ x []).
    - exists (SendCpu cpu), mem. apply steps_one. right. left. apply (t_memory _ _ _ _ x []).
    - exists Ended, cpu. apply steps_one. right. left. apply (t_cpu _ _ _ _ x []).
    - congruence.
  Qed.
  Lemma finish_cpu got s v mem : inv got s -> st_main s = RecvCpu v mem -> exists s', steps s s' /\ exists o row, st_main s' = Done o row.
  Proof.
    intros [R (consumed & Hs & Hr & Hm)] E. destruct s as [x t p c w k q]. cbn in E. subst x. cbn in *. destruct q; [destruct (Hr eq_refl) as (o & row & F); discriminate|]. specialize (Hs eq_refl).
    destruct Hm as ((Ec & _) & -> & _). destruct p as [|m p].
    - assert (N : t <> Ended). { intros ->. unfold sent_ok in Hs. cbn in Hs. rewrite app_nil_r in Hs. destruct Hs as (m & c & _ & F). rewrite F in Ec. destruct got; discriminate. }
      destruct (next_message (RecvCpu v mem) t w k 0 N) as (t' & m & S1). eapply then_finish; [exact S1|]. eapply then_finish; [apply steps_one; left; apply m_recv_cpu|]. apply finish_write.
    - eapply then_finish; [apply steps_one; left; apply m_recv_cpu|]. apply finish_write.
  Qed.
  Lemma can_finish got s : inv got s -> exists s', steps s s' /\ exists o row, st_main s' = Done o row.
  Proof.
    intros I. destruct (st_main s) as [| | |v|v|v|v mem|v x y|o row] eqn:E; [| | | | | |eapply finish_cpu; eauto| |exists s; split; [constructor|eauto]].
    all: destruct s as [x0 t p c w k q]; cbn in E; subst x0.
    all: try (apply finish_write).
    all: assert (Poll : forall v t p c w k q got, inv got (mkState (PollEnd v) t p c w k q) -> exists s', steps (mkState (PollEnd v) t p c w k q) s' /\ exists o row, st_main s' = Done o row);
      [clear - total; intros v t p c w k q got I; destruct p as [|m p];
        [eapply then_finish; [apply steps_one; left; apply m_poll_end_timeout|]; apply finish_write|];
        destruct (main_inv got _ _ (m_poll_end _ _ _ _ runs csv_error a t p c w k v m q) I) as (g1 & I1 & _);
        destruct (main_inv g1 _ _ (m_recv_memory _ _ _ _ runs csv_error a t p c w k v m q) I1) as (g2 & I2 & _);
        eapply then_finish; [apply steps_one; left; apply m_poll_end|]; eapply then_finish; [apply steps_one; left; apply m_recv_memory|]; eapply finish_cpu; [exact I2|reflexivity]|].
    all: assert (Cl : forall t p c w k q got, inv got (mkState Call t p c w k q) -> exists s', steps (mkState Call t p c w k q) s' /\ exists o row, st_main s' = Done o row);
      [clear - total Poll; intros t p c w k q got I; destruct (total w) as ([v|e] & w' & Hw);
        [destruct (main_inv got _ _ (m_call_ret _ _ _ _ runs csv_error a t p c w k v w' q Hw) I) as (g1 & I1 & _);
         destruct (main_inv g1 _ _ (m_send_stop _ _ _ _ runs csv_error a t p c w' (a :: k) v q) I1) as (g2 & I2 & _);
         eapply then_finish; [apply steps_one; left; apply m_call_ret; exact Hw|]; eapply then_finish; [apply steps_one; left; apply m_send_stop|]; eapply Poll; exact I2
        |eexists; split; [apply steps_one; left; apply m_call_exc; exact Hw|cbn; eauto]]|].
    - destruct p as [|m p].
      + destruct (main_inv got _ _ (m_poll_ready_timeout _ _ _ _ runs csv_error a t c w k q) I) as (g1 & I1 & _). eapply then_finish; [apply steps_one; left; apply m_poll_ready_timeout|]. eapply Cl; exact I1.
      + destruct (main_inv got _ _ (m_poll_ready _ _ _ _ runs csv_error a t p c w k m q) I) as (g1 & I1 & _). destruct (main_inv g1 _ _ (m_recv_ready _ _ _ _ runs csv_error a t p c w k m q) I1) as (g2 & I2 & _).
        eapply then_finish; [apply steps_one; left; apply m_poll_ready|]. eapply then_finish; [apply steps_one; left; apply m_recv_ready|]. eapply Cl; exact I2.
    - assert (I' := I). destruct I' as [_ (consumed & _ & _ & Hm)]. cbn in Hm. destruct Hm as (_ & _ & Np & _). destruct p as [|m p]; [congruence|].
      destruct (main_inv got _ _ (m_recv_ready _ _ _ _ runs csv_error a t p c w k m q) I) as (g2 & I2 & _). eapply then_finish; [apply steps_one; left; apply m_recv_ready|]. eapply Cl; exact I2.
    - eapply Cl; exact I.
    - destruct (main_inv got _ _ (m_send_stop _ _ _ _ runs csv_error a t p c w k v q) I) as (g2 & I2 & _). eapply then_finish; [apply steps_one; left; apply m_send_stop|]. eapply Poll; exact I2.
    - eapply Poll; exact I.
    - assert (I' := I). destruct I' as [_ (consumed & _ & _ & Hm)]. cbn in Hm. destruct Hm as (_ & Np & _). destruct p as [|m p]; [congruence|].
      destruct (main_inv got _ _ (m_recv_memory _ _ _ _ runs csv_error a t p c w k v m q) I) as (g2 & I2 & _). eapply then_finish; [apply steps_one; left; apply m_recv_memory|]. eapply finish_cpu; [exact I2|reflexivity].
  Qed.
End Proofs.

(** ** Termination *)
Section Bounded.
  Context {Args Val Err World : Type}.
  Variable runs : Args -> World -> outcome Val Err -> World -> Prop.
  Variable csv_error : option Err.
  Variable a : Args.
  Notation state := (state Args Val Err World).
  Notation step := (step Args Val Err World runs csv_error a).

  (** Executions with their number of steps. *)
  Inductive stepsN : nat -> state -> state -> Prop :=
  | sn_refl s : stepsN 0 s s
  | sn_next n s s' s'' : step s s' -> stepsN n s' s'' -> stepsN (S n) s s''.

  Definition main_rank (s : state) : nat :=
    match st_main s with PollReady => 9 | RecvReady => 8 | Call => 7 | SendStop _ => 6 | PollEnd _ => 5 | RecvMemory _ => 4 | RecvCpu _ _ => 3 | WriteCsv _ _ _ => 2 | Done _ _ => 1 end.
  Definition monitor_rank (s : state) : nat :=
    match st_monitor s with SendReady => 5 | Measure _ _ => 4 | Poll _ _ => 3 | SendMemory _ _ => 2 | SendCpu _ => 1 | Ended => 0 end.
  Definition rank (s : state) : nat := (main_rank s + (if st_released s then 0 else 1) + monitor_rank s)%nat.
  (** The monitor was told to stop, or its pipe is closed. *)
  Definition stopping (s : state) : Prop := to_child s <> [] \/ st_released s = true.

  Lemma stopping_step s s' : step s s' -> stopping s -> stopping s'.
  Proof.
    intros [H|[H|H]]; destruct H; unfold stopping; cbn; intros [F|F]; auto; try (left; intros Q; apply app_eq_nil in Q; destruct Q; discriminate); try congruence.
  Qed.
  Lemma rank_step s s' : step s s' -> stopping s -> (rank s' < rank s)%nat.
  Proof.
    intros [H|[H|H]] St; destruct H; unfold rank, main_rank, monitor_rank; cbn; try lia; try (destruct q; lia).
    destruct St as [F|F]; cbn in F; congruence.
  Qed.
  Lemma stopping_bounded n s s' : stepsN n s s' -> stopping s -> (n + rank s' <= rank s)%nat.
  Proof. induction 1 as [s|n s s1 s2 H1 H2 IH]; intros St; [lia|]. assert (A := rank_step s s1 H1 St). assert (B := IH (stopping_step s s1 H1 St)). lia. Qed.
  Lemma stepsN_steps n s s' : stepsN n s s' -> steps Args Val Err World runs csv_error a s s'.
  Proof. induction 1; [constructor|econstructor; eauto]. Qed.
  Lemma rank_le s : (rank s <= 15)%nat.
  Proof. unfold rank, main_rank, monitor_rank. destruct (st_main s), (st_monitor s), (st_released s); cbn; lia. Qed.

  (** A monitor that is not ended can always take a step. *)
  Lemma monitor_enabled (s : state) : st_monitor s <> Ended -> exists s', monitor_step Args Val Err World s s'.
  Proof.
    destruct s as [x t p c w k q]. cbn. intros N. destruct t as [|mem cpu|mem cpu|mem cpu|cpu|]; [| | | | |congruence].
    - destruct q; eexists; [apply t_ready_broken|apply t_ready].
    - eexists. apply (t_measure _ _ _ _ x p c w k mem cpu 0 0 q); lia.
    - destruct c as [|m c]; [destruct q|]; eexists; [apply t_poll_closed|apply t_poll_timeout|apply t_poll_stop].
    - destruct q; eexists; [apply t_memory_broken|apply t_memory].
    - destruct q; eexists; [apply t_cpu_broken|apply t_cpu].
  Qed.

  (** *** No message and no closed pipe: the monitor cannot end *)
  Definition looping (s : state) : Prop :=
    to_child s = [] /\ (exists o row, st_main s = Done o row) /\ match st_monitor s with SendReady | Measure _ _ | Poll _ _ => True | _ => False end.
  Lemma looping_step s s' : step s s' -> st_released s' = false -> looping s -> looping s'.
  Proof.
    intros [H|[H|H]] Nr (C & (o & row & D) & M); destruct H; cbn in C, D, M, Nr; subst; try discriminate; try contradiction; (split; [reflexivity|split; [cbn; eauto|exact I]]).
  Qed.
  Lemma released_stays n s s' : stepsN n s s' -> st_released s = true -> st_released s' = true.
  Proof. induction 1 as [s|n s s1 s2 H1 H2 IH]; intros E; [exact E|]. apply IH. destruct H1 as [H|[H|H]]; destruct H; auto. Qed.
  Lemma looping_steps n s s' : stepsN n s s' -> st_released s' = false -> looping s -> looping s'.
  Proof.
    induction 1 as [s|n s s1 s2 H1 H2 IH]; intros Nr L; [exact L|]. apply (IH Nr). apply (looping_step s s1 H1); [|exact L].
    destruct (st_released s1) eqn:E; [|reflexivity]. rewrite (released_stays _ _ _ H2 E) in Nr. discriminate.
  Qed.
  Lemma monitor_keeps s s' : monitor_step Args Val Err World s s' -> st_released s' = st_released s.
  Proof. intros H; destruct H; reflexivity. Qed.
  Lemma loops_forever n s : looping s -> st_released s = false -> exists s', stepsN n s s' /\ st_released s' = false.
  Proof.
    revert s. induction n as [|n IH]; intros s L Nr; [exists s; split; [constructor|exact Nr]|].
    destruct (monitor_enabled s) as (s1 & H1). { destruct L as (_ & _ & M). intros E. rewrite E in M. exact M. }
    assert (Nr1 : st_released s1 = false) by (rewrite (monitor_keeps _ _ H1); exact Nr).
    destruct (IH s1 (looping_step s s1 (or_intror (or_introl H1)) Nr1 L) Nr1) as (s2 & H2 & Nr2). exists s2. split; [|exact Nr2]. econstructor; [right; left; exact H1|exact H2].
  Qed.
End Bounded.

Section Quiet.
  Context {Args Val Err World : Type}.
  Variable runs : Args -> World -> outcome Val Err -> World -> Prop.
  Variable csv_error : option Err.
  Variable a : Args.
  Notation state := (state Args Val Err World).

  (** Before any message or closing the monitor is in its loop. *)
  Definition quiet (s : state) : Prop :=
    to_child s = [] -> st_released s = false -> match st_monitor s with SendReady | Measure _ _ | Poll _ _ => True | _ => False end.
  Lemma quiet_step s s' : step Args Val Err World runs csv_error a s s' -> quiet s -> quiet s'.
  Proof.
    intros [H|[H|H]] Q; destruct H; unfold quiet in *; cbn in *; intros; subst; try discriminate; auto; try (apply Q; reflexivity).
    apply app_eq_nil in H. destruct H. discriminate.
  Qed.
  Lemma quiet_reach w s : steps Args Val Err World runs csv_error a (enabled_start Args Val Err World w) s -> quiet s.
  Proof.
    assert (Gen : forall s0 s1, steps Args Val Err World runs csv_error a s0 s1 -> quiet s0 -> quiet s1) by (induction 1; eauto using quiet_step).
    intros H. apply (Gen _ _ H). intros _ _. exact I.
  Qed.
End Quiet.
