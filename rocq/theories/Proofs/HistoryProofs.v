(** Proofs about machines after any history. *)
From Coq Require Import List String Bool Arith.
From Verif Require Import Model.MachineModel Spec.MachineSpec Spec.HistorySpec Proofs.MachineProofs.
Import ListNotations.
Open Scope string_scope.
Open Scope list_scope.

Lemma after_next s n : after s n = next s n.
Proof. reflexivity. Qed.

(** * Lists of pending transitions *)
Definition set_of (u : use) : list transition := match u with Checking => transitions_check | Running => transitions_run end.
Definition all_of (l : list use) : list transition := flat_map set_of l.
Lemma find_set u s n : find (fun tr => (tr_trigger tr =? n) && state_eqb (tr_source tr) s) (set_of u) =
  match next s n with Some s' => Some (mkTr n s s' (use_callback u n)) | None => None end.
Proof. destruct u; [apply find_check | apply find_run]. Qed.
Lemma find_all u l s n : find (fun tr => (tr_trigger tr =? n) && state_eqb (tr_source tr) s) (all_of (u :: l)) =
  match next s n with Some s' => Some (mkTr n s s' (use_callback u n)) | None => None end.
Proof.
  unfold all_of. cbn [flat_map]. rewrite find_app, find_set. destruct (next s n) eqn:E; [reflexivity|].
  fold (all_of l). induction l as [|v l IH]; [reflexivity|]. unfold all_of. cbn [flat_map]. rewrite find_app, find_set, E. exact IH.
Qed.
Lemma known_set u n : existsb (fun tr => tr_trigger tr =? n) (set_of u) = known n.
Proof.
  unfold known. destruct u; cbn [set_of]; unfold transitions_check, transitions_run; cbn [existsb tr_trigger]; rewrite !(String.eqb_sym n);
    destruct ("estimation" =? n), ("matching_cost" =? n), ("disparity" =? n), ("refinement" =? n); reflexivity.
Qed.
Lemma known_all u l n : existsb (fun tr => tr_trigger tr =? n) (all_of (u :: l)) = known n.
Proof.
  unfold all_of. cbn [flat_map]. rewrite existsb_app, known_set. destruct (known n) eqn:E; [reflexivity|]. cbn [orb]. fold (all_of l).
  induction l as [|v l IH]; [reflexivity|]. unfold all_of. cbn [flat_map]. now rewrite existsb_app, known_set, E.
Qed.
Lemma known_after s n s' : after s n = Some s' -> known n = true.
Proof. intros H. rewrite <- (known_set Checking). now apply (known_next s n s'). Qed.
Lemma filter_all (p : transition -> bool) l : filter p (all_of l) = flat_map (fun u => filter p (set_of u)) l.
Proof. induction l as [|u l IH]; [reflexivity|]. unfold all_of in *. cbn [flat_map]. now rewrite filter_app, IH. Qed.
Lemma all_snoc l u : all_of (l ++ [u]) = all_of l ++ set_of u.
Proof. unfold all_of. rewrite flat_map_app. cbn [flat_map]. now rewrite app_nil_r. Qed.

Section Proofs.
  Context {C D M S W : Type}.
  Variable est_conf : C -> option C.
  Variable mc_conf : C -> option (C * S * W * M).
  Variable disp_conf : C -> option (C * M).
  Variable ref_conf : C -> option S -> option W -> option (C * M).
  Variable run_step : callback -> string -> C -> option M -> option S -> option W -> D -> option D.
  Notation mach := (@machine C D M S W).
  Notation call := (call est_conf mc_conf disp_conf ref_conf run_step).
  Notation trigger := (trigger est_conf mc_conf disp_conf ref_conf run_step).
  Notation trigger_all := (trigger_all est_conf mc_conf disp_conf ref_conf run_step).
  Notation walk := (walk est_conf mc_conf disp_conf ref_conf run_step).
  Notation perform := (perform est_conf mc_conf disp_conf ref_conf run_step).
  Notation reached := (reached est_conf mc_conf disp_conf ref_conf run_step).
  Notation operation := (@operation C D).

  Lemma trigger_all_walk name_of steps : forall u l (m : mach), m_transitions m = all_of (u :: l) -> trigger_all name_of steps m = walk u name_of steps m.
  Proof.
    induction steps as [|[n c] rest IH]; intros u l m Hm; [reflexivity|]. cbn [MachineModel.trigger_all HistorySpec.walk].
    unfold MachineModel.trigger. rewrite Hm, known_all, find_all, <- after_next. destruct (after (m_state m) (name_of n)) as [s'|] eqn:E.
    - rewrite (known_after _ _ _ E). cbn [tr_before tr_dest]. destruct (call _ n c m) as [m'|] eqn:Ec; [|reflexivity].
      apply (IH u l). apply call_same in Ec. cbn. destruct Ec as [-> _]. exact Hm.
    - destruct (known (name_of n)); reflexivity.
  Qed.

  (** All the transitions are removed at the end of an operation. *)
  Lemma remove_set v u l (m : mach) : m_transitions m = all_of (u :: l) -> remove_transitions (set_of v) m = (set_transitions [] m, None).
  Proof.
    intros Hm.
    assert (R : forall t (F : use -> list transition) (m0 : mach), (forall w, existsb (fun tr => tr_trigger tr =? t) (F w) = true) ->
      remove_transition t (set_transitions (flat_map F (u :: l)) m0) = Some (set_transitions (flat_map (fun w => filter (fun tr => negb (tr_trigger tr =? t)) (F w)) (u :: l)) m0)).
    { intros t F m0 H. unfold remove_transition. cbn [m_transitions set_transitions]. assert (existsb (fun tr => tr_trigger tr =? t) (flat_map F (u :: l)) = true) as ->.
      { cbn [flat_map]. now rewrite existsb_app, H. }
      assert (filter (fun tr => negb (tr_trigger tr =? t)) (flat_map F (u :: l)) = flat_map (fun w => filter (fun tr => negb (tr_trigger tr =? t)) (F w)) (u :: l)) as ->; [|reflexivity].
      generalize (u :: l) as k. induction k as [|w k IH]; [reflexivity|]. cbn [flat_map]. now rewrite filter_app, IH. }
    assert (N : forall F : use -> list transition, (forall w, F w = []) -> flat_map F (u :: l) = []).
    { intros F HF. generalize (u :: l) as k. induction k as [|w k IH]; [reflexivity|]. cbn [flat_map]. now rewrite HF, IH. }
    assert (E : m = set_transitions (flat_map set_of (u :: l)) m) by (unfold all_of in Hm; rewrite <- Hm; destruct m; reflexivity).
    rewrite E at 1. clear E Hm. unfold remove_transitions.
    destruct v; cbn [set_of]; unfold transitions_check, transitions_run;
      repeat (cbn [remove_loop existsb tr_trigger String.eqb Ascii.eqb Bool.eqb app orb]; try (rewrite R by (intros []; reflexivity); cbv beta));
      rewrite N by (intros []; reflexivity); reflexivity.
  Qed.

  Lemma contents_walk u name_of steps : forall (m1 m2 : mach), m_state m1 = m_state m2 -> contents m1 = contents m2 ->
    snd (walk u name_of steps m1) = snd (walk u name_of steps m2) /\ m_state (fst (walk u name_of steps m1)) = m_state (fst (walk u name_of steps m2)) /\
    contents (fst (walk u name_of steps m1)) = contents (fst (walk u name_of steps m2)) /\
    m_transitions (fst (walk u name_of steps m1)) = m_transitions m1.
  Proof.
    induction steps as [|[n c] rest IH]; intros m1 m2 Hs Hc; [auto|]. cbn [HistorySpec.walk]. rewrite <- Hs. destruct (after (m_state m1) (name_of n)) as [s'|] eqn:E; [|auto].
    assert (K : match call (use_callback u (name_of n)) n c m1, call (use_callback u (name_of n)) n c m2 with
      | Some a, Some b => contents a = contents b /\ m_transitions a = m_transitions m1 | None, None => True | _, _ => False end).
    { unfold contents in Hc. injection Hc as H1 H2 H3 H4 H5 H6. unfold MachineModel.call.
      rewrite <- H1, <- H2, <- H3, <- H4, <- H5, <- H6. destruct (use_callback u (name_of n));
        [destruct (est_conf c) | destruct (mc_conf c) as [[[[? ?] ?] ?]|] | destruct (disp_conf c) as [[? ?]|] | destruct (ref_conf c _ _) as [[? ?]|] | destruct (run_step _ _ _ _ _ _ _) ..];
        try exact I; (split; [unfold contents; cbn; congruence | reflexivity]). }
    destruct (call _ n c m1) as [a|], (call _ n c m2) as [b|]; try contradiction; auto.
    destruct K as [K1 K2]. destruct (IH (set_state s' a) (set_state s' b) eq_refl) as (A1 & A2 & A3 & A4); [exact K1|].
    split; [exact A1|]. split; [exact A2|]. split; [exact A3|]. cbn [m_transitions set_state] in A4. congruence.
  Qed.

  (** One operation, from a machine where the operations [l] are pending. *)
  Definition mode (l : list use) (o : operation) : use := match l with u :: _ => u | [] => use_of o end.
  Lemma operation_spec l (o : operation) (m : mach) : m_transitions m = all_of l ->
    exists m', perform o m = (m', snd (walk (mode l o) (name_of o) (steps_of o) (given o m))) /\
      contents m' = contents (fst (walk (mode l o) (name_of o) (steps_of o) (given o m))) /\
      match snd (walk (mode l o) (name_of o) (steps_of o) (given o m)) with
      | None => m_state m' = Begin /\ m_transitions m' = []
      | Some _ => m_state m' = m_state (fst (walk (mode l o) (name_of o) (steps_of o) (given o m))) /\ m_transitions m' = all_of (l ++ [use_of o])
      end.
  Proof.
    intros Hm. set (m0 := set_transitions (all_of (l ++ [use_of o])) (given o m)).
    assert (P : perform o m = match trigger_all (name_of o) (steps_of o) m0 with
      | (m', Some e) => (m', Some e)
      | (m', None) => match remove_transitions (set_of (use_of o)) m' with (m'', Some e) => (m'', Some e) | (m'', None) => (set_state Begin m'', None) end end).
    { unfold m0. rewrite all_snoc, <- Hm. destruct o as [cfg|d cfg]; reflexivity. }
    assert (H0 : exists r, l ++ [use_of o] = mode l o :: r) by (destruct l as [|u r]; [exists []; reflexivity | exists (r ++ [use_of o]); reflexivity]).
    destruct H0 as (r & Hr).
    assert (Hm0 : m_transitions m0 = all_of (mode l o :: r)) by (unfold m0; rewrite Hr; reflexivity).
    rewrite (trigger_all_walk _ _ _ _ _ Hm0) in P.
    destruct (contents_walk (mode l o) (name_of o) (steps_of o) m0 (given o m)) as (A1 & A2 & A3 & A4); [reflexivity | reflexivity |].
    destruct (walk (mode l o) (name_of o) (steps_of o) m0) as [m1 e1]. cbn [fst snd] in *.
    destruct (walk (mode l o) (name_of o) (steps_of o) (given o m)) as [m2 e2]. cbn [fst snd] in *. subst e2.
    destruct e1 as [e|].
    - exists m1. split; [exact P|]. split; [exact A3|]. split; [exact A2|]. rewrite A4. unfold m0. reflexivity.
    - rewrite Hm0 in A4. rewrite (remove_set _ _ _ _ A4) in P. exists (set_state Begin (set_transitions [] m1)). split; [exact P|]. split; [|auto].
      rewrite <- A3. reflexivity.
  Qed.

  Lemma reached_pending m s u : reached m s u -> m_state m = s /\ exists l, m_transitions m = all_of l /\ u = match l with x :: _ => Some x | [] => None end.
  Proof.
    induction 1 as [d|m s u o m' H IH Hp|m s u o m' e H IH Hp].
    - split; [reflexivity|]. exists []. auto.
    - destruct IH as (_ & l & Hl & _). destruct (operation_spec l o m Hl) as (m2 & P & _ & Q). rewrite P in Hp. injection Hp as -> E. rewrite E in Q. destruct Q as [Q1 Q2].
      split; [exact Q1|]. exists []. auto.
    - destruct IH as (_ & l & Hl & Hu). destruct (operation_spec l o m Hl) as (m2 & P & _ & Q). rewrite P in Hp. injection Hp as -> E. rewrite E in Q. destruct Q as [Q1 Q2].
      split; [reflexivity|]. exists (l ++ [use_of o]). split; [exact Q2|]. subst u. now destruct l.
  Qed.

  Theorem reached_operation m s u (o : operation) : reached m s u ->
    let w := walk (match u with Some x => x | None => use_of o end) (name_of o) (steps_of o) (given o m) in
    m_state m = s /\
    exists m', perform o m = (m', snd w) /\ contents m' = contents (fst w) /\
      match snd w with None => clean m' | Some _ => m_state m' = m_state (fst w) end.
  Proof.
    intros H. destruct (reached_pending _ _ _ H) as (Hs & l & Hl & Hu). cbv zeta. split; [exact Hs|].
    assert (match u with Some x => x | None => use_of o end = mode l o) as -> by (subst u; now destruct l).
    destruct (operation_spec l o m Hl) as (m' & P & Q & R). exists m'. split; [exact P|]. split; [exact Q|].
    destruct (snd _); [apply R | exact R].
  Qed.

  (** * Consequences *)
  Lemma walk_path u name_of steps : forall (m : mach), snd (walk u name_of steps m) = None -> path (m_state m) (map (fun s => name_of (fst s)) steps) <> None.
  Proof.
    induction steps as [|[n c] rest IH]; intros m H; [discriminate|]. cbn [HistorySpec.walk map path fst] in *. rewrite <- after_next.
    destruct (after (m_state m) (name_of n)) as [s'|] eqn:E; [|discriminate]. destruct (call _ n c m) as [m'|]; [|discriminate]. apply IH in H. exact H.
  Qed.
  Lemma walk_check_data name_of steps : forall (m : mach), m_data (fst (walk Checking name_of steps m)) = m_data m.
  Proof.
    induction steps as [|[n c] rest IH]; intros m; [reflexivity|]. cbn [HistorySpec.walk].
    destruct (after (m_state m) (name_of n)) as [s'|] eqn:E; [|reflexivity]. destruct (call _ n c m) as [m'|] eqn:Ec; [|reflexivity].
    rewrite IH. cbn [m_data set_state]. unfold MachineModel.call in Ec. revert Ec. unfold use_callback.
    destruct (name_of n =? "estimation"), (name_of n =? "matching_cost"), (name_of n =? "disparity");
      repeat match goal with |- context [match ?x with _ => _ end] => destruct x end; intros X; inversion X; subst; reflexivity.
  Qed.
  (** The steps of a run, and what it leaves unchanged. *)
  Lemma walk_run_same name_of steps : forall (m : mach), let m' := fst (walk Running name_of steps m) in
    m_pipeline m' = m_pipeline m /\ m_step m' = m_step m /\ m_window m' = m_window m /\ m_cumulative m' = m_cumulative m /\ m_non_cumulative m' = m_non_cumulative m.
  Proof.
    induction steps as [|[n c] rest IH]; intros m; cbn [HistorySpec.walk]; [cbn; auto|].
    destruct (after (m_state m) (name_of n)) as [s'|] eqn:E; [|cbn; auto]. destruct (call _ n c m) as [m'|] eqn:Ec; [|cbn; auto].
    specialize (IH (set_state s' m')). cbv zeta in IH |- *. destruct IH as (-> & -> & -> & -> & ->). cbn [m_pipeline m_step m_window m_cumulative m_non_cumulative set_state].
    assert (K : exists d, m' = set_data d m).
    { unfold MachineModel.call in Ec. revert Ec. unfold use_callback, run_callback.
      destruct (name_of n =? "estimation"), (name_of n =? "matching_cost"), (name_of n =? "disparity"); destruct (run_step _ _ _ _ _ _ _); intros X; inversion X; eauto. }
    destruct K as (d & ->). cbn. auto.
  Qed.
  Lemma walk_run_executed (nm : string -> string) steps : (forall n, In n (map fst steps) -> run_callback (nm n) = run_callback (before_dot n)) ->
    forall (m m' : mach), walk Running nm steps m = (m', None) ->
    executed (fun cb name c => run_step cb name c (lookup "refinement" (m_non_cumulative m)) (m_step m) (m_window m)) steps (m_data m) = Some (m_data m').
  Proof.
    induction steps as [|[n c] rest IH]; intros Hnm m m' H; cbn [HistorySpec.walk executed] in *; [now injection H as <-|].
    destruct (after (m_state m) (nm n)) as [s'|]; [|discriminate]. cbn [use_callback] in H. rewrite Hnm in H by now left.
    destruct (call _ n c m) as [m1|] eqn:Ec; [|discriminate].
    assert (K : run_step (run_callback (before_dot n)) n c (lookup "refinement" (m_non_cumulative m)) (m_step m) (m_window m) (m_data m) = Some (m_data m1) /\ m1 = set_data (m_data m1) m).
    { unfold MachineModel.call, run_callback in Ec. unfold run_callback. destruct (before_dot n =? "estimation"), (before_dot n =? "matching_cost"), (before_dot n =? "disparity");
        destruct (run_step _ _ _ _ _ _ _); try discriminate; injection Ec as <-; split; reflexivity. }
    destruct K as [K1 K2]. rewrite K1. assert (Hn' : forall n, In n (map fst rest) -> run_callback (nm n) = run_callback (before_dot n)) by (intros x Hx; apply Hnm; now right).
    specialize (IH Hn' _ _ H). rewrite K2 in IH. cbn [m_data m_non_cumulative m_step m_window set_state set_data] in IH. exact IH.
  Qed.
  Lemma allowed_path l : forall s, allowed s l <-> path s l <> None.
  Proof. induction l as [|n l IH]; intros s; cbn [allowed path]; [split; [discriminate | auto]|]. change (next s n) with (after s n). destruct (after s n); [apply IH | tauto]. Qed.
  Lemma allowed_no_dot l : forall s, allowed s l -> forall n, In n l -> before_dot n = n.
  Proof.
    induction l as [|n l IH]; intros s H x Hx; [destruct Hx|]. cbn [allowed] in H. destruct (after s n) as [s'|] eqn:E; [|destruct H].
    destruct Hx as [<-|Hx]; [|exact (IH _ H _ Hx)]. apply known_after in E. unfold known in E. cbn [existsb] in E. rewrite !orb_true_iff, !String.eqb_eq in E.
    destruct E as [->|[->|[->|[->|E]]]]; try reflexivity. discriminate.
  Qed.
End Proofs.
