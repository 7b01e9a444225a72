(** Proofs about the state machine. *)
From Coq Require Import List String Bool Arith Lia.
From Verif Require Import Model.MachineModel Spec.MachineSpec.
Import ListNotations.
Open Scope string_scope.
Open Scope list_scope.

Definition copies {A} (t : list A) (k : nat) : list A := List.concat (repeat t k).

Lemma copies_S {A} (t : list A) k : copies t (S k) = t ++ copies t k.
Proof. reflexivity. Qed.
Lemma copies_snoc {A} (t : list A) k : copies t k ++ t = copies t (S k).
Proof.
  induction k; [cbn; now rewrite app_nil_r|]. rewrite copies_S, <- app_assoc, IHk. reflexivity.
Qed.
Lemma find_app {A} (p : A -> bool) l1 l2 : find p (l1 ++ l2) = match find p l1 with Some x => Some x | None => find p l2 end.
Proof. induction l1; cbn; [reflexivity|]. destruct (p a); auto. Qed.
Lemma find_copies {A} (p : A -> bool) t k : find p (copies t (S k)) = find p t.
Proof.
  induction k; rewrite copies_S, find_app.
  - cbn. now destruct (find p t).
  - rewrite IHk. now destruct (find p t).
Qed.
Lemma existsb_copies {A} (p : A -> bool) t k : existsb p (copies t (S k)) = existsb p t.
Proof.
  induction k; rewrite copies_S, existsb_app.
  - cbn. now rewrite orb_false_r.
  - rewrite IHk. now rewrite orb_diag.
Qed.
Lemma filter_copies_nil {A} (p : A -> bool) t k : filter p t = [] -> filter p (copies t k) = [].
Proof.
  intros H. induction k; [reflexivity|]. rewrite copies_S, filter_app, H, IHk. reflexivity.
Qed.

(** * Paths of the machine *)
Definition next (s : state) (n : string) : option state :=
  match s with
  | Begin => if n =? "estimation" then Some Assumption else if n =? "matching_cost" then Some CostVolumes else None
  | Assumption => if n =? "matching_cost" then Some CostVolumes else None
  | CostVolumes => if n =? "disparity" then Some DispMaps else None
  | DispMaps => if n =? "refinement" then Some DispMaps else None
  end.
Fixpoint path (s : state) (l : list string) : option state :=
  match l with [] => Some s | n :: l' => match next s n with Some s' => path s' l' | None => None end end.

Lemma path_disp l : path DispMaps l <> None <-> exists n, l = repeat "refinement" n.
Proof.
  induction l; cbn.
  - split; [exists O; reflexivity | discriminate].
  - destruct (a =? "refinement") eqn:E.
    + apply String.eqb_eq in E. subst. rewrite IHl. split.
      * intros [n ->]. exists (S n). reflexivity.
      * intros [[|n] H]; [discriminate|]. injection H as ->. now exists n.
    + split; [tauto|]. intros [[|n] H]; [discriminate|]. injection H as -> _. discriminate.
Qed.
Lemma path_cv l : path CostVolumes l <> None <-> l = [] \/ exists n, l = "disparity" :: repeat "refinement" n.
Proof.
  destruct l as [|a l]; cbn [path next].
  - split; [auto | discriminate].
  - destruct (a =? "disparity") eqn:E.
    + apply String.eqb_eq in E. subst. rewrite path_disp. split.
      * intros [n ->]. right. now exists n.
      * intros [H|[n H]]; [discriminate|]. injection H as ->. now exists n.
    + split; [tauto|]. intros [H|[n H]]; [discriminate|]. injection H as -> _. discriminate.
Qed.
Lemma path_assumption l : path Assumption l <> None <->
  l = [] \/ exists l', l = "matching_cost" :: l' /\ path CostVolumes l' <> None.
Proof.
  destruct l as [|a l]; cbn [path next].
  - split; [auto | discriminate].
  - destruct (a =? "matching_cost") eqn:E.
    + apply String.eqb_eq in E. subst. split.
      * intros H. right. now exists l.
      * intros [H|(l' & H & H')]; [discriminate|]. now injection H as ->.
    + split; [tauto|]. intros [H|(l' & H & H')]; [discriminate|]. injection H as -> _. discriminate.
Qed.
Lemma path_documented l : path Begin l <> None <-> documented l.
Proof.
  assert (HA : forall l, path Assumption l <> None <-> exists (m d : bool) n,
    l = (if m then "matching_cost" :: (if d then "disparity" :: repeat "refinement" n else []) else [])).
  { intros l0. rewrite path_assumption. split.
    - intros [->|(l' & -> & H)]; [exists false, false, O; reflexivity|].
      apply path_cv in H. destruct H as [->|[n ->]]; [exists true, false, O | exists true, true, n]; reflexivity.
    - intros ([|] & d & n & ->); [|auto]. right. eexists. split; [reflexivity|]. apply path_cv. destruct d; [|auto].
      right. now exists n. }
  destruct l as [|a l]; cbn [path next].
  - split; [|discriminate]. intros _. exists false, false, false, O. reflexivity.
  - destruct (a =? "estimation") eqn:E.
    + apply String.eqb_eq in E. subst. rewrite HA. split.
      * intros (m & d & n & ->). exists true, m, d, n. reflexivity.
      * intros ([|] & m & d & n & H); cbn in H.
        -- injection H as ->. now exists m, d, n.
        -- destruct m; [|discriminate]. discriminate.
    + destruct (a =? "matching_cost") eqn:E2.
      * apply String.eqb_eq in E2. subst. rewrite path_cv. split.
        -- intros [->|[n ->]]; [exists false, true, false, O | exists false, true, true, n]; reflexivity.
        -- intros ([|] & m & d & n & H); cbn in H; [discriminate|].
           destruct m; [|discriminate]. injection H as ->. destruct d; [right; now exists n | now left].
      * split; [tauto|]. intros ([|] & m & d & n & H); cbn in H.
        -- injection H as -> _. discriminate.
        -- destruct m; [|discriminate]. injection H as -> _. discriminate.
Qed.

(** No documented name has a dot. *)
Lemma documented_no_dot l n : documented l -> In n l -> before_dot n = n.
Proof.
  intros (e & m & d & k & ->) H.
  assert (In n ["estimation"; "matching_cost"; "disparity"; "refinement"]) as H'.
  { apply in_app_or in H. destruct H as [H|H].
    - destruct e; [|easy]. destruct H as [<-|[]]. now left.
    - destruct m; [|easy]. destruct H as [<-|H]; [right; now left|]. destruct d; [|easy].
      destruct H as [<-|H]; [right; right; now left|]. apply repeat_spec in H. subst. right; right; right; now left. }
  repeat (destruct H' as [<-|H']; [reflexivity|]). destruct H'.
Qed.

Definition check_callback (name : string) : callback :=
  if name =? "estimation" then EstimationCheck else if name =? "matching_cost" then MatchingCostCheck
  else if name =? "disparity" then DisparityCheck else RefinementCheck.

Lemma eqb_sym' (a b : string) : (a =? b) = (b =? a).
Proof. apply String.eqb_sym. Qed.

Lemma find_check s n :
  find (fun tr => (tr_trigger tr =? n) && state_eqb (tr_source tr) s) transitions_check =
  match next s n with Some s' => Some (mkTr n s s' (check_callback n)) | None => None end.
Proof.
  unfold transitions_check, check_callback. cbn [find tr_trigger tr_source].
  destruct (n =? "estimation") eqn:E1; [apply String.eqb_eq in E1; subst; destruct s; reflexivity|].
  destruct (n =? "matching_cost") eqn:E2; [apply String.eqb_eq in E2; subst; destruct s; reflexivity|].
  destruct (n =? "disparity") eqn:E3; [apply String.eqb_eq in E3; subst; destruct s; reflexivity|].
  destruct (n =? "refinement") eqn:E4; [apply String.eqb_eq in E4; subst; destruct s; reflexivity|].
  unfold next. rewrite E1, E2, E3, E4, !(eqb_sym' _ n), E1, E2, E3, E4. destruct s; reflexivity.
Qed.
Lemma find_run s n :
  find (fun tr => (tr_trigger tr =? n) && state_eqb (tr_source tr) s) transitions_run =
  match next s n with Some s' => Some (mkTr n s s' (run_callback n)) | None => None end.
Proof.
  unfold transitions_run, run_callback. cbn [find tr_trigger tr_source].
  destruct (n =? "estimation") eqn:E1; [apply String.eqb_eq in E1; subst; destruct s; reflexivity|].
  destruct (n =? "matching_cost") eqn:E2; [apply String.eqb_eq in E2; subst; destruct s; reflexivity|].
  destruct (n =? "disparity") eqn:E3; [apply String.eqb_eq in E3; subst; destruct s; reflexivity|].
  destruct (n =? "refinement") eqn:E4; [apply String.eqb_eq in E4; subst; destruct s; reflexivity|].
  unfold next. rewrite E1, E2, E3, E4, !(eqb_sym' _ n), E1, E2, E3, E4. destruct s; reflexivity.
Qed.
Lemma known_next s n s' (l : list transition) : map tr_trigger l = map tr_trigger transitions_check ->
  next s n = Some s' -> existsb (fun tr => tr_trigger tr =? n) l = true.
Proof.
  intros Hl H. assert (In n (map tr_trigger l)) as Hin.
  { rewrite Hl. unfold next in H. destruct s.
    - destruct (n =? "estimation") eqn:E; [apply String.eqb_eq in E; subst; cbn; auto|].
      destruct (n =? "matching_cost") eqn:E2; [apply String.eqb_eq in E2; subst; cbn; auto|discriminate].
    - destruct (n =? "matching_cost") eqn:E2; [apply String.eqb_eq in E2; subst; cbn; auto|discriminate].
    - destruct (n =? "disparity") eqn:E2; [apply String.eqb_eq in E2; subst; cbn; auto|discriminate].
    - destruct (n =? "refinement") eqn:E2; [apply String.eqb_eq in E2; subst; cbn; auto 10|discriminate]. }
  apply in_map_iff in Hin. destruct Hin as (tr & Htr & Hin). apply existsb_exists. exists tr. split; auto.
  now apply String.eqb_eq.
Qed.

Section Proofs.
  Context {C D M S W : Type}.
  Variable est_conf : C -> option C.
  Variable mc_conf : C -> option (C * S * W * M).
  Variable disp_conf : C -> option (C * M).
  Variable ref_conf : C -> option S -> option W -> option (C * M).
  Variable run_step : callback -> string -> C -> option M -> option S -> option W -> D -> option D.
  Notation mach := (@machine C D M S W).
  Notation call := (call est_conf mc_conf disp_conf ref_conf run_step).
  Notation trigger := (trigger est_conf mc_conf disp_conf ref_conf run_step).
  Notation trigger_all := (trigger_all est_conf mc_conf disp_conf ref_conf run_step).
  Notation check_conf := (check_conf est_conf mc_conf disp_conf ref_conf run_step).
  Notation run := (run est_conf mc_conf disp_conf ref_conf run_step).
  Notation used := (used est_conf mc_conf disp_conf ref_conf run_step).

  (** Error when the machine refuses a step. *)
  Definition refusal (n : string) (m : mach) : error :=
    if existsb (fun tr => tr_trigger tr =? n) (m_transitions m) then NotAllowed else UnknownTrigger.

  Definition check_machine (m : mach) := exists k, m_transitions m = copies transitions_check (Datatypes.S k).
  Definition run_machine (m : mach) := exists k, m_transitions m = copies transitions_run (Datatypes.S k).

  Lemma trigger_generic T cb m n name c :
    map tr_trigger T = map tr_trigger transitions_check ->
    (forall s n, find (fun tr => (tr_trigger tr =? n) && state_eqb (tr_source tr) s) T =
       match next s n with Some s' => Some (mkTr n s s' (cb n)) | None => None end) ->
    (exists k, m_transitions m = copies T (Datatypes.S k)) ->
    trigger n name c m =
    match next (m_state m) n with
    | None => (m, Some (refusal n m))
    | Some s' => match call (cb n) name c m with Some m' => (set_state s' m', None) | None => (m, Some CallbackError) end
    end.
  Proof.
    intros Ht Hf [k Hk]. unfold trigger, MachineModel.trigger, refusal. rewrite Hk.
    rewrite existsb_copies, find_copies, Hf.
    destruct (next (m_state m) n) as [s'|] eqn:E.
    - rewrite (known_next _ _ _ _ Ht E). reflexivity.
    - destruct (existsb _ T); reflexivity.
  Qed.
  Lemma trigger_check m n name c : check_machine m ->
    trigger n name c m =
    match next (m_state m) n with
    | None => (m, Some (refusal n m))
    | Some s' => match call (check_callback n) name c m with Some m' => (set_state s' m', None) | None => (m, Some CallbackError) end
    end.
  Proof. intros H. apply (trigger_generic transitions_check); auto. apply find_check. Qed.
  Lemma trigger_run m n name c : run_machine m ->
    trigger n name c m =
    match next (m_state m) n with
    | None => (m, Some (refusal n m))
    | Some s' => match call (run_callback n) name c m with Some m' => (set_state s' m', None) | None => (m, Some CallbackError) end
    end.
  Proof. intros H. apply (trigger_generic transitions_run); auto. apply find_run. Qed.

  Ltac case_call :=
    repeat match goal with
    | |- context [match ?x with _ => _ end] => let E := fresh in destruct x eqn:E
    | H : context [match ?x with _ => _ end] |- _ => let E := fresh in destruct x eqn:E
    end.

  Lemma call_same cb name c m m' : call cb name c m = Some m' ->
    m_transitions m' = m_transitions m /\ m_state m' = m_state m.
  Proof.
    unfold call, MachineModel.call. intros H.
    destruct cb; case_call; inversion H; subst; split; reflexivity.
  Qed.

  Lemma trigger_all_transitions name_of steps : forall m m' e,
    trigger_all name_of steps m = (m', e) -> m_transitions m' = m_transitions m.
  Proof.
    induction steps as [|[n c] l IH]; intros m m' e H; cbn in H; [now injection H as <- <-|].
    destruct (trigger (name_of n) n c m) as [m1 [e1|]] eqn:E.
    - injection H as <- <-. unfold trigger, MachineModel.trigger in E. case_call; inversion E; subst; auto.
    - apply IH in H. rewrite H. unfold trigger, MachineModel.trigger in E. case_call; inversion E; subst; auto.
      cbn. match goal with H : MachineModel.call _ _ _ _ _ _ _ _ _ = Some _ |- _ => now apply call_same in H end.
  Qed.

  (** Removal of the transitions *)
  Lemma filter_copies (p : transition -> bool) T k : filter p (copies T k) = copies (filter p T) k.
  Proof. induction k; [reflexivity|]. now rewrite !copies_S, filter_app, IHk. Qed.
  Lemma remove_one t U k (m : mach) : existsb (fun tr => tr_trigger tr =? t) U = true ->
    remove_transition t (set_transitions (copies U (Datatypes.S k)) m) =
    Some (set_transitions (copies (filter (fun tr => negb (tr_trigger tr =? t)) U) (Datatypes.S k)) m).
  Proof. intros H. unfold remove_transition. cbn [m_transitions set_transitions]. now rewrite existsb_copies, H, filter_copies. Qed.
  Lemma copies_nil k : @copies transition [] k = [].
  Proof. induction k; auto. Qed.
  Lemma remove_all T k (m : mach) :
    (T = transitions_check \/ T = transitions_run) ->
    m_transitions m = copies T (Datatypes.S k) -> remove_transitions T m = (set_transitions [] m, None).
  Proof.
    intros HT Hm.
    assert (m = set_transitions (copies T (Datatypes.S k)) m) as E by (rewrite <- Hm; destruct m; reflexivity).
    rewrite E at 1. unfold remove_transitions. clear E Hm.
    destruct HT as [-> | ->]; unfold transitions_check, transitions_run;
      repeat (cbn [remove_loop existsb tr_trigger String.eqb Ascii.eqb Bool.eqb app orb];
              try (rewrite remove_one by reflexivity);
              cbn [filter tr_trigger String.eqb Ascii.eqb Bool.eqb negb]);
      rewrite copies_nil; reflexivity.
  Qed.

  (** * check_conf *)
  Lemma check_conf_spec cfg m k : m_transitions m = copies transitions_check k ->
    check_conf cfg m =
    match trigger_all (fun n => n) cfg (set_transitions (copies transitions_check (Datatypes.S k)) m) with
    | (m', Some e) => (m', Some e)
    | (m', None) => (set_state Begin (set_transitions [] m'), None)
    end.
  Proof.
    intros Hm. unfold check_conf, MachineModel.check_conf, add_transitions. rewrite Hm, copies_snoc.
    destruct (trigger_all _ cfg _) as [m' [e|]] eqn:E; [reflexivity|].
    apply trigger_all_transitions in E. cbn in E. rewrite (remove_all transitions_check k); auto.
  Qed.

  Lemma check_clean cfg m k m' : m_transitions m = copies transitions_check k ->
    check_conf cfg m = (m', None) -> clean m'.
  Proof.
    intros Hm H. rewrite (check_conf_spec _ _ _ Hm) in H.
    destruct (trigger_all _ cfg _) as [m1 [e|]] eqn:E; [discriminate|]. injection H as <-. split; reflexivity.
  Qed.

  (** ** The triggers follow the path *)
  Lemma check_machine_call cb name c m m' s : check_machine m -> call cb name c m = Some m' -> check_machine (set_state s m').
  Proof. intros [k Hk] H. exists k. cbn. apply call_same in H. destruct H as [-> _]. exact Hk. Qed.
  Lemma run_machine_call cb name c m m' s : run_machine m -> call cb name c m = Some m' -> run_machine (set_state s m').
  Proof. intros [k Hk] H. exists k. cbn. apply call_same in H. destruct H as [-> _]. exact Hk. Qed.

  Lemma trigger_all_path steps : forall m m', check_machine m -> trigger_all (fun n => n) steps m = (m', None) ->
    path (m_state m) (map fst steps) = Some (m_state m').
  Proof.
    induction steps as [|[n c] l IH]; intros m m' Hm H; cbn in H; [now injection H as <-|].
    rewrite trigger_check in H by auto. cbn [map fst path].
    destruct (next (m_state m) n) as [s'|] eqn:E; [|discriminate].
    destruct (call (check_callback n) n c m) as [m1|] eqn:E2; [|discriminate].
    apply IH in H; [exact H|]. eapply check_machine_call; eauto.
  Qed.

  (** ** Refinements *)
  Lemma trigger_refinements : forall (cs : list C) m, check_machine m -> m_state m = DispMaps ->
    (snd (trigger_all (fun n => n) (map (fun c => ("refinement", c)) cs) m) = None <->
     forall c, In c cs -> ref_conf c (m_step m) (m_window m) <> None).
  Proof.
    induction cs as [|c cs IH]; intros m Hm Hs; cbn [map MachineModel.trigger_all].
    - cbn. split; intros; [destruct H0 | reflexivity].
    - rewrite trigger_check by auto. rewrite Hs. cbn [next String.eqb Ascii.eqb Bool.eqb].
      change (check_callback "refinement") with RefinementCheck. cbn [MachineModel.call].
      destruct (ref_conf c (m_step m) (m_window m)) as [[c' mg]|] eqn:E.
      + rewrite IH; [|exact Hm|reflexivity]. cbn. split.
        * intros H c0 [<-|H0]; [rewrite E; discriminate | auto].
        * auto.
      + cbn. split; [discriminate|]. intros H. exfalso. apply (H c); cbn; auto.
  Qed.

  Lemma map_fst_repeat (l : list (string * C)) n k : map fst l = repeat n k -> l = map (fun c => (n, c)) (map snd l).
  Proof.
    revert k. induction l as [|[a c] l IH]; intros [|k] H; try discriminate; [reflexivity|].
    cbn in H. injection H as -> H. cbn. f_equal. eapply IH; eauto.
  Qed.

  Lemma trigger_documented cfg m : check_machine m -> m_state m = Begin -> documented (map fst cfg) ->
    (snd (trigger_all (fun n => n) cfg m) = None <-> configurations_accepted est_conf mc_conf disp_conf ref_conf cfg).
  Proof.
    intros Hm Hs (e & mb & d & k & Hd).
    assert (MC : forall cfg m, check_machine m -> (m_state m = Begin \/ m_state m = Assumption) ->
      map fst cfg = (if mb then "matching_cost" :: (if d then "disparity" :: repeat "refinement" k else []) else []) ->
      (snd (trigger_all (fun n => n) cfg m) = None <-> configurations_accepted est_conf mc_conf disp_conf ref_conf cfg)).
    { clear cfg m Hm Hs Hd. intros cfg m Hm Hs Hd. destruct mb.
      2:{ destruct cfg; [|discriminate]. cbn. split; [intros _ n c [] | reflexivity]. }
      destruct cfg as [|[n c] cfg]; [discriminate|]. cbn [map fst] in Hd. injection Hd as -> Hd.
      cbn [MachineModel.trigger_all]. rewrite trigger_check by auto.
      assert (next (m_state m) "matching_cost" = Some CostVolumes) as -> by (destruct Hs as [-> | ->]; reflexivity).
      change (check_callback "matching_cost") with MatchingCostCheck. cbn [MachineModel.call].
      destruct (mc_conf c) as [[[[c' s] w] mg]|] eqn:E.
      2:{ cbn. split; [discriminate|]. intros H. exfalso. destruct (H "matching_cost" c) as (_ & H' & _); [now left|].
          now apply H'. }
      assert (SW : step_and_window mc_conf (("matching_cost", c) :: cfg) = (Some s, Some w)).
      { unfold step_and_window. cbn [lookup String.eqb Ascii.eqb Bool.eqb]. now rewrite E. }
      destruct d.
      2:{ destruct cfg; [|discriminate]. cbn. split; [|reflexivity]. intros _ n c0 [H|[]]. injection H as <- <-.
          repeat split; try discriminate. intros _. now rewrite E. }
      destruct cfg as [|[n c1] cfg]; [discriminate|]. cbn [map fst] in Hd. injection Hd as -> Hd.
      cbn [MachineModel.trigger_all]. rewrite trigger_check by exact Hm.
      cbn [m_state set_state next String.eqb Ascii.eqb Bool.eqb].
      change (check_callback "disparity") with DisparityCheck. cbn [MachineModel.call].
      destruct (disp_conf c1) as [[c1' mg1]|] eqn:E1.
      2:{ cbn. split; [discriminate|]. intros H. exfalso. destruct (H "disparity" c1) as (_ & _ & H' & _); [right; now left|].
          now apply H'. }
      apply map_fst_repeat in Hd. rewrite Hd. rewrite Hd in SW.
      rewrite trigger_refinements; [|exact Hm|reflexivity]. cbn [m_step m_window set_state].
      unfold configurations_accepted. rewrite SW. cbn [fst snd]. split.
      - intros H n c0 [H0|[H0|H0]].
        + injection H0 as <- <-. repeat split; try discriminate. intros _. now rewrite E.
        + injection H0 as <- <-. repeat split; try discriminate. intros _. now rewrite E1.
        + apply in_map_iff in H0. destruct H0 as (c2 & H0 & H2). injection H0 as <- <-.
          repeat split; try discriminate. intros _. now apply H.
      - intros H c2 H2. destruct (H "refinement" c2) as (_ & _ & _ & H'); [|now apply H'].
        right. right. apply in_map_iff. now exists c2. }
    destruct e; [|apply MC; auto].
    destruct cfg as [|[n c] cfg]; [discriminate|]. cbn [map fst app] in Hd. injection Hd as -> Hd.
    cbn [MachineModel.trigger_all]. rewrite trigger_check by auto. rewrite Hs.
    cbn [next String.eqb Ascii.eqb Bool.eqb].
    change (check_callback "estimation") with EstimationCheck. cbn [MachineModel.call].
    destruct (est_conf c) as [c'|] eqn:E.
    2:{ cbn. split; [discriminate|]. intros H. exfalso. destruct (H "estimation" c) as (H' & _); [now left|].
        now apply H'. }
    rewrite MC; [|exact Hm|now right|exact Hd].
    assert (SW : step_and_window mc_conf (("estimation", c) :: cfg) = step_and_window mc_conf cfg) by reflexivity.
    unfold configurations_accepted. rewrite SW. split.
    - intros H n c0 [H0|H0]; [|auto]. injection H0 as <- <-. repeat split; try discriminate. intros _. now rewrite E.
    - intros H n c0 H0. apply H. now right.
  Qed.

  Theorem check_conf_verdict cfg m k : m_state m = Begin -> m_transitions m = copies transitions_check k ->
    (snd (check_conf cfg m) = None <->
     documented (map fst cfg) /\ configurations_accepted est_conf mc_conf disp_conf ref_conf cfg).
  Proof.
    intros Hs Hm. rewrite (check_conf_spec _ _ _ Hm).
    set (m0 := set_transitions (copies transitions_check (Datatypes.S k)) m).
    assert (H0 : check_machine m0) by (exists k; reflexivity).
    assert (Hs0 : m_state m0 = Begin) by exact Hs.
    transitivity (snd (trigger_all (fun n => n) cfg m0) = None).
    { destruct (trigger_all _ cfg m0) as [m' [e|]]; cbn; tauto. }
    split.
    - intros H. destruct (trigger_all _ cfg m0) as [m' o] eqn:E. cbn in H. subst o.
      assert (Hd : documented (map fst cfg)).
      { apply path_documented. apply trigger_all_path in E; auto. rewrite Hs0 in E. now rewrite E. }
      split; [exact Hd|]. apply (trigger_documented cfg m0); auto. now rewrite E.
    - intros [Hd Ha]. now apply trigger_documented.
  Qed.

  (** * run *)
  Lemma trigger_all_run cfg : forall m, run_machine m -> path (m_state m) (map fst cfg) <> None ->
    (forall n, In n (map fst cfg) -> before_dot n = n) ->
    match execute (fun cb n c => run_step cb n c (lookup "refinement" (m_non_cumulative m)) (m_step m) (m_window m)) cfg (m_data m) with
    | Some d => exists s, trigger_all before_dot cfg m = (set_state s (set_data d m), None)
    | None => snd (trigger_all before_dot cfg m) = Some CallbackError
    end.
  Proof.
    induction cfg as [|[n c] l IH]; intros m Hm Hp Hn.
    - cbn. exists (m_state m). destruct m; reflexivity.
    - cbn [execute MachineModel.trigger_all map fst path] in *. rewrite (Hn n) by now left.
      rewrite trigger_run by auto.
      destruct (next (m_state m) n) as [s'|] eqn:E; [|tauto].
      assert (Hc : call (run_callback n) n c m =
        match run_step (run_callback n) n c (lookup "refinement" (m_non_cumulative m)) (m_step m) (m_window m) (m_data m) with
        | Some d => Some (set_data d m) | None => None end).
      { unfold run_callback. destruct (n =? "estimation"); [reflexivity|]. destruct (n =? "matching_cost"); [reflexivity|].
        destruct (n =? "disparity"); reflexivity. }
      rewrite Hc. destruct (run_step _ n c _ _ _ _) as [d|] eqn:E2; [|reflexivity].
      specialize (IH (set_state s' (set_data d m))). cbn [m_state set_state set_data m_non_cumulative m_step m_window m_data] in IH.
      specialize (IH Hm Hp (fun n0 H => Hn n0 (or_intror H))).
      match goal with |- match ?a with _ => _ end => destruct a end; exact IH.
  Qed.

  Lemma run_clean cfg m m' d : clean m -> run d cfg m = (m', None) ->
    clean m' /\ m_pipeline m' = m_pipeline m /\ m_cumulative m' = m_cumulative m /\
    m_non_cumulative m' = m_non_cumulative m /\ m_step m' = m_step m /\ m_window m' = m_window m.
  Proof.
    intros [Hs Ht] H. unfold run, MachineModel.run, run_prepare, add_transitions in H. cbn [m_transitions set_data] in H.
    rewrite Ht in H. cbn [app] in H.
    destruct (trigger_all before_dot cfg _) as [m1 [e|]] eqn:E; [discriminate|].
    pose proof (trigger_all_transitions _ _ _ _ _ E) as Htr. cbn in Htr.
    unfold run_exit in H. rewrite (remove_all transitions_run 0) in H; [|auto|now rewrite Htr].
    injection H as <-. cbn.
    assert (G : forall cfg m m1, run_machine m -> trigger_all before_dot cfg m = (m1, None) ->
       m_pipeline m1 = m_pipeline m /\ m_cumulative m1 = m_cumulative m /\
       m_non_cumulative m1 = m_non_cumulative m /\ m_step m1 = m_step m /\ m_window m1 = m_window m).
    { clear. induction cfg as [|[n c] l IH]; intros m m1 Hm H; cbn in H; [injection H as <-; auto|].
      rewrite trigger_run in H by auto. destruct (next _ _); [|discriminate].
      destruct (call _ n c m) as [m2|] eqn:E; [|discriminate].
      apply IH in H; [|eapply run_machine_call; eauto].
      assert (exists d, m2 = set_data d m) as [d ->].
      { unfold run_callback in E. 
        destruct (before_dot n =? "estimation"); [|destruct (before_dot n =? "matching_cost"); [|destruct (before_dot n =? "disparity")]];
        cbn in E; destruct (run_step _ _ _ _ _ _ _); try discriminate; injection E as <-; eauto. }
      exact H. }
    apply G in E; [|exists O; reflexivity]. cbn in E. split; [split; reflexivity | tauto].
  Qed.

  (** * Invariants of used machines *)
  Definition tidy (names : list string) (m : mach) : Prop :=
    (forall k, In k (map fst (m_pipeline m)) -> In k names) /\
    (forall k, In k (map fst (m_cumulative m)) -> In k names /\ (k = "matching_cost" \/ k = "disparity")) /\
    (forall k, In k (map fst (m_non_cumulative m)) -> In k names /\ k = "refinement") /\
    NoDup (map fst (m_pipeline m)).

  Lemma next_name s n s' : next s n = Some s' ->
    (n = "estimation" /\ s' = Assumption /\ s = Begin) \/ (n = "matching_cost" /\ s' = CostVolumes /\ (s = Begin \/ s = Assumption)) \/
    (n = "disparity" /\ s = CostVolumes) \/ (n = "refinement" /\ s = DispMaps).
  Proof.
    unfold next. destruct s; intros H;
      repeat match type of H with (if ?b then _ else _) = _ => let E := fresh "E" in destruct b eqn:E; [apply String.eqb_eq in E|] end;
      try discriminate; injection H as <-; auto 10.
  Qed.

  Lemma tidy_trigger names steps : forall m m', check_machine m -> tidy names m ->
    trigger_all (fun n => n) steps m = (m', None) -> tidy (names ++ map fst steps) m'.
  Proof.
    revert names. induction steps as [|[n c] l IH]; intros names m m' Hm Ht H; cbn in H.
    - injection H as <-. cbn. now rewrite app_nil_r.
    - rewrite trigger_check in H by auto. destruct (next (m_state m) n) as [s'|] eqn:E; [|discriminate].
      destruct (call (check_callback n) n c m) as [m1|] eqn:E2; [|discriminate].
      cbn [map fst]. replace (names ++ n :: map fst l) with ((names ++ [n]) ++ map fst l) by now rewrite <- app_assoc.
      apply (IH (names ++ [n]) (set_state s' m1) m'); [eapply check_machine_call; eauto | | exact H].
      destruct Ht as (H1 & H2 & H3 & H4).
      assert (I1 : forall k, In k (map fst (m_pipeline m)) -> In k (names ++ [n])) by (intros; apply in_or_app; auto).
      assert (I2 : forall k, In k (map fst (m_cumulative m)) -> In k (names ++ [n]) /\ (k = "matching_cost" \/ k = "disparity"))
        by (intros k Hk; apply H2 in Hk; split; [apply in_or_app|]; tauto).
      assert (I3 : forall k, In k (map fst (m_non_cumulative m)) -> In k (names ++ [n]) /\ k = "refinement")
        by (intros k Hk; apply H3 in Hk; split; [apply in_or_app|]; tauto).
      assert (I4 : In n (names ++ [n])) by (apply in_or_app; right; now left).
      apply next_name in E.
      assert (exists p cu nc st wi, m1 = mkMachine (m_state m) (m_transitions m) p st wi cu nc (m_data m) /\
        (exists c', p = assign n c' (m_pipeline m)) /\
        (cu = m_cumulative m \/ (exists v, cu = assign n v (m_cumulative m)) /\ (n = "matching_cost" \/ n = "disparity")) /\
        (nc = m_non_cumulative m \/ (exists v, nc = assign n v (m_non_cumulative m)) /\ n = "refinement"))
        as (p & cu & nc & st & wi & -> & (c' & ->) & Hcu & Hnc).
      { destruct E as [(-> & _)|[(-> & _)|[(-> & _)|(-> & _)]]];
        [change (check_callback "estimation") with EstimationCheck in E2
        |change (check_callback "matching_cost") with MatchingCostCheck in E2
        |change (check_callback "disparity") with DisparityCheck in E2
        |change (check_callback "refinement") with RefinementCheck in E2];
        cbn [MachineModel.call] in E2;
        repeat match type of E2 with
               | match ?x with Some _ => _ | None => _ end = _ => destruct x as [?|]; [|discriminate]
               | (let (_, _) := ?x in _) = _ => destruct x
               end;
        injection E2 as <-; repeat eexists; eauto. }
      unfold tidy. cbn [set_state m_pipeline m_cumulative m_non_cumulative]. repeat split.
      + intros k Hk. apply assign_keys in Hk. destruct Hk as [->|Hk]; auto.
      + destruct Hcu as [-> |((v & ->) & Hn)]; [apply I2; auto|].
        apply assign_keys in H0. destruct H0 as [->|Hk]; [auto | now apply I2].
      + destruct Hcu as [-> |((v & ->) & Hn)]; [apply I2; auto|].
        apply assign_keys in H0. destruct H0 as [->|Hk]; [auto | now apply I2].
      + destruct Hnc as [-> |((v & ->) & Hn)]; [apply I3; auto|].
        apply assign_keys in H0. destruct H0 as [->|Hk]; [auto | now apply I3].
      + destruct Hnc as [-> |((v & ->) & Hn)]; [apply I3; auto|].
        apply assign_keys in H0. destruct H0 as [->|Hk]; [auto | now apply I3].
      + now apply assign_nodup.
  Qed.

  Lemma used_inv names m : used names m -> clean m /\ tidy names m.
  Proof.
    induction 1 as [d | names m cfg m' Hu [[Hs Htr] Ht] H | names m d cfg m' Hu [Hc Ht] H].
    - split; [split; reflexivity|]. unfold tidy; cbn. repeat split; intros; try contradiction; constructor.
    - split; [apply (check_clean cfg m 0 m'); auto|].
      rewrite (check_conf_spec cfg m 0) in H by auto.
      destruct (trigger_all _ cfg _) as [m1 [e|]] eqn:E; [discriminate|]. injection H as <-.
      apply (tidy_trigger names) in E; [exact E | exists O; reflexivity | exact Ht].
    - apply run_clean in H; auto. destruct H as (Hc' & Hp & H1 & H2 & _). split; auto.
      unfold tidy in *. rewrite Hp, H1, H2. exact Ht.
  Qed.

  (** * Two machines *)
  Definition late (s : state) := s = CostVolumes \/ s = DispMaps.
  Definition same (m1 m2 : mach) : Prop :=
    m_state m1 = m_state m2 /\ m_transitions m1 = m_transitions m2 /\
    (late (m_state m1) -> m_step m1 = m_step m2 /\ m_window m1 = m_window m2).

  Lemma same_step m1 m2 n c s' : same m1 m2 -> next (m_state m1) n = Some s' ->
    match call (check_callback n) n c m1, call (check_callback n) n c m2 with
    | Some m1', Some m2' => same (set_state s' m1') (set_state s' m2')
    | None, None => True
    | _, _ => False
    end.
  Proof.
    intros (Hs & Ht & Hl) E. apply next_name in E.
    destruct E as [(-> & Es' & Es)|[(-> & Es' & Es)|[(-> & Es)|(-> & Es)]]].
    - change (check_callback "estimation") with EstimationCheck. cbn [MachineModel.call].
      destruct (est_conf c); auto. subst s'. split; [reflexivity|]. split; [exact Ht|]. intros [H|H]; discriminate.
    - change (check_callback "matching_cost") with MatchingCostCheck. cbn [MachineModel.call].
      destruct (mc_conf c) as [[[[? ?] ?] ?]|]; auto. repeat split; cbn; auto.
    - change (check_callback "disparity") with DisparityCheck. cbn [MachineModel.call].
      destruct (disp_conf c) as [[? ?]|]; auto. repeat split; cbn; auto; intros; apply Hl; rewrite Es; now left.
    - change (check_callback "refinement") with RefinementCheck. cbn [MachineModel.call].
      destruct Hl as [-> ->]; [rewrite Es; now right|].
      destruct (ref_conf c _ _) as [[? ?]|]; auto. repeat split; cbn; auto.
  Qed.

  Lemma same_all steps : forall m1 m2, check_machine m1 -> same m1 m2 ->
    snd (trigger_all (fun n => n) steps m1) = snd (trigger_all (fun n => n) steps m2) /\
    same (fst (trigger_all (fun n => n) steps m1)) (fst (trigger_all (fun n => n) steps m2)).
  Proof.
    induction steps as [|[n c] l IH]; intros m1 m2 Hm Hs; cbn [MachineModel.trigger_all]; [auto|].
    assert (Hm2 : check_machine m2) by (destruct Hm as [k Hk]; exists k; destruct Hs as (_ & <- & _); exact Hk).
    rewrite !trigger_check by auto.
    pose proof (same_step m1 m2 n c) as St.
    destruct Hs as (Hs & Ht & Hl).
    rewrite <- Hs. destruct (next (m_state m1) n) as [s'|] eqn:E.
    - specialize (St s' (conj Hs (conj Ht Hl)) eq_refl).
      destruct (call _ n c m1) as [m1'|] eqn:E1, (call _ n c m2) as [m2'|] eqn:E2; try contradiction.
      + apply IH; [exact (check_machine_call _ _ _ _ _ _ Hm E1) | exact St].
      + cbn. split; [reflexivity|]. exact (conj Hs (conj Ht Hl)).
    - cbn. split; [|exact (conj Hs (conj Ht Hl))]. unfold refusal. now rewrite Ht.
  Qed.

  (** Machines that agree on the steps that are not still to be done. *)
  Definition agree (todo : list string) (m1 m2 : mach) : Prop :=
    forall k, ~ In k todo ->
      lookup k (m_pipeline m1) = lookup k (m_pipeline m2) /\
      lookup k (m_cumulative m1) = lookup k (m_cumulative m2) /\
      lookup k (m_non_cumulative m1) = lookup k (m_non_cumulative m2).
  Definition kinds (m : mach) : Prop :=
    (forall k, lookup k (m_cumulative m) <> None -> k = "matching_cost" \/ k = "disparity") /\
    (forall k, lookup k (m_non_cumulative m) <> None -> k = "refinement").

  Lemma kinds_none m : kinds m -> lookup "estimation" (m_cumulative m) = None /\ lookup "refinement" (m_cumulative m) = None /\
    lookup "estimation" (m_non_cumulative m) = None /\ lookup "matching_cost" (m_non_cumulative m) = None /\
    lookup "disparity" (m_non_cumulative m) = None.
  Proof.
    intros [H1 H2]. repeat split.
    - destruct (lookup _ _) eqn:E; auto. destruct (H1 "estimation"); congruence.
    - destruct (lookup _ _) eqn:E; auto. destruct (H1 "refinement"); congruence.
    - destruct (lookup _ _) eqn:E; auto. specialize (H2 "estimation"); rewrite E in H2. discriminate H2; discriminate.
    - destruct (lookup _ _) eqn:E; auto. specialize (H2 "matching_cost"); rewrite E in H2. discriminate H2; discriminate.
    - destruct (lookup _ _) eqn:E; auto. specialize (H2 "disparity"); rewrite E in H2. discriminate H2; discriminate.
  Qed.

  Lemma agree_step m1 m2 n c s' todo m1' m2' : same m1 m2 -> kinds m1 -> kinds m2 -> agree (n :: todo) m1 m2 ->
    next (m_state m1) n = Some s' ->
    call (check_callback n) n c m1 = Some m1' -> call (check_callback n) n c m2 = Some m2' ->
    agree todo m1' m2' /\ kinds m1' /\ kinds m2'.
  Proof.
    intros (Hs & Ht & Hl) K1 K2 Ha E C1 C2. apply next_name in E.
    pose proof (kinds_none _ K1) as (N1 & N2 & N3 & N4 & N5). pose proof (kinds_none _ K2) as (O1 & O2 & O3 & O4 & O5).
    destruct K1 as [K1 K1'], K2 as [K2 K2'].
    assert (U : forall k, ~ In k todo -> k <> n -> ~ In k (n :: todo)) by (intros k H H0 [H1|H1]; auto).
    destruct E as [(-> & Es' & Es)|[(-> & Es' & Es)|[(-> & Es)|(-> & Es)]]].
    - change (check_callback "estimation") with EstimationCheck in *. cbn [MachineModel.call] in *.
      destruct (est_conf c) as [c'|]; [|discriminate]. injection C1 as <-. injection C2 as <-.
      unfold agree, kinds. cbn. split; [|auto]. intros k Hk. rewrite !lookup_assign.
      destruct (k =? "estimation") eqn:E.
      + apply String.eqb_eq in E. subst k. repeat split; congruence.
      + apply String.eqb_neq in E. apply Ha; auto.
    - change (check_callback "matching_cost") with MatchingCostCheck in *. cbn [MachineModel.call] in *.
      destruct (mc_conf c) as [[[[c' s] w] mg]|]; [|discriminate]. injection C1 as <-. injection C2 as <-.
      unfold agree, kinds. cbn. split; [|split; split; auto; intros k; rewrite lookup_assign;
        (destruct (k =? "matching_cost") eqn:E; [apply String.eqb_eq in E; auto | auto])].
      intros k Hk. rewrite !lookup_assign. destruct (k =? "matching_cost") eqn:E.
      + apply String.eqb_eq in E. subst k. repeat split; congruence.
      + apply String.eqb_neq in E. apply Ha; auto.
    - change (check_callback "disparity") with DisparityCheck in *. cbn [MachineModel.call] in *.
      destruct (disp_conf c) as [[c' mg]|]; [|discriminate]. injection C1 as <-. injection C2 as <-.
      unfold agree, kinds. cbn. split; [|split; split; auto; intros k; rewrite lookup_assign;
        (destruct (k =? "disparity") eqn:E; [apply String.eqb_eq in E; auto | auto])].
      intros k Hk. rewrite !lookup_assign. destruct (k =? "disparity") eqn:E.
      + apply String.eqb_eq in E. subst k. repeat split; congruence.
      + apply String.eqb_neq in E. apply Ha; auto.
    - change (check_callback "refinement") with RefinementCheck in *. cbn [MachineModel.call] in *.
      destruct Hl as [L1 L2]; [rewrite Es; now right|]. rewrite <- L1, <- L2 in C2.
      destruct (ref_conf c _ _) as [[c' mg]|]; [|discriminate]. injection C1 as <-. injection C2 as <-.
      unfold agree, kinds. cbn. split; [|split; split; auto; intros k; rewrite lookup_assign;
        (destruct (k =? "refinement") eqn:E; [apply String.eqb_eq in E; auto | auto])].
      intros k Hk. rewrite !lookup_assign. destruct (k =? "refinement") eqn:E.
      + apply String.eqb_eq in E. subst k. repeat split; congruence.
      + apply String.eqb_neq in E. apply Ha; auto.
  Qed.

  Lemma agree_all steps : forall m1 m2 m1' m2', check_machine m1 -> same m1 m2 -> kinds m1 -> kinds m2 ->
    agree (map fst steps) m1 m2 ->
    trigger_all (fun n => n) steps m1 = (m1', None) -> trigger_all (fun n => n) steps m2 = (m2', None) ->
    agree [] m1' m2'.
  Proof.
    induction steps as [|[n c] l IH]; intros m1 m2 m1' m2' Hm Hs K1 K2 Ha H1 H2; cbn [MachineModel.trigger_all] in *.
    - injection H1 as <-. injection H2 as <-. exact Ha.
    - assert (Hm2 : check_machine m2) by (destruct Hm as [k Hk]; exists k; destruct Hs as (_ & <- & _); exact Hk).
      rewrite trigger_check in H1, H2 by auto.
      pose proof Hs as (Hst & _). rewrite <- Hst in H2.
      destruct (next (m_state m1) n) as [s'|] eqn:E; [|discriminate].
      pose proof (same_step m1 m2 n c s' Hs E) as St.
      destruct (call _ n c m1) as [n1|] eqn:E1; [|discriminate].
      destruct (call _ n c m2) as [n2|] eqn:E2; [|discriminate].
      destruct (agree_step m1 m2 n c s' (map fst l) n1 n2 Hs K1 K2 Ha E E1 E2) as (A & L1 & L2).
      apply (IH (set_state s' n1) (set_state s' n2)); auto. exact (check_machine_call _ _ _ _ _ _ Hm E1).
  Qed.

  Lemma tidy_kinds names m : tidy names m -> kinds m.
  Proof.
    intros (_ & H2 & H3 & _). split; intros k Hk; apply lookup_in in Hk; [apply H2 in Hk|apply H3 in Hk]; tauto.
  Qed.

  Variable merge : C -> C -> C.
  Lemma lookup_update cfg new k : NoDup (map fst new) ->
    lookup k (update_pipeline merge cfg new) =
    match lookup k new with
    | Some v => Some (match lookup k cfg with Some c => merge c v | None => v end)
    | None => lookup k cfg
    end.
  Proof.
    unfold update_pipeline. revert cfg. induction new as [|[a v] new IH]; intros cfg H; [reflexivity|].
    inversion H as [|? ? Hn Hd]; subst. cbn [fold_left lookup fst snd]. rewrite IH by auto.
    rewrite lookup_assign. destruct (k =? a) eqn:E; [|reflexivity].
    apply String.eqb_eq in E. subst. rewrite (lookup_none _ _ Hn). reflexivity.
  Qed.

  (** A new machine and a used machine give the same verdict, and the same result when the names checked before are checked again. *)
  Theorem used_verdict names m cfg d : used names m ->
    snd (check_conf cfg m) = snd (check_conf cfg (new_machine d)).
  Proof.
    intros Hu. apply used_inv in Hu. destruct Hu as ((Hs & Ht) & _).
    rewrite (check_conf_spec cfg m 0), (check_conf_spec cfg (new_machine d) 0) by auto.
    set (m1 := set_transitions _ m). set (m2 := set_transitions _ (new_machine d)).
    destruct (same_all cfg m1 m2) as [H _].
    - exists O. reflexivity.
    - split; [exact Hs|]. split; [reflexivity|]. cbn. rewrite Hs. intros [H|H]; discriminate.
    - destruct (trigger_all _ cfg m1) as [? [?|]], (trigger_all _ cfg m2) as [? [?|]]; cbn in *; congruence.
  Qed.

  Theorem used_result names m cfg d m1 m2 : used names m -> (forall n, In n names -> In n (map fst cfg)) ->
    check_conf cfg m = (m1, None) -> check_conf cfg (new_machine d) = (m2, None) ->
    agree [] m1 m2.
  Proof.
    intros Hu Hn. apply used_inv in Hu. destruct Hu as ((Hs & Ht) & Hti).
    rewrite (check_conf_spec cfg m 0), (check_conf_spec cfg (new_machine d) 0) by auto.
    set (n1 := set_transitions _ m). set (n2 := set_transitions _ (new_machine d)).
    intros H1 H2.
    destruct (trigger_all _ cfg n1) as [p1 [?|]] eqn:E1; [discriminate|].
    destruct (trigger_all _ cfg n2) as [p2 [?|]] eqn:E2; [discriminate|].
    injection H1 as <-. injection H2 as <-.
    refine (agree_all cfg n1 n2 p1 p2 _ _ _ _ _ E1 E2).
    - exists O. reflexivity.
    - split; [exact Hs|]. split; [reflexivity|]. cbn. rewrite Hs. intros [H|H]; discriminate.
    - exact (tidy_kinds _ _ Hti).
    - split; cbn; congruence.
    - intros k Hk. destruct Hti as (T1 & T2 & T3 & _). cbn.
      repeat split; apply lookup_none; intros H; [apply T1 in H|apply T2 in H|apply T3 in H]; apply Hk, Hn; tauto.
  Qed.

  (** * After failures *)
  Lemma call_transitions cb name c T m :
    call cb name c (set_transitions T m) = match call cb name c m with Some m' => Some (set_transitions T m') | None => None end.
  Proof.
    destruct cb; cbn [MachineModel.call set_transitions m_state m_transitions m_pipeline m_step m_window m_cumulative m_non_cumulative m_data];
      repeat match goal with
             | |- match ?x with Some _ => _ | None => _ end = _ => destruct x as [?|]
             | |- (let (_, _) := ?x in _) = _ => destruct x
             end; reflexivity.
  Qed.

  Lemma trigger_all_copies cfg k : forall m,
    trigger_all (fun n => n) cfg (set_transitions (copies transitions_check (Datatypes.S k)) m) =
    (set_transitions (copies transitions_check (Datatypes.S k))
       (fst (trigger_all (fun n => n) cfg (set_transitions transitions_check m))),
     snd (trigger_all (fun n => n) cfg (set_transitions transitions_check m))).
  Proof.
    induction cfg as [|[n c] l IH]; intros m; cbn [MachineModel.trigger_all]; [reflexivity|].
    rewrite !trigger_check by ((exists k; reflexivity) || (exists O; reflexivity)). cbn [m_state set_transitions].
    rewrite !call_transitions.
    destruct (next (m_state m) n) as [s'|].
    - destruct (call (check_callback n) n c m) as [m'|]; [|reflexivity].
      change (set_state s' (set_transitions ?T m')) with (set_transitions T (set_state s' m')). apply IH.
    - unfold refusal. cbn [fst snd m_transitions set_transitions]. now rewrite existsb_copies.
  Qed.

  Lemma check_conf_copies cfg m k m' : m_transitions m = copies transitions_check k ->
    (check_conf cfg m = (m', None) <-> check_conf cfg (set_transitions [] m) = (m', None)).
  Proof.
    intros Hm. rewrite (check_conf_spec cfg m k Hm), (check_conf_spec cfg (set_transitions [] m) 0 eq_refl).
    change (copies transitions_check 1) with (transitions_check ++ []). rewrite app_nil_r.
    change (set_transitions transitions_check (set_transitions [] m)) with (set_transitions transitions_check m).
    rewrite trigger_all_copies.
    destruct (trigger_all _ cfg (set_transitions transitions_check m)) as [m1 [e|]]; cbn [fst snd]; [split; discriminate|].
    change (set_transitions [] (set_transitions ?T m1)) with (set_transitions [] m1). reflexivity.
  Qed.

  Lemma first_step_fails s rest m k : m_state m = Begin -> m_transitions m = copies transitions_check k ->
    snd (check_conf [s] m) <> None ->
    exists e, check_conf (s :: rest) m = (set_transitions (copies transitions_check (Datatypes.S k)) m, Some e).
  Proof.
    intros Hs Hm H. rewrite (check_conf_spec _ _ _ Hm) in H. rewrite (check_conf_spec _ _ _ Hm). destruct s as [n c].
    cbn [MachineModel.trigger_all] in *. rewrite trigger_check in H by (exists k; reflexivity).
    rewrite trigger_check by (exists k; reflexivity).
    cbn [m_state set_transitions] in *. destruct (next (m_state m) n); [|eauto].
    destruct (call _ n c _) as [m'|]; [|eauto]. cbn in H. congruence.
  Qed.
End Proofs.
