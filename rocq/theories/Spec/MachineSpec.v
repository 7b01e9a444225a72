(** The documented sequences of steps, and machines ready to be used. *)
From Coq Require Import List String Bool Arith.
From Verif Require Import Model.MachineModel.
Import ListNotations.
Open Scope string_scope.
Open Scope list_scope.

(** Optionally estimation, then optionally matching_cost, then optionally disparity, then any number of refinement. *)
Definition documented (steps : list string) : Prop :=
  exists (e m d : bool) (n : nat),
    steps = (if e then ["estimation"] else []) ++
            (if m then "matching_cost" :: (if d then "disparity" :: repeat "refinement" n else []) else []).

(** Initial state, no transition left. *)
Definition clean {C D M S W} (m : @machine C D M S W) : Prop := m_state m = Begin /\ m_transitions m = [].

Section Conf.
  Context {C M S W : Type}.
  Variable est_conf : C -> option C.
  Variable mc_conf : C -> option (C * S * W * M).
  Variable disp_conf : C -> option (C * M).
  Variable ref_conf : C -> option S -> option W -> option (C * M).
  (** The configuration of every step is accepted by the step; a refinement is given the step and the window size of the
      matching cost of the same pipeline. *)
  Definition step_and_window (cfg : list (string * C)) : option S * option W :=
    match lookup "matching_cost" cfg with
    | Some c => match mc_conf c with Some (_, s, w, _) => (Some s, Some w) | None => (None, None) end
    | None => (None, None) end.
  Definition configurations_accepted (cfg : list (string * C)) : Prop :=
    forall name c, In (name, c) cfg ->
      (name = "estimation" -> est_conf c <> None) /\
      (name = "matching_cost" -> mc_conf c <> None) /\
      (name = "disparity" -> disp_conf c <> None) /\
      (name = "refinement" -> ref_conf c (fst (step_and_window cfg)) (snd (step_and_window cfg)) <> None).
End Conf.

(** What a run does: the steps of the configuration one after the other, each once, each with its own function. *)
Definition run_callback (name : string) : callback :=
  if name =? "estimation" then EstimationRun else if name =? "matching_cost" then MatchingCostRun
  else if name =? "disparity" then DisparityRun else RefinementRun.
Fixpoint execute {C D} (f : callback -> string -> C -> D -> option D) (steps : list (string * C)) (d : D) : option D :=
  match steps with
  | [] => Some d
  | (name, c) :: l => match f (run_callback name) name c d with Some d' => execute f l d' | None => None end
  end.

(** Machines obtained by any history of successful checks and runs; [names] are the names of the steps checked. *)
Section Used.
  Context {C D M S W : Type}.
  Variable est_conf : C -> option C.
  Variable mc_conf : C -> option (C * S * W * M).
  Variable disp_conf : C -> option (C * M).
  Variable ref_conf : C -> option S -> option W -> option (C * M).
  Variable run_step : callback -> string -> C -> option M -> option S -> option W -> D -> option D.
  Inductive used : list string -> @machine C D M S W -> Prop :=
  | used_new d : used [] (new_machine d)
  | used_check names m cfg m' : used names m ->
      check_conf est_conf mc_conf disp_conf ref_conf run_step cfg m = (m', None) -> used (names ++ map fst cfg) m'
  | used_run names m d cfg m' : used names m ->
      run est_conf mc_conf disp_conf ref_conf run_step d cfg m = (m', None) -> used names m'.
End Used.
