(** What a machine does after any history of checks and runs, successful or not. *)
From Coq Require Import List String Bool.
From Verif Require Import Model.MachineModel Spec.MachineSpec.
Import ListNotations.
Open Scope string_scope.
Open Scope list_scope.

(** The two uses of a machine. *)
Inductive use := Checking | Running.
Definition use_callback (u : use) (name : string) : callback :=
  match u with
  | Checking => if name =? "estimation" then EstimationCheck else if name =? "matching_cost" then MatchingCostCheck
                else if name =? "disparity" then DisparityCheck else RefinementCheck
  | Running => run_callback name
  end.
(** The next state, for the steps that are allowed. *)
Definition after (s : state) (step : string) : option state :=
  match s with
  | Begin => if step =? "estimation" then Some Assumption else if step =? "matching_cost" then Some CostVolumes else None
  | Assumption => if step =? "matching_cost" then Some CostVolumes else None
  | CostVolumes => if step =? "disparity" then Some DispMaps else None
  | DispMaps => if step =? "refinement" then Some DispMaps else None
  end.
Definition known (step : string) : bool := existsb (String.eqb step) ["estimation"; "matching_cost"; "disparity"; "refinement"].

(** Steps allowed one after the other from a state. *)
Fixpoint allowed (s : state) (steps : list string) : Prop :=
  match steps with [] => True | n :: l => match after s n with Some s' => allowed s' l | None => False end end.
(** The steps executed one after the other on the data; "refinement.1" is executed as a refinement. *)
Fixpoint executed {C D} (f : callback -> string -> C -> D -> option D) (steps : list (string * C)) (d : D) : option D :=
  match steps with
  | [] => Some d
  | (name, c) :: l => match f (run_callback (before_dot name)) name c d with Some d' => executed f l d' | None => None end
  end.

Section History.
  Context {C D M S W : Type}.
  Variable est_conf : C -> option C.
  Variable mc_conf : C -> option (C * S * W * M).
  Variable disp_conf : C -> option (C * M).
  Variable ref_conf : C -> option S -> option W -> option (C * M).
  Variable run_step : callback -> string -> C -> option M -> option S -> option W -> D -> option D.
  Notation mach := (@machine C D M S W).
  Notation call := (call est_conf mc_conf disp_conf ref_conf run_step).

  (** What the machine holds, apart from its state and its transitions. *)
  Definition contents (m : mach) := (m_pipeline m, m_step m, m_window m, m_cumulative m, m_non_cumulative m, m_data m).
  (** The steps one after the other from a state, with the functions of [u], until the first error. *)
  Fixpoint walk (u : use) (name_of : string -> string) (steps : list (string * C)) (m : mach) : mach * option error :=
    match steps with
    | [] => (m, None)
    | (name, c) :: l =>
        match after (m_state m) (name_of name) with
        | None => (m, Some (if known (name_of name) then NotAllowed else UnknownTrigger))
        | Some s => match call (use_callback u (name_of name)) name c m with
                    | None => (m, Some CallbackError)
                    | Some m' => walk u name_of l (set_state s m') end
        end
    end.

  (** A check, or a run with its images. *)
  Inductive operation := Check (cfg : list (string * C)) | Run (images : D) (cfg : list (string * C)).
  Definition perform (o : operation) (m : mach) : mach * option error :=
    match o with
    | Check cfg => check_conf est_conf mc_conf disp_conf ref_conf run_step cfg m
    | Run d cfg => run est_conf mc_conf disp_conf ref_conf run_step d cfg m
    end.
  Definition use_of (o : operation) : use := match o with Check _ => Checking | Run _ _ => Running end.
  (** Histories: the state in which the last operation stopped when it failed, and the first failed operation since the last
      successful one. *)
  Inductive reached : mach -> state -> option use -> Prop :=
  | reached_new d : reached (new_machine d) Begin None
  | reached_success m s u o m' : reached m s u -> perform o m = (m', None) -> reached m' Begin None
  | reached_failure m s u o m' e : reached m s u -> perform o m = (m', Some e) ->
      reached m' (m_state m') (Some (match u with Some x => x | None => use_of o end)).
  (** The machine as the operation finds it: a run gives its images first. *)
  Definition given (o : operation) (m : mach) : mach := match o with Check _ => m | Run d _ => set_data d m end.
  Definition steps_of (o : operation) : list (string * C) := match o with Check cfg | Run _ cfg => cfg end.
  Definition name_of (o : operation) : string -> string := match o with Check _ => fun n => n | Run _ _ => before_dot end.
End History.
