(** Model of pandora2d/state_machine.py (the machine and its two sets of transitions) and of the functions that drive it. *)
From Coq Require Import List Ascii String Bool Arith.
From Verif Require Export Base.Dict.
Import ListNotations.
Open Scope string_scope.

(** state_machine.py:121 *)
Inductive state := Begin | Assumption | CostVolumes | DispMaps.
Definition state_eqb (a b : state) : bool :=
  match a, b with Begin, Begin | Assumption, Assumption | CostVolumes, CostVolumes | DispMaps, DispMaps => true | _, _ => false end.

(** The callbacks named in the transitions. *)
Inductive callback := EstimationCheck | MatchingCostCheck | DisparityCheck | RefinementCheck
                    | EstimationRun | MatchingCostRun | DisparityRun | RefinementRun.

Record transition := mkTr { tr_trigger : string; tr_source : state; tr_dest : state; tr_before : callback }.

(** state_machine.py:66-84. matching_cost_prepare and matching_cost_run are one callback: both are called one after the other
    (there is no condition between them). *)
Definition transitions_run : list transition :=
  [ mkTr "estimation" Begin Assumption EstimationRun;
    mkTr "matching_cost" Begin CostVolumes MatchingCostRun;
    mkTr "matching_cost" Assumption CostVolumes MatchingCostRun;
    mkTr "disparity" CostVolumes DispMaps DisparityRun;
    mkTr "refinement" DispMaps DispMaps RefinementRun ].

(** state_machine.py:86-97 *)
Definition transitions_check : list transition :=
  [ mkTr "estimation" Begin Assumption EstimationCheck;
    mkTr "matching_cost" Begin CostVolumes MatchingCostCheck;
    mkTr "matching_cost" Assumption CostVolumes MatchingCostCheck;
    mkTr "disparity" CostVolumes DispMaps DisparityCheck;
    mkTr "refinement" DispMaps DispMaps RefinementCheck ].

(** input_step.split(".")[0] *)
Fixpoint before_dot (s : string) : string :=
  match s with
  | EmptyString => EmptyString
  | String c s' => if Ascii.eqb c "."%char then EmptyString else String c (before_dot s')
  end.

(** Errors: unknown trigger (AttributeError of transitions), transition not allowed in the state (MachineError), error raised by the
    callback, remove_transition of an unknown trigger (KeyError). *)
Inductive error := UnknownTrigger | NotAllowed | CallbackError | UnknownRemoval.

Section Machine.
  (** Configurations of steps, data handled by the run (images, cost volumes, maps), margins, steps and window sizes. *)
  Context {C D M S W : Type}.
  (** Constructors of the steps (each checks its configuration and gives the completed one). *)
  Variable est_conf : C -> option C.
  Variable mc_conf : C -> option (C * S * W * M).
  Variable disp_conf : C -> option (C * M).
  Variable ref_conf : C -> option S -> option W -> option (C * M).
  (** Run of a step: callback, name of the step in the pipeline, configuration, margins of the step named "refinement",
      step and window size kept by the machine. None is an error; what is left in the data after an error is not modelled. *)
  Variable run_step : callback -> string -> C -> option M -> option S -> option W -> D -> option D.

  (** state_machine.py:99-137 *)
  Record machine := mkMachine {
    m_state : state; m_transitions : list transition;
    m_pipeline : list (string * C);              (* self.pipeline_cfg["pipeline"] *)
    m_step : option S; m_window : option W;
    m_cumulative : list (string * M); m_non_cumulative : list (string * M);   (* self.margins *)
    m_data : D }.
  Definition new_machine (d : D) : machine := mkMachine Begin [] [] None None [] [] d.

  Definition set_state (s : state) (m : machine) : machine :=
    mkMachine s (m_transitions m) (m_pipeline m) (m_step m) (m_window m) (m_cumulative m) (m_non_cumulative m) (m_data m).
  Definition set_transitions (t : list transition) (m : machine) : machine :=
    mkMachine (m_state m) t (m_pipeline m) (m_step m) (m_window m) (m_cumulative m) (m_non_cumulative m) (m_data m).
  Definition set_data (d : D) (m : machine) : machine :=
    mkMachine (m_state m) (m_transitions m) (m_pipeline m) (m_step m) (m_window m) (m_cumulative m) (m_non_cumulative m) d.

  (** transitions: Machine.add_transitions appends. *)
  Definition add_transitions (t : list transition) (m : machine) : machine := set_transitions (m_transitions m ++ t) m.

  (** state_machine.py:235-296 and 298-408: the callbacks. The margins and the configuration are stored under the name
      of the step. *)
  Definition call (cb : callback) (name : string) (c : C) (m : machine) : option machine :=
    match cb with
    | EstimationCheck => match est_conf c with
        | Some c' => Some (mkMachine (m_state m) (m_transitions m) (assign name c' (m_pipeline m)) (m_step m) (m_window m)
                             (m_cumulative m) (m_non_cumulative m) (m_data m))
        | None => None end
    | MatchingCostCheck => match mc_conf c with
        | Some (c', s, w, mg) => Some (mkMachine (m_state m) (m_transitions m) (assign name c' (m_pipeline m)) (Some s) (Some w)
                             (assign name mg (m_cumulative m)) (m_non_cumulative m) (m_data m))
        | None => None end
    | DisparityCheck => match disp_conf c with
        | Some (c', mg) => Some (mkMachine (m_state m) (m_transitions m) (assign name c' (m_pipeline m)) (m_step m) (m_window m)
                             (assign name mg (m_cumulative m)) (m_non_cumulative m) (m_data m))
        | None => None end
    | RefinementCheck => match ref_conf c (m_step m) (m_window m) with
        | Some (c', mg) => Some (mkMachine (m_state m) (m_transitions m) (assign name c' (m_pipeline m)) (m_step m) (m_window m)
                             (m_cumulative m) (assign name mg (m_non_cumulative m)) (m_data m))
        | None => None end
    | _ => match run_step cb name c (lookup "refinement" (m_non_cumulative m)) (m_step m) (m_window m) (m_data m) with
        | Some d => Some (set_data d m)
        | None => None end
    end.

  (** transitions: Machine.trigger. The first transition of the trigger whose source is the current state is executed: its
      callback, then the change of state. When the callback raises, the state is not changed. *)
  Definition trigger (t name : string) (c : C) (m : machine) : machine * option error :=
    if existsb (fun tr => tr_trigger tr =? t) (m_transitions m) then
      match find (fun tr => (tr_trigger tr =? t) && state_eqb (tr_source tr) (m_state m)) (m_transitions m) with
      | None => (m, Some NotAllowed)
      | Some tr => match call (tr_before tr) name c m with
                   | None => (m, Some CallbackError)
                   | Some m' => (set_state (tr_dest tr) m', None)
                   end
      end
    else (m, Some UnknownTrigger).

  (** A loop of triggers, stopped by the first error. *)
  Fixpoint trigger_all (name_of : string -> string) (steps : list (string * C)) (m : machine) : machine * option error :=
    match steps with
    | [] => (m, None)
    | (name, c) :: l => match trigger (name_of name) name c m with
                        | (m', None) => trigger_all name_of l m'
                        | (m', Some e) => (m', Some e)
                        end
    end.

  (** transitions: Machine.remove_transition(trigger) removes all the transitions of the trigger (KeyError when there is none);
      state_machine.py:218-233 (remove_transitions) calls it once for each different trigger. *)
  Definition remove_transition (t : string) (m : machine) : option machine :=
    if existsb (fun tr => tr_trigger tr =? t) (m_transitions m)
    then Some (set_transitions (filter (fun tr => negb (tr_trigger tr =? t)) (m_transitions m)) m) else None.
  Fixpoint remove_loop (l : list transition) (deleted : list string) (m : machine) : machine * option error :=
    match l with
    | [] => (m, None)
    | tr :: l' =>
        if existsb (String.eqb (tr_trigger tr)) deleted then remove_loop l' deleted m
        else match remove_transition (tr_trigger tr) m with
             | Some m' => remove_loop l' (deleted ++ [tr_trigger tr]) m'
             | None => (m, Some UnknownRemoval)
             end
    end.
  Definition remove_transitions (l : list transition) (m : machine) : machine * option error := remove_loop l [] m.

  (** state_machine.py:191-216 (check_conf) *)
  Definition check_conf (cfg : list (string * C)) (m : machine) : machine * option error :=
    match trigger_all (fun n => n) cfg (add_transitions transitions_check m) with
    | (m', Some e) => (m', Some e)
    | (m', None) => match remove_transitions transitions_check m' with
                    | (m'', Some e) => (m'', Some e)
                    | (m'', None) => (set_state Begin m'', None)
                    end
    end.

  (** state_machine.py:139-161 (run_prepare), with the images in the data. *)
  Definition run_prepare (d : D) (m : machine) : machine := add_transitions transitions_run (set_data d m).
  (** state_machine.py:182-189 (run_exit) *)
  Definition run_exit (m : machine) : machine * option error :=
    match remove_transitions transitions_run m with
    | (m', Some e) => (m', Some e)
    | (m', None) => (set_state Begin m', None)
    end.
  (** state_machine.py:163-180 (run) for each step and pandora2d/__init__.py:43-77 (run). *)
  Definition run (d : D) (cfg : list (string * C)) (m : machine) : machine * option error :=
    match trigger_all before_dot cfg (run_prepare d m) with
    | (m', Some e) => (m', Some e)
    | (m', None) => run_exit m'
    end.

  (** check_configuration.py:247-279 (check_pipeline_section): the pipeline returned, update_conf(cfg, machine.pipeline_cfg). [merge] is
      update_conf on the configuration of a step. *)
  Variable merge : C -> C -> C.
  Definition update_pipeline (cfg new : list (string * C)) : list (string * C) :=
    fold_left (fun acc p => assign (fst p) (match lookup (fst p) acc with Some c => merge c (snd p) | None => snd p end) acc) new cfg.
  Definition check_pipeline_section (cfg : list (string * C)) (m : machine) : machine * (list (string * C) + error) :=
    match check_conf cfg m with
    | (m', Some e) => (m', inr e)
    | (m', None) => (m', inl (update_pipeline cfg (m_pipeline m')))
    end.
End Machine.
