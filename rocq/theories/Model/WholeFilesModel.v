(** Model of the whole program with the files it writes. *)
From Coq Require Import List String Bool ZArith QArith.
From Verif Require Import Base.Ext Base.Arr Base.Json Base.Dict Model.CommonModel Model.DisparityModel Model.MatchingCostModel Model.RoiModel Model.InputModel Model.DatasetModel
  Model.OpticalFlowModel Model.InterpolationModel Model.MachineModel Model.PipelineModel Model.WholeModel Model.ImgShiftModel Model.OutputModel.
Import ListNotations.
Open Scope string_scope.
Open Scope list_scope.

Section Files.
  (** The program without its files (WholeModel): check of the configuration, then what is saved. *)
  Variable checked : dict -> option dict.
  Variable main : dict -> option outcome.
  Variable output cwd : path.
  Variable timestamp : string.
  Variable components : string -> path.
  (** reporting.py:41-51 with the invalid value and the maps (see StatisticsModel and ReportModel). *)
  Variable report_of : json -> dmaps cost -> json.

  (** state_machine.py:314-408: the calls of the decorated functions, one for each step of the pipeline, with what is measured during the k-th one. *)
  Definition calls (sample : nat -> row) (cfg : dict) : list row :=
    match lookup "pipeline" cfg with
    | Some (JDict p) => map (fun kn => let r := sample (fst kn) in mkRow (label_of (snd kn)) (w_time r) (w_cpu_time r) (w_memory r) (w_start r) (w_end r) (w_cpu r))
                          (combine (seq 0 (List.length p)) (keys p))
    | _ => []
    end.
  (** profiling.py:170 and __init__.py:102: nothing is measured without the section expert_mode. *)
  Definition measured (sample : nat -> row) (cfg : dict) : list row := if existsb (String.eqb "expert_mode") (keys cfg) then calls sample cfg else [].

  (** __init__.py:94-140. When the program stops with an error, [completed] calls of decorated functions had ended. *)
  Definition main_files (sample : nat -> row) (completed : nat) (user : dict) : disk cost -> disk cost * bool :=
    match checked user with
    | None => perform [raise]
    | Some cfg =>
        match main user with
        | None => perform (timed cwd timestamp (firstn completed (measured sample cfg)) ++ [raise])
        | Some out =>
            perform (timed cwd timestamp (measured sample cfg) ++
              finish_run output cwd timestamp components
                match o_maps out, o_reported out with Some saved, Some (inv, reported) => Some (saved, report_of inv reported) | _, _ => None end
                (o_cfg out))
        end
    end.
End Files.
