(** Model of the check of a whole configuration (pandora2d/check_configuration.py) and of the configuration saved by main. *)
From Coq Require Import List String Bool ZArith.
From Verif Require Import Base.Json Model.CommonModel Model.ConfigModel Model.InputModel Model.MachineModel.
Import ListNotations.
Open Scope Z_scope.
Open Scope string_scope.
Open Scope list_scope.

(** Pandora's check_images (external) reads the paths of the two images and of the two masks: [images_ok] left right left_mask right_mask
    is its result, true when no error is raised. Used at check_configuration.py:100. *)
Definition check_images_of (images_ok : json -> json -> json -> json -> bool) (input : json) : bool :=
  match get_path ["left"; "img"] input, get_path ["right"; "img"] input, get_path ["left"; "mask"] input, get_path ["right"; "mask"] input with
  | Some li, Some ri, Some lm, Some rm => images_ok li ri lm rm
  | _, _, _, _ => false
  end.

Section CheckConf.
  (** Data of the machine, margins. *)
  Context {D M : Type}.
  Variable bool_ok : bool.
  (** Pandora's check of the matching cost (see ConfigModel), the margins of the steps. *)
  Variable pandora_check : dict -> option (json * json * json).
  Variable matching_cost_margins refinement_margins : dict -> M.
  Variable disparity_margins : M.
  Variable run_step : callback -> string -> json -> option M -> option json -> option json -> D -> option D.
  (** External: Pandora's rasterio_can_open_mandatory, rasterio_can_open and check_images, the (row, column) size of an image, the content
      of a disparity grid. *)
  Variable can_open_mandatory can_open check_images : json -> bool.
  Variable image_size : string -> nat * nat.
  Variable open_raster : string -> reader.

  Definition is_str (j : json) : bool := match j with JStr _ => true | _ => false end.
  Definition is_null (j : json) : bool := match j with JNull => true | _ => false end.
  Definition sub_schema (s : schema) (j : json) : bool := match j with JDict d => validate s d | _ => false end.

  (** check_configuration.py:389-402 (input_configuration_schema) *)
  Definition image_schema : schema :=
    [("img", (true, fun j => is_str j && can_open_mandatory j));
     ("nodata", (true, fun j => int_such_that bool_ok (fun _ => true) j || np_isnan j || np_isinf j));
     ("mask", (true, fun j => (is_str j || is_null j) && can_open j))].
  Definition disparity_axis_schema : schema :=
    [("init", (true, fun j => int_such_that bool_ok (fun _ => true) j || can_open j));
     ("range", (true, int_such_that bool_ok (fun z => Z.leb 0 z)))].
  Definition input_configuration_schema : schema :=
    [("left", (true, sub_schema image_schema)); ("right", (true, sub_schema image_schema));
     ("col_disparity", (true, sub_schema disparity_axis_schema)); ("row_disparity", (true, sub_schema disparity_axis_schema))].

  (** The disparity of an axis for the checks of InputModel; isinstance(True, int) is true in Python. *)
  Definition cfg_disp_of (d : dict) : cfg_disp :=
    mkCfgDisp (match lookup "init" d with
               | Some (JInt v) => CInt v
               | Some (JBool b) => CInt (Z.b2z b)
               | Some (JStr s) => CFile (open_raster s)
               | _ => COther end)
              (match lookup "range" d with Some (JInt v) => v | Some (JBool b) => Z.b2z b | _ => 0 end).
  (** check_configuration.py:103-105, with check_disparity of InputModel *)
  Definition check_disparity_section (input : dict) : bool :=
    match get_path ["left"; "img"] (JDict input), lookup "row_disparity" input, lookup "col_disparity" input with
    | Some (JStr img), Some (JDict row), Some (JDict col) =>
        check_disparity (fst (image_size img)) (snd (image_size img)) (cfg_disp_of row) (cfg_disp_of col)
    | _, _, _ => false
    end.
  (** check_configuration.py:72-107 (check_input_section); [estimation]: estimation_config is not None. *)
  Definition check_input_section (user : dict) (estimation : bool) : option dict :=
    match lookup "input" user with
    | None => None
    | Some _ =>
        match complete_input estimation (JDict user) with
        | Some (JDict cfg) =>
            if validate [("input", (true, sub_schema input_configuration_schema))] cfg then
              match lookup "input" cfg with
              | Some (JDict input) =>
                  if check_images (JDict input) && (estimation || check_disparity_section input) then Some cfg else None
              | _ => None
              end
            else None
        | _ => None
        end
    end.

  (** check_configuration.py:371-386 (get_roi_config) *)
  Definition get_roi_config (user : dict) : dict := match lookup "ROI" user with Some roi => [("ROI", roi)] | None => [] end.
  (** check_configuration.py:220-244 (check_roi_section); check_roi of ConfigModel is the schema and the coherence. *)
  Definition check_roi_section (user : dict) : option dict :=
    match user with
    | [] => Some []
    | _ => match update_conf (JDict []) (JDict user) with
           | Some (JDict cfg) => match lookup "ROI" cfg with
                                 | Some (JDict roi) => if check_roi bool_ok roi then Some cfg else None
                                 | _ => None end
           | _ => None
           end
    end.

  (** state_machine.py:235-296: the constructors of the steps, on the configuration of the step. *)
  Definition est_conf (c : json) : option json :=
    match c with JDict d => option_map JDict (estimation_check_conf bool_ok d) | _ => None end.
  Definition mc_conf (c : json) : option (json * json * json * M) :=
    match c with
    | JDict d => match matching_cost_init pandora_check d with
                 | Some c' => match lookup "step" c', lookup "window_size" c' with
                              | Some s, Some w => Some (JDict c', s, w, matching_cost_margins c')
                              | _, _ => None end
                 | None => None end
    | _ => None
    end.
  Definition disp_conf (c : json) : option (json * M) :=
    match c with
    | JDict d => match disparity_check_conf bool_ok d with Some c' => Some (JDict c', disparity_margins) | None => None end
    | _ => None
    end.
  Definition ref_conf (c : json) (step window_size : option json) : option (json * M) :=
    match c with
    | JDict d => match refinement_init bool_ok step (match window_size with Some w => w | None => JNull end) d with
                 | Some c' => Some (JDict c', refinement_margins c') | None => None end
    | _ => None
    end.
  Definition machine_check := MachineModel.check_conf est_conf mc_conf disp_conf ref_conf run_step.
  Definition mach := @machine json D M json json.

  (** check_configuration.py:247-279 (check_pipeline_section). MachineModel has the same function with the merge of the steps as a
      parameter; here it is update_conf on the whole configuration. *)
  Definition check_pipeline_section (user : dict) (m : mach) : mach * option dict :=
    match update_conf (JDict []) (JDict user) with
    | Some (JDict cfg) =>
        match lookup "pipeline" cfg with
        | Some (JDict pipeline) =>
            match machine_check pipeline m with
            | (m', Some _) => (m', None)
            | (m', None) =>
                match update_conf (JDict cfg) (JDict [("pipeline", JDict (m_pipeline m'))]) with
                | Some (JDict cfg') => match lookup "pipeline" cfg' with
                                       | Some (JDict p) => (m', Some [("pipeline", JDict p)])
                                       | _ => (m', None) end
                | _ => (m', None)
                end
            end
        | _ => (m, None)
        end
    | _ => (m, None)
    end.

  (** check_configuration.py:341-355 (check_right_nodata_condition): true when no error is raised. *)
  Definition check_right_nodata_condition (cfg_input cfg_pipeline : dict) : bool :=
    match get_path ["input"; "right"; "nodata"] (JDict cfg_input),
          get_path ["pipeline"; "matching_cost"; "matching_cost_method"] (JDict cfg_pipeline) with
    | Some (JInt _), _ | Some (JBool _), _ => true
    | Some _, Some method => negb (is_string "sad" method || is_string "ssd" method)
    | _, _ => false
    end.

  (** check_configuration.py:282-302 (check_expert_mode_section), 425 (expert_mode_profiling) *)
  Definition expert_mode_profiling : schema := [("folder_name", (true, is_str))].
  Definition check_expert_mode_section (user : json) : option dict :=
    match user with
    | JDict d => match lookup "profiling" d with
                 | Some profiling => if sub_schema expert_mode_profiling profiling then Some [("expert_mode", user)] else None
                 | None => None end
    | _ => None
    end.

  (** Pandora's concat_conf: update of an empty dictionary with each one. *)
  Definition concat_conf (l : list dict) : dict :=
    fold_left (fun acc d => fold_left (fun a (kv : string * json) => assign (fst kv) (snd kv) a) d acc) l [].
  (** Pandora's get_config_input *)
  Definition get_config_input (user : dict) : dict := match lookup "input" user with Some i => [("input", i)] | None => [] end.

  (** check_configuration.py:305-338 (check_conf). *)
  Definition check_conf (user : dict) (m : mach) : mach * option dict :=
    match lookup "pipeline" user with
    | Some (JDict pipeline) =>
        let estimation := match lookup "estimation" pipeline with None | Some JNull => false | Some _ => true end in
        match check_input_section (get_config_input user) estimation, check_roi_section (get_roi_config user) with
        | Some cfg_input, Some cfg_roi =>
            match check_pipeline_section user m with
            | (m', Some cfg_pipeline) =>
                if match get_path ["pipeline"; "matching_cost"] (JDict cfg_pipeline) with
                   | Some _ => check_right_nodata_condition cfg_input cfg_pipeline | None => true end
                then match lookup "expert_mode" user with
                     | None | Some (JDict []) => (m', Some (concat_conf [cfg_input; cfg_roi; cfg_pipeline]))
                     | Some j => match check_expert_mode_section j with
                                 | Some cfg_expert => (m', Some (concat_conf [cfg_input; cfg_roi; cfg_pipeline; cfg_expert]))
                                 | None => (m', None) end
                     end
                else (m', None)
            | (m', None) => (m', None)
            end
        | _, _ => (m, None)
        end
    | _ => (m, None)
    end.

  (** __init__.py:110-112: the margins (a tuple, a list once read again) are added to the ROI of the checked configuration. *)
  Definition add_roi_margins (margins : json) (cfg : dict) : dict :=
    match lookup "ROI" cfg with
    | Some (JDict roi) => assign "ROI" (JDict (assign "margins" margins roi)) cfg
    | _ => cfg
    end.
  (** __init__.py:80-136 (main), the configuration given to save_config when the pipeline has no estimation: run_prepare copies the
      configuration (state_machine.py:159) and no other step changes it. Written then read again by json the values are the same
      (Python writes and reads NaN and Infinity). *)
  Definition saved_configuration (roi_margins margins : json) (cfg : dict) : dict := assign "margins" margins (add_roi_margins roi_margins cfg).
End CheckConf.
