(** Model of the completion and of the checks of the configuration. *)
From Coq Require Import List String Bool ZArith QArith.
From Verif Require Import Base.Json.
Import ListNotations.
Open Scope Z_scope.
Open Scope string_scope.
Open Scope list_scope.

(** * pandora.check_configuration.update_conf, used by check_configuration.py:87, 92, 234, 262, 269 (external, modelled from its source):
    recursive update of a copy of the first configuration; the strings "NaN", "inf", "-inf" of the second one are converted to floats.
    An error when a dictionary of the second one meets a value that is not a dictionary. *)
Definition conv (j : json) : json :=
  match j with
  | JStr s => if s =? "NaN" then JNan else if s =? "inf" then JInf true else if s =? "-inf" then JInf false else j
  | _ => j
  end.
Definition get_or_empty (k : string) (c : dict) : json := match lookup k c with Some v => v | None => JDict [] end.

Fixpoint update_conf (def user : json) {struct user} : option json :=
  match user with
  | JDict items =>
      match def with
      | JDict cfg =>
          (fix go (items : dict) (cfg : dict) {struct items} : option json :=
             match items with
             | [] => Some (JDict cfg)
             | (k, v) :: r =>
                 match v with
                 | JDict _ => match update_conf (get_or_empty k cfg) v with
                              | Some w => go r (assign k w cfg)
                              | None => None
                              end
                 | _ => go r (assign k (conv v) cfg)
                 end
             end) items cfg
      | _ => match items with [] => Some def | _ => None end
      end
  | _ => None
  end.

(** check_configuration.py:401-418 *)
Definition default_short_configuration_input : json :=
  JDict [("input", JDict [("left", JDict [("nodata", JInt (-9999)); ("mask", JNull)]);
                          ("right", JDict [("nodata", JInt (-9999)); ("mask", JNull)])])].
Definition default_configuration_disp : json :=
  JDict [("input", JDict [("col_disparity", JDict [("init", JInt (-9997)); ("range", JInt 2)]);
                          ("row_disparity", JDict [("init", JInt (-9997)); ("range", JInt 2)])])].
(** check_configuration.py:84-92: the part of check_input_section that completes the configuration. *)
Definition complete_input (estimation : bool) (user : json) : option json :=
  match update_conf default_short_configuration_input user with
  | Some cfg => if estimation then update_conf default_configuration_disp cfg else Some cfg
  | None => None
  end.

(** * json_checker (external): a value is checked by a predicate; a dictionary must have all the mandatory keys and no other key.
    Whether a boolean passes for an integer is left open ([bool_ok]). *)
Section Checks.
  Variable bool_ok : bool.
  Definition as_int (j : json) : option Z :=
    match j with JInt z => Some z | JBool b => if bool_ok then Some (Z.b2z b) else None | _ => None end.
  Definition int_such_that (p : Z -> bool) (j : json) : bool := match as_int j with Some z => p z | None => false end.
  Definition is_string (s : string) (j : json) : bool := match j with JStr s' => s' =? s | _ => false end.
  (** key, mandatory, predicate *)
  Definition schema := list (string * (bool * (json -> bool))).
  Definition validate (s : schema) (cfg : dict) : bool :=
    forallb (fun kv : string * json => match lookup (fst kv) s with Some (_, p) => p (snd kv) | None => false end) cfg &&
    forallb (fun e : string * (bool * (json -> bool)) => if fst (snd e) then match lookup (fst e) cfg with Some _ => true | None => false end else true) s.

  (** dictionary with a default for an absent key *)
  Definition set_default (k : string) (v : json) (cfg : dict) : dict :=
    match lookup k cfg with Some _ => cfg | None => assign k v cfg end.

  (** schema.py:24 (STEP_SCHEMA): a list of two values that are at least 1; the type of the values is not checked. *)
  Definition at_least_one (j : json) : bool :=
    match j with JInt z => (Z.leb 1 z) | JFloat q => Qle_bool 1 q | JBool b => b | JInf b => b | _ => false end.
  Definition step_schema (j : json) : bool :=
    match j with JList l => Nat.eqb (List.length l) 2 && forallb at_least_one l | _ => false end.

  (** np.isnan and np.isinf used as predicates: a list of one element is an array of one element. *)
  Fixpoint np_isnan (j : json) : bool := match j with JNan => true | JList [x] => np_isnan x | _ => false end.
  Fixpoint np_isinf (j : json) : bool := match j with JInf _ => true | JList [x] => np_isinf x | _ => false end.
  Definition is_float (j : json) : bool := match j with JFloat _ | JNan | JInf _ => true | _ => false end.

  (** disparity/disparity.py:47-68 (Disparity.check_conf) *)
  Definition disparity_schema : schema :=
    [("disparity_method", (true, is_string "wta"));
     ("invalid_disparity", (true, fun j => int_such_that (fun _ => true) j || is_float j || np_isnan j || np_isinf j))].
  Definition disparity_check_conf (cfg : dict) : option dict :=
    let cfg' := match lookup "invalid_disparity" cfg with
                | None => assign "invalid_disparity" (JInt (-9999)) cfg
                | Some (JStr s) => if s =? "NaN" then assign "invalid_disparity" JNan cfg else cfg
                | Some _ => cfg end in
    if validate disparity_schema cfg' then Some cfg' else None.

  (** estimation/phase_cross_correlation.py:60-91 (check_conf) *)
  Definition estimation_schema : schema :=
    [("estimation_method", (true, is_string "phase_cross_correlation"));
     ("range_row", (true, int_such_that (fun z => (Z.ltb 2 z) && negb (Z.eqb (z mod 2) 0))));
     ("range_col", (true, int_such_that (fun z => (Z.ltb 2 z) && negb (Z.eqb (z mod 2) 0))));
     ("sample_factor", (true, int_such_that (fun z => (Z.eqb (z mod 10) 0 || Z.eqb z 1) && (Z.ltb 0 z))))].
  Definition estimation_check_conf (cfg : dict) : option dict :=
    let cfg' := set_default "sample_factor" (JInt 1) (set_default "range_row" (JInt 5) (set_default "range_col" (JInt 5) cfg)) in
    if validate estimation_schema cfg' then Some cfg' else None.

  (** interpolation_filter/bicubic.py:39 and cardinal_sine.py:35 (schemas), interpolation_filter.py:48-63, 66-92 *)
  Definition bicubic_schema : schema := [("method", (true, is_string "bicubic"))].
  Definition sinc_schema : schema :=
    [("method", (true, is_string "sinc")); ("size", (false, int_such_that (fun z => (Z.leb 6 z) && (Z.leb z 21))))].
  Definition filter_check_conf (cfg : dict) : option dict :=
    match lookup "method" cfg with
    | Some (JStr s) => if s =? "bicubic" then (if validate bicubic_schema cfg then Some cfg else None)
                       else if s =? "sinc" then (if validate sinc_schema cfg then Some cfg else None)
                       else None
    | _ => None
    end.

  (** refinement/dichotomy.py:41-46, 48-59, 61-81 and refinement.py:126-139: the check, then the construction of the filter. *)
  Definition filter_method_available (j : json) : bool :=
    match j with
    | JDict d => match lookup "method" d with Some (JStr s) => (s =? "bicubic") || (s =? "sinc") | _ => false end
    | _ => false
    end.
  Definition dichotomy_schema : schema :=
    [("refinement_method", (true, is_string "dichotomy")); ("iterations", (true, int_such_that (fun z => Z.ltb 0 z)));
     ("filter", (true, filter_method_available))].
  Definition dichotomy_check_conf (cfg : dict) : option dict :=
    if validate dichotomy_schema cfg then
      match lookup "iterations" cfg with
      | Some j => match as_int j with
                  | Some z => if (Z.ltb 9 z) then Some (assign "iterations" (JInt 9) cfg) else Some cfg
                  | None => None end
      | None => None
      end
    else None.
  Definition dichotomy_init (cfg : dict) : option dict :=
    match dichotomy_check_conf cfg with
    | Some cfg' => match lookup "filter" cfg' with
                   | Some (JDict f) => match filter_check_conf f with Some _ => Some cfg' | None => None end
                   | _ => None end
    | None => None
    end.

  (** refinement/optical_flow.py:46-95: window size and step come from the matching cost. *)
  Definition optical_flow_schema : schema :=
    [("refinement_method", (true, is_string "optical_flow")); ("iterations", (true, int_such_that (fun z => Z.ltb 0 z)));
     ("window_size", (true, int_such_that (fun z => (Z.ltb 1 z) && negb (Z.eqb (z mod 2) 0)))); ("step", (true, step_schema))].
  Definition optical_flow_init (step : option json) (window_size : json) (cfg : dict) : option dict :=
    let cfg1 := assign "step" (match step with Some s => s | None => JList [JInt 1; JInt 1] end) (assign "window_size" window_size cfg) in
    let cfg2 := set_default "iterations" (JInt 4) cfg1 in
    if validate optical_flow_schema cfg2 then Some cfg2 else None.

  (** refinement/interpolation.py:50-52 *)
  Definition interpolation_schema : schema := [("refinement_method", (true, is_string "interpolation"))].
  Definition interpolation_init (cfg : dict) : option dict := if validate interpolation_schema cfg then Some cfg else None.

  (** refinement/refinement.py:50-85 (AbstractRefinement.__new__): the method gives the class. *)
  Definition refinement_init (step : option json) (window_size : json) (cfg : dict) : option dict :=
    match lookup "refinement_method" cfg with
    | Some (JStr s) => if s =? "dichotomy" then dichotomy_init cfg
                       else if s =? "optical_flow" then optical_flow_init step window_size cfg
                       else if s =? "interpolation" then interpolation_init cfg else None
    | _ => None
    end.

  (** matching_cost/matching_cost.py:52-87, 134-172: check of the keys of Pandora2D, then the check of Pandora (external: [pandora_check]
      gives the window size, the subpix and the spline order) on the configuration where the step is the column step. *)
  Variable pandora_check : dict -> option (json * json * json).
  Definition matching_cost_schema : schema :=
    [("matching_cost_method", (true, fun j => is_string "ssd" j || is_string "sad" j || is_string "zncc" j || is_string "mc_cnn" j));
     ("step", (true, step_schema))].
  Definition matching_cost_check_conf (cfg : dict) : option dict :=
    match lookup "matching_cost_method" cfg with
    | None => None
    | Some m =>
        let c := [("matching_cost_method", m);
                  ("step", match lookup "step" cfg with Some s => s | None => JList [JInt 1; JInt 1] end)] in
        if validate matching_cost_schema c then Some c else None
    end.
  Definition matching_cost_init (cfg : dict) : option dict :=
    match matching_cost_check_conf cfg with
    | Some [(_, m); (_, JList [step_row; step_col])] =>
        match pandora_check (assign "step" step_col cfg) with
        | Some (w, s, o) => Some [("matching_cost_method", m); ("step", JList [step_row; step_col]);
                                  ("window_size", w); ("subpix", s); ("spline_order", o)]
        | None => None
        end
    | _ => None
    end.

  (** check_configuration.py:358-368 (check_roi_coherence), 420-423 (roi_configuration_schema), 220-244 (check_roi_section). *)
  Definition roi_axis_schema : schema :=
    [("first", (true, int_such_that (fun z => Z.leb 0 z))); ("last", (true, int_such_that (fun z => Z.leb 0 z)))].
  Definition check_roi_coherence (axis : dict) : bool :=
    match lookup "first" axis, lookup "last" axis with
    | Some f, Some l => match as_int f, as_int l with Some a, Some b => (Z.leb a b) | _, _ => false end
    | _, _ => false
    end.
  Definition roi_schema : schema :=
    let axis j := match j with JDict d => validate roi_axis_schema d | _ => false end in
    [("row", (true, axis)); ("col", (true, axis))].
  Definition check_roi (roi : dict) : bool :=
    validate roi_schema roi &&
    match lookup "row" roi, lookup "col" roi with
    | Some (JDict r), Some (JDict c) => check_roi_coherence c && check_roi_coherence r
    | _, _ => false
    end.
End Checks.
