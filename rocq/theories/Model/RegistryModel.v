(** Model of the classes registered under a name: AbstractRefinement, AbstractEstimation and AbstractFilter. *)
From Coq Require Import List String Bool ZArith.
From Verif Require Import Base.Json Model.ConfigModel.
Import ListNotations.
Open Scope string_scope.
Open Scope list_scope.

Section Registry.
  Context {cls : Type}.
  (** The dictionaries refinement_methods_avail (refinement.py:44), estimation_methods_avail (estimation.py:41), interpolation_filter_methods_avail
      (interpolation_filter.py:40). *)
  Definition registry := list (string * cls).
  Fixpoint registered (name : string) (r : registry) : option cls :=
    match r with [] => None | (n, c) :: r' => if n =? name then Some c else registered name r' end.
  (** register_subclass (refinement.py:94-115, estimation.py:78-98, interpolation_filter.py:96-117): assignment of a key of the dictionary. *)
  Fixpoint register_subclass (name : string) (c : cls) (r : registry) : registry :=
    match r with [] => [(name, c)] | (n, c') :: r' => if n =? name then (n, c) :: r' else (n, c') :: register_subclass name c r' end.
  (** The decorators executed by the import of the modules, in this order. *)
  Definition imported (modules : list (string * cls)) (r : registry) : registry := fold_left (fun r m => register_subclass (fst m) (snd m) r) modules r.

  (** __new__ (refinement.py:53-85, estimation.py:45-76, interpolation_filter.py:46-62) called with the abstract class (None) or with one of its subclasses.
      No configuration, no method, or a method that is not registered: an error. A method that is not a string: NameError on the name unicode for the first two;
      for the filters an object of the abstract class is asked for, a TypeError since it has abstract methods. *)
  Definition new_instance (key : string) (r : registry) (called : option cls) (cfg : option dict) : option cls :=
    match called with
    | Some c => Some c
    | None => match cfg with
              | Some d => match lookup key d with Some (JStr s) => registered s r | _ => None end
              | None => None end
    end.
End Registry.

(** The classes of the project, and those of other projects that register themselves ([Plugin n]).
    refinement/__init__.py:25 (imports), interpolation.py:39, optical_flow.py:38, dichotomy.py:37. *)
Inductive refinement_class := Interpolation | OpticalFlow | Dichotomy | RefinementPlugin (n : nat).
Definition refinement_modules : list (string * refinement_class) := [("interpolation", Interpolation); ("optical_flow", OpticalFlow); ("dichotomy", Dichotomy)].
(** interpolation_filter/__init__.py:25-26, bicubic.py:29, cardinal_sine.py:32. *)
Inductive filter_class := Bicubic | CardinalSine | FilterPlugin (n : nat).
Definition filter_modules : list (string * filter_class) := [("bicubic", Bicubic); ("sinc", CardinalSine)].
(** estimation/__init__.py:24, phase_cross_correlation.py:36. *)
Inductive estimation_class := PhaseCrossCorrelation | EstimationPlugin (n : nat).
Definition estimation_modules : list (string * estimation_class) := [("phase_cross_correlation", PhaseCrossCorrelation)].

Section Construct.
  Variable bool_ok : bool.
  (** The constructors of the classes of other projects: unknown. *)
  Variable refinement_plugin : nat -> option json -> json -> dict -> option dict.
  Variable filter_plugin estimation_plugin : nat -> dict -> option dict.

  (** bicubic.py:39-50 and cardinal_sine.py:35-52, interpolation_filter.py:64-85. *)
  Definition filter_constructor (c : filter_class) (cfg : dict) : option dict :=
    match c with
    | Bicubic => if validate bicubic_schema cfg then Some cfg else None
    | CardinalSine => if validate (sinc_schema bool_ok) cfg then Some cfg else None
    | FilterPlugin n => filter_plugin n cfg
    end.
  (** A call of a class: __new__, then the constructor of the object (dichotomy.py:57-59). *)
  Definition create_filter (filters : registry) (called : option filter_class) (cfg : dict) : option (filter_class * dict) :=
    match new_instance "method" filters called (Some cfg) with
    | Some c => match filter_constructor c cfg with Some d => Some (c, d) | None => None end
    | None => None
    end.

  (** dichotomy.py:41-46: the method of the filter is a key of the dictionary of the filters. No key is anything else than a string. *)
  Definition filter_listed (filters : @registry filter_class) (j : json) : bool :=
    match j with
    | JDict d => match lookup "method" d with
                 | Some (JStr s) => match registered s filters with Some _ => true | None => false end
                 | _ => false end
    | _ => false
    end.
  Definition dichotomy_schema_with (filters : registry) : schema :=
    [("refinement_method", (true, is_string "dichotomy")); ("iterations", (true, int_such_that bool_ok (fun z => Z.ltb 0 z)));
     ("filter", (true, filter_listed filters))].
  (** dichotomy.py:48-81, refinement.py:115-139. *)
  Definition dichotomy_constructor (filters : registry) (cfg : dict) : option dict :=
    if validate (dichotomy_schema_with filters) cfg then
      match lookup "iterations" cfg with
      | Some j => match as_int bool_ok j with
                  | Some z =>
                      let cfg' := if Z.ltb 9 z then assign "iterations" (JInt 9) cfg else cfg in
                      match lookup "filter" cfg' with
                      | Some (JDict f) => match create_filter filters None f with Some _ => Some cfg' | None => None end
                      | _ => None end
                  | None => None end
      | None => None
      end
    else None.

  (** The constructor of each class: interpolation.py:50-52 (refinement.py:115-124), optical_flow.py:54-95, dichotomy.py:48-59. *)
  Definition refinement_constructor (filters : registry) (step : option json) (window_size : json) (c : refinement_class) (cfg : dict) : option dict :=
    match c with
    | Interpolation => interpolation_init cfg
    | OpticalFlow => optical_flow_init bool_ok step window_size cfg
    | Dichotomy => dichotomy_constructor filters cfg
    | RefinementPlugin n => refinement_plugin n step window_size cfg
    end.
  (** state_machine.py:292-294, 399-401. *)
  Definition create_refinement (refinements : registry) (filters : registry) (called : option refinement_class) (step : option json) (window_size : json)
    (cfg : dict) : option (refinement_class * dict) :=
    match new_instance "refinement_method" refinements called (Some cfg) with
    | Some c => match refinement_constructor filters step window_size c cfg with Some d => Some (c, d) | None => None end
    | None => None
    end.

  (** phase_cross_correlation.py:46-91, estimation.py:45-76 (state_machine.py:246, 327). *)
  Definition estimation_constructor (c : estimation_class) (cfg : dict) : option dict :=
    match c with PhaseCrossCorrelation => estimation_check_conf bool_ok cfg | EstimationPlugin n => estimation_plugin n cfg end.
  Definition create_estimation (estimations : registry) (called : option estimation_class) (cfg : dict) : option (estimation_class * dict) :=
    match new_instance "estimation_method" estimations called (Some cfg) with
    | Some c => match estimation_constructor c cfg with Some d => Some (c, d) | None => None end
    | None => None
    end.
End Construct.
