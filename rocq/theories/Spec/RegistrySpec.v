(** The classes registered under a name, without the dictionaries of the code. *)
From Coq Require Import List String Permutation.
From Verif Require Import Base.Json Model.RegistryModel.
Import ListNotations.
Open Scope string_scope.

(** The last registration of the name, among registrations in time order. *)
Definition last_registered {cls : Type} (name : string) (c : cls) (registrations : list (string * cls)) : Prop :=
  exists before after, registrations = (before ++ (name, c) :: after)%list /\ forall c', ~ In (name, c') after.

(** The methods of the user guide. *)
Inductive refinement_named : string -> refinement_class -> Prop :=
| named_interpolation : refinement_named "interpolation" Interpolation
| named_optical_flow : refinement_named "optical_flow" OpticalFlow
| named_dichotomy : refinement_named "dichotomy" Dichotomy.
Inductive filter_named : string -> filter_class -> Prop :=
| named_bicubic : filter_named "bicubic" Bicubic
| named_sinc : filter_named "sinc" CardinalSine.
Inductive estimation_named : string -> estimation_class -> Prop :=
| named_phase : estimation_named "phase_cross_correlation" PhaseCrossCorrelation.

(** Registrations of other projects: the modules of the project are imported in any order, mixed with those; none of those takes a name of the project. *)
Definition with_plugins {cls : Type} (modules plugins all : list (string * cls)) : Prop :=
  Permutation all (modules ++ plugins)%list /\ forall name c c', In (name, c) modules -> ~ In (name, c') plugins.

(** The method of a section is none of the plugins. *)
Definition not_a_plugin {cls : Type} (key : string) (plugins : list (string * cls)) (cfg : dict) : Prop :=
  forall name c, In (name, c) plugins -> lookup key cfg <> Some (JStr name).
(** The method of the filter of a section is none of the plugins. *)
Definition filter_not_a_plugin {cls : Type} (plugins : list (string * cls)) (cfg : dict) : Prop :=
  forall f, lookup "filter" cfg = Some (JDict f) -> not_a_plugin "method" plugins f.
