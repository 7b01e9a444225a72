(** What is expected of the check of a whole configuration. *)
From Coq Require Import List String Bool ZArith.
From Verif Require Import Base.Json.
Import ListNotations.
Open Scope Z_scope.
Open Scope string_scope.
Open Scope list_scope.

(** [c'] has the values of [extra], and those of [c] for the other keys. *)
Definition overwritten_by (extra c c' : dict) : Prop :=
  forall k, lookup k c' = match lookup k extra with Some v => Some v | None => lookup k c end.

(** Contract of Pandora's check of the matching cost: it completes the window size, the subpix and the spline order with integers (or booleans), it
    only looks at the values of the keys, and it accepts again, with the same values, what it completed. *)
Definition is_integer (j : json) : Prop := (exists z, j = JInt z) \/ (exists b, j = JBool b).
Definition pandora_contract (pandora_check : dict -> option (json * json * json)) : Prop :=
  forall c w s o, pandora_check c = Some (w, s, o) ->
    is_integer w /\ is_integer s /\ is_integer o /\
    forall c', overwritten_by [("window_size", w); ("subpix", s); ("spline_order", o)] c c' -> pandora_check c' = Some (w, s, o).

(** The sections of a configuration. *)
Definition sections : list string := ["input"; "ROI"; "pipeline"; "expert_mode"].
