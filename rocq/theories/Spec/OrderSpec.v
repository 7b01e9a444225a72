(** Configurations with the same values, in any order. *)
From Coq Require Import List String Bool ZArith.
From Verif Require Import Base.Json.
Import ListNotations.
Open Scope Z_scope.
Open Scope string_scope.
Open Scope list_scope.

(** The same keys and the same values at every level; the keys of a dictionary can be in another order. *)
Inductive same_values : json -> json -> Prop :=
| same_leaf j : is_dict j = false -> same_values j j
| same_dict d e : (forall k, lookup k d = None <-> lookup k e = None) -> (forall k v w, lookup k d = Some v -> lookup k e = Some w -> same_values v w) ->
    same_values (JDict d) (JDict e).
(** The steps of the pipeline are in the same order. *)
Definition same_steps (user user2 : dict) : Prop := forall p q, lookup "pipeline" user = Some (JDict p) -> lookup "pipeline" user2 = Some (JDict q) -> keys q = keys p.
(** Pandora looks at the values only. *)
Definition reads_values (pandora_check : dict -> option (json * json * json)) : Prop :=
  forall c e, same_values (JDict c) (JDict e) -> pandora_check e = pandora_check c.
(** The same for the other libraries that are given a part of the configuration. *)
Definition reads_dict {A} (f : dict -> A) : Prop := forall c e, same_values (JDict c) (JDict e) -> f e = f c.
(** The maps of two runs: the same maps, with the same invalid value. *)
Definition same_maps {A} (a b : option (json * A)) : Prop :=
  match a, b with None, None => True | Some (i, x), Some (j, y) => same_values i j /\ y = x | _, _ => False end.
