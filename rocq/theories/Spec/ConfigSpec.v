(** What is expected of the configuration: what is kept, what is added, which values are accepted. *)
From Coq Require Import List String Bool ZArith QArith.
From Verif Require Import Base.Json.
Import ListNotations.
Open Scope Z_scope.
Open Scope string_scope.
Open Scope list_scope.

(** The three strings that stand for floats. *)
Inductive reads_as : json -> json -> Prop :=
| reads_nan : reads_as (JStr "NaN") JNan
| reads_inf : reads_as (JStr "inf") (JInf true)
| reads_minus_inf : reads_as (JStr "-inf") (JInf false)
| reads_same j : j <> JStr "NaN" -> j <> JStr "inf" -> j <> JStr "-inf" -> reads_as j j.
(** No such string at any place of the configuration. *)
Definition normal (j : json) : Prop := forall p v, get_path p j = Some v -> reads_as v v.
(** [q] is the beginning of [p], with at least one key less. *)
Definition strict_prefix (q p : list string) : Prop := exists k r, p = q ++ k :: r.

(** Description of a dictionary: its possible keys, whether they are mandatory, and the set of their values. *)
Definition field : Type := string * bool * (json -> Prop).
Definition described (fields : list field) (cfg : dict) : Prop :=
  (forall k v, lookup k cfg = Some v -> exists m P, In (k, m, P) fields /\ P v) /\
  (forall k P, In (k, true, P) fields -> lookup k cfg <> None).

Section Domains.
  (** Whether booleans pass for the integers 0 and 1. *)
  Variable bool_ok : bool.
  Inductive int_value : json -> Z -> Prop :=
  | int_int n : int_value (JInt n) n
  | int_true : bool_ok = true -> int_value (JBool true) 1
  | int_false : bool_ok = true -> int_value (JBool false) 0.
  Definition integer (P : Z -> Prop) (j : json) : Prop := exists n, int_value j n /\ P n.
  Definition string_among (l : list string) (j : json) : Prop := exists s, In s l /\ j = JStr s.

  (** docs/source/userguide/step_by_step/estimation.rst *)
  Definition estimation_fields : list field :=
    [("estimation_method", true, string_among ["phase_cross_correlation"]);
     ("range_row", false, integer (fun n => 3 <= n /\ Z.Odd n));
     ("range_col", false, integer (fun n => 3 <= n /\ Z.Odd n));
     ("sample_factor", false, integer (fun n => n = 1 \/ exists m, 1 <= m /\ n = 10 * m))].

  (** Filters of docs/source/exploring_the_field/interpolation_filters.rst *)
  Definition bicubic_fields : list field := [("method", true, string_among ["bicubic"])].
  Definition sinc_fields : list field :=
    [("method", true, string_among ["sinc"]); ("size", false, integer (fun n => 6 <= n <= 21))].
  Definition filter_ok (j : json) : Prop := exists f, j = JDict f /\ (described bicubic_fields f \/ described sinc_fields f).

  (** docs/source/userguide/step_by_step/refinement.rst *)
  Definition dichotomy_fields : list field :=
    [("refinement_method", true, string_among ["dichotomy"]); ("iterations", true, integer (fun n => 1 <= n));
     ("filter", true, filter_ok)].
  Definition interpolation_fields : list field := [("refinement_method", true, string_among ["interpolation"])].
  (** What the user writes; the step and the window size are those of the matching cost. *)
  Definition optical_flow_fields : list field :=
    [("refinement_method", true, string_among ["optical_flow"]); ("iterations", false, integer (fun n => 1 <= n));
     ("window_size", false, fun _ => True); ("step", false, fun _ => True)].
  Definition odd_window (j : json) : Prop := integer (fun n => 1 < n /\ Z.Odd n) j.

  (** A number at least one; a pair of such numbers. *)
  Inductive number_at_least_one : json -> Prop :=
  | at_least_int n : 1 <= n -> number_at_least_one (JInt n)
  | at_least_float q : (1 <= q)%Q -> number_at_least_one (JFloat q)
  | at_least_true : number_at_least_one (JBool true)
  | at_least_inf : number_at_least_one (JInf true).
  Definition pair_at_least_one (j : json) : Prop :=
    exists a b, j = JList [a; b] /\ number_at_least_one a /\ number_at_least_one b.
  (** The documented steps (docs/source/userguide/step_by_step/matching_cost.rst). *)
  Definition documented_step (j : json) : Prop := exists a b, j = JList [JInt a; JInt b] /\ 1 <= a /\ 1 <= b.

  (** docs/source/userguide/step_by_step/disparity.rst: numbers, and the strings "NaN" (and "inf" read by update_conf). *)
  Inductive one_special : json -> Prop :=
  | special_nan : one_special JNan
  | special_inf b : one_special (JInf b)
  | special_list j : one_special j -> one_special (JList [j]).
  Definition invalid_disparity_ok (j : json) : Prop :=
    j = JStr "NaN" \/ integer (fun _ => True) j \/ (exists q, j = JFloat q) \/ one_special j.
  Definition disparity_fields : list field :=
    [("disparity_method", true, string_among ["wta"]); ("invalid_disparity", false, invalid_disparity_ok)].

  (** docs/source/userguide/roi.rst *)
  Definition axis_ok (j : json) : Prop :=
    exists d f l, j = JDict d /\ described [("first", true, fun x => int_value x f); ("last", true, fun x => int_value x l)] d /\
                  0 <= f /\ f <= l.
  Definition roi_fields : list field := [("row", true, axis_ok); ("col", true, axis_ok)].
End Domains.

(** [cfg'] has the values of [cfg], and those of [defaults] for the keys that [cfg] does not have; nothing else. *)
Definition completed_by (defaults cfg cfg' : dict) : Prop :=
  forall k, lookup k cfg' = match lookup k cfg with Some v => Some v | None => lookup k defaults end.
(** The same, except for one key, which gets the given value. *)
Definition completed_except (key : string) (value : json) (defaults cfg cfg' : dict) : Prop :=
  forall k, lookup k cfg' = if k =? key then Some value
                            else match lookup k cfg with Some v => Some v | None => lookup k defaults end.
