(** What report.json must say. *)
From Coq Require Import ZArith QArith List String Bool Permutation Sorted.
From Verif Require Import Base.Json Base.Dict Model.InterpolationModel.
Import ListNotations.
Open Scope string_scope.

(** The invalid value of the configuration, exactly. *)
Inductive exactly : json -> cost -> Prop :=
| ex_int z q : (q == inject_Z z)%Q -> exactly (JInt z) (CFin q)
| ex_bool b q : (q == inject_Z (Z.b2z b))%Q -> exactly (JBool b) (CFin q)
| ex_float f q : (q == f)%Q -> exactly (JFloat f) (CFin q)
| ex_inf b : exactly (JInf b) (CInf b)
| ex_nan : exactly JNan CNan
| ex_list j c : exactly j c -> exactly (JList [j]) c.
(** The disparities of the valid pixels: neither NaN nor the invalid value. *)
Inductive valid_numbers (inv : json) : list cost -> list Q -> Prop :=
| vn_nil : valid_numbers inv [] []
| vn_skip x data l : x = CNan \/ exactly inv x -> valid_numbers inv data l -> valid_numbers inv (x :: data) l
| vn_keep q data l : ~ exactly inv (CFin q) -> valid_numbers inv data l -> valid_numbers inv (CFin q :: data) (q :: l).
(** The number of pixels that do not have the invalid value. *)
Inductive different (inv : json) : list cost -> nat -> Prop :=
| df_nil : different inv [] 0
| df_same x data k : exactly inv x -> different inv data k -> different inv (x :: data) k
| df_other x data k : ~ exactly inv x -> different inv data k -> different inv (x :: data) (S k).

Definition sum_of (l : list Q) : Q := fold_right Qplus 0%Q l.
Definition squares (mu : Q) (l : list Q) : Q := fold_right (fun x s => (x - mu) * (x - mu) + s)%Q 0%Q l.
(** The quantile of level p / d: position (n - 1) p / d between two consecutive values in increasing order. *)
Definition is_quantile (l : list Q) (p d : Z) (v : Q) : Prop :=
  exists s, Permutation l s /\ Sorted Qle s /\
  exists k a b, nth_error s k = Some a /\ (nth_error s (S k) = Some b \/ (S k = List.length s /\ b = a)) /\
    (Z.of_nat k * d <= p * (Z.of_nat (List.length l) - 1) < (Z.of_nat k + 1) * d)%Z /\
    (v == a + (inject_Z (p * (Z.of_nat (List.length l) - 1)) / inject_Z d - inject_Z (Z.of_nat k)) * (b - a))%Q.

(** What is said of a map whose valid disparities are l. *)
Definition number_at (p : list string) (j : json) (v : Q) : Prop := get_path p j = Some (JFloat v).
Definition says (root : Q -> Q) (l : list Q) (j : json) : Prop :=
  let n := inject_Z (Z.of_nat (List.length l)) in
  (exists mu var, number_at ["mean"] j mu /\ (mu * n == sum_of l)%Q /\ (var * n == squares mu l)%Q /\ number_at ["std"] j (root var)) /\
  (forall key p d, In (key, p, d) [("p10", 1, 10); ("p25", 1, 4); ("p50", 1, 2); ("p75", 3, 4); ("p90", 9, 10)]%Z -> exists v, number_at ["quantiles"; key] j v /\ is_quantile l p d v).
Definition says_nothing (j : json) : Prop :=
  get_path ["mean"] j = Some JNan /\ get_path ["std"] j = Some JNan /\ forall key, In key ["p10"; "p25"; "p50"; "p75"; "p90"] -> get_path ["quantiles"; key] j = Some JNan.

(** RFC 8259: no NaN and no infinite number. *)
Inductive standard : json -> Prop :=
| sd_null : standard JNull
| sd_bool b : standard (JBool b)
| sd_int z : standard (JInt z)
| sd_float q : standard (JFloat q)
| sd_str s : standard (JStr s)
| sd_list l : (forall x, In x l -> standard x) -> standard (JList l)
| sd_dict d : (forall k v, In (k, v) d -> standard v) -> standard (JDict d).
