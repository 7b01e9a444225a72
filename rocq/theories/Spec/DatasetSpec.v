(** What a correct dataset is, without reference to the model of the checks. *)
From Coq Require Import List String ZArith.
From Verif Require Import Base.Arr Base.Json Model.DatasetModel.
Import ListNotations.
Open Scope Z_scope.
Open Scope string_scope.
Open Scope list_scope.

(** Rows and columns are the last two dimensions of the image. *)
Definition image_size {R} (d : image_dataset R) (rows cols : nat) : Prop :=
  exists bands, In ("im", bands ++ [rows; cols]) (ds_shapes d).
Definition has_variable {R} (d : image_dataset R) (v : string) : Prop := exists shape, In (v, shape) (ds_shapes d).

(** The disparity of the configuration (docs/source/userguide/input.rst): an integer or a path, and a range. Booleans are integers for Python. *)
Inductive integer_like : json -> Z -> Prop :=
| like_int n : integer_like (JInt n) n
| like_true : integer_like (JBool true) 1
| like_false : integer_like (JBool false) 0.
Definition disparity_ok (j : json) : Prop :=
  exists d i r n, j = JDict d /\ (forall k v, In (k, v) d <-> (k, v) = ("init", i) \/ (k, v) = ("range", r)) /\
    ((exists m, integer_like i m) \/ exists path, i = JStr path) /\ integer_like r n /\ 0 <= n.
