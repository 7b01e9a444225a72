(** Numpy arrays as a shape and an access function; only indices inside the shape are meaningful. *)
From Coq Require Import ZArith List Lia Bool Arith.
Import ListNotations.

Record arr2 (A : Type) := mkArr2 { a2_n0 : nat; a2_n1 : nat; a2_get : nat -> nat -> A }.
Arguments mkArr2 {A}. Arguments a2_n0 {A}. Arguments a2_n1 {A}. Arguments a2_get {A}.

Record arr4 (A : Type) := mkArr4 {
  a4_n0 : nat; a4_n1 : nat; a4_n2 : nat; a4_n3 : nat; a4_get : nat -> nat -> nat -> nat -> A }.
Arguments mkArr4 {A}. Arguments a4_n0 {A}. Arguments a4_n1 {A}. Arguments a4_n2 {A}.
Arguments a4_n3 {A}. Arguments a4_get {A}.

Definition in2 {A} (a : arr2 A) (r c : nat) : Prop := r < a2_n0 a /\ c < a2_n1 a.
Definition in4 {A} (a : arr4 A) (r c i j : nat) : Prop :=
  r < a4_n0 a /\ c < a4_n1 a /\ i < a4_n2 a /\ j < a4_n3 a.
Definition same_shape4 {A B} (a : arr4 A) (b : arr4 B) : Prop :=
  a4_n0 a = a4_n0 b /\ a4_n1 a = a4_n1 b /\ a4_n2 a = a4_n2 b /\ a4_n3 a = a4_n3 b.

(** Boolean quantification over the indices of a 2D shape. *)
Definition forall2b (n0 n1 : nat) (p : nat -> nat -> bool) : bool :=
  forallb (fun r => forallb (fun c => p r c) (seq 0 n1)) (seq 0 n0).

Lemma forall2b_spec n0 n1 p : forall2b n0 n1 p = true <-> forall r c, r < n0 -> c < n1 -> p r c = true.
Proof.
  unfold forall2b. rewrite forallb_forall. split.
  - intros H r c Hr Hc. specialize (H r). rewrite in_seq, forallb_forall in H.
    apply H; [lia|]. apply in_seq. lia.
  - intros H r Hr. apply in_seq in Hr. apply forallb_forall. intros c Hc. apply in_seq in Hc. apply H; lia.
Qed.

(** Conversion to nested lists, and access through lists. *)
Definition to_list2 {A} (a : arr2 A) : list (list A) :=
  map (fun r => map (fun c => a2_get a r c) (seq 0 (a2_n1 a))) (seq 0 (a2_n0 a)).
Definition to_list4 {A} (a : arr4 A) : list (list (list (list A))) :=
  map (fun r => map (fun c => map (fun i => map (fun j => a4_get a r c i j)
    (seq 0 (a4_n3 a))) (seq 0 (a4_n2 a))) (seq 0 (a4_n1 a))) (seq 0 (a4_n0 a)).
