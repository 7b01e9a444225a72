(** Python dictionaries with string keys, in insertion order. *)
From Coq Require Import List String Bool.
Import ListNotations.
Open Scope string_scope.
Open Scope list_scope.

Fixpoint lookup {A} (k : string) (l : list (string * A)) : option A :=
  match l with [] => None | (k', v) :: l' => if k =? k' then Some v else lookup k l' end.
Fixpoint assign {A} (k : string) (v : A) (l : list (string * A)) : list (string * A) :=
  match l with [] => [(k, v)] | (k', v') :: l' => if k =? k' then (k', v) :: l' else (k', v') :: assign k v l' end.
Definition keys {A} (l : list (string * A)) : list string := map fst l.

Lemma lookup_assign {A} k k' (v : A) l : lookup k (assign k' v l) = if k =? k' then Some v else lookup k l.
Proof.
  induction l as [|[a x] l IH]; cbn.
  - destruct (k =? k'); reflexivity.
  - destruct (k' =? a) eqn:E.
    + apply String.eqb_eq in E. subst a. cbn. destruct (k =? k'); reflexivity.
    + cbn. rewrite IH. destruct (k =? a) eqn:E2; [|reflexivity].
      apply String.eqb_eq in E2. subst. rewrite String.eqb_sym, E. reflexivity.
Qed.
Lemma assign_keys {A} k k' (v : A) l : In k (map fst (assign k' v l)) <-> k = k' \/ In k (map fst l).
Proof.
  induction l as [|[a x] l IH]; cbn; [intuition|].
  destruct (k' =? a) eqn:E; cbn.
  - apply String.eqb_eq in E. subst. intuition.
  - rewrite IH. intuition.
Qed.
Lemma assign_nodup {A} k (v : A) l : NoDup (map fst l) -> NoDup (map fst (assign k v l)).
Proof.
  induction l as [|[a x] l IH]; cbn; intros H; [repeat constructor; auto|].
  inversion H; subst. destruct (k =? a) eqn:E; cbn; [constructor; auto|].
  constructor; auto. rewrite assign_keys. intros [->|H']; [|auto]. now rewrite String.eqb_refl in E.
Qed.
Lemma lookup_in {A} k (l : list (string * A)) : lookup k l <> None <-> In k (map fst l).
Proof.
  induction l as [|[a x] l IH]; cbn; [intuition|].
  destruct (k =? a) eqn:E.
  - apply String.eqb_eq in E. subst. split; [auto | discriminate].
  - rewrite IH. split; [auto|]. intros [->|]; auto. now rewrite String.eqb_refl in E.
Qed.
Lemma lookup_none {A} k (l : list (string * A)) : ~ In k (map fst l) -> lookup k l = None.
Proof. intros H. destruct (lookup k l) eqn:E; auto. exfalso. apply H, lookup_in. now rewrite E. Qed.

