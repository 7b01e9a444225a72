(** Lists seen as one dimensional numpy arrays: slices, splits, block assignments. *)
From Coq Require Import ZArith List Lia Bool.
Import ListNotations.

(** Python slice index normalisation for a sequence of length [n]:
    negative indices count from the end, and everything is clipped to [0, n]. *)
Definition py_index (i : Z) (n : nat) : nat :=
  if (i <? 0)%Z then Z.to_nat (Z.max 0 (i + Z.of_nat n))
  else Z.to_nat (Z.min i (Z.of_nat n)).

(** [l[start:stop]] with a step of 1. *)
Definition py_slice {A} (start stop : Z) (l : list A) : list A :=
  let s := py_index start (length l) in
  let e := py_index stop (length l) in
  firstn (e - s) (skipn s l).

(** [l[s:e]] for non negative indices. *)
Definition slice {A} (s e : nat) (l : list A) : list A := firstn (e - s) (skipn s l).

(** np.arange(start, stop, step) on non negative integers, step >= 1. *)
Definition arange (start stop step : nat) : list nat :=
  map (fun k => start + k * step) (seq 0 ((stop - start + step - 1) / step)).

(** Bounds of the sub-arrays of np.array_split(a, indices) on an axis of length [n]:
    a[0:i0], a[i0:i1], ..., a[ik:], each bound being clipped to [n] by python slicing. *)
Fixpoint sections_from (prev : nat) (idx : list nat) (n : nat) : list (nat * nat) :=
  match idx with
  | [] => [(min prev n, n)]
  | i :: rest => (min prev n, min i n) :: sections_from i rest n
  end.
Definition sections (idx : list nat) (n : nat) : list (nat * nat) := sections_from 0 idx n.

(** [row[cb:cb+w] = brow]; [None] is numpy's shape mismatch error. *)
Definition assign1 {A} (cb w : nat) (brow row : list A) : option (list A) :=
  let old := slice cb (cb + w) row in
  if length brow =? length old
  then Some (firstn cb row ++ brow ++ skipn (cb + length old) row)
  else None.

Fixpoint map2_opt {A B C} (f : A -> B -> option C) (la : list A) (lb : list B) : option (list C) :=
  match la, lb with
  | [], [] => Some []
  | a :: la', b :: lb' =>
      match f a b, map2_opt f la' lb' with
      | Some c, Some lc => Some (c :: lc)
      | _, _ => None
      end
  | _, _ => None
  end.

(** [out[rb:rb+h, cb:cb+w] = block]; [None] is numpy's shape mismatch error. *)
Definition assign2 {A} (rb h cb w : nat) (block out : list (list A)) : option (list (list A)) :=
  let old := slice rb (rb + h) out in
  match map2_opt (assign1 cb w) block old with
  | Some new => Some (firstn rb out ++ new ++ skipn (rb + length old) out)
  | None => None
  end.

Fixpoint map_opt {A B} (f : A -> option B) (l : list A) : option (list B) :=
  match l with
  | [] => Some []
  | a :: l' =>
      match f a, map_opt f l' with
      | Some b, Some lb => Some (b :: lb)
      | _, _ => None
      end
  end.

Fixpoint all_some {A} (l : list (option A)) : option (list A) :=
  match l with
  | [] => Some []
  | Some a :: l' => match all_some l' with Some r => Some (a :: r) | None => None end
  | None :: _ => None
  end.

Definition nth2 {A} (m : list (list A)) (r c : nat) : option A :=
  match nth_error m r with Some row => nth_error row c | None => None end.

(** Rectangular arrays. *)
Definition rect {A} (nr nc : nat) (m : list (list A)) : Prop :=
  length m = nr /\ Forall (fun row => length row = nc) m.
