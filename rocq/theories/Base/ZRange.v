(** Ranges of integers. *)
From Coq Require Import ZArith List Lia Bool Arith.
Import ListNotations.
Open Scope Z_scope.

(** np.arange(start, stop, step) on integers, step > 0. *)
Definition zarange (start stop step : Z) : list Z :=
  map (fun k => start + Z.of_nat k * step) (seq 0 (Z.to_nat ((stop - start + step - 1) / step))).

Lemma zarange_length start stop step :
  length (zarange start stop step) = Z.to_nat ((stop - start + step - 1) / step).
Proof. unfold zarange. rewrite map_length, seq_length. reflexivity. Qed.

Lemma zarange_nth start stop step k x : 0 < step ->
  (nth_error (zarange start stop step) k = Some x <-> x = start + Z.of_nat k * step /\ x < stop).
Proof.
  intros Hs. unfold zarange. split.
  - intros H. assert (Hk : (k < Z.to_nat ((stop - start + step - 1) / step))%nat).
    { rewrite <- (seq_length (Z.to_nat ((stop - start + step - 1) / step)) 0), <- (map_length (fun k => start + Z.of_nat k * step)).
      apply nth_error_Some. congruence. }
    rewrite nth_error_map, (nth_error_nth' _ 0%nat) in H by (rewrite seq_length; auto).
    rewrite seq_nth in H by auto. simpl in H. injection H as <-. split; [reflexivity|].
    assert (Z.of_nat k + 1 <= (stop - start + step - 1) / step) by lia.
    pose proof (Z.mul_div_le (stop - start + step - 1) step Hs). nia.
  - intros [-> Hlt]. rewrite nth_error_map.
    assert (Hk : (k < Z.to_nat ((stop - start + step - 1) / step))%nat).
    { enough (Z.of_nat k + 1 <= (stop - start + step - 1) / step) by lia.
      apply Z.div_le_lower_bound; nia. }
    rewrite (nth_error_nth' _ 0%nat) by (rewrite seq_length; auto). rewrite seq_nth by auto. reflexivity.
Qed.

Lemma zarange_In start stop step x : 0 < step ->
  (In x (zarange start stop step) <-> start <= x < stop /\ (x - start) mod step = 0).
Proof.
  intros Hs. split.
  - intros H. apply In_nth_error in H. destruct H as [k H]. apply zarange_nth in H; auto. destruct H as [-> H].
    split; [nia|]. replace (start + Z.of_nat k * step - start) with (Z.of_nat k * step) by ring. apply Z.mod_mul. lia.
  - intros [H Hm]. apply Z.mod_divide in Hm; [|lia]. destruct Hm as [q Hq].
    apply nth_error_In with (n := Z.to_nat q). apply zarange_nth; auto. nia.
Qed.

(** Number of elements of a python slice [start::step] of an axis of length n. *)
Definition strided_len (n start step : nat) : nat := (n - start + step - 1) / step.
