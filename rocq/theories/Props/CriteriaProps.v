(** C09, C10: criteria of each (row, column, column disparity, row disparity). *)
From Coq Require Import ZArith NArith List Lia Bool Arith.
From Verif Require Import Base.Arr Base.PyList Model.CommonModel Model.CriteriaModel Spec.CriteriaSpec Proofs.CriteriaProofs.
Import ListNotations.
Open Scope Z_scope.

(** 3 x 4 images, window 3, offset 1, disparities larger than the images. *)
Definition marr (l : list (list Z)) : arr2 Z :=
  mkArr2 (length l) (length (hd [] l)) (fun r c => nth c (nth r l []) 0).
Definition ex_ci : crit_input :=
  mkCrit 10 3 20 4 [-5; -1; 0; 1] [-1; 0; 4] 3 1
    (Some (mkMask (marr [[1; 0; 0; 0]; [0; 0; 2; 0]; [0; 0; 0; 0]]) 1 0))
    (Some (mkMask (marr [[0; 0; 0; 0]; [0; 2; 0; 0]; [0; 0; 0; 1]]) 1 0))
    (marr [[-9; -9; -9; -9]; [-9; 0; -9; -9]; [-9; -9; -9; -9]]) (marr [[9; 9; 9; 9]; [9; 9; 9; 9]; [9; 9; 9; 9]])
    (marr [[-9; -9; -9; -9]; [-9; -9; -9; -9]; [-9; -9; -9; -9]]) (marr [[9; 9; 9; 9]; [9; 9; 9; 9]; [9; 9; 9; 9]]).
Lemma ex_ci_wf : wf_crit ex_ci.
Proof.
  split; [|split; [|reflexivity]].
  - intros m [H|H]; injection H as <-; split; reflexivity.
  - intros g [-> | [-> | [-> | ->]]]; split; reflexivity.
Qed.

(** ** C09: the flags of a point that is neither unprocessed nor on the border are exactly those of
    the situations they name. The point is (r, c) with disparities (dc, dr) and matches (r + dr, c + dc).
    The flag number k is the k-th bit: LEFT_NODATA = 2^1, RIGHT_NODATA = 2^2, RIGHT_DISPARITY_OUTSIDE = 2^3,
    INVALIDITY_MASK_LEFT = 2^4, INVALIDITY_MASK_RIGHT = 2^5. *)
Theorem C09_flags_mean_what_they_say ci : wf_crit ci ->
  exists crit, get_criteria_dataarray ci = Some crit /\
    a4_n0 crit = ci_nrow ci /\ a4_n1 crit = ci_ncol ci /\
    a4_n2 crit = length (ci_disp_col ci) /\ a4_n3 crit = length (ci_disp_row ci) /\
    forall r c i j dc dr, (r < ci_nrow ci)%nat -> (c < ci_ncol ci)%nat ->
      nth_error (ci_disp_col ci) i = Some dc -> nth_error (ci_disp_row ci) j = Some dr ->
      ~ unprocessed ci r c dc dr -> ~ on_border ci r c ->
      let r' := Z.of_nat r + dr in let c' := Z.of_nat c + dc in
      let h := Z.of_nat ((ci_window ci - 1) / 2) in
      forall k, N.testbit (a4_get crit r c i j) k = true <->
        (k = 1%N /\ exists m, ci_left_msk ci = Some m /\ no_data_in_window ci m h (Z.of_nat r) (Z.of_nat c)) \/
        (k = 2%N /\ exists m, ci_right_msk ci = Some m /\ inside ci r' c' /\ no_data_in_window ci m h r' c') \/
        (k = 3%N /\ window_leaves ci r' c') \/
        (k = 4%N /\ exists m, ci_left_msk ci = Some m /\ masked_otherwise m (Z.of_nat r) (Z.of_nat c)) \/
        (k = 5%N /\ exists m, ci_right_msk ci = Some m /\ inside ci r' c' /\ masked_otherwise m r' c').
Proof.
  intros wf. destruct (criteria_meaning ci wf) as (crit & E & N0 & N1 & N2 & N3 & G).
  exists crit. repeat (split; [assumption|]). intros r c i j dc dr Hr Hc Hi Hj U B r' c' h k.
  exact (proj2 (proj2 (G r c i j dc dr Hr Hc Hi Hj)) U B k).
Qed.

(** The point (1, 2) with disparities (col -1, row 0) is not on the border: left no data is two columns away, the
    left pixel is masked by 2, the matching right pixel (1, 1) is masked by 2, its window has no no data. With (col 1,
    row 0) it matches (1, 3): the window contains the no data of (2, 3) and leaves the image. *)
Example C09_example : match get_criteria_dataarray ex_ci with
  | Some crit => a4_get crit 1 2 1 1 = (16 + 32)%N /\ a4_get crit 1 2 3 1 = (16 + 4 + 8)%N /\ a4_get crit 1 2 0 2 = (16 + 8)%N
  | None => False end.
Proof. vm_compute. auto. Qed.
Example C09_hypotheses : ~ unprocessed ex_ci 1 2 (-1) 0 /\ ~ on_border ex_ci 1 2.
Proof. unfold unprocessed, on_border. simpl. lia. Qed.

(** ** C10: unprocessed disparities and borders override every other criteria, and appear nowhere else. *)
Theorem C10_unprocessed_and_border_override ci : wf_crit ci ->
  exists crit, get_criteria_dataarray ci = Some crit /\
    forall r c i j dc dr, (r < ci_nrow ci)%nat -> (c < ci_ncol ci)%nat ->
      nth_error (ci_disp_col ci) i = Some dc -> nth_error (ci_disp_row ci) j = Some dr ->
      let v := a4_get crit r c i j in
      (unprocessed ci r c dc dr -> v = DISPARITY_UNPROCESSED) /\
      (~ unprocessed ci r c dc dr -> on_border ci r c -> v = LEFT_BORDER) /\
      (N.testbit v 7 = true -> unprocessed ci r c dc dr) /\
      (N.testbit v 0 = true -> on_border ci r c /\ ~ unprocessed ci r c dc dr).
Proof.
  intros wf. destruct (criteria_meaning ci wf) as (crit & E & N0 & N1 & N2 & N3 & G).
  exists crit. split; [exact E|]. intros r c i j dc dr Hr Hc Hi Hj v.
  destruct (G r c i j dc dr Hr Hc Hi Hj) as (A & B & C). fold v in A, B, C. split; [exact A|]. split; [exact B|].
  assert (DU : unprocessed ci r c dc dr \/ ~ unprocessed ci r c dc dr) by (unfold unprocessed; lia).
  assert (DB : on_border ci r c \/ ~ on_border ci r c) by (unfold on_border; lia).
  split; intros T.
  - destruct DU as [U|U]; auto. exfalso. destruct DB as [Bd|Bd].
    + rewrite (B U Bd) in T. discriminate.
    + apply (C U Bd) in T. destruct T as [[? _]|[[? _]|[[? _]|[[? _]|[? _]]]]]; discriminate.
  - destruct DU as [U|U]; [rewrite (A U) in T; discriminate|]. split; auto. destruct DB as [Bd|Bd]; auto.
    exfalso. apply (C U Bd) in T. destruct T as [[? _]|[[? _]|[[? _]|[[? _]|[? _]]]]]; discriminate.
Qed.

(** The bits of these points: the bit 7 only, the bit 0 only. *)
Theorem C10_bits ci : wf_crit ci ->
  exists crit, get_criteria_dataarray ci = Some crit /\
    forall r c i j dc dr, (r < ci_nrow ci)%nat -> (c < ci_ncol ci)%nat ->
      nth_error (ci_disp_col ci) i = Some dc -> nth_error (ci_disp_row ci) j = Some dr ->
      forall k, (unprocessed ci r c dc dr -> (N.testbit (a4_get crit r c i j) k = true <-> k = 7%N)) /\
                (~ unprocessed ci r c dc dr -> on_border ci r c -> (N.testbit (a4_get crit r c i j) k = true <-> k = 0%N)).
Proof.
  intros wf. destruct (C10_unprocessed_and_border_override ci wf) as (crit & E & O). exists crit. split; [exact E|].
  intros r c i j dc dr Hr Hc Hi Hj k. destruct (O r c i j dc dr Hr Hc Hi Hj) as (A & B & _). split.
  - intros U. rewrite (A U). change DISPARITY_UNPROCESSED with (2 ^ 7)%N. rewrite N.pow2_bits_eqb, N.eqb_eq. split; congruence.
  - intros U Bd. rewrite (B U Bd). change LEFT_BORDER with (2 ^ 0)%N. rewrite N.pow2_bits_eqb, N.eqb_eq. split; congruence.
Qed.

(** (1, 1) has no column disparity below 0; (0, 0) is no data and on the border. *)
Example C10_example : match get_criteria_dataarray ex_ci with
  | Some crit => a4_get crit 1 1 1 1 = 128%N /\ a4_get crit 0 0 2 1 = 1%N /\ a4_get crit 1 1 2 1 = (2 + 32)%N
  | None => False end.
Proof. vm_compute. auto. Qed.

Print Assumptions C09_flags_mean_what_they_say.
Print Assumptions C10_unprocessed_and_border_override.
Print Assumptions C10_bits.
