From Coq Require Import ZArith NArith List Lia Bool Arith.
From Verif Require Import Base.Arr Base.PyList Model.CommonModel Model.CriteriaModel Spec.CriteriaSpec Proofs.MaskProofs.
Import ListNotations.
Open Scope Z_scope.

Lemma same_shape_refl {A} (a : arr4 A) : same_shape4 a a.
Proof. repeat split. Qed.
Lemma same_shape_trans {A B C} (a : arr4 A) (b : arr4 B) (c : arr4 C) : same_shape4 a b -> same_shape4 b c -> same_shape4 a c.
Proof. unfold same_shape4. intuition congruence. Qed.

(** Slices for one axis: the criteria slice is [max(0,-d), min(n, n-d)) and the mask slice is the
    same moved by d. *)
Lemma slices_match d n :
  let '(ma, mb) := msk_slice d n in
  let '(ca, cb) := criteria_slice d n in
  (mb - ma = cb - ca)%nat /\
  forall r, (r < n)%nat -> ((ca <= r < cb)%nat <-> 0 <= Z.of_nat r + d < Z.of_nat n) /\
    ((ca <= r < cb)%nat -> Z.of_nat (ma + (r - ca)) = Z.of_nat r + d).
Proof.
  unfold msk_slice, criteria_slice, slice_bounds, py_index.
  destruct (Z.ltb_spec d 0), (Z.leb_spec d 0); try lia;
  repeat match goal with |- context [?a <? ?b] => destruct (Z.ltb_spec a b) end; try lia;
  (split; [lia|intros r Hr; lia]).
Qed.

Definition right_at (right : arr2 N) (r c : Z) : N :=
  if (0 <=? r) && (r <? Z.of_nat (a2_n0 right)) && (0 <=? c) && (c <? Z.of_nat (a2_n1 right))
  then a2_get right (Z.to_nat r) (Z.to_nat c) else 0%N.

Lemma or_block_spec right dr dc i0 j0 (data : arr4 N) :
  a2_n0 right = a4_n0 data -> a2_n1 right = a4_n1 data ->
  exists data', or_block right dr dc i0 j0 data = Some data' /\ same_shape4 data' data /\
    forall r c i j, in4 data r c i j -> a4_get data' r c i j =
      if ((i =? i0) && (j =? j0))%nat then N.lor (a4_get data r c i j) (right_at right (Z.of_nat r + dr) (Z.of_nat c + dc))
      else a4_get data r c i j.
Proof.
  intros H0 H1. unfold or_block. rewrite H0, H1.
  pose proof (slices_match dr (a4_n0 data)) as A. pose proof (slices_match dc (a4_n1 data)) as B.
  destruct (msk_slice dr (a4_n0 data)) as [ma mb]. destruct (criteria_slice dr (a4_n0 data)) as [ca cb].
  destruct (msk_slice dc (a4_n1 data)) as [mc md]. destruct (criteria_slice dc (a4_n1 data)) as [cc cd].
  destruct A as [A1 A2], B as [B1 B2]. rewrite A1, B1, !Nat.eqb_refl. cbn [andb].
  eexists. split; [reflexivity|]. split; [repeat split|].
  intros r c i j (Hr & Hc & _). cbn [a4_get]. destruct (A2 r Hr) as [A3 A4]. destruct (B2 c Hc) as [B3 B4].
  destruct ((i =? i0) && (j =? j0))%nat eqn:E; cbn [andb]; auto.
  unfold right_at. rewrite H0, H1.
  destruct (Nat.leb_spec ca r), (Nat.ltb_spec r cb); cbn [andb].
  - destruct (Nat.leb_spec cc c), (Nat.ltb_spec c cd); cbn [andb].
    + rewrite (proj2 (Z.leb_le 0 (Z.of_nat r + dr))), (proj2 (Z.ltb_lt (Z.of_nat r + dr) _)),
        (proj2 (Z.leb_le 0 (Z.of_nat c + dc))), (proj2 (Z.ltb_lt (Z.of_nat c + dc) _)) by lia. cbn [andb].
      do 2 f_equal; lia.
    + destruct (Z.leb_spec 0 (Z.of_nat c + dc)), (Z.ltb_spec (Z.of_nat c + dc) (Z.of_nat (a4_n1 data))); cbn [andb]; rewrite ?andb_false_r, ?N.lor_0_r; auto; lia.
    + destruct (Z.leb_spec 0 (Z.of_nat c + dc)), (Z.ltb_spec (Z.of_nat c + dc) (Z.of_nat (a4_n1 data))); cbn [andb]; rewrite ?andb_false_r, ?N.lor_0_r; auto; lia.
    + destruct (Z.leb_spec 0 (Z.of_nat c + dc)), (Z.ltb_spec (Z.of_nat c + dc) (Z.of_nat (a4_n1 data))); cbn [andb]; rewrite ?andb_false_r, ?N.lor_0_r; auto; lia.
  - destruct (Z.leb_spec 0 (Z.of_nat r + dr)), (Z.ltb_spec (Z.of_nat r + dr) (Z.of_nat (a4_n0 data))); cbn [andb]; rewrite ?andb_false_r, ?N.lor_0_r; auto; lia.
  - destruct (Z.leb_spec 0 (Z.of_nat r + dr)), (Z.ltb_spec (Z.of_nat r + dr) (Z.of_nat (a4_n0 data))); cbn [andb]; rewrite ?andb_false_r, ?N.lor_0_r; auto; lia.
  - destruct (Z.leb_spec 0 (Z.of_nat r + dr)), (Z.ltb_spec (Z.of_nat r + dr) (Z.of_nat (a4_n0 data))); cbn [andb]; rewrite ?andb_false_r, ?N.lor_0_r; auto; lia.
Qed.

Lemma apply_loop disp_row disp_col right l : forall data,
  a2_n0 right = a4_n0 data -> a2_n1 right = a4_n1 data ->
  exists data', fold_left (fun acc (p : nat * nat) =>
      bind acc (or_block right (nth (fst p) disp_row 0) (nth (snd p) disp_col 0) (snd p) (fst p))) l (Some data) = Some data' /\
    same_shape4 data' data /\
    forall r c i j, in4 data r c i j -> a4_get data' r c i j =
      if existsb (fun p => (fst p =? j) && (snd p =? i))%nat l
      then N.lor (a4_get data r c i j) (right_at right (Z.of_nat r + nth j disp_row 0) (Z.of_nat c + nth i disp_col 0))
      else a4_get data r c i j.
Proof.
  induction l as [|[j0 i0] l IH]; intros data H0 H1.
  - exists data. split; [reflexivity|]. split; [apply same_shape_refl|]. reflexivity.
  - cbn [fold_left bind fst snd].
    destruct (or_block_spec right (nth j0 disp_row 0) (nth i0 disp_col 0) i0 j0 data H0 H1) as (d1 & E1 & S1 & G1).
    rewrite E1. assert (S1' := S1). destruct S1' as (a & b & c0 & d). destruct (IH d1) as (d2 & E2 & S2 & G2); try congruence.
    exists d2. split; [exact E2|]. split; [eapply same_shape_trans; eauto|].
    intros r c i j Hin. rewrite G2 by (unfold in4 in *; rewrite a, b, c0, d; auto). rewrite G1 by auto.
    cbn [existsb fst snd].
    destruct (Nat.eqb_spec i i0) as [->|Hi], (Nat.eqb_spec j j0) as [->|Hj]; cbn [andb]; rewrite ?Nat.eqb_refl; cbn [andb orb].
    + destruct (existsb _ l); auto. rewrite <- N.lor_assoc, N.lor_diag. auto.
    + destruct (Nat.eqb_spec j0 j); [congruence|]. cbn [andb orb]. auto.
    + destruct (Nat.eqb_spec i0 i); [congruence|]. cbn [andb orb]. auto.
    + destruct (Nat.eqb_spec i0 i); [congruence|]. rewrite andb_false_r. cbn [andb orb]. auto.
Qed.

Lemma apply_right_spec disp_row disp_col right data :
  a2_n0 right = a4_n0 data -> a2_n1 right = a4_n1 data -> a4_n2 data = length disp_col -> a4_n3 data = length disp_row ->
  exists data', apply_right_criteria_mask disp_row disp_col right data = Some data' /\ same_shape4 data' data /\
    forall r c i j, in4 data r c i j -> a4_get data' r c i j =
      N.lor (a4_get data r c i j) (right_at right (Z.of_nat r + nth j disp_row 0) (Z.of_nat c + nth i disp_col 0)).
Proof.
  intros H0 H1 H2 H3. unfold apply_right_criteria_mask.
  destruct (apply_loop disp_row disp_col right (list_prod (seq 0 (length disp_row)) (seq 0 (length disp_col))) data H0 H1) as (d & E & S & G).
  exists d. split; [exact E|]. split; [exact S|]. intros r c i j Hin. rewrite G by auto.
  replace (existsb _ _) with true; auto. symmetry. apply existsb_exists. exists (j, i). split.
  - destruct Hin as (_ & _ & Hi & Hj). apply in_prod; apply in_seq; lia.
  - cbn [fst snd]. rewrite !Nat.eqb_refl. reflexivity.
Qed.

(** Dilation. *)
Lemma existsb_seq_iff n (p : nat -> bool) : existsb p (seq 0 n) = true <-> exists k, (k < n)%nat /\ p k = true.
Proof.
  rewrite existsb_exists. split; intros (k & H & Hp); exists k; split; auto.
  - apply in_seq in H. lia.
  - apply in_seq. lia.
Qed.

Lemma dilation_spec ci m w r c : a2_n0 (mk_data m) = ci_nrow ci -> a2_n1 (mk_data m) = ci_ncol ci ->
  (binary_dilation_msk m w r c = true <->
   no_data_in_window ci m (Z.of_nat ((w - 1) / 2)) (Z.of_nat r) (Z.of_nat c)).
Proof.
  intros H0 H1. unfold binary_dilation_msk, no_data_in_window, inside, mask_at. set (off := ((w - 1) / 2)%nat).
  rewrite existsb_seq_iff. split.
  - intros (r' & Hr & E). rewrite existsb_seq_iff in E. destruct E as (c' & Hc & E).
    rewrite !andb_true_iff, !Nat.leb_le, Z.eqb_eq in E. exists (Z.of_nat r'), (Z.of_nat c').
    rewrite !Nat2Z.id. repeat split; try lia; tauto.
  - intros (r' & c' & ([Hr1 Hr2] & [Hc1 Hc2]) & A & B & E). exists (Z.to_nat r'). split; [lia|].
    rewrite existsb_seq_iff. exists (Z.to_nat c'). split; [lia|].
    rewrite !andb_true_iff, !Nat.leb_le, Z.eqb_eq. repeat split; try lia; auto.
Qed.

Lemma invalid_spec m r c : get_invalid_mask m r c = true <-> masked_otherwise m (Z.of_nat r) (Z.of_nat c).
Proof.
  unfold get_invalid_mask, masked_otherwise, mask_at. rewrite !Nat2Z.id, andb_true_iff, !negb_true_iff, !Z.eqb_neq. tauto.
Qed.

Lemma right_flags_at ci m cond flag r c : a2_n0 (mk_data m) = ci_nrow ci -> a2_n1 (mk_data m) = ci_ncol ci ->
  right_at (right_flags m cond flag) r c =
  if (0 <=? r) && (r <? Z.of_nat (ci_nrow ci)) && (0 <=? c) && (c <? Z.of_nat (ci_ncol ci)) && cond (Z.to_nat r) (Z.to_nat c)
  then flag else 0%N.
Proof.
  intros H0 H1. unfold right_at, right_flags. cbn [a2_n0 a2_n1 a2_get]. rewrite H0, H1.
  destruct (_ && _ && _ && _); cbn [andb]; auto.
Qed.

(** Bits of the flags. *)
Lemma testbit_if (b : bool) flag k : N.testbit (if b then flag else 0%N) k = b && N.testbit flag k.
Proof. destruct b; simpl; auto. Qed.

Section C.
  Variable ci : crit_input.
  Hypothesis wf : wf_crit ci.

  Definition bits_left (r c : nat) : N :=
    match ci_left_msk ci with
    | Some m => N.lor (if binary_dilation_msk m (ci_window ci) r c then LEFT_NODATA else 0%N)
                      (if get_invalid_mask m r c then INVALIDITY_MASK_LEFT else 0%N)
    | None => 0%N end.
  Definition bits_right (r c : Z) : N :=
    match ci_right_msk ci with
    | Some m => N.lor (right_at (right_flags m (binary_dilation_msk m (ci_window ci)) RIGHT_NODATA) r c)
                      (right_at (right_flags m (get_invalid_mask m) INVALIDITY_MASK_RIGHT) r c)
    | None => 0%N end.
  Definition bits_outside (r c i j : nat) : N :=
    if outside_condition ci r j c i then RIGHT_DISPARITY_OUTSIDE else 0%N.

  Definition dcol (i : nat) := nth i (ci_disp_col ci) 0.
  Definition drow (j : nat) := nth j (ci_disp_row ci) 0.

  Definition cumulated (r c i j : nat) : N :=
    N.lor (N.lor (bits_left r c) (bits_right (Z.of_nat r + drow j) (Z.of_nat c + dcol i))) (bits_outside r c i j).

  Definition borderb (r c : nat) : bool :=
    (0 <? ci_offset ci)%nat && ((r <? ci_offset ci) || (ci_nrow ci <=? r + ci_offset ci) || (c <? ci_offset ci) || (ci_ncol ci <=? c + ci_offset ci))%nat.

  Lemma or_where2_spec sh cond flag data : a2_n0 sh = a4_n0 data -> a2_n1 sh = a4_n1 data ->
    or_where2 sh cond flag data = Some (mkArr4 (a4_n0 data) (a4_n1 data) (a4_n2 data) (a4_n3 data)
      (fun r c i j => if cond r c then N.lor (a4_get data r c i j) flag else a4_get data r c i j)).
  Proof. intros H0 H1. unfold or_where2. rewrite H0, H1, !Nat.eqb_refl. reflexivity. Qed.

  Lemma border_spec offset (data : arr4 N) r c i j : (r < a4_n0 data)%nat -> (c < a4_n1 data)%nat ->
    same_shape4 (mask_border offset data) data /\
    a4_get (mask_border offset data) r c i j =
    if (0 <? offset)%nat && ((r <? offset) || (a4_n0 data <=? r + offset) || (c <? offset) || (a4_n1 data <=? c + offset))%nat
    then LEFT_BORDER else a4_get data r c i j.
  Proof.
    intros Hr Hc. unfold mask_border. destruct (Nat.ltb_spec 0 offset); [|split; [apply same_shape_refl|reflexivity]].
    split; [repeat split|]. unfold put_cols, put_rows, slice_bounds, py_index. cbn [a4_get a4_n0 a4_n1 a4_n2 a4_n3 fst snd].
    destruct (Z.ltb_spec (Z.of_nat offset) 0); [lia|]. destruct (Z.ltb_spec (- Z.of_nat offset) 0); [|lia].
    cbn [andb]. simpl (0 <=? _)%nat. cbn [andb].
    destruct (Nat.ltb_spec r offset), (Nat.leb_spec (a4_n0 data) (r + offset)), (Nat.ltb_spec c offset), (Nat.leb_spec (a4_n1 data) (c + offset)); cbn [orb];
    repeat match goal with |- context [(?a <=? ?b)%nat] => destruct (Nat.leb_spec a b); try lia
                          | |- context [(?a <? ?b)%nat] => destruct (Nat.ltb_spec a b); try lia end; cbn [andb]; auto.
  Qed.

  Theorem criteria_values : exists crit, get_criteria_dataarray ci = Some crit /\
    a4_n0 crit = ci_nrow ci /\ a4_n1 crit = ci_ncol ci /\ a4_n2 crit = length (ci_disp_col ci) /\ a4_n3 crit = length (ci_disp_row ci) /\
    forall r c i j, in4 crit r c i j -> a4_get crit r c i j =
      if to_mask None (drow j) (a2_get (ci_row_min ci) r c) (a2_get (ci_row_max ci) r c) ||
         to_mask None (dcol i) (a2_get (ci_col_min ci) r c) (a2_get (ci_col_max ci) r c) then DISPARITY_UNPROCESSED
      else if borderb r c then LEFT_BORDER else cumulated r c i j.
  Proof.
    destruct wf as (Wm & Wg & _). unfold get_criteria_dataarray.
    assert (L : exists d1, match ci_left_msk ci with
        | Some m => bind (mask_left_no_data m (ci_window ci) (allocate ci)) (mask_left_invalid m)
        | None => Some (allocate ci) end = Some d1 /\ same_shape4 d1 (allocate ci) /\
        forall r c i j, a4_get d1 r c i j = bits_left r c).
    { unfold bits_left. destruct (ci_left_msk ci) as [m|].
      - destruct (Wm m ltac:(auto)) as [M0 M1].
        unfold mask_left_no_data. rewrite or_where2_spec by assumption. cbn [bind].
        unfold mask_left_invalid. rewrite or_where2_spec by assumption.
        eexists. split; [reflexivity|]. split; [repeat split|]. intros r c i j. cbn [a4_get allocate].
        destruct (get_invalid_mask m r c), (binary_dilation_msk m (ci_window ci) r c); reflexivity.
      - eexists. split; [reflexivity|]. split; [repeat split|]. reflexivity. }
    destruct L as (d1 & E1 & S1 & G1). rewrite E1. cbn [bind].
    assert (S1' := S1). destruct S1' as (A0 & A1 & A2 & A3). cbn [allocate a4_n0 a4_n1 a4_n2 a4_n3] in A0, A1, A2, A3.
    assert (R : exists d2, match ci_right_msk ci with
        | Some m => bind (mask_right_no_data ci m d1) (mask_right_invalid ci m)
        | None => Some d1 end = Some d2 /\ same_shape4 d2 d1 /\
        forall r c i j, in4 d1 r c i j -> a4_get d2 r c i j = N.lor (bits_left r c) (bits_right (Z.of_nat r + drow j) (Z.of_nat c + dcol i))).
    { unfold bits_right. destruct (ci_right_msk ci) as [m|].
      - destruct (Wm m ltac:(auto)) as [M0 M1].
        unfold mask_right_no_data.
        destruct (apply_right_spec (ci_disp_row ci) (ci_disp_col ci) (right_flags m (binary_dilation_msk m (ci_window ci)) RIGHT_NODATA) d1)
          as (d2 & E2 & S2 & G2); try (simpl; congruence).
        rewrite E2. cbn [bind]. assert (S2' := S2). destruct S2' as (B0 & B1 & B2 & B3). unfold mask_right_invalid.
        destruct (apply_right_spec (ci_disp_row ci) (ci_disp_col ci) (right_flags m (get_invalid_mask m) INVALIDITY_MASK_RIGHT) d2)
          as (d3 & E3 & S3 & G3); try (simpl; congruence).
        exists d3. split; [exact E3|]. split; [eapply same_shape_trans; eauto|].
        intros r c i j Hin. rewrite G3, G2, G1; auto.
        + rewrite <- N.lor_assoc. reflexivity.
        + unfold in4 in *. rewrite B0, B1, B2, B3. auto.
      - exists d1. split; [reflexivity|]. split; [repeat split|]. intros. rewrite G1, N.lor_0_r. reflexivity. }
    destruct R as (d2 & E2 & S2 & G2). rewrite E2. cbn [bind].
    assert (S2' := S2). destruct S2' as (B0 & B1 & B2 & B3).
    set (d3 := mask_border (ci_offset ci) (mask_disparity_outside ci d2)).
    assert (G3 : same_shape4 d3 d2 /\ forall r c i j, in4 d2 r c i j -> a4_get d3 r c i j = if borderb r c then LEFT_BORDER else cumulated r c i j).
    { assert (Sh : same_shape4 d3 d2). { unfold d3, mask_border. destruct (0 <? ci_offset ci)%nat; repeat split. }
      split; auto. intros r c i j Hin. unfold d3.
      destruct (border_spec (ci_offset ci) (mask_disparity_outside ci d2) r c i j) as [_ ->]; try apply Hin.
      cbn [mask_disparity_outside a4_n0 a4_n1 a4_get]. unfold swap12, swap13, borderb, cumulated, bits_outside.
      replace (a4_n0 d2) with (ci_nrow ci) by congruence. replace (a4_n1 d2) with (ci_ncol ci) by congruence.
      destruct (_ && _); auto.
      rewrite G2 by (unfold in4 in *; rewrite <- B0, <- B1, <- B2, <- B3; auto).
      destruct (outside_condition ci r j c i); auto. rewrite N.lor_0_r. auto. }
    destruct G3 as [S3 G3]. assert (S3' := S3). destruct S3' as (C0 & C1 & C2 & C3).
    unfold set_unprocessed_disp.
    destruct (Wg (ci_col_min ci) ltac:(auto)) as [Gc0 Gc1]. destruct (Wg (ci_row_min ci) ltac:(auto)) as [Gr0 Gr1].
    destruct (set_out_of_col_spec (fun i => nth i (ci_disp_col ci) 0) (ci_col_min ci) (ci_col_max ci) DISPARITY_UNPROCESSED None d3)
      as (d4 & E4 & S4 & G4); try congruence. rewrite E4. cbn [bind]. assert (S4' := S4). destruct S4' as (D0 & D1 & D2 & D3).
    destruct (set_out_of_row_spec (fun j => nth j (ci_disp_row ci) 0) (ci_row_min ci) (ci_row_max ci) DISPARITY_UNPROCESSED None d4)
      as (d5 & E5 & S5 & G5); try congruence. exists d5. split; [exact E5|]. assert (S5' := S5). destruct S5' as (F0 & F1 & F2 & F3).
    repeat (split; [congruence|]).
    intros r c i j (H0 & H1 & H2 & H3).
    rewrite G5 by (repeat split; congruence). rewrite G4 by (repeat split; congruence). rewrite G3 by (repeat split; congruence).
    fold (drow j) (dcol i).
    destruct (to_mask None (drow j) _ _), (to_mask None (dcol i) _ _); reflexivity.
  Qed.

  (** Meaning of each bit of [cumulated]. *)
  Lemma cumulated_bits r c i j k : (r < ci_nrow ci)%nat -> (c < ci_ncol ci)%nat ->
    let r' := Z.of_nat r + drow j in let c' := Z.of_nat c + dcol i in
    let h := Z.of_nat ((ci_window ci - 1) / 2) in
    N.testbit (cumulated r c i j) k = true <->
      (k = 1%N /\ exists m, ci_left_msk ci = Some m /\ no_data_in_window ci m h (Z.of_nat r) (Z.of_nat c)) \/
      (k = 2%N /\ exists m, ci_right_msk ci = Some m /\ inside ci r' c' /\ no_data_in_window ci m h r' c') \/
      (k = 3%N /\ window_leaves ci r' c') \/
      (k = 4%N /\ exists m, ci_left_msk ci = Some m /\ masked_otherwise m (Z.of_nat r) (Z.of_nat c)) \/
      (k = 5%N /\ exists m, ci_right_msk ci = Some m /\ inside ci r' c' /\ masked_otherwise m r' c').
  Proof.
    intros Hr Hc r' c' h. destruct wf as (Wm & _). unfold cumulated, bits_left, bits_right, bits_outside. fold r' c'.
    rewrite !N.lor_spec, !orb_true_iff.
    assert (X : forall n k, N.testbit (2 ^ n) k = true <-> k = n).
    { intros n k'. rewrite N.pow2_bits_eqb. rewrite N.eqb_eq. split; congruence. }
    assert (L : N.testbit (match ci_left_msk ci with
        | Some m => N.lor (if binary_dilation_msk m (ci_window ci) r c then LEFT_NODATA else 0%N) (if get_invalid_mask m r c then INVALIDITY_MASK_LEFT else 0%N)
        | None => 0%N end) k = true <->
       (k = 1%N /\ exists m, ci_left_msk ci = Some m /\ no_data_in_window ci m h (Z.of_nat r) (Z.of_nat c)) \/
       (k = 4%N /\ exists m, ci_left_msk ci = Some m /\ masked_otherwise m (Z.of_nat r) (Z.of_nat c))).
    { destruct (ci_left_msk ci) as [m|] eqn:Em.
      - destruct (Wm m ltac:(auto)) as [M0 M1]. rewrite N.lor_spec, orb_true_iff, !testbit_if, !andb_true_iff.
        change LEFT_NODATA with (2 ^ 1)%N. change INVALIDITY_MASK_LEFT with (2 ^ 4)%N. rewrite !X.
        rewrite (dilation_spec ci m (ci_window ci) r c M0 M1), invalid_spec. fold h. split.
        + intros [[A B]|[A B]]; [left|right]; (split; [exact B|]); exists m; auto.
        + intros [[A (m' & E & B)]|[A (m' & E & B)]]; injection E as <-; auto.
      - rewrite N.bits_0. split; [discriminate|]. intros [[_ (m & E & _)]|[_ (m & E & _)]]; discriminate. }
    assert (R : N.testbit (match ci_right_msk ci with
        | Some m => N.lor (right_at (right_flags m (binary_dilation_msk m (ci_window ci)) RIGHT_NODATA) r' c')
                      (right_at (right_flags m (get_invalid_mask m) INVALIDITY_MASK_RIGHT) r' c')
        | None => 0%N end) k = true <->
       (k = 2%N /\ exists m, ci_right_msk ci = Some m /\ inside ci r' c' /\ no_data_in_window ci m h r' c') \/
       (k = 5%N /\ exists m, ci_right_msk ci = Some m /\ inside ci r' c' /\ masked_otherwise m r' c')).
    { destruct (ci_right_msk ci) as [m|] eqn:Em.
      - destruct (Wm m ltac:(auto)) as [M0 M1]. rewrite N.lor_spec, orb_true_iff.
        rewrite !(right_flags_at ci) by assumption. rewrite !testbit_if, !andb_true_iff.
        change RIGHT_NODATA with (2 ^ 2)%N. change INVALIDITY_MASK_RIGHT with (2 ^ 5)%N. rewrite !X.
        rewrite (dilation_spec ci m (ci_window ci) _ _ M0 M1), invalid_spec. fold h.
        rewrite !Z.leb_le, !Z.ltb_lt.
        assert (I : inside ci r' c' -> Z.of_nat (Z.to_nat r') = r' /\ Z.of_nat (Z.to_nat c') = c') by (unfold inside; lia).
        split.
        + intros [[[A B] Ek]|[[A B] Ek]]; [left|right]; (split; [exact Ek|]); exists m; (split; [reflexivity|]);
            (assert (J : inside ci r' c') by (unfold inside; lia)); (split; [exact J|]); destruct (I J) as [I1 I2]; rewrite I1, I2 in B; exact B.
        + intros [[A (m' & E & J & B)]|[A (m' & E & J & B)]]; injection E as <-; destruct (I J) as [I1 I2]; unfold inside in J;
            [left|right]; (split; [split; [lia|rewrite I1, I2; exact B]|exact A]).
      - rewrite N.bits_0. split; [discriminate|]. intros [[_ (m & E & _)]|[_ (m & E & _)]]; discriminate. }
    assert (O : N.testbit (if outside_condition ci r j c i then RIGHT_DISPARITY_OUTSIDE else 0%N) k = true <->
       (k = 3%N /\ window_leaves ci r' c')).
    { rewrite testbit_if, andb_true_iff. change RIGHT_DISPARITY_OUTSIDE with (2 ^ 3)%N. rewrite X.
      unfold outside_condition, window_leaves, r', c', drow, dcol. rewrite !orb_true_iff, !Z.ltb_lt. split; intros [A B]; split; auto; lia. }
    rewrite L, R, O. tauto.
  Qed.

  Theorem criteria_meaning : exists crit, get_criteria_dataarray ci = Some crit /\
    a4_n0 crit = ci_nrow ci /\ a4_n1 crit = ci_ncol ci /\ a4_n2 crit = length (ci_disp_col ci) /\ a4_n3 crit = length (ci_disp_row ci) /\
    forall r c i j dc dr, (r < ci_nrow ci)%nat -> (c < ci_ncol ci)%nat ->
      nth_error (ci_disp_col ci) i = Some dc -> nth_error (ci_disp_row ci) j = Some dr ->
      let v := a4_get crit r c i j in
      let r' := Z.of_nat r + dr in let c' := Z.of_nat c + dc in
      let h := Z.of_nat ((ci_window ci - 1) / 2) in
      (unprocessed ci r c dc dr -> v = DISPARITY_UNPROCESSED) /\
      (~ unprocessed ci r c dc dr -> on_border ci r c -> v = LEFT_BORDER) /\
      (~ unprocessed ci r c dc dr -> ~ on_border ci r c -> forall k,
        N.testbit v k = true <->
        (k = 1%N /\ exists m, ci_left_msk ci = Some m /\ no_data_in_window ci m h (Z.of_nat r) (Z.of_nat c)) \/
        (k = 2%N /\ exists m, ci_right_msk ci = Some m /\ inside ci r' c' /\ no_data_in_window ci m h r' c') \/
        (k = 3%N /\ window_leaves ci r' c') \/
        (k = 4%N /\ exists m, ci_left_msk ci = Some m /\ masked_otherwise m (Z.of_nat r) (Z.of_nat c)) \/
        (k = 5%N /\ exists m, ci_right_msk ci = Some m /\ inside ci r' c' /\ masked_otherwise m r' c')).
  Proof.
    destruct criteria_values as (crit & E & N0 & N1 & N2 & N3 & G). exists crit. repeat (split; [assumption|]).
    intros r c i j dc dr Hr Hc Hi Hj v r' c' h.
    assert (Li : (i < length (ci_disp_col ci))%nat) by (apply nth_error_Some; congruence).
    assert (Lj : (j < length (ci_disp_row ci))%nat) by (apply nth_error_Some; congruence).
    assert (Ec : dcol i = dc) by (apply nth_error_nth; auto). assert (Er : drow j = dr) by (apply nth_error_nth; auto).
    unfold v. rewrite G by (repeat split; congruence || lia). rewrite Ec, Er.
    pose proof (to_mask_none dr (a2_get (ci_row_min ci) r c) (a2_get (ci_row_max ci) r c)) as Tr.
    pose proof (to_mask_none dc (a2_get (ci_col_min ci) r c) (a2_get (ci_col_max ci) r c)) as Tc.
    assert (U : unprocessed ci r c dc dr <-> (to_mask None dr (a2_get (ci_row_min ci) r c) (a2_get (ci_row_max ci) r c) ||
         to_mask None dc (a2_get (ci_col_min ci) r c) (a2_get (ci_col_max ci) r c)) = true).
    { rewrite orb_true_iff, Tr, Tc. unfold unprocessed. tauto. }
    assert (B : on_border ci r c <-> borderb r c = true).
    { unfold on_border, borderb. rewrite andb_true_iff, !orb_true_iff, !Nat.ltb_lt, !Nat.leb_le. tauto. }
    destruct (to_mask None dr _ _ || to_mask None dc _ _).
    - split; [auto|]. split; intros H; exfalso; apply H, U; auto.
    - split; [intros H; apply U in H; discriminate|]. destruct (borderb r c).
      + split; [auto|]. intros _ H. exfalso. apply H, B; auto.
      + split; [intros _ H; apply B in H; discriminate|]. intros _ _ k.
        pose proof (cumulated_bits r c i j k Hr Hc) as X. cbv zeta in X. rewrite Ec, Er in X. exact X.
  Qed.
End C.
