(** Proofs about configurations with the same values in another order. *)
From Coq Require Import List String Bool ZArith Lia.
From Verif Require Import Base.Json Base.Dict Base.Arr Model.CommonModel Model.ConfigModel Model.InputModel Model.MachineModel Model.CheckConfModel
  Spec.ConfigSpec Spec.InputSpec Spec.MachineSpec Spec.CheckConfSpec Spec.AcceptSpec Spec.OrderSpec Proofs.ConfigProofs Proofs.ConfigStepProofs Proofs.MergeProofs
  Proofs.MachineProofs Proofs.CheckConfProofs Proofs.AcceptProofs Proofs.WholeProofs.
Import ListNotations.
Open Scope Z_scope.
Open Scope string_scope.
Open Scope list_scope.

Lemma same_sym a b : same_values a b -> same_values b a.
Proof. induction 1 as [j H|d e N L IH]; [now constructor|]. constructor; [intros k; symmetry; apply N | eauto]. Qed.
Lemma same_lookup d e k v : same_values (JDict d) (JDict e) -> lookup k d = Some v -> exists w, lookup k e = Some w /\ same_values v w.
Proof.
  intros H Hv. inversion H as [j Hj|d0 e0 N L]; subst; [discriminate|]. destruct (lookup k e) as [w|] eqn:E; [eauto|]. apply N in E. congruence.
Qed.
Lemma same_none d e k : same_values (JDict d) (JDict e) -> lookup k d = None -> lookup k e = None.
Proof. intros H Hv. inversion H as [j Hj|d0 e0 N L]; subst; [exact Hv|]. now apply N. Qed.
Lemma same_leaf_eq v w : same_values v w -> is_dict v = false -> w = v.
Proof. intros H Hv. destruct H; [reflexivity | discriminate]. Qed.
Lemma same_dict_inv d w : same_values (JDict d) w -> exists e, w = JDict e.
Proof. intros H. inversion H; subst; eauto. Qed.
Lemma same_lookup_leaf d e k v : same_values (JDict d) (JDict e) -> lookup k d = Some v -> is_dict v = false -> lookup k e = Some v.
Proof. intros H Hv Hl. destruct (same_lookup _ _ _ _ H Hv) as (w & Hw & S). now rewrite (same_leaf_eq _ _ S Hl) in Hw. Qed.
Lemma same_empty e : same_values (JDict []) (JDict e) -> e = [].
Proof.
  intros H. destruct e as [|[k v] e]; [reflexivity|]. pose proof (same_none _ _ k H eq_refl) as X. cbn in X. rewrite String.eqb_refl in X. discriminate.
Qed.
Lemma same_assign d e k v : same_values (JDict d) (JDict e) -> is_dict v = false -> same_values (JDict (assign k v d)) (JDict (assign k v e)).
Proof.
  intros H Hv. constructor.
  - intros k'. rewrite !lookup_assign. destruct (k' =? k); [tauto|]. split; apply same_none; [exact H | now apply same_sym].
  - intros k' a b. rewrite !lookup_assign. destruct (k' =? k).
    + intros A B. injection A as <-. injection B as <-. now constructor.
    + intros A B. destruct (same_lookup _ _ _ _ H A) as (w & Hw & S). congruence.
Qed.

(** The configurations that are read have the same values too. *)
Lemma lookup_keys_none (d e : dict) k : keys e = keys d -> (lookup k d = None <-> lookup k e = None).
Proof.
  intros K. pose proof (lookup_in k d) as A. pose proof (lookup_in k e) as B. fold (keys d) in A. fold (keys e) in B. rewrite K in B.
  split; intros X; [destruct (lookup k e) eqn:E | destruct (lookup k d) eqn:E]; try reflexivity; exfalso.
  - apply (proj2 A); [apply B; discriminate | exact X].
  - apply (proj2 B); [apply A; discriminate | exact X].
Qed.
Lemma reads_same_values a p : reads_cfg a p -> forall b q, same_values a b -> reads_cfg b q -> same_values p q.
Proof.
  induction 1 as [j j' Hj R|d d' K L IH]; intros b q S Rq.
  - rewrite (same_leaf_eq _ _ S Hj) in Rq. destruct Rq as [j2 q Hq Rq|d e _ _]; [|discriminate].
    rewrite (reads_conv _ _ R), (reads_conv _ _ Rq). constructor. now apply conv_leaf.
  - destruct (same_dict_inv _ _ S) as (e & ->). inversion Rq as [j0 j1 X|d0 e' K2 L2]; subst; [discriminate|]. constructor.
    + intros k. rewrite <- (lookup_keys_none d d' k K), <- (lookup_keys_none e e' k K2). split; apply same_none; [exact S | now apply same_sym].
    + intros k v w Hv Hw.
      destruct (lookup k d) as [v0|] eqn:E0; [|apply (lookup_keys_none d d' k K) in E0; congruence].
      destruct (same_lookup _ _ _ _ S E0) as (w0 & Ew & S0). eapply IH; [exact E0 | exact Hv | exact S0 | eapply L2; eassumption].
Qed.

(** * Descriptions *)
Definition respects (P : json -> Prop) : Prop := forall v w, same_values v w -> P v -> P w.
Lemma respects_leaf (P : json -> Prop) : (forall v, P v -> is_dict v = false) -> respects P.
Proof. intros H v w S Hv. now rewrite (same_leaf_eq _ _ S (H v Hv)). Qed.
Lemma described_same fields d e : (forall k m P, In (k, m, P) fields -> respects P) -> same_values (JDict d) (JDict e) -> described fields d -> described fields e.
Proof.
  intros R S [H1 H2]. split.
  - intros k w Hw. destruct (same_lookup _ _ _ _ (same_sym _ _ S) Hw) as (v & Hv & Sv). destruct (H1 _ _ Hv) as (m & P & Hin & HP).
    exists m, P. split; [exact Hin|]. exact (R _ _ _ Hin v w (same_sym _ _ Sv) HP).
  - intros k P Hin X. apply (H2 _ _ Hin). exact (same_none _ _ _ (same_sym _ _ S) X).
Qed.
Section Fields.
  Variable bool_ok : bool.
  Lemma int_value_leaf j n : int_value bool_ok j n -> is_dict j = false.
  Proof. now destruct 1. Qed.
  Lemma integer_respects P : respects (integer bool_ok P).
  Proof. apply respects_leaf. intros v (n & H & _). now apply int_value_leaf in H. Qed.
  Lemma string_respects l : respects (string_among l).
  Proof. apply respects_leaf. intros v (s & _ & ->). reflexivity. Qed.
  Lemma special_leaf j : one_special j -> is_dict j = false.
  Proof. now destruct 1. Qed.
  Lemma invalid_respects : respects (invalid_disparity_ok bool_ok).
  Proof.
    apply respects_leaf. intros v [->|[(n & H & _)|[(q & ->)|H]]]; try reflexivity; [now apply int_value_leaf in H | now apply special_leaf].
  Qed.
  Lemma filter_respects : respects (filter_ok bool_ok).
  Proof.
    intros v w S (f & -> & H). destruct (same_dict_inv _ _ S) as (g & ->). exists g. split; [reflexivity|].
    destruct H as [H|H]; [left|right]; refine (described_same _ f g _ S H); intros k m P Hin; cbn in Hin;
      repeat destruct Hin as [X|Hin]; try contradiction; injection X as <- <- <-; (apply string_respects || apply integer_respects).
  Qed.
  Lemma axis_respects : respects (axis_ok bool_ok).
  Proof.
    intros v w S (d & f & l & -> & H & B). destruct (same_dict_inv _ _ S) as (e & ->). exists e, f, l. split; [reflexivity|]. split; [|exact B].
    refine (described_same _ d e _ S H). intros k m P [X|[X|[]]]; injection X as <- <- <-; apply respects_leaf; intros v; apply int_value_leaf.
  Qed.
  Ltac fields_respect := intros k m P Hin; cbn in Hin; repeat destruct Hin as [?X|Hin]; try contradiction;
    match goal with X : (_, _, _) = (_, _, _) |- _ => injection X as <- <- <- end;
    first [apply string_respects | apply integer_respects | apply invalid_respects | apply filter_respects | apply axis_respects | (intros ? ? _ _; exact I)].
  Lemma estimation_same d e : same_values (JDict d) (JDict e) -> described (estimation_fields bool_ok) d -> described (estimation_fields bool_ok) e.
  Proof. apply described_same. fields_respect. Qed.
  Lemma disparity_same d e : same_values (JDict d) (JDict e) -> described (disparity_fields bool_ok) d -> described (disparity_fields bool_ok) e.
  Proof. apply described_same. fields_respect. Qed.
  Lemma dichotomy_same d e : same_values (JDict d) (JDict e) -> described (dichotomy_fields bool_ok) d -> described (dichotomy_fields bool_ok) e.
  Proof. apply described_same. fields_respect. Qed.
  Lemma interpolation_same d e : same_values (JDict d) (JDict e) -> described interpolation_fields d -> described interpolation_fields e.
  Proof. apply described_same. fields_respect. Qed.
  Lemma flow_same d e : same_values (JDict d) (JDict e) -> described (optical_flow_fields bool_ok) d -> described (optical_flow_fields bool_ok) e.
  Proof. apply described_same. fields_respect. Qed.
  Lemma roi_same d e : same_values (JDict d) (JDict e) -> described (roi_fields bool_ok) d -> described (roi_fields bool_ok) e.
  Proof. apply described_same. fields_respect. Qed.
End Fields.

Lemma only_same l d e : same_values (JDict d) (JDict e) -> only l d -> only l e.
Proof. intros S H k Hk. apply H. intros X. apply Hk. exact (same_none _ _ _ S X). Qed.
Lemma required_same k d e v : same_values (JDict d) (JDict e) -> required k d v -> required k e v.
Proof. intros S (w & Hw & Hl & R). exists w. split; [exact (same_lookup_leaf _ _ _ _ S Hw Hl) | auto]. Qed.
Lemma value_or_same k def d e v : same_values (JDict d) (JDict e) -> value_or k def d v -> value_or k def e v.
Proof.
  intros S [[H ->]|[[H ->]|(w & Hw & Hl & R)]].
  - left. split; [exact (same_none _ _ _ S H) | reflexivity].
  - right. left. split; [|reflexivity]. destruct (same_lookup _ _ _ _ S H) as (w & Hw & Sw). destruct (same_dict_inv _ _ Sw) as (x & ->). now rewrite (same_empty _ Sw) in Hw.
  - right. right. exists w. split; [exact (same_lookup_leaf _ _ _ _ S Hw Hl) | auto].
Qed.

Section Accepted.
  Variable bool_ok : bool.
  Variable pandora_check : dict -> option (json * json * json).
  Variable can_open_mandatory can_open : json -> bool.
  Variable images_ok : json -> json -> json -> json -> bool.
  Variable image_size : string -> nat * nat.
  Variable open_raster : string -> reader.
  Hypothesis Hread : reads_values pandora_check.

  Lemma image_same a b img nodata mask : same_values a b -> image_accepted bool_ok can_open_mandatory can_open a img nodata mask -> image_accepted bool_ok can_open_mandatory can_open b img nodata mask.
  Proof.
    intros S (u & -> & O & R1 & H1 & V1 & H2 & V2 & H3). destruct (same_dict_inv _ _ S) as (e & ->). exists e. split; [reflexivity|].
    split; [exact (only_same _ _ _ S O)|]. split; [exact (required_same _ _ _ _ S R1)|]. split; [exact H1|]. split; [exact (value_or_same _ _ _ _ _ S V1)|].
    split; [exact H2|]. split; [exact (value_or_same _ _ _ _ _ S V2) | exact H3].
  Qed.
  Lemma disparity_accepted_same est d e k init range : same_values (JDict d) (JDict e) ->
    disparity_accepted bool_ok can_open est (lookup k d) init range -> disparity_accepted bool_ok can_open est (lookup k e) init range.
  Proof.
    intros S (u & r & Hu & O & V & H). destruct Hu as [Hu|(He & Hu & ->)].
    - destruct (same_lookup _ _ _ _ S Hu) as (w & Hw & Sw). destruct (same_dict_inv _ _ Sw) as (x & ->). exists x, r.
      split; [left; exact Hw|]. split; [exact (only_same _ _ _ Sw O)|]. split; [|exact H].
      destruct est, V as [V1 V2]; (split; [first [exact (value_or_same _ _ _ _ _ Sw V1) | exact (required_same _ _ _ _ Sw V1)] | first [exact (value_or_same _ _ _ _ _ Sw V2) | exact (required_same _ _ _ _ Sw V2)]]).
    - exists [], r. split; [right; split; [exact He|]; split; [exact (same_none _ _ _ S Hu) | reflexivity]|]. auto.
  Qed.
  Lemma input_same est a b nodata : same_values a b -> input_accepted bool_ok can_open_mandatory can_open images_ok image_size open_raster est a nodata ->
    input_accepted bool_ok can_open_mandatory can_open images_ok image_size open_raster est b nodata.
  Proof.
    intros S (u & l & r & left & right & ln & lm & rm & ri & rr & ci & cr & -> & O & Ll & Al & Lr & Ar & I & Dr & Dc & H).
    destruct (same_dict_inv _ _ S) as (e & ->). destruct (same_lookup _ _ _ _ S Ll) as (l2 & Ll2 & Sl). destruct (same_lookup _ _ _ _ S Lr) as (r2 & Lr2 & Sr).
    exists e, l2, r2, left, right, ln, lm, rm, ri, rr, ci, cr. split; [reflexivity|]. split; [exact (only_same _ _ _ S O)|].
    split; [exact Ll2|]. split; [exact (image_same _ _ _ _ _ Sl Al)|]. split; [exact Lr2|]. split; [exact (image_same _ _ _ _ _ Sr Ar)|]. split; [exact I|].
    split; [exact (disparity_accepted_same _ _ _ _ _ _ S Dr)|]. split; [exact (disparity_accepted_same _ _ _ _ _ _ S Dc) | exact H].
  Qed.
  Lemma number_leaf j : number_at_least_one j -> is_dict j = false.
  Proof. now destruct 1. Qed.
  Lemma matching_cost_same c e m w : same_values (JDict c) (JDict e) -> matching_cost_accepted pandora_check c m w -> matching_cost_accepted pandora_check e m w.
  Proof.
    intros S (a & b & s & o & Lm & Hm & Hs & Ha & Hb & Hp). exists a, b, s, o. split; [exact (same_lookup_leaf _ _ _ _ S Lm eq_refl)|]. split; [exact Hm|].
    split.
    { destruct (lookup "step" c) as [x|] eqn:E; [subst x; now rewrite (same_lookup_leaf _ _ _ _ S E eq_refl) | now rewrite (same_none _ _ _ S E)]. }
    split; [exact Ha|]. split; [exact Hb|]. rewrite <- Hp. apply Hread. apply same_assign; [exact S | now apply number_leaf].
  Qed.
  Lemma steps_same p q method : same_values (JDict p) (JDict q) -> steps_accepted bool_ok pandora_check p method -> steps_accepted bool_ok pandora_check q method.
  Proof.
    intros S (window & Hm & He & Hd & Hr). exists window.
    assert (B : forall k w, lookup k q = Some w -> exists v, lookup k p = Some v /\ same_values v w).
    { intros k w Hw. destruct (same_lookup _ _ _ _ (same_sym _ _ S) Hw) as (v & Hv & Sv). exists v. split; [exact Hv | now apply same_sym]. }
    split; [|split; [|split]].
    - destruct Hm as [(L & E)|(c & m & w & L & E1 & E2 & A)]; [left; split; [exact (same_none _ _ _ S L) | exact E]|]. right.
      destruct (same_lookup _ _ _ _ S L) as (x & Lx & Sx). destruct (same_dict_inv _ _ Sx) as (c2 & ->). exists c2, m, w.
      split; [exact Lx|]. split; [exact E1|]. split; [exact E2|]. exact (matching_cost_same _ _ _ _ Sx A).
    - intros c Hc. destruct (B _ _ Hc) as (v & Hv & Sv). destruct (He _ Hv) as (d & -> & D). destruct (same_dict_inv _ _ Sv) as (e & ->). exists e. split; [reflexivity|].
      exact (estimation_same _ _ _ Sv D).
    - intros c Hc. destruct (B _ _ Hc) as (v & Hv & Sv). destruct (Hd _ Hv) as (d & -> & D). destruct (same_dict_inv _ _ Sv) as (e & ->). exists e. split; [reflexivity|].
      exact (disparity_same _ _ _ Sv D).
    - intros c Hc. destruct (B _ _ Hc) as (v & Hv & Sv). destruct (Hr _ Hv) as (d & -> & D). destruct (same_dict_inv _ _ Sv) as (e & ->). exists e. split; [reflexivity|].
      destruct D as [D|[D|[D W]]]; [left; exact (dichotomy_same _ _ _ Sv D) | right; left; exact (interpolation_same _ _ Sv D) | right; right; split; [exact (flow_same _ _ _ Sv D) | exact W]].
  Qed.
  Lemma read_exists d : wf (JDict d) -> exists r, reads_cfg (JDict d) (JDict r).
  Proof.
    intros W. destruct (update_empty_total (JDict d) eq_refl W) as (c & E). rewrite update_conf_dict in E. destruct (upd_items d []) as [r|] eqn:Er; [|discriminate].
    exists r. apply (reads_merge _ W). unfold merge1. cbn [is_dict]. rewrite update_conf_dict, Er. reflexivity.
  Qed.
  Lemma reads_exists j : wf j -> exists r, reads_cfg j r.
  Proof.
    intros W. destruct (is_dict j) eqn:E; [|exists (conv j); constructor; [exact E | apply conv_reads]].
    destruct j; try discriminate. destruct (read_exists _ W) as (r & R). eauto.
  Qed.
  Notation accepted := (accepted bool_ok pandora_check can_open_mandatory can_open images_ok image_size open_raster).
  Lemma accepted_same user user2 : wf (JDict user2) -> same_values (JDict user) (JDict user2) -> same_steps user user2 -> accepted user -> accepted user2.
  Proof.
    intros W2 S K (raw & p & method & input & nodata & Lp & R & Doc & St & Li & In_ & Nd & Roi & Ex).
    destruct (same_lookup _ _ _ _ S Lp) as (x & Lp2 & Sp). destruct (same_dict_inv _ _ Sp) as (raw2 & ->).
    destruct (read_exists raw2 (wf_lookup _ _ _ W2 Lp2)) as (p2 & R2). pose proof (reads_same_values _ _ R _ _ Sp R2) as Spp.
    destruct (same_lookup _ _ _ _ S Li) as (input2 & Li2 & Si).
    assert (Kp : keys p2 = keys p).
    { inversion R as [|? ? K1 _]; subst; [discriminate|]. inversion R2 as [|? ? K2 _]; subst; [discriminate|]. rewrite K2, K1. exact (K _ _ Lp Lp2). }
    exists raw2, p2, method, input2, nodata. split; [exact Lp2|]. split; [exact R2|]. split; [now rewrite Kp|]. split; [exact (steps_same _ _ _ Spp St)|]. split; [exact Li2|].
    split.
    { assert (match lookup "estimation" p2 with Some _ => true | None => false end = match lookup "estimation" p with Some _ => true | None => false end) as ->.
      { destruct (lookup "estimation" p) as [c|] eqn:E; [destruct (same_lookup _ _ _ _ Spp E) as (w & -> & _); reflexivity | now rewrite (same_none _ _ _ Spp E)]. }
      exact (input_same _ _ _ _ Si In_). }
    split; [exact Nd|]. split.
    - destruct Roi as [N|(j & roi & Lj & Rj & D)]; [left; exact (same_none _ _ _ S N)|]. right.
      destruct (same_lookup _ _ _ _ S Lj) as (j2 & Lj2 & Sj). destruct (reads_exists j2 (wf_lookup _ _ _ W2 Lj2)) as (r2 & Rr2).
      pose proof (reads_same_values _ _ Rj _ _ Sj Rr2) as Sr. destruct (same_dict_inv _ _ Sr) as (roi2 & ->).
      exists j2, roi2. split; [exact Lj2|]. split; [exact Rr2|]. exact (roi_same _ _ _ Sr D).
    - destruct Ex as [N|[N|(d & f & L & Lf & O & s & Ls)]]; [left; exact (same_none _ _ _ S N)| |].
      + right. left. destruct (same_lookup _ _ _ _ S N) as (w & Lw & Sw). destruct (same_dict_inv _ _ Sw) as (y & ->). now rewrite (same_empty _ Sw) in Lw.
      + right. right. destruct (same_lookup _ _ _ _ S L) as (w & Lw & Sw). destruct (same_dict_inv _ _ Sw) as (d2 & ->).
        destruct (same_lookup _ _ _ _ Sw Lf) as (w2 & Lw2 & Sw2). destruct (same_dict_inv _ _ Sw2) as (f2 & ->). exists d2, f2.
        split; [exact Lw|]. split; [exact Lw2|]. split; [exact (only_same _ _ _ Sw2 O)|]. exists s. exact (same_lookup_leaf _ _ _ _ Sw2 Ls eq_refl).
  Qed.
End Accepted.

(** * The checked configurations *)
Lemma same_refl j : wf j -> same_values j j.
Proof.
  induction 1 as [d Hn Hd IH|j Hj]; [|now constructor]. constructor; [tauto|]. intros k v w A B. rewrite A in B. injection B as <-.
  apply (IH k). now apply lookup_In.
Qed.
Lemma same_get k d e : same_values (JDict d) (JDict e) -> same_values (get_or_empty k d) (get_or_empty k e).
Proof.
  intros S. unfold get_or_empty. destruct (lookup k d) as [v|] eqn:E.
  - destruct (same_lookup _ _ _ _ S E) as (w & -> & Sw). exact Sw.
  - rewrite (same_none _ _ _ S E). constructor; [tauto | discriminate].
Qed.
(** An update of the same values with the same values. *)
Lemma merge_same u u2 : same_values u u2 -> forall d d2 r r2, wf u -> wf u2 -> same_values d d2 -> merge1 d u = Some r -> merge1 d2 u2 = Some r2 -> same_values r r2.
Proof.
  unfold merge1. induction 1 as [j Hj|x y N L IH]; intros d d2 r r2 Wu Wu2 S H H2.
  - rewrite Hj in *. injection H as <-. injection H2 as <-. constructor. now apply conv_leaf.
  - cbn [is_dict] in *. destruct (is_dict d) eqn:Ed.
    + destruct d as [| | | | | | | |d]; try discriminate. destruct (same_dict_inv _ _ S) as (e & ->). rewrite update_conf_dict in H, H2.
      destruct (upd_items x d) as [a|] eqn:Ea; [|discriminate]. destruct (upd_items y e) as [b|] eqn:Eb; [|discriminate].
      injection H as <-. injection H2 as <-.
      pose proof (upd_lookup _ _ _ Ea (proj1 (wf_dict_inv _ Wu))) as La. pose proof (upd_lookup _ _ _ Eb (proj1 (wf_dict_inv _ Wu2))) as Lb.
      constructor.
      * intros k. specialize (La k). specialize (Lb k). specialize (N k). destruct (lookup k x) as [v|], (lookup k y) as [w|];
          try (exfalso; destruct N as [N1 N2]; first [discriminate (N1 eq_refl) | discriminate (N2 eq_refl)]).
        -- destruct La as [La Na], Lb as [Lb Nb]. rewrite La, Lb. tauto.
        -- rewrite La, Lb. split; apply same_none; [exact S | now apply same_sym].
      * intros k v w Hv Hw. specialize (La k). specialize (Lb k). specialize (N k). destruct (lookup k x) as [v0|] eqn:E1, (lookup k y) as [w0|] eqn:E2;
          try (exfalso; destruct N as [N1 N2]; first [discriminate (N1 eq_refl) | discriminate (N2 eq_refl)]).
        -- destruct La as [La _], Lb as [Lb _]. rewrite La in Hv. rewrite Lb in Hw.
           refine (IH k v0 w0 E1 E2 _ _ v w (wf_lookup _ _ _ Wu E1) (wf_lookup _ _ _ Wu2 E2) (same_get k _ _ S) Hv Hw).
        -- rewrite La in Hv. rewrite Lb in Hw. destruct (same_lookup _ _ _ _ S Hv) as (w1 & Hw1 & S1). congruence.
    + rewrite (same_leaf_eq _ _ S Ed) in H2. rewrite update_conf_other in H, H2 by exact Ed. destruct x; [|discriminate]. destruct y; [|discriminate].
      injection H as <-. injection H2 as <-. now constructor.
Qed.
Lemma update_same d d2 u u2 r r2 : wf (JDict u) -> wf (JDict u2) -> same_values (JDict u) (JDict u2) -> same_values d d2 ->
  update_conf d (JDict u) = Some r -> update_conf d2 (JDict u2) = Some r2 -> same_values r r2.
Proof. intros W W2 S Sd H H2. exact (merge_same _ _ S d d2 r r2 W W2 Sd H H2). Qed.

Section Checked.
  Context {D M : Type}.
  Variable bool_ok : bool.
  Variable pandora_check : dict -> option (json * json * json).
  Variable matching_cost_margins refinement_margins : dict -> M.
  Variable disparity_margins : M.
  Variable run_step : callback -> string -> json -> option M -> option json -> option json -> D -> option D.
  Hypothesis Hpandora : pandora_contract pandora_check.
  Hypothesis Hread : reads_values pandora_check.
  Notation est_conf := (est_conf bool_ok).
  Notation mc_conf := (mc_conf pandora_check matching_cost_margins).
  Notation disp_conf := (disp_conf bool_ok disparity_margins).
  Notation ref_conf := (ref_conf bool_ok refinement_margins).
  Notation call := (MachineModel.call est_conf mc_conf disp_conf ref_conf run_step).
  Notation trigger_all := (MachineModel.trigger_all est_conf mc_conf disp_conf ref_conf run_step).
  Notation mach := (@machine json D M json json).

  Lemma set_default_same k v x y : same_values (JDict x) (JDict y) -> is_dict v = false -> same_values (JDict (set_default k v x)) (JDict (set_default k v y)).
  Proof.
    intros S Hv. unfold set_default. destruct (lookup k x) as [a|] eqn:E.
    - destruct (same_lookup _ _ _ _ S E) as (b & -> & _). exact S.
    - rewrite (same_none _ _ _ S E). now apply same_assign.
  Qed.
  Lemma estimation_conf_same x y x' y' : same_values (JDict x) (JDict y) -> estimation_check_conf bool_ok x = Some x' -> estimation_check_conf bool_ok y = Some y' ->
    same_values (JDict x') (JDict y').
  Proof.
    intros S H H2. unfold estimation_check_conf in *. destruct (validate _ _) in H; [|discriminate]. destruct (validate _ _) in H2; [|discriminate].
    injection H as <-. injection H2 as <-. repeat apply set_default_same; try reflexivity. exact S.
  Qed.
  Lemma disparity_conf_same x y x' y' : same_values (JDict x) (JDict y) -> disparity_check_conf bool_ok x = Some x' -> disparity_check_conf bool_ok y = Some y' ->
    same_values (JDict x') (JDict y').
  Proof.
    intros S H H2. unfold disparity_check_conf in *. destruct (validate _ _) in H; [|discriminate]. destruct (validate _ _) in H2; [|discriminate].
    injection H as <-. injection H2 as <-. destruct (lookup "invalid_disparity" x) as [v|] eqn:E.
    - destruct (same_lookup _ _ _ _ S E) as (w & -> & Sw). destruct Sw as [j Hj|a b _ _]; [|exact S]. destruct j; try exact S.
      destruct (_ =? _); [now apply same_assign | exact S].
    - rewrite (same_none _ _ _ S E). now apply same_assign.
  Qed.
  Lemma matching_cost_conf_same x y x' y' : same_values (JDict x) (JDict y) -> matching_cost_init pandora_check x = Some x' -> matching_cost_init pandora_check y = Some y' -> x' = y'.
  Proof.
    intros S H H2.
    destruct (matching_cost_result _ _ _ H) as (m & a & b & w & s & o & Hm & (q & _ & ->) & Hs & Ha & Hb & Hp & ->).
    destruct (matching_cost_result _ _ _ H2) as (m2 & a2 & b2 & w2 & s2 & o2 & Hm2 & _ & Hs2 & _ & _ & Hp2 & ->).
    rewrite (same_lookup_leaf _ _ _ _ S Hm eq_refl) in Hm2. injection Hm2 as <-.
    assert (E : JList [a2; b2] = JList [a; b]).
    { rewrite <- Hs, <- Hs2. destruct (lookup "step" x) as [v|] eqn:E; [subst v; now rewrite (same_lookup_leaf _ _ _ _ S E eq_refl) | now rewrite (same_none _ _ _ S E)]. }
    injection E as -> ->. rewrite (Hread _ _ (same_assign _ _ "step" b S (number_leaf _ Hb))) in Hp2. congruence.
  Qed.
  Lemma refinement_conf_same step w x y x' y' : same_values (JDict x) (JDict y) -> refinement_init bool_ok step w x = Some x' -> refinement_init bool_ok step w y = Some y' ->
    same_values (JDict x') (JDict y').
  Proof.
    intros S H H2. unfold refinement_init in *. destruct (lookup "refinement_method" x) as [[| | | | | |s| |]|] eqn:El; try discriminate.
    rewrite (same_lookup_leaf _ _ _ _ S El eq_refl) in H2. destruct (s =? "dichotomy").
    { destruct (dichotomy_result _ _ _ H) as (j & n & Hj & Hi & ->). destruct (dichotomy_result _ _ _ H2) as (j2 & n2 & Hj2 & Hi2 & ->).
      assert (Dj : is_dict j = false) by (clear -Hi; now apply int_value_leaf in Hi).
      rewrite (same_lookup_leaf _ _ _ _ S Hj Dj) in Hj2. injection Hj2 as <-. apply as_int_value in Hi, Hi2. rewrite Hi in Hi2. injection Hi2 as <-.
      destruct (Z.ltb 9 n); [now apply same_assign | exact S]. }
    destruct (s =? "optical_flow").
    { unfold optical_flow_init in *. set (c := set_default "iterations" _ _) in H. set (c2 := set_default "iterations" _ _) in H2.
      destruct (validate _ c) eqn:V in H; [|discriminate]. destruct (validate _ c2) in H2; [|discriminate]. injection H as <-. injection H2 as <-.
      assert (Lw : lookup "window_size" c = Some w).
      { unfold c, set_default. destruct (lookup "iterations" _); rewrite !lookup_assign; reflexivity. }
      assert (Ls : lookup "step" c = Some (match step with Some t => t | None => JList [JInt 1; JInt 1] end)).
      { unfold c, set_default. destruct (lookup "iterations" _); rewrite !lookup_assign; reflexivity. }
      assert (Dw : is_dict w = false).
      { destruct (validate_lookup _ _ _ _ V Lw) as (mm & pp & A & B). cbn in A. injection A as <- <-. now apply int_leaf in B. }
      assert (Ds : is_dict (match step with Some t => t | None => JList [JInt 1; JInt 1] end) = false).
      { destruct (validate_lookup _ _ _ _ V Ls) as (mm & pp & A & B). cbn in A. injection A as <- <-. unfold step_schema in B. now destruct (match step with Some t => t | None => _ end). }
      unfold c, c2. apply set_default_same; [|reflexivity]. apply same_assign; [|exact Ds]. apply same_assign; [exact S | exact Dw]. }
    destruct (s =? "interpolation"); [|discriminate]. unfold interpolation_init in *. destruct (validate _ x); [|discriminate]. destruct (validate _ y); [|discriminate].
    injection H as <-. injection H2 as <-. exact S.
  Qed.

  (** Two machines that checked the same steps; the same margins when the refinement reads the values only. *)
  Definition reads_margins : Prop := forall c e, same_values (JDict c) (JDict e) -> refinement_margins e = refinement_margins c.
  Definition alike (m m2 : mach) : Prop := m_state m2 = m_state m /\ m_transitions m2 = m_transitions m /\ m_step m2 = m_step m /\ m_window m2 = m_window m /\
    same_values (JDict (m_pipeline m)) (JDict (m_pipeline m2)) /\ wf (JDict (m_pipeline m)) /\ wf (JDict (m_pipeline m2)) /\
    (reads_margins -> m_cumulative m2 = m_cumulative m /\ m_non_cumulative m2 = m_non_cumulative m).
  Lemma assign_wf k v d : wf (JDict d) -> wf v -> wf (JDict (assign k v d)).
  Proof.
    intros W Wv. pose proof (wf_dict_inv _ W) as [Hn Hd]. constructor; [now apply assign_nodup|]. intros k' v' Hin.
    apply In_lookup in Hin; [|now apply assign_nodup]. rewrite lookup_assign in Hin. destruct (k' =? k); [injection Hin as <-; exact Wv | exact (wf_lookup _ _ _ W Hin)].
  Qed.
  Lemma same_assign_values d e k v w : same_values (JDict d) (JDict e) -> same_values v w -> same_values (JDict (assign k v d)) (JDict (assign k w e)).
  Proof.
    intros H Hv. constructor.
    - intros k'. rewrite !lookup_assign. destruct (k' =? k); [split; discriminate|]. split; apply same_none; [exact H | now apply same_sym].
    - intros k' a b. rewrite !lookup_assign. destruct (k' =? k).
      + intros A B. injection A as <-. injection B as <-. exact Hv.
      + intros A B. destruct (same_lookup _ _ _ _ H A) as (x & Hx & S). congruence.
  Qed.
  Lemma alike_assign (m m2 : mach) name x y s w c1 n1 c2 n2 : alike m m2 -> same_values x y -> wf x -> wf y ->
    (reads_margins -> c2 = c1 /\ n2 = n1) ->
    alike (mkMachine (m_state m) (m_transitions m) (assign name x (m_pipeline m)) s w c1 n1 (m_data m))
          (mkMachine (m_state m2) (m_transitions m2) (assign name y (m_pipeline m2)) s w c2 n2 (m_data m2)).
  Proof.
    intros (A & B & _ & _ & S & W & W2 & _) Sx Wx Wy Mg. unfold alike. cbn. split; [exact A|]. split; [exact B|]. split; [reflexivity|]. split; [reflexivity|].
    split; [now apply same_assign_values|]. split; [now apply assign_wf|]. split; [now apply assign_wf | exact Mg].
  Qed.
  Lemma call_alike n name c c2 (m m2 m' m2' : mach) : alike m m2 -> wf c -> wf c2 -> same_values c c2 ->
    call (check_callback n) name c m = Some m' -> call (check_callback n) name c2 m2 = Some m2' -> alike m' m2'.
  Proof.
    intros Al Wc Wc2 S H H2. pose proof Al as (A & B & St & Wi & _ & _ & _ & Mg). unfold check_callback in *.
    assert (L : forall x y, c = JDict x -> leaf_update x y -> wf (JDict y)) by (intros x y -> L; exact (leaf_update_wf _ _ Wc L)).
    assert (L2 : forall x y, c2 = JDict x -> leaf_update x y -> wf (JDict y)) by (intros x y -> L2; exact (leaf_update_wf _ _ Wc2 L2)).
    destruct (n =? "estimation").
    { cbn [MachineModel.call] in H, H2. unfold CheckConfModel.est_conf in H, H2. destruct c as [| | | | | | | |x]; try discriminate. destruct (same_dict_inv _ _ S) as (y & ->).
      destruct (estimation_check_conf bool_ok x) as [x'|] eqn:E; [|discriminate]. destruct (estimation_check_conf bool_ok y) as [y'|] eqn:E2; [|discriminate].
      injection H as <-. injection H2 as <-. rewrite St, Wi. apply alike_assign; [exact Al | exact (estimation_conf_same _ _ _ _ S E E2) | | | exact Mg].
      - exact (L _ _ eq_refl (estimation_leaf _ _ _ (proj1 (wf_dict_inv _ Wc)) E)).
      - exact (L2 _ _ eq_refl (estimation_leaf _ _ _ (proj1 (wf_dict_inv _ Wc2)) E2)). }
    destruct (n =? "matching_cost").
    { cbn [MachineModel.call] in H, H2. unfold CheckConfModel.mc_conf in H, H2. destruct c as [| | | | | | | |x]; try discriminate. destruct (same_dict_inv _ _ S) as (y & ->).
      destruct (matching_cost_init pandora_check x) as [x'|] eqn:E; [|discriminate]. destruct (matching_cost_init pandora_check y) as [y'|] eqn:E2; [|discriminate].
      rewrite <- (matching_cost_conf_same _ _ _ _ S E E2) in H2.
      destruct (lookup "step" x') as [st|]; [|discriminate]. destruct (lookup "window_size" x') as [w|]; [|discriminate].
      assert (Wy : wf (JDict x')).
      { destruct (matching_cost_result _ _ _ E) as (m0 & a & b & w0 & s & o & _ & Ms & _ & _ & _ & Hp & Ey).
        destruct (Hpandora _ _ _ _ Hp) as (Iw & Is & Io & _). apply integer_leaf in Iw, Is, Io. subst x'. destruct Ms as (q & _ & ->).
        constructor; [repeat constructor; cbn; intuition discriminate|].
        intros k v [X|[X|[X|[X|[X|[]]]]]]; injection X as <- <-; apply wf_leaf; (reflexivity || apply Iw || apply Is || apply Io). }
      injection H as <-. injection H2 as <-. apply alike_assign; [exact Al | now apply same_refl | exact Wy | exact Wy|].
      intros R. destruct (Mg R) as [-> ->]. auto. }
    destruct (n =? "disparity").
    { cbn [MachineModel.call] in H, H2. unfold CheckConfModel.disp_conf in H, H2. destruct c as [| | | | | | | |x]; try discriminate. destruct (same_dict_inv _ _ S) as (y & ->).
      destruct (disparity_check_conf bool_ok x) as [x'|] eqn:E; [|discriminate]. destruct (disparity_check_conf bool_ok y) as [y'|] eqn:E2; [|discriminate].
      injection H as <-. injection H2 as <-. rewrite St, Wi. apply alike_assign; [exact Al | exact (disparity_conf_same _ _ _ _ S E E2) | | | intros R; destruct (Mg R) as [-> ->]; auto].
      - exact (L _ _ eq_refl (disparity_leaf _ _ _ (proj1 (wf_dict_inv _ Wc)) E)).
      - exact (L2 _ _ eq_refl (disparity_leaf _ _ _ (proj1 (wf_dict_inv _ Wc2)) E2)). }
    cbn [MachineModel.call] in H, H2. unfold CheckConfModel.ref_conf in H, H2. destruct c as [| | | | | | | |x]; try discriminate. destruct (same_dict_inv _ _ S) as (y & ->).
    rewrite St, Wi in H2. set (w := match m_window m with Some w => w | None => JNull end) in H, H2.
    destruct (refinement_init bool_ok (m_step m) w x) as [x'|] eqn:E; [|discriminate]. destruct (refinement_init bool_ok (m_step m) w y) as [y'|] eqn:E2; [|discriminate].
    injection H as <-. injection H2 as <-. rewrite ?St, ?Wi. apply alike_assign; [exact Al | exact (refinement_conf_same _ _ _ _ _ _ S E E2) | | |].
    - exact (L _ _ eq_refl (proj1 (refinement_leaf _ _ _ _ _ Wc E))).
    - exact (L2 _ _ eq_refl (proj1 (refinement_leaf _ _ _ _ _ Wc2 E2))).
    - intros R. destruct (Mg R) as [-> ->]. now rewrite (R _ _ (refinement_conf_same _ _ _ _ _ _ S E E2)).
  Qed.
  Lemma trigger_all_alike p : forall q (m m2 m' m2' : mach), check_machine m -> check_machine m2 -> alike m m2 -> keys q = keys p -> wf (JDict p) -> wf (JDict q) ->
    same_values (JDict p) (JDict q) -> trigger_all (fun n => n) p m = (m', None) -> trigger_all (fun n => n) q m2 = (m2', None) -> alike m' m2'.
  Proof.
    induction p as [|[name c] p IH]; intros q m m2 m' m2' Cm Cm2 Al K W W2 S H H2; destruct q as [|[name2 c2] q]; try discriminate.
    - cbn [MachineModel.trigger_all] in H, H2. injection H as <-. injection H2 as <-. exact Al.
    - cbn in K. injection K as -> K. cbn [MachineModel.trigger_all] in H, H2. rewrite trigger_check in H by exact Cm. rewrite trigger_check in H2 by exact Cm2.
      pose proof Al as (Es & _). rewrite Es in H2. destruct (next (m_state m) name) as [s'|]; [|discriminate].
      destruct (call (check_callback name) name c m) as [m1|] eqn:E; [|discriminate]. destruct (call (check_callback name) name c2 m2) as [m12|] eqn:E2; [|discriminate].
      assert (L1 : lookup name ((name, c) :: p) = Some c) by (cbn; now rewrite String.eqb_refl).
      assert (L2 : lookup name ((name, c2) :: q) = Some c2) by (cbn; now rewrite String.eqb_refl).
      assert (Sc : same_values c c2) by (destruct (same_lookup _ _ _ _ S L1) as (x & Lx & Sx); congruence).
      assert (Wc := wf_lookup _ _ _ W L1). assert (Wc2 := wf_lookup _ _ _ W2 L2).
      pose proof (call_alike _ _ _ _ _ _ _ _ Al Wc Wc2 Sc E E2) as Al1.
      pose proof (wf_dict_inv _ W) as [Hn Hd]. pose proof (wf_dict_inv _ W2) as [Hn2 Hd2]. inversion Hn as [|? ? N1 Hn']; subst. inversion Hn2 as [|? ? N2 Hn2']; subst.
      refine (IH q (set_state s' m1) (set_state s' m12) m' m2' _ _ _ K _ _ _ H H2).
      + eapply check_machine_call; [exact Cm | exact E].
      + eapply check_machine_call; [exact Cm2 | exact E2].
      + destruct Al1 as (A & B & C & Dd & F). unfold alike, set_state. cbn. auto.
      + constructor; [exact Hn'|]. intros k v Hin. apply (Hd k). now right.
      + constructor; [exact Hn2'|]. intros k v Hin. apply (Hd2 k). now right.
      + assert (T : forall k (l : dict) v, ~ In name (keys l) -> (lookup k l = lookup k ((name, v) :: l) \/ k = name /\ lookup k l = None)).
        { intros k l v Hnot. cbn. destruct (k =? name) eqn:Ek; [|now left]. apply String.eqb_eq in Ek. subst k. right. split; [reflexivity|].
          destruct (lookup name l) eqn:El; [|reflexivity]. exfalso. apply Hnot. apply lookup_in. congruence. }
        constructor.
        * intros k. exact (lookup_keys_none p q k K).
        * intros k v w Hv Hw. destruct (T k p c N1) as [T1|[_ T1]]; [|congruence]. destruct (T k q c2 N2) as [T2|[_ T2]]; [|congruence].
          rewrite T1 in Hv. rewrite T2 in Hw. destruct (same_lookup _ _ _ _ S Hv) as (x & Lx & Sx). congruence.
  Qed.
End Checked.

Section Whole.
  Context {D M : Type}.
  Variable bool_ok : bool.
  Variable pandora_check : dict -> option (json * json * json).
  Variable matching_cost_margins refinement_margins : dict -> M.
  Variable disparity_margins : M.
  Variable run_step : callback -> string -> json -> option M -> option json -> option json -> D -> option D.
  Variable can_open_mandatory can_open check_images : json -> bool.
  Variable image_size : string -> nat * nat.
  Variable open_raster : string -> reader.
  Hypothesis Hpandora : pandora_contract pandora_check.
  Hypothesis Hread : reads_values pandora_check.
  Notation machine_check := (machine_check bool_ok pandora_check matching_cost_margins refinement_margins disparity_margins run_step).
  Notation check_input_section := (check_input_section bool_ok can_open_mandatory can_open check_images image_size open_raster).
  Notation check_roi_section := (check_roi_section bool_ok).
  Notation check_conf := (check_conf bool_ok pandora_check matching_cost_margins refinement_margins disparity_margins run_step
    can_open_mandatory can_open check_images image_size open_raster).

  Lemma empty_same : same_values (JDict []) (JDict []).
  Proof. constructor; [tauto | discriminate]. Qed.
  Lemma one_key k v w : same_values v w -> same_values (JDict [(k, v)]) (JDict [(k, w)]).
  Proof. intros S. exact (same_assign_values [] [] k v w empty_same S). Qed.
  Lemma complete_same estimation i i2 r r2 : wf i -> wf i2 -> same_values i i2 ->
    complete_input estimation (JDict [("input", i)]) = Some r -> complete_input estimation (JDict [("input", i2)]) = Some r2 -> same_values r r2.
  Proof.
    intros W W2 S H H2. destruct defaults_ok as (D1 & D2 & _). unfold complete_input in *.
    assert (One : forall j, wf j -> wf (JDict [("input", j)])) by (intros j Wj; exact (assign_wf "input" j [] wf_empty Wj)).
    destruct (update_conf default_short_configuration_input (JDict [("input", i)])) as [a|] eqn:A; [|discriminate].
    destruct (update_conf default_short_configuration_input (JDict [("input", i2)])) as [b|] eqn:B; [|discriminate].
    pose proof (update_same _ _ _ _ _ _ (One _ W) (One _ W2) (one_key "input" _ _ S) (same_refl _ D1) A B) as Sab.
    assert (Wa : wf a) by exact (update_wf _ _ _ (One _ W) D1 A). assert (Wb : wf b) by exact (update_wf _ _ _ (One _ W2) D1 B).
    destruct estimation; [|congruence]. destruct a as [| | | | | | | |a]; try discriminate. destruct (same_dict_inv _ _ Sab) as (b' & ->).
    exact (update_same _ _ _ _ _ _ Wa Wb Sab (same_refl _ D2) H H2).
  Qed.
  Lemma input_section_same user user2 e i i2 : wf (JDict user) -> wf (JDict user2) -> same_values (JDict user) (JDict user2) ->
    check_input_section (get_config_input user) e = Some [("input", i)] -> check_input_section (get_config_input user2) e = Some [("input", i2)] -> same_values i i2.
  Proof.
    intros W W2 S H H2. unfold get_config_input in *. destruct (lookup "input" user) as [j|] eqn:E; [|discriminate].
    destruct (same_lookup _ _ _ _ S E) as (j2 & E2 & Sj). rewrite E2 in H2.
    unfold CheckConfModel.check_input_section in *. cbn [lookup String.eqb Ascii.eqb Bool.eqb] in H, H2.
    destruct (complete_input e (JDict [("input", j)])) as [[| | | | | | | |a]|] eqn:A; try discriminate.
    destruct (complete_input e (JDict [("input", j2)])) as [[| | | | | | | |b]|] eqn:B; try discriminate.
    pose proof (complete_same _ _ _ _ _ (wf_lookup _ _ _ W E) (wf_lookup _ _ _ W2 E2) Sj A B) as Sab.
    destruct (validate _ a) in H; [|discriminate]. destruct (validate _ b) in H2; [|discriminate].
    destruct (lookup "input" a) as [[| | | | | | | |x]|] eqn:La; try discriminate. destruct (lookup "input" b) as [[| | | | | | | |y]|] eqn:Lb; try discriminate.
    destruct (_ && _) in H; [|discriminate]. destruct (_ && _) in H2; [|discriminate]. injection H as ->. injection H2 as ->.
    destruct (same_lookup _ _ "input" i Sab) as (w & Lw & Sw); [reflexivity|]. cbn in Lw. injection Lw as <-. exact Sw.
  Qed.
  Lemma roi_section_same user user2 c c2 : wf (JDict user) -> wf (JDict user2) -> same_values (JDict user) (JDict user2) ->
    check_roi_section (get_roi_config user) = Some c -> check_roi_section (get_roi_config user2) = Some c2 -> same_values (JDict c) (JDict c2).
  Proof.
    intros W W2 S H H2. unfold get_roi_config in *. destruct (lookup "ROI" user) as [j|] eqn:E.
    - destruct (same_lookup _ _ _ _ S E) as (j2 & E2 & Sj). rewrite E2 in H2. unfold CheckConfModel.check_roi_section in *.
      destruct (update_conf (JDict []) (JDict [("ROI", j)])) as [[| | | | | | | |a]|] eqn:A; try discriminate.
      destruct (update_conf (JDict []) (JDict [("ROI", j2)])) as [[| | | | | | | |b]|] eqn:B; try discriminate.
      destruct (lookup "ROI" a) as [[| | | | | | | |x]|]; try discriminate. destruct (lookup "ROI" b) as [[| | | | | | | |y]|]; try discriminate.
      destruct (check_roi _ x); [|discriminate]. destruct (check_roi _ y); [|discriminate]. injection H as <-. injection H2 as <-.
      refine (update_same _ _ _ _ _ _ (assign_wf "ROI" j [] wf_empty (wf_lookup _ _ _ W E)) (assign_wf "ROI" j2 [] wf_empty (wf_lookup _ _ _ W2 E2)) (one_key "ROI" _ _ Sj) empty_same A B).
    - rewrite (same_none _ _ _ S E) in H2. cbn in H, H2. injection H as <-. injection H2 as <-. exact empty_same.
  Qed.
  Lemma machine_alike p q d m m2 : keys q = keys p -> wf (JDict p) -> wf (JDict q) -> same_values (JDict p) (JDict q) ->
    machine_check p (new_machine d) = (m, None) -> machine_check q (new_machine d) = (m2, None) ->
    m_state m = Begin /\ m_transitions m = [] /\ alike refinement_margins m m2.
  Proof.
    intros K W W2 S H H2. unfold CheckConfModel.machine_check in *. rewrite (check_conf_spec _ _ _ _ _ _ (new_machine d) 0%nat eq_refl) in H. rewrite (check_conf_spec _ _ _ _ _ _ (new_machine d) 0%nat eq_refl) in H2.
    destruct (MachineModel.trigger_all _ _ _ _ _ _ p _) as [m1 [e|]] eqn:E in H; [discriminate|].
    destruct (MachineModel.trigger_all _ _ _ _ _ _ q _) as [m12 [e|]] eqn:E2 in H2; [discriminate|].
    injection H as <-. injection H2 as <-.
    assert (Al : alike refinement_margins m1 m12).
    { refine (trigger_all_alike _ _ _ _ _ _ Hpandora Hread p q _ _ _ _ _ _ _ K W W2 S E E2); [exists 0%nat; reflexivity | exists 0%nat; reflexivity|].
      unfold alike. cbn. repeat (split; [reflexivity|]). split; [exact empty_same|]. split; [exact wf_empty|]. split; [exact wf_empty | auto]. }
    split; [reflexivity|]. split; [reflexivity|]. destruct Al as (_ & _ & A). unfold alike. cbn. auto.
  Qed.
  Lemma machine_same p q d m m2 : keys q = keys p -> wf (JDict p) -> wf (JDict q) -> same_values (JDict p) (JDict q) ->
    machine_check p (new_machine d) = (m, None) -> machine_check q (new_machine d) = (m2, None) ->
    same_values (JDict (m_pipeline m)) (JDict (m_pipeline m2)) /\ wf (JDict (m_pipeline m)) /\ wf (JDict (m_pipeline m2)).
  Proof. intros K W W2 S H H2. destruct (machine_alike _ _ _ _ _ K W W2 S H H2) as (_ & _ & _ & _ & _ & _ & A & B & C & _). auto. Qed.
  Lemma merged_same m m2 p q p2 q2 : keys q = keys p -> same_values (JDict p) (JDict q) -> same_values (JDict m) (JDict m2) -> wf (JDict m) -> wf (JDict m2) ->
    merged m p p2 -> merged m2 q q2 -> same_values (JDict p2) (JDict q2).
  Proof.
    intros K S Sm Wm Wm2 H H2. constructor.
    - intros k. apply lookup_keys_none. now rewrite (merged_keys _ _ _ H), (merged_keys _ _ _ H2).
    - intros k v w Hv Hw. pose proof (merged_lookup _ _ _ H k) as A. pose proof (merged_lookup _ _ _ H2 k) as B.
      destruct (lookup k p) as [c|] eqn:E; [|congruence]. destruct (same_lookup _ _ _ _ S E) as (c2 & E2 & Sc). rewrite E2 in B.
      destruct A as (a & x & A1 & A2 & _ & _ & A3 & _). destruct B as (b & y & B1 & B2 & _ & _ & B3 & _).
      rewrite Hv in A1. injection A1 as <-. rewrite Hw in B1. injection B1 as <-.
      assert (Sab : same_values a b) by (destruct (same_lookup _ _ _ _ Sm A2) as (z & Lz & Sz); congruence).
      exact (merge_same _ _ Sab _ _ _ _ (wf_lookup _ _ _ Wm A2) (wf_lookup _ _ _ Wm2 B2) Sc A3 B3).
  Qed.
  Lemma expert_kept user d m cfg : wf (JDict user) -> check_conf user (new_machine d) = (m, Some cfg) ->
    lookup "expert_mode" cfg = match lookup "expert_mode" user with None | Some (JDict []) => None | Some j => Some j end.
  Proof.
    intros Hw H. unfold CheckConfModel.check_conf in H. destruct (lookup "pipeline" user) as [[| | | | | | | |raw]|]; try discriminate.
    destruct (check_input_section _ _) as [ci|] eqn:Eci; [|discriminate]. destruct (check_roi_section _) as [cr|] eqn:Ecr; [|discriminate].
    destruct (check_pipeline_section _ _ _ _ _ _ user _) as [m' [cp|]] eqn:Ecp; [|discriminate].
    destruct (input_again _ _ _ _ _ _ _ _ _ Hw Eci) as (i2 & -> & _). destruct (roi_again _ _ _ Hw Ecr) as (Hroi & _).
    destruct (pipeline_again _ _ _ _ _ _ can_open_mandatory can_open check_images image_size open_raster Hpandora _ _ _ _ Hw Ecp) as (p & p2 & -> & _).
    assert (Xcr : cr = [] \/ exists roi, cr = [("ROI", JDict roi)]).
    { destruct (lookup "ROI" user); [right; destruct Hroi as (roi & -> & _); eauto | left; exact Hroi]. }
    destruct (match get_path ["pipeline"; "matching_cost"] _ with Some _ => _ | None => true end); [|discriminate].
    assert (Plain : forall c, (m', Some (concat_conf [[("input", i2)]; cr; [("pipeline", JDict p2)]])) = (m, Some c) -> lookup "expert_mode" c = None).
    { intros c X. injection X as _ <-. destruct Xcr as [->|(roi & ->)]; reflexivity. }
    assert (Expert : forall c j, match check_expert_mode_section j with
        | Some ce => (m', Some (concat_conf [[("input", i2)]; cr; [("pipeline", JDict p2)]; ce])) | None => (m', None) end = (m, Some c) -> lookup "expert_mode" c = Some j).
    { intros c j X. destruct (check_expert_mode_section j) as [ce|] eqn:Ece; [|discriminate].
      unfold check_expert_mode_section in Ece. destruct j as [| | | | | | | |dj]; try discriminate.
      destruct (lookup "profiling" dj); [|discriminate]. destruct (sub_schema _ _); [|discriminate]. injection Ece as <-.
      injection X as _ <-. destruct Xcr as [->|(roi & ->)]; reflexivity. }
    destruct (lookup "expert_mode" user) as [j|]; [|now apply Plain].
    destruct j as [| | | | | | | |[|e0 dj]]; try discriminate H; [exact (Plain _ H) | exact (Expert _ (JDict (e0 :: dj)) H)].
  Qed.
  Lemma checked_same user user2 d m m2 cfg cfg2 : wf (JDict user) -> wf (JDict user2) -> same_values (JDict user) (JDict user2) -> same_steps user user2 ->
    check_conf user (new_machine d) = (m, Some cfg) -> check_conf user2 (new_machine d) = (m2, Some cfg2) -> same_values (JDict cfg) (JDict cfg2).
  Proof.
    intros W W2 S K H H2.
    destruct (check_conf_parts _ _ _ _ _ _ _ _ _ _ _ Hpandora _ _ _ _ W H) as (raw & i & cr & p & pp & Lr & Hp & Hi & Hr & Hm & HM & _ & _ & Ci & Cr & Cp).
    destruct (check_conf_parts _ _ _ _ _ _ _ _ _ _ _ Hpandora _ _ _ _ W2 H2) as (raw2 & i2 & cr2 & q & qq & Lr2 & Hq & Hi2 & Hr2 & Hm2 & HM2 & _ & _ & Ci2 & Cr2 & Cp2).
    pose proof (expert_kept _ _ _ _ W H) as Ex. pose proof (expert_kept _ _ _ _ W2 H2) as Ex2.
    destruct (check_conf_again _ _ _ _ _ _ _ _ _ _ _ Hpandora _ _ _ _ W H) as (_ & Ks & _). destruct (check_conf_again _ _ _ _ _ _ _ _ _ _ _ Hpandora _ _ _ _ W2 H2) as (_ & Ks2 & _).
    assert (Sr : same_values (JDict raw) (JDict raw2)) by (destruct (same_lookup _ _ _ _ S Lr) as (x & Lx & Sx); congruence).
    assert (Fl : flag_of raw2 = flag_of raw).
    { unfold flag_of. destruct (lookup "estimation" raw) as [v|] eqn:E; [|now rewrite (same_none _ _ _ Sr E)].
      destruct (same_lookup _ _ _ _ Sr E) as (w & -> & Sw). destruct Sw; reflexivity. }
    rewrite Fl in Hi2. assert (Wr := wf_lookup _ _ _ W Lr). assert (Wr2 := wf_lookup _ _ _ W2 Lr2).
    assert (Wp : wf (JDict p)) by exact (merge_wf _ _ _ Wr wf_empty Hp). assert (Wq : wf (JDict q)) by exact (merge_wf _ _ _ Wr2 wf_empty Hq).
    pose proof (merge_same _ _ Sr _ _ _ _ Wr Wr2 empty_same Hp Hq) as Spq.
    assert (Kpq : keys q = keys p).
    { apply (reads_merge _ Wr) in Hp. apply (reads_merge _ Wr2) in Hq. inversion Hp as [|? ? K1 _]; subst; [discriminate|]. inversion Hq as [|? ? K2 _]; subst; [discriminate|].
      rewrite K2, K1. exact (K _ _ Lr Lr2). }
    destruct (machine_same _ _ _ _ _ Kpq Wp Wq Spq Hm Hm2) as (Sm & Wm & Wm2).
    pose proof (merged_same _ _ _ _ _ _ Kpq Spq Sm Wm Wm2 HM HM2) as Sp.
    pose proof (input_section_same _ _ _ _ _ W W2 S Hi Hi2) as Si. pose proof (roi_section_same _ _ _ _ W W2 S Hr Hr2) as So.
    assert (Se : (lookup "expert_mode" cfg = None <-> lookup "expert_mode" cfg2 = None) /\
                 forall v w, lookup "expert_mode" cfg = Some v -> lookup "expert_mode" cfg2 = Some w -> same_values v w).
    { rewrite Ex, Ex2. destruct (lookup "expert_mode" user) as [v|] eqn:E.
      - destruct (same_lookup _ _ _ _ S E) as (w & -> & Sw). pose proof Sw as Sw0. destruct Sw as [j Hj|a b N L].
        + destruct j; try discriminate; (split; [split; discriminate | intros v w A B; injection A as <-; injection B as <-; exact Sw0]).
        + destruct a as [|x a].
          * rewrite (same_empty _ Sw0). split; [tauto | discriminate].
          * destruct b as [|y b]; [pose proof (same_empty _ (same_sym _ _ Sw0)); discriminate|].
            split; [split; discriminate | intros v w A B; injection A as <-; injection B as <-; exact Sw0].
      - rewrite (same_none _ _ _ S E). split; [tauto | discriminate]. }
    assert (All : forall k, In k sections -> (lookup k cfg = None <-> lookup k cfg2 = None) /\ forall v w, lookup k cfg = Some v -> lookup k cfg2 = Some w -> same_values v w).
    { intros k [X|[X|[X|[X|[]]]]]; subst k.
      - rewrite Ci, Ci2. split; [split; discriminate | intros v w A B; injection A as <-; injection B as <-; exact Si].
      - rewrite Cr, Cr2. split; [split; apply same_none; [exact So | now apply same_sym]|]. intros v w A B. destruct (same_lookup _ _ _ _ So A) as (z & Lz & Sz). congruence.
      - rewrite Cp, Cp2. split; [split; discriminate | intros v w A B; injection A as <-; injection B as <-; exact Sp].
      - exact Se. }
    assert (Not : forall (c : dict) k, (forall k', In k' (keys c) -> In k' sections) -> ~ In k sections -> lookup k c = None).
    { intros c k Hc Hk. destruct (lookup k c) eqn:E; [|reflexivity]. exfalso. apply Hk, Hc. apply (lookup_in k c). congruence. }
    constructor.
    - intros k. destruct (in_dec string_dec k sections) as [Hk|Hk]; [apply All, Hk|]. rewrite (Not cfg k Ks Hk), (Not cfg2 k Ks2 Hk). tauto.
    - intros k v w A B. destruct (in_dec string_dec k sections) as [Hk|Hk]; [exact (proj2 (All k Hk) v w A B)|]. rewrite (Not cfg k Ks Hk) in A. discriminate.
  Qed.
  (** The two machines, and the pipelines they run. *)
  Lemma checked_alike user user2 d m m2 cfg cfg2 : wf (JDict user) -> wf (JDict user2) -> same_values (JDict user) (JDict user2) -> same_steps user user2 ->
    check_conf user (new_machine d) = (m, Some cfg) -> check_conf user2 (new_machine d) = (m2, Some cfg2) ->
    m_state m = Begin /\ m_transitions m = [] /\ alike refinement_margins m m2 /\
    exists p q, lookup "pipeline" cfg = Some (JDict p) /\ lookup "pipeline" cfg2 = Some (JDict q) /\ keys q = keys p /\ wf (JDict p) /\ wf (JDict q).
  Proof.
    intros W W2 S K H H2.
    destruct (check_conf_parts _ _ _ _ _ _ _ _ _ _ _ Hpandora _ _ _ _ W H) as (raw & i & cr & p & pp & Lr & Hp & _ & _ & Hm & HM & Wpp & _ & _ & _ & Cp).
    destruct (check_conf_parts _ _ _ _ _ _ _ _ _ _ _ Hpandora _ _ _ _ W2 H2) as (raw2 & i2 & cr2 & q & qq & Lr2 & Hq & _ & _ & Hm2 & HM2 & Wqq & _ & _ & _ & Cp2).
    assert (Sr : same_values (JDict raw) (JDict raw2)) by (destruct (same_lookup _ _ _ _ S Lr) as (x & Lx & Sx); congruence).
    assert (Wr := wf_lookup _ _ _ W Lr). assert (Wr2 := wf_lookup _ _ _ W2 Lr2).
    assert (Wp : wf (JDict p)) by exact (merge_wf _ _ _ Wr wf_empty Hp). assert (Wq : wf (JDict q)) by exact (merge_wf _ _ _ Wr2 wf_empty Hq).
    pose proof (merge_same _ _ Sr _ _ _ _ Wr Wr2 empty_same Hp Hq) as Spq.
    assert (Kpq : keys q = keys p).
    { apply (reads_merge _ Wr) in Hp. apply (reads_merge _ Wr2) in Hq. inversion Hp as [|? ? K1 _]; subst; [discriminate|]. inversion Hq as [|? ? K2 _]; subst; [discriminate|].
      rewrite K2, K1. exact (K _ _ Lr Lr2). }
    destruct (machine_alike _ _ _ _ _ Kpq Wp Wq Spq Hm Hm2) as (A & B & C). split; [exact A|]. split; [exact B|]. split; [exact C|].
    exists pp, qq. split; [exact Cp|]. split; [exact Cp2|]. split; [now rewrite (merged_keys _ _ _ HM), (merged_keys _ _ _ HM2)|]. auto.
  Qed.
End Whole.
