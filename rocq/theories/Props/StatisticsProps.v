(** C34: statistics of the report. C63: finding. *)
From Coq Require Import ZArith QArith List Bool Permutation Sorted Lia Lqa.
From Verif Require Import Base.Ext Model.StatisticsModel Spec.StatisticsSpec Proofs.StatisticsProofs.
Import ListNotations.
Open Scope Z_scope.

(** * C34: the statistics are those of the valid disparities. *)
Theorem C34_statistics invalid data l : valid_values invalid data l -> exists st, compute_statistics data (Some invalid) = Some st /\
  (l = [] -> st_mean st = None /\ st_variance st = None /\ st_quantiles st = [None; None; None; None; None]) /\
  (l <> [] -> exists mu var q10 q25 q50 q75 q90, let n := inject_Z (Z.of_nat (length l)) in
     st_mean st = Some mu /\ (mu * n == inject_Z (total l))%Q /\ st_variance st = Some var /\ (var * n == squared_distances mu l)%Q /\
     st_quantiles st = [Some q10; Some q25; Some q50; Some q75; Some q90] /\
     is_quantile l 1 10 q10 /\ is_quantile l 1 4 q25 /\ is_quantile l 1 2 q50 /\ is_quantile l 3 4 q75 /\ is_quantile l 9 10 q90).
Proof.
  intros V. rewrite compute_of, (numbers_valid _ _ _ V). eexists. split; [reflexivity|]. cbn [st_mean st_variance st_quantiles]. split.
  - intros ->. split; [reflexivity|]. split; [reflexivity|]. destruct (_ =? _)%nat; reflexivity.
  - intros Hl. assert (Hn : (0 < length l)%nat) by (destruct l; [congruence|simpl; lia]). unfold variance, mean.
    destruct (over_spec (inject_Z (sum l)) (length l) Hn) as (mu & Emu & Hmu). rewrite Emu. fold (squares mu l). destruct (over_spec (squares mu l) (length l) Hn) as (var & Ev & Hv). rewrite Ev.
    assert (K : (length (keep_of invalid data) =? 0)%nat = false).
    { apply Nat.eqb_neq. intros K. apply length_zero_iff_nil in K. assert (N := numbers_valid _ _ _ V). rewrite K in N. injection N as N. congruence. } rewrite K.
    destruct (quantile_spec l 1 10 Hl ltac:(lia)) as (q10 & E10 & Q10). destruct (quantile_spec l 1 4 Hl ltac:(lia)) as (q25 & E25 & Q25). destruct (quantile_spec l 1 2 Hl ltac:(lia)) as (q50 & E50 & Q50).
    destruct (quantile_spec l 3 4 Hl ltac:(lia)) as (q75 & E75 & Q75). destruct (quantile_spec l 9 10 Hl ltac:(lia)) as (q90 & E90 & Q90).
    exists mu, var, q10, q25, q50, q75, q90. cbv zeta. split; [reflexivity|]. split; [exact Hmu|]. split; [reflexivity|]. split; [exact Hv|].
    split; [unfold levels; cbn [map fst snd]; rewrite E10, E25, E50, E75, E90; reflexivity|]. auto.
Qed.

(** Mean and quantiles are between the lowest and the highest valid disparities, quantiles are increasing, the variance is not negative and is null
    only when the valid disparities are all equal. *)
Theorem C34_bounds invalid data l st lo hi : valid_values invalid data l -> compute_statistics data (Some invalid) = Some st -> is_min l lo -> is_max l hi ->
  exists mu var q10 q25 q50 q75 q90, st_mean st = Some mu /\ st_variance st = Some var /\ st_quantiles st = [Some q10; Some q25; Some q50; Some q75; Some q90] /\
    (inject_Z lo <= mu <= inject_Z hi)%Q /\ (inject_Z lo <= q10)%Q /\ (q10 <= q25)%Q /\ (q25 <= q50)%Q /\ (q50 <= q75)%Q /\ (q75 <= q90)%Q /\ (q90 <= inject_Z hi)%Q /\
    (0 <= var)%Q /\ ((var == 0)%Q <-> lo = hi).
Proof.
  intros V E Hlo Hhi. destruct (C34_statistics invalid data l V) as (st' & E' & _ & P). rewrite E in E'. injection E' as <-.
  assert (Hl : l <> []) by (destruct Hlo as [I _]; destruct l; [contradiction|discriminate]).
  destruct (P Hl) as (mu & var & q10 & q25 & q50 & q75 & q90 & E1 & Hmu & E2 & Hv & E3 & Q1 & Q2 & Q3 & Q4 & Q5). cbv zeta in Hmu, Hv.
  exists mu, var, q10, q25, q50, q75, q90. split; [exact E1|]. split; [exact E2|]. split; [exact E3|].
  assert (Hn : (0 < inject_Z (Z.of_nat (length l)))%Q) by (rewrite <- (Zlt_Qlt 0); destruct l; [congruence|simpl length; lia]).
  assert (B : lo * Z.of_nat (length l) <= total l <= hi * Z.of_nat (length l)) by (apply total_bounds; intros z Hz; destruct Hlo as [_ A], Hhi as [_ A']; split; auto).
  destruct B as [B1 B2]. rewrite Zle_Qle, inject_Z_mult in B1, B2. set (n := inject_Z (Z.of_nat (length l))) in *.
  split. { rewrite <- Hmu in B1.  split; [apply Qmult_lt_0_le_reg_r with n; assumption|]. apply Qmult_lt_0_le_reg_r with n; [assumption|]. rewrite Hmu.  exact B2. }
  split; [apply (quantile_range l 1 10 q10 lo hi); auto; lia|].
  split; [apply (quantile_monotone l 1 10 1 4); auto; lia|]. split; [apply (quantile_monotone l 1 4 1 2); auto; lia|]. split; [apply (quantile_monotone l 1 2 3 4); auto; lia|].
  split; [apply (quantile_monotone l 3 4 9 10); auto; lia|]. split; [apply (quantile_range l 9 10 q90 lo hi); auto; lia|].
  assert (N := squares_nonneg mu l). change (squares mu l) with (squared_distances mu l) in N. rewrite <- Hv in N.
  split; [apply Qmult_lt_0_le_reg_r with n; [assumption|]; lra|].
  assert (Z0 := squares_zero mu l). change (squares mu l) with (squared_distances mu l) in Z0. rewrite <- Hv in Z0. split.
  - intros Hvar. assert (A : forall z, In z l -> (inject_Z z == mu)%Q) by (apply Z0; rewrite Hvar; ring). destruct Hlo as [I1 _], Hhi as [I2 _].
    assert (H : (inject_Z lo == inject_Z hi)%Q) by (rewrite (A _ I1), (A _ I2); reflexivity). unfold Qeq in H. simpl in H. lia.
  - intros Heq. subst hi. assert (H : (var * n == 0)%Q). { apply Z0. intros z Hz. assert (z = lo) by (destruct Hlo as [_ A], Hhi as [_ A']; specialize (A z Hz); specialize (A' z Hz); lia). subst z.
      assert (A1 : (inject_Z lo <= mu)%Q) by (apply Qmult_lt_0_le_reg_r with n; [assumption|rewrite Hmu; exact B1]). assert (A2 : (mu <= inject_Z lo)%Q) by (apply Qmult_lt_0_le_reg_r with n; [assumption|rewrite Hmu; exact B2]). lra. }
    apply Qmult_integral in H. destruct H; [assumption|lra].
Qed.

(** The order of the pixels has no effect. *)
Theorem C34_order invalid data data' st : Permutation data data' -> compute_statistics data (Some invalid) = Some st ->
  exists st', compute_statistics data' (Some invalid) = Some st' /\ st_mean st = st_mean st' /\ same_value (st_variance st) (st_variance st') /\ st_quantiles st = st_quantiles st' /\ st_ratio st = st_ratio st'.
Proof.
  intros P E. rewrite compute_of in E. destruct (numbers (keep_of invalid data)) as [l|] eqn:N; [|discriminate]. injection E as <-.
  destruct (valid_perm invalid data data' l P (valid_of_numbers _ _ _ N)) as (l' & V' & Pl). rewrite compute_of, (numbers_valid _ _ _ V'). eexists. split; [reflexivity|]. cbn [st_mean st_variance st_quantiles st_ratio].
  assert (Em : mean l = mean l') by (unfold mean; rewrite !sum_total, (total_perm _ _ Pl), (Permutation_length Pl); reflexivity).
  split; [exact Em|]. split; [|split].
  - unfold variance. rewrite <- Em. unfold mean. rewrite <- (Permutation_length Pl). destruct (over (inject_Z (sum l)) (length l)) as [mu|] eqn:Eo; [|exact I]. fold (squares mu l). fold (squares mu l').
    unfold over in *. destruct (length l); [discriminate|]. simpl. rewrite (squares_perm mu l l' Pl). reflexivity.
  - assert (sort l = sort l') as ->. { apply sorted_unique; [|apply sort_sorted|apply sort_sorted]. rewrite <- (sort_perm l), <- (sort_perm l'). exact Pl. }
    assert (length (keep_of invalid data) = length (keep_of invalid data')) as ->; [|reflexivity].
    destruct invalid; simpl; try (apply Permutation_length; exact P); apply (count_perm (fun x => negb (ext_same x _))); exact P.
  - rewrite (Permutation_length P). destruct invalid; rewrite (count_perm _ _ _ P); reflexivity.
Qed.

(** The value used for the invalid pixels has no effect, as soon as it is not a disparity. *)
Theorem C34_invalid_value v v' data data' st : v <> NaN -> v' <> NaN -> renamed v v' data data' -> compute_statistics data (Some v) = Some st -> compute_statistics data' (Some v') = Some st.
Proof.
  intros Nv Nv' R E. rewrite compute_of in *.
  assert (K : keep_of v data = keep_of v' data' /\ count (fun x => negb (ext_same x v)) data = count (fun x => negb (ext_same x v')) data' /\ length data = length data').
  { assert (KE : forall w l, w <> NaN -> keep_of w l = filter (fun x => negb (ext_same x w)) l) by (intros w l Hw; destruct w; [congruence| | |]; reflexivity). rewrite !KE by assumption. unfold count.
    clear E. induction R as [|x x' d d' Hx R (I1 & I2 & I3)]; [auto|]. simpl. destruct Hx as [[-> ->]|(<- & N1 & N2)].
    - assert (ext_same v v = true) as -> by (apply ext_same_spec; auto). assert (ext_same v' v' = true) as -> by (apply ext_same_spec; auto). simpl. auto.
    - assert (ext_same x v = false) as -> by (destruct (ext_same x v) eqn:B; [apply ext_same_spec in B; tauto|reflexivity]).
      assert (ext_same x v' = false) as -> by (destruct (ext_same x v') eqn:B; [apply ext_same_spec in B; tauto|reflexivity]). simpl. rewrite I1. split; [reflexivity|]. split; congruence. }
  destruct K as (K1 & K2 & K3). rewrite <- K1. destruct (numbers (keep_of v data)); [|discriminate]. injection E as <-.
  assert (C : forall w (l : list ext), w <> NaN -> (match w with NaN => count (fun x => negb (ext_nan x)) l | v0 => count (fun x => negb (ext_same x v0)) l end) = count (fun x => negb (ext_same x w)) l)
    by (intros w l0 Hw; destruct w; [congruence| | |]; reflexivity).
  rewrite !C by assumption. rewrite K2, K3. reflexivity.
Qed.

Lemma valid_count_le invalid data l : valid_values invalid data l -> (length l <= length data)%nat.
Proof. induction 1; simpl; lia. Qed.

Lemma filter_length_le {A} (f : A -> bool) l : (length (filter f l) <= length l)%nat.
Proof. induction l as [|x l IH]; simpl; [lia|]. destruct (f x); simpl; lia. Qed.

(** The ratio is between 0 and 1 (NaN for an empty map). *)
Theorem C34_ratio_range invalid data st : compute_statistics data (Some invalid) = Some st ->
  (data = [] /\ st_ratio st = None) \/ (data <> [] /\ exists r, st_ratio st = Some r /\ (0 <= r)%Q /\ (r <= 1)%Q).
Proof.
  rewrite compute_of. destruct (numbers _); [|discriminate]. intros E. injection E as <-. cbn [st_ratio]. destruct data as [|x data]; [left; split; [reflexivity|destruct invalid; reflexivity]|]. right. split; [discriminate|].
  set (c := match invalid with NaN => _ | _ => _ end). assert (Hc : (c <= length (x :: data))%nat) by (unfold c, count; destruct invalid; apply filter_length_le).
  destruct (over_spec (inject_Z (Z.of_nat c)) (length (x :: data)) ltac:(simpl; lia)) as (r & -> & Hr). exists r. split; [reflexivity|].
  assert (Hn : (0 < inject_Z (Z.of_nat (length (x :: data))))%Q) by (rewrite <- (Zlt_Qlt 0); simpl length; lia).
  assert (C0 : (0 <= inject_Z (Z.of_nat c))%Q) by (rewrite <- (Zle_Qle 0); lia). assert (C1 : (inject_Z (Z.of_nat c) <= inject_Z (Z.of_nat (length (x :: data))))%Q) by (rewrite <- Zle_Qle; lia).
  set (n := inject_Z (Z.of_nat (length (x :: data)))) in *. clearbody n. rewrite <- Hr in C0, C1. split; apply Qmult_lt_0_le_reg_r with n; try assumption; lra.
Qed.

(** It is the proportion of pixels that do not have the invalid value (NaN included). *)
Theorem C34_ratio_invalid invalid data k st : differing invalid data k -> compute_statistics data (Some invalid) = Some st -> data <> [] ->
  exists r, st_ratio st = Some r /\ (r * inject_Z (Z.of_nat (length data)) == inject_Z (Z.of_nat k))%Q.
Proof.
  intros D E Hd. rewrite compute_of in E. destruct (numbers _); [|discriminate]. injection E as <-. cbn [st_ratio]. assert (Hn : (0 < length data)%nat) by (destruct data; [congruence|simpl; lia]).
  set (c := match invalid with NaN => _ | _ => _ end). assert (c = k) as ->; [|apply over_spec; exact Hn]. unfold c. clear c Hd Hn.
  assert (invalid = NaN \/ invalid <> NaN) as [->|Nv] by (destruct invalid; auto; right; discriminate).
  - unfold count. induction D as [|d k D IH|x d k Hx D IH]; [reflexivity|exact IH|]. cbn [filter]. assert (ext_nan x = false) as -> by (destruct x; [congruence| | |]; reflexivity). cbn [negb length]. f_equal. exact IH.
  - assert (count (fun x => negb (ext_same x invalid)) data = k); [|destruct invalid; [congruence| | |]; assumption]. unfold count.
    induction D as [|d k D IH|x d k Hx D IH]; [reflexivity| |]; cbn [filter].
    + assert (ext_same invalid invalid = true) as -> by (apply ext_same_spec; auto). exact IH.
    + assert (ext_same x invalid = false) as -> by (destruct (ext_same x invalid) eqn:B; [apply ext_same_spec in B; tauto|reflexivity]). cbn [negb length]. f_equal. exact IH.
Qed.

(** It is the proportion of valid pixels when no other pixel is NaN. *)
Theorem C34_ratio invalid data l st : valid_values invalid data l -> compute_statistics data (Some invalid) = Some st -> data <> [] -> invalid = NaN \/ ~ In NaN data ->
  exists r, st_ratio st = Some r /\ (r * inject_Z (Z.of_nat (length data)) == inject_Z (Z.of_nat (length l)))%Q.
Proof.
  intros V E Hd HN. rewrite compute_of, (numbers_valid _ _ _ V) in E. injection E as <-. cbn [st_ratio]. assert (Hn : (0 < length data)%nat) by (destruct data; [congruence|simpl; lia]).
  set (c := match invalid with NaN => _ | _ => _ end). assert (c = length l) as ->; [|apply over_spec; exact Hn]. unfold c. clear c Hd Hn.
  destruct HN as [->|HN].
  - unfold count. induction V as [|x d l0 Hx V IH|z d l0 Hz V IH]; [reflexivity| |simpl; f_equal; exact IH]. destruct Hx as [-> | ->]; simpl; exact IH.
  - assert (invalid = NaN \/ invalid <> NaN) as [->|Nv] by (destruct invalid; auto; right; discriminate).
    + unfold count. induction V as [|x d l0 Hx V IH|z d l0 Hz V IH]; [reflexivity| |]; [destruct Hx as [-> | ->]; exfalso; apply HN; now left|]. simpl. f_equal. apply IH. intros H. apply HN. now right.
    + assert (count (fun x => negb (ext_same x invalid)) data = length l); [|destruct invalid; [congruence| | |]; assumption]. unfold count.
      induction V as [|x d l0 Hx V IH|z d l0 Hz V IH]; [reflexivity| |]; assert (HN' : ~ In NaN d) by (intros H; apply HN; now right); cbn [filter length].
      * assert (ext_same x invalid = true) as ->; [|cbn [negb]; apply IH; assumption]. apply ext_same_spec. destruct Hx as [-> | ->]; [exfalso; apply HN; now left|auto].
      * assert (ext_same (Fin z) invalid = false) as ->; [destruct (ext_same (Fin z) invalid) eqn:B; [apply ext_same_spec in B; tauto|reflexivity]|]. cbn [negb length]. f_equal. apply IH; assumption.
Qed.

(** The report has the statistics of the row map for the rows, of the column map for the columns. *)
Theorem C34_report row_map col_map invalid rows cols : valid_values invalid (concat row_map) rows -> valid_values invalid (concat col_map) cols ->
  exists r c, report_disparities row_map col_map invalid = Some (r, c) /\
    compute_statistics (concat row_map) (Some invalid) = Some r /\ compute_statistics (concat col_map) (Some invalid) = Some c /\
    (rows <> [] -> exists mu, st_mean r = Some mu /\ (mu * inject_Z (Z.of_nat (length rows)) == inject_Z (total rows))%Q) /\
    (cols <> [] -> exists mu, st_mean c = Some mu /\ (mu * inject_Z (Z.of_nat (length cols)) == inject_Z (total cols))%Q).
Proof.
  intros Vr Vc. destruct (C34_statistics _ _ _ Vr) as (r & Er & _ & Pr). destruct (C34_statistics _ _ _ Vc) as (c & Ec & _ & Pc). exists r, c. unfold report_disparities. rewrite Er, Ec.
  split; [reflexivity|]. split; [reflexivity|]. split; [reflexivity|]. split; intros H; [destruct (Pr H) as (mu & ? & ? & ? & ? & ? & ? & E & M & _)|destruct (Pc H) as (mu & ? & ? & ? & ? & ? & ? & E & M & _)]; exists mu; auto.
Qed.

(** * C63: the ratio is the proportion of pixels that have a disparity. False: NaN pixels are counted as valid when the invalid value is a number
    (NaN is given by the interpolation and by the optical flow for pixels without result). *)
Theorem C63_ratio_refuted : exists data invalid, (forall x, In x data -> x = NaN) /\ valid_values invalid data [] /\
  exists st r, compute_statistics data (Some invalid) = Some st /\ st_ratio st = Some r /\ (r == 1)%Q /\ st_mean st = None.
Proof.
  exists [NaN; NaN], (Fin (-9999)). split; [intros x [<-|[<-|[]]]; reflexivity|]. split; [repeat (apply vv_skip; [now left|]); apply vv_nil|].
  eexists. eexists. split; [reflexivity|]. split; [reflexivity|]. split; reflexivity.
Qed.

(** * Examples *)
Definition ex_map : list ext := [Fin 3; Fin (-9999); Fin 1; Fin 2; Fin 10; Fin (-9999)].
Example ex_valid : valid_values (Fin (-9999)) ex_map [3; 1; 2; 10] /\ is_min [3; 1; 2; 10] 1 /\ is_max [3; 1; 2; 10] 10 /\ ~ In NaN ex_map.
Proof.
  split; [|split; [|split]].
  - unfold ex_map. repeat ((apply vv_keep; [discriminate|]) || (apply vv_skip; [now right|])). apply vv_nil.
  - split; [simpl; tauto|]. simpl. intros z H. lia.
  - split; [simpl; tauto|]. simpl. intros z H. lia.
  - simpl. intuition discriminate.
Qed.
Example ex_statistics : match compute_statistics ex_map (Some (Fin (-9999))) with
  | Some st => same_value (st_mean st) (Some 4%Q) /\ same_value (st_variance st) (Some (50 # 4)%Q) /\ same_value (st_ratio st) (Some (4 # 6)%Q) /\
      Forall2 same_value (st_quantiles st) [Some (13 # 10)%Q; Some (7 # 4)%Q; Some (5 # 2)%Q; Some (19 # 4)%Q; Some (79 # 10)%Q]
  | None => False end.
Proof. vm_compute. repeat (constructor; try reflexivity). Qed.
Example ex_differing : differing (Fin (-9999)) ex_map 4.
Proof. unfold ex_map. repeat (apply di_same || (apply di_other; [discriminate|])). apply di_nil. Qed.
Example ex_renamed : renamed (Fin (-9999)) PInf ex_map [Fin 3; PInf; Fin 1; Fin 2; Fin 10; PInf].
Proof. unfold renamed, ex_map. repeat (apply Forall2_cons; [first [left; split; reflexivity | right; split; [reflexivity|split; discriminate]]|]). apply Forall2_nil. Qed.
Example ex_permuted : Permutation ex_map (rev ex_map) /\ compute_statistics ex_map (Some (Fin (-9999))) <> None.
Proof. split; [apply Permutation_rev|discriminate]. Qed.

Print Assumptions C34_statistics.
Print Assumptions C34_bounds.
Print Assumptions C34_order.
Print Assumptions C34_invalid_value.
Print Assumptions C34_ratio_range.
Print Assumptions C34_ratio_invalid.
Print Assumptions C34_ratio.
Print Assumptions C34_report.
Print Assumptions C63_ratio_refuted.
