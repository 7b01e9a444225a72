From Coq Require Import ZArith QArith List Bool Arith Lia.
From Verif Require Import Base.PyList Base.Arr Base.ZRange Model.CommonModel Model.MatchingCostModel Model.RoiModel Spec.RoiSpec
  Proofs.MatchingCostProofs Proofs.MatchingCostTheorems.
Import ListNotations.
Open Scope Z_scope.

(** Extremes of the allowed displacements. *)
Lemma disp_min_spec dsp m : 0 <= d_range dsp -> disp_min dsp = Some m -> allowed dsp m /\ forall d, allowed dsp d -> m <= d.
Proof.
  unfold disp_min, allowed. intros Hr. destruct (d_init dsp) as [v|g]; [intros [= <-]; split; lia|].
  destruct (grid_min g) as [a|] eqn:E; [|discriminate]. intros [= <-]. apply grid_min_spec in E. destruct E as [(r & c & Hin & Hv) B].
  split; [exists r, c; split; [auto|lia]|]. intros d (r' & c' & Hin' & Hd). specialize (B r' c' Hin'). lia.
Qed.
Lemma disp_max_spec dsp m : 0 <= d_range dsp -> disp_max dsp = Some m -> allowed dsp m /\ forall d, allowed dsp d -> d <= m.
Proof.
  unfold disp_max, allowed. intros Hr. destruct (d_init dsp) as [v|g]; [intros [= <-]; split; lia|].
  destruct (grid_max g) as [a|] eqn:E; [|discriminate]. intros [= <-]. apply grid_max_spec in E. destruct E as [(r & c & Hin & Hv) B].
  split; [exists r, c; split; [auto|lia]|]. intros d (r' & c' & Hin' & Hd). specialize (B r' c' Hin'). lia.
Qed.

(** Filter of a list by a property of the index. *)
Lemma filter_slice {B} (p : B -> bool) : forall l s e,
  (forall k x, nth_error l k = Some x -> p x = ((s <=? k) && (k <? e))%nat) -> filter p l = firstn (e - s) (skipn s l).
Proof.
  induction l as [|x l IH]; intros s e H.
  - rewrite skipn_nil, firstn_nil. reflexivity.
  - cbn [filter]. rewrite (H 0%nat x eq_refl). destruct s as [|s].
    + cbn [skipn]. destruct e as [|e].
      * cbn. rewrite (IH 0%nat 0%nat); [reflexivity|]. intros k y Hk. rewrite (H (S k) y Hk).
        destruct (Nat.ltb_spec (S k) 0), (Nat.ltb_spec k 0); auto; lia.
      * replace (S e - 0)%nat with (S e) by lia. cbn [firstn]. replace ((0 <=? 0)%nat && (0 <? S e)%nat) with true by reflexivity. cbv iota. f_equal.
        rewrite (IH 0%nat e). { rewrite Nat.sub_0_r. reflexivity. }
        intros k y Hk. rewrite (H (S k) y Hk). destruct (Nat.ltb_spec (S k) (S e)), (Nat.ltb_spec k e); auto; lia.
    + replace ((S s <=? 0)%nat && (0 <? e)%nat) with false by reflexivity. cbv iota. cbn [skipn].
      rewrite (IH s (e - 1)%nat). { replace (e - 1 - s)%nat with (e - S s)%nat by lia. reflexivity. }
      intros k y Hk. rewrite (H (S k) y Hk).
      destruct (Nat.leb_spec (S s) (S k)), (Nat.leb_spec s k), (Nat.ltb_spec (S k) e), (Nat.ltb_spec k (e - 1)); auto; lia.
Qed.

Lemma progression_nth x0 step l k x : progression x0 step l -> nth_error l k = Some x -> x = x0 + Z.of_nat k * step /\ (k < length l)%nat.
Proof.
  intros P H. assert (L : (k < length l)%nat) by (apply nth_error_Some; congruence). split; auto.
  rewrite P, nth_error_map, (nth_error_nth' _ 0%nat) in H by (rewrite seq_length; auto). rewrite seq_nth in H by auto. simpl in H. congruence.
Qed.
Lemma progression_last x0 step x l : progression x0 step (x :: l) -> List.last l x = x0 + Z.of_nat (length l) * step.
Proof.
  intros P. assert (H : nth_error (x :: l) (length l) = Some (List.last l x)).
  { clear. revert x. induction l as [|y l IH]; intros x; [reflexivity|]. cbn [length]. cbn [nth_error]. rewrite IH. f_equal.
    destruct l as [|z l]; [reflexivity|]. cbn. clear. revert z y x. induction l; intros; auto. apply IHl. }
  apply (progression_nth _ _ _ _ _ P) in H. tauto.
Qed.

(** The slice of an axis is the filter by coordinates. *)
Section Axis.
  Variables (coords : list Z) (x0 step first lst : Z).
  Hypothesis Hs : 1 <= step.
  Hypothesis P : progression x0 step coords.
  Hypothesis N : coords <> [].
  Hypothesis Al : (first - x0) mod step = 0 \/ first <= x0.

  Lemma axis_slice : exists a b, roi_start coords first step = Some a /\ roi_stop coords lst step = Some b /\
    let s := py_index a (length coords) in let e := py_index b (length coords) in
    forall k x, nth_error coords k = Some x -> in_roi first lst x = ((s <=? k) && (k <? e))%nat.
  Proof.
    destruct coords as [|y l] eqn:E; [congruence|]. cbn [roi_start roi_stop].
    assert (Ey : y = x0) by (destruct (progression_nth _ _ _ 0%nat y P eq_refl); lia).
    rewrite (progression_last _ _ _ _ P). subst y.
    eexists. eexists. split; [reflexivity|]. split; [reflexivity|]. cbv zeta. intros k x Hk.
    destruct (progression_nth _ _ _ _ _ P Hk) as [-> Hk']. cbn [length] in *. set (n := length l) in *.
    unfold in_roi.
    assert (S1 : (first <=? x0 + Z.of_nat k * step) = ((py_index (if x0 <? first then (first - x0) / step else 0)%Z (S n)) <=? k)%nat).
    { unfold py_index. destruct (Z.ltb_spec x0 first) as [Hlt|Hge].
      - destruct Al as [Al'|Al']; [|lia]. apply Z.mod_divide in Al'; [|lia]. destruct Al' as [q Hq].
        rewrite Hq, Z.div_mul by lia. assert (0 < q) by nia.
        destruct (Z.ltb_spec q 0); [lia|].
        destruct (Z.leb_spec first (x0 + Z.of_nat k * step)), (Nat.leb_spec (Z.to_nat (Z.min q (Z.of_nat (S n)))) k); auto; exfalso.
        + assert (q <= Z.of_nat k) by nia. lia.
        + assert (Z.of_nat k < q) by nia. lia.
      - destruct (Z.leb_spec first (x0 + Z.of_nat k * step)); [|nia]. reflexivity. }
    assert (S2 : (x0 + Z.of_nat k * step <=? lst) = (k <? py_index (if lst <? x0 + Z.of_nat n * step then (lst - (x0 + Z.of_nat n * step)) / step else Z.of_nat (S n))%Z (S n))%nat).
    { unfold py_index. destruct (Z.ltb_spec lst (x0 + Z.of_nat n * step)) as [Hlt|Hge].
      - set (q := (lst - (x0 + Z.of_nat n * step)) / step).
        pose proof (Z.div_mod (lst - (x0 + Z.of_nat n * step)) step ltac:(lia)) as D. fold q in D.
        pose proof (Z.mod_pos_bound (lst - (x0 + Z.of_nat n * step)) step ltac:(lia)) as M.
        assert (q < 0) by nia. destruct (Z.ltb_spec q 0); [|lia].
        destruct (Z.leb_spec (x0 + Z.of_nat k * step) lst), (Nat.ltb_spec k (Z.to_nat (Z.max 0 (q + Z.of_nat (S n))))); auto; exfalso.
        + assert (q + Z.of_nat n < Z.of_nat k) by lia. nia.
        + assert (Z.of_nat k <= q + Z.of_nat n) by lia. nia.
      - destruct (Z.ltb_spec (Z.of_nat (S n)) 0); [lia|].
        destruct (Z.leb_spec (x0 + Z.of_nat k * step) lst); [|nia]. symmetry. apply Nat.ltb_lt. lia. }
    rewrite S1, S2. reflexivity.
  Qed.

  Lemma axis_result : exists a b, roi_start coords first step = Some a /\ roi_stop coords lst step = Some b /\
    py_slice a b coords = filter (in_roi first lst) coords /\
    forall B (v : list B), length v = length coords -> py_slice a b v = keep first lst coords v.
  Proof.
    destruct axis_slice as (a & b & Ea & Eb & H). exists a, b. split; [exact Ea|]. split; [exact Eb|]. split.
    - unfold py_slice. symmetry. apply filter_slice. exact H.
    - intros B v Hv. unfold keep, py_slice. rewrite (filter_slice _ (combine coords v) (py_index a (length coords)) (py_index b (length coords))).
      + rewrite Hv. assert (V : v = map snd (combine coords v)).
        { clear -Hv. revert v Hv. induction coords as [|c l IH]; intros [|w v] Hv; try discriminate; [reflexivity|]. cbn. f_equal. apply IH. cbn in Hv; congruence. }
        rewrite V at 1. rewrite skipn_map, firstn_map. reflexivity.
      + intros k [x w] Hk. apply H. cbn [fst].
        assert (T : nth_error (map fst (combine coords v)) k = Some x) by (rewrite nth_error_map, Hk; reflexivity).
        replace (map fst (combine coords v)) with coords in T; auto.
        clear -Hv. revert v Hv. induction coords as [|c l IH]; intros [|w v] Hv; try discriminate; [reflexivity|]. cbn. f_equal. apply IH. cbn in Hv; congruence.
  Qed.
End Axis.

Lemma keep_incl {B} a b coords (v : list B) x : In x (keep a b coords v) -> In x v.
Proof.
  unfold keep. rewrite in_map_iff. intros ([k w] & <- & H). apply filter_In in H. destruct H as [H _]. apply in_combine_r in H. exact H.
Qed.

Theorem remove_roi_spec {A} (ds : dmaps A) r row_step col_step cfg r0 c0 :
  sc_roi cfg = Some r -> sc_step cfg = Some (row_step, col_step) -> 1 <= row_step -> 1 <= col_step ->
  wf_dmaps ds -> dm_rows ds <> [] -> dm_cols ds <> [] ->
  progression r0 row_step (dm_rows ds) -> progression c0 col_step (dm_cols ds) ->
  ((roi_r0 r - r0) mod row_step = 0 \/ roi_r0 r <= r0) -> ((roi_c0 r - c0) mod col_step = 0 \/ roi_c0 r <= c0) ->
  remove_roi_margins ds cfg = Some (mkDmaps
    (filter (in_roi (roi_r0 r) (roi_r1 r)) (dm_rows ds)) (filter (in_roi (roi_c0 r) (roi_c1 r)) (dm_cols ds))
    (crop r (dm_rows ds) (dm_cols ds) (dm_row_map ds)) (crop r (dm_rows ds) (dm_cols ds) (dm_col_map ds))
    (crop r (dm_rows ds) (dm_cols ds) (dm_score ds)) (dm_transform ds)).
Proof.
  intros Er Es Hr Hc W Nr Nc Pr Pc Ar Ac. unfold remove_roi_margins. rewrite Er, Es.
  destruct (axis_result _ _ _ (roi_r0 r) (roi_r1 r) Hr Pr Nr Ar) as (up & down & E1 & E2 & E3 & E4).
  destruct (axis_result _ _ _ (roi_c0 r) (roi_c1 r) Hc Pc Nc Ac) as (lft & rgt & F1 & F2 & F3 & F4).
  rewrite F1, F2, E1, E2. cbn [bind]. rewrite E3, F3.
  assert (C : forall m, m = dm_row_map ds \/ m = dm_col_map ds \/ m = dm_score ds ->
     slice2 up down lft rgt m = crop r (dm_rows ds) (dm_cols ds) m).
  { intros m Hm. destruct (W m Hm) as [L R]. unfold slice2, crop. rewrite E4 by auto. apply map_ext_in.
    intros row Hin. apply F4. apply keep_incl in Hin. rewrite Forall_forall in R. auto. }
  rewrite !C by auto. reflexivity.
Qed.

(** Coordinates of the cost volumes are progressions. *)
Lemma zarange_progression a b s : progression a s (zarange a b s).
Proof. unfold progression. rewrite zarange_length. reflexivity. Qed.

(** Georeferencing. *)
Lemma world_mul s v x y : same_point (world (af_mul s v) x y) (world s (fst (world v x y)) (snd (world v x y))).
Proof. unfold same_point, world, af_mul. cbn [af_a af_b af_c af_d af_e af_f fst snd]. split; ring. Qed.

Lemma adjust_world t cfg x y : same_point (world (adjust_georeferencement t cfg) x y)
  (world t ((match sc_roi cfg with Some r => inject_Z (roi_c0 r) | None => 0 end) + x * inject_Z (snd (get_step cfg)))%Q
           ((match sc_roi cfg with Some r => inject_Z (roi_r0 r) | None => 0 end) + y * inject_Z (fst (get_step cfg)))%Q).
Proof.
  unfold adjust_georeferencement. destruct (get_step cfg) as [rs cs]. cbn [fst snd].
  unfold same_point, world, af_mul, af_scale, af_translation. destruct (sc_roi cfg) as [r|]; cbn [af_a af_b af_c af_d af_e af_f fst snd]; split; ring.
Qed.

Lemma world_ext t x y x' y' : (x == x')%Q -> (y == y')%Q -> same_point (world t x y) (world t x' y').
Proof. intros Hx Hy. unfold same_point, world. cbn [fst snd]. rewrite Hx, Hy. split; reflexivity. Qed.
Lemma same_point_trans p q r : same_point p q -> same_point q r -> same_point p r.
Proof. unfold same_point. intros [A B] [C D]. rewrite A, B, C, D. split; reflexivity. Qed.

(** Filter of a progression that contains (an alignment with) the first value. *)
Lemma filter_progression_nth x0 step first lst l i x : 1 <= step -> progression x0 step l -> (first - x0) mod step = 0 -> x0 <= first ->
  nth_error (filter (in_roi first lst) l) i = Some x -> x = first + Z.of_nat i * step.
Proof.
  intros Hs P M Hle. apply Z.mod_divide in M; [|lia]. destruct M as [q Hq]. assert (0 <= q) by nia.
  destruct l as [|y l'] eqn:E; [destruct i; discriminate|]. rewrite <- E in *.
  destruct (axis_slice l x0 step first lst Hs P ltac:(congruence)) as (a & b & Ea & Eb & H1).
  { left. rewrite Hq. apply Z.mod_mul. lia. }
  rewrite (filter_slice _ l _ _ H1). set (s := py_index a (length l)). set (e := py_index b (length l)).
  intros H2. assert (Hi : nth_error (skipn s l) i = Some x).
  { clear -H2. assert (L : (i < length (firstn (e - s) (skipn s l)))%nat) by (apply nth_error_Some; congruence).
    rewrite firstn_length in L. rewrite <- (firstn_skipn (e - s) (skipn s l)). rewrite nth_error_app1; [exact H2|]. rewrite firstn_length. lia. }
  assert (Hn : nth_error l (s + i) = Some x).
  { rewrite <- (firstn_skipn s l). assert (L : (s <= length l)%nat).
    { destruct (Nat.le_gt_cases s (length l)); auto. rewrite skipn_all2 in Hi by lia. destruct i; discriminate. }
    rewrite nth_error_app2 by (rewrite firstn_length; lia). rewrite firstn_length. replace (s + i - Nat.min s (length l))%nat with i by lia. exact Hi. }
  destruct (progression_nth _ _ _ _ _ P Hn) as [-> Hlen].
  assert (Es : a = q).
  { rewrite E in Ea. cbn [roi_start] in Ea. assert (y = x0) by (rewrite E in P; destruct (progression_nth _ _ _ 0%nat y P eq_refl); lia). subst y.
    injection Ea as <-. destruct (Z.ltb_spec x0 first); [rewrite Hq; apply Z.div_mul; lia|]. nia. }
  assert (Z.of_nat s = q).
  { unfold s, py_index. destruct (Z.ltb_spec a 0); [lia|]. subst a.
    assert (Z.min q (Z.of_nat (length l)) <> Z.of_nat (length l)).
    { intros C. unfold s, py_index in Hlen. destruct (Z.ltb_spec q 0); [lia|]. rewrite C in Hlen. lia. } lia. }
  nia.
Qed.

Lemma get_coordinates_progression margin first last step : 1 <= step -> 0 <= margin ->
  exists s, get_coordinates margin first last step = zarange s (last + 1) step /\
    (first + margin - s) mod step = 0 /\ first <= s <= first + margin.
Proof.
  intros Hs Hm. unfold get_coordinates. pose proof (Z.mod_pos_bound margin step ltac:(lia)) as B.
  pose proof (Z.mod_le margin step ltac:(lia) ltac:(lia)) as L.
  destruct (Z.eqb_spec (margin mod step) 0) as [E|E]; eexists; (split; [reflexivity|]); (split; [|lia]).
  - replace (first + margin - first) with margin by ring. exact E.
  - replace (first + margin - (first + margin mod step)) with (margin - margin mod step) by ring.
    rewrite Zminus_mod, Z.mod_mod, Z.sub_diag, Z.mod_0_l by lia. reflexivity.
Qed.

(** The coordinates computed with a ROI. *)
Lemma roi_axis first before after last size x0 n step l :
  1 <= step -> 0 <= before -> 0 <= after -> 0 <= first <= last -> first < size ->
  x0 = Z.max (first - before) 0 -> x0 + Z.of_nat n = Z.min (last + after + 1) size ->
  l = get_coordinates (Z.min before first) x0 (x0 + Z.of_nat n - 1) step ->
  exists s, progression s step l /\ (first - s) mod step = 0 /\ s <= first /\ In first l /\
    forall x, In x (filter (in_roi first last) l) <-> first <= x <= last /\ x < size /\ (x - first) mod step = 0.
Proof.
  intros Hs Hb Ha Hf Hw H0 Hn ->.
  destruct (get_coordinates_progression (Z.min before first) x0 (x0 + Z.of_nat n - 1) step Hs ltac:(lia)) as (s & E & M & B).
  replace (x0 + Z.min before first) with first in M, B by lia. rewrite E.
  exists s. split; [apply zarange_progression|]. split; [exact M|]. split; [lia|].
  assert (A : forall x, first <= x -> ((x - s) mod step = 0 <-> (x - first) mod step = 0)).
  { intros x Hx. apply Z.mod_divide in M; [|lia]. destruct M as [q Hq].
    replace (x - s) with (x - first + q * step) by lia. rewrite Z.mod_add by lia. reflexivity. }
  assert (F : forall x, In x (zarange s (x0 + Z.of_nat n - 1 + 1) step) <-> s <= x < x0 + Z.of_nat n /\ (x - s) mod step = 0).
  { intros x. rewrite zarange_In by lia. replace (x0 + Z.of_nat n - 1 + 1) with (x0 + Z.of_nat n) by ring. reflexivity. }
  split; [apply F; split; [lia|exact M]|].
  intros x. rewrite filter_In, F. unfold in_roi. rewrite andb_true_iff, !Z.leb_le. split.
  - intros [[Hr Hm] Hi]. split; [lia|]. split; [lia|]. apply A; [lia|auto].
  - intros (Hi & Hz & Hm). split; [split; [lia|]|lia]. apply A; [lia|auto].
Qed.
