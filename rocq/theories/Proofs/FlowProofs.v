(** Proofs about the optical flow refinement. *)
From Coq Require Import ZArith QArith Qabs Qround List Bool Lia Arith.
From Verif Require Import Base.PyList Base.Arr Base.ZRange Model.CommonModel Model.DichotomyModel Model.OpticalFlowModel Spec.OpticalFlowSpec Spec.DichotomySpec
  Proofs.WtaProofs Proofs.WtaTheorems Proofs.ChunkProofs Proofs.DichotomyProofs.
Import ListNotations.
Open Scope Z_scope.

(** *** Lists *)
Lemma set_nth_length {X} (l : list X) i x : length (set_nth l i x) = length l.
Proof. revert i. induction l as [|y l IH]; intros [|i]; simpl; auto. Qed.
Lemma set_nth_same {X} (l : list X) i x : (i < length l)%nat -> nth_error (set_nth l i x) i = Some x.
Proof. revert i. induction l as [|y l IH]; intros [|i] H; simpl in *; try lia; auto. apply IH. lia. Qed.
Lemma set_nth_other {X} (l : list X) i j x : i <> j -> nth_error (set_nth l i x) j = nth_error l j.
Proof. revert i j. induction l as [|y l IH]; intros [|i] [|j] H; simpl; auto; try lia. Qed.

Lemma pixels_length {X} rows cols (f : Z -> Z -> X) : length (pixels rows cols f) = (length rows * length cols)%nat.
Proof. unfold pixels. induction rows as [|r rows IH]; [reflexivity|]. simpl. rewrite app_length, map_length, IH. reflexivity. Qed.
Lemma flat_map_nth {X Y} (l : list X) (f : X -> list Y) m i j x : (forall x, In x l -> length (f x) = m) -> nth_error l i = Some x -> (j < m)%nat ->
  nth_error (flat_map f l) (i * m + j) = nth_error (f x) j.
Proof.
  revert i. induction l as [|y l IH]; intros [|i] L Hx Hj; simpl in Hx; try discriminate.
  - injection Hx as ->. simpl. apply nth_error_app1. rewrite L by (now left). auto.
  - simpl flat_map. rewrite nth_error_app2; rewrite L by (now left); [|lia]. replace (S i * m + j - m)%nat with (i * m + j)%nat by lia. apply IH; auto.
    intros z Hz. apply L. now right.
Qed.
Lemma flat_map_len {X Y} (l : list X) (f : X -> list Y) m : (forall x, In x l -> length (f x) = m) -> length (flat_map f l) = (length l * m)%nat.
Proof.
  induction l as [|y l IH]; intros L; [reflexivity|]. simpl. rewrite app_length, L, IH; [lia| |now left]. intros. apply L. now right.
Qed.
Lemma pixels_nth {X} rows cols (f : Z -> Z -> X) i j r c : nth_error rows i = Some r -> nth_error cols j = Some c ->
  nth_error (pixels rows cols f) (i * length cols + j) = Some (f r c).
Proof.
  intros Hr Hc. assert (Hj : (j < length cols)%nat) by (apply nth_error_Some; congruence).
  unfold pixels. rewrite (flat_map_nth rows _ (length cols) i j r); auto; [|intros; apply map_length]. rewrite nth_error_map, Hc. reflexivity.
Qed.
Lemma index_split n m k : (k < n * m)%nat -> exists i j, k = (i * m + j)%nat /\ (i < n)%nat /\ (j < m)%nat.
Proof.
  intros H. assert (m <> 0)%nat by lia. exists (k / m)%nat, (k mod m)%nat. split; [|split].
  - rewrite (Nat.div_mod_eq k m) at 1. lia.
  - apply Nat.div_lt_upper_bound; lia.
  - apply Nat.mod_upper_bound. auto.
Qed.
Lemma nth_error_some {X} (l : list X) i : (i < length l)%nat -> exists x, nth_error l i = Some x.
Proof. intros H. destruct (nth_error l i) eqn:E; eauto. apply nth_error_None in E. lia. Qed.

(** *** Slices by labels *)
Lemma searchsorted_right_ge l v x : increasing (x :: l) -> v < x -> searchsorted_right l v = 0%nat.
Proof.
  intros I H. destruct l as [|y l]; [reflexivity|]. simpl. pose proof (I 0%nat 1%nat x y ltac:(lia) eq_refl eq_refl). destruct (Z.leb_spec y v); lia.
Qed.
Lemma searchsorted_ge l v x : increasing (x :: l) -> v <= x -> searchsorted l v = 0%nat.
Proof.
  intros I H. destruct l as [|y l]; [reflexivity|]. simpl. pose proof (I 0%nat 1%nat x y ltac:(lia) eq_refl eq_refl). destruct (Z.ltb_spec y v); lia.
Qed.
Lemma increasing_tail x l : increasing (x :: l) -> increasing l.
Proof. intros I i j a b Hij Ha Hb. apply (I (S i) (S j)); auto. lia. Qed.
Lemma increasing_head x l y : increasing (x :: l) -> In y l -> x < y.
Proof. intros I H. apply In_nth_error in H. destruct H as [k Hk]. apply (I 0%nat (S k) x y); auto. lia. Qed.

Lemma label_slice_spec {X} coords : forall (data : list X) a b, increasing coords -> length data = length coords -> a <= b + 1 ->
  label_slice coords data a b = slice (searchsorted coords a) (searchsorted_right coords b) data.
Proof.
  induction coords as [|x coords IH]; intros [|d data] a b I L H; simpl in L; try discriminate.
  - unfold label_slice, slice. reflexivity.
  - unfold label_slice. cbn [combine List.filter fst]. simpl searchsorted. simpl searchsorted_right.
    assert (IT := increasing_tail _ _ I).
    fold (label_slice coords data a b). unfold label_slice in IH.
    destruct (Z.leb_spec a x); destruct (Z.leb_spec x b); cbn [andb]; destruct (Z.ltb_spec x a); try lia.
    + cbn [map snd]. rewrite IH by auto. rewrite (searchsorted_ge _ _ _ I) by lia. unfold slice. rewrite !Nat.sub_0_r. reflexivity.
    + rewrite IH by auto. rewrite (searchsorted_right_ge _ _ _ I) by lia. unfold slice. rewrite Nat.sub_0_l. rewrite !firstn_O. reflexivity.
    + rewrite IH by auto. unfold slice. cbn [skipn]. rewrite Nat.sub_succ. reflexivity.
Qed.

Lemma progression_length first step n : length (progression first step n) = n.
Proof. unfold progression. rewrite map_length, seq_length. reflexivity. Qed.
Lemma progression_nth first step n k : (k < n)%nat -> nth_error (progression first step n) k = Some (first + Z.of_nat k * step).
Proof. intros H. unfold progression. rewrite nth_error_map, (nth_error_nth' _ 0%nat) by (rewrite seq_length; auto). rewrite seq_nth by auto. reflexivity. Qed.
Lemma progression_increasing first step n : 0 < step -> increasing (progression first step n).
Proof.
  intros Hs i j x y Hij Hx Hy. assert (Hj : (j < n)%nat) by (rewrite <- (progression_length first step n); apply nth_error_Some; congruence).
  rewrite progression_nth in Hx by lia. rewrite progression_nth in Hy by lia. injection Hx as <-. injection Hy as <-. nia.
Qed.
Lemma progression_succ first step n : progression first step (S n) = first :: progression (first + step) step n.
Proof. unfold progression. cbn [seq map]. f_equal; [lia|]. rewrite <- seq_shift, map_map. apply map_ext. intros. lia. Qed.
Lemma searchsorted_progression step : 0 < step -> forall n first v p, (p <= n)%nat -> (p = 0%nat \/ first + (Z.of_nat p - 1) * step < v) -> (p = n \/ v <= first + Z.of_nat p * step) ->
  searchsorted (progression first step n) v = p.
Proof.
  intros Hs. induction n as [|n IH]; intros first v p Hp H1 H2.
  - simpl. lia.
  - rewrite progression_succ. simpl. destruct (Z.ltb_spec first v).
    + destruct p as [|p]; [nia|]. f_equal. apply IH; [lia| |].
      * destruct p as [|p]; [now left|right]. destruct H1 as [|H1]; [lia|]. nia.
      * destruct H2 as [H2|H2]; [left; lia|right; nia].
    + destruct p as [|p]; [reflexivity|]. nia.
Qed.
Lemma searchsorted_right_progression step : 0 < step -> forall n first v p, (p <= n)%nat -> (p = 0%nat \/ first + (Z.of_nat p - 1) * step <= v) -> (p = n \/ v < first + Z.of_nat p * step) ->
  searchsorted_right (progression first step n) v = p.
Proof.
  intros Hs. induction n as [|n IH]; intros first v p Hp H1 H2.
  - simpl. lia.
  - rewrite progression_succ. simpl. destruct (Z.leb_spec first v).
    + destruct p as [|p]; [nia|]. f_equal. apply IH; [lia| |].
      * destruct p as [|p]; [now left|right]. destruct H1 as [|H1]; [lia|]. nia.
      * destruct H2 as [H2|H2]; [left; lia|right; nia].
    + destruct p as [|p]; [reflexivity|]. nia.
Qed.
Lemma progression_zarange first n : zarange first (first + Z.of_nat n) 1 = progression first 1 n.
Proof. unfold zarange, progression. rewrite Z.div_1_r. f_equal. f_equal. lia. Qed.

(** The computable part of an axis. *)
Lemma extrema_progression first step n h b : 1 <= step -> border h step b -> (2 * b < n)%nat ->
  extrema (progression first step n) (Z.of_nat h) = Some (first + Z.of_nat b * step, first + Z.of_nat (n - 1 - b) * step).
Proof.
  intros Hs [B1 B2] Hn. unfold extrema.
  assert (E : exists l, progression first step n = first :: l) by (destruct n; [lia|]; rewrite progression_succ; eauto). destruct E as [l E].
  assert (EL : last (progression first step n) first = first + Z.of_nat (n - 1) * step).
  { assert (N : nth_error (progression first step n) (n - 1) = Some (first + Z.of_nat (n - 1) * step)) by (apply progression_nth; lia).
    apply nth_error_split in N. destruct N as (l1 & l2 & E2 & L1). assert (length l2 = 0%nat).
    { assert (LL := progression_length first step n). rewrite E2, app_length in LL. simpl in LL. lia. }
    destruct l2; [|discriminate]. rewrite E2. apply last_last. }
  rewrite E at 1. cbv beta iota.
  assert (S1 : searchsorted (progression first step n) (first + Z.of_nat h) = b) by (apply searchsorted_progression; nia).
  unfold nearest_up. rewrite S1, progression_nth by lia. cbn [bind].
  unfold nearest_down. rewrite EL.
  assert (S2 : searchsorted_right (progression first step n) (first + Z.of_nat (n - 1) * step - Z.of_nat h) = (n - b)%nat) by (apply searchsorted_right_progression; nia).
  rewrite S2. replace (n - b)%nat with (S (n - 1 - b)) by lia. rewrite progression_nth by lia. reflexivity.
Qed.
Lemma label_slice_progression {X} first step n (data : list X) p q : 1 <= step -> length data = n -> (p <= q)%nat -> (q < n)%nat ->
  label_slice (progression first step n) data (first + Z.of_nat p * step) (first + Z.of_nat q * step) = slice p (S q) data.
Proof.
  intros Hs L Hp Hq. rewrite label_slice_spec; [|apply progression_increasing; lia|rewrite progression_length; auto|nia]. f_equal.
  - apply searchsorted_progression; nia.
  - apply searchsorted_right_progression; nia.
Qed.
Lemma slice_progression first step n p q : (q <= n)%nat -> (p <= q)%nat -> slice p q (progression first step n) = progression (first + Z.of_nat p * step) step (q - p).
Proof.
  intros Hq Hp. apply list_eq_nth_error. intros i. rewrite slice_nth. destruct (Nat.ltb_spec (p + i) q).
  - rewrite !progression_nth by lia. f_equal. lia.
  - symmetry. apply nth_error_None. rewrite progression_length. lia.
Qed.

(** *** One iteration *)
Section Iteration.
  Context {A : Type} (nan : A).
  Variable lstsq : list (list A) -> list (list A) -> option (num * num).
  Variable resample : list (list A) -> num -> num -> list (list A).
  Variable junk : nat -> list (list A).
  Variable invalid : num.

  Definition small (m : num * num) : bool := nlt1 (snd m) && nlt1 (fst m).
  (** One pixel, n iterations. *)
  Fixpoint refine_one (n : nat) (l r : list (list A)) (drow dcol : num) : num * num :=
    match n with
    | O => (drow, dcol)
    | S k =>
        let m := lucas_kanade lstsq invalid l r in
        if small m then refine_one k l (resample r (fst m) (snd m)) (nsub drow (fst m)) (nsub dcol (snd m))
        else (nsub drow (cancel (fst m)), nsub dcol (cancel (snd m)))
    end.

  Section Step.
    Variables (left right : list (list (list A))) (N : nat).
    Hypothesis LL : length left = N.
    Hypothesis LR : length right = N.
    Definition motion_at (idx : nat) : num * num :=
      match nth_error left idx, nth_error right idx with Some l, Some r => lucas_kanade lstsq invalid l r | _, _ => (None, None) end.
    Definition dec_row (idx : nat) : num := if small (motion_at idx) then fst (motion_at idx) else cancel (fst (motion_at idx)).
    Definition dec_col (idx : nat) : num := if small (motion_at idx) then snd (motion_at idx) else cancel (snd (motion_at idx)).

    Lemma fold_flow todo : forall dr dc t, length dr = N -> length dc = N -> (forall idx, In idx todo -> (idx < N)%nat) -> NoDup todo ->
      exists dr' dc', fold_left (flow_step lstsq invalid left right) todo (Some (dr, dc, t)) = Some (dr', dc', t ++ List.filter (fun idx => small (motion_at idx)) todo) /\
        length dr' = N /\ length dc' = N /\
        (forall idx, In idx todo -> nth_error dr' idx = Some (dec_row idx) /\ nth_error dc' idx = Some (dec_col idx)) /\
        (forall idx, ~ In idx todo -> nth_error dr' idx = nth_error dr idx /\ nth_error dc' idx = nth_error dc idx).
    Proof.
      induction todo as [|k todo IH]; intros dr dc t H1 H2 Hlt ND.
      - exists dr, dc. simpl. rewrite app_nil_r. split; [reflexivity|]. split; [auto|]. split; [auto|]. split; [intros ? []|auto].
      - assert (Hk : (k < N)%nat) by (apply Hlt; now left).
        destruct (nth_error_some left k) as [l El]; [lia|]. destruct (nth_error_some right k) as [r Er]; [lia|].
        assert (Em : motion_at k = lucas_kanade lstsq invalid l r) by (unfold motion_at; rewrite El, Er; auto).
        inversion ND as [|? ? Nk ND']; subst.
        cbn [fold_left]. unfold flow_step at 2. rewrite El, Er. rewrite <- Em. destruct (motion_at k) as [mr mc] eqn:Emm.
        assert (G : forall t', (if nlt1 mc && nlt1 mr then Some (set_nth dr k mr, set_nth dc k mc, t ++ [k])
                   else Some (set_nth dr k (cancel mr), set_nth dc k (cancel mc), t)) = Some (set_nth dr k (dec_row k), set_nth dc k (dec_col k), t') <->
                   t' = t ++ (if small (motion_at k) then [k] else [])).
        { intros t'. unfold dec_row, dec_col. rewrite Emm. unfold small. simpl. destruct (nlt1 mc && nlt1 mr); split; intros Q; try congruence.
          - injection Q as Q. rewrite app_nil_r. congruence.
          - subst. rewrite app_nil_r. reflexivity. }
        destruct (IH (set_nth dr k (dec_row k)) (set_nth dc k (dec_col k)) (t ++ (if small (motion_at k) then [k] else []))) as (dr' & dc' & E & L1 & L2 & P1 & P2);
          [rewrite set_nth_length; auto|rewrite set_nth_length; auto|intros; apply Hlt; now right|auto|].
        exists dr', dc'. rewrite (proj2 (G _) eq_refl), E. split.
        { f_equal. f_equal. cbn [List.filter]. destruct (small (motion_at k)); [rewrite <- app_assoc; reflexivity|now rewrite app_nil_r]. }
        split; [auto|]. split; [auto|]. split.
        + intros idx [<-|Hi]; [|now apply P1]. destruct (P2 k Nk) as [Q1 Q2]. rewrite Q1, Q2. rewrite !set_nth_same by lia. auto.
        + intros idx Hn. destruct (P2 idx) as [Q1 Q2]; [intros Hi; apply Hn; now right|]. rewrite Q1, Q2.
          rewrite !set_nth_other by (intros <-; apply Hn; now left). auto.
    Qed.
  End Step.

  Lemma repeat_nth {X} (x : X) n k : (k < n)%nat -> nth_error (repeat x n) k = Some x.
  Proof. intros H. rewrite (nth_error_nth' _ x) by (rewrite repeat_length; auto). now rewrite nth_repeat. Qed.

  Lemma optical_flow_spec left right todo N : length left = N -> length right = N -> (forall idx, In idx todo -> (idx < N)%nat) -> NoDup todo ->
    exists dr dc, optical_flow lstsq invalid left right todo = Some (dr, dc, List.filter (fun idx => small (motion_at left right idx)) todo) /\ length dr = N /\ length dc = N /\
      (forall idx, In idx todo -> nth_error dr idx = Some (dec_row left right idx) /\ nth_error dc idx = Some (dec_col left right idx)) /\
      (forall idx, (idx < N)%nat -> ~ In idx todo -> nth_error dr idx = Some (Some 0%Q) /\ nth_error dc idx = Some (Some 0%Q)).
  Proof.
    intros LL LR Hlt ND. unfold optical_flow.
    destruct (fold_flow left right N LL LR todo (repeat (Some 0%Q) (length left)) (repeat (Some 0%Q) (length left)) []) as (dr & dc & E & L1 & L2 & P1 & P2);
      [rewrite repeat_length; auto|rewrite repeat_length; auto|auto|auto|].
    exists dr, dc. split; [exact E|]. split; [auto|]. split; [auto|]. split; [auto|].
    intros idx Hi Hn. destruct (P2 idx Hn) as [Q1 Q2]. rewrite Q1, Q2. rewrite !repeat_nth by lia. auto.
  Qed.

  Lemma warped_spec right drow dcol N todo : length right = N -> length drow = N -> length dcol = N -> (forall idx, In idx todo -> (idx < N)%nat) -> NoDup todo ->
    exists new, warped_img resample junk right drow dcol todo = Some new /\ length new = N /\
      forall idx r a b, In idx todo -> nth_error right idx = Some r -> nth_error drow idx = Some a -> nth_error dcol idx = Some b -> nth_error new idx = Some (resample r a b).
  Proof.
    intros LR L1 L2 Hlt ND. unfold warped_img.
    assert (G : forall todo new, length new = N -> (forall idx, In idx todo -> (idx < N)%nat) -> NoDup todo ->
      exists new', fold_left (warp_step resample right drow dcol) todo (Some new) = Some new' /\ length new' = N /\
      (forall idx r a b, In idx todo -> nth_error right idx = Some r -> nth_error drow idx = Some a -> nth_error dcol idx = Some b -> nth_error new' idx = Some (resample r a b)) /\
      (forall idx, ~ In idx todo -> nth_error new' idx = nth_error new idx)).
    { clear todo Hlt ND. induction todo as [|k todo IH]; intros new Ln Hlt ND.
      - exists new. split; [reflexivity|]. split; [auto|]. split; [intros ? ? ? ? []|auto].
      - assert (Hk : (k < N)%nat) by (apply Hlt; now left). inversion ND as [|? ? Nk ND']; subst.
        destruct (nth_error_some right k) as [r Er]; [lia|]. destruct (nth_error_some drow k) as [a Ea]; [lia|]. destruct (nth_error_some dcol k) as [b Eb]; [lia|].
        cbn [fold_left]. unfold warp_step at 2. rewrite Er, Ea, Eb.
        destruct (IH (set_nth new k (resample r a b))) as (new' & E & L' & P1 & P2); [rewrite set_nth_length; auto|intros; apply Hlt; now right|auto|].
        exists new'. rewrite E. split; [reflexivity|]. split; [auto|]. split.
        + intros idx r' a' b' [<-|Hi] Hr Ha Hb; [|eapply P1; eauto]. rewrite (P2 k Nk), set_nth_same by lia. congruence.
        + intros idx Hn. rewrite P2 by (intros Hi; apply Hn; now right). apply set_nth_other. intros <-. apply Hn. now left. }
    destruct (G todo (map junk (seq 0 (length right)))) as (new & E & L & P & _); [rewrite map_length, seq_length; auto|auto|auto|].
    exists new. auto.
  Qed.

  Lemma sub_arrays_spec a : forall b, length a = length b -> exists c, sub_arrays a b = Some c /\ length c = length a /\
    forall k x y, nth_error a k = Some x -> nth_error b k = Some y -> nth_error c k = Some (nsub x y).
  Proof.
    induction a as [|x a IH]; intros [|y b] L; simpl in L; try discriminate.
    - exists []. split; [reflexivity|]. split; [reflexivity|]. intros [|k]; discriminate.
    - destruct (IH b) as (c & E & Lc & P); [lia|]. exists (nsub x y :: c). unfold sub_arrays in *. cbn [map2_opt]. rewrite E. split; [reflexivity|]. split; [simpl; lia|].
      intros [|k] u v Hu Hv; simpl in *; [congruence|eauto].
  Qed.

  Lemma nsub_zero x : nsub x (Some 0%Q) = x.
  Proof. destruct x as [[a b]|]; [|reflexivity]. unfold nsub, Qminus, Qplus, Qopp. simpl. f_equal. f_equal; [ring|apply Pos.mul_1_r]. Qed.

  Lemma iterate_spec n : forall left right todo drow dcol N, length left = N -> length right = N -> length drow = N -> length dcol = N ->
    (forall idx, In idx todo -> (idx < N)%nat) -> NoDup todo ->
    exists drow' dcol', iterate lstsq resample junk n invalid left right todo drow dcol = Some (drow', dcol') /\ length drow' = N /\ length dcol' = N /\
      forall idx l r a b, nth_error left idx = Some l -> nth_error right idx = Some r -> nth_error drow idx = Some a -> nth_error dcol idx = Some b ->
        (In idx todo -> nth_error drow' idx = Some (fst (refine_one n l r a b)) /\ nth_error dcol' idx = Some (snd (refine_one n l r a b))) /\
        (~ In idx todo -> nth_error drow' idx = Some a /\ nth_error dcol' idx = Some b).
  Proof.
    induction n as [|n IH]; intros left right todo drow dcol N LL LR L1 L2 Hlt ND.
    - exists drow, dcol. split; [reflexivity|]. split; [auto|]. split; [auto|]. intros. simpl. auto.
    - cbn [iterate]. destruct (optical_flow_spec left right todo N LL LR Hlt ND) as (dr & dc & E & Ld1 & Ld2 & P1 & P2). rewrite E. cbn [bind].
      set (todo' := List.filter (fun idx => small (motion_at left right idx)) todo).
      assert (Hlt' : forall idx, In idx todo' -> (idx < N)%nat) by (intros idx Hi; apply filter_In in Hi; apply Hlt, Hi).
      assert (ND' : NoDup todo') by (apply NoDup_filter; auto).
      destruct (warped_spec right dr dc N todo' LR Ld1 Ld2 Hlt' ND') as (right' & Ew & Lr' & Pw). rewrite Ew. cbn [bind].
      destruct (sub_arrays_spec dcol dc) as (dcol1 & Ec & Lc & Pc); [lia|]. rewrite Ec. cbn [bind].
      destruct (sub_arrays_spec drow dr) as (drow1 & Er & Lr & Pr); [lia|]. rewrite Er. cbn [bind].
      destruct (IH left right' todo' drow1 dcol1 N LL Lr' ltac:(lia) ltac:(lia) Hlt' ND') as (drow2 & dcol2 & Ei & Lo1 & Lo2 & Pi).
      exists drow2, dcol2. split; [exact Ei|]. split; [auto|]. split; [auto|]. intros idx l r a b Hl Hr Ha Hb.
      assert (Hi : (idx < N)%nat) by (rewrite <- LL; apply nth_error_Some; congruence).
      destruct (nth_error_some right' idx) as [r' Hr']; [lia|].
      assert (Em : motion_at left right idx = lucas_kanade lstsq invalid l r) by (unfold motion_at; rewrite Hl, Hr; auto).
      split; intros Hin.
      + destruct (P1 idx Hin) as [Q1 Q2]. unfold dec_row, dec_col in Q1, Q2. rewrite Em in Q1, Q2. cbn [refine_one].
        destruct (small (lucas_kanade lstsq invalid l r)) eqn:Es.
        * assert (Hin' : In idx todo') by (apply filter_In; rewrite Em; auto).
          destruct (Pi idx l (resample r (fst (lucas_kanade lstsq invalid l r)) (snd (lucas_kanade lstsq invalid l r))) (nsub a (fst (lucas_kanade lstsq invalid l r))) (nsub b (snd (lucas_kanade lstsq invalid l r))) Hl) as [R _];
            [apply Pw; auto|apply Pr; auto|apply Pc; auto|]. apply R. exact Hin'.
        * assert (Hin' : ~ In idx todo') by (intros Hf; apply filter_In in Hf; rewrite Em in Hf; destruct Hf; congruence).
          destruct (Pi idx l r' (nsub a (cancel (fst (lucas_kanade lstsq invalid l r)))) (nsub b (cancel (snd (lucas_kanade lstsq invalid l r)))) Hl Hr') as [_ R]; [apply Pr; auto|apply Pc; auto|].
          apply R. exact Hin'.
      + destruct (P2 idx Hi Hin) as [Q1 Q2].
        assert (Hin' : ~ In idx todo') by (intros Hf; apply filter_In in Hf; tauto).
        destruct (Pi idx l r' (nsub a (Some 0%Q)) (nsub b (Some 0%Q)) Hl Hr') as [_ R]; [apply Pr; auto|apply Pc; auto|]. rewrite !nsub_zero in R. apply R. exact Hin'.
  Qed.
End Iteration.
